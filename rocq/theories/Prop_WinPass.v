(** C85-C90: the Windows ATA and SCSI pass-through drivers (plat_win/ata_driver.go, plat_win/scsi_driver.go). *)
From Verif Require Import Base M_Buffer M_Ata M_TcgDevice M_DriveHandle M_Cdb M_SgDriver M_WinPass Spec_Sg Spec_WinPass P_Discovery P_DriveHandle P_Sg P_WinPass.
From Verif Require Import Prop_Sg.

Definition win_ok (a : wans) : Prop := wa_err a = 0.
Lemma win_ok_iff a : win_ok a <-> (wa_err a =? 0) = true. Proof. symmetry. apply N.eqb_eq. Qed.
Lemma win_fail_iff a : ~ win_ok a <-> (wa_err a =? 0) = false. Proof. rewrite win_ok_iff. destruct (wa_err a =? 0); split; congruence. Qed.

(** ---- C85: what the ATA driver asks Windows for ---- *)
(** The 48-byte request [b] asks for exactly the command in [t], with [len] bytes in direction [rw]; never as a DMA command. *)
Definition ata_request (rw : bool) (t : tf) (len : N) (secs : Z) (b : bytes) : Prop :=
  let q := apt_decode b in
  ap_length q = 48
  /\ (forall k, N.testbit (ap_flags q) k = true <->
        (k = flag_data_in /\ rw = false) \/ (k = flag_data_out /\ rw = true) \/ (k = flag_48bit /\ tf_is_lba48 t = true))
  /\ ap_transfer q = len mod 2 ^ 32 /\ ap_timeout q = Z.to_N (secs mod 2 ^ 32)
  /\ ap_features q = g_feat (t_lob t) /\ ap_count q = g_nsect (t_lob t) /\ ap_lba q = low_lba (t_lob t)
  /\ ap_device q = t_dev t /\ ap_command q = t_command t
  /\ (tf_is_lba48 t = true ->
      ap_hob_features q = g_feat (t_hob t) /\ ap_hob_count q = g_nsect (t_hob t) /\ ap_hob_lba q = low_lba (t_hob t)).

Lemma flags_spec rw e k : N.testbit (ata_flags rw e) k = true <->
  (k = flag_data_in /\ rw = false) \/ (k = flag_data_out /\ rw = true) \/ (k = flag_48bit /\ e = true).
Proof.
  unfold flag_data_in, flag_data_out, flag_48bit.
  assert (X : k = 1 \/ k = 2 \/ k = 3 \/ (k <> 1 /\ k <> 2 /\ k <> 3)) by lia.
  destruct X as [->|[->|[->|(A & B & C)]]]; [destruct rw, e; cbn; split; intros Q; try discriminate Q; try tauto; try (left; tauto); try (right; left; tauto); try (right; right; tauto); try reflexivity; exfalso; intuition discriminate..|].
  split; [|intuition congruence]. intros H. exfalso.
  assert (F : ata_flags rw e = (if rw then 4 else 2) + (if e then 8 else 0)) by (destruct rw, e; reflexivity).
  assert (U : ata_flags rw e < 16) by (rewrite F; destruct rw, e; lia).
  destruct (N.ltb_spec k 4) as [K|K].
  - assert (k = 0) as -> by lia. revert H. rewrite F. destruct rw, e; cbn; discriminate.
  - rewrite (N.bits_above_log2 _ k) in H; [discriminate|]. apply N.lt_le_trans with 4; [|exact K]. apply N.log2_lt_pow2; [rewrite F; destruct rw, e; lia|exact U].
Qed.

Lemma ata_request_of rw t len secs ptr old : wf_tf t -> List.length old = 48%nat ->
  ata_request rw t len secs (ata_params rw t len secs ptr old).
Proof.
  intros (Hdev & Hcmd & _) Ho.
  destruct (ata_header rw t len secs ptr old Ho) as (HL & H0 & H2 & _ & H8 & H12 & _ & _ & H32 & H40).
  set (p := ata_params rw t len secs ptr old) in *. unfold ata_request, apt_decode. cbv zeta.
  cbn [ap_length ap_flags ap_transfer ap_timeout ap_features ap_count ap_lba ap_device ap_command ap_hob_features ap_hob_count ap_hob_lba].
  unfold field, reg. rewrite H0, H2, H8, H12, !le_val_bytes.
  assert (R40 : forall i, (i < 8)%nat -> nth (40 + i) p 0 = nth i (slice 40 8 p) 0) by (intros; now apply nth_slice).
  assert (R32 : forall i, (i < 8)%nat -> nth (32 + i) p 0 = nth i (slice 32 8 p) 0) by (intros; now apply nth_slice).
  rewrite H40 in R40. rewrite H32 in R32.
  split; [reflexivity|]. split.
  { intros k. rewrite N.mod_small by (unfold ata_flags, ternary; destruct rw, (negb (t_lba48 t =? 0)); reflexivity). apply flags_spec. }
  split; [change (256 ^ N.of_nat 4) with (2 ^ 32); apply N.mod_mod; discriminate|].
  split.
  { unfold to_uint32. apply N.mod_small. change (256 ^ N.of_nat 4) with (2 ^ 32). pose proof (Z.mod_pos_bound secs (2 ^ 32) ltac:(lia)) as B.
    change (2 ^ 32) with (Z.to_N (2 ^ 32)%Z). apply Z2N.inj_lt; lia. }
  pose proof (R40 0%nat ltac:(lia)) as r0. pose proof (R40 1%nat ltac:(lia)) as r1. pose proof (R40 2%nat ltac:(lia)) as r2.
  pose proof (R40 3%nat ltac:(lia)) as r3. pose proof (R40 4%nat ltac:(lia)) as r4. pose proof (R40 5%nat ltac:(lia)) as r5.
  pose proof (R40 6%nat ltac:(lia)) as r6. cbn [Nat.add nth] in r0, r1, r2, r3, r4, r5, r6.
  split; [exact r0|]. split; [exact r1|]. split; [rewrite r2, r3, r4; reflexivity|]. split; [exact r5|].
  split; [rewrite r6; now apply N.mod_small|]. unfold tf_is_lba48. intros E. rewrite E in R32. clear r0 r1 r2 r3 r4 r5 r6.
  pose proof (R32 0%nat ltac:(lia)) as r0. pose proof (R32 1%nat ltac:(lia)) as r1. pose proof (R32 2%nat ltac:(lia)) as r2.
  pose proof (R32 3%nat ltac:(lia)) as r3. pose proof (R32 4%nat ltac:(lia)) as r4. cbn [Nat.add nth] in r0, r1, r2, r3, r4.
  split; [exact r0|]. split; [exact r1|]. rewrite r2, r3, r4. reflexivity.
Qed.

Lemma ptr64 p : p < 2 ^ 64 -> le_val (le_bytes 8 p) = p.
Proof. intros H. rewrite le_val_bytes. now apply N.mod_small. Qed.

Theorem C85_ata_requests : forall S h hd rw dma t data addr baddr secs h' r,
  wf_tf t -> addr < 2 ^ 64 -> baddr < 2 ^ 64 -> data <> [] -> win_ata S h hd rw dma t data addr baddr secs = (h', r) ->
  exists c1 rest, h' = h ++ WIo c1 :: rest
  (* first a direct request, over the caller's memory if it is 512-byte aligned and over a bounce buffer otherwise *)
  /\ wc_handle c1 = hd /\ wc_code c1 = 0x4d030 /\ blen (wc_in c1) = 48 /\ wc_outlen c1 = 48
  /\ ata_request rw t (blen data) secs (wc_in c1)
  /\ ap_buffer (apt_decode (wc_in c1)) = (if addr mod 512 =? 0 then addr else baddr)
  /\ wc_target c1 = (if addr mod 512 =? 0 then TCaller else TBounce) /\ List.length (wc_mem c1) = List.length data
  /\ (tf_is_lba48 t = false -> slice 32 8 (wc_in c1) = zeros 8)
  (* then, exactly if that failed, one buffered request with the data behind its header *)
  /\ let a1 := s_io S (h ++ [WIo c1]) in
     (win_ok a1 -> rest = [])
     /\ (~ win_ok a1 -> exists c2 p1, rest = [WIo c2]
        /\ wc_handle c2 = hd /\ wc_code c2 = 0x4d02c /\ blen (wc_in c2) = 48 + blen data /\ wc_outlen c2 = 48 + blen data
        /\ wc_target c2 = TNone /\ ata_request rw t (blen data) secs (firstn 48 (wc_in c2)) /\ ap_buffer (apt_decode (wc_in c2)) = 48
        (* whose remaining header bytes are what the failed request left behind *)
        /\ delivered (wc_in c1) (wa_out a1) p1
        /\ slice 4 4 (wc_in c2) = slice 4 4 p1 /\ slice 16 8 (wc_in c2) = slice 16 8 p1
        /\ (tf_is_lba48 t = false -> slice 32 8 (wc_in c2) = slice 32 8 p1)).
Proof.
  intros S h hd rw dma t data addr baddr secs h' r Hw Ha Hb Hd H. assert (Hc : t_command t < 256) by apply Hw.
  rewrite win_ata_closed in H by assumption. cbv zeta in H.
  set (c1 := ata_c1 hd rw t data addr baddr secs) in *. set (a1 := s_io S (h ++ [WIo c1])) in *.
  set (p1 := fill (wc_in c1) (wa_out a1)) in *. set (c2 := ata_c2 hd rw t data addr secs p1 a1) in *.
  assert (Z48 : List.length (zeros 48) = 48%nat) by apply repeat_length.
  set (ptr := if addr mod 512 =? 0 then addr else baddr).
  assert (Hp : ptr < 2 ^ 64) by (unfold ptr; destruct (addr mod 512 =? 0); assumption).
  assert (I1 : wc_in c1 = ata_params rw t (blen data) secs ptr (zeros 48)) by reflexivity.
  assert (R1 : ata_request rw t (blen data) secs (wc_in c1)) by (rewrite I1; now apply ata_request_of).
  destruct (ata_header rw t (blen data) secs ptr (zeros 48) Z48) as (HL1 & _ & _ & _ & _ & _ & _ & P24 & P32 & _).
  rewrite <- I1 in HL1, P24, P32.
  assert (Lp : List.length p1 = 48%nat) by (unfold p1; now rewrite fill_length).
  exists c1. assert (X : exists rest, h' = h ++ WIo c1 :: rest /\ (win_ok a1 -> rest = []) /\ (~ win_ok a1 -> rest = [WIo c2])).
  { destruct (wa_err a1 =? 0) eqn:E; inversion H.
    - exists []. rewrite win_fail_iff. repeat split; congruence.
    - exists [WIo c2]. rewrite win_ok_iff. repeat split; congruence. }
  destruct X as (rest & -> & X1 & X2). exists rest. split; [reflexivity|]. split; [reflexivity|]. split; [reflexivity|].
  split; [unfold blen; rewrite HL1; reflexivity|]. split; [reflexivity|]. split; [exact R1|].
  split; [unfold apt_decode; cbn [ap_buffer]; unfold field; rewrite P24; now apply ptr64|]. split; [reflexivity|].
  split; [unfold c1, ata_c1, tries_first; cbn [wc_mem]; destruct (rw || al addr); [|unfold zeros at 1; rewrite repeat_length]; apply sent0_len|].
  split; [unfold tf_is_lba48; intros E; rewrite E in P32; rewrite P32; reflexivity|].
  cbv zeta. split; [exact X1|]. intros F. exists c2, p1. specialize (X2 F).
  assert (I2 : wc_in c2 = ata_params rw t (blen data) secs 48 p1 ++ tries_kept rw (sent0 rw data) addr a1) by reflexivity.
  destruct (ata_header rw t (blen data) secs 48 p1 Lp) as (HL2 & _ & _ & Q4 & _ & _ & Q16 & Q24 & Q32 & _).
  assert (LK : List.length (tries_kept rw (sent0 rw data) addr a1) = List.length data).
  { unfold tries_kept. destruct (negb rw && al addr); rewrite ?fill_length; apply sent0_len. }
  split; [exact X2|]. split; [reflexivity|]. split; [reflexivity|].
  split; [unfold blen at 1; rewrite I2, app_length, HL2, LK; unfold blen; lia|].
  split; [unfold c2, ata_c2, tries_second; cbn [wc_outlen]; unfold blen; rewrite LK; reflexivity|].
  split; [reflexivity|]. split.
  { rewrite I2, firstn_app, firstn_all2, HL2, Nat.sub_diag, firstn_O, app_nil_r by lia. now apply ata_request_of. }
  rewrite I2. unfold apt_decode. cbn [ap_buffer]. unfold field. rewrite !slice_app_l by (rewrite HL2; lia).
  split; [rewrite Q24; reflexivity|]. split; [apply fill_delivered|]. split; [exact Q4|]. split; [exact Q16|].
  unfold tf_is_lba48. intros E. rewrite E in Q32. exact Q32.
Qed.
Print Assumptions C85_ata_requests.

(** No buffer, no request: an ATA command without data cannot be sent, the call panics; with data it never does. *)
Theorem C85_ata_panics : forall S h hd rw dma t data addr baddr secs h' r,
  wf_tf t -> win_ata S h hd rw dma t data addr baddr secs = (h', r) ->
  (data = [] -> h' = h /\ r = Panic) /\ (data <> [] -> exists e d, r = Ok (e, d) /\ List.length d = List.length data).
Proof.
  intros S h hd rw dma t data addr baddr secs h' r Hw H. split; intros Hd.
  - subst data. rewrite win_ata_empty in H. inversion H. auto.
  - rewrite win_ata_closed in H by (exact Hd || apply Hw). cbv zeta in H.
    assert (LK : forall a, List.length (tries_kept rw (sent0 rw data) addr a) = List.length data).
    { intros a. unfold tries_kept. destruct (negb rw && al addr); rewrite ?fill_length; apply sent0_len. }
    assert (LM : List.length (wc_mem (ata_c1 hd rw t data addr baddr secs)) = List.length data).
    { unfold ata_c1, tries_first. cbn [wc_mem]. destruct (rw || al addr); [|unfold zeros at 1; rewrite repeat_length]; apply sent0_len. }
    destruct (wa_err _ =? 0) in H; [|destruct (wa_err _ =? 0) in H]; inversion H; do 2 eexists; (split; [reflexivity|]);
      [destruct rw; rewrite ?fill_length; auto using sent0_len..|apply LK].
Qed.
Print Assumptions C85_ata_panics.

(** ---- C86: the data of ATA commands ---- *)
Theorem C86_ata_reads : forall S h hd dma t data addr baddr secs h' r,
  wf_tf t -> data <> [] -> win_ata S h hd false dma t data addr baddr secs = (h', r) ->
  exists e got c1 rest mid, r = Ok (e, got) /\ h' = h ++ WIo c1 :: rest
  /\ let a1 := s_io S (h ++ [WIo c1]) in
     (* the caller's buffer after the first request *)
     (if addr mod 512 =? 0 then delivered data (wa_mem a1) mid else mid = data)
     /\ (win_ok a1 -> delivered (if addr mod 512 =? 0 then data else zeros (List.length data)) (wa_mem a1) got)
     /\ (~ win_ok a1 -> exists c2, rest = [WIo c2] /\ skipn 48 (wc_in c2) = mid
         /\ let a2 := s_io S h' in
            (win_ok a2 -> delivered mid (skipn 48 (wa_out a2)) got) /\ (~ win_ok a2 -> got = mid)).
Proof.
  intros S h hd dma t data addr baddr secs h' r Hw Hd H.
  rewrite win_ata_closed in H by (exact Hd || apply Hw). cbv zeta in H. cbn [sent0] in H.
  set (c1 := ata_c1 hd false t data addr baddr secs) in *. set (a1 := s_io S (h ++ [WIo c1])) in *.
  set (p1 := fill (wc_in c1) (wa_out a1)) in *. set (c2 := ata_c2 hd false t data addr secs p1 a1) in *.
  set (d1 := tries_kept false data addr a1) in *.
  assert (K : if addr mod 512 =? 0 then delivered data (wa_mem a1) d1 else d1 = data).
  { unfold d1, tries_kept, al. cbn [negb andb]. destruct (addr mod 512 =? 0); [apply fill_delivered|reflexivity]. }
  assert (Lp : List.length p1 = 48%nat).
  { unfold p1. rewrite fill_length. destruct (ata_header false t (blen data) secs (if al addr then addr else baddr) (zeros 48) (repeat_length _ _)) as [L _]. exact L. }
  destruct (wa_err a1 =? 0) eqn:E1.
  - inversion H. do 2 eexists. exists c1, [], d1. split; [reflexivity|]. split; [reflexivity|]. cbv zeta. fold a1.
    split; [exact K|]. split; [intros _|rewrite win_fail_iff; congruence].
    unfold c1, ata_c1, tries_first. cbn [wc_mem orb]. unfold al, sent0. destruct (addr mod 512 =? 0); apply fill_delivered.
  - exists (if wa_err (s_io S (h ++ [WIo c1; WIo c2])) =? 0 then status_error (t_command t) else Some (errno (wa_err (s_io S (h ++ [WIo c1; WIo c2]))))).
    exists (if wa_err (s_io S (h ++ [WIo c1; WIo c2])) =? 0 then fill d1 (skipn 48 (wa_out (s_io S (h ++ [WIo c1; WIo c2])))) else d1).
    exists c1, [WIo c2], d1. split.
    { destruct (wa_err (s_io S (h ++ [WIo c1; WIo c2])) =? 0); inversion H; reflexivity. }
    assert (Eh : h' = h ++ [WIo c1; WIo c2]) by (inversion H; reflexivity). split; [exact Eh|]. cbv zeta. fold a1.
    split; [exact K|]. split; [rewrite win_ok_iff; congruence|]. intros _. exists c2. split; [reflexivity|]. split.
    { destruct (ata_header false t (blen data) secs 48 p1 Lp) as (HL2 & _).
      change (wc_in c2) with (ata_params false t (blen data) secs 48 p1 ++ d1).
      rewrite skipn_app, skipn_all2, HL2, Nat.sub_diag by lia. reflexivity. }
    rewrite Eh. split; intros W; [apply win_ok_iff in W|apply win_fail_iff in W]; rewrite W; [apply fill_delivered|reflexivity].
Qed.
Print Assumptions C86_ata_reads.

(** A write never sends the caller's data: it zeroes the caller's buffer and sends zeros. *)
Theorem C86_ata_writes_send_zeros : forall S h hd dma t data addr baddr secs h' r,
  wf_tf t -> data <> [] -> win_ata S h hd true dma t data addr baddr secs = (h', r) ->
  (exists e, r = Ok (e, zeros (List.length data)))
  /\ exists c1 rest, h' = h ++ WIo c1 :: rest /\ wc_mem c1 = zeros (List.length data)
     /\ (forall ev, In ev rest -> exists c2, ev = WIo c2 /\ skipn 48 (wc_in c2) = zeros (List.length data) /\ wc_mem c2 = []).
Proof.
  intros S h hd dma t data addr baddr secs h' r Hw Hd H.
  rewrite win_ata_closed in H by (exact Hd || apply Hw). cbv zeta in H. cbn [sent0] in H.
  set (c1 := ata_c1 hd true t data addr baddr secs) in *. set (a1 := s_io S (h ++ [WIo c1])) in *.
  set (p1 := fill (wc_in c1) (wa_out a1)) in *. set (c2 := ata_c2 hd true t data addr secs p1 a1) in *.
  assert (Lp : List.length p1 = 48%nat).
  { unfold p1. rewrite fill_length. destruct (ata_header true t (blen data) secs (if al addr then addr else baddr) (zeros 48) (repeat_length _ _)) as [L _]. exact L. }
  split; [destruct (wa_err a1 =? 0); [|destruct (wa_err _ =? 0) in H]; inversion H; eauto|].
  exists c1. assert (M : wc_mem c1 = zeros (List.length data)) by reflexivity.
  destruct (wa_err a1 =? 0); inversion H; eexists; (split; [reflexivity|]); (split; [exact M|]).
  - intros ev [].
  - intros ev [<-|[]]. exists c2. split; [reflexivity|]. split; [|reflexivity].
    destruct (ata_header true t (blen data) secs 48 p1 Lp) as (HL2 & _).
    change (wc_in c2) with (ata_params true t (blen data) secs 48 p1 ++ zeros (List.length data)).
    rewrite skipn_app, skipn_all2, HL2, Nat.sub_diag by lia. reflexivity.
Qed.
Print Assumptions C86_ata_writes_send_zeros.

(** ---- C87: when the ATA driver reports an error ---- *)
(** The error for an ATA status register value: none unless ERR (bit 0) or DRQ (bit 3) is set. *)
Definition reports (status : N) (e : option err) : Prop :=
  (N.testbit status 0 = false /\ N.testbit status 3 = false -> e = None)
  /\ (N.testbit status 0 = true \/ N.testbit status 3 = true -> exists msg, e = Some (EDparm msg status [])).
Lemma land9 x : N.land x 9 = (if N.testbit x 0 then 1 else 0) + (if N.testbit x 3 then 8 else 0).
Proof.
  assert (E : N.land x 9 = N.land (x mod 16) 9).
  { change 16 with (2 ^ 4). rewrite <- N.land_ones, <- N.land_assoc. reflexivity. }
  assert (T : forall i, i < 4 -> N.testbit x i = N.testbit (x mod 16) i) by (intros i Hi; change 16 with (2 ^ 4); now rewrite N.mod_pow2_bits_low).
  rewrite E, !T by lia. pose proof (N.mod_lt x 16 ltac:(lia)) as L. generalize dependent (x mod 16). clear. intros y _ _ L.
  assert (D : forallb (fun y => N.land y 9 =? (if N.testbit y 0 then 1 else 0) + (if N.testbit y 3 then 8 else 0)) [0;1;2;3;4;5;6;7;8;9;10;11;12;13;14;15] = true) by reflexivity.
  rewrite forallb_forall in D. apply N.eqb_eq, D. cbn. lia.
Qed.
Lemma status_error_spec s : reports s (status_error s).
Proof.
  unfold reports, status_error. change (N.lor 1 8) with 9. rewrite land9. split.
  - intros [-> ->]. reflexivity.
  - intros [H|H]; rewrite H; destruct (N.testbit s 0), (N.testbit s 3); eexists; reflexivity.
Qed.

Theorem C87_ata_result : forall S h hd rw dma t data addr baddr secs h' r,
  wf_tf t -> data <> [] -> win_ata S h hd rw dma t data addr baddr secs = (h', r) ->
  exists e d c1 rest p1, r = Ok (e, d) /\ h' = h ++ WIo c1 :: rest
  /\ let a1 := s_io S (h ++ [WIo c1]) in
     let a2 := s_io S h' in
     delivered (wc_in c1) (wa_out a1) p1
     /\ (win_ok a1 -> reports (ap_command (apt_decode p1)) e)          (* the status register the device returned *)
     /\ (~ win_ok a1 -> ~ win_ok a2 -> e = Some (errno (wa_err a2)))
     (* after a successful fallback the device's status is not looked at: the command code takes its place *)
     /\ (~ win_ok a1 -> win_ok a2 -> reports (t_command t) e).
Proof.
  intros S h hd rw dma t data addr baddr secs h' r Hw Hd H.
  rewrite win_ata_closed in H by (exact Hd || apply Hw). cbv zeta in H.
  set (c1 := ata_c1 hd rw t data addr baddr secs) in *. set (a1 := s_io S (h ++ [WIo c1])) in *.
  set (p1 := fill (wc_in c1) (wa_out a1)) in *. set (c2 := ata_c2 hd rw t data addr secs p1 a1) in *.
  destruct (wa_err a1 =? 0) eqn:E1.
  - inversion H. do 2 eexists. exists c1, [], p1. split; [reflexivity|]. split; [reflexivity|]. cbv zeta. fold a1.
    split; [apply fill_delivered|]. split; [intros _; apply status_error_spec|].
    rewrite win_fail_iff. split; congruence.
  - exists (if wa_err (s_io S (h ++ [WIo c1; WIo c2])) =? 0 then status_error (t_command t) else Some (errno (wa_err (s_io S (h ++ [WIo c1; WIo c2]))))).
    destruct (wa_err (s_io S (h ++ [WIo c1; WIo c2])) =? 0) eqn:E2; inversion H; eexists; exists c1, [WIo c2], p1; (split; [reflexivity|]);
      (split; [reflexivity|]); cbv zeta; fold a1; (split; [apply fill_delivered|]); (split; [rewrite win_ok_iff; congruence|]);
      (split; intros _ W; [apply win_fail_iff in W|apply win_ok_iff in W]; first [congruence|apply status_error_spec|reflexivity]).
Qed.
Print Assumptions C87_ata_result.

(** So a command whose code has bit 0 or bit 3 set can only succeed through the direct request. *)
Theorem C87_fallback_useless : forall S h hd rw dma t data addr baddr secs h' d,
  wf_tf t -> N.testbit (t_command t) 0 = true \/ N.testbit (t_command t) 3 = true ->
  win_ata S h hd rw dma t data addr baddr secs = (h', Ok (None, d)) -> exists c1, h' = h ++ [WIo c1] /\ win_ok (s_io S h').
Proof.
  intros S h hd rw dma t data addr baddr secs h' d Hw Hb H.
  assert (Hd : data <> []) by (intros ->; rewrite win_ata_empty in H; discriminate).
  rewrite win_ata_closed in H by (exact Hd || apply Hw). cbv zeta in H.
  set (c1 := ata_c1 hd rw t data addr baddr secs) in *. set (a1 := s_io S (h ++ [WIo c1])) in *.
  destruct (wa_err a1 =? 0) eqn:E1.
  - exists c1. apply pair_equal_spec in H as [<- _]. split; [reflexivity|]. now apply win_ok_iff.
  - exfalso. apply pair_equal_spec in H as [_ H]. destruct (status_error_spec (t_command t)) as [_ Q]. destruct (Q Hb) as [msg E].
    rewrite E in H. destruct (wa_err _ =? 0) in H; discriminate H.
Qed.
Print Assumptions C87_fallback_useless.

(** ---- C88: the SCSI driver's ATA commands ---- *)
Definition scsi_request (rw : bool) (cdb : bytes) (len : N) (secs : Z) (ptr : N) (b : bytes) : Prop :=
  let q := spt_decode b in
  sp_length q = 56 /\ sp_cdb q = cdb /\ sp_sense_length q = 32 /\ sp_sense_offset q = 60 /\ sp_data_in q = (if rw then 0 else 1)
  /\ sp_transfer q = len mod 2 ^ 32 /\ sp_timeout q = Z.to_N (secs mod 2 ^ 32) /\ sp_buffer q = ptr.
Lemma scsi_request_of rw cdb len secs ptr old : List.length old = 96%nat -> (List.length cdb <= 16)%nat -> ptr < 2 ^ 64 ->
  scsi_request rw cdb len secs ptr (scsi_params rw cdb len secs ptr old).
Proof.
  intros Ho Hc Hp. destruct (scsi_header rw cdb len secs ptr old Ho Hc) as (HL & H0 & _ & H6 & _ & H12 & H16 & _ & H24 & H32 & H36 & _).
  set (p := scsi_params rw cdb len secs ptr old) in *. unfold scsi_request, spt_decode. cbv zeta.
  cbn [sp_length sp_cdb sp_sense_length sp_sense_offset sp_data_in sp_transfer sp_timeout sp_buffer]. unfold field, reg.
  assert (R6 : forall i, (i < 3)%nat -> nth (6 + i) p 0 = nth i (slice 6 3 p) 0) by (intros; now apply nth_slice). rewrite H6 in R6.
  pose proof (R6 0%nat ltac:(lia)) as r0. pose proof (R6 1%nat ltac:(lia)) as r1. pose proof (R6 2%nat ltac:(lia)) as r2.
  cbn [Nat.add nth] in r0, r1, r2. rewrite r0, r1, r2, H0, H12, H16, H24, H32, !le_val_bytes.
  split; [reflexivity|]. split; [unfold blen; rewrite Nat2N.id; exact H36|]. split; [reflexivity|]. split; [reflexivity|].
  split; [unfold ternary; destruct rw; reflexivity|]. split; [change (256 ^ N.of_nat 4) with (2 ^ 32); apply N.mod_mod; discriminate|].
  split.
  { unfold to_uint32. apply N.mod_small. change (256 ^ N.of_nat 4) with (2 ^ 32). pose proof (Z.mod_pos_bound secs (2 ^ 32) ltac:(lia)) as B.
    change (2 ^ 32) with (Z.to_N (2 ^ 32)%Z). apply Z2N.inj_lt; lia. }
  now apply N.mod_small.
Qed.

(** The shape every command over this driver has: [cdb] sent directly, and once more with the data inline exactly if that failed;
    the sense data of the last successful answer decide; a read gets the device's data, a write sends zeros.  (Sense bytes 60-91 of the
    first answer's header survive a second answer too short to overwrite them.) *)
Definition scsi_exchange (S : wsys) (h : whist) (hd : N) (rw : bool) (cdb data : bytes) (addr baddr : N) (secs : Z)
    (h' : whist) (e : option err) (got : bytes) : Prop :=
  let data0 := if rw then zeros (List.length data) else data in
  let aligned := addr mod 512 =? 0 in
  exists c1 rest p1 mid, h' = h ++ WIo c1 :: rest
  /\ wc_handle c1 = hd /\ wc_code c1 = 0x4d014 /\ blen (wc_in c1) = 96 /\ wc_outlen c1 = 96
  /\ scsi_request rw cdb (blen data) secs (if aligned then addr else baddr) (wc_in c1)
  /\ wc_target c1 = (if aligned then TCaller else TBounce) /\ wc_mem c1 = (if rw || aligned then data0 else zeros (List.length data))
  /\ slice 60 32 (wc_in c1) = zeros 32
  /\ let a1 := s_io S (h ++ [WIo c1]) in
     let a2 := s_io S h' in
     let judged (p : bytes) := (nibble2 (slice 60 32 p) = 0 -> e = None)
       /\ (nibble2 (slice 60 32 p) <> 0 -> exists msg, e = Some (EDparm msg (nth 2 p 0) (firstn 18 (slice 60 32 p)))) in
     delivered (wc_in c1) (wa_out a1) p1
     /\ (if negb rw && aligned then delivered data (wa_mem a1) mid else mid = data0)
     /\ (win_ok a1 -> rest = [] /\ judged p1 /\ (if rw then got = data0 else delivered (if aligned then data else zeros (List.length data)) (wa_mem a1) got))
     /\ (~ win_ok a1 -> exists c2, rest = [WIo c2]
         /\ wc_handle c2 = hd /\ wc_code c2 = 0x4d004 /\ wc_target c2 = TNone /\ wc_outlen c2 = 96 + blen data
         /\ scsi_request rw cdb (blen data) secs 96 (firstn 96 (wc_in c2)) /\ skipn 96 (wc_in c2) = mid
         /\ slice 60 32 (wc_in c2) = slice 60 32 p1
         /\ (win_ok a2 -> (exists p2, delivered (firstn 96 (wc_in c2)) (wa_out a2) p2 /\ judged p2)
                          /\ (if rw then got = data0 else delivered mid (skipn 96 (wa_out a2)) got))
         /\ (~ win_ok a2 -> e = Some (errno (wa_err a2)) /\ got = mid)).

Lemma win_sense_judged p e : e = win_sense_error p ->
  (nibble2 (slice 60 32 p) = 0 -> e = None) /\ (nibble2 (slice 60 32 p) <> 0 -> exists msg, e = Some (EDparm msg (nth 2 p 0) (firstn 18 (slice 60 32 p)))).
Proof.
  intros ->. unfold win_sense_error. rewrite key_nibble. destruct (N.eqb_spec (nibble2 (slice 60 32 p)) 0) as [Z|Z]; cbn [negb].
  - split; [reflexivity|congruence].
  - split; [congruence|eauto].
Qed.

Lemma win_scsi_exchange S h hd rw cdb data addr baddr secs h' r : addr < 2 ^ 64 -> baddr < 2 ^ 64 -> data <> [] -> (List.length cdb <= 16)%nat ->
  win_scsi S h hd rw cdb data addr baddr secs = (h', r) -> exists e got, r = Ok (e, got) /\ scsi_exchange S h hd rw cdb data addr baddr secs h' e got.
Proof.
  intros Ha Hb Hd Hc H. rewrite win_scsi_closed in H by assumption. cbv zeta in H.
  set (c1 := scsi_c1 hd rw cdb data addr baddr secs) in *. set (a1 := s_io S (h ++ [WIo c1])) in *.
  set (p1 := fill (wc_in c1) (wa_out a1)) in *. set (c2 := scsi_c2 hd rw cdb data addr secs p1 a1) in *.
  set (mid := tries_kept rw (sent0 rw data) addr a1) in *.
  assert (Z96 : List.length (zeros 96) = 96%nat) by apply repeat_length.
  set (ptr := if addr mod 512 =? 0 then addr else baddr).
  assert (Hp : ptr < 2 ^ 64) by (unfold ptr; destruct (addr mod 512 =? 0); assumption).
  assert (I1 : wc_in c1 = scsi_params rw cdb (blen data) secs ptr (zeros 96)) by reflexivity.
  destruct (scsi_header rw cdb (blen data) secs ptr (zeros 96) Z96 Hc) as (HL1 & _ & _ & _ & _ & _ & _ & _ & _ & _ & _ & _ & P60).
  assert (R1 : scsi_request rw cdb (blen data) secs ptr (wc_in c1)) by (rewrite I1; now apply scsi_request_of).
  rewrite <- I1 in HL1, P60.
  assert (Lp : List.length p1 = 96%nat) by (unfold p1; now rewrite fill_length).
  assert (I2 : wc_in c2 = scsi_params rw cdb (blen data) secs 96 p1 ++ mid) by reflexivity.
  destruct (scsi_header rw cdb (blen data) secs 96 p1 Lp Hc) as (HL2 & _ & _ & _ & _ & _ & _ & _ & _ & _ & _ & _ & Q60).
  assert (R2 : scsi_request rw cdb (blen data) secs 96 (scsi_params rw cdb (blen data) secs 96 p1)) by (now apply scsi_request_of).
  assert (F2 : firstn 96 (wc_in c2) = scsi_params rw cdb (blen data) secs 96 p1).
  { rewrite I2, firstn_app, firstn_all2, HL2, Nat.sub_diag, firstn_O, app_nil_r by lia. reflexivity. }
  assert (K2 : skipn 96 (wc_in c2) = mid) by (rewrite I2, skipn_app, skipn_all2, HL2, Nat.sub_diag by lia; reflexivity).
  assert (LK : List.length mid = List.length data).
  { unfold mid, tries_kept. destruct (negb rw && al addr); rewrite ?fill_length; apply sent0_len. }
  assert (KM : if negb rw && (addr mod 512 =? 0) then delivered data (wa_mem a1) mid else mid = sent0 rw data).
  { unfold mid, tries_kept, al. destruct (negb rw && (addr mod 512 =? 0)) eqn:X; [|reflexivity].
    apply andb_prop in X as [X _]. destruct rw; [discriminate|]. apply fill_delivered. }
  destruct (wa_err a1 =? 0) eqn:E1.
  - inversion H. subst h' r. do 2 eexists. split; [reflexivity|]. unfold scsi_exchange. cbv zeta. exists c1, [], p1, mid.
    split; [reflexivity|]. split; [reflexivity|]. split; [reflexivity|]. split; [unfold blen; rewrite HL1; reflexivity|].
    split; [reflexivity|]. split; [exact R1|]. split; [reflexivity|].
    split; [unfold c1, scsi_c1, tries_first; cbn [wc_mem]; unfold al; rewrite sent0_len; reflexivity|]. split; [rewrite P60; reflexivity|]. fold a1.
    split; [apply fill_delivered|]. split; [exact KM|]. split; [|rewrite win_fail_iff; congruence]. intros _.
    split; [reflexivity|]. split; [now apply win_sense_judged|].
    unfold c1, scsi_c1, tries_first. cbn [wc_mem]. unfold al. rewrite sent0_len. destruct rw; [reflexivity|]. cbn [orb sent0].
    destruct (addr mod 512 =? 0); apply fill_delivered.
  - apply pair_equal_spec in H as [Eh Er]. subst h' r. set (a2 := s_io S (h ++ [WIo c1; WIo c2])) in *.
    assert (Y : exists e got, (if wa_err a2 =? 0 then (win_sense_error (fill (scsi_hdr rw cdb data secs 96 p1) (wa_out a2)),
                                    if rw then sent0 rw data else fill mid (skipn 96 (wa_out a2))) else (Some (errno (wa_err a2)), mid)) = (e, got)
         /\ (win_ok a2 -> e = win_sense_error (fill (scsi_params rw cdb (blen data) secs 96 p1) (wa_out a2)) /\ (if rw then got = sent0 rw data else delivered mid (skipn 96 (wa_out a2)) got))
         /\ (~ win_ok a2 -> e = Some (errno (wa_err a2)) /\ got = mid)).
    { destruct (wa_err a2 =? 0) eqn:E2; do 2 eexists; (split; [reflexivity|]); (split; intros W; [apply win_ok_iff in W|apply win_fail_iff in W]; try congruence).
      - split; [reflexivity|]. destruct rw; [reflexivity|apply fill_delivered].
      - auto. }
    destruct Y as (e & got & Y & Y1 & Y2). change (scsi_hdr rw cdb data secs) with (scsi_params rw cdb (blen data) secs) in *.
    exists e, got. split; [f_equal; exact Y|]. unfold scsi_exchange. cbv zeta. exists c1, [WIo c2], p1, mid.
    split; [reflexivity|]. split; [reflexivity|]. split; [reflexivity|]. split; [unfold blen; rewrite HL1; reflexivity|].
    split; [reflexivity|]. split; [exact R1|]. split; [reflexivity|].
    split; [unfold c1, scsi_c1, tries_first; cbn [wc_mem]; unfold al; rewrite sent0_len; reflexivity|]. split; [rewrite P60; reflexivity|]. fold a1. fold a2.
    split; [apply fill_delivered|]. split; [exact KM|]. split; [rewrite win_ok_iff; congruence|]. intros _. exists c2.
    split; [reflexivity|]. split; [reflexivity|]. split; [reflexivity|]. split; [reflexivity|].
    split; [unfold c2, scsi_c2, tries_second; cbn [wc_outlen]; fold mid; unfold blen; rewrite LK; reflexivity|].
    rewrite F2. split; [exact R2|]. split; [exact K2|]. split; [rewrite I2, slice_app_l by (rewrite HL2; lia); exact Q60|].
    split; [|exact Y2]. intros W. destruct (Y1 W) as [Ye Yg]. split; [|exact Yg].
    eexists. split; [apply fill_delivered|]. now apply win_sense_judged.
Qed.

Theorem C88_scsi_task_file : forall S h hd rw dma t data addr baddr secs h' r,
  wf_tf t -> addr < 2 ^ 64 -> baddr < 2 ^ 64 -> win_task_file S h hd rw dma t data addr baddr secs = (h', r) ->
  (data = [] -> h' = h /\ r = Panic)
  /\ (data <> [] -> exists e got cdb, r = Ok (e, got) /\ scsi_exchange S h hd rw cdb data addr baddr secs h' e got
      (* the packet names the command and its registers but no protocol, no direction, no transfer length and no EXTEND *)
      /\ sat_decode cdb =
         Some {| sat_multiple := 0; sat_protocol := 0; sat_extend := false; sat_offline := 0; sat_ck_cond := false; sat_t_type := false;
                 sat_from_device := false; sat_byte_block := false; sat_t_length := 0;
                 sat_features := tf_features t; sat_count := tf_count t; sat_lba := tf_lba t; sat_device := t_dev t; sat_command := t_command t |}
      /\ blen cdb = (if tf_is_lba48 t then 16 else 12)).
Proof.
  intros S h hd rw dma t data addr baddr secs h' r Hw Ha Hb H. unfold win_task_file in H. split; intros Hd.
  - subst data. rewrite win_scsi_empty in H. inversion H. auto.
  - assert (Lc : (List.length (win_task_cdb t) <= 16)%nat) by (unfold win_task_cdb; destruct (negb (t_lba48 t =? 0)); cbn; lia).
    destruct (win_scsi_exchange _ _ _ _ _ _ _ _ _ _ _ Ha Hb Hd Lc H) as (e & got & -> & X).
    exists e, got, (win_task_cdb t). split; [reflexivity|]. split; [exact X|].
    unfold win_task_cdb, tf_features, tf_count, tf_lba, tf_is_lba48, low_lba. destruct Hw as (_ & Hc & _).
    destruct (t_lba48 t =? 0); cbn [negb]; (split; [|reflexivity]).
    + unfold sat_decode, pack12, lba48. cbn [nth b01 b02 cdbf0]. rewrite (N.mod_small _ _ Hc).
      change (blen _ =? 12) with true. cbn [andb]. change (0xA1 =? 0xA1) with true. cbv iota. apply f_equal.
      rewrite ?N.add_0_l, ?N.mul_0_r, ?N.add_0_r. reflexivity.
    + unfold sat_decode, pack16, lba48. cbn [nth b01 b02 cdbf0]. rewrite (N.mod_small _ _ Hc).
      change (blen _ =? 12) with false. change (blen _ =? 16) with true. cbn [andb]. change (0x85 =? 0x85) with true. cbv iota. apply f_equal.
      match goal with |- {| sat_multiple := _; sat_protocol := _; sat_extend := _; sat_offline := _; sat_ck_cond := _; sat_t_type := _;
       sat_from_device := _; sat_byte_block := _; sat_t_length := _; sat_features := _; sat_count := _; sat_lba := ?x; sat_device := _; sat_command := _ |}
       = {| sat_multiple := _; sat_protocol := _; sat_extend := _; sat_offline := _; sat_ck_cond := _; sat_t_type := _;
       sat_from_device := _; sat_byte_block := _; sat_t_length := _; sat_features := _; sat_count := _; sat_lba := ?y; sat_device := _; sat_command := _ |} =>
       replace x with y by lia end. reflexivity.
Qed.
Print Assumptions C88_scsi_task_file.

(** ---- C89: SECURITY PROTOCOL IN/OUT on Windows ---- *)
Theorem C89_win_security : forall S h hd rw dma protocol comId data addr baddr secs h' r,
  comId < 2 ^ 16 -> blen data < 2 ^ 32 -> addr < 2 ^ 64 -> baddr < 2 ^ 64 ->
  win_security S h hd rw dma protocol comId data addr baddr secs = (h', r) ->
  (data = [] -> h' = h /\ r = Panic)
  /\ (data <> [] -> exists e got cdb, r = Ok (e, got) /\ scsi_exchange S h hd rw cdb data addr baddr secs h' e got
      /\ security_decode cdb = Some {| sc_out := rw; sc_protocol := protocol; sc_specific := comId; sc_inc512 := false; sc_length := blen data |}).
Proof.
  intros S h hd rw dma protocol comId data addr baddr secs h' r Hc Hl Ha Hb H. unfold win_security in H. split; intros Hd.
  - subst data. rewrite win_scsi_empty in H. inversion H. auto.
  - assert (Lc : (List.length (pack_security (if rw then 0xB5 else 0xA2) protocol comId 0 0 (blen data mod 2 ^ 32) 0 0) <= 16)%nat) by (cbn; lia).
    destruct (win_scsi_exchange _ _ _ _ _ _ _ _ _ _ _ Ha Hb Hd Lc H) as (e & got & -> & X).
    do 3 eexists. split; [reflexivity|]. split; [exact X|]. rewrite N.mod_small by exact Hl. now apply decode_security.
Qed.
Print Assumptions C89_win_security.

(** In particular no payload given to SecurityCommand is ever sent on Windows: the caller's buffer is zeroed and zeros go out
    (the Linux driver, C65, sends the payload). *)
Theorem C89_payload_never_sent : forall S h hd dma protocol comId data addr baddr secs h' r,
  data <> [] -> win_security S h hd true dma protocol comId data addr baddr secs = (h', r) ->
  (exists e, r = Ok (e, zeros (List.length data)))
  /\ exists c1 rest, h' = h ++ WIo c1 :: rest /\ wc_mem c1 = zeros (List.length data)
     /\ (forall ev, In ev rest -> exists c2, ev = WIo c2 /\ skipn 96 (wc_in c2) = zeros (List.length data)).
Proof.
  intros S h hd dma protocol comId data addr baddr secs h' r Hd H. unfold win_security in H. cbv iota in H.
  set (cdb := pack_security _ _ _ _ _ _ _ _) in H.
  assert (Lc : (List.length cdb <= 16)%nat) by (cbn; lia).
  rewrite win_scsi_closed in H by assumption. cbv zeta in H. cbn [sent0] in H.
  set (c1 := scsi_c1 hd true cdb data addr baddr secs) in *. set (a1 := s_io S (h ++ [WIo c1])) in *.
  set (p1 := fill (wc_in c1) (wa_out a1)) in *. set (c2 := scsi_c2 hd true cdb data addr secs p1 a1) in *.
  assert (Lp : List.length p1 = 96%nat).
  { unfold p1. rewrite fill_length. destruct (scsi_header true cdb (blen data) secs (if al addr then addr else baddr) (zeros 96) (repeat_length _ _) Lc) as [L _]. exact L. }
  split; [destruct (wa_err a1 =? 0); [|destruct (wa_err _ =? 0) in H]; inversion H; eauto|].
  exists c1. assert (M : wc_mem c1 = zeros (List.length data)) by reflexivity.
  destruct (wa_err a1 =? 0); inversion H; eexists; (split; [reflexivity|]); (split; [exact M|]).
  - intros ev [].
  - intros ev [<-|[]]. exists c2. split; [reflexivity|].
    destruct (scsi_header true cdb (blen data) secs 96 p1 Lp Lc) as (HL2 & _).
    change (wc_in c2) with (scsi_params true cdb (blen data) secs 96 p1 ++ zeros (List.length data)).
    rewrite skipn_app, skipn_all2, HL2, Nat.sub_diag by lia. reflexivity.
Qed.
Print Assumptions C89_payload_never_sent.

(** ---- C90: opening ---- *)
Lemma identity_of_512 d : List.length d = 512%nat -> identity_of d = d.
Proof.
  intros H. unfold identity_of. rewrite bounce_read by (exact H || lia). apply fill_whole. rewrite H. apply repeat_length.
Qed.
Lemma wf_identify : wf_tf win_identify_tf.
Proof. repeat split; reflexivity. Qed.

(** The ATA driver accepts a handle exactly if the direct IDENTIFY DEVICE succeeds with a status without ERR and DRQ, after that one
    request; the identity is what the device returned, zero-filled. *)
Theorem C90_ata_open : forall S h hd addr baddr h' r,
  addr mod 512 = 0 -> addr < 2 ^ 64 -> baddr < 2 ^ 64 -> win_ata_open S h hd addr baddr = (h', r) ->
  exists c1 rest, h' = h ++ WIo c1 :: rest /\ ata_request false win_identify_tf 512 10 (wc_in c1)
  /\ let a1 := s_io S (h ++ [WIo c1]) in
     forall p1, delivered (wc_in c1) (wa_out a1) p1 ->
     let status := ap_command (apt_decode p1) in
     (forall id, r = Ok id -> win_ok a1 /\ N.testbit status 0 = false /\ N.testbit status 3 = false /\ rest = [] /\ delivered (zeros 512) (wa_mem a1) id)
     /\ (win_ok a1 -> N.testbit status 0 = false -> N.testbit status 3 = false -> exists id, r = Ok id)
     /\ r <> Panic.
Proof.
  intros S h hd addr baddr h' r Hal Ha Hb H. unfold win_ata_open in H.
  destruct (win_ata S h hd false false win_identify_tf (a_data (new_aligned 512)) addr baddr 10) as [hx rx] eqn:E.
  change (a_data (new_aligned 512)) with (zeros 512) in E.
  assert (Hd : zeros 512 <> []) by discriminate.
  pose proof (C85_ata_requests _ _ _ _ _ _ _ _ _ _ _ _ wf_identify Ha Hb Hd E) as (c1 & rest & Eh & _ & _ & _ & _ & R1 & _).
  pose proof (C85_ata_panics _ _ _ _ _ _ _ _ _ _ _ _ wf_identify E) as [_ P]. destruct (P Hd) as (e & d & -> & Ld). clear P.
  change (blen (zeros 512)) with 512 in R1.
  pose proof (C87_ata_result _ _ _ _ _ _ _ _ _ _ _ _ wf_identify Hd E) as (e' & d' & c1' & rest' & p1' & Er & Eh' & X). injection Er as <- <-.
  assert (C : c1' = c1 /\ rest' = rest) by (rewrite Eh in Eh'; apply app_inv_head in Eh'; inversion Eh'; auto). destruct C as [-> ->]. cbv zeta in X.
  destruct X as (D1 & X1 & X2 & X3).
  pose proof (C86_ata_reads _ _ _ _ _ _ _ _ _ _ _ wf_identify Hd E) as (e'' & g & c1'' & rest'' & mid & Er & Eh'' & _ & Y1 & Y2). injection Er as <- <-.
  assert (C : c1'' = c1 /\ rest'' = rest) by (rewrite Eh in Eh''; apply app_inv_head in Eh''; inversion Eh''; auto). destruct C as [-> ->].
  rewrite (proj2 (N.eqb_eq _ _) Hal) in Y1.
  assert (Fin : finish_open (hx, Ok (e, d)) = (hx, match e with None => Ok d | Some x => Err x end)).
  { destruct e; [reflexivity|]. cbn [finish_open]. rewrite identity_of_512; [reflexivity|]. rewrite Ld. apply repeat_length. }
  rewrite Fin in H. inversion H. subst h' r. exists c1, rest. split; [exact Eh|]. split; [exact R1|]. cbv zeta. intros p1 Dp.
  assert (p1 = p1').
  { destruct Dp as (A1 & A2 & A3), D1 as (B1 & B2 & B3). apply list_eq_nth_error. intros i.
    destruct (Nat.ltb_spec i (List.length (wa_out (s_io S (h ++ [WIo c1]))))) as [L|L]; [|rewrite A3, B3 by exact L; reflexivity].
    destruct (Nat.ltb_spec i (List.length (wc_in c1))) as [M|M]; [rewrite A2, B2 by assumption; reflexivity|].
    rewrite !(proj2 (nth_error_None _ i)) by lia. reflexivity. }
  subst p1'. assert (Fb : ~ win_ok (s_io S (h ++ [WIo c1])) -> e <> None).
  { intros F. assert (W : win_ok (s_io S hx) \/ ~ win_ok (s_io S hx)) by (unfold win_ok; destruct (N.eq_dec (wa_err (s_io S hx)) 0); auto).
    destruct W as [W|W]; [|rewrite (X2 F W); discriminate].
    destruct (X3 F W) as [_ Q]. destruct (Q (or_intror eq_refl)) as [m ->]. discriminate. }
  split; [|split].
  - intros id Hid. destruct e as [x|]; [discriminate|]. injection Hid as <-.
    assert (W : win_ok (s_io S (h ++ [WIo c1]))).
    { destruct (N.eq_dec (wa_err (s_io S (h ++ [WIo c1]))) 0) as [W|W]; [exact W|]. now destruct (Fb W). }
    split; [exact W|]. destruct (X1 W) as [_ Q].
    split; [destruct (N.testbit (ap_command (apt_decode p1)) 0) eqn:B; [destruct (Q (or_introl eq_refl)); discriminate|reflexivity]|].
    split; [destruct (N.testbit (ap_command (apt_decode p1)) 3) eqn:B; [destruct (Q (or_intror eq_refl)); discriminate|reflexivity]|].
    split; [|exact (Y1 W)].
    destruct (C87_fallback_useless S h hd false false win_identify_tf (zeros 512) addr baddr 10 hx d wf_identify (or_intror eq_refl) E) as (c & Eq & _).
    rewrite Eh in Eq. apply app_inv_head in Eq. inversion Eq. reflexivity.
  - intros W B0 B3. destruct (X1 W) as [Q _]. rewrite (Q (conj B0 B3)). eauto.
  - destruct e; discriminate.
Qed.
Print Assumptions C90_ata_open.

(** The SCSI driver opens with IDENTIFY DEVICE in a 12-byte packet that names no protocol; the handle is accepted exactly if the exchange
    reports no error, and the identity is the data it delivered. *)
Theorem C90_scsi_open : forall S h hd addr baddr h' r,
  addr mod 512 = 0 -> addr < 2 ^ 64 -> baddr < 2 ^ 64 -> win_scsi_open S h hd addr baddr = (h', r) ->
  exists e got, scsi_exchange S h hd false [0xA1; 0; 0; 0; 0; 0; 0; 0; 0; 0xEC; 0; 0] (zeros 512) addr baddr 3 h' e got
  /\ List.length got = 512%nat /\ r = match e with None => Ok got | Some x => Err x end.
Proof.
  intros S h hd addr baddr h' r Hal Ha Hb H. unfold win_scsi_open, win_task_file in H. change (a_data (new_aligned 512)) with (zeros 512) in H.
  change (win_task_cdb win_identify_tf) with [0xA1; 0; 0; 0; 0; 0; 0; 0; 0; 0xEC; 0; 0] in H. set (cdb := [0xA1; _; _; _; _; _; _; _; _; _; _; _]) in *.
  destruct (win_scsi S h hd false cdb (zeros 512) addr baddr 3) as [hx rx] eqn:E.
  assert (Hd : zeros 512 <> []) by discriminate. assert (Lc : (List.length cdb <= 16)%nat) by (cbn; lia).
  destruct (win_scsi_exchange _ _ _ _ _ _ _ _ _ _ _ Ha Hb Hd Lc E) as (e & got & -> & X).
  assert (Lz : List.length (zeros 512) = 512%nat) by apply repeat_length.
  assert (Lg : List.length got = 512%nat).
  { rewrite win_scsi_closed in E by assumption. cbv zeta in E. cbn [sent0] in E.
    destruct (wa_err _ =? 0) in E; [|destruct (wa_err _ =? 0) in E]; apply pair_equal_spec in E as [_ E]; injection E as _ <-.
    - rewrite fill_length. unfold scsi_c1, tries_first. cbn [wc_mem orb sent0]. destruct (al addr); [exact Lz|]. unfold zeros at 1. rewrite repeat_length. exact Lz.
    - rewrite fill_length. unfold tries_kept. destruct (negb false && al addr); rewrite ?fill_length; exact Lz.
    - unfold tries_kept. destruct (negb false && al addr); rewrite ?fill_length; exact Lz. }
  exists e, got. destruct e as [x|]; cbn [finish_open] in H; [|rewrite (identity_of_512 _ Lg) in H]; inversion H; subst h' r; auto.
Qed.
Print Assumptions C90_scsi_open.
