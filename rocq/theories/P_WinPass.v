(** Lemmas about M_WinPass. *)
From Verif Require Import Base M_Buffer M_Ata M_TcgDevice M_DriveHandle M_Cdb M_SgDriver M_WinPass Spec_Sg Spec_WinPass P_Discovery P_DriveHandle P_Sg.

Lemma fill_app p d out : fill (p ++ d) out = fill p out ++ fill d (skipn (List.length p) out).
Proof.
  unfold fill. rewrite app_length, skipn_length, skipn_app.
  destruct (Nat.leb_spec (List.length out) (List.length p)) as [H|H].
  - rewrite !firstn_all2 by lia. rewrite (skipn_all2 (n := List.length p) out) by lia.
    replace (List.length out - List.length p)%nat with 0%nat by lia. cbn [app skipn]. rewrite firstn_nil. cbn [app].
    rewrite app_assoc. reflexivity.
  - rewrite (skipn_all2 (n := List.length out) p) by lia. rewrite app_nil_r. cbn [app].
    rewrite app_assoc. f_equal. rewrite <- (firstn_skipn (List.length p) out) at 1.
    rewrite firstn_app, firstn_length, Nat.min_l by lia.
    rewrite firstn_all2 by (rewrite firstn_length; lia). f_equal. f_equal. lia.
Qed.
Lemma fill_fill d x : fill d (fill d x) = fill d x.
Proof. apply fill_whole. symmetry. apply fill_length. Qed.

(** The two calls. *)
Definition al (addr : N) : bool := addr mod 512 =? 0.
Definition tries_first (hd direct : N) (hdr : N -> bytes -> bytes) (n : nat) (rw : bool) (data : bytes) (addr baddr : N) : wcall :=
  {| wc_handle := hd; wc_code := direct; wc_in := hdr (if al addr then addr else baddr) (zeros n); wc_outlen := N.of_nat n;
     wc_target := if al addr then TCaller else TBounce; wc_mem := if rw || al addr then data else zeros (List.length data) |}.
Definition tries_kept (rw : bool) (data : bytes) (addr : N) (a1 : wans) : bytes :=
  if negb rw && al addr then fill data (wa_mem a1) else data.
Definition tries_second (hd buffered : N) (hdr : N -> bytes -> bytes) (n : nat) (p1 d1 : bytes) : wcall :=
  {| wc_handle := hd; wc_code := buffered; wc_in := hdr (N.of_nat n) p1 ++ d1; wc_outlen := N.of_nat n + blen d1; wc_target := TNone; wc_mem := [] |}.

Lemma win_tries_closed S h hd direct buffered hdr n (back rw : bool) data addr baddr :
  data <> [] ->
  (forall p o, List.length o = n -> List.length (hdr p o) = n) ->
  (forall p o m w, List.length o = n ->
    direct_in {| wc_handle := hd; wc_code := direct; wc_in := hdr p o; wc_outlen := N.of_nat n; wc_target := w; wc_mem := m |} = negb rw) ->
  let c1 := tries_first hd direct hdr n rw data addr baddr in
  let a1 := s_io S (h ++ [WIo c1]) in
  let p1 := fill (wc_in c1) (wa_out a1) in
  let d1 := tries_kept rw data addr a1 in
  let c2 := tries_second hd buffered hdr n p1 d1 in
  let a2 := s_io S (h ++ [WIo c1; WIo c2]) in
  win_tries S h hd direct buffered hdr n back rw data addr baddr =
  if wa_err a1 =? 0 then (h ++ [WIo c1], Ok (None, (if rw then data else fill (wc_mem c1) (wa_mem a1), p1)))
  else (h ++ [WIo c1; WIo c2],
        Ok (if wa_err a2 =? 0
            then (None, (if rw then data else fill d1 (skipn n (wa_out a2)),
                         if back then fill (hdr (N.of_nat n) p1) (wa_out a2) else hdr (N.of_nat n) p1))
            else (Some (errno (wa_err a2)), (d1, hdr (N.of_nat n) p1)))).
Proof.
  intros Hd Hlen Hdir.
  assert (Lz : forall k, List.length (zeros k) = k) by (intros; apply repeat_length).
  assert (Nil : forall A (x y : A), match data with [] => x | _ :: _ => y end = y) by (intros; destruct data; congruence).
  cbv zeta. unfold win_tries. rewrite Nil. unfold is_aligned_pointer. change (512 =? 0) with false. cbv iota.
  unfold tries_first, tries_kept, tries_second, al. destruct (addr mod 512 =? 0) eqn:Al; cbv iota.
  - rewrite orb_true_r, andb_true_r. unfold win_io at 1. rewrite (Hdir _ _ _ _ (Lz n)). cbn [wc_in wc_mem].
    match goal with |- context [s_io S (h ++ [WIo ?c])] => set (c1 := c) end.
    set (a1 := s_io S (h ++ [WIo c1])). unfold win_result at 1.
    assert (M : (if negb rw then fill data (wa_mem a1) else data) = if rw then data else fill data (wa_mem a1)) by (destruct rw; reflexivity).
    destruct (wa_err a1 =? 0); [rewrite M; reflexivity|].
    set (d1 := if negb rw then fill data (wa_mem a1) else data). cbv zeta.
    set (p1 := fill (hdr addr (zeros n)) (wa_out a1)). unfold win_io. cbn [wc_in].
    rewrite <- app_assoc. cbn [app].
    match goal with |- context [s_io S (h ++ [WIo c1; WIo ?c])] => set (c2 := c) end.
    set (a2 := s_io S (h ++ [WIo c1; WIo c2])). unfold win_result. destruct (wa_err a2 =? 0); [|reflexivity].
    assert (Lp : List.length (hdr (N.of_nat n) p1) = n) by (apply Hlen; unfold p1; rewrite fill_length; apply Hlen, Lz).
    rewrite fill_app, Lp. rewrite skipn_app, skipn_all2, fill_length, Lp, Nat.sub_diag by (rewrite fill_length, Lp; lia). cbn [skipn app].
    rewrite fill_fill. rewrite firstn_app, firstn_all2, fill_length, Lp, Nat.sub_diag by (rewrite fill_length, Lp; lia). cbn [firstn].
    rewrite app_nil_r. unfold d1, a2, c2. destruct rw; reflexivity.
  - rewrite orb_false_r, andb_false_r.
    assert (B : a_data (if rw then fst (buf_write (reset_write (new_aligned (List.length data))) data) else new_aligned (List.length data))
                = if rw then data else zeros (List.length data)).
    { destruct rw; [now apply bounce_write|reflexivity]. }
    rewrite B. unfold win_io at 1. rewrite (Hdir _ _ _ _ (Lz n)). cbn [wc_in wc_mem].
    match goal with |- context [s_io S (h ++ [WIo ?c])] => set (c1 := c) end.
    set (a1 := s_io S (h ++ [WIo c1])). unfold win_result at 1.
    destruct (wa_err a1 =? 0).
    + destruct rw; [reflexivity|]. cbv iota. cbn [negb].
      rewrite bounce_read; [|rewrite fill_length; apply Lz|destruct data; [congruence|cbn; lia]].
      rewrite (fill_whole data) by (rewrite fill_length; symmetry; apply Lz). reflexivity.
    + cbv zeta.
      set (p1 := fill (hdr baddr (zeros n)) (wa_out a1)). unfold win_io. cbn [wc_in].
      rewrite <- app_assoc. cbn [app].
      match goal with |- context [s_io S (h ++ [WIo c1; WIo ?c])] => set (c2 := c) end.
      set (a2 := s_io S (h ++ [WIo c1; WIo c2])). unfold win_result. destruct (wa_err a2 =? 0); [|reflexivity].
      assert (Lp : List.length (hdr (N.of_nat n) p1) = n) by (apply Hlen; unfold p1; rewrite fill_length; apply Hlen, Lz).
      rewrite fill_app, Lp. rewrite skipn_app, skipn_all2, fill_length, Lp, Nat.sub_diag by (rewrite fill_length, Lp; lia). cbn [skipn app].
      rewrite fill_fill. rewrite firstn_app, firstn_all2, fill_length, Lp, Nat.sub_diag by (rewrite fill_length, Lp; lia). cbn [firstn].
      rewrite app_nil_r. destruct rw; reflexivity.
Qed.

Lemma win_tries_empty S h hd direct buffered hdr n back rw addr baddr : win_tries S h hd direct buffered hdr n back rw [] addr baddr = (h, Panic).
Proof. reflexivity. Qed.

(** ---- ATA header ---- *)
Lemma len4 (l : bytes) : List.length l = 4%nat -> exists a b c d, l = [a; b; c; d].
Proof. destruct l as [|a [|b [|c [|d [|]]]]]; cbn; intros; try discriminate. eauto. Qed.
Lemma len8 (l : bytes) : List.length l = 8%nat -> exists a b c d e f g h, l = [a; b; c; d; e; f; g; h].
Proof. destruct l as [|a [|b [|c [|d [|e [|f [|g [|h [|]]]]]]]]]; cbn; intros; try discriminate. eauto 10. Qed.

Lemma ata_header rw t len secs ptr old : List.length old = 48%nat ->
  let p := ata_params rw t len secs ptr old in
  List.length p = 48%nat
  /\ slice 0 2 p = le_bytes 2 48 /\ slice 2 2 p = le_bytes 2 (ata_flags rw (negb (t_lba48 t =? 0))) /\ slice 4 4 p = slice 4 4 old
  /\ slice 8 4 p = le_bytes 4 (len mod 2 ^ 32) /\ slice 12 4 p = le_bytes 4 (to_uint32 secs) /\ slice 16 8 p = slice 16 8 old
  /\ slice 24 8 p = le_bytes 8 ptr
  /\ slice 32 8 p = (if negb (t_lba48 t =? 0) then [g_feat (t_hob t); g_nsect (t_hob t); g_lbal (t_hob t); g_lbam (t_hob t); g_lbah (t_hob t); 0; 0; 0] else slice 32 8 old)
  /\ slice 40 8 p = [g_feat (t_lob t); g_nsect (t_lob t); g_lbal (t_lob t); g_lbam (t_lob t); g_lbah (t_lob t); t_dev t; t_command t mod 256; 0].
Proof.
  intros Ho. cbv zeta. unfold ata_params.
  assert (L1 : List.length (slice 4 4 old) = 4%nat) by (apply slice_length; lia).
  assert (L2 : List.length (slice 16 8 old) = 8%nat) by (apply slice_length; lia).
  assert (L3 : List.length (slice 32 8 old) = 8%nat) by (apply slice_length; lia).
  destruct (len4 _ L1) as (? & ? & ? & ? & ->). destruct (len8 _ L2) as (? & ? & ? & ? & ? & ? & ? & ? & ->).
  destruct (len8 _ L3) as (? & ? & ? & ? & ? & ? & ? & ? & ->).
  destruct (negb (t_lba48 t =? 0)); repeat split.
Qed.

Lemma nth_slice (b : bytes) off n i : (i < n)%nat -> nth (off + i) b 0 = nth i (slice off n b) 0.
Proof.
  intros H. unfold slice. revert i n H. induction off as [|off IH] in b |- *; intros i n H; cbn [Nat.add skipn].
  - revert i n H. induction b as [|x b IHb]; intros [|i] [|n] H; cbn [nth firstn]; try lia; try reflexivity. apply IHb. lia.
  - destruct b as [|x b]; [destruct n; destruct i; reflexivity|]. cbn [nth]. now apply IH.
Qed.

(** ---- SCSI header ---- *)
Definition spt_prefix (rw : bool) (cdb : bytes) (len : N) (secs : Z) (ptr : N) (old : bytes) : bytes :=
  le_bytes 2 56 ++ slice 2 4 old ++ [blen cdb mod 256; 32; ternary rw 0 1] ++ slice 9 3 old ++ le_bytes 4 (len mod 2 ^ 32)
  ++ le_bytes 4 (to_uint32 secs) ++ slice 20 4 old ++ le_bytes 8 ptr ++ le_bytes 4 60.
Lemma len3 (l : bytes) : List.length l = 3%nat -> exists a b c, l = [a; b; c].
Proof. destruct l as [|a [|b [|c [|]]]]; cbn; intros; try discriminate. eauto. Qed.

Lemma scsi_header rw cdb len secs ptr old : List.length old = 96%nat -> (List.length cdb <= 16)%nat ->
  let p := scsi_params rw cdb len secs ptr old in
  List.length p = 96%nat
  /\ slice 0 2 p = le_bytes 2 56 /\ slice 2 4 p = slice 2 4 old /\ slice 6 3 p = [blen cdb; 32; ternary rw 0 1]
  /\ slice 9 3 p = slice 9 3 old /\ slice 12 4 p = le_bytes 4 (len mod 2 ^ 32) /\ slice 16 4 p = le_bytes 4 (to_uint32 secs)
  /\ slice 20 4 p = slice 20 4 old /\ slice 24 8 p = le_bytes 8 ptr /\ slice 32 4 p = le_bytes 4 60
  /\ slice 36 (List.length cdb) p = cdb /\ slice (36 + List.length cdb) (60 - List.length cdb) p = slice (36 + List.length cdb) (60 - List.length cdb) old
  /\ slice 60 32 p = slice 60 32 old.
Proof.
  intros Ho Hc. cbv zeta.
  assert (Bl : blen cdb mod 256 = blen cdb) by (apply N.mod_small; unfold blen; lia).
  assert (E : scsi_params rw cdb len secs ptr old = spt_prefix rw cdb len secs ptr old ++ cdb ++ skipn (36 + List.length cdb) old).
  { unfold scsi_params, spt_prefix. rewrite !app_assoc. reflexivity. }
  rewrite E. clear E.
  assert (L1 : List.length (slice 2 4 old) = 4%nat) by (apply slice_length; lia).
  assert (L2 : List.length (slice 9 3 old) = 3%nat) by (apply slice_length; lia).
  assert (L3 : List.length (slice 20 4 old) = 4%nat) by (apply slice_length; lia).
  destruct (len4 _ L1) as (? & ? & ? & ? & E1). destruct (len3 _ L2) as (? & ? & ? & E2).
  destruct (len4 _ L3) as (? & ? & ? & ? & E3).
  set (pre := spt_prefix rw cdb len secs ptr old).
  assert (Lp : List.length pre = 36%nat) by (unfold pre, spt_prefix; rewrite E1, E2, E3; reflexivity).
  assert (Sk : List.length (skipn (36 + List.length cdb) old) = (60 - List.length cdb)%nat) by (rewrite skipn_length; lia).
  split; [rewrite !app_length, Lp, Sk; lia|].
  do 9 (rewrite (slice_app_l _ _ pre) by (rewrite Lp; lia); split; [unfold pre, spt_prefix; rewrite E1, E2, E3, Bl; reflexivity|]).
  split; [rewrite <- Lp; apply slice_app_mid|]. split.
  - rewrite slice_app_r by lia. rewrite Lp. replace (36 + List.length cdb - 36)%nat with (List.length cdb) by lia.
    rewrite slice_app_r by lia. rewrite Nat.sub_diag. unfold slice. cbn [skipn]. reflexivity.
  - rewrite slice_app_r by lia. rewrite Lp. rewrite slice_app_r by lia. unfold slice. rewrite skipn_skipn'. f_equal. f_equal. lia.
Qed.

(** ---- closed forms ---- *)
Definition sent0 (rw : bool) (data : bytes) : bytes := if rw then zeros (List.length data) else data.
Lemma sent0_nil rw data : data <> [] -> sent0 rw data <> [].
Proof. unfold sent0. destruct rw, data; cbn; congruence. Qed.
Lemma sent0_len rw data : List.length (sent0 rw data) = List.length data.
Proof. unfold sent0. destruct rw; [apply repeat_length|reflexivity]. Qed.

Lemma ata_dir hd rw t len secs p o m w : List.length o = 48%nat ->
  direct_in {| wc_handle := hd; wc_code := IOCTL_ATA_PASS_THROUGH_DIRECT; wc_in := ata_params rw t len secs p o;
               wc_outlen := N.of_nat 48; wc_target := w; wc_mem := m |} = negb rw.
Proof.
  intros H. unfold direct_in. cbn [wc_code wc_in]. rewrite N.eqb_refl.
  destruct (ata_header rw t len secs p o H) as (_ & _ & F & _).
  change 2%nat with (2 + 0)%nat at 1. rewrite (nth_slice _ 2 2 0) by lia. rewrite F. unfold ata_flags, ternary.
  destruct rw, (negb (t_lba48 t =? 0)); reflexivity.
Qed.
Lemma scsi_dir hd rw cdb len secs p o m w : List.length o = 96%nat -> (List.length cdb <= 16)%nat ->
  direct_in {| wc_handle := hd; wc_code := IOCTL_SCSI_PASS_THROUGH_DIRECT; wc_in := scsi_params rw cdb len secs p o;
               wc_outlen := N.of_nat 96; wc_target := w; wc_mem := m |} = negb rw.
Proof.
  intros H Hc. unfold direct_in. cbn [wc_code wc_in]. change (IOCTL_SCSI_PASS_THROUGH_DIRECT =? IOCTL_ATA_PASS_THROUGH_DIRECT) with false. cbv iota.
  destruct (scsi_header rw cdb len secs p o H Hc) as (_ & _ & _ & F & _).
  change 8%nat with (6 + 2)%nat. rewrite (nth_slice _ 6 3 2) by lia. rewrite F. unfold ternary. destruct rw; reflexivity.
Qed.

Definition ata_hdr rw t (data : bytes) secs := ata_params rw t (blen data) secs.
Definition ata_c1 hd rw t data addr baddr secs := tries_first hd IOCTL_ATA_PASS_THROUGH_DIRECT (ata_hdr rw t data secs) 48 rw (sent0 rw data) addr baddr.
Definition ata_c2 hd rw t data addr secs (p1 : bytes) (a1 : wans) :=
  tries_second hd IOCTL_ATA_PASS_THROUGH (ata_hdr rw t data secs) 48 p1 (tries_kept rw (sent0 rw data) addr a1).
Definition status_error (status : N) : option err :=
  if negb (N.land status (N.lor 1 8) =? 0) then Some (EDparm "ATA Status: %02x" status []) else None.

Lemma nth_header_cmd rw t len secs ptr old : List.length old = 48%nat -> t_command t < 256 ->
  nth 46 (ata_params rw t len secs ptr old) 0 = t_command t.
Proof.
  intros H Hc. destruct (ata_header rw t len secs ptr old H) as (_ & _ & _ & _ & _ & _ & _ & _ & _ & F).
  change 46%nat with (40 + 6)%nat. rewrite (nth_slice _ 40 8 6) by lia. rewrite F. cbn [nth]. now apply N.mod_small.
Qed.

Lemma win_ata_closed S h hd rw dma t data addr baddr secs : data <> [] -> t_command t < 256 ->
  let c1 := ata_c1 hd rw t data addr baddr secs in
  let a1 := s_io S (h ++ [WIo c1]) in
  let p1 := fill (wc_in c1) (wa_out a1) in
  let d1 := tries_kept rw (sent0 rw data) addr a1 in
  let c2 := ata_c2 hd rw t data addr secs p1 a1 in
  let a2 := s_io S (h ++ [WIo c1; WIo c2]) in
  win_ata S h hd rw dma t data addr baddr secs =
  if wa_err a1 =? 0 then (h ++ [WIo c1], Ok (status_error (nth 46 p1 0), if rw then sent0 rw data else fill (wc_mem c1) (wa_mem a1)))
  else (h ++ [WIo c1; WIo c2],
        Ok (if wa_err a2 =? 0 then (status_error (t_command t), if rw then sent0 rw data else fill d1 (skipn 48 (wa_out a2)))
            else (Some (errno (wa_err a2)), d1))).
Proof.
  intros Hd Hc. cbv zeta. unfold win_ata.
  change (if rw then zeros (List.length data) else data) with (sent0 rw data).
  change sizeof_ata_params with 48%nat.
  rewrite win_tries_closed; [|now apply sent0_nil|intros p o Ho; now destruct (ata_header rw t (blen data) secs p o Ho)|intros; now apply ata_dir].
  cbv zeta. change (tries_first hd IOCTL_ATA_PASS_THROUGH_DIRECT (ata_params rw t (blen data) secs) 48 rw (sent0 rw data) addr baddr)
    with (ata_c1 hd rw t data addr baddr secs).
  set (c1 := ata_c1 hd rw t data addr baddr secs). set (a1 := s_io S (h ++ [WIo c1])). set (p1 := fill (wc_in c1) (wa_out a1)).
  change (tries_second hd IOCTL_ATA_PASS_THROUGH (ata_params rw t (blen data) secs) 48 p1 (tries_kept rw (sent0 rw data) addr a1))
    with (ata_c2 hd rw t data addr secs p1 a1).
  set (c2 := ata_c2 hd rw t data addr secs p1 a1). set (a2 := s_io S (h ++ [WIo c1; WIo c2])).
  unfold status_error. destruct (wa_err a1 =? 0); [destruct (negb (N.land (nth 46 p1 0) (N.lor 1 8) =? 0)); reflexivity|].
  destruct (wa_err a2 =? 0); [|reflexivity].
  rewrite nth_header_cmd; [|unfold p1; rewrite fill_length; apply (ata_header rw t (blen data) secs); apply repeat_length|exact Hc].
  destruct (negb (N.land (t_command t) (N.lor 1 8) =? 0)); reflexivity.
Qed.
Lemma win_ata_empty S h hd rw dma t addr baddr secs : win_ata S h hd rw dma t [] addr baddr secs = (h, Panic).
Proof. unfold win_ata. destruct rw; reflexivity. Qed.

Definition scsi_hdr rw cdb (data : bytes) secs := scsi_params rw cdb (blen data) secs.
Definition scsi_c1 hd rw cdb data addr baddr secs := tries_first hd IOCTL_SCSI_PASS_THROUGH_DIRECT (scsi_hdr rw cdb data secs) 96 rw (sent0 rw data) addr baddr.
Definition scsi_c2 hd rw cdb data addr secs (p1 : bytes) (a1 : wans) :=
  tries_second hd IOCTL_SCSI_PASS_THROUGH (scsi_hdr rw cdb data secs) 96 p1 (tries_kept rw (sent0 rw data) addr a1).
Lemma win_scsi_closed S h hd rw cdb data addr baddr secs : data <> [] -> (List.length cdb <= 16)%nat ->
  let c1 := scsi_c1 hd rw cdb data addr baddr secs in
  let a1 := s_io S (h ++ [WIo c1]) in
  let p1 := fill (wc_in c1) (wa_out a1) in
  let d1 := tries_kept rw (sent0 rw data) addr a1 in
  let c2 := scsi_c2 hd rw cdb data addr secs p1 a1 in
  let a2 := s_io S (h ++ [WIo c1; WIo c2]) in
  win_scsi S h hd rw cdb data addr baddr secs =
  if wa_err a1 =? 0 then (h ++ [WIo c1], Ok (win_sense_error p1, if rw then sent0 rw data else fill (wc_mem c1) (wa_mem a1)))
  else (h ++ [WIo c1; WIo c2],
        Ok (if wa_err a2 =? 0 then (win_sense_error (fill (scsi_hdr rw cdb data secs 96 p1) (wa_out a2)), if rw then sent0 rw data else fill d1 (skipn 96 (wa_out a2)))
            else (Some (errno (wa_err a2)), d1))).
Proof.
  intros Hd Hc. cbv zeta. unfold win_scsi.
  change (if rw then zeros (List.length data) else data) with (sent0 rw data).
  change sizeof_scsi_params with 96%nat.
  rewrite win_tries_closed; [|now apply sent0_nil|intros p o Ho; now destruct (scsi_header rw cdb (blen data) secs p o Ho Hc)|intros; now apply scsi_dir].
  cbv zeta. change (tries_first hd IOCTL_SCSI_PASS_THROUGH_DIRECT (scsi_params rw cdb (blen data) secs) 96 rw (sent0 rw data) addr baddr)
    with (scsi_c1 hd rw cdb data addr baddr secs).
  set (c1 := scsi_c1 hd rw cdb data addr baddr secs). set (a1 := s_io S (h ++ [WIo c1])). set (p1 := fill (wc_in c1) (wa_out a1)).
  change (tries_second hd IOCTL_SCSI_PASS_THROUGH (scsi_params rw cdb (blen data) secs) 96 p1 (tries_kept rw (sent0 rw data) addr a1))
    with (scsi_c2 hd rw cdb data addr secs p1 a1).
  set (c2 := scsi_c2 hd rw cdb data addr secs p1 a1). set (a2 := s_io S (h ++ [WIo c1; WIo c2])).
  destruct (wa_err a1 =? 0); [reflexivity|]. destruct (wa_err a2 =? 0); reflexivity.
Qed.
Lemma win_scsi_empty S h hd rw cdb addr baddr secs : win_scsi S h hd rw cdb [] addr baddr secs = (h, Panic).
Proof. unfold win_scsi. destruct rw; reflexivity. Qed.
