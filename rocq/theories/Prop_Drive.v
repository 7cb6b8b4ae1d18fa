(** Property theorems C32-C43 (drive handles and log pages).  [V : drv] is an arbitrary driver, a function of the whole
    history of calls; [p] is any state of the handle. *)
From Verif Require Import Base Spec_Buffer M_Buffer M_Struc M_Ata M_TcgDevice M_DriveHandle Spec_Drive P_Struc P_Discovery P_DriveHandle.

(** The call by which discovery asks the drive for its Level 0 data, with history and result. *)
Definition level0_read (V : drv) (p : dh) (h h1 : dhist) (e : option err) (buf : bytes) : Prop :=
  security_command V p h false false 0x01 0x0001 (zeros 2048) 3 = (h1, (e, buf)).

(** C32 *)
Theorem C32_discovery_reports_features : forall V p h h1 header fs rest,
  Forall feature_ok fs -> i_raw_made (p_info p) = true ->
  level0_read V p h h1 None (header ++ descriptors fs ++ rest) ->
  List.length header = 32%nat -> be32_at 0 header = 32 + blen (descriptors fs) ->
  exists p', tcg_discovery0 V p h = (h1, (p', Ok tt)) /\ p_dh p' = p_dh p /\ i_support (p_info p') = 1%Z
  /\ i_raw_made (p_info p') = true
  /\ same_identity (p_info p) (p_info p') /\ adds_features (i_tcg (p_info p)) (i_tcg (p_info p')) fs.
Proof. intros. now apply c32 with header rest. Qed.
Print Assumptions C32_discovery_reports_features.

(** C33: a 48-byte header whose 16 vendor-specific bytes are zero.  The length field counts the bytes after itself
    (TCG core spec) or all bytes. *)
Theorem C33_conforming_header : forall V p h h1 header fs rest,
  Forall feature_ok fs -> i_raw_made (p_info p) = true ->
  level0_read V p h h1 None (header ++ zeros 16 ++ descriptors fs ++ rest) ->
  List.length header = 32%nat ->
  (be32_at 0 header = 44 + blen (descriptors fs) /\ Forall (fun f => ft_body f <> []) fs
   \/ be32_at 0 header = 48 + blen (descriptors fs)) ->
  exists p', tcg_discovery0 V p h = (h1, (p', Ok tt)) /\ i_support (p_info p') = 1%Z
  /\ same_identity (p_info p) (p_info p')
  /\ adds_features (set_raw 0 (zeros 4) (i_tcg (p_info p))) (i_tcg (p_info p')) fs.
Proof. intros. now apply c33 with header rest. Qed.
Print Assumptions C33_conforming_header.

(** A drive answering every request with [buf]. *)
Definition steady (buf : bytes) : drv :=
  {| v_io := fun _ => (None, buf); v_tf := fun _ => tf0; v_identity := fun _ => []; v_log := fun _ => ([], None);
     v_type := fun _ => 0; v_name := fun _ => [] |}.
Definition fresh_handle : dh :=
  {| p_dh := Some {| is_ata := false; is_nvme := false |}; p_info := set_tcg (new_info []) true no_level0 |}.
Definition opal2_feature : feature := {| ft_code := 0x0203; ft_version := 0x10; ft_body := [7; 0xFE; 0; 1; 0; 0; 4; 0; 8; 0; 0; 0; 0; 0; 0; 0] |}.
(** Conforming answers (48-byte header, one Opal v2 descriptor) that differ only in the vendor bytes. *)
Definition conforming (vendor : bytes) : bytes :=
  be_bytes 4 (44 + 20) ++ [0; 0; 0; 1] ++ zeros 24 ++ vendor ++ descriptor opal2_feature ++ zeros (2048 - 68).
Definition flags_of (r : dhist * (dh * res unit)) : bool * bool :=
  let t := i_tcg (p_info (fst (snd r))) in (l_opal2 t, l_locking t).

Theorem C33_header_size_refuted :
  (* zero vendor bytes: Opal v2 is reported, Locking is not *)
  flags_of (tcg_discovery0 (steady (conforming (zeros 16))) fresh_handle []) = (true, false) /\
  (* vendor bytes that read as a Locking descriptor: a feature the drive does not list is reported *)
  (exists vendor, List.length vendor = 16%nat /\ wf vendor /\
     flags_of (tcg_discovery0 (steady (conforming vendor)) fresh_handle []) = (true, true)) /\
  (* vendor bytes that read as a long descriptor: the listed feature is missed *)
  (exists vendor, List.length vendor = 16%nat /\ wf vendor /\
     flags_of (tcg_discovery0 (steady (conforming vendor)) fresh_handle []) = (false, false)) /\
  (* and in all three cases discovery reports success *)
  forall vendor, In vendor [zeros 16; [0; 2; 0x10; 12] ++ zeros 12; [0xFF; 0xFF; 0; 0x40] ++ zeros 12] ->
     snd (snd (tcg_discovery0 (steady (conforming vendor)) fresh_handle [])) = Ok tt.
Proof.
  assert (W : forall a b c d, a < 256 -> b < 256 -> c < 256 -> d < 256 -> wf ([a; b; c; d] ++ zeros 12)).
  { intros. apply wf_app. split; [repeat (apply wf_cons; split; [assumption|]); apply wf_nil|apply wf_zeros]. }
  split; [vm_compute; reflexivity|]. split.
  { exists ([0; 2; 0x10; 12] ++ zeros 12). split; [reflexivity|]. split; [apply W; lia|]. vm_compute. reflexivity. }
  split.
  { exists ([0xFF; 0xFF; 0; 0x40] ++ zeros 12). split; [reflexivity|]. split; [apply W; lia|]. vm_compute. reflexivity. }
  intros vendor H. cbn [In] in H. destruct H as [<-|[<-|[<-|[]]]]; vm_compute; reflexivity.
Qed.
Print Assumptions C33_header_size_refuted.

(** C34.  [L] is the length field; without a map (Init never completed) any descriptor panics. *)
Theorem C34_discovery_total : forall V p h h1 buf, level0_read V p h h1 None buf ->
  List.length buf = 2048%nat /\
  let L := be32_at 0 buf in
  let '(h', (p', r)) := tcg_discovery0 V p h in
  h' = h1 /\ p_dh p' = p_dh p /\
  ((r = Err (EMsg "invalid data: length overflow") /\ 2048 < L)
   \/ (r = Panic /\ L <= 2048 /\ (if i_raw_made (p_info p) then runs_over buf (N.to_nat L) else 32 < L))
   \/ (r = Ok tt /\ L <= 2048 /\ (if i_raw_made (p_info p) then ~ runs_over buf (N.to_nat L) else L <= 32))).
Proof. exact c34. Qed.
Print Assumptions C34_discovery_total.

(** C35 *)
Theorem C35_support_flag : forall V p h h1 e buf, level0_read V p h h1 e buf ->
  let '(h', (p', r)) := tcg_discovery0 V p h in
  h' = h1 /\ p_dh p' = p_dh p /\ same_identity (p_info p) (p_info p') /\ i_raw_made (p_info p') = i_raw_made (p_info p) /\
  match e with
  | Some x => r = Err x /\ i_tcg (p_info p') = i_tcg (p_info p)
      /\ (i_support (p_info p') = (-1)%Z <-> err_text x = "not supported"%string)
      /\ (i_support (p_info p') = 0%Z <-> err_text x <> "not supported"%string)
  | None => i_support (p_info p') = 1%Z
  end.
Proof. exact c35. Qed.
Print Assumptions C35_support_flag.

(** C36.  Init can only return nil or panic (in discovery, C34) once the identity block is long enough. *)
Theorem C36_ata_identity : forall V p h h' p' r,
  p_dh p = Some {| is_ata := true; is_nvme := false |} -> List.length (i_raw_serial (p_info p)) = 20%nat ->
  init V p h = (h', (p', r)) ->
  let raw := v_identity V (h ++ [CIdentity]) in
  let i := p_info p' in
  (512 <= List.length raw)%nat ->
  (r = Ok tt \/ r = Panic) /\ p_dh p' = p_dh p /\ i_ata_raw i = Some raw
  /\ (exists m, word_swapped (slice (2 * 27) 40 raw) m /\ trimmed m (i_model i))
  /\ (exists s, word_swapped (slice (2 * 10) 20 raw) s /\ trimmed s (i_serial i) /\ i_raw_serial i = s)
  /\ (exists f, word_swapped (slice (2 * 23) 8 raw) f /\ trimmed f (i_fw i))
  /\ i_smart i = (N.testbit (word 82 raw) 0 && N.testbit (word 85 raw) 0)%bool.
Proof.
  intros V p h h' p' r Hd Hs H raw i Hl.
  destruct (init_ata_full V p h h' p' r Hd Hs H Hl) as (A & B & C & D & E & F & G & _). auto 10.
Qed.
Print Assumptions C36_ata_identity.

(** The trimmed text is unique, so C36 and C38 determine the strings. *)
Theorem C36_trimmed_unique : forall s t1 t2, trimmed s t1 -> trimmed s t2 -> t1 = t2.
Proof. exact trimmed_unique. Qed.
Print Assumptions C36_trimmed_unique.

(** C37 *)
Theorem C37_ssd_decision : forall V p h h' p' r,
  List.length (i_raw_serial (p_info p)) = 20%nat -> init V p h = (h', (p', r)) ->
  let raw := v_identity V (h ++ [CIdentity]) in
  let i := p_info p' in
  (p_dh p = Some {| is_ata := true; is_nvme := false |} -> (512 <= List.length raw)%nat ->
     (i_ssd i = true <-> bits 3 0 (word 168 raw) = 5 \/ word 217 raw = 0 \/ word 217 raw = 1)
     /\ i_weight i = (if bits 3 0 (word 168 raw) =? 5 then 1 else 0) + (if word 217 raw <=? 1 then 1 else 0)) /\
  (p_dh p = Some {| is_ata := false; is_nvme := true |} -> 4096 <= blen raw ->
     i_ssd i = true /\ i_smart i = true /\ i_weight i = 0).
Proof.
  intros V p h h' p' r Hs H raw i. split; intros Hd Hl.
  - destruct (init_ata_full V p h h' p' r Hd Hs H Hl) as (_ & _ & _ & _ & _ & _ & _ & W & S). fold raw in W, S. fold i in W, S.
    rewrite S, W. split; [|reflexivity].
    generalize (bits 3 0 (word 168 raw)) (word 217 raw). intros a b. clear.
    destruct (N.eqb_spec a 5), (N.leb_spec b 1); lia.
  - destruct (init_nvme_full V p h h' p' r Hd Hs H Hl) as (_ & _ & _ & _ & _ & _ & _ & A & B & C). auto.
Qed.
Print Assumptions C37_ssd_decision.

(** C38 *)
Theorem C38_nvme_identity : forall V p h h' p' r,
  p_dh p = Some {| is_ata := false; is_nvme := true |} -> List.length (i_raw_serial (p_info p)) = 20%nat ->
  init V p h = (h', (p', r)) ->
  let raw := v_identity V (h ++ [CIdentity]) in
  let i := p_info p' in
  4096 <= blen raw ->
  (r = Ok tt \/ r = Panic) /\ p_dh p' = p_dh p /\ i_nvme_raw i = Some raw
  /\ trimmed (slice 4 20 raw) (i_serial i) /\ trimmed (slice 24 40 raw) (i_model i) /\ trimmed (slice 64 8 raw) (i_fw i)
  /\ i_raw_serial i = slice 4 20 raw.
Proof.
  intros V p h h' p' r Hd Hs H raw i Hl.
  destruct (init_nvme_full V p h h' p' r Hd Hs H Hl) as (A & B & C & D & E & F & G & _). auto 10.
Qed.
Print Assumptions C38_nvme_identity.

Theorem C38_short_identity : forall V p ty h, p_dh p = Some ty -> is_ata ty || is_nvme ty = true ->
  let raw := v_identity V (h ++ [CIdentity]) in
  blen raw < (if is_ata ty then 512 else 4096) ->
  exists e, init V p h = (h ++ [CIdentity],
    (with_info p (if is_ata ty then set_ata_raw (p_info p) raw else set_nvme_raw (p_info p) raw), Err e))
  /\ (e = EEOF \/ e = EUnexpectedEOF).
Proof.
  intros V p ty h Hd Hi raw Hl. unfold init. rewrite Hd. fold raw. destruct (is_ata ty).
  - destruct (init_ata_short (p_info p) raw) as (e & E & He); [unfold blen in Hl; lia|]. rewrite E. exists e. split; [reflexivity|exact He].
  - cbn [orb] in Hi. rewrite Hi. destruct (init_nvme_short (p_info p) raw Hl) as (e & E & He). cbv beta iota zeta. fold raw. rewrite E. exists e. split; [reflexivity|exact He].
Qed.
Print Assumptions C38_short_identity.

(** C39: the driver sees [cs] (no Close) before the first Close, exactly one Close then, and nothing afterwards. *)
Theorem C39_close_once : forall V ty p h before after, p_dh p = Some ty -> existsb is_close before = false ->
  exists cs i' outs1 outs2,
    hrun V p h (before ++ HClose :: after) =
      (h ++ cs ++ [CClose], ({| p_dh := None; p_info := i' |}, outs1 ++ OutNone :: outs2))
    /\ closes cs = 0%nat /\ fst (hrun V p h before) = h ++ cs
    /\ List.length outs1 = List.length before /\ Forall2 dead_answer after outs2.
Proof. exact c39. Qed.
Print Assumptions C39_close_once.

Theorem C39_never_closed : forall V ty p h ops, p_dh p = Some ty -> existsb is_close ops = false ->
  exists cs p' outs, hrun V p h ops = (h ++ cs, (p', outs)) /\ p_dh p' = Some ty /\ closes cs = 0%nat
  /\ List.length outs = List.length ops.
Proof. intros V ty p h ops H1 H2. exact (live_run V ty ops p h H1 H2). Qed.
Print Assumptions C39_never_closed.

(** C40.  [fill b new] is the buffer [b] after the callee stored [new] from its start. *)
Theorem C40_security_fallback : forall V p h rw dma proto comId buf timeout, proto < 256 -> comId < 65536 ->
  let '(h', (e, out)) := security_command V p h rw dma proto comId buf timeout in
  List.length out = List.length buf /\
  match p_dh p with
  | None => h' = h /\ e = Some (EMsg "not supported") /\ out = buf
  | Some ty =>
    let h1 := h ++ [CSec rw dma proto comId buf timeout] in
    let e1 := fst (v_io V h1) in
    let buf1 := fill buf (snd (v_io V h1)) in
    match e1 with
    | None => h' = h1 /\ e = None /\ out = buf1
    | Some _ =>
      if is_ata ty then
        exists t, h' = h1 ++ [CTask rw dma t buf1 timeout] /\ e = fst (v_io V h') /\ out = fill buf1 (snd (v_io V h'))
          /\ t_command t = trusted_opcode rw dma /\ g_feat (t_lob t) = proto /\ trusted_com_id t = comId
          /\ trusted_blocks t = (blen buf / 512) mod 256
          /\ t_dev t = 0 /\ t_lba48 t = 0 /\ t_hob t = regs0
      else if is_nvme ty then
        exists c, h' = h1 ++ [CAdmin c] /\ e = fst (v_io V h') /\ out = fill buf1 (snd (v_io V h'))
          /\ c_opcode c = (if rw then 0x81 else 0x82) /\ c_data c = buf1
          /\ bits 31 24 (c_cdw10 c) = proto /\ bits 23 8 (c_cdw10 c) = comId /\ bits 7 0 (c_cdw10 c) = 0
          /\ c_cdw11 c = blen buf mod 2 ^ 32 /\ c_data_len c = blen buf mod 2 ^ 32 /\ c_nsid c = 0 /\ c_data_addr c = 0
      else h' = h1 /\ e = e1 /\ out = buf1
    end
  end.
Proof. exact c40. Qed.
Print Assumptions C40_security_fallback.

(** C41: [t] is the task file of the fallback (C40); 512 * blocks is the transfer the drive is asked for. *)
Theorem C41_transfer_length : forall V p ty h rw dma proto comId buf timeout x, proto < 256 -> comId < 65536 ->
  p_dh p = Some ty -> is_ata ty = true -> fst (v_io V (h ++ [CSec rw dma proto comId buf timeout])) = Some x ->
  exists t d, fst (security_command V p h rw dma proto comId buf timeout)
      = h ++ [CSec rw dma proto comId buf timeout; CTask rw dma t d timeout]
  /\ (512 * trusted_blocks t = blen buf <-> blen buf mod 512 = 0 /\ blen buf < 131072)
  /\ 512 * trusted_blocks t <= blen buf.
Proof.
  intros V p ty h rw dma proto comId buf timeout x Hp Hc Hd Ha He.
  pose proof (c40 V p h rw dma proto comId buf timeout Hp Hc) as H. rewrite Hd, Ha in H.
  destruct (security_command V p h rw dma proto comId buf timeout) as (h', (e, out)). cbv zeta in H. rewrite He in H.
  destruct H as (_ & t & -> & _ & _ & _ & _ & _ & Hb & _). exists t. eexists. split; [cbn [fst]; rewrite <- app_assoc; reflexivity|].
  rewrite Hb. split; [apply c41|]. clear. lia.
Qed.
Print Assumptions C41_transfer_length.

(** C42 *)
Theorem C42_log_page_retry : forall V h nsid logId rae size,
  match size with
  | Zneg _ => nvme_get_log_page_by_admin_passthru V h nsid logId rae size = (h, Panic)
  | Z0 => nvme_get_log_page_by_admin_passthru V h nsid logId rae size = (h, Ok ([], None))
  | Zpos q => let n := Npos q in
    exists h' d r, nvme_get_log_page_by_admin_passthru V h nsid logId rae size = (h', Ok (d, r))
    /\ blen d = n
    /\ attempts V (log_page_cmd nsid logId rae n) (N.to_nat ((n + 4095) / 4096)) h (zeros (N.to_nat n)) h' d r
  end.
Proof. exact c42. Qed.
Print Assumptions C42_log_page_retry.

(** The same in terms of the calls [cs] the driver sees. *)
Theorem C42_log_page_calls : forall V h nsid logId rae q,
  let n := Npos q in
  exists cs d r, nvme_get_log_page_by_admin_passthru V h nsid logId rae (Zpos q) = (h ++ cs, Ok (d, r))
  /\ blen d = n /\ 1 <= N.of_nat (List.length cs) <= (n + 4095) / 4096
  /\ Forall (fun c => exists b, c = CAdmin (log_page_cmd nsid logId rae n b)) cs
  /\ (forall i, (S i < List.length cs)%nat -> fst (v_io V (h ++ firstn (S i) cs)) <> None)
  /\ r = fst (v_io V (h ++ cs))
  /\ (r <> None -> N.of_nat (List.length cs) = (n + 4095) / 4096).
Proof.
  intros V h nsid logId rae q n. destruct (c42 V h nsid logId rae (Zpos q)) as (h' & d & r & E & Hd & Ha).
  apply attempts_facts in Ha as (cs & -> & Hl & _ & Hc & Hi & Hr & Hn). exists cs, d, r. rewrite E. fold n in Hl, Hn, Hd, Hc |- *.
  repeat split; auto; try lia.
Qed.
Print Assumptions C42_log_page_calls.

(** C43 *)
Theorem C43_log_page_encoding : forall nsid logId (rae : bool) n data, logId < 256 -> 4 <= n -> n / 4 <= 2 ^ 32 ->
  let c := log_page_cmd nsid logId rae n data in
  c_opcode c = 0x02 /\ c_nsid c = nsid /\ c_data c = data /\ c_data_len c = n mod 2 ^ 32 /\
  bits 31 16 (c_cdw10 c) + 2 ^ 16 * bits 15 0 (c_cdw11 c) = n / 4 - 1 /\
  bits 7 0 (c_cdw10 c) = logId /\ bits 11 8 (c_cdw10 c) = 0 /\ bits 14 12 (c_cdw10 c) = 0 /\
  bits 15 15 (c_cdw10 c) = (if rae then 1 else 0) /\ bits 31 16 (c_cdw11 c) = 0 /\ c_cdw10 c < 2 ^ 32 /\
  c_flags c = 0 /\ c_cdw2 c = 0 /\ c_cdw3 c = 0 /\ c_metadata c = 0 /\ c_cdw12 c = 0 /\ c_cdw13 c = 0 /\ c_cdw14 c = 0 /\ c_cdw15 c = 0.
Proof. exact c43. Qed.
Print Assumptions C43_log_page_encoding.

Theorem C43_tiny_sizes : forall nsid logId (rae : bool) n data, 0 < n < 4 ->
  let c := log_page_cmd nsid logId rae n data in
  c_cdw11 c = 0xFFFF /\ bits 31 16 (c_cdw10 c) = 0xFFFF.
Proof. exact c43_small. Qed.
Print Assumptions C43_tiny_sizes.
