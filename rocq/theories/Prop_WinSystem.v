(** Property theorems C129-C130: Level 0 discovery when a drive is opened on a complete Windows system.  [S] is an arbitrary system: what
    every DeviceIoControl and CreateFile answers may depend on everything that happened before.  [A] are arbitrary buffer addresses. *)
From Verif Require Import Base M_Buffer M_Struc M_Ata M_TcgDevice M_DriveHandle M_Cdb M_SgDriver M_Strings M_LinuxFactory M_WinPass M_WinNvme M_WinInfo M_WinFactory
  Spec_Drive P_Discovery P_DriveHandle Prop_Drive Spec_LinuxFactory P_LinuxFactory Spec_Sg P_Sg Prop_Sg Spec_WinPass Spec_WinNvme Spec_WinInfo P_WinPass P_WinNvme
  Prop_WinPass Prop_WinNvme Prop_WinDrive Prop_WinInfo Spec_WinFactory P_WinFactory Prop_WinFactory Spec_LinuxSystem P_LinuxSystem Prop_LinuxTcg Spec_WinSystem P_WinSystem.

Lemma page_of_zeros sent : delivered (zeros (N.to_nat 4096)) (zeros 2048) sent -> sent = zeros (N.to_nat 4096).
Proof.
  intros D. eapply delivered_unique; [exact D|]. assert (L : forall n, List.length (zeros n) = n) by (intros; apply repeat_length).
  assert (Z : forall n i, (i < n)%nat -> nth_error (zeros n) i = Some 0).
  { intros n. unfold zeros. induction n as [|n IH]; intros i Hi; [lia|]. destruct i; [reflexivity|]. cbn [repeat nth_error]. apply IH. lia. }
  split; [reflexivity|]. rewrite !L. split; [intros i H1; now rewrite !Z by lia|intros i H1; reflexivity].
Qed.
Lemma len2048 : List.length (zeros 2048) = 2048%nat.
Proof. apply repeat_length. Qed.
Lemma blen2048 : blen (zeros 2048) = 2048.
Proof. unfold blen. rewrite len2048. reflexivity. Qed.

(** C129.  The miniport driver sends exactly one request after it accepted the drive: SECURITY RECEIVE (protocol 1, ComID 1, 2048 bytes) to
    the SCSI port, with an all-zero page.  What the port puts into the page is the discovery answer. *)
Theorem C129_level0_over_miniport : forall S A h hd path d g h' r,
  accepted_by S A h hd KNvmeWin d g -> win_open_by_handle S A h hd path = (h', r) ->
  exists call, h' = g ++ [WIo call] /\ wc_handle call = wd_scsi d /\ wc_code call = 0x4d008
  /\ miniport_carries (security_cmd false 1 1 2048) (zeros (N.to_nat 4096)) (wc_in call)
  /\ let a := s_io S h' in
     (win_ok a -> exists page, delivered (zeros (N.to_nat 4096)) (skipn 152 (wa_out a)) page /\ answered (firstn (N.to_nat 2048) page) r d g)
     /\ (~ win_ok a -> opens r d g (discovery_recorded None)).
Proof.
  intros S A h hd path d g h' r Ac H. destruct (open_accepted _ _ _ _ _ _ _ _ _ _ Ac H) as (K & _ & F & b & I).
  destruct (install_discovers S A g path b d h' r F I) as (p & calls & e & ans & Ho & ES & -> & Q).
  assert (N2 : N.to_nat 2048 = List.length (zeros 2048)) by (rewrite len2048; reflexivity).
  destruct (C96_security_over_miniport S A d g p asks false false 1 1 (zeros 2048) 3 calls e ans K Ho ltac:(reflexivity) ltac:(reflexivity)
     ltac:(rewrite blen2048; reflexivity) ES) as [_ C].
  rewrite blen2048 in C. destruct (C ltac:(discriminate)) as (call & sent & R & H1 & H2 & H3 & H4 & H5). clear C.
  change (win_replay S A d g asks) with g in R. apply page_of_zeros in H4. subst sent.
  exists call. split; [exact R|]. split; [exact H1|]. split; [exact H2|]. split; [exact H3|]. cbv zeta in *. destruct H5 as [H5 H6]. split.
  - intros O. destruct (H5 O) as (-> & reply & D & ->). exists reply. split; [exact D|]. rewrite N2. exact Q.
  - intros O. destruct (H6 O) as (-> & _). exact Q.
Qed.
Print Assumptions C129_level0_over_miniport.

(** ... and what was read before: the identify data come from the request the driver made when it accepted the drive. *)
Theorem C129_identify_over_miniport : forall S A h hd path d g h' x, answers_bytes S ->
  accepted_by S A h hd KNvmeWin d g -> win_open_by_handle S A h hd path = (h', Ok x) ->
  exists c, hd_error (rev g) = Some (WIo c) /\ wc_handle c = wd_scsi d /\ wc_code c = 0x4d008
  /\ miniport_carries identify_controller (zeros (N.to_nat 4096)) (wc_in c) /\ win_ok (s_io S g)
  /\ exists id, delivered (zeros (N.to_nat 4096)) (skipn 152 (wa_out (s_io S g))) id /\ nvme_texts id (p_info (f_dh x)).
Proof.
  intros S A h hd path d g h' x WS Ac H. destruct (open_accepted _ _ _ _ _ _ _ _ _ _ Ac H) as (K & _ & F & b & I).
  destruct (install_win S A g (whandle0 path b) d h' _ eq_refl F I) as (cs & _ & _ & [[R _]|(x' & R & _ & _ & Id)]); [discriminate|]. injection R as <-.
  destruct Ac as (h1 & b' & before & after & h2 & _ & _ & _ & P). unfold win_probe in P. cbv zeta in P.
  destruct (nvmewin_open S h2 hd) as (h3, q) eqn:E. apply pair_equal_spec in P as [-> P].
  destruct q as [(sh, i)| | |]; try discriminate. injection P as <-. unfold identified in Id. cbn [wd_kind wd_identity wd_scsi] in *.
  destruct (C92_nvmewin_open S h2 hd g _ WS E) as (c1 & rest & addr & Eh & _ & _ & _ & _ & _ & N1 & N2).
  destruct (N.eq_dec (wa_err (s_io S (h2 ++ [WIo c1]))) 0) as [O|O]; [|destruct (N1 O) as (_ & X); discriminate]. clear N1.
  destruct (N2 O) as (port & _ & M). destruct (s_open S (h2 ++ [WIo c1; WOpen port])) as [y|sh']; [destruct M as (_ & X); discriminate|].
  destruct M as (c2 & M1 & M2 & _ & M4 & M5 & M6). destruct (N.eq_dec (wa_err (s_io S (h2 ++ [WIo c1; WOpen port; WIo c2]))) 0) as [O2|O2]; [|destruct (M6 O2) as (_ & X); discriminate].
  destruct (M5 O2) as (-> & id & X & D). injection X as -> ->. subst g. exists c2. rewrite rev_app_distr. cbn [rev app hd_error].
  split; [reflexivity|]. split; [exact M1|]. split; [exact M2|]. split; [exact M4|]. split; [exact O2|]. exists id. auto.
Qed.
Print Assumptions C129_identify_over_miniport.

(** C130.  The storage-query NVMe driver asks with a SECURITY PROTOCOL IN packet (protocol 1, specific 1, 2048 bytes); if that fails, for
    whatever reason, the drive counts as one without TCG support, and nothing else is tried. *)
Theorem C130_level0_over_storage_query : forall S A h hd path d g h' r, addr_ok A ->
  accepted_by S A h hd KWinNvme d g -> win_open_by_handle S A h hd path = (h', r) ->
  exists cdb e ans, is_security_cdb false 1 1 (zeros 2048) cdb
  /\ scsi_exchange S g hd false cdb (zeros 2048) (ad_data A g) (ad_bounce A g) 3 h' e ans
  /\ (e = None -> answered ans r d g) /\ (e <> None -> opens r d g recorded_unsupported).
Proof.
  intros S A h hd path d g h' r HA Ac H. destruct (open_accepted _ _ _ _ _ _ _ _ _ _ Ac H) as (K & Hh & F & b & I).
  destruct (install_discovers S A g path b d h' r F I) as (p & calls & e & ans & Ho & ES & -> & Q).
  destruct (C97_security_over_scsi S A d g p asks false false 1 1 (zeros 2048) 3 calls e ans ltac:(auto) Ho HA ltac:(reflexivity) ltac:(reflexivity)
    ltac:(rewrite blen2048; reflexivity) ltac:(discriminate) ES) as (k1 & e1 & mid & cdb & C1 & X & N1 & N2 & _).
  change (win_replay S A d g asks) with g in X. rewrite Hh in X. exists cdb, e1, mid. split; [exact C1|].
  destruct e1 as [y|].
  - destruct (N2 ltac:(discriminate) K) as (<- & -> & ->). split; [exact X|]. split; [discriminate|]. intros _. exact Q.
  - destruct (N1 eq_refl) as (<- & -> & ->). split; [exact X|]. split; [intros _; exact Q|congruence].
Qed.
Print Assumptions C130_level0_over_storage_query.

(** The texts of the errors of the pass-through drivers *)
Lemma sense_error_text p x : win_sense_error p = Some x -> err_text x <> "not supported"%string.
Proof. unfold win_sense_error. repeat match goal with |- context [if ?b then _ else _] => destruct b end; intros H; injection H as <- || discriminate H; discriminate. Qed.
Lemma task_file_text S h hd dma t data addr baddr secs h' x got : data <> [] -> wf_tf t ->
  win_task_file S h hd false dma t data addr baddr secs = (h', Ok (Some x, got)) -> err_text x <> "not supported"%string.
Proof.
  intros Hd Wt H. unfold win_task_file in H.
  assert (Lc : (List.length (win_task_cdb t) <= 16)%nat) by (unfold win_task_cdb; destruct (negb _); cbn; lia).
  rewrite win_scsi_closed in H by assumption. cbv zeta in H.
  match type of H with context [if ?c then _ else _] => destruct c end.
  - injection H as _ H _. exact (sense_error_text _ _ H).
  - apply pair_equal_spec in H as [_ H]. match type of H with context [if ?c then _ else _] => destruct c end; injection H as H _.
    + exact (sense_error_text _ _ H).
    + subst x. discriminate.
Qed.
Lemma status_text s x : status_error s = Some x -> err_text x <> "not supported"%string.
Proof. unfold status_error. repeat match goal with |- context [if ?b then _ else _] => destruct b end; intros H; injection H as <- || discriminate H; discriminate. Qed.

(** Over the SCSI driver an ATA TRUSTED RECEIVE packet follows a failed SECURITY PROTOCOL IN; only if both fail there is no answer. *)
Theorem C130_level0_over_scsi : forall S A h hd path d g h' r, addr_ok A ->
  accepted_by S A h hd KScsi d g -> win_open_by_handle S A h hd path = (h', r) ->
  exists cdb1 h1 e1 mid, is_security_cdb false 1 1 (zeros 2048) cdb1
  /\ scsi_exchange S g hd false cdb1 (zeros 2048) (ad_data A g) (ad_bounce A g) 3 h1 e1 mid
  /\ (e1 = None -> h' = h1 /\ answered mid r d g)
  /\ (e1 <> None -> exists cdb2 e2 ans, is_trusted_cdb false false 1 1 (zeros 2048) cdb2
        /\ scsi_exchange S h1 hd false cdb2 mid (ad_data A h1) (ad_bounce A h1) 3 h' e2 ans
        /\ (e2 = None -> answered ans r d g) /\ (e2 <> None -> opens r d g (discovery_recorded None))).
Proof.
  intros S A h hd path d g h' r HA Ac H. destruct (open_accepted _ _ _ _ _ _ _ _ _ _ Ac H) as (K & Hh & F & b & I).
  destruct (install_discovers S A g path b d h' r F I) as (p & calls & e & ans & Ho & ES & -> & Q).
  assert (T : forall x, e = Some x -> err_text x <> "not supported"%string).
  { intros x ->. unfold security_command in ES. unfold over_win in Ho. rewrite Ho, K in ES. cbv zeta in ES. cbn [win_dtype is_ata is_nvme] in ES.
    set (s := CSec false false 1 1 (zeros 2048) 3) in *. destruct (v_io (win_drv S A d g) (asks ++ [s])) as (e1, new1). destruct e1 as [y|]; [|discriminate ES].
    rewrite win_drv_io in ES. rewrite (fallback_task false false 1 1 (zeros 2048)) in ES. set (k1 := win_replay S A d g (asks ++ [s])) in ES.
    unfold win_exec in ES. rewrite K in ES.
    assert (Ne : fill (zeros 2048) new1 <> []). { intros Z. apply (f_equal (@List.length N)) in Z. rewrite fill_length, len2048 in Z. discriminate Z. }
    destruct (win_task_file S k1 (wd_handle d) false false (trusted_task false false 1 1 (zeros 2048)) (fill (zeros 2048) new1) (ad_data A k1) (ad_bounce A k1) (Z.of_N 3)) as (k2, r2) eqn:E2.
    cbn [snd] in ES. destruct r2 as [(e2, got)| | |]; [|cbn [fst snd] in ES; discriminate ES..].
    apply pair_equal_spec in ES as [_ ES]. apply pair_equal_spec in ES as [-> _].
    refine (task_file_text S k1 (wd_handle d) false (trusted_task false false 1 1 (zeros 2048)) _ _ _ _ _ _ _ Ne _ E2). apply trusted_wf. reflexivity. }
  destruct (C97_security_over_scsi S A d g p asks false false 1 1 (zeros 2048) 3 calls e ans ltac:(auto) Ho HA ltac:(reflexivity) ltac:(reflexivity)
    ltac:(rewrite blen2048; reflexivity) ltac:(discriminate) ES) as (k1 & e1 & mid & cdb & C1 & X & N1 & _ & N3).
  change (win_replay S A d g asks) with g in X. rewrite Hh in *. exists cdb, k1, e1, mid. split; [exact C1|]. split; [exact X|]. split.
  - intros ->. destruct (N1 eq_refl) as (<- & -> & ->). auto.
  - intros Ne. destruct (N3 Ne K) as (cdb2 & C2 & X2). exists cdb2, e, ans. split; [exact C2|]. split; [exact X2|].
    destruct e as [x|]; (split; [try discriminate|try congruence]); intros _; [|exact Q].
    destruct (String.eqb_spec (err_text x) "not supported") as [B|_]; [destruct (T x eq_refl B)|exact Q].
Qed.
Print Assumptions C130_level0_over_scsi.

(** Over the ATA driver only TRUSTED RECEIVE (5Ch, protocol 1, ComID 1, 4 sectors) is sent.  It is answered if the direct request goes
    through and the device reports neither error nor data request; whatever the buffered second attempt brings is never used. *)
Definition trusted_receive (t : tf) : Prop :=
  t_command t = 0x5C /\ tf_features t = 1 /\ tf_count t = 4 /\ tf_lba t = 0x100 /\ t_dev t = 0 /\ tf_is_lba48 t = false.
Theorem C130_level0_over_ata : forall S A h hd path d g h' r, addr_ok A ->
  accepted_by S A h hd KAta d g -> win_open_by_handle S A h hd path = (h', r) ->
  exists c1 rest t p1, h' = g ++ WIo c1 :: rest /\ wc_handle c1 = hd /\ wc_code c1 = 0x4d030
  /\ trusted_receive t /\ ata_request false t 2048 3 (wc_in c1)
  /\ let a1 := s_io S (g ++ [WIo c1]) in
     delivered (wc_in c1) (wa_out a1) p1
  /\ let good := win_ok a1 /\ N.testbit (ap_command (apt_decode p1)) 0 = false /\ N.testbit (ap_command (apt_decode p1)) 3 = false in
     (good -> rest = [] /\ exists ans, delivered (zeros 2048) (wa_mem a1) ans /\ answered ans r d g)
     /\ (~ good -> opens r d g (discovery_recorded None)).
Proof.
  intros S A h hd path d g h' r HA Ac H. destruct (open_accepted _ _ _ _ _ _ _ _ _ _ Ac H) as (K & Hh & F & b & I).
  destruct (install_discovers S A g path b d h' r F I) as (p & calls & e & ans & Ho & ES & -> & Q).
  unfold security_command in ES. unfold over_win in Ho. rewrite Ho, K in ES. cbv zeta in ES. cbn [win_dtype is_ata is_nvme] in ES.
  set (s := CSec false false 1 1 (zeros 2048) 3) in *.
  assert (X1 : win_exec S A d g s = (g, Ok (Some not_supported, zeros 2048))) by (unfold win_exec, s; rewrite K; reflexivity).
  assert (E1 : v_io (win_drv S A d g) (asks ++ [s]) = (Some not_supported, zeros 2048)).
  { rewrite win_drv_io. change (win_replay S A d g asks) with g. rewrite X1. reflexivity. }
  assert (R1 : win_replay S A d g (asks ++ [s]) = g) by (rewrite win_replay_app; change (win_replay S A d g asks) with g; unfold s; rewrite step_sec; fold s; rewrite X1; reflexivity).
  rewrite E1, fill_same, (fallback_task false false 1 1 (zeros 2048)) in ES. set (t := trusted_task false false 1 1 (zeros 2048)) in *.
  assert (Wt : wf_tf t) by (apply trusted_wf; reflexivity).
  assert (Z : win_exec S A d g (CTask false false t (zeros 2048) 3) = win_ata S g hd false false t (zeros 2048) (ad_data A g) (ad_bounce A g) 3)
    by (unfold win_exec; rewrite K, Hh; reflexivity).
  destruct (win_ata S g hd false false t (zeros 2048) (ad_data A g) (ad_bounce A g) 3) as [k2 r2] eqn:E2.
  assert (Ne : zeros 2048 <> []) by discriminate.
  assert (B : blen (zeros 2048) = 2048) by apply blen2048.
  assert (Tc : t_command t = 0x5C) by reflexivity.
  assert (Tr : trusted_receive t) by (vm_compute; auto 10).
  assert (Hd512 : List.length (zeros 2048) = 2048%nat) by apply len2048.
  pose proof (C85_ata_requests _ _ _ _ _ _ _ _ _ _ _ _ Wt (proj1 (HA g)) (proj2 (HA g)) Ne E2) as (c1 & rest & Hk2 & H1 & H2 & _ & _ & H3 & _ & _ & _ & _ & H4).
  pose proof (C86_ata_reads _ _ _ _ _ _ _ _ _ _ _ Wt Ne E2) as (e3 & got & c1' & rest' & mid & Er3 & Hk3 & G1 & G2 & _).
  pose proof (C87_ata_result _ _ _ _ _ _ _ _ _ _ _ _ Wt Ne E2) as (e4 & got4 & c14 & rest4 & p1 & Er4 & Hk4 & D4 & J1 & J2 & J3).
  assert (Zz : zeros (List.length (zeros 2048)) = zeros 2048) by (f_equal; apply len2048).
  remember (zeros 2048) as z eqn:Ez. clear Ez.
  assert (Hk5 := Hk3). rewrite Hk2 in Hk5. apply app_inv_head in Hk5. injection Hk5 as <- <-.
  assert (Hk5 := Hk4). rewrite Hk2 in Hk5. apply app_inv_head in Hk5. injection Hk5 as <- <-.
  assert (X := Er4). rewrite Er3 in X. injection X as <- <-. subst r2.
  assert (V2 : v_io (win_drv S A d g) ((asks ++ [s]) ++ [CTask false false t z 3]) = (e3, got)) by (rewrite win_drv_io, R1, Z; reflexivity).
  rewrite V2 in ES. apply pair_equal_spec in ES as [<- ES]. apply pair_equal_spec in ES as [<- <-].
  rewrite win_replay_app, R1, step_task, Z. cbn [fst].
  exists c1, rest, t, p1. split; [exact Hk2|]. split; [exact H1|]. split; [exact H2|]. split; [exact Tr|]. split; [rewrite B in H3; exact H3|]. cbv zeta in *. split; [exact D4|].
  assert (T : forall x, e3 = Some x -> err_text x <> "not supported"%string).
  { intros x ->. rewrite win_ata_closed in E2 by (assumption || (rewrite Tc; reflexivity)). cbv zeta in E2.
    match type of E2 with context [if ?c then _ else _] => destruct c end.
    - injection E2 as _ E2 _. exact (status_text _ _ E2).
    - apply pair_equal_spec in E2 as [_ E2]. match type of E2 with context [if ?c then _ else _] => destruct c end; injection E2 as E2 _.
      + subst x. discriminate.
      + subst x. discriminate. }
  destruct H4 as [H4 _]. split.
  - intros (O & S0 & S3). destruct (J1 O) as [J1' _]. rewrite (J1' (conj S0 S3)) in Q. split; [exact (H4 O)|]. specialize (G2 O). rewrite Zz in G2. exists got.
    assert (Gd : delivered z (wa_mem (s_io S (g ++ [WIo c1]))) got) by (destruct (ad_data A g mod 512 =? 0); exact G2).
    split; [exact Gd|]. rewrite (fill_whole z got) in Q by (symmetry; apply Gd). exact Q.
  - intros NG. assert (Ee : e3 <> None).
    { intros Ee. rewrite Ee in E2. destruct (C87_fallback_useless _ _ _ _ _ _ _ _ _ _ _ _ Wt (or_intror (f_equal (fun c => N.testbit c 3) Tc)) E2) as (c & Ec & Oc).
      rewrite Hk2 in Ec. apply app_inv_head in Ec. injection Ec as <- ->. rewrite Hk2 in Oc.
      apply NG. split; [exact Oc|]. destruct (J1 Oc) as [_ J1'].
      destruct (N.testbit (ap_command (apt_decode p1)) 0); [destruct (J1' (or_introl eq_refl)) as (? & ?); congruence|].
      destruct (N.testbit (ap_command (apt_decode p1)) 3); [destruct (J1' (or_intror eq_refl)) as (? & ?); congruence|auto]. }
    destruct e3 as [x|]; [|congruence]. destruct (String.eqb_spec (err_text x) "not supported") as [Bd|_]; [destruct (T x eq_refl Bd)|exact Q].
Qed.
Print Assumptions C130_level0_over_ata.
