(** C147: health data of a drive opened by path, on a complete Linux system. *)
From Verif Require Import Base M_Buffer M_Struc M_Layouts M_Ata M_TcgDevice M_DriveHandle M_AtaUtil M_Cdb M_SgDriver M_SgHandle M_NvmeLinux M_Strings M_LinuxInfo M_LinuxFactory
  M_LinuxSystem Spec_Drive Spec_Identity P_Discovery P_DriveHandle P_Identity Prop_Drive Prop_Identity Spec_LinuxFactory P_LinuxFactory Prop_LinuxFactory Spec_NvmeLinux P_NvmeLinux Spec_Sg P_Sg Prop_Sg
  Prop_NvmeLinux Prop_SgHandle Spec_LinuxSystem P_LinuxSystem Prop_LinuxSystem Prop_LinuxTcg Prop_LinuxSataTcg Spec_Health.

(** NvmeGetLogPage on an NVMe drive opened by path: only GET LOG PAGE commands for the page asked for, to the descriptor opened; the
    result is what the last of them delivered. *)
Theorem C147_nvme_log_page : forall S h path h' x fd nsid logId (rae : bool) q cs page e,
  addresses_ok S -> w_open (sy_world S) (h ++ [LOpen path]) = inr fd -> open_by_path (linux S) h path = (h', Ok x) ->
  l_driver_name x = str "LinuxNvmeDriver" -> nsid < 2 ^ 32 -> logId < 256 -> 4 <= N.pos q < 2 ^ 32 ->
  forall V, l_drv x = Some V -> nvme_get_log_page V (l_dh x) (l_calls x) nsid logId rae (Zpos q) = (cs, (page, e)) ->
  let at_ := at_nvme h path fd in
  let K := sy_nvme S at_ in
  let opening := nvme_ioctls S at_ x in
  let after := nvme_ioctls S at_ (with_calls x cs) in
  blen page = N.pos q
  /\ kernel_attempts K (wants_log_page fd nsid logId rae (N.pos q) (sy_nvme_addr S at_)) (Pos.to_nat q) (N.to_nat ((N.pos q + 4095) / 4096))
       opening (zeros (Pos.to_nat q)) after page e.
Proof.
  intros S h path h' x fd nsid logId rae q cs page e HS Ew H Hn Hns Hl Hq V HV HL at_ K opening after.
  destruct (nvme_opened S h path h' x fd HS Ew H Hn) as (c1 & c2 & id & ans & E & _ & _ & _ & _ & _ & _ & _ & _ & _ & _ & E1 & Ef & Ho & Ed).
  fold at_ in E, E1, Ed. fold K in E1, Ed. fold opening in E. rewrite Ed in HV. injection HV as <-.
  assert (Eo : nv_replay K fd (sy_nvme_addr S at_) [c1] (l_calls x) = opening) by (unfold opening, nvme_ioctls; cbv zeta; fold at_ K; rewrite Ef, E1; reflexivity).
  unfold nvme_get_log_page in HL. rewrite Ho in HL. cbn [is_nvme] in HL. cbv zeta in HL. injection HL as <- HL.
  unfold nv_drv in HL. cbn [v_log] in HL. unfold last_call in HL. rewrite rev_app_distr in HL. cbn [rev app] in HL. rewrite rev_involutive, Eo in HL.
  destruct (nv_log_page K fd (sy_nvme_addr S at_) opening nsid logId rae (Zpos q)) as [kh' r] eqn:EL.
  destruct (C73_log_page_over_nvme _ _ _ _ _ _ _ _ _ _ Hns Hl Hq (proj1 HS _) EL) as (d & e' & -> & Ld & KA).
  cbn [snd] in HL. injection HL as -> ->. split; [exact Ld|].
  assert (Ea : after = kh').
  { unfold after, nvme_ioctls. cbv zeta. cbn [with_calls l_fd l_calls]. fold at_ K. rewrite Ef, E1. unfold nv_replay. rewrite fold_left_app.
    fold (nv_replay K fd (sy_nvme_addr S at_) [c1] (l_calls x)). rewrite Eo. cbn [fold_left nv_exec]. rewrite EL. reflexivity. }
  rewrite Ea. exact KA.
Qed.
Print Assumptions C147_nvme_log_page.

(** ReadSmart on a SATA drive opened by path. *)
Lemma smart_step K kh t feature d addr secs h' r : smart_read feature t -> feature < 256 -> List.length d = 512%nat ->
  sg_task_file K kh false false t (Some d) addr secs = (h', r) ->
  exists e t' got c rest, r = Ok (e, (t', Some got)) /\ h' = kh ++ c :: rest /\ (List.length rest <= 1)%nat /\ Forall (smart_request feature) (c :: rest)
  /\ List.length got = 512%nat /\ (forall block, answers_block K (kh ++ [c]) block -> got = block)
  /\ (e = None -> (succeeded (K (kh ++ [c])) \/ exists c2, rest = [c2] /\ succeeded (K (kh ++ [c; c2]))) /\ nibble2 (sense32 (K (kh ++ [c]))) = 0)
  /\ ((succeeded (K (kh ++ [c])) \/ exists c2, rest = [c2] /\ succeeded (K (kh ++ [c; c2]))) -> nibble2 (sense32 (K (kh ++ [c]))) = 0 -> e = None)
  /\ (succeeded (K (kh ++ [c])) -> rest = [])
  /\ (~ succeeded (K (kh ++ [c])) -> an_in (K (kh ++ [c])) = [] -> got = d).
Proof.
  intros (T1 & T2 & T3 & T4 & T5 & T6 & T7 & T8 & T9 & T10 & T11) Hf Ld H.
  assert (Wt : wf_tf t).
  { unfold wf_tf, wf_regs. rewrite T1, T2, T3, T4, T5, T6, T7, T8, T9, T10, T11. cbn [regs0 g_feat g_nsect g_lbal g_lbam g_lbah]. repeat split; try reflexivity. exact Hf. }
  assert (Nd : d <> []) by (destruct d; [discriminate Ld|discriminate]).
  assert (Nd' : Some d <> Some []) by congruence.
  destruct (C58_task_file_requests K kh false false t (Some d) addr secs h' r Wt H) as (calls & -> & Lc & Fc & _ & _).
  destruct (C59_read_data K kh false t d addr secs _ r Nd H) as (e & t' & got & c & rest & -> & Ec & G1 & G2).
  apply app_inv_head in Ec. subst calls.
  destruct (C62_error_detection K kh false false t (Some d) addr secs _ _ Nd' H) as (e' & t'' & d' & c1 & rest' & Er & Ec & D1 & D2).
  injection Er as <- <- <-. apply app_inv_head in Ec. injection Ec as <- <-.
  cbn [List.length] in Lc.
  exists e, t', got, c, rest. split; [reflexivity|]. split; [reflexivity|]. split; [lia|]. split.
  { refine (Forall_impl _ _ Fc). intros k (R1 & R2 & R3 & R4 & R5). split.
    - eexists. split; [exact R1|]. cbn [sat_command sat_features sat_lba sat_count sat_device sat_extend sat_protocol sat_from_device sat_byte_block sat_t_length has_data andb negb].
      unfold tf_features, tf_count, tf_lba, tf_is_lba48, low_lba. rewrite T1, T2, T3, T4, T5, T6, T7, T10. cbn [N.eqb negb]. repeat split.
    - split; [exact R3|]. rewrite R4. cbn [data_length]. unfold blen. rewrite Ld. reflexivity. }
  assert (Lz : List.length (zeros (List.length d)) = 512%nat) by (rewrite Ld; apply repeat_length).
  assert (LG : List.length got = 512%nat).
  { destruct (ok_answer (K (kh ++ [c]))) eqn:O.
    - apply succeeded_ok in O. destruct (G1 O) as (L & _). rewrite L. destruct (addr mod 512 =? 0); assumption.
    - apply failed_ok in O. specialize (G2 O). destruct (addr mod 512 =? 0); [destruct G2 as (L & _); congruence|congruence]. }
  split; [exact LG|]. split.
  { intros block (Su & Eb & Lb). destruct (G1 Su) as (L & A & _). rewrite Eb in A. apply list_eq_nth_error. intros i.
    destruct (Nat.lt_ge_cases i 512) as [Hi|Hi].
    - apply A; [rewrite Lb; exact Hi|]. destruct (addr mod 512 =? 0); [rewrite Ld|rewrite Lz]; exact Hi.
    - transitivity (@None N); [|symmetry]; apply nth_error_None; [rewrite LG|rewrite Lb]; exact Hi. }
  split.
  { intros He. assert (Q : succeeded (K (kh ++ [c])) \/ exists c2, rest = [c2] /\ succeeded (K (kh ++ [c; c2]))).
    { destruct (ok_answer (K (kh ++ [c]))) eqn:O; [left; now apply succeeded_ok|]. apply failed_ok in O. right.
      destruct rest as [|c2 [|c3 rr]]; [exfalso|exists c2; split; [reflexivity|]|cbn [List.length] in Lc; lia].
      - destruct (D2 O) as (k & Ek); [discriminate|]. congruence.
      - destruct (ok_answer (K (kh ++ [c; c2]))) eqn:O2; [now apply succeeded_ok|]. exfalso. apply failed_ok in O2.
        destruct (D2 O) as (k & Ek); [|congruence]. intros c0 [= <-]. exact O2. }
    split; [exact Q|]. destruct (N.eq_dec (nibble2 (sense32 (K (kh ++ [c])))) 0) as [Z|Z]; [exact Z|exfalso].
    destruct (D1 Q) as (_ & B). destruct (B Z) as (msg & Em & _). congruence. }
  split; [intros Q Z; exact (proj1 (D1 Q) Z)|].
  split.
  2:{ intros Su Ei. specialize (G2 Su). rewrite Ei in G2. destruct (addr mod 512 =? 0); [|exact G2]. destruct G2 as (L & _ & B).
      apply list_eq_nth_error. intros i. apply B. cbn [List.length]. lia. }
  intros Su. rewrite task_closed in H by exact Nd'. cbv zeta in H.
  set (f1 := task_first false false t (Some d) addr secs) in *. set (f2 := task_second false false t (Some d) secs) in *. clearbody f1 f2.
  destruct (ok_answer (K (kh ++ [f1]))) eqn:O.
  - apply pair_equal_spec in H as [H _]. apply app_inv_head in H. now injection H as _ <-.
  - apply pair_equal_spec in H as [H _]. apply app_inv_head in H. injection H as Q1 Q2. rewrite <- Q1 in Su. apply succeeded_ok in Su. congruence.
Qed.

Theorem C147_read_smart : forall S h path h' x fd timeout cs r,
  addresses_ok S -> w_open (sy_world S) (h ++ [LOpen path]) = inr fd -> open_by_path (linux S) h path = (h', Ok x) ->
  no_nvme (sy_nvme S (at_nvme h path fd)) -> l_driver_name x = str "LinuxScsiDriver" ->
  forall V, l_drv x = Some V -> read_smart V (l_dh x) (l_calls x) timeout = (cs, r) ->
  let at_ := at_sg h path fd in
  let K := sy_sg S at_ in
  let opening := sg_ioctls S at_ x in
  let after := sg_ioctls S at_ (with_calls x cs) in
  exists c1 rest1 second, after = opening ++ c1 :: rest1 ++ second
  /\ (List.length rest1 <= 1)%nat /\ Forall (smart_request 0xD0) (c1 :: rest1)
  /\ (List.length second <= 2)%nat /\ Forall (smart_request 0xD1) second
  /\ r <> Panic /\ r <> Fuel
  (* a drive that answers each request with a full block: what is reported is what it said *)
  /\ (forall values thresholds, r = Ok (values, thresholds) -> exists c2 rest2, second = c2 :: rest2
      /\ (forall block, answers_block K (opening ++ [c1]) block -> forall n off sz c, In (n, (off, (sz, c))) smart_value_places ->
            field n values = be_elems off sz c block)
      /\ (forall block, answers_block K (opening ++ c1 :: rest1 ++ [c2]) block -> forall n off sz c, In (n, (off, (sz, c))) smart_threshold_places ->
            field n thresholds = be_elems off sz c block)
      (* but when the first request for the thresholds fails without data and its repetition succeeds, the "thresholds" are the attribute
         values: the repetition has no buffer, and the one of the first half is decoded a second time *)
      /\ (forall block, answers_block K (opening ++ [c1]) block -> ~ succeeded (K (opening ++ c1 :: rest1 ++ [c2])) ->
            an_in (K (opening ++ c1 :: rest1 ++ [c2])) = [] -> forall n off sz c, In (n, (off, (sz, c))) smart_threshold_places ->
            field n thresholds = be_elems off sz c block))
  (* and such a drive, reporting no sense data, is read successfully *)
  /\ ((forall k, nibble2 (sense32 (K k)) = 0 /\ exists block, answers_block K k block) -> exists v, r = Ok v).
Proof.
  intros S h path h' x fd timeout cs r HS Ew H Nn Hn V HV HR at_ K opening after.
  destruct (sg_opened S h path h' x fd HS Ew H Nn Hn) as (s1 & srest & k1 & krest & id & E & _ & _ & _ & _ & _ & E1 & Ho & Ed).
  fold at_ in E, E1, Ed. fold K in E1, Ed. fold opening in E. rewrite Ed in HV. injection HV as <-.
  set (A := sy_sg_addr S at_) in *. set (kh := s1 :: srest) in *. set (V := sg_drv K A kh id) in *.
  assert (Eo : sg_replay K A kh (l_calls x) = opening) by (unfold opening, sg_ioctls; cbv zeta; fold at_ K A; rewrite E1; reflexivity).
  assert (Ea : after = sg_replay K A kh cs) by (unfold after, sg_ioctls; cbv zeta; cbn [with_calls l_calls]; fold at_ K A; rewrite E1; reflexivity).
  pose proof (C56_read_smart V (l_dh x) (l_calls x) timeout) as R. unfold over_sg in Ho. rewrite Ho in R. cbv iota in R.
  destruct R as (t1 & t2 & T1 & T2 & R). cbv zeta in R.
  set (call1 := CTask false false t1 (zeros 512) timeout) in *. set (h1 := l_calls x ++ [call1]) in *.
  destruct (sg_task_file K opening false false t1 (Some (zeros 512)) (A opening) (Z.of_N timeout)) as [g1 r1] eqn:ET1.
  destruct (smart_step K opening t1 0xD0 (zeros 512) (A opening) (Z.of_N timeout) g1 r1 T1 ltac:(reflexivity) ltac:(apply repeat_length) ET1)
    as (e1 & t1' & b1 & c1 & rest1 & -> & -> & L1 & F1 & LB1 & B1 & N1 & Y1 & O1 & Z1).
  assert (X1 : sg_exec K A opening call1 = (opening ++ c1 :: rest1, ((e1, b1), t1'))) by (cbn [call1 sg_exec]; rewrite ET1; reflexivity).
  assert (I1 : v_io V h1 = (e1, b1)) by (unfold V, h1; rewrite sg_drv_io, Eo, X1; reflexivity).
  assert (R1 : sg_replay K A kh h1 = opening ++ c1 :: rest1) by (unfold h1; rewrite sg_replay_app, Eo, X1; reflexivity).
  rewrite I1 in R. cbn [fst snd] in R.
  rewrite (fill_whole (zeros 512) b1) in R by (rewrite LB1; apply repeat_length).
  set (call2 := CTask false false t2 b1 timeout) in *. set (h2 := h1 ++ [call2]) in *.
  set (mid := opening ++ c1 :: rest1) in *.
  destruct (sg_task_file K mid false false t2 (Some b1) (A mid) (Z.of_N timeout)) as [g2 r2] eqn:ET2.
  destruct (smart_step K mid t2 0xD1 b1 (A mid) (Z.of_N timeout) g2 r2 T2 ltac:(reflexivity) LB1 ET2)
    as (e2 & t2' & b2 & c2 & rest2 & -> & -> & L2 & F2 & LB2 & B2 & N2 & Y2 & O2 & Z2).
  assert (X2 : sg_exec K A mid call2 = (mid ++ c2 :: rest2, ((e2, b2), t2'))) by (cbn [call2 sg_exec]; rewrite ET2; reflexivity).
  assert (I2 : v_io V h2 = (e2, b2)) by (unfold V, h2; rewrite sg_drv_io, R1, X2; reflexivity).
  assert (R2 : sg_replay K A kh h2 = mid ++ c2 :: rest2) by (unfold h2; rewrite sg_replay_app, R1, X2; reflexivity).
  rewrite I2 in R. cbn [fst snd] in R. rewrite (fill_whole b1 b2) in R by congruence.
  assert (Em : forall l, mid ++ l = opening ++ c1 :: rest1 ++ l) by (intros l; unfold mid; rewrite <- app_assoc; reflexivity).
  assert (Good : (forall k, nibble2 (sense32 (K k)) = 0 /\ exists block, answers_block K k block) -> e1 = None /\ e2 = None).
  { intros G. split.
    - destruct (G (opening ++ [c1])) as (Z & bb & Su & _). apply Y1; [now left|exact Z].
    - destruct (G (mid ++ [c2])) as (Z & bb & Su & _). apply Y2; [now left|exact Z]. }
  destruct e1 as [e1|].
  { rewrite HR in R. injection R as -> ->. exists c1, rest1, []. rewrite Ea, R1. rewrite app_nil_r. split; [reflexivity|]. split; [exact L1|]. split; [exact F1|].
    split; [cbn; lia|]. split; [constructor|]. split; [discriminate|]. split; [discriminate|]. split; [discriminate|]. intros G. destruct (Good G). discriminate. }
  destruct e2 as [e2|].
  { rewrite HR in R. injection R as -> ->. exists c1, rest1, (c2 :: rest2). rewrite Ea, R2, Em. split; [reflexivity|]. split; [exact L1|]. split; [exact F1|].
    split; [cbn [List.length]; lia|]. split; [exact F2|]. split; [discriminate|]. split; [discriminate|]. split; [discriminate|]. intros G. destruct (Good G). discriminate. }
  destruct R as (v & w & R & Pv & _ & Pw & _). rewrite HR in R. injection R as -> ->.
  exists c1, rest1, (c2 :: rest2). rewrite Ea, R2, Em. split; [reflexivity|]. split; [exact L1|]. split; [exact F1|].
  split; [cbn [List.length]; lia|]. split; [exact F2|]. split; [discriminate|]. split; [discriminate|]. split; [|eauto].
  intros values thresholds [= <- <-]. exists c2, rest2. split; [reflexivity|]. rewrite <- Em. split.
  - intros block AB n off sz c I. rewrite <- (B1 block AB). exact (Pv _ _ _ _ I).
  - split; [intros block AB n off sz c I; rewrite <- (B2 block AB); exact (Pw _ _ _ _ I)|].
    intros block AB Fa Ei n off sz c I. rewrite <- (B1 block AB), <- (Z2 Fa Ei). exact (Pw _ _ _ _ I).
Qed.
Print Assumptions C147_read_smart.
