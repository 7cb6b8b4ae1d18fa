(** C150: health data of a drive opened by path, on a complete Windows system. *)
From Verif Require Import Base M_Buffer M_Struc M_Layouts M_Ata M_TcgDevice M_DriveHandle M_AtaUtil M_Cdb M_SgDriver M_SgHandle M_NvmeLinux M_Strings M_LinuxFactory
  M_WinPass M_WinNvme M_WinInfo M_WinFactory
  Spec_Drive Spec_Identity P_DriveHandle P_Identity Prop_Drive Prop_Identity Spec_LinuxFactory P_LinuxFactory Spec_Sg P_Sg Prop_Sg Spec_WinPass Spec_WinNvme P_WinPass P_WinNvme Prop_WinPass
  Prop_WinNvme Prop_WinDrive Prop_WinInfo Spec_WinFactory P_WinFactory Prop_WinFactory P_TcgOnWin Prop_LinuxTcg P_WinEnum Spec_HealthWin.

(** What an opened and driven handle is. *)
Lemma win_opened S A h path h' x hd d g cs0 : answers_bytes S -> ~ In 0 path -> s_open S (h ++ [WOpen path]) = inr hd ->
  win_open_by_path S A h path = (h', Ok x) -> f_drv x = Some (d, g, cs0) ->
  wd_handle d = hd /\ h' = win_replay S A d g cs0 /\ p_dh (f_dh x) = Some (win_dtype (wd_kind d)) /\ f_driver_name x = win_name (wd_kind d).
Proof.
  intros WS Hp Ho H Hd. destruct (C105_open_by_path _ _ _ _ _ _ WS H) as [[Z _]|(_ & X)]; [contradiction|]. rewrite Ho in X. destruct X as [X _].
  destruct (C104_open_by_handle _ _ _ _ _ _ _ WS X) as (h1 & disk & _ & Y). destruct disk as [b| | |]; [|contradiction|destruct Y; discriminate|contradiction].
  destruct Y as [(before & k & after & h2 & d' & h3 & _ & _ & _ & _ & Wh & _ & Y)|(h2 & q & _ & _ & Y)].
  - destruct Y as [[Y _]|(x' & cs & Ex & _ & D & Er & _)]; [discriminate|]. injection Ex as <-. destruct D as (D1 & D2 & _ & D3). rewrite D2 in Hd. injection Hd as <- <- <-.
    split; [exact Wh|]. split; [exact Er|]. split; [exact D1|]. destruct (wd_kind d'); apply D3.
  - exfalso. destruct q; [destruct Y as (x' & Ex & _ & (_ & D & _) & _)|destruct Y as (x' & Ex & _ & (_ & D & _) & _)|discriminate|discriminate]; injection Ex as <-; congruence.
Qed.

Lemma wf_smart f t : smart_read f t -> f < 256 -> wf_tf t.
Proof.
  intros (T1 & T2 & T3 & T4 & T5 & T6 & T7 & T8 & T9 & T10 & T11) Hf. unfold wf_tf, wf_regs. rewrite T1, T2, T3, T4, T5, T6, T7, T8, T9, T10, T11.
  cbn [regs0 g_feat g_nsect g_lbal g_lbam g_lbah]. repeat split; try reflexivity. exact Hf.
Qed.
Lemma whole old new got : delivered old new got -> List.length old = List.length new -> got = new.
Proof. intros D L. apply delivered_fill in D. subst got. apply fill_whole. congruence. Qed.

(** One exchange. *)
Lemma smart_wstep S A d k t feature b timeout : wd_kind d = KAta \/ wd_kind d = KScsi -> addr_ok A -> smart_read feature t -> feature < 256 ->
  List.length b = 512%nat ->
  exists e got pre c, win_exec S A d k (CTask false false t b timeout) = (k ++ map WIo (pre ++ [c]), Ok (e, got))
  /\ (List.length pre <= 1)%nat /\ Forall (win_smart_request (wd_kind d) (wd_handle d) feature) (pre ++ [c]) /\ List.length got = 512%nat
  /\ (pre = [] <-> is_direct c) /\ (forall c0, pre = [c0] -> is_direct c0 /\ ~ win_ok (s_io S (k ++ [WIo c0])))
  /\ (forall block, hands_over S (wd_kind d) (k ++ map WIo (pre ++ [c])) c block -> got = block)
  /\ (e = None <-> taken_as_success S (wd_kind d) (k ++ map WIo (pre ++ [c])) c).
Proof.
  intros Hk HA T Hf Lb. assert (Wt := wf_smart _ _ T Hf). assert (Nb : b <> []) by (destruct b; discriminate). destruct (HA k) as [Ha Hb].
  destruct T as (T1 & T2 & T3 & T4 & T5 & T6 & T7 & T8 & T9 & T10 & T11).
  assert (Bl : blen b = 512) by (unfold blen; rewrite Lb; reflexivity).
  assert (L48 : tf_is_lba48 t = false) by (unfold tf_is_lba48; rewrite ?T1, ?T2, ?T3, ?T4, ?T5, ?T6, ?T7, ?T8, ?T9, ?T10; reflexivity).
  destruct Hk as [K|K].
  - unfold win_exec. rewrite K. destruct (win_ata S k (wd_handle d) false false t b (ad_data A k) (ad_bounce A k) (Z.of_N timeout)) as [k' r] eqn:E.
    destruct (C85_ata_requests _ _ _ _ _ _ _ _ _ _ _ _ Wt Ha Hb Nb E) as (c1 & rest & Ek & R1 & R2 & R3 & R4 & R5 & R6 & R7 & R8 & _ & R9).
    destruct (C86_ata_reads _ _ _ _ _ _ _ _ _ _ _ Wt Nb E) as (e & got & c1' & rest' & mid & Er & Ek' & M1 & M2 & M3).
    destruct (C87_ata_result _ _ _ _ _ _ _ _ _ _ _ _ Wt Nb E) as (e' & got' & c1'' & rest'' & p1 & Er' & Ek'' & P1 & P2 & P3 & P4).
    destruct (C85_ata_panics _ _ _ _ _ _ _ _ _ _ _ _ Wt E) as [_ P]. destruct (P Nb) as (e'' & got'' & Er'' & Lg). clear P.
    rewrite Er in Er', Er''. injection Er' as <- <-. injection Er'' as <- <-. subst k' r.
    apply app_inv_head in Ek'. injection Ek' as <- <-. apply app_inv_head in Ek''. injection Ek'' as <- <-.
    assert (RQ : forall q, ata_request false t (blen b) (Z.of_N timeout) q -> let p := apt_decode q in
      ap_command p = 0xB0 /\ ap_features p = feature /\ ap_lba p = 0xC24F00 /\ ap_count p = 1 /\ ap_device p = 0 /\ ap_transfer p = 512
      /\ (forall i, N.testbit (ap_flags p) i = true <-> i = flag_data_in)).
    { intros q (_ & Q1 & Q2 & _ & Q3 & Q4 & Q5 & Q6 & Q7 & _). cbv zeta. rewrite Q7, Q3, Q5, Q4, Q6, Q2, Bl. unfold low_lba. rewrite ?T1, ?T2, ?T3, ?T4, ?T5, ?T6, ?T7, ?T10. 
      repeat (split; [reflexivity|]). intros i. rewrite Q1, L48. split; [intros [[Q _]|[[_ Q]|[_ Q]]]; congruence|intros ->; left; auto]. }
    assert (F1 : firstn 48 (wc_in c1) = wc_in c1) by (apply firstn_all2; unfold blen in R3; lia).
    assert (Rq1 : win_smart_request KAta (wd_handle d) feature c1).
    { split; [exact R1|]. split; [rewrite R2; cbn; auto|]. rewrite F1. now apply RQ. }
    destruct (N.eq_dec (wa_err (s_io S (k ++ [WIo c1]))) 0) as [O|O].
    + destruct R9 as [R9 _]. rewrite (R9 O) in *. exists e, got, [], c1. split; [reflexivity|]. split; [cbn; lia|]. split; [now apply Forall_cons|].
      split; [congruence|]. split; [split; [intros _; left; exact R2|reflexivity]|]. split; [discriminate|]. cbn [app map]. split.
      * intros block (_ & Lk & Di & _). specialize (Di (or_introl R2)). specialize (M2 O). rewrite Di in M2. eapply whole; [exact M2|].
        destruct (_ =? 0); [|unfold zeros; rewrite repeat_length]; congruence.
      * specialize (P2 O). destruct P2 as [P2 P2']. split.
        -- intros ->. split; [exact O|]. cbn [header_size]. rewrite F1. intros p Dp. assert (p = p1) by (eapply delivered_unique; eassumption). subst p. intros _.
           change (reg 46 p1) with (ap_command (apt_decode p1)).
           destruct (N.testbit (ap_command (apt_decode p1)) 0); [destruct (P2' (or_introl eq_refl)); discriminate|].
           destruct (N.testbit (ap_command (apt_decode p1)) 3); [destruct (P2' (or_intror eq_refl)); discriminate|]. auto.
        -- intros (_ & Q). apply P2. cbn [header_size] in Q. rewrite F1 in Q. exact (Q p1 P1 (or_introl R2)).
    + destruct R9 as [_ R9]. destruct (R9 O) as (c2 & p1' & Er & Q1 & Q2 & Q3 & Q4 & Q5 & Q6 & _). rewrite Er in *. clear R9.
      destruct (M3 O) as (c2' & Ec & _ & G1 & G2). injection Ec as <-. clear M3.
      exists e, got, [c1], c2. split; [reflexivity|]. split; [cbn; lia|].
      assert (Nd : ~ is_direct c2) by (unfold is_direct; rewrite Q2; intros [X|X]; discriminate).
      split. { apply Forall_cons; [exact Rq1|apply Forall_cons; [|apply Forall_nil]]. split; [exact Q1|]. split; [rewrite Q2; cbn; auto|]. now apply RQ. }
      split; [congruence|]. split; [split; [discriminate|intros X; destruct (Nd X)]|]. split; [intros c0 [= <-]; split; [left; exact R2|exact O]|].
      cbn [app map]. split.
      * intros block (Su & Lk & _ & Di). specialize (Di Nd). cbn [header_size] in Di. specialize (G1 Su). rewrite Di in G1. eapply whole; [exact G1|].
        rewrite <- (proj1 G1). congruence.
      * split.
        -- intros ->. destruct (N.eq_dec (wa_err (s_io S (k ++ [WIo c1; WIo c2]))) 0) as [O2|O2]; [|specialize (P3 O O2); discriminate].
           split; [exact O2|]. intros p _ X. destruct (Nd X).
        -- intros (O2 & _). destruct (P4 O O2) as [P5 _]. apply P5. rewrite T1. split; reflexivity.
  - unfold win_exec. rewrite K. destruct (win_task_file S k (wd_handle d) false false t b (ad_data A k) (ad_bounce A k) (Z.of_N timeout)) as [k' r] eqn:E.
    destruct (C88_scsi_task_file _ _ _ _ _ _ _ _ _ _ _ _ Wt Ha Hb E) as [_ P]. destruct (P Nb) as (e & got & cdb & -> & X & Sd & _). clear P.
    unfold scsi_exchange in X. cbv zeta in X. cbn [negb orb andb] in X.
    destruct X as (c1 & rest & p1 & mid & -> & R1 & R2 & R3 & R4 & R5 & R6 & R7 & R8 & D1 & M & Y1 & Y2).
    assert (RQ : forall ptr q, scsi_request false cdb (blen b) (Z.of_N timeout) ptr q -> let p := spt_decode q in
      sp_data_in p = 1 /\ sp_transfer p = 512 /\ exists a, sat_decode (sp_cdb p) = Some a
      /\ sat_command a = 0xB0 /\ sat_features a = feature /\ sat_lba a = 0xC24F00 /\ sat_count a = 1 /\ sat_device a = 0 /\ sat_extend a = false /\ sat_protocol a = 0).
    { intros ptr q (_ & Q1 & _ & _ & Q2 & Q3 & _). cbv zeta. rewrite Q1, Q2, Q3, Bl. split; [reflexivity|]. split; [reflexivity|]. eexists. split; [exact Sd|].
      cbn [sat_command sat_features sat_lba sat_count sat_device sat_extend sat_protocol]. unfold tf_features, tf_count, tf_lba. rewrite L48. unfold low_lba.
      rewrite ?T1, ?T2, ?T3, ?T4, ?T5, ?T6, ?T7, ?T10. repeat split. }
    assert (F1 : firstn 96 (wc_in c1) = wc_in c1) by (apply firstn_all2; unfold blen in R3; lia).
    assert (Rq1 : win_smart_request KScsi (wd_handle d) feature c1).
    { split; [exact R1|]. split; [rewrite R2; cbn; auto|]. rewrite F1. exact (RQ _ _ R5). }
    assert (Lmid : List.length mid = 512%nat) by (destruct (_ =? 0) in M; [destruct M as [M _]; congruence|congruence]).
    destruct (N.eq_dec (wa_err (s_io S (k ++ [WIo c1]))) 0) as [O|O].
    + destruct (Y1 O) as (-> & J & G). clear Y1 Y2. exists e, got, [], c1. split; [reflexivity|]. split; [cbn; lia|]. split; [now apply Forall_cons|].
      assert (Lg : List.length got = 512%nat) by (rewrite (proj1 G); destruct (_ =? 0); [|unfold zeros; rewrite repeat_length]; exact Lb).
      split; [exact Lg|]. split; [split; [intros _; right; exact R2|reflexivity]|]. split; [discriminate|]. cbn [app map]. split.
      * intros block (_ & Lk & Di & _). specialize (Di (or_intror R2)). rewrite Di in G. eapply whole; [exact G|]. rewrite <- (proj1 G). congruence.
      * destruct J as [J J']. split.
        -- intros ->. split; [exact O|]. cbn [header_size]. rewrite F1. intros p Dp. assert (p = p1) by (eapply delivered_unique; eassumption). subst p.
           destruct (N.eq_dec (nibble2 (slice 60 32 p1)) 0) as [Z|Z]; [exact Z|]. destruct (J' Z); discriminate.
        -- intros (_ & Q). apply J. cbn [header_size] in Q. rewrite F1 in Q. exact (Q p1 D1).
    + destruct (Y2 O) as (c2 & -> & Q1 & Q2 & Q3 & Q4 & Q5 & Q6 & Q7 & G1 & G2). clear Y1 Y2. exists e, got, [c1], c2. split; [reflexivity|]. split; [cbn; lia|].
      assert (Nd : ~ is_direct c2) by (unfold is_direct; rewrite Q2; intros [X|X]; discriminate).
      split. { apply Forall_cons; [exact Rq1|apply Forall_cons; [|apply Forall_nil]]. split; [exact Q1|]. split; [rewrite Q2; cbn; auto|]. exact (RQ _ _ Q5). }
      assert (Lg : List.length got = 512%nat).
      { destruct (N.eq_dec (wa_err (s_io S (k ++ [WIo c1; WIo c2]))) 0) as [O2|O2]; [destruct (G1 O2) as [_ G]; rewrite (proj1 G); exact Lmid|].
        destruct (G2 O2) as [_ ->]. exact Lmid. }
      split; [exact Lg|]. split; [split; [discriminate|intros X; destruct (Nd X)]|]. split; [intros c0 [= <-]; split; [right; exact R2|exact O]|].
      cbn [app map]. split.
      * intros block (Su & Lk & _ & Di). specialize (Di Nd). cbn [header_size] in Di. destruct (G1 Su) as [_ G]. rewrite Di in G. eapply whole; [exact G|]. congruence.
      * split.
        -- intros ->. destruct (N.eq_dec (wa_err (s_io S (k ++ [WIo c1; WIo c2]))) 0) as [O2|O2]; [|destruct (G2 O2); discriminate].
           destruct (G1 O2) as [(p2 & D2 & _ & J') _]. split; [exact O2|]. cbn [header_size]. intros p Dp. assert (p = p2) by (eapply delivered_unique; eassumption). subst p.
           destruct (N.eq_dec (nibble2 (slice 60 32 p2)) 0) as [Z|Z]; [exact Z|]. destruct (J' Z); discriminate.
        -- intros (O2 & Q). destruct (G1 O2) as [(p2 & D2 & J & _) _]. apply J. exact (Q p2 D2).
Qed.

(** ReadSmart on a drive driven by WindowsAtaDriver or WindowsScsiDriver: one or two requests for the attribute values and, exactly if
    those were taken as success, one or two for the thresholds; what is reported is what the last request of each kind handed over. *)
Theorem C150_read_smart : forall S A h path h' x hd d g cs0 timeout cs r,
  answers_bytes S -> addr_ok A -> ~ In 0 path -> s_open S (h ++ [WOpen path]) = inr hd -> win_open_by_path S A h path = (h', Ok x) ->
  f_drv x = Some (d, g, cs0) -> f_driver_name x = str "WindowsAtaDriver" \/ f_driver_name x = str "WindowsScsiDriver" ->
  read_smart (win_drv S A d g) (f_dh x) cs0 timeout = (cs, r) ->
  let k := wd_kind d in
  let after := win_replay S A d g cs in
  exists pre1 c1 second, after = h' ++ map WIo ((pre1 ++ [c1]) ++ second)
  /\ (List.length pre1 <= 1)%nat /\ Forall (win_smart_request k hd 0xD0) (pre1 ++ [c1])
  /\ (List.length second <= 2)%nat /\ Forall (win_smart_request k hd 0xD1) second
  /\ r <> Panic /\ r <> Fuel
  /\ (second <> [] <-> taken_as_success S k (h' ++ map WIo (pre1 ++ [c1])) c1)
  /\ ((exists v, r = Ok v) <-> exists pre2 c2, second = pre2 ++ [c2] /\ taken_as_success S k after c2)
  /\ (forall values thresholds, r = Ok (values, thresholds) ->
        (forall block, hands_over S k (h' ++ map WIo (pre1 ++ [c1])) c1 block -> forall n off sz c, In (n, (off, (sz, c))) smart_value_places ->
            M_Struc.field n values = be_elems off sz c block)
     /\ (forall pre2 c2 block, second = pre2 ++ [c2] -> hands_over S k after c2 block -> forall n off sz c, In (n, (off, (sz, c))) smart_threshold_places ->
            M_Struc.field n thresholds = be_elems off sz c block)).
Proof.
  intros S A h path h' x hd d g cs0 timeout cs r WS HA Hp Ho H Hd Hn HR k after.
  destruct (win_opened S A h path h' x hd d g cs0 WS Hp Ho H Hd) as (Wh & Eo & Dp & Nm).
  assert (Hk : wd_kind d = KAta \/ wd_kind d = KScsi).
  { rewrite Nm in Hn. destruct (wd_kind d); [destruct Hn as [Q|Q]; discriminate Q|destruct Hn as [Q|Q]; discriminate Q|now right|now left]. }
  set (V := win_drv S A d g) in *.
  pose proof (C56_read_smart V (f_dh x) cs0 timeout) as R. rewrite Dp in R.
  assert (Ea : win_dtype (wd_kind d) = {| is_ata := true; is_nvme := false |}) by (destruct Hk as [-> | ->]; reflexivity). rewrite Ea in R. cbv iota in R.
  destruct R as (t1 & t2 & T1 & T2 & R). cbv zeta in R.
  set (call1 := CTask false false t1 (zeros 512) timeout) in *. set (h1 := cs0 ++ [call1]) in *.
  destruct (smart_wstep S A d h' t1 0xD0 (zeros 512) timeout Hk HA T1 ltac:(reflexivity) ltac:(apply repeat_length))
    as (e1 & b1 & pre1 & c1 & X1 & L1 & F1 & LB1 & _ & _ & B1 & N1). fold call1 in X1.
  assert (I1 : v_io V h1 = (e1, b1)) by (unfold V, h1; rewrite win_drv_io, <- Eo, X1; reflexivity).
  assert (Q1 : win_replay S A d g h1 = h' ++ map WIo (pre1 ++ [c1])).
  { unfold h1. rewrite win_replay_app, <- Eo. unfold call1. rewrite step_task. fold call1. rewrite X1. reflexivity. }
  rewrite I1 in R. cbn [fst snd] in R.
  rewrite (fill_whole (zeros 512) b1) in R by (rewrite LB1; apply repeat_length).
  set (call2 := CTask false false t2 b1 timeout) in *. set (h2 := h1 ++ [call2]) in *.
  set (mid := h' ++ map WIo (pre1 ++ [c1])) in *.
  destruct (smart_wstep S A d mid t2 0xD1 b1 timeout Hk HA T2 ltac:(reflexivity) LB1)
    as (e2 & b2 & pre2 & c2 & X2 & L2 & F2 & LB2 & _ & _ & B2 & N2). fold call2 in X2.
  assert (I2 : v_io V h2 = (e2, b2)) by (unfold V, h2; rewrite win_drv_io, Q1, X2; reflexivity).
  assert (Q2 : win_replay S A d g h2 = mid ++ map WIo (pre2 ++ [c2])).
  { unfold h2. rewrite win_replay_app, Q1. unfold call2. rewrite step_task. fold call2. rewrite X2. reflexivity. }
  rewrite I2 in R. cbn [fst snd] in R. rewrite (fill_whole b1 b2) in R by congruence.
  assert (Em : forall l, mid ++ map WIo l = h' ++ map WIo ((pre1 ++ [c1]) ++ l)) by (intros l; unfold mid; rewrite (map_app WIo (pre1 ++ [c1])), app_assoc; reflexivity).
  rewrite Wh in F1, F2. exists pre1, c1. destruct e1 as [e1|].
  { rewrite HR in R. injection R as -> ->. exists []. unfold after. rewrite Q1, app_nil_r. split; [reflexivity|]. split; [exact L1|]. split; [exact F1|].
    split; [cbn; lia|]. split; [constructor|]. split; [discriminate|]. split; [discriminate|]. split.
    { split; [congruence|]. intros X. apply N1 in X. discriminate. }
    split; [|discriminate]. split; [intros (v & Q); discriminate|]. intros (p & c & Q & _). destruct p; discriminate. }
  assert (Ns : pre2 ++ [c2] <> []) by (destruct pre2; discriminate).
  assert (L2' : (List.length (pre2 ++ [c2]) <= 2)%nat) by (rewrite app_length; cbn [List.length]; lia).
  exists (pre2 ++ [c2]). assert (N1' : taken_as_success S (wd_kind d) mid c1) by (apply N1; reflexivity).
  destruct e2 as [e2|].
  { rewrite HR in R. injection R as -> ->. unfold after. rewrite Q2. split; [apply Em|]. split; [exact L1|]. split; [exact F1|].
    split; [exact L2'|]. split; [exact F2|]. split; [discriminate|]. split; [discriminate|]. split; [split; [intros _; exact N1'|intros _; exact Ns]|].
    split; [|discriminate]. split; [intros (v & Q); discriminate|]. intros (p & c & Q & Ts). exfalso. apply app_inj_tail in Q as [<- <-]. apply N2 in Ts. discriminate. }
  destruct R as (v & w & R & Pv & _ & Pw & _). rewrite HR in R. injection R as -> ->. unfold after. rewrite Q2.
  split; [apply Em|]. split; [exact L1|]. split; [exact F1|].
  split; [exact L2'|]. split; [exact F2|]. split; [discriminate|]. split; [discriminate|]. split; [split; [intros _; exact N1'|intros _; exact Ns]|].
  split. { split; [|eauto]. intros _. exists pre2, c2. split; [reflexivity|]. now apply N2. }
  intros values thresholds [= <- <-]. split.
  - intros block AB n off sz c I. rewrite <- (B1 block AB). exact (Pv _ _ _ _ I).
  - intros p c block Q AB n off sz c0 I. apply app_inj_tail in Q as [<- <-]. rewrite <- (B2 block AB). exact (Pw _ _ _ _ I).
Qed.
Print Assumptions C150_read_smart.

(** On the NVMe drivers ReadSmart sends nothing and says so; so it does on a handle no driver accepted. *)
Theorem C150_no_smart : forall S A h path h' x hd d g cs0 timeout,
  answers_bytes S -> ~ In 0 path -> s_open S (h ++ [WOpen path]) = inr hd -> win_open_by_path S A h path = (h', Ok x) ->
  f_drv x = Some (d, g, cs0) -> f_driver_name x = str "NvmeWinDriver" \/ f_driver_name x = str "WindowsNvmeDriver" ->
  read_smart (win_drv S A d g) (f_dh x) cs0 timeout = (cs0, Err ENotSupportThisDriver).
Proof.
  intros S A h path h' x hd d g cs0 timeout WS Hp Ho H Hd Hn.
  destruct (win_opened S A h path h' x hd d g cs0 WS Hp Ho H Hd) as (Wh & Eo & Dp & Nm).
  pose proof (C56_read_smart (win_drv S A d g) (f_dh x) cs0 timeout) as R. rewrite Dp in R. rewrite Nm in Hn.
  destruct (wd_kind d); [exact R|exact R|destruct Hn as [Q|Q]; discriminate Q|destruct Hn as [Q|Q]; discriminate Q].
Qed.
Print Assumptions C150_no_smart.

(** NvmeGetLogPage on a drive opened by path.  WindowsNvmeDriver: one IOCTL_STORAGE_QUERY_PROPERTY to the handle opened, for the page asked
    for (namespace and RAE are not passed on); NvmeWinDriver refuses without sending anything; on SATA drives the call is refused above. *)
Theorem C150_log_page : forall S A h path h' x hd d g cs0 nsid logId (rae : bool) n cs page e,
  answers_bytes S -> ~ In 0 path -> s_open S (h ++ [WOpen path]) = inr hd -> win_open_by_path S A h path = (h', Ok x) ->
  f_drv x = Some (d, g, cs0) -> logId < 2 ^ 32 -> N.of_nat n < 2 ^ 32 ->
  nvme_get_log_page (win_drv S A d g) (f_dh x) cs0 nsid logId rae (Z.of_nat n) = (cs, (page, e)) ->
  let after := win_replay S A d g cs in
  (f_driver_name x = str "WindowsNvmeDriver" ->
     exists c, after = h' ++ [WIo c] /\ wc_handle c = hd /\ wc_code c = 0x2d1400 /\ blen (wc_in c) = 48 + N.of_nat n /\ wc_outlen c = 48 + N.of_nat n
     /\ pquery_decode (wc_in c) = {| pq_property := 50; pq_type := 0; pq_protocol := 3; pq_data_type := 2; pq_value := logId;
                                      pq_offset := 40; pq_length := N.of_nat n; pq_subs := [0; 0; 0; 0; 0] |}
     /\ let a := s_io S after in
        (~ win_ok a -> page = [] /\ e = Some (errno (wa_err a)))
        /\ (win_ok a -> exists reply, delivered (wc_in c) (wa_out a) reply
            /\ (Spec_WinPass.field 0 4 reply = 48 /\ Spec_WinPass.field 4 4 reply = 48 -> e = None /\ page = skipn 48 reply /\ List.length page = n)
            /\ (Spec_WinPass.field 0 4 reply <> 48 \/ Spec_WinPass.field 4 4 reply <> 48 -> page = [] /\ e <> None)))
  /\ (f_driver_name x <> str "WindowsNvmeDriver" -> after = h' /\ page = [] /\ e <> None).
Proof.
  intros S A h path h' x hd d g cs0 nsid logId rae n cs page e WS Hp Ho H Hd Hl Hn HL after.
  destruct (win_opened S A h path h' x hd d g cs0 WS Hp Ho H Hd) as (Wh & Eo & Dp & Nm).
  unfold nvme_get_log_page in HL. rewrite Dp in HL. split.
  - intros En. assert (K : wd_kind d = KWinNvme) by (rewrite Nm in En; destruct (wd_kind d); try discriminate En; reflexivity).
    rewrite K in HL. cbn [win_dtype is_nvme] in HL. cbv zeta in HL. injection HL as <- HL.
    unfold win_drv in HL. cbn [v_log] in HL. unfold last_call in HL. rewrite rev_app_distr in HL. cbn [rev app] in HL. rewrite rev_involutive, K in HL.
    rewrite <- Eo in HL. destruct (winnvme_log_page S h' (wd_handle d) nsid logId rae (Z.of_nat n)) as [k' q] eqn:E. cbn [snd] in HL.
    destruct (C95_winnvme_log_page _ _ _ _ _ _ _ _ _ Hl Hn E) as (c & d' & e' & Ek & -> & Q1 & Q2 & Q3 & Q4 & _ & Q5 & Q6). injection HL as -> ->.
    assert (Ea : after = h' ++ [WIo c]).
    { unfold after. unfold win_replay. rewrite fold_left_app. fold (win_replay S A d g cs0). rewrite <- Eo. cbn [fold_left]. rewrite K, E. exact Ek. }
    exists c. rewrite Ea. rewrite Ek in Q6. split; [reflexivity|]. split; [congruence|]. do 4 (split; [assumption|]). cbv zeta in Q6 |- *. destruct Q6 as [Q6 Q7].
    split; [exact Q6|]. intros O. destruct (Q7 O) as (reply & D & W1 & W2). exists reply. split; [exact D|]. split; [exact W1|].
    intros B. destruct (W2 B) as (-> & m & ->). split; [reflexivity|discriminate].
  - intros En. destruct (wd_kind d) eqn:K.
    + cbn [win_dtype is_nvme] in HL. cbv zeta in HL. injection HL as <- HL. unfold win_drv in HL. cbn [v_log] in HL. unfold last_call in HL. rewrite rev_app_distr in HL. cbn [rev app] in HL.
      rewrite K in HL. injection HL as <- <-. unfold after, win_replay. rewrite fold_left_app. fold (win_replay S A d g cs0). rewrite <- Eo. cbn [fold_left]. rewrite K. cbn [fst]. split; [reflexivity|]. split; [reflexivity|discriminate].
    + rewrite Nm in En. destruct (En eq_refl).
    + cbn [win_dtype is_nvme] in HL. injection HL as <- <- <-. split; [symmetry; exact Eo|]. split; [reflexivity|discriminate].
    + cbn [win_dtype is_nvme] in HL. injection HL as <- <- <-. split; [symmetry; exact Eo|]. split; [reflexivity|discriminate].
Qed.
Print Assumptions C150_log_page.
