(** Lemmas for C155: a further call on a handle with a driver. *)
From Verif Require Import Base M_Buffer M_Struc M_Layouts M_Ata M_TcgDevice M_DriveHandle M_Cdb M_SgDriver M_SgHandle M_NvmeLinux M_Strings M_LinuxInfo M_LinuxFactory M_LinuxVolume M_LinuxSystem M_LinuxMachine
  P_DriveHandle Spec_LinuxMachine P_LinuxMachine Spec_Alone P_Alone P_Alone2 P_Alone3 P_Alone4.

Lemma gcall_live M g x o d : gh_dev x = Some d -> o <> HClose -> let r := hstep (drv_at M g d) (gh_dh x) [] o in
  gcall M g x o = (g ++ ioctls_of M g d (fst r),
    {| gh_path := gh_path x; gh_fd := gh_fd x; gh_dh := fst (snd r); gh_dev := Some d; gh_driving := gh_driving x; gh_driver_name := gh_driver_name x |}).
Proof.
  intros H N. cbv zeta. unfold gcall. rewrite H. destruct o; try congruence; match goal with |- context [hstep ?v ?p ?h ?q] => destruct (hstep v p h q) as [c [p1 r]] end; reflexivity.
Qed.
Lemma run_same V V' c0 os p h : sees_upto V' V c0 (fst (hrun V p h os)) ->
  hrun V' p (c0 ++ h) os = (c0 ++ fst (hrun V p h os), snd (hrun V p h os)) /\ replies V' p (c0 ++ h) os = replies V p h os.
Proof. intros S. split; [now apply hrun_sh|now apply replies_sh]. Qed.
(** A run prolonged by one call, on a driver that first behaves like [V] and then like [V']. *)
Lemma run_more V V' V2 p h os o cs : fst (hrun V p h os) = cs -> let q := fst (snd (hrun V p h os)) in
  sees_upto V2 V [] cs -> sees_upto V2 V' cs (fst (hstep V' q [] o)) ->
  fst (hrun V2 p h (os ++ [o])) = cs ++ fst (hstep V' q [] o) /\ fst (snd (hrun V2 p h (os ++ [o]))) = fst (snd (hstep V' q [] o))
  /\ replies V2 p h (os ++ [o]) = replies V p h os ++ [reply_of V' q [] o].
Proof.
  intros E q S1 S2. subst cs. destruct (run_same V V2 [] os p h S1) as [R1 R2]. cbn [app] in R1, R2.
  pose proof (hstep_sh V2 V' (fst (hrun V p h os)) q [] o S2) as H. pose proof (reply_sh V2 V' (fst (hrun V p h os)) q [] o S2) as R. rewrite app_nil_r in H, R.
  rewrite hrun_snoc, replies_snoc, R1, R2. cbn [fst snd]. fold q. rewrite H, R. repeat split; reflexivity.
Qed.

Lemma step_nvme M g path seg x calls rs snt fd B I Kn An Ks As y cs o f id : alone M path seg x calls rs snt fd B I Kn An Ks As y cs ->
  gh_dev x = Some {| d_kind := KNvme; d_fd := f; d_identity := id |} -> o <> HClose ->
  exists es Kn2 An2 y2 cs2, fst (gcall M g x o) = g ++ es /\ Forall (fun e => is_ioctl e = true) es
    /\ alone M path seg (snd (gcall M g x o)) (calls ++ [o]) (rs ++ [reply_of (driver_at M g x) (gh_dh x) [] o]) (snt ++ es) fd B I Kn2 An2 Ks As y2 cs2.
Proof.
  intros [O F Fd D Hh Hp Hr Dr Sn Sg] N NC. rewrite (gcall_live M g x o _ N NC). cbn [fst snd]. unfold driver_at. rewrite N.
  unfold same_driver in D. rewrite N in D. destruct D as (-> & L & No & kh & Op & Dv).
  destruct O as (x1 & r1 & r2 & P0 & F1 & P1 & F2).
  assert (x1 = y) as -> by (unfold phase1 in P1; unfold sg_no in No; destruct (sg_open Ks [] (As [])) as [k0 [i0|e0| |]]; [exfalso; apply (No i0); reflexivity|injection P1 as -> _..]; reflexivity).
  unfold phase0 in P0. rewrite Op in P0. assert (DV : drv_of y = nv_drv Kn fd An kh id) by (unfold drv_of; now rewrite Dv). rewrite DV in *.
  unfold ioctls_of. cbn [d_kind d_fd d_identity drv_at]. unfold drv_at. cbn [d_kind d_fd d_identity].
  set (K' := nvme_at M g) in *. set (A' := nvme_addr_at M g) in *.
  set (own := nv_replay Kn fd An kh cs). set (Kn2 := splice own Kn K'). set (An2 := splice_addr own An A').
  set (V := nv_drv Kn fd An kh id) in *. set (V2 := nv_drv Kn2 fd An2 kh id). set (V' := nv_drv K' fd A' [] id).
  set (fr := hstep V' (gh_dh x) [] o).
  destruct (nv_same Kn fd An kh id cs K' A') as [R1 S1]. fold own Kn2 An2 V V2 in R1, S1.
  destruct (nv_more Kn fd An kh id cs K' A' (fst fr)) as [S2 R2]. fold own Kn2 An2 V V2 V' in R2, S2.
  assert (PRE : pre (l_calls y) cs) by (rewrite <- Hh; apply hrun_adds).
  assert (LK : List.length kh = 1%nat) by (pose proof (nv_open_len Kn fd (An [])) as Q; rewrite Op in Q; exact Q).
  assert (LO : (1 <= List.length own)%nat) by (rewrite <- LK; apply nv_replay_len).
  assert (A0 : An2 [] = An []) by (unfold An2, splice_addr; destruct (Nat.ltb_spec (@List.length nv_call []) (List.length own)) as [|B0]; [reflexivity|cbn in B0; lia]).
  assert (OP2 : nv_open Kn2 [] fd (An2 []) = (kh, Ok id)) by (rewrite A0, (nv_open_sh Kn2 Kn fd); [exact Op|apply splice_old; exact LO]).
  assert (I2 : install (base fd path B I) (nv_opened Kn2 fd An2 kh id) = (with_drv y V2, r1)).
  { apply (install_same _ V); [exact P0|exact (sees_pre _ _ _ _ _ S1 PRE)|reflexivity|reflexivity]. }
  assert (SAME : forall c, pre c cs -> nv_seen Kn2 fd An2 c = nv_seen Kn fd An c).
  { intros c Pc. unfold nv_seen. rewrite OP2, Op. cbn [fst].
    pose proof (nv_replay_sh Kn2 Kn fd An2 An [] kh c) as E. cbn [app] in E. destruct Pc as [z Pc].
    assert (LL : (List.length (nv_replay Kn fd An kh c) <= List.length own)%nat) by (unfold own; rewrite Pc, nv_replay_app; apply nv_replay_len).
    apply E; [apply splice_old|apply splice_addr_old]; exact LL. }
  destruct (run_more V V' V2 (l_dh y) (l_calls y) calls o cs Hh) as (Q1 & Q2 & Q3); [exact S1|rewrite Hp; exact S2|]. rewrite Hp in Q1, Q2, Q3. fold fr in Q1, Q2.
  assert (DRI : l_driving y = 2).
  { unfold nv_opened, install in P0. cbn [o_drv o_type] in P0. destruct (init _ _ _) as [c0 [p0 r0]]. injection P0 as <- _. reflexivity. }
  exists (map GNvme (nv_replay K' fd A' [] (fst fr))), Kn2, An2, (with_drv y V2), (cs ++ fst fr). split; [reflexivity|]. split.
  { apply Forall_map, Forall_forall. intros c _. reflexivity. }
  constructor; cbn [gh_fd gh_dh gh_dev gh_driving gh_driver_name gh_path with_drv l_dh l_calls l_fd l_driving l_driver_name l_drv drv_of].
  - exists (with_drv y V2), r1, (Ok tt). unfold phase0. rewrite OP2. split; [exact I2|]. split; [exact F1|]. split; [|reflexivity].
    unfold phase1. unfold sg_no in No. destruct (sg_open Ks [] (As [])) as [k0 [i0|e0| |]]; try reflexivity. exfalso. apply (No i0). reflexivity.
  - exact F.
  - exact Fd.
  - unfold same_driver. cbn [gh_dev gh_dh l_drv]. split; [reflexivity|]. split; [|split; [exact No|exists kh; split; [exact OP2|reflexivity]]].
    intros Z. apply L. rewrite <- (hstep_keeps V' (gh_dh x) o NC). exact Z.
  - exact Q1.
  - exact Q2.
  - now rewrite Q3, Hr.
  - destruct Dr as [d1 d2 d3 d4 d5]. constructor; try assumption.
    + apply (splice_drawn own Kn K' (fun c a => exists g, a = m_nvme M (g ++ [GNvme c]))); [exact d1|apply nvme_at_drawn].
    + intros k. destruct (splice_addr_values own An A' k) as [E|[k' E]]; unfold An2; rewrite E; [apply d2|eexists; reflexivity].
  - left. split; [exact DRI|]. destruct Sn as [[_ Sn]|[[Sn _]|[Sn _]]]; [|rewrite DRI in Sn; discriminate..].
    rewrite (SAME (l_calls y) PRE). rewrite app_assoc, <- Sn, <- map_app. f_equal. unfold nv_seen. rewrite OP2, Op. cbn [fst]. rewrite R2. reflexivity.
  - destruct Sg as (c1 & c2 & E & [(G1 & -> & ->)|[(G1 & ->)|(G1 & -> & ->)]]); try (rewrite DRI in G1; discriminate G1).
    exists (l_calls y), []. rewrite (SAME (l_calls y) PRE). split; [exact E|]. left. auto.
Qed.
Lemma step_sg M g path seg x calls rs snt fd B I Kn An Ks As y cs o f id : alone M path seg x calls rs snt fd B I Kn An Ks As y cs ->
  gh_dev x = Some {| d_kind := KSg; d_fd := f; d_identity := id |} -> o <> HClose ->
  exists es Ks2 As2 y2 cs2, fst (gcall M g x o) = g ++ es /\ Forall (fun e => is_ioctl e = true) es
    /\ alone M path seg (snd (gcall M g x o)) (calls ++ [o]) (rs ++ [reply_of (driver_at M g x) (gh_dh x) [] o]) (snt ++ es) fd B I Kn An Ks2 As2 y2 cs2.
Proof.
  intros [O F Fd D Hh Hp Hr Dr Sn Sg] N NC. rewrite (gcall_live M g x o _ N NC). cbn [fst snd]. unfold driver_at. rewrite N.
  unfold same_driver in D. rewrite N in D. destruct D as (-> & L & kh & Op & Dv).
  destruct O as (x1 & r1 & r2 & P0 & F1 & P1 & F2).
  unfold phase1 in P1. rewrite Op in P1. assert (DV : drv_of y = sg_drv Ks As kh id) by (unfold drv_of; now rewrite Dv). rewrite DV in *.
  unfold ioctls_of. cbn [d_kind d_fd d_identity drv_at]. unfold drv_at. cbn [d_kind d_fd d_identity].
  set (K' := sg_at M g fd) in *. set (A' := sg_addr_at M g fd) in *.
  set (own := sg_replay Ks As kh cs). set (Ks2 := splice own Ks K'). set (As2 := splice_addr own As A').
  set (V := sg_drv Ks As kh id) in *. set (V2 := sg_drv Ks2 As2 kh id). set (V' := sg_drv K' A' [] id).
  set (fr := hstep V' (gh_dh x) [] o).
  destruct (sg_same Ks As kh id cs K' A') as [R1 S1]. fold own Ks2 As2 V V2 in R1, S1.
  destruct (sg_more Ks As kh id cs K' A' (fst fr)) as [S2 R2]. fold own Ks2 As2 V V2 V' in R2, S2.
  assert (PRE : pre (l_calls y) cs) by (rewrite <- Hh; apply hrun_adds).
  assert (LK : (1 <= List.length kh)%nat) by (pose proof (sg_open_len Ks (As [])) as Q; rewrite Op in Q; exact Q).
  assert (LO : (List.length kh <= List.length own)%nat) by (apply sg_replay_len).
  assert (A0 : As2 [] = As []) by (unfold As2, splice_addr; destruct (Nat.ltb_spec (@List.length sg_call []) (List.length own)) as [|B0]; [reflexivity|cbn in B0; lia]).
  assert (OP2 : sg_open Ks2 [] (As2 []) = (kh, Ok id)) by (rewrite A0, (sg_open_sh Ks2 Ks); [exact Op|apply splice_old; rewrite Op; exact LO]).
  assert (I2 : install x1 (sg_opened Ks2 As2 kh id) = (with_drv y V2, r2)).
  { apply (install_same _ V); [exact P1|exact (sees_pre _ _ _ _ _ S1 PRE)|reflexivity|reflexivity]. }
  assert (SAME : forall c, pre c cs -> sg_seen Ks2 As2 c = sg_seen Ks As c).
  { intros c Pc. unfold sg_seen. rewrite OP2, Op. cbn [fst].
    pose proof (sg_replay_sh Ks2 Ks As2 As [] kh c) as E. cbn [app] in E. destruct Pc as [z Pc].
    assert (LL : (List.length (sg_replay Ks As kh c) <= List.length own)%nat) by (unfold own; rewrite Pc, sg_replay_app; apply sg_replay_len).
    apply E; [apply splice_old|apply splice_addr_old]; exact LL. }
  destruct (run_more V V' V2 (l_dh y) (l_calls y) calls o cs Hh) as (Q1 & Q2 & Q3); [exact S1|rewrite Hp; exact S2|]. rewrite Hp in Q1, Q2, Q3. fold fr in Q1, Q2.
  assert (DRI : l_driving y = 1).
  { unfold sg_opened, install in P1. cbn [o_drv o_type] in P1. destruct (init _ _ _) as [c0 [p0 r0]]. injection P1 as <- _. reflexivity. }
  exists (map (GSg fd) (sg_replay K' A' [] (fst fr))), Ks2, As2, (with_drv y V2), (cs ++ fst fr). split; [reflexivity|]. split.
  { apply Forall_map, Forall_forall. intros c _. reflexivity. }
  constructor; cbn [gh_fd gh_dh gh_dev gh_driving gh_driver_name gh_path with_drv l_dh l_calls l_fd l_driving l_driver_name l_drv drv_of].
  - exists x1, r1, r2. split; [exact P0|]. split; [exact F1|]. unfold phase1. rewrite OP2. split; [exact I2|exact F2].
  - exact F.
  - exact Fd.
  - unfold same_driver. cbn [gh_dev gh_dh l_drv]. split; [reflexivity|]. split; [|exists kh; split; [exact OP2|reflexivity]].
    intros Z. apply L. rewrite <- (hstep_keeps V' (gh_dh x) o NC). exact Z.
  - exact Q1.
  - exact Q2.
  - now rewrite Q3, Hr.
  - destruct Dr as [d1 d2 d3 d4 d5]. constructor; try assumption.
    + apply (splice_drawn own Ks K' (fun c a => exists g, a = m_sg M (g ++ [GSg fd c]))); [exact d3|apply sg_at_drawn].
    + intros k. destruct (splice_addr_values own As A' k) as [E|[k' E]]; unfold As2; rewrite E; [apply d4|eexists; reflexivity].
    + rewrite A0. exact d5.
  - right. left. split; [exact DRI|]. destruct Sn as [[Sn _]|[[_ Sn]|[Sn _]]]; try (rewrite DRI in Sn; discriminate Sn).
    rewrite (SAME (l_calls y) PRE). rewrite app_assoc, <- Sn, <- map_app. f_equal. unfold sg_seen. rewrite OP2, Op. cbn [fst]. rewrite R2. reflexivity.
  - destruct Sg as (c1 & c2 & E & [(G1 & -> & ->)|[(G1 & ->)|(G1 & -> & ->)]]); try (rewrite DRI in G1; discriminate G1).
    exists c1, (l_calls y). rewrite (SAME (l_calls y) PRE). split; [exact E|]. right. left. auto.
Qed.
(** Any call. *)
Lemma filter_all {A} (f : A -> bool) l : Forall (fun a => f a = true) l -> filter f l = l.
Proof. induction 1 as [|a l Ha H IH]; [reflexivity|]. cbn. now rewrite Ha, IH. Qed.
Lemma step_any M g path seg x calls rs snt fd B I Kn An Ks As y cs o : alone M path seg x calls rs snt fd B I Kn An Ks As y cs ->
  exists es Kn2 An2 Ks2 As2 y2 cs2, fst (gcall M g x o) = g ++ es
    /\ alone M path seg (snd (gcall M g x o)) (calls ++ [o]) (rs ++ [reply_of (driver_at M g x) (gh_dh x) [] o]) (snt ++ filter is_ioctl es) fd B I Kn2 An2 Ks2 As2 y2 cs2.
Proof.
  intros H. destruct (gh_dev x) as [d|] eqn:D.
  - assert (C : o = HClose \/ o <> HClose) by (destruct o; auto; right; discriminate). destruct C as [->|NC].
    + destruct (step_close M g _ _ _ _ _ _ _ _ _ _ _ _ _ _ _ d H D) as [H2 E]. exists [GFile (LClose (gh_fd x))], Kn, An, Ks, As, y, (cs ++ [CClose]). split; [exact E|exact H2].
    + destruct d as [[|] f id].
      * destruct (step_nvme M g _ _ _ _ _ _ _ _ _ _ _ _ _ _ _ o f id H D NC) as (es & Kn2 & An2 & y2 & cs2 & E & Fe & H2).
        exists es, Kn2, An2, Ks, As, y2, cs2. split; [exact E|]. rewrite (filter_all is_ioctl es Fe). exact H2.
      * destruct (step_sg M g _ _ _ _ _ _ _ _ _ _ _ _ _ _ _ o f id H D NC) as (es & Ks2 & As2 & y2 & cs2 & E & Fe & H2).
        exists es, Kn, An, Ks2, As2, y2, cs2. split; [exact E|]. rewrite (filter_all is_ioctl es Fe). exact H2.
  - destruct (step_dead M g _ _ _ _ _ _ _ _ _ _ _ _ _ _ _ o H D) as [H2 E]. exists [], Kn, An, Ks, As, y, cs. rewrite app_nil_r. split; [exact E|exact H2].
Qed.
