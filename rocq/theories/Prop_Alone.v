(** C155, C156: a drive handle used in a program with other handles behaves as it would alone. *)
From Verif Require Import Base M_Buffer M_Struc M_Layouts M_Ata M_TcgDevice M_DriveHandle M_Cdb M_SgDriver M_SgHandle M_NvmeLinux M_Strings M_LinuxInfo M_LinuxFactory M_LinuxVolume M_LinuxSystem M_LinuxMachine
  P_DriveHandle Spec_LinuxMachine P_LinuxMachine Spec_Alone P_Alone P_Alone2 P_Alone3 P_Alone4 P_Alone5 P_Alone6 P_Alone7.

Lemma nth_replace_same {A} (l : list A) i a : forall x, nth_error l i = Some x -> nth_error (replace_nth i a l) i = Some a.
Proof. revert i. induction l as [|b l IH]; intros [|i] x; cbn; try discriminate; [reflexivity|apply IH]. Qed.
Lemma nth_replace_other {A} (l : list A) i j a : j <> i -> nth_error (replace_nth j a l) i = nth_error l i.
Proof.
  revert i j. induction l as [|b l IH]; intros i j H.
  - destruct j; reflexivity.
  - destruct i as [|i], j as [|j]; cbn; try reflexivity; try congruence. apply IH. congruence.
Qed.
Lemma alone_run M path seg i ops : forall s x calls rs snt fd B I Kn An Ks As y cs, nth_error (st_handles s) i = Some x ->
  alone M path seg x calls rs snt fd B I Kn An Ks As y cs ->
  exists x' Kn' An' Ks' As' y' cs', nth_error (st_handles (grun_from M s ops)) i = Some x'
    /\ alone M path seg x' (calls ++ calls_on i ops) (rs ++ replies_on M s i ops) (snt ++ sent_on M s i ops) fd B I Kn' An' Ks' As' y' cs'.
Proof.
  induction ops as [|o ops IH]; intros s x calls rs snt fd B I Kn An Ks As y cs Hx H.
  - cbn [calls_on flat_map replies_on sent_on grun_from fold_left]. rewrite !app_nil_r. eauto 10.
  - unfold grun_from. cbn [fold_left calls_on flat_map replies_on sent_on]. fold (grun_from M (gstep M s o) ops). fold (calls_on i ops). rewrite Hx.
    assert (SKIP : nth_error (st_handles (gstep M s o)) i = Some x -> call_on i o = [] ->
      exists x' Kn' An' Ks' As' y' cs', nth_error (st_handles (grun_from M (gstep M s o) ops)) i = Some x'
        /\ alone M path seg x' (calls ++ call_on i o ++ calls_on i ops) (rs ++ map (reply_of (driver_now M s x) (gh_dh x) []) (call_on i o) ++ replies_on M (gstep M s o) i ops)
             (snt ++ match call_on i o with [] => [] | _ :: _ => ioctls_between s (gstep M s o) end ++ sent_on M (gstep M s o) i ops) fd B I Kn' An' Ks' As' y' cs').
    { intros Hx' ->. cbn [map app]. exact (IH _ _ _ _ _ _ _ _ _ _ _ _ _ _ Hx' H). }
    destruct o as [p| | |j c].
    + apply SKIP; [|reflexivity]. cbn [gstep]. destruct (gopen_by_path M (st_hist s) p) as [g [z|e| |]]; cbn [st_handles]; try exact Hx. rewrite nth_error_app1; [exact Hx|]. apply nth_error_Some. congruence.
    + apply SKIP; [exact Hx|reflexivity].
    + apply SKIP; [exact Hx|reflexivity].
    + destruct (Nat.eqb_spec j i) as [->|NE].
      * cbn [call_on]. rewrite Nat.eqb_refl. cbn [map app].
        destruct (step_any M (st_hist s) path seg x calls rs snt fd B I Kn An Ks As y cs c H) as (es & Kn2 & An2 & Ks2 & As2 & y2 & cs2 & Eg & H2).
        assert (ST : gstep M s (GOn i c) = {| st_hist := fst (gcall M (st_hist s) x c); st_handles := replace_nth i (snd (gcall M (st_hist s) x c)) (st_handles s) |}).
        { cbn [gstep]. rewrite Hx. destruct (gcall M (st_hist s) x c). reflexivity. }
        assert (Hx2 : nth_error (st_handles (gstep M s (GOn i c))) i = Some (snd (gcall M (st_hist s) x c))) by (rewrite ST; cbn [st_handles]; exact (nth_replace_same _ _ _ _ Hx)).
        destruct (IH _ _ _ _ _ _ _ _ _ _ _ _ _ _ Hx2 H2) as (x' & Kn' & An' & Ks' & As' & y' & cs' & G1 & G2).
        exists x', Kn', An', Ks', As', y', cs'. split; [exact G1|]. rewrite <- !app_assoc in G2. cbn [app] in G2.
        assert (IB : ioctls_between s (gstep M s (GOn i c)) = filter is_ioctl es) by (unfold ioctls_between; rewrite ST; cbn [st_hist]; rewrite Eg, skipn_own; reflexivity).
        rewrite IB. exact G2.
      * apply SKIP; [|cbn [call_on]; destruct (Nat.eqb_spec j i); [congruence|reflexivity]].
        cbn [gstep]. destruct (nth_error (st_handles s) j) as [z|] eqn:Hj; [|exact Hx]. destruct (gcall M (st_hist s) z c) as [g z']. cbn [st_handles]. rewrite nth_replace_other by exact NE. exact Hx.
Qed.

(** For every machine and every program that, after anything else, opens [path] successfully and goes on with anything: there is a
    system on which [path] alone is opened - its answers are those of the machine - such that the handle opened there has the same
    descriptor, driving type, driver name, and, when it alone is used with the calls the program makes on the handle, gives the same
    reply to each of them, ends in the same state (DriveInfo, open or closed) and sends the same ioctls, during the opening and after it. *)
Theorem C155_as_if_alone : forall M ops1 path ops2,
  let before := grun M ops1 in let opened := gstep M before (GOpen path) in let i := List.length (st_handles before) in let after := grun_from M opened ops2 in
  List.length (st_handles opened) = S i ->
  exists x S h y cs,
    nth_error (st_handles after) i = Some x
    /\ open_by_path (linux S) [] path = (h, Ok y) /\ answers_of M (l_fd y) S
    /\ gh_fd x = l_fd y /\ gh_driving x = l_driving y /\ gh_driver_name x = l_driver_name y
    /\ (let V := match l_drv y with Some V => V | None => no_drv end in
        replies V (l_dh y) (l_calls y) (calls_on i ops2) = replies_on M opened i ops2
        /\ fst (snd (hrun V (l_dh y) (l_calls y) (calls_on i ops2))) = gh_dh x
        /\ fst (hrun V (l_dh y) (l_calls y) (calls_on i ops2)) = cs)
    /\ ((l_driving y = 2 /\ map GNvme (nvme_ioctls S (removelast h) (with_calls y cs)) = map GNvme (nvme_ioctls S (removelast h) y) ++ sent_on M opened i ops2)
        \/ (l_driving y = 1 /\ map (GSg (l_fd y)) (sg_ioctls S h (with_calls y cs)) = map (GSg (l_fd y)) (sg_ioctls S h y) ++ sent_on M opened i ops2)
        \/ (l_driving y = 0 /\ sent_on M opened i ops2 = []))
    /\ exists c1 c2, ioctls_between before opened = map GNvme (nvme_ioctls S (removelast h) (with_calls y c1)) ++ map (GSg (l_fd y)) (sg_ioctls S h (with_calls y c2))
       /\ ((l_driving y = 2 /\ c1 = l_calls y /\ c2 = []) \/ (l_driving y = 1 /\ c2 = l_calls y) \/ (l_driving y = 0 /\ c1 = [] /\ c2 = [])).
Proof.
  intros M ops1 path ops2 before opened i after Len. subst after. unfold opened in *. cbn [gstep] in *.
  destruct (gopen_by_path M (st_hist before) path) as [g' [x0|e| |]] eqn:E; cbn [st_handles] in Len; try (fold i in Len; lia).
  destruct (open_alone M _ path g' x0 E) as (seg & fd & B & I & Kn & An & Ks & As & y0 & Eg & EO & EB & EI & AL).
  set (s1 := {| st_hist := g'; st_handles := st_handles before ++ [x0] |}).
  assert (Hx : nth_error (st_handles s1) i = Some x0) by (unfold s1, i; cbn [st_handles]; rewrite nth_error_app2 by apply Nat.le_refl; now rewrite Nat.sub_diag).
  destruct (alone_run M path _ i ops2 s1 x0 [] [] [] fd B I Kn An Ks As y0 _ Hx AL) as (x & Kn' & An' & Ks' & As' & y & cs & Hx' & AL'). cbn [app] in AL'.
  destruct AL' as [O [F1 [F2 F3]] Fd D Hh Hp Hr Dr Sn Sg]. destruct O as (x1 & r1 & r2 & P0 & R1 & P1 & R2).
  exists x, (sys M fd B I Kn' An' Ks' As'), (hist5 path fd), y, cs. split; [exact Hx'|]. split; [exact (open_sys M fd B I Kn' An' Ks' As' path x1 r1 y r2 P0 R1 P1 R2)|]. rewrite Fd. split.
  { destruct Dr as [d1 d2 d3 d4 d5]. unfold answers_of. cbn [sys sy_world w_open w_basic w_ids sy_nvme sy_nvme_addr sy_sg sy_sg_addr].
    split; [intros _; eexists; symmetry; exact EO|]. split; [intros _; eexists; exact EB|]. split; [intros _; eexists; exact EI|]. auto 10. }
  split; [congruence|]. split; [exact F2|]. split; [exact F3|]. split; [unfold drv_of in *; auto|].
  unfold nvme_ioctls, sg_ioctls. cbn [sys sy_nvme sy_nvme_addr sy_sg sy_sg_addr with_calls l_calls l_fd]. rewrite Fd. fold (nv_seen Kn' fd An' cs) (nv_seen Kn' fd An' (l_calls y)) (sg_seen Ks' As' cs) (sg_seen Ks' As' (l_calls y)).
  split; [exact Sn|]. destruct Sg as (c1 & c2 & E1 & E2). exists c1, c2. split; [|exact E2]. unfold ioctls_between, s1. cbn [st_hist]. rewrite Eg, skipn_own. exact E1.
Qed.
Print Assumptions C155_as_if_alone.

(** Opening fails in a program exactly as it fails alone. *)
Theorem C155_refused_as_if_alone : forall M ops path e, let before := grun M ops in
  snd (gopen_by_path M (st_hist before) path) = Err e ->
  exists S h, open_by_path (linux S) [] path = (h, Err e) /\ m_open M (st_hist before ++ [GFile (LOpen path)]) = w_open (sy_world S) h
    /\ st_handles (gstep M before (GOpen path)) = st_handles before /\ ioctls_between before (gstep M before (GOpen path)) = [].
Proof.
  intros M ops path e before. unfold gopen_by_path. cbv zeta. destruct (m_open M (st_hist before ++ [GFile (LOpen path)])) as [e0|fd] eqn:E.
  - cbn [snd]. intros H. injection H as ->.
    exists {| sy_world := {| w_open := fun _ => inl e; w_basic := fun h => m_basic M (map GFile h); w_ids := fun h => m_ids M (map GFile h); w_probe := fun _ => inl (EMsg "");
                    w_dir := fun h => m_dir M (map GFile h); w_mode := fun h => m_mode M (map GFile h) |};
     sy_nvme := fun _ => nvme_at M []; sy_nvme_addr := fun _ => nvme_addr_at M []; sy_sg := fun _ => sg_at M [] 0; sy_sg_addr := fun _ => sg_addr_at M [] 0 |}, [LOpen path].
    split; [reflexivity|]. split; [reflexivity|]. unfold gstep, gopen_by_path. cbv zeta. rewrite E. split; [reflexivity|].
    unfold ioctls_between. cbn [st_hist]. rewrite skipn_own. reflexivity.
  - unfold gopen_by_fd. cbv zeta. match goal with |- context [gprobe_loop M ?g fd ?x 0 driver_count] => pose proof (gprobe_loop_no_err M fd driver_count g x 0) as N; destruct (gprobe_loop M g fd x 0 driver_count) as [g2 [z|e2| |]] end;
      cbn [snd] in *; try discriminate. exfalso. exact (N e2 eq_refl).
Qed.
Print Assumptions C155_refused_as_if_alone.

(** ---- C156: listing the drives ---- *)
(** EnumDrives at any point of any program on any machine returns what EnumDrives returns alone on a system whose answers are those the
    machine gave: the same drives in the same order with the same information, or the same error; and it performs the same file
    operations. *)
Theorem C156_listing_as_if_alone : forall M ops, let s := grun M ops in
  exists S h r, enum_drives (linux S) [] = (h, r) /\ files_between s (gstep M s GEnum) = h /\ listing_answers_of M S
  /\ match snd (genum_drives M (st_hist s)), r with
     | Ok xs, Ok ys => Forall2 (fun x y => gh_dh x = l_dh y /\ gh_fd x = l_fd y /\ gh_driving x = l_driving y /\ gh_driver_name x = l_driver_name y) xs ys
     | Err e, Err e' => e = e' | Panic, Panic | Fuel, Fuel => True | _, _ => False
     end.
Proof.
  intros M ops s. set (g0 := st_hist s).
  assert (P : exists G, fst (genum_drives M g0) = g0 ++ G /\ pre [GFile LReadDir] G).
  { unfold genum_drives. cbv zeta. destruct (m_dir M (g0 ++ [GFile LReadDir])) as [e|names]; [exists [GFile LReadDir]; split; [reflexivity|apply pre_refl]|].
    pose proof (gloop_enum_pre M names (g0 ++ [GFile LReadDir]) []) as Q. destruct (genum_loop M (g0 ++ [GFile LReadDir]) names []) as [g2 rr]. cbn [fst] in Q.
    assert (Q2 : exists g3, pre g2 g3 /\ fst (match rr with Ok xs => (fold_left (fun k x => fst (gclose k x)) (rev xs) g2, Ok xs) | _ => (g2, rr) end) = g3).
    { destruct rr; eexists; (split; [|reflexivity]); cbn [fst]; [apply gcloses_pre|apply pre_refl..]. }
    destruct Q2 as (g3 & Q2 & E). assert (E' : fst (match rr with Ok xs => (fold_left (fun k x => fst (gclose k x)) (rev xs) g2, Ok xs) | r => (g2, r) end) = g3) by (destruct rr; exact E).
    destruct (pre_trans _ _ _ Q Q2) as [z Z]. exists ([GFile LReadDir] ++ z). rewrite app_assoc, <- Z. split; [destruct rr; exact E'|apply pre_app]. }
  destruct P as (G & EG & PG). exists (solo M g0 G).
  assert (X : exists r, enum_drives (linux (solo M g0 G)) [] = (files G, r) /\ rel_res (Forall2 corr) (snd (genum_drives M g0)) r).
  { unfold genum_drives in *. cbv zeta in *. unfold enum_drives. cbv zeta. cbn [app].
    assert (WD : w_dir (linux (solo M g0 G)) [LReadDir] = m_dir M (g0 ++ [GFile LReadDir])) by (cbn [linux w_dir sy_world solo]; exact (solo_at M g0 G [] LReadDir _ (m_dir M) PG)).
    rewrite WD. destruct (m_dir M (g0 ++ [GFile LReadDir])) as [e|names].
    { cbn [fst] in EG. apply app_inv_head in EG. subst G. eexists. split; reflexivity. }
    pose proof (gloop_enum_pre M names (g0 ++ [GFile LReadDir]) []) as Q. destruct (genum_loop M (g0 ++ [GFile LReadDir]) names []) as [g2 rr] eqn:EL. cbn [fst] in Q.
    destruct Q as [z Q]. rewrite <- app_assoc in Q. subst g2.
    assert (P2 : pre ([GFile LReadDir] ++ z) G).
    { assert (Q : pre (g0 ++ [GFile LReadDir] ++ z) (g0 ++ G)); [|exact (pre_cancel _ _ _ Q)]. rewrite <- EG. destruct rr; cbn [fst]; [apply gcloses_pre|apply pre_refl..]. }
    destruct (enum_sim M g0 G names [GFile LReadDir] [] [] _ rr (Forall2_nil _) EL P2) as (r' & E1 & RR). change (files [GFile LReadDir]) with [LReadDir] in E1. rewrite E1.
    destruct rr as [xs|er| |]; destruct r' as [ys|er'| |]; try contradiction RR.
    - destruct (closes_sim g0 (rev xs) (rev ys) (Forall2_rev _ _ _ RR) ([GFile LReadDir] ++ z)) as (q & C1 & C2). cbn [fst] in EG. rewrite C1 in EG. apply app_inv_head in EG. subst q.
      exists (Ok ys). split; [rewrite C2; reflexivity|exact RR].
    - cbn [fst] in EG. apply app_inv_head in EG. rewrite <- EG. eexists. split; [reflexivity|exact RR].
    - cbn [fst] in EG. apply app_inv_head in EG. rewrite <- EG. eexists. split; [reflexivity|exact RR].
    - cbn [fst] in EG. apply app_inv_head in EG. rewrite <- EG. eexists. split; [reflexivity|exact RR]. }
  destruct X as (r & E1 & RR). exists (files G), r. split; [exact E1|]. split.
  { unfold files_between. cbn [gstep st_hist]. fold g0. rewrite EG, skipn_own. reflexivity. }
  split.
  { unfold listing_answers_of. cbn [solo sy_world w_dir w_mode w_open w_basic w_ids sy_nvme sy_nvme_addr sy_sg sy_sg_addr].
    repeat (split; [intros; first [eexists; reflexivity|apply nvme_at_drawn]|]). split; [intros; destruct (sg_at_drawn M (g0 ++ cut (List.length h) G) (last_fd h) k c) as [g E]; eauto|intros; eexists; reflexivity]. }
  unfold rel_res in RR. destruct (snd (genum_drives M g0)) as [xs|e| |], r as [ys|e'| |]; try exact RR.
  clear -RR. induction RR as [|x y xs ys [(A & B & C) D] RR IH]; constructor; auto.
Qed.
Print Assumptions C156_listing_as_if_alone.
