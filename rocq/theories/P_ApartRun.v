(** Lemmas for C188: runs of a program and of its calls on one handle. *)
From Verif Require Import Base M_Buffer M_Struc M_Layouts M_Ata M_TcgDevice M_DriveHandle M_Cdb M_SgDriver M_SgHandle M_NvmeLinux M_Strings M_LinuxInfo M_LinuxFactory M_LinuxVolume M_LinuxMachine
  P_DriveHandle Spec_LinuxMachine P_LinuxMachine Spec_Alone P_Alone P_Alone2 P_Alone3 P_Alone4 P_Alone5 Prop_Alone P_Apart Spec_Apart.

Lemma done_app fd a b : done_on fd (a ++ b) = done_on fd a ++ done_on fd b.
Proof. apply filter_app. Qed.

Section Two.
Variables (M : machine) (g0 a b : ghist) (fd : N).
Hypothesis U : undisturbed M g0 fd.
Hypothesis S : done_on fd a = done_on fd b.
Lemma two_app k : done_on fd (a ++ k) = done_on fd (b ++ k).
Proof. now rewrite !done_app, S. Qed.
Lemma two_nv n : kagreef fd n [] (nvme_at M (g0 ++ a)) (nvme_at M (g0 ++ b)).
Proof.
  intros k c _ E. cbn [app]. unfold nvme_at. rewrite map_app. cbn [map]. rewrite <- !app_assoc.
  pose proof (proj1 (U _ _ (two_app (map GNvme k))) c E) as Q. rewrite <- !app_assoc in Q. exact Q.
Qed.
Lemma two_nv_addr n : aagree n [] (nvme_addr_at M (g0 ++ a)) (nvme_addr_at M (g0 ++ b)).
Proof.
  intros k _. cbn [app]. unfold nvme_addr_at. rewrite <- !app_assoc. exact (proj2 (proj2 (U _ _ (two_app (map GNvme k))))).
Qed.
Lemma two_sg n : kagree n [] (sg_at M (g0 ++ a) fd) (sg_at M (g0 ++ b) fd).
Proof.
  intros k L. cbn [app]. unfold sg_at. destruct (exists_last (l := k)) as (k1 & c & ->); [destruct k; [cbn in L; lia|discriminate]|].
  rewrite map_app. cbn [map]. rewrite <- !app_assoc. pose proof (proj1 (proj2 (U _ _ (two_app (map (GSg fd) k1)))) c) as Q. rewrite <- !app_assoc in Q. exact Q.
Qed.
Lemma two_sg_addr n : aagree n [] (sg_addr_at M (g0 ++ a) fd) (sg_addr_at M (g0 ++ b) fd).
Proof.
  intros k _. cbn [app]. unfold sg_addr_at. rewrite <- !app_assoc. exact (proj2 (proj2 (U _ _ (two_app (map (GSg fd) k))))).
Qed.
Lemma two_step p d o : d_fd d = fd ->
  hstep (drv_at M (g0 ++ a) d) p [] o = hstep (drv_at M (g0 ++ b) d) p [] o
  /\ reply_of (drv_at M (g0 ++ a) d) p [] o = reply_of (drv_at M (g0 ++ b) d) p [] o
  /\ forall cs, ioctls_of M (g0 ++ a) d cs = ioctls_of M (g0 ++ b) d cs.
Proof.
  intros E. assert (X : forall f, sees_upto (drv_at M (g0 ++ a) d) (drv_at M (g0 ++ b) d) [] f).
  { intros f. apply upto_of. unfold drv_at. rewrite E. destruct (d_kind d).
    - apply (nv_drv_seesf fd _ _ _ _ [] [] _ [] f []); [reflexivity|apply two_nv|apply two_nv_addr].
    - apply (sg_drv_sees _ _ _ _ [] [] _ [] f []); [reflexivity|apply two_sg|apply two_sg_addr]. }
  split; [|split].
  - pose proof (hstep_sh _ _ [] p [] o (X _)) as Q. cbn [app] in Q. rewrite Q. symmetry. apply surjective_pairing.
  - exact (reply_sh _ _ [] p [] o (X _)).
  - intros cs. unfold ioctls_of. rewrite E. destruct (d_kind d); f_equal.
    + exact (nv_replay_shf fd _ _ _ _ [] [] cs (two_nv _) (two_nv_addr _)).
    + exact (sg_replay_sh _ _ _ _ [] [] cs (two_sg _) (two_sg_addr _)).
Qed.
(** a call on the handle: same reply, same handle afterwards, same actions *)
Lemma two_call x o : gh_fd x = fd -> sound_handle x -> exists es,
  fst (gcall M (g0 ++ a) x o) = (g0 ++ a) ++ es /\ fst (gcall M (g0 ++ b) x o) = (g0 ++ b) ++ es
  /\ snd (gcall M (g0 ++ a) x o) = snd (gcall M (g0 ++ b) x o)
  /\ reply_of (match gh_dev x with Some d => drv_at M (g0 ++ a) d | None => no_drv end) (gh_dh x) [] o
     = reply_of (match gh_dev x with Some d => drv_at M (g0 ++ b) d | None => no_drv end) (gh_dh x) [] o
  /\ gh_fd (snd (gcall M (g0 ++ b) x o)) = fd /\ sound_handle (snd (gcall M (g0 ++ b) x o)).
Proof.
  intros F Sx. destruct (match o with HClose => true | _ => false end) eqn:C.
  - destruct o; try discriminate C. cbn [gcall]. unfold gclose. pose proof Sx as Sx'. unfold sound_handle in Sx'. destruct (gh_dev x) as [d|] eqn:D.
    + destruct (two_step (gh_dh x) d HClose (eq_trans (proj1 Sx') F)) as (_ & R & _).
      destruct (p_dh (gh_dh x)) eqn:P; [|destruct Sx' as [_ Sx']; congruence].
      eexists. cbn [fst snd gh_fd]. split; [reflexivity|]. split; [reflexivity|]. split; [reflexivity|]. split; [exact R|]. split; [exact F|]. reflexivity.
    + rewrite Sx'. exists []. cbn [fst snd]. rewrite !app_nil_r. auto 6.
  - assert (NC : o <> HClose) by (intros ->; discriminate C).
    assert (G : forall g, gcall M g x o = let V := match gh_dev x with Some d => drv_at M g d | None => no_drv end in
      let '(cs, (p, _)) := hstep V (gh_dh x) [] o in
      (match gh_dev x with Some d => g ++ ioctls_of M g d cs | None => g end,
       {| gh_path := gh_path x; gh_fd := gh_fd x; gh_dh := p; gh_dev := gh_dev x; gh_driving := gh_driving x; gh_driver_name := gh_driver_name x |})).
    { intros g. destruct o; try reflexivity. congruence. }
    rewrite !G. cbv zeta. unfold sound_handle in Sx. destruct (gh_dev x) as [d|] eqn:D.
    + destruct Sx as [Sf Sl]. destruct (two_step (gh_dh x) d o (eq_trans Sf F)) as (H & R & I). rewrite H.
      pose proof (P_LinuxMachine.hstep_keeps (drv_at M (g0 ++ b) d) (gh_dh x) o NC) as K.
      destruct (hstep (drv_at M (g0 ++ b) d) (gh_dh x) [] o) as [cs [p r]]. cbn [fst snd] in *. exists (ioctls_of M (g0 ++ b) d cs). rewrite (I cs).
      split; [reflexivity|]. split; [reflexivity|]. split; [reflexivity|]. split; [exact R|]. cbn [gh_fd gh_dev gh_dh]. split; [exact F|].
      unfold sound_handle. cbn [gh_fd gh_dev gh_dh]. split; [exact Sf|]. now rewrite K.
    + pose proof (P_LinuxMachine.hstep_keeps no_drv (gh_dh x) o NC) as K. destruct (hstep no_drv (gh_dh x) [] o) as [cs [p r]]. cbn [fst snd] in *. exists []. rewrite !app_nil_r.
      do 4 (split; [reflexivity|]). cbn [gh_fd gh_dev gh_dh]. split; [exact F|]. unfold sound_handle. cbn [gh_fd gh_dev gh_dh]. now rewrite K.
Qed.
End Two.

Lemma own_sent s o es M : st_hist (gstep M s o) = st_hist s ++ es -> ioctls_between s (gstep M s o) = filter is_ioctl es.
Proof. intros E. unfold ioctls_between. now rewrite E, skipn_own. Qed.
Lemma apart_run M g0 fd i ops : undisturbed M g0 fd -> forall s1 s2 a b x,
  st_hist s1 = g0 ++ a -> st_hist s2 = g0 ++ b -> done_on fd a = done_on fd b -> nth_error (st_handles s1) i = Some x -> nth_error (st_handles s2) i = Some x ->
  gh_fd x = fd -> sound_handle x -> elsewhere M s1 i fd ops ->
  replies_on M s1 i ops = replies_on M s2 i (map (GOn i) (calls_on i ops)) /\ sent_on M s1 i ops = sent_on M s2 i (map (GOn i) (calls_on i ops)).
Proof.
  intros U. induction ops as [|o ops IH]; intros s1 s2 a b x H1 H2 Sd N1 N2 F Sx EW; [split; reflexivity|].
  destruct EW as [E1 EW]. cbn [replies_on sent_on calls_on flat_map]. fold (calls_on i ops). rewrite N1.
  assert (SKIP : nth_error (st_handles (gstep M s1 o)) i = Some x -> call_on i o = [] ->
    map (reply_of (driver_now M s1 x) (gh_dh x) []) (call_on i o) ++ replies_on M (gstep M s1 o) i ops = replies_on M s2 i (map (GOn i) (call_on i o ++ calls_on i ops))
    /\ match call_on i o with [] => [] | _ => ioctls_between s1 (gstep M s1 o) end ++ sent_on M (gstep M s1 o) i ops = sent_on M s2 i (map (GOn i) (call_on i o ++ calls_on i ops))).
  { intros Nx C. destruct (E1 C) as (es & He & Hd). rewrite C. cbn [map app].
    apply (IH (gstep M s1 o) s2 (a ++ es) b x); try assumption; [rewrite He, H1; now rewrite <- app_assoc|now rewrite done_app, Hd, app_nil_r]. }
  destruct o as [p| | |j c].
  - apply SKIP; [|reflexivity]. cbn [gstep]. destruct (gopen_by_path M (st_hist s1) p) as [g [z|e| |]]; cbn [st_handles]; try exact N1. rewrite nth_error_app1; [exact N1|]. apply nth_error_Some. congruence.
  - apply SKIP; [exact N1|reflexivity].
  - apply SKIP; [exact N1|reflexivity].
  - destruct (Nat.eqb_spec j i) as [->|NE].
    + cbn [call_on]. rewrite Nat.eqb_refl. cbn [map app replies_on sent_on call_on]. rewrite N2, Nat.eqb_refl. cbn [map app].
      destruct (two_call M g0 a b fd U Sd x c F Sx) as (es & G1 & G2 & G3 & G4 & G5 & G6). rewrite <- H1, <- H2 in *.
      assert (T1 : gstep M s1 (GOn i c) = {| st_hist := fst (gcall M (st_hist s1) x c); st_handles := replace_nth i (snd (gcall M (st_hist s1) x c)) (st_handles s1) |}).
      { cbn [gstep]. rewrite N1. destruct (gcall M (st_hist s1) x c). reflexivity. }
      assert (T2 : gstep M s2 (GOn i c) = {| st_hist := fst (gcall M (st_hist s2) x c); st_handles := replace_nth i (snd (gcall M (st_hist s2) x c)) (st_handles s2) |}).
      { cbn [gstep]. rewrite N2. destruct (gcall M (st_hist s2) x c). reflexivity. }
      assert (A1 : st_hist (gstep M s1 (GOn i c)) = st_hist s1 ++ es) by (rewrite T1; exact G1). assert (A2 : st_hist (gstep M s2 (GOn i c)) = st_hist s2 ++ es) by (rewrite T2; exact G2).
      destruct (IH (gstep M s1 (GOn i c)) (gstep M s2 (GOn i c)) (a ++ es) (b ++ es) (snd (gcall M (st_hist s2) x c))) as [Q1 Q2].
      * rewrite A1, H1. symmetry. apply app_assoc.
      * rewrite A2, H2. symmetry. apply app_assoc.
      * now rewrite !done_app, Sd.
      * rewrite T1. cbn [st_handles]. rewrite G3. exact (nth_replace_same _ _ _ _ N1).
      * rewrite T2. cbn [st_handles]. exact (nth_replace_same _ _ _ _ N2).
      * exact G5.
      * exact G6.
      * exact EW.
      * rewrite (own_sent _ _ _ _ A1), (own_sent _ _ _ _ A2). split; f_equal; [exact G4|exact Q1|exact Q2].
    + apply SKIP; [|cbn [call_on]; destruct (Nat.eqb_spec j i); [congruence|reflexivity]].
      cbn [gstep]. destruct (nth_error (st_handles s1) j) as [z|] eqn:Hj; [|exact N1]. destruct (gcall M (st_hist s1) z c) as [g z']. cbn [st_handles]. rewrite nth_replace_other by exact NE. exact N1.
Qed.
