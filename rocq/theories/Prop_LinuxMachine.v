(** C151, C152: programs using any number of drives on one Linux machine. *)
From Verif Require Import Base M_Buffer M_Struc M_Layouts M_Ata M_TcgDevice M_DriveHandle M_Cdb M_SgDriver M_SgHandle M_NvmeLinux M_Strings M_LinuxInfo M_LinuxFactory M_LinuxVolume
  M_LinuxMachine Spec_Sg Spec_NvmeLinux Spec_Inspect Spec_LinuxMachine P_DriveHandle P_Inspect Prop_Inspect P_LinuxMachine.

(** ---- C151: looking at drives sends only reading commands ---- *)
Definition greads (e : gev) : Prop := match e with GNvme c => nv_reads c | GSg _ c => sg_reads c | GFile _ => True end.
Definition gadds (g g' : ghist) : Prop := exists es, g' = g ++ es /\ Forall greads es.
Lemma gadds_refl g : gadds g g.
Proof. exists []. now rewrite app_nil_r. Qed.
Lemma gadds_trans a b c : gadds a b -> gadds b c -> gadds a c.
Proof. intros (x & -> & A) (y & -> & B). exists (x ++ y). rewrite app_assoc. split; [reflexivity|]. apply Forall_app. auto. Qed.
Lemma gadds_file g e : gadds g (g ++ [GFile e]).
Proof. exists [GFile e]. split; [reflexivity|]. constructor; [exact I|constructor]. Qed.
(** The addresses of Go's buffers, and the alignment of the buffer the SG driver identifies with. *)
Definition machine_addresses (M : machine) : Prop :=
  (forall g, m_addr M g < 2 ^ 64) /\ forall g n fd, m_addr M (g ++ [GFile (LProbe (S n) fd)]) mod 512 = 0.
Lemma gprobe_reads M g n fd : machine_addresses M -> gadds g (fst (gprobe M (g ++ [GFile (LProbe n fd)]) n fd)).
Proof.
  intros [A1 A2]. apply (gadds_trans _ (g ++ [GFile (LProbe n fd)])); [apply gadds_file|]. unfold gprobe. destruct n as [|n].
  - destruct (proj1 C142_linux_nvme (nvme_at M (g ++ [GFile (LProbe 0 fd)])) [] fd (nvme_addr_at M (g ++ [GFile (LProbe 0 fd)]) [])) as (cs & E & F); [apply A1|].
    destruct (nv_open _ _ _ _) as [k r]. cbn [fst app] in *. subst k. eexists. split; [reflexivity|]. apply Forall_map. exact F.
  - destruct (proj1 C142_linux_sata (sg_at M (g ++ [GFile (LProbe (S n) fd)]) fd) [] (sg_addr_at M (g ++ [GFile (LProbe (S n) fd)]) fd [])) as (cs & E & F).
    { unfold sg_addr_at. cbn [map]. rewrite app_nil_r. apply A2. }
    destruct (sg_open _ _ _) as [k r]. cbn [fst app] in *. subst k. eexists. split; [reflexivity|]. apply Forall_map. exact F.
Qed.
Lemma ioctls_reads M g d cs : Forall gentle cs -> Forall greads (ioctls_of M g d cs).
Proof.
  intros G. unfold ioctls_of. destruct (d_kind d).
  - destruct (nv_replay_reads (nvme_at M g) (d_fd d) (nvme_addr_at M g) cs [] G) as (ss & -> & F). apply Forall_map. exact F.
  - destruct (sg_replay_reads (sg_at M g (d_fd d)) (sg_addr_at M g (d_fd d)) cs [] G) as (ss & -> & F). apply Forall_map. exact F.
Qed.
Lemma ginstall_reads M g x d : gadds g (fst (ginstall M g x d)).
Proof.
  unfold ginstall. cbv zeta. destruct (init _ _ _) as [cs [p r]] eqn:E. cbn [fst]. eexists. split; [reflexivity|]. apply ioctls_reads.
  destruct (init_gentle _ _ _ _ _ E) as (cs' & -> & G). constructor; [exact I|]. constructor; [exact I|exact G].
Qed.
Lemma gprobe_loop_reads M fd k : machine_addresses M -> forall g x n, gadds g (fst (gprobe_loop M g fd x n k)).
Proof.
  intros HA. induction k as [|k IH]; intros g x n; cbn [gprobe_loop]; [apply gadds_refl|].
  pose proof (gprobe_reads M g n fd HA) as P. destruct (gprobe M _ n fd) as [g1 [d|]]; cbn [fst] in P; [|exact (gadds_trans _ _ _ P (IH _ _ _))].
  pose proof (ginstall_reads M g1 x d) as Q. destruct (ginstall M g1 x d) as [g2 [x1 r]]. cbn [fst] in Q. pose proof (gadds_trans _ _ _ P Q) as W.
  destruct r; cbn [fst]; try exact W; exact (gadds_trans _ _ _ W (IH _ _ _)).
Qed.
Lemma gopen_reads M g path : machine_addresses M -> gadds g (fst (gopen_by_path M g path)).
Proof.
  intros HA. unfold gopen_by_path. cbv zeta. pose proof (gadds_file g (LOpen path)) as O. destruct (m_open M _) as [e|fd]; [exact O|].
  unfold gopen_by_fd. cbv zeta. match goal with |- context [gprobe_loop M ?a fd ?y 0 driver_count] => pose proof (gprobe_loop_reads M fd driver_count HA a y 0) as L; destruct (gprobe_loop M a fd y 0 driver_count) as [g2 r] end.
  cbn [fst] in L.
  assert (W : gadds g g2).
  { refine (gadds_trans _ _ _ _ L). refine (gadds_trans _ _ _ O _). refine (gadds_trans _ _ _ (gadds_file _ _) (gadds_file _ _)). }
  destruct r; cbn [fst]; try exact W. exact (gadds_trans _ _ _ W (gadds_file _ _)).
Qed.
Lemma gclose_reads g x : gadds g (fst (gclose g x)).
Proof. unfold gclose. destruct (p_dh (gh_dh x)); cbn [fst]; [apply gadds_file|apply gadds_refl]. Qed.
Lemma close_all_reads xs : forall g, gadds g (fold_left (fun k x => fst (gclose k x)) xs g).
Proof. induction xs as [|x xs IH]; intros g; cbn [fold_left]; [apply gadds_refl|]. exact (gadds_trans _ _ _ (gclose_reads g x) (IH _)). Qed.
Lemma genum_loop_reads M names : machine_addresses M -> forall g xs, gadds g (fst (genum_loop M g names xs)).
Proof.
  intros HA. induction names as [|name rest IH]; intros g xs; cbn [genum_loop]; [apply gadds_refl|].
  destruct (contains _ name); [apply IH|]. cbv zeta. pose proof (gadds_file g (LStat (dev_path name))) as O. set (g1 := g ++ [GFile (LStat (dev_path name))]) in *. clearbody g1.
  pose proof (fun ys => gadds_trans _ _ _ O (IH g1 ys)) as S.
  destruct (m_mode M g1) as [mode|]; [|apply S]. destruct (is_block mode); [|apply S]. destruct (contains _ name); [apply S|].
  pose proof (gadds_trans _ _ _ O (gopen_reads M g1 (dev_path name) HA)) as P. destruct (gopen_by_path M g1 (dev_path name)) as [g2 [x|e| |]]; cbn [fst] in *; try exact P.
  - exact (gadds_trans _ _ _ P (IH _ _)).
  - exact (gadds_trans _ _ _ P (IH _ _)).
  - exact (gadds_trans _ _ _ P (close_all_reads _ _)).
Qed.
Lemma gstep_reads M s o : machine_addresses M -> looks o -> gadds (st_hist s) (st_hist (gstep M s o)).
Proof.
  intros HA L. destruct o as [path| | |i o]; cbn [gstep].
  - pose proof (gopen_reads M (st_hist s) path HA) as P. destruct (gopen_by_path M (st_hist s) path) as [g [x|e| |]]; exact P.
  - cbn [st_hist]. unfold genum_drives. cbv zeta. pose proof (gadds_file (st_hist s) LReadDir) as O. destruct (m_dir M _) as [e|names]; [exact O|].
    pose proof (gadds_trans _ _ _ O (genum_loop_reads M names HA _ [])) as P. destruct (genum_loop M _ names []) as [g2 [xs|e| |]]; cbn [fst] in *; try exact P.
    exact (gadds_trans _ _ _ P (close_all_reads _ _)).
  - cbn [st_hist]. eexists. split; [reflexivity|]. apply Forall_map, Forall_forall. intros e _. exact I.
  - destruct (nth_error (st_handles s) i) as [x|]; [|apply gadds_refl].
    assert (G : gadds (st_hist s) (fst (gcall M (st_hist s) x o))).
    { assert (D : o = HClose \/ o <> HClose) by (destruct o; (now left) || (right; discriminate)). destruct D as [->|Hn]; [apply gclose_reads|].
      set (V := match gh_dev x with Some d => drv_at M (st_hist s) d | None => no_drv end).
      assert (Q : fst (gcall M (st_hist s) x o) = match gh_dev x with Some d => st_hist s ++ ioctls_of M (st_hist s) d (fst (hstep V (gh_dh x) [] o)) | None => st_hist s end).
      { unfold gcall. fold V. destruct o; try congruence; destruct (hstep V (gh_dh x) [] _) as [cs [p out]]; reflexivity. }
      rewrite Q. destruct (gh_dev x) as [d|]; [|apply gadds_refl]. eexists. split; [reflexivity|]. apply ioctls_reads.
      destruct (hstep V (gh_dh x) [] o) as [cs y] eqn:E. destruct (hstep_gentle _ _ _ _ _ _ L E) as (cs' & -> & Gc). exact Gc. }
    destruct (gcall M (st_hist s) x o) as [g x']. exact G.
Qed.
Theorem C151_linux_programs : forall M ops,
  (forall g, m_addr M g < 2 ^ 64) -> (forall g n fd, m_addr M (g ++ [GFile (LProbe (S n) fd)]) mod 512 = 0) ->
  Forall looks ops ->
  (forall c, In (GNvme c) (st_hist (grun M ops)) -> nv_reads c) /\ (forall fd c, In (GSg fd c) (st_hist (grun M ops)) -> sg_reads c).
Proof.
  intros M ops A1 A2 L.
  assert (R : gadds [] (st_hist (grun M ops))).
  { unfold grun. change (@nil gev) with (st_hist {| st_hist := []; st_handles := [] |}) at 1.
    generalize {| st_hist := []; st_handles := [] |}. induction L as [|o ops Lo Ls IH]; intros s; cbn [fold_left]; [apply gadds_refl|].
    exact (gadds_trans _ _ _ (gstep_reads M s o (conj A1 A2) Lo) (IH _)). }
  destruct R as (es & E & F). rewrite E. cbn [app]. rewrite Forall_forall in F.
  split; [intros c I; exact (F _ I)|intros fd c I; exact (F _ I)].
Qed.
Print Assumptions C151_linux_programs.

(** ---- C152: no command reaches another drive ---- *)
(** Each action a call performs on a descriptor happens while that descriptor is open on a path the call concerns: for a call on a
    handle, the path that handle was opened with.  In particular nothing is done to a closed descriptor, whose number the system may
    have given to another drive, and no descriptor is closed twice. *)
Theorem C152_own_drive : forall M ops o, fresh_descriptors M ->
  let s := grun M ops in let s' := gstep M s o in
  exists es, st_hist s' = st_hist s ++ es
  /\ forall e1 e e2 fd, es = e1 ++ e :: e2 -> acts_on e = Some fd -> exists path, open_on M (st_hist s ++ e1) fd path /\ may_touch s o path.
Proof.
  intros M ops o HF s s'. destruct (gstep_adds M s o HF (grun_good M ops HF)) as (es & E & T & _). exists es. split; [exact E|]. exact T.
Qed.
Print Assumptions C152_own_drive.
(** The path of a handle is the one given to OpenByPath, for as long as the program runs. *)
Theorem C152_handle_paths : forall M ops o, fresh_descriptors M ->
  let s := grun M ops in let s' := gstep M s o in
  paths s' = paths s \/ exists p, o = GOpen p /\ paths s' = paths s ++ [p].
Proof. intros M ops o HF s s'. destruct (gstep_adds M s o HF (grun_good M ops HF)) as (es & _ & _ & _ & P). exact P. Qed.
Print Assumptions C152_handle_paths.
(** A descriptor is open on one path only, so the path of [C152_own_drive] is determined; and two handles that are still open never
    share a descriptor. *)
Theorem C152_one_path : forall M, fresh_descriptors M ->
  (forall g fd p q, open_on M g fd p -> open_on M g fd q -> p = q)
  /\ (forall ops i j x y, nth_error (st_handles (grun M ops)) i = Some x -> nth_error (st_handles (grun M ops)) j = Some y ->
        p_dh (gh_dh x) <> None -> p_dh (gh_dh y) <> None -> gh_fd x = gh_fd y -> i = j).
Proof.
  intros M HF. split; [intros g fd p q; now apply open_on_unique|].
  intros ops i j x y Hi Hj Lx Ly E. destruct (grun_good M ops HF) as [_ [D _]].
  set (xs := st_handles (grun M ops)) in *. clearbody xs. revert i j Hi Hj. induction xs as [|z xs IH]; intros i j Hi Hj; [destruct i; discriminate Hi|].
  assert (MEM : forall k w, nth_error xs k = Some w -> p_dh (gh_dh w) <> None -> In (gh_fd w) (map fst (live xs))).
  { intros k w Hk Lw. apply nth_error_In in Hk. unfold live. rewrite <- flat_map_concat_map with (f := live1) || idtac.
    apply in_map_iff. exists (gh_fd w, gh_path w). split; [reflexivity|]. apply in_flat_map. exists w. split; [exact Hk|]. unfold live1. destruct (p_dh (gh_dh w)); [now left|congruence]. }
  change (live (z :: xs)) with (live1 z ++ live xs) in D. rewrite map_app in D.
  destruct i as [|i], j as [|j]; cbn [nth_error] in *.
  - reflexivity.
  - injection Hi as ->. exfalso. unfold live1 in D. destruct (p_dh (gh_dh x)) as [t|]; [|congruence]. cbn [map fst app] in D. inversion D; subst.
    apply H1. rewrite E. exact (MEM j y Hj Ly).
  - injection Hj as ->. exfalso. unfold live1 in D. destruct (p_dh (gh_dh y)) as [t|]; [|congruence]. cbn [map fst app] in D. inversion D; subst.
    apply H1. rewrite <- E. exact (MEM i x Hi Lx).
  - f_equal. apply IH; try assumption. clear -D. induction (map fst (live1 z)) as [|a l IHl]; [exact D|]. inversion D; auto.
Qed.
Print Assumptions C152_one_path.
