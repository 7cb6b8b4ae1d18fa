(** Lemmas for C163: the calls of a program on one machine. *)
From Verif Require Import Base M_Buffer M_Struc M_Layouts M_Ata M_TcgDevice M_DriveHandle M_Cdb M_SgDriver M_SgHandle M_NvmeLinux M_Strings M_LinuxInfo M_LinuxFactory M_LinuxVolume
  M_LinuxMachine Spec_Work P_DriveHandle P_Alone2 P_LinuxMachine P_Work.

(** From [g] to [g'] at most [c] commands and [n] actions. *)
Definition within (g g' : ghist) (c n : nat) : Prop := exists es, g' = g ++ es /\ (commands es <= c)%nat /\ (List.length es <= n)%nat.
Lemma within_refl g : within g g 0 0.
Proof. exists []. rewrite app_nil_r. cbn. auto. Qed.
Lemma within_trans a b c m1 n1 m2 n2 : within a b m1 n1 -> within b c m2 n2 -> within a c (m1 + m2) (n1 + n2).
Proof. intros (x & -> & X1 & X2) (y & -> & Y1 & Y2). exists (x ++ y). rewrite app_assoc, commands_app, app_length. split; [reflexivity|]. lia. Qed.
Lemma within_le a b m n m' n' : within a b m n -> (m <= m')%nat -> (n <= n')%nat -> within a b m' n'.
Proof. intros (x & -> & X1 & X2) L1 L2. exists x. split; [reflexivity|]. lia. Qed.
Lemma within_file g e : within g (g ++ [GFile e]) 0 1.
Proof. exists [GFile e]. cbn. auto. Qed.

(** A handle's driver kind is the one its drive handle knows. *)
Definition kinded (x : ghandle) : Prop := match gh_dev x with Some d => p_dh (gh_dh x) = Some (dtype_of (d_kind d)) | None => p_dh (gh_dh x) = None end.
Definition probe_cost (n : nat) : nat := match n with O => 1 | _ => 2 end.
Definition kind_no (n : nat) : lkind := match n with O => KNvme | _ => KSg end.
Lemma gprobe_within M g n fd : within g (fst (gprobe M g n fd)) (probe_cost n) (probe_cost n) /\ forall d, snd (gprobe M g n fd) = Some d -> d_kind d = kind_no n.
Proof.
  unfold gprobe. destruct n as [|n]; cbn [probe_cost kind_no].
  - pose proof (nv_open_len (nvme_at M g) fd (nvme_addr_at M g [])) as L. destruct (nv_open _ _ _ _) as [k r]. cbn [fst snd] in *. split.
    + exists (map GNvme k). rewrite commands_nvme, map_length. split; [reflexivity|]. lia.
    + intros d E. destruct r; try discriminate E. now injection E as <-.
  - pose proof (sg_open_count (sg_at M g fd) (sg_addr_at M g fd [])) as L. destruct (sg_open _ _ _) as [k r]. cbn [fst snd] in *. split.
    + exists (map (GSg fd) k). rewrite commands_sg, map_length. split; [reflexivity|]. lia.
    + intros d E. destruct r; try discriminate E. now injection E as <-.
Qed.
Lemma ginstall_within M g x d : within g (fst (ginstall M g x d)) (call_limit (d_kind d) HInit) (call_limit (d_kind d) HInit) /\ kinded (fst (snd (ginstall M g x d))).
Proof.
  unfold ginstall. cbv zeta. set (p := {| p_dh := _; p_info := _ |}).
  pose proof (init_total (drv_at M g d) p [CType; CName] (d_kind d) eq_refl) as L.
  destruct (init (drv_at M g d) p [CType; CName]) as [cs [p' r]] eqn:E. cbn [fst snd] in *. split.
  - exists (ioctls_of M g d cs). destruct (ioctls_count M g d cs) as [Q1 Q2]. split; [reflexivity|].
    assert (Z0 : total (d_kind d) [CType; CName] = 0%nat) by (destruct (d_kind d); reflexivity). lia.
  - unfold kinded. cbn [gh_dev gh_dh]. apply init_keeps in E. rewrite E. reflexivity.
Qed.
(** drivers [n], [n+1], ..., [k] of them *)
Fixpoint probes_cost (n k : nat) : nat := match k with O => 0 | S k' => probe_cost n + call_limit (kind_no n) HInit + probes_cost (S n) k' end.
Lemma gprobe_loop_within M fd k : forall g x n, kinded x ->
  within g (fst (gprobe_loop M g fd x n k)) (probes_cost n k) (k + probes_cost n k) /\ forall x', snd (gprobe_loop M g fd x n k) = Ok x' -> kinded x'.
Proof.
  induction k as [|k IH]; intros g x n Hx; cbn [gprobe_loop probes_cost].
  - split; [apply within_refl|]. intros x' E. now injection E as <-.
  - destruct (gprobe_within M (g ++ [GFile (LProbe n fd)]) n fd) as [W1 K1]. pose proof (within_trans _ _ _ _ _ _ _ (within_file g (LProbe n fd)) W1) as W.
    destruct (gprobe M (g ++ [GFile (LProbe n fd)]) n fd) as [g1 [d|]]; cbn [fst snd] in *.
    + specialize (K1 d eq_refl). destruct (ginstall_within M g1 x d) as [W2 X]. rewrite K1 in W2. pose proof (within_trans _ _ _ _ _ _ _ W W2) as W3.
      destruct (ginstall M g1 x d) as [g2 [x1 r]]. cbn [fst snd] in *.
      assert (L : within g (fst (gprobe_loop M g2 fd x1 (S n) k)) (probe_cost n + call_limit (kind_no n) HInit + probes_cost (S n) k) (S k + (probe_cost n + call_limit (kind_no n) HInit + probes_cost (S n) k))
        /\ forall x', snd (gprobe_loop M g2 fd x1 (S n) k) = Ok x' -> kinded x').
      { destruct (IH g2 x1 (S n) X) as [W4 X4]. split; [|exact X4]. eapply within_le; [exact (within_trans _ _ _ _ _ _ _ W3 W4)|lia|lia]. }
      destruct r as [u|e| |]; cbn [fst snd]; [exact L|exact L| |]; (split; [eapply within_le; [exact W3|lia|lia]|discriminate]).
    + destruct (IH g1 x (S n) Hx) as [W4 X4]. split; [|exact X4]. eapply within_le; [exact (within_trans _ _ _ _ _ _ _ W W4)|lia|lia].
Qed.
Lemma gopen_within M g path : within g (fst (gopen_by_path M g path)) 8 13 /\ forall x, snd (gopen_by_path M g path) = Ok x -> kinded x.
Proof.
  unfold gopen_by_path. cbv zeta. pose proof (within_file g (LOpen path)) as W0. set (g1 := g ++ [GFile (LOpen path)]) in *.
  destruct (m_open M g1) as [e|fd]; [split; [eapply within_le; [exact W0|lia|lia]|discriminate]|].
  unfold gopen_by_fd. cbv zeta.
  pose proof (within_trans _ _ _ _ _ _ _ (within_file g1 (LBasic fd path)) (within_file (g1 ++ [GFile (LBasic fd path)]) (LIds path))) as W1.
  set (g3 := (g1 ++ [GFile (LBasic fd path)]) ++ [GFile (LIds path)]) in *.
  match goal with |- context [gprobe_loop M g3 fd ?y 0 driver_count] => set (x0 := y) end.
  assert (X0 : kinded x0) by reflexivity. clearbody x0.
  destruct (gprobe_loop_within M fd driver_count g3 x0 0 X0) as [W2 X2]. pose proof (gprobe_loop_no_err M fd driver_count g3 x0 0) as NE.
  destruct (gprobe_loop M g3 fd x0 0 driver_count) as [g4 r]. cbn [fst snd] in *.
  assert (W : within g g4 8 13) by (eapply within_le; [exact (within_trans _ _ _ _ _ _ _ W0 (within_trans _ _ _ _ _ _ _ W1 W2))|cbn; lia|cbn; lia]).
  destruct r as [x|e| |]; cbn [fst snd]; [|destruct (NE e eq_refl)| |]; (split; [exact W|]); try discriminate. exact X2.
Qed.
Lemma gclose_within g x : within g (fst (gclose g x)) 0 1.
Proof. unfold gclose. destruct (p_dh (gh_dh x)); cbn [fst]; [apply within_file|]. eapply within_le; [apply within_refl|lia|lia]. Qed.
Lemma close_all_within xs : forall g, within g (fold_left (fun k x => fst (gclose k x)) xs g) 0 (List.length xs).
Proof.
  induction xs as [|x xs IH]; intros g; cbn [fold_left]; [apply within_refl|]. exact (within_trans _ _ _ _ _ _ _ (gclose_within g x) (IH _)).
Qed.
(** After the loop over [names], with [xs] handles before it: closing what was opened is included. *)
Lemma genum_loop_within M names : forall g xs,
  (forall ys, snd (genum_loop M g names xs) = Ok ys ->
    within g (fst (genum_loop M g names xs)) (8 * List.length names) (14 * List.length names) /\ (List.length ys <= List.length xs + List.length names)%nat)
  /\ ((forall ys, snd (genum_loop M g names xs) <> Ok ys) -> within g (fst (genum_loop M g names xs)) (8 * List.length names) (15 * List.length names + List.length xs)).
Proof.
  induction names as [|name names IH]; intros g xs; cbn [genum_loop].
  - cbn [fst snd List.length]. split; [|intros H; destruct (H xs eq_refl)]. intros ys E. injection E as <-. split; [apply within_refl|lia].
  - assert (Skip : forall g1 xs1 m n, within g g1 m n -> (m <= 8)%nat -> (n <= 14)%nat -> (List.length xs1 <= S (List.length xs))%nat ->
      (forall ys, snd (genum_loop M g1 names xs1) = Ok ys ->
         within g (fst (genum_loop M g1 names xs1)) (8 * List.length (name :: names)) (14 * List.length (name :: names)) /\ (List.length ys <= List.length xs + List.length (name :: names))%nat)
      /\ ((forall ys, snd (genum_loop M g1 names xs1) <> Ok ys) -> within g (fst (genum_loop M g1 names xs1)) (8 * List.length (name :: names)) (15 * List.length (name :: names) + List.length xs))).
    { intros g1 xs1 m n W Lm Ln Lx. destruct (IH g1 xs1) as [I1 I2]. cbn [List.length]. split.
      - intros ys E. destruct (I1 ys E) as [W1 L1]. split; [|lia]. eapply within_le; [exact (within_trans _ _ _ _ _ _ _ W W1)|lia|lia].
      - intros E. eapply within_le; [exact (within_trans _ _ _ _ _ _ _ W (I2 E))|lia|lia]. }
    destruct (contains (str "loop") name); [apply (Skip g xs 0%nat 0%nat); [apply within_refl|lia|lia|lia]|]. cbv zeta.
    pose proof (within_file g (LStat (dev_path name))) as W0. set (g1 := g ++ [GFile (LStat (dev_path name))]) in *.
    assert (S1 : forall xs1, (List.length xs1 <= S (List.length xs))%nat -> _) by (intros xs1; exact (Skip g1 xs1 0%nat 1%nat W0 ltac:(lia) ltac:(lia))).
    destruct (m_mode M g1) as [mode|]; [|apply S1; lia]. destruct (is_block mode); [|apply S1; lia]. destruct (contains (str "sr") name); [apply S1; lia|].
    destruct (gopen_within M g1 (dev_path name)) as [W1 _]. destruct (gopen_by_path M g1 (dev_path name)) as [g2 r]. cbn [fst] in W1.
    pose proof (within_trans _ _ _ _ _ _ _ W0 W1) as W2. destruct r as [x|e| |].
    + apply (Skip g2 (xs ++ [x]) _ _ W2); [lia|lia|]. rewrite app_length. cbn. lia.
    + apply (Skip g2 xs _ _ W2); lia.
    + cbn [fst snd]. split; [discriminate|]. intros _. pose proof (close_all_within (rev xs) g2) as W3. rewrite rev_length in W3.
      eapply within_le; [exact (within_trans _ _ _ _ _ _ _ W2 W3)|cbn [List.length]; lia|cbn [List.length]; lia].
    + cbn [fst snd]. split; [discriminate|]. intros _. eapply within_le; [exact W2|cbn [List.length]; lia|cbn [List.length]; lia].
Qed.
Lemma genum_within M g : within g (fst (genum_drives M g)) (8 * names_now M g) (1 + 15 * names_now M g).
Proof.
  unfold genum_drives, names_now. cbv zeta. pose proof (within_file g LReadDir) as W0. set (g1 := g ++ [GFile LReadDir]) in *.
  destruct (m_dir M g1) as [e|names]; [eapply within_le; [exact W0|lia|lia]|].
  destruct (genum_loop_within M names g1 []) as [I1 I2]. destruct (genum_loop M g1 names []) as [g2 r]. cbn [fst snd List.length] in *.
  destruct r as [xs|e| |]; cbn [fst].
  - destruct (I1 xs eq_refl) as [W L]. pose proof (close_all_within (rev xs) g2) as W3. rewrite rev_length in W3.
    eapply within_le; [exact (within_trans _ _ _ _ _ _ _ W0 (within_trans _ _ _ _ _ _ _ W W3))|lia|lia].
  - eapply within_le; [exact (within_trans _ _ _ _ _ _ _ W0 (I2 ltac:(discriminate)))|lia|lia].
  - eapply within_le; [exact (within_trans _ _ _ _ _ _ _ W0 (I2 ltac:(discriminate)))|lia|lia].
  - eapply within_le; [exact (within_trans _ _ _ _ _ _ _ W0 (I2 ltac:(discriminate)))|lia|lia].
Qed.

(** ---- EnumVolumes ---- *)
Lemma commands_files l : commands (map GFile l) = 0%nat.
Proof. unfold commands. induction l as [|x l IH]; [reflexivity|exact IH]. Qed.
Lemma volume_line_len W h l vs : (List.length (fst (volume_line W h l vs)) <= List.length h + 2)%nat.
Proof.
  unfold volume_line. destruct (line_fields l) as [[device mount] fs]. cbv zeta. destruct (partition_match device) as [[parent ds]|]; [|cbn; lia].
  destruct (w_open W _); [cbn [fst]; rewrite app_length; cbn; lia|].
  assert (L : (List.length ((h ++ [LOpen parent]) ++ [LBasic n parent]) <= List.length h + 2)%nat) by (rewrite !app_length; cbn; lia).
  destruct (read_basic_info _ _) as [b| | |]; try exact L. destruct (find_part _ _ _ _) as [[q|]| | |]; exact L.
Qed.
Lemma volume_lines_len W ls : forall h vs, (List.length (fst (volume_lines W h ls vs)) <= List.length h + 2 * List.length ls)%nat.
Proof.
  induction ls as [|l ls IH]; intros h vs; cbn [volume_lines]; [cbn; lia|]. pose proof (volume_line_len W h l vs) as L.
  destruct (volume_line W h l vs) as [h1 r]. cbn [fst List.length] in *. destruct r as [vs1|e| |]; cbn [fst]; try lia. specialize (IH h1 vs1). lia.
Qed.
Lemma split_lines_len s : forall cur, List.length (fst (split_lines cur s)) = List.length (filter (N.eqb 10) s).
Proof.
  induction s as [|b t IH]; intros cur; cbn [split_lines filter]; [reflexivity|]. rewrite N.eqb_sym. destruct (10 =? b).
  - specialize (IH []). destruct (split_lines [] t) as [ls r]. cbn [fst List.length] in *. now rewrite IH.
  - apply IH.
Qed.
Lemma until_long_len ls : (List.length (fst (until_long ls)) <= List.length ls)%nat.
Proof. induction ls as [|l ls IH]; cbn [until_long]; [cbn; lia|]. destruct (max_line <? blen l); [cbn; lia|]. destruct (until_long ls) as [k b]. cbn [fst List.length] in *. lia. Qed.
Lemma scan_len m : (List.length (fst (scan m)) <= List.length (filter (N.eqb 10) (mt_text m)) + 1)%nat.
Proof.
  unfold scan. pose proof (split_lines_len (mt_text m) []) as L. destruct (split_lines [] (mt_text m)) as [ls rest]. pose proof (until_long_len ls) as L2.
  destruct (until_long ls) as [k long]. cbn [fst] in *. destruct long; [cbn [fst]; rewrite map_length; lia|]. destruct rest; [cbn [fst]; rewrite map_length; lia|].
  destruct (max_line <? _); cbn [fst]; rewrite map_length; [lia|]. rewrite app_length. cbn. lia.
Qed.
Lemma gvolumes_within M g : within g (genum_volumes M g) 0 (1 + 2 * lines_now M g).
Proof.
  unfold genum_volumes. exists (map GFile (fst (enum_volumes (files_at M g) []))). rewrite commands_files, map_length. split; [reflexivity|]. split; [lia|].
  unfold enum_volumes, lines_now. cbv zeta. cbn [files_at vw_mounts app map]. destruct (m_mounts M (g ++ [GFile LMounts])) as [e|m]; [cbn; lia|].
  pose proof (scan_len m) as L. destruct (scan m) as [ls late]. cbn [fst] in L.
  match goal with |- context [volume_lines ?W ?h ls ?vs] => pose proof (volume_lines_len W ls h vs) as L2; destruct (volume_lines W h ls vs) as [h2 r] end.
  cbn [fst List.length] in *. destruct r as [vs|e| |]; cbn [fst]; lia.
Qed.

(** ---- one call of a program ---- *)
Lemma gcall_within M g x o : kinded x -> let c := match gh_dev x with Some d => call_limit (d_kind d) o | None => 0%nat end in
  within g (fst (gcall M g x o)) c (match o with HClose => 1 | _ => c end) /\ kinded (snd (gcall M g x o)).
Proof.
  intros Hx c. assert (D : o = HClose \/ o <> HClose) by (destruct o; (now left) || (right; discriminate)). destruct D as [->|N].
  - cbn [gcall]. split.
    + eapply within_le; [apply gclose_within|lia|lia].
    + unfold gclose. destruct (p_dh (gh_dh x)); cbn [snd]; [reflexivity|exact Hx].
  - set (V := match gh_dev x with Some d => drv_at M g d | None => no_drv end).
    assert (Q : gcall M g x o = (let '(cs, (p, _)) := hstep V (gh_dh x) [] o in
      (match gh_dev x with Some d => g ++ ioctls_of M g d cs | None => g end,
       {| gh_path := gh_path x; gh_fd := gh_fd x; gh_dh := p; gh_dev := gh_dev x; gh_driving := gh_driving x; gh_driver_name := gh_driver_name x |}))).
    { unfold gcall. fold V. destruct o; (reflexivity || congruence). }
    rewrite Q. clear Q. pose proof (hstep_keeps V (gh_dh x) o N) as K.
    assert (T : forall d, gh_dev x = Some d -> (total (d_kind d) (fst (hstep V (gh_dh x) [] o)) <= c)%nat).
    { intros d Ed. unfold c. rewrite Ed. apply hstep_total. unfold kinded in Hx. rewrite Ed in Hx. exact Hx. }
    assert (C1 : (match o with HClose => 1 | _ => c end)%nat = c) by (destruct o; (reflexivity || congruence)). rewrite C1.
    destruct (hstep V (gh_dh x) [] o) as [cs [p out]]. cbn [fst snd] in *. unfold kinded in *. cbn [gh_dev gh_dh]. rewrite K.
    split; [|exact Hx]. destruct (gh_dev x) as [d|].
    + specialize (T d eq_refl). exists (ioctls_of M g d cs). destruct (ioctls_count M g d cs) as [L1 L2]. split; [reflexivity|]. lia.
    + eapply within_le; [apply within_refl|lia|lia].
Qed.
Lemma gstep_within M s o : Forall kinded (st_handles s) ->
  within (st_hist s) (st_hist (gstep M s o)) (command_limit M s o) (action_limit M s o) /\ Forall kinded (st_handles (gstep M s o)).
Proof.
  intros H. destruct s as [g xs]. cbn [st_hist st_handles] in *. destruct o as [path| | |i o]; cbn [gstep st_hist st_handles command_limit action_limit].
  - destruct (gopen_within M g path) as [W X]. destruct (gopen_by_path M g path) as [g' r]. cbn [fst snd] in *.
    destruct r as [x|e| |]; cbn [st_hist st_handles]; (split; [exact W|]); try exact H. apply Forall_app. split; [exact H|]. constructor; [now apply X|constructor].
  - split; [apply genum_within|exact H].
  - split; [apply gvolumes_within|exact H].
  - destruct (nth_error xs i) as [x|] eqn:Ei.
    2:{ split; [|exact H]. eapply within_le; [apply within_refl|lia|lia]. }
    destruct (nth_split_ext _ _ _ Ei) as (a & b & -> & R). apply Forall_app in H as [Ha Hb]. inversion Hb as [|? ? Hx Hb']; subst.
    destruct (gcall_within M g x o Hx) as [W X]. destruct (gcall M g x o) as [g' x']. cbn [fst snd st_hist st_handles] in *. rewrite R. split.
    + destruct o; cbn [command_limit st_handles]; rewrite ?Ei; exact W.
    + apply Forall_app. split; [exact Ha|]. constructor; assumption.
Qed.
Lemma grun_kinded M ops : Forall kinded (st_handles (grun M ops)).
Proof.
  unfold grun. assert (G0 : Forall kinded (st_handles {| st_hist := []; st_handles := [] |})) by constructor.
  revert G0. generalize {| st_hist := []; st_handles := [] |}. induction ops as [|o ops IH]; intros s G; cbn [fold_left]; [exact G|]. apply IH. exact (proj2 (gstep_within M s o G)).
Qed.
