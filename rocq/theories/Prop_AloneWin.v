(** C157, C158: on Windows, a drive handle used in a program with other handles behaves as it would alone, and so does an enumeration. *)
From Verif Require Import Base M_Buffer M_Struc M_Layouts M_Ata M_TcgDevice M_DriveHandle M_Cdb M_SgDriver M_SgHandle M_NvmeLinux M_Strings M_LinuxInfo M_LinuxFactory M_LinuxMachine
  Spec_Alone M_WinPass M_WinNvme M_WinInfo M_WinFactory M_WinEnum M_WinMachine P_DriveHandle P_LinuxMachine P_Alone P_Alone2 P_Alone3 P_Alone4 P_Alone5 Spec_AloneWin P_AloneWin P_AloneWin2 P_AloneWin3.

Lemma nth_set_same {A} (l : list A) i a : forall x, nth_error l i = Some x -> nth_error (set_nth i a l) i = Some a.
Proof. revert i. induction l as [|b l IH]; intros [|i] x; cbn; try discriminate; [reflexivity|apply IH]. Qed.
Lemma nth_set_other {A} (l : list A) i j a : j <> i -> nth_error (set_nth j a l) i = nth_error l i.
Proof.
  revert i j. induction l as [|b l IH]; intros i j H.
  - destruct j; reflexivity.
  - destruct i as [|i], j as [|j]; cbn; try reflexivity; try congruence. apply IH. congruence.
Qed.
Lemma walone_run X path w y i ops : forall s x calls rs done S A cs, nth_error (ms_handles s) i = Some x ->
  walone X path w y x calls rs done S A cs ->
  exists x' S' A' cs', nth_error (ms_handles (mrun_from X s ops)) i = Some x'
    /\ walone X path w y x' (calls ++ mcalls_on i ops) (rs ++ mreplies_on X s i ops) (done ++ mdone_on X s i ops) S' A' cs'.
Proof.
  induction ops as [|o ops IH]; intros s x calls rs done S A cs Hx H.
  - cbn [mcalls_on flat_map mreplies_on mdone_on mrun_from fold_left]. rewrite !app_nil_r. eauto 10.
  - unfold mrun_from. cbn [fold_left mcalls_on flat_map mreplies_on mdone_on]. fold (mrun_from X (mstep X s o) ops). fold (mcalls_on i ops). rewrite Hx.
    assert (SKIP : nth_error (ms_handles (mstep X s o)) i = Some x -> mcall_on i o = [] ->
      exists x' S' A' cs', nth_error (ms_handles (mrun_from X (mstep X s o) ops)) i = Some x'
        /\ walone X path w y x' (calls ++ mcall_on i o ++ mcalls_on i ops) (rs ++ map (reply_of (mdriver_now X s x) (mh_dh x) []) (mcall_on i o) ++ mreplies_on X (mstep X s o) i ops)
             (done ++ match mcall_on i o with [] => [] | _ :: _ => done_between s (mstep X s o) end ++ mdone_on X (mstep X s o) i ops) S' A' cs').
    { intros Hx' ->. cbn [map app]. exact (IH _ _ _ _ _ _ _ _ Hx' H). }
    destruct o as [p|f|f|j c].
    + apply SKIP; [|reflexivity]. cbn [mstep]. destruct (x_open_by_path X (ms_hist s) p) as [g [z|e| |]]; cbn [ms_handles]; try exact Hx. rewrite nth_error_app1; [exact Hx|]. apply nth_error_Some. congruence.
    + apply SKIP; [exact Hx|reflexivity].
    + apply SKIP; [exact Hx|reflexivity].
    + destruct (Nat.eqb_spec j i) as [->|NE].
      * cbn [mcall_on]. rewrite Nat.eqb_refl. cbn [map app].
        destruct (wstep_any X (ms_hist s) path w y x calls rs done S A cs c H) as (es & S2 & A2 & cs2 & Eg & H2).
        assert (ST : mstep X s (MOn i c) = {| ms_hist := fst (mcall X (ms_hist s) x c); ms_handles := set_nth i (snd (mcall X (ms_hist s) x c)) (ms_handles s) |}).
        { cbn [mstep]. rewrite Hx. destruct (mcall X (ms_hist s) x c). reflexivity. }
        assert (Hx2 : nth_error (ms_handles (mstep X s (MOn i c))) i = Some (snd (mcall X (ms_hist s) x c))) by (rewrite ST; cbn [ms_handles]; exact (nth_set_same _ _ _ _ Hx)).
        destruct (IH _ _ _ _ _ _ _ _ Hx2 H2) as (x' & S' & A' & cs' & G1 & G2).
        exists x', S', A', cs'. split; [exact G1|]. rewrite <- !app_assoc in G2. cbn [app] in G2.
        assert (IB : done_between s (mstep X s (MOn i c)) = es) by (unfold done_between; rewrite ST; cbn [ms_hist]; rewrite Eg, skipn_own; reflexivity).
        rewrite IB. exact G2.
      * apply SKIP; [|cbn [mcall_on]; destruct (Nat.eqb_spec j i); [congruence|reflexivity]].
        cbn [mstep]. destruct (nth_error (ms_handles s) j) as [z|] eqn:Hj; [|exact Hx]. destruct (mcall X (ms_hist s) z c) as [g z']. cbn [ms_handles]. rewrite nth_set_other by exact NE. exact Hx.
Qed.

(** For every machine and every program that, after anything else, opens [path] successfully and goes on with anything: there is a
    system on which [path] alone is opened - its answers are those of the machine - such that the handle opened there, when it alone is
    used with the calls the program makes on the handle, gives the same reply to each of them, ends in the same state (DriveInfo, open or
    closed) and performs the same actions, during the opening and after it. *)
Theorem C157_as_if_alone : forall X ops1 path ops2,
  let before := mrun X ops1 in let opened := mstep X before (MOpen path) in let i := List.length (ms_handles before) in let after := mrun_from X opened ops2 in
  List.length (ms_handles opened) = S i ->
  exists x S A w y cs later,
    nth_error (ms_handles after) i = Some x /\ mh_path x = path
    /\ win_open_by_path S A [] path = (w, Ok y) /\ wanswers_of X S A
    /\ (let V := match f_drv y with Some (d, h, _) => win_drv S A d h | None => mno_drv end in
        let c0 := match f_drv y with Some (_, _, c) => c | None => [] end in
        replies V (f_dh y) c0 (mcalls_on i ops2) = mreplies_on X opened i ops2
        /\ fst (snd (hrun V (f_dh y) c0 (mcalls_on i ops2))) = mh_dh x
        /\ fst (hrun V (f_dh y) c0 (mcalls_on i ops2)) = cs)
    /\ match mh_dev x with Some d => exists h c, f_drv y = Some (d, h, c) | None => True end
    /\ done_between before opened = map XSys w
    /\ mdone_on X opened i ops2 = map XSys later
    /\ match f_drv y with Some (d, h, _) => win_replay S A d h cs = w ++ later | None => later = [] end.
Proof.
  intros X ops1 path ops2 before opened i after Len. subst after. unfold opened in *. cbn [mstep] in *.
  unfold x_open_by_path in *. destruct (win_open_by_path (wsys_at X (ms_hist before)) (waddr_at X (ms_hist before)) [] path) as [w [y|e| |]] eqn:E; cbn [ms_handles] in Len; try (fold i in Len; lia).
  set (s1 := {| ms_hist := ms_hist before ++ map XSys w; ms_handles := ms_handles before ++ [mhandle_of path y] |}).
  assert (Hx : nth_error (ms_handles s1) i = Some (mhandle_of path y)) by (unfold s1, i; cbn [ms_handles]; rewrite nth_error_app2 by apply Nat.le_refl; now rewrite Nat.sub_diag).
  destruct (walone_run X path w y i ops2 s1 _ [] [] [] _ _ _ Hx (walone_open X (ms_hist before) path w y E)) as (x & S & A & cs & Hx' & AL). cbn [app] in AL.
  destruct AL as [O Pa Fr Dv Hh Hp Hr (later & Dn & Rp)]. exists x, S, A, w, y, cs, later.
  split; [exact Hx'|]. split; [exact Pa|]. split; [exact O|]. split; [exact Fr|]. split; [unfold alone_drv, alone_calls in *; auto|].
  split; [destruct (mh_dev x); [exact (proj1 Dv)|exact I]|]. split; [unfold done_between, s1; cbn [ms_hist]; rewrite skipn_own; reflexivity|]. split; [exact Dn|exact Rp].
Qed.
Print Assumptions C157_as_if_alone.

(** Opening fails in a program exactly as it fails alone, with the same actions. *)
Theorem C157_refused_as_if_alone : forall X ops path, let before := mrun X ops in
  List.length (ms_handles (mstep X before (MOpen path))) = List.length (ms_handles before) ->
  exists S A w r, win_open_by_path S A [] path = (w, r) /\ wanswers_of X S A /\ (forall y, r <> Ok y) /\ snd (x_open_by_path X (ms_hist before) path) = r
    /\ ms_handles (mstep X before (MOpen path)) = ms_handles before /\ done_between before (mstep X before (MOpen path)) = map XSys w.
Proof.
  intros X ops path before. cbn [mstep]. unfold x_open_by_path. destruct (win_open_by_path (wsys_at X (ms_hist before)) (waddr_at X (ms_hist before)) [] path) as [w r] eqn:E. intros Len.
  exists (wsys_at X (ms_hist before)), (waddr_at X (ms_hist before)), w, r. split; [exact E|]. split; [apply wanswers_at|].
  assert (D : forall h, done_between before {| ms_hist := ms_hist before ++ map XSys w; ms_handles := h |} = map XSys w) by (intros h; unfold done_between; cbn [ms_hist]; rewrite skipn_own; reflexivity).
  destruct r as [y|e| |]; cbn [ms_handles] in Len.
  - rewrite app_length in Len. cbn in Len. lia.
  - split; [discriminate|]. auto.
  - split; [discriminate|]. auto.
  - split; [discriminate|]. auto.
Qed.
Print Assumptions C157_refused_as_if_alone.

(** ---- C158: the enumerations ---- *)
(** EnumDrives and EnumVolumes at any point of any program on any machine return what they return when nothing else happened, on a
    machine whose answers are those this one gave: the same result, with the same actions. *)
Theorem C158_listing_as_if_alone : forall X ops fuel, let s := mrun X ops in
  exists Y, machine_answers_of X Y
  /\ (exists h r, win_enum_drives Y fuel [] = (h, r) /\ snd (win_enum_drives X fuel (ms_hist s)) = r /\ done_between s (mstep X s (MEnum fuel)) = h)
  /\ (exists h r, win_enum_volumes Y fuel [] = (h, r) /\ snd (win_enum_volumes X fuel (ms_hist s)) = r /\ done_between s (mstep X s (MVolumes fuel)) = h).
Proof.
  intros X ops fuel s. exists (xfrom X (ms_hist s)). split; [apply xfrom_answers|]. cbn [mstep]. unfold done_between. cbn [ms_hist].
  pose proof (drives_from X (ms_hist s) fuel []) as D. pose proof (volumes_from X (ms_hist s) fuel []) as V. rewrite app_nil_r in D, V. rewrite D, V. cbn [fst snd]. rewrite !skipn_own.
  split; do 2 eexists; (split; [apply surjective_pairing|split; reflexivity]).
Qed.
Print Assumptions C158_listing_as_if_alone.
