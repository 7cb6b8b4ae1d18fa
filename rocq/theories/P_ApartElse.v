(** Lemmas for C188: the rest of a program does nothing on the descriptor of a handle. *)
From Verif Require Import Base M_Buffer M_Struc M_Layouts M_Ata M_TcgDevice M_DriveHandle M_Cdb M_SgDriver M_SgHandle M_NvmeLinux M_Strings M_LinuxInfo M_LinuxFactory M_LinuxVolume M_LinuxMachine
  P_DriveHandle Spec_LinuxMachine P_LinuxMachine Spec_Alone P_Alone P_Alone2 P_Alone3 P_Alone4 P_Alone5 Prop_Alone P_Apart Spec_Apart P_ApartRun.

Definition away (fd : N) (es : ghist) : Prop := Forall (fun e => acts_on e <> Some fd) es.
Lemma away_done fd es : away fd es -> done_on fd es = [].
Proof.
  induction 1 as [|e es H _ IH]; [reflexivity|]. cbn [done_on filter]. fold (done_on fd es). rewrite IH.
  destruct (acts_on e) as [f|]; [|reflexivity]. destruct (N.eqb_spec f fd) as [->|]; [congruence|reflexivity].
Qed.
Lemma away_app fd a b : away fd a -> away fd b -> away fd (a ++ b).
Proof. intros A B. apply Forall_app. split; assumption. Qed.
Lemma away_open M g es fd path : open_on M g fd path -> away fd es -> open_on M (g ++ es) fd path.
Proof. intros O A. apply open_on_app; [exact O|]. intros I. unfold away in A. rewrite Forall_forall in A. exact (A _ I eq_refl). Qed.
Lemma away_ioctls fd f es : f <> fd -> Forall (ioctl_on f) es -> away fd es.
Proof. intros NE. apply Forall_impl. intros [l|c|q c]; cbn; intros H E; [contradiction|congruence|congruence]. Qed.
Lemma away_none fd e : acts_on e = None -> away fd [e].
Proof. intros H. constructor; [congruence|constructor]. Qed.
Lemma away_some fd f e : acts_on e = Some f -> f <> fd -> away fd [e].
Proof. intros H NE. constructor; [congruence|constructor]. Qed.

Lemma probe_away M fd f k : f <> fd -> forall g x n, gh_fd x = f -> exists es, fst (gprobe_loop M g f x n k) = g ++ es /\ away fd es
  /\ forall x', snd (gprobe_loop M g f x n k) = Ok x' -> gh_fd x' = f.
Proof.
  intros NE. induction k as [|k IH]; intros g x n F; cbn [gprobe_loop].
  { exists []. rewrite app_nil_r. split; [reflexivity|]. split; [constructor|]. intros x' E. now injection E as <-. }
  set (e0 := GFile (LProbe n f)). assert (A0 : away fd [e0]) by (now apply (away_some fd f)).
  destruct (gprobe_adds M (g ++ [e0]) n f) as (e1 & E1 & F1 & D1). destruct (gprobe M (g ++ [e0]) n f) as [g1 [d|]]; cbn [fst snd] in *; subst g1.
  - specialize (D1 d eq_refl). destruct (ginstall_adds M ((g ++ [e0]) ++ e1) x d) as (e2 & E2 & F2 & _ & X2 & _).
    destruct (ginstall M ((g ++ [e0]) ++ e1) x d) as [g2 [x1 r]]. cbn [fst snd] in *. subst g2. rewrite D1 in F2.
    assert (AW : away fd (([e0] ++ e1) ++ e2)) by (apply away_app; [apply away_app; [exact A0|]|]; eapply away_ioctls; eauto).
    assert (L : exists es, fst (gprobe_loop M (((g ++ [e0]) ++ e1) ++ e2) f x1 (S n) k) = g ++ es /\ away fd es
      /\ forall x', snd (gprobe_loop M (((g ++ [e0]) ++ e1) ++ e2) f x1 (S n) k) = Ok x' -> gh_fd x' = f).
    { destruct (IH (((g ++ [e0]) ++ e1) ++ e2) x1 (S n) (eq_trans X2 F)) as (e3 & E3 & A3 & X3). exists ((([e0] ++ e1) ++ e2) ++ e3).
      split; [rewrite E3; now rewrite <- !app_assoc|]. split; [now apply away_app|exact X3]. }
    assert (G : ((g ++ [e0]) ++ e1) ++ e2 = g ++ ([e0] ++ e1) ++ e2) by now rewrite <- !app_assoc.
    destruct r as [u|e| |]; cbn [fst snd]; try exact L; exists (([e0] ++ e1) ++ e2); (split; [exact G|]); (split; [exact AW|]); discriminate.
  - destruct (IH ((g ++ [e0]) ++ e1) x (S n) F) as (e3 & E3 & A3 & X3). exists (([e0] ++ e1) ++ e3).
    split; [rewrite E3; now rewrite <- !app_assoc|]. split; [|exact X3]. apply away_app; [|exact A3]. apply away_app; [exact A0|]. eapply away_ioctls; eauto.
Qed.
Lemma open_away M g fd q path : fresh_descriptors M -> open_on M g fd q -> exists es, fst (gopen_by_path M g path) = g ++ es /\ away fd es
  /\ forall x, snd (gopen_by_path M g path) = Ok x -> gh_fd x <> fd.
Proof.
  intros HF O. unfold gopen_by_path. cbv zeta. set (e0 := GFile (LOpen path)). assert (A0 : away fd [e0]) by (now apply away_none).
  destruct (m_open M (g ++ [e0])) as [e|f] eqn:Eo; [exists [e0]; split; [reflexivity|]; split; [exact A0|discriminate]|].
  assert (NE : f <> fd) by (intros ->; exact (HF _ _ _ _ Eo O)).
  unfold gopen_by_fd. cbv zeta. set (g3 := ((g ++ [e0]) ++ [GFile (LBasic f path)]) ++ [GFile (LIds path)]).
  match goal with |- context [gprobe_loop M g3 f ?y 0 driver_count] => set (x0 := y) end.
  destruct (probe_away M fd f driver_count NE g3 x0 0 eq_refl) as (e4 & E4 & A4 & X4).
  pose proof (gprobe_loop_no_err M f driver_count g3 x0 0) as NER. destruct (gprobe_loop M g3 f x0 0 driver_count) as [g4 r]. cbn [fst snd] in *. subst g4.
  assert (A : away fd ((([e0] ++ [GFile (LBasic f path)]) ++ [GFile (LIds path)]) ++ e4)).
  { apply away_app; [|exact A4]. apply away_app; [apply away_app; [exact A0|now apply (away_some fd f)]|now apply away_none]. }
  assert (G : g3 ++ e4 = g ++ (([e0] ++ [GFile (LBasic f path)]) ++ [GFile (LIds path)]) ++ e4) by (unfold g3; now rewrite <- !app_assoc).
  destruct r as [x|e| |]; cbn [fst snd]; [|destruct (NER e eq_refl)| |]; eexists; (split; [exact G|]); (split; [exact A|]); try discriminate.
  intros x' E. injection E as <-. now rewrite (X4 x eq_refl).
Qed.
Lemma closes_away fd xs : Forall (fun x => gh_fd x <> fd) xs -> forall g, exists es, fold_left (fun k x => fst (gclose k x)) xs g = g ++ es /\ away fd es.
Proof.
  induction 1 as [|x xs H _ IH]; intros g; cbn [fold_left]; [exists []; rewrite app_nil_r; split; [reflexivity|constructor]|].
  assert (Z : exists es, fst (gclose g x) = g ++ es /\ away fd es).
  { unfold gclose. destruct (p_dh (gh_dh x)); cbn [fst]; [eexists; split; [reflexivity|now apply (away_some fd (gh_fd x))]|exists []; rewrite app_nil_r; split; [reflexivity|constructor]]. }
  destruct Z as (e1 & -> & A1). destruct (IH (g ++ e1)) as (e2 & -> & A2). exists (e1 ++ e2). split; [now rewrite app_assoc|now apply away_app].
Qed.
Lemma enum_loop_away M fd q names : fresh_descriptors M -> forall g xs, open_on M g fd q -> Forall (fun x => gh_fd x <> fd) xs ->
  exists es, fst (genum_loop M g names xs) = g ++ es /\ away fd es /\ forall ys, snd (genum_loop M g names xs) = Ok ys -> Forall (fun x => gh_fd x <> fd) ys.
Proof.
  intros HF. induction names as [|name rest IH]; intros g xs O HX; cbn [genum_loop].
  { exists []. rewrite app_nil_r. split; [reflexivity|]. split; [constructor|]. intros ys E. now injection E as <-. }
  destruct (contains _ name); [now apply IH|]. cbv zeta. set (e0 := GFile (LStat (dev_path name))). assert (A0 : away fd [e0]) by (now apply away_none).
  pose proof (away_open _ _ _ _ _ O A0) as O1.
  assert (NEXT : forall es xs', away fd es -> Forall (fun x => gh_fd x <> fd) xs' -> exists es', fst (genum_loop M (g ++ es) rest xs') = g ++ es' /\ away fd es'
    /\ forall ys, snd (genum_loop M (g ++ es) rest xs') = Ok ys -> Forall (fun x => gh_fd x <> fd) ys).
  { intros es xs' A H. destruct (IH (g ++ es) xs' (away_open _ _ _ _ _ O A) H) as (e' & -> & A' & Y). exists (es ++ e'). split; [now rewrite app_assoc|]. split; [now apply away_app|exact Y]. }
  destruct (m_mode M (g ++ [e0])) as [mode|]; [|now apply NEXT]. destruct (is_block mode); [|now apply NEXT]. destruct (contains _ name); [now apply NEXT|].
  destruct (open_away M (g ++ [e0]) fd q (dev_path name) HF O1) as (e1 & E1 & A1 & X1). destruct (gopen_by_path M (g ++ [e0]) (dev_path name)) as [g2 r]. cbn [fst snd] in *. subst g2.
  rewrite <- app_assoc. pose proof (away_app _ _ _ A0 A1) as A01. destruct r as [x|e| |].
  - apply NEXT; [exact A01|]. apply Forall_app. split; [exact HX|]. constructor; [now apply X1|constructor].
  - now apply NEXT.
  - cbn [fst snd]. destruct (closes_away fd (rev xs)) with (g := g ++ [e0] ++ e1) as (e2 & -> & A2).
    { rewrite Forall_forall in *. intros x I. apply HX. now apply in_rev. }
    exists (([e0] ++ e1) ++ e2). split; [now rewrite !app_assoc|]. split; [now apply away_app|discriminate].
  - cbn [fst snd]. exists ([e0] ++ e1). split; [reflexivity|]. split; [exact A01|discriminate].
Qed.
Lemma enum_away M g fd q : fresh_descriptors M -> open_on M g fd q -> exists es, fst (genum_drives M g) = g ++ es /\ away fd es.
Proof.
  intros HF O. unfold genum_drives. cbv zeta. assert (A0 : away fd [GFile LReadDir]) by (now apply away_none).
  destruct (m_dir M (g ++ [GFile LReadDir])) as [e|names]; [eexists; split; [reflexivity|exact A0]|].
  destruct (enum_loop_away M fd q names HF (g ++ [GFile LReadDir]) [] (away_open _ _ _ _ _ O A0) (Forall_nil _)) as (e1 & E1 & A1 & Y).
  destruct (genum_loop M (g ++ [GFile LReadDir]) names []) as [g2 r]. cbn [fst snd] in *. subst g2. pose proof (away_app _ _ _ A0 A1) as A01.
  destruct r as [ys|e| |]; try (eexists; rewrite <- app_assoc; split; [reflexivity|exact A01]).
  destruct (closes_away fd (rev ys)) with (g := (g ++ [GFile LReadDir]) ++ e1) as (e2 & E2 & A2).
  { specialize (Y ys eq_refl). rewrite Forall_forall in *. intros x I. apply Y. now apply in_rev. }
  cbn [fst]. rewrite E2. exists (([GFile LReadDir] ++ e1) ++ e2). split; [now rewrite !app_assoc|now apply away_app].
Qed.
Lemma line_away M g fd q h l vs : fresh_descriptors M -> open_on M (g ++ map GFile h) fd q -> exists es, fst (volume_line (vw (files_at M g)) h l vs) = h ++ es /\ away fd (map GFile es).
Proof.
  intros HF O. unfold volume_line. destruct (line_fields l) as [[device mount] fs].
  assert (Z : exists es, h = h ++ es /\ away fd (map GFile es)) by (exists []; rewrite app_nil_r; split; [reflexivity|constructor]).
  destruct (partition_match device) as [[parent ds]|]; [|exact Z]. cbv zeta.
  cbn [files_at vw w_open w_basic]. destruct (m_open M (g ++ map GFile (h ++ [LOpen parent]))) as [e|f] eqn:Eo.
  - exists [LOpen parent]. split; [reflexivity|now apply away_none].
  - rewrite map_app, app_assoc in Eo. cbn [map] in Eo. assert (NE : f <> fd) by (intros ->; exact (HF _ _ _ _ Eo O)).
    assert (W : exists es, (h ++ [LOpen parent]) ++ [LBasic f parent] = h ++ es /\ away fd (map GFile es)).
    { exists [LOpen parent; LBasic f parent]. rewrite <- app_assoc. split; [reflexivity|]. constructor; [discriminate|]. constructor; [cbn; congruence|constructor]. }
    destruct (read_basic_info _ _) as [b|e| |]; try exact W. destruct (find_part _ _ _ _) as [[p|]|e| |]; exact W.
Qed.
Lemma lines_away M g fd q ls : fresh_descriptors M -> forall h vs, open_on M (g ++ map GFile h) fd q ->
  exists es, fst (volume_lines (vw (files_at M g)) h ls vs) = h ++ es /\ away fd (map GFile es).
Proof.
  intros HF. induction ls as [|l ls IH]; intros h vs O; cbn [volume_lines]; [exists []; rewrite app_nil_r; split; [reflexivity|constructor]|].
  destruct (line_away M g fd q h l vs HF O) as (e1 & E1 & A1). destruct (volume_line (vw (files_at M g)) h l vs) as [h1 r]. cbn [fst] in E1. subst h1.
  destruct r as [vs1|e| |]; try (exists e1; split; [reflexivity|exact A1]).
  destruct (IH (h ++ e1) vs1) as (e2 & E2 & A2); [rewrite map_app, app_assoc; now apply away_open|].
  exists (e1 ++ e2). rewrite E2, map_app. split; [now rewrite app_assoc|now apply away_app].
Qed.
Lemma volumes_away M g fd q : fresh_descriptors M -> open_on M g fd q -> exists es, genum_volumes M g = g ++ es /\ away fd es.
Proof.
  intros HF O. unfold genum_volumes, enum_volumes. cbv zeta. cbn [app]. assert (A0 : away fd [GFile LMounts]) by (now apply away_none).
  destruct (vw_mounts (files_at M g) [LMounts]) as [e|m]; [exists [GFile LMounts]; split; [reflexivity|exact A0]|].
  destruct (scan m) as [ls late]. destruct (lines_away M g fd q ls HF [LMounts] [] (away_open _ _ _ _ _ O A0)) as (e1 & E1 & A1).
  destruct (volume_lines (vw (files_at M g)) [LMounts] ls []) as [h2 r]. cbn [fst] in E1. subst h2.
  exists (map GFile ([LMounts] ++ e1)). split; [destruct r; reflexivity|]. rewrite map_app. now apply away_app.
Qed.
(** a call on a handle: ioctls and closing on the handle's descriptor; nothing once it has been closed *)
Lemma call_away M g z o fd : sound_handle z -> (p_dh (gh_dh z) <> None -> gh_fd z <> fd) -> exists es, fst (gcall M g z o) = g ++ es /\ away fd es
  /\ sound_handle (snd (gcall M g z o)) /\ (p_dh (gh_dh (snd (gcall M g z o))) <> None -> gh_fd (snd (gcall M g z o)) <> fd).
Proof.
  intros Sz NE. destruct (match o with HClose => true | _ => false end) eqn:C.
  - destruct o; try discriminate C. cbn [gcall]. unfold gclose. destruct (p_dh (gh_dh z)) as [t|] eqn:P; cbn [fst snd].
    + eexists. split; [reflexivity|]. split; [apply (away_some fd (gh_fd z)); [reflexivity|apply NE; discriminate]|]. split; [reflexivity|cbn [gh_dh p_dh]; congruence].
    + exists []. rewrite app_nil_r. split; [reflexivity|]. split; [constructor|]. split; [exact Sz|now rewrite P].
  - assert (NC : o <> HClose) by (intros ->; discriminate C). set (V := match gh_dev z with Some d => drv_at M g d | None => no_drv end).
    assert (G : gcall M g z o = let '(cs, (p, _)) := hstep V (gh_dh z) [] o in
      (match gh_dev z with Some d => g ++ ioctls_of M g d cs | None => g end,
       {| gh_path := gh_path z; gh_fd := gh_fd z; gh_dh := p; gh_dev := gh_dev z; gh_driving := gh_driving z; gh_driver_name := gh_driver_name z |})).
    { destruct o; try reflexivity. congruence. }
    rewrite G. pose proof (P_LinuxMachine.hstep_keeps V (gh_dh z) o NC) as K. destruct (hstep V (gh_dh z) [] o) as [cs [p r]]. cbn [fst snd] in *.
    unfold sound_handle in *. cbn [gh_dh gh_fd gh_dev]. rewrite K. destruct (gh_dev z) as [d|] eqn:D.
    + destruct Sz as [Sf Sl]. exists (ioctls_of M g d cs). split; [reflexivity|]. split; [|auto]. apply (away_ioctls fd (d_fd d)); [rewrite Sf; auto|apply ioctls_fd].
    + exists []. rewrite app_nil_r. split; [reflexivity|]. split; [constructor|auto].
Qed.

(** Nothing but the handle's own calls acts on its descriptor. *)
Definition guarded (M : machine) (s : gstate) (i : nat) (fd : N) (q : bytes) : Prop :=
  open_on M (st_hist s) fd q /\ (exists x, nth_error (st_handles s) i = Some x /\ gh_fd x = fd /\ sound_handle x)
  /\ forall j z, j <> i -> nth_error (st_handles s) j = Some z -> sound_handle z /\ (p_dh (gh_dh z) <> None -> gh_fd z <> fd).
Lemma nth_snoc {A} (l : list A) a j z : nth_error (l ++ [a]) j = Some z -> nth_error l j = Some z \/ z = a.
Proof.
  destruct (Nat.lt_ge_cases j (List.length l)) as [L|L]; [rewrite nth_error_app1 by exact L; auto|]. rewrite nth_error_app2 by exact L.
  destruct (j - List.length l)%nat as [|k]; cbn [nth_error]; [intros E; injection E as <-; now right|destruct k; discriminate].
Qed.
Lemma guarded_run M i fd q ops : fresh_descriptors M -> ~ In HClose (calls_on i ops) -> forall s, guarded M s i fd q -> elsewhere M s i fd ops.
Proof.
  intros HF. induction ops as [|o ops IH]; intros NC s (O & (x & N & F & So) & OT); cbn [elsewhere]; [exact I|].
  cbn [calls_on flat_map] in NC. fold (calls_on i ops) in NC. assert (NC1 : ~ In HClose (call_on i o)) by (intros Q; apply NC, in_or_app; now left).
  assert (NC2 : ~ In HClose (calls_on i ops)) by (intros Q; apply NC, in_or_app; now right). specialize (IH NC2). clear NC NC2.
  assert (KEEP : forall es, st_hist (gstep M s o) = st_hist s ++ es -> away fd es -> st_handles (gstep M s o) = st_handles s ->
    (call_on i o = [] -> exists es, st_hist (gstep M s o) = st_hist s ++ es /\ done_on fd es = []) /\ elsewhere M (gstep M s o) i fd ops).
  { intros es E A Hh. split; [intros _; exists es; split; [exact E|now apply away_done]|]. apply IH. unfold guarded. rewrite E, Hh.
    split; [now apply away_open|]. split; [exists x; auto|exact OT]. }
  destruct o as [p| | |j c].
  - destruct (open_away M (st_hist s) fd q p HF O) as (es & E & A & X). destruct (gopen_adds M (st_hist s) p) as (es' & _ & _ & _ & X').
    destruct (gopen_by_path M (st_hist s) p) as [g r] eqn:G. cbn [fst snd] in *. subst g.
    assert (ST : st_hist (gstep M s (GOpen p)) = st_hist s ++ es) by (cbn [gstep]; rewrite G; destruct r; reflexivity).
    destruct r as [y|e| |]; try (apply (KEEP es ST A); cbn [gstep]; rewrite G; reflexivity).
    split; [intros _; exists es; split; [exact ST|now apply away_done]|]. apply IH. unfold guarded. rewrite ST. split; [now apply away_open|].
    cbn [gstep]. rewrite G. cbn [st_handles]. split.
    + exists x. split; [|auto]. rewrite nth_error_app1; [exact N|]. apply nth_error_Some. congruence.
    + intros k z NE Hk. apply nth_snoc in Hk as [Hk| ->]; [exact (OT k z NE Hk)|]. split; [exact (proj1 (proj2 (X' y eq_refl)))|intros _; now apply X].
  - destruct (enum_away M (st_hist s) fd q HF O) as (es & E & A). exact (KEEP es E A eq_refl).
  - destruct (volumes_away M (st_hist s) fd q HF O) as (es & E & A). exact (KEEP es E A eq_refl).
  - destruct (Nat.eqb_spec j i) as [->|NE].
    + cbn [call_on] in *. rewrite Nat.eqb_refl in *. split; [discriminate|]. assert (C : c <> HClose) by (intros ->; apply NC1; now left).
      cbn [gstep]. rewrite N.
      assert (G : gcall M (st_hist s) x c = let '(cs, (p, _)) := hstep (match gh_dev x with Some d => drv_at M (st_hist s) d | None => no_drv end) (gh_dh x) [] c in
        (match gh_dev x with Some d => st_hist s ++ ioctls_of M (st_hist s) d cs | None => st_hist s end,
         {| gh_path := gh_path x; gh_fd := gh_fd x; gh_dh := p; gh_dev := gh_dev x; gh_driving := gh_driving x; gh_driver_name := gh_driver_name x |})).
      { destruct c; try reflexivity. congruence. }
      rewrite G. pose proof (P_LinuxMachine.hstep_keeps (match gh_dev x with Some d => drv_at M (st_hist s) d | None => no_drv end) (gh_dh x) c C) as K.
      destruct (hstep _ (gh_dh x) [] c) as [cs [p r]]. cbn [fst snd] in K. apply IH. unfold guarded. cbn [st_hist st_handles].
      split; [destruct (gh_dev x) as [d|]; [apply open_on_app; [exact O|exact (not_close _ _ _ (ioctls_fd M (st_hist s) d cs))]|exact O]|]. split.
      * eexists. split; [exact (nth_replace_same _ _ _ _ N)|]. cbn [gh_fd]. split; [exact F|]. unfold sound_handle in *. cbn [gh_dev gh_dh gh_fd]. now rewrite K.
      * intros k z NE Hk. rewrite nth_replace_other in Hk by congruence. exact (OT k z NE Hk).
    + cbn [gstep] in *. destruct (nth_error (st_handles s) j) as [z|] eqn:Hj; [|exact (KEEP [] (eq_sym (app_nil_r _)) (Forall_nil _) eq_refl)].
      destruct (OT j z NE Hj) as [Sz Fz]. destruct (call_away M (st_hist s) z c fd Sz Fz) as (es & E & A & Sz' & Fz').
      destruct (gcall M (st_hist s) z c) as [g z']. cbn [fst snd] in *. subst g. cbn [st_hist st_handles].
      split; [intros _; exists es; split; [reflexivity|now apply away_done]|]. apply IH. unfold guarded. cbn [st_hist st_handles].
      split; [now apply away_open|]. split; [exists x; split; [rewrite nth_replace_other by exact NE; exact N|auto]|].
      intros k w NEk Hk. destruct (Nat.eq_dec j k) as [->|NEj]; [rewrite (nth_replace_same _ _ _ _ Hj) in Hk; injection Hk as <-; auto|].
      rewrite nth_replace_other in Hk by exact NEj. exact (OT k w NEk Hk).
Qed.
