(** Lemmas for C151, C152: what each call of a program adds to the machine's history. *)
From Verif Require Import Base M_Buffer M_Struc M_Layouts M_Ata M_TcgDevice M_DriveHandle M_Cdb M_SgDriver M_SgHandle M_NvmeLinux M_Strings M_LinuxInfo M_LinuxFactory M_LinuxVolume
  M_LinuxMachine Spec_Inspect Spec_LinuxMachine P_DriveHandle P_Inspect.

(** ---- the ioctls of a driver go to its descriptor ---- *)
Definition on_fd (fd : N) (c : nv_call) : Prop := nc_fd c = fd.
Lemma nv_admin_fd K h fd c a : exists k, fst (nv_admin K h fd c a) = h ++ [k] /\ nc_fd k = fd.
Proof. unfold nv_admin, nv_ioctl. cbv zeta. cbn [fst]. eexists. split; reflexivity. Qed.
Lemma nv_admins_fd K fd A cs : forall kh, exists ks, fst (nv_admins K fd A kh cs) = kh ++ ks /\ Forall (on_fd fd) ks.
Proof.
  induction cs as [|c rest IH]; intros kh; cbn [nv_admins]; [exists []; now rewrite app_nil_r|].
  set (r := match c with CAdmin cmd => _ | _ => _ end).
  assert (R : exists ks, fst r = kh ++ ks /\ Forall (on_fd fd) ks).
  { unfold r. destruct c; try (exists []; now rewrite app_nil_r). pose proof (nv_admin_fd K kh fd c (A kh)) as (k & E & F).
    destruct (nv_admin K kh fd c (A kh)) as [k1 [e cmd']]. cbn [fst] in *. exists [k]. auto. }
  clearbody r. destruct rest as [|c2 rest]; [exact R|]. destruct R as (ks & E & F). rewrite E.
  destruct (IH (kh ++ ks)) as (ks2 & E2 & F2). exists (ks ++ ks2). rewrite E2, app_assoc. split; [reflexivity|]. apply Forall_app. auto.
Qed.
Lemma nv_exec_fd K fd A kh c : exists ks, fst (nv_exec K fd A kh c) = kh ++ ks /\ Forall (on_fd fd) ks.
Proof.
  assert (N0 : exists ks, kh = kh ++ ks /\ Forall (on_fd fd) ks) by (exists []; now rewrite app_nil_r).
  unfold nv_exec. destruct c; try exact N0.
  - pose proof (nv_admin_fd K kh fd c (A kh)) as (k & E & F). destruct (nv_admin K kh fd c (A kh)) as [k1 [e cmd']]. cbn [fst] in *. exists [k]. auto.
  - unfold nv_log_page. destruct (nvme_get_log_page_by_admin_passthru _ _ _ _ _ _) as [cs r]. cbn [fst]. apply nv_admins_fd.
Qed.
Lemma nv_replay_fd K fd A cs : forall kh, exists ks, nv_replay K fd A kh cs = kh ++ ks /\ Forall (on_fd fd) ks.
Proof.
  induction cs as [|c cs IH]; intros kh; unfold nv_replay; cbn [fold_left]; [exists []; now rewrite app_nil_r|].
  destruct (nv_exec_fd K fd A kh c) as (k1 & -> & F1). destruct (IH (kh ++ k1)) as (k2 & E & F2). unfold nv_replay in E. rewrite E.
  exists (k1 ++ k2). rewrite app_assoc. split; [reflexivity|]. apply Forall_app. auto.
Qed.
Lemma nv_open_fd K fd a : Forall (on_fd fd) (fst (nv_open K [] fd a)).
Proof.
  unfold nv_open. pose proof (nv_admin_fd K [] fd identify_cmd a) as (k & E & F). destruct (nv_admin K [] fd identify_cmd a) as [h1 [e c]]. cbn [fst app] in E. subst h1.
  assert (Z : Forall (on_fd fd) [k]) by (constructor; [exact F|constructor]).
  destruct e as [x|]; [exact Z|]. destruct (negb _); exact Z.
Qed.

(** An ioctl on [fd]. *)
Definition ioctl_on (fd : N) (e : gev) : Prop := match e with GNvme c => nc_fd c = fd | GSg f _ => f = fd | GFile _ => False end.
Lemma ioctls_fd M g d cs : Forall (ioctl_on (d_fd d)) (ioctls_of M g d cs).
Proof.
  unfold ioctls_of. destruct (d_kind d).
  - destruct (nv_replay_fd (nvme_at M g) (d_fd d) (nvme_addr_at M g) cs []) as (ks & -> & F). apply Forall_map. exact F.
  - apply Forall_map, Forall_forall. intros c _. reflexivity.
Qed.
Lemma gprobe_adds M g n fd : exists es, fst (gprobe M g n fd) = g ++ es /\ Forall (ioctl_on fd) es
  /\ forall d, snd (gprobe M g n fd) = Some d -> d_fd d = fd.
Proof.
  unfold gprobe. destruct n as [|n].
  - pose proof (nv_open_fd (nvme_at M g) fd (nvme_addr_at M g [])) as F. destruct (nv_open _ _ _ _) as [k r]. cbn [fst snd] in *.
    exists (map GNvme k). split; [reflexivity|]. split; [apply Forall_map; exact F|]. intros d E. destruct r; try discriminate E. now injection E as <-.
  - destruct (sg_open _ _ _) as [k r]. cbn [fst snd]. exists (map (GSg fd) k). split; [reflexivity|].
    split; [apply Forall_map, Forall_forall; reflexivity|]. intros d E. destruct r; try discriminate E. now injection E as <-.
Qed.

(** ---- open descriptors along a history ---- *)
Lemma open_on_app M g es fd path : open_on M g fd path -> ~ In (GFile (LClose fd)) es -> open_on M (g ++ es) fd path.
Proof.
  intros (g1 & g2 & -> & O & C) N. exists g1, (g2 ++ es). rewrite <- app_assoc. cbn [app]. repeat split; try assumption.
  intros I. apply in_app_or in I. tauto.
Qed.
Lemma open_on_new M g path fd : m_open M (g ++ [GFile (LOpen path)]) = inr fd -> open_on M (g ++ [GFile (LOpen path)]) fd path.
Proof. intros H. exists g, []. repeat split; [exact H|intros []]. Qed.
Lemma open_on_snoc M g e fd path : open_on M (g ++ [e]) fd path ->
  (open_on M g fd path /\ e <> GFile (LClose fd)) \/ (e = GFile (LOpen path) /\ m_open M (g ++ [e]) = inr fd).
Proof.
  intros (g1 & g2 & E & O & C). destruct g2 as [|a g2] using rev_ind.
  - apply app_inj_tail in E as [-> ->]. right. auto.
  - clear IHg2. rewrite app_comm_cons, app_assoc in E. apply app_inj_tail in E as [-> ->]. left. split.
    + exists g1, g2. repeat split; try assumption. intros I. apply C, in_or_app. auto.
    + intros ->. apply C, in_or_app. right. now left.
Qed.
(** With fresh descriptors a descriptor is open on one path only. *)
Lemma open_on_unique M g fd p q : fresh_descriptors M -> open_on M g fd p -> open_on M g fd q -> p = q.
Proof.
  intros F. revert p q. induction g as [|e g IH] using rev_ind; intros p q.
  - intros (g1 & g2 & E & _). destruct g1; discriminate E.
  - intros P Q. apply open_on_snoc in P as [[P Pe]|[-> Po]]; apply open_on_snoc in Q as [[Q Qe]|[Qe Qo]].
    + auto.
    + subst e. exfalso. exact (F _ _ _ _ Qo P).
    + exfalso. exact (F _ _ _ _ Po Q).
    + now injection Qe.
Qed.

(** ---- segments of a history whose actions only touch open descriptors satisfying P ---- *)
Definition touches (M : machine) (g : ghist) (P : bytes -> Prop) (es : ghist) : Prop :=
  forall e1 ev e2 fd, es = e1 ++ ev :: e2 -> acts_on ev = Some fd -> exists path, open_on M (g ++ e1) fd path /\ P path.
Lemma touches_nil M g P : touches M g P [].
Proof. intros e1 ev e2 fd E. destruct e1; discriminate E. Qed.
Lemma touches_one M g (P : bytes -> Prop) ev : (forall fd, acts_on ev = Some fd -> exists path, open_on M g fd path /\ P path) -> touches M g P [ev].
Proof.
  intros H e1 ev' e2 fd E A. destruct e1 as [|x e1]; [|destruct e1; discriminate E]. injection E as -> _. rewrite app_nil_r. auto.
Qed.
Lemma touches_app M g P a b : touches M g P a -> touches M (g ++ a) P b -> touches M g P (a ++ b).
Proof.
  intros A B e1 ev e2 fd E Ac. symmetry in E. apply app_eq_app in E as (l & [[-> E]|[-> E]]).
  - destruct l as [|x l].
    + cbn [app] in E. subst b. rewrite app_nil_r in *. destruct (B [] ev e2 fd eq_refl Ac) as (path & O & Q). rewrite app_nil_r in O. exists path. auto.
    + rewrite app_assoc. apply (B (x :: l) ev e2 fd E Ac) || (destruct (B (x :: l) ev e2 fd E Ac) as (path & O & Q); exists path; rewrite <- app_assoc in O; auto).
  - destruct l as [|x l].
    + rewrite app_nil_r in *. cbn [app] in E. symmetry in E. destruct (B [] ev e2 fd E Ac) as (path & O & Q). rewrite app_nil_r in O. exists path. auto.
    + cbn [app] in E. injection E as -> ->. exact (A e1 x l fd eq_refl Ac).
Qed.
Lemma touches_weaken M g (P Q : bytes -> Prop) es : (forall p, P p -> Q p) -> touches M g P es -> touches M g Q es.
Proof. intros W T e1 ev e2 fd E A. destruct (T e1 ev e2 fd E A) as (p & O & Hp). eauto. Qed.
(** Ioctls on one open descriptor. *)
Lemma not_close fd f es : Forall (ioctl_on fd) es -> ~ In (GFile (LClose f)) es.
Proof. rewrite Forall_forall. intros H I. exact (H _ I). Qed.
Lemma touches_ioctls M g (P : bytes -> Prop) es fd path : open_on M g fd path -> P path -> Forall (ioctl_on fd) es -> touches M g P es.
Proof.
  intros O HP F e1 ev e2 f -> A. apply Forall_app in F as [F1 F2]. inversion F2 as [|x y Hx Hy]; subst.
  exists path. assert (f = fd) as -> by (destruct ev as [e|c|q c]; cbn in Hx, A; [destruct Hx| |]; congruence).
  split; [apply open_on_app; [exact O|exact (not_close _ _ _ F1)]|exact HP].
Qed.

(** ---- opening ---- *)
(** Closed handles have no driver; a live handle's driver is on the handle's descriptor. *)
Definition sound_handle (x : ghandle) : Prop :=
  match gh_dev x with Some d => d_fd d = gh_fd x /\ p_dh (gh_dh x) <> None | None => p_dh (gh_dh x) = None end.
(** [es] closes nothing. *)
Definition closes_no (es : ghist) : Prop := forall fd, ~ In (GFile (LClose fd)) es.
Lemma closes_app_no a b : closes_no a -> closes_no b -> closes_no (a ++ b).
Proof. intros A B fd I. apply in_app_or in I as [I|I]; [exact (A _ I)|exact (B _ I)]. Qed.
Lemma init_keeps V p h h' p' r : init V p h = (h', (p', r)) -> p_dh p' = p_dh p.
Proof.
  unfold init. intros H.
  set (ty := match p_dh p with Some t => t | None => _ end) in *. clearbody ty.
  assert (T : forall q k k' q' s, init_tail V q k = (k', (q', s)) -> p_dh q' = p_dh q).
  { intros q k k' q' s Q. exact (proj1 (init_tail_frame _ _ _ _ _ _ Q)). }
  destruct (is_ata ty).
  - cbv zeta in H. destruct (init_ata (p_info p) _) as [i1 [u| | |]]; try (injection H as _ <- _; reflexivity).
    destruct (is_nvme ty).
    + destruct (init_nvme i1 _) as [i2 [u2| | |]]; try (injection H as _ <- _; reflexivity). apply T in H. exact H.
    + apply T in H. exact H.
  - destruct (is_nvme ty).
    + cbv zeta in H. destruct (init_nvme (p_info p) _) as [i2 [u2| | |]]; try (injection H as _ <- _; reflexivity). apply T in H. exact H.
    + apply T in H. exact H.
Qed.
Lemma ginstall_adds M g x d : exists es, fst (ginstall M g x d) = g ++ es /\ Forall (ioctl_on (d_fd d)) es
  /\ (let x' := fst (snd (ginstall M g x d)) in gh_path x' = gh_path x /\ gh_fd x' = gh_fd x /\ gh_dev x' = Some d /\ p_dh (gh_dh x') <> None).
Proof.
  unfold ginstall. cbv zeta. set (p := {| p_dh := _; p_info := _ |}).
  destruct (init (drv_at M g d) p [CType; CName]) as [cs [p' r]] eqn:E. cbn [fst snd]. eexists. split; [reflexivity|]. split; [apply ioctls_fd|].
  cbn [gh_path gh_fd gh_dev gh_dh]. repeat split. apply init_keeps in E. rewrite E. discriminate.
Qed.
Lemma gprobe_loop_adds M fd path k : forall g x n, gh_path x = path -> gh_fd x = fd -> sound_handle x -> open_on M g fd path ->
  exists es, fst (gprobe_loop M g fd x n k) = g ++ es /\ closes_no es /\ touches M g (eq path) es
  /\ forall x', snd (gprobe_loop M g fd x n k) = Ok x' -> gh_path x' = path /\ gh_fd x' = fd /\ sound_handle x'.
Proof.
  induction k as [|k IH]; intros g x n Hp Hf Hs O; cbn [gprobe_loop].
  - exists []. rewrite app_nil_r. split; [reflexivity|]. split; [intros f []|]. split; [apply touches_nil|]. intros x' E. now injection E as <-.
  - set (g0 := g ++ [GFile (LProbe n fd)]).
    assert (T0 : touches M g (eq path) [GFile (LProbe n fd)]) by (apply touches_one; cbn; intros f E; injection E as <-; eauto).
    assert (C0 : closes_no [GFile (LProbe n fd)]) by (intros f [E|[]]; discriminate E).
    assert (O0 : open_on M g0 fd path) by (apply open_on_app; [exact O|apply C0]).
    destruct (gprobe_adds M g0 n fd) as (e1 & E1 & F1 & D1). destruct (gprobe M g0 n fd) as [g1 [d|]]; cbn [fst snd] in *; subst g1.
    + specialize (D1 d eq_refl). assert (O1 : open_on M (g0 ++ e1) fd path) by (apply open_on_app; [exact O0|exact (not_close _ _ _ F1)]).
      pose proof (touches_ioctls M g0 (eq path) e1 fd path O0 eq_refl F1) as T1.
      destruct (ginstall_adds M (g0 ++ e1) x d) as (e2 & E2 & F2 & X). destruct (ginstall M (g0 ++ e1) x d) as [g2 [x1 r]]. cbn [fst snd] in *. subst g2.
      rewrite D1 in F2. assert (O2 : open_on M ((g0 ++ e1) ++ e2) fd path) by (apply open_on_app; [exact O1|exact (not_close _ _ _ F2)]).
      pose proof (touches_ioctls M (g0 ++ e1) (eq path) e2 fd path O1 eq_refl F2) as T2.
      assert (S1 : exists es, (g0 ++ e1) ++ e2 = g ++ es /\ closes_no es /\ touches M g (eq path) es).
      { exists ([GFile (LProbe n fd)] ++ e1 ++ e2). unfold g0. rewrite <- !app_assoc. split; [reflexivity|]. split.
        - apply closes_app_no; [exact C0|]. apply closes_app_no; intros f; [exact (not_close _ _ _ F1)|exact (not_close _ _ _ F2)].
        - apply touches_app; [exact T0|]. apply touches_app; [exact T1|]. exact T2. }
      destruct X as (X1 & X2 & X3 & X4). destruct S1 as (es & Es & Ce & Te).
      assert (L : exists es', fst (gprobe_loop M ((g0 ++ e1) ++ e2) fd x1 (S n) k) = g ++ es' /\ closes_no es' /\ touches M g (eq path) es'
        /\ forall x', snd (gprobe_loop M ((g0 ++ e1) ++ e2) fd x1 (S n) k) = Ok x' -> gh_path x' = path /\ gh_fd x' = fd /\ sound_handle x').
      { destruct (IH ((g0 ++ e1) ++ e2) x1 (S n)) as (e3 & E3 & C3 & T3 & X'); [congruence|congruence| |exact O2|].
        - unfold sound_handle. rewrite X3. split; [congruence|exact X4].
        - exists (es ++ e3). split; [rewrite E3, Es, <- app_assoc; reflexivity|]. split; [now apply closes_app_no|]. split; [|exact X'].
          apply touches_app; [exact Te|]. rewrite <- Es. exact T3. }
      destruct r as [u|e| |]; cbn [fst snd]; try exact L; exists es; (split; [exact Es|]); (split; [exact Ce|]); (split; [exact Te|]); discriminate.
    + assert (O1 : open_on M (g0 ++ e1) fd path) by (apply open_on_app; [exact O0|exact (not_close _ _ _ F1)]).
      pose proof (touches_ioctls M g0 (eq path) e1 fd path O0 eq_refl F1) as T1.
      destruct (IH (g0 ++ e1) x (S n) Hp Hf Hs O1) as (e3 & E3 & C3 & T3 & X'). 
      exists ([GFile (LProbe n fd)] ++ e1 ++ e3). split; [rewrite E3; unfold g0; rewrite <- !app_assoc; reflexivity|]. split.
      * apply closes_app_no; [exact C0|]. apply closes_app_no; [|exact C3]. intros f. exact (not_close _ _ _ F1).
      * split; [|exact X']. apply touches_app; [exact T0|]. apply touches_app; [exact T1|]. exact T3.
Qed.
(** OpenByFd: never an error (C75) *)
Lemma gprobe_loop_no_err M fd k : forall g x n e, snd (gprobe_loop M g fd x n k) <> Err e.
Proof.
  induction k as [|k IH]; intros g x n e; cbn [gprobe_loop]; [discriminate|].
  destruct (gprobe M (g ++ [GFile (LProbe n fd)]) n fd) as [g1 [d|]]; [|apply IH].
  destruct (ginstall M g1 x d) as [g2 [x1 [u|e'| |]]]; [apply IH|apply IH|discriminate|discriminate].
Qed.
Lemma gopen_adds M g path : exists es, fst (gopen_by_path M g path) = g ++ es /\ closes_no es /\ touches M g (eq path) es
  /\ forall x, snd (gopen_by_path M g path) = Ok x ->
       gh_path x = path /\ sound_handle x /\ m_open M (g ++ [GFile (LOpen path)]) = inr (gh_fd x) /\ open_on M (g ++ es) (gh_fd x) path.
Proof.
  unfold gopen_by_path. cbv zeta. set (g1 := g ++ [GFile (LOpen path)]).
  assert (T1 : touches M g (eq path) [GFile (LOpen path)]) by (apply touches_one; discriminate).
  assert (C1 : closes_no [GFile (LOpen path)]) by (intros f [E|[]]; discriminate E).
  destruct (m_open M g1) as [e|fd] eqn:Eo.
  - exists [GFile (LOpen path)]. split; [reflexivity|]. split; [exact C1|]. split; [exact T1|]. discriminate.
  - unfold gopen_by_fd. cbv zeta.
    set (g3 := (g1 ++ [GFile (LBasic fd path)]) ++ [GFile (LIds path)]).
    match goal with |- context [gprobe_loop M g3 fd ?y 0 driver_count] => set (x0 := y) end.
    assert (X0 : gh_path x0 = path /\ gh_fd x0 = fd /\ sound_handle x0) by (repeat split). destruct X0 as (X01 & X02 & X03). clearbody x0.
    assert (O1 : open_on M g1 fd path) by (apply open_on_new, Eo).
    assert (C2 : closes_no [GFile (LBasic fd path); GFile (LIds path)]) by (intros f [E|[E|[]]]; discriminate E).
    assert (G3 : g3 = g1 ++ [GFile (LBasic fd path); GFile (LIds path)]) by (unfold g3; now rewrite <- app_assoc).
    assert (T2 : touches M g1 (eq path) [GFile (LBasic fd path); GFile (LIds path)]).
    { change [GFile (LBasic fd path); GFile (LIds path)] with ([GFile (LBasic fd path)] ++ [GFile (LIds path)]). apply touches_app; apply touches_one; [|discriminate].
      cbn. intros f E. injection E as <-. eauto. }
    assert (O3 : open_on M g3 fd path) by (rewrite G3; apply open_on_app; [exact O1|apply C2]).
    destruct (gprobe_loop_adds M fd path driver_count g3 x0 0 X01 X02 X03 O3) as (e4 & E4 & C4 & T4 & X4).
    pose proof (gprobe_loop_no_err M fd driver_count g3 x0 0) as NE.
    destruct (gprobe_loop M g3 fd x0 0 driver_count) as [g4 r]. cbn [fst snd] in *. subst g4.
    assert (R : exists es, g3 ++ e4 = g ++ es /\ closes_no es /\ touches M g (eq path) es).
    { exists ([GFile (LOpen path)] ++ [GFile (LBasic fd path); GFile (LIds path)] ++ e4). rewrite G3. unfold g1. rewrite <- !app_assoc. split; [reflexivity|]. split.
      - apply closes_app_no; [exact C1|]. now apply closes_app_no.
      - apply touches_app; [exact T1|]. apply touches_app; [exact T2|]. fold g1. rewrite <- G3. exact T4. }
    destruct R as (es & Es & Ce & Te).
    destruct r as [x|e| |]; cbn [fst snd]; [|destruct (NE e eq_refl)| |]; exists es; (split; [exact Es|]); (split; [exact Ce|]); (split; [exact Te|]); try discriminate.
    intros x' E. injection E as <-. destruct (X4 x eq_refl) as (P1 & P2 & P3). rewrite P2. split; [exact P1|]. split; [exact P3|]. split; [reflexivity|].
    rewrite <- Es. apply open_on_app; [exact O3|apply C4].
Qed.

(** ---- the descriptors of live handles ---- *)
Definition live1 (x : ghandle) : list (N * bytes) := match p_dh (gh_dh x) with Some _ => [(gh_fd x, gh_path x)] | None => [] end.
Definition live (xs : list ghandle) : list (N * bytes) := flat_map live1 xs.
Lemma live_app a b : live (a ++ b) = live a ++ live b.
Proof. apply flat_map_app. Qed.
(** [held] are further descriptors in use. *)
Definition owns (M : machine) (g : ghist) (held : list (N * bytes)) : Prop :=
  NoDup (map fst held) /\ forall fd p, In (fd, p) held -> open_on M g fd p.
Lemma owns_app M g held es : owns M g held -> closes_no es -> owns M (g ++ es) held.
Proof. intros [D O] C. split; [exact D|]. intros fd p I. apply open_on_app; [auto|apply C]. Qed.
Lemma owns_new M g es held path fd : fresh_descriptors M -> owns M g held -> closes_no es ->
  m_open M (g ++ [GFile (LOpen path)]) = inr fd -> open_on M (g ++ es) fd path -> owns M (g ++ es) (held ++ [(fd, path)]).
Proof.
  intros F [D O] C E N. split.
  - rewrite map_app. cbn [map fst]. assert (X : ~ In fd (map fst held)).
    { intros I. apply in_map_iff in I as ([f p] & Ef & I). cbn in Ef. subst f. exact (F _ _ _ _ E (O _ _ I)). }
    clear -D X. induction (map fst held) as [|a l IH]; cbn [app].
    + constructor; [intros []|constructor].
    + inversion D; subst. constructor; [|apply IH; [assumption|intros I; apply X; now right]].
      intros I. apply in_app_or in I as [I|[I|[]]]; [now auto|]. subst. apply X. now left.
  - intros f p I. apply in_app_or in I as [I|[I|[]]]; [apply open_on_app; [auto|apply C]|]. injection I as <- <-. exact N.
Qed.
Lemma owns_left M g a b : owns M g (a ++ b) -> owns M g a.
Proof.
  intros [D O]. rewrite map_app in D. split; [|intros fd p I; apply O, in_or_app; now left].
  induction (map fst a) as [|x l IH]; [constructor|]. inversion D; subst. constructor; [|auto]. intros I. apply H1, in_or_app. now left.
Qed.
(** Closing one of them. *)
Lemma owns_close M g a fd p b : owns M g (a ++ (fd, p) :: b) -> owns M (g ++ [GFile (LClose fd)]) (a ++ b).
Proof.
  intros [D O]. rewrite map_app in D. cbn [map fst] in D. pose proof (NoDup_remove _ _ _ D) as [D1 D2]. rewrite <- map_app in D1, D2. split; [exact D1|].
  intros f q I. apply open_on_app.
  - apply O. apply in_app_or in I as [I|I]; apply in_or_app; [now left|right; now right].
  - intros [E|[]]. injection E as <-. apply D2. change fd with (fst (fd, q)). now apply in_map.
Qed.
Lemma owns_perm M g l l' : Permutation.Permutation l l' -> owns M g l -> owns M g l'.
Proof.
  intros P [D O]. split.
  - eapply Permutation.Permutation_NoDup; [apply Permutation.Permutation_map; exact P|exact D].
  - intros fd p I. apply O. eapply Permutation.Permutation_in; [symmetry; exact P|exact I].
Qed.
Lemma gclose_adds M g a x b : owns M g (a ++ live1 x ++ b) ->
  exists es, fst (gclose g x) = g ++ es /\ touches M g (eq (gh_path x)) es /\ owns M (g ++ es) (a ++ b)
  /\ gh_path (snd (gclose g x)) = gh_path x /\ live1 (snd (gclose g x)) = [] /\ (sound_handle x -> sound_handle (snd (gclose g x))).
Proof.
  intros H. unfold gclose, live1 in *. destruct (p_dh (gh_dh x)) as [t|] eqn:Ed; cbn [app fst snd] in *.
  - exists [GFile (LClose (gh_fd x))]. split; [reflexivity|]. split; [|split; [exact (owns_close _ _ _ _ _ _ H)|repeat split]].
    apply touches_one. cbn. intros f E. injection E as <-. exists (gh_path x). split; [|reflexivity]. apply H, in_or_app. right. now left.
  - exists []. rewrite app_nil_r, Ed. repeat split; try apply H; [apply touches_nil|auto].
Qed.
(** The deferred closes of EnumDrives. *)
Lemma close_all_adds M held xs : forall g, owns M g (held ++ live xs) ->
  exists es, fold_left (fun k x => fst (gclose k x)) xs g = g ++ es /\ touches M g (fun p => exists x, In x xs /\ p = gh_path x) es /\ owns M (g ++ es) held.
Proof.
  induction xs as [|x xs IH]; intros g H; cbn [fold_left].
  - exists []. unfold live in H. cbn [flat_map] in H. rewrite app_nil_r in *. split; [reflexivity|]. split; [apply touches_nil|exact H].
  - change (live (x :: xs)) with (live1 x ++ live xs) in H. destruct (gclose_adds M g held x (live xs) H) as (e1 & E1 & T1 & O1 & _). rewrite E1.
    destruct (IH (g ++ e1) O1) as (e2 & E2 & T2 & O2). rewrite E2. exists (e1 ++ e2). rewrite app_assoc. split; [reflexivity|]. split; [|exact O2].
    apply touches_app.
    + eapply touches_weaken; [|exact T1]. intros p <-. exists x. split; [now left|reflexivity].
    + eapply touches_weaken; [|exact T2]. intros p (y & I & ->). exists y. split; [now right|reflexivity].
Qed.
Lemma live_rev xs : Permutation.Permutation (live (rev xs)) (live xs).
Proof. apply Permutation.Permutation_flat_map. symmetry. apply Permutation.Permutation_rev. Qed.
(** EnumDrives. *)
Definition listed_path (p : bytes) : Prop := exists name, p = dev_path name.
Lemma genum_loop_adds M held names : fresh_descriptors M -> forall g xs, owns M g (held ++ live xs) -> Forall (fun x => listed_path (gh_path x)) xs ->
  exists es, fst (genum_loop M g names xs) = g ++ es /\ touches M g listed_path es
  /\ match snd (genum_loop M g names xs) with
     | Ok ys => owns M (g ++ es) (held ++ live ys) /\ Forall (fun x => listed_path (gh_path x)) ys
     | _ => owns M (g ++ es) held
     end.
Proof.
  intros HF. induction names as [|name rest IH]; intros g xs HO HX; cbn [genum_loop].
  - exists []. rewrite app_nil_r. split; [reflexivity|]. split; [apply touches_nil|]. cbn [snd]. auto.
  - destruct (contains _ name); [apply IH; assumption|]. cbv zeta. set (e0 := GFile (LStat (dev_path name))).
    assert (T0 : touches M g listed_path [e0]) by (apply touches_one; discriminate).
    assert (C0 : closes_no [e0]) by (intros f [E|[]]; discriminate E).
    pose proof (owns_app _ _ _ _ HO C0) as H0.
    assert (STEP : forall g1 ys e1, g1 = (g ++ [e0]) ++ e1 -> touches M (g ++ [e0]) listed_path e1 -> owns M g1 (held ++ live ys) -> Forall (fun x => listed_path (gh_path x)) ys ->
      exists es, fst (genum_loop M g1 rest ys) = g ++ es /\ touches M g listed_path es
      /\ match snd (genum_loop M g1 rest ys) with Ok zs => owns M (g ++ es) (held ++ live zs) /\ Forall (fun x => listed_path (gh_path x)) zs | _ => owns M (g ++ es) held end).
    { intros g1 ys e1 -> T1 O1 X1. destruct (IH _ ys O1 X1) as (e2 & E2 & T2 & Y). exists ([e0] ++ e1 ++ e2).
      assert (G : g ++ [e0] ++ e1 ++ e2 = ((g ++ [e0]) ++ e1) ++ e2) by now rewrite !app_assoc.
      split; [rewrite E2, G; reflexivity|]. split; [apply touches_app; [exact T0|]; now apply touches_app|]. rewrite G. exact Y. }
    assert (SAME : exists es, fst (genum_loop M (g ++ [e0]) rest xs) = g ++ es /\ touches M g listed_path es
      /\ match snd (genum_loop M (g ++ [e0]) rest xs) with Ok zs => owns M (g ++ es) (held ++ live zs) /\ Forall (fun x => listed_path (gh_path x)) zs | _ => owns M (g ++ es) held end).
    { apply (STEP _ xs []); [now rewrite app_nil_r|apply touches_nil|exact H0|exact HX]. }
    destruct (m_mode M (g ++ [e0])) as [mode|]; [|exact SAME]. destruct (is_block mode); [|exact SAME]. destruct (contains _ name); [exact SAME|].
    destruct (gopen_adds M (g ++ [e0]) (dev_path name)) as (e1 & E1 & C1 & T1 & X1).
    assert (T1' : touches M (g ++ [e0]) listed_path e1) by (eapply touches_weaken; [|exact T1]; intros p <-; exists name; reflexivity).
    pose proof (owns_app _ _ _ _ H0 C1) as H1.
    destruct (gopen_by_path M (g ++ [e0]) (dev_path name)) as [g2 r]. cbn [fst snd] in *. subst g2.
    assert (END : forall l r', owns M ((g ++ [e0]) ++ e1) (held ++ live l) -> Forall (fun x => listed_path (gh_path x)) l -> r' = @Panic (list ghandle) ->
       exists es, fold_left (fun k x => fst (gclose k x)) (rev l) ((g ++ [e0]) ++ e1) = g ++ es /\ touches M g listed_path es /\ owns M (g ++ es) held).
    { intros l r' O L _. destruct (close_all_adds M held (rev l) ((g ++ [e0]) ++ e1)) as (e2 & E2 & T2 & O2).
      - eapply owns_perm; [|exact O]. apply Permutation.Permutation_app_head. symmetry. apply live_rev.
      - rewrite E2. exists ([e0] ++ e1 ++ e2).
        assert (G : g ++ [e0] ++ e1 ++ e2 = ((g ++ [e0]) ++ e1) ++ e2) by now rewrite !app_assoc.
        split; [now rewrite G|]. split; [|rewrite G; exact O2]. apply touches_app; [exact T0|]. apply touches_app; [exact T1'|]. eapply touches_weaken; [|exact T2].
        intros p (x & I & ->). rewrite Forall_forall in L. apply L. now apply in_rev. }
    destruct r as [x|e| |].
    + destruct (X1 x eq_refl) as (P & S & Eo & On). apply (STEP _ (xs ++ [x]) e1 eq_refl T1').
      * rewrite live_app, app_assoc. unfold live at 2. cbn [flat_map]. rewrite app_nil_r. unfold live1. destruct (p_dh (gh_dh x)); [|rewrite app_nil_r; exact H1].
        rewrite P. exact (owns_new _ _ _ _ _ _ HF H0 C1 Eo On).
      * apply Forall_app. split; [exact HX|]. constructor; [exists name; exact P|constructor].
    + apply (STEP _ xs e1 eq_refl T1' H1 HX).
    + cbn [fst snd]. exact (END xs Panic H1 HX eq_refl).
    + cbn [fst snd]. exists ([e0] ++ e1). split; [now rewrite app_assoc|]. split; [apply touches_app; assumption|]. rewrite app_assoc.
      exact (owns_left _ _ _ _ H1).
Qed.
Lemma genum_adds M g held : fresh_descriptors M -> owns M g held ->
  exists es, fst (genum_drives M g) = g ++ es /\ touches M g listed_path es /\ owns M (g ++ es) held.
Proof.
  intros HF HO. unfold genum_drives. cbv zeta.
  assert (T0 : touches M g listed_path [GFile LReadDir]) by (apply touches_one; discriminate).
  assert (C0 : closes_no [GFile LReadDir]) by (intros f [E|[]]; discriminate E).
  pose proof (owns_app _ _ _ _ HO C0) as H0.
  destruct (m_dir M (g ++ [GFile LReadDir])) as [e|names]; [exists [GFile LReadDir]; auto|].
  destruct (genum_loop_adds M held names HF (g ++ [GFile LReadDir]) []) as (e1 & E1 & T1 & Y); [cbn; rewrite app_nil_r; exact H0|constructor|].
  destruct (genum_loop M (g ++ [GFile LReadDir]) names []) as [g2 r]. cbn [fst snd] in *. subst g2.
  assert (W : forall r0 : res (list ghandle), owns M ((g ++ [GFile LReadDir]) ++ e1) held ->
     exists es, fst ((g ++ [GFile LReadDir]) ++ e1, r0) = g ++ es /\ touches M g listed_path es /\ owns M (g ++ es) held).
  { intros r0 O. exists ([GFile LReadDir] ++ e1). rewrite app_assoc. split; [reflexivity|]. split; [now apply touches_app|exact O]. }
  destruct r as [ys|e| |]; try (apply W; exact Y). destruct Y as [O L].
  destruct (close_all_adds M held (rev ys) ((g ++ [GFile LReadDir]) ++ e1)) as (e2 & E2 & T2 & O2).
  { eapply owns_perm; [|exact O]. apply Permutation.Permutation_app_head. symmetry. apply live_rev. }
  cbn [fst]. rewrite E2. exists ([GFile LReadDir] ++ e1 ++ e2). rewrite !app_assoc. split; [reflexivity|]. split; [|exact O2].
  rewrite <- app_assoc. apply touches_app; [exact T0|]. apply touches_app; [exact T1|]. eapply touches_weaken; [|exact T2].
  intros p (x & I & ->). rewrite Forall_forall in L. apply L. now apply in_rev.
Qed.

(** ---- EnumVolumes ---- *)
Definition any_path (p : bytes) : Prop := True.
Lemma volume_line_adds M g h l vs : exists es, fst (volume_line (vw (files_at M g)) h l vs) = h ++ es
  /\ closes_no (map GFile es) /\ touches M (g ++ map GFile h) any_path (map GFile es).
Proof.
  unfold volume_line. destruct (line_fields l) as [[device mount] fs].
  assert (Z : exists es, h = h ++ es /\ closes_no (map GFile es) /\ touches M (g ++ map GFile h) any_path (map GFile es)).
  { exists []. rewrite app_nil_r. split; [reflexivity|]. split; [intros f []|apply touches_nil]. }
  destruct (partition_match device) as [[parent ds]|]; [|exact Z]. cbv zeta.
  assert (T1 : touches M (g ++ map GFile h) any_path [GFile (LOpen parent)]) by (apply touches_one; discriminate).
  assert (C1 : closes_no [GFile (LOpen parent)]) by (intros f [E|[]]; discriminate E).
  cbn [files_at vw w_open w_basic]. destruct (m_open M (g ++ map GFile (h ++ [LOpen parent]))) as [e|fd] eqn:Eo.
  - exists [LOpen parent]. auto.
  - rewrite map_app, app_assoc in Eo. cbn [map] in Eo. pose proof (open_on_new _ _ _ _ Eo) as O.
    assert (W : exists es, (h ++ [LOpen parent]) ++ [LBasic fd parent] = h ++ es /\ closes_no (map GFile es) /\ touches M (g ++ map GFile h) any_path (map GFile es)).
    { exists [LOpen parent; LBasic fd parent]. rewrite <- app_assoc. split; [reflexivity|]. split; [intros f [E|[E|[]]]; discriminate E|].
      change (map GFile [LOpen parent; LBasic fd parent]) with ([GFile (LOpen parent)] ++ [GFile (LBasic fd parent)]). apply touches_app; [exact T1|].
      apply touches_one. cbn. intros f E. injection E as <-. exists parent. split; [exact O|exact I]. }
    destruct (read_basic_info _ _) as [b|e| |]; try exact W. destruct (find_part _ _ _ _) as [[q|]|e| |]; exact W.
Qed.
Lemma volume_lines_adds M g ls : forall h vs, exists es, fst (volume_lines (vw (files_at M g)) h ls vs) = h ++ es
  /\ closes_no (map GFile es) /\ touches M (g ++ map GFile h) any_path (map GFile es).
Proof.
  induction ls as [|l ls IH]; intros h vs; cbn [volume_lines].
  - exists []. rewrite app_nil_r. split; [reflexivity|]. split; [intros f []|apply touches_nil].
  - destruct (volume_line_adds M g h l vs) as (e1 & E1 & C1 & T1). destruct (volume_line (vw (files_at M g)) h l vs) as [h1 r]. cbn [fst] in E1. subst h1.
    destruct r as [vs1|e| |]; try (exists e1; cbn [fst]; auto; fail).
    destruct (IH (h ++ e1) vs1) as (e2 & E2 & C2 & T2). rewrite E2. exists (e1 ++ e2). rewrite app_assoc, map_app. split; [reflexivity|].
    split; [now apply closes_app_no|]. apply touches_app; [exact T1|]. rewrite map_app, app_assoc in T2. exact T2.
Qed.
Lemma gvolumes_adds M g : exists es, genum_volumes M g = g ++ es /\ closes_no es /\ touches M g any_path es.
Proof.
  unfold genum_volumes, enum_volumes. cbv zeta. cbn [app].
  assert (T0 : touches M g any_path [GFile LMounts]) by (apply touches_one; discriminate).
  assert (C0 : closes_no [GFile LMounts]) by (intros f [E|[]]; discriminate E).
  destruct (vw_mounts (files_at M g) [LMounts]) as [e|m].
  - exists [GFile LMounts]. auto.
  - destruct (scan m) as [ls late]. destruct (volume_lines_adds M g ls [LMounts] []) as (e1 & E1 & C1 & T1).
    destruct (volume_lines (vw (files_at M g)) [LMounts] ls []) as [h2 r]. cbn [fst] in E1. subst h2.
    exists (map GFile ([LMounts] ++ e1)). split; [destruct r; reflexivity|]. rewrite map_app. split; [now apply closes_app_no|]. apply touches_app; [exact T0|exact T1].
Qed.

(** ---- one call of a program ---- *)
Lemma hstep_keeps V p o : o <> HClose -> p_dh (fst (snd (hstep V p [] o))) = p_dh p.
Proof.
  intros N. destruct o; cbn [hstep]; try congruence.
  - destruct (init V p []) as [h1 [p1 r]] eqn:E. exact (init_keeps _ _ _ _ _ _ E).
  - destruct (get_driving_type V p []); reflexivity.
  - destruct (get_driver_name V p []); reflexivity.
  - destruct (tcg_discovery0 V p []) as [h1 [p1 r]] eqn:E. exact (proj1 (discovery_frame _ _ _ _ _ _ E)).
  - destruct (security_command _ _ _ _ _ _ _ _ _) as [h1 [e b]]. reflexivity.
  - destruct (ata_do_task_file_cmd _ _ _ _ _ _ _ _) as [h1 [e b]]. reflexivity.
  - destruct (nvme_get_log_page _ _ _ _ _ _ _) as [h1 [e b]]. reflexivity.
Qed.
Lemma gcall_adds M g a x b o : sound_handle x -> owns M g (a ++ live1 x ++ b) ->
  exists es, fst (gcall M g x o) = g ++ es /\ touches M g (eq (gh_path x)) es /\ sound_handle (snd (gcall M g x o))
  /\ gh_path (snd (gcall M g x o)) = gh_path x /\ owns M (g ++ es) (a ++ live1 (snd (gcall M g x o)) ++ b).
Proof.
  intros S H. assert (D : o = HClose \/ o <> HClose) by (destruct o; (now left) || (right; discriminate)). destruct D as [->|N].
  - cbn [gcall]. destruct (gclose_adds M g a x b H) as (es & E & T & O & P & L & Sx). exists es. rewrite L, P. auto 10.
  - set (V := match gh_dev x with Some d => drv_at M g d | None => no_drv end).
    assert (Q : gcall M g x o = (let '(cs, (p, _)) := hstep V (gh_dh x) [] o in
      (match gh_dev x with Some d => g ++ ioctls_of M g d cs | None => g end,
       {| gh_path := gh_path x; gh_fd := gh_fd x; gh_dh := p; gh_dev := gh_dev x; gh_driving := gh_driving x; gh_driver_name := gh_driver_name x |}))).
    { unfold gcall. fold V. destruct o; (reflexivity || congruence). }
    rewrite Q. pose proof (hstep_keeps V (gh_dh x) o N) as K. destruct (hstep V (gh_dh x) [] o) as [cs [p out]]. cbn [fst snd] in *.
    unfold sound_handle, live1 in *. cbn [gh_dev gh_dh gh_fd gh_path] in *. rewrite K.
    destruct (gh_dev x) as [d|].
    + destruct S as [Sf Sd]. exists (ioctls_of M g d cs). pose proof (ioctls_fd M g d cs) as F. rewrite Sf in F.
      split; [reflexivity|]. split; [|split; [auto|split; [reflexivity|apply owns_app; [exact H|intros f; exact (not_close _ _ _ F)]]]].
      destruct (p_dh (gh_dh x)) as [t|]; [|congruence]. apply (touches_ioctls M g _ _ (gh_fd x) (gh_path x)); [|reflexivity|exact F].
      apply H, in_or_app. right. now left.
    + exists []. rewrite app_nil_r. split; [reflexivity|]. split; [apply touches_nil|]. auto.
Qed.
Lemma nth_split_ext {A} (l : list A) i x : nth_error l i = Some x -> exists a b, l = a ++ x :: b /\ forall y, replace_nth i y l = a ++ y :: b.
Proof.
  revert i. induction l as [|z l IH]; intros [|i] H; cbn in H; try discriminate.
  - injection H as ->. exists [], l. auto.
  - destruct (IH i H) as (a & b & -> & R). exists (z :: a), b. split; [reflexivity|]. intros y. cbn. now rewrite R.
Qed.
Lemma live_cons a x b : live (a ++ x :: b) = live a ++ live1 x ++ live b.
Proof. rewrite live_app. reflexivity. Qed.
Definition good_state (M : machine) (s : gstate) : Prop := Forall sound_handle (st_handles s) /\ owns M (st_hist s) (live (st_handles s)).
Lemma gstep_adds M s o : fresh_descriptors M -> good_state M s ->
  exists es, st_hist (gstep M s o) = st_hist s ++ es /\ touches M (st_hist s) (may_touch s o) es /\ good_state M (gstep M s o)
  /\ (paths (gstep M s o) = paths s \/ exists p, o = GOpen p /\ paths (gstep M s o) = paths s ++ [p]).
Proof.
  intros HF [HS HO]. destruct s as [g xs]. unfold good_state, paths in *. cbn [st_hist st_handles] in *. destruct o as [path| | |i o]; cbn [gstep st_hist st_handles may_touch].
  - destruct (gopen_adds M g path) as (es & E & C & T & X). destruct (gopen_by_path M g path) as [g' r]. cbn [fst snd] in *. subst g'.
    pose proof (owns_app _ _ _ _ HO C) as H1.
    assert (T' : touches M g (fun p => p = path) es) by (eapply touches_weaken; [|exact T]; intros p <-; reflexivity).
    destruct r as [x|e| |]; cbn [st_hist st_handles]; exists es; (split; [reflexivity|]); (split; [exact T'|]); auto.
    destruct (X x eq_refl) as (P & S & Eo & On). split; [split|].
    + apply Forall_app. auto.
    + rewrite live_app. unfold live at 2. cbn [flat_map]. rewrite app_nil_r. unfold live1. destruct (p_dh (gh_dh x)); [|rewrite app_nil_r; exact H1].
      rewrite P. exact (owns_new _ _ _ _ _ _ HF HO C Eo On).
    + right. exists path. rewrite map_app. cbn [map]. now rewrite P.
  - destruct (genum_adds M g (live xs) HF HO) as (es & E & T & O). exists es. rewrite E. split; [reflexivity|]. split; [exact T|]. split; [split; assumption|now left].
  - destruct (gvolumes_adds M g) as (es & E & C & T). exists es. split; [exact E|]. split; [exact T|]. split; [|now left]. split; [exact HS|].
    rewrite E. now apply owns_app.
  - destruct (nth_error xs i) as [x|] eqn:Ei.
    2:{ exists []. rewrite app_nil_r. cbn [st_hist st_handles]. split; [reflexivity|]. split; [apply touches_nil|]. auto. }
    destruct (nth_split_ext _ _ _ Ei) as (a & b & -> & R). rewrite live_cons in HO.
    pose proof HS as HS'. apply Forall_app in HS' as [Sa Sb]. inversion Sb as [|? ? Sx Sb']; subst.
    destruct (gcall_adds M g (live a) x (live b) o Sx HO) as (es & E & T & S' & P & O). destruct (gcall M g x o) as [g' x']. cbn [fst snd st_hist st_handles] in *.
    exists es. split; [exact E|]. split; [eapply touches_weaken; [|exact T]; intros p <-; exists x; auto|]. rewrite R, live_cons, E. split; [split; [|exact O]|].
    + apply Forall_app. split; [exact Sa|]. constructor; assumption.
    + left. rewrite !map_app. cbn [map]. now rewrite P.
Qed.
Lemma grun_good M ops : fresh_descriptors M -> good_state M (grun M ops).
Proof.
  intros HF. unfold grun. assert (G0 : good_state M {| st_hist := []; st_handles := [] |}).
  { split; [constructor|]. split; [constructor|]. intros fd p []. }
  revert G0. generalize {| st_hist := []; st_handles := [] |}. induction ops as [|o ops IH]; intros s G; cbn [fold_left]; [exact G|].
  apply IH. destruct (gstep_adds M s o HF G) as (_ & _ & _ & G' & _). exact G'.
Qed.
