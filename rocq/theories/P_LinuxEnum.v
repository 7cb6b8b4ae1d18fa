(** Lemmas for C77-C79. *)
From Verif Require Import Base M_Buffer M_Struc M_Ata M_TcgDevice M_DriveHandle M_Strings M_LinuxInfo M_LinuxFactory
  Spec_Drive Spec_LinuxFactory P_Strings P_LinuxFactory Prop_LinuxFactory.
From Coq Require Import Permutation.

Definition no_loop (n : bytes) : bool := negb (contains (str "loop") n).
Definition scan_ok (W : world) (names : list bytes) (h : lhist) (acc : list handle) (h' : lhist) (r : res (list handle)) (es : lhist) (xs : list handle) : Prop :=
  filter is_lclose es = [] /\ ~ starts_open es /\ stat_rule W names h es /\ open_rule None es /\
  ((r = Ok (acc ++ xs) /\ h' = h ++ es /\ opened_in W h es = map pf xs /\ statted es = map dev_path (filter no_loop names))
   \/ (r = Panic /\ h' = h ++ es ++ closing (acc ++ xs) /\
       (exists p fd, opened_in W h es = map pf xs ++ [(p, fd)]) /\
       (exists rest, statted es ++ rest = map dev_path (filter no_loop names)) /\
       (exists o pre n fd, (h ++ es) = pre ++ [LProbe n fd] /\ w_probe W (h ++ es) = inr o /\ malformed_discovery o))).

Lemma skip_one W n names h acc h' r es xs : no_loop n = false -> scan_ok W names h acc h' r es xs -> scan_ok W (n :: names) h acc h' r es xs.
Proof.
  unfold scan_ok. intros Hn (A & B & C & D & E). cbn [filter]. rewrite Hn. split; [exact A|]. split; [exact B|].
  split; [|auto]. eapply stat_rule_mono; [|exact C]. intros y Hy. now right.
Qed.
(** one stat and possibly an open, then the rest *)
Lemma step_one W n names h acc acc' h' r seg es xs ys :
  no_loop n = true ->
  (seg = [] /\ ~ ((exists m, w_mode W (h ++ [LStat (dev_path n)]) = Some m /\ block_mode m) /\ ~ occurs (str "sr") n) /\ acc' = acc /\ ys = [] \/
   exists q, seg = LOpen (dev_path n) :: q /\ forallb quiet q = true /\
     ((exists m, w_mode W (h ++ [LStat (dev_path n)]) = Some m /\ block_mode m) /\ ~ occurs (str "sr") n) /\ acc' = acc ++ ys /\
     match w_open W (h ++ [LStat (dev_path n); LOpen (dev_path n)]) with inl _ => ys = [] | inr fd => map pf ys = [(dev_path n, fd)] end) ->
  scan_ok W names (h ++ LStat (dev_path n) :: seg) acc' h' r es xs ->
  scan_ok W (n :: names) h acc h' r (LStat (dev_path n) :: seg ++ es) (ys ++ xs).
Proof.
  intros Hn Hseg (A & B & C & D & E). unfold no_loop in Hn. apply Bool.negb_true_iff, contains_false in Hn.
  assert (M : stat_rule W (n :: names) (h ++ LStat (dev_path n) :: seg) es).
  { eapply stat_rule_mono; [|exact C]. intros y Hy. now right. }
  assert (F : filter no_loop (n :: names) = n :: filter no_loop names).
  { cbn [filter]. unfold no_loop at 1. apply contains_false in Hn. rewrite Hn. reflexivity. }
  destruct Hseg as [(-> & Hc & -> & ->)|(q & -> & Hq & Hc & -> & Ho)].
  - cbn [app] in *. unfold scan_ok. split; [exact A|]. split; [intros (p & t & X); discriminate|]. split.
    { cbn [stat_rule]. split; [|exact M]. exists n. split; [now left|]. split; [reflexivity|]. split; [exact Hn|].
      split; [intros X; contradiction|]. intros (t' & X). exfalso. apply B. do 2 eexists. exact X. }
    split. { cbn [open_rule]. split; [exact I|]. now apply open_rule_last with None. }
    cbn [opened_in app]. rewrite F. cbn [map].
    destruct E as [(E1 & E2 & E3 & E4)|(E1 & E2 & E3 & (rest & E4) & E5)]; [left|right].
    + split; [exact E1|]. split; [rewrite E2, <- app_assoc; reflexivity|]. split; [exact E3|].
      change (statted (LStat (dev_path n) :: es)) with (dev_path n :: statted es). now rewrite E4.
    + split; [exact E1|]. split; [rewrite E2, <- !app_assoc; reflexivity|]. split; [exact E3|]. split.
      * exists rest. change (statted (LStat (dev_path n) :: es)) with (dev_path n :: statted es). cbn [app]. now rewrite E4.
      * rewrite <- app_assoc in E5. exact E5.
  - set (p := dev_path n) in *.
    assert (H0 : (h ++ [LStat p]) ++ [LOpen p] = h ++ [LStat p; LOpen p]) by (now rewrite <- app_assoc).
    assert (H1 : (h ++ [LStat p; LOpen p]) ++ q = h ++ LStat p :: LOpen p :: q) by (now rewrite <- app_assoc).
    destruct (quiet_app W (n :: names) q Hq (h ++ [LStat p; LOpen p]) es B) as (QA & QB & QC & QD). rewrite H1 in QA, QC.
    unfold scan_ok. split.
    { cbn [app filter is_lclose]. rewrite filter_app, A, app_nil_r. clear - Hq. induction q as [|e q IH]; [reflexivity|].
      cbn [forallb] in Hq. apply andb_prop in Hq as [He Hq]. cbn [filter]. destruct e; try discriminate He; cbn [is_lclose]; auto. }
    split; [intros (p' & t & X); discriminate|]. split.
    { cbn [app stat_rule]. split; [|split; [exact I|rewrite H0; exact (QA M)]].
      exists n. split; [now left|]. split; [reflexivity|]. split; [exact Hn|]. split; [intros _; eexists; reflexivity|intros _; exact Hc]. }
    split. { cbn [app open_rule]. split; [exact I|]. split; [reflexivity|]. apply QB. exact D. }
    assert (O : opened_in W h (LStat p :: (LOpen p :: q) ++ es) = map pf ys ++ opened_in W (h ++ LStat p :: LOpen p :: q) es).
    { cbn [app opened_in]. rewrite H0, QC. destruct (w_open W (h ++ [LStat p; LOpen p])); [subst ys|rewrite Ho]; reflexivity. }
    assert (S : statted (LStat p :: (LOpen p :: q) ++ es) = p :: statted es).
    { change (statted (LStat p :: (LOpen p :: q) ++ es)) with (p :: statted (q ++ es)). now rewrite QD. }
    rewrite O, S, F. cbn [map]. fold p. rewrite map_app. rewrite <- app_assoc in E.
    assert (L : h ++ LStat p :: (LOpen p :: q) ++ es = (h ++ LStat p :: LOpen p :: q) ++ es) by (now rewrite <- app_assoc).
    rewrite L.
    destruct E as [(E1 & E2 & E3 & E4)|(E1 & E2 & (p' & fd' & E3) & (rest & E4) & E5)]; [left|right].
    + split; [exact E1|]. split; [exact E2|]. split; [now rewrite E3|]. now rewrite E4.
    + split; [exact E1|]. split; [rewrite E2; cbn [app]; rewrite <- !app_assoc; cbn [app]; rewrite <- ?app_assoc; reflexivity|]. split; [exists p', fd'; now rewrite E3, app_assoc|]. split.
      * exists rest. cbn [app]. now rewrite E4.
      * exact E5.
Qed.

Lemma enum_loop_spec W : forall names h acc h' r, enum_loop W h names acc = (h', r) -> exists es xs, scan_ok W names h acc h' r es xs.
Proof.
  induction names as [|n names IH]; intros h acc h' r H; cbn [enum_loop] in H.
  - injection H as <- <-. exists [], []. unfold scan_ok. rewrite !app_nil_r. split; [reflexivity|].
    split; [intros (p & t & X); discriminate|]. split; [exact I|]. split; [exact I|]. left. repeat split.
  - destruct (contains (str "loop") n) eqn:El.
    { destruct (IH _ _ _ _ H) as (es & xs & S). exists es, xs. apply skip_one; [unfold no_loop; now rewrite El|exact S]. }
    assert (Hn : no_loop n = true) by (unfold no_loop; now rewrite El).
    set (p := dev_path n) in *.
    assert (Skip : forall G : Prop, enum_loop W (h ++ [LStat p]) names acc = (h', r) -> (G -> False) ->
       (G <-> (exists m, w_mode W (h ++ [LStat p]) = Some m /\ block_mode m) /\ ~ occurs (str "sr") n) ->
       exists es xs, scan_ok W (n :: names) h acc h' r es xs).
    { intros G HG Gf GG. destruct (IH _ _ _ _ HG) as (es & xs & S). exists (LStat p :: [] ++ es), ([] ++ xs).
      apply (step_one W n names h acc acc h' r [] es xs []); [exact Hn| |exact S]. left. fold p. split; [reflexivity|]. split; [|auto].
      intros X. apply Gf, GG, X. }
    destruct (w_mode W (h ++ [LStat p])) as [m|] eqn:Em.
    2:{ apply (Skip False H); [auto|]. split; [intros []|]. intros [(m & X & _) _]. discriminate. }
    destruct (is_block m) eqn:Eb.
    2:{ apply (Skip False H); [auto|]. split; [intros []|]. intros [(m' & X & Y) _]. injection X as <-. apply is_block_iff in Y. congruence. }
    destruct (contains (str "sr") n) eqn:Es.
    { apply (Skip False H); [auto|]. split; [intros []|]. intros [_ X]. apply contains_iff in Es. contradiction. }
    assert (HC : (exists m, w_mode W (h ++ [LStat p]) = Some m /\ block_mode m) /\ ~ occurs (str "sr") n).
    { split; [exists m; split; [exact Em|now apply is_block_iff]|now apply contains_false]. }
    destruct (open_by_path W (h ++ [LStat p]) p) as (h2, r2) eqn:Eo.
    pose proof (C76_open_path _ _ _ _ _ Eo) as O. rewrite <- app_assoc in O. cbn [app] in O.
    destruct (w_open W (h ++ [LStat p; LOpen p])) as [e|fd] eqn:Ew.
    + destruct O as [-> ->]. destruct (IH _ _ _ _ H) as (es & xs & S).
      exists (LStat p :: [LOpen p] ++ es), ([] ++ xs). apply (step_one W n names h acc acc h' r [LOpen p] es xs []); [exact Hn| |exact S].
      right. exists []. fold p. rewrite Ew, app_nil_r. auto.
    + cbv zeta in O. destruct O as [(x & -> & Hf & Hp & ->)|(-> & k & o & Hk & -> & Ho & Hm)].
      * rewrite <- app_assoc in H. cbn [app] in H. destruct (IH _ _ _ _ H) as (es & xs & S).
        exists (LStat p :: (LOpen p :: probing fd p) ++ es), ([x] ++ xs).
        apply (step_one W n names h acc (acc ++ [x]) h' r (LOpen p :: probing fd p) es xs [x]); [exact Hn| |exact S].
        right. exists (probing fd p). fold p. rewrite Ew. split; [reflexivity|]. split; [reflexivity|]. split; [exact HC|]. split; [reflexivity|].
        cbn [map]. unfold pf. now rewrite Hf, Hp.
      * rewrite fold_close in H. injection H as <- <-.
        exists (LStat p :: LOpen p :: firstn k (probing fd p)), []. unfold scan_ok. rewrite app_nil_r.
        pose proof (probing_quiet k fd p) as Hq.
        destruct (quiet_app W (n :: names) _ Hq (h ++ [LStat p; LOpen p]) [] ltac:(intros (p' & t & X); discriminate)) as (QA & QB & QC & QD).
        rewrite !app_nil_r in *.
        split.
        { cbn [filter is_lclose]. destruct Hk as [->| ->]; reflexivity. }
        split; [intros (p' & t & X); discriminate|]. split.
        { cbn [stat_rule]. split; [|split; [exact I|]].
          - exists n. split; [now left|]. split; [reflexivity|]. split; [apply contains_false; exact El|]. split; [intros _; eexists; reflexivity|intros _; exact HC].
          - rewrite <- app_assoc. cbn [app]. apply QA. exact I. }
        split. { cbn [open_rule]. split; [exact I|]. split; [reflexivity|]. apply QB. exact I. }
        right. split; [reflexivity|]. split. { rewrite <- !app_assoc. cbn [app]. unfold closing. reflexivity. }
        split.
        { exists p, fd. cbn [opened_in app map]. rewrite <- app_assoc. cbn [app]. rewrite Ew, QC. reflexivity. }
        split.
        { exists (map dev_path (filter no_loop names)). cbn [filter]. rewrite Hn. cbn [map]. fold p.
          change (statted (LStat p :: LOpen p :: firstn k (probing fd p))) with (p :: statted (firstn k (probing fd p))). rewrite QD. reflexivity. }
        rewrite <- app_assoc in Ho. cbn [app] in Ho.
        exists o. destruct Hk as [->| ->]; [exists (h ++ LStat p :: LOpen p :: firstn 2 (probing fd p)), 0%nat, fd|exists (h ++ LStat p :: LOpen p :: firstn 3 (probing fd p)), 1%nat, fd];
          (split; [rewrite <- app_assoc; reflexivity|]; split; [exact Ho|exact Hm]).
Qed.

(** ---- getIdInfo ---- *)
Lemma id_map_some link names m : id_map link names = Some m ->
  (forall n, In n names -> ~ ignored_id n -> exists p, link n = Some p)
  /\ (forall n p, In (n, p) m <-> In n names /\ ~ ignored_id n /\ link n = Some p).
Proof.
  revert m. induction names as [|n names IH]; intros m H; cbn [id_map] in H.
  - injection H as <-. split; [intros n []|]. intros n p. split; [intros []|intros [[] _]].
  - destruct (skip_pat n) eqn:Es.
    + destruct (IH _ H) as [A B]. apply skip_pat_iff in Es. split.
      * intros k [->|Hk] Hi; [contradiction|auto].
      * intros k p. rewrite B. split; [intros (X & Y & Z); split; [now right|auto]|]. intros ([->|X] & Y & Z); [contradiction|auto].
    + apply skip_pat_false in Es. destruct (link n) as [q|] eqn:El; [|discriminate]. destruct (id_map link names) as [m'|]; [|discriminate].
      injection H as <-. destruct (IH _ eq_refl) as [A B]. split.
      * intros k [->|Hk] Hi; [eauto|auto].
      * intros k p. cbn [In]. rewrite B. split.
        -- intros [X|(X & Y & Z)]; [injection X as <- <-; auto|auto].
        -- intros ([->|X] & Y & Z); [left; congruence|auto].
Qed.
Lemma id_map_none link names : id_map link names = None -> exists n, In n names /\ ~ ignored_id n /\ link n = None.
Proof.
  induction names as [|n names IH]; intros H; cbn [id_map] in H; [discriminate|].
  destruct (skip_pat n) eqn:Es; [destruct (IH H) as (k & A & B); exists k; split; [now right|exact B]|].
  apply skip_pat_false in Es. destruct (link n) as [q|] eqn:El; [|exists n; split; [now left|auto]].
  destruct (id_map link names) as [m'|]; [discriminate|]. destruct (IH eq_refl) as (k & A & B). exists k. split; [now right|exact B].
Qed.
Lemma id_search_spec path m : let (model, serial) := id_search path m in
  (exists n, In (n, path) m /\ id_parts n model serial)
  \/ (model = [] /\ serial = [] /\ forall n, In (n, path) m -> ~ In 95 n).
Proof.
  induction m as [|[n p] m IH]; cbn [id_search].
  - right. split; [reflexivity|]. split; [reflexivity|]. intros n [].
  - assert (K : forall u v, id_search path m = (u, v) -> (path = p -> ~ In 95 n) ->
      (exists k, In (k, path) ((n, p) :: m) /\ id_parts k u v) \/ (u = [] /\ v = [] /\ forall k, In (k, path) ((n, p) :: m) -> ~ In 95 k)).
    { intros u v E Hp. rewrite E in IH. destruct IH as [(k & A & B)|(A & B & C)]; [left; exists k; split; [now right|exact B]|].
      right. split; [exact A|]. split; [exact B|]. intros k [X|X]; [injection X as -> ->; now apply Hp|now apply C]. }
    destruct (beq path p) eqn:Ep.
    + apply beq_iff in Ep. subst p. destruct (cut_last 95 n) as [[t s]|] eqn:Ec.
      * left. exists n. split; [now left|]. now apply id_parts_of.
      * apply cut_last_none in Ec. destruct (id_search path m) as [u v]. apply (K u v eq_refl). auto.
    + apply beq_false in Ep. destruct (id_search path m) as [u v]. apply (K u v eq_refl). congruence.
Qed.
