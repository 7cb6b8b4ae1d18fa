(** Lemmas for C75-C79. *)
From Verif Require Import Base M_Buffer M_Struc M_Ata M_TcgDevice M_DriveHandle M_Strings M_LinuxInfo M_LinuxFactory
  Spec_Drive P_Struc P_Discovery P_DriveHandle Prop_Drive Spec_LinuxFactory P_Strings.
From Coq Require Import Permutation.

(** ---- Init in general ---- *)
Lemma init_ata_total i raw : List.length (i_raw_serial i) = 20%nat -> exists i' r, init_ata i raw = (i', r)
  /\ List.length (i_raw_serial i') = 20%nat /\ i_path i' = i_path i /\
  ((r = Ok tt /\ (512 <= List.length raw)%nat /\ ata_facts raw i')
   \/ (exists e, r = Err e /\ (List.length raw < 512)%nat /\ i' = set_ata_raw i raw)).
Proof.
  intros Hs. destruct (le_lt_dec 512 (List.length raw)) as [Hl|Hl].
  - destruct (init_ata_ok i raw Hl Hs) as (i' & -> & F & P & _ & _ & _ & _ & _ & L). exists i', (Ok tt). auto 8.
  - destruct (init_ata_short i raw Hl) as (e & -> & _). do 2 eexists. split; [reflexivity|]. split; [exact Hs|]. split; [reflexivity|]. right. eauto.
Qed.
Lemma init_nvme_total i raw : List.length (i_raw_serial i) = 20%nat -> exists i' r, init_nvme i raw = (i', r)
  /\ List.length (i_raw_serial i') = 20%nat /\ i_path i' = i_path i /\
  ((r = Ok tt /\ 4096 <= blen raw /\ nvme_facts raw i')
   \/ (exists e, r = Err e /\ blen raw < 4096 /\ i' = set_nvme_raw i raw)).
Proof.
  intros Hs. destruct (N.le_gt_cases 4096 (blen raw)) as [Hl|Hl].
  - destruct (init_nvme_ok i raw Hl Hs) as (i' & -> & F & P & _ & _ & _ & _ & _ & L). exists i', (Ok tt). auto 8.
  - destruct (init_nvme_short i raw Hl) as (e & -> & _). do 2 eexists. split; [reflexivity|]. split; [exact Hs|]. split; [reflexivity|]. right. eauto.
Qed.
Lemma closes_not_in cs : closes cs = 0%nat -> ~ In CClose cs.
Proof.
  unfold closes. intros H Hi. assert (In CClose (filter (fun c => match c with CClose => true | _ => false end) cs)) by (apply filter_In; auto).
  destruct (filter _ cs); [contradiction|discriminate].
Qed.
Lemma init_tail_bad V p h h' p' ty : p_dh p = Some ty -> init_tail V p h = (h', (p', Panic)) ->
  malformed_discovery {| o_drv := V; o_type := ty |}.
Proof.
  intros Hd H. unfold init_tail in H.
  set (p1 := with_info p (set_tcg (p_info p) true (with_map (i_tcg (p_info p))))) in H.
  destruct (security_command V p1 h false false 1 1 (zeros 2048) 3) as (h1, (e, buf)) eqn:E.
  pose proof (C35_support_flag V p1 h h1 e buf E) as C5.
  assert (Hp : p1 = {| p_dh := Some ty; p_info := p_info p1 |}) by (subst p1; unfold with_info; rewrite Hd; reflexivity).
  destruct (tcg_discovery0 V p1 h) as (h2, (p2, r)) eqn:E2.
  assert (r = Panic). { destruct r; try discriminate; reflexivity. } subst r.
  destruct e as [x|]. { destruct C5 as (_ & _ & _ & _ & C5 & _). discriminate. }
  pose proof (C34_discovery_total V p1 h h1 buf E) as [_ C4]. cbv zeta in C4. rewrite E2 in C4.
  destruct C4 as (_ & _ & [[C _]|[(_ & Hl & Hr)|[C _]]]); [discriminate| |discriminate].
  change (i_raw_made (p_info p1)) with true in Hr. cbv iota in Hr.
  exists (p_info p1), h, h1, buf. cbn [o_drv o_type]. unfold level0_read. rewrite <- Hp. auto.
Qed.

(** texts after Init *)
Lemma init_general V ty p h h' p' r : p_dh p = Some ty -> List.length (i_raw_serial (p_info p)) = 20%nat ->
  init V p h = (h', (p', r)) ->
  p_dh p' = Some ty /\ List.length (i_raw_serial (p_info p')) = 20%nat /\ i_path (p_info p') = i_path (p_info p)
  /\ (exists cs, h' = h ++ cs /\ ~ In CClose cs)
  /\ (r = Ok tt \/ (exists e, r = Err e) \/ (r = Panic /\ malformed_discovery {| o_drv := V; o_type := ty |}))
  /\ let raw := v_identity V (h ++ [CIdentity]) in
     (ty = {| is_ata := true; is_nvme := false |} -> (512 <= List.length raw)%nat -> ata_facts raw (p_info p')) /\
     (ty = {| is_ata := false; is_nvme := true |} -> 4096 <= blen raw -> nvme_facts raw (p_info p')) /\
     (ty = {| is_ata := true; is_nvme := false |} /\ (List.length raw < 512)%nat
      \/ ty = {| is_ata := false; is_nvme := true |} /\ blen raw < 4096
      \/ ty = {| is_ata := false; is_nvme := false |} -> texts (p_info p') = texts (p_info p)).
Proof.
  intros Hd Hs H.
  destruct (live_step V p ty h HInit Hd eq_refl) as (cs & p1 & out & E & Hp1 & Hc). cbn [hstep] in E. rewrite H in E.
  injection E as -> -> Eo. split; [exact Hp1|].
  assert (Hx : exists cs0, h ++ cs = h ++ cs0 /\ ~ In CClose cs0) by (exists cs; split; [reflexivity|now apply closes_not_in]).
  cut (List.length (i_raw_serial (p_info p1)) = 20%nat /\ i_path (p_info p1) = i_path (p_info p)
    /\ (r = Ok tt \/ (exists e, r = Err e) \/ (r = Panic /\ malformed_discovery {| o_drv := V; o_type := ty |}))
    /\ let raw := v_identity V (h ++ [CIdentity]) in
     (ty = {| is_ata := true; is_nvme := false |} -> (512 <= List.length raw)%nat -> ata_facts raw (p_info p1)) /\
     (ty = {| is_ata := false; is_nvme := true |} -> 4096 <= blen raw -> nvme_facts raw (p_info p1)) /\
     (ty = {| is_ata := true; is_nvme := false |} /\ (List.length raw < 512)%nat
      \/ ty = {| is_ata := false; is_nvme := true |} /\ blen raw < 4096
      \/ ty = {| is_ata := false; is_nvme := false |} -> texts (p_info p1) = texts (p_info p))).
  { intros (A & B & C & D). auto. }
  clear Hx Eo Hc out.
  assert (T : forall i g, init_tail V (with_info p i) g = (h ++ cs, (p1, r)) -> List.length (i_raw_serial i) = 20%nat ->
      List.length (i_raw_serial (p_info p1)) = 20%nat /\ i_path (p_info p1) = i_path i /\ same_identity i (p_info p1) /\
      (r = Ok tt \/ (r = Panic /\ malformed_discovery {| o_drv := V; o_type := ty |}))).
  { intros i g Ht Hi. destruct (init_tail_frame _ _ _ _ _ _ Ht) as (_ & B & _ & D). cbn [with_info p_info] in B.
    pose proof B as (B1 & _ & _ & _ & B5 & _). split; [now rewrite B5|]. split; [exact B1|]. split; [exact B|].
    destruct D as [->| ->]; [now left|right]. split; [reflexivity|]. eapply init_tail_bad; [|exact Ht]. exact Hd. }
  unfold init in H. rewrite Hd in H. cbv zeta.
  set (raw := v_identity V (h ++ [CIdentity])) in *.
  destruct ty as [a n]. cbn [is_ata is_nvme] in H. destruct a.
  - destruct (init_ata_total (p_info p) raw Hs) as (i1 & r1 & E1 & L1 & P1 & O1). rewrite E1 in H.
    destruct O1 as [(-> & Hl & F1)|(e & -> & Hl & ->)].
    + destruct n.
      * destruct (init_nvme_total i1 (v_identity V ((h ++ [CIdentity]) ++ [CIdentity])) L1) as (i2 & r2 & E2 & L2 & P2 & O2). rewrite E2 in H.
        destruct O2 as [(-> & _ & F2)|(e & -> & _ & ->)].
        -- destruct (T _ _ H L2) as (A & B & C & D). split; [exact A|]. split; [congruence|]. split; [tauto|].
           split; [discriminate|]. split; [discriminate|]. intros [[X _]|[[X _]|X]]; discriminate X.
        -- injection H as _ <- <-. cbn [with_info p_info]. split; [exact L1|]. split; [exact P1|]. split; [eauto|].
           split; [discriminate|]. split; [discriminate|]. intros [[X _]|[[X _]|X]]; discriminate X.
      * destruct (T _ _ H L1) as (A & B & C & D). split; [exact A|]. split; [congruence|]. split; [tauto|].
        split; [intros _ _; eapply ata_facts_frame; [exact C|exact F1]|]. split; [discriminate|].
        intros [[_ X]|[[X _]|X]]; [lia|discriminate X|discriminate X].
    + injection H as _ <- <-. cbn [with_info p_info]. split; [exact Hs|]. split; [reflexivity|]. split; [eauto|].
      split; [intros _ X; lia|]. split; [discriminate|]. intros _. reflexivity.
  - destruct n.
    + cbv beta iota in H. fold raw in H.
      destruct (init_nvme_total (p_info p) raw Hs) as (i1 & r1 & E1 & L1 & P1 & O1). rewrite E1 in H.
      destruct O1 as [(-> & Hl & F1)|(e & -> & Hl & ->)].
      * destruct (T _ _ H L1) as (A & B & C & D). split; [exact A|]. split; [congruence|]. split; [tauto|].
        split; [discriminate|]. split; [intros _ _; eapply nvme_facts_frame; [exact C|exact F1]|].
        intros [[X _]|[[_ X]|X]]; [discriminate X|lia|discriminate X].
      * injection H as _ <- <-. cbn [with_info p_info]. split; [exact Hs|]. split; [reflexivity|]. split; [eauto|].
        split; [discriminate|]. split; [intros _ X; lia|]. intros _. reflexivity.
    + destruct (T _ _ H Hs) as (A & B & C & D). split; [exact A|]. split; [exact B|]. split; [tauto|].
      split; [discriminate|]. split; [discriminate|]. intros _. destruct C as (_ & C2 & C3 & C4 & _). unfold texts. now rewrite C2, C3, C4.
Qed.

(** ---- installing a driver ---- *)
Definition ihealthy (x : handle) : Prop := List.length (i_raw_serial (p_info (l_dh x))) = 20%nat.
Definition same_rest (x x' : handle) : Prop :=
  l_fd x' = l_fd x /\ l_removable x' = l_removable x /\ l_style x' = l_style x /\ l_gpt x' = l_gpt x /\ l_mbr x' = l_mbr x /\
  l_capacity x' = l_capacity x /\ l_vendor x' = l_vendor x /\ i_path (p_info (l_dh x')) = i_path (p_info (l_dh x)).
Lemma same_rest_trans a b c : same_rest a b -> same_rest b c -> same_rest a c.
Proof. unfold same_rest. intuition congruence. Qed.
Lemma same_rest_refl a : same_rest a a.
Proof. unfold same_rest. intuition. Qed.

Definition ata_type : dtype := {| is_ata := true; is_nvme := false |}.
Definition nvme_type : dtype := {| is_ata := false; is_nvme := true |}.
Definition plain_type : dtype := {| is_ata := false; is_nvme := false |}.
(** what the identification texts are after installing [o] over [x] *)
Definition text_rule (o : opened) (i i' : info) : Prop :=
  let raw := v_identity (o_drv o) [CType; CName; CIdentity] in
  (o_type o = ata_type -> (512 <= List.length raw)%nat -> ata_facts raw i') /\
  (o_type o = nvme_type -> 4096 <= blen raw -> nvme_facts raw i') /\
  (o_type o = ata_type /\ (List.length raw < 512)%nat \/ o_type o = nvme_type /\ blen raw < 4096 \/ o_type o = plain_type -> texts i' = texts i).

Lemma install_spec x o x' r : ihealthy x -> install x o = (x', r) ->
  ihealthy x' /\ same_rest x x' /\ driven_by x' o /\ text_rule o (p_info (l_dh x)) (p_info (l_dh x'))
  /\ (r = Ok tt \/ (exists e, r = Err e) \/ (r = Panic /\ malformed_discovery o)).
Proof.
  intros Hh H. unfold install in H.
  destruct (init (o_drv o) {| p_dh := Some (o_type o); p_info := p_info (l_dh x) |} [CType; CName]) as (calls, (p', r')) eqn:E.
  injection H as <- <-.
  destruct (init_general (o_drv o) (o_type o) {| p_dh := Some (o_type o); p_info := p_info (l_dh x) |} [CType; CName] calls p' r' eq_refl Hh E) as (A & B & C & (cs & -> & Hc) & D & F). cbn [p_info] in *.
  unfold ihealthy, same_rest, driven_by. cbn [l_dh l_drv l_calls l_fd l_driving l_driver_name l_removable l_style l_gpt l_mbr l_capacity l_vendor].
  split; [exact B|]. split; [auto 10|]. split; [eauto 10|]. split; [|destruct o; exact D].
  unfold text_rule. cbv zeta in F |- *. exact F.
Qed.

Lemma open_fd_closed W h fd path h' r : open_by_fd W h fd path = (h', r) ->
  let h2 := (h ++ [LBasic fd path]) ++ [LIds path] in
  let x1 := match read_basic_info path (w_basic W (h ++ [LBasic fd path])) with Ok b => with_basic (handle0 fd path) b | _ => handle0 fd path end in
  let x2 := match get_id_info path (w_ids W h2) with
            | Ok (model, serial, vendor, rev) => with_ids x1 model serial vendor rev | _ => with_ids x1 [] [] [] [] end in
  let h3 := h2 ++ [LProbe 0 fd] in let h4 := h3 ++ [LProbe 1 fd] in
  (r = Panic /\ ((h' = h3 /\ exists o, w_probe W h3 = inr o /\ malformed_discovery o)
              \/ (h' = h4 /\ exists o, w_probe W h4 = inr o /\ malformed_discovery o))) \/
  (exists x3 x, r = Ok x /\ h' = h4 /\ same_rest x2 x /\
    match w_probe W h3 with
    | inl _ => x3 = x2
    | inr o => driven_by x3 o /\ text_rule o (p_info (l_dh x2)) (p_info (l_dh x3))
    end /\
    match w_probe W h4 with
    | inl _ => x = x3
    | inr o => driven_by x o /\ text_rule o (p_info (l_dh x3)) (p_info (l_dh x))
    end).
Proof.
  intros H h2 x1 x2 h3 h4. unfold open_by_fd in H. fold h2 in H. fold x1 in H. fold x2 in H. unfold driver_count in H.
  assert (H2 : ihealthy x2).
  { assert (H1 : ihealthy x1) by (unfold x1; destruct (read_basic_info _ _); reflexivity).
    unfold x2. destruct (get_id_info _ _) as [[[[m s] v] w]| | |]; exact H1. }
  clearbody x1 x2. cbn [probe_loop] in H. fold h3 in H.
  assert (S : forall x3, ihealthy x3 -> same_rest x2 x3 ->
     match w_probe W h3 with
     | inl _ => x3 = x2
     | inr o => driven_by x3 o /\ text_rule o (p_info (l_dh x2)) (p_info (l_dh x3))
     end ->
     match w_probe W h4 with
      | inl _ => (h4, Ok x3)
      | inr o => match install x3 o with
                 | (x1, Ok _) | (x1, Err _) => (h4, Ok x1)
                 | (_, Panic) => (h4, Panic) | (_, Fuel) => (h4, Fuel) end
      end = (h', r) ->
     (r = Panic /\ ((h' = h3 /\ exists o, w_probe W h3 = inr o /\ malformed_discovery o)
              \/ (h' = h4 /\ exists o, w_probe W h4 = inr o /\ malformed_discovery o))) \/
     (exists x3 x, r = Ok x /\ h' = h4 /\ same_rest x2 x /\
      match w_probe W h3 with
      | inl _ => x3 = x2
      | inr o => driven_by x3 o /\ text_rule o (p_info (l_dh x2)) (p_info (l_dh x3))
      end /\
      match w_probe W h4 with
      | inl _ => x = x3
      | inr o => driven_by x o /\ text_rule o (p_info (l_dh x3)) (p_info (l_dh x))
      end)).
  { clear H. intros x3 H3 HS HP H. destruct (w_probe W h4) as [e|o] eqn:E4.
    - injection H as <- <-. right. exists x3, x3. auto.
    - destruct (install x3 o) as (x4, r4) eqn:E.
      destruct (install_spec _ _ _ _ H3 E) as (I1 & I2 & I3 & I4 & [->|[[e ->]|[-> Hm]]]); injection H as <- <-.
      + right. exists x3, x4. split; [reflexivity|]. split; [reflexivity|]. split; [eapply same_rest_trans; eassumption|]. auto.
      + right. exists x3, x4. split; [reflexivity|]. split; [reflexivity|]. split; [eapply same_rest_trans; eassumption|]. auto.
      + left. split; [reflexivity|]. right. eauto. }
  destruct (w_probe W h3) as [e|o] eqn:E3.
  - apply (S x2 H2 (same_rest_refl _)); auto.
  - destruct (install x2 o) as (x3, r3) eqn:E.
    destruct (install_spec _ _ _ _ H2 E) as (I1 & I2 & I3 & I4 & [->|[[e ->]|[-> Hm]]]); [apply (S x3); auto|apply (S x3); auto|].
    injection H as <- <-. left. split; [reflexivity|]. left. eauto.
Qed.

(** ---- enumeration ---- *)
Lemma is_block_iff m : is_block m = true <-> block_mode m.
Proof.
  unfold is_block, block_mode. rewrite N.eqb_eq. split.
  - intros H. assert (B : forall n, N.testbit (N.land m 0xf000) n = N.testbit 0x6000 n) by (intros n; now rewrite H).
    pose proof (B 12) as B12. pose proof (B 13) as B13. pose proof (B 14) as B14. pose proof (B 15) as B15.
    rewrite N.land_spec in B12, B13, B14, B15.
    change (N.testbit 0xf000 12) with true in B12. change (N.testbit 0xf000 13) with true in B13.
    change (N.testbit 0xf000 14) with true in B14. change (N.testbit 0xf000 15) with true in B15.
    rewrite Bool.andb_true_r in B12, B13, B14, B15. auto.
  - intros (A & B & C & D). apply N.bits_inj_iff. intros n. rewrite N.land_spec.
    destruct (N.lt_ge_cases n 16) as [Hn|Hn].
    + assert (K : n = 12 \/ n = 13 \/ n = 14 \/ n = 15 \/ (N.testbit 0xf000 n = false /\ N.testbit 0x6000 n = false)).
      { assert (J : n = 0 \/ n = 1 \/ n = 2 \/ n = 3 \/ n = 4 \/ n = 5 \/ n = 6 \/ n = 7 \/ n = 8 \/ n = 9 \/ n = 10 \/ n = 11 \/ n = 12 \/ n = 13 \/ n = 14 \/ n = 15) by lia.
        clear A B C D. repeat (destruct J as [->|J]); try (subst n); auto 10. }
      destruct K as [->|[->|[->|[->|[K1 K2]]]]]; [rewrite A|rewrite B|rewrite C|rewrite D|rewrite K1, K2, Bool.andb_false_r]; reflexivity.
    + rewrite (N.bits_above_log2 0xf000 n) by (change (N.log2 0xf000) with 15; lia).
      rewrite (N.bits_above_log2 0x6000 n) by (change (N.log2 0x6000) with 14; lia). now rewrite Bool.andb_false_r.
Qed.

Definition pf (x : handle) : bytes * N := (i_path (p_info (l_dh x)), l_fd x).
Definition closing (xs : list handle) : lhist := map (fun x => LClose (l_fd x)) (filter has_driver (rev xs)).
Lemma fold_close xs : forall h, fold_left (fun k x => fst (close_handle k x)) xs h
  = h ++ map (fun x => LClose (l_fd x)) (filter has_driver xs).
Proof.
  induction xs as [|x xs IH]; intros h; cbn [fold_left filter map]; [now rewrite app_nil_r|].
  rewrite IH. unfold close_handle, has_driver at 2. destruct (p_dh (l_dh x)); cbn [fst map]; [now rewrite <- app_assoc|reflexivity].
Qed.

(** every stat in the trace is of an admissible name, and is followed by an open exactly when the answer asks for it *)
Definition stat_at (W : world) (names : list bytes) (h : lhist) (p : bytes) (t : lhist) : Prop :=
  exists name, In name names /\ p = dev_path name /\ ~ occurs (str "loop") name /\
    ((exists m, w_mode W (h ++ [LStat p]) = Some m /\ block_mode m) /\ ~ occurs (str "sr") name <-> exists t', t = LOpen p :: t').
Fixpoint stat_rule (W : world) (names : list bytes) (h : lhist) (es : lhist) : Prop :=
  match es with
  | [] => True
  | e :: t => match e with LStat p => stat_at W names h p t | _ => True end /\ stat_rule W names (h ++ [e]) t
  end.
(** every open directly follows a stat of the same path *)
Fixpoint open_rule (last : option lev) (es : lhist) : Prop :=
  match es with
  | [] => True
  | e :: t => match e with LOpen p => last = Some (LStat p) | _ => True end /\ open_rule (Some e) t
  end.
Definition starts_open (es : lhist) : Prop := exists p t, es = LOpen p :: t.

Lemma stat_rule_mono W n1 n2 : incl n1 n2 -> forall es h, stat_rule W n1 h es -> stat_rule W n2 h es.
Proof.
  intros Hi. induction es as [|e es IH]; intros h; [auto|]. cbn [stat_rule]. intros [A B]. split; [|auto].
  destruct e; auto. destruct A as (nm & A1 & A2). exists nm. split; [now apply Hi|exact A2].
Qed.
Lemma open_rule_last l1 l2 es : ~ starts_open es -> open_rule l1 es -> open_rule l2 es.
Proof. destruct es as [|e es]; [auto|]. cbn [open_rule]. intros Hn [A B]. split; [|exact B]. destruct e; auto. exfalso. apply Hn. do 2 eexists. reflexivity. Qed.
Definition quiet (e : lev) : bool := match e with LOpen _ | LStat _ | LClose _ => false | _ => true end.
Lemma quiet_app W names q : forallb quiet q = true -> forall h es, ~ starts_open es ->
  (stat_rule W names (h ++ q) es -> stat_rule W names h (q ++ es))
  /\ (forall l, open_rule None es -> open_rule l (q ++ es))
  /\ opened_in W h (q ++ es) = opened_in W (h ++ q) es /\ statted (q ++ es) = statted es.
Proof.
  induction q as [|e q IH]; intros Hq h es Hn; cbn [app].
  - rewrite app_nil_r. split; [auto|]. split; [|auto]. intros l. now apply open_rule_last.
  - cbn [forallb] in Hq. apply andb_prop in Hq as [He Hq]. destruct (IH Hq (h ++ [e]) es Hn) as (A & B & C & D).
    rewrite <- app_assoc in A, C. cbn [app] in A, C. cbn [stat_rule open_rule opened_in].
    assert (St : statted (e :: q ++ es) = statted es) by (destruct e; try discriminate He; cbn [statted flat_map app]; exact D).
    destruct e; try discriminate He; (split; [intros X; split; [exact I|now apply A]|]; split; [intros l X; split; [exact I|now apply B]|]; split; [exact C|exact St]).
Qed.
Lemma probing_quiet n fd p : forallb quiet (firstn n (probing fd p)) = true.
Proof. destruct n as [|[|[|[|n]]]]; try reflexivity. cbn [firstn probing]. destruct n; reflexivity. Qed.
