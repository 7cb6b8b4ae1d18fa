From Verif Require Import Base M_Concurrent Spec_Concurrent.
From Coq Require Import Lia.

Definition op_of (x : tstate) : option call_op :=
  match x with
  | TIdle => None
  | TOpen o _ | TProbe o _ _ | TCheck o _ | TCall o _ | TAssert o _ _ | TDrv o _ _ _ | TShut o _ _ | TClear o _ | TRet o => Some o
  end.
Definition wf_t (n : nat) (x : tstate) : Prop :=
  match x with
  | TIdle => True
  | TRet o => forall h, op_handle o = Some h -> (h < n)%nat
  | TOpen o d => o = OpOpen d
  | TProbe o d _ => o = OpOpen d
  | TCheck o h => (o = OpClose h \/ o = OpSecurity h) /\ (h < n)%nat
  | TCall o h => (o = OpClose h \/ o = OpSecurity h \/ o = OpName h) /\ (h < n)%nat
  | TAssert o h _ => (o = OpSecurity h \/ o = OpCommand h) /\ (h < n)%nat
  | TDrv o h _ _ => (o = OpSecurity h \/ o = OpCommand h) /\ (h < n)%nat
  | TShut o h _ | TClear o h => o = OpClose h /\ (h < n)%nat
  end.
Lemma wf_t_mono n m x : (n <= m)%nat -> wf_t n x -> wf_t m x.
Proof. intros L. destruct x; cbn; intuition (eauto using Nat.lt_le_trans). Qed.
Lemma upd_same {A} (f : nat -> A) k v : upd f k v k = v. Proof. unfold upd. now rewrite Nat.eqb_refl. Qed.
Lemma upd_other {A} (f : nat -> A) k v x : x <> k -> upd f k v x = f x. Proof. unfold upd. intros H. destruct (Nat.eqb_spec x k); congruence. Qed.
Lemma updN_same {A} (f : N -> A) k v : updN f k v k = v. Proof. unfold updN. now rewrite N.eqb_refl. Qed.
Lemma updN_other {A} (f : N -> A) k v x : x <> k -> updN f k v x = f x. Proof. unfold updN. intros H. destruct (N.eqb_spec x k); congruence. Qed.

(** Being inside a call, step by step *)
Lemma inside_nil t o : ~ inside [] t o.
Proof. intros (a & b & E & _). destruct a; discriminate. Qed.
Lemma snoc_split {A} (l : list A) x a y b : l ++ [x] = a ++ y :: b -> (b = [] /\ l = a /\ x = y) \/ exists b', b = b' ++ [x] /\ l = a ++ y :: b'.
Proof.
  intros H. destruct b as [|z b] using rev_ind.
  - left. apply app_inj_tail in H as [-> ->]. auto.
  - right. exists b. rewrite app_comm_cons, app_assoc in H. apply app_inj_tail in H as [-> ->]. auto.
Qed.
Lemma inside_snoc tr l t o : inside (tr ++ [l]) t o <-> l = VBegin t o \/ (l <> VEnd t o /\ inside tr t o).
Proof.
  split.
  - intros (a & b & E & F). apply snoc_split in E as [(-> & -> & ->)|(b' & -> & ->)]; [now left|]. right.
    rewrite in_app_iff in F. split; [intros ->; apply F; right; now left|]. exists a, b'. auto.
  - intros [->|(F & a & b & -> & G)]; [exists tr, []; auto|]. exists a, (b ++ [l]). rewrite <- app_assoc. split; [reflexivity|].
    rewrite in_app_iff. intros [H|[H|[]]]; auto.
Qed.

(** How a step changes the goroutines *)
Lemma step_other s t l s2 x : tstep s t l s2 -> x <> t -> c_thr s2 x = c_thr s x.
Proof. intros S H. destruct S; cbn [goto with_cell with_table add_handle die c_thr]; try reflexivity; now apply upd_other. Qed.
Lemma step_who s t l s2 : tstep s t l s2 -> who l = t.
Proof. destruct 1; reflexivity. Qed.
Lemma start_op o : op_of (start_of o) = Some o. Proof. destruct o; reflexivity. Qed.

(** ... of the goroutine that makes it *)
Lemma step_op s t l s2 : tstep s t l s2 ->
  (exists o, l = VBegin t o /\ c_thr s t = TIdle /\ op_of (c_thr s2 t) = Some o)
  \/ (exists o, l = VEnd t o /\ op_of (c_thr s t) = Some o /\ c_thr s2 t = TIdle)
  \/ ((forall x o, l <> VBegin x o) /\ (forall x o, l <> VEnd x o) /\ op_of (c_thr s2 t) = op_of (c_thr s t)).
Proof.
  destruct 1; cbn [goto with_cell with_table add_handle die c_thr]; rewrite ?upd_same.
  - left. exists o. rewrite start_op. auto.
  - right. left. exists o. rewrite H. auto.
  - right. right. rewrite H. repeat split; discriminate.
  - right. right. rewrite H. repeat split; discriminate.
  - right. right. repeat split; discriminate.
  - right. right. rewrite H. repeat split; discriminate.
  - right. right. rewrite H. repeat split; discriminate.
  - right. right. rewrite H. repeat split; discriminate.
  - right. right. rewrite H. repeat split; discriminate.
  - right. right. repeat split; discriminate.
  - right. right. rewrite H. destruct o; repeat split; discriminate.
  - right. right. rewrite H. destruct n; repeat split; discriminate.
  - right. right. rewrite H. repeat split; discriminate.
  - right. right. repeat split; discriminate.
  - right. right. rewrite H. repeat split; discriminate.
  - right. right. rewrite H. repeat split; discriminate.
  - right. right. rewrite H. repeat split; discriminate.
  - right. right. rewrite H. repeat split; discriminate.
Qed.

Definition inv (tr : list label) (s : cstate) : Prop :=
  (forall t, wf_t (c_next s) (c_thr s t)) /\ (forall t o, inside tr t o <-> op_of (c_thr s t) = Some o).
Lemma inv_run s0 tr s : fresh s0 -> crun s0 tr s -> inv tr s.
Proof.
  intros (F1 & F2 & F3) R. induction R as [s|s tr s1 t l s2 R IH D St].
  - split; intros t; rewrite F3; [exact I|]. intros o. split; [intros H; destruct (inside_nil _ _ H)|discriminate].
  - specialize (IH F1 F2 F3) as [W B]. assert (L : (c_next s1 <= c_next s2)%nat) by (destruct St; cbn; lia). split.
    + intros x. destruct (Nat.eq_dec x t) as [->|Hx]; [|rewrite (step_other _ _ _ _ _ St Hx); eapply wf_t_mono; [exact L|apply W]].
      pose proof (W t) as Wt.
      destruct St; cbn [goto with_cell with_table add_handle die c_thr c_next]; rewrite ?upd_same;
        repeat match goal with E : c_thr _ _ = _ |- _ => rewrite E in Wt; cbn in Wt end; try exact I.
      all: try match goal with |- context [match ?n with O => _ | S _ => _ end] => destruct n end.
      all: repeat match goal with H : _ /\ _ |- _ => destruct H | H : _ \/ _ |- _ => destruct H end; subst; cbn in *;
        try match goal with E : c_thr _ _ = _ |- context [c_thr _ _] => rewrite E; cbn end;
        try (intros k E; injection E as <-; assumption); try (intros k E; discriminate E); try tauto; auto.
      destruct o; cbn in *; auto.
    + intros x o. rewrite inside_snoc, B. destruct (Nat.eq_dec x t) as [->|Hx].
      * destruct (step_op _ _ _ _ St) as [(o1 & -> & E1 & E2)|[(o1 & -> & E1 & E2)|(E1 & E2 & E3)]].
        -- rewrite E1, E2. cbn. split; [intros [X|[_ X]]; [now injection X as ->|discriminate]|intros X; injection X as ->; now left].
        -- rewrite E1, E2. cbn. split; [intros [X|[X Y]]; [discriminate|injection Y as ->; congruence]|discriminate].
        -- rewrite E3. split; [intros [X|[_ X]]; [destruct (E1 _ _ X)|exact X]|intros X; right; auto].
      * rewrite (step_other _ _ _ _ _ St Hx). pose proof (step_who _ _ _ _ St) as Wh. split.
        -- intros [->|[_ H]]; [cbn in Wh; congruence|exact H].
        -- intros H. right. split; [|exact H]. intros ->. cbn in Wh. congruence.
Qed.

(** How a step changes the cells: a new handle, p.Dh = nil, or nothing *)
Lemma step_cell s t l s2 : tstep s t l s2 ->
  (exists o dev fd, l = VMade t dev fd (c_next s) /\ c_thr s t = TProbe o dev fd /\ c_thr s2 t = TRet o /\ c_table s2 = c_table s
     /\ c_next s2 = S (c_next s) /\ c_cell s2 = upd (c_cell s) (c_next s) (Some fd))
  \/ (exists o h, l = VRead t o /\ c_thr s t = TClear o h /\ c_thr s2 t = TRet o /\ c_table s2 = c_table s /\ c_next s2 = c_next s /\ c_cell s2 = upd (c_cell s) h None)
  \/ ((forall x dev fd h, l <> VMade x dev fd h) /\ (forall o h, c_thr s t <> TClear o h) /\ c_next s2 = c_next s /\ c_cell s2 = c_cell s).
Proof.
  destruct 1; cbn [goto with_cell with_table add_handle die c_thr c_cell c_next c_table]; rewrite ?upd_same.
  6: { left. exists o, dev, fd. auto 10. }
  17: { right. left. exists o, h. auto 10. }
  all: right; right; repeat split; try discriminate; rewrite H; discriminate.
Qed.

Definition made (tr : list label) (h : nat) (dev fd : N) : Prop := exists t, In (VMade t dev fd h) tr.
Lemma made_snoc tr l h d f : made (tr ++ [l]) h d f <-> made tr h d f \/ exists t, l = VMade t d f h.
Proof.
  unfold made. split.
  - intros (t & H). apply in_app_iff in H as [H|[H|[]]]; eauto.
  - intros [(t & H)|(t & ->)]; exists t; apply in_app_iff; cbn; auto.
Qed.
Definition overlap (tr : list label) (t : nat) (o : call_op) (h : nat) : Prop :=
  exists p q t', tr = p ++ q /\ t' <> t /\ inside p t o /\ inside p t' (OpClose h).
Lemma overlap_snoc tr l t o h : overlap tr t o h -> overlap (tr ++ [l]) t o h.
Proof. intros (p & q & t' & -> & H). exists p, (q ++ [l]), t'. rewrite app_assoc. auto. Qed.

Definition inv2 (tr : list label) (s : cstate) : Prop :=
  (forall h d f, made tr h d f -> (h < c_next s)%nat)
  /\ (forall h d f d' f', made tr h d f -> made tr h d' f' -> d = d' /\ f = f')
  /\ (forall h, (h < c_next s)%nat -> exists d f, made tr h d f)
  /\ (forall h fd, (h < c_next s)%nat -> c_cell s h = Some fd -> exists d, made tr h d fd)
  /\ (forall t o h fd, c_thr s t = TShut o h fd \/ (exists n, c_thr s t = TDrv o h fd n) -> exists d, made tr h d fd)
  /\ (forall t h, c_thr s t = TRet (OpClose h) -> c_cell s h = None)
  /\ (forall t h, In (VEnd t (OpClose h)) tr -> (h < c_next s)%nat /\ c_cell s h = None)
  /\ (forall h, (h < c_next s)%nat -> c_cell s h = None -> exists t, In (VBegin t (OpClose h)) tr)
  /\ (forall t o h, c_thr s t = TCall o h -> o <> OpName h -> c_cell s h = None -> overlap tr t o h).
Lemma inv2_run s0 tr s : fresh s0 -> crun s0 tr s -> inv2 tr s.
Proof.
  intros F R. pose proof F as (F1 & F2 & F3). induction R as [s|s tr s1 t l s2 R IH D St].
  - unfold inv2, made. cbn. repeat apply conj; try (intros; exfalso; firstorder; fail); intros; try lia.
    + rewrite F3 in H. destruct H as [H|(n & H)]; discriminate.
    + rewrite F3 in H. discriminate.
    + rewrite F3 in H. discriminate.
  - specialize (IH F F1 F2 F3). destruct (inv_run _ _ _ F R) as [W B].
    destruct IH as (M1 & M2 & M3 & M4 & M5 & M6 & M7 & M8 & M9).
    pose proof (step_cell _ _ _ _ St) as C.
    assert (L : (c_next s1 <= c_next s2)%nat) by (destruct C as [(o & dev & fd & _ & _ & _ & _ & -> & _)|[(o & h & _ & _ & _ & _ & -> & _)|(_ & _ & -> & _)]]; lia).
    assert (Keep : forall h, (h < c_next s1)%nat -> c_cell s1 h = None -> c_cell s2 h = None).
    { intros h Lt E. destruct C as [(o & dev & fd & _ & _ & _ & _ & _ & ->)|[(o & k & _ & _ & _ & _ & _ & ->)|(_ & _ & _ & ->)]]; [rewrite upd_other by lia; exact E| |exact E].
      destruct (Nat.eq_dec h k) as [->|Hn]; [apply upd_same|rewrite upd_other by exact Hn; exact E]. }
    assert (Mk : forall h d f, made tr h d f -> made (tr ++ [l]) h d f) by (intros; apply made_snoc; now left).
    repeat apply conj.
    + intros h d f H. apply made_snoc in H as [H|(x & ->)]; [apply M1 in H; lia|].
      destruct C as [(o & dev & fd & E & _ & _ & _ & -> & _)|[(o & k & E & _)|(E & _)]]; [injection E as _ _ _ ->; lia|discriminate|destruct (E _ _ _ _ eq_refl)].
    + intros h d f d' f' H H'. apply made_snoc in H, H'. destruct H as [H|(x & ->)], H' as [H'|(x' & E')].
      * eauto.
      * exfalso. apply M1 in H. rewrite E' in C. destruct C as [(o & dev & fd & E & _)|[(o & k & E & _)|(E & _)]]; [injection E as _ _ _ ->; lia|discriminate|destruct (E _ _ _ _ eq_refl)].
      * exfalso. apply M1 in H'. destruct C as [(o & dev & fd & E & _)|[(o & k & E & _)|(E & _)]]; [injection E as _ _ _ ->; lia|discriminate|destruct (E _ _ _ _ eq_refl)].
      * injection E' as _ -> ->. auto.
    + intros h Lt. destruct C as [(o & dev & fd & E & _ & _ & _ & N1 & _)|[(o & k & E & _ & _ & _ & N1 & _)|(E & _ & N1 & _)]]; rewrite N1 in Lt.
      * destruct (Nat.eq_dec h (c_next s1)) as [->|Hn]; [exists dev, fd; apply made_snoc; right; exists t; exact E|].
        destruct (M3 h ltac:(lia)) as (d & f & H). exists d, f. auto.
      * destruct (M3 h Lt) as (d & f & H). exists d, f. auto.
      * destruct (M3 h Lt) as (d & f & H). exists d, f. auto.
    + intros h fd Lt Ec. destruct C as [(o & dev & fd1 & E & _ & _ & _ & N1 & N2)|[(o & k & E & _ & _ & _ & N1 & N2)|(E & _ & N1 & N2)]]; rewrite N1 in Lt; rewrite N2 in Ec.
      * destruct (Nat.eq_dec h (c_next s1)) as [->|Hn].
        -- rewrite upd_same in Ec. injection Ec as <-. exists dev. apply made_snoc. right. exists t. exact E.
        -- rewrite upd_other in Ec by exact Hn. destruct (M4 h fd ltac:(lia) Ec) as (d & H). eauto.
      * destruct (Nat.eq_dec h k) as [->|Hn]; [rewrite upd_same in Ec; discriminate|]. rewrite upd_other in Ec by exact Hn. destruct (M4 h fd Lt Ec) as (d & H). eauto.
      * destruct (M4 h fd Lt Ec) as (d & H). eauto.
    + intros x o h fd H. destruct (Nat.eq_dec x t) as [->|Hx]; [|rewrite (step_other _ _ _ _ _ St Hx) in H; destruct (M5 x o h fd H) as (d & Hd); eauto].
      pose proof (W t) as Wt.
      assert (K : (exists d, made tr h d fd) -> exists d, made (tr ++ [l]) h d fd) by (intros (d & Hd); eauto).
      destruct St; cbn [goto with_cell with_table add_handle die c_thr] in H; rewrite ?upd_same in H;
        try (destruct H as [H|(m & H)]; discriminate H);
        try (apply K; apply (M5 t o h fd); exact H).
      all: try (apply K; match goal with E : c_thr _ _ = _ |- _ => rewrite E in Wt end; cbn in Wt;
           destruct H as [H|(m & H)]; try discriminate H; injection H as <- <- <-; apply M4; tauto || assumption).
      * destruct o0; destruct H as [H|(m & H)]; discriminate H.
      * apply K. rewrite H0 in Wt. cbn in Wt. destruct Wt as [Wo Wl]. destruct o0; destruct H as [H|(m & H)]; try discriminate H; injection H as <- <- <-; apply M4; assumption.
      * destruct n; destruct H as [H|(m & H)]; discriminate H.
    + intros x h H. destruct (Nat.eq_dec x t) as [->|Hx].
      2: { rewrite (step_other _ _ _ _ _ St Hx) in H. pose proof (W x) as Wx. rewrite H in Wx. cbn in Wx. apply Keep; [apply Wx; reflexivity|eapply M6; exact H]. }
      pose proof (W t) as Wt.
      destruct St; cbn [goto with_cell with_table add_handle die c_thr c_cell] in *; rewrite ?upd_same in H;
        match goal with E : c_thr s1 t = ?v |- _ => lazymatch v with TRet (OpClose h) => fail | _ => rewrite E in Wt; cbn in Wt; try (rewrite E in H) end end; try discriminate H.
      * destruct o; discriminate H.
      * injection H as ->. discriminate Wt.
      * injection H as ->. discriminate Wt.
      * injection H as ->. discriminate Wt.
      * injection H as ->. destruct Wt as [[Wt|Wt] _]; [injection Wt as <-; assumption|discriminate Wt].
      * destruct o; try discriminate H; injection H as H; discriminate H.
      * destruct n; [injection H as ->|discriminate H]. destruct Wt as [[Wt|Wt] _]; discriminate Wt.
      * injection H as ->. destruct Wt as [[Wt|Wt] _]; discriminate Wt.
      * injection H as ->. destruct Wt as [Wt _]. injection Wt as <-. apply upd_same.
    + intros x h H. apply in_app_iff in H as [H|[H|[]]].
      * destruct (M7 x h H) as [Lt E]. split; [lia|auto].
      * subst l. pose proof (step_who _ _ _ _ St) as Wh. cbn in Wh. subst x. destruct (step_op _ _ _ _ St) as [(o1 & E & _)|[(o1 & E & E1 & E2)|(_ & E & _)]]; [discriminate| |destruct (E _ _ eq_refl)].
        injection E as <-. inversion St; subst. pose proof (W t) as Wt. rewrite H0 in Wt. cbn in Wt. cbn [goto c_next c_cell]. split; [apply Wt; reflexivity|eapply M6; exact H0].
    + intros h Lt Ec. assert (Bk : (exists x, In (VBegin x (OpClose h)) tr) -> exists x, In (VBegin x (OpClose h)) (tr ++ [l])) by (intros (x & Hx); exists x; apply in_app_iff; auto).
      destruct C as [(o & dev & fd1 & E & _ & _ & _ & N1 & N2)|[(o & k & E & E1 & _ & _ & N1 & N2)|(E & _ & N1 & N2)]]; rewrite N1 in Lt; rewrite N2 in Ec.
      * destruct (Nat.eq_dec h (c_next s1)) as [->|Hn]; [rewrite upd_same in Ec; discriminate|]. rewrite upd_other in Ec by exact Hn. apply Bk, M8; [lia|exact Ec].
      * destruct (Nat.eq_dec h k) as [->|Hn].
        -- pose proof (W t) as Wt. rewrite E1 in Wt. cbn in Wt. destruct Wt as [-> _].
           assert (I : inside tr t (OpClose k)) by (apply B; rewrite E1; reflexivity). destruct I as (a & b & -> & _). apply Bk. exists t. apply in_app_iff. right. now left.
        -- rewrite upd_other in Ec by exact Hn. apply Bk, M8; [exact Lt|exact Ec].
      * apply Bk, M8; [exact Lt|exact Ec].
    + intros x o h H Ho Ec. pose proof (W x) as Wx. destruct (Nat.eq_dec x t) as [->|Hx].
      * destruct St; cbn [goto with_cell with_table add_handle die c_thr c_cell] in *; rewrite ?upd_same in H; try discriminate H.
        -- destruct o0; try discriminate H. injection H as <- <-. congruence.
        -- rewrite H0 in H. discriminate H.
        -- injection H as <- <-. congruence.
        -- apply overlap_snoc, M9; assumption.
        -- destruct o0; discriminate H.
        -- destruct n; discriminate H.
        -- rewrite H0 in H. discriminate H.
      * rewrite (step_other _ _ _ _ _ St Hx) in H. destruct (c_cell s1 h) as [fd|] eqn:E0; [|apply overlap_snoc, M9; assumption].
        destruct C as [(o1 & dev & fd1 & E & _ & _ & _ & N1 & N2)|[(o1 & k & E & E1 & _ & _ & N1 & N2)|(E & _ & N1 & N2)]]; rewrite N2 in Ec.
        -- destruct (Nat.eq_dec h (c_next s1)) as [->|Hn]; [rewrite upd_same in Ec|rewrite upd_other in Ec by exact Hn]; congruence.
        -- destruct (Nat.eq_dec h k) as [->|Hn]; [|rewrite upd_other in Ec by exact Hn; congruence].
           pose proof (W t) as Wt. rewrite E1 in Wt. cbn in Wt. destruct Wt as [-> _].
           exists tr, [l], t. split; [reflexivity|]. split; [auto|]. split; apply B; [rewrite H|rewrite E1]; reflexivity.
        -- congruence.
Qed.

(** ---- under the discipline ---- *)
Definition excl (s : cstate) : Prop :=
  forall t t' h o, t <> t' -> op_of (c_thr s t) = Some (OpClose h) -> op_of (c_thr s t') = Some o -> op_handle o = Some h -> False.
Lemma orderly_excl s0 tr s : fresh s0 -> crun s0 tr s -> orderly tr -> excl s.
Proof.
  intros F R O t t' h o Hn H1 H2 H3. destruct (inv_run _ _ _ F R) as [_ B].
  refine (O tr [] t t' h o _ Hn _ _ H3); [now rewrite app_nil_r|apply B; exact H1|apply B; exact H2].
Qed.
Lemma orderly_prefix tr l : orderly (tr ++ l) -> orderly tr.
Proof. intros O p q t t' h o -> . apply (O p (q ++ l)). now rewrite app_assoc. Qed.

(** Who owns a descriptor: the goroutine opening a drive, or a handle whose descriptor has not been closed *)
Definition owns_t (s : cstate) (t : nat) (fd dev : N) : Prop := exists o, c_thr s t = TProbe o dev fd.
Definition owns_h (tr : list label) (s : cstate) (h : nat) (fd dev : N) : Prop :=
  (h < c_next s)%nat /\ c_cell s h = Some fd /\ (forall t o, c_thr s t <> TClear o h) /\ made tr h dev fd.
Definition inv3 (tr : list label) (s : cstate) : Prop :=
  (forall t fd dev, owns_t s t fd dev -> c_table s fd = Some dev)
  /\ (forall h fd dev, owns_h tr s h fd dev -> c_table s fd = Some dev)
  /\ (forall t t' fd d d', owns_t s t fd d -> owns_t s t' fd d' -> t = t')
  /\ (forall h h' fd d d', owns_h tr s h fd d -> owns_h tr s h' fd d' -> h = h')
  /\ (forall t h fd d d', owns_t s t fd d -> owns_h tr s h fd d' -> False)
  /\ (forall t o h fd, c_thr s t = TShut o h fd \/ (exists n, c_thr s t = TDrv o h fd n) -> c_cell s h = Some fd)
  /\ (forall t o h, c_thr s t = TCall o h -> o <> OpName h -> c_cell s h <> None).

Lemma owner_of tr s t o h fd : inv tr s -> inv2 tr s -> inv3 tr s -> excl s ->
  c_thr s t = TShut o h fd \/ (exists n, c_thr s t = TDrv o h fd n) -> exists dev, owns_h tr s h fd dev.
Proof.
  intros (W & B) (_ & _ & _ & M4 & _) (_ & _ & _ & _ & _ & O6 & _) X H.
  pose proof (W t) as Wt. assert (Lt : (h < c_next s)%nat) by (destruct H as [H|(n & H)]; rewrite H in Wt; cbn in Wt; tauto).
  pose proof (O6 t o h fd H) as Ec. destruct (M4 h fd Lt Ec) as (dev & Hm). exists dev. repeat split; auto.
  intros t' o' Hc. pose proof (W t') as Wt'. rewrite Hc in Wt'. cbn in Wt'. destruct Wt' as [-> _].
  assert (Hn : t' <> t) by (intros ->; destruct H as [H|(n & H)]; congruence).
  destruct H as [H|(n & H)]; rewrite H in Wt; cbn in Wt.
  - destruct Wt as [-> _]. eapply (X t' t h (OpClose h) Hn); [rewrite Hc|rewrite H|]; reflexivity.
  - destruct Wt as [[->| ->] _]; [eapply (X t' t h (OpSecurity h) Hn)|eapply (X t' t h (OpCommand h) Hn)]; try (rewrite Hc || rewrite H); reflexivity.
Qed.
Lemma step_table s t l s2 : tstep s t l s2 ->
  (c_table s2 = c_table s /\ (forall o fd, l <> VOpen t o fd))
  \/ (exists o d fd, l = VOpen t o fd /\ c_table s fd = None /\ c_table s2 = updN (c_table s) fd (Some d) /\ c_thr s2 t = TProbe o d fd)
  \/ (exists o fd, l = VClose t o fd (c_table s fd) /\ c_table s2 = updN (c_table s) fd None
        /\ ((exists d, c_thr s t = TProbe o d fd /\ c_thr s2 t = TRet o) \/ (exists h, c_thr s t = TShut o h fd /\ c_thr s2 t = TClear o h))).
Proof.
  destruct 1; cbn [goto with_cell with_table add_handle die c_thr c_cell c_next c_table]; rewrite ?upd_same.
  3: { right. left. exists o, dev, fd. auto. }
  6: { right. right. exists o, fd. split; [reflexivity|]. split; [reflexivity|]. left. exists dev. auto. }
  15: { right. right. exists o, fd. split; [reflexivity|]. split; [reflexivity|]. right. exists h. auto. }
  all: left; split; [reflexivity|discriminate].
Qed.
Lemma step_owns_t s t l s2 x fd d : tstep s t l s2 -> owns_t s2 x fd d -> owns_t s x fd d \/ (x = t /\ exists o, l = VOpen t o fd /\ c_table s fd = None /\ c_table s2 fd = Some d).
Proof.
  intros St (o & H). destruct (Nat.eq_dec x t) as [->|Hx]; [|left; exists o; rewrite <- (step_other _ _ _ _ _ St Hx); exact H].
  destruct St; cbn [goto with_cell with_table add_handle die c_thr c_table] in *; rewrite ?upd_same in H; try discriminate H;
    try (left; exists o; exact H).
  - destruct o0; discriminate H.
  - injection H as <- <- <-. right. split; [reflexivity|]. exists o0. rewrite updN_same. auto.
  - destruct o0; discriminate H.
  - destruct n; discriminate H.
Qed.
Lemma step_owns_h tr s t l s2 h fd d : inv2 tr s -> tstep s t l s2 -> owns_h (tr ++ [l]) s2 h fd d ->
  owns_h tr s h fd d \/ (l = VMade t d fd h /\ owns_t s t fd d /\ h = c_next s /\ exists o, c_thr s2 t = TRet o).
Proof.
  intros I2 St (Lt & Ec & Nc & Mk). pose proof I2 as (M1 & _).
  destruct (step_cell _ _ _ _ St) as [(o & dev & fd1 & -> & E1 & E2 & _ & N1 & N2)|[(o & k & -> & E1 & E2 & _ & N1 & N2)|(E & E1 & N1 & N2)]]; rewrite N1 in Lt; rewrite N2 in Ec.
  - destruct (Nat.eq_dec h (c_next s)) as [->|Hn].
    + rewrite upd_same in Ec. injection Ec as ->. apply made_snoc in Mk as [Mk|(x & Mk)]; [apply M1 in Mk; lia|]. injection Mk as _ ->.
      right. split; [reflexivity|]. split; [exists o; exact E1|]. split; [reflexivity|]. exists o. exact E2.
    + left. rewrite upd_other in Ec by exact Hn. apply made_snoc in Mk as [Mk|(x & Mk)]; [|injection Mk as _ _ _ <-; contradiction].
      split; [lia|]. split; [exact Ec|]. split; [|exact Mk]. intros x o' Hc. destruct (Nat.eq_dec x t) as [->|Hx]; [congruence|]. apply (Nc x o'). now rewrite (step_other _ _ _ _ _ St Hx).
  - left. apply made_snoc in Mk as [Mk|(x & Mk)]; [|discriminate]. destruct (Nat.eq_dec h k) as [->|Hn]; [rewrite upd_same in Ec; discriminate|]. rewrite upd_other in Ec by exact Hn.
    split; [exact Lt|]. split; [exact Ec|]. split; [|exact Mk]. intros x o' Hc. destruct (Nat.eq_dec x t) as [->|Hx]; [congruence|]. apply (Nc x o'). now rewrite (step_other _ _ _ _ _ St Hx).
  - left. apply made_snoc in Mk as [Mk|(x & Mk)]; [|destruct (E _ _ _ _ Mk)].
    split; [exact Lt|]. split; [exact Ec|]. split; [|exact Mk]. intros x o' Hc. destruct (Nat.eq_dec x t) as [->|Hx]; [destruct (E1 _ _ Hc)|]. apply (Nc x o'). now rewrite (step_other _ _ _ _ _ St Hx).
Qed.

Lemma inv3_run s0 tr s : fresh s0 -> crun s0 tr s -> orderly tr -> inv3 tr s.
Proof.
  intros F R. pose proof F as (F1 & F2 & F3). induction R as [s|s tr s1 t l s2 R IH D St]; intros O.
  - unfold inv3, owns_t, owns_h. repeat apply conj; intros; repeat match goal with H : exists _, _ |- _ => destruct H | H : _ /\ _ |- _ => destruct H | H : _ \/ _ |- _ => destruct H end;
      try lia; rewrite F3 in *; discriminate.
  - apply orderly_prefix in O. specialize (IH F F1 F2 F3 O). pose proof (inv_run _ _ _ F R) as I1. pose proof (inv2_run _ _ _ F R) as I2. pose proof (orderly_excl _ _ _ F R O) as X.
    pose proof IH as (O1 & O2 & O3 & O4 & O5 & O6 & O7). pose proof I1 as (W & B).
    assert (Own := fun o h fd => owner_of tr s1 t o h fd I1 I2 IH X).
    assert (Nt : forall x fd d, owns_t s2 x fd d -> owns_t s1 x fd d -> c_table s2 fd = Some d).
    { intros x fd d H2 H1. pose proof (O1 _ _ _ H1) as T. destruct (step_table _ _ _ _ St) as [(-> & _)|[(o & d1 & fd1 & _ & E1 & -> & _)|(o & fd1 & _ & -> & E)]]; [exact T| |].
      - rewrite updN_other; [exact T|congruence].
      - rewrite updN_other; [exact T|]. intros ->. destruct E as [(d1 & E1 & E2)|(h & E1 & E2)].
        + assert (x = t) by (eapply O3; [exact H1|exists o; exact E1]). subst x. destruct H2 as (o2 & H2). congruence.
        + destruct (Own o h fd1 (or_introl E1)) as (d1 & H3). eapply O5; eassumption. }
    assert (Nh : forall h fd d, owns_h (tr ++ [l]) s2 h fd d -> owns_h tr s1 h fd d -> c_table s2 fd = Some d).
    { intros h fd d H2 H1. pose proof (O2 _ _ _ H1) as T. destruct (step_table _ _ _ _ St) as [(-> & _)|[(o & d1 & fd1 & _ & E1 & -> & _)|(o & fd1 & _ & -> & E)]]; [exact T| |].
      - rewrite updN_other; [exact T|congruence].
      - rewrite updN_other; [exact T|]. intros ->. destruct E as [(d1 & E1 & E2)|(k & E1 & E2)].
        + eapply O5; [exists o; exact E1|exact H1].
        + destruct (Own o k fd1 (or_introl E1)) as (d1 & H3). assert (k = h) by (eapply O4; eassumption). subst k.
          destruct H2 as (_ & _ & Nc & _). destruct (Nc _ _ E2). }
    repeat apply conj.
    + intros x fd d H. destruct (step_owns_t _ _ _ _ _ _ _ St H) as [H1|(-> & o & _ & _ & E)]; [eauto|exact E].
    + intros h fd d H. destruct (step_owns_h _ _ _ _ _ _ _ _ I2 St H) as [H1|(E & H1 & _ & o & E2)]; [eauto|].
      pose proof (O1 _ _ _ H1) as T. destruct (step_table _ _ _ _ St) as [(-> & _)|[(o1 & d1 & fd1 & E3 & _)|(o1 & fd1 & E3 & _)]]; [exact T|congruence|congruence].
    + intros x x' fd d d' H H'. destruct (step_owns_t _ _ _ _ _ _ _ St H) as [H1|(-> & o & _ & E & _)], (step_owns_t _ _ _ _ _ _ _ St H') as [H1'|(-> & o' & _ & E' & _)].
      * eauto.
      * pose proof (O1 _ _ _ H1). congruence.
      * pose proof (O1 _ _ _ H1'). congruence.
      * reflexivity.
    + intros x x' fd d d' H H'. destruct (step_owns_h _ _ _ _ _ _ _ _ I2 St H) as [H1|(E & H1 & En & _)], (step_owns_h _ _ _ _ _ _ _ _ I2 St H') as [H1'|(E' & H1' & En' & _)].
      * eauto.
      * exfalso. eauto.
      * exfalso. eauto.
      * congruence.
    + intros x h fd d d' H H'. destruct (step_owns_t _ _ _ _ _ _ _ St H) as [H1|(-> & o & E1 & E & _)], (step_owns_h _ _ _ _ _ _ _ _ I2 St H') as [H1'|(E' & H1' & En' & o' & Er)].
      * eauto.
      * assert (x = t) by eauto. subst x. destruct H as (o & H). congruence.
      * pose proof (O2 _ _ _ H1'). congruence.
      * congruence.
    + intros x o h fd H. pose proof (W t) as Wt. destruct (Nat.eq_dec x t) as [->|Hx].
      * destruct St; cbn [goto with_cell with_table add_handle die c_thr c_cell] in *; rewrite ?upd_same in H;
          try (destruct H as [H|(m & H)]; discriminate H); try (eapply O6; exact H).
        -- destruct o0; destruct H as [H|(m & H)]; discriminate H.
        -- destruct o0; destruct H as [H|(m & H)]; try discriminate H; injection H as <- <- <-; assumption.
        -- destruct n; destruct H as [H|(m & H)]; discriminate H.
        -- destruct H as [H|(m & H)]; try discriminate H. injection H as <- <- <- <-. assumption.
      * rewrite (step_other _ _ _ _ _ St Hx) in H. pose proof (O6 _ _ _ _ H) as Ec.
        pose proof (W x) as Wx. assert (Lt : (h < c_next s1)%nat) by (destruct H as [H|(n & H)]; rewrite H in Wx; cbn in Wx; tauto).
        destruct (step_cell _ _ _ _ St) as [(o1 & dev & fd1 & E & _ & _ & _ & N1 & ->)|[(o1 & k & E & E1 & _ & _ & N1 & ->)|(E & _ & N1 & ->)]]; [rewrite upd_other by lia; exact Ec| |exact Ec].
        destruct (Nat.eq_dec h k) as [->|Hn]; [|rewrite upd_other by exact Hn; exact Ec]. exfalso. rewrite E1 in Wt. cbn in Wt. destruct Wt as [-> _].
        apply (X t x k o); [auto|rewrite E1; reflexivity| |]; destruct H as [H|(n & H)]; rewrite H in *; cbn in Wx |- *; try reflexivity; destruct Wx as [Wx _]; [subst; reflexivity|destruct Wx as [->| ->]; reflexivity].
    + intros x o h H Ho. pose proof (W t) as Wt. pose proof (W x) as Wx. destruct (Nat.eq_dec x t) as [->|Hx].
      * destruct St; cbn [goto with_cell with_table add_handle die c_thr c_cell] in *; rewrite ?upd_same in H; try discriminate H; try (eapply O7; eassumption).
        -- destruct o0; try discriminate H. injection H as <- <-. congruence.
        -- injection H as <- <-. congruence.
        -- destruct o0; discriminate H.
        -- destruct n; discriminate H.
      * rewrite (step_other _ _ _ _ _ St Hx) in H. pose proof (O7 _ _ _ H Ho) as Ec. rewrite H in Wx. cbn in Wx. destruct Wx as [Wo Lt].
        destruct (step_cell _ _ _ _ St) as [(o1 & dev & fd1 & E & _ & _ & _ & N1 & ->)|[(o1 & k & E & E1 & _ & _ & N1 & ->)|(E & _ & N1 & ->)]]; [rewrite upd_other by lia; exact Ec| |exact Ec].
        destruct (Nat.eq_dec h k) as [->|Hn]; [|rewrite upd_other by exact Hn; exact Ec]. exfalso. rewrite E1 in Wt. cbn in Wt. destruct Wt as [-> _].
        apply (X t x k o); [auto|rewrite E1; reflexivity|rewrite H; reflexivity|]. destruct Wo as [->|[->| ->]]; reflexivity.
Qed.

(** ---- how often a descriptor is closed ---- *)
Lemma count_snoc f tr l : count f (tr ++ [l]) = (count f tr + if f l then 1 else 0)%nat.
Proof. unfold count. rewrite filter_app, app_length. cbn. destruct (f l); reflexivity. Qed.
(** The Close calls on [h] that have not reached close(2) yet *)
Definition pending (h : nat) (x : tstate) : Prop :=
  match x with TCheck o k | TCall o k => o = OpClose h /\ k = h | TShut o k _ => o = OpClose h /\ k = h | _ => False end.
Lemma bound_run s0 tr s h : fresh s0 -> crun s0 tr s ->
  exists ts, NoDup ts /\ (forall t, In t ts <-> pending h (c_thr s t)) /\ (count (closes h) tr + List.length ts <= count (close_calls h) tr)%nat.
Proof.
  intros F R. pose proof F as (F1 & F2 & F3). induction R as [s|s tr s1 t l s2 R IH D St].
  - exists []. split; [constructor|]. split; [|cbn; lia]. intros t. rewrite F3. cbn. tauto.
  - destruct (IH F F1 F2 F3) as (ts & Nd & Hts & Le). destruct (inv_run _ _ _ F R) as (W & _). pose proof (W t) as Wt.
    assert (Oth : forall x, x <> t -> (pending h (c_thr s2 x) <-> In x ts)) by (intros x Hx; rewrite (step_other _ _ _ _ _ St Hx); symmetry; apply Hts).
    rewrite !count_snoc.
    (* the new list is [ts] without [t], plus [t] if it is pending now *)
    set (rest := filter (fun x => negb (Nat.eqb x t)) ts).
    assert (Nr : NoDup rest) by (apply NoDup_filter; exact Nd).
    assert (Hr : forall x, In x rest <-> In x ts /\ x <> t) by (intros x; unfold rest; rewrite filter_In, negb_true_iff, Nat.eqb_neq; reflexivity).
    assert (Lr : (List.length rest + (if in_dec Nat.eq_dec t ts then 1 else 0) = List.length ts)%nat).
    { unfold rest. clear - Nd. induction ts as [|y ts IH]; [reflexivity|]. inversion Nd as [|? ? Ny Nd']; subst. specialize (IH Nd'). cbn [filter].
      destruct (Nat.eqb_spec y t) as [->|Hy]; cbn [negb].
      - destruct (in_dec Nat.eq_dec t (t :: ts)) as [_|Q]; [|destruct Q; now left]. destruct (in_dec Nat.eq_dec t ts); [contradiction|]. cbn [List.length]. lia.
      - cbn [List.length]. destruct (in_dec Nat.eq_dec t (y :: ts)) as [[Q|Q]|Q], (in_dec Nat.eq_dec t ts) as [Q'|Q']; try congruence; try lia; exfalso; apply Q; now right. }
    assert (K1 : forall a b, pending h (c_thr s2 t) -> (a + (List.length rest + 1) <= b)%nat -> exists ts', NoDup ts' /\ (forall x, In x ts' <-> pending h (c_thr s2 x)) /\ (a + List.length ts' <= b)%nat).
    { intros a b P L. exists (t :: rest). split; [constructor; [rewrite Hr; tauto|exact Nr]|]. split; [|cbn; lia]. intros x. cbn [In]. rewrite Hr. destruct (Nat.eq_dec x t) as [->|Hx]; [tauto|]. rewrite Oth by exact Hx. split; [intros [<-|[Q _]]; [contradiction|exact Q]|auto]. }
    assert (K0 : forall a b, ~ pending h (c_thr s2 t) -> (a + List.length rest <= b)%nat -> exists ts', NoDup ts' /\ (forall x, In x ts' <-> pending h (c_thr s2 x)) /\ (a + List.length ts' <= b)%nat).
    { intros a b P L. exists rest. split; [exact Nr|]. split; [|exact L]. intros x. rewrite Hr. destruct (Nat.eq_dec x t) as [->|Hx]; [tauto|]. rewrite Oth by exact Hx. tauto. }
    assert (Pd : {pending h (c_thr s2 t)} + {~ pending h (c_thr s2 t)}).
    { destruct (c_thr s2 t); cbn; try (right; tauto).
      all: match goal with |- {?o = _ /\ ?k = _} + {_} => destruct o; try (right; intros [? _]; discriminate); destruct (Nat.eq_dec h1 h) as [->|Q]; [|right; intros [Q' _]; injection Q'; auto]; destruct (Nat.eq_dec k h); [left; auto|right; tauto] end. }
    assert (Main : (count (closes h) tr + (if closes h l then 1 else 0) + (if Pd then 1 else 0) + List.length rest <= count (close_calls h) tr + (if close_calls h l then 1 else 0))%nat).
    { assert (Was : pending h (c_thr s1 t) -> (List.length rest + 1 = List.length ts)%nat) by (intros P; apply Hts in P; destruct (in_dec Nat.eq_dec t ts); [exact Lr|contradiction]).
      assert (Rl : (List.length rest <= List.length ts)%nat) by lia.
      assert (G : pending h (c_thr s1 t) \/ ~ pending h (c_thr s2 t) /\ closes h l = false \/ close_calls h l = true /\ closes h l = false).
      { destruct St; cbn [goto with_cell with_table add_handle die c_thr closes close_calls] in *; rewrite ?upd_same in *; try (right; left; split; [cbn; tauto|reflexivity]).
        - destruct o; cbn; try (right; left; split; [intuition discriminate|reflexivity]). destruct (Nat.eqb_spec h0 h) as [->|Q]; [right; right; auto|right; left; split; [intros [Q' _]; injection Q'; auto|reflexivity]].
        - rewrite H in *. cbn. right. left. auto.
        - rewrite H in *. cbn in Wt |- *. subst o. right. left. auto.
        - rewrite H in *. cbn. destruct (Nat.eq_dec h0 h) as [->|Q]; [|right; left; split; [tauto|reflexivity]]. destruct Wt as [[->| ->] _]; [left; auto|right; left; split; [intros [Q _]; discriminate|reflexivity]].
        - rewrite H in *. cbn. destruct (Nat.eq_dec h0 h) as [->|Q]; [|right; left; split; [tauto|reflexivity]]. destruct Wt as [[->|[->| ->]] _]; [left; auto|right; left; split; [intros [Q _]; discriminate|reflexivity]..].
        - rewrite H in *. destruct Wt as [[->|[->| ->]] _]; cbn; try (right; left; split; [tauto|reflexivity]). destruct (Nat.eq_dec h0 h) as [->|Q]; [left; auto|right; left; split; [tauto|reflexivity]].
        - right. left. destruct n; cbn; auto.
        - rewrite H in *. cbn. right. left. auto.
        - rewrite H in *. cbn in Wt |- *. destruct Wt as [-> _]. destruct (Nat.eqb_spec h0 h) as [->|Q]; [left; auto|right; left; auto]. }
      assert (Cl : closes h l = true -> ~ pending h (c_thr s2 t)).
      { destruct St; cbn [closes]; try discriminate; cbn [goto with_table c_thr]; rewrite upd_same; cbn; auto. }
      destruct G as [P|[(P & C)|(P & C)]].
      - apply Was in P. destruct (closes h l) eqn:E; [specialize (Cl eq_refl)|]; destruct Pd; try contradiction; destruct (close_calls h l); lia.
      - rewrite C. destruct Pd; [contradiction|]. destruct (close_calls h l); lia.
      - rewrite C, P. destruct Pd; lia. }
    destruct Pd as [P|P]; [apply K1|apply K0]; try exact P; lia.
Qed.
(** Once p.Dh is nil the descriptor has been closed at least once. *)
Lemma closed_run s0 tr s h : fresh s0 -> crun s0 tr s ->
  ((h < c_next s)%nat /\ c_cell s h = None) \/ (exists t o, c_thr s t = TClear o h) -> (1 <= count (closes h) tr)%nat.
Proof.
  intros F R. pose proof F as (F1 & F2 & F3). induction R as [s|s tr s1 t l s2 R IH D St]; intros H.
  - destruct H as [[H _]|(t & o & H)]; [lia|rewrite F3 in H; discriminate].
  - specialize (IH F F1 F2 F3). rewrite count_snoc. destruct (inv_run _ _ _ F R) as (W & _). pose proof (W t) as Wt.
    assert (Old : ((h < c_next s1)%nat /\ c_cell s1 h = None) \/ (exists x o, c_thr s1 x = TClear o h) -> (1 <= count (closes h) tr + (if closes h l then 1 else 0))%nat) by (intros Q; apply IH in Q; lia).
    destruct H as [[Lt Ec]|(x & o & H)].
    + destruct (step_cell _ _ _ _ St) as [(o1 & dev & fd1 & E & _ & _ & _ & N1 & N2)|[(o1 & k & E & E1 & _ & _ & N1 & N2)|(E & _ & N1 & N2)]]; rewrite N1 in Lt; rewrite N2 in Ec.
      * apply Old. left. destruct (Nat.eq_dec h (c_next s1)) as [->|Hn]; [rewrite upd_same in Ec; discriminate|]. rewrite upd_other in Ec by exact Hn. split; [lia|exact Ec].
      * apply Old. destruct (Nat.eq_dec h k) as [->|Hn]; [right; eauto|]. rewrite upd_other in Ec by exact Hn. left. auto.
      * apply Old. auto.
    + destruct (Nat.eq_dec x t) as [->|Hx]; [|apply Old; right; exists x, o; now rewrite <- (step_other _ _ _ _ _ St Hx)].
      destruct St; cbn [goto with_cell with_table add_handle die c_thr] in *; rewrite ?upd_same in H; try discriminate H; try (apply Old; right; eauto; fail).
      * destruct o0; discriminate H.
      * destruct o0; discriminate H.
      * destruct n; discriminate H.
      * injection H as <- <-. rewrite H0 in Wt. cbn in Wt. destruct Wt as [-> _]. cbn. rewrite Nat.eqb_refl. lia.
Qed.
(** Under the discipline it is closed at most once. *)
Lemma once_run s0 tr s h : fresh s0 -> crun s0 tr s -> orderly tr ->
  count (closes h) tr = O \/ (count (closes h) tr = 1%nat /\ (h < c_next s)%nat /\ (c_cell s h = None \/ exists t o, c_thr s t = TClear o h)).
Proof.
  intros F R. pose proof F as (F1 & F2 & F3). induction R as [s|s tr s1 t l s2 R IH D St]; intros O; [now left|].
  apply orderly_prefix in O. specialize (IH F F1 F2 F3 O). rewrite count_snoc.
  pose proof (inv_run _ _ _ F R) as I1. pose proof (inv2_run _ _ _ F R) as I2. pose proof (inv3_run _ _ _ F R O) as I3. pose proof (orderly_excl _ _ _ F R O) as X. pose proof I1 as (W & _). pose proof (W t) as Wt.
  destruct (closes h l) eqn:E.
  - assert (S : exists fd, c_thr s1 t = TShut (OpClose h) h fd /\ c_thr s2 t = TClear (OpClose h) h /\ c_next s2 = c_next s1).
    { destruct St; try discriminate E; rewrite H in Wt; cbn in Wt; subst; [discriminate E|]. destruct Wt as [-> _]. cbn in E. apply Nat.eqb_eq in E as ->. exists fd. cbn. rewrite upd_same. auto. }
    destruct S as (fd & S1 & S2 & S3). destruct (owner_of tr s1 t _ _ _ I1 I2 I3 X (or_introl S1)) as (dev & Lt & Ec & Nc & _).
    right. destruct IH as [->|(_ & _ & [Q|(x & o & Q)])]; [|congruence|destruct (Nc _ _ Q)]. split; [reflexivity|]. split; [lia|]. right. eauto.
  - rewrite Nat.add_0_r. destruct IH as [IH|(IH & Lt & Q)]; [now left|]. right. split; [exact IH|].
    destruct (step_cell _ _ _ _ St) as [(o1 & dev & fd1 & E0 & E1 & _ & _ & N1 & N2)|[(o1 & k & E0 & E1 & _ & _ & N1 & N2)|(E0 & E1 & N1 & N2)]]; rewrite N1, N2; (split; [lia|]).
    + destruct Q as [Q|(x & o & Q)]; [left; rewrite upd_other by lia; exact Q|]. right. exists x, o. rewrite (step_other _ _ _ _ _ St); [exact Q|]. intros ->. congruence.
    + destruct (Nat.eq_dec h k) as [->|Hn]; [left; apply upd_same|]. destruct Q as [Q|(x & o & Q)]; [left; rewrite upd_other by exact Hn; exact Q|]. right. exists x, o. rewrite (step_other _ _ _ _ _ St); [exact Q|]. intros ->. congruence.
    + destruct Q as [Q|(x & o & Q)]; [left; exact Q|]. right. exists x, o. rewrite (step_other _ _ _ _ _ St); [exact Q|]. intros ->. destruct (E1 _ _ Q).
Qed.
Lemma run_last s0 p l s : crun s0 (p ++ [l]) s -> exists s1 y, crun s0 p s1 /\ c_dead s1 = false /\ tstep s1 y l s.
Proof.
  intros R. remember (p ++ [l]) as tr eqn:E. destruct R as [|s0 tr s1 y l' s2 R D St]; [destruct p; discriminate|].
  apply app_inj_tail in E as [-> ->]. eauto.
Qed.
(** After a Close has returned nobody starts using the driver of the handle. *)
Lemma after_run s0 p t h q s : fresh s0 -> crun s0 (p ++ VEnd t (OpClose h) :: q) s ->
  forall x o fd, c_thr s x = TShut o h fd \/ (exists n, c_thr s x = TDrv o h fd n) -> inside p x o /\ ~ In (VEnd x o) q.
Proof.
  intros F. revert s. induction q as [|l q IH] using rev_ind; intros s R x o fd H.
  - destruct (run_last _ _ _ _ R) as (s1 & y & R1 & D & St).
    destruct (inv_run _ _ _ F R1) as (_ & B). pose proof (step_who _ _ _ _ St) as Wh. cbn in Wh. subst y.
    assert (Hx : x <> t). { intros ->. inversion St; subst. cbn in H. rewrite upd_same in H. destruct H as [H|(n & H)]; discriminate. }
    rewrite (step_other _ _ _ _ _ St Hx) in H. split; [|now intros []]. apply B. destruct H as [H|(n & H)]; rewrite H; reflexivity.
  - rewrite app_comm_cons, app_assoc in R. destruct (run_last _ _ _ _ R) as (s1 & y & R1 & D & St).
    specialize (IH s1 R1). destruct (inv2_run _ _ _ F R1) as (_ & _ & _ & _ & _ & _ & M7 & _). destruct (M7 t h) as [_ Ec]; [apply in_app_iff; right; now left|].
    assert (Same : c_thr s1 x = c_thr s x /\ l <> VEnd x o).
    { destruct (Nat.eq_dec x y) as [->|Hx].
      - destruct St; cbn [goto with_cell with_table add_handle die c_thr] in *; rewrite ?upd_same in *; try (destruct H as [H|(m & H)]; discriminate H); try (split; [reflexivity|discriminate]).
        + destruct o0; destruct H as [H|(m & H)]; discriminate H.
        + destruct o0; destruct H as [H|(m & H)]; try discriminate H; injection H as <- <- <-; congruence.
        + destruct n; destruct H as [H|(m & H)]; discriminate H.
        + destruct H as [H|(m & H)]; try discriminate H. injection H as <- <- <- <-. congruence.
      - split; [symmetry; eapply step_other; eassumption|]. intros ->. apply step_who in St. cbn in St. congruence. }
    destruct Same as [Es Nl]. rewrite <- Es in H. destruct (IH x o fd H) as [A C]. split; [exact A|]. rewrite in_app_iff. intros [Q|[Q|[]]]; auto.
Qed.
