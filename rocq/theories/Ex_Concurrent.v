(** Concrete schedules: the hypotheses of C132 and C133 are met by non-trivial executions, and C132 fails without its discipline. *)
From Verif Require Import Base M_Concurrent Spec_Concurrent P_Concurrent Prop_Concurrent.
From Coq Require Import Lia.

(** A way to compute executions: what goroutine [t] does next *)
Inductive choice := Go (o : call_op) | Fd (fd : N) | Main | Fail | Io.
Definition exec1 (s : cstate) (t : nat) (c : choice) : option (label * cstate) :=
  if c_dead s then None else
  match c_thr s t, c with
  | TIdle, Go o =>
      if match op_handle o with Some h => Nat.ltb h (c_next s) | None => true end then Some (VBegin t o, goto s t (start_of o)) else None
  | TRet o, Main => Some (VEnd t o, goto s t TIdle)
  | TOpen o d, Fd fd => match c_table s fd with None => Some (VOpen t o fd, goto (with_table s fd (Some d)) t (TProbe o d fd)) | Some _ => None end
  | TProbe o d fd, Io => Some (VIoctl t o fd (c_table s fd), s)
  | TProbe o d fd, Main => Some (VMade t d fd (c_next s), goto (add_handle s fd) t (TRet o))
  | TCheck o h, Main => match c_cell s h with None => Some (VRead t o, goto s t (TRet o)) | Some _ => Some (VRead t o, goto s t (TCall o h)) end
  | TCall o h, Main =>
      match c_cell s h with
      | None => Some (VPanic t o, die s)
      | Some fd => Some (VRead t o, goto s t (match o with OpClose _ => TShut o h fd | OpSecurity _ => TDrv o h fd 2 | _ => TRet o end))
      end
  | TAssert o h n, Main => match c_cell s h with Some fd => Some (VRead t o, goto s t (TDrv o h fd 0)) | None => None end
  | TAssert o h n, Fail => Some (VRead t o, goto s t (match n with O => TRet o | S m => TAssert o h m end))
  | TDrv o h fd _, Io => Some (VIoctl t o fd (c_table s fd), s)
  | TDrv o h fd _, Main => Some (VRead t o, goto s t (TRet o))
  | TDrv o h fd (S n), Fail => Some (VRead t o, goto s t (TAssert o h n))
  | TShut o h fd, Main => Some (VClose t o fd (c_table s fd), goto (with_table s fd None) t (TClear o h))
  | TClear o h, Main => Some (VRead t o, goto (with_cell s h None) t (TRet o))
  | _, _ => None
  end.
Lemma exec1_step s t c l s2 : exec1 s t c = Some (l, s2) -> c_dead s = false /\ tstep s t l s2.
Proof.
  unfold exec1. destruct (c_dead s) eqn:D; [discriminate|]. intros H. split; [reflexivity|].
  destruct (c_thr s t) eqn:E, c; try discriminate H; try (destruct n; discriminate H).
  - destruct (op_handle o) as [h|] eqn:Eo; [destruct (Nat.ltb_spec h (c_next s)); [|discriminate H]|]; injection H as <- <-; apply s_begin; auto; rewrite Eo; intros k Q; [injection Q as <-; assumption|discriminate].
  - destruct (c_table s fd) eqn:T; [discriminate|]. injection H as <- <-. now apply s_open.
  - injection H as <- <-. eapply s_made; exact E.
  - injection H as <- <-. eapply s_probe; exact E.
  - destruct (c_cell s h) eqn:T; injection H as <- <-; [eapply s_check|eapply s_check_nil]; eassumption.
  - destruct (c_cell s h) eqn:T; injection H as <- <-; [eapply s_call|eapply s_call_nil]; eassumption.
  - destruct (c_cell s h) eqn:T; [|discriminate]. injection H as <- <-. eapply s_assert; eassumption.
  - injection H as <- <-. eapply s_assert_no; exact E.
  - destruct n; injection H as <- <-; eapply s_done; exact E.
  - destruct n; [discriminate|]. injection H as <- <-. eapply s_failed; exact E.
  - destruct n; injection H as <- <-; eapply s_ioctl; exact E.
  - injection H as <- <-. eapply s_shut; exact E.
  - injection H as <- <-. eapply s_clear; exact E.
  - injection H as <- <-. eapply s_end; exact E.
Qed.
Fixpoint sim (s : cstate) (cs : list (nat * choice)) : option (list label * cstate) :=
  match cs with
  | [] => Some ([], s)
  | (t, c) :: r => match exec1 s t c with Some (l, s1) => match sim s1 r with Some (tr, s2) => Some (l :: tr, s2) | None => None end | None => None end
  end.
Lemma sim_run cs : forall s0 tr0 s tr s2, crun s0 tr0 s -> sim s cs = Some (tr, s2) -> crun s0 (tr0 ++ tr) s2.
Proof.
  induction cs as [|(t, c) cs IH]; intros s0 tr0 s tr s2 R H; cbn [sim] in H.
  - injection H as <- <-. now rewrite app_nil_r.
  - destruct (exec1 s t c) as [(l, s1)|] eqn:E; [|discriminate]. destruct (sim s1 cs) as [(tr1, s3)|] eqn:E1; [|discriminate]. injection H as <- <-.
    destruct (exec1_step _ _ _ _ _ E) as [D St]. change (l :: tr1) with ([l] ++ tr1). rewrite app_assoc. eapply IH; [econstructor; eassumption|exact E1].
Qed.

Definition ec_start : cstate := {| c_cell := fun _ => None; c_table := fun _ => None; c_thr := fun _ => TIdle; c_next := O; c_dead := false |}.
Lemma ec_fresh : fresh ec_start. Proof. repeat split. Qed.
Definition ec_labels (cs : list (nat * choice)) : list label := match sim ec_start cs with Some (tr, _) => tr | None => [] end.
Lemma ec_run cs tr : option_map fst (sim ec_start cs) = Some tr -> exists s, crun ec_start tr s.
Proof. destruct (sim ec_start cs) as [(tr', s)|] eqn:E; [|discriminate]. intros H. injection H as <-. exists s. exact (sim_run cs ec_start [] ec_start tr' s (run_nil _) E). Qed.

(** Goroutine 0 opens device 10 (descriptor 3, handle 0). *)
Definition ec_open : list (nat * choice) := map (pair 0%nat) [Go (OpOpen 10); Fd 3; Io; Main; Main].
(** Goroutine 3 opens device 20 and gets descriptor 3 too (handle 1). *)
Definition ec_other : list (nat * choice) := map (pair 3%nat) [Go (OpOpen 20); Fd 3; Io; Main; Main].

(** Two goroutines close the same handle; in between device 20 is opened and gets the freed descriptor: the second Close closes it. *)
Definition ec_double : list (nat * choice) :=
  ec_open ++ map (pair 1%nat) [Go (OpClose 0); Main; Main] ++ map (pair 2%nat) [Go (OpClose 0); Main; Main] ++ [(1%nat, Main)] ++ ec_other ++ [(2%nat, Main)].
Definition ec_double_trace : list label := Eval vm_compute in ec_labels ec_double.
Theorem C133_close_isolation_refuted : ~ (forall s0 tr s, fresh s0 -> crun s0 tr s ->
  forall t o fd hit, In (VClose t o fd hit) tr -> exists dev, hit = Some dev /\ meant tr o dev).
Proof.
  intros H. destruct (ec_run ec_double ec_double_trace ltac:(vm_cast_no_check (eq_refl (Some ec_double_trace)))) as (s & R).
  destruct (H _ _ _ ec_fresh R 2%nat (OpClose 0) 3 (Some 20)) as (dev & E & t & fd & M); [unfold ec_double_trace; cbn [In]; auto 30|].
  injection E as <-. vm_compute in M. repeat (destruct M as [M|M]; [discriminate M|]). exact M.
Qed.
Print Assumptions C133_close_isolation_refuted.
Theorem C133_closed_once_refuted : ~ (forall s0 tr s h, fresh s0 -> crun s0 tr s -> (count (closes h) tr <= 1)%nat).
Proof.
  intros H. destruct (ec_run ec_double ec_double_trace ltac:(vm_cast_no_check (eq_refl (Some ec_double_trace)))) as (s & R).
  specialize (H _ _ _ O ec_fresh R). vm_compute in H. lia.
Qed.
Print Assumptions C133_closed_once_refuted.

(** A goroutine is inside SecurityCommand on the drive of handle 0 when another closes the handle and a third opens device 20: the command
    (say, a Revert) is carried out by device 20. *)
Definition ec_stray : list (nat * choice) :=
  ec_open ++ map (pair 2%nat) [Go (OpSecurity 0); Main; Main] ++ map (pair 1%nat) [Go (OpClose 0); Main; Main; Main; Main; Main] ++ ec_other ++ [(2%nat, Io)].
Definition ec_stray_trace : list label := Eval vm_compute in ec_labels ec_stray.
Theorem C133_command_isolation_refuted : ~ (forall s0 tr s, fresh s0 -> crun s0 tr s ->
  forall t o fd hit, In (VIoctl t o fd hit) tr -> exists dev, hit = Some dev /\ meant tr o dev).
Proof.
  intros H. destruct (ec_run ec_stray ec_stray_trace ltac:(vm_cast_no_check (eq_refl (Some ec_stray_trace)))) as (s & R).
  destruct (H _ _ _ ec_fresh R 2%nat (OpSecurity 0) 3 (Some 20)) as (dev & E & t & fd & M); [unfold ec_stray_trace; cbn [In]; auto 40|].
  injection E as <-. vm_compute in M. repeat (destruct M as [M|M]; [discriminate M|]). exact M.
Qed.
Print Assumptions C133_command_isolation_refuted.

(** SecurityCommand has seen a non-nil p.Dh, then Close runs: the program ends. *)
Definition ec_crash : list (nat * choice) :=
  ec_open ++ map (pair 2%nat) [Go (OpSecurity 0); Main] ++ map (pair 1%nat) [Go (OpClose 0); Main; Main; Main; Main; Main] ++ [(2%nat, Main)].
Definition ec_crash_trace : list label := Eval vm_compute in ec_labels ec_crash.
Theorem C133_no_crash_refuted : ~ (forall s0 tr s t h, fresh s0 -> crun s0 tr s -> ~ In (VPanic t (OpSecurity h)) tr).
Proof.
  intros H. destruct (ec_run ec_crash ec_crash_trace ltac:(vm_cast_no_check (eq_refl (Some ec_crash_trace)))) as (s & R).
  refine (H _ _ _ 2%nat O ec_fresh R _). unfold ec_crash_trace; cbn [In]; auto 40.
Qed.
Print Assumptions C133_no_crash_refuted.

(** An orderly execution with two drives and two goroutines: a command with fallback on handle 0 overlaps the opening of device 20 and a
    command on it; then handle 0 is closed twice, one call after the other, and used once more. *)
Definition ec_orderly : list (nat * choice) :=
  ec_open ++ map (pair 1%nat) [Go (OpOpen 20); Fd 4] ++ map (pair 2%nat) [Go (OpSecurity 0); Main; Main; Io; Fail]
  ++ map (pair 1%nat) [Main; Main; Go (OpCommand 1); Main; Io] ++ map (pair 2%nat) [Main; Io; Main; Main] ++ map (pair 1%nat) [Main; Main]
  ++ map (pair 0%nat) [Go (OpClose 0); Main; Main; Main; Main; Main; Go (OpClose 0); Main; Main; Go (OpSecurity 0); Main; Main].
Definition ec_orderly_trace : list label := Eval vm_compute in ec_labels ec_orderly.
(** a check of the discipline by computation *)
Definition op_eqb (a b : call_op) : bool :=
  match a, b with
  | OpOpen x, OpOpen y => x =? y
  | OpClose x, OpClose y | OpSecurity x, OpSecurity y | OpCommand x, OpCommand y | OpName x, OpName y => Nat.eqb x y
  | _, _ => false
  end.
Lemma op_eqb_spec a b : op_eqb a b = true <-> a = b.
Proof. destruct a, b; cbn; rewrite ?N.eqb_eq, ?Nat.eqb_eq; split; intros H; try discriminate H; try (injection H; auto); congruence. Qed.
Definition act (cur : list (nat * call_op)) (l : label) : list (nat * call_op) :=
  match l with
  | VBegin t o => (t, o) :: cur
  | VEnd t o => filter (fun x => negb (Nat.eqb (fst x) t && op_eqb (snd x) o)) cur
  | _ => cur
  end.
Lemma inside_act tr t o : inside tr t o -> In (t, o) (fold_left act tr []).
Proof.
  induction tr as [|l tr IH] using rev_ind; intros H; [destruct (inside_nil _ _ H)|]. rewrite fold_left_app. cbn [fold_left].
  apply inside_snoc in H as [->|[Hn H]]; [now left|]. specialize (IH H). destruct l; cbn [act]; auto; [now right|].
  apply filter_In. split; [exact IH|]. cbn. apply negb_true_iff. apply andb_false_iff. destruct (Nat.eqb_spec t t0) as [->|]; [right|now left].
  destruct (op_eqb o o0) eqn:E; [|reflexivity]. apply op_eqb_spec in E as ->. congruence.
Qed.
Definition clash (x y : nat * call_op) : bool :=
  negb (Nat.eqb (fst x) (fst y)) && match snd x, op_handle (snd y) with OpClose h, Some k => Nat.eqb h k | _, _ => false end.
Definition calm (cur : list (nat * call_op)) : bool := forallb (fun x => forallb (fun y => negb (clash x y)) cur) cur.
Lemma calm_orderly tr : forallb (fun n => calm (fold_left act (firstn n tr) [])) (seq 0 (S (List.length tr))) = true -> orderly tr.
Proof.
  intros C p q t t' h o E Hn H1 H2 H3. apply inside_act in H1, H2.
  assert (Ep : p = firstn (List.length p) tr) by (rewrite E, firstn_app, Nat.sub_diag, firstn_all; cbn; now rewrite app_nil_r).
  rewrite forallb_forall in C. specialize (C (List.length p)). rewrite <- Ep in C. unfold calm in C.
  assert (Cp : forallb (fun x => forallb (fun y => negb (clash x y)) (fold_left act p [])) (fold_left act p []) = true) by (apply C, in_seq; rewrite E, app_length; lia).
  rewrite forallb_forall in Cp. specialize (Cp _ H1). rewrite forallb_forall in Cp. specialize (Cp _ H2). unfold clash in Cp. cbn in Cp. rewrite H3, Nat.eqb_refl in Cp.
  destruct (Nat.eqb_spec t t'); [contradiction|discriminate].
Qed.
Example ec_orderly_ok : exists s, crun ec_start ec_orderly_trace s /\ orderly ec_orderly_trace
  /\ count (closes 0) ec_orderly_trace = 1%nat
  /\ In (VIoctl 2 (OpSecurity 0) 3 (Some 10)) ec_orderly_trace /\ In (VIoctl 1 (OpCommand 1) 4 (Some 20)) ec_orderly_trace
  /\ In (VEnd 0 (OpSecurity 0)) ec_orderly_trace.
Proof.
  destruct (ec_run ec_orderly ec_orderly_trace ltac:(vm_cast_no_check (eq_refl (Some ec_orderly_trace)))) as (s & R). exists s. split; [exact R|].
  split; [apply calm_orderly; vm_compute; reflexivity|]. split; [vm_compute; reflexivity|]. unfold ec_orderly_trace; cbn [In]. repeat split; auto 60.
Qed.
