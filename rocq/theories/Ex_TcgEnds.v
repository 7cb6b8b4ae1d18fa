(** Non-vacuity for C135 and C136: operations that end, one that is cut short by a three-token answer, and drives that never finish. *)
From Verif Require Import Base Spec_Tcg M_TcgToken M_Buffer M_TcgCommand M_TcgDevice M_TcgSession Spec_TcgCommand Spec_TcgClient
  Spec_TcgSession P_TcgDevice P_TcgSession Prop_TcgEnds Ex_TcgSession.

Example ends_timed b : timed (ex_env b).
Proof. split; [apply ex_timely|cbn; lia]. Qed.
Example ends_setting : env_ok (ex_env (ex_plain 0)) /\ is_any_ssc ex_dev = true /\ get_base_com_id ex_dev = Ok 0x1004.
Proof. split; [|split; reflexivity]. apply ex_env_ok; [repeat (apply wf_cons; split; [reflexivity|]); apply wf_nil|reflexivity]. Qed.
(** C136: the second command of a revert answered by three tokens. *)
Definition crash_env : env := ex_env [0xF0; 5; 0xF1].
Definition crash_start := session_start crash_env ex_dev (set_no_hash_password new_session false) uid_AdminSP [112] (AUid uid_SID) [].
Example ends_crash : exists h',
  crash_start = (fst (fst crash_start), snd (fst crash_start), Ok tt) /\ numbers (fst (fst crash_start)) 105 0x12345678
  /\ answered_short crash_env ex_dev (frame 105 0x12345678 0x1004 revert_payload) (snd (fst crash_start)) h'
  /\ revert_tper crash_env ex_dev [112] false false [] = (h', Panic).
Proof.
  assert (HE : env_ok crash_env) by (apply ex_env_ok; [repeat (apply wf_cons; split; [reflexivity|]); apply wf_nil|reflexivity]).
  assert (Hn : numbers (fst (fst crash_start)) 105 0x12345678) by (split; vm_compute; reflexivity).
  assert (Hs : crash_start = (fst (fst crash_start), snd (fst crash_start), Ok tt)).
  { destruct crash_start as [[s h] r] eqn:E. cbn [fst snd]. repeat f_equal. change r with (snd ((s, h), r)). rewrite <- E. vm_compute. reflexivity. }
  exists (fst (send_command crash_env ex_dev (fst (fst crash_start)) revert_command (snd (fst crash_start)))).
  assert (An : answered_short crash_env ex_dev (frame 105 0x12345678 0x1004 revert_payload) (snd (fst crash_start))
    (fst (send_command crash_env ex_dev (fst (fst crash_start)) revert_command (snd (fst crash_start))))).
  { rewrite <- (revert_framed _ _ _ 0x1004 Hn) by reflexivity.
    apply (send_panics crash_env ex_dev _ _ 0x1004 _ _ HE); [reflexivity|reflexivity|].
    destruct (send_command _ _ _ _ _) as [h r] eqn:E. cbn [fst]. f_equal. change r with (snd (h, r)). rewrite <- E. vm_compute. reflexivity. }
  split; [exact Hs|]. split; [exact Hn|]. split; [exact An|].
  apply (C136_when_a_drive_crashes_it crash_env ex_dev 0x1004 HE); try reflexivity; [apply wf_cons; split; [reflexivity|apply wf_nil]|].
  right. exists (fst (fst crash_start)), (snd (fst crash_start)), 105, 0x12345678. split; [exact Hs|]. auto.
Qed.
(** A clock that stands still: the drive is polled as often as one likes (the hypothesis of C135 is needed). *)
Definition frozen : env :=
  {| e_clock := fun _ => 0; e_sec := fun _ => (None, [0; 0; 0; 0; 0; 0; 0; 0; 0; 0; 0; 1]); e_pbkdf2 := e_pbkdf2 ex_busy; e_heap := e_heap ex_busy; e_fuel := 810 |}.
Theorem C135_clock_needed_refuted : ~ (forall E d com, env_ok E -> (402 <= e_fuel E)%nat -> is_any_ssc d = true -> get_base_com_id d = Ok com ->
  forall h h' r, get_default_password E d h = (h', r) -> within 2 h h').
Proof.
  intros F. destruct (get_default_password frozen ex_dev []) as [h' r] eqn:E.
  assert (HE : env_ok frozen).
  { split; [|split].
    - intros h. cbn [frozen e_sec snd]. repeat (apply wf_cons; split; [reflexivity|]). apply wf_nil.
    - intros j. reflexivity.
    - intros p s. split; [reflexivity|]. apply Forall_forall. intros x Hx. apply repeat_spec in Hx. subst. reflexivity. }
  specialize (F frozen ex_dev 0x1004 HE ltac:(cbn [frozen e_fuel]; lia) eq_refl eq_refl [] h' r E).
  destruct F as (t & Et & _ & R & _). cbn [app] in Et. subst t.
  assert (X : receives (fst (get_default_password frozen ex_dev [])) = 810%nat) by (vm_compute; reflexivity).
  rewrite E in X. cbn [fst] in X. rewrite X in R. vm_compute in R. lia.
Qed.
Print Assumptions C135_clock_needed_refuted.
