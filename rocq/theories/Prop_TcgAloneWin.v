(** C187 on Windows. *)
From Verif Require Import Base M_TcgDevice M_TcgSession M_TcgProgram M_Ata M_DriveHandle M_TcgOnDrive M_LinuxFactory M_LinuxMachine
  Spec_Alone M_WinPass M_WinNvme M_WinInfo M_WinFactory M_WinEnum M_WinMachine Spec_AloneWin P_LinuxMachine P_Alone Prop_AloneWin P_TcgLocal Spec_TcgAlone P_TcgAlone.

Lemma mreplies_on_app X i a b : forall s, mreplies_on X s i (a ++ b) = mreplies_on X s i a ++ mreplies_on X (mrun_from X s a) i b.
Proof. induction a as [|o a IH]; intros s; cbn [app mreplies_on]; [reflexivity|]. rewrite IH, app_assoc. reflexivity. Qed.
Lemma mreplies_on_count X ops1 path i ops : i = List.length (ms_handles (mrun X ops1)) ->
  List.length (ms_handles (mstep X (mrun X ops1) (MOpen path))) = Datatypes.S i ->
  List.length (mreplies_on X (mstep X (mrun X ops1) (MOpen path)) i ops) = List.length (mcalls_on i ops).
Proof.
  intros -> L. destruct (C157_as_if_alone X ops1 path ops L) as (x & S & A & w & y & cs & later & _ & _ & _ & _ & (Q & _) & _). cbv zeta in Q.
  rewrite <- Q. apply replies_len.
Qed.
Lemma hrun_hsecs V p t : forall h0, fst (snd (hrun V p h0 (hsecs t))) = p /\ fst (hrun V p h0 (hsecs t)) = driver_calls V p h0 t.
Proof.
  induction t as [|e t IH]; intros h0; [split; reflexivity|]. destruct e as [|n|rw dma pr c b s]; cbn [hsecs flat_map hsec driver_calls fold_left]; [apply IH|apply IH|].
  cbn [app hrun]. rewrite hsec_state. specialize (IH (fst (security_command V p h0 rw dma pr c b s))). fold (hsecs t).
  destruct (hrun V p _ (hsecs t)) as [h2 [p2 rs]]. cbn [fst snd] in *. exact IH.
Qed.

(** Whatever else a program does on a Windows machine before it opens [path] and between the SecurityCommand calls of a TCG client on that
    handle: there is a system, answering as the machine did, on which the client alone, on the handle opened by [path], does the same -
    the same result of every call, the same dialogue, the same sessions - and performs the same actions. *)
Theorem C187_windows : forall X ops1 path meanwhile dev clock kdf heap fuel prog,
  let before := mrun X ops1 in let opened := mstep X before (MOpen path) in let i := List.length (ms_handles before) in
  List.length (ms_handles opened) = Datatypes.S i -> (forall t, mcalls_on i (meanwhile t) = []) ->
  let outcome := trun (program_env (mreplies_on X opened i) (MOn i) meanwhile clock kdf heap fuel) dev [] [] prog in
  let ops2 := program_of (MOn i) meanwhile [] (snd (fst outcome)) in let after := mrun_from X opened ops2 in
  exists x S A w y cs later,
    nth_error (ms_handles after) i = Some x /\ mh_path x = path
    /\ win_open_by_path S A [] path = (w, Ok y) /\ wanswers_of X S A /\ f_dh y = mh_dh x
    /\ (let V := match f_drv y with Some (d, h, _) => win_drv S A d h | None => mno_drv end in
        let c0 := match f_drv y with Some (_, _, c) => c | None => [] end in
        trun (drive_env V (f_dh y) c0 clock kdf heap fuel) dev [] [] prog = outcome
        /\ driver_calls V (f_dh y) c0 (snd (fst outcome)) = cs)
    /\ mdone_on X opened i ops2 = map XSys later
    /\ match f_drv y with Some (d, h, _) => win_replay S A d h cs = w ++ later | None => later = [] end.
Proof.
  intros X ops1 path meanwhile dev clock kdf heap fuel prog before opened i L Mw outcome ops2 after.
  destruct (C157_as_if_alone X ops1 path ops2 L) as (x & S & A & w & y & cs & later & Hx & Px & O & AA & (Q & Pq & Cq) & _ & _ & Dn & Rp).
  set (V := match f_drv y with Some (d, h, _) => win_drv S A d h | None => mno_drv end) in *.
  set (c0 := match f_drv y with Some (_, _, c) => c | None => [] end) in *.
  change (replies V (f_dh y) c0 (mcalls_on i ops2) = mreplies_on X opened i ops2) in Q.
  change (fst (snd (hrun V (f_dh y) c0 (mcalls_on i ops2))) = mh_dh x) in Pq.
  change (fst (hrun V (f_dh y) c0 (mcalls_on i ops2)) = cs) in Cq.
  assert (CO : forall t, mcalls_on i (program_of (MOn i) meanwhile [] t) = hsecs t).
  { intros t. apply program_of_calls; [intros o; cbn [mcall_on]; now rewrite Nat.eqb_refl|exact Mw]. }
  unfold ops2 in Q, Pq, Cq. rewrite CO in Q, Pq, Cq.
  destruct (hrun_hsecs V (f_dh y) (snd (fst outcome)) c0) as [H1 H2].
  exists x, S, A, w, y, cs, later. split; [exact Hx|]. split; [exact Px|]. split; [exact O|]. split; [exact AA|].
  split; [exact (eq_trans (eq_sym H1) Pq)|]. split; [split; [|exact (eq_trans (eq_sym H2) Cq)]|split; [exact Dn|exact Rp]].
  apply same_run; [intros a b; eexists; apply mreplies_on_app| |exact Q].
  intros t. rewrite <- CO. now apply mreplies_on_count.
Qed.
Print Assumptions C187_windows.
