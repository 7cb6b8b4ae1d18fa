(** C187: TCG dialogues in programs that use other handles meanwhile. *)
From Verif Require Import Base M_TcgDevice M_TcgSession M_TcgProgram M_Ata M_DriveHandle M_TcgOnDrive M_SgDriver M_NvmeLinux M_LinuxInfo M_LinuxFactory M_LinuxVolume M_LinuxSystem M_LinuxMachine
  Spec_Alone P_Alone Prop_Alone P_TcgLocal Spec_TcgAlone P_TcgAlone.

Lemma replies_on_app M i a b : forall s, replies_on M s i (a ++ b) = replies_on M s i a ++ replies_on M (grun_from M s a) i b.
Proof. induction a as [|o a IH]; intros s; cbn [app replies_on]; [reflexivity|]. rewrite IH, app_assoc. reflexivity. Qed.
Lemma replies_on_count M ops1 path i ops : i = List.length (st_handles (grun M ops1)) ->
  List.length (st_handles (gstep M (grun M ops1) (GOpen path))) = S i ->
  List.length (replies_on M (gstep M (grun M ops1) (GOpen path)) i ops) = List.length (calls_on i ops).
Proof.
  intros -> L. destruct (C155_as_if_alone M ops1 path ops L) as (x & S & h & y & cs & _ & _ & _ & _ & _ & _ & (Q & _) & _). cbv zeta in Q.
  rewrite <- Q. apply replies_len.
Qed.

(** Whatever else a program does on a machine before it opens [path] and between the SecurityCommand calls of a TCG client on that handle:
    there is a system, answering as the machine did, on which the client alone, on the handle opened by [path], does the same - the same
    result of every call, the same dialogue, the same sessions - and the ioctls it makes are the same. *)
Theorem C187_linux : forall M ops1 path meanwhile dev clock kdf heap fuel prog,
  let before := grun M ops1 in let opened := gstep M before (GOpen path) in let i := List.length (st_handles before) in
  List.length (st_handles opened) = S i -> (forall t, calls_on i (meanwhile t) = []) ->
  let outcome := trun (program_env (replies_on M opened i) (GOn i) meanwhile clock kdf heap fuel) dev [] [] prog in
  let ops2 := program_of (GOn i) meanwhile [] (snd (fst outcome)) in let after := grun_from M opened ops2 in
  exists x S h y cs,
    nth_error (st_handles after) i = Some x
    /\ open_by_path (linux S) [] path = (h, Ok y) /\ answers_of M (l_fd y) S
    /\ l_driving y = gh_driving x /\ l_driver_name y = gh_driver_name x /\ l_dh y = gh_dh x
    /\ (let V := match l_drv y with Some V => V | None => no_drv end in
        trun (drive_env V (l_dh y) (l_calls y) clock kdf heap fuel) dev [] [] prog = outcome
        /\ driver_calls V (l_dh y) (l_calls y) (snd (fst outcome)) = cs)
    /\ ((l_driving y = 2 /\ map GNvme (nvme_ioctls S (removelast h) (with_calls y cs)) = map GNvme (nvme_ioctls S (removelast h) y) ++ sent_on M opened i ops2)
        \/ (l_driving y = 1 /\ map (GSg (l_fd y)) (sg_ioctls S h (with_calls y cs)) = map (GSg (l_fd y)) (sg_ioctls S h y) ++ sent_on M opened i ops2)
        \/ (l_driving y = 0 /\ sent_on M opened i ops2 = [])).
Proof.
  intros M ops1 path meanwhile dev clock kdf heap fuel prog before opened i L Mw outcome ops2 after.
  destruct (C155_as_if_alone M ops1 path ops2 L) as (x & S & h & y & cs & Hx & O & A & Fd & Dr & Nm & (Q & Pq & Cq) & W & _).
  assert (CO : forall t, calls_on i (program_of (GOn i) meanwhile [] t) = hsecs t).
  { intros t. apply program_of_calls; [intros o; cbn [call_on]; now rewrite Nat.eqb_refl|exact Mw]. }
  change (replies (match l_drv y with Some V => V | None => no_drv end) (l_dh y) (l_calls y) (calls_on i ops2) = replies_on M opened i ops2) in Q.
  change (fst (snd (hrun (match l_drv y with Some V => V | None => no_drv end) (l_dh y) (l_calls y) (calls_on i ops2))) = gh_dh x) in Pq.
  change (fst (hrun (match l_drv y with Some V => V | None => no_drv end) (l_dh y) (l_calls y) (calls_on i ops2)) = cs) in Cq.
  unfold ops2 in Q, Pq, Cq. rewrite CO in Q, Pq, Cq.
  assert (H : forall V p t h0, fst (snd (hrun V p h0 (hsecs t))) = p /\ fst (hrun V p h0 (hsecs t)) = driver_calls V p h0 t).
  { intros V p t. induction t as [|e t IH]; intros h0; [split; reflexivity|]. destruct e as [|n|rw dma pr c b s]; cbn [hsecs flat_map hsec driver_calls fold_left]; [apply IH|apply IH|].
    cbn [app hrun]. rewrite hsec_state. specialize (IH (fst (security_command V p h0 rw dma pr c b s))). fold (hsecs t).
    destruct (hrun V p _ (hsecs t)) as [h2 [p2 rs]]. cbn [fst snd] in *. exact IH. }
  set (V := match l_drv y with Some V => V | None => no_drv end) in *. destruct (H V (l_dh y) (snd (fst outcome)) (l_calls y)) as [H1 H2].
  exists x, S, h, y, cs. split; [exact Hx|]. split; [exact O|]. split; [exact A|]. split; [now symmetry|]. split; [now symmetry|].
  split; [exact (eq_trans (eq_sym H1) Pq)|]. split; [split; [|exact (eq_trans (eq_sym H2) Cq)]|exact W].
  apply same_run; [intros a b; eexists; apply replies_on_app| |exact Q].
  intros t. rewrite <- CO. now apply replies_on_count.
Qed.
Print Assumptions C187_linux.
