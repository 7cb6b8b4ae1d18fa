(** Lemmas for C180: what the controller answers by the book, the TCG client is answered by the book. *)
From Verif Require Import Base M_Buffer M_Ata M_TcgToken M_TcgCommand M_TcgDevice M_TcgSession M_DriveHandle M_Cdb M_SgDriver M_SgHandle M_NvmeLinux M_TcgOnDrive
  Spec_Tcg Spec_TcgCommand Spec_TcgClient Spec_TcgSession P_TcgDevice P_TcgSession Spec_NvmeLinux Spec_Sg P_Discovery P_DriveHandle P_Sg P_NvmeLinux
  Spec_TcgOnDrive P_TcgOnDrive.
From Verif Require Import Prop_Sg Prop_NvmeLinux Prop_SgHandle Prop_TcgOnDrive Spec_Conform Spec_Challenge Spec_NvmeConform.

Lemma Forall2_cons_inv {A B} (R : A -> B -> Prop) x y l l' : Forall2 R (x :: l) (y :: l') -> R x y /\ Forall2 R l l'.
Proof. intros H. inversion H; auto. Qed.
Lemma exchange_commands com packet k : commands (exchange com packet k) =
  {| x_out := true; x_protocol := 1; x_comid := com; x_data := packet |} :: repeat {| x_out := false; x_protocol := 1; x_comid := com; x_data := zeros 2048 |} k.
Proof. unfold exchange. rewrite commands_app, commands_rounds. reflexivity. Qed.
Lemma exchange_typed com packet k : com < 2 ^ 16 -> List.length packet = 512%nat -> wf packet -> Forall typed (commands (exchange com packet k)).
Proof.
  intros Hc L W. apply Forall_forall. intros x Hx. apply (tcg_io_typed com x Hc). rewrite exchange_commands in Hx.
  destruct Hx as [<-|Hx]; [unfold tcg_io; cbn; auto 6|]. apply repeat_spec in Hx. subst x. unfold tcg_io. cbn [x_protocol x_comid x_out x_data]. auto.
Qed.
(** One exchange, as ioctls *)
Lemma exchange_ioctls K fd A kh identity p h0 com packet k : over_nvme p -> (forall j, A j < 2 ^ 64) -> com < 2 ^ 16 -> List.length packet = 512%nat -> wf packet ->
  let V := nv_drv K fd A kh identity in
  exists c rs, nv_replay K fd A kh (driver_calls V p h0 (exchange com packet k)) = nv_replay K fd A kh h0 ++ c :: rs
  /\ if_send fd com packet c /\ Forall (if_recv fd com) rs /\ List.length rs = k.
Proof.
  intros Hp HA Hc L W V. pose proof (exchange_typed com packet k Hc L W) as T.
  destruct (C117_tcg_over_nvme K fd A kh identity p h0 _ Hp HA T) as (calls & R & F). fold V in R. rewrite exchange_commands in F. clear T.
  destruct calls as [|c rs]; [inversion F|]. apply Forall2_cons_inv in F as [(Q1 & Q2 & Q3 & addr & Q4) F]. cbn [x_out x_protocol x_comid x_data] in Q3, Q4.
  exists c, rs. split; [exact R|]. split.
  { split; [exact Q1|]. split; [exact Q2|]. split; [exact Q3|]. exists addr. rewrite Q4. reflexivity. }
  clear R Q1 Q2 Q3 Q4 addr. revert k F. induction rs as [|r rs IH]; intros [|k] F; cbn [repeat] in F; [split; [constructor|reflexivity]|inversion F|inversion F|].
  apply Forall2_cons_inv in F as [(Q1 & Q2 & Q3 & addr & Q4) F]. cbn [x_out x_protocol x_comid x_data] in Q3, Q4.
  destruct (IH k F) as [IH1 IH2]. split; [constructor; [|exact IH1]|cbn [List.length]; now rewrite IH2].
  split; [exact Q1|]. split; [exact Q2|]. split; [exact Q3|]. exists addr. rewrite Q4.
  replace (blen (zeros 2048)) with 2048 by (unfold blen, zeros; rewrite repeat_length; reflexivity). reflexivity.
Qed.
Lemma delivered_received old new out : List.length old = 2048%nat -> delivered old new out -> received out = out.
Proof.
  intros Lo (L & _). rewrite Lo in L. unfold received. rewrite firstn_all2 by (rewrite L; apply le_n). rewrite L. rewrite Nat.sub_diag. apply app_nil_r.
Qed.

Lemma nvme_replies_env K fd A kh identity p h0 clock kdf heap fuel com packet h n atoms :
  let V := nv_drv K fd A kh identity in
  let E := drive_env V p h0 clock kdf heap fuel in
  over_nvme p -> (forall j, A j < 2 ^ 64) -> com < 2 ^ 16 -> List.length packet = 512%nat -> wf packet -> Forall typed (commands h) ->
  (n < fuel)%nat -> fast_enough clock com n ->
  nvme_replies K fd com packet (nv_replay K fd A kh (driver_calls V p h0 h)) n atoms -> replies E com packet h atoms.
Proof.
  intros V E Hp HA Hc L W Th Hf Ck R.
  assert (Hx : forall k, exists c rs, nv_replay K fd A kh (driver_calls V p h0 (h ++ exchange com packet k)) = nv_replay K fd A kh (driver_calls V p h0 h) ++ c :: rs
    /\ if_send fd com packet c /\ Forall (if_recv fd com) rs /\ List.length rs = k).
  { intros k. rewrite driver_calls_app. apply exchange_ioctls; assumption. }
  assert (Ty : forall k, Forall typed (commands (h ++ exchange com packet k))).
  { intros k. rewrite commands_app. apply Forall_app. split; [exact Th|now apply exchange_typed]. }
  set (k0 := nv_replay K fd A kh (driver_calls V p h0 h)) in *.
  unfold replies. cbv zeta. split.
  - destruct (Hx 0%nat) as (c & rs & Eh & Sc & Rr & Lr). destruct rs; [|discriminate Lr].
    specialize (Ty 0%nat). unfold exchange in Ty, Eh. cbn [rounds repeat concat app] in Ty, Eh.
    change (h ++ [EvNow; EvSec true false 1 com packet 5]) with (h ++ [EvNow] ++ [EvSec true false 1 com packet 5]) in *. rewrite app_assoc in *.
    destruct (e_sec E ((h ++ [EvNow]) ++ [EvSec true false 1 com packet 5])) as [e out] eqn:Es. cbn [fst].
    unfold E in Es. rewrite (drive_env_sec V p h0 clock kdf heap fuel (h ++ [EvNow]) true false 1 com packet 5 Ty) in Es.
    rewrite driver_calls_app in Eh. cbn [driver_calls fold_left] in Eh.
    destruct (security_command V p (driver_calls V p h0 (h ++ [EvNow])) true false 1 com packet 5) as [h1 [e1 o1]] eqn:Sx. cbn [snd fst] in Es, Eh. injection Es as -> ->.
    destruct (C72_security_over_nvme K fd A kh identity p _ true false 1 com packet 5 h1 e out Hp ltac:(lia) Hc ltac:(unfold blen; rewrite L; reflexivity) HA Sx)
      as (call & Rc & _ & _ & _ & _ & Q1 & _).
    rewrite driver_calls_app in Rc, Q1. cbn [driver_calls fold_left] in Rc, Q1. fold V in Rc, Q1. fold k0 in Rc, Q1. apply Q1.
    rewrite Rc in Eh. rewrite Eh. destruct (R c [] Sc (Forall_nil _) ltac:(cbn; lia)) as [S _]. exact S.
  - assert (An : forall i, (i <= n)%nat -> exists b, answer E 1 com (h ++ [EvNow; EvSec true false 1 com packet 5]) i = (None, b) /\
      ((i < n)%nat -> wants_poll (received b)) /\
      (i = n -> ~ wants_poll (received b) /\ has_payload (received b) /\ exists sent, carries (received b) (stream sent) /\ Forall atom_ok sent /\ visible sent = atoms)).
    { intros i Hi. unfold answer. assert (Ex : (h ++ [EvNow; EvSec true false 1 com packet 5]) ++ rounds 1 com (S i) = h ++ exchange com packet (S i)) by (unfold exchange; rewrite <- app_assoc; reflexivity).
      rewrite Ex. destruct (Hx (S i)) as (c & rs & Eh & Sc & Rr & Lr). destruct (e_sec E (h ++ exchange com packet (S i))) as [e out] eqn:Es.
      assert (Sp : h ++ exchange com packet (S i) = (h ++ exchange com packet i ++ [EvNow; EvSleep 25000000]) ++ [EvSec false false 1 com (zeros 2048) 5]).
      { unfold exchange. rewrite rounds_succ_r. unfold round. rewrite <- !app_assoc. reflexivity. }
      specialize (Ty (S i)). rewrite Sp in Es, Ty.
      destruct (C117_answers_over_nvme K fd A kh identity p h0 clock kdf heap fuel _ false 1 com (zeros 2048) 5 e out Hp HA Ty Es) as (B1 & _ & B3).
      rewrite <- Sp in B1, B3. fold V in B1, B3. rewrite Eh in B1, B3.
      destruct (R c rs Sc Rr ltac:(lia)) as [Su Dl]. apply B1 in Su. subst e. exists out. split; [reflexivity|].
      rewrite (delivered_received (zeros 2048) _ out (repeat_length _ _) B3). destruct (Dl out B3) as [D1 D2]. split; [intros Hn; apply D1; lia|intros ->; apply D2; exact Lr]. }
    assert (El : forall i, (i <= n)%nat -> elapsed E 1 com (e_clock E (h ++ [EvNow])) (h ++ [EvNow; EvSec true false 1 com packet 5]) i <= 10000000000).
    { intros i Hi. unfold elapsed. change (e_clock E) with clock. pose proof (Ck h packet i Hi) as C. unfold exchange in C. rewrite <- !app_assoc in *. cbn [app] in *. lia. }
    destruct (An n (le_n _)) as (b & Ea & _ & Fin). destruct (Fin eq_refl) as (F1 & F2 & sent & F3 & F4 & F5).
    exists n, sent. change (e_fuel E) with fuel. split; [exact Hf|]. split.
    { intros i Hi. destruct (An i ltac:(lia)) as (bi & Ei & Wi & _). unfold poll_again. rewrite Ei. cbn [fst snd]. split; [reflexivity|]. split; [auto|apply El; lia]. }
    rewrite Ea. cbn [fst snd]. specialize (El n (le_n _)). auto 10.
Qed.
