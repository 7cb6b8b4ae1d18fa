(** Lemmas for C181. *)
From Verif Require Import Base M_Buffer M_Ata M_TcgToken M_TcgCommand M_TcgDevice M_TcgSession M_DriveHandle M_Cdb M_SgDriver M_SgHandle M_NvmeLinux M_TcgOnDrive
  Spec_Tcg Spec_TcgCommand Spec_TcgClient Spec_TcgSession P_TcgDevice P_TcgSession Spec_NvmeLinux Spec_Sg P_Discovery P_DriveHandle P_Sg P_NvmeLinux
  Spec_TcgOnDrive P_TcgOnDrive.
From Verif Require Import Prop_Sg Prop_NvmeLinux Prop_SgHandle Prop_TcgOnDrive Spec_LinuxSata Prop_LinuxSataTcg Spec_Conform Spec_NvmeConform P_NvmeConform Spec_SataConform.

Lemma exchange_data com packet k : List.length packet = 512%nat -> Forall (fun x => x_data x <> []) (commands (exchange com packet k)).
Proof.
  intros L. rewrite exchange_commands. constructor; [cbn; intros ->; discriminate L|]. apply Forall_forall. intros x Hx. apply repeat_spec in Hx. subst x. discriminate.
Qed.
Lemma exchange_requests K A kh identity p h0 com packet k : over_sg p -> takes_security K -> com < 2 ^ 16 -> List.length packet = 512%nat -> wf packet ->
  let V := sg_drv K A kh identity in
  exists c rs, sg_replay K A kh (driver_calls V p h0 (exchange com packet k)) = sg_replay K A kh h0 ++ c :: rs
  /\ sp_out com packet c /\ Forall (sp_in com) rs /\ List.length rs = k.
Proof.
  intros Hp HT Hc L W V. pose proof (exchange_typed com packet k Hc L W) as T.
  destruct (tcg_over_sata K A kh identity p h0 _ Hp HT T (exchange_data com packet k L)) as (calls & R & F). fold V in R. rewrite exchange_commands in F. clear T.
  destruct calls as [|c rs]; [inversion F|]. apply Forall2_cons_inv in F as [(Q1 & Q2) F]. cbn [x_out x_protocol x_comid x_data] in Q1, Q2.
  exists c, rs. split; [exact R|]. split; [split; [exact Q1|exact (Q2 eq_refl)]|].
  clear R Q1 Q2. revert k F. induction rs as [|r rs IH]; intros [|k] F; cbn [repeat] in F; [split; [constructor|reflexivity]|inversion F|inversion F|].
  apply Forall2_cons_inv in F as [(Q1 & _) F]. cbn [x_out x_protocol x_comid x_data] in Q1.
  destruct (IH k F) as [IH1 IH2]. split; [constructor; [|exact IH1]|cbn [List.length]; now rewrite IH2].
  unfold sp_in. unfold is_security in Q1. rewrite Q1. replace (blen (zeros 2048)) with 2048 by (unfold blen, zeros; rewrite repeat_length; reflexivity). reflexivity.
Qed.

Lemma sata_replies_env K A kh identity p h0 clock kdf heap fuel com packet h n atoms :
  let V := sg_drv K A kh identity in
  let E := drive_env V p h0 clock kdf heap fuel in
  over_sg p -> takes_security K -> com < 2 ^ 16 -> List.length packet = 512%nat -> wf packet -> Forall typed (commands h) ->
  (n < fuel)%nat -> fast_enough clock com n ->
  sata_replies K com packet (sg_replay K A kh (driver_calls V p h0 h)) n atoms -> replies E com packet h atoms.
Proof.
  intros V E Hp HT Hc L W Th Hf Ck R.
  assert (Hx : forall k, exists c rs, sg_replay K A kh (driver_calls V p h0 (h ++ exchange com packet k)) = sg_replay K A kh (driver_calls V p h0 h) ++ c :: rs
    /\ sp_out com packet c /\ Forall (sp_in com) rs /\ List.length rs = k).
  { intros k. rewrite driver_calls_app. apply exchange_requests; assumption. }
  assert (Ty : forall k, Forall typed (commands (h ++ exchange com packet k))).
  { intros k. rewrite commands_app. apply Forall_app. split; [exact Th|now apply exchange_typed]. }
  set (k0 := sg_replay K A kh (driver_calls V p h0 h)) in *.
  unfold replies. cbv zeta. split.
  - specialize (Ty 0%nat). unfold exchange in Ty. cbn [rounds repeat concat app] in Ty.
    change (h ++ [EvNow; EvSec true false 1 com packet 5]) with (h ++ [EvNow] ++ [EvSec true false 1 com packet 5]) in *. rewrite app_assoc in *.
    destruct (e_sec E ((h ++ [EvNow]) ++ [EvSec true false 1 com packet 5])) as [e out] eqn:Es. cbn [fst].
    unfold E in Es. rewrite (drive_env_sec V p h0 clock kdf heap fuel (h ++ [EvNow]) true false 1 com packet 5 Ty) in Es.
    destruct (security_command V p (driver_calls V p h0 (h ++ [EvNow])) true false 1 com packet 5) as [h1 [e1 o1]] eqn:Sx. cbn [snd fst] in Es. injection Es as -> ->.
    destruct (C74_security_over_sg K A kh identity p _ true false 1 com packet 5 h1 e out Hp ltac:(lia) Hc ltac:(unfold blen; rewrite L; reflexivity) ltac:(intros ->; discriminate L) Sx)
      as (c1 & rest & _ & _ & I1 & _ & I3 & _).
    destruct (I3 (HT _ _ _ I1)) as (_ & Q & _). exact Q.
  - assert (An : forall i, (i <= n)%nat -> exists b, answer E 1 com (h ++ [EvNow; EvSec true false 1 com packet 5]) i = (None, b) /\
      ((i < n)%nat -> wants_poll (received b)) /\
      (i = n -> ~ wants_poll (received b) /\ has_payload (received b) /\ exists sent, carries (received b) (stream sent) /\ Forall atom_ok sent /\ visible sent = atoms)).
    { intros i Hi. unfold answer. assert (Ex : (h ++ [EvNow; EvSec true false 1 com packet 5]) ++ rounds 1 com (S i) = h ++ exchange com packet (S i)) by (unfold exchange; rewrite <- app_assoc; reflexivity).
      rewrite Ex. destruct (Hx (S i)) as (c & rs & Eh & Sc & Rr & Lr). destruct (e_sec E (h ++ exchange com packet (S i))) as [e out] eqn:Es.
      assert (Sp : h ++ exchange com packet (S i) = (h ++ exchange com packet i ++ [EvNow; EvSleep 25000000]) ++ [EvSec false false 1 com (zeros 2048) 5]).
      { unfold exchange. rewrite rounds_succ_r. unfold round. rewrite <- !app_assoc. reflexivity. }
      specialize (Ty (S i)). rewrite Sp in Es, Ty.
      destruct (answer_over_sata K A kh identity p h0 clock kdf heap fuel _ false 1 com (zeros 2048) 5 e out Hp HT Ty ltac:(discriminate) Es) as (_ & B3).
      rewrite <- Sp in B3. fold V in B3. rewrite Eh in B3.
      assert (En : e = None).
      { unfold E in Es. rewrite (drive_env_sec V p h0 clock kdf heap fuel _ false false 1 com (zeros 2048) 5 Ty) in Es.
        destruct (security_command V p (driver_calls V p h0 (h ++ exchange com packet i ++ [EvNow; EvSleep 25000000])) false false 1 com (zeros 2048) 5) as [h1 [e1 o1]] eqn:Sx.
        cbn [snd] in Es. injection Es as -> ->.
        destruct (C74_security_over_sg K A kh identity p _ false false 1 com (zeros 2048) 5 h1 e out Hp ltac:(lia) Hc ltac:(vm_compute; reflexivity) ltac:(discriminate) Sx)
          as (c1 & rest & _ & _ & I1 & _ & I3 & _).
        destruct (I3 (HT _ _ _ I1)) as (_ & Q & _). exact Q. }
      subst e. exists out. split; [reflexivity|].
      assert (Lz : List.length (zeros 2048) = 2048%nat) by apply repeat_length. rewrite Lz in B3.
      rewrite (delivered_received (zeros 2048) _ out Lz B3). destruct (R c rs Sc Rr ltac:(lia) out B3) as [D1 D2]. split; [intros Hn; apply D1; lia|intros ->; apply D2; exact Lr]. }
    assert (El : forall i, (i <= n)%nat -> elapsed E 1 com (e_clock E (h ++ [EvNow])) (h ++ [EvNow; EvSec true false 1 com packet 5]) i <= 10000000000).
    { intros i Hi. unfold elapsed. change (e_clock E) with clock. pose proof (Ck h packet i Hi) as C. unfold exchange in C. rewrite <- !app_assoc in *. cbn [app] in *. lia. }
    destruct (An n (le_n _)) as (b & Ea & _ & Fin). destruct (Fin eq_refl) as (F1 & F2 & sent & F3 & F4 & F5).
    exists n, sent. change (e_fuel E) with fuel. split; [exact Hf|]. split.
    { intros i Hi. destruct (An i ltac:(lia)) as (bi & Ei & Wi & _). unfold poll_again. rewrite Ei. cbn [fst snd]. split; [reflexivity|]. split; [auto|apply El; lia]. }
    rewrite Ea. cbn [fst snd]. specialize (El n (le_n _)). auto 10.
Qed.
