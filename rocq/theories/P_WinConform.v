(** Lemmas for C182. *)
From Verif Require Import Base M_Buffer M_Struc M_Ata M_TcgToken M_TcgCommand M_TcgDevice M_TcgSession M_DriveHandle M_Cdb M_SgDriver M_Strings M_LinuxFactory M_TcgOnDrive
  M_WinPass M_WinNvme M_WinInfo M_WinFactory
  Spec_Drive P_DriveHandle P_Identity Prop_Drive Spec_LinuxFactory P_LinuxFactory Spec_Sg P_Sg Prop_Sg Spec_WinPass Spec_WinNvme P_WinPass P_WinNvme Prop_WinPass Prop_WinNvme Prop_WinDrive
  Prop_WinInfo Spec_WinFactory P_WinFactory Prop_WinFactory
  Spec_Tcg Spec_TcgCommand Spec_TcgClient Spec_TcgSession P_TcgDevice P_TcgSession Spec_TcgOnDrive Prop_TcgDevice P_TcgOnDrive P_TcgOnWin Prop_TcgOnWin
  Spec_LinuxSystem P_LinuxSystem Prop_LinuxTcg Spec_WinSystem P_WinSystem Prop_WinSystem Prop_WinTcg
  Spec_Conform Spec_NvmeConform P_NvmeConform Spec_WinConform.

Lemma exchange_short com packet k : List.length packet = 512%nat -> Forall (fun x => blen (x_data x) <= 4096) (commands (exchange com packet k)).
Proof.
  intros L. rewrite exchange_commands. constructor; [cbn [x_data]; unfold blen; rewrite L; discriminate|]. apply Forall_forall. intros x Hx. apply repeat_spec in Hx. subst x.
  cbn [x_data]. rewrite blen2048. discriminate.
Qed.
Lemma exchange_controls S A d h0 p g com packet k : wd_kind d = KNvmeWin -> over_win d p -> com < 2 ^ 16 -> List.length packet = 512%nat -> wf packet ->
  let V := win_drv S A d h0 in
  exists c rs, win_replay S A d h0 (driver_calls V p g (exchange com packet k)) = win_replay S A d h0 g ++ c :: rs
  /\ mp_send (wd_scsi d) com packet c /\ Forall (mp_recv (wd_scsi d) com) rs /\ List.length rs = k.
Proof.
  intros Hk Hp Hc L W V. pose proof (exchange_typed com packet k Hc L W) as T.
  destruct (C120_tcg_over_miniport S A d h0 p g _ Hk Hp T (exchange_short com packet k L)) as (evs & R & F). fold V in R. rewrite exchange_commands in F. clear T.
  destruct evs as [|c rs]; [inversion F|]. apply Forall2_cons_inv in F as [Q F].
  exists c, rs. split; [exact R|]. split; [exact Q|].
  clear R Q. revert k F. induction rs as [|r rs IH]; intros [|k] F; cbn [repeat] in F; [split; [constructor|reflexivity]|inversion F|inversion F|].
  apply Forall2_cons_inv in F as [Q F]. destruct (IH k F) as [IH1 IH2]. split; [constructor; [exact Q|exact IH1]|cbn [List.length]; now rewrite IH2].
Qed.

Lemma mp_replies_env S A d h0 p g clock kdf heap fuel com packet h n atoms :
  let V := win_drv S A d h0 in
  let E := drive_env V p g clock kdf heap fuel in
  wd_kind d = KNvmeWin -> over_win d p -> com < 2 ^ 16 -> List.length packet = 512%nat -> wf packet -> Forall typed (commands h) ->
  (n < fuel)%nat -> fast_enough clock com n ->
  mp_replies S (wd_scsi d) com packet (win_replay S A d h0 (driver_calls V p g h)) n atoms -> replies E com packet h atoms.
Proof.
  intros V E Hk Hp Hc L W Th Hf Ck R.
  assert (Hx : forall k, exists c rs, win_replay S A d h0 (driver_calls V p g (h ++ exchange com packet k)) = win_replay S A d h0 (driver_calls V p g h) ++ c :: rs
    /\ mp_send (wd_scsi d) com packet c /\ Forall (mp_recv (wd_scsi d) com) rs /\ List.length rs = k).
  { intros k. rewrite driver_calls_app. apply exchange_controls; assumption. }
  assert (Ty : forall k, Forall typed (commands (h ++ exchange com packet k))).
  { intros k. rewrite commands_app. apply Forall_app. split; [exact Th|now apply exchange_typed]. }
  set (k0 := win_replay S A d h0 (driver_calls V p g h)) in *.
  unfold replies. cbv zeta. split.
  - destruct (Hx 0%nat) as (c & rs & Eh & Sc & Rr & Lr). destruct rs; [|discriminate Lr].
    specialize (Ty 0%nat). unfold exchange in Ty, Eh. cbn [rounds repeat concat app] in Ty, Eh.
    change (h ++ [EvNow; EvSec true false 1 com packet 5]) with (h ++ [EvNow] ++ [EvSec true false 1 com packet 5]) in *. rewrite app_assoc in *.
    destruct (e_sec E ((h ++ [EvNow]) ++ [EvSec true false 1 com packet 5])) as [e out] eqn:Es. cbn [fst].
    unfold E in Es. rewrite (drive_env_sec V p g clock kdf heap fuel (h ++ [EvNow]) true false 1 com packet 5 Ty) in Es.
    rewrite driver_calls_app in Eh. cbn [driver_calls fold_left] in Eh.
    destruct (security_command V p (driver_calls V p g (h ++ [EvNow])) true false 1 com packet 5) as [h1 [e1 o1]] eqn:Sx. cbn [snd fst] in Es, Eh. injection Es as -> ->.
    destruct (C96_security_over_miniport S A d h0 p _ true false 1 com packet 5 h1 e out Hk Hp ltac:(lia) Hc ltac:(unfold blen; rewrite L; reflexivity) Sx) as [_ Q].
    destruct (Q ltac:(unfold blen; rewrite L; discriminate)) as (call & sent & _ & _ & _ & _ & _ & G1 & _). rewrite Eh in G1.
    destruct (R c [] Sc (Forall_nil _) ltac:(cbn; lia)) as [O _]. destruct (G1 O) as [X _]. exact X.
  - assert (An : forall i, (i <= n)%nat -> exists b, answer E 1 com (h ++ [EvNow; EvSec true false 1 com packet 5]) i = (None, b) /\
      ((i < n)%nat -> wants_poll (received b)) /\
      (i = n -> ~ wants_poll (received b) /\ has_payload (received b) /\ exists sent, carries (received b) (stream sent) /\ Forall atom_ok sent /\ visible sent = atoms)).
    { intros i Hi. unfold answer. assert (Ex : (h ++ [EvNow; EvSec true false 1 com packet 5]) ++ rounds 1 com (Datatypes.S i) = h ++ exchange com packet (Datatypes.S i)) by (unfold exchange; rewrite <- app_assoc; reflexivity).
      rewrite Ex. destruct (Hx (Datatypes.S i)) as (c & rs & Eh & Sc & Rr & Lr). destruct (e_sec E (h ++ exchange com packet (Datatypes.S i))) as [e out] eqn:Es.
      assert (Sp : h ++ exchange com packet (Datatypes.S i) = (h ++ exchange com packet i ++ [EvNow; EvSleep 25000000]) ++ [EvSec false false 1 com (zeros 2048) 5]).
      { unfold exchange. rewrite rounds_succ_r. unfold round. rewrite <- !app_assoc. reflexivity. }
      specialize (Ty (Datatypes.S i)). rewrite Sp in Es, Ty.
      destruct (C120_answers_over_miniport S A d h0 p g clock kdf heap fuel _ false 1 com (zeros 2048) 5 e out Hk Hp Ty ltac:(rewrite blen2048; discriminate) Es) as (B1 & _).
      rewrite <- Sp in B1. fold V in B1. rewrite Eh in B1.
      destruct (R c rs Sc Rr ltac:(lia)) as [Su Dl]. destruct (B1 Su) as (-> & sent & reply & Ds & Dr & Eo). apply page_of_zeros in Ds. subst sent.
      exists out. split; [reflexivity|].
      assert (Er : received out = firstn (N.to_nat 2048) reply).
      { rewrite Eo, len2048. unfold received. set (q := firstn 2048 reply). assert (Lq : List.length q = 2048%nat).
        { unfold q. rewrite firstn_length, (proj1 Dr). unfold zeros. rewrite repeat_length. lia. }
        rewrite firstn_all2 by lia. rewrite Lq. change (2048 - 2048)%nat with 0%nat. cbn [zeros repeat]. rewrite app_nil_r. unfold q. f_equal. }
      rewrite Er. destruct (Dl reply Dr) as [D1 D2]. split; [intros Hn; apply D1; lia|intros ->; apply D2; exact Lr]. }
    assert (El : forall i, (i <= n)%nat -> elapsed E 1 com (e_clock E (h ++ [EvNow])) (h ++ [EvNow; EvSec true false 1 com packet 5]) i <= 10000000000).
    { intros i Hi. unfold elapsed. change (e_clock E) with clock. pose proof (Ck h packet i Hi) as C. unfold exchange in C. rewrite <- !app_assoc in *. cbn [app] in *. lia. }
    destruct (An n (le_n _)) as (b & Ea & _ & Fin). destruct (Fin eq_refl) as (F1 & F2 & sent & F3 & F4 & F5).
    exists n, sent. change (e_fuel E) with fuel. split; [exact Hf|]. split.
    { intros i Hi. destruct (An i ltac:(lia)) as (bi & Ei & Wi & _). unfold poll_again. rewrite Ei. cbn [fst snd]. split; [reflexivity|]. split; [auto|apply El; lia]. }
    rewrite Ea. cbn [fst snd]. specialize (El n (le_n _)). auto 10.
Qed.
