(** Lemmas for C129-C131. *)
From Verif Require Import Base M_Buffer M_Struc M_Ata M_TcgDevice M_DriveHandle M_Cdb M_SgDriver M_Strings M_LinuxFactory M_WinPass M_WinNvme M_WinInfo M_WinFactory
  Spec_Drive P_Discovery P_DriveHandle Prop_Drive Spec_LinuxFactory P_LinuxFactory Spec_Sg P_Sg Prop_Sg Spec_WinPass Spec_WinInfo P_WinPass P_WinNvme
  Prop_WinPass Prop_WinNvme Prop_WinDrive Spec_WinFactory P_WinFactory Prop_WinFactory Spec_LinuxSystem P_LinuxSystem Spec_WinSystem.

Lemma probes_accept S A hd x k d g before : forall h after h2, refused S A hd h before h2 -> win_probe S A h2 hd k = (g, Ok d) ->
  win_probes S A h hd x (before ++ k :: after) =
  match win_install S A g x d with
  | (h3, Ok x1) => (h3, Ok (Some x1)) | (h3, Err e) => (h3, Err e) | (h3, Panic) => (h3, Panic) | (h3, Fuel) => (h3, Fuel)
  end.
Proof.
  induction before as [|k0 ks IH]; intros h after h2 R P.
  - inversion R; subst. cbn [app win_probes]. rewrite P. reflexivity.
  - inversion R as [|? ? e h1 ? ? P0 R1]; subst. cbn [app win_probes]. rewrite P0. exact (IH h1 after h2 R1 P).
Qed.
Lemma refused_probe S A hd k d g before h h2 : refused S A hd h before h2 -> win_probe S A h2 hd k = (g, Ok d) -> wd_kind d = k /\ wd_handle d = hd /\ full_identity d.
Proof. intros _ P. destruct (probe_total _ _ _ _ _ _ _ P) as [(e & E)|(d' & E & X)]; [discriminate|]. injection E as <-. exact X. Qed.
Lemma open_accepted S A h hd path k d g h' r : accepted_by S A h hd k d g -> win_open_by_handle S A h hd path = (h', r) ->
  wd_kind d = k /\ wd_handle d = hd /\ full_identity d /\ exists b, win_install S A g (whandle0 path b) d = (h', r).
Proof.
  intros (h1 & b & before & after & h2 & B & Eo & R & P) H. destruct (refused_probe _ _ _ _ _ _ _ _ _ R P) as (K & Hh & F).
  split; [exact K|]. split; [exact Hh|]. split; [exact F|]. exists b.
  unfold win_open_by_handle in H. rewrite B in H. change win_drivers with driver_order in H. rewrite Eo in H.
  rewrite (probes_accept S A hd (whandle0 path b) k d g before h1 after h2 R P) in H.
  destruct (win_install S A g (whandle0 path b) d) as (h3, q). destruct q; exact H.
Qed.

(** Installing runs Level 0 discovery once and records its outcome. *)
Definition asks : dhist := [CType; CName; CIdentity].
Lemma install_discovers S A g path b d h' r : full_identity d -> win_install S A g (whandle0 path b) d = (h', r) ->
  exists p calls e ans, over_win d p /\ security_command (win_drv S A d g) p asks false false 1 1 (zeros 2048) 3 = (calls, (e, ans))
  /\ h' = win_replay S A d g calls
  /\ match e with
     | None => answered ans r d g
     | Some x => opens r d g (if String.eqb (err_text x) "not supported" then recorded_unsupported else discovery_recorded None)
     end.
Proof.
  intros Hf H. assert (H0 := H). unfold win_install in H. set (V := win_drv S A d g) in *.
  set (i0 := p_info (f_dh (whandle0 path b))) in *. set (p := {| p_dh := Some (win_dtype (wd_kind d)); p_info := i0 |}) in H.
  assert (Hs : List.length (i_raw_serial i0) = 20%nat) by reflexivity.
  assert (T0 : i_tcg i0 = no_level0) by reflexivity.
  destruct (init V p [CType; CName]) as (calls, (p', q)) eqn:E.
  assert (X : exists i', i_tcg i' = no_level0 /\ init_tail V (with_info p i') asks = (calls, (p', q))).
  { unfold init in E. cbn [p p_dh] in E. unfold full_identity in Hf. change (p_info p) with i0 in E.
    assert (EI : v_identity V ([CType; CName] ++ [CIdentity]) = wd_identity d) by reflexivity.
    destruct (wd_kind d) eqn:K; cbn [win_dtype is_ata is_nvme] in E; cbv beta zeta iota in E; rewrite EI in E; cbn [app] in E.
    1,2: destruct (init_nvme_ok i0 (wd_identity d) ltac:(lia) Hs) as (i' & E1 & F & _ & _ & _ & _ & T & _ & L); rewrite E1 in E;
         exists i'; split; [rewrite T; exact T0|exact E].
    1,2: destruct (init_ata_ok i0 (wd_identity d) ltac:(lia) Hs) as (i' & E1 & F & _ & _ & _ & _ & T & _ & L); rewrite E1 in E;
         exists i'; split; [rewrite T; exact T0|exact E]. }
  destruct X as (i' & Ti & X). destruct (security_command V (with_info p i') asks false false 1 1 (zeros 2048) 3) as (h1, (e, ans)) eqn:ES.
  destruct (tail_outcome V _ _ _ _ _ _ _ _ ES X) as (<- & O). cbn [with_info p_info] in O. rewrite Ti in O.
  exists (with_info p i'), calls, e, ans. split; [reflexivity|]. split; [exact ES|].
  destruct (install_win S A g _ d h' r Hs Hf H0) as (cs & _ & _ & R).
  assert (Hq : q = Panic /\ r = Panic /\ h' = win_replay S A d g calls \/ q = Ok tt /\ h' = win_replay S A d g calls /\ exists x, r = Ok x /\ p_info (f_dh x) = p_info p').
  { assert (Q : q = Ok tt \/ q = Panic) by (destruct e; [left; apply O|apply O]). destruct Q as [-> | ->]; injection H as <- <-; [right|left; auto].
    split; [reflexivity|]. split; [reflexivity|]. eexists. split; reflexivity. }
  assert (Op : forall x (P : info -> Prop), r = Ok x -> p_info (f_dh x) = p_info p' -> P (p_info p') -> opens r d g P).
  { intros x P -> Ex HP. destruct R as [[R _]|(x' & R & _ & D & I)]; [discriminate|]. injection R as <-. exists x, cs. rewrite Ex. auto. }
  destruct Hq as [(-> & -> & ->)|(-> & -> & x & Er & Ex)]; (split; [reflexivity|]).
  - destruct e as [y|]; cbn [outcome] in O; [destruct O as (O & _); discriminate|]. left. split; [apply O; reflexivity|reflexivity].
  - destruct e as [y|].
    + cbn [outcome] in O. destruct O as (_ & O1 & O2). apply (Op x _ Er Ex). destruct (String.eqb (err_text y) "not supported"); split; try exact O1; rewrite O2; repeat split.
    + right. pose proof (outcome_recorded no_level0 None ans _ (Ok tt) eq_refl O eq_refl ltac:(discriminate)) as D. split; [apply D|]. exact (Op x _ Er Ex D).
Qed.
