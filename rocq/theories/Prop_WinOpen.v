(** Property theorems C140: when opening a Windows drive ends the program. *)
From Verif Require Import Base M_Buffer M_Struc M_Ata M_TcgDevice M_DriveHandle M_Cdb M_SgDriver M_Strings M_LinuxFactory M_WinPass M_WinNvme M_WinInfo M_WinFactory
  Spec_Drive P_Discovery P_DriveHandle Prop_Drive Spec_LinuxFactory P_LinuxFactory Spec_Sg P_Sg Prop_Sg Spec_WinPass Spec_WinNvme Spec_WinInfo P_WinPass P_WinNvme
  Prop_WinPass Prop_WinNvme Prop_WinDrive Prop_WinInfo Spec_WinFactory P_WinFactory Prop_WinFactory Spec_LinuxSystem P_LinuxSystem Prop_LinuxTcg Spec_WinSystem P_WinSystem
  Prop_WinSystem Spec_WinOpen.

(** Whatever driver accepted the drive, discovery ran once, and what it answered decides. *)
Theorem C140_one_discovery : forall S A h hd path k d g h' r, addr_ok A -> accepted_by S A h hd k d g -> win_open_by_handle S A h hd path = (h', r) ->
  exists o, level0 S A hd d g k h' o /\ match o with Some ans => answered ans r d g | None => opens r d g (recorded_refusal k) end.
Proof.
  intros S A h hd path k d g h' r HA Ac H. destruct k.
  - destruct (C129_level0_over_miniport _ _ _ _ _ _ _ _ _ Ac H) as (call & -> & H1 & H2 & H3 & Y & N). cbv zeta in *.
    destruct (N.eq_dec (wa_err (s_io S (g ++ [WIo call]))) 0) as [O|O].
    + destruct (Y O) as (page & D & An). exists (Some (firstn (N.to_nat 2048) page)). split; [now apply l0_miniport|exact An].
    + exists None. split; [now apply l0_miniport_refused|exact (N O)].
  - destruct (C130_level0_over_storage_query _ _ _ _ _ _ _ _ _ HA Ac H) as (cdb & [e|] & ans & H1 & H2 & Y & N).
    + exists None. split; [eapply l0_query_refused; eassumption|]. apply N. discriminate.
    + exists (Some ans). split; [eapply l0_query; eassumption|]. now apply Y.
  - destruct (C130_level0_over_scsi _ _ _ _ _ _ _ _ _ HA Ac H) as (cdb & h1 & [e|] & mid & H1 & H2 & Y & N).
    + destruct (N ltac:(discriminate)) as (cdb2 & e2 & ans & H3 & H4 & Y2 & N2). exists (match e2 with None => Some ans | Some _ => None end).
      split; [eapply l0_scsi_trusted; eassumption|]. destruct e2; [apply N2; discriminate|now apply Y2].
    + destruct (Y eq_refl) as [-> An]. exists (Some mid). split; [eapply l0_scsi; eassumption|exact An].
  - destruct (C130_level0_over_ata _ _ _ _ _ _ _ _ _ HA Ac H) as (c1 & rest & t & p1 & -> & H1 & H2 & H3 & H4 & H5 & Y & N). cbv zeta in *.
    set (a1 := s_io S (g ++ [WIo c1])) in *.
    assert (G : let good := win_ok a1 /\ N.testbit (ap_command (apt_decode p1)) 0 = false /\ N.testbit (ap_command (apt_decode p1)) 3 = false in good \/ ~ good).
    { cbv zeta. unfold win_ok. destruct (N.eq_dec (wa_err a1) 0); [|right; tauto]. destruct (N.testbit (ap_command (apt_decode p1)) 0); [right; intuition discriminate|].
      destruct (N.testbit (ap_command (apt_decode p1)) 3); [right; intuition discriminate|left; auto]. }
    destruct G as [G|G].
    + destruct (Y G) as (-> & ans & D & An). exists (Some ans). split; [|exact An]. eapply l0_ata; eauto. contradiction.
    + exists None. split; [|exact (N G)]. eapply l0_ata; eauto. contradiction.
Qed.
Print Assumptions C140_one_discovery.

Lemma order_kind before k after : driver_order = before ++ k :: after -> In k driver_order.
Proof. intros ->. apply in_elt. Qed.

(** C140.  OpenByPath of a path that opened: it ends the program exactly if the partition layout cannot be read; or some driver accepted the
    drive, discovery was answered and the descriptors of the answer run over it; or no driver accepted it and the storage descriptor cannot
    be read.  Otherwise it returns a handle. *)
Theorem C140_when_open_crashes : forall S A h path h' r hd, answers_bytes S -> addr_ok A -> ~ In 0 path -> s_open S (h ++ [WOpen path]) = inr hd ->
  win_open_by_path S A h path = (h', r) ->
  (layout_ends S (h ++ [WOpen path]) hd /\ r = Panic) \/
  (exists k d g o, accepted_by S A (h ++ [WOpen path]) hd k d g /\ level0 S A hd d g k h' o
     /\ (r = Panic <-> exists ans, o = Some ans /\ malformed ans) /\ (r <> Panic -> exists x, r = Ok x)) \/
  (exists h1 b h2 f, win_basic_info S (h ++ [WOpen path]) hd = (h1, Ok b) /\ refused S A hd h1 driver_order h2 /\ fetch S hd 0x2d1400 (zeros 12) h2 h' f
     /\ (r = Panic <-> unreadable_descriptor f) /\ (r <> Panic -> ~ short_descriptor f -> exists x, r = Ok x)).
Proof.
  intros S A h path h' r hd WS HA Np Ho H. destruct (C105_open_by_path _ _ _ _ _ _ WS H) as [(N0 & _)|(_ & Y)]; [contradiction|].
  rewrite Ho in Y. destruct Y as [Y _]. destruct (C104_open_by_handle _ _ _ _ _ _ _ WS Y) as (h1 & disk & Eb & X).
  destruct disk as [b|e| |]; [|contradiction| |contradiction].
  - right. destruct X as [(before & k & after & h2 & d & h3 & Eq & Rf & Pr & _)|(h2 & q & Rf & Q & X)].
    + left. assert (Ac : accepted_by S A (h ++ [WOpen path]) hd k d h3) by (exists h1, b, before, after, h2; auto).
      destruct (C140_one_discovery _ _ _ _ _ _ _ _ _ _ HA Ac Y) as (o & L & An). exists k, d, h3, o. split; [exact Ac|]. split; [exact L|].
      destruct o as [ans|].
      * destruct An as [[M ->]|[M (x & cs & -> & _)]].
        -- split; [split; [eauto|reflexivity]|congruence].
        -- split; [|eauto]. split; [discriminate|]. intros (z & [= <-] & Mz). contradiction.
      * destruct An as (x & cs & -> & _). split; [|eauto]. split; [discriminate|]. intros (z & Z & _). discriminate.
    + right. destruct (C103_storage_query _ _ _ _ _ Q) as (f & F & Z). exists h1, b, h2, f. split; [exact Eb|]. split; [exact Rf|]. split; [exact F|].
      destruct f as [(buf, data)|e| |].
      * cbv zeta in Z. cbn [unreadable_descriptor short_descriptor]. destruct Z as [(E & ->)|[(E & L & O & ->)|[(E & L & O & de & -> & _)|(E & L & ->)]]].
        -- subst r. split; [split; [auto|reflexivity]|congruence].
        -- subst r. split; [split; [auto|reflexivity]|congruence].
        -- destruct X as (x & -> & _). split; [|eauto]. split; [discriminate|]. intros [?|[_ ?]]; contradiction.
        -- subst r. split; [split; [discriminate|intros [?|[? _]]; [contradiction|lia]]|]. intros _ K. destruct K. auto.
      * subst q. destruct X as (x & -> & _). split; [split; [discriminate|intros []]|eauto].
      * subst q r. split; [split; [easy|reflexivity]|congruence].
      * subst q r. inversion F.
  - left. destruct X as [-> _]. split; [|reflexivity]. apply (C102_basic_info_panics S _ hd WS). eauto.
Qed.
Print Assumptions C140_when_open_crashes.
