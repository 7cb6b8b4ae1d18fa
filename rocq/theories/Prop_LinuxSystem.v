(** Property theorems C121-C125: drives opened on a complete Linux system.  [S] is an arbitrary system: which paths open, what sysfs and
    the partition tables say, and the kernel's answer to every ioctl, each any function of what was done before. *)
From Verif Require Import Base M_Buffer M_Struc M_Ata M_TcgToken M_TcgCommand M_TcgDevice M_TcgSession M_DriveHandle M_Cdb M_SgDriver M_SgHandle M_NvmeLinux M_Strings M_LinuxInfo M_LinuxFactory
  M_LinuxSystem M_TcgOnDrive Spec_Drive P_DriveHandle Prop_Drive Spec_LinuxFactory P_LinuxFactory Prop_LinuxFactory Spec_NvmeLinux Spec_Sg P_Sg Prop_Sg
  Prop_NvmeLinux Prop_SgHandle Spec_Tcg Spec_TcgCommand Spec_TcgClient Spec_TcgSession Spec_TcgOnDrive Prop_TcgDevice Prop_TcgOnDrive Spec_LinuxSystem P_LinuxSystem.

(** The addresses the drivers pass are 64 bit, and that of the SG driver's aligned buffer is a multiple of 512 (C44). *)
Definition addresses_ok (S : system) : Prop :=
  (forall h k, sy_nvme_addr S h k < 2 ^ 64) /\ (forall h, sy_sg_addr S h [] mod 512 = 0).
(** IDENTIFY DEVICE through SG was accepted: one of at most two requests succeeded and the sense data of the first is clean. *)
Definition sg_accepted (K : kern) (cs : sg_hist) : Prop :=
  match cs with
  | c1 :: rest => (succeeded (K [c1]) \/ exists c2, rest = [c2] /\ succeeded (K [c1; c2])) /\ nibble2 (sense32 (K [c1])) = 0
  | [] => False
  end.

Lemma name_of_nvme x K fd A kh id : driven_by x {| o_drv := nv_drv K fd A kh id; o_type := nvme_type |} ->
  l_driver_name x = str "LinuxNvmeDriver" /\ l_driving x = 2.
Proof. intros (_ & _ & -> & -> & _). split; reflexivity. Qed.
Lemma name_of_sg x K A kh id : driven_by x {| o_drv := sg_drv K A kh id; o_type := ata_type |} ->
  l_driver_name x = str "LinuxScsiDriver" /\ l_driving x = 1.
Proof. intros (_ & _ & -> & -> & _). split; reflexivity. Qed.
Lemma install_driven x o x' r : ihealthy x -> install x o = (x', r) -> ihealthy x' /\ driven_by x' o /\ l_fd x' = l_fd x.
Proof. intros Hh H. destruct (install_spec _ _ _ _ Hh H) as (A & B & C & _). split; [exact A|]. split; [exact C|]. apply B. Qed.

Lemma firstn_S_snoc {A} (l : list A) n c : nth_error l n = Some c -> firstn (S n) l = firstn n l ++ [c].
Proof. revert l. induction n as [|n IH]; intros [|a l] [=]; [now subst|]. cbn [firstn app]. f_equal. now apply IH. Qed.

(** C121: both IDENTIFY commands are always sent, and the name of the driver tells which was accepted; SG wins. *)
Theorem C121_driver_name : forall S h path h' x fd, addresses_ok S ->
  w_open (sy_world S) (h ++ [LOpen path]) = inr fd -> open_by_path (linux S) h path = (h', Ok x) ->
  let KN := sy_nvme S (at_nvme h path fd) in
  let KS := sy_sg S (at_sg h path fd) in
  exists n1 ss, nvme_identify fd n1 /\ Forall sata_identify ss /\ (1 <= List.length ss <= 2)%nat
  /\ (sg_accepted KS ss -> l_driver_name x = str "LinuxScsiDriver" /\ l_driving x = 1)
  /\ (~ sg_accepted KS ss -> nv_succeeded (KN [n1]) -> l_driver_name x = str "LinuxNvmeDriver" /\ l_driving x = 2)
  /\ (~ sg_accepted KS ss -> ~ nv_succeeded (KN [n1]) -> l_driver_name x = [] /\ l_driving x = 0
        /\ forall V ops, exists i outs, hrun V (l_dh x) [] ops = ([], ({| p_dh := None; p_info := i |}, outs)) /\ Forall2 dead_answer ops outs).
Proof.
  intros S h path h' x fd (HA & HB) Ew H KN KS.
  destruct (open_installs (linux S) h path h' (Ok x) fd Ew H) as (x0 & (B1 & B2 & B3 & B4 & B5) & Er).
  rewrite linux_nvme, linux_sg in Er.
  destruct (nvme_probe S (at_nvme h path fd) fd (HA _ _)) as (n1 & _ & N2 & N3). fold KN in N3.
  destruct (sg_probe S (at_sg h path fd) (HB _)) as (s1 & rest & _ & S2 & S3 & S4). fold KS in S4.
  exists n1, (s1 :: rest). split; [exact N2|]. split; [exact S3|]. split; [cbn; lia|].
  set (pn := probe_nvme S (at_nvme h path fd) fd) in *. set (ps := probe_sg S (at_sg h path fd)) in *.
  assert (M : exists x1, ihealthy x1 /\ then_install x1 ps (fun x2 => Ok x2) = Ok x /\
    (nv_succeeded (KN [n1]) -> l_driver_name x1 = str "LinuxNvmeDriver" /\ l_driving x1 = 2) /\ (~ nv_succeeded (KN [n1]) -> x1 = x0)).
  { destruct N3 as [(F & e & Ee)|(F & id & Lid & D & Eo)].
    - rewrite Ee in Er. cbn [then_install] in Er. exists x0. split; [exact B1|]. split; [now rewrite <- Er|]. split; [tauto|reflexivity].
    - rewrite Eo in Er. unfold then_install at 1 in Er.
      match type of Er with context [install x0 ?o] => destruct (install x0 o) as (x1, r1) eqn:Ei end.
      destruct (install_driven _ _ _ _ B1 Ei) as (C1 & C2 & _). exists x1. split; [exact C1|].
      split; [destruct r1; try discriminate; now rewrite <- Er|]. split; [intros _; exact (name_of_nvme _ _ _ _ _ _ C2)|tauto]. }
  destruct M as (x1 & C1 & Es & M1 & M2).
  destruct S4 as [((e & Ee) & Rj)|(Ac & Cl & id & D & Eo)].
  - rewrite Ee in Es. cbn [then_install] in Es. injection Es as ->.
    assert (NA : ~ sg_accepted KS (s1 :: rest)).
    { intros (X1 & X2). destruct Rj as [(R1 & c2 & R2 & R3)|R]; [|contradiction].
      destruct X1 as [X1|(c & X3 & X4)]; [contradiction|]. assert (c = c2) by congruence. subst c. contradiction. }
    split; [contradiction|]. split; [intros _; exact M1|]. intros _ F. rewrite (M2 F).
    destruct B2 as (U1 & U2 & U3 & U4). split; [exact U4|]. split; [exact U3|]. intros V ops.
    destruct (l_dh x0) as [d i]. cbn [p_dh] in U1. subst d. exact (dead_run V ops i []).
  - rewrite Eo in Es. unfold then_install in Es.
    match type of Es with context [install x1 ?o] => destruct (install x1 o) as (x2, r2) eqn:Ei end.
    destruct (install_driven _ _ _ _ C1 Ei) as (C3 & C4 & _).
    assert (x2 = x) by (destruct r2; congruence). subst x2.
    split; [intros _; exact (name_of_sg _ _ _ _ _ C4)|].
    assert (sg_accepted KS (s1 :: rest)) by (split; assumption). tauto.
Qed.
Print Assumptions C121_driver_name.

Lemma nvme_opened : forall S h path h' x fd, addresses_ok S ->
  w_open (sy_world S) (h ++ [LOpen path]) = inr fd -> open_by_path (linux S) h path = (h', Ok x) ->
  l_driver_name x = str "LinuxNvmeDriver" ->
  let K := sy_nvme S (at_nvme h path fd) in
  exists c1 c2 id ans, nvme_ioctls S (at_nvme h path fd) x = [c1; c2] /\ nvme_identify fd c1 /\ nvme_level0 fd c2
  /\ nv_succeeded (K [c1]) /\ delivered (zeros 4096) (firstn 4096 (na_in (K [c1]))) id
  /\ nvme_texts id (p_info (l_dh x)) /\ i_smart (p_info (l_dh x)) = true /\ i_ssd (p_info (l_dh x)) = true
  /\ delivered (zeros 2048) (na_in (K [c1; c2])) ans
  /\ (nv_succeeded (K [c1; c2]) -> discovery_recorded (Some ans) (p_info (l_dh x)))
  /\ (~ nv_succeeded (K [c1; c2]) -> discovery_recorded None (p_info (l_dh x)))
  /\ fst (nv_open K [] fd (sy_nvme_addr S (at_nvme h path fd) [])) = [c1] /\ l_fd x = fd /\ over_nvme (l_dh x)
  /\ l_drv x = Some (nv_drv K fd (sy_nvme_addr S (at_nvme h path fd)) [c1] id).
Proof.
  intros S h path h' x fd (HA & HB) Ew H Hn K.
  destruct (open_installs (linux S) h path h' (Ok x) fd Ew H) as (x0 & (B1 & B2 & B3 & B4 & B5) & Er).
  rewrite linux_nvme, linux_sg in Er.
  destruct (nvme_probe S (at_nvme h path fd) fd (HA _ _)) as (n1 & N1 & N2 & N3). fold K in N1, N3.
  destruct (sg_probe S (at_sg h path fd) (HB _)) as (s1 & rest & _ & S2 & S3 & S4).
  set (pn := probe_nvme S (at_nvme h path fd) fd) in *. set (ps := probe_sg S (at_sg h path fd)) in *.
  assert (Ps : forall x1, ihealthy x1 -> then_install x1 ps (fun x2 => Ok x2) = Ok x -> x1 = x).
  { intros x1 C1 E. destruct S4 as [((e & Ee) & _)|(_ & _ & id & D & Eo)]; [rewrite Ee in E; now injection E|].
    rewrite Eo in E. unfold then_install in E.
    match type of E with context [install x1 ?o] => destruct (install x1 o) as (x2, r2) eqn:Ei end.
    destruct (install_driven _ _ _ _ C1 Ei) as (_ & C4 & _). assert (x2 = x) by (destruct r2; congruence). subst x2.
    destruct (name_of_sg _ _ _ _ _ C4) as (Hx & _). rewrite Hn in Hx. discriminate Hx. }
  destruct N3 as [(F & e & Ee)|(F & id & Lid & D & Eo)].
  - rewrite Ee in Er. cbn [then_install] in Er. pose proof (Ps _ B1 (eq_sym Er)) as <-.
    destruct B2 as (_ & _ & _ & U). rewrite U in Hn. discriminate.
  - rewrite Eo in Er. unfold then_install at 1 in Er.
    match type of Er with context [install x0 ?o] => destruct (install x0 o) as (x1, r1) eqn:Ei end.
    destruct (install_driven _ _ _ _ B1 Ei) as (C1 & C2 & C3).
    assert (Hr : (r1 = Ok tt \/ exists e, r1 = Err e) /\ x1 = x).
    { destruct r1 as [[]|e| |]; try discriminate; (split; [eauto|]); apply Ps; auto. }
    destruct Hr as (Hr & ->).
    destruct (install_nvme K fd (sy_nvme_addr S (at_nvme h path fd)) [n1] id x0 x r1 B1 Lid (HA _) Ei) as (c2 & ans & R & L0 & Da & (F1 & F2 & F3 & F4 & F5 & F6 & F7 & _) & O).
    exists n1, c2, id, ans. split. { unfold nvme_ioctls. cbv zeta. fold K. rewrite C3, B3, N1. exact R. }
    split; [exact N2|]. split; [exact L0|]. split; [exact F|]. split; [exact D|]. split; [unfold nvme_texts; auto|]. split; [exact F6|]. split; [exact F7|].
    split; [exact Da|]. cbn [app] in O. rewrite B5 in O.
    match goal with |- ?P /\ ?Q /\ ?R => cut (P /\ Q); [intros (X1 & X2); split; [exact X1|split; [exact X2|]];
      split; [exact N1|]; split; [congruence|]; split; [exact (proj1 C2)|exact (proj1 (proj2 C2))]|] end.
    destruct O as [(O1 & O2)|(O1 & k & O2)].
    + split; [intros _|tauto].
      assert (Rk : r1 = Ok tt).
      { destruct O2 as (_ & [->| ->] & _); [reflexivity|]. destruct Hr as [Hr|(e & Hr)]; discriminate Hr. }
      exact (outcome_recorded _ None ans _ _ eq_refl O2 Rk ltac:(discriminate)).
    + split; [tauto|intros _].
      exact (outcome_recorded _ (Some (errno k)) ans _ _ eq_refl O2 (proj1 O2) ltac:(intros y [= <-]; discriminate)).
Qed.

(** C122: what the information of an NVMe drive is made of. *)
Theorem C122_nvme_information : forall S h path h' x fd, addresses_ok S ->
  w_open (sy_world S) (h ++ [LOpen path]) = inr fd -> open_by_path (linux S) h path = (h', Ok x) ->
  l_driver_name x = str "LinuxNvmeDriver" ->
  let K := sy_nvme S (at_nvme h path fd) in
  exists c1 c2 id ans, nvme_ioctls S (at_nvme h path fd) x = [c1; c2] /\ nvme_identify fd c1 /\ nvme_level0 fd c2
  /\ nv_succeeded (K [c1]) /\ delivered (zeros 4096) (firstn 4096 (na_in (K [c1]))) id
  /\ nvme_texts id (p_info (l_dh x)) /\ i_smart (p_info (l_dh x)) = true /\ i_ssd (p_info (l_dh x)) = true
  /\ delivered (zeros 2048) (na_in (K [c1; c2])) ans
  /\ (nv_succeeded (K [c1; c2]) -> discovery_recorded (Some ans) (p_info (l_dh x)))
  /\ (~ nv_succeeded (K [c1; c2]) -> discovery_recorded None (p_info (l_dh x))).
Proof.
  intros S h path h' x fd HS Ew H Hn K. destruct (nvme_opened S h path h' x fd HS Ew H Hn) as (c1 & c2 & id & ans & X).
  exists c1, c2, id, ans. fold K in X. tauto.
Qed.
Print Assumptions C122_nvme_information.


(** C123: what the information of a SATA drive is made of (the kernel refuses NVMe commands on it). *)
Theorem C123_sata_information : forall S h path h' x fd, addresses_ok S ->
  w_open (sy_world S) (h ++ [LOpen path]) = inr fd -> open_by_path (linux S) h path = (h', Ok x) ->
  no_nvme (sy_nvme S (at_nvme h path fd)) -> l_driver_name x = str "LinuxScsiDriver" ->
  let K := sy_sg S (at_sg h path fd) in
  exists s1 srest c1 rest id, sg_ioctls S (at_sg h path fd) x = (s1 :: srest) ++ c1 :: rest
  /\ Forall sata_identify (s1 :: srest) /\ (List.length srest <= 1)%nat /\ sg_accepted K (s1 :: srest)
  /\ delivered (zeros 512) (an_in (K [s1])) id /\ ata_texts id (p_info (l_dh x))
  /\ i_smart (p_info (l_dh x)) = (N.testbit (word 82 id) 0 && N.testbit (word 85 id) 0)%bool
  /\ sata_level0 c1 /\ Forall (fun c => sata_level0 c \/ sata_trusted c) rest /\ (List.length rest <= 3)%nat
  /\ (succeeded (K (s1 :: srest ++ [c1])) -> rest = [] /\ exists ans, delivered (zeros 2048) (an_in (K (s1 :: srest ++ [c1]))) ans
        /\ discovery_recorded (Some ans) (p_info (l_dh x)))
  /\ ((forall n, (n <= List.length rest)%nat -> ~ succeeded (K (s1 :: srest ++ c1 :: firstn n rest))) -> discovery_recorded None (p_info (l_dh x))).
Proof.
  intros S h path h' x fd (HA & HB) Ew H Nn Hn K.
  destruct (open_installs (linux S) h path h' (Ok x) fd Ew H) as (x0 & (B1 & B2 & B3 & B4 & B5) & Er).
  rewrite linux_nvme, linux_sg in Er.
  destruct (nvme_probe S (at_nvme h path fd) fd (HA _ _)) as (n1 & _ & _ & N3).
  destruct (sg_probe S (at_sg h path fd) (HB _)) as (s1 & srest & E1 & S2 & S3 & S4). fold K in E1, S4.
  set (pn := probe_nvme S (at_nvme h path fd) fd) in *. set (ps := probe_sg S (at_sg h path fd)) in *.
  destruct N3 as [(_ & e & Ee)|(F & _)]; [|destruct (Nn _ F)]. rewrite Ee in Er. cbn [then_install] in Er. clear Ee.
  destruct S4 as [((e' & Ee) & _)|(Ac & Cl & id & D & Eo)].
  { rewrite Ee in Er. cbn [then_install] in Er. injection Er as ->. destruct B2 as (_ & _ & _ & U). rewrite U in Hn. discriminate. }
  rewrite Eo in Er. unfold then_install in Er.
  match type of Er with context [install x0 ?o] => destruct (install x0 o) as (x2, r2) eqn:Ei end.
  assert (Hx : x2 = x /\ r2 <> Panic) by (destruct r2; split; congruence). destruct Hx as (-> & Hp). clear Er.
  assert (Lid : List.length id = 512%nat) by (rewrite (proj1 D); apply repeat_length).
  destruct (install_sg K (sy_sg_addr S (at_sg h path fd)) (s1 :: srest) id x0 x r2 B1 Lid Ei)
    as (c1 & rest & e2 & ans & R & Lr & L0 & Fr & (F1 & F2 & F3 & F4 & F5 & _) & O & Et & G1 & G2 & _).
  rewrite B5 in O.
  exists s1, srest, c1, rest, id. split. { unfold sg_ioctls. cbv zeta. fold K. rewrite E1. exact R. }
  split; [exact S3|]. split; [exact S2|]. split; [split; assumption|]. split; [exact D|]. split; [unfold ata_texts; auto|]. split; [exact F5|].
  split; [exact L0|]. split; [exact Fr|]. split; [exact Lr|]. split.
  - intros Y. destruct (G1 Y) as (-> & -> & Da). split; [reflexivity|]. exists ans. split; [exact Da|].
    assert (Rk : r2 = Ok tt) by (destruct O as (_ & [->| ->] & _); [reflexivity|congruence]).
    exact (outcome_recorded _ None ans _ _ eq_refl O Rk ltac:(discriminate)).
  - intros Y. destruct e2 as [y|].
    + exact (outcome_recorded _ (Some y) ans _ _ eq_refl O (proj1 O) Et).
    + destruct (G2 eq_refl) as (n & Hl & Hs). destruct (Y n Hl Hs).
Qed.
Print Assumptions C123_sata_information.

(** C124: on a drive only the NVMe driver accepts, OpenByPath ends the program exactly when the drive's Level 0 answer is malformed. *)
Theorem C124_open_panics_iff : forall S h path h' r fd, addresses_ok S ->
  w_open (sy_world S) (h ++ [LOpen path]) = inr fd -> open_by_path (linux S) h path = (h', r) ->
  no_sg (sy_sg S (at_sg h path fd)) ->
  let K := sy_nvme S (at_nvme h path fd) in
  exists c1, nvme_identify fd c1
  /\ (~ nv_succeeded (K [c1]) -> exists x, r = Ok x)
  /\ (nv_succeeded (K [c1]) -> exists c2 ans, nvme_level0 fd c2 /\ delivered (zeros 2048) (na_in (K [c1; c2])) ans
        /\ (r = Panic <-> nv_succeeded (K [c1; c2]) /\ malformed ans)
        /\ (r <> Panic -> exists x, r = Ok x)).
Proof.
  intros S h path h' r fd (HA & HB) Ew H Ns K.
  destruct (open_installs (linux S) h path h' r fd Ew H) as (x0 & (B1 & B2 & B3 & B4 & B5) & Er).
  rewrite linux_nvme, linux_sg in Er.
  destruct (nvme_probe S (at_nvme h path fd) fd (HA _ _)) as (n1 & _ & N2 & N3). fold K in N3.
  destruct (sg_probe S (at_sg h path fd) (HB _)) as (s1 & srest & _ & _ & _ & S4).
  destruct S4 as [((e & Ee) & _)|([F|(c2 & _ & F)] & _)]; [|destruct (Ns _ F)..].
  rewrite Ee in Er. clear Ee.
  exists n1. split; [exact N2|].
  destruct N3 as [(F & e1 & E1)|(F & id & Lid & _ & Eo)].
  - rewrite E1 in Er. cbn [then_install] in Er. split; [eauto|tauto].
  - split; [tauto|]. intros _. rewrite Eo in Er. unfold then_install in Er.
    match type of Er with context [install x0 ?o] => destruct (install x0 o) as (x1, r1) eqn:Ei end.
    destruct (install_nvme K fd (sy_nvme_addr S (at_nvme h path fd)) [n1] id x0 x1 r1 B1 Lid (HA _) Ei) as (c2 & ans & _ & L0 & Da & _ & O).
    exists c2, ans. split; [exact L0|]. split; [exact Da|]. cbn [app] in O.
    destruct O as [(O1 & _ & [->| ->] & O2 & _)|(O1 & k & -> & _)]; subst r.
    + split; [|eauto]. split; [discriminate|]. intros (_ & M). apply O2 in M. discriminate.
    + split; [|congruence]. split; [|reflexivity]. intros _. split; [exact O1|]. now apply O2.
    + split; [|eauto]. split; [discriminate|]. tauto.
Qed.
Print Assumptions C124_open_panics_iff.

(** On any drive, it ends the program only over a malformed Level 0 answer to a command that some driver sent successfully; and it never
    fails once the path was opened. *)
Theorem C124_open_outcomes : forall S h path h' r fd, addresses_ok S ->
  w_open (sy_world S) (h ++ [LOpen path]) = inr fd -> open_by_path (linux S) h path = (h', r) ->
  let KN := sy_nvme S (at_nvme h path fd) in
  let KS := sy_sg S (at_sg h path fd) in
  (exists x, r = Ok x)
  \/ r = Panic /\ exists ans, List.length ans = 2048%nat /\ malformed ans
     /\ ((exists c1 c2, nvme_level0 fd c2 /\ nv_succeeded (KN [c1; c2]) /\ delivered (zeros 2048) (na_in (KN [c1; c2])) ans)
         \/ exists before c, (sata_level0 c \/ sata_trusted c) /\ succeeded (KS (before ++ [c]))).
Proof.
  intros S h path h' r fd (HA & HB) Ew H KN KS.
  destruct (open_installs (linux S) h path h' r fd Ew H) as (x0 & (B1 & B2 & B3 & B4 & B5) & Er).
  rewrite linux_nvme, linux_sg in Er.
  destruct (nvme_probe S (at_nvme h path fd) fd (HA _ _)) as (n1 & _ & N2 & N3). fold KN in N3.
  destruct (sg_probe S (at_sg h path fd) (HB _)) as (s1 & srest & _ & _ & _ & S4). fold KS in S4.
  assert (Ps : forall x1, ihealthy x1 -> r = then_install x1 (probe_sg S (at_sg h path fd)) (fun x2 => Ok x2) ->
    (exists x, r = Ok x) \/ r = Panic /\ exists ans, List.length ans = 2048%nat /\ malformed ans
     /\ exists before c, (sata_level0 c \/ sata_trusted c) /\ succeeded (KS (before ++ [c]))).
  { intros x1 C1 E. destruct S4 as [((e & Ee) & _)|(_ & _ & id & D & Eo)]; [rewrite Ee in E; cbn in E; eauto|].
    rewrite Eo in E. unfold then_install in E.
    match type of E with context [install x1 ?o] => destruct (install x1 o) as (x2, r2) eqn:Ei end.
    assert (Lid : List.length id = 512%nat) by (rewrite (proj1 D); apply repeat_length).
    destruct (install_sg KS (sy_sg_addr S (at_sg h path fd)) (s1 :: srest) id x1 x2 r2 C1 Lid Ei)
      as (c1 & rest & e2 & ans & _ & _ & L0 & Fr & _ & O & _ & _ & G2 & La).
    destruct e2 as [y|]; [destruct O as (-> & _); left; eauto|].
    destruct O as (_ & [->| ->] & O2 & _); [left; eauto|right]. split; [exact E|]. exists ans. split; [exact La|]. split; [now apply O2|].
    destruct (G2 eq_refl) as (n & Hl & Hs). destruct n as [|n].
    - exists (s1 :: srest), c1. auto.
    - destruct (nth_error rest n) as [c|] eqn:En; [|apply nth_error_None in En; lia].
      exists ((s1 :: srest) ++ c1 :: firstn n rest), c. split; [eapply Forall_forall in Fr; [exact Fr|eapply nth_error_In; exact En]|].
      rewrite <- app_assoc. cbn [app]. rewrite (firstn_S_snoc rest n c En) in Hs. exact Hs. }
  destruct N3 as [(F & e1 & E1)|(F & id & Lid & _ & Eo)].
  - rewrite E1 in Er. cbn [then_install] in Er. destruct (Ps x0 B1 Er) as [X|(X & ans & X1 & X2 & X3)]; [now left|right; eauto 10].
  - rewrite Eo in Er. unfold then_install at 1 in Er.
    match type of Er with context [install x0 ?o] => destruct (install x0 o) as (x1, r1) eqn:Ei end.
    destruct (install_driven _ _ _ _ B1 Ei) as (C1 & _ & _).
    destruct (install_nvme KN fd (sy_nvme_addr S (at_nvme h path fd)) [n1] id x0 x1 r1 B1 Lid (HA _) Ei) as (c2 & ans & _ & L0 & Da & _ & O).
    cbn [app] in O, Da.
    assert (Hr : r1 = Ok tt \/ r1 = Panic /\ nv_succeeded (KN [n1; c2]) /\ malformed ans).
    { destruct O as [(O1 & _ & [->| ->] & O2 & _)|(O1 & k & -> & _)]; [now left| |now left]. right. split; [reflexivity|]. split; [exact O1|]. now apply O2. }
    destruct Hr as [->|(-> & Hs & Hm)].
    + destruct (Ps x1 C1 Er) as [X|(X & ans' & X1 & X2 & X3)]; [now left|right; eauto 10].
    + right. split; [exact Er|]. exists ans. split; [rewrite (proj1 Da); apply repeat_length|]. split; [exact Hm|]. left. eauto.
Qed.
Print Assumptions C124_open_outcomes.
