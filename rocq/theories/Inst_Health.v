(** C147, C169, C170 applied to concrete systems: a SATA and an NVMe drive opened by path. *)
From Verif Require Import Base M_Buffer M_Struc M_Layouts M_Ata M_TcgDevice M_DriveHandle M_AtaUtil M_Cdb M_SgDriver M_SgHandle M_NvmeLinux M_Strings M_LinuxInfo M_LinuxFactory
  M_LinuxSystem M_LogPages Spec_Drive Spec_Identity Spec_LogPages Prop_Drive Prop_Identity Spec_LinuxFactory Spec_NvmeLinux Spec_Sg P_Sg Prop_Sg
  Prop_NvmeLinux Prop_SgHandle Spec_LinuxSystem P_LinuxSystem Prop_LinuxSystem Spec_Health Prop_Health Prop_LogPages Prop_LinuxTcg Ex_LinuxSystem Ex_Health.

(** every request is answered by a block of 512 bytes *)
Definition inst_block (n : nat) : bytes :=
  match n with 1%nat => exy_ata_identify | 2%nat => firstn 512 (exy_level0 ++ zeros 512) | 3%nat => exh_values | _ => exh_thresholds end.
Definition inst_sata (h : sg_hist) : sg_ans := exh_good (inst_block (List.length h)).
Definition inst_sata_sys : system := exy_sys exy_refuse_nvme inst_sata.
Definition health_check (S : system) (o : res handle) : bool := match o with
  | Ok x => (if list_eq_dec N.eq_dec (l_driver_name x) (str "LinuxScsiDriver") then true else false)
            && match l_drv x with Some _ => true | None => false end && (List.length (sg_ioctls S (at_sg [] exh_path 7) x) =? 2)%nat
  | _ => false end.
Lemma health_checked S : health_check S (snd (open_by_path (linux S) [] exh_path)) = true -> exists x V,
  open_by_path (linux S) [] exh_path = (fst (open_by_path (linux S) [] exh_path), Ok x) /\ l_driver_name x = str "LinuxScsiDriver" /\ l_drv x = Some V
  /\ List.length (sg_ioctls S (at_sg [] exh_path 7) x) = 2%nat.
Proof.
  unfold health_check. destruct (snd (open_by_path (linux S) [] exh_path)) as [x| | |] eqn:E; try discriminate. intros H.
  apply andb_prop in H as [H H3]. apply andb_prop in H as [H1 H2]. destruct (l_drv x) as [V|] eqn:EV; [|discriminate H2].
  exists x, V. split; [rewrite <- E; apply surjective_pairing|]. split; [destruct (list_eq_dec N.eq_dec (l_driver_name x) (str "LinuxScsiDriver")) as [Q|]; [exact Q|discriminate H1]|].
  split; [exact EV|]. now apply Nat.eqb_eq.
Qed.
Lemma inst_health_ok : health_check inst_sata_sys (snd (open_by_path (linux inst_sata_sys) [] exh_path)) = true.
Proof. vm_compute. reflexivity. Qed.
Lemma inst_block_length n : List.length (inst_block n) = 512%nat.
Proof. destruct n as [|[|[|[|n]]]]; vm_compute; reflexivity. Qed.
Lemma inst_answers k : answers_block inst_sata k (inst_block (List.length k)).
Proof. split; [vm_compute; repeat split; discriminate|]. split; [reflexivity|apply inst_block_length]. Qed.

(** ReadSmart succeeds and reports what is in the two blocks, field by field. *)
Example inst_C147 : exists x V cs values thresholds, l_drv x = Some V /\ read_smart V (l_dh x) (l_calls x) 3 = (cs, Ok (values, thresholds))
  /\ (forall n off sz c, In (n, (off, (sz, c))) smart_value_places -> field n values = be_elems off sz c exh_values)
  /\ (forall n off sz c, In (n, (off, (sz, c))) smart_threshold_places -> field n thresholds = be_elems off sz c exh_thresholds).
Proof.
  destruct (health_checked _ inst_health_ok) as (x & V & Ho & Hn & HV & L). destruct (read_smart V (l_dh x) (l_calls x) 3) as [cs r] eqn:R.
  assert (Nn : no_nvme (sy_nvme inst_sata_sys (at_nvme [] exh_path 7))) by (intros k (A & _); discriminate A).
  destruct (C147_read_smart inst_sata_sys [] exh_path _ x 7 3 cs r (exy_addresses _ _) eq_refl Ho Nn Hn V HV R) as (c1 & rest1 & second & _ & L1 & _ & _ & _ & _ & _ & Sh & Suc).
  destruct Suc as [[values thresholds] ->].
  { intros k. split; [vm_compute; reflexivity|]. eexists. apply inst_answers. }
  destruct (Sh values thresholds eq_refl) as (c2 & rest2 & _ & Sv & St & _). exists x, V, cs, values, thresholds. split; [exact HV|]. split; [exact R|].
  set (opening := sg_ioctls inst_sata_sys (at_sg [] exh_path 7) x) in *. clearbody opening. split.
  - apply Sv. pose proof (inst_answers (opening ++ [c1])) as A. rewrite app_length, L in A. exact A.
  - apply St. pose proof (inst_answers (opening ++ c1 :: rest1 ++ [c2])) as A. rewrite app_length, L in A. cbn [List.length] in A. rewrite app_length in A. cbn [List.length] in A.
    rewrite (Nat.add_comm (List.length rest1)) in A. exact A.
Qed.

(** ---- NVMe ---- *)
Definition page_check (S : system) (o : res handle) : bool := match o with
  | Ok x => (if list_eq_dec N.eq_dec (l_driver_name x) (str "LinuxNvmeDriver") then true else false)
            && match l_drv x with Some _ => true | None => false end && (List.length (nvme_ioctls S (at_nvme [] exh_path 7) x) =? 2)%nat
  | _ => false end.
Lemma page_checked S : page_check S (snd (open_by_path (linux S) [] exh_path)) = true -> exists x V,
  open_by_path (linux S) [] exh_path = (fst (open_by_path (linux S) [] exh_path), Ok x) /\ l_driver_name x = str "LinuxNvmeDriver" /\ l_drv x = Some V
  /\ List.length (nvme_ioctls S (at_nvme [] exh_path 7) x) = 2%nat.
Proof.
  unfold page_check. destruct (snd (open_by_path (linux S) [] exh_path)) as [x| | |] eqn:E; try discriminate. intros H.
  apply andb_prop in H as [H H3]. apply andb_prop in H as [H1 H2]. destruct (l_drv x) as [V|] eqn:EV; [|discriminate H2].
  exists x, V. split; [rewrite <- E; apply surjective_pairing|]. split; [destruct (list_eq_dec N.eq_dec (l_driver_name x) (str "LinuxNvmeDriver")) as [Q|]; [exact Q|discriminate H1]|].
  split; [exact EV|]. now apply Nat.eqb_eq.
Qed.
Lemma inst_page_ok : page_check exh_nsys (snd (open_by_path (linux exh_nsys) [] exh_path)) = true.
Proof. vm_compute. reflexivity. Qed.
Lemma inst_third k : List.length k = 3%nat -> exh_nvme k = {| na_errno := 0; na_ret := 0; na_result := 0; na_in := exh_page |}.
Proof. intros L. unfold exh_nvme. rewrite L. reflexivity. Qed.

(** NvmeGetLogPage(ffffffffh, 2, false, 516) gives no error and 516 bytes that decode, field by field, to what the drive wrote. *)
Example inst_C169 : exists x V cs page v, l_drv x = Some V /\ nvme_get_log_page V (l_dh x) (l_calls x) 0xffffffff 2 false 516 = (cs, (page, None))
  /\ blen page = 516 /\ decode_smart Little page = Ok v
  /\ forall n off sz cn, In (n, (off, (sz, cn))) smart_places -> field n v = le_elems off sz cn exh_page.
Proof.
  destruct (page_checked _ inst_page_ok) as (x & V & Ho & Hn & HV & L). destruct (nvme_get_log_page V (l_dh x) (l_calls x) 0xffffffff 2 false 516) as [cs [page e]] eqn:R.
  destruct (C169_from_drive exh_nsys [] exh_path _ x 7 0xffffffff false 516%positive cs page e (exy_addresses _ _) eq_refl Ho Hn eq_refl ltac:(split; discriminate) V HV R) as (c & v & Ea & _ & Es & Dc & Fl).
  destruct (C147_nvme_log_page exh_nsys [] exh_path _ x 7 0xffffffff 2 false 516%positive cs page e (exy_addresses _ _) eq_refl Ho Hn eq_refl eq_refl ltac:(split; [discriminate|reflexivity]) V HV R) as [Bl _].
  cbv zeta in Ea. set (after := nvme_ioctls exh_nsys (at_nvme [] exh_path 7) (with_calls x cs)) in *.
  assert (La : List.length after = 3%nat) by (rewrite Ea, app_length, L; reflexivity). clearbody after.
  change (sy_nvme exh_nsys (at_nvme [] exh_path 7)) with exh_nvme in Es, Fl. rewrite (inst_third after La) in Es, Fl. cbn [na_in] in Fl.
  rewrite (proj2 Es ltac:(split; reflexivity)) in R. exists x, V, cs, page, v. split; [exact HV|]. split; [exact R|]. split; [exact Bl|]. split; [exact Dc|].
  apply Fl. apply Nat.leb_le. vm_compute. reflexivity.
Qed.

(** The raw Opal 2 descriptor of the same drive, decoded field by field. *)
Definition inst_opal : feature := {| ft_code := 0x0203; ft_version := 0x20; ft_body := [0x10; 0x04; 0; 1] ++ zeros 12 |}.
Example inst_C170 : exists x V d v lay size t, l_drv x = Some V /\ raw_lookup (l_raw (i_tcg (p_info (l_dh x)))) 0x0203 = Some d /\ In (0x0203, (lay, (size, t))) structures
  /\ decode_descriptor lay d = Ok v /\ forall n off sz c, In (n, (off, (sz, c))) t -> field n v = be_elems off sz c (descriptor inst_opal).
Proof.
  destruct (page_checked _ inst_page_ok) as (x & V & Ho & Hn & HV & L).
  destruct (C170_opened_nvme exh_nsys [] exh_path _ x 7 (exy_addresses _ _) eq_refl Ho Hn) as (c1 & c2 & ans & _ & _ & Da & P).
  change (sy_nvme exh_nsys (at_nvme [] exh_path 7) [c1; c2]) with {| na_errno := 0; na_ret := 0; na_result := 0; na_in := exy_level0 |} in Da, P. cbn [na_in] in Da.
  assert (Ea : ans = fill (zeros 2048) exy_level0) by (apply (delivered_unique _ _ _ _ Da); apply fill_delivered). subst ans.
  assert (Hi : exists lay size t, In (0x0203, (lay, (size, t))) structures /\ (size <= 20)%nat).
  { unfold structures. do 3 eexists. split; [repeat (first [left; reflexivity|right])|]. apply Nat.leb_le. vm_compute. reflexivity. }
  destruct Hi as (lay & size & t & Hi & Hsz).
  destruct (P ltac:(split; reflexivity) exy_features exy_conforming 0x0203 lay size t inst_opal Hi eq_refl Hsz) as (d & v & R & Dc & Fl).
  exists x, V, d, v, lay, size, t. auto 6.
Qed.
