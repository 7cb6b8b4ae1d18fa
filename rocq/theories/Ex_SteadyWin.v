(** Non-vacuity for C146: a Windows machine with an NVMe drive behind the miniport, a virtual disk and a volume; handles are numbered by the
    moment, so that no two runs use the same numbers. *)
From Verif Require Import Base M_Buffer M_Struc M_Ata M_TcgToken M_TcgCommand M_TcgDevice M_TcgSession M_DriveHandle M_SgDriver M_Strings M_LinuxFactory M_WinPass M_WinNvme M_WinInfo M_WinFactory M_WinEnum
  Spec_LinuxVolume Spec_Sg Prop_WinNvme Spec_Steady Spec_SteadyWin P_SteadyWin Prop_SteadyWin Ex_TcgSession Ex_LinuxSystem Ex_WinInfo Ex_WinSystem Ex_WinListing P_TcgOnDrive.

Definition exg_io (o : thing) (l : list io_view) : wans :=
  let '(code, (inb, _), _, _, _) := last l (0, ([], []), 0, TNone, []) in
  match o with
  | APath p =>
    if beq p (str "two") then (if (code =? 0x2d1400) && (blen inb =? 12) then exi_ans 0 exp_descriptor [] 54 else exi_ans 1 [] [] 0)
    else if code =? 0x41018 then exi_ans 0 [8; 0; 0; 0; 4; 0; 0; 0] [] 8
    else if (code =? 0x4d008) && beq p (str "\\.\SCSI4:") then exi_ans 0 (zeros 152 ++ (if nth 52 inb 0 =? 0x06 then exy_identify else exy_level0)) [] 4248
    else exi_ans 1 [] [] 0
  | AVolume _ => if code =? 0x560000 then exi_ans 0 (le_bytes 4 1 ++ zeros 4 ++ le_bytes 4 1 ++ zeros 4 ++ le_bytes 8 1048576 ++ le_bytes 8 4194304) [] 32 else exi_ans 1 [] [] 0
  end.
(** what was said through a handle, computed from the reversed history *)
Fixpoint exg_talk (r : list xev) (hd : N) : option (thing * list io_view) :=
  match r with
  | [] => None
  | XSys (WOpen p) :: t => if N.of_nat (List.length r) =? hd then Some (APath p, []) else exg_talk t hd
  | XVolumeOpen v :: t => if N.of_nat (List.length r) =? hd then Some (AVolume v, []) else exg_talk t hd
  | XSys (WIo c) :: t => match exg_talk t hd with Some (o, l) => Some (o, if wc_handle c =? hd then l ++ [io_seen c] else l) | None => None end
  | _ :: t => exg_talk t hd
  end.
Fixpoint exg_count (f : N) (r : list xev) : nat := match r with XFindFirst :: _ => 0%nat | XFindNext g :: t => if g =? f then S (exg_count f t) else exg_count f t | _ :: t => exg_count f t | [] => 0%nat end.
Definition exg_sys_of (io : thing -> list io_view -> wans) (ds : list (list N)) : xsys := {|
  x_io := fun h => match rev h with XSys (WIo c) :: t => match exg_talk (XSys (WIo c) :: t) (wc_handle c) with Some (o, l) => io o l | None => exi_ans 6 [] [] 0 end | _ => exi_ans 6 [] [] 0 end;
  x_open := fun h => inr (N.of_nat (List.length h)); x_data := fun h => 512 * N.of_nat (List.length h); x_bounce := fun h => N.of_nat (List.length h);
  x_class := fun h => inr (N.of_nat (List.length h));
  x_devinfo := fun h => match rev h with XDevInfo _ i :: _ => (i <? List.length ds)%nat | _ => false end; x_iface := fun _ => 0;
  x_detail := fun h => match rev h with XDetail _ i n :: _ => detail_of (nth (N.to_nat i) ds []) n | _ => (1, ([], 0)) end;
  x_mode := fun _ => 0; x_first := fun h => inr (N.of_nat (List.length h), str "\\?\Volume{1}\"); x_next := fun h => match rev h with XFindNext f :: t => if (exg_count f t <? 1)%nat then inr (str "\\?\Volume{2}\") else inl (EMsg "no more") | _ => inl (EMsg "") end;
  x_names := fun _ => Some (str "C:\", 4); x_info := fun _ => Some (str "NTFS"); x_type := fun _ => 3; x_vopen := fun h => inr (N.of_nat (List.length h)); x_text := fun us => us |}.
Definition exg_machine_of (io : thing -> list io_view -> wans) (ds : list (list N)) : wmachine :=
  {| wm_open := fun _ => None; wm_io := io; wm_class := None; wm_devinfo := fun i => (i <? List.length ds)%nat; wm_iface := fun _ => 0;
     wm_detail := fun i n => detail_of (nth (N.to_nat i) ds []) n; wm_first := inr (str "\\?\Volume{1}\"); wm_next := fun n => if (n <? 1)%nat then inr (str "\\?\Volume{2}\") else inl (EMsg "no more");
     wm_names := fun _ => Some (str "C:\", 4); wm_info := fun _ => Some (str "NTFS"); wm_type := fun _ => 3 |}.
Definition exg_sys := exg_sys_of exg_io.
Definition exg_machine := exg_machine_of exg_io.
Lemma exg_talks io ds h hd o l : talk (exg_sys_of io ds) h hd o l -> exg_talk (rev h) hd = Some (o, l) /\ hd <= N.of_nat (List.length h).
Proof.
  induction 1 as [h p hd G|h v hd G|h c o l T [IH IL]|h e hd o l T [IH IL] Nio Ncl Ng]; rewrite rev_app_distr; cbn [rev app].
  - cbn [gives exg_sys_of x_open] in G. injection G as G. split; [|lia]. cbn [exg_talk List.length]. rewrite rev_length. rewrite app_length in G. cbn in G.
    replace (N.of_nat (S (List.length h))) with hd by lia. now rewrite N.eqb_refl.
  - cbn [gives exg_sys_of x_vopen] in G. injection G as G. split; [|lia]. cbn [exg_talk List.length]. rewrite rev_length. rewrite app_length in G. cbn in G.
    replace (N.of_nat (S (List.length h))) with hd by lia. now rewrite N.eqb_refl.
  - split; [|rewrite app_length; cbn; lia]. cbn [exg_talk]. rewrite IH, N.eqb_refl. reflexivity.
  - split; [|rewrite app_length; cbn; lia]. destruct e as [[c|p|k]| | | | | | | | | | | | |v]; cbn [exg_talk List.length]; try exact IH.
    + rewrite IH. destruct (N.eqb_spec (wc_handle c) hd) as [Q|_]; [|reflexivity]. exfalso. exact (Nio c eq_refl Q).
    + rewrite rev_length. destruct (N.eqb_spec (N.of_nat (S (List.length h))) hd) as [Q|_]; [lia|exact IH].
    + rewrite rev_length. destruct (N.eqb_spec (N.of_nat (S (List.length h))) hd) as [Q|_]; [lia|exact IH].
Qed.
Lemma exg_found io ds h f n : finding (exg_sys_of io ds) h f n -> exg_count f (rev h) = n.
Proof.
  induction 1 as [h f us E|h f n F IH|h e f n F IH N1 N2 N3]; rewrite rev_app_distr; cbn [rev app exg_count]; [reflexivity|now rewrite N.eqb_refl, IH|].
  destruct e; try exact IH; [contradiction|]. destruct (N.eqb_spec f0 f) as [->|_]; [contradiction|exact IH].
Qed.
Example exg_steady io ds : wsteady (exg_sys_of io ds) (exg_machine_of io ds).
Proof.
  constructor; cbn [exg_machine_of wm_open wm_io wm_class wm_devinfo wm_iface wm_detail wm_first wm_next wm_names wm_info wm_type].
  - intros h p. cbn [exg_sys_of x_open]. eexists. split; [reflexivity|]. intros o l T. apply exg_talks in T as [_ T]. rewrite app_length in T. cbn in T. lia.
  - intros h p. cbn [exg_sys_of x_vopen]. eexists. split; [reflexivity|]. intros o l T. apply exg_talks in T as [_ T]. rewrite app_length in T. cbn in T. lia.
  - intros h c o l T. apply talk_io in T. apply exg_talks in T as [T _]. cbn [exg_sys_of x_io]. rewrite rev_app_distr in *. cbn [rev app] in *. rewrite T. reflexivity.
  - intros h. cbn [exg_sys_of x_data]. rewrite N.mul_comm. apply N.mod_mul. discriminate.
  - intros h. eexists. reflexivity.
  - intros h d i _. cbn [exg_sys_of x_devinfo]. now rewrite rev_app_distr.
  - intros h d i _. reflexivity.
  - intros h d i n _. cbn [exg_sys_of x_detail]. now rewrite rev_app_distr.
  - intros h. eexists. reflexivity.
  - intros h f n F. apply exg_found in F. cbn [exg_sys_of x_next]. rewrite rev_app_distr. cbn [rev app]. now rewrite F.
  - reflexivity.
  - reflexivity.
  - reflexivity.
Qed.
Definition exg_ds : list (list N) := [str "one"; str "two"].
Example exg_lists : lists (exg_machine exg_ds) exg_ds /\ lists (exg_machine [str "one"]) [str "one"].
Proof.
  split; (split; [reflexivity|]; split; [reflexivity|]; split; [reflexivity|]); intros i us H.
  - assert (F : us = str "one" \/ us = str "two") by (destruct i as [|[|[|i]]]; cbn in H; try discriminate H; injection H as <-; auto).
    split; [reflexivity|]. split; [intros room; cbn [exg_machine exg_machine_of wm_detail]; rewrite Nat2N.id; f_equal; now apply nth_error_nth|].
    destruct F as [->| ->]; (split; [repeat (constructor; [split; reflexivity|]); constructor|discriminate]).
  - assert (F : us = str "one") by (destruct i as [|[|i]]; cbn in H; try discriminate H; injection H as <-; auto).
    split; [reflexivity|]. split; [intros room; cbn [exg_machine exg_machine_of wm_detail]; rewrite Nat2N.id; f_equal; now apply nth_error_nth|].
    subst us. split; [repeat (constructor; [split; reflexivity|]); constructor|discriminate].
Qed.
(** two runs: the same reports, other handles *)
Definition exg_handles (r : res (list whandle)) := seen (map (fun x => match f_drv x with Some (d, _, _) => (wd_handle d, wd_scsi d) | None => (0, 0) end)) r.
Example exg_twice : let X := exg_sys exg_ds in let first := win_enum_drives X 3 [] in let second := win_enum_drives X 3 (fst first) in
  (seen (map exp_view) (snd first), exg_handles (snd first), exg_handles (snd second)) =
  (Ok [(str "one", str "NvmeWinDriver", (str "ACME NVMe 1TB", str "S1234567890ABCDEF", str "FW01"), true); (str "two", [], (str "Virtual", str "V-7", []), false)],
   Ok [(5, 10); (0, 0)], Ok [(34, 39); (0, 0)]).
Proof. vm_compute. reflexivity. Qed.
(** C146_other_drives applies: with and without the second disk *)
Example exg_other : forall v, In v [str "one"] -> same_drive (exg_machine [str "one"]) (exg_machine exg_ds) v.
Proof.
  intros v [<-|[]]. split; [repeat split; reflexivity|]. split; [|repeat split; reflexivity]. intros l. cbn [exg_machine exg_machine_of wm_io]. unfold exg_io.
  destruct (last l _) as [[[[code [inb x]] n] t] m]. change (beq (str "one") (str "two")) with false. change (beq (str "one") (str "\\.\SCSI4:")) with false.
  rewrite andb_false_r. destruct (_ =? _); cbn [wa_out exi_ans]; [wf_lit|apply wf_nil].
Qed.
Example exg_volumes : let X := exg_sys exg_ds in
  seen (map (fun v => (wv_path v, wv_fs v, wv_mounts v, map ex_disk (wv_extents v)))) (snd (win_enum_volumes X 3 [])) =
  Ok [(str "\\?\Volume{1}", str "NTFS", [str "C:\"], [1]); (str "\\?\Volume{2}", str "NTFS", [str "C:\"], [1])].
Proof. vm_compute. reflexivity. Qed.
