(** Non-vacuity for C172: the machine of Ex_WinMachine (a drive under the miniport driver, one that no driver accepts), and one whose
    drives are all under the Windows NVMe driver. *)
From Verif Require Import Base M_Buffer M_Struc M_Layouts M_Ata M_TcgDevice M_DriveHandle M_SgDriver M_Strings M_LinuxFactory M_WinPass M_WinNvme M_WinInfo M_WinFactory M_WinEnum
  M_WinMachine Spec_Inspect Spec_InspectWin Prop_WinNvme Spec_WinSystem P_WinSystem Prop_WinSystem Spec_WinMachine Prop_WinMachine Ex_WinInfo Ex_WinEnum Ex_WinSystem Ex_WinListing Ex_WinMachine
  Spec_LedgerWin P_LedgerWin Prop_LedgerWin.

Definition exlw : xsys := {|
  x_io := fun h => match last h XClassDevs with XSys (WIo c) => s_io (exz_query true) [WIo c] | _ => exi_ans 0 [] [] 0 end;
  x_open := x_open exwm; x_data := x_data exwm; x_bounce := x_bounce exwm; x_class := x_class exwm; x_devinfo := x_devinfo exwm; x_iface := x_iface exwm; x_detail := x_detail exwm;
  x_mode := x_mode exwm; x_first := x_first exwm; x_next := x_next exwm; x_names := x_names exwm; x_info := x_info exwm; x_type := x_type exwm; x_vopen := x_vopen exwm; x_text := x_text exwm |}.
Definition exlw_ops : list mop := [MOpen (str "one"); MOn 0 HDiscovery; MEnum 5; MOpen (str "two"); MVolumes 3; MOn 0 HClose; MOn 0 HClose].
(** after each call: system handles held, drive handles open *)
Definition exlw_track (X : xsys) (ops : list mop) : list (Z * Z) :=
  map (fun n => let s := mrun X (firstn n ops) in (balance X [] (ms_hist s), live_handles s)) (seq 1 (List.length ops)).
Example exlw_runs : exlw_track exlw exlw_ops = [(1, 1); (1, 1); (1, 1); (2, 2); (2, 2); (1, 1); (1, 1)]%Z.
Proof. vm_compute. reflexivity. Qed.
(** the listing found drives, each with a driver *)
Definition exlw_seen (X : xsys) (r : res (list whandle)) : option (list Z) := match r with Ok xs => Some (map left_over xs) | _ => None end.
Example exlw_lists : exlw_seen exlw (snd (win_enum_drives exlw 5 [])) = Some [0; 0]%Z.
Proof. vm_compute. reflexivity. Qed.
Definition exlw_tidyb (X : xsys) (s : mstate) (o : mop) : bool :=
  match o with
  | MOpen p => match snd (x_open_by_path X (ms_hist s) p) with Ok x => (left_over x =? 0)%Z | Err _ => true | _ => false end
  | MEnum n => match snd (win_enum_drives X n (ms_hist s)) with Ok xs => forallb (fun x => (left_over x =? 0)%Z) xs | Err _ => true | _ => false end
  | MVolumes n => match snd (win_enum_volumes X n (ms_hist s)) with Fuel => false | _ => true end
  | MOn _ _ => true
  end.
Fixpoint exlw_tidy_from (X : xsys) (s : mstate) (ops : list mop) : bool := match ops with [] => true | o :: t => exlw_tidyb X s o && exlw_tidy_from X (mstep X s o) t end.
Lemma exlw_tidyb_ok X s o : exlw_tidyb X s o = true -> tidy X s o.
Proof.
  destruct o; cbn [exlw_tidyb tidy]; intros H; [| | |exact I].
  - destruct (snd (x_open_by_path X (ms_hist s) path)); try discriminate; [now apply Z.eqb_eq|exact I].
  - destruct (snd (win_enum_drives X fuel (ms_hist s))); try discriminate; [|exact I]. apply Forall_forall. intros x Hx. rewrite forallb_forall in H. apply Z.eqb_eq. now apply H.
  - intros E. rewrite E in H. discriminate.
Qed.
Lemma exlw_tidy_ok X ops : forall s, exlw_tidy_from X s ops = true -> tidy_from X s ops.
Proof. induction ops as [|o ops IH]; intros s H; cbn in *; [exact I|]. apply andb_true_iff in H as [A B]. split; [now apply exlw_tidyb_ok|now apply IH]. Qed.
Example exlw_tidy : tidy_from exlw {| ms_hist := []; ms_handles := [] |} exlw_ops.
Proof. apply exlw_tidy_ok. vm_compute. reflexivity. Qed.

(** The miniport drive holds two handles and gives back one; the drive without driver holds one and gives back none; listing both adds up. *)
Example exlw_left : exlw_track exwm [MOpen (str "one"); MOn 0 HClose; MOpen (str "two"); MOn 1 HClose; MEnum 5; MVolumes 3] = [(2, 1); (1, 0); (2, 0); (2, 0); (4, 0); (4, 0)]%Z
  /\ exlw_seen exwm (snd (win_enum_drives exwm 5 [])) = Some [1; 1]%Z.
Proof. split; vm_compute; reflexivity. Qed.
(** The guarantee a caller expects, "a program that closes every drive handle it opened has given back every system handle", is false. *)
Theorem C172_all_given_back_refuted : ~ (forall X ops, fresh_handles X -> live_handles (mrun X ops) = 0%Z -> balance X [] (ms_hist (mrun X ops)) = 0%Z).
Proof.
  intros H. specialize (H exwm [MOpen (str "one"); MOn 0 HClose] exwm_fresh_handles).
  assert (L : live_handles (mrun exwm [MOpen (str "one"); MOn 0 HClose]) = 0%Z) by (vm_compute; reflexivity).
  assert (B : balance exwm [] (ms_hist (mrun exwm [MOpen (str "one"); MOn 0 HClose])) = 1%Z) by (vm_compute; reflexivity).
  rewrite B in H. discriminate (H L).
Qed.
Print Assumptions C172_all_given_back_refuted.
