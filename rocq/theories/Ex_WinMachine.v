(** Non-vacuity for C153, C154: a Windows machine that gives a handle number out again as soon as it is closed. *)
From Verif Require Import Base M_Buffer M_Struc M_Layouts M_Ata M_TcgDevice M_DriveHandle M_SgDriver M_Strings M_LinuxFactory M_WinPass M_WinNvme M_WinInfo M_WinFactory M_WinEnum
  M_WinMachine Spec_Inspect Spec_InspectWin Prop_WinNvme Spec_WinSystem P_WinSystem Prop_WinSystem Spec_WinMachine Prop_WinMachine Ex_WinInfo Ex_WinEnum Ex_WinSystem Ex_WinListing.

Definition exwm_max (L : list (N * bytes)) : N := fold_right (fun a m => N.max (fst a) m) 0 L.
Definition exwm_has (L : list (N * bytes)) (hd : N) : bool := existsb (fun a => fst a =? hd) L.
(** Handle 1 if it is free, otherwise one above every open handle. *)
Definition exwm_fresh (L : list (N * bytes)) : N := if exwm_has L 1 then exwm_max L + 1 else 1.
Definition exwm_do (L : list (N * bytes)) (e : xev) : list (N * bytes) :=
  match e with
  | XSys (WOpen p) => (exwm_fresh L, p) :: L
  | XVolumeOpen v => (exwm_fresh L, []) :: L
  | XSys (WClose hd) => filter (fun a => negb (fst a =? hd)) L
  | _ => L
  end.
Definition exwm_live (h : xhist) : list (N * bytes) := fold_left exwm_do h [].
Definition exwm_path (h : xhist) (hd : N) : bytes := match find (fun a => fst a =? hd) (exwm_live h) with Some a => snd a | None => [] end.
(** Device "one" answers like the NVMe drive of Ex_WinSystem, behind port 4; every other device refuses everything. *)
Definition exwm : xsys := {|
  x_io := fun h => match last h XClassDevs with
                   | XSys (WIo c) => if beq (exwm_path h (wc_handle c)) (str "one") || beq (exwm_path h (wc_handle c)) (str "\\.\SCSI4:") then s_io exz_mini [WIo c] else exi_ans 1 [] [] 0
                   | _ => exi_ans 0 [] [] 0 end;
  x_open := fun h => inr (exwm_fresh (exwm_live (removelast h)));
  x_data := fun _ => 512; x_bounce := fun _ => 1024; x_class := fun _ => inr 1;
  x_devinfo := x_devinfo (exp_sys false); x_iface := fun _ => 0; x_detail := x_detail (exp_sys false);
  x_mode := fun _ => 0; x_first := fun _ => inr (4, str "\\?\Volume{1}\"); x_next := fun _ => inl (EMsg "none");
  x_names := fun _ => Some (str "C:\" ++ [0; 0], 5); x_info := fun _ => Some (str "NTFS"); x_type := fun _ => 3;
  x_vopen := fun h => inr (exwm_fresh (exwm_live (removelast h))); x_text := fun us => us |}.

Lemma exwm_live_snoc h e : exwm_live (h ++ [e]) = exwm_do (exwm_live h) e.
Proof. unfold exwm_live. now rewrite fold_left_app. Qed.
Lemma exwm_fresh_new L : exwm_has L (exwm_fresh L) = false.
Proof.
  unfold exwm_fresh. destruct (exwm_has L 1) eqn:E; [|exact E]. clear E.
  assert (M : forall L m, exwm_max L < m -> exwm_has L m = false).
  { clear. induction L as [|a L IH]; intros m H; [reflexivity|]. cbn [exwm_max fold_right exwm_has existsb] in *. apply orb_false_iff. split; [apply N.eqb_neq; lia|apply IH; unfold exwm_max; lia]. }
  apply M. lia.
Qed.
Lemma exwm_yields h e hd o : yields exwm (h ++ [e]) e hd o -> hd = exwm_fresh (exwm_live h) /\ exwm_has (exwm_live (h ++ [e])) hd = true.
Proof.
  intros Y. assert (E : hd = exwm_fresh (exwm_live h)).
  { destruct e as [[|p|]| | | | | | | | | | | | |]; cbn [yields exwm x_open x_vopen] in Y; try contradiction; destruct Y as [Y _]; rewrite removelast_last in Y; now injection Y. }
  split; [exact E|]. rewrite exwm_live_snoc. subst hd.
  destruct e as [[|p|]| | | | | | | | | | | | |]; cbn [yields] in Y; try contradiction; cbn [exwm_do exwm_has existsb fst]; now rewrite N.eqb_refl.
Qed.
Lemma exwm_stays h2 : forall h hd, exwm_has (exwm_live h) hd = true -> ~ In (XSys (WClose hd)) h2 -> exwm_has (exwm_live (h ++ h2)) hd = true.
Proof.
  induction h2 as [|e h2 IH]; intros h hd H C; [now rewrite app_nil_r|].
  replace (h ++ e :: h2) with ((h ++ [e]) ++ h2) by (now rewrite <- app_assoc). apply IH; [|intros I; apply C; now right]. rewrite exwm_live_snoc.
  destruct e as [[|p|g]| | | | | | | | | | | | |]; cbn [exwm_do]; try exact H; try (cbn [exwm_has existsb fst]; rewrite orb_true_iff; right; exact H).
  assert (Hg : hd <> g) by (intros ->; apply C; now left). unfold exwm_has in *. apply existsb_exists in H as (a & Ia & Ea). apply existsb_exists. exists a. split; [|exact Ea].
  apply filter_In. split; [exact Ia|]. apply N.eqb_eq in Ea. rewrite Ea. now apply negb_true_iff, N.eqb_neq.
Qed.
Example exwm_fresh_handles : fresh_handles exwm.
Proof.
  intros h e hd o other Y (h1 & e1 & h2 & -> & _ & Y1 & C). destruct (exwm_yields _ _ _ _ Y) as [E _]. destruct (exwm_yields _ _ _ _ Y1) as [_ H].
  pose proof (exwm_stays h2 _ _ H C) as S. rewrite <- app_assoc in S. cbn [app] in S. rewrite E, exwm_fresh_new in S. discriminate S.
Qed.
Example exwm_bytes : forall h, wf (wa_out (x_io exwm h)).
Proof.
  intros h. cbn [exwm x_io]. destruct (last h XClassDevs) as [[c| |]| | | | | | | | | | | | |]; try apply wf_nil. destruct (_ || _); [apply (exz_system [WIo c])|apply wf_nil].
Qed.
Example exwm_addresses : forall k, x_data exwm k < 2 ^ 64 /\ x_bounce exwm k < 2 ^ 64.
Proof. intros k. split; reflexivity. Qed.

(** A program opens the NVMe drive (device handle 1, port handle 2), reads a log page, closes it, and opens it again: handle 1 comes back for the
    device, 3 is the port's.  The call on the first drive handle then does nothing; the one on the second goes to port handle 3. *)
Definition exwm_ops : list mop :=
  [MOpen (str "one"); MOn 0 HDiscovery; MOn 0 HClose; MVolumes 3; MOpen (str "one"); MOn 0 HDiscovery; MOn 0 HClose; MOn 1 HDiscovery; MOpen (str "two")].
Example exwm_looks : Forall mlooks exwm_ops.
Proof. repeat constructor; reflexivity. Qed.
Definition exwm_brief (e : xev) : list N :=
  match e with
  | XSys (WOpen p) => [1; blen p] | XSys (WClose hd) => [2; hd] | XSys (WIo c) => [3; wc_handle c; wc_code c; nth 52 (wc_in c) 0] | XVolumeOpen v => [4; blen v] | _ => []
  end.
Definition exwm_trace : list (list N) := filter (fun l => match l with [] => false | _ => true end) (map exwm_brief (ms_hist (mrun exwm exwm_ops))).
Fixpoint exwm_eqb (a b : list (list N)) : bool :=
  match a, b with [], [] => true | x :: a', y :: b' => beq x y && exwm_eqb a' b' | _, _ => false end.
Definition exwm_opening (dev port : N) : list (list N) :=
  [[1; 3]; [3; dev; 0x2d1080; 0]; [3; dev; 0x700a0; 0]; [3; dev; 0x70050; 0]; [3; dev; 0x41018; 0]; [1; 10]; [3; port; 0x4d008; 6]; [3; port; 0x4d008; 0x82]].
Definition exwm_expected : list (list N) :=
  exwm_opening 1 2 ++ [[3; 2; 0x4d008; 0x82]; [2; 1]] ++ [[4; 13]; [3; 1; 0x560000; 0]; [2; 1]] ++ exwm_opening 1 3 ++ [[3; 3; 0x4d008; 0x82]]
  ++ [[1; 3]; [3; 4; 0x2d1080; 0]; [3; 4; 0x700a0; 0]; [3; 4; 0x70050; 0]; [3; 4; 0x41018; 0]; [3; 4; 0x2d1400; 0]; [3; 4; 0x4d014; 0]; [3; 4; 0x4d004; 0];
      [3; 4; 0x4d030; 0]; [3; 4; 0x4d02c; 0]; [3; 4; 0x2d1400; 0]].
Example exwm_runs : exwm_eqb exwm_trace exwm_expected = true.
Proof. vm_compute. reflexivity. Qed.

(** Closing every drive handle does not release every system handle: the port handle of the miniport driver stays open for good. *)
Definition exwm_closes (hd : N) (h : xhist) : bool := existsb (fun e => match e with XSys (WClose g) => g =? hd | _ => false end) h.
Theorem C154_all_released_refuted :
  exists X path hd o, let s := mrun X [MOpen path; MOn 0 HClose] in
  fresh_handles X /\ (forall h, wf (wa_out (x_io X h))) /\ mpaths s = [path] /\ Forall (fun x => p_dh (mh_dh x) = None) (ms_handles s) /\ is_open_on X (ms_hist s) hd o.
Proof.
  exists exwm, (str "one"), 2, (OPath (str "\\.\SCSI4:")). cbv zeta. split; [exact exwm_fresh_handles|]. split; [exact exwm_bytes|].
  assert (E : map (fun x => (mh_path x, p_dh (mh_dh x))) (ms_handles (mrun exwm [MOpen (str "one"); MOn 0 HClose])) = [(str "one", None)]) by (vm_compute; reflexivity).
  assert (H : exists h1 h2, ms_hist (mrun exwm [MOpen (str "one"); MOn 0 HClose]) = h1 ++ XSys (WOpen (str "\\.\SCSI4:")) :: h2
                /\ exwm_fresh (exwm_live h1) = 2 /\ exwm_closes 2 h2 = false).
  { exists (firstn 5 (ms_hist (mrun exwm [MOpen (str "one"); MOn 0 HClose]))), (skipn 6 (ms_hist (mrun exwm [MOpen (str "one"); MOn 0 HClose]))).
    repeat split; vm_compute; reflexivity. }
  destruct (mrun exwm _) as [h xs]. cbn [ms_hist ms_handles] in *. unfold mpaths. cbn [ms_handles].
  destruct xs as [|x [|y xs]]; try discriminate E. cbn [map] in E. injection E as E1 E2. cbn [map].
  split; [now rewrite E1|]. split; [constructor; [exact E2|constructor]|]. destruct H as (h1 & h2 & -> & Fr & C).
  exists h1, (XSys (WOpen (str "\\.\SCSI4:"))), h2. split; [reflexivity|]. split; [lia|]. split.
  - cbn [yields exwm x_open]. rewrite removelast_last, Fr. split; reflexivity.
  - intros I. unfold exwm_closes in C. enough (T : true = false) by discriminate T. rewrite <- C. symmetry. apply existsb_exists. eexists. split; [exact I|reflexivity].
Qed.
Print Assumptions C154_all_released_refuted.
