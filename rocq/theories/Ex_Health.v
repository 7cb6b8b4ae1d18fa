(** Non-vacuity for C147: SMART data of a SATA drive and a log page of an NVMe drive, both opened by path. *)
From Verif Require Import Base M_Buffer M_Struc M_Layouts M_Ata M_TcgDevice M_DriveHandle M_AtaUtil M_Cdb M_SgDriver M_SgHandle M_NvmeLinux M_Strings M_LinuxInfo M_LinuxFactory
  M_LinuxSystem Spec_Drive Spec_Identity Prop_Drive Prop_Identity Spec_LinuxFactory Spec_NvmeLinux Spec_Sg Prop_Sg
  Prop_NvmeLinux Prop_SgHandle Spec_LinuxSystem Prop_LinuxSystem Spec_Health Prop_Health Ex_LinuxSystem.

Definition exh_values : bytes := [0x10; 0; 5; 0x33; 0; 100; 99] ++ zeros 505.
Definition exh_thresholds : bytes := [0x10; 0; 5; 36] ++ zeros 508.
Definition exh_good (data : bytes) : sg_ans := {| an_errno := 0; an_ret := 0; an_in := data; an_sense := []; an_status := Some 0 |}.
(** IDENTIFY, discovery, READ DATA, READ THRESHOLDS.  [shaky]: the kernel interrupts the first READ THRESHOLDS (EINTR). *)
Definition exh_sata (shaky : bool) (h : sg_hist) : sg_ans :=
  match List.length h with
  | 1%nat => exh_good exy_ata_identify
  | 2%nat => exh_good exy_level0
  | 3%nat => exh_good exh_values
  | 4%nat => if shaky then {| an_errno := 4; an_ret := 0; an_in := []; an_sense := []; an_status := None |} else exh_good exh_thresholds
  | _ => exh_good []
  end.
Definition exh_path : bytes := str "/dev/sda".
Definition exh_sys (shaky : bool) := exy_sys exy_refuse_nvme (exh_sata shaky).
Definition exh_seen (S : system) (o : res handle) := match o with
  | Ok x => match l_drv x with
    | Some V => let '(cs, r) := read_smart V (l_dh x) (l_calls x) 3 in
        match r with
        | Ok (v, t) => Some (l_driver_name x, field (indexed "Attributes" 0 "Current") v, field (indexed "Attributes" 0 "Threshold") t,
            map (fun c => (nth 3 (sg_cdb c) 0, nth 9 (sg_cdb c) 0)) (skipn 2 (sg_ioctls S (at_sg [] exh_path 7) (with_calls x cs))))
        | _ => None end
    | None => None end
  | _ => None end.
Example exh_read : exh_seen (exh_sys false) (snd (open_by_path (linux (exh_sys false)) [] exh_path))
  = Some (str "LinuxScsiDriver", [100], [36], [(0xD0, 0xB0); (0xD1, 0xB0)]).
Proof. vm_compute. reflexivity. Qed.
(** The interrupted drive: attribute 5 is reported with threshold 51 (the low byte of its flags) instead of 36. *)
Example exh_shaky_read : exh_seen (exh_sys true) (snd (open_by_path (linux (exh_sys true)) [] exh_path))
  = Some (str "LinuxScsiDriver", [100], [51], [(0xD0, 0xB0); (0xD1, 0xB0); (0xD1, 0xB0)]).
Proof. vm_compute. reflexivity. Qed.
Example exh_hyps : no_nvme (sy_nvme (exh_sys true) (at_nvme [] exh_path 7)) /\ addresses_ok (exh_sys true).
Proof. split; [intros k (A & _); discriminate A|apply exy_addresses]. Qed.

(** So what ReadSmart reports as thresholds need not come from any answer to READ THRESHOLDS. *)
Definition exh_run (o : res handle) := match o with
  | Ok x => match l_drv x with Some V => Some (x, V, read_smart V (l_dh x) (l_calls x) 3) | None => None end
  | _ => None end.
Definition exh_at : lhist := at_sg [] exh_path 7.
Definition exh_sent (x : handle) (cs : dhist) : sg_hist := sg_ioctls (exh_sys true) exh_at (with_calls x cs).
Definition exh_check (o : res handle) : bool := match exh_run o with
  | Some (x, V, (cs, Ok (v, t))) =>
      (if list_eq_dec N.eq_dec (l_driver_name x) (str "LinuxScsiDriver") then true else false)
      && (if list_eq_dec N.eq_dec (field (indexed "Attributes" 0 "Threshold") t) [51] then true else false)
      && forallb (fun n => match nth_error (exh_sent x cs) n with
                           | Some c => negb (nth 3 (sg_cdb c) 0 =? 0xD1) || (blen (an_in (sy_sg (exh_sys true) exh_at (firstn (S n) (exh_sent x cs)))) =? 0)
                           | None => true end) (seq 0 (List.length (exh_sent x cs)))
  | _ => false end.
Lemma exh_check_spec o : exh_check o = true -> exists x V cs v t, o = Ok x /\ l_drv x = Some V /\ read_smart V (l_dh x) (l_calls x) 3 = (cs, Ok (v, t))
  /\ l_driver_name x = str "LinuxScsiDriver" /\ field (indexed "Attributes" 0 "Threshold") t = [51]
  /\ forall pre c post, exh_sent x cs = pre ++ c :: post -> nth 3 (sg_cdb c) 0 = 0xD1 -> an_in (sy_sg (exh_sys true) exh_at (pre ++ [c])) = [].
Proof.
  unfold exh_check, exh_run. destruct o as [x| | |]; try discriminate. destruct (l_drv x) as [V|] eqn:HV; [|discriminate].
  destruct (read_smart V (l_dh x) (l_calls x) 3) as [cs [[v t]| | |]] eqn:R; try discriminate.
  generalize (sy_sg (exh_sys true) exh_at). intros K.
  destruct (list_eq_dec N.eq_dec (l_driver_name x) (str "LinuxScsiDriver")) as [Q|]; [|discriminate].
  destruct (list_eq_dec N.eq_dec (field (indexed "Attributes" 0 "Threshold") t) [51]) as [Q2|]; [|discriminate]. cbn [andb]. intros F.
  exists x, V, cs, v, t. split; [reflexivity|]. split; [exact HV|]. split; [exact R|]. split; [exact Q|]. split; [exact Q2|].
  intros pre c post Hs Hc. rewrite Hs in F. rewrite forallb_forall in F. specialize (F (List.length pre)).
  assert (I : In (List.length pre) (seq 0 (List.length (pre ++ c :: post)))) by (apply in_seq; rewrite app_length; cbn [List.length]; lia).
  specialize (F I). rewrite nth_error_app2, Nat.sub_diag in F by lia. cbn [nth_error] in F. rewrite Hc in F. cbn [N.eqb negb orb Pos.eqb] in F.
  replace (firstn (S (List.length pre)) (pre ++ c :: post)) with (pre ++ [c]) in F.
  2:{ rewrite firstn_app, firstn_all2 by lia. replace (S (List.length pre) - List.length pre)%nat with 1%nat by lia. reflexivity. }
  apply N.eqb_eq in F. destruct (an_in (K (pre ++ [c]))); [reflexivity|discriminate F].
Qed.
Lemma exh_checked : exh_check (snd (open_by_path (linux (exh_sys true)) [] exh_path)) = true.
Proof. vm_compute. reflexivity. Qed.
Theorem C147_thresholds_come_from_the_drive_refuted : exists S path h' x V cs v t,
  addresses_ok S /\ open_by_path (linux S) [] path = (h', Ok x) /\ l_driver_name x = str "LinuxScsiDriver" /\ l_drv x = Some V
  /\ read_smart V (l_dh x) (l_calls x) 3 = (cs, Ok (v, t)) /\ field (indexed "Attributes" 0 "Threshold") t = [51]
  /\ let at_ := at_sg [] path 7 in
     forall pre c post, sg_ioctls S at_ (with_calls x cs) = pre ++ c :: post -> nth 3 (sg_cdb c) 0 = 0xD1 -> an_in (sy_sg S at_ (pre ++ [c])) = [].
Proof.
  destruct (exh_check_spec _ exh_checked) as (x & V & cs & v & t & Ho & HV & R & Hn & Ht & F).
  exists (exh_sys true), exh_path, (fst (open_by_path (linux (exh_sys true)) [] exh_path)), x, V, cs, v, t.
  split; [apply exy_addresses|]. split; [rewrite <- Ho; apply surjective_pairing|]. split; [exact Hn|]. split; [exact HV|]. split; [exact R|].
  split; [exact Ht|]. exact F.
Qed.
Print Assumptions C147_thresholds_come_from_the_drive_refuted.

(** The SMART log page of an NVMe drive. *)
Definition exh_page : bytes := [7; 0x2C; 1] ++ zeros 509.
Definition exh_nvme (h : nv_hist) : nv_ans :=
  match List.length h with 3%nat => {| na_errno := 0; na_ret := 0; na_result := 0; na_in := exh_page |} | _ => exy_nvme h end.
Definition exh_nsys := exy_sys exh_nvme exy_refuse_sg.
Example exh_log : match snd (open_by_path (linux exh_nsys) [] exh_path) with
  | Ok x => match l_drv x with
    | Some V => let '(cs, (page, e)) := nvme_get_log_page V (l_dh x) (l_calls x) 0xffffffff 2 false 512 in
        Some (l_driver_name x, page, e, map (fun c => (nth 0 (nc_arg c) 0, slice 4 4 (nc_arg c), slice 40 4 (nc_arg c))) (skipn 2 (nvme_ioctls exh_nsys (at_nvme [] exh_path 7) (with_calls x cs))))
    | None => None end
  | _ => None end = Some (str "LinuxNvmeDriver", exh_page, None, [(2, [255; 255; 255; 255], [2; 0; 127; 0])]).
Proof. vm_compute. reflexivity. Qed.
