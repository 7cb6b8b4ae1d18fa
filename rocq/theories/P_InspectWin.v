(** Lemmas for C143. *)
From Verif Require Import Base M_Buffer M_Struc M_Layouts M_Ata M_TcgDevice M_DriveHandle M_Cdb M_SgDriver M_NvmeLinux M_Strings M_WinPass M_WinNvme M_WinInfo
  M_WinFactory M_WinEnum Spec_Sg Spec_WinPass Spec_WinNvme Spec_Inspect Spec_InspectWin
  P_Discovery P_DriveHandle P_Sg P_WinPass P_WinNvme Prop_Sg Prop_NvmeLinux Prop_WinPass Prop_WinNvme Prop_WinDrive P_Inspect.

(** Only reading requests (and openings and closings of handles) were added. *)
Definition quiet (e : wev) : Prop := match e with WIo c => win_reads c | _ => True end.
Definition wadds (h h' : whist) : Prop := exists es, h' = h ++ es /\ Forall quiet es.
Lemma wadds_refl h : wadds h h.
Proof. exists []. now rewrite app_nil_r. Qed.
Lemma wadds_trans h1 h2 h3 : wadds h1 h2 -> wadds h2 h3 -> wadds h1 h3.
Proof. intros (a & -> & A) (b & -> & B). exists (a ++ b). rewrite app_assoc. split; [reflexivity|]. apply Forall_app. auto. Qed.
Lemma wadds_one h e : quiet e -> wadds h (h ++ [e]).
Proof. intros H. exists [e]. auto. Qed.

Lemma same_adds S h hd code b : quiet (WIo {| wc_handle := hd; wc_code := code; wc_in := b; wc_outlen := blen b; wc_target := TNone; wc_mem := [] |}) ->
  wadds h (fst (win_same S h hd code b)).
Proof. intros Q. unfold win_same, win_io. cbn [fst]. now apply wadds_one. Qed.
Lemma query_adds S h hd code inb n : In code win_queries -> wadds h (fst (win_query S h hd code inb n)).
Proof. intros Q. unfold win_query. cbn [fst]. apply wadds_one. left. exact Q. Qed.
Lemma read_ioctl_adds S h hd code inb : In code win_queries -> wadds h (fst (read_ioctl S h hd code inb)).
Proof.
  intros Q. unfold read_ioctl. pose proof (query_adds S h hd code inb 4096 Q) as X. destruct (win_query S h hd code inb 4096) as [h1 [a1 b1]].
  cbn [fst] in X. cbv zeta. destruct (wa_err a1 =? ERROR_INSUFFICIENT_BUFFER).
  - destruct (wa_ret a1 =? 0); [exact X|]. pose proof (query_adds S h1 hd code inb (wa_ret a1) Q) as Y.
    destruct (win_query S h1 hd code inb (wa_ret a1)) as [h2 [a2 b2]]. cbn [fst] in Y. apply (wadds_trans _ _ _ X).
    destruct (wa_err a2 =? 0); exact Y.
  - destruct (wa_err a1 =? 0); exact X.
Qed.
Lemma basic_adds S h hd : wadds h (fst (win_basic_info S h hd)).
Proof.
  unfold win_basic_info.
  pose proof (query_adds S h hd IOCTL_STORAGE_GET_DEVICE_NUMBER [] 12 ltac:(cbn; auto)) as X. destruct (win_query S h hd _ [] 12) as [h1 [a1 b1]]. cbn [fst] in X.
  pose proof (query_adds S h1 hd IOCTL_DISK_GET_DRIVE_GEOMETRY_EX [] 32 ltac:(cbn; auto)) as Y. destruct (win_query S h1 hd _ [] 32) as [h2 [a2 b2]]. cbn [fst] in Y.
  pose proof (read_ioctl_adds S h2 hd IOCTL_DISK_GET_DRIVE_LAYOUT_EX [] ltac:(cbn; auto)) as Z. destruct (read_ioctl S h2 hd _ []) as [h3 r]. cbn [fst] in Z.
  pose proof (wadds_trans _ _ _ X (wadds_trans _ _ _ Y Z)) as W.
  destruct r as [[buf n]| | |]; try exact W. destruct (layout_info _ _) as [[[[? ?] ?] ?]| | |]; exact W.
Qed.
Lemma storage_adds S h hd : wadds h (fst (win_storage_query S h hd)).
Proof.
  unfold win_storage_query. pose proof (read_ioctl_adds S h hd IOCTL_STORAGE_QUERY_PROPERTY (zeros 12) ltac:(cbn; auto)) as Z.
  destruct (read_ioctl S h hd _ (zeros 12)) as [h3 r]. cbn [fst] in Z. destruct r as [[buf n]| | |]; try exact Z.
  destruct (n =? 0); [exact Z|]. destruct (_ <? 36)%nat; [exact Z|]. cbv zeta.
  repeat match goal with |- context [match read_ascii ?a ?b with _ => _ end] => destruct (read_ascii a b); try exact Z end.
Qed.

(** ---- pass-through ---- *)
Lemma exchange_adds S h hd cdb data addr baddr secs h' e got : scsi_exchange S h hd false cdb data addr baddr secs h' e got ->
  ((exists s, security_decode cdb = Some s /\ sc_out s = false) \/ (exists a, sat_decode cdb = Some a /\ In (sat_command a) ata_reads)) -> wadds h h'.
Proof.
  intros X D.
  assert (Q : forall c len ptr, In (wc_code c) [0x4d014; 0x4d004] -> scsi_request false cdb len secs ptr (firstn 96 (wc_in c)) -> quiet (WIo c)).
  { intros c len ptr Hc (_ & R1 & _ & _ & R2 & _). right. right. left. split; [exact Hc|]. cbv zeta. split; [exact R2|]. rewrite R1. exact D. }
  destruct X as (c1 & rest & p1 & mid & -> & _ & C1 & L1 & _ & R1 & _ & _ & _ & Z). cbv zeta in Z. destruct Z as (_ & _ & Z1 & Z2).
  assert (Q1 : quiet (WIo c1)).
  { eapply Q; [rewrite C1; cbn; auto|]. rewrite firstn_all2; [exact R1|]. unfold blen in L1. lia. }
  destruct (N.eq_dec (wa_err (s_io S (h ++ [WIo c1]))) 0) as [E|E].
  - destruct (Z1 E) as (-> & _). exists [WIo c1]. auto.
  - destruct (Z2 E) as (c2 & -> & _ & C2 & _ & _ & R2 & _). exists [WIo c1; WIo c2]. split; [reflexivity|]. constructor; [exact Q1|]. constructor; [|constructor].
    eapply Q; [rewrite C2; cbn; auto|exact R2].
Qed.
Lemma task_adds S h hd dma t data addr baddr secs : wf_tf t -> In (t_command t) ata_reads -> addr < 2 ^ 64 -> baddr < 2 ^ 64 ->
  wadds h (fst (win_task_file S h hd false dma t data addr baddr secs)).
Proof.
  intros W C Ha Hb. destruct (win_task_file S h hd false dma t data addr baddr secs) as [h' r] eqn:E. cbn [fst].
  destruct (C88_scsi_task_file _ _ _ _ _ _ _ _ _ _ _ _ W Ha Hb E) as [P0 P1].
  destruct data as [|b data]; [destruct (P0 eq_refl) as [-> _]; apply wadds_refl|].
  destruct P1 as (e & got & cdb & _ & X & D & _); [discriminate|]. apply (exchange_adds _ _ _ _ _ _ _ _ _ _ _ X). right. eexists. split; [exact D|exact C].
Qed.
Lemma win_security_adds S h hd dma pr c data addr baddr secs : c < 2 ^ 16 -> blen data < 2 ^ 32 -> addr < 2 ^ 64 -> baddr < 2 ^ 64 ->
  wadds h (fst (win_security S h hd false dma pr c data addr baddr secs)).
Proof.
  intros Hc Hl Ha Hb. destruct (win_security S h hd false dma pr c data addr baddr secs) as [h' r] eqn:E. cbn [fst].
  destruct (C89_win_security _ _ _ _ _ _ _ _ _ _ _ _ _ Hc Hl Ha Hb E) as [P0 P1].
  destruct data as [|b data]; [destruct (P0 eq_refl) as [-> _]; apply wadds_refl|].
  destruct P1 as (e & got & cdb & _ & X & D); [discriminate|]. apply (exchange_adds _ _ _ _ _ _ _ _ _ _ _ X). left. eexists. split; [exact D|reflexivity].
Qed.
Lemma win_ata_adds S h hd dma t data addr baddr secs : wf_tf t -> In (t_command t) ata_reads -> addr < 2 ^ 64 -> baddr < 2 ^ 64 ->
  wadds h (fst (win_ata S h hd false dma t data addr baddr secs)).
Proof.
  intros W C Ha Hb. destruct (win_ata S h hd false dma t data addr baddr secs) as [h' r] eqn:E. cbn [fst].
  destruct data as [|b data]; [destruct (C85_ata_panics _ _ _ _ _ _ _ _ _ _ _ _ W E) as [P0 _]; destruct (P0 eq_refl) as [-> _]; apply wadds_refl|].
  assert (Hd : b :: data <> []) by discriminate.
  destruct (C85_ata_requests _ _ _ _ _ _ _ _ _ _ _ _ W Ha Hb Hd E) as (c1 & rest & -> & _ & C1 & L1 & _ & R1 & _ & _ & _ & _ & Z).
  cbv zeta in Z. destruct Z as [Z1 Z2].
  assert (Q : forall c, In (wc_code c) [0x4d030; 0x4d02c] -> ata_request false t (blen (b :: data)) secs (firstn 48 (wc_in c)) -> quiet (WIo c)).
  { intros c Hc R. unfold ata_request in R. cbv zeta in R. destruct R as (_ & F & _ & _ & _ & _ & _ & _ & K & _). right. right. right.
    split; [exact Hc|]. cbv zeta. split; [apply F; auto|]. split; [|rewrite K; exact C].
    destruct (N.testbit _ flag_data_out) eqn:B; [|reflexivity]. apply F in B as [[B _]|[[_ B]|[B _]]]; discriminate B. }
  assert (Q1 : quiet (WIo c1)).
  { apply Q; [rewrite C1; cbn; auto|]. rewrite firstn_all2; [exact R1|]. unfold blen in L1. lia. }
  destruct (N.eq_dec (wa_err (s_io S (h ++ [WIo c1]))) 0) as [X|X].
  - rewrite (Z1 X). exists [WIo c1]. auto.
  - destruct (Z2 X) as (c2 & p1 & -> & _ & C2 & _ & _ & _ & R2 & _). exists [WIo c1; WIo c2]. split; [reflexivity|]. constructor; [exact Q1|]. constructor; [|constructor].
    apply Q; [rewrite C2; cbn; auto|exact R2].
Qed.
Lemma miniport_quiet hd op nsid a b c d e f data : In op nvme_reads ->
  quiet (WIo {| wc_handle := hd; wc_code := IOCTL_SCSI_MINIPORT; wc_in := miniport_mem op nsid a b c d e f data;
                wc_outlen := blen (miniport_mem op nsid a b c d e f data); wc_target := TNone; wc_mem := [] |}).
Proof.
  intros H. right. left. cbn [wc_code wc_in]. split; [reflexivity|]. unfold miniport_decode. cbn [mp_direction mp_opcode]. split; [reflexivity|].
  change (reg 52 (miniport_mem op nsid a b c d e f data)) with (op mod 256).
  rewrite N.mod_small; [exact H|]. cbn in H. destruct H as [<-|[<-|[<-|[]]]]; reflexivity.
Qed.
Lemma miniport_adds S h hd c ext : In (c_opcode c) nvme_reads -> wadds h (fst (miniport_admin S h hd c ext)).
Proof.
  intros H. unfold miniport_admin. destruct (4096 <? c_data_len c); [apply wadds_refl|]. cbv zeta.
  set (ref := if negb _ then ext else c_data c). clearbody ref.
  set (m := miniport_mem _ _ _ _ _ _ _ _ _).
  assert (X : wadds h (fst (win_same S h hd IOCTL_SCSI_MINIPORT m))) by (apply same_adds, miniport_quiet, H). clearbody m.
  destruct (win_same S h hd IOCTL_SCSI_MINIPORT m) as [h1 [e out]]. cbn [fst] in X. destruct e; exact X.
Qed.
Lemma log_adds S h hd nsid logId rae size : wadds h (fst (winnvme_log_page S h hd nsid logId rae size)).
Proof.
  unfold winnvme_log_page. destruct (size <=? -48)%Z; [apply wadds_refl|]. destruct (size <? 0)%Z; [apply wadds_refl|].
  set (m := protocol_query _ _ _ _ ++ _). clearbody m.
  assert (X : wadds h (fst (win_same S h hd IOCTL_STORAGE_QUERY_PROPERTY m))) by (apply same_adds; left; cbn; auto 10).
  destruct (win_same S h hd _ m) as [h1 [e out]]. cbn [fst] in X. destruct e; [exact X|]. cbv zeta. destruct (_ || _)%bool; exact X.
Qed.
Lemma step_adds S A d k c : addr_ok A -> gentle c -> wadds k (replay_step S A d k c).
Proof.
  intros HA G. destruct (HA k) as [Ha Hb]. unfold replay_step, win_replay. cbn [fold_left].
  assert (R : wadds k k) by apply wadds_refl.
  destruct c; cbn [gentle] in G; unfold win_exec.
  - destruct G as (-> & Hp & Hc & Hl). destruct (wd_kind d); try exact R; now apply win_security_adds.
  - destruct G as (-> & W & C).
    assert (C' : In (t_command t) ata_reads) by (unfold ata_reads; cbn in *; tauto).
    destruct (wd_kind d); try exact R; [now apply task_adds|now apply win_ata_adds].
  - destruct (wd_kind d); try exact R. pose proof (miniport_adds S k (wd_scsi d) c [] ltac:(rewrite G; cbn; auto)) as X.
    destruct (miniport_admin S k (wd_scsi d) c []) as [h1 [e [c' x]]]. exact X.
  - destruct (wd_kind d); try exact R. pose proof (log_adds S k (wd_handle d) nsid logId rae size) as X.
    destruct (winnvme_log_page _ _ _ _ _ _ _) as [h1 q]. exact X.
  - destruct (wd_kind d); exact R.
  - destruct (wd_kind d); apply wadds_one; exact I.
  - destruct (wd_kind d); exact R.
  - destruct (wd_kind d); exact R.
Qed.
Lemma replay_adds S A d cs : forall h, addr_ok A -> Forall gentle cs -> wadds h (win_replay S A d h cs).
Proof.
  induction cs as [|c cs IH]; intros h HA H; [apply wadds_refl|]. inversion H; subst.
  change (win_replay S A d h (c :: cs)) with (win_replay S A d (replay_step S A d h c) cs).
  apply (wadds_trans _ (replay_step S A d h c)); [now apply step_adds|now apply IH].
Qed.

(** ---- opening ---- *)
Lemma finish_fst x : fst (finish_open x) = fst x.
Proof. destruct x as [h [[[e|] d]| | |]]; reflexivity. Qed.
Lemma identify_wf : wf_tf win_identify_tf.
Proof. repeat split; reflexivity. Qed.
Lemma nvmewin_adds S h hd : wadds h (fst (nvmewin_open S h hd)).
Proof.
  unfold nvmewin_open, get_scsi_path.
  assert (X : wadds h (fst (win_same S h hd IOCTL_SCSI_GET_ADDRESS (zeros 8)))) by (apply same_adds; left; cbn; auto 10).
  destruct (win_same S h hd IOCTL_SCSI_GET_ADDRESS (zeros 8)) as [h1 [e out]]. cbn [fst] in X. destruct e; [exact X|]. unfold open_device.
  set (path := (str "\\.\SCSI" ++ _)%list). clearbody path. cbv zeta. pose proof (wadds_one h1 (WOpen path) I) as O.
  destruct (s_open S (h1 ++ [WOpen path])) as [x|sh]; [exact (wadds_trans _ _ _ X O)|].
  unfold miniport_identity. set (m := miniport_mem _ _ _ _ _ _ _ _ _).
  assert (Y : wadds (h1 ++ [WOpen path]) (fst (win_same S (h1 ++ [WOpen path]) sh IOCTL_SCSI_MINIPORT m))).
  { apply same_adds, miniport_quiet. cbn. auto. }
  clearbody m. destruct (win_same S (h1 ++ [WOpen path]) sh IOCTL_SCSI_MINIPORT m) as [h2 [e2 out2]]. cbn [fst] in Y.
  pose proof (wadds_trans _ _ _ X (wadds_trans _ _ _ O Y)) as W. pose proof (wadds_one h2 (WClose sh) I) as Z.
  destruct e2; [exact (wadds_trans _ _ _ W Z)|]. destruct (negb _); [exact (wadds_trans _ _ _ W Z)|exact W].
Qed.
Lemma winnvme_adds S h hd : wadds h (fst (winnvme_open S h hd)).
Proof.
  unfold winnvme_open, winnvme_identity. set (m := (protocol_query _ _ _ _ ++ _)%list). clearbody m.
  assert (X : wadds h (fst (win_same S h hd IOCTL_STORAGE_QUERY_PROPERTY m))) by (apply same_adds; left; cbn; auto 10).
  destruct (win_same S h hd _ m) as [h1 [e out]]. cbn [fst] in X. destruct e; [exact X|]. destruct (negb _); exact X.
Qed.
Lemma probe_adds S A h hd k : addr_ok A -> wadds h (fst (win_probe S A h hd k)).
Proof.
  intros HA. destruct (HA h) as [Ha Hb]. unfold win_probe. cbv zeta. destruct k.
  - pose proof (nvmewin_adds S h hd) as X. destruct (nvmewin_open S h hd) as [h1 [[sh i]| | |]]; exact X.
  - pose proof (winnvme_adds S h hd) as X. destruct (winnvme_open S h hd) as [h1 r]; exact X.
  - assert (X : wadds h (fst (win_scsi_open S h hd (ad_data A h) (ad_bounce A h)))).
    { unfold win_scsi_open. rewrite finish_fst. apply task_adds; try assumption; [apply identify_wf|cbn; auto]. }
    destruct (win_scsi_open S h hd _ _) as [h1 r]; exact X.
  - assert (X : wadds h (fst (win_ata_open S h hd (ad_data A h) (ad_bounce A h)))).
    { unfold win_ata_open. rewrite finish_fst. apply win_ata_adds; try assumption; [apply identify_wf|cbn; auto]. }
    destruct (win_ata_open S h hd _ _) as [h1 r]; exact X.
Qed.
Lemma install_adds S A h x d : addr_ok A -> wadds h (fst (win_install S A h x d)).
Proof.
  intros HA. unfold win_install. cbv zeta. destruct (init _ _ _) as [calls [p' r]] eqn:E.
  apply init_gentle in E as (cs & -> & F).
  assert (X : wadds h (win_replay S A d h ([CType; CName] ++ cs))) by (apply replay_adds; [exact HA|]; repeat constructor; exact F).
  destruct r; exact X.
Qed.
Lemma probes_adds S A hd x ks : forall h, addr_ok A -> wadds h (fst (win_probes S A h hd x ks)).
Proof.
  induction ks as [|k ks IH]; intros h HA; cbn [win_probes]; [apply wadds_refl|].
  pose proof (probe_adds S A h hd k HA) as P. destruct (win_probe S A h hd k) as [h1 [d|e| |]]; cbn [fst] in P; try exact P.
  - pose proof (install_adds S A h1 x d HA) as Q. destruct (win_install S A h1 x d) as [h2 [x1|e| |]]; exact (wadds_trans _ _ _ P Q).
  - exact (wadds_trans _ _ _ P (IH h1 HA)).
Qed.
Lemma open_handle_adds S A h hd path : addr_ok A -> wadds h (fst (win_open_by_handle S A h hd path)).
Proof.
  intros HA. unfold win_open_by_handle. pose proof (basic_adds S h hd) as B. destruct (win_basic_info S h hd) as [h1 b]. cbn [fst] in B.
  destruct b as [basic| | |]; try exact B. cbv zeta. pose proof (probes_adds S A hd (whandle0 path basic) win_drivers h1 HA) as P.
  destruct (win_probes S A h1 hd (whandle0 path basic) win_drivers) as [h2 [[x1|]|e| |]]; cbn [fst] in P; try exact (wadds_trans _ _ _ B P).
  pose proof (storage_adds S h2 hd) as Q. destruct (win_storage_query S h2 hd) as [h3 q]. exact (wadds_trans _ _ _ B (wadds_trans _ _ _ P Q)).
Qed.
Lemma open_path_adds S A h path : addr_ok A -> wadds h (fst (win_open_by_path S A h path)).
Proof.
  intros HA. unfold win_open_by_path. destruct (existsb _ path); [apply wadds_refl|]. unfold open_device. cbv zeta.
  pose proof (wadds_one h (WOpen path) I) as O. destruct (s_open S (h ++ [WOpen path])) as [e|hd]; [exact O|].
  pose proof (open_handle_adds S A (h ++ [WOpen path]) hd path HA) as P.
  destruct (win_open_by_handle S A (h ++ [WOpen path]) hd path) as [h2 [x|e| |]]; cbn [fst] in P; try exact (wadds_trans _ _ _ O P).
  exact (wadds_trans _ _ _ O (wadds_trans _ _ _ P (wadds_one h2 (WClose hd) I))).
Qed.
