(** C119-C120: TCG operations over the Windows drivers. *)
From Verif Require Import Base M_Buffer M_Ata M_TcgToken M_TcgCommand M_TcgDevice M_TcgSession M_DriveHandle M_Cdb M_SgDriver M_NvmeLinux M_Strings M_TcgOnDrive M_WinPass M_WinNvme
  Spec_Tcg Spec_TcgCommand Spec_TcgClient Spec_TcgSession P_TcgDevice P_TcgSession Spec_NvmeLinux Spec_Sg Spec_WinPass Spec_WinNvme P_Discovery P_DriveHandle P_Sg P_NvmeLinux
  P_WinPass P_WinNvme Spec_TcgOnDrive P_TcgOnDrive P_TcgOnWin.
From Verif Require Import Prop_Sg Prop_NvmeLinux Prop_WinPass Prop_WinNvme Prop_WinDrive.

(** ---- C119: the SCSI, ATA and storage-query drivers ---- *)
(** Every send of the client becomes one to four requests whose data is all zeros; the drive never sees a byte of a TCG method call. *)
Theorem C119_tcg_sends_zeros_refuted : forall S A d h0 p g t,
  let V := win_drv S A d h0 in
  wd_kind d <> KNvmeWin -> over_win d p -> addr_ok A -> Forall typed (commands t) -> Forall (fun x => x_data x <> []) (commands t) ->
  exists groups, win_replay S A d h0 (driver_calls V p g t) = win_replay S A d h0 g ++ concat groups
  /\ Forall2 (fun x grp => x_out x = true -> exists cs, grp = map WIo cs /\ cs <> [] /\ Forall (fun c => payload c = zeros (List.length (x_data x))) cs) (commands t) groups.
Proof.
  intros S A d h0 p g t V Hk Hp HA. revert g. induction t as [|e t IH]; intros g T Ne.
  { exists []. rewrite app_nil_r. split; [reflexivity|constructor]. }
  destruct e as [|ns|rw dma pr c b s]; try exact (IH g T Ne).
  cbn [commands] in T, Ne |- *. inversion T as [|x l (T1 & T2 & T3 & T4) Tt]; subst x l. cbn [x_protocol x_comid x_data] in T1, T2, T3, T4.
  inversion Ne as [|x l N1 Nt]; subst x l. cbn [x_data] in N1.
  change (driver_calls V p g (EvSec rw dma pr c b s :: t)) with (driver_calls V p (fst (security_command V p g rw dma pr c b s)) t).
  destruct (security_command V p g rw dma pr c b s) as [h1 [e out]] eqn:E. cbn [fst].
  assert (Pre : exists grp, win_replay S A d h0 h1 = win_replay S A d h0 g ++ grp
    /\ (rw = true -> exists cs, grp = map WIo cs /\ cs <> [] /\ Forall (fun c => payload c = zeros (List.length b)) cs)).
  { destruct rw.
    - destruct (C98_sends_zeros_refuted S A d h0 p g dma pr c b s h1 e out Hk Hp HA T1 T2 T4 N1 E) as ((cs & R & Nc & F) & _). exists (map WIo cs). split; [exact R|]. eauto.
    - destruct (win_extends S A d h0 p g false dma pr c b s) as (grp & R). fold V in R. rewrite E in R. exists grp. split; [exact R|discriminate]. }
  destruct Pre as (grp & R1 & Q). destruct (IH h1 Tt Nt) as (gs & R2 & F). exists (grp :: gs). split.
  - rewrite R2, R1. cbn [concat]. now rewrite app_assoc.
  - constructor; [exact Q|exact F].
Qed.
Print Assumptions C119_tcg_sends_zeros_refuted.

(** So the password is not used: RevertTPer with any two passwords - one hashed, the other a raw PSID, one right, the other wrong or empty -
    asks the system exactly the same things and gives the same result, whatever the drive answers.  (The clock may count calls but
    cannot look at the bytes sent.) *)
Theorem C119_password_unused_refuted : forall S A d h0 p g clock kdf heap fuel dev com pw pw' (isPsid isPsid' isAdm isAdm' : bool) t r t' r',
  let V := win_drv S A d h0 in
  let E := drive_env V p g (fun t => clock (List.length t)) kdf heap fuel in
  wd_kind d <> KNvmeWin -> over_win d p ->
  wf_system S -> (forall j, heap j < 256) -> (forall x s, List.length (kdf x s) = 32%nat /\ wf (kdf x s)) ->
  is_any_ssc dev = true -> get_base_com_id dev = Ok com -> com < 2 ^ 16 -> wf pw -> wf pw' ->
  revert_tper E dev pw isPsid isAdm [] = (t, r) -> revert_tper E dev pw' isPsid' isAdm' [] = (t', r') ->
  win_replay S A d h0 (driver_calls V p g t) = win_replay S A d h0 (driver_calls V p g t') /\ r = r'.
Proof.
  intros S A d h0 p g clock kdf heap fuel dev com pw pw' ps ps' adm adm' t r t' r' V E Hk Hp HS Hh Hkdf Hs Hc Hc16 W W' H H'.
  assert (HE : env_ok E) by (apply drive_env_ok; [now apply win_bytes_out|exact Hh|exact Hkdf]).
  assert (HB : blind com E) by (apply drive_blind; assumption).
  destruct (revert_blind com E dev pw pw' ps ps' adm adm' HE HB Hc Hc16 Hs W W' [] [] (Forall2_nil _)) as [X Y]. rewrite H, H' in X, Y. cbn [fst snd] in X, Y.
  split; [|exact X]. apply (calls_blind S A d h0 p com Hk Hp t t' Y g g eq_refl).
Qed.
Print Assumptions C119_password_unused_refuted.

(** ---- C120: the miniport driver ---- *)
Definition miniport_security (hd : N) (x : security) (e : wev) : Prop :=
  exists c sent, e = WIo c /\ wc_handle c = hd /\ wc_code c = 0x4d008
  /\ miniport_carries (security_cmd (x_out x) (x_protocol x) (x_comid x) (blen (x_data x))) sent (wc_in c)
  /\ delivered (zeros (N.to_nat 4096)) (x_data x) sent.
Theorem C120_tcg_over_miniport : forall S A d h0 p g t,
  let V := win_drv S A d h0 in
  wd_kind d = KNvmeWin -> over_win d p -> Forall typed (commands t) -> Forall (fun x => blen (x_data x) <= 4096) (commands t) ->
  exists evs, win_replay S A d h0 (driver_calls V p g t) = win_replay S A d h0 g ++ evs /\ Forall2 (miniport_security (wd_scsi d)) (commands t) evs.
Proof.
  intros S A d h0 p g t V Hk Hp. revert g. induction t as [|e t IH]; intros g T Ne.
  { exists []. rewrite app_nil_r. split; [reflexivity|constructor]. }
  destruct e as [|ns|rw dma pr c b s]; try exact (IH g T Ne).
  cbn [commands] in T, Ne |- *. inversion T as [|x l (T1 & T2 & T3 & T4) Tt]; subst x l. cbn [x_protocol x_comid x_data] in T1, T2, T3, T4.
  inversion Ne as [|x l N1 Nt]; subst x l. cbn [x_data] in N1.
  change (driver_calls V p g (EvSec rw dma pr c b s :: t)) with (driver_calls V p (fst (security_command V p g rw dma pr c b s)) t).
  destruct (security_command V p g rw dma pr c b s) as [h1 [e out]] eqn:E. cbn [fst].
  destruct (C96_security_over_miniport S A d h0 p g rw dma pr c b s h1 e out Hk Hp T1 T2 T4 E) as [_ Q].
  destruct (Q N1) as (call & sent & R & F1 & F2 & F3 & F4 & _). destruct (IH h1 Tt Nt) as (evs & R2 & F). exists (WIo call :: evs). split.
  - fold V in R2. rewrite R2, R, <- app_assoc. reflexivity.
  - constructor; [|exact F]. exists call, sent. auto.
Qed.
Print Assumptions C120_tcg_over_miniport.

(** What the client reads after a receive. *)
Theorem C120_answers_over_miniport : forall S A d h0 p g clock kdf heap fuel t dma proto com b secs e out,
  let V := win_drv S A d h0 in
  let E := drive_env V p g clock kdf heap fuel in
  let t' := t ++ [EvSec false dma proto com b secs] in
  let a := s_io S (win_replay S A d h0 (driver_calls V p g t')) in
  wd_kind d = KNvmeWin -> over_win d p -> Forall typed (commands t') -> blen b <= 4096 ->
  e_sec E t' = (e, out) ->
  (win_ok a -> e = None /\ exists sent reply, delivered (zeros (N.to_nat 4096)) b sent /\ delivered sent (skipn 152 (wa_out a)) reply /\ out = firstn (List.length b) reply)
  /\ (~ win_ok a -> e = Some (errno (wa_err a)) /\ out = b).
Proof.
  intros S A d h0 p g clock kdf heap fuel t dma proto com b secs e out V E t' a Hk Hp T L H.
  unfold E, t' in H. rewrite (drive_env_sec V p g clock kdf heap fuel t false dma proto com b secs T) in H.
  assert (Ed : driver_calls V p g t' = fst (security_command V p (driver_calls V p g t) false dma proto com b secs))
    by (unfold t'; rewrite driver_calls_app; reflexivity).
  destruct (security_command V p (driver_calls V p g t) false dma proto com b secs) as [h1 [e1 o1]] eqn:Es. cbn [snd fst] in H, Ed. injection H as -> ->.
  unfold t' in T. rewrite commands_app in T. apply Forall_app in T as [_ T]. inversion T as [|x l (T1 & T2 & T3 & T4) _]; subst x l.
  cbn [x_protocol x_comid x_data] in T1, T2, T3, T4.
  destruct (C96_security_over_miniport S A d h0 p _ false dma proto com b secs h1 e out Hk Hp T1 T2 T4 Es) as [_ Q].
  destruct (Q L) as (call & sent & R & _ & _ & _ & F4 & G). cbv zeta in G. unfold a. rewrite Ed. destruct G as [G1 G2]. split; [|exact G2].
  intros O. destruct (G1 O) as (-> & reply & D1 & D2). split; [reflexivity|]. exists sent, reply. auto.
Qed.
Print Assumptions C120_answers_over_miniport.

(** RevertTPer through the miniport: the StartSession frame, with the credential, is in the page of the first send. *)
Theorem C120_revert_over_miniport : forall S A d h0 p g clock kdf heap fuel dev com pw (isPsid isAdm : bool) t r,
  let V := win_drv S A d h0 in
  let E := drive_env V p g clock kdf heap fuel in
  let uid := if isPsid then uid_PSID else uid_SID in
  let start := frame 0 0 com (start_payload uid_AdminSP (credential_of kdf (get_serial dev) isPsid pw) (uid8 uid)) in
  let handed cmds := map x_data (filter x_out cmds) in
  wd_kind d = KNvmeWin -> over_win d p ->
  wf_system S -> (forall j, heap j < 256) -> (forall x s, List.length (kdf x s) = 32%nat /\ wf (kdf x s)) ->
  is_any_ssc dev = true -> get_base_com_id dev = Ok com -> com < 2 ^ 16 -> wf pw ->
  revert_tper E dev pw isPsid isAdm [] = (t, r) ->
  exists cmds evs, win_replay S A d h0 (driver_calls V p g t) = win_replay S A d h0 g ++ evs /\ Forall2 (miniport_security (wd_scsi d)) cmds evs
  /\ Forall (fun x => x_protocol x = 1 /\ x_comid x = com /\ (x_out x = true \/ x_data x = zeros 2048)) cmds
  /\ (handed cmds = [start] /\ r <> Ok tt \/ exists hsn tsn, handed cmds = [start; frame hsn tsn com revert_payload]).
Proof.
  intros S A d h0 p g clock kdf heap fuel dev com pw isPsid isAdm t r V E uid start handed Hk Hp HS Hh Hkdf Hs Hc Hc16 Wp H.
  assert (HE : env_ok E) by (apply drive_env_ok; [now apply win_bytes_out|exact Hh|exact Hkdf]).
  destruct (revert_shaped E dev pw isPsid isAdm com [] t r HE Hs Hc H) as (t' & Et & Sh). cbn [app] in Et. subst t'.
  destruct (c29 E dev com pw isPsid isAdm [] t r HE Hs Hc Hc16 Wp H) as (s1 & h1 & r1 & St & (t1 & E1 & S1) & N1 & N2). cbv zeta in St, S1, N2.
  cbn [app] in E1. subst h1. fold uid in S1. change (e_pbkdf2 E) with kdf in S1. fold start in S1.
  assert (Wst : List.length start = 512%nat /\ wf start).
  { split; [apply frame_length|]. apply frame_wf. apply start_payload_wf; auto; [wf_lit|]. unfold uid. destruct isPsid; wf_lit. }
  assert (Cases : sends t = [start] /\ r <> Ok tt \/ exists hsn tsn, sends t = [start; frame hsn tsn com revert_payload]).
  { assert (D : r1 = Ok tt \/ r1 <> Ok tt) by (destruct r1 as [[]| | |]; [now left|right; discriminate..]). destruct D as [D|D].
    - right. destruct (N2 D) as (hv & tv & t2 & c & Hn & Et & S2 & _). exists hv, tv. rewrite Et, sends_app, S1, S2. reflexivity.
    - left. destruct (N1 D) as [-> ->]. auto. }
  assert (Ts : Forall (fun b => List.length b = 512%nat /\ wf b) (sends t)).
  { destruct Cases as [[-> _]|(hs & ts & ->)]; (apply Forall_cons; [exact Wst|]); [apply Forall_nil|].
    apply Forall_cons; [|apply Forall_nil]. split; [apply frame_length|apply frame_wf, revert_payload_wf]. }
  pose proof (shaped_typed com t Hc16 Sh Ts) as Ty.
  assert (Le : Forall (fun x => blen (x_data x) <= 4096) (commands t)).
  { rewrite sends_commands in Ts. rewrite Forall_forall in Sh, Ts |- *. intros x Hx. destruct (Sh x Hx) as (_ & _ & [O|O]); [|rewrite O; discriminate].
    destruct (Ts (x_data x)) as [L _]; [apply in_map; apply filter_In; auto|]. unfold blen. rewrite L. discriminate. }
  destruct (C120_tcg_over_miniport S A d h0 p g t Hk Hp Ty Le) as (evs & Ra & F2). fold V in Ra.
  exists (commands t), evs. split; [exact Ra|]. split; [exact F2|]. split; [exact Sh|]. unfold handed. rewrite <- sends_commands. exact Cases.
Qed.
Print Assumptions C120_revert_over_miniport.
