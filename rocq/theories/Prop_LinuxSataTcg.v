(** C144: from a SATA device path to a reverted drive, on a complete Linux system. *)
From Verif Require Import Base M_Buffer M_Struc M_Ata M_TcgToken M_TcgCommand M_TcgDevice M_TcgSession M_DriveHandle M_Cdb M_SgDriver M_SgHandle M_NvmeLinux M_Strings M_LinuxInfo M_LinuxFactory
  M_LinuxSystem M_TcgOnDrive Spec_Drive P_DriveHandle P_Identity Prop_Drive Spec_LinuxFactory P_LinuxFactory Prop_LinuxFactory Spec_NvmeLinux Spec_Sg P_Sg Prop_Sg
  Prop_NvmeLinux Prop_SgHandle Spec_Tcg Spec_TcgCommand Spec_TcgClient Spec_TcgSession P_TcgDevice P_TcgSession Spec_TcgOnDrive Prop_TcgDevice P_TcgOnDrive Prop_TcgOnDrive Spec_LinuxSystem P_LinuxSystem Prop_LinuxSystem
  Prop_LinuxTcg Spec_LinuxSata.

Lemma sg_opened : forall S h path h' x fd, addresses_ok S ->
  w_open (sy_world S) (h ++ [LOpen path]) = inr fd -> open_by_path (linux S) h path = (h', Ok x) ->
  no_nvme (sy_nvme S (at_nvme h path fd)) -> l_driver_name x = str "LinuxScsiDriver" ->
  let K := sy_sg S (at_sg h path fd) in
  exists s1 srest c1 rest id, sg_ioctls S (at_sg h path fd) x = (s1 :: srest) ++ c1 :: rest
  /\ sg_accepted K (s1 :: srest) /\ delivered (zeros 512) (an_in (K [s1])) id /\ ata_texts id (p_info (l_dh x))
  /\ sata_level0 c1
  /\ (succeeded (K (s1 :: srest ++ [c1])) -> rest = [] /\ exists ans, delivered (zeros 2048) (an_in (K (s1 :: srest ++ [c1]))) ans
        /\ discovery_recorded (Some ans) (p_info (l_dh x)))
  /\ fst (sg_open K [] (sy_sg_addr S (at_sg h path fd) [])) = s1 :: srest
  /\ over_sg (l_dh x) /\ l_drv x = Some (sg_drv K (sy_sg_addr S (at_sg h path fd)) (s1 :: srest) id).
Proof.
  intros S h path h' x fd (HA & HB) Ew H Nn Hn K.
  destruct (open_installs (linux S) h path h' (Ok x) fd Ew H) as (x0 & (B1 & B2 & B3 & B4 & B5) & Er).
  rewrite linux_nvme, linux_sg in Er.
  destruct (nvme_probe S (at_nvme h path fd) fd (HA _ _)) as (n1 & _ & _ & N3).
  destruct (sg_probe S (at_sg h path fd) (HB _)) as (s1 & srest & E1 & S2 & S3 & S4). fold K in E1, S4.
  set (pn := probe_nvme S (at_nvme h path fd) fd) in *. set (ps := probe_sg S (at_sg h path fd)) in *.
  destruct N3 as [(_ & e & Ee)|(F & _)]; [|destruct (Nn _ F)]. rewrite Ee in Er. cbn [then_install] in Er. clear Ee.
  destruct S4 as [((e' & Ee) & _)|(Ac & Cl & id & D & Eo)].
  { rewrite Ee in Er. cbn [then_install] in Er. injection Er as ->. destruct B2 as (_ & _ & _ & U). rewrite U in Hn. discriminate. }
  rewrite Eo in Er. unfold then_install in Er.
  match type of Er with context [install x0 ?o] => destruct (install x0 o) as (x2, r2) eqn:Ei end.
  assert (Hx : x2 = x /\ r2 <> Panic) by (destruct r2; split; congruence). destruct Hx as (-> & Hp). clear Er.
  assert (Lid : List.length id = 512%nat) by (rewrite (proj1 D); apply repeat_length).
  destruct (install_driven _ _ _ _ B1 Ei) as (_ & C2 & _).
  destruct (install_sg K (sy_sg_addr S (at_sg h path fd)) (s1 :: srest) id x0 x r2 B1 Lid Ei)
    as (c1 & rest & e2 & ans & R & Lr & L0 & Fr & (F1 & F2 & F3 & F4 & F5 & _) & O & Et & G1 & G2 & _).
  rewrite B5 in O.
  exists s1, srest, c1, rest, id. split. { unfold sg_ioctls. cbv zeta. fold K. rewrite E1. exact R. }
  split; [split; assumption|]. split; [exact D|]. split; [unfold ata_texts; auto|].
  split; [exact L0|]. split; [|split; [exact E1|split; [exact (proj1 C2)|exact (proj1 (proj2 C2))]]].
  intros Y. destruct (G1 Y) as (-> & -> & Da). split; [reflexivity|]. exists ans. split; [exact Da|].
  assert (Rk : r2 = Ok tt) by (destruct O as (_ & [->| ->] & _); [reflexivity|congruence]).
  exact (outcome_recorded _ None ans _ _ eq_refl O Rk ltac:(discriminate)).
Qed.

(** On a drive that takes SECURITY PROTOCOL commands every security command of the client is exactly one request, in order. *)
Definition one_request (x : security) (c : sg_call) : Prop :=
  is_security (x_out x) (x_protocol x) (x_comid x) (x_data x) c /\ (x_out x = true -> sg_mem c = x_data x).
Lemma tcg_over_sata K A kh identity p h0 t :
  let V := sg_drv K A kh identity in
  over_sg p -> takes_security K -> Forall typed (commands t) -> Forall (fun x => x_data x <> []) (commands t) ->
  exists calls, sg_replay K A kh (driver_calls V p h0 t) = sg_replay K A kh h0 ++ calls /\ Forall2 one_request (commands t) calls.
Proof.
  intros V Hp HT. revert h0. induction t as [|e t IH]; intros h0 T Ne.
  { exists []. rewrite app_nil_r. split; [reflexivity|constructor]. }
  destruct e as [|ns|rw dma pr c b s]; try exact (IH h0 T Ne).
  cbn [commands] in T, Ne |- *. inversion T as [|x l (T1 & T2 & T3 & T4) Tt]; subst x l. cbn [x_protocol x_comid x_data] in T1, T2, T3, T4.
  inversion Ne as [|x l N1 Nt]; subst x l. cbn [x_data] in N1.
  change (driver_calls V p h0 (EvSec rw dma pr c b s :: t)) with (driver_calls V p (fst (security_command V p h0 rw dma pr c b s)) t).
  destruct (security_command V p h0 rw dma pr c b s) as [h1 [e out]] eqn:E. cbn [fst].
  destruct (C74_security_over_sg K A kh identity p h0 rw dma pr c b s h1 e out Hp T1 T2 T4 N1 E) as (c1 & rest & R & _ & I1 & I2 & I3 & _).
  destruct (I3 (HT _ _ _ I1)) as (-> & _).
  destruct (IH h1 Tt Nt) as (calls & R2 & F). exists (c1 :: calls). split.
  - rewrite R2, R, <- app_assoc. reflexivity.
  - constructor; [|exact F]. split; [exact I1|exact I2].
Qed.
Lemma answer_over_sata K A kh identity p h0 clock kdf heap fuel t dma proto com b secs e out :
  let V := sg_drv K A kh identity in
  let E := drive_env V p h0 clock kdf heap fuel in
  let t' := t ++ [EvSec false dma proto com b secs] in
  let a := K (sg_replay K A kh (driver_calls V p h0 t')) in
  over_sg p -> takes_security K -> Forall typed (commands t') -> b <> [] ->
  e_sec E t' = (e, out) -> succeeded a /\ delivered (zeros (List.length b)) (an_in a) out.
Proof.
  intros V E t' a Hp HT T Hb H. unfold E, t' in H. rewrite (drive_env_sec V p h0 clock kdf heap fuel t false dma proto com b secs T) in H.
  assert (Ed : driver_calls V p h0 t' = fst (security_command V p (driver_calls V p h0 t) false dma proto com b secs))
    by (unfold t'; rewrite driver_calls_app; reflexivity).
  destruct (security_command V p (driver_calls V p h0 t) false dma proto com b secs) as [h1 [e1 o1]] eqn:S. cbn [snd fst] in H, Ed. injection H as -> ->.
  unfold t' in T. rewrite commands_app in T. apply Forall_app in T as [_ T]. inversion T as [|x l (T1 & T2 & T3 & T4) _]; subst x l.
  cbn [x_protocol x_comid x_data] in T1, T2, T3, T4.
  destruct (C74_security_over_sg K A kh identity p _ false dma proto com b secs h1 e out Hp T1 T2 T4 Hb S) as (c1 & rest & R & _ & I1 & _ & I3 & _).
  pose proof (HT (sg_replay K A kh (driver_calls V p h0 t)) _ _ I1) as Y. destruct (I3 Y) as (-> & _ & _ & D).
  assert (Ea : a = K (sg_replay K A kh (driver_calls V p h0 t) ++ [c1])) by (unfold a; rewrite Ed; fold V in R; now rewrite R).
  rewrite Ea. split; [exact Y|exact (D eq_refl)].
Qed.

(** C144.  A SATA drive opened by path that takes SECURITY PROTOCOL commands and whose Level 0 answer lists Opal v2 (and not Opal v1) with
    some ComID is sent by RevertTPer exactly the StartSession and Revert frames of that ComID and nothing else, whatever it answers; the
    credential is derived from the password and the serial number of its IDENTIFY data; success means that it accepted the Revert. *)
Theorem C144_revert_opened_sata : forall S h path h' x fd ans fs data mem d clock kdf heap fuel pw (isPsid isAdm : bool) t r,
  addresses_ok S -> w_open (sy_world S) (h ++ [LOpen path]) = inr fd -> open_by_path (linux S) h path = (h', Ok x) ->
  no_nvme (sy_nvme S (at_nvme h path fd)) -> l_driver_name x = str "LinuxScsiDriver" ->
  let at_ := at_sg h path fd in
  let K := sy_sg S at_ in
  let opening := sg_ioctls S at_ x in
  takes_security K ->
  (forall k, wf (an_in (K k))) -> (forall j, heap j < 256) -> (forall y s, List.length (kdf y s) = 32%nat /\ wf (kdf y s)) -> wf pw ->
  delivered (zeros 2048) (an_in (K opening)) ans -> level0_answer ans fs ->
  listed 0x0200 fs = false -> last_listed 0x0203 fs = Some data -> (8 <= List.length data)%nat ->
  device_of x mem = Ok d ->
  forall V, l_drv x = Some V -> revert_tper (drive_env V (l_dh x) (l_calls x) clock kdf heap fuel) d pw isPsid isAdm [] = (t, r) ->
  let com := be16_at 4 data in
  let uid := if isPsid then uid_PSID else uid_SID in
  exists id, delivered (zeros 512) (an_in (K (firstn 1 opening))) id /\
  exists text serial, word_swapped (slice (2 * 10) 20 id) text /\ trimmed text serial /\
  let start := frame 0 0 com (start_payload uid_AdminSP (credential_of kdf serial isPsid pw) (uid8 uid)) in
  let after := sg_ioctls S at_ (with_calls x (driver_calls V (l_dh x) (l_calls x) t)) in
  exists calls, after = opening ++ calls /\ Forall (sata_protocol1 com) calls
  /\ (sata_received calls = [start] \/ exists hsn tsn, sata_received calls = [start; frame hsn tsn com revert_payload])
  /\ (r = Ok tt -> exists hsn tsn resp, sata_received calls = [start; frame hsn tsn com revert_payload]
        /\ delivered (zeros 2048) (an_in (K after)) (r_buf resp) /\ accepted resp).
Proof.
  intros S h path h' x fd ans fs data mem d clock kdf heap fuel pw isPsid isAdm t r HS Ew H Nn Hn at_ K opening HT HK Hh Hkdf Wp Da L0 Lo Ll H8 Hd V HV HR com uid.
  destruct (sg_opened S h path h' x fd HS Ew H Nn Hn) as (s1 & srest & c1 & rest & id & E & Ac & Did & T & Z0 & G & E1 & Ho & Ed).
  fold at_ in E, Ac, Did, G, E1, Ed. fold K in Ac, Did, G, E1, Ed. fold opening in E.
  assert (Y : succeeded (K (s1 :: srest ++ [c1]))) by (change (s1 :: srest ++ [c1]) with ((s1 :: srest) ++ [c1]); eapply HT; exact Z0).
  destruct (G Y) as (-> & ans' & Da' & _ & _ & R).
  assert (ans' = ans). { rewrite E in Da. cbn [app] in Da. eapply delivered_unique; eassumption. } subst ans'.
  specialize (R fs L0). destruct R as (_ & _ & _ & _ & R5 & _ & _ & R8 & RR).
  rewrite Ed in HV. injection HV as <-. set (V := sg_drv K (sy_sg_addr S at_) (s1 :: srest) id) in *.
  exists id. split; [rewrite E; exact Did|]. destruct T as (_ & _ & (text & T1 & T2 & _) & _). exists text, (i_serial (p_info (l_dh x))).
  split; [exact T1|]. split; [exact T2|]. cbv zeta.
  assert (Wans : wf ans) by (eapply delivered_wf; [apply wf_zeros| |exact Da]; apply HK).
  assert (Wd : wf data) by (eapply wf_last_listed; [eapply descriptors_wf; eassumption|exact Ll]).
  unfold device_of in Hd. cbn [get_tcg_level0_info_and_serial fst snd] in Hd.
  rewrite Lo in R5. rewrite (last_listed_listed _ _ _ Ll) in R8.
  pose proof (C18_com_ids _ _ _ _ Hd) as (_ & GC).
  unfold new_tcg_device in Hd. rewrite R5, R8 in Hd. cbv iota in Hd.
  assert (Hd' := Hd). injection Hd' as Hd'.
  destruct (GC 3 0x0203 ltac:(cbn; tauto) ltac:(rewrite <- Hd'; reflexivity)) as (_ & GB & _).
  destruct (GB data ltac:(rewrite (RR 0x0203 ltac:(discriminate)); exact Ll) Wd H8) as (Hc & _). clear GB GC. fold com in Hc.
  assert (Es : get_serial d = i_serial (p_info (l_dh x))) by (rewrite <- Hd'; reflexivity).
  assert (Hs : is_any_ssc d = true) by (rewrite <- Hd'; reflexivity).
  assert (Hc16 : com < 2 ^ 16) by (apply be16_small; exact Wd).
  set (serial := i_serial (p_info (l_dh x))) in *. set (start := frame 0 0 com _).
  set (E' := drive_env V (l_dh x) (l_calls x) clock kdf heap fuel) in *.
  assert (HE : env_ok E') by (apply drive_env_ok; [now apply sg_bytes_out|exact Hh|exact Hkdf]).
  destruct (revert_shaped E' d pw isPsid isAdm com [] t r HE Hs Hc HR) as (t' & Et & Sh). cbn [app] in Et. subst t'.
  destruct (c29 E' d com pw isPsid isAdm [] t r HE Hs Hc Hc16 Wp HR) as (s1' & h1 & r1 & St & (t1 & Et1 & S1) & N1 & N2). cbv zeta in St, S1, N2.
  cbn [app] in Et1. subst h1. fold uid in S1. change (e_pbkdf2 E') with kdf in S1. rewrite Es in S1. fold start in S1.
  assert (Wst : List.length start = 512%nat /\ wf start).
  { split; [apply frame_length|]. apply frame_wf. apply start_payload_wf; auto; [wf_lit|]. unfold uid. destruct isPsid; wf_lit. }
  assert (Cases : sends t = [start] /\ r <> Ok tt \/ exists hsn tsn, sends t = [start; frame hsn tsn com revert_payload] /\
    (r = Ok tt -> exists resp t2, accepted resp /\ t = t2 ++ [EvSec false false 1 com (zeros 2048) 5] /\ fst (e_sec E' t) = None /\ r_buf resp = received (snd (e_sec E' t)))).
  { assert (D : r1 = Ok tt \/ r1 <> Ok tt) by (destruct r1 as [[]| | |]; [now left|right; discriminate..]). destruct D as [D|D].
    - right. destruct (N2 D) as (hv & tv & t2 & c & Hnn & Et & S2 & Hcs & R). exists hv, tv. split; [rewrite Et, sends_app, S1, S2; reflexivity|].
      intros Hr. apply R in Hr as (resp & Ex & Acc). destruct (exec_answer E' d c com t1 t resp HE Hs Hc Ex) as (tt' & A1 & A2 & A3). eauto 8.
    - left. destruct (N1 D) as [-> ->]. auto. }
  assert (Ts : Forall (fun b => List.length b = 512%nat /\ wf b) (sends t)).
  { destruct Cases as [[-> _]|(hs & ts & -> & _)]; (apply Forall_cons; [exact Wst|]); [apply Forall_nil|].
    apply Forall_cons; [|apply Forall_nil]. split; [apply frame_length|apply frame_wf, revert_payload_wf]. }
  pose proof (shaped_typed com t Hc16 Sh Ts) as Ty.
  assert (L5 : Forall (fun y => x_out y = true -> List.length (x_data y) = 512%nat) (commands t)).
  { rewrite sends_commands in Ts. rewrite Forall_forall in Ts |- *. intros y Hy O. destruct (Ts (x_data y)) as [L _]; [apply in_map; apply filter_In; auto|exact L]. }
  assert (Ne : Forall (fun y => x_data y <> []) (commands t)).
  { rewrite Forall_forall in Sh, L5 |- *. intros y Hy X. destruct (Sh y Hy) as (_ & _ & [O|O]); [|rewrite X in O; discriminate].
    specialize (L5 y Hy O). rewrite X in L5. discriminate. }
  destruct (tcg_over_sata K (sy_sg_addr S at_) (s1 :: srest) id (l_dh x) (l_calls x) t Ho HT Ty Ne) as (calls & Ra & F2). fold V in Ra.
  assert (Eo : sg_replay K (sy_sg_addr S at_) (s1 :: srest) (l_calls x) = opening) by (unfold opening, sg_ioctls; cbv zeta; fold K; now rewrite E1).
  rewrite Eo in Ra.
  assert (Ea : sg_ioctls S at_ (with_calls x (driver_calls V (l_dh x) (l_calls x) t)) = sg_replay K (sy_sg_addr S at_) (s1 :: srest) (driver_calls V (l_dh x) (l_calls x) t)).
  { unfold sg_ioctls. cbv zeta. cbn [with_calls l_calls]. fold K. now rewrite E1. }
  rewrite Ea. exists calls. split; [exact Ra|].
  assert (Rc : sata_received calls = sends t).
  { rewrite sends_commands. clear - F2. induction F2 as [|y c l l' (Q1 & Q2) _ IH]; [reflexivity|].
    unfold sata_received in *. cbn [filter map]. unfold is_out at 1. unfold is_security in Q1. rewrite Q1. cbn [sc_out].
    destruct (x_out y); [cbn [map]; rewrite (Q2 eq_refl), IH; reflexivity|exact IH]. }
  split.
  { clear - F2 Sh L5. revert Sh L5. induction F2 as [|y c l l' (Q1 & Q2) _ IH]; intros Sh L5; constructor; inversion Sh as [|y0 l0 (P1 & P2 & P3) Sh']; subst y0 l0;
      inversion L5 as [|y0 l0 Hl L5']; subst y0 l0; [|now apply IH].
    exists (x_out y), (blen (x_data y)). unfold is_security in Q1. rewrite Q1, P1, P2. split; [reflexivity|].
    destruct (x_out y); [unfold blen; now rewrite (Hl eq_refl)|]. destruct P3 as [P3|P3]; [discriminate|rewrite P3; vm_compute; reflexivity]. }
  rewrite Rc. split.
  { destruct Cases as [[-> _]|(hs & ts & -> & _)]; eauto. }
  intros Hr. destruct Cases as [[_ N]|(hs & ts & Se & Q)]; [contradiction|]. destruct (Q Hr) as (resp & t2 & Acc & Et & En & Eb).
  exists hs, ts, resp. split; [exact Se|].
  destruct (e_sec E' t) as [e out] eqn:Ess. cbn [fst snd] in En, Eb. rewrite Et in Ess, Ty.
  destruct (answer_over_sata K (sy_sg_addr S at_) (s1 :: srest) id (l_dh x) (l_calls x) clock kdf heap fuel t2 false 1 com (zeros 2048) 5 e out Ho HT Ty ltac:(discriminate) Ess)
    as (_ & B3). rewrite <- Et in B3. fold V in B3. split; [|exact Acc].
  assert (Lz : List.length (zeros 2048) = 2048%nat) by apply repeat_length. rewrite Lz in B3.
  rewrite Eb. destruct B3 as (L & G1 & G2). rewrite Lz in *.
  assert (Eo' : received out = out) by (unfold received; rewrite firstn_all2 by lia; rewrite L; cbn; now rewrite app_nil_r).
  rewrite Eo'. split; [now rewrite ?Lz|]. split; [exact G1|exact G2].
Qed.
Print Assumptions C144_revert_opened_sata.

(** On a drive that refuses them, nothing but zeros reaches the drive: no TCG operation on the opened handle can send it a command. *)
Theorem C144_refusing_sata_gets_zeros : forall S h path h' x fd t,
  addresses_ok S -> w_open (sy_world S) (h ++ [LOpen path]) = inr fd -> open_by_path (linux S) h path = (h', Ok x) ->
  no_nvme (sy_nvme S (at_nvme h path fd)) -> l_driver_name x = str "LinuxScsiDriver" ->
  let at_ := at_sg h path fd in
  let K := sy_sg S at_ in
  let opening := sg_ioctls S at_ x in
  refuses_security K -> Forall typed (commands t) -> Forall (fun y => x_data y <> []) (commands t) ->
  forall V, l_drv x = Some V ->
  let after := sg_ioctls S at_ (with_calls x (driver_calls V (l_dh x) (l_calls x) t)) in
  forall calls, after = opening ++ calls ->
  forall pre c post, calls = pre ++ c :: post -> succeeded (K (opening ++ pre ++ [c])) -> sg_dir c = (-2)%Z -> Forall (fun b => b = 0) (sg_mem c).
Proof.
  intros S h path h' x fd t HS Ew H Nn Hn at_ K opening HT Ty Ne V HV after calls Ea.
  destruct (sg_opened S h path h' x fd HS Ew H Nn Hn) as (s1 & srest & c1 & rest & id & E & Ac & Did & T & Z0 & G & E1 & Ho & Ed).
  fold at_ in E1, Ed. fold K in E1, Ed. rewrite Ed in HV. injection HV as <-.
  assert (Eo : sg_replay K (sy_sg_addr S at_) (s1 :: srest) (l_calls x) = opening) by (unfold opening, sg_ioctls; cbv zeta; fold K; now rewrite E1).
  assert (Ea' : after = sg_replay K (sy_sg_addr S at_) (s1 :: srest) (driver_calls (sg_drv K (sy_sg_addr S at_) (s1 :: srest) id) (l_dh x) (l_calls x) t)).
  { unfold after, sg_ioctls. cbv zeta. cbn [with_calls l_calls]. fold K. now rewrite E1. }
  rewrite Ea' in Ea. rewrite <- Eo in Ea |- *.
  exact (C118_ata_only_sends_zeros K (sy_sg_addr S at_) (s1 :: srest) id (l_dh x) (l_calls x) t Ho Ty Ne HT calls Ea).
Qed.
Print Assumptions C144_refusing_sata_gets_zeros.
