(** C117-C118: TCG operations over the Linux drivers. *)
From Verif Require Import Base M_Buffer M_Ata M_TcgToken M_TcgCommand M_TcgDevice M_TcgSession M_DriveHandle M_Cdb M_SgDriver M_SgHandle M_NvmeLinux M_TcgOnDrive
  Spec_Tcg Spec_TcgCommand Spec_TcgClient Spec_TcgSession P_TcgDevice P_TcgSession Spec_NvmeLinux Spec_Sg P_Discovery P_DriveHandle P_Sg P_NvmeLinux
  Spec_TcgOnDrive P_TcgOnDrive.
From Verif Require Import Prop_Sg Prop_NvmeLinux Prop_SgHandle.

(** ---- C117: Linux, NVMe ---- *)
(** Every security command of the client is exactly one ioctl, in order, with the command's own bytes. *)
Theorem C117_tcg_over_nvme : forall K fd A kh identity p h0 t,
  let V := nv_drv K fd A kh identity in
  over_nvme p -> (forall k, A k < 2 ^ 64) -> Forall typed (commands t) ->
  exists calls, nv_replay K fd A kh (driver_calls V p h0 t) = nv_replay K fd A kh h0 ++ calls /\ Forall2 (nvme_security fd) (commands t) calls.
Proof.
  intros K fd A kh identity p h0 t V Hp HA. revert h0.
  induction t as [|e t IH]; intros h0 T.
  { exists []. rewrite app_nil_r. split; [reflexivity|constructor]. }
  destruct e as [|ns|rw dma pr c b s]; try exact (IH h0 T).
  cbn [commands] in T |- *. inversion T as [|x l (T1 & T2 & T3 & T4) Tt]; subst x l. cbn [x_protocol x_comid x_data] in T1, T2, T3, T4.
  change (driver_calls V p h0 (EvSec rw dma pr c b s :: t)) with (driver_calls V p (fst (security_command V p h0 rw dma pr c b s)) t).
  destruct (security_command V p h0 rw dma pr c b s) as [h1 [e out]] eqn:E. cbn [fst].
  destruct (C72_security_over_nvme K fd A kh identity p h0 rw dma pr c b s h1 e out Hp T1 T2 T4 HA E) as (call & R & F1 & F2 & F3 & F4 & _).
  destruct (IH h1 Tt) as (calls & R2 & F). exists (call :: calls). split.
  - rewrite R2, R, <- app_assoc. reflexivity.
  - constructor; [|exact F]. split; [exact F1|]. split; [exact F2|]. split; [exact F3|]. eexists. exact F4.
Qed.
Print Assumptions C117_tcg_over_nvme.

(** What the client is told and gets to read after a receive is what the kernel reported and delivered. *)
Theorem C117_answers_over_nvme : forall K fd A kh identity p h0 clock kdf heap fuel t dma proto com b secs e out,
  let V := nv_drv K fd A kh identity in
  let E := drive_env V p h0 clock kdf heap fuel in
  let t' := t ++ [EvSec false dma proto com b secs] in
  let a := K (nv_replay K fd A kh (driver_calls V p h0 t')) in
  over_nvme p -> (forall k, A k < 2 ^ 64) -> Forall typed (commands t') ->
  e_sec E t' = (e, out) ->
  (e = None <-> nv_succeeded a) /\ (~ nv_succeeded a -> e = Some (errno (nv_error_number a))) /\ delivered b (na_in a) out.
Proof.
  intros K fd A kh identity p h0 clock kdf heap fuel t dma proto com b secs e out V E t' a Hp HA T H.
  unfold E, t' in H. rewrite (drive_env_sec V p h0 clock kdf heap fuel t false dma proto com b secs T) in H.
  assert (Ed : driver_calls V p h0 t' = fst (security_command V p (driver_calls V p h0 t) false dma proto com b secs))
    by (unfold t'; rewrite driver_calls_app; reflexivity).
  destruct (security_command V p (driver_calls V p h0 t) false dma proto com b secs) as [h1 [e1 o1]] eqn:S. cbn [snd fst] in H, Ed. injection H as -> ->.
  unfold t' in T. rewrite commands_app in T. apply Forall_app in T as [_ T]. inversion T as [|x l (T1 & T2 & T3 & T4) _]; subst x l.
  cbn [x_protocol x_comid x_data] in T1, T2, T3, T4.
  destruct (C72_security_over_nvme K fd A kh identity p _ false dma proto com b secs h1 e out Hp T1 T2 T4 HA S) as (call & R & _ & _ & _ & _ & Q1 & Q2 & _ & Q3).
  assert (Ea : a = K (nv_replay K fd A kh (driver_calls V p h0 t) ++ [call])) by (unfold a; rewrite Ed; fold V in R; now rewrite R).
  rewrite Ea. split; [exact Q1|]. split; [exact Q2|]. now apply Q3.
Qed.
Print Assumptions C117_answers_over_nvme.

Lemma nvme_bytes_out K fd A kh identity p : over_nvme p -> (forall k, A k < 2 ^ 64) -> (forall k, wf (na_in (K k))) ->
  bytes_out (nv_drv K fd A kh identity) p.
Proof.
  intros Hp HA HK h rw dma pr c b s Hpr Hc W L. destruct (security_command _ p h rw dma pr c b s) as [h1 [e out]] eqn:E. cbn [snd].
  destruct (C72_security_over_nvme K fd A kh identity p h rw dma pr c b s h1 e out Hp Hpr Hc L HA E) as (call & _ & _ & _ & _ & _ & _ & _ & Q1 & Q2).
  destruct rw; [rewrite (Q1 eq_refl); exact W|]. eapply wf_delivered; [exact (Q2 eq_refl)|exact W|apply HK].
Qed.

(** RevertTPer on an Opal drive behind the NVMe driver: every ioctl is a Security Send or Receive of protocol 1 to the drive's ComID; the drive receives
    one StartSession and then at most one Revert; success means that it received both, that the kernel reported success for the last receive and that the
    bytes delivered then are an accepted answer. *)
Definition protocol1 (com : N) (c : nv_call) : Prop :=
  let v := read_passthru (nc_arg c) in
  nc_req c = 0xC0484E41 /\ (up_opcode v = 0x81 \/ up_opcode v = 0x82 /\ nc_buf c = zeros 2048) /\ up_cdw10 v = 2 ^ 24 + 2 ^ 8 * com.
Theorem C117_revert_over_nvme : forall K fd A kh identity p h0 clock kdf heap fuel d com pw (isPsid isAdm : bool) t r,
  let V := nv_drv K fd A kh identity in
  let E := drive_env V p h0 clock kdf heap fuel in
  let before := nv_replay K fd A kh h0 in
  let after := nv_replay K fd A kh (driver_calls V p h0 t) in
  let uid := if isPsid then uid_PSID else uid_SID in
  let start := frame 0 0 com (start_payload uid_AdminSP (credential_of kdf (get_serial d) isPsid pw) (uid8 uid)) in
  over_nvme p -> (forall k, A k < 2 ^ 64) -> (forall k, wf (na_in (K k))) -> (forall j, heap j < 256) ->
  (forall x s, List.length (kdf x s) = 32%nat /\ wf (kdf x s)) ->
  is_any_ssc d = true -> get_base_com_id d = Ok com -> com < 2 ^ 16 -> wf pw ->
  revert_tper E d pw isPsid isAdm [] = (t, r) ->
  exists calls, after = before ++ calls /\ Forall (fun c => nc_fd c = fd /\ protocol1 com c) calls
  /\ (nvme_received calls = [start] \/ exists hsn tsn, nvme_received calls = [start; frame hsn tsn com revert_payload])
  /\ (r = Ok tt -> exists hsn tsn resp, nvme_received calls = [start; frame hsn tsn com revert_payload]
        /\ nv_succeeded (K after) /\ delivered (zeros 2048) (na_in (K after)) (r_buf resp) /\ accepted resp).
Proof.
  intros K fd A kh identity p h0 clock kdf heap fuel d com pw isPsid isAdm t r V E before after uid start Hp HA HK Hh Hkdf Hs Hc Hc16 Wp H.
  assert (HE : env_ok E) by (apply drive_env_ok; [now apply nvme_bytes_out|exact Hh|exact Hkdf]).
  destruct (revert_shaped E d pw isPsid isAdm com [] t r HE Hs Hc H) as (t' & Et & Sh). cbn [app] in Et. subst t'.
  destruct (c29 E d com pw isPsid isAdm [] t r HE Hs Hc Hc16 Wp H) as (s1 & h1 & r1 & St & (t1 & E1 & S1) & N1 & N2). cbv zeta in St, S1, N2.
  cbn [app] in E1. subst h1. fold uid in S1. change (e_pbkdf2 E) with kdf in S1. fold start in S1.
  assert (Wst : List.length start = 512%nat /\ wf start).
  { split; [apply frame_length|]. apply frame_wf. apply start_payload_wf; auto; [wf_lit|]. unfold uid. destruct isPsid; wf_lit. }
  assert (Cases : sends t = [start] /\ r <> Ok tt \/ exists hsn tsn, sends t = [start; frame hsn tsn com revert_payload] /\
    (r = Ok tt -> exists resp t2, accepted resp /\ t = t2 ++ [EvSec false false 1 com (zeros 2048) 5] /\ fst (e_sec E t) = None /\ r_buf resp = received (snd (e_sec E t)))).
  { assert (D : r1 = Ok tt \/ r1 <> Ok tt) by (destruct r1 as [[]| | |]; [now left|right; discriminate..]). destruct D as [D|D].
    - right. destruct (N2 D) as (hv & tv & t2 & c & Hn & Et & S2 & Hcs & R). exists hv, tv. split; [rewrite Et, sends_app, S1, S2; reflexivity|].
      intros Hr. apply R in Hr as (resp & Ex & Ac). destruct (exec_answer E d c com t1 t resp HE Hs Hc Ex) as (tt' & A1 & A2 & A3). eauto 8.
    - left. destruct (N1 D) as [-> ->]. auto. }
  assert (Ts : Forall (fun b => List.length b = 512%nat /\ wf b) (sends t)).
  { destruct Cases as [[-> _]|(hs & ts & -> & _)]; (apply Forall_cons; [exact Wst|]); [apply Forall_nil|].
    apply Forall_cons; [|apply Forall_nil]. split; [apply frame_length|apply frame_wf, revert_payload_wf]. }
  pose proof (shaped_typed com t Hc16 Sh Ts) as Ty.
  destruct (C117_tcg_over_nvme K fd A kh identity p h0 t Hp HA Ty) as (calls & Ra & F2). fold V before after in Ra.
  exists calls. split; [exact Ra|].
  assert (Rc : nvme_received calls = sends t).
  { rewrite sends_commands. clear - F2. induction F2 as [|x c l l' (Q1 & Q2 & Q3 & a & Q4) _ IH]; [reflexivity|].
    unfold nvme_received in *. cbn [filter map]. rewrite Q4. unfold plain_view at 1. cbn [up_opcode].
    destruct (x_out x).
    - change (0x81 =? 0x81) with true. cbv iota. cbn [map]. now rewrite Q3, IH.
    - change (0x82 =? 0x81) with false. cbv iota. exact IH. }
  split.
  { clear - F2 Sh. revert Sh. induction F2 as [|x c l l' (Q1 & Q2 & Q3 & a & Q4) _ IH]; intros Sh; constructor; inversion Sh as [|x0 l0 (P1 & P2 & P3) Sh']; subst x0 l0; [|now apply IH].
    split; [exact Q1|]. unfold protocol1. rewrite Q4. unfold plain_view. cbn [up_opcode up_cdw10]. split; [exact Q2|]. rewrite P1, P2. split; [|lia].
    destruct (x_out x); [left; reflexivity|right; split; [reflexivity|]]. destruct P3 as [P3|P3]; [discriminate|now rewrite Q3]. }
  rewrite Rc. split.
  { destruct Cases as [[-> _]|(hs & ts & -> & _)]; eauto. }
  intros Hr. destruct Cases as [[_ N]|(hs & ts & Se & Q)]; [contradiction|]. destruct (Q Hr) as (resp & t2 & Ac & Et & En & Eb).
  exists hs, ts, resp. split; [exact Se|].
  destruct (e_sec E t) as [e out] eqn:Es. cbn [fst snd] in En, Eb. subst e. rewrite Et in Es, Ty.
  destruct (C117_answers_over_nvme K fd A kh identity p h0 clock kdf heap fuel t2 false 1 com (zeros 2048) 5 None out Hp HA Ty Es) as (B1 & _ & B3).
  rewrite <- Et in B1, B3. fold V in B1, B3. fold after in B1, B3. split; [now apply B1|]. split; [|exact Ac].
  rewrite Eb. destruct B3 as (L & G1 & G2). assert (Lz : List.length (zeros 2048) = 2048%nat) by apply repeat_length. rewrite Lz in L.
  assert (Eo : received out = out) by (unfold received; rewrite firstn_all2 by lia; rewrite L; cbn; now rewrite app_nil_r).
  rewrite Eo. split; [now rewrite Lz|]. split; [exact G1|exact G2].
Qed.
Print Assumptions C117_revert_over_nvme.

(** GetDefaultPassword behind the NVMe driver: one StartSession without credential and then at most one Get of the MSID PIN column; the
    password is the text of the fifth token of the bytes the kernel delivered for the last receive. *)
Theorem C117_password_over_nvme : forall K fd A kh identity p h0 clock kdf heap fuel d com t r,
  let V := nv_drv K fd A kh identity in
  let E := drive_env V p h0 clock kdf heap fuel in
  let before := nv_replay K fd A kh h0 in
  let after := nv_replay K fd A kh (driver_calls V p h0 t) in
  let start := frame 0 0 com (start_payload uid_AdminSP None []) in
  let get hsn tsn := frame hsn tsn com (get_payload (uid8 uid_C_PIN_MSID) 3 3) in
  over_nvme p -> (forall k, A k < 2 ^ 64) -> (forall k, wf (na_in (K k))) -> (forall j, heap j < 256) ->
  (forall x s, List.length (kdf x s) = 32%nat /\ wf (kdf x s)) ->
  is_any_ssc d = true -> get_base_com_id d = Ok com -> com < 2 ^ 16 ->
  get_default_password E d [] = (t, r) ->
  exists calls, after = before ++ calls /\ Forall (fun c => nc_fd c = fd /\ protocol1 com c) calls
  /\ (nvme_received calls = [start] \/ exists hsn tsn, nvme_received calls = [start; get hsn tsn])
  /\ (forall text, r = Ok text -> exists hsn tsn resp tok, nvme_received calls = [start; get hsn tsn]
        /\ nv_succeeded (K after) /\ delivered (zeros 2048) (na_in (K after)) (r_buf resp) /\ accepted resp
        /\ nth_error (r_tokens resp) 4 = Some tok /\ get_string tok = Ok text).
Proof.
  intros K fd A kh identity p h0 clock kdf heap fuel d com t r V E before after start get Hp HA HK Hh Hkdf Hs Hc Hc16 H.
  assert (HE : env_ok E) by (apply drive_env_ok; [now apply nvme_bytes_out|exact Hh|exact Hkdf]).
  destruct (default_shaped E d com [] t r HE Hs Hc H) as (t' & Et & Sh). cbn [app] in Et. subst t'.
  destruct (c31 E d com [] t r HE Hs Hc Hc16 H) as (s1 & h1 & r1 & St & (t1 & E1 & S1) & N1 & N2 & N3 & N4).
  cbn [app] in E1. subst h1. fold start in S1.
  assert (Wst : List.length start = 512%nat /\ wf start) by (split; [apply frame_length|apply frame_wf; wf_lit]).
  assert (Cases : sends t = [start] /\ (forall text, r <> Ok text) \/ exists hsn tsn, sends t = [start; get hsn tsn] /\
    (forall text, r = Ok text -> exists resp tok t2, accepted resp /\ nth_error (r_tokens resp) 4 = Some tok /\ get_string tok = Ok text
       /\ t = t2 ++ [EvSec false false 1 com (zeros 2048) 5] /\ fst (e_sec E t) = None /\ r_buf resp = received (snd (e_sec E t)))).
  { destruct r1 as [[]|e| |].
    - right. destruct (N4 eq_refl) as (hv & tv & t2 & c & Hn & Et & S2 & Hcs & R). exists hv, tv. split; [rewrite Et, sends_app, S1, S2; reflexivity|].
      intros text Hr. apply R in Hr as (resp & tok & Ex & Ac & T4 & Gs). destruct (exec_answer E d c com t1 t resp HE Hs Hc Ex) as (tt' & A1 & A2 & A3).
      exists resp, tok, tt'. auto 8.
    - left. destruct (N1 e eq_refl) as [-> ->]. split; [exact S1|discriminate].
    - left. destruct (N2 eq_refl) as [-> ->]. split; [exact S1|discriminate].
    - left. destruct (N3 eq_refl) as [-> ->]. split; [exact S1|discriminate]. }
  assert (Ts : Forall (fun b => List.length b = 512%nat /\ wf b) (sends t)).
  { destruct Cases as [[-> _]|(hs & ts & -> & _)]; (apply Forall_cons; [exact Wst|]); [apply Forall_nil|].
    apply Forall_cons; [|apply Forall_nil]. split; [apply frame_length|apply frame_wf, get_payload_pin_wf]. }
  pose proof (shaped_typed com t Hc16 Sh Ts) as Ty.
  destruct (C117_tcg_over_nvme K fd A kh identity p h0 t Hp HA Ty) as (calls & Ra & F2). fold V before after in Ra.
  exists calls. split; [exact Ra|].
  assert (Rc : nvme_received calls = sends t).
  { rewrite sends_commands. clear - F2. induction F2 as [|x c l l' (Q1 & Q2 & Q3 & a & Q4) _ IH]; [reflexivity|].
    unfold nvme_received in *. cbn [filter map]. rewrite Q4. unfold plain_view at 1. cbn [up_opcode].
    destruct (x_out x).
    - change (0x81 =? 0x81) with true. cbv iota. cbn [map]. now rewrite Q3, IH.
    - change (0x82 =? 0x81) with false. cbv iota. exact IH. }
  split.
  { clear - F2 Sh. revert Sh. induction F2 as [|x c l l' (Q1 & Q2 & Q3 & a & Q4) _ IH]; intros Sh; constructor; inversion Sh as [|x0 l0 (P1 & P2 & P3) Sh']; subst x0 l0; [|now apply IH].
    split; [exact Q1|]. unfold protocol1. rewrite Q4. unfold plain_view. cbn [up_opcode up_cdw10]. split; [exact Q2|]. rewrite P1, P2. split; [|lia].
    destruct (x_out x); [left; reflexivity|right; split; [reflexivity|]]. destruct P3 as [P3|P3]; [discriminate|now rewrite Q3]. }
  rewrite Rc. split.
  { destruct Cases as [[-> _]|(hs & ts & -> & _)]; eauto. }
  intros text Hr. destruct Cases as [[_ X]|(hs & ts & Se & Q)]; [now apply X in Hr|]. destruct (Q text Hr) as (resp & tok & t2 & Ac & T4 & Gs & Et & En & Eb).
  exists hs, ts, resp, tok. split; [exact Se|].
  destruct (e_sec E t) as [e out] eqn:Es. cbn [fst snd] in En, Eb. subst e. rewrite Et in Es, Ty.
  destruct (C117_answers_over_nvme K fd A kh identity p h0 clock kdf heap fuel t2 false 1 com (zeros 2048) 5 None out Hp HA Ty Es) as (B1 & _ & B3).
  rewrite <- Et in B1, B3. fold V in B1, B3. fold after in B1, B3. split; [now apply B1|]. split; [|auto].
  rewrite Eb. destruct B3 as (L & G1 & G2). assert (Lz : List.length (zeros 2048) = 2048%nat) by apply repeat_length. rewrite Lz in L.
  assert (Eo : received out = out) by (unfold received; rewrite firstn_all2 by lia; rewrite L; cbn; now rewrite app_nil_r).
  rewrite Eo. split; [now rewrite Lz|]. split; [exact G1|exact G2].
Qed.
Print Assumptions C117_password_over_nvme.

(** ---- C118: Linux, SCSI ---- *)
Definition sg_group (x : security) (g : list sg_call) : Prop :=
  exists c1 rest, g = c1 :: rest /\ (List.length rest <= 3)%nat /\ is_security (x_out x) (x_protocol x) (x_comid x) (x_data x) c1
  /\ (x_out x = true -> sg_mem c1 = x_data x).
(** Every security command of the client is a group of one to four SG requests, in order; the first of them is the SECURITY PROTOCOL command with
    the command's own bytes, and if the kernel accepts it there is no other. *)
Theorem C118_tcg_over_sg : forall K A kh identity p h0 t,
  let V := sg_drv K A kh identity in
  let before := sg_replay K A kh h0 in
  over_sg p -> Forall typed (commands t) -> Forall (fun x => x_data x <> []) (commands t) ->
  exists groups, sg_replay K A kh (driver_calls V p h0 t) = before ++ concat groups /\ Forall2 sg_group (commands t) groups
  /\ forall i g, nth_error groups i = Some g -> forall c1 rest, g = c1 :: rest ->
       succeeded (K (before ++ concat (firstn i groups) ++ [c1])) -> rest = [].
Proof.
  intros K A kh identity p h0 t V before Hp. unfold before. clear before. revert h0.
  induction t as [|e t IH]; intros h0 T Ne.
  { exists []. rewrite app_nil_r. split; [reflexivity|]. split; [constructor|]. intros [|i] g [=]. }
  destruct e as [|ns|rw dma pr c b s]; try exact (IH h0 T Ne).
  cbn [commands] in T, Ne |- *. inversion T as [|x l (T1 & T2 & T3 & T4) Tt]; subst x l. cbn [x_protocol x_comid x_data] in T1, T2, T3, T4.
  inversion Ne as [|x l N1 Nt]; subst x l. cbn [x_data] in N1.
  change (driver_calls V p h0 (EvSec rw dma pr c b s :: t)) with (driver_calls V p (fst (security_command V p h0 rw dma pr c b s)) t).
  destruct (security_command V p h0 rw dma pr c b s) as [h1 [e out]] eqn:E. cbn [fst].
  destruct (C74_security_over_sg K A kh identity p h0 rw dma pr c b s h1 e out Hp T1 T2 T4 N1 E) as (c1 & rest & R & Lr & I1 & I2 & I3 & _).
  destruct (IH h1 Tt Nt) as (gs & R2 & F & G). exists ((c1 :: rest) :: gs). split; [|split].
  - rewrite R2, R. cbn [concat]. now rewrite <- app_assoc.
  - constructor; [|exact F]. exists c1, rest. auto.
  - intros [|i] g Hg c1' rest' Eg Hs.
    + cbn [nth_error] in Hg. injection Hg as <-. injection Eg as <- <-. cbn [firstn concat app] in Hs. now destruct (I3 Hs).
    + cbn [nth_error] in Hg. apply (G i g Hg c1' rest' Eg). rewrite R. cbn [firstn concat] in Hs. rewrite <- !app_assoc in Hs |- *. exact Hs.
Qed.
Print Assumptions C118_tcg_over_sg.

Lemma sg_bytes_out K A kh identity p : over_sg p -> (forall k, wf (an_in (K k))) -> bytes_out (sg_drv K A kh identity) p.
Proof.
  intros Hp HK h rw dma pr c b s Hpr Hc W L.
  assert (F : forall x y, wf x -> wf y -> wf (fill x y)) by apply wf_fill.
  unfold security_command. unfold over_sg in Hp. rewrite Hp. cbn [is_ata is_nvme].
  destruct (list_eq_dec N.eq_dec b []) as [->|Nb].
  { destruct (v_io _ _) as [[e|] o]; cbn [snd]; [|unfold fill; cbn; destruct o; apply wf_nil].
    destruct (v_io _ _) as [e2 o2]. cbn [snd]. unfold fill. cbn. rewrite ?firstn_nil, ?skipn_nil. cbn. rewrite ?skipn_nil. apply wf_nil. }
  assert (D1 : forall e o, v_io (sg_drv K A kh identity) (h ++ [CSec rw dma pr c b s]) = (e, o) -> wf o).
  { intros e o. rewrite sg_drv_io. cbn [sg_exec]. rewrite (security_closed K _ rw dma pr c b _ _ Nb).
    destruct (ok_answer _); cbn [fst snd]; intros [= _ <-]; destruct rw; try exact W; [|destruct (aligned512 _)]; auto using wf_zeros. }
  destruct (v_io _ (h ++ [CSec rw dma pr c b s])) as [[e|] o] eqn:E1; [|cbn [snd]; apply F; [exact W|now apply (D1 _ _ eq_refl)]].
  pose proof (D1 _ _ eq_refl) as Wo. set (b1 := fill b o) in *. assert (Wb : wf b1) by (now apply F).
  assert (Nb1 : Some b1 <> Some []). { intros [= X]. apply (f_equal (@List.length N)) in X. unfold b1 in X. rewrite fill_length in X. destruct b; [congruence|discriminate]. }
  set (tk := {| t_dev := 0; t_command := _ |}) in *.
  assert (D2 : forall e o, v_io (sg_drv K A kh identity) ((h ++ [CSec rw dma pr c b s]) ++ [CTask rw dma tk b1 s]) = (e, o) -> wf o).
  { intros e2 o2. rewrite sg_drv_io. cbn [sg_exec]. rewrite (task_closed K _ rw dma tk (Some b1) _ _ Nb1).
    assert (G : forall ok a, wf match task_got rw (Some b1) (A (sg_replay K A kh (h ++ [CSec rw dma pr c b s]))) ok (K a) with Some d => d | None => [] end).
    { intros ok a. unfold task_got. destruct rw; [apply wf_zeros|]. destruct (aligned512 _); [auto|]. destruct ok; auto using wf_zeros. }
    match goal with |- context [task_got ?a ?b ?c ?d (K ?e)] => specialize (G d e); set (g := task_got a b c d (K e)) in * end.
    destruct (ok_answer (K (_ ++ [_]))); [|destruct (ok_answer (K (_ ++ [_; _])))]; cbv zeta; repeat match goal with |- context [match sense_error ?x with _ => _ end] => destruct (sense_error x) end; destruct g; cbn [fst snd]; intros [= _ <-]; assumption. }
  destruct (v_io _ ((h ++ _) ++ _)) as [e2 o2] eqn:E2. cbn [snd]. apply F; [exact Wb|now apply (D2 _ _ eq_refl)].
Qed.

(** RevertTPer behind the SCSI driver: what is handed over is one StartSession and at most one Revert, between receives; success needs both. *)
Theorem C118_revert_over_sg : forall K A kh identity p h0 clock kdf heap fuel d com pw (isPsid isAdm : bool) t r,
  let V := sg_drv K A kh identity in
  let E := drive_env V p h0 clock kdf heap fuel in
  let before := sg_replay K A kh h0 in
  let after := sg_replay K A kh (driver_calls V p h0 t) in
  let uid := if isPsid then uid_PSID else uid_SID in
  let start := frame 0 0 com (start_payload uid_AdminSP (credential_of kdf (get_serial d) isPsid pw) (uid8 uid)) in
  let handed cmds := map x_data (filter x_out cmds) in
  over_sg p -> (forall k, wf (an_in (K k))) -> (forall j, heap j < 256) ->
  (forall x s, List.length (kdf x s) = 32%nat /\ wf (kdf x s)) ->
  is_any_ssc d = true -> get_base_com_id d = Ok com -> com < 2 ^ 16 -> wf pw ->
  revert_tper E d pw isPsid isAdm [] = (t, r) ->
  exists cmds groups, after = before ++ concat groups /\ Forall2 sg_group cmds groups
  /\ Forall (fun x => x_protocol x = 1 /\ x_comid x = com /\ (x_out x = true \/ x_data x = zeros 2048)) cmds
  /\ (handed cmds = [start] /\ r <> Ok tt \/ exists hsn tsn, handed cmds = [start; frame hsn tsn com revert_payload]).
Proof.
  intros K A kh identity p h0 clock kdf heap fuel d com pw isPsid isAdm t r V E before after uid start handed Hp HK Hh Hkdf Hs Hc Hc16 Wp H.
  assert (HE : env_ok E) by (apply drive_env_ok; [now apply sg_bytes_out|exact Hh|exact Hkdf]).
  destruct (revert_shaped E d pw isPsid isAdm com [] t r HE Hs Hc H) as (t' & Et & Sh). cbn [app] in Et. subst t'.
  destruct (c29 E d com pw isPsid isAdm [] t r HE Hs Hc Hc16 Wp H) as (s1 & h1 & r1 & St & (t1 & E1 & S1) & N1 & N2). cbv zeta in St, S1, N2.
  cbn [app] in E1. subst h1. fold uid in S1. change (e_pbkdf2 E) with kdf in S1. fold start in S1.
  assert (Wst : List.length start = 512%nat /\ wf start).
  { split; [apply frame_length|]. apply frame_wf. apply start_payload_wf; auto; [wf_lit|]. unfold uid. destruct isPsid; wf_lit. }
  assert (Cases : sends t = [start] /\ r <> Ok tt \/ exists hsn tsn, sends t = [start; frame hsn tsn com revert_payload]).
  { assert (D : r1 = Ok tt \/ r1 <> Ok tt) by (destruct r1 as [[]| | |]; [now left|right; discriminate..]). destruct D as [D|D].
    - right. destruct (N2 D) as (hv & tv & t2 & c & Hn & Et & S2 & _). exists hv, tv. rewrite Et, sends_app, S1, S2. reflexivity.
    - left. destruct (N1 D) as [-> ->]. auto. }
  assert (Ts : Forall (fun b => List.length b = 512%nat /\ wf b) (sends t)).
  { destruct Cases as [[-> _]|(hs & ts & ->)]; (apply Forall_cons; [exact Wst|]); [apply Forall_nil|].
    apply Forall_cons; [|apply Forall_nil]. split; [apply frame_length|apply frame_wf, revert_payload_wf]. }
  pose proof (shaped_typed com t Hc16 Sh Ts) as Ty.
  assert (Ne : Forall (fun x => x_data x <> []) (commands t)).
  { rewrite sends_commands in Ts. rewrite Forall_forall in Sh, Ts |- *. intros x Hx X. destruct (Sh x Hx) as (_ & _ & [O|O]); [|rewrite X in O; discriminate].
    destruct (Ts (x_data x)) as [L _]; [apply in_map; apply filter_In; auto|]. rewrite X in L. discriminate. }
  destruct (C118_tcg_over_sg K A kh identity p h0 t Hp Ty Ne) as (groups & Ra & F2 & _). fold V before after in Ra.
  exists (commands t), groups. split; [exact Ra|]. split; [exact F2|]. split; [exact Sh|]. unfold handed. rewrite <- sends_commands. exact Cases.
Qed.
Print Assumptions C118_revert_over_sg.

(** Behind a controller that refuses the SECURITY PROTOCOL commands (a SATA drive without the translation), the ATA fallback is all that is left, and
    no request that the kernel accepts carries anything but zeros to the drive - whatever the operation, whatever the answers. *)
Definition only_zeros (b : bytes) : Prop := Forall (fun x => x = 0) b.
Definition clean (K : kern) (before l : sg_hist) : Prop := forall pre c post, l = pre ++ c :: post ->
  succeeded (K (before ++ pre ++ [c])) -> sg_dir c = (-2)%Z -> only_zeros (sg_mem c).
Lemma clean_app K b l1 l2 : clean K b l1 -> clean K (b ++ l1) l2 -> clean K b (l1 ++ l2).
Proof.
  intros H1 H2 pre c post E Hs Hd. destruct (Nat.lt_ge_cases (List.length pre) (List.length l1)) as [L|L].
  - assert (X : l1 = pre ++ c :: firstn (List.length l1 - S (List.length pre)) post).
    { apply (f_equal (firstn (List.length l1))) in E. rewrite firstn_app, Nat.sub_diag, firstn_O, app_nil_r, firstn_all in E. rewrite E at 1.
      rewrite firstn_app. rewrite (firstn_all2 pre) by lia. f_equal.
      destruct (List.length l1 - List.length pre)%nat as [|k] eqn:Q; [lia|]. cbn [firstn]. f_equal. f_equal. lia. }
    exact (H1 _ _ _ X Hs Hd).
  - assert (X : pre = l1 ++ skipn (List.length l1) pre).
    { apply (f_equal (firstn (List.length l1))) in E. rewrite !firstn_app in E. rewrite Nat.sub_diag, firstn_O, app_nil_r, firstn_all in E.
      replace (List.length l1 - List.length pre)%nat with 0%nat in E by lia. rewrite firstn_O, app_nil_r in E. rewrite E at 1. apply eq_sym, firstn_skipn. }
    set (q := skipn (List.length l1) pre) in *. clearbody q. subst pre. rewrite <- app_assoc in E. apply app_inv_head in E.
    apply (H2 _ _ _ E); [|exact Hd]. rewrite <- !app_assoc in Hs |- *. exact Hs.
Qed.
Lemma clean_cons K b c l : (succeeded (K (b ++ [c])) -> sg_dir c = (-2)%Z -> only_zeros (sg_mem c)) -> clean K (b ++ [c]) l -> clean K b (c :: l).
Proof.
  intros H1 H2. change (c :: l) with ([c] ++ l). apply clean_app; [|exact H2]. intros [|x pre] c' post E; [|destruct pre; discriminate].
  injection E as <- <-. exact H1.
Qed.
Lemma clean_nil K b : clean K b [].
Proof. intros [|x pre] c post E; discriminate. Qed.
Lemma only_zeros_zeros n : only_zeros (zeros n).
Proof. apply Forall_forall. intros x Hx. now apply repeat_spec in Hx. Qed.
Theorem C118_ata_only_sends_zeros : forall K A kh identity p h0 t,
  let V := sg_drv K A kh identity in
  let before := sg_replay K A kh h0 in
  over_sg p -> Forall typed (commands t) -> Forall (fun x => x_data x <> []) (commands t) ->
  (forall k c s, security_decode (sg_cdb c) = Some s -> ~ succeeded (K (k ++ [c]))) ->
  forall calls, sg_replay K A kh (driver_calls V p h0 t) = before ++ calls ->
  forall pre c post, calls = pre ++ c :: post -> succeeded (K (before ++ pre ++ [c])) -> sg_dir c = (-2)%Z -> only_zeros (sg_mem c).
Proof.
  intros K A kh identity p h0 t V before Hp T Ne NS.
  enough (G : exists calls, sg_replay K A kh (driver_calls V p h0 t) = before ++ calls /\ clean K before calls).
  { intros calls E. destruct G as (calls' & E' & G). rewrite E in E'. apply app_inv_head in E'. subst calls'. exact G. }
  unfold before. clear before. revert h0 T Ne.
  induction t as [|e t IH]; intros h0 T Ne.
  { exists []. rewrite app_nil_r. split; [reflexivity|apply clean_nil]. }
  destruct e as [|ns|rw dma pr c b s]; try exact (IH h0 T Ne).
  cbn [commands] in T, Ne |- *. inversion T as [|x l (T1 & T2 & T3 & T4) Tt]; subst x l. cbn [x_protocol x_comid x_data] in T1, T2, T3, T4.
  inversion Ne as [|x l N1 Nt]; subst x l. cbn [x_data] in N1.
  change (driver_calls V p h0 (EvSec rw dma pr c b s :: t)) with (driver_calls V p (fst (security_command V p h0 rw dma pr c b s)) t).
  destruct (security_command V p h0 rw dma pr c b s) as [h1 [e out]] eqn:E. cbn [fst].
  destruct (C74_security_over_sg K A kh identity p h0 rw dma pr c b s h1 e out Hp T1 T2 T4 N1 E) as (c1 & rest & R & Lr & I1 & I2 & _ & I4).
  destruct (IH h1 Tt Nt) as (gs & R2 & G). exists ((c1 :: rest) ++ gs). split; [rewrite R2, R; now rewrite <- app_assoc|].
  rewrite R in G. apply clean_app; [|exact G]. set (k := sg_replay K A kh h0) in *.
  assert (F1 : ~ succeeded (K (k ++ [c1]))) by (eapply NS; exact I1). destruct (I4 F1) as (c2 & rest' & -> & J1 & _ & J3).
  assert (F2 : ~ succeeded (K (k ++ [c1; c2]))) by (change [c1; c2] with ([c1] ++ [c2]); rewrite app_assoc; eapply NS; exact J1).
  destruct (J3 F2) as (c3 & last & -> & Ll & Ft & Sn & _).
  assert (Dir : forall c, In c (c3 :: last) -> sg_dir c = (-2)%Z -> rw = true).
  { intros q Hq Hd. rewrite Forall_forall in Ft. destruct (Ft q Hq) as (? & _ & _ & _ & _ & _ & _ & _ & _ & _ & Q). rewrite Q in Hd. now destruct rw. }
  apply clean_cons; [intros X; contradiction|]. apply clean_cons; [rewrite <- app_assoc; intros X; contradiction|].
  apply clean_cons.
  { intros _ Hd. assert (rw = true) by (eapply Dir; [left; reflexivity|exact Hd]). destruct (Sn H) as (-> & _). apply only_zeros_zeros. }
  intros pre q post Eq _ Hd. assert (Hq : In q last) by (rewrite Eq; apply in_or_app; right; now left).
  assert (rw = true) by (eapply Dir; [right; exact Hq|exact Hd]). destruct (Sn H) as (_ & Z & _). rewrite (Z q Hq). constructor.
Qed.
Print Assumptions C118_ata_only_sends_zeros.
