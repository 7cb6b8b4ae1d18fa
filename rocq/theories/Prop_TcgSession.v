(** Property theorems C21-C31 (sessions and device operations).
    [numbers s hv tv]: the session remembers the numbers assigned by the drive (Spec_TcgSession). *)
From Verif Require Import Base Spec_Tcg M_TcgToken M_Buffer M_TcgCommand M_TcgDevice M_TcgSession Spec_TcgCommand Spec_TcgClient
  Spec_TcgSession P_TcgToken P_TcgCommand P_TcgComplete P_TcgProps P_TcgDevice P_TcgSession.

(** C21: the only effect is reading the clock. *)
Theorem C21_enterprise_never_works : forall E d com, get_device_type d = 4 -> get_base_com_id d = Ok com ->
  no_io [EvNow] /\
  (forall c proto h, exec E d c proto h = (h ++ [EvNow], Ok (None, Some (EMsg "not supported")))) /\
  (forall s c h, send_command E d s c h = (h ++ [EvNow], Ok (None, Some (EMsg "not supported")))) /\
  (forall s sp ch a h, session_start E d s sp ch a h = (s, h ++ [EvNow], Err (EMsg "not supported"))) /\
  (forall s a ch h, authenticate E d s a ch h = (h ++ [EvNow], Err (EMsg "not supported"))) /\
  (forall pw ps ad h, revert_tper E d pw ps ad h = (h ++ [EvNow], Err (EMsg "not supported"))) /\
  (forall s tb a b h, ent_get_table E d s tb a b h = (h ++ [EvNow], Ok (None, Some (EMsg "not supported")))) /\
  (forall h, get_default_password E d h = (h ++ [EvNow], Err (EMsg "not supported"))).
Proof.
  intros E d com Hk Hc. split; [split; reflexivity|]. apply c21 with (com := com); [|assumption].
  unfold get_device_type in Hk. destruct (d_kind d); try discriminate; reflexivity.
Qed.
Print Assumptions C21_enterprise_never_works.

(** C22 *)
Theorem C22_success_means_accepted : forall E d s c com h h' o, env_ok E -> get_base_com_id d = Ok com ->
  let stamped := set_com_id (set_tsn (set_hsn c (s_hsn s mod 2 ^ 32)) (s_tsn s mod 2 ^ 32)) com in
  (send_command E d s c h = (h', Ok (o, None)) <->
   exists resp, o = Some resp /\ exec E d stamped 1 h = (h', Ok (Some resp, None)) /\ accepted resp).
Proof. exact c22. Qed.
Print Assumptions C22_success_means_accepted.

Theorem C22_exec_error_is_returned : forall E d s c com h h' o e, get_base_com_id d = Ok com ->
  let stamped := set_com_id (set_tsn (set_hsn c (s_hsn s mod 2 ^ 32)) (s_tsn s mod 2 ^ 32)) com in
  exec E d stamped 1 h = (h', Ok (o, Some e)) -> send_command E d s c h = (h', Ok (None, Some e)).
Proof.
  intros E d s c com h h' o e Hc stamped Hx. rewrite (send_unfold E d s c com h Hc). fold (stamp s com c) in stamped.
  change (exec E d (stamp s com c) 1 h = (h', Ok (o, Some e))) in Hx. rewrite Hx. now destruct o.
Qed.
Print Assumptions C22_exec_error_is_returned.

(** A response [F0 F1 F9 F0 <256 as a short atom> 0 0 F1] counts as success. *)
Theorem C22_status_256_accepted : forall resp pre x y,
  has_payload (r_buf resp) -> r_tokens resp = pre ++ [[0xF0]; [0x82; 1; 0]; x; y; [0xF1]] -> accepted resp.
Proof.
  intros resp pre x y Hp Ht. split; [assumption|]. right. exists [0x82; 1; 0], 256. split; [|split; reflexivity].
  exists pre, [0xF0], x, y, [0xF1]. split; [assumption|]. split; eexists; reflexivity.
Qed.
Print Assumptions C22_status_256_accepted.

(** C23 *)
Theorem C23_short_response_panics : forall E d s c com h h' resp, env_ok E -> get_base_com_id d = Ok com ->
  let stamped := set_com_id (set_tsn (set_hsn c (s_hsn s mod 2 ^ 32)) (s_tsn s mod 2 ^ 32)) com in
  exec E d stamped 1 h = (h', Ok (Some resp, None)) -> has_payload (r_buf resp) ->
  fst (send_command E d s c h) = h' /\
  (snd (send_command E d s c h) = Panic <-> (1 <= List.length (r_tokens resp) <= 4)%nat /\ ~ is_eos (r_tokens resp)).
Proof. exact c23. Qed.
Print Assumptions C23_short_response_panics.

(** C24 *)
Theorem C24_status_reported : forall E d s c com h h' resp st v, env_ok E -> get_base_com_id d = Ok com ->
  let stamped := set_com_id (set_tsn (set_hsn c (s_hsn s mod 2 ^ 32)) (s_tsn s mod 2 ^ 32)) com in
  exec E d stamped 1 h = (h', Ok (Some resp, None)) -> has_payload (r_buf resp) ->
  ~ is_eos (r_tokens resp) -> ends_with_status (r_tokens resp) st -> unsigned_value st = Some v -> 1 <= v <= 255 ->
  send_command E d s c h = (h', Ok (Some resp, Some (ETcg v)))
  /\ fst (fst (sstep E d (s, h) (SSend c))) = s.
Proof.
  intros E d s c com h h' resp st v HE Hc stamped Hx Hp He Hs Hu Hv. split.
  - exact (c24 E d s c com h h' resp st v HE Hc Hx Hp He Hs Hu Hv).
  - cbn [sstep]. destruct (send_command E d s c h). reflexivity.
Qed.
Print Assumptions C24_status_reported.

(** C25 *)
Theorem C25_close_does_nothing : forall E d ops h0 s h,
  srun E d (new_session, h0) ops = (s, h) -> session_close s h = (s, h, Ok tt).
Proof. exact c25. Qed.
Print Assumptions C25_close_does_nothing.

(** C26: Start stores the drive's numbers, and every command sent later carries them. *)
Theorem C26_start_stores_numbers : forall E d s sp ch a com h s' h', env_ok E -> is_any_ssc d = true -> get_base_com_id d = Ok com ->
  session_start E d s sp ch a h = (s', h', Ok tt) ->
  exists resp t4 t5 hv tv,
    send_command E d s (start_command E d s sp ch (authority_bytes a)) h = (h', Ok (Some resp, None))
    /\ nth_error (r_tokens resp) 4 = Some t4 /\ nth_error (r_tokens resp) 5 = Some t5
    /\ unsigned_value t4 = Some hv /\ unsigned_value t5 = Some tv /\ numbers s' hv tv /\ s_nohash s' = s_nohash s.
Proof. exact start_numbers. Qed.
Print Assumptions C26_start_stores_numbers.

Theorem C26_numbers_on_the_wire : forall E d s0 h0 ops s h1 c com h' r hv tv,
  env_ok E -> is_any_ssc d = true -> get_base_com_id d = Ok com -> com < 2 ^ 16 ->
  numbers s0 hv tv -> Forall later_op ops -> srun E d (s0, h0) ops = (s, h1) ->
  (56 <= List.length (a_data c))%nat -> 56 <= get_cmd_size c ->
  send_command E d s c h1 = (h', r) ->
  exists t b, h' = h1 ++ t /\ sends t = [b] /\
    slice 24 4 b = be_bytes 4 hv /\ slice 20 4 b = be_bytes 4 tv /\ slice 4 2 b = be_bytes 2 com.
Proof.
  intros E d s0 h0 ops s h1 c com h' r hv tv HE Hs Hc Hc16 Hn Ho Hr Hl Hz H.
  apply (stamped_fields E d s c com h1 h' r hv tv); auto.
  pose proof (srun_numbers E d ops s0 h0 hv tv Ho Hn) as X. now rewrite Hr in X.
Qed.
Print Assumptions C26_numbers_on_the_wire.

Theorem C26_zero_before_start : numbers new_session 0 0.
Proof. exact numbers_new. Qed.
Print Assumptions C26_zero_before_start.

(** C27 *)
Theorem C27_one_determined_startsession : forall E d s sp ch a com h s' h' r hv tv,
  env_ok E -> is_any_ssc d = true -> get_base_com_id d = Ok com -> com < 2 ^ 16 -> numbers s hv tv ->
  wf sp -> List.length sp = 8%nat -> wf ch ->
  let auth := match a with AUid u => uid8 u | ABuf b => b | ANil => [] end in
  wf auth -> blen auth <= 50000 ->
  session_start E d s sp ch a h = (s', h', r) ->
  exists t, h' = h ++ t /\
    sends t = [frame hv tv com (start_payload sp (credential_of (e_pbkdf2 E) (get_serial d) (s_nohash s) ch) auth)].
Proof.
  intros E d s sp ch a com h s' h' r hv tv HE Hs Hc Hc16 Hn Ws Ls Wc auth.
  assert (Ea : auth = authority_bytes a) by (destruct a; reflexivity).
  rewrite Ea. intros Wa La H. now apply (c27 E d s sp ch a com h s' h' r hv tv).
Qed.
Print Assumptions C27_one_determined_startsession.

(** C28: results, sessions and complete call histories are equal. *)
Theorem C28_only_the_derived_key_matters : forall E d p q, p <> [] -> q <> [] ->
  e_pbkdf2 E (firstn 32 p) (get_serial d) = e_pbkdf2 E (firstn 32 q) (get_serial d) ->
  (forall s sp a h, s_nohash s = false -> session_start E d s sp p a h = session_start E d s sp q a h) /\
  (forall s auth h, s_nohash s = false -> authenticate E d s auth p h = authenticate E d s auth q h) /\
  (forall adm h, revert_tper E d p false adm h = revert_tper E d q false adm h).
Proof.
  intros E d p q Hp Hq HE. split; [|split]; intros.
  - now apply c28_start.
  - now apply c28_auth.
  - now apply c28_revert.
Qed.
Print Assumptions C28_only_the_derived_key_matters.

(** C29 *)
Theorem C29_revert_only_after_start : forall E d com pw isPsid isAdm h h' r,
  env_ok E -> is_any_ssc d = true -> get_base_com_id d = Ok com -> com < 2 ^ 16 -> wf pw ->
  revert_tper E d pw isPsid isAdm h = (h', r) ->
  let s0 := set_no_hash_password new_session isPsid in
  let uid := if isPsid then uid_PSID else uid_SID in
  exists s1 h1 r1, session_start E d s0 uid_AdminSP pw (AUid uid) h = (s1, h1, r1)
  /\ (exists t1, h1 = h ++ t1 /\
       sends t1 = [frame 0 0 com (start_payload uid_AdminSP (credential_of (e_pbkdf2 E) (get_serial d) isPsid pw) (uid8 uid))])
  /\ (r1 <> Ok tt -> h' = h1 /\ r = r1)
  /\ (r1 = Ok tt -> exists hv tv t2 c, numbers s1 hv tv /\ h' = h1 ++ t2 /\ sends t2 = [frame hv tv com revert_payload]
       /\ cmd_slice c = frame hv tv com revert_payload
       /\ (r = Ok tt <-> exists resp, exec E d c 1 h1 = (h', Ok (Some resp, None)) /\ accepted resp)).
Proof. exact c29. Qed.
Print Assumptions C29_revert_only_after_start.

(** C30 *)
Theorem C30_boolean_backwards : forall E d s auth ch com h h' r hv tv,
  env_ok E -> is_any_ssc d = true -> get_base_com_id d = Ok com -> com < 2 ^ 16 -> numbers s hv tv ->
  wf ch -> wf auth -> blen auth <= 50000 ->
  authenticate E d s auth ch h = (h', r) ->
  let payload := authenticate_payload auth (credential_of (e_pbkdf2 E) (get_serial d) (s_nohash s) ch) in
  exists t c, h' = h ++ t /\ sends t = [frame hv tv com payload] /\ cmd_slice c = frame hv tv com payload /\
  (r = Ok tt <-> exists resp tok v, exec E d c 1 h = (h', Ok (Some resp, None)) /\ accepted resp /\
      nth_error (r_tokens resp) 1 = Some tok /\ unsigned_value tok = Some v /\ v mod 256 = 0) /\
  (forall resp tok, exec E d c 1 h = (h', Ok (Some resp, None)) -> accepted resp ->
      nth_error (r_tokens resp) 1 = Some tok -> unsigned_value tok = Some 1 ->
      r = Err (EFmt "authentication failed: %d" 1)).
Proof. exact c30. Qed.
Print Assumptions C30_boolean_backwards.

(** C31 *)
Theorem C31_default_password : forall E d com h h' r,
  env_ok E -> is_any_ssc d = true -> get_base_com_id d = Ok com -> com < 2 ^ 16 ->
  get_default_password E d h = (h', r) ->
  exists s1 h1 r1, session_start E d new_session uid_AdminSP [] (AUid (repeat 255 8)) h = (s1, h1, r1)
  /\ (exists t1, h1 = h ++ t1 /\ sends t1 = [frame 0 0 com (start_payload uid_AdminSP None [])])
  /\ (forall e, r1 = Err e -> h' = h1 /\ r = Err e) /\ (r1 = Panic -> h' = h1 /\ r = Panic) /\ (r1 = Fuel -> h' = h1 /\ r = Fuel)
  /\ (r1 = Ok tt -> exists hv tv t2 c, numbers s1 hv tv /\ h' = h1 ++ t2
       /\ sends t2 = [frame hv tv com (get_payload (uid8 uid_C_PIN_MSID) 3 3)]
       /\ cmd_slice c = frame hv tv com (get_payload (uid8 uid_C_PIN_MSID) 3 3)
       /\ (forall text, r = Ok text <-> exists resp tok, exec E d c 1 h1 = (h', Ok (Some resp, None)) /\ accepted resp
             /\ nth_error (r_tokens resp) 4 = Some tok /\ get_string tok = Ok text)).
Proof. exact c31. Qed.
Print Assumptions C31_default_password.
