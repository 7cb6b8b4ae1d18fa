(** C179: a drive that answers by the book is served: Start opens the session it grants, RevertTPer and GetDefaultPassword succeed, refusals are reported
    with their status; a PSID revert of a drive that checks its PSID succeeds exactly with the PSID. *)
From Verif Require Import Base Spec_Tcg M_TcgToken M_Buffer M_TcgCommand M_TcgDevice M_TcgSession Spec_TcgCommand Spec_TcgClient Spec_TcgSession
  P_TcgToken P_TcgProps P_TcgDevice P_TcgSession Prop_Tcg Prop_TcgSession Spec_Conform P_Conform Spec_Challenge P_Challenge Prop_Challenge.

Lemma conform_start E d s sp ch a com h hv tv atoms : env_ok E -> is_any_ssc d = true -> get_base_com_id d = Ok com -> com < 2 ^ 16 -> numbers s hv tv ->
  wf sp -> List.length sp = 8%nat -> wf ch -> wf (authority_bytes a) -> blen (authority_bytes a) <= 50000 ->
  replies E com (frame hv tv com (start_payload sp (credential_of (e_pbkdf2 E) (get_serial d) (s_nohash s) ch) (authority_bytes a))) h atoms ->
  exists t resp, exec E d (stamp s com (start_command E d s sp ch (authority_bytes a))) 1 h = (h ++ t, Ok (Some resp, None))
  /\ (exists k, t = exchange com (frame hv tv com (start_payload sp (credential_of (e_pbkdf2 E) (get_serial d) (s_nohash s) ch) (authority_bytes a))) k)
  /\ r_tokens resp = map encode atoms /\ has_payload (r_buf resp).
Proof.
  intros HE Hs Hc Hc16 Hn Wsp Lsp Wch Wau Lau R.
  pose proof (start_framed E d s sp ch (authority_bytes a) hv tv com HE Hs Hn Hc16 Wsp Lsp Wch Wau Lau) as F. rewrite <- F in R.
  destruct (exec_replies E d _ com h atoms HE Hs Hc R) as (t & resp & X & Tk & Pay). exists t, resp. split; [exact X|]. split; [|auto].
  destruct (exec_cases E d _ com h _ _ HE Hs Hc X) as (k & t' & Et & Ht & _). apply app_inv_head in Et. subst t'.
  exists k. unfold exchange. rewrite <- F. exact Ht.
Qed.
Lemma auth_eq a : match a with AUid u => uid8 u | ABuf b => b | ANil => [] end = authority_bytes a.
Proof. destruct a; reflexivity. Qed.

(** Start: the session's numbers are those the drive granted. *)
Theorem C179_start : forall E d s sp ch a com h hv tv ah hv' at_ tv' more,
  env_ok E -> is_any_ssc d = true -> get_base_com_id d = Ok com -> com < 2 ^ 16 -> numbers s hv tv -> wf sp -> List.length sp = 8%nat -> wf ch ->
  let auth := match a with AUid u => uid8 u | ABuf b => b | ANil => [] end in wf auth -> blen auth <= 50000 ->
  replies E com (frame hv tv com (start_payload sp (credential_of (e_pbkdf2 E) (get_serial d) (s_nohash s) ch) auth)) h (sync_session ah at_ more) ->
  unsigned_atom ah hv' -> unsigned_atom at_ tv' ->
  exists s' t, session_start E d s sp ch a h = (s', h ++ t, Ok tt) /\ numbers s' hv' tv' /\ s_nohash s' = s_nohash s
  /\ exists k, t = exchange com (frame hv tv com (start_payload sp (credential_of (e_pbkdf2 E) (get_serial d) (s_nohash s) ch) auth)) k.
Proof.
  intros E d s sp ch a com h hv tv ah hv' at_ tv' more HE Hs Hc Hc16 Hn Wsp Lsp Wch auth Wau Lau R Uh Ut. unfold auth in *. rewrite auth_eq in *.
  destruct (conform_start E d s sp ch a com h hv tv _ HE Hs Hc Hc16 Hn Wsp Lsp Wch Wau Lau R) as (t & resp & X & Snd & Tk & Pay).
  assert (Acc : accepted resp).
  { unfold sync_session in Tk. rewrite (app_assoc more) in Tk.
    refine (accepted_tokens ([Ctl 0xF8; Short true false [0; 0; 0; 0; 0; 0; 0; 0xFF]; Short true false [0; 0; 0; 0; 0; 0; 0xFF; 3]; Ctl 0xF0; ah; at_] ++ more ++ [Ctl 0xF1]) _ _ resp Tk Pay);
      [discriminate|intros d0 r0 Q; discriminate Q]. }
  assert (Sn : send_command E d s (start_command E d s sp ch (authority_bytes a)) h = (h ++ t, Ok (Some resp, None))).
  { apply (C22_success_means_accepted E d s _ com h (h ++ t) (Some resp) HE Hc). exists resp. auto. }
  eexists _, t. split.
  - apply (start_ok E d s sp ch a com h _ _ HE Hs Hc). exists resp, (encode ah), (encode at_), hv', tv'. split; [exact Sn|].
    rewrite Tk. split; [reflexivity|]. split; [reflexivity|]. split; [now apply unsigned_value_atom|]. split; [now apply unsigned_value_atom|reflexivity].
  - split; [split; reflexivity|]. split; [reflexivity|exact Snd].
Qed.
Print Assumptions C179_start.

(** A refusal is reported with its status. *)
Theorem C179_start_refused : forall E d s sp ch a com h hv tv st,
  env_ok E -> is_any_ssc d = true -> get_base_com_id d = Ok com -> com < 2 ^ 16 -> numbers s hv tv -> wf sp -> List.length sp = 8%nat -> wf ch ->
  let auth := match a with AUid u => uid8 u | ABuf b => b | ANil => [] end in wf auth -> blen auth <= 50000 ->
  replies E com (frame hv tv com (start_payload sp (credential_of (e_pbkdf2 E) (get_serial d) (s_nohash s) ch) auth)) h (no_result st) -> 1 <= st < 64 ->
  exists h', session_start E d s sp ch a h = (s, h', Err (ETcg st)).
Proof.
  intros E d s sp ch a com h hv tv st HE Hs Hc Hc16 Hn Wsp Lsp Wch auth Wau Lau R [L1 L2]. unfold auth in *. rewrite auth_eq in *.
  destruct (conform_start E d s sp ch a com h hv tv _ HE Hs Hc Hc16 Hn Wsp Lsp Wch Wau Lau R) as (t & resp & X & _ & Tk & Pay).
  destruct (tokens_status [Ctl 0xF0; Ctl 0xF1] st ltac:(discriminate) L2 ltac:(discriminate) resp Tk Pay) as (E1 & E2 & E3).
  destruct (C24_status_reported E d s (start_command E d s sp ch (authority_bytes a)) com h (h ++ t) resp [st] st HE Hc X Pay E2 E1 E3 ltac:(lia)) as [Sn _].
  exists (h ++ t). rewrite start_unfold by exact Hs. rewrite Sn. reflexivity.
Qed.
Print Assumptions C179_start_refused.

Lemma conform_psid (b : bool) : wf (uid8 (if b then uid_PSID else uid_SID)) /\ blen (uid8 (if b then uid_PSID else uid_SID)) <= 50000.
Proof. destruct b; (split; [repeat (apply wf_cons; split; [reflexivity|]); apply wf_nil|vm_compute; discriminate]). Qed.
Lemma conform_admin : wf uid_AdminSP.
Proof. repeat (apply wf_cons; split; [reflexivity|]); apply wf_nil. Qed.

(** RevertTPer: whoever is granted a session and answered "success" is told so; a refused Revert is reported with its status. *)
Theorem C179_revert : forall E d com pw isPsid isAdm h ah hv at_ tv more st,
  env_ok E -> is_any_ssc d = true -> get_base_com_id d = Ok com -> com < 2 ^ 16 -> wf pw ->
  replies E com (frame 0 0 com (start_payload uid_AdminSP (credential_of (e_pbkdf2 E) (get_serial d) isPsid pw) (uid8 (if isPsid then uid_PSID else uid_SID)))) h
    (sync_session ah at_ more) -> unsigned_atom ah hv -> unsigned_atom at_ tv ->
  (forall k, replies E com (frame hv tv com revert_payload)
     (h ++ exchange com (frame 0 0 com (start_payload uid_AdminSP (credential_of (e_pbkdf2 E) (get_serial d) isPsid pw) (uid8 (if isPsid then uid_PSID else uid_SID)))) k) (no_result st)) -> st < 64 ->
  exists h', revert_tper E d pw isPsid isAdm h = (h', if st =? 0 then Ok tt else Err (ETcg st)).
Proof.
  intros E d com pw isPsid isAdm h ah hv at_ tv more st HE Hs Hc Hc16 Wp R Uh Ut Rr Lst.
  destruct (C179_start E d (set_no_hash_password new_session isPsid) uid_AdminSP pw (AUid (if isPsid then uid_PSID else uid_SID)) com h 0 0 ah hv at_ tv more
              HE Hs Hc Hc16 ltac:(split; reflexivity) conform_admin eq_refl Wp (proj1 (conform_psid isPsid)) (proj2 (conform_psid isPsid)) R Uh Ut) as (s1 & t1 & E1 & N1 & _ & k1 & Sd). cbv zeta in Sd. cbn [s_nohash set_no_hash_password] in Sd.
  subst t1. set (h1 := h ++ exchange _ _ k1) in *.
  assert (Hd : revert_tper E d pw isPsid isAdm h = opal_revert_tper E d pw isPsid h) by (unfold revert_tper; destruct (opal_kind d Hs) as [-> | ->]; reflexivity).
  rewrite Hd. unfold opal_revert_tper. change ADMINSP_UID with uid_AdminSP.
  replace (if isPsid then set_no_hash_password new_session true else new_session) with (set_no_hash_password new_session isPsid) by (destruct isPsid; reflexivity).
  replace (if isPsid then PSID_UID else SID_UID) with (if isPsid then uid_PSID else uid_SID) by (destruct isPsid; reflexivity). rewrite E1.
  specialize (Rr k1). fold h1 in Rr. rewrite <- (revert_framed s1 hv tv com N1 Hc16) in Rr.
  destruct (exec_replies E d _ com h1 _ HE Hs Hc Rr) as (t & resp & X & Tk & Pay).
  destruct (N.eqb_spec st 0) as [->|Nz].
  - assert (Acc : accepted resp) by (apply (accepted_tokens [Ctl 0xF0; Ctl 0xF1] ltac:(discriminate) ltac:(discriminate)); assumption).
    assert (Sn : send_command E d s1 revert_command h1 = (h1 ++ t, Ok (Some resp, None))).
    { apply (C22_success_means_accepted E d s1 _ com h1 (h1 ++ t) (Some resp) HE Hc). exists resp. auto. }
    rewrite Sn. exists (h1 ++ t). reflexivity.
  - destruct (tokens_status [Ctl 0xF0; Ctl 0xF1] st ltac:(discriminate) Lst ltac:(discriminate) resp Tk Pay) as (F1 & F2 & F3).
    destruct (C24_status_reported E d s1 revert_command com h1 (h1 ++ t) resp [st] st HE Hc X Pay F2 F1 F3 ltac:(lia)) as [Sn _].
    rewrite Sn. exists (h1 ++ t). reflexivity.
Qed.
Print Assumptions C179_revert.

(** A refused StartSession is what RevertTPer reports. *)
Theorem C179_revert_refused : forall E d com pw isPsid isAdm h st,
  env_ok E -> is_any_ssc d = true -> get_base_com_id d = Ok com -> com < 2 ^ 16 -> wf pw ->
  replies E com (frame 0 0 com (start_payload uid_AdminSP (credential_of (e_pbkdf2 E) (get_serial d) isPsid pw) (uid8 (if isPsid then uid_PSID else uid_SID)))) h (no_result st) ->
  1 <= st < 64 -> exists h', revert_tper E d pw isPsid isAdm h = (h', Err (ETcg st)).
Proof.
  intros E d com pw isPsid isAdm h st HE Hs Hc Hc16 Wp R Lst.
  destruct (C179_start_refused E d (set_no_hash_password new_session isPsid) uid_AdminSP pw (AUid (if isPsid then uid_PSID else uid_SID)) com h 0 0 st
              HE Hs Hc Hc16 ltac:(split; reflexivity) conform_admin eq_refl Wp (proj1 (conform_psid isPsid)) (proj2 (conform_psid isPsid)) R Lst) as (h1 & E1).
  assert (Hd : revert_tper E d pw isPsid isAdm h = opal_revert_tper E d pw isPsid h) by (unfold revert_tper; destruct (opal_kind d Hs) as [-> | ->]; reflexivity).
  rewrite Hd. unfold opal_revert_tper. change ADMINSP_UID with uid_AdminSP.
  replace (if isPsid then set_no_hash_password new_session true else new_session) with (set_no_hash_password new_session isPsid) by (destruct isPsid; reflexivity).
  replace (if isPsid then PSID_UID else SID_UID) with (if isPsid then uid_PSID else uid_SID) by (destruct isPsid; reflexivity). rewrite E1. exists h1. reflexivity.
Qed.
Print Assumptions C179_revert_refused.

(** GetDefaultPassword: the byte string in the PIN cell is returned, in whichever encoding the drive sends it. *)
Theorem C179_password : forall E d com h ah hv at_ tv more cell text,
  env_ok E -> is_any_ssc d = true -> get_base_com_id d = Ok com -> com < 2 ^ 16 ->
  replies E com (frame 0 0 com (start_payload uid_AdminSP None [])) h (sync_session ah at_ more) -> unsigned_atom ah hv -> unsigned_atom at_ tv ->
  (forall k, replies E com (frame hv tv com (get_payload (uid8 uid_C_PIN_MSID) 3 3)) (h ++ exchange com (frame 0 0 com (start_payload uid_AdminSP None [])) k) (one_cell 3 cell)) -> bytes_of cell text ->
  exists h', get_default_password E d h = (h', Ok text).
Proof.
  intros E d com h ah hv at_ tv more cell text HE Hs Hc Hc16 R Uh Ut Rg (Ok_ & Kb & Dt).
  assert (Wf8 : wf (uid8 (repeat 255 8)) /\ blen (uid8 (repeat 255 8)) <= 50000)
    by (split; [repeat (apply wf_cons; split; [reflexivity|]); apply wf_nil|vm_compute; discriminate]).
  destruct (C179_start E d new_session uid_AdminSP [] (AUid (repeat 255 8)) com h 0 0 ah hv at_ tv more
              HE Hs Hc Hc16 ltac:(split; reflexivity) conform_admin eq_refl wf_nil (proj1 Wf8) (proj2 Wf8) R Uh Ut) as (s1 & t1 & E1 & N1 & _ & k1 & Sd). cbv zeta in Sd. cbn [s_nohash set_no_hash_password] in Sd.
  subst t1. set (h1 := h ++ exchange _ _ k1) in *.
  assert (Hd : get_default_password E d h = opal_get_default_password E d h) by (unfold get_default_password; destruct (opal_kind d Hs) as [-> | ->]; reflexivity).
  rewrite Hd. unfold opal_get_default_password. change UID_HEXFF with (repeat 255 8). change ADMINSP_UID with uid_AdminSP. rewrite E1.
  unfold opal_get_table. change (u8 BYTESTRING8 :: C_PIN_MSID) with (uid8 uid_C_PIN_MSID). change CREDENTIAL_PIN with 3.
  assert (Wt : wf (uid8 uid_C_PIN_MSID)) by (repeat (apply wf_cons; split; [reflexivity|]); apply wf_nil).
  assert (F : cmd_slice (stamp s1 com (get_table_command (uid8 uid_C_PIN_MSID) 3 3)) = frame hv tv com (get_payload (uid8 uid_C_PIN_MSID) 3 3))
    by (apply get_framed; try assumption; try reflexivity; vm_compute; discriminate).
  specialize (Rg k1). change (h ++ exchange com (frame 0 0 com (start_payload uid_AdminSP None [])) k1) with h1 in Rg. rewrite <- F in Rg. destruct (exec_replies E d _ com h1 _ HE Hs Hc Rg) as (t & resp & X & Tk & Pay).
  assert (Acc : accepted resp).
  { refine (accepted_tokens [Ctl 0xF0; Ctl 0xF0; Ctl 0xF2; Tiny false 3; cell; Ctl 0xF3; Ctl 0xF1; Ctl 0xF1] _ _ resp Tk Pay); [discriminate|intros d0 r0 Q; discriminate Q]. }
  assert (Sn : send_command E d s1 (get_table_command (uid8 uid_C_PIN_MSID) 3 3) h1 = (h1 ++ t, Ok (Some resp, None))).
  { apply (C22_success_means_accepted E d s1 _ com h1 (h1 ++ t) (Some resp) HE Hc). exists resp. auto. }
  rewrite Sn. exists (h1 ++ t). cbn [finish_password]. f_equal. unfold get_token, get_token_count. rewrite Tk. cbn [map List.length one_cell app status_list Z.of_nat].
  change (get_string (encode cell) = Ok text). rewrite (C09_string_of_atom cell Ok_). rewrite <- Dt. destruct cell; try reflexivity.
  cbn in Kb. destruct signed; discriminate Kb.
Qed.
Print Assumptions C179_password.

(** With hashing off, an open session means that the password is one of the drive's PINs. *)
Theorem C179_plain_session : forall E d s sp ch who com h s' h' hv tv pins,
  env_ok E -> is_any_ssc d = true -> get_base_com_id d = Ok com -> com < 2 ^ 16 -> numbers s hv tv ->
  wf sp -> List.length sp = 8%nat -> wf who -> List.length who = 8%nat -> wf ch -> 1 <= blen ch <= 400 -> s_nohash s = true ->
  guards E d who pins -> session_start E d s sp ch (AUid who) h = (s', h', Ok tt) -> pins ch.
Proof.
  intros E d s sp ch who com h s' h' hv tv pins HE Hs Hc Hc16 Hn Wsp Lsp Ww Lw Wc Lc Nh G H.
  destruct (C177_plain_challenge E d s sp ch who com h s' h' _ hv tv HE Hs Hc Hc16 Hn Wsp Lsp Ww Lw Wc Lc Nh H) as (t & packet & Ht & St & P).
  apply (start_ok E d s sp ch (AUid who) com h s' h' HE Hs Hc) in H as (resp & _ & _ & _ & _ & Hsend & _).
  apply (C22_success_means_accepted E d s _ com h h' (Some resp) HE Hc) in Hsend as (resp' & Er & Hx & Acc). injection Er as <-.
  subst h'. exact (G _ h t resp packet sp _ Hx St Acc P).
Qed.
Print Assumptions C179_plain_session.

(** RevertTPer with isPsid succeeds on such a drive exactly when the password is the PSID. *)
Theorem C179_psid_iff : forall E d com psid pw isAdm h ah hv at_ tv more,
  env_ok E -> is_any_ssc d = true -> get_base_com_id d = Ok com -> com < 2 ^ 16 -> wf pw -> 1 <= blen pw <= 400 ->
  guards E d uid_PSID (fun p => p = psid) ->
  replies E com (frame 0 0 com (start_payload uid_AdminSP (Some psid) (uid8 uid_PSID))) h (sync_session ah at_ more) -> unsigned_atom ah hv -> unsigned_atom at_ tv ->
  (forall k, replies E com (frame hv tv com revert_payload) (h ++ exchange com (frame 0 0 com (start_payload uid_AdminSP (Some psid) (uid8 uid_PSID))) k) (no_result 0)) ->
  (snd (revert_tper E d pw true isAdm h) = Ok tt <-> pw = psid).
Proof.
  intros E d com psid pw isAdm h ah hv at_ tv more HE Hs Hc Hc16 Wp Lp G R Uh Ut Rr. split.
  - intros Q. destruct (revert_tper E d pw true isAdm h) as [h' r] eqn:H. cbn [snd] in Q. subst r.
    destruct (C29_revert_only_after_start E d com pw true isAdm h h' _ HE Hs Hc Hc16 Wp H) as (s1 & h1 & r1 & H1 & _ & F & _). cbv iota zeta in H1.
    assert (D : r1 = Ok tt). { assert (D : r1 = Ok tt \/ r1 <> Ok tt) by (destruct r1 as [[]| | |]; [left; reflexivity|right; discriminate..]). destruct D as [D|D]; [exact D|]. destruct (F D) as [_ <-]. reflexivity. }
    subst r1. assert (W8 : wf uid_PSID) by (repeat (apply wf_cons; split; [reflexivity|]); apply wf_nil).
    exact (C179_plain_session E d (set_no_hash_password new_session true) uid_AdminSP pw uid_PSID com h s1 h1 0 0 _ HE Hs Hc Hc16 ltac:(split; reflexivity) conform_admin eq_refl W8 eq_refl Wp Lp eq_refl G H1).
  - intros ->. assert (Cr : credential_of (e_pbkdf2 E) (get_serial d) true psid = Some psid).
    { unfold credential_of. destruct psid; [destruct Lp as [Lp _]; exfalso; apply Lp; reflexivity|reflexivity]. }
    rewrite <- Cr in R, Rr. destruct (C179_revert E d com psid true isAdm h ah hv at_ tv more 0 HE Hs Hc Hc16 Wp R Uh Ut Rr eq_refl) as (h' & ->). reflexivity.
Qed.
Print Assumptions C179_psid_iff.
