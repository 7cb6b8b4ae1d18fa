(** C177: with password hashing on (the default), the challenge presented to a drive is the 34 bytes D0h, 20h and the derived key - the framing
    TcgHashPassword adds is framed a second time - so it is never one of the PINs an Opal drive can have. *)
From Verif Require Import Base Spec_Tcg M_TcgToken M_Buffer M_TcgCommand M_TcgDevice M_TcgSession Spec_TcgCommand Spec_TcgClient
  Spec_TcgSession P_TcgDevice P_TcgSession Prop_TcgSession Spec_Challenge P_Challenge.

(** A packet asks for one session, with one challenge and one authority. *)
Theorem C177_one_reading : forall p sp sp' ch ch' who who', presents p sp ch who -> presents p sp' ch' who' -> sp = sp' /\ ch = ch' /\ who = who'.
Proof.
  intros p sp sp' ch ch' who who' (hd & a & rest & Lh & Ls & Lw & Ha & E) (hd' & a' & rest' & Lh' & Ls' & Lw' & Ha' & E'). rewrite E in E'.
  apply app_same_length in E' as [_ E']; [|congruence]. cbn [app] in E'. injection E' as E'.
  apply app_same_length in E' as [-> E']; [|congruence]. injection E' as E'.
  destruct (bytes_atom_unique _ _ _ _ _ _ Ha Ha' E') as [-> E2]. injection E2 as E2.
  apply app_same_length in E2 as [-> _]; [|congruence]. auto.
Qed.
Print Assumptions C177_one_reading.

Lemma start_presents hv tv com sp ch who : List.length sp = 8%nat -> List.length who = 8%nat -> wf ch -> 1 <= blen ch <= 400 ->
  presents (frame hv tv com (start_payload sp (Some ch) (uid8 who))) sp ch who.
Proof.
  intros Ls Lw W L. destruct (holds_string ch W ltac:(lia)) as [Hc Ec].
  rewrite frame_whole.
  - eexists _, (string_atom ch), _. split; [apply frame_header_length|]. split; [exact Ls|]. split; [exact Lw|]. split; [exact Hc|]. f_equal.
    unfold start_payload, method_call, uid8, uid_SMUID, mth_StartSession. rewrite Ec. cbn [app]. repeat (rewrite <- !app_assoc; cbn [app]). reflexivity.
  - unfold start_payload, method_call, uid8, uid_SMUID, mth_StartSession. rewrite Ec. pose proof (encode_string_length ch).
    cbn [List.length app]. repeat (rewrite !app_length; cbn [List.length app]). unfold blen in L. assert (List.length status_trailer = 6%nat) by reflexivity. lia.
Qed.
Lemma authenticate_presents hv tv com ch who : List.length who = 8%nat -> wf ch -> 1 <= blen ch <= 400 ->
  authenticates (frame hv tv com (authenticate_payload (uid8 who) (Some ch))) ch who.
Proof.
  intros Lw W L. destruct (holds_string ch W ltac:(lia)) as [Hc Ec].
  rewrite frame_whole.
  - eexists _, (string_atom ch), _. split; [apply frame_header_length|]. split; [exact Lw|]. split; [exact Hc|]. f_equal.
    unfold authenticate_payload, method_call, uid8, uid_ThisSP, mth_Authenticate. rewrite Ec. cbn [app]. repeat (rewrite <- !app_assoc; cbn [app]). reflexivity.
  - unfold authenticate_payload, method_call, uid8, uid_ThisSP, mth_Authenticate. rewrite Ec. pose proof (encode_string_length ch).
    cbn [List.length app]. repeat (rewrite !app_length; cbn [List.length app]). unfold blen in L. assert (List.length status_trailer = 6%nat) by reflexivity. lia.
Qed.
Lemma uid8_ok u : wf u -> List.length u = 8%nat -> wf (uid8 u) /\ blen (uid8 u) <= 50000.
Proof. intros W L. split; [apply wf_cons; split; [reflexivity|exact W]|]. unfold blen, uid8. cbn [List.length]. rewrite L. discriminate. Qed.

(** With hashing on, the challenge in the one StartSession is D0h, 20h and the 32-byte key: 34 bytes, whichever way the packet is read. *)
Theorem C177_hashed_challenge : forall E d s sp ch who com h s' h' r hv tv,
  env_ok E -> is_any_ssc d = true -> get_base_com_id d = Ok com -> com < 2 ^ 16 -> numbers s hv tv ->
  wf sp -> List.length sp = 8%nat -> wf who -> List.length who = 8%nat -> wf ch -> ch <> [] -> s_nohash s = false ->
  session_start E d s sp ch (AUid who) h = (s', h', r) ->
  exists t packet key, h' = h ++ t /\ sends t = [packet] /\ key = e_pbkdf2 E (firstn 32 ch) (get_serial d) /\ List.length key = 32%nat
  /\ presents packet sp ([0xD0; 32] ++ key) who
  /\ forall sp' p who', presents packet sp' p who' -> blen p = 34.
Proof.
  intros E d s sp ch who com h s' h' r hv tv HE Hs Hc Hc16 Hn Wsp Lsp Ww Lw Wc Nc Nh H. destruct (uid8_ok who Ww Lw) as [Wu Lu].
  destruct (C27_one_determined_startsession E d s sp ch (AUid who) com h s' h' r hv tv HE Hs Hc Hc16 Hn Wsp Lsp Wc Wu Lu H) as (t & Ht & St).
  destruct HE as (_ & _ & HK). destruct (HK (firstn 32 ch) (get_serial d)) as [Lk Wk].
  rewrite Nh in St. unfold credential_of in St. destruct ch as [|c0 ch0]; [contradiction|]. set (key := e_pbkdf2 E (firstn 32 (c0 :: ch0)) (get_serial d)) in *.
  exists t, (frame hv tv com (start_payload sp (Some ([0xD0; 32] ++ key)) (uid8 who))), key. split; [exact Ht|]. split; [exact St|]. split; [reflexivity|]. split; [exact Lk|].
  assert (L34 : blen ([0xD0; 32] ++ key) = 34) by (unfold blen; cbn [app List.length]; rewrite Lk; reflexivity).
  assert (P : presents (frame hv tv com (start_payload sp (Some ([0xD0; 32] ++ key)) (uid8 who))) sp ([0xD0; 32] ++ key) who).
  { apply start_presents; [exact Lsp|exact Lw| |rewrite L34; split; discriminate]. cbn [app]. do 2 (apply wf_cons; split; [reflexivity|]). exact Wk. }
  split; [exact P|]. intros sp' p who' P'. destruct (C177_one_reading _ _ _ _ _ _ _ P P') as (_ & <- & _). exact L34.
Qed.
Print Assumptions C177_hashed_challenge.

(** With hashing off it is the password itself. *)
Theorem C177_plain_challenge : forall E d s sp ch who com h s' h' r hv tv,
  env_ok E -> is_any_ssc d = true -> get_base_com_id d = Ok com -> com < 2 ^ 16 -> numbers s hv tv ->
  wf sp -> List.length sp = 8%nat -> wf who -> List.length who = 8%nat -> wf ch -> 1 <= blen ch <= 400 -> s_nohash s = true ->
  session_start E d s sp ch (AUid who) h = (s', h', r) ->
  exists t packet, h' = h ++ t /\ sends t = [packet] /\ presents packet sp ch who.
Proof.
  intros E d s sp ch who com h s' h' r hv tv HE Hs Hc Hc16 Hn Wsp Lsp Ww Lw Wc Lc Nh H. destruct (uid8_ok who Ww Lw) as [Wu Lu].
  destruct (C27_one_determined_startsession E d s sp ch (AUid who) com h s' h' r hv tv HE Hs Hc Hc16 Hn Wsp Lsp Wc Wu Lu H) as (t & Ht & St).
  rewrite Nh in St. unfold credential_of in St. destruct ch as [|c0 ch0]; [destruct Lc as [Lc _]; exfalso; apply Lc; reflexivity|].
  exists t. eexists. split; [exact Ht|]. split; [exact St|]. apply start_presents; auto.
Qed.
Print Assumptions C177_plain_challenge.

(** So on a drive that checks its PINs, and whose PINs have at most 32 bytes, Start with hashing on never opens a session for that authority. *)
Theorem C177_no_session : forall E d s sp ch who com h s' h' r hv tv pins,
  env_ok E -> is_any_ssc d = true -> get_base_com_id d = Ok com -> com < 2 ^ 16 -> numbers s hv tv ->
  wf sp -> List.length sp = 8%nat -> wf who -> List.length who = 8%nat -> wf ch -> ch <> [] -> s_nohash s = false ->
  guards E d who pins -> opal_pins pins ->
  session_start E d s sp ch (AUid who) h = (s', h', r) -> r <> Ok tt.
Proof.
  intros E d s sp ch who com h s' h' r hv tv pins HE Hs Hc Hc16 Hn Wsp Lsp Ww Lw Wc Nc Nh G O H ->.
  destruct (C177_hashed_challenge E d s sp ch who com h s' h' _ hv tv HE Hs Hc Hc16 Hn Wsp Lsp Ww Lw Wc Nc Nh H) as (t & packet & key & Ht & St & _ & _ & P & L).
  apply (start_ok E d s sp ch (AUid who) com h s' h' HE Hs Hc) in H as (resp & _ & _ & _ & _ & Hsend & _).
  apply (C22_success_means_accepted E d s _ com h h' (Some resp) HE Hc) in Hsend as (resp' & Er & Hx & Acc). injection Er as <-.
  subst h'. specialize (G _ h t resp packet sp _ Hx St Acc P). apply O in G. rewrite (L _ _ _ P) in G. apply G. reflexivity.
Qed.
Print Assumptions C177_no_session.

(** And RevertTPer with a SID password fails, having sent one StartSession and no Revert, whatever the password. *)
Theorem C177_no_revert : forall E d com pw isAdm h h' r pins,
  env_ok E -> is_any_ssc d = true -> get_base_com_id d = Ok com -> com < 2 ^ 16 -> wf pw -> pw <> [] ->
  guards E d uid_SID pins -> opal_pins pins ->
  revert_tper E d pw false isAdm h = (h', r) ->
  r <> Ok tt /\ exists t packet ch, h' = h ++ t /\ sends t = [packet] /\ presents packet uid_AdminSP ch uid_SID /\ blen ch = 34.
Proof.
  intros E d com pw isAdm h h' r pins HE Hs Hc Hc16 Wp Np G O H.
  destruct (C29_revert_only_after_start E d com pw false isAdm h h' r HE Hs Hc Hc16 Wp H) as (s1 & h1 & r1 & H1 & _ & F & _). cbv iota zeta in H1.
  assert (W8 : wf uid_AdminSP /\ wf uid_SID) by (split; repeat (apply wf_cons; split; [reflexivity|]); apply wf_nil).
  pose proof (C177_no_session E d (set_no_hash_password new_session false) uid_AdminSP pw uid_SID com h s1 h1 r1 0 0 pins HE Hs Hc Hc16 ltac:(split; reflexivity) (proj1 W8) eq_refl (proj2 W8) eq_refl Wp Np eq_refl G O H1) as N1.
  destruct (F N1) as [-> ->]. split; [exact N1|].
  destruct (C177_hashed_challenge E d (set_no_hash_password new_session false) uid_AdminSP pw uid_SID com h s1 h1 r1 0 0 HE Hs Hc Hc16 ltac:(split; reflexivity) (proj1 W8) eq_refl (proj2 W8) eq_refl Wp Np eq_refl H1)
    as (t & packet & key & Ht & St & _ & _ & P & L).
  exists t, packet, ([0xD0; 32] ++ key). split; [exact Ht|]. split; [exact St|]. split; [exact P|]. exact (L _ _ _ P).
Qed.
Print Assumptions C177_no_revert.

(** With isPsid the challenge is the password itself. *)
Theorem C177_psid_is_plain : forall E d com pw isAdm h h' r,
  env_ok E -> is_any_ssc d = true -> get_base_com_id d = Ok com -> com < 2 ^ 16 -> wf pw -> 1 <= blen pw <= 400 ->
  revert_tper E d pw true isAdm h = (h', r) ->
  exists t packet others, h' = h ++ t /\ sends t = packet :: others /\ presents packet uid_AdminSP pw uid_PSID.
Proof.
  intros E d com pw isAdm h h' r HE Hs Hc Hc16 Wp Lp H.
  destruct (C29_revert_only_after_start E d com pw true isAdm h h' r HE Hs Hc Hc16 Wp H) as (s1 & h1 & r1 & H1 & _ & F & T). cbv iota zeta in H1.
  assert (W8 : wf uid_AdminSP /\ wf uid_PSID) by (split; repeat (apply wf_cons; split; [reflexivity|]); apply wf_nil).
  destruct (C177_plain_challenge E d (set_no_hash_password new_session true) uid_AdminSP pw uid_PSID com h s1 h1 r1 0 0 HE Hs Hc Hc16 ltac:(split; reflexivity) (proj1 W8) eq_refl (proj2 W8) eq_refl Wp Lp eq_refl H1)
    as (t & packet & Ht & St & P).
  assert (D : r1 = Ok tt \/ r1 <> Ok tt) by (destruct r1 as [[]| | |]; [left; reflexivity|right; discriminate..]).
  destruct D as [D|D].
  - destruct (T D) as (hv & tv & t2 & c & _ & -> & S2 & _). exists (t ++ t2), packet, (sends t2). rewrite Ht, app_assoc. split; [reflexivity|].
    rewrite sends_app, St. auto.
  - destruct (F D) as [-> _]. exists t, packet, []. auto.
Qed.
Print Assumptions C177_psid_is_plain.

(** Authenticate frames its challenge twice in the same way. *)
Theorem C177_authenticate : forall E d s who ch com h h' r hv tv,
  env_ok E -> is_any_ssc d = true -> get_base_com_id d = Ok com -> com < 2 ^ 16 -> numbers s hv tv ->
  wf ch -> wf who -> List.length who = 8%nat -> ch <> [] -> s_nohash s = false ->
  authenticate E d s (uid8 who) ch h = (h', r) ->
  exists t packet key, h' = h ++ t /\ sends t = [packet] /\ key = e_pbkdf2 E (firstn 32 ch) (get_serial d) /\ List.length key = 32%nat
  /\ authenticates packet ([0xD0; 32] ++ key) who
  /\ forall p who', authenticates packet p who' -> blen p = 34.
Proof.
  intros E d s who ch com h h' r hv tv HE Hs Hc Hc16 Hn Wc Ww Lw Nc Nh H. destruct (uid8_ok who Ww Lw) as [Wu Lu].
  destruct (C30_boolean_backwards E d s (uid8 who) ch com h h' r hv tv HE Hs Hc Hc16 Hn Wc Wu Lu H) as (t & _ & Ht & St & _).
  destruct HE as (_ & _ & HK). destruct (HK (firstn 32 ch) (get_serial d)) as [Lk Wk].
  rewrite Nh in St. unfold credential_of in St. destruct ch as [|c0 ch0]; [contradiction|]. set (key := e_pbkdf2 E (firstn 32 (c0 :: ch0)) (get_serial d)) in *.
  exists t, (frame hv tv com (authenticate_payload (uid8 who) (Some ([0xD0; 32] ++ key)))), key. split; [exact Ht|]. split; [exact St|]. split; [reflexivity|]. split; [exact Lk|].
  assert (L34 : blen ([0xD0; 32] ++ key) = 34) by (unfold blen; cbn [app List.length]; rewrite Lk; reflexivity).
  assert (P : authenticates (frame hv tv com (authenticate_payload (uid8 who) (Some ([0xD0; 32] ++ key)))) ([0xD0; 32] ++ key) who).
  { apply authenticate_presents; [exact Lw| |rewrite L34; split; discriminate]. cbn [app]. do 2 (apply wf_cons; split; [reflexivity|]). exact Wk. }
  split; [exact P|]. intros p who' (hd' & a' & rest' & Lh' & Lw' & Ha' & E'). destruct P as (hd & a & rest & Lh & _ & Ha & E0). rewrite E0 in E'.
  apply app_same_length in E' as [_ E']; [|congruence]. cbn [app] in E'. injection E' as E'.
  apply app_same_length in E' as [_ E']; [|congruence]. injection E' as E'.
  destruct (bytes_atom_unique _ _ _ _ _ _ Ha Ha' E') as [<- _]. exact L34.
Qed.
Print Assumptions C177_authenticate.
