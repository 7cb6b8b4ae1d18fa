(** C173, C174: the credential computed from a password. *)
From Verif Require Import Base Spec_Tcg M_TcgToken M_TcgDevice M_TcgSession M_TcgCommand Spec_TcgCommand Spec_TcgSession M_Sha1 Spec_Sha1 P_Sha1.
From Verif Require Import P_TcgSession Prop_TcgSession.

(** C173: whatever the pieces in which a message is written, the digest is SHA-1 of the whole. *)
Theorem C173_sha1_in_pieces : forall ps, Forall wf ps ->
  dg_check_sum (fold_left dg_write ps sha1_new) = Some (SHA1 (concat ps)).
Proof.
  intros ps W.
  assert (G : forall m d, rep d m -> rep (fold_left dg_write ps d) (m ++ concat ps)).
  { clear W. induction ps as [|p ps IH]; intros m d R; cbn [concat fold_left]; [now rewrite app_nil_r|].
    rewrite app_assoc. apply IH. now apply write_rep. }
  rewrite (check_sum_rep _ _ (G [] sha1_new rep_new)). cbn [app]. fold (gosha (concat ps)). f_equal. apply gosha_same.
  clear G. induction W; cbn [concat]; [apply wf_nil|]. rewrite wf_app. auto.
Qed.
Print Assumptions C173_sha1_in_pieces.

(** The keyed hash, after any earlier use, computes HMAC of what is written to it since the reset. *)
Theorem C173_hmac_in_pieces : forall key m used ps, wf key -> Forall wf ps -> hmac_new key = Some m ->
  hmac_sum (fold_left hmac_write ps (hmac_reset (fold_left hmac_write used m))) = Some (HMAC_SHA1 key (concat ps)).
Proof.
  intros key m used ps Wk W E. destruct (new_hrep key) as (m' & E' & K & _). rewrite E in E'. injection E' as <-.
  assert (K' : keyed (fold_left hmac_write used m) key).
  { clear W E. revert m K. induction used as [|u us IH]; intros m K; cbn [fold_left]; [exact K|]. apply IH. exact K. }
  assert (G : forall t d, hrep d key t -> hrep (fold_left hmac_write ps d) key (t ++ concat ps)).
  { clear W. induction ps as [|p ps IH]; intros t d R; cbn [concat fold_left]; [now rewrite app_nil_r|].
    rewrite app_assoc. apply IH. now apply write_hrep. }
  rewrite (sum_hrep _ _ _ (G [] _ (reset_hrep _ _ K'))). f_equal. apply gomac_same; [exact Wk|].
  clear G. cbn [app]. induction W; cbn [concat]; [apply wf_nil|]. rewrite wf_app. auto.
Qed.
Print Assumptions C173_hmac_in_pieces.

(** pbkdf2.Key is PBKDF2 of RFC 8018 for every iteration count and key length. *)
Theorem C173_key : forall password salt iter keyLen, wf password -> wf salt ->
  pbkdf2_key password salt iter keyLen = Some (PBKDF2_HMAC_SHA1 password salt iter keyLen)
  /\ List.length (PBKDF2_HMAC_SHA1 password salt iter keyLen) = keyLen /\ wf (PBKDF2_HMAC_SHA1 password salt iter keyLen).
Proof.
  intros password salt iter keyLen WP WS. split; [now apply key_same|].
  apply PBKDF2_shape. intros k t. split; [apply HMAC_length|apply HMAC_wf].
Qed.
Print Assumptions C173_key.

(** TcgHashPassword: the standard's key, 75000 iterations, the drive's serial number as salt, at most 32 bytes of password. *)
Theorem C173_hash_password : forall serial password, wf serial -> wf password ->
  hash_password serial false password = Ok ([0xD0; 32] ++ PBKDF2_HMAC_SHA1 (firstn 32 password) serial 75000 32) /\
  hash_password serial true password = Ok ([0xD0; blen (firstn 32 password)] ++ firstn 32 password).
Proof.
  intros serial password WS WP. unfold hash_password.
  assert (E : (if (32 <? List.length password)%nat then firstn 32 password else password) = firstn 32 password).
  { destruct (Nat.ltb_spec 32 (List.length password)); [reflexivity|]. symmetry. now apply firstn_all2. }
  rewrite E. split.
  - rewrite key_same by (try apply wf_firstn; assumption).
    destruct (C173_key (firstn 32 password) serial 75000 32) as (_ & L & _); [now apply wf_firstn|exact WS|].
    cbv iota. rewrite L. reflexivity.
  - cbn [app]. rewrite N.mod_small; [reflexivity|]. pose proof (firstn_le_length 32 password). lia.
Qed.
Print Assumptions C173_hash_password.

(** An environment whose key derivation is the real one; only the drive and the memory remain to be assumed. *)
Definition real_env (E : env) : Prop :=
  e_pbkdf2 E = go_pbkdf2 /\ (forall h, wf (snd (e_sec E h))) /\ (forall j, e_heap E j < 256).

Theorem C173_env_ok : forall E, real_env E -> env_ok E.
Proof.
  intros E (K & S & H). repeat split; auto; rewrite K; apply go_pbkdf2_shape.
Qed.
Print Assumptions C173_env_ok.

Lemma go_pbkdf2_std p s : wf p -> wf s -> go_pbkdf2 p s = PBKDF2_HMAC_SHA1 p s 75000 32.
Proof. intros WP WS. unfold go_pbkdf2. now rewrite key_same. Qed.

(** What the model of the session code computes is what TcgHashPassword returns. *)
Theorem C173_session_uses_it : forall E serial nohash password, real_env E ->
  hash_password serial nohash password = Ok (tcg_hash_password (e_pbkdf2 E) serial nohash password).
Proof.
  intros E serial nohash password (K & _). rewrite K. unfold hash_password, tcg_hash_password. destruct nohash; [reflexivity|].
  unfold go_pbkdf2. rewrite key_go. reflexivity.
Qed.
Print Assumptions C173_session_uses_it.

(** The credential in a StartSession or Authenticate frame, in terms of the standards. *)
Definition standard_credential (serial : bytes) (nohash : bool) (password : bytes) : option bytes :=
  match password with
  | [] => None
  | _ => Some (if nohash then password else [0xD0; 32] ++ PBKDF2_HMAC_SHA1 (firstn 32 password) serial 75000 32)
  end.

Lemma credential_std serial nohash password : wf serial -> wf password ->
  credential_of go_pbkdf2 serial nohash password = standard_credential serial nohash password.
Proof.
  intros WS WP. destruct password as [|b p]; [reflexivity|]. unfold credential_of, standard_credential. destruct nohash; [reflexivity|].
  rewrite go_pbkdf2_std by (try apply wf_firstn; assumption). reflexivity.
Qed.

Theorem C173_start_session : forall E d s sp ch a com h s' h' r hv tv,
  real_env E -> is_any_ssc d = true -> get_base_com_id d = Ok com -> com < 2 ^ 16 -> numbers s hv tv ->
  wf sp -> List.length sp = 8%nat -> wf ch -> wf (get_serial d) ->
  let auth := match a with AUid u => uid8 u | ABuf b => b | ANil => [] end in
  wf auth -> blen auth <= 50000 ->
  session_start E d s sp ch a h = (s', h', r) ->
  exists t, h' = h ++ t /\
    sends t = [frame hv tv com (start_payload sp (standard_credential (get_serial d) (s_nohash s) ch) auth)].
Proof.
  intros E d s sp ch a com h s' h' r hv tv HE Hs Hc Hc16 Hn Ws Ls Wc Wd auth Wa La H.
  rewrite <- (credential_std _ _ _ Wd Wc). rewrite <- (proj1 HE).
  apply (C27_one_determined_startsession E d s sp ch a com h s' h' r hv tv); auto. now apply C173_env_ok.
Qed.
Print Assumptions C173_start_session.

Theorem C173_authenticate : forall E d s auth ch com h h' r hv tv,
  real_env E -> is_any_ssc d = true -> get_base_com_id d = Ok com -> com < 2 ^ 16 -> numbers s hv tv ->
  wf ch -> wf (get_serial d) -> wf auth -> blen auth <= 50000 ->
  authenticate E d s auth ch h = (h', r) ->
  exists t, h' = h ++ t /\ sends t = [frame hv tv com (authenticate_payload auth (standard_credential (get_serial d) (s_nohash s) ch))].
Proof.
  intros E d s auth ch com h h' r hv tv HE Hs Hc Hc16 Hn Wc Wd Wa La H.
  destruct (C30_boolean_backwards E d s auth ch com h h' r hv tv (C173_env_ok E HE) Hs Hc Hc16 Hn Wc Wa La H) as (t & c & Et & St & _).
  exists t. split; [exact Et|]. rewrite St. rewrite (proj1 HE). rewrite (credential_std _ _ _ Wd Wc). reflexivity.
Qed.
Print Assumptions C173_authenticate.

Theorem C173_revert : forall E d com pw isPsid isAdm h h' r,
  real_env E -> is_any_ssc d = true -> get_base_com_id d = Ok com -> com < 2 ^ 16 -> wf pw -> wf (get_serial d) ->
  revert_tper E d pw isPsid isAdm h = (h', r) ->
  exists t rest, h' = h ++ t /\
    sends t = frame 0 0 com (start_payload uid_AdminSP (standard_credential (get_serial d) isPsid pw)
                               (uid8 (if isPsid then uid_PSID else uid_SID))) :: rest /\ (List.length rest <= 1)%nat.
Proof.
  intros E d com pw isPsid isAdm h h' r HE Hs Hc Hc16 Wp Wd H.
  pose proof (C29_revert_only_after_start E d com pw isPsid isAdm h h' r (C173_env_ok E HE) Hs Hc Hc16 Wp H) as G. cbv zeta in G.
  destruct G as (s1 & h1 & r1 & _ & (t1 & E1 & S1) & Gn & Gy).
  rewrite (proj1 HE), (credential_std _ _ _ Wd Wp) in S1.
  assert (D : r1 = Ok tt \/ r1 <> Ok tt) by (destruct r1 as [[]| | |]; auto; right; discriminate).
  destruct D as [D|D].
  - destruct (Gy D) as (hv & tv & t2 & c & _ & E2 & S2 & _).
    exists (t1 ++ t2), [frame hv tv com revert_payload]. split; [rewrite E2, E1; now rewrite app_assoc|]. split; [|cbn; lia].
    assert (SA : forall x y, sends (x ++ y) = sends x ++ sends y).
    { clear. induction x as [|e x IH]; intros y; [reflexivity|]. destruct e as [ | | w]; cbn [app sends]; auto. destruct w; cbn [app]; now rewrite IH. }
    rewrite SA, S1, S2. reflexivity.
  - destruct (Gn D) as (-> & _). exists t1, []. split; [exact E1|]. split; [exact S1|cbn; lia].
Qed.
Print Assumptions C173_revert.

(** C174: NUL bytes at the end of a password do not count: two passwords whose first 32 bytes, filled up with NULs, agree
    open the same sessions, with the same commands sent and the same results. *)
Theorem C174_trailing_nul : forall E d p q, real_env E -> p <> [] -> q <> [] ->
  firstn 32 p ++ zeros (32 - List.length p) = firstn 32 q ++ zeros (32 - List.length q) ->
  hash_password (get_serial d) false p = hash_password (get_serial d) false q /\
  (forall s sp a h, s_nohash s = false -> session_start E d s sp p a h = session_start E d s sp q a h) /\
  (forall s auth h, s_nohash s = false -> authenticate E d s auth p h = authenticate E d s auth q h) /\
  (forall adm h, revert_tper E d p false adm h = revert_tper E d q false adm h).
Proof.
  intros E d p q HE Hp Hq Hpq.
  assert (K : e_pbkdf2 E (firstn 32 p) (get_serial d) = e_pbkdf2 E (firstn 32 q) (get_serial d)).
  { rewrite (proj1 HE). apply go_pbkdf2_zeros; [rewrite firstn_length; lia|rewrite firstn_length; lia|].
    rewrite !firstn_length. replace (32 - Nat.min 32 (List.length p))%nat with (32 - List.length p)%nat by lia.
    replace (32 - Nat.min 32 (List.length q))%nat with (32 - List.length q)%nat by lia. exact Hpq. }
  split; [|exact (C28_only_the_derived_key_matters E d p q Hp Hq K)].
  rewrite !(C173_session_uses_it E) by exact HE. f_equal. unfold tcg_hash_password.
  assert (F : forall x : bytes, (if (32 <? List.length x)%nat then firstn 32 x else x) = firstn 32 x).
  { intros x. destruct (Nat.ltb_spec 32 (List.length x)); [reflexivity|]. symmetry. now apply firstn_all2. }
  rewrite !F. cbv zeta iota. now rewrite K.
Qed.
Print Assumptions C174_trailing_nul.
