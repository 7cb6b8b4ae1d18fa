(** Property theorems C126-C128: devices without an SSC, table reads, and what is not checked about an answer. *)
From Verif Require Import Base Spec_Tcg M_TcgToken M_Buffer M_TcgCommand M_TcgDevice M_TcgSession M_TcgTables Spec_TcgCommand Spec_TcgClient
  Spec_TcgSession P_TcgToken P_TcgCommand P_TcgComplete P_TcgProps P_TcgDevice P_TcgSession Spec_TcgTrust P_TcgTrust.

(** C126.  A drive without Opal or Enterprise features refuses every operation, and no security command is issued. *)
Theorem C126_generic_device : forall E d, get_device_type d = 1 ->
  no_io [EvNow] /\
  (forall pw ps ad h, revert_tper E d pw ps ad h = (h, Err (EMsg "not supported"))) /\
  (forall h, get_default_password E d h = (h, Err (EMsg "not supported"))) /\
  (forall d' s tb a b h, device_get_table E d d' s tb a b h = (h, Ok (None, Some (EMsg "not supported")))) /\
  (forall c proto h, exec E d c proto h = (h ++ [EvNow], Ok (None, Some (EMsg "not supported")))) /\
  (forall s c h, send_command E d s c h = (h ++ [EvNow], Ok (None, Some (EMsg "not supported")))) /\
  (forall s sp ch a h, session_start E d s sp ch a h = (s, h ++ [EvNow], Err (EMsg "not supported"))) /\
  (forall s a ch h, authenticate E d s a ch h = (h ++ [EvNow], Err (EMsg "not supported"))).
Proof.
  intros E d Hk. split; [split; reflexivity|].
  assert (K : d_kind d = KGeneric) by (unfold get_device_type in Hk; destruct (d_kind d); try discriminate; reflexivity).
  assert (Hs : is_any_ssc d = false) by (unfold is_any_ssc; now rewrite K).
  assert (Hc : get_base_com_id d = Ok 0) by (unfold get_base_com_id, feature_be16; now rewrite K).
  assert (S : forall s c h, send_command E d s c h = (h ++ [EvNow], Ok (None, Some (EMsg "not supported"))))
    by (intros; eapply send_not_ssc; eassumption).
  repeat split; intros; auto.
  - unfold revert_tper. now rewrite K.
  - unfold get_default_password. now rewrite K.
  - unfold device_get_table. now rewrite K.
  - now apply c19_none.
  - unfold session_start. now rewrite S.
  - unfold authenticate. now rewrite S.
Qed.
Print Assumptions C126_generic_device.

(** C127.  Reading a table: one Get method call naming the table and the columns, numbered by OpalGetTable and named by EnterpriseGetTable;
    the response is returned exactly when the drive accepts the call. *)
Theorem C127_get_table : forall E p d s table a b com h h' r hv tv,
  In (get_device_type p) [2; 3] ->
  env_ok E -> is_any_ssc d = true -> get_base_com_id d = Ok com -> com < 2 ^ 16 -> numbers s hv tv ->
  wf table -> blen table <= 50000 -> a < 2 ^ 16 -> b < 2 ^ 16 ->
  device_get_table E p d s table a b h = (h', r) ->
  exists t x, h' = h ++ t /\ sends t = [frame hv tv com (get_payload table a b)] /\ cmd_slice x = frame hv tv com (get_payload table a b)
  /\ (forall o, r = Ok (o, None) <-> exists resp, o = Some resp /\ exec E d x 1 h = (h', Ok (Some resp, None)) /\ accepted resp).
Proof.
  intros E p d s table a b com h h' r hv tv Hp HE Hs Hc Hc16 Hn Wt Lt Ha Hb H.
  assert (X : device_get_table E p d s table a b h = send_command E d s (get_table_command table a b) h)
    by (unfold device_get_table, opal_get_table; unfold get_device_type in Hp; destruct (d_kind p); cbn in Hp; try reflexivity; exfalso; lia).
  rewrite X in H. apply (send_get E d s (get_table_command table a b) com _ h _ r hv tv HE Hs Hc Hc16 Hn); [now apply get_framed|exact H].
Qed.
Print Assumptions C127_get_table.

(** EnterpriseGetTable given a session of an Opal drive. *)
Theorem C127_get_table_by_name : forall E d s table a b com h h' r hv tv,
  env_ok E -> is_any_ssc d = true -> get_base_com_id d = Ok com -> com < 2 ^ 16 -> numbers s hv tv ->
  wf table -> blen table <= 50000 -> wf a -> wf b ->
  ent_get_table E d s table a b h = (h', r) ->
  exists t x, h' = h ++ t /\ sends t = [frame hv tv com (named_get_payload table a b)]
  /\ cmd_slice x = frame hv tv com (named_get_payload table a b)
  /\ (forall o, r = Ok (o, None) <-> exists resp, o = Some resp /\ exec E d x 1 h = (h', Ok (Some resp, None)) /\ accepted resp).
Proof.
  intros E d s table a b com h h' r hv tv HE Hs Hc Hc16 Hn Wt Lt Wa Wb H. unfold ent_get_table in H.
  apply (send_get E d s (ent_get_table_command table a b) com _ h _ r hv tv HE Hs Hc Hc16 Hn); [now apply named_get_framed|exact H].
Qed.
Print Assumptions C127_get_table_by_name.

(** OpalGetTable of a device that is not Opal refuses, whatever the session. *)
Theorem C127_wrong_receiver : forall E p d s table a b h, ~ In (get_device_type p) [2; 3] ->
  device_get_table E p d s table a b h = (h, Ok (None, Some (EMsg "not supported"))).
Proof.
  intros E p d s table a b h Hp. unfold device_get_table. unfold get_device_type in Hp.
  destruct (d_kind p); auto; exfalso; apply Hp; cbn; auto.
Qed.
Print Assumptions C127_wrong_receiver.

(** C128.  Nothing in an answer that says which ComID, session, packet or acknowledgement it belongs to is looked at: readdress every answer
    and every operation does the same and returns the same. *)
Theorem C128_addressing_ignored : forall E E' d, readdressed E E' ->
  (forall s c h h1 r1 h2 r2, send_command E d s c h = (h1, r1) -> send_command E' d s c h = (h2, r2) ->
     h1 = h2 /\ (r1 = Panic <-> r2 = Panic) /\
     forall o e, r1 = Ok (o, e) -> exists o', r2 = Ok (o', e) /\ same_response o o') /\
  (forall s sp ch a h, session_start E d s sp ch a h = session_start E' d s sp ch a h) /\
  (forall s auth ch h, authenticate E d s auth ch h = authenticate E' d s auth ch h) /\
  (forall pw ps ad h, revert_tper E d pw ps ad h = revert_tper E' d pw ps ad h) /\
  (forall h, get_default_password E d h = get_default_password E' d h).
Proof.
  intros E E' d H.
  assert (ST : forall s sp ch a h, session_start E d s sp ch a h = session_start E' d s sp ch a h) by (intros; now apply start_same).
  assert (OE : forall s c h, (let (h2, r) := send_command E d s c h in (h2, only_err r)) = (let (h2, r) := send_command E' d s c h in (h2, only_err r))).
  { intros s c h. destruct (send_same E E' d s c h H) as [A B].
    destruct (send_command E d s c h) as [h1 r1], (send_command E' d s c h) as [h2 r2]. cbn [fst snd] in A, B. subst h2.
    destruct r1 as [[o e]|e| |], r2 as [[o' e']|e'| |]; try contradiction; auto; [|now subst]. destruct B as [-> B].
    destruct e', o, o'; try contradiction; reflexivity. }
  assert (FP : forall s c h, finish_password (send_command E d s c h) = finish_password (send_command E' d s c h)).
  { intros s c h. destruct (send_same E E' d s c h H) as [A B].
    destruct (send_command E d s c h) as [h1 r1], (send_command E' d s c h) as [h2 r2]. cbn [fst snd] in A, B. subst h2.
    destruct r1 as [[o e]|e| |], r2 as [[o' e']|e'| |]; try contradiction; auto; [|now subst]. destruct B as [-> B].
    destruct e' as [e|], o as [x|], o' as [y|]; try contradiction; try reflexivity.
    cbn [finish_password]. destruct B as [T _]. unfold get_token, get_token_count. rewrite T. reflexivity. }
  split; [|split; [exact ST|split; [|split]]].
  - intros s c h h1 r1 h2 r2 H1 H2. destruct (send_same E E' d s c h H) as [A B]. rewrite H1, H2 in A, B. cbn [fst snd] in A, B.
    split; [exact A|]. split.
    + destruct r1 as [[o e]|e| |], r2 as [[o' e']|e'| |]; try contradiction; split; intros; try discriminate; reflexivity.
    + intros o e ->. destruct r2 as [[o' e']|e'| |]; try contradiction. destruct B as [-> B]. eauto.
  - intros. now apply (start_same E E' d s [] ch ANil h).
  - intros pw ps ad h. unfold revert_tper, opal_revert_tper, ent_revert_tper. cbv zeta. destruct (d_kind d); try reflexivity; rewrite ST;
      (destruct (session_start E' d _ _ _ _ h) as [[s1 h1] [u|e| |]]; try reflexivity; apply OE).
  - intros h. unfold get_default_password, opal_get_default_password, ent_get_default_password, opal_get_table, ent_get_table.
    destruct (d_kind d); try reflexivity; rewrite ST;
      (destruct (session_start E' d _ _ _ _ h) as [[s1 h1] [u|e| |]]; try reflexivity; apply FP).
Qed.
Print Assumptions C128_addressing_ignored.
