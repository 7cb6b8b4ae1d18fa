(** Property theorems C135-C136: TCG operations come to an end, and when they end the program. *)
From Verif Require Import Base Spec_Tcg M_TcgToken M_Buffer M_TcgCommand M_TcgDevice M_TcgSession Spec_TcgCommand Spec_TcgClient
  Spec_TcgSession P_TcgToken P_TcgDevice P_TcgSession P_TcgOnDrive.

(** [n] commands at most, [n] times 402 receives at most, [n] times 10.05 seconds of sleep at most. *)
Definition within (n : nat) (h h' : hist) : Prop :=
  exists t, h' = h ++ t /\ (List.length (sends t) <= n)%nat /\ (receives t <= n * 402)%nat /\ slept t <= N.of_nat n * 10050000000.

Lemma exec_within E d c com h h' r : env_ok E -> timely E -> (402 <= e_fuel E)%nat -> is_any_ssc d = true -> get_base_com_id d = Ok com ->
  exec E d c 1 h = (h', r) -> within 1 h h' /\ r <> Fuel /\ r <> Panic.
Proof.
  intros HE HT HF Hs Hc H. destruct (c20 E d c 1 com h h' r HE HT HF (fun _ => Hc) H) as (A & B & t & -> & R & S).
  split; [|auto]. exists t. split; [reflexivity|]. split; [exact S|]. split; [lia|].
  destruct (exec_cases E d c com h _ r HE Hs Hc H) as (k & t' & Et & Io & _). apply app_inv_head in Et. subst t'.
  unfold io_tail in Io. pose proof Io as Io2. apply io_tail_receives in Io2. rewrite Io, slept_app, slept_rounds. cbn [slept]. lia.
Qed.

Lemma within_trans a b h h1 h' : within a h h1 -> within b h1 h' -> within (a + b) h h'.
Proof.
  intros (t1 & -> & A1 & A2 & A3) (t2 & -> & B1 & B2 & B3). exists (t1 ++ t2). rewrite app_assoc. split; [reflexivity|].
  rewrite sends_app, app_length, slept_app, receives_app. repeat split; lia.
Qed.
Lemma within_refl h : within 0 h h.
Proof. exists []. rewrite app_nil_r. repeat split; cbn; lia. Qed.
Lemma within_le a b h h' : within a h h' -> (a <= b)%nat -> within b h h'.
Proof. intros (t & -> & A & B & C) L. exists t. repeat split; [lia|nia|nia]. Qed.

Lemma send_within E d s c com h h' r : env_ok E -> timely E -> (402 <= e_fuel E)%nat -> is_any_ssc d = true -> get_base_com_id d = Ok com ->
  send_command E d s c h = (h', r) -> within 1 h h' /\ r <> Fuel.
Proof.
  intros HE HT HF Hs Hc H. rewrite (send_unfold E d s c com h Hc) in H.
  destruct (exec E d (stamp s com c) 1 h) as [h1 x] eqn:Ex. destruct (exec_within E d _ com h h1 x HE HT HF Hs Hc Ex) as (W & NF & NP).
  destruct x as [[[resp|] [e|]]|e| |]; try (injection H as <- <-; split; [exact W|congruence]).
  injection H as <- <-. split; [exact W|]. pose proof (exec_tokens_ok E d _ com h h1 resp HE Hc Ex) as Ht.
  destruct (accepted_cases resp Ht) as (_ & _ & [(e & C)|C]); rewrite C; discriminate.
Qed.

Lemma get_token_total resp (i : Z) : (0 <= i)%Z -> exists o, get_token resp i = Ok o /\ (tokens_ok resp -> forall t, o = Some t -> t <> [] /\ wf t).
Proof.
  intros Hi. rewrite <- (Z2Nat.id i Hi), get_token_nat. eexists. split; [reflexivity|]. intros Ht t E0.
  apply nth_error_In in E0. unfold tokens_ok in Ht. rewrite Forall_forall in Ht. now apply Ht.
Qed.

(** Start adds nothing to SendCommand but reading two numbers. *)
Lemma start_shape E d s sp ch a com h s' h' r : env_ok E -> is_any_ssc d = true -> get_base_com_id d = Ok com ->
  session_start E d s sp ch a h = (s', h', r) ->
  exists x, send_command E d s (start_command E d s sp ch (authority_bytes a)) h = (h', x)
  /\ (r = Panic <-> x = Panic) /\ (r = Fuel <-> x = Fuel).
Proof.
  intros HE Hs Hc H. rewrite start_unfold in H by exact Hs.
  destruct (send_command E d s (start_command E d s sp ch (authority_bytes a)) h) as [h1 x] eqn:Ex.
  destruct x as [[[resp|] [e|]]|e| |]; try (injection H as <- <- <-; eexists; (split; [reflexivity|]); split; split; congruence).
  - apply (c22 E d s _ com h h1 _ HE Hc) in Ex as (r0 & [= <-] & Ex & _). pose proof (exec_tokens_ok E d _ com h h1 resp HE Hc Ex) as Ht.
    destruct (get_token_total resp 4 ltac:(lia)) as (o4 & E4 & T4). destruct (get_token_total resp 5 ltac:(lia)) as (o5 & E5 & T5).
    rewrite E4, E5 in H. destruct o4 as [t4|], o5 as [t5|]; try (injection H as <- <- <-; eexists; (split; [reflexivity|]); split; split; discriminate).
    destruct (T4 Ht t4 eq_refl) as [n4 w4]. destruct (T5 Ht t5 eq_refl) as [n5 w5].
    rewrite get_uint32_unsigned in H by assumption. rewrite (get_uint32_unsigned t5) in H by assumption.
    destruct (unsigned_value t4), (unsigned_value t5); injection H as <- <- <-; eexists; (split; [reflexivity|]); split; split; discriminate.
  - exfalso. apply (c22 E d s _ com h h1 _ HE Hc) in Ex as (r0 & X & _). discriminate.
Qed.

Lemma auth_shape E d s au ch com h h' r : env_ok E -> is_any_ssc d = true -> get_base_com_id d = Ok com ->
  authenticate E d s au ch h = (h', r) ->
  exists x, send_command E d s (authenticate_command E d s au ch) h = (h', x) /\ (r = Panic <-> x = Panic) /\ (r = Fuel <-> x = Fuel).
Proof.
  intros HE Hs Hc H. unfold authenticate in H.
  destruct (send_command E d s (authenticate_command E d s au ch) h) as [h1 x] eqn:Ex.
  destruct x as [[[resp|] [e|]]|e| |]; try (injection H as <- <-; eexists; (split; [reflexivity|]); split; split; congruence).
  - apply (c22 E d s _ com h h1 _ HE Hc) in Ex as (r0 & [= <-] & Ex & _). pose proof (exec_tokens_ok E d _ com h h1 resp HE Hc Ex) as Ht.
    destruct (get_token_total resp 1 ltac:(lia)) as (o & E1 & T1). rewrite E1 in H. injection H as <- <-.
    eexists. split; [reflexivity|]. destruct o as [t|]; [|split; split; discriminate]. destruct (T1 Ht t eq_refl) as [n1 w1].
    rewrite get_uint8_unsigned by assumption. destruct (unsigned_value t) as [v|]; [destruct (negb _)|]; split; split; discriminate.
  - exfalso. apply (c22 E d s _ com h h1 _ HE Hc) in Ex as (r0 & X & _). discriminate.
Qed.

(** GetString never looks beyond a token of a response. *)
Lemma mem_slice_length m c n : List.length (mem_slice m c n) = N.to_nat n.
Proof. unfold mem_slice. now rewrite map_length, seq_length. Qed.
Lemma tiled_strings m cur e all : (forall j, m j < 256) -> tiled m cur e all -> Forall (fun t => get_string t <> Panic /\ get_string t <> Fuel) all.
Proof.
  intros Hm H. induction H as [|cur e rest L H IH]; constructor; [|exact IH]. set (n := atom_extent m cur).
  assert (Ln : List.length (mem_slice m cur n) = N.to_nat n) by apply mem_slice_length.
  destruct (mem_slice m cur n) as [|b d] eqn:Em. { unfold n in Ln. pose proof (atom_extent_pos m cur). cbn in Ln. lia. }
  assert (Eb : b = m cur).
  { unfold mem_slice in Em. pose proof (atom_extent_pos m cur) as P. destruct (N.to_nat n) as [|k] eqn:En; [unfold n in En; lia|].
    cbn [seq map] in Em. injection Em as <- _. f_equal. lia. }
  assert (Hb : b < 256) by (rewrite Eb; apply Hm).
  rewrite get_string_spec by exact Hb. unfold n, atom_extent in Ln. rewrite <- Eb in Ln. cbn [List.length] in Ln.
  destruct (b <? 0x80); [split; discriminate|]. destruct (b <? 0xC0); [split; discriminate|].
  destruct (b <? 0xE0); [|destruct (b <? 0xF0); [|split; discriminate]].
  - destruct d as [|x d]; [cbn in Ln; lia|split; discriminate].
  - destruct d as [|x [|y [|z d]]]; [cbn in Ln; lia|cbn in Ln; lia|cbn in Ln; lia|split; discriminate].
Qed.
Lemma exec_strings E d c com h h' resp tok : env_ok E -> is_any_ssc d = true -> get_base_com_id d = Ok com ->
  exec E d c 1 h = (h', Ok (Some resp, None)) -> In tok (r_tokens resp) -> get_string tok <> Panic /\ get_string tok <> Fuel.
Proof.
  intros HE Hs Hc H Hi. destruct (c19 E d c 1 com h h' _ HE Hs Hc H) as [A B]. cbv zeta in A, B.
  set (h1 := h ++ [EvNow; EvSec true false 1 com (cmd_slice c) 5]) in *.
  destruct (fst (e_sec E h1)) as [e|] eqn:Ee; [destruct (A e eq_refl) as [_ X]; discriminate|].
  destruct (B eq_refl) as [(X & _)|(k & _ & _ & _ & R)]; [discriminate|].
  destruct (answer E 1 com h1 (k - 1)) as [[x|] b] eqn:Ea; [discriminate|].
  assert (Hw : wf b). { destruct HE as [HE _]. specialize (HE (h1 ++ rounds 1 com (S (k - 1)))). unfold answer in Ea. rewrite Ea in HE. exact HE. }
  destruct R as [[_ R]|(_ & _ & [(_ & all & T & R)|(_ & R)])]; try discriminate. injection R as ->. cbn [r_tokens] in Hi.
  apply filter_In in Hi as [Hi _]. apply tiled_strings in T.
  - rewrite Forall_forall in T. now apply T.
  - apply memory_byte; [|apply HE]. unfold received. apply wf_app. split; [now apply wf_firstn|apply wf_zeros].
Qed.

Definition timed (E : env) : Prop := timely E /\ (402 <= e_fuel E)%nat.

(** C135: whatever the drive answers, every operation ends.  (No result is [Fuel]: the model's bound on poll rounds is never the reason.) *)
Theorem C135_operations_end : forall E d com, env_ok E -> timed E -> is_any_ssc d = true -> get_base_com_id d = Ok com ->
  (forall s c h h' r, send_command E d s c h = (h', r) -> within 1 h h' /\ r <> Fuel) /\
  (forall s sp ch a h s' h' r, session_start E d s sp ch a h = (s', h', r) -> within 1 h h' /\ r <> Fuel) /\
  (forall s au ch h h' r, authenticate E d s au ch h = (h', r) -> within 1 h h' /\ r <> Fuel) /\
  (forall pw isPsid isAdm h h' r, revert_tper E d pw isPsid isAdm h = (h', r) -> within 2 h h' /\ r <> Fuel) /\
  (forall h h' r, get_default_password E d h = (h', r) -> within 2 h h' /\ r <> Fuel).
Proof.
  intros E d com HE [HT HF] Hs Hc.
  assert (S1 : forall s c h h' r, send_command E d s c h = (h', r) -> within 1 h h' /\ r <> Fuel) by (intros; eapply send_within; eauto).
  assert (S2 : forall s sp ch a h s' h' r, session_start E d s sp ch a h = (s', h', r) -> within 1 h h' /\ r <> Fuel).
  { intros s sp ch a h s' h' r H. destruct (start_shape E d s sp ch a com h s' h' r HE Hs Hc H) as (x & Ex & _ & F).
    apply S1 in Ex as [W NF]. split; [exact W|tauto]. }
  split; [exact S1|]. split; [exact S2|]. split.
  { intros s au ch h h' r H. destruct (auth_shape E d s au ch com h h' r HE Hs Hc H) as (x & Ex & _ & F).
    apply S1 in Ex as [W NF]. split; [exact W|tauto]. }
  split.
  - intros pw isPsid isAdm h h' r H.
    assert (Hd : revert_tper E d pw isPsid isAdm h = opal_revert_tper E d pw isPsid h).
    { unfold revert_tper. destruct (opal_kind d Hs) as [-> | ->]; reflexivity. }
    rewrite Hd in H. unfold opal_revert_tper in H.
    destruct (session_start E d _ _ pw _ h) as [[s1 h1] r1] eqn:Es. apply S2 in Es as [W NF].
    destruct r1 as [u|e| |]; try (injection H as <- <-; split; [eapply within_le; [exact W|lia]|congruence]).
    destruct (send_command E d s1 revert_command h1) as [h2 x] eqn:Ex. injection H as <- <-. apply S1 in Ex as [W2 NF2].
    split; [exact (within_trans 1 1 _ _ _ W W2)|]. destruct x as [[o [e|]]|e| |]; cbn; congruence.
  - intros h h' r H.
    assert (Hd : get_default_password E d h = opal_get_default_password E d h).
    { unfold get_default_password. destruct (opal_kind d Hs) as [-> | ->]; reflexivity. }
    rewrite Hd in H. unfold opal_get_default_password in H.
    destruct (session_start E d _ _ [] _ h) as [[s1 h1] r1] eqn:Es. apply S2 in Es as [W NF].
    destruct r1 as [u|e| |]; try (injection H as <- <-; split; [eapply within_le; [exact W|lia]|congruence]).
    unfold opal_get_table in H. destruct (send_command E d s1 _ h1) as [h2 x] eqn:Ex. pose proof (S1 _ _ _ _ _ Ex) as [W2 NF2].
    pose proof (within_trans 1 1 _ _ _ W W2) as W3.
    destruct x as [[[resp|] [e|]]|e| |]; cbn [finish_password] in H; try (injection H as <- <-; split; [exact W3|congruence]).
    apply (c22 E d s1 _ com h1 h2 _ HE Hc) in Ex as (r0 & [= <-] & Ex & _).
    change 4%Z with (Z.of_nat 4) in H. rewrite get_token_nat in H. remember (nth_error (r_tokens resp) 4) as ot eqn:Et. injection H as <- <-. split; [exact W3|].
    symmetry in Et. destruct ot as [tok|]; [|congruence]. apply nth_error_In in Et.
    now apply (exec_strings E d _ com h1 h2 resp tok HE Hs Hc Ex Et).
Qed.
Print Assumptions C135_operations_end.

(** ---- C136 ---- *)

(** An answer with a payload of one to four tokens, the first of which is not "end of session". *)
Definition short_answer (resp : response) : Prop :=
  has_payload (r_buf resp) /\ (1 <= List.length (r_tokens resp) <= 4)%nat /\ ~ is_eos (r_tokens resp).
(** The command [sent] was answered like that. *)
Definition answered_short (E : env) (d : device) (sent : bytes) (h h' : hist) : Prop :=
  exists c resp, cmd_slice c = sent /\ exec E d c 1 h = (h', Ok (Some resp, None)) /\ short_answer resp.

Lemma exec_slice E d c c' proto h : cmd_slice c = cmd_slice c' -> exec E d c proto h = exec E d c' proto h.
Proof. intros H. unfold exec. now rewrite H. Qed.
Lemma short_panics resp : tokens_ok resp -> (check_response resp = Panic <-> short_answer resp).
Proof.
  intros Ht. destruct (check_response_cases resp Ht) as (A & _). destruct (accepted_cases resp Ht) as (_ & B & _). unfold short_answer.
  assert (Dec : has_payload (r_buf resp) \/ ~ has_payload (r_buf resp)).
  { rewrite has_payload_iff. destruct (_ || _); [right; discriminate|now left]. }
  destruct Dec as [P|P]; [rewrite (B P); tauto|]. rewrite (A P). split; [discriminate|tauto].
Qed.
Lemma send_panics E d s c com h h' : env_ok E -> is_any_ssc d = true -> get_base_com_id d = Ok com ->
  (send_command E d s c h = (h', Panic) <-> answered_short E d (cmd_slice (stamp s com c)) h h').
Proof.
  intros HE Hs Hc. rewrite (send_unfold E d s c com h Hc). unfold answered_short. split.
  - destruct (exec E d (stamp s com c) 1 h) as [h1 x] eqn:Ex.
    destruct (exec_cases E d _ com h h1 x HE Hs Hc Ex) as (k & t & _ & _ & [(o & e & ->)|[->|(resp & b & -> & _ & _ & Ht)]]).
    + destruct o; discriminate.
    + discriminate.
    + intros X. injection X as <- X. apply short_panics in X; [|exact Ht]. exists (stamp s com c), resp. auto.
  - intros (c' & resp & Ec & Ex & Sh). rewrite (exec_slice E d _ c' 1 h (eq_sym Ec)), Ex.
    apply short_panics in Sh; [now rewrite Sh|]. exact (exec_tokens_ok E d _ com h h' resp HE Hc Ex).
Qed.

(** C136: these are the only answers that end the program. *)
Theorem C136_when_a_drive_crashes_it : forall E d com, env_ok E -> is_any_ssc d = true -> get_base_com_id d = Ok com -> com < 2 ^ 16 ->
  (forall s c h h', send_command E d s c h = (h', Panic) <->
     answered_short E d (firstn (N.to_nat (get_cmd_size c)) (a_data (set_com_id (set_tsn (set_hsn c (s_hsn s mod 2 ^ 32)) (s_tsn s mod 2 ^ 32)) com))) h h') /\
  (forall s au ch h h' hv tv, numbers s hv tv -> wf ch -> wf au -> blen au <= 50000 ->
     (authenticate E d s au ch h = (h', Panic) <->
      answered_short E d (frame hv tv com (authenticate_payload au (credential_of (e_pbkdf2 E) (get_serial d) (s_nohash s) ch))) h h')) /\
  (forall pw isPsid isAdm h h', wf pw ->
     let s0 := set_no_hash_password new_session isPsid in
     let uid := if isPsid then uid_PSID else uid_SID in
     (revert_tper E d pw isPsid isAdm h = (h', Panic) <->
      answered_short E d (frame 0 0 com (start_payload uid_AdminSP (credential_of (e_pbkdf2 E) (get_serial d) isPsid pw) (uid8 uid))) h h'
      \/ exists s1 h1 hv tv, session_start E d s0 uid_AdminSP pw (AUid uid) h = (s1, h1, Ok tt) /\ numbers s1 hv tv
           /\ answered_short E d (frame hv tv com revert_payload) h1 h')) /\
  (forall h h',
     (get_default_password E d h = (h', Panic) <->
      answered_short E d (frame 0 0 com (start_payload uid_AdminSP None [])) h h'
      \/ exists s1 h1 hv tv, session_start E d new_session uid_AdminSP [] (AUid (repeat 255 8)) h = (s1, h1, Ok tt) /\ numbers s1 hv tv
           /\ answered_short E d (frame hv tv com (get_payload (uid8 uid_C_PIN_MSID) 3 3)) h1 h')).
Proof.
  intros E d com HE Hs Hc Hc16. split; [|split; [|split]].
  - intros s c h h'. exact (send_panics E d s c com h h' HE Hs Hc).
  - intros s au ch h h' hv tv Hn Wc Wa La. rewrite <- (auth_framed E d s ch au hv tv com HE Hs Hn Hc16) by assumption.
    rewrite <- (send_panics E d s _ com h h' HE Hs Hc). split; intros H.
    + destruct (auth_shape E d s au ch com h h' _ HE Hs Hc H) as (x & Ex & [P _] & _). now rewrite (P eq_refl) in Ex.
    + unfold authenticate. now rewrite H.
  - intros pw isPsid isAdm h h' Wp s0 uid.
    assert (Hd : revert_tper E d pw isPsid isAdm h = opal_revert_tper E d pw isPsid h).
    { unfold revert_tper. destruct (opal_kind d Hs) as [-> | ->]; reflexivity. }
    rewrite Hd. unfold opal_revert_tper.
    replace (if isPsid then set_no_hash_password new_session true else new_session) with s0 by (unfold s0; now destruct isPsid).
    replace (if isPsid then PSID_UID else SID_UID) with uid by (unfold uid; now destruct isPsid). change ADMINSP_UID with uid_AdminSP.
    assert (Wu : wf uid /\ List.length uid = 8%nat) by (unfold uid; destruct isPsid; (split; [wf_lit|reflexivity])).
    destruct (authority_ok (AUid uid) Wu) as [Wa La].
    assert (Ef : cmd_slice (stamp s0 com (start_command E d s0 uid_AdminSP pw (authority_bytes (AUid uid))))
              = frame 0 0 com (start_payload uid_AdminSP (credential_of (e_pbkdf2 E) (get_serial d) isPsid pw) (uid8 uid))).
    { rewrite (start_framed E d s0 uid_AdminSP pw _ 0 0 com HE Hs); auto; [split; reflexivity|wf_lit]. }
    rewrite <- Ef, <- (send_panics E d s0 _ com h h' HE Hs Hc).
    destruct (session_start E d s0 uid_AdminSP pw (AUid uid) h) as [[s1 h1] r1] eqn:Es.
    destruct (start_shape E d s0 _ pw _ com h s1 h1 r1 HE Hs Hc Es) as (x & Ex & [P P'] & _). rewrite Ex.
    destruct r1 as [u|e| |].
    + destruct u. destruct (start_numbers E d s0 _ pw _ com h s1 h1 HE Hs Hc Es) as (_ & _ & _ & hv & tv & _ & _ & _ & _ & _ & Hn & _).
      destruct (send_command E d s1 revert_command h1) as [h2 r2] eqn:E2. split.
      * intros H. injection H as <- H. right. exists s1, h1, hv, tv. split; [reflexivity|]. split; [exact Hn|].
        rewrite <- (revert_framed s1 hv tv com Hn Hc16). apply (send_panics E d s1 _ com h1 h2 HE Hs Hc). rewrite E2. f_equal.
        destruct r2 as [[o [e|]]|e| |]; try discriminate H; reflexivity.
      * intros [X|(s1' & h1' & hv' & tv' & [= <- <-] & Hn' & An)]; [injection X as _ ->; now specialize (P' eq_refl)|].
        rewrite <- (revert_framed s1 hv' tv' com Hn' Hc16) in An. apply (send_panics E d s1 _ com h1 h' HE Hs Hc) in An.
        rewrite E2 in An. injection An as -> ->. reflexivity.
    + split; [discriminate|]. intros [X|(? & ? & ? & ? & X & _)]; [injection X as _ ->; now specialize (P' eq_refl)|discriminate].
    + rewrite (P eq_refl). split; [intros X; injection X as <-; now left|]. intros [X|(? & ? & ? & ? & X & _)]; [now injection X as ->|discriminate].
    + split; [discriminate|]. intros [X|(? & ? & ? & ? & X & _)]; [injection X as _ ->; now specialize (P' eq_refl)|discriminate].
  - intros h h'.
    assert (Hd : get_default_password E d h = opal_get_default_password E d h).
    { unfold get_default_password. destruct (opal_kind d Hs) as [-> | ->]; reflexivity. }
    rewrite Hd. unfold opal_get_default_password. change UID_HEXFF with (repeat 255 8). change ADMINSP_UID with uid_AdminSP.
    set (s0 := new_session).
    assert (Ef : cmd_slice (stamp s0 com (start_command E d s0 uid_AdminSP [] (authority_bytes (AUid (repeat 255 8)))))
              = frame 0 0 com (start_payload uid_AdminSP None [])).
    { rewrite (start_framed E d s0 uid_AdminSP [] _ 0 0 com HE Hs); auto.
      - exact numbers_new.
      - wf_lit.
      - apply wf_nil.
      - wf_lit.
      - vm_compute. congruence. }
    rewrite <- Ef, <- (send_panics E d s0 _ com h h' HE Hs Hc).
    destruct (session_start E d s0 uid_AdminSP [] (AUid (repeat 255 8)) h) as [[s1 h1] r1] eqn:Es.
    destruct (start_shape E d s0 _ [] _ com h s1 h1 r1 HE Hs Hc Es) as (x & Ex & [P P'] & _). rewrite Ex.
    destruct r1 as [u|e| |].
    + destruct u. destruct (start_numbers E d s0 _ [] _ com h s1 h1 HE Hs Hc Es) as (_ & _ & _ & hv & tv & _ & _ & _ & _ & _ & Hn & _).
      unfold opal_get_table. change (u8 BYTESTRING8 :: C_PIN_MSID) with (uid8 uid_C_PIN_MSID). change CREDENTIAL_PIN with 3.
      assert (Gf : forall hv tv, numbers s1 hv tv -> cmd_slice (stamp s1 com (get_table_command (uid8 uid_C_PIN_MSID) 3 3)) = frame hv tv com (get_payload (uid8 uid_C_PIN_MSID) 3 3)).
      { intros a b Hab. apply get_framed; auto; try wf_lit; vm_compute; congruence. }
      destruct (send_command E d s1 (get_table_command (uid8 uid_C_PIN_MSID) 3 3) h1) as [h2 r2] eqn:E2. split.
      * intros H. right. exists s1, h1, hv, tv. split; [reflexivity|]. split; [exact Hn|].
        rewrite <- (Gf hv tv Hn). apply (send_panics E d s1 _ com h1 h' HE Hs Hc). rewrite E2.
        destruct r2 as [[[resp|] [e|]]|e| |]; cbn [finish_password] in H; try discriminate H; try (injection H as ->; reflexivity).
        -- exfalso. apply (c22 E d s1 _ com h1 h2 _ HE Hc) in E2 as (r0 & [= <-] & Ex2 & _).
           change 4%Z with (Z.of_nat 4) in H. rewrite get_token_nat in H. remember (nth_error (r_tokens resp) 4) as ot eqn:Et. injection H as _ H.
           symmetry in Et. destruct ot as [tok|]; [|congruence]. apply nth_error_In in Et.
           now destruct (exec_strings E d _ com h1 h2 resp tok HE Hs Hc Ex2 Et) as [NP _].
        -- exfalso. apply (c22 E d s1 _ com h1 h2 _ HE Hc) in E2 as (r0 & X & _). discriminate.
      * intros [X|(s1' & h1' & hv' & tv' & [= <- <-] & Hn' & An)]; [injection X as _ ->; now specialize (P' eq_refl)|].
        rewrite <- (Gf hv' tv' Hn') in An. apply (send_panics E d s1 _ com h1 h' HE Hs Hc) in An.
        rewrite E2 in An. injection An as -> ->. reflexivity.
    + split; [discriminate|]. intros [X|(? & ? & ? & ? & X & _)]; [injection X as _ ->; now specialize (P' eq_refl)|discriminate].
    + rewrite (P eq_refl). split; [intros X; injection X as <-; now left|]. intros [X|(? & ? & ? & ? & X & _)]; [now injection X as ->|discriminate].
    + split; [discriminate|]. intros [X|(? & ? & ? & ? & X & _)]; [injection X as _ ->; now specialize (P' eq_refl)|discriminate].
Qed.
Print Assumptions C136_when_a_drive_crashes_it.
