(** Lemmas for C187: what the TCG client does depends only on the answers it was given. *)
From Verif Require Import Base M_Buffer M_TcgToken M_TcgCommand M_TcgDevice M_TcgSession M_TcgTables M_TcgProgram.

Definition with_sec (E : env) (sec : hist -> option err * bytes) : env :=
  {| e_clock := e_clock E; e_sec := sec; e_pbkdf2 := e_pbkdf2 E; e_heap := e_heap E; e_fuel := e_fuel E |}.
Definition agree (E : env) (sec : hist -> option err * bytes) (h : hist) : Prop := forall t u, h = t ++ u -> e_sec E t = sec t.
Definition grown (h h' : hist) : Prop := exists t, h' = h ++ t.
Lemma grown_refl h : grown h h.
Proof. exists []. symmetry. apply app_nil_r. Qed.
Lemma grown_one h e : grown h (h ++ [e]).
Proof. now exists [e]. Qed.
Lemma grown_trans a b c : grown a b -> grown b c -> grown a c.
Proof. intros (x & ->) (y & ->). exists (x ++ y). symmetry. apply app_assoc. Qed.
Lemma agree_grown E sec h h' : agree E sec h' -> grown h h' -> agree E sec h.
Proof. intros A (x & ->) t u ->. apply (A t (u ++ x)). symmetry. apply app_assoc. Qed.
Lemma agree_at E sec h h' : agree E sec h' -> grown h h' -> e_sec E h = sec h.
Proof. intros A (x & ->). exact (A h x eq_refl). Qed.

(** [f] makes the history grow, and does the same when the answers along it come from [sec] *)
Definition follows {A} (E : env) (sec : hist -> option err * bytes) (f f' : hist * A) (h : hist) : Prop :=
  grown h (fst f) /\ (agree E sec (fst f) -> f' = f).

Lemma exec_loop_grown E d p b0 n : forall first resp h, grown h (fst (exec_loop E d p b0 n first resp h)).
Proof.
  induction n as [|n IH]; intros first resp h; cbn [exec_loop].
  - destruct (first || keep_polling resp); [apply grown_refl|]. destruct (commit (e_heap E) resp) as [r [| | |]]; apply grown_refl.
  - destruct (first || keep_polling resp).
    + destruct (get_base_com_id d) as [com|e| |]; try (cbn [fst]; eapply grown_trans; apply grown_one).
      destruct (e_sec E _) as [[er|] nw]; cbn [fst]; [eapply grown_trans; [eapply grown_trans|]; apply grown_one|].
      destruct (timeout_ns <? _); cbn [fst]; [eapply grown_trans; [eapply grown_trans|]; apply grown_one|].
      eapply grown_trans; [|apply IH]. eapply grown_trans; [eapply grown_trans|]; apply grown_one.
    + destruct (commit (e_heap E) resp) as [r [| | |]]; apply grown_refl.
Qed.
Lemma exec_loop_same E sec d p b0 n : forall first resp h, agree E sec (fst (exec_loop E d p b0 n first resp h)) ->
  exec_loop (with_sec E sec) d p b0 n first resp h = exec_loop E d p b0 n first resp h.
Proof.
  induction n as [|n IH]; intros first resp h A; cbn [exec_loop] in *.
  - reflexivity.
  - destruct (first || keep_polling resp); [|reflexivity]. cbn [with_sec e_clock e_sec e_heap] in *.
    destruct (get_base_com_id d) as [com|e| |]; try reflexivity.
    set (h3 := (((h ++ [EvNow]) ++ [EvSleep poll_sleep_ns]) ++ [EvSec false false p com (r_buf (resp_reset resp)) 5])) in *.
    assert (G : e_sec E h3 = sec h3).
    { apply (agree_at E sec h3 _ A). destruct (e_sec E h3) as [[er|] nw]; cbn [fst]; [apply grown_refl|].
      destruct (timeout_ns <? _); [apply grown_refl|]. apply exec_loop_grown. }
    rewrite <- G. destruct (e_sec E h3) as [[er|] nw]; [reflexivity|]. destruct (timeout_ns <? _); [reflexivity|]. now apply IH.
Qed.
Lemma exec_follows E sec d c p h : follows E sec (exec E d c p h) (exec (with_sec E sec) d c p h) h.
Proof.
  unfold follows, exec. destruct (negb (is_any_ssc d)); [split; [apply grown_one|reflexivity]|].
  destruct (get_base_com_id d) as [com|e| |]; try (split; [apply grown_one|reflexivity]).
  set (h1 := (h ++ [EvNow]) ++ [EvSec true false p com (cmd_slice c) 5]). assert (G1 : grown h h1) by (eapply grown_trans; apply grown_one).
  cbn [with_sec e_clock e_sec e_fuel]. destruct (fst (e_sec E h1)) as [er|] eqn:Es; cbn [fst].
  - split; [exact G1|]. intros A. rewrite <- (agree_at E sec h1 h1 A (grown_refl _)), Es. reflexivity.
  - pose proof (exec_loop_grown E d p (e_clock E (h ++ [EvNow])) (e_fuel E) true new_response h1) as G2.
    split; [exact (grown_trans _ _ _ G1 G2)|]. intros A. rewrite <- (agree_at E sec h1 _ A G2), Es. now apply exec_loop_same.
Qed.
Lemma send_follows E sec d s c h : follows E sec (send_command E d s c h) (send_command (with_sec E sec) d s c h) h.
Proof.
  unfold send_command. destruct (get_base_com_id d) as [com|e| |]; try (split; [apply grown_refl|reflexivity]).
  destruct (exec_follows E sec d (stamp s com c) 1 h) as [G A]. unfold follows.
  destruct (exec E d (stamp s com c) 1 h) as [h1 r] eqn:Ex. cbn [fst] in G, A.
  destruct r as [[[resp|] [er|]]|e| |]; cbn [fst]; (split; [exact G|]); intros Ag; rewrite (A Ag); reflexivity.
Qed.
Lemma auth_follows E sec d s au ch h : follows E sec (authenticate E d s au ch h) (authenticate (with_sec E sec) d s au ch h) h.
Proof.
  unfold authenticate. change (authenticate_command (with_sec E sec) d s au ch) with (authenticate_command E d s au ch).
  destruct (send_follows E sec d s (authenticate_command E d s au ch) h) as [G A]. unfold follows.
  destruct (send_command E d s _ h) as [h1 r] eqn:Ex. cbn [fst] in G, A.
  destruct r as [[[resp|] [er|]]|e| |]; cbn [fst]; (split; [exact G|]); intros Ag; rewrite (A Ag); reflexivity.
Qed.
Definition hist_of {A B} (x : A * hist * B) : hist := snd (fst x).
Definition follows3 {A B} (E : env) (sec : hist -> option err * bytes) (f f' : A * hist * B) (h : hist) : Prop :=
  grown h (hist_of f) /\ (agree E sec (hist_of f) -> f' = f).
Lemma start_follows E sec d s sp ch a h : follows3 E sec (session_start E d s sp ch a h) (session_start (with_sec E sec) d s sp ch a h) h.
Proof.
  unfold session_start. cbv zeta. change (start_command (with_sec E sec) d s sp ch (authority_bytes a)) with (start_command E d s sp ch (authority_bytes a)).
  destruct (send_follows E sec d s (start_command E d s sp ch (authority_bytes a)) h) as [G A]. unfold follows3, hist_of.
  destruct (send_command E d s _ h) as [h1 r] eqn:Ex. cbn [fst] in G, A.
  destruct r as [[[resp|] [er|]]|e| |]; cbn [fst snd]; try ((split; [exact G|]); intros Ag; rewrite (A Ag); reflexivity).
  destruct (get_token resp 4) as [[t4|]|e4| |] eqn:E4; destruct (get_token resp 5) as [[t5|]|e5| |] eqn:E5;
    try ((split; [exact G|]); intros Ag; rewrite (A Ag), ?E4, ?E5; reflexivity).
  destruct (get_uint32 t4) as [v4|e4| |] eqn:U4; try ((split; [exact G|]); intros Ag; rewrite (A Ag), E4, E5, U4; reflexivity).
  destruct (get_uint32 t5) as [v5|e5| |] eqn:U5; try ((split; [exact G|]); intros Ag; rewrite (A Ag), E4, E5, U4, ?U5; reflexivity).
  destruct (negb (List.length ch =? 0)%nat && is_enterprise d) eqn:Q.
  - set (s2 := set_tsn_num _ _). destruct (auth_follows E sec d s2 (authority_bytes a) ch h1) as [G2 A2].
    destruct (authenticate E d s2 (authority_bytes a) ch h1) as [h2 r2] eqn:Ea. cbn [fst snd] in *.
    split; [exact (grown_trans _ _ _ G G2)|]. intros Ag. rewrite (A (agree_grown _ _ _ _ Ag G2)), E4, E5, U4, U5. fold s2. rewrite (A2 Ag). reflexivity.
  - split; [exact G|]. intros Ag. rewrite (A Ag), E4, E5, U4, U5. reflexivity.
Qed.
Lemma table_follows E sec p d s t a b h : follows E sec (device_get_table E p d s t a b h) (device_get_table (with_sec E sec) p d s t a b h) h.
Proof. unfold device_get_table, opal_get_table. destruct (d_kind p); try apply send_follows; (split; [apply grown_refl|reflexivity]). Qed.
Lemma opal_revert_follows E sec d pw ps h : follows E sec (opal_revert_tper E d pw ps h) (opal_revert_tper (with_sec E sec) d pw ps h) h.
Proof.
  unfold opal_revert_tper. cbv zeta. set (s0 := if ps then _ else _). set (u := if ps then _ else _).
  destruct (start_follows E sec d s0 ADMINSP_UID pw (AUid u) h) as [G A]. unfold follows, hist_of in *.
  destruct (session_start E d s0 ADMINSP_UID pw (AUid u) h) as [[s1 h1] r1] eqn:Es. cbn [fst snd] in *.
  destruct r1 as [v|e| |]; cbn [fst]; try ((split; [exact G|]); intros Ag; rewrite (A Ag); reflexivity).
  destruct (send_follows E sec d s1 revert_command h1) as [G2 A2]. destruct (send_command E d s1 revert_command h1) as [h2 r2] eqn:E2. cbn [fst] in *.
  split; [exact (grown_trans _ _ _ G G2)|]. intros Ag. rewrite (A (agree_grown _ _ _ _ Ag G2)), (A2 Ag). reflexivity.
Qed.
Lemma ent_revert_follows E sec d pw ps adm h : follows E sec (ent_revert_tper E d pw ps adm h) (ent_revert_tper (with_sec E sec) d pw ps adm h) h.
Proof.
  unfold ent_revert_tper. cbv zeta. set (s0 := if ps then _ else _). set (u := if ps then _ else _). set (c := if adm then _ else _).
  destruct (start_follows E sec d s0 ADMINSP_UID pw (AUid u) h) as [G A]. unfold follows, hist_of in *.
  destruct (session_start E d s0 ADMINSP_UID pw (AUid u) h) as [[s1 h1] r1] eqn:Es. cbn [fst snd] in *.
  destruct r1 as [v|e| |]; cbn [fst]; try ((split; [exact G|]); intros Ag; rewrite (A Ag); reflexivity).
  destruct (send_follows E sec d (no_auto_close s1) c h1) as [G2 A2]. destruct (send_command E d (no_auto_close s1) c h1) as [h2 r2] eqn:E2. cbn [fst] in *.
  split; [exact (grown_trans _ _ _ G G2)|]. intros Ag. rewrite (A (agree_grown _ _ _ _ Ag G2)), (A2 Ag). reflexivity.
Qed.
Lemma finish_hist x : fst (finish_password x) = fst x.
Proof. destruct x as [h [[[resp|] [er|]]|e| |]]; reflexivity. Qed.
Lemma password_follows E sec d tab h :
  (forall s h1, follows E sec (tab E s h1) (tab (with_sec E sec) s h1) h1) ->
  follows E sec (match session_start E d new_session ADMINSP_UID [] (AUid UID_HEXFF) h with
    | (s1, h1, Ok _) => finish_password (tab E s1 h1) | (_, h1, Err e) => (h1, Err e) | (_, h1, Panic) => (h1, Panic) | (_, h1, Fuel) => (h1, Fuel) end)
   (match session_start (with_sec E sec) d new_session ADMINSP_UID [] (AUid UID_HEXFF) h with
    | (s1, h1, Ok _) => finish_password (tab (with_sec E sec) s1 h1) | (_, h1, Err e) => (h1, Err e) | (_, h1, Panic) => (h1, Panic) | (_, h1, Fuel) => (h1, Fuel) end) h.
Proof.
  intros T. destruct (start_follows E sec d new_session ADMINSP_UID [] (AUid UID_HEXFF) h) as [G A]. unfold follows, hist_of in *.
  destruct (session_start E d new_session ADMINSP_UID [] (AUid UID_HEXFF) h) as [[s1 h1] r1] eqn:Es. cbn [fst snd] in *.
  destruct r1 as [v|e| |]; cbn [fst]; try ((split; [exact G|]); intros Ag; rewrite (A Ag); reflexivity).
  destruct (T s1 h1) as [G2 A2]. rewrite finish_hist. split; [exact (grown_trans _ _ _ G G2)|].
  intros Ag. rewrite (A (agree_grown _ _ _ _ Ag G2)), (A2 Ag). reflexivity.
Qed.
Lemma step_follows E sec d ss h c : follows3 E sec (tstep E d ss h c) (tstep (with_sec E sec) d ss h c) h.
Proof.
  destruct c as [|i o|i table a b| |pw ps adm|t]; cbn [tstep]; unfold follows3, hist_of; try (split; [apply grown_refl|reflexivity]).
  - destruct (nth_error ss i) as [s|]; [|split; [apply grown_refl|reflexivity]].
    assert (F : follows3 E sec (sstep E d (s, h) o) (sstep (with_sec E sec) d (s, h) o) h).
    { destruct o as [sp ch a|au ch|x|b| |ms|]; cbn [sstep]; try (split; [apply grown_refl|reflexivity]).
      - apply start_follows.
      - destruct (auth_follows E sec d s au ch h) as [G A]. unfold follows3, hist_of. destruct (authenticate E d s au ch h) as [h1 r]. cbn [fst snd] in *. split; [exact G|]. intros Ag. now rewrite (A Ag).
      - destruct (send_follows E sec d s x h) as [G A]. unfold follows3, hist_of. destruct (send_command E d s x h) as [h1 r]. cbn [fst snd] in *. split; [exact G|]. intros Ag. now rewrite (A Ag).
      - unfold session_close, follows3, hist_of. destruct (s_autoclose s && s_opened s); (split; [apply grown_refl|reflexivity]). }
    destruct F as [G A]. unfold hist_of in *. destruct (sstep E d (s, h) o) as [[s' h1] r]. cbn [fst snd] in *. split; [exact G|]. intros Ag. now rewrite (A Ag).
  - destruct (nth_error ss i) as [s|]; [|split; [apply grown_refl|reflexivity]].
    destruct (table_follows E sec d d s table a b h) as [G A]. destruct (device_get_table E d d s table a b h) as [h1 r]. cbn [fst snd] in *. split; [exact G|]. intros Ag. now rewrite (A Ag).
  - assert (F : follows E sec (get_default_password E d h) (get_default_password (with_sec E sec) d h) h).
    { unfold get_default_password. destruct (d_kind d); [split; [apply grown_refl|reflexivity]|..].
      1,2: refine (password_follows E sec d (fun E s h1 => opal_get_table E d s (u8 BYTESTRING8 :: C_PIN_MSID) CREDENTIAL_PIN CREDENTIAL_PIN h1) h _); intros; apply send_follows.
      refine (password_follows E sec d (fun E s h1 => ent_get_table E d s (u8 BYTESTRING8 :: C_PIN_MSID) (ascii_bytes "PIN") (ascii_bytes "PIN") h1) h _). intros. apply send_follows. }
    destruct F as [G A]. destruct (get_default_password E d h) as [h1 r]. cbn [fst snd] in *. split; [exact G|]. intros Ag. now rewrite (A Ag).
  - assert (F : follows E sec (revert_tper E d pw ps adm h) (revert_tper (with_sec E sec) d pw ps adm h) h).
    { unfold revert_tper. destruct (d_kind d); [split; [apply grown_refl|reflexivity]|..]; [apply opal_revert_follows|apply opal_revert_follows|apply ent_revert_follows]. }
    destruct F as [G A]. destruct (revert_tper E d pw ps adm h) as [h1 r]. cbn [fst snd] in *. split; [exact G|]. intros Ag. now rewrite (A Ag).
  - cbn [fst snd]. split; [now exists t|reflexivity].
Qed.
Lemma run_follows E sec d prog : forall ss h, follows3 E sec (trun E d ss h prog) (trun (with_sec E sec) d ss h prog) h.
Proof.
  induction prog as [|c prog IH]; intros ss h; cbn [trun]; [split; [apply grown_refl|reflexivity]|].
  destruct (step_follows E sec d ss h c) as [G A]. unfold follows3, hist_of in *. destruct (tstep E d ss h c) as [[ss1 h1] r]. cbn [fst snd] in *.
  destruct (IH ss1 h1) as [G2 A2]. destruct (trun E d ss1 h1 prog) as [[ss2 h2] rs]. cbn [fst snd] in *.
  split; [exact (grown_trans _ _ _ G G2)|]. intros Ag. rewrite (A (agree_grown _ _ _ _ Ag G2)), (A2 Ag). reflexivity.
Qed.
