(** Lemmas for C126-C128. *)
From Verif Require Import Base Spec_Tcg M_TcgToken M_Buffer M_TcgCommand M_TcgDevice M_TcgSession M_TcgTables Spec_TcgCommand Spec_TcgClient
  Spec_TcgSession P_TcgToken P_TcgCommand P_TcgComplete P_TcgProps P_TcgDevice P_TcgSession P_Discovery P_NvmeLinux Spec_TcgTrust.

Lemma named_get_framed s hv tv com table a b : numbers s hv tv -> com < 2 ^ 16 -> wf table -> blen table <= 50000 -> wf a -> wf b ->
  cmd_slice (stamp s com (ent_get_table_command table a b)) = frame hv tv com (named_get_payload table a b).
Proof.
  intros Hn Hc Wt Lt Wa Wb. unfold ent_get_table_command.
  rewrite (build_framed (IBuf table) M_GET _ hv tv com s I); try assumption.
  - f_equal. unfold named_get_payload, method_call. cbn [map concat call_bytes init_bytes opt_tok].
    rewrite !string_bytes_credential.
    change (credential_atom (ascii_bytes "startColumn")) with (encode (string_atom text_startColumn)).
    change (credential_atom (ascii_bytes "endColumn")) with (encode (string_atom text_endColumn)).
    unfold uid8, init_bytes. change mth_Get with M_GET. repeat (progress (rewrite <- ?app_assoc; cbn [app])). reflexivity.
  - repeat (apply Forall_cons; [first [exact I | assumption | now split | cbn [call_ok]; unfold ascii_bytes, wf; repeat constructor]|]). apply Forall_nil.
  - unfold init_bytes. cbn [map concat call_bytes opt_tok]. rewrite !string_bytes_credential. rewrite !app_length.
    pose proof (credential_atom_length a). pose proof (credential_atom_length b).
    unfold blen in Lt. rewrite PCAP_val. cbn [List.length M_GET]. 
    change (List.length (credential_atom (ascii_bytes "startColumn"))) with 12%nat.
    change (List.length (credential_atom (ascii_bytes "endColumn"))) with 10%nat. lia.
Qed.

Lemma send_get E d s c com payload h h' r hv tv : env_ok E -> is_any_ssc d = true -> get_base_com_id d = Ok com -> com < 2 ^ 16 -> numbers s hv tv ->
  cmd_slice (stamp s com c) = frame hv tv com payload ->
  send_command E d s c h = (h', r) ->
  exists t x, h' = h ++ t /\ sends t = [frame hv tv com payload] /\ cmd_slice x = frame hv tv com payload
  /\ (forall o, r = Ok (o, None) <-> exists resp, o = Some resp /\ exec E d x 1 h = (h', Ok (Some resp, None)) /\ accepted resp).
Proof.
  intros HE Hs Hc Hc16 Hn F H. destruct (send_sends E d s c com h h' r HE Hs Hc H) as (t & -> & Ht).
  exists t, (stamp s com c). rewrite Ht, F. repeat split; try assumption.
  - intros ->. apply (c22 E d s c com h _ o HE Hc) in H. exact H.
  - intros X. apply (c22 E d s c com h _ o HE Hc) in X. fold (stamp s com c) in X. rewrite X in H. now inversion H.
Qed.

(** ---- answers that differ only in whom they address ---- *)
Lemma contents_refl a : same_contents a a.
Proof. split; auto. Qed.

Lemma contents_slice a b off n : same_contents a b -> (forall i, (off <= i < off + n)%nat -> ~ addressing i) -> slice off n a = slice off n b.
Proof.
  intros [_ H] N. apply list_eq_nth_error. intros i. unfold slice.
  destruct (Nat.lt_ge_cases i n) as [L|L].
  - rewrite !nth_error_firstn_lt by assumption. rewrite !nth_error_skipn. apply H. apply N. lia.
  - assert (forall l : bytes, nth_error (firstn n l) i = None) as X by (intros l; apply nth_error_None; rewrite firstn_length; lia).
    now rewrite !X.
Qed.
Lemma contents_be32 a b off : same_contents a b -> In off [8; 12; 16; 40; 52]%nat -> be32_at off a = be32_at off b.
Proof.
  intros H I. unfold be32_at. f_equal. apply contents_slice; [assumption|]. intros i L. unfold addressing.
  cbn [In] in I. lia.
Qed.
Lemma contents_rd a b heap i : same_contents a b -> 56 <= i -> rd a heap i = rd b heap i.
Proof.
  intros [_ H] L. unfold rd. rewrite (H (N.to_nat i)); [reflexivity|]. unfold addressing. lia.
Qed.
Lemma contents_token_len a b heap i : same_contents a b -> 56 <= i -> token_len a heap i = token_len b heap i.
Proof. intros H L. unfold token_len. rewrite !(contents_rd a b heap) by (assumption || lia). reflexivity. Qed.
Lemma contents_rd_slice a b heap i n : same_contents a b -> 56 <= i -> rd_slice a heap i n = rd_slice b heap i n.
Proof. intros H L. unfold rd_slice. apply map_ext. intros k. apply contents_rd; [assumption|lia]. Qed.
Lemma contents_loop a b heap end_ : same_contents a b -> forall f cur, 56 <= cur -> commit_loop f a heap cur end_ = commit_loop f b heap cur end_.
Proof.
  intros H. induction f as [|f IH]; intros cur L; cbn [commit_loop]; [reflexivity|].
  rewrite (contents_token_len a b heap cur H L), (contents_rd_slice a b heap cur _ H L), IH by lia. reflexivity.
Qed.

Lemma nth_error_fill old new i : nth_error (fill old new) i = if (i <? List.length old)%nat then match nth_error new i with Some x => Some x | None => nth_error old i end else None.
Proof.
  unfold fill. destruct (Nat.ltb_spec i (List.length old)) as [L|L].
  - destruct (Nat.lt_ge_cases i (List.length new)) as [M|M].
    + rewrite nth_error_app1 by (rewrite firstn_length; lia). rewrite nth_error_firstn_lt by assumption.
      destruct (nth_error new i) eqn:X; [reflexivity|]. apply nth_error_None in X. lia.
    + assert (firstn (List.length old) new = new) as -> by (apply firstn_all2; lia).
      rewrite nth_error_app2 by lia. rewrite nth_error_skipn.
      replace (List.length new + (i - List.length new))%nat with i by lia.
      assert (nth_error new i = None) as -> by (apply nth_error_None; lia). reflexivity.
  - apply nth_error_None. rewrite app_length, firstn_length, skipn_length. lia.
Qed.
Lemma contents_fill old a b : same_contents a b -> same_contents (fill old a) (fill old b).
Proof.
  intros [L H]. split.
  - unfold fill. rewrite !app_length, !firstn_length, !skipn_length. lia.
  - intros i N. rewrite !nth_error_fill, (H i N). reflexivity.
Qed.

Definition same_out (x y : hist * res pair_out) : Prop :=
  fst x = fst y /\
  match snd x, snd y with
  | Ok (o, e), Ok (o', e') => e = e' /\ same_response o o'
  | Err e, Err e' => e = e'
  | Panic, Panic => True
  | Fuel, Fuel => True
  | _, _ => False
  end.

Lemma commit_same heap r r' : r_tokens r = r_tokens r' -> same_contents (r_buf r) (r_buf r') ->
  snd (commit heap r) = snd (commit heap r') /\ same_response (Some (fst (commit heap r))) (Some (fst (commit heap r'))).
Proof.
  intros T C. unfold commit. cbv zeta. rewrite (contents_be32 _ _ 52 C) by (cbn; auto 10).
  destruct (MIN_BUFFER_LENGTH <? OPAL_HEADER_SIZE + be32_at 52 (r_buf r')); [cbn; auto|].
  rewrite (contents_loop _ _ heap _ C) by (change OPAL_HEADER_SIZE with 56; lia).
  destruct (commit_loop _ _ _ _ _); cbn; auto.
Qed.

Lemma loop_same E E' d p b : readdressed E E' -> forall f first r r' h, r_tokens r = r_tokens r' -> same_contents (r_buf r) (r_buf r') ->
  same_out (exec_loop E d p b f first r h) (exec_loop E' d p b f first r' h).
Proof.
  intros (HC & HP & HH & HF & HS). induction f as [|f IH]; intros first r r' h T C; cbn [exec_loop].
  - unfold keep_polling. rewrite (contents_be32 _ _ 8 C), (contents_be32 _ _ 12 C) by (cbn; auto 10).
    destruct (first || _); [split; reflexivity|]. rewrite HH.
    destruct (commit_same (e_heap E') r r' T C) as [A B].
    destruct (commit (e_heap E') r) as [r1 x1], (commit (e_heap E') r') as [r2 x2]. cbn [fst snd] in A, B. subst x2.
    destruct x1 as [u|e| |]; split; cbn; auto.
  - unfold keep_polling. rewrite (contents_be32 _ _ 8 C), (contents_be32 _ _ 12 C) by (cbn; auto 10).
    destruct (first || _).
    2:{ rewrite HH. destruct (commit_same (e_heap E') r r' T C) as [A B].
        destruct (commit (e_heap E') r) as [r1 x1], (commit (e_heap E') r') as [r2 x2]. cbn [fst snd] in A, B. subst x2.
        destruct x1 as [u|e| |]; split; cbn; auto. }
    destruct (get_base_com_id d) as [com|e| |]; [|split; cbn; auto ..].
    unfold resp_reset. cbn [r_buf r_tokens]. destruct C as [L C]. rewrite L.
    set (h3 := (h ++ [EvNow]) ++ [EvSleep poll_sleep_ns]).
    destruct (HS (h3 ++ [EvSec false false p com (zeros (List.length (r_buf r'))) 5])) as [A B].
    destruct (e_sec E (h3 ++ [EvSec false false p com (zeros (List.length (r_buf r'))) 5])) as [e new].
    destruct (e_sec E' (h3 ++ [EvSec false false p com (zeros (List.length (r_buf r'))) 5])) as [e' new']. cbn [fst snd] in A, B. subst e'.
    pose proof (contents_fill (zeros (List.length (r_buf r'))) new new' B) as FB.
    destruct e as [e|]; [split; [reflexivity|]; cbn; auto|]. rewrite HC.
    destruct (timeout_ns <? uint_since (e_clock E' (h ++ [EvNow])) b); [split; [reflexivity|]; cbn; auto|].
    apply IH; cbn [r_tokens r_buf]; assumption.
Qed.

Lemma exec_same E E' d c p h : readdressed E E' -> same_out (exec E d c p h) (exec E' d c p h).
Proof.
  intros H. pose proof H as (HC & HP & HH & HF & HS). unfold exec. cbv zeta. rewrite HC, HF.
  destruct (negb (is_any_ssc d)); [split; cbn; auto|].
  destruct (get_base_com_id d) as [com|e| |]; [|split; cbn; auto ..].
  destruct (HS ((h ++ [EvNow]) ++ [EvSec true false p com (cmd_slice c) 5])) as [A _]. rewrite A.
  destruct (fst (e_sec E' _)); [split; cbn; auto|]. apply loop_same; auto. apply contents_refl.
Qed.

Lemma check_same r r' : same_response (Some r) (Some r') -> same_out ([], check_response r) ([], check_response r').
Proof.
  intros [T C]. split; [reflexivity|]. cbn [snd]. unfold check_response, is_zero32, get_token, get_token_count.
  rewrite (contents_be32 _ _ 16 C), (contents_be32 _ _ 40 C), (contents_be32 _ _ 52 C), T by (cbn; auto 10).
  repeat (match goal with |- context [match (match ?x with _ => _ end) with _ => _ end] => destruct x end || (cbn; auto)).
Qed.

Lemma send_same E E' d s c h : readdressed E E' -> same_out (send_command E d s c h) (send_command E' d s c h).
Proof.
  intros H. unfold send_command. destruct (get_base_com_id d) as [com|e| |]; [|split; cbn; auto ..].
  pose proof (exec_same E E' d (stamp s com c) 1 h H) as [A B].
  destruct (exec E d (stamp s com c) 1 h) as [h1 r1], (exec E' d (stamp s com c) 1 h) as [h2 r2]. cbn [fst snd] in A, B. subst h2.
  destruct r1 as [[o e]|e| |], r2 as [[o' e']|e'| |]; try contradiction; try (split; cbn; auto; fail).
  destruct B as [-> B]. destruct e' as [e|].
  - destruct o, o'; try contradiction; split; cbn; auto.
  - destruct o as [r|], o' as [r'|]; try contradiction; [|split; cbn; auto].
    destruct (check_same r r' B) as [_ X]. split; [reflexivity|exact X].
Qed.

Lemma start_same E E' d s sp ch a h : readdressed E E' -> session_start E d s sp ch a h = session_start E' d s sp ch a h
  /\ (forall auth, authenticate E d s auth ch h = authenticate E' d s auth ch h).
Proof.
  intros H. assert (A : forall s h auth, authenticate E d s auth ch h = authenticate E' d s auth ch h).
  { intros s0 h0 auth. unfold authenticate.
    assert (EC : authenticate_command E d s0 auth ch = authenticate_command E' d s0 auth ch) by (unfold authenticate_command; destruct H as (_ & -> & _); reflexivity).
    rewrite EC. pose proof (send_same E E' d s0 (authenticate_command E' d s0 auth ch) h0 H) as [X Y].
    destruct (send_command E d s0 _ h0) as [h1 r1], (send_command E' d s0 _ h0) as [h2 r2]. cbn [fst snd] in X, Y. subst h2.
    destruct r1 as [[o e]|e| |], r2 as [[o' e']|e'| |]; try contradiction; auto; [|now subst].
    destruct Y as [-> Y]. destruct e' as [e|]; [destruct o, o'; auto; contradiction|].
    destruct o as [r|], o' as [r'|]; try contradiction; auto. destruct Y as [T _]. unfold get_token, get_token_count. rewrite T. reflexivity. }
  split; [|intros; apply A]. unfold session_start.
  assert (EC : forall b, start_command E d s sp ch b = start_command E' d s sp ch b) by (intros; unfold start_command; destruct H as (_ & -> & _); reflexivity).
  rewrite EC. pose proof (send_same E E' d s (start_command E' d s sp ch (authority_bytes a)) h H) as [X Y].
  destruct (send_command E d s _ h) as [h1 r1], (send_command E' d s _ h) as [h2 r2]. cbn [fst snd] in X, Y. subst h2.
  destruct r1 as [[o e]|e| |], r2 as [[o' e']|e'| |]; try contradiction; auto; [|now subst].
  destruct Y as [-> Y]. destruct e' as [e|]; [destruct o, o'; auto; contradiction|].
  destruct o as [r|], o' as [r'|]; try contradiction; auto. destruct Y as [T _]. unfold get_token, get_token_count. rewrite T.
  assert (B : forall s0 h0, authenticate E d s0 (authority_bytes a) ch h0 = authenticate E' d s0 (authority_bytes a) ch h0) by (intros; apply A).
  repeat match goal with
         | |- context [authenticate E d _ _ _ _] => rewrite B
         | |- ?x = ?x => reflexivity
         | |- context [match ?x with _ => _ end] => destruct x
         end.
Qed.
