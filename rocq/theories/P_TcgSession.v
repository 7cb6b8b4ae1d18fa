(** Proofs about sessions: C21-C31. *)
From Verif Require Import Base Spec_Tcg M_TcgToken M_Buffer M_TcgCommand M_TcgDevice M_TcgSession Spec_TcgCommand Spec_TcgClient
  Spec_TcgSession P_TcgToken P_TcgCommand P_TcgComplete P_TcgProps P_TcgDevice.

(** ---- tokens of a committed response ---- *)
Lemma mem_slice_ok m c n : (forall j, m j < 256) -> 1 <= n -> mem_slice m c n <> [] /\ wf (mem_slice m c n).
Proof.
  intros Hm Hn. unfold mem_slice. split.
  - destruct (N.to_nat n) eqn:E; [lia|]. discriminate.
  - unfold wf. apply Forall_forall. intros x Hx. apply in_map_iff in Hx as (k & <- & _). apply Hm.
Qed.
Lemma atom_extent_pos m i : 1 <= atom_extent m i.
Proof.
  unfold atom_extent. cbv zeta. destruct (m i <? 128); [lia|]. destruct (m i <? 192); [lia|].
  destruct (m i <? 224); [lia|]. destruct (m i <? 240); lia.
Qed.
Lemma tiled_ok m cur e all : (forall j, m j < 256) -> tiled m cur e all -> Forall (fun t => t <> [] /\ wf t) all.
Proof.
  intros Hm H. induction H as [|cur e rest _ _ IH]; constructor; [|assumption].
  apply mem_slice_ok; [assumption|apply atom_extent_pos].
Qed.
Lemma memory_byte buf heap : wf buf -> (forall j, heap j < 256) -> forall j, memory buf heap j < 256.
Proof.
  intros Hb Hh j. unfold memory. destruct (N.ltb_spec j (blen buf)) as [H|H]; [|apply Hh].
  unfold wf in Hb. rewrite Forall_forall in Hb. apply Hb. apply nth_In. unfold blen in H. lia.
Qed.

Lemma exec_result_inv E b r : env_ok E -> wf b -> exec_result (e_heap E) (received b) r ->
  (exists resp, r = Ok (Some resp, None) /\ r_buf resp = received b /\ tokens_ok resp)
  \/ exists e, r = Ok (Some {| r_buf := received b; r_tokens := [] |}, Some e).
Proof.
  intros (_ & Hh & _) Hb [(_ & all & T & ->)|(_ & ->)]; [left|right; eauto].
  eexists. split; [reflexivity|]. cbn [r_buf]. split; [reflexivity|]. unfold tokens_ok. cbn [r_tokens].
  apply tiled_ok in T; [|apply memory_byte; [now apply received_wf|assumption]].
  rewrite Forall_forall in *. intros x Hx. apply filter_In in Hx as [Hx _]. now apply T.
Qed.

(** What Exec can do, in the form used by the session. *)
Definition io_tail (com : N) (t : hist) (sent : bytes) (k : nat) : Prop :=
  t = [EvNow; EvSec true false 1 com sent 5] ++ rounds 1 com k.

Lemma exec_cases E d c com h h' r : env_ok E -> is_any_ssc d = true -> get_base_com_id d = Ok com ->
  exec E d c 1 h = (h', r) ->
  exists k t, h' = h ++ t /\ io_tail com t (cmd_slice c) k /\
   ((exists o e, r = Ok (o, Some e)) \/ r = Fuel \/
    exists resp b, r = Ok (Some resp, None) /\ wf b /\ r_buf resp = received b /\ tokens_ok resp).
Proof.
  intros HE Hs Hc Hrun. destruct (c19 E d c 1 com h h' r HE Hs Hc Hrun) as [A B]. cbv zeta in *.
  set (b0 := EvSec true false 1 com (cmd_slice c) 5) in *.
  destruct (fst (e_sec E (h ++ [EvNow; b0]))) as [e|] eqn:Ee.
  - destruct (A e eq_refl) as [-> ->]. exists 0%nat, [EvNow; b0]. split; [reflexivity|]. split; [unfold io_tail; cbn; reflexivity|].
    left. eauto.
  - destruct (B eq_refl) as [(-> & -> & P)|(k & K & -> & P & R)].
    + exists (e_fuel E), ([EvNow; b0] ++ rounds 1 com (e_fuel E)). rewrite <- app_assoc.
      split; [reflexivity|]. split; [reflexivity|]. auto.
    + exists k, ([EvNow; b0] ++ rounds 1 com k). rewrite <- app_assoc. split; [reflexivity|]. split; [reflexivity|].
      destruct (answer E 1 com (h ++ [EvNow; b0]) (k - 1)) as [[x|] b] eqn:Ea; [left; eauto|].
      assert (Hw : wf b). { unfold answer in Ea. destruct HE as [HE _]. specialize (HE ((h ++ [EvNow; b0]) ++ rounds 1 com (S (k - 1)))).
        rewrite Ea in HE. exact HE. }
      destruct R as [[_ ->]|(_ & _ & R)]; [left; eauto|].
      apply exec_result_inv in R; [|assumption|assumption].
      destruct R as [(resp & -> & Hbuf & Ht)|(e & ->)]; [|left; eauto].
      right. right. exists resp, b. auto.
Qed.

Lemma io_tail_sends com t s k : io_tail com t s k -> sends t = [s].
Proof. intros ->. cbn [app sends]. now rewrite sends_rounds. Qed.
Lemma io_tail_receives com t s k : io_tail com t s k -> receives t = k.
Proof. intros ->. cbn [app receives]. apply receives_rounds. Qed.

(** ---- token accessors ---- *)
Lemma tok_type_lead b d c : b < 256 -> 0xF0 <= c < 256 ->
  exists ty, tok_type (b :: d) = Ok ty /\ ((Z.of_N ty =? Z.of_N c)%Z = (b =? c)).
Proof.
  intros Hb Hc. rewrite tok_type_spec by assumption. eexists. split; [reflexivity|].
  assert (G : forallb (fun c => forallb (fun b =>
     Bool.eqb (Z.eqb (Z.of_N (if b <? 0x80 then (if N.testbit b 6 then 0xe2 else 0xe1) else code_of_kind (lead_kind b))) (Z.of_N c)) (b =? c) || (c <? 0xF0)) bytes256) bytes256 = true)
    by (vm_compute; reflexivity).
  pose proof (byte_sweep _ G c ltac:(lia)) as G2. pose proof (byte_sweep _ G2 b Hb) as G3. cbv beta in G3.
  destruct (N.ltb_spec c 0xF0); [lia|]. rewrite orb_false_r in G3. now apply Bool.eqb_prop.
Qed.

Lemma lead_is_eqb b d c : lead_is (b :: d) c <-> (b =? c) = true.
Proof. unfold lead_is. rewrite N.eqb_eq. split; [intros (d' & [= -> _]); reflexivity | intros ->; eauto]. Qed.

Lemma mod_mod_256 v : v mod 2 ^ 64 mod 2 ^ 8 = v mod 256.
Proof.
  change (2 ^ 8) with 256. change (2 ^ 64) with (256 * 2 ^ 56).
  rewrite N.mod_mul_r by (try apply N.pow_nonzero; lia). rewrite N.mul_comm, N.mod_add, N.mod_mod by lia. reflexivity.
Qed.
Lemma mod_mod_32 v : v mod 2 ^ 64 mod 2 ^ 32 = v mod 2 ^ 32.
Proof.
  change (2 ^ 64) with (2 ^ 32 * 2 ^ 32).
  rewrite N.mod_mul_r by (apply N.pow_nonzero; lia). rewrite N.mul_comm, N.mod_add, N.mod_mod by (apply N.pow_nonzero; lia). reflexivity.
Qed.

Lemma get_uint64_unsigned t : t <> [] -> wf t ->
  get_uint64 t = match unsigned_value t with Some v => Ok (v mod 2 ^ 64) | None => Err (EMsg "illegal data") end.
Proof.
  intros Hn Hw. destruct t as [|b d]; [congruence|]. apply wf_cons in Hw as [Hb Hd].
  rewrite get_uint64_spec by assumption. unfold unsigned_value.
  destruct (b <? 0x80). { destruct (N.testbit b 6); [reflexivity|]. f_equal. symmetry. apply N.mod_small.
    pose proof (N.mod_lt b 64). change (2 ^ 64) with 18446744073709551616. lia. }
  destruct (b <? 0xC0); [|reflexivity]. now destruct (N.testbit b 4).
Qed.
Lemma get_uint8_unsigned t : t <> [] -> wf t ->
  get_uint8 t = match unsigned_value t with Some v => Ok (v mod 256) | None => Err (EMsg "illegal data") end.
Proof.
  intros Hn Hw. unfold get_uint8. rewrite get_uint64_unsigned by assumption.
  destruct (unsigned_value t); cbn [narrow]; [|reflexivity]. now rewrite mod_mod_256.
Qed.
Lemma get_uint32_unsigned t : t <> [] -> wf t ->
  get_uint32 t = match unsigned_value t with Some v => Ok (v mod 2 ^ 32) | None => Err (EMsg "illegal data") end.
Proof.
  intros Hn Hw. unfold get_uint32. rewrite get_uint64_unsigned by assumption.
  destruct (unsigned_value t); cbn [narrow]; [|reflexivity]. now rewrite mod_mod_32.
Qed.

Lemma get_token_nat r (i : nat) : get_token r (Z.of_nat i) = Ok (nth_error (r_tokens r) i).
Proof.
  unfold get_token, get_token_count. destruct (Z.leb_spec (Z.of_nat (List.length (r_tokens r))) (Z.of_nat i)) as [H|H].
  - f_equal. symmetry. apply nth_error_None. lia.
  - destruct (Z.ltb_spec (Z.of_nat i) 0); [lia|]. now rewrite Nat2Z.id.
Qed.
Lemma get_token_neg r i : (i < 0)%Z -> get_token r i = Panic.
Proof.
  intros H. unfold get_token, get_token_count. destruct (Z.leb_spec (Z.of_nat (List.length (r_tokens r))) i); [lia|].
  destruct (Z.ltb_spec i 0); [reflexivity|lia].
Qed.

(** last five tokens *)
Lemma last5 {A} (l : list A) : (5 <= List.length l)%nat ->
  exists pre a b c d e, l = pre ++ [a; b; c; d; e].
Proof.
  intros H. exists (firstn (List.length l - 5) l).
  pose proof (firstn_skipn (List.length l - 5) l) as E.
  assert (L : List.length (skipn (List.length l - 5) l) = 5%nat) by (rewrite skipn_length; lia).
  destruct (skipn (List.length l - 5) l) as [|a [|b [|c [|d [|e [|]]]]]]; try discriminate.
  exists a, b, c, d, e. now symmetry.
Qed.
Lemma nth_error_mid {A} (pre : list A) x suf : nth_error (pre ++ x :: suf) (List.length pre) = Some x.
Proof. rewrite nth_error_app2, Nat.sub_diag by lia. reflexivity. Qed.

Lemma has_payload_iff resp : has_payload (r_buf resp) <-> is_zero32 16 resp || is_zero32 40 resp || is_zero32 52 resp = false.
Proof.
  unfold has_payload, is_zero32, off_cp_len, off_pkt_len, off_sub_len.
  rewrite !orb_false_iff, !N.eqb_neq. tauto.
Qed.

Lemma Forall_In {A} (P : A -> Prop) l x : Forall P l -> In x l -> P x.
Proof. rewrite Forall_forall. auto. Qed.

(** complete description of the checks *)
Lemma check_response_cases resp : tokens_ok resp ->
  (~ has_payload (r_buf resp) -> check_response resp = Ok (Some resp, Some EIllegalResponse)) /\
  (has_payload (r_buf resp) -> r_tokens resp = [] -> check_response resp = Ok (Some resp, Some EIllegalResponse)) /\
  (has_payload (r_buf resp) -> is_eos (r_tokens resp) -> check_response resp = Ok (Some resp, None)) /\
  (has_payload (r_buf resp) -> ~ is_eos (r_tokens resp) -> (1 <= List.length (r_tokens resp) <= 4)%nat -> check_response resp = Panic) /\
  (has_payload (r_buf resp) -> ~ is_eos (r_tokens resp) -> (5 <= List.length (r_tokens resp))%nat ->
     (~ (exists s, ends_with_status (r_tokens resp) s) -> check_response resp = Ok (Some resp, Some EIllegalResponse)) /\
     (forall s, ends_with_status (r_tokens resp) s ->
        check_response resp = match unsigned_value s with
                              | Some v => if v mod 256 =? 0 then Ok (Some resp, None) else Ok (Some resp, Some (ETcg (v mod 256)))
                              | None => Ok (Some resp, Some (EMsg "illegal data"))
                              end)).
Proof.
  intros Ht. unfold check_response. rewrite has_payload_iff.
  destruct (is_zero32 16 resp || is_zero32 40 resp || is_zero32 52 resp) eqn:Hz.
  { split; [reflexivity|]. repeat split; intros; discriminate. }
  split; [congruence|].
  change 0%Z with (Z.of_nat 0). rewrite get_token_nat.
  destruct (r_tokens resp) as [|t0 rest] eqn:Etok.
  { split; [reflexivity|]. split; [intros _ (t & r' & ? & _); discriminate|].
    split; [intros _ _ ?; cbn in *; lia|]. intros _ _ ?; cbn in *; lia. }
  split; [discriminate|]. cbn [nth_error].
  assert (Ht0 := Forall_In _ _ t0 Ht ltac:(rewrite Etok; now left)). cbv beta in Ht0. destruct Ht0 as [Hn0 Hw0].
  destruct t0 as [|b0 d0]; [congruence|]. apply wf_cons in Hw0 as Hb0. destruct Hb0 as [Hb0 _].
  destruct (tok_type_lead b0 d0 0xFA Hb0 ltac:(lia)) as (ty & -> & Hty).
  change ENDOFSESSION with (Z.of_N 0xFA). rewrite Hty.
  assert (Heos : is_eos ((b0 :: d0) :: rest) <-> (b0 =? 0xFA) = true).
  { rewrite <- (lead_is_eqb b0 d0). unfold is_eos. split; [intros (t & r' & [= <- <-] & H); exact H|intros H; eauto]. }
  split.
  { intros _ H. apply Heos in H. now rewrite H. }
  split.
  { intros _ Hne Hl. destruct (b0 =? 0xFA) eqn:Eb; [tauto|].
    rewrite (get_token_neg _ (get_token_count resp - 5)); [now destruct (get_token resp (get_token_count resp - 1)) as [[]| | |]|].
    unfold get_token_count. rewrite Etok. lia. }
  intros _ Hne Hl. destruct (b0 =? 0xFA) eqn:Eb; [tauto|].
  destruct (last5 _ Hl) as (pre & a & b & c & d & e & El).
  assert (En : get_token_count resp = Z.of_nat (List.length pre + 5)).
  { unfold get_token_count. rewrite Etok, El, app_length. reflexivity. }
  rewrite En.
  assert (T1 : get_token resp (Z.of_nat (List.length pre + 5) - 1) = Ok (Some e)).
  { replace (Z.of_nat (List.length pre + 5) - 1)%Z with (Z.of_nat (List.length (pre ++ [a; b; c; d]))) by (rewrite app_length; cbn [List.length]; lia).
    rewrite get_token_nat, Etok, El. f_equal.
    change [a; b; c; d; e] with ([a; b; c; d] ++ [e]). rewrite app_assoc. apply nth_error_mid. }
  assert (T5 : get_token resp (Z.of_nat (List.length pre + 5) - 5) = Ok (Some a)).
  { replace (Z.of_nat (List.length pre + 5) - 5)%Z with (Z.of_nat (List.length pre)) by lia.
    rewrite get_token_nat, Etok, El. f_equal. apply nth_error_mid. }
  assert (T4 : get_token resp (Z.of_nat (List.length pre + 5) - 4) = Ok (Some b)).
  { replace (Z.of_nat (List.length pre + 5) - 4)%Z with (Z.of_nat (List.length (pre ++ [a]))) by (rewrite app_length; cbn [List.length]; lia).
    rewrite get_token_nat, Etok, El. f_equal. change [a; b; c; d; e] with ([a] ++ [b; c; d; e]). rewrite app_assoc. apply nth_error_mid. }
  rewrite T1, T5, T4.
  unfold tokens_ok in Ht. rewrite Etok, El in Ht. apply Forall_app in Ht as [_ Ht].
  inversion Ht as [|? ? [Hna Hwa] Ht1]; subst. inversion Ht1 as [|? ? [Hnb Hwb] Ht2]; subst.
  inversion Ht2 as [|? ? _ Ht3]; subst. inversion Ht3 as [|? ? _ Ht4]; subst. inversion Ht4 as [|? ? [Hne' Hwe] _]; subst.
  destruct a as [|ab ad]; [congruence|]. destruct e as [|eb ed]; [congruence|].
  apply wf_cons in Hwa as Ha. apply wf_cons in Hwe as He.
  destruct (tok_type_lead eb ed 0xF1 (proj1 He) ltac:(lia)) as (te & -> & Hte).
  destruct (tok_type_lead ab ad 0xF0 (proj1 Ha) ltac:(lia)) as (ta & -> & Hta).
  change ENDLIST with (Z.of_N 0xF1). change STARTLIST with (Z.of_N 0xF0). rewrite Hte, Hta.
  assert (Hends : forall s, ends_with_status (pre ++ [ab :: ad; b; c; d; eb :: ed]) s <-> s = b /\ (ab =? 0xF0) = true /\ (eb =? 0xF1) = true).
  { intros s. rewrite <- (lead_is_eqb ab ad), <- (lead_is_eqb eb ed). unfold ends_with_status. split.
    - intros (p & sl & x & y & el & Eq & H1 & H2).
      assert (List.length p = List.length pre) by (apply (f_equal (@List.length _)) in Eq; rewrite !app_length in Eq; cbn [List.length] in Eq; lia).
      assert (Q : p = pre /\ [sl; s; x; y; el] = [ab :: ad; b; c; d; eb :: ed]).
      { clear -Eq H. revert p Eq H. induction pre as [|z pre IH]; intros [|z' p] Eq H; try discriminate; cbn in *.
        - auto.
        - injection Eq as <- Eq. injection H as H. destruct (IH p Eq H) as [-> ?]. auto. }
      destruct Q as [_ Q]. injection Q as -> -> _ _ ->. auto.
    - intros (-> & H1 & H2). exists pre, (ab :: ad), c, d, (eb :: ed). auto. }
  rewrite El. split.
  - intros Hno. destruct (ab =? 0xF0) eqn:E1, (eb =? 0xF1) eqn:E2; cbn [negb orb]; try reflexivity.
    exfalso. apply Hno. exists b. apply Hends. auto.
  - intros s Hs. apply Hends in Hs as (-> & -> & ->). cbn [negb orb].
    rewrite get_uint8_unsigned by assumption. destruct (unsigned_value b); [|reflexivity].
    destruct (n mod 256 =? 0); reflexivity.
Qed.

(** ---- SendCommand: C22-C24 ---- *)
Lemma accepted_cases resp : tokens_ok resp ->
  (check_response resp = Ok (Some resp, None) <-> accepted resp) /\
  (has_payload (r_buf resp) -> (check_response resp = Panic <-> (1 <= List.length (r_tokens resp) <= 4)%nat /\ ~ is_eos (r_tokens resp))) /\
  ((exists e, check_response resp = Ok (Some resp, e)) \/ check_response resp = Panic).
Proof.
  intros Ht. destruct (check_response_cases resp Ht) as (A & B & C & D & F).
  assert (EosDec : is_eos (r_tokens resp) \/ ~ is_eos (r_tokens resp)).
  { destruct (r_tokens resp) as [|[|b d] rest].
    - right. intros (? & ? & ? & _); discriminate.
    - right. intros (? & ? & [= <- <-] & (? & ?)); discriminate.
    - destruct (N.eq_dec b 0xFA) as [->|Hn].
      + left. exists (0xFA :: d), rest. split; [reflexivity|]. now exists d.
      + right. intros (? & ? & [= <- <-] & (? & [= ? _])). congruence. }
  assert (EndDec : (exists s, ends_with_status (r_tokens resp) s) \/ ~ (exists s, ends_with_status (r_tokens resp) s)).
  { destruct (Nat.le_gt_cases 5 (List.length (r_tokens resp))) as [H5|H5].
    - destruct (last5 _ H5) as (pre & a & b & c & d & e & El).
      assert (Dec : forall t x, lead_is t x \/ ~ lead_is t x).
      { intros [|y t] x; [right; intros (? & ?); discriminate|]. destruct (N.eq_dec y x) as [->|Hn]; [left; now exists t|].
        right. intros (? & [= ? _]). congruence. }
      destruct (Dec a 0xF0) as [Ha|Ha], (Dec e 0xF1) as [He|He].
      1: left; exists b, pre, a, c, d, e; auto.
      all: right; intros (s & p & sl & x & y & el & Eq & H1 & H2); rewrite El in Eq;
        assert (Q : [sl; s; x; y; el] = [a; b; c; d; e]) by
         (apply (f_equal (@rev _)) in Eq; rewrite !rev_app_distr in Eq; cbn [rev app] in Eq; injection Eq; intros; subst; reflexivity);
        injection Q as -> -> -> -> ->; contradiction.
    - right. intros (s & p & sl & x & y & el & Eq & _). rewrite Eq, app_length in H5. cbn [List.length] in H5. lia. }
  destruct (is_zero32 16 resp || is_zero32 40 resp || is_zero32 52 resp) eqn:Hz.
  { assert (Hp : ~ has_payload (r_buf resp)) by (rewrite has_payload_iff; congruence).
    rewrite (A Hp). split; [split; [discriminate|intros [? _]; contradiction]|]. split; [intros; contradiction|]. left; eauto. }
  apply has_payload_iff in Hz.
  destruct (r_tokens resp) as [|t0 rest] eqn:Etok.
  { rewrite (B Hz eq_refl). split; [split; [discriminate|]|split].
    - intros (_ & [(? & ? & ? & _)|(s & v & (? & ? & ? & ? & ? & Eq & _) & _)]); rewrite Etok in *; [discriminate|].
      destruct x; discriminate.
    - intros _. split; [discriminate|]. cbn. intros [? _]; lia.
    - left; eauto. }
  rewrite <- Etok in *.
  destruct EosDec as [He|He].
  { rewrite (C Hz He). split; [split; [intros _; split; [assumption|now left]|reflexivity]|]. split; [intros _; split; [discriminate|intros [_ ?]; contradiction]|]. left; eauto. }
  destruct (Nat.le_gt_cases 5 (List.length (r_tokens resp))) as [H5|H5].
  - destruct (F Hz He H5) as [F1 F2]. destruct EndDec as [(s & Hs)|Hno].
    + rewrite (F2 s Hs). assert (Hu : forall s', ends_with_status (r_tokens resp) s' -> s' = s).
      { intros s' (p & sl & x & y & el & Eq & _ & _). destruct Hs as (p2 & sl2 & x2 & y2 & el2 & Eq2 & _ & _).
        rewrite Eq in Eq2. apply (f_equal (@rev _)) in Eq2. rewrite !rev_app_distr in Eq2. cbn [rev app] in Eq2. injection Eq2; auto. }
      split; [|split].
      * split.
        -- intros H. split; [assumption|]. right. exists s. destruct (unsigned_value s) as [v|]; [|discriminate].
           exists v. destruct (N.eqb_spec (v mod 256) 0); [auto|discriminate].
        -- intros (_ & [?|(s' & v & H1 & H2 & H3)]); [contradiction|]. rewrite (Hu s' H1) in H2. rewrite H2, H3. reflexivity.
      * intros _. split; [|lia]. destruct (unsigned_value s) as [v|]; [|discriminate]. destruct (v mod 256 =? 0); discriminate.
      * left. destruct (unsigned_value s) as [v|]; [|eauto]. destruct (v mod 256 =? 0); eauto.
    + rewrite (F1 Hno). split; [split; [discriminate|]|split].
      * intros (_ & [?|(s' & v & H1 & H2 & H3)]); [contradiction|]. exfalso. eauto.
      * intros _. split; [discriminate|lia].
      * left; eauto.
  - assert (Hlen : (1 <= List.length (r_tokens resp) <= 4)%nat) by (rewrite Etok in *; cbn [List.length] in *; lia).
    rewrite (D Hz He Hlen). split; [split; [discriminate|]|split].
    + intros (_ & [?|(s' & v & (p & sl & x & y & el & Eq & _) & _)]); [contradiction|]. rewrite Eq, app_length in H5. cbn [List.length] in H5. lia.
    + intros _. split; auto.
    + now right.
Qed.

Lemma send_unfold E d s c com h : get_base_com_id d = Ok com ->
  send_command E d s c h =
    match exec E d (stamp s com c) 1 h with
    | (h', Ok (_, Some e)) => (h', Ok (None, Some e))
    | (h', Ok (Some resp, None)) => (h', check_response resp)
    | (h', Ok (None, None)) => (h', Panic)
    | (h', Panic) => (h', Panic)
    | (h', Fuel) => (h', Fuel)
    | (h', Err e) => (h', Err e)
    end.
Proof. intros H. unfold send_command. now rewrite H. Qed.

Lemma exec_tokens_ok E d c com h h' resp : env_ok E -> get_base_com_id d = Ok com ->
  exec E d c 1 h = (h', Ok (Some resp, None)) -> tokens_ok resp.
Proof.
  intros HE Hc H. destruct (is_any_ssc d) eqn:Hs; [|rewrite c19_none in H by assumption; discriminate].
  destruct (exec_cases E d c com h h' _ HE Hs Hc H) as (k & t & _ & _ & [(o & e & X)|[X|(r & b & X & _ & _ & T)]]); try discriminate.
  injection X as <-. exact T.
Qed.

Lemma c22 E d s c com h h' o : env_ok E -> get_base_com_id d = Ok com ->
  (send_command E d s c h = (h', Ok (o, None)) <->
   exists resp, o = Some resp /\ exec E d (stamp s com c) 1 h = (h', Ok (Some resp, None)) /\ accepted resp).
Proof.
  intros HE Hc. rewrite (send_unfold E d s c com h Hc).
  destruct (exec E d (stamp s com c) 1 h) as [h1 [[[resp|] [e|]]|e| |]] eqn:Ex;
    try (split; [intros X; inversion X|intros (r & _ & X & _); inversion X]; fail).
  - pose proof (exec_tokens_ok E d _ com h h1 resp HE Hc Ex) as Ht.
    destruct (accepted_cases resp Ht) as (A & _ & C). split.
    + intros H. destruct C as [(e & C)|C]; rewrite C in H; inversion H; subst. exists resp. split; [reflexivity|].
      split; [reflexivity|]. apply A. exact C.
    + intros (r & -> & [= <- <-] & Ha). apply A in Ha. rewrite Ha. reflexivity.
Qed.

Lemma c23 E d s c com h h' resp : env_ok E -> get_base_com_id d = Ok com ->
  exec E d (stamp s com c) 1 h = (h', Ok (Some resp, None)) -> has_payload (r_buf resp) ->
  fst (send_command E d s c h) = h' /\
  (snd (send_command E d s c h) = Panic <-> (1 <= List.length (r_tokens resp) <= 4)%nat /\ ~ is_eos (r_tokens resp)).
Proof.
  intros HE Hc Ex Hp. rewrite (send_unfold E d s c com h Hc), Ex. cbn [fst snd]. split; [reflexivity|].
  pose proof (exec_tokens_ok E d _ com h h' resp HE Hc Ex) as Ht. destruct (accepted_cases resp Ht) as (_ & B & _). auto.
Qed.

Lemma c24 E d s c com h h' resp st v : env_ok E -> get_base_com_id d = Ok com ->
  exec E d (stamp s com c) 1 h = (h', Ok (Some resp, None)) -> has_payload (r_buf resp) ->
  ~ is_eos (r_tokens resp) -> ends_with_status (r_tokens resp) st -> unsigned_value st = Some v -> 1 <= v <= 255 ->
  send_command E d s c h = (h', Ok (Some resp, Some (ETcg v))).
Proof.
  intros HE Hc Ex Hp Hn Hs Hv Hr. rewrite (send_unfold E d s c com h Hc), Ex. f_equal.
  pose proof (exec_tokens_ok E d _ com h h' resp HE Hc Ex) as Ht.
  destruct (check_response_cases resp Ht) as (_ & _ & _ & _ & F).
  assert (H5 : (5 <= List.length (r_tokens resp))%nat).
  { destruct Hs as (p & sl & x & y & el & Eq & _). rewrite Eq, app_length. cbn [List.length]. lia. }
  destruct (F Hp Hn H5) as [_ F2]. rewrite (F2 st Hs), Hv. rewrite (N.mod_small v) by lia.
  destruct (N.eqb_spec v 0); [lia|reflexivity].
Qed.

(** ---- C21: Enterprise ---- *)
Lemma ent_not_ssc d : d_kind d = KEnterprise -> is_any_ssc d = false.
Proof. unfold is_any_ssc. now intros ->. Qed.
Lemma send_not_ssc E d s c com h : is_any_ssc d = false -> get_base_com_id d = Ok com ->
  send_command E d s c h = (h ++ [EvNow], Ok (None, Some (EMsg "not supported"))).
Proof. intros Hs Hc. rewrite (send_unfold E d s c com h Hc), c19_none by assumption. reflexivity. Qed.

Lemma c21 E d com : d_kind d = KEnterprise -> get_base_com_id d = Ok com ->
  (forall c proto h, exec E d c proto h = (h ++ [EvNow], Ok (None, Some (EMsg "not supported")))) /\
  (forall s c h, send_command E d s c h = (h ++ [EvNow], Ok (None, Some (EMsg "not supported")))) /\
  (forall s sp ch a h, session_start E d s sp ch a h = (s, h ++ [EvNow], Err (EMsg "not supported"))) /\
  (forall s a ch h, authenticate E d s a ch h = (h ++ [EvNow], Err (EMsg "not supported"))) /\
  (forall pw ps ad h, revert_tper E d pw ps ad h = (h ++ [EvNow], Err (EMsg "not supported"))) /\
  (forall s tb a b h, ent_get_table E d s tb a b h = (h ++ [EvNow], Ok (None, Some (EMsg "not supported")))) /\
  (forall h, get_default_password E d h = (h ++ [EvNow], Err (EMsg "not supported"))).
Proof.
  intros Hk Hc. assert (Hs := ent_not_ssc d Hk).
  assert (S : forall s c h, send_command E d s c h = (h ++ [EvNow], Ok (None, Some (EMsg "not supported"))))
    by (intros; eapply send_not_ssc; eassumption).
  assert (T : forall s sp ch a h, session_start E d s sp ch a h = (s, h ++ [EvNow], Err (EMsg "not supported"))).
  { intros. unfold session_start. rewrite S. reflexivity. }
  repeat split; intros; auto.
  - now apply c19_none.
  - unfold authenticate. now rewrite S.
  - unfold revert_tper, ent_revert_tper. rewrite Hk. destruct ps; now rewrite T.
  - unfold ent_get_table. apply S.
  - unfold get_default_password, ent_get_default_password. rewrite Hk. now rewrite T.
Qed.

(** ---- C25 ---- *)
Lemma start_opened E d s sp ch a h : s_opened (fst (fst (session_start E d s sp ch a h))) = s_opened s.
Proof.
  unfold session_start.
  destruct (send_command E d s (start_command E d s sp ch (authority_bytes a)) h) as [h1 [[[resp|] [e|]]|e| |]]; try reflexivity.
  destruct (get_token resp 4) as [[t4|]| | |], (get_token resp 5) as [[t5|]| | |]; try reflexivity.
  destruct (get_uint32 t4) as [v| | |]; try reflexivity. destruct (get_uint32 t5) as [v2| | |]; try reflexivity.
  destruct (negb (List.length ch =? 0)%nat && is_enterprise d); [|reflexivity].
  destruct (authenticate E d (set_tsn_num (set_hsn_num s (byte_swap32 v)) (byte_swap32 v2)) (authority_bytes a) ch h1). reflexivity.
Qed.
Lemma sstep_opened E d s h o : s_opened s = false -> s_opened (fst (fst (sstep E d (s, h) o))) = false.
Proof.
  intros H. destruct o as [sp ch a|au ch|c|b| |ms| ]; cbn [sstep]; try assumption.
  - now rewrite start_opened.
  - destruct (authenticate E d s au ch h). assumption.
  - destruct (send_command E d s c h). assumption.
  - unfold session_close. rewrite H, andb_false_r. assumption.
Qed.
Lemma srun_opened E d : forall ops s h, s_opened s = false -> s_opened (fst (srun E d (s, h) ops)) = false.
Proof.
  induction ops as [|o ops IH]; intros s h H; cbn [srun fold_left fst]; [assumption|].
  pose proof (sstep_opened E d s h o H) as X. destruct (sstep E d (s, h) o) as [[s1 h1] r]. cbn [fst] in *. apply IH. exact X.
Qed.
Lemma c25 E d ops h0 s h : srun E d (new_session, h0) ops = (s, h) -> session_close s h = (s, h, Ok tt).
Proof.
  intros H. pose proof (srun_opened E d ops new_session h0 eq_refl) as X. rewrite H in X. cbn [fst] in X.
  unfold session_close. now rewrite X, andb_false_r.
Qed.

(** ---- frames ---- *)
Lemma put_app_l off d a b : (off + List.length d <= List.length a)%nat -> put off d (a ++ b) = put off d a ++ b.
Proof.
  intros H. unfold put. rewrite firstn_app, skipn_app.
  replace (off - List.length a)%nat with 0%nat by lia.
  replace (off + List.length d - List.length a)%nat with 0%nat by lia. cbn [firstn skipn].
  rewrite app_nil_r, <- !app_assoc. reflexivity.
Qed.

Lemma be4 v : exists a b c d, be_bytes 4 v = [a; b; c; d].
Proof. pose proof (be_bytes_length 4 v) as L. destruct (be_bytes 4 v) as [|a [|b [|c [|d [|]]]]]; try discriminate. now exists a, b, c, d. Qed.
Lemma be2 v : exists a b, be_bytes 2 v = [a; b].
Proof. pose proof (be_bytes_length 2 v) as L. destruct (be_bytes 2 v) as [|a [|b [|]]]; try discriminate. now exists a, b. Qed.
Lemma frame_header_length h t c p : List.length (frame_header h t c p) = 56%nat.
Proof. unfold frame_header. rewrite !app_length, !be_bytes_length, !zeros_length. reflexivity. Qed.

Lemma stamp_header n hv tv com (hs ts : bytes) pl : n = blen pl ->
  hs = be_bytes 4 hv -> ts = be_bytes 4 tv ->
  put 4 (be_bytes 2 com ++ [0; 0]) (put 20 ts (put 24 hs (header_with_lengths n (zeros 56)))) = frame_header hv tv com pl.
Proof.
  intros -> -> ->. unfold frame_header, header_with_lengths.
  destruct (be4 hv) as (h1 & h2 & h3 & h4 & ->). destruct (be4 tv) as (t1 & t2 & t3 & t4 & ->).
  destruct (be2 com) as (c1 & c2 & ->).
  destruct (be4 (pad4 (blen pl) + 36)) as (l1 & l2 & l3 & l4 & ->).
  destruct (be4 (pad4 (blen pl) + 12)) as (m1 & m2 & m3 & m4 & ->).
  destruct (be4 (blen pl)) as (s1 & s2 & s3 & s4 & ->). reflexivity.
Qed.

Lemma firstn_zeros_pad n (a : bytes) k : (n <= List.length a + k)%nat -> firstn n (a ++ zeros k) = firstn n (a ++ zeros n).
Proof.
  intros H. rewrite !firstn_app. f_equal.
  assert (G : forall i j, (i <= j)%nat -> firstn i (zeros j) = zeros i).
  { clear. induction i as [|i IH]; intros j Hj; [reflexivity|]. destruct j as [|j]; [lia|]. cbn. f_equal. apply IH. lia. }
  rewrite !G by lia. reflexivity.
Qed.

Lemma le_be_swap v : le_bytes 4 (be_val (le_bytes 4 v) mod 2 ^ 32) = be_bytes 4 v.
Proof.
  pose proof (le_bytes_wf 4 v) as W. pose proof (le_bytes_length 4 v) as L.
  assert (B : be_val (le_bytes 4 v) < 2 ^ 32).
  { pose proof (be_val_lt _ W) as X. unfold blen in X. rewrite L in X. exact X. }
  rewrite N.mod_small by assumption.
  pose proof (be_bytes_val _ W) as X. rewrite L in X. unfold be_bytes in *.
  rewrite <- X. rewrite rev_involutive, be_val_rev. rewrite le_val_bytes. 
  change (256 ^ N.of_nat 4) with (2 ^ 32). rewrite N.mod_small by assumption. reflexivity.
Qed.
Lemma numbers_new : numbers new_session 0 0.
Proof. split; reflexivity. Qed.

Lemma stamp_fields s com c hv tv : numbers s hv tv -> com < 2 ^ 16 ->
  a_data (stamp s com c) = put 4 (be_bytes 2 com ++ [0; 0]) (put 20 (be_bytes 4 tv) (put 24 (be_bytes 4 hv) (a_data c)))
  /\ a_wpos (stamp s com c) = a_wpos c.
Proof.
  intros [Hh Ht] Hc. split; [|reflexivity]. unfold stamp, set_com_id, set_tsn, set_hsn. cbn [with_data a_data].
  rewrite comid_bytes by assumption. rewrite Hh, Ht, !le_be_swap. reflexivity.
Qed.

Lemma framed c hv tv com s pl : a_wpos c = 56%nat ->
  a_data c = header_with_lengths (blen pl) (zeros 56) ++ pl ++ zeros (PCAP - List.length pl) ->
  (List.length pl <= PCAP)%nat -> numbers s hv tv -> com < 2 ^ 16 ->
  cmd_slice (stamp s com c) = frame hv tv com pl.
Proof.
  intros Hw Hd Hl Hn Hc. destruct (stamp_fields s com c hv tv Hn Hc) as [Sd Sw].
  unfold cmd_slice. rewrite get_cmd_size_56 by congruence. rewrite Sd, Hd.
  assert (L0 : List.length (header_with_lengths (blen pl) (zeros 56)) = 56%nat) by (apply header_with_lengths_length; reflexivity).
  assert (L1 : List.length (put 24 (be_bytes 4 hv) (header_with_lengths (blen pl) (zeros 56))) = 56%nat)
    by (rewrite put_length; rewrite ?be_bytes_length; lia).
  assert (L2 : List.length (put 20 (be_bytes 4 tv) (put 24 (be_bytes 4 hv) (header_with_lengths (blen pl) (zeros 56)))) = 56%nat)
    by (rewrite put_length; rewrite ?be_bytes_length; lia).
  rewrite put_app_l by (rewrite be_bytes_length; lia).
  rewrite put_app_l by (rewrite be_bytes_length; lia).
  rewrite put_app_l by (rewrite app_length, be_bytes_length; cbn [List.length]; lia).
  rewrite (stamp_header (blen pl) hv tv com _ _ pl eq_refl eq_refl eq_refl).
  unfold frame. change (N.to_nat 512) with 512%nat. rewrite !app_assoc. apply firstn_zeros_pad.
  rewrite app_length, frame_header_length. rewrite PCAP_val in *. lia.
Qed.

Lemma build_data i m ops : match i with IOther => False | _ => True end ->
  Forall call_ok ops ->
  let pl := init_bytes i (MMethod m) ++ concat (map call_bytes ops) in
  (List.length pl + 6 <= PCAP)%nat ->
  a_wpos (build i m ops) = 56%nat /\
  a_data (build i m ops) = header_with_lengths (blen (pl ++ status_trailer)) (zeros 56) ++ (pl ++ status_trailer)
                           ++ zeros (PCAP - List.length (pl ++ status_trailer)).
Proof.
  intros Hi Hok pl Hl. unfold build.
  destruct (init_holds new_command i (MMethod m) cmd_wf_new) as (A & _ & _).
  destruct (crun_holds ops _ _ _ A Hok) as [B _]. fold pl in B.
  rewrite (firstn_all2 pl) in B by lia.
  destruct (complete_holds _ _ _ None B) as (c' & C & Cw & Cd & _).
  { cbn [trailer_of]. change (List.length status_trailer) with 6%nat. lia. }
  rewrite C. cbn [fst]. split; [exact Cw|]. exact Cd.
Qed.

Lemma build_framed i m ops hv tv com s : match i with IOther => False | _ => True end ->
  Forall call_ok ops ->
  let pl := init_bytes i (MMethod m) ++ concat (map call_bytes ops) in
  (List.length pl + 6 <= PCAP)%nat -> numbers s hv tv -> com < 2 ^ 16 ->
  cmd_slice (stamp s com (build i m ops)) = frame hv tv com (pl ++ status_trailer).
Proof.
  intros Hi Hok pl Hl Hn Hc. destruct (build_data i m ops Hi Hok Hl) as [A B].
  apply framed; auto. rewrite app_length. change (List.length status_trailer) with 6%nat. fold pl. lia.
Qed.

Lemma send_sends E d s c com h h' r : env_ok E -> is_any_ssc d = true -> get_base_com_id d = Ok com ->
  send_command E d s c h = (h', r) ->
  exists t, h' = h ++ t /\ sends t = [cmd_slice (stamp s com c)].
Proof.
  intros HE Hs Hc H. rewrite (send_unfold E d s c com h Hc) in H.
  destruct (exec E d (stamp s com c) 1 h) as [h1 r1] eqn:Ex.
  destruct (exec_cases E d _ com h h1 r1 HE Hs Hc Ex) as (k & t & -> & T & _).
  exists t. split; [|now apply io_tail_sends in T].
  destruct r1 as [[[resp|] [e|]]|e| |]; inversion H; reflexivity.
Qed.

(** ---- payloads ---- *)
Lemma string_bytes_credential t : string_bytes t None = credential_atom t.
Proof.
  unfold credential_atom. destruct (N.eqb_spec (blen t) 0) as [H|H].
  - unfold string_bytes. rewrite H. reflexivity.
  - destruct (N.ltb_spec (blen t) 2048) as [H2|H2].
    + apply string_bytes_atom. lia.
    + unfold string_bytes. destruct (N.eqb_spec (blen t) 0); [lia|]. destruct (N.ltb_spec (blen t) 2048); [lia|reflexivity].
Qed.
Lemma string_bytes_declared t : string_bytes t (Some (Z.of_nat (List.length t))) = credential_atom t.
Proof.
  rewrite <- string_bytes_credential. unfold string_bytes. destruct (Z.ltb_spec (Z.of_nat (List.length t)) 0); [lia|].
  replace (Z.to_N (Z.of_nat (List.length t))) with (blen t) by (unfold blen; lia). reflexivity.
Qed.
Lemma credential_atom_length t : (List.length (credential_atom t) <= 2050)%nat.
Proof.
  unfold credential_atom. destruct (blen t =? 0); [cbn; lia|]. destruct (N.ltb_spec (blen t) 2048) as [H|H]; [|cbn; lia].
  unfold string_atom. unfold blen in H. destruct (blen t <? 16); cbn [encode List.length]; lia.
Qed.

Lemma hashed_eq E serial ch : env_ok E ->
  tcg_hash_password (e_pbkdf2 E) serial false ch = [0xD0; 32] ++ e_pbkdf2 E (firstn 32 ch) serial
  /\ wf (tcg_hash_password (e_pbkdf2 E) serial false ch)
  /\ List.length (tcg_hash_password (e_pbkdf2 E) serial false ch) = 34%nat.
Proof.
  intros (_ & _ & H). destruct (c15 (e_pbkdf2 E) serial (fun p s => proj1 (H p s))) as (_ & A & _).
  rewrite A. split; [reflexivity|]. destruct (H (firstn 32 ch) serial) as [L W]. split.
  - cbn [app]. repeat (apply wf_cons; split; [lia|]). assumption.
  - cbn [app List.length]. now rewrite L.
Qed.

Lemma not_enterprise d : is_any_ssc d = true -> is_enterprise d = false.
Proof. unfold is_any_ssc, is_enterprise, get_device_type. now destruct (d_kind d). Qed.

Lemma start_framed E d s sp ch auth hv tv com :
  env_ok E -> is_any_ssc d = true -> numbers s hv tv -> com < 2 ^ 16 ->
  wf sp -> List.length sp = 8%nat -> wf ch -> wf auth -> blen auth <= 50000 ->
  cmd_slice (stamp s com (start_command E d s sp ch auth))
  = frame hv tv com (start_payload sp (credential_of (e_pbkdf2 E) (get_serial d) (s_nohash s) ch) auth).
Proof.
  intros HE Hs Hn Hc Wsp Lsp Wch Wau Lau. unfold start_command. rewrite (not_enterprise d Hs).
  destruct (hashed_eq E (get_serial d) ch HE) as (Eh & Wh & Lh).
  set (hashed := tcg_hash_password (e_pbkdf2 E) (get_serial d) false ch) in *.
  rewrite (build_framed (IUid SMUID_UID) M_STARTSESSION _ hv tv com s I).
  - f_equal. unfold start_payload, method_call, credential_of.
    destruct ch as [|x ch'].
    + cbn [List.length Nat.eqb negb andb app map concat call_bytes init_bytes]. rewrite <- ?app_assoc. cbn [app]. rewrite <- ?app_assoc. reflexivity.
    + remember (x :: ch') as ch. replace (negb (List.length ch =? 0)%nat) with true by (subst ch; reflexivity).
      cbn [negb andb].
      rewrite !map_app, !concat_app. cbn [map concat call_bytes].
      replace (call_bytes (if negb (s_nohash s) then CStr hashed None else CStr ch None))
        with (credential_atom (if s_nohash s then ch else [0xD0; 32] ++ e_pbkdf2 E (firstn 32 ch) (get_serial d))).
      2:{ rewrite <- Eh. destruct (s_nohash s); cbn [negb call_bytes]; now rewrite string_bytes_credential. }
      set (K := credential_atom _). cbn [init_bytes]. rewrite app_nil_r.
      rewrite <- ?app_assoc. cbn [app]. rewrite <- ?app_assoc. cbn [app]. reflexivity.
  - apply Forall_app. split; [repeat (apply Forall_cons; [first [exact I | split; assumption | reflexivity]|]); apply Forall_nil|].
    apply Forall_app. split; [|apply Forall_app; split; [apply Forall_nil|repeat constructor]].
    destruct (negb (List.length ch =? 0)%nat && negb false); [|apply Forall_nil].
    repeat (apply Forall_cons; [first [exact I | destruct (s_nohash s); assumption | assumption]|]). apply Forall_nil.
  - rewrite app_length, !map_app, !concat_app, !app_length.
    assert (L1 : List.length (init_bytes (IUid SMUID_UID) (MMethod M_STARTSESSION)) = 19%nat) by reflexivity.
    rewrite L1.
    assert (L0 : List.length (concat (map call_bytes [opt_tok STARTLIST; CNum 105; CTok (TOpalUID sp); tiny_tok UINT_01])) = 13%nat).
    { change (List.length ([240] ++ [0x81; 105] ++ (0xA8 :: sp) ++ [1] ++ []) = 13%nat). rewrite !app_length. cbn [List.length]. lia. }
    rewrite L0. clear L0.
    assert (L2 : (List.length (concat (map call_bytes (if negb (List.length ch =? 0)%nat && negb false then
          [opt_tok STARTNAME; tiny_tok UINT_00; if negb (s_nohash s) then CStr hashed None else CStr ch None; opt_tok ENDNAME;
           opt_tok STARTNAME; tiny_tok UINT_03; CRaw auth; opt_tok ENDNAME] else []))) <= 2060 + List.length auth)%nat).
    { destruct (negb (List.length ch =? 0)%nat && negb false); [|apply Nat.le_0_l].
      cbn [map concat call_bytes opt_tok tiny_tok]. rewrite !app_length.
      destruct (s_nohash s); cbn [negb call_bytes]; rewrite string_bytes_credential; cbn [List.length];
        [pose proof (credential_atom_length ch) | pose proof (credential_atom_length hashed)]; lia. }
    match type of L2 with (?x <= _)%nat => set (Q := x) in * end.
    unfold blen in Lau. rewrite PCAP_val. cbn [map concat List.length opt_tok call_bytes app]. lia.
  - assumption.
  - assumption.
Qed.

Lemma auth_framed E d s ch auth hv tv com :
  env_ok E -> is_any_ssc d = true -> numbers s hv tv -> com < 2 ^ 16 -> wf ch -> wf auth -> blen auth <= 50000 ->
  cmd_slice (stamp s com (authenticate_command E d s auth ch))
  = frame hv tv com (authenticate_payload auth (credential_of (e_pbkdf2 E) (get_serial d) (s_nohash s) ch)).
Proof.
  intros HE Hs Hn Hc Wch Wau Lau. unfold authenticate_command. rewrite (not_enterprise d Hs). cbn [ternary].
  destruct (hashed_eq E (get_serial d) ch HE) as (Eh & Wh & Lh).
  set (hashed := tcg_hash_password (e_pbkdf2 E) (get_serial d) false ch) in *.
  rewrite (build_framed (IUid THISSP_UID) M_AUTHENTICATE _ hv tv com s I).
  - f_equal. unfold authenticate_payload, method_call, credential_of.
    destruct ch as [|x ch'].
    + cbn [List.length Nat.eqb negb andb app map concat call_bytes init_bytes]. rewrite <- ?app_assoc. cbn [app]. rewrite <- ?app_assoc. reflexivity.
    + remember (x :: ch') as ch. replace (negb (List.length ch =? 0)%nat) with true by (subst ch; reflexivity).
      rewrite !map_app, !concat_app. cbn [map concat call_bytes].
      replace (call_bytes (if negb (s_nohash s) then CStr hashed (Some (Z.of_nat (List.length hashed))) else CStr ch (Some (Z.of_nat (List.length ch)))))
        with (credential_atom (if s_nohash s then ch else [0xD0; 32] ++ e_pbkdf2 E (firstn 32 ch) (get_serial d))).
      2:{ rewrite <- Eh. destruct (s_nohash s); cbn [negb call_bytes]; now rewrite string_bytes_declared. }
      set (K := credential_atom _). cbn [init_bytes]. rewrite app_nil_r.
      rewrite <- ?app_assoc. cbn [app]. rewrite <- ?app_assoc. cbn [app]. reflexivity.
  - apply Forall_app. split; [repeat (apply Forall_cons; [first [exact I | assumption]|]); apply Forall_nil|].
    apply Forall_app. split; [|repeat constructor].
    destruct (negb (List.length ch =? 0)%nat); [|apply Forall_nil].
    repeat (apply Forall_cons; [first [exact I | destruct (s_nohash s); assumption | assumption]|]). apply Forall_nil.
  - rewrite app_length, !map_app, !concat_app, !app_length.
    assert (L1 : List.length (init_bytes (IUid THISSP_UID) (MMethod M_AUTHENTICATE)) = 19%nat) by reflexivity.
    rewrite L1.
    assert (L0 : List.length (concat (map call_bytes [opt_tok STARTLIST; CRaw auth])) = (1 + List.length auth)%nat).
    { change (List.length ([240] ++ auth ++ []) = (1 + List.length auth)%nat). rewrite !app_length. cbn [List.length]. lia. }
    rewrite L0. clear L0.
    assert (L2 : (List.length (concat (map call_bytes (if negb (List.length ch =? 0)%nat then
          [opt_tok STARTNAME; tiny_tok UINT_00; if negb (s_nohash s) then CStr hashed (Some (Z.of_nat (List.length hashed))) else CStr ch (Some (Z.of_nat (List.length ch))); opt_tok ENDNAME] else []))) <= 2060)%nat).
    { destruct (negb (List.length ch =? 0)%nat); [|apply Nat.le_0_l].
      cbn [map concat call_bytes opt_tok tiny_tok]. rewrite !app_length.
      destruct (s_nohash s); cbn [negb call_bytes]; rewrite string_bytes_declared; cbn [List.length];
        [pose proof (credential_atom_length ch) | pose proof (credential_atom_length hashed)]; lia. }
    match type of L2 with (?x <= _)%nat => set (Q := x) in * end.
    unfold blen in Lau. rewrite PCAP_val. cbn [map concat List.length opt_tok call_bytes app]. lia.
  - assumption.
  - assumption.
Qed.

Lemma revert_framed s hv tv com : numbers s hv tv -> com < 2 ^ 16 ->
  cmd_slice (stamp s com revert_command) = frame hv tv com revert_payload.
Proof.
  intros Hn Hc. unfold revert_command. rewrite (build_framed (IUid ADMINSP_UID) M_REVERT _ hv tv com s I); try assumption.
  - reflexivity.
  - repeat constructor.
  - match goal with |- (List.length ?x + 6 <= _)%nat => replace (List.length x) with 21%nat by reflexivity end.
    rewrite PCAP_val. lia.
Qed.

Lemma number_atom_length v : (List.length (encode (number_atom v)) <= 9)%nat.
Proof.
  unfold number_atom. destruct (v <? 64); [cbn; lia|].
  destruct (v <? 2 ^ 8); [cbn [encode List.length]; rewrite be_bytes_length; lia|].
  destruct (v <? 2 ^ 16); [cbn [encode List.length]; rewrite be_bytes_length; lia|].
  destruct (v <? 2 ^ 32); cbn [encode List.length]; rewrite be_bytes_length; lia.
Qed.

Lemma get_framed s hv tv com table a b : numbers s hv tv -> com < 2 ^ 16 -> wf table -> blen table <= 50000 ->
  a < 2 ^ 16 -> b < 2 ^ 16 ->
  cmd_slice (stamp s com (get_table_command table a b)) = frame hv tv com (get_payload table a b).
Proof.
  intros Hn Hc Wt Lt Ha Hb. unfold get_table_command.
  change (2 ^ 16) with 65536 in Ha, Hb.
  rewrite (build_framed (IBuf table) M_GET _ hv tv com s I); try assumption.
  - f_equal. unfold get_payload, method_call. cbn [map concat call_bytes init_bytes opt_tok].
    unfold uid8, init_bytes. change mth_Get with M_GET. repeat (progress (rewrite <- ?app_assoc; cbn [app])). reflexivity.
  - repeat (apply Forall_cons; [first [exact I | cbn [call_ok]; change (2 ^ 64) with 18446744073709551616; lia]|]). apply Forall_nil.
  - unfold init_bytes. cbn [map concat call_bytes opt_tok]. rewrite !app_length.
    pose proof (number_atom_length a). pose proof (number_atom_length b).
    unfold blen in Lt. rewrite PCAP_val. cbn [List.length M_GET]. lia.
Qed.

(** ---- Start on an Opal device ---- *)
Lemma start_unfold E d s sp ch a h : is_any_ssc d = true ->
  session_start E d s sp ch a h =
  match send_command E d s (start_command E d s sp ch (authority_bytes a)) h with
  | (h', Ok (_, Some e)) => (s, h', Err e)
  | (h', Ok (Some resp, None)) =>
    match get_token resp 4, get_token resp 5 with
    | Ok (Some hsnToken), Ok (Some tsnToken) =>
      match get_uint32 hsnToken with
      | Ok temp =>
        let s1 := set_hsn_num s (byte_swap32 temp) in
        match get_uint32 tsnToken with
        | Ok temp2 => (set_tsn_num s1 (byte_swap32 temp2), h', Ok tt)
        | Err e => (s1, h', Err e) | Panic => (s1, h', Panic) | Fuel => (s1, h', Fuel)
        end
      | Err e => (s, h', Err e) | Panic => (s, h', Panic) | Fuel => (s, h', Fuel)
      end
    | Ok _, Ok _ => (s, h', Err EIllegalResponse)
    | _, _ => (s, h', Panic)
    end
  | (h', Ok (None, None)) => (s, h', Panic)
  | (h', Err e) => (s, h', Err e)
  | (h', Panic) => (s, h', Panic)
  | (h', Fuel) => (s, h', Fuel)
  end.
Proof.
  intros Hs. unfold session_start. rewrite (not_enterprise d Hs). rewrite andb_false_r. reflexivity.
Qed.

Lemma start_hist E d s sp ch a h : is_any_ssc d = true ->
  snd (fst (session_start E d s sp ch a h)) = fst (send_command E d s (start_command E d s sp ch (authority_bytes a)) h).
Proof.
  intros Hs. rewrite start_unfold by assumption.
  destruct (send_command E d s (start_command E d s sp ch (authority_bytes a)) h) as [h1 [[[resp|] [e|]]|e| |]]; try reflexivity.
  destruct (get_token resp 4) as [[t4|]| | |], (get_token resp 5) as [[t5|]| | |]; try reflexivity.
  destruct (get_uint32 t4); try reflexivity. destruct (get_uint32 t5); reflexivity.
Qed.

Lemma byte_swap_mod v : byte_swap32 (v mod 2 ^ 32) = be_val (le_bytes 4 v).
Proof.
  unfold byte_swap32. f_equal. apply list_eq_nth_error. intros i.
  assert (G : forall n v, le_bytes n (v mod 256 ^ N.of_nat n) = le_bytes n v).
  { clear. induction n as [|n IH]; intros v; [reflexivity|]. cbn [le_bytes]. rewrite Nat2N.inj_succ, N.pow_succ_r'.
    pose proof (N.pow_nonzero 256 (N.of_nat n)) as P.
    f_equal.
    - rewrite N.mod_mul_r by (try apply P; lia). rewrite N.mul_comm, N.mod_add, N.mod_mod by lia. reflexivity.
    - rewrite <- (IH (v / 256)). f_equal. rewrite N.mod_mul_r by (try apply P; lia).
      rewrite N.mul_comm, N.div_add by lia. rewrite N.div_small by (apply N.mod_lt; lia). lia. }
  change (2 ^ 32) with (256 ^ N.of_nat 4). now rewrite G.
Qed.

Lemma start_ok E d s sp ch a com h s' h' : env_ok E -> is_any_ssc d = true -> get_base_com_id d = Ok com ->
  (session_start E d s sp ch a h = (s', h', Ok tt) <->
   exists resp t4 t5 hv tv,
     send_command E d s (start_command E d s sp ch (authority_bytes a)) h = (h', Ok (Some resp, None))
     /\ nth_error (r_tokens resp) 4 = Some t4 /\ nth_error (r_tokens resp) 5 = Some t5
     /\ unsigned_value t4 = Some hv /\ unsigned_value t5 = Some tv
     /\ s' = set_tsn_num (set_hsn_num s (be_val (le_bytes 4 hv))) (be_val (le_bytes 4 tv))).
Proof.
  intros HE Hs Hc. rewrite start_unfold by assumption.
  destruct (send_command E d s (start_command E d s sp ch (authority_bytes a)) h) as [h1 r] eqn:Es.
  destruct r as [[[resp|] [e|]]|e| |]; try (split; [intros X; inversion X|intros (? & ? & ? & ? & ? & X & _); inversion X]; fail).
  assert (Ht : tokens_ok resp).
  { destruct (c22 E d s (start_command E d s sp ch (authority_bytes a)) com h h1 (Some resp) HE Hc) as [X _].
    destruct (X Es) as (r & [= <-] & Ex & _). eapply exec_tokens_ok; eassumption. }
  change 4%Z with (Z.of_nat 4). change 5%Z with (Z.of_nat 5). rewrite !get_token_nat.
  destruct (nth_error (r_tokens resp) 4) as [t4|] eqn:E4.
  2:{ split; [destruct (nth_error (r_tokens resp) 5); intros X; inversion X|intros (r & ? & ? & ? & ? & [= <- <-] & X & _); congruence]. }
  destruct (nth_error (r_tokens resp) 5) as [t5|] eqn:E5.
  2:{ split; [intros X; inversion X|intros (r & ? & ? & ? & ? & [= <- <-] & _ & X & _); congruence]. }
  destruct (Forall_In _ _ t4 Ht (nth_error_In _ _ E4)) as [N4 W4].
  destruct (Forall_In _ _ t5 Ht (nth_error_In _ _ E5)) as [N5 W5].
  rewrite (get_uint32_unsigned t4) by assumption. rewrite (get_uint32_unsigned t5) by assumption.
  destruct (unsigned_value t4) as [v4|] eqn:U4.
  2:{ split; [intros X; inversion X|]. intros (r & t4' & t5' & hv & tv & [= <- <-] & A & B & C & D & F). congruence. }
  destruct (unsigned_value t5) as [v5|] eqn:U5.
  2:{ split; [intros X; inversion X|]. intros (r & t4' & t5' & hv & tv & [= <- <-] & A & B & C & D & F). congruence. }
  cbv zeta. rewrite !byte_swap_mod. split.
  - intros [= <- <-]. exists resp, t4, t5, v4, v5. auto 10.
  - intros (r & t4' & t5' & hv & tv & [= <- <-] & A & B & C & D & F).
    rewrite E4 in A. rewrite E5 in B. injection A as <-. injection B as <-. rewrite U4 in C. rewrite U5 in D.
    injection C as <-. injection D as <-. now subst s'.
Qed.

(** ---- C26 ---- *)
Lemma sstep_numbers E d s h o hv tv : later_op o -> numbers s hv tv -> numbers (fst (fst (sstep E d (s, h) o))) hv tv.
Proof.
  intros Ho H. destruct o as [sp ch a|au ch|c|b| |ms| ]; cbn [sstep]; try assumption; [contradiction| | |].
  - destruct (authenticate E d s au ch h). assumption.
  - destruct (send_command E d s c h). assumption.
  - unfold session_close. destruct (s_autoclose s && s_opened s); assumption.
Qed.
Lemma srun_numbers E d : forall ops s h hv tv, Forall later_op ops -> numbers s hv tv -> numbers (fst (srun E d (s, h) ops)) hv tv.
Proof.
  induction ops as [|o ops IH]; intros s h hv tv Ho H; cbn [srun fold_left fst]; [assumption|].
  inversion Ho; subst.
  pose proof (sstep_numbers E d s h o hv tv ltac:(assumption) H) as X. destruct (sstep E d (s, h) o) as [[s1 h1] r]. cbn [fst] in *.
  now apply IH.
Qed.

Lemma stamped_fields E d s c com h h' r hv tv : env_ok E -> is_any_ssc d = true -> get_base_com_id d = Ok com -> com < 2 ^ 16 ->
  numbers s hv tv -> (56 <= List.length (a_data c))%nat -> 56 <= get_cmd_size c ->
  send_command E d s c h = (h', r) ->
  exists t b, h' = h ++ t /\ sends t = [b] /\
    slice 24 4 b = be_bytes 4 hv /\ slice 20 4 b = be_bytes 4 tv /\ slice 4 2 b = be_bytes 2 com.
Proof.
  intros HE Hs Hc Hc16 Hn Hl Hsz H. destruct (send_sends E d s c com h h' r HE Hs Hc H) as (t & -> & Ht).
  exists t, (cmd_slice (stamp s com c)). split; [reflexivity|]. split; [assumption|].
  destruct (stamp_fields s com c hv tv Hn Hc16) as [Sd Sw].
  unfold cmd_slice. replace (get_cmd_size (stamp s com c)) with (get_cmd_size c) by reflexivity.
  rewrite Sd. clear Sd Sw.
  assert (Sl : forall o n (l : bytes), (o + n <= 56)%nat -> slice o n (firstn (N.to_nat (get_cmd_size c)) l) = slice o n l).
  { intros o n l Ho. apply list_eq_nth_error. intros i. rewrite !nth_error_slice. destruct (Nat.ltb_spec i n); [|reflexivity].
    rewrite <- (firstn_skipn (N.to_nat (get_cmd_size c)) l) at 2.
    destruct (Nat.le_gt_cases (N.to_nat (get_cmd_size c)) (List.length l)) as [G|G].
    - rewrite nth_error_app1; [reflexivity|]. rewrite firstn_length. lia.
    - rewrite skipn_all2 by lia. now rewrite app_nil_r. }
  rewrite !Sl by lia.
  assert (P1 : List.length (put 24 (be_bytes 4 hv) (a_data c)) = List.length (a_data c)) by (apply put_length; rewrite be_bytes_length; lia).
  assert (P2 : List.length (put 20 (be_bytes 4 tv) (put 24 (be_bytes 4 hv) (a_data c))) = List.length (a_data c)) by (rewrite put_length; rewrite ?be_bytes_length; lia).
  repeat split.
  - rewrite slice_put_other by (rewrite ?app_length, ?be_bytes_length; cbn [List.length]; lia).
    rewrite slice_put_other by (rewrite ?be_bytes_length; lia). apply slice_put_same'; [apply be_bytes_length|lia].
  - rewrite slice_put_other by (rewrite ?app_length, ?be_bytes_length; cbn [List.length]; lia).
    apply slice_put_same'; [apply be_bytes_length|lia].
  - assert (Q : slice 4 4 (put 4 (be_bytes 2 com ++ [0; 0]) (put 20 (be_bytes 4 tv) (put 24 (be_bytes 4 hv) (a_data c)))) = be_bytes 2 com ++ [0; 0]).
    { apply slice_put_same'; [rewrite app_length, be_bytes_length; reflexivity|lia]. }
    assert (Q2 : forall l : bytes, slice 4 2 l = firstn 2 (slice 4 4 l)) by (intros l; unfold slice; now rewrite firstn_firstn).
    rewrite Q2, Q. destruct (be2 com) as (x & y & ->). reflexivity.
Qed.

Lemma start_numbers E d s sp ch a com h s' h' : env_ok E -> is_any_ssc d = true -> get_base_com_id d = Ok com ->
  session_start E d s sp ch a h = (s', h', Ok tt) ->
  exists resp t4 t5 hv tv,
    send_command E d s (start_command E d s sp ch (authority_bytes a)) h = (h', Ok (Some resp, None))
    /\ nth_error (r_tokens resp) 4 = Some t4 /\ nth_error (r_tokens resp) 5 = Some t5
    /\ unsigned_value t4 = Some hv /\ unsigned_value t5 = Some tv /\ numbers s' hv tv /\ s_nohash s' = s_nohash s.
Proof.
  intros HE Hs Hc H. apply (start_ok E d s sp ch a com h s' h' HE Hs Hc) in H as (resp & t4 & t5 & hv & tv & A & B & C & D & F & ->).
  exists resp, t4, t5, hv, tv. repeat split; auto.
Qed.

(** ---- C27 ---- *)
Lemma authority_ok a : match a with AUid u => wf u /\ List.length u = 8%nat | ABuf b => wf b /\ blen b <= 50000 | ANil => True end ->
  wf (authority_bytes a) /\ blen (authority_bytes a) <= 50000.
Proof.
  destruct a as [u|b|]; cbn [authority_bytes].
  - intros [W L]. split; [apply wf_cons; split; [reflexivity|assumption]|]. unfold blen. cbn [List.length]. rewrite L. lia.
  - auto.
  - intros _. split; [apply wf_nil|]. rewrite blen_nil. lia.
Qed.

Lemma c27 E d s sp ch a com h s' h' r hv tv :
  env_ok E -> is_any_ssc d = true -> get_base_com_id d = Ok com -> com < 2 ^ 16 -> numbers s hv tv ->
  wf sp -> List.length sp = 8%nat -> wf ch -> wf (authority_bytes a) -> blen (authority_bytes a) <= 50000 ->
  session_start E d s sp ch a h = (s', h', r) ->
  exists t, h' = h ++ t /\
    sends t = [frame hv tv com (start_payload sp (credential_of (e_pbkdf2 E) (get_serial d) (s_nohash s) ch) (authority_bytes a))].
Proof.
  intros HE Hs Hc Hc16 Hn Wsp Lsp Wch Wa La H.
  pose proof (start_hist E d s sp ch a h Hs) as X. rewrite H in X. cbn [fst snd] in X.
  destruct (send_command E d s (start_command E d s sp ch (authority_bytes a)) h) as [h1 r1] eqn:Es. cbn [fst] in X. subst h1.
  destruct (send_sends E d s _ com h h' r1 HE Hs Hc Es) as (t & -> & Ht).
  exists t. split; [reflexivity|]. rewrite Ht. f_equal. apply start_framed; auto.
Qed.

(** ---- C28 ---- *)
Lemma hashed_same E serial p q : e_pbkdf2 E (firstn 32 p) serial = e_pbkdf2 E (firstn 32 q) serial ->
  tcg_hash_password (e_pbkdf2 E) serial false p = tcg_hash_password (e_pbkdf2 E) serial false q.
Proof. intros H. unfold tcg_hash_password. rewrite !firstn32, H. reflexivity. Qed.
Lemma nonempty_flag (p : bytes) : p <> [] -> negb (List.length p =? 0)%nat = true.
Proof. destruct p; [congruence|reflexivity]. Qed.

Lemma c28_auth E d s auth p q h : p <> [] -> q <> [] -> s_nohash s = false ->
  e_pbkdf2 E (firstn 32 p) (get_serial d) = e_pbkdf2 E (firstn 32 q) (get_serial d) ->
  authenticate E d s auth p h = authenticate E d s auth q h.
Proof.
  intros Hp Hq Hn HE. unfold authenticate.
  replace (authenticate_command E d s auth p) with (authenticate_command E d s auth q); [reflexivity|].
  unfold authenticate_command. rewrite !nonempty_flag, Hn, (hashed_same E _ p q HE) by assumption. reflexivity.
Qed.
Lemma c28_start E d s sp p q a h : p <> [] -> q <> [] -> s_nohash s = false ->
  e_pbkdf2 E (firstn 32 p) (get_serial d) = e_pbkdf2 E (firstn 32 q) (get_serial d) ->
  session_start E d s sp p a h = session_start E d s sp q a h.
Proof.
  intros Hp Hq Hn HE. unfold session_start.
  replace (start_command E d s sp p (authority_bytes a)) with (start_command E d s sp q (authority_bytes a)).
  2:{ unfold start_command. rewrite !nonempty_flag, Hn, (hashed_same E _ p q HE) by assumption. reflexivity. }
  rewrite !nonempty_flag by assumption.
  destruct (send_command E d s (start_command E d s sp q (authority_bytes a)) h) as [h1 [[[resp|] [e|]]|e| |]]; try reflexivity.
  destruct (get_token resp 4) as [[t4|]| | |], (get_token resp 5) as [[t5|]| | |]; try reflexivity.
  destruct (get_uint32 t4); try reflexivity. destruct (get_uint32 t5); try reflexivity.
  destruct (true && is_enterprise d); [|reflexivity].
  rewrite (c28_auth E d _ _ p q h1); auto.
Qed.
Lemma c28_revert E d p q adm h : p <> [] -> q <> [] ->
  e_pbkdf2 E (firstn 32 p) (get_serial d) = e_pbkdf2 E (firstn 32 q) (get_serial d) ->
  revert_tper E d p false adm h = revert_tper E d q false adm h.
Proof.
  intros Hp Hq HE. unfold revert_tper, opal_revert_tper, ent_revert_tper.
  destruct (d_kind d); try reflexivity; rewrite (c28_start E d new_session _ p q); auto.
Qed.

(** ---- C29 ---- *)
Lemma opal_kind d : is_any_ssc d = true -> d_kind d = KOpal1 \/ d_kind d = KOpal2.
Proof. unfold is_any_ssc. destruct (d_kind d); auto; discriminate. Qed.

Lemma start_numbers_err_free E d s sp ch a com h s' h' : env_ok E -> is_any_ssc d = true -> get_base_com_id d = Ok com ->
  session_start E d s sp ch a h = (s', h', Ok tt) -> exists hv tv, numbers s' hv tv.
Proof. intros HE Hs Hc H. apply (start_numbers E d s sp ch a com h s' h' HE Hs Hc) in H as (? & ? & ? & hv & tv & _ & _ & _ & _ & _ & Hn & _). eauto. Qed.

Lemma c29 E d com pw isPsid isAdm h h' r :
  env_ok E -> is_any_ssc d = true -> get_base_com_id d = Ok com -> com < 2 ^ 16 -> wf pw ->
  revert_tper E d pw isPsid isAdm h = (h', r) ->
  let s0 := set_no_hash_password new_session isPsid in
  let uid := if isPsid then uid_PSID else uid_SID in
  exists s1 h1 r1, session_start E d s0 uid_AdminSP pw (AUid uid) h = (s1, h1, r1)
  /\ (exists t1, h1 = h ++ t1 /\
       sends t1 = [frame 0 0 com (start_payload uid_AdminSP (credential_of (e_pbkdf2 E) (get_serial d) isPsid pw) (uid8 uid))])
  /\ (r1 <> Ok tt -> h' = h1 /\ r = r1)
  /\ (r1 = Ok tt -> exists hv tv t2 c, numbers s1 hv tv /\ h' = h1 ++ t2 /\ sends t2 = [frame hv tv com revert_payload]
       /\ cmd_slice c = frame hv tv com revert_payload
       /\ (r = Ok tt <-> exists resp, exec E d c 1 h1 = (h', Ok (Some resp, None)) /\ accepted resp)).
Proof.
  intros HE Hs Hc Hc16 Wp H s0 uid.
  assert (Hd : revert_tper E d pw isPsid isAdm h = opal_revert_tper E d pw isPsid h).
  { unfold revert_tper. destruct (opal_kind d Hs) as [-> | ->]; reflexivity. }
  rewrite Hd in H. unfold opal_revert_tper in H.
  assert (Es0 : (if isPsid then set_no_hash_password new_session true else new_session) = s0) by (unfold s0; now destruct isPsid).
  assert (Eu : (if isPsid then PSID_UID else SID_UID) = uid) by (unfold uid; now destruct isPsid).
  rewrite Es0, Eu in H. change ADMINSP_UID with uid_AdminSP in H.
  destruct (session_start E d s0 uid_AdminSP pw (AUid uid) h) as [[s1 h1] r1] eqn:Est.
  exists s1, h1, r1. split; [reflexivity|].
  assert (Wu : wf uid /\ List.length uid = 8%nat).
  { unfold uid. destruct isPsid; (split; [repeat (apply wf_cons; split; [reflexivity|]); apply wf_nil|reflexivity]). }
  assert (Wsp : wf uid_AdminSP) by (repeat (apply wf_cons; split; [reflexivity|]); apply wf_nil).
  destruct (authority_ok (AUid uid) Wu) as [Wa La].
  split.
  { assert (Hn : s_nohash s0 = isPsid) by reflexivity. rewrite <- Hn.
    apply (c27 E d s0 uid_AdminSP pw (AUid uid) com h s1 h1 r1 0 0); auto. split; reflexivity. }
  split.
  { intros Hne. destruct r1 as [[]|e| |]; [congruence| | |]; inversion H; auto. }
  intros ->. destruct (start_numbers_err_free E d s0 _ pw _ com h s1 h1 HE Hs Hc Est) as (hv & tv & Hn).
  destruct (send_command E d s1 revert_command h1) as [h2 r2] eqn:Es. inversion H; subst h' r.
  destruct (send_sends E d s1 _ com h1 h2 r2 HE Hs Hc Es) as (t2 & -> & Ht2).
  rewrite (revert_framed s1 hv tv com Hn Hc16) in Ht2.
  exists hv, tv, t2, (stamp s1 com revert_command). split; [assumption|]. split; [reflexivity|]. split; [assumption|].
  split; [now apply revert_framed|].
  assert (Q : only_err r2 = Ok tt <-> exists o, r2 = Ok (o, None)).
  { destruct r2 as [[o [e|]]|e| |]; cbn; split; try discriminate; try (intros (? & [= ?])); try discriminate; eauto. }
  rewrite Q. split.
  - intros (o & ->). apply (c22 E d s1 revert_command com h1 _ o HE Hc) in Es as (resp & -> & Ex & Ha). eauto.
  - intros (resp & Ex & Ha). assert (X : send_command E d s1 revert_command h1 = (h1 ++ t2, Ok (Some resp, None))).
    { apply (c22 E d s1 revert_command com h1 _ _ HE Hc). eauto. }
    rewrite Es in X. inversion X. eauto.
Qed.

(** ---- C30 ---- *)
Lemma send_ok_tokens E d s c com h h' resp : env_ok E -> get_base_com_id d = Ok com ->
  send_command E d s c h = (h', Ok (Some resp, None)) -> tokens_ok resp.
Proof.
  intros HE Hc H. apply (c22 E d s c com h h' _ HE Hc) in H as (r & [= <-] & Ex & _). eapply exec_tokens_ok; eassumption.
Qed.

Lemma auth_result E d s auth ch com h h1 resp : env_ok E -> get_base_com_id d = Ok com ->
  send_command E d s (authenticate_command E d s auth ch) h = (h1, Ok (Some resp, None)) ->
  authenticate E d s auth ch h =
  (h1, match nth_error (r_tokens resp) 1 with
       | None => Err EIllegalResponse
       | Some t => match unsigned_value t with
                   | None => Err (EMsg "illegal data")
                   | Some v => if v mod 256 =? 0 then Ok tt else Err (EFmt "authentication failed: %d" (v mod 256))
                   end
       end).
Proof.
  intros HE Hc Es. unfold authenticate. rewrite Es. pose proof (send_ok_tokens E d s _ com h h1 resp HE Hc Es) as Ht.
  change 1%Z with (Z.of_nat 1). rewrite get_token_nat. destruct (nth_error (r_tokens resp) 1) as [t|] eqn:E1; [|reflexivity].
  destruct (Forall_In _ _ t Ht (nth_error_In _ _ E1)) as [N1 W1].
  rewrite get_uint8_unsigned by assumption. destruct (unsigned_value t) as [v|]; [|reflexivity].
  destruct (v mod 256 =? 0); reflexivity.
Qed.

Lemma c30 E d s auth ch com h h' r hv tv :
  env_ok E -> is_any_ssc d = true -> get_base_com_id d = Ok com -> com < 2 ^ 16 -> numbers s hv tv ->
  wf ch -> wf auth -> blen auth <= 50000 ->
  authenticate E d s auth ch h = (h', r) ->
  let payload := authenticate_payload auth (credential_of (e_pbkdf2 E) (get_serial d) (s_nohash s) ch) in
  exists t c, h' = h ++ t /\ sends t = [frame hv tv com payload] /\ cmd_slice c = frame hv tv com payload /\
  (r = Ok tt <-> exists resp tok v, exec E d c 1 h = (h', Ok (Some resp, None)) /\ accepted resp /\
      nth_error (r_tokens resp) 1 = Some tok /\ unsigned_value tok = Some v /\ v mod 256 = 0) /\
  (forall resp tok, exec E d c 1 h = (h', Ok (Some resp, None)) -> accepted resp ->
      nth_error (r_tokens resp) 1 = Some tok -> unsigned_value tok = Some 1 ->
      r = Err (EFmt "authentication failed: %d" 1)).
Proof.
  intros HE Hs Hc Hc16 Hn Wch Wau Lau H payload.
  pose proof (auth_framed E d s ch auth hv tv com HE Hs Hn Hc16 Wch Wau Lau) as Hf. fold payload in Hf.
  destruct (send_command E d s (authenticate_command E d s auth ch) h) as [h1 r1] eqn:Es.
  assert (Hh : h1 = h').
  { unfold authenticate in H. rewrite Es in H. destruct r1 as [[[resp|] [e|]]|e| |]; inversion H; reflexivity. }
  subst h1. destruct (send_sends E d s _ com h h' r1 HE Hs Hc Es) as (t & -> & Ht). rewrite Hf in Ht.
  exists t, (stamp s com (authenticate_command E d s auth ch)). split; [reflexivity|]. split; [assumption|]. split; [assumption|].
  assert (K : forall resp, exec E d (stamp s com (authenticate_command E d s auth ch)) 1 h = (h ++ t, Ok (Some resp, None)) -> accepted resp ->
     r = match nth_error (r_tokens resp) 1 with
       | None => Err EIllegalResponse
       | Some t => match unsigned_value t with
                   | None => Err (EMsg "illegal data")
                   | Some v => if v mod 256 =? 0 then Ok tt else Err (EFmt "authentication failed: %d" (v mod 256))
                   end
       end).
  { intros resp Ex Ha. assert (X : send_command E d s (authenticate_command E d s auth ch) h = (h ++ t, Ok (Some resp, None))).
    { apply (c22 E d s _ com h _ _ HE Hc). eauto. }
    rewrite (auth_result E d s auth ch com h _ resp HE Hc X) in H. now inversion H. }
  split; [split|].
  - intros ->. destruct r1 as [[[resp|] [e|]]|e| |]; try (unfold authenticate in H; rewrite Es in H; discriminate).
    pose proof (auth_result E d s auth ch com h _ resp HE Hc Es) as X. rewrite H in X. apply (f_equal snd) in X; cbn [snd] in X.
    apply (c22 E d s _ com h _ _ HE Hc) in Es as (resp' & [= <-] & Ex & Ha).
    destruct (nth_error (r_tokens resp) 1) as [tok|] eqn:E1; [|discriminate].
    destruct (unsigned_value tok) as [v|] eqn:Ev; [|discriminate].
    destruct (N.eqb_spec (v mod 256) 0) as [Hv|]; [|discriminate]. exists resp, tok, v. auto.
  - intros (resp & tok & v & Ex & Ha & H1 & Hv & Hz). rewrite (K resp Ex Ha), H1, Hv, Hz. reflexivity.
  - intros resp tok Ex Ha H1 Hv. rewrite (K resp Ex Ha), H1, Hv. reflexivity.
Qed.

(** ---- C31 ---- *)
Lemma c31 E d com h h' r :
  env_ok E -> is_any_ssc d = true -> get_base_com_id d = Ok com -> com < 2 ^ 16 ->
  get_default_password E d h = (h', r) ->
  exists s1 h1 r1, session_start E d new_session uid_AdminSP [] (AUid (repeat 255 8)) h = (s1, h1, r1)
  /\ (exists t1, h1 = h ++ t1 /\ sends t1 = [frame 0 0 com (start_payload uid_AdminSP None [])])
  /\ (forall e, r1 = Err e -> h' = h1 /\ r = Err e) /\ (r1 = Panic -> h' = h1 /\ r = Panic) /\ (r1 = Fuel -> h' = h1 /\ r = Fuel)
  /\ (r1 = Ok tt -> exists hv tv t2 c, numbers s1 hv tv /\ h' = h1 ++ t2
       /\ sends t2 = [frame hv tv com (get_payload (uid8 uid_C_PIN_MSID) 3 3)]
       /\ cmd_slice c = frame hv tv com (get_payload (uid8 uid_C_PIN_MSID) 3 3)
       /\ (forall text, r = Ok text <-> exists resp tok, exec E d c 1 h1 = (h', Ok (Some resp, None)) /\ accepted resp
             /\ nth_error (r_tokens resp) 4 = Some tok /\ get_string tok = Ok text)).
Proof.
  intros HE Hs Hc Hc16 H.
  assert (Hd : get_default_password E d h = opal_get_default_password E d h).
  { unfold get_default_password. destruct (opal_kind d Hs) as [-> | ->]; reflexivity. }
  rewrite Hd in H. unfold opal_get_default_password in H. change UID_HEXFF with (repeat 255 8) in H.
  change ADMINSP_UID with uid_AdminSP in H.
  destruct (session_start E d new_session uid_AdminSP [] (AUid (repeat 255 8)) h) as [[s1 h1] r1] eqn:Est.
  exists s1, h1, r1. split; [reflexivity|].
  assert (Wsp : wf uid_AdminSP) by (repeat (apply wf_cons; split; [reflexivity|]); apply wf_nil).
  assert (Wu : wf (repeat 255 8)) by (cbn [repeat]; repeat (apply wf_cons; split; [reflexivity|]); apply wf_nil).
  split.
  { destruct (c27 E d new_session uid_AdminSP [] (AUid (repeat 255 8)) com h s1 h1 r1 0 0 HE Hs Hc Hc16 numbers_new Wsp eq_refl wf_nil) as (t1 & -> & Ht1).
    - apply wf_cons. split; [reflexivity|assumption].
    - unfold blen. cbn. lia.
    - exact Est.
    - exists t1. split; [reflexivity|]. exact Ht1. }
  split; [intros e ->; inversion H; auto|]. split; [intros ->; inversion H; auto|]. split; [intros ->; inversion H; auto|].
  intros ->. destruct (start_numbers_err_free E d new_session _ [] _ com h s1 h1 HE Hs Hc Est) as (hv & tv & Hn).
  change (u8 BYTESTRING8 :: C_PIN_MSID) with (uid8 uid_C_PIN_MSID) in H. change CREDENTIAL_PIN with 3 in H. unfold opal_get_table in H.
  set (cmd := get_table_command (uid8 uid_C_PIN_MSID) 3 3) in *.
  destruct (send_command E d s1 cmd h1) as [h2 r2] eqn:Es.
  assert (Hh : h' = h2) by (destruct r2 as [[[resp|] [e|]]|e| |]; inversion H; reflexivity). subst h2.
  destruct (send_sends E d s1 _ com h1 h' r2 HE Hs Hc Es) as (t2 & -> & Ht2).
  assert (Hf : cmd_slice (stamp s1 com cmd) = frame hv tv com (get_payload (uid8 uid_C_PIN_MSID) 3 3)).
  { apply get_framed; try assumption; try reflexivity.
    - repeat (apply wf_cons; split; [reflexivity|]); apply wf_nil.
    - unfold blen. cbn. lia. }
  rewrite Hf in Ht2. clearbody cmd.
  exists hv, tv, t2, (stamp s1 com cmd). split; [assumption|]. split; [reflexivity|]. split; [assumption|]. split; [assumption|].
  intros text. split.
  - intros ->. apply (f_equal snd) in H; cbn [snd] in H.
    destruct r2 as [[[resp|] [e|]]|e| |]; cbn [finish_password snd] in H; try discriminate H. apply (c22 E d s1 cmd com h1 _ _ HE Hc) in Es as (r' & [= <-] & Ex & Ha).
    change 4%Z with (Z.of_nat 4) in H. rewrite get_token_nat in H.
    destruct (nth_error (r_tokens resp) 4) as [tok|] eqn:E4; [|discriminate]. exists resp, tok. auto.
  - intros (resp & tok & Ex & Ha & E4 & Hg).
    assert (X : send_command E d s1 cmd h1 = (h1 ++ t2, Ok (Some resp, None))) by (apply (c22 E d s1 cmd com h1 _ _ HE Hc); eauto).
    rewrite Es in X. injection X as ->. cbn [finish_password] in H. apply (f_equal snd) in H; cbn [snd] in H.
    change 4%Z with (Z.of_nat 4) in H. rewrite get_token_nat, E4, Hg in H. now symmetry.
Qed.
