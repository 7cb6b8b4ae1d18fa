(** Proofs about devices and Exec: C16-C20. *)
From Verif Require Import Base Spec_Tcg M_TcgToken M_Buffer M_TcgCommand M_TcgDevice Spec_TcgCommand Spec_TcgClient Spec_TcgSession
  P_TcgToken P_TcgCommand.

Lemma locking_bit_testbit b k : b < 256 -> negb (N.land (N.shiftr b k) 1 =? 0) = N.testbit b k.
Proof.
  intros _. rewrite <- (N.add_0_l k) at 2. rewrite <- N.shiftr_spec' . 
  change 1 with (N.ones 1). rewrite N.land_ones. change (2 ^ 1) with 2.
  rewrite <- N.bit0_mod. now destruct (N.testbit (N.shiftr b k) 0).
Qed.

Lemma be16_lor hi lo : lo < 256 -> N.lor (N.shiftl hi 8) lo = hi * 256 + lo.
Proof.
  intros H. rewrite N.shiftl_mul_pow2, N.lor_comm, lor_add_pow2 by assumption. change (2 ^ 8) with 256. lia.
Qed.

Lemma zeros_zeros n : zeros (List.length (zeros n)) = zeros n.
Proof. now rewrite zeros_length. Qed.

Lemma fill_zeros b : fill (zeros 2048) b = received b.
Proof.
  unfold fill, received. rewrite zeros_length. f_equal.
  unfold zeros. rewrite <- (repeat_length 0 (2048 - List.length b)).
  rewrite repeat_length.
  destruct (Nat.le_gt_cases (List.length b) 2048) as [H|H].
  - replace 2048%nat with (List.length b + (2048 - List.length b))%nat at 1 by lia.
    rewrite repeat_app, skipn_app, skipn_all2 by (rewrite repeat_length; lia).
    rewrite repeat_length, Nat.sub_diag. reflexivity.
  - rewrite skipn_all2 by (rewrite repeat_length; lia). now replace (2048 - List.length b)%nat with 0%nat by lia.
Qed.

Lemma received_length b : List.length (received b) = resp_size.
Proof. unfold received, resp_size. rewrite app_length, firstn_length, zeros_length. lia. Qed.

Lemma received_wf b : wf b -> wf (received b).
Proof. intros H. unfold received. rewrite wf_app. split; [now apply wf_firstn | apply wf_zeros]. Qed.

Lemma rounds_succ p c k : rounds p c (S k) = round p c ++ rounds p c k.
Proof. reflexivity. Qed.
Lemma rounds_succ_r p c k : rounds p c (S k) = rounds p c k ++ round p c.
Proof.
  induction k as [|k IH]; [cbn; reflexivity|].
  rewrite rounds_succ, IH at 1. rewrite app_assoc. f_equal.
Qed.

Lemma keep_polling_iff r : keep_polling r = true <-> wants_poll (r_buf r).
Proof.
  unfold keep_polling, wants_poll, off_outstanding, off_mintransfer. rewrite andb_true_iff, negb_true_iff.
  rewrite N.eqb_eq, N.eqb_neq. tauto.
Qed.

Lemma exec_result_commit E b : env_ok E -> wf b ->
  exec_result (e_heap E) (received b)
    (match commit (e_heap E) {| r_buf := received b; r_tokens := [] |} with
     | (r, Ok _) => Ok (Some r, None)
     | (r, Err e) => Ok (Some r, Some e)
     | (_, Panic) => Panic
     | (_, Fuel) => Fuel
     end).
Proof.
  intros (_ & Hh & _) Hb. 
  destruct (commit_arbitrary (e_heap E) {| r_buf := received b; r_tokens := [] |} (received_length b) (received_wf b Hb) Hh) as [A B].
  cbn [r_buf] in *. unfold exec_result.
  destruct (N.le_gt_cases (be32_at off_sub_len (received b)) 1992) as [H|H].
  - left. split; [assumption|]. destruct (B H) as (all & T & _ & ->). now exists all.
  - right. split; [assumption|]. rewrite (A H). reflexivity.
Qed.

(** One loop test, generalized over the number of rounds done. *)
Lemma exec_loop_spec E d proto com start h1 : env_ok E -> get_base_com_id d = Ok com ->
  forall fuel j resp first h' r,
  r_tokens resp = [] ->
  List.length (r_buf resp) = 2048%nat ->
  (first = true /\ j = 0%nat \/
   first = false /\ (0 < j)%nat /\ r_buf resp = received (snd (answer E proto com h1 (j - 1))) /\
   fst (answer E proto com h1 (j - 1)) = None /\ elapsed E proto com start h1 (j - 1) <= 10000000000) ->
  (forall i, (S i < j)%nat -> poll_again E proto com start h1 i) ->
  exec_loop E d proto start fuel first resp (h1 ++ rounds proto com j) = (h', r) ->
  (r = Fuel /\ h' = h1 ++ rounds proto com (j + fuel) /\ (forall i, (i < j + fuel)%nat -> poll_again E proto com start h1 i))
  \/ exists k, (j <= k)%nat /\ (1 <= k)%nat /\ (k <= j + fuel)%nat /\ h' = h1 ++ rounds proto com k
     /\ (forall i, (S i < k)%nat -> poll_again E proto com start h1 i)
     /\ let '(e, b) := answer E proto com h1 (k - 1) in
        match e with
        | Some x => r = Ok (Some {| r_buf := received b; r_tokens := [] |}, Some x)
        | None =>
          (10000000000 < elapsed E proto com start h1 (k - 1) /\
           r = Ok (Some {| r_buf := received b; r_tokens := [] |}, Some (EMsg "timeout")))
          \/ (elapsed E proto com start h1 (k - 1) <= 10000000000 /\ ~ wants_poll (received b)
              /\ exec_result (e_heap E) (received b) r)
        end.
Proof.
  intros HE Hcom. induction fuel as [|f IH]; intros j resp first h' r Ht Hl Hinv Hprev Hrun; cbn [exec_loop] in Hrun.
  - destruct (first || keep_polling resp) eqn:Hg.
    + inversion Hrun; subst. left. rewrite Nat.add_0_r. split; [reflexivity|]. split; [reflexivity|].
      intros i Hi. destruct Hinv as [[-> ->]|(-> & Hj & Hb & He & Hs)]; [lia|].
      destruct (Nat.eq_dec i (j - 1)) as [->|]; [|apply Hprev; lia].
      cbn [orb] in Hg. apply keep_polling_iff in Hg. rewrite Hb in Hg. exact (conj He (conj Hg Hs)).
    + destruct Hinv as [[-> ->]|(-> & Hj & Hb & He & Hs)]; [discriminate|].
      cbn [orb] in Hg. right. exists j. split; [lia|]. split; [lia|]. split; [lia|]. split.
      { destruct (commit (e_heap E) resp) as [x [y| | |]]; now inversion Hrun. }
      split; [exact Hprev|].
      destruct (answer E proto com h1 (j - 1)) as [e b] eqn:Ea. cbn [fst snd] in *. subst e.
      right. split; [assumption|]. split.
      { rewrite <- Hb. rewrite <- keep_polling_iff. congruence. }
      pose proof (exec_result_commit E b HE) as X.
      assert (Hw : wf b). { unfold answer in Ea. destruct HE as [HE _]. specialize (HE (h1 ++ rounds proto com (S (j - 1)))). rewrite Ea in HE. exact HE. }
      specialize (X Hw). destruct resp as [rb rt]. cbn [r_buf r_tokens] in *. subst rb rt.
      destruct (commit (e_heap E) {| r_buf := received b; r_tokens := [] |}) as [x [y| | |]]; inversion Hrun; subst; exact X.
  - destruct (first || keep_polling resp) eqn:Hg.
    + assert (Hprev' : forall i, (S i < S j)%nat -> poll_again E proto com start h1 i).
      { intros i Hi. destruct Hinv as [[-> ->]|(-> & Hj & Hb & He & Hs)]; [lia|].
        destruct (Nat.eq_dec i (j - 1)) as [->|]; [|apply Hprev; lia].
        cbn [orb] in Hg. apply keep_polling_iff in Hg. rewrite Hb in Hg. exact (conj He (conj Hg Hs)). }
      rewrite Hcom in Hrun.
      assert (Hz : r_buf (resp_reset resp) = zeros 2048) by (unfold resp_reset; cbn [r_buf]; now rewrite Hl).
      assert (Htk : r_tokens (resp_reset resp) = []) by exact Ht.
      rewrite Hz, Htk in Hrun.
      assert (Hh : (((h1 ++ rounds proto com j) ++ [EvNow]) ++ [EvSleep poll_sleep_ns]) ++ [EvSec false false proto com (zeros 2048) 5]
                   = h1 ++ rounds proto com (S j)).
      { rewrite rounds_succ_r. rewrite <- !app_assoc. reflexivity. }
      rewrite Hh in Hrun.
      assert (Hsp : uint_since (e_clock E ((h1 ++ rounds proto com j) ++ [EvNow])) start = elapsed E proto com start h1 j).
      { unfold elapsed, uint_since. now rewrite <- app_assoc. }
      rewrite Hsp in Hrun.
      change (e_sec E (h1 ++ rounds proto com (S j))) with (answer E proto com h1 j) in Hrun.
      destruct (answer E proto com h1 j) as [e b] eqn:Ea.
      rewrite fill_zeros in Hrun.
      destruct e as [x|].
      * inversion Hrun; subst. right. exists (S j). split; [lia|]. split; [lia|]. split; [lia|]. split; [reflexivity|]. split; [exact Hprev'|].
        replace (S j - 1)%nat with j by lia. rewrite Ea. reflexivity.
      * destruct (N.ltb_spec timeout_ns (elapsed E proto com start h1 j)) as [Hto|Hto]; unfold timeout_ns in Hto.
        -- inversion Hrun; subst. right. exists (S j). split; [lia|]. split; [lia|]. split; [lia|]. split; [reflexivity|]. split; [exact Hprev'|].
           replace (S j - 1)%nat with j by lia. rewrite Ea. left. split; [assumption|reflexivity].
        -- specialize (IH (S j) {| r_buf := received b; r_tokens := [] |} false h' r eq_refl).
           cbn [r_buf r_tokens] in IH.
           assert (IH' := IH (received_length b)). clear IH.
           destruct IH' as [(A & B & C)|(k & A & B & C & D & F & G)].
           ++ right. split; [reflexivity|]. split; [lia|]. replace (S j - 1)%nat with j by lia. rewrite Ea. cbn [fst snd]. auto.
           ++ exact Hprev'.
           ++ exact Hrun.
           ++ left. replace (j + S f)%nat with (S j + f)%nat by lia. auto.
           ++ right. exists k. split; [lia|]. split; [lia|]. split; [lia|]. auto.
    + (* same as above *)
      destruct Hinv as [[-> ->]|(-> & Hj & Hb & He & Hs)]; [discriminate|].
      cbn [orb] in Hg. right. exists j. split; [lia|]. split; [lia|]. split; [lia|]. split.
      { destruct (commit (e_heap E) resp) as [x [y| | |]]; now inversion Hrun. }
      split; [exact Hprev|].
      destruct (answer E proto com h1 (j - 1)) as [e b] eqn:Ea. cbn [fst snd] in *. subst e.
      right. split; [assumption|]. split.
      { rewrite <- Hb. rewrite <- keep_polling_iff. congruence. }
      pose proof (exec_result_commit E b HE) as X.
      assert (Hw : wf b). { unfold answer in Ea. destruct HE as [HE _]. specialize (HE (h1 ++ rounds proto com (S (j - 1)))). rewrite Ea in HE. exact HE. }
      specialize (X Hw). destruct resp as [rb rt]. cbn [r_buf r_tokens] in *. subst rb rt.
      destruct (commit (e_heap E) {| r_buf := received b; r_tokens := [] |}) as [x [y| | |]]; inversion Hrun; subst; exact X.
Qed.

(** C19 *)
Lemma c19 E d c proto com h h' r : env_ok E -> is_any_ssc d = true -> get_base_com_id d = Ok com ->
  exec E d c proto h = (h', r) ->
  let h1 := h ++ [EvNow; EvSec true false proto com (cmd_slice c) 5] in
  let start := e_clock E (h ++ [EvNow]) in
  (forall e, fst (e_sec E h1) = Some e -> h' = h1 /\ r = Ok (None, Some e)) /\
  (fst (e_sec E h1) = None ->
   (r = Fuel /\ h' = h1 ++ rounds proto com (e_fuel E) /\ (forall i, (i < e_fuel E)%nat -> poll_again E proto com start h1 i))
   \/ exists k, (1 <= k <= e_fuel E)%nat /\ h' = h1 ++ rounds proto com k
     /\ (forall i, (S i < k)%nat -> poll_again E proto com start h1 i)
     /\ let '(e, b) := answer E proto com h1 (k - 1) in
        match e with
        | Some x => r = Ok (Some {| r_buf := received b; r_tokens := [] |}, Some x)
        | None =>
          (10000000000 < elapsed E proto com start h1 (k - 1) /\
           r = Ok (Some {| r_buf := received b; r_tokens := [] |}, Some (EMsg "timeout")))
          \/ (elapsed E proto com start h1 (k - 1) <= 10000000000 /\ ~ wants_poll (received b)
              /\ exec_result (e_heap E) (received b) r)
        end).
Proof.
  intros HE Hs Hc Hrun h1 start. unfold exec in Hrun. rewrite Hs in Hrun. cbn [negb] in Hrun. rewrite Hc in Hrun.
  replace ((h ++ [EvNow]) ++ [EvSec true false proto com (cmd_slice c) 5]) with h1 in Hrun by (unfold h1; rewrite <- app_assoc; reflexivity).
  fold start in Hrun.
  destruct (fst (e_sec E h1)) as [e0|] eqn:He.
  - inversion Hrun; subst. split; [|discriminate]. intros e [= ->]. auto.
  - split; [discriminate|]. intros _.
    replace h1 with (h1 ++ rounds proto com 0) in Hrun by apply app_nil_r.
    destruct (exec_loop_spec E d proto com start h1 HE Hc (e_fuel E) 0%nat new_response true h' r eq_refl (zeros_length _)
                (or_introl (conj eq_refl eq_refl)) ltac:(intros; lia) Hrun) as [(A & B & C)|(k & A & B & C & D & F & G)].
    + left. auto.
    + right. exists k. split; [lia|]. auto.
Qed.

Lemma c19_none E d c proto h : is_any_ssc d = false ->
  exec E d c proto h = (h ++ [EvNow], Ok (None, Some (EMsg "not supported"))).
Proof. intros H. unfold exec. now rewrite H. Qed.

Lemma slept_app a b : slept (a ++ b) = slept a + slept b.
Proof. induction a as [|x a IH]; cbn [app slept]; [reflexivity|]. destruct x; rewrite ?IH; lia. Qed.
Lemma slept_rounds p c k : slept (rounds p c k) = 25000000 * N.of_nat k.
Proof.
  induction k as [|k IH]; [reflexivity|]. rewrite rounds_succ, slept_app, IH. cbn [slept round]. lia.
Qed.

Lemma elapsed_timely E p c h b i : timely E ->
  let h1 := h ++ [EvNow; b] in
  25000000 * N.of_nat i <= elapsed E p c (e_clock E (h ++ [EvNow])) h1 i.
Proof.
  intros HT h1. unfold elapsed, h1.
  specialize (HT (h ++ [EvNow]) ([b] ++ rounds p c i ++ [EvNow])).
  rewrite !slept_app, slept_rounds in HT. rewrite <- !app_assoc in *. cbn [app] in HT |- *. lia.
Qed.

Lemma poll_again_bound E p c h b i : timely E ->
  poll_again E p c (e_clock E (h ++ [EvNow])) (h ++ [EvNow; b]) i -> (i <= 400)%nat.
Proof.
  intros HT (_ & _ & H). pose proof (elapsed_timely E p c h b i HT) as X. cbv zeta in X. lia.
Qed.

Lemma receives_app a b : receives (a ++ b) = (receives a + receives b)%nat.
Proof. induction a as [|x a IH]; cbn [app receives]; [reflexivity|]. destruct x as [| |[]]; rewrite ?IH; lia. Qed.
Lemma sends_app a b : sends (a ++ b) = sends a ++ sends b.
Proof. induction a as [|x a IH]; cbn [app sends]; [reflexivity|]. destruct x as [| |[]]; rewrite ?IH; reflexivity. Qed.
Lemma receives_rounds p c k : receives (rounds p c k) = k.
Proof. induction k as [|k IH]; [reflexivity|]. rewrite rounds_succ, receives_app, IH. reflexivity. Qed.
Lemma sends_rounds p c k : sends (rounds p c k) = [].
Proof. induction k as [|k IH]; [reflexivity|]. rewrite rounds_succ, sends_app, IH. reflexivity. Qed.

(** C20 *)
Lemma c20 E d c proto com h h' r : env_ok E -> timely E -> (402 <= e_fuel E)%nat ->
  (is_any_ssc d = true -> get_base_com_id d = Ok com) ->
  exec E d c proto h = (h', r) ->
  r <> Fuel /\ r <> Panic /\ exists t, h' = h ++ t /\ (receives t <= 402)%nat /\ (List.length (sends t) <= 1)%nat.
Proof.
  intros HE HT HF Hc Hrun. destruct (is_any_ssc d) eqn:Hs.
  2:{ rewrite c19_none in Hrun by assumption. inversion Hrun; subst. split; [discriminate|]. split; [discriminate|].
      exists [EvNow]. cbn. split; [reflexivity|lia]. }
  specialize (Hc eq_refl).
  destruct (c19 E d c proto com h h' r HE Hs Hc Hrun) as [A B]. cbv zeta in A, B.
  set (b := EvSec true false proto com (cmd_slice c) 5) in *.
  destruct (fst (e_sec E (h ++ [EvNow; b]))) as [e|] eqn:Ee.
  - destruct (A e eq_refl) as [-> ->]. split; [discriminate|]. split; [discriminate|]. exists [EvNow; b]. cbn. split; [reflexivity|lia].
  - destruct (B eq_refl) as [(-> & -> & P)|(k & K & -> & P & R)].
    + exfalso. specialize (P 401%nat ltac:(lia)). apply poll_again_bound in P; [lia|assumption].
    + assert (Hk : (k <= 402)%nat).
      { destruct (Nat.le_gt_cases k 402) as [?|G]; [assumption|]. specialize (P 401%nat ltac:(lia)).
        apply poll_again_bound in P; [lia|assumption]. }
      assert (NF : r <> Fuel /\ r <> Panic).
      { destruct (answer E proto com (h ++ [EvNow; b]) (k - 1)) as [[x|] bb]; [subst r; split; discriminate|].
        destruct R as [[_ ->]|(_ & _ & X)]; [split; discriminate|].
        unfold exec_result in X. destruct X as [(_ & all & _ & ->)|(_ & ->)]; split; discriminate. }
      split; [apply NF|]. split; [apply NF|]. exists ([EvNow; b] ++ rounds proto com k).
      rewrite <- !app_assoc. split; [reflexivity|].
      rewrite receives_app, sends_app, receives_rounds, sends_rounds. cbn. lia.
Qed.

(** A clock that stands still and a drive that always asks for another poll: no bound is enough. *)
Definition busy_answer : bytes := zeros 11 ++ [1].
Definition frozen_env (fuel : nat) : env :=
  {| e_clock := fun _ => 0; e_sec := fun _ => (None, busy_answer); e_pbkdf2 := fun _ _ => zeros 32;
     e_heap := fun _ => 0; e_fuel := fuel |}.

Lemma busy_polls r : List.length (r_buf r) = 2048%nat ->
  keep_polling {| r_buf := fill (zeros 2048) busy_answer; r_tokens := r_tokens r |} = true.
Proof. intros _. vm_compute. reflexivity. Qed.

Lemma frozen_loop n d proto com : get_base_com_id d = Ok com -> forall fuel first resp h,
  List.length (r_buf resp) = 2048%nat -> (first = true \/ keep_polling resp = true) ->
  snd (exec_loop (frozen_env n) d proto 0 fuel first resp h) = Fuel.
Proof.
  intros Hc. induction fuel as [|f IH]; intros first resp h Hl Hg; cbn [exec_loop].
  - replace (first || keep_polling resp) with true; [reflexivity|]. destruct Hg as [->| ->]; [reflexivity|now rewrite orb_true_r].
  - replace (first || keep_polling resp) with true by (destruct Hg as [->| ->]; [reflexivity|now rewrite orb_true_r]).
    rewrite Hc. cbn [frozen_env e_sec e_clock]. change (timeout_ns <? uint_since 0 0) with false. cbv iota.
    assert (Hz : r_buf (resp_reset resp) = zeros 2048) by (unfold resp_reset; cbn [r_buf]; now rewrite Hl).
    rewrite Hz. apply IH.
    + cbn [r_buf]. rewrite fill_zeros. apply received_length.
    + right. now apply (busy_polls (resp_reset resp)); rewrite Hz, zeros_length.
Qed.

Lemma frozen_exec n d c proto com h : is_any_ssc d = true -> get_base_com_id d = Ok com ->
  snd (exec (frozen_env n) d c proto h) = Fuel.
Proof.
  intros Hs Hc. unfold exec. rewrite Hs. cbn [negb]. rewrite Hc. cbn [frozen_env e_sec fst e_clock e_fuel].
  apply (frozen_loop n d proto com); [assumption| |now left]. cbn [new_response r_buf]. rewrite zeros_length. reflexivity.
Qed.

(** C17 *)
Lemma locking_bit_spec k d :
  (l_locking (d_info d) = false -> locking_bit k d = Ok false) /\
  (raw_lookup (l_raw (d_info d)) 0x0002 = None -> locking_bit k d = Ok false) /\
  (forall data b, l_locking (d_info d) = true -> raw_lookup (l_raw (d_info d)) 0x0002 = Some data ->
     nth_error data 4 = Some b -> b < 256 -> locking_bit k d = Ok (N.testbit b k)) /\
  (locking_bit k d = Panic <-> l_locking (d_info d) = true /\ raw_lookup (l_raw (d_info d)) 0x0002 = Some []).
Proof.
  unfold locking_bit, FcLocking. split; [intros ->; reflexivity|]. split; [intros ->; now destruct (l_locking (d_info d))|].
  split.
  - intros data b -> -> Hn Hb. cbn [negb]. unfold feature_byte. destruct data as [|x data]; [discriminate|].
    rewrite Hn. now rewrite locking_bit_testbit.
  - destruct (l_locking (d_info d)); cbn [negb]; [|split; [discriminate|intros [? _]; discriminate]].
    destruct (raw_lookup (l_raw (d_info d)) 2) as [[|x data]|]; cbn [feature_byte]; split; try discriminate; auto; intros [_ ?]; discriminate.
Qed.

(** C18 *)
Lemma feature_be16_spec d off code : ssc_code (d_kind d) = Some code ->
  (raw_lookup (l_raw (d_info d)) code = None -> feature_be16 d off = Ok 0) /\
  (forall data, raw_lookup (l_raw (d_info d)) code = Some data -> wf data -> (off + 2 <= List.length data)%nat ->
     feature_be16 d off = Ok (be16_at off data)) /\
  (feature_be16 d off = Panic <-> raw_lookup (l_raw (d_info d)) code = Some []).
Proof.
  intros Hk. unfold feature_be16. rewrite Hk. split; [now intros ->|]. split.
  - intros data -> Hw Hl. unfold feature_byte. destruct data as [|x data']; [cbn in Hl; lia|].
    remember (x :: data') as data.
    destruct (nth_error data off) as [a|] eqn:Ea; [|apply nth_error_None in Ea; lia].
    destruct (nth_error data (off + 1)) as [b|] eqn:Eb; [|apply nth_error_None in Eb; lia].
    f_equal. assert (Hb : b < 256). { apply nth_error_In in Eb. unfold wf in Hw. rewrite Forall_forall in Hw. now apply Hw. }
    rewrite be16_lor by assumption.
    assert (S : slice off 2 data = [a; b]).
    { apply list_eq_nth_error. intros i. rewrite nth_error_slice. destruct i as [|[|i]]; cbn [Nat.ltb Nat.leb nth_error].
      - now rewrite Nat.add_0_r.
      - exact Eb.
      - now destruct i. }
    unfold be16_at. rewrite S. unfold be_val. cbn [fold_left]. lia.
  - destruct (raw_lookup (l_raw (d_info d)) code) as [[|x data]|]; cbn [feature_byte]; split; try discriminate; auto.
Qed.
