(** Lemmas for C179. *)
From Verif Require Import Base Spec_Tcg M_TcgToken M_Buffer M_TcgCommand M_TcgDevice M_TcgSession Spec_TcgCommand Spec_TcgClient Spec_TcgSession
  P_TcgToken P_TcgProps P_TcgDevice P_TcgSession Prop_Tcg Prop_TcgSession Spec_Conform.

Lemma exec_result_det heap buf r r' : exec_result heap buf r -> exec_result heap buf r' -> r = r'.
Proof.
  intros [(L & all & T & ->)|(L & ->)] [(L' & all' & T' & ->)|(L' & ->)]; try reflexivity; try (exfalso; revert L L'; generalize (be32_at off_sub_len buf); intros; lia).
  rewrite (tiled_det _ _ _ _ _ T T'). reflexivity.
Qed.
(** An answer by the book is what Exec returns. *)
Lemma exec_replies E d c com h atoms : env_ok E -> is_any_ssc d = true -> get_base_com_id d = Ok com -> replies E com (cmd_slice c) h atoms ->
  exists t resp, exec E d c 1 h = (h ++ t, Ok (Some resp, None)) /\ r_tokens resp = map encode atoms /\ has_payload (r_buf resp).
Proof.
  intros HE Hs Hc (H0 & n & sent & Hf & Hp & Ha & Hel & Hbuf). cbv zeta in *. destruct Hbuf as (Hw & Hpay & Hcar & Hok & Hvis).
  destruct (exec E d c 1 h) as [h' r] eqn:Hx. destruct (c19 E d c 1 com h h' r HE Hs Hc Hx) as [_ B]. cbv zeta in B. specialize (B H0).
  set (h1 := h ++ [EvNow; EvSec true false 1 com (cmd_slice c) 5]) in *. set (start := e_clock E (h ++ [EvNow])) in *.
  destruct B as [(_ & _ & P)|(k & K & Eh & P & R)].
  - exfalso. apply Hw. apply (P n Hf).
  - assert (Kn : (k - 1)%nat = n).
    { destruct (Nat.lt_trichotomy (k - 1) n) as [L|[L|L]]; [|exact L|].
      - exfalso. destruct (Hp _ L) as (Q1 & Q2 & Q3). destruct (answer E 1 com h1 (k - 1)) as [e b]. cbn [fst snd] in *. subst e.
        destruct R as [(R & _)|(_ & R & _)]; [lia|]. exact (R Q2).
      - exfalso. apply Hw. apply (P n). lia. }
    rewrite Kn in R. destruct (answer E 1 com h1 n) as [e b] eqn:Ea. cbn [fst snd] in *. subst e.
    destruct R as [(R & _)|(_ & _ & R)]; [lia|].
    assert (Wb : wf b). { unfold answer in Ea. destruct HE as [HE _]. specialize (HE (h1 ++ rounds 1 com (S n))). rewrite Ea in HE. exact HE. }
    pose proof (exec_result_commit E b HE Wb) as C.
    assert (BH : byte_heap (e_heap E)) by exact (proj1 (proj2 HE)).
    destruct (exposes_stream sent Hok (e_heap E) (received b) [] BH Hcar) as [X1 X2].
    destruct (commit (e_heap E) {| r_buf := received b; r_tokens := [] |}) as [resp o] eqn:Ec. cbn [fst snd] in X1, X2. subst o.
    pose proof (exec_result_det _ _ _ _ R C) as Er. exists ([EvNow; EvSec true false 1 com (cmd_slice c) 5] ++ rounds 1 com k), resp.
    rewrite Eh. unfold h1. rewrite <- app_assoc, Er. split; [reflexivity|]. split; [now rewrite X2, Hvis|].
    assert (Hb : r_buf resp = received b).
    { destruct C as [(_ & all & _ & Q)|(_ & Q)]; [injection Q as ->; reflexivity|discriminate Q]. }
    now rewrite Hb.
Qed.

Lemma unsigned_value_atom a v : unsigned_atom a v -> unsigned_value (encode a) = Some v.
Proof.
  intros (Hok & [-> |(b & -> & <-)]); cbn [encode b2n unsigned_value].
  - cbn in Hok. replace (64 * 0 + v) with v by lia. replace (v <? 128) with true by (symmetry; apply N.ltb_lt; lia).
    assert (T : N.testbit v 6 = false) by (apply (N.bits_above_log2); destruct (N.eq_dec v 0) as [->|Nz]; [reflexivity|]; apply N.log2_lt_pow2; [lia|exact Hok]).
    rewrite T. rewrite N.mod_small by exact Hok. reflexivity.
  - cbn in Hok. destruct Hok as [_ Hl]. replace (128 + 32 * 0 + 16 * 0 + blen b) with (128 + blen b) by lia.
    replace (128 + blen b <? 128) with false by (symmetry; apply N.ltb_ge; lia). replace (128 + blen b <? 192) with true by (symmetry; apply N.ltb_lt; lia).
    assert (T : N.testbit (128 + blen b) 4 = false).
    { assert (G : forall n, n < 16 -> N.testbit (128 + n) 4 = false) by (intros n Hn; do 16 (destruct n as [|n] using N.peano_ind; [reflexivity|clear IHn]); lia).
      exact (G _ Hl). }
    rewrite T. reflexivity.
Qed.
Lemma tokens_status pre st : pre <> [] -> st < 64 -> (forall d r, map encode (pre ++ status_list st) <> (0xFA :: d) :: r) ->
  forall resp, r_tokens resp = map encode (pre ++ status_list st) -> has_payload (r_buf resp) ->
  ends_with_status (r_tokens resp) [st] /\ ~ is_eos (r_tokens resp) /\ unsigned_value [st] = Some st.
Proof.
  intros Np Hst Nf resp Tk Pay. assert (U : unsigned_value [st] = Some st) by (apply (unsigned_value_atom (Tiny false st)); split; [exact Hst|left; reflexivity]).
  split; [|split; [|exact U]].
  - rewrite Tk, map_app. exists (map encode pre ++ [[0xF9]]), [0xF0], [0], [0], [0xF1]. split; [|split; exists []; reflexivity].
    rewrite <- app_assoc. f_equal.
  - rewrite Tk. intros (t & r & E & (d & ->)). exact (Nf _ _ E).
Qed.
Lemma accepted_tokens pre : pre <> [] -> (forall d r, map encode (pre ++ status_list 0) <> (0xFA :: d) :: r) ->
  forall resp, r_tokens resp = map encode (pre ++ status_list 0) -> has_payload (r_buf resp) -> accepted resp.
Proof.
  intros Np Nf resp Tk Pay. destruct (tokens_status pre 0 Np eq_refl Nf resp Tk Pay) as (E & _ & U). split; [exact Pay|]. right. exists [0], 0. auto.
Qed.
