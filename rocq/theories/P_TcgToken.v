(** Lemmas about tcg/token.go and tcg/response.go. *)
From Verif Require Import Base Spec_Tcg M_TcgToken Spec_TcgClient.

(** ---- bit lemmas ---- *)
Lemma lor_add_pow2 a b k : a < 2 ^ k -> N.lor a (b * 2 ^ k) = a + b * 2 ^ k.
Proof.
  intros H.
  assert (E : N.land a (b * 2 ^ k) = 0).
  { apply N.bits_inj_0. intros n. rewrite N.land_spec.
    destruct (N.lt_ge_cases n k) as [Hn|Hn].
    - rewrite N.mul_pow2_bits_low by assumption. apply andb_false_r.
    - rewrite <- (N.mod_small a (2 ^ k)) by assumption.
      rewrite N.mod_pow2_bits_high by assumption. reflexivity. }
  rewrite <- N.lxor_lor by assumption. symmetry. now apply N.add_nocarry_lxor.
Qed.

Lemma lor_mod_pow2 a b k : N.lor (a mod 2 ^ k) (b mod 2 ^ k) = (N.lor a b) mod 2 ^ k.
Proof. rewrite <- !N.land_ones. now rewrite N.land_lor_distr_l. Qed.

Lemma or_shift_spec : forall rdata b w, wf rdata -> w < 2 ^ (8 * b) ->
  or_shift rdata b (w mod 2 ^ 64) = (w + le_val rdata * 2 ^ (8 * b)) mod 2 ^ 64.
Proof.
  induction rdata as [|x r IH]; intros b w Hwf Hw; cbn [or_shift le_val].
  - f_equal. lia.
  - apply wf_cons in Hwf as [Hx Hr].
    rewrite lor_mod_pow2, N.shiftl_mul_pow2, lor_add_pow2 by assumption.
    assert (E : 2 ^ (8 * (b + 1)) = 256 * 2 ^ (8 * b)).
    { replace (8 * (b + 1)) with (8 + 8 * b) by lia. rewrite N.pow_add_r. reflexivity. }
    rewrite IH; [| assumption |].
    + f_equal. rewrite E. lia.
    + rewrite E. nia.
Qed.

Lemma or_shift_be data : wf data -> or_shift (rev data) 0 0 = be_val data mod 2 ^ 64.
Proof.
  intros H. pose proof (or_shift_spec (rev data) 0 0 (wf_rev _ H)) as E.
  change (0 mod 2 ^ 64) with 0 in E. rewrite E by (cbn; lia).
  rewrite <- (be_val_rev (rev data)), rev_involutive. f_equal. change (2 ^ (8 * 0)) with 1. lia.
Qed.

(** ---- leading byte sweeps ---- *)
Definition code_of_kind (k : kind) : N :=
  match k with KBytes => 0xe0 | KSint => 0xe1 | KUint => 0xe2 | KCtl t => t end.

Lemma tok_type_spec b d : b < 256 ->
  tok_type (b :: d) =
  Ok (if b <? 0x80 then (if N.testbit b 6 then 0xe2 else 0xe1) else code_of_kind (lead_kind b)).
Proof.
  intros Hb. unfold tok_type. f_equal.
  apply N.eqb_eq.
  revert b Hb. apply byte_sweep. vm_compute. reflexivity.
Qed.

Lemma lead_kind_encode a rest : atom_ok a ->
  exists b tl, encode a ++ rest = b :: tl /\ b < 256 /\ lead_kind b = atom_kind a.
Proof.
  intros H.
  destruct a as [s v | bb s d | bb s d | bb s d | t]; cbn [encode atom_ok atom_kind app] in *.
  - eexists _, _; split; [reflexivity|].
    assert (Hv : 64 * b2n s + v < 128) by (destruct s; cbn; lia).
    split; [lia|]. unfold lead_kind.
    destruct (N.ltb_spec (64 * b2n s + v) 0x80); [|lia].
    assert (E : N.testbit (64 * b2n s + v) 6 = s).
    { rewrite N.testbit_eqb. change (2 ^ 6) with 64.
      destruct s; cbn [b2n]; [apply N.eqb_eq | apply N.eqb_neq]; lia. }
    rewrite E. reflexivity.
  - destruct H as [_ Hd]. eexists _, _; split; [reflexivity|]. split; [destruct bb, s; cbn; lia|].
    revert Hd. generalize (blen d) as n. intros n Hn.
    assert (Hn' : n < 256) by lia. revert Hn.
    apply (proj1 (N.ltb_lt n 16)) || idtac.
    intros Hn. apply N.ltb_lt in Hn. revert Hn.
    assert (G : forall bb s, (fun n => implb (n <? 16)
       (match lead_kind (128 + 32 * b2n bb + 16 * b2n s + n), (if bb then KBytes else if s then KSint else KUint) with
        | KBytes, KBytes => true | KSint, KSint => true | KUint, KUint => true | _, _ => false end)) n = true).
    { intros b0 s0. revert n Hn'. apply byte_sweep. destruct b0, s0; vm_compute; reflexivity. }
    intros Hn. specialize (G bb s). cbv beta in G. rewrite Hn in G. cbn [implb] in G.
    destruct bb, s; destruct (lead_kind _); try discriminate; reflexivity.
  - destruct H as [_ Hd]. eexists _, _; split; [reflexivity|].
    assert (Hq : blen d / 256 < 8) by lia.
    split; [destruct bb, s; cbn; lia|].
    revert Hq. generalize (blen d / 256) as n. intros n Hn.
    assert (Hn' : n < 256) by lia.
    assert (G : forall bb s, (fun n => implb (n <? 8)
       (match lead_kind (192 + 16 * b2n bb + 8 * b2n s + n), (if bb then KBytes else if s then KSint else KUint) with
        | KBytes, KBytes => true | KSint, KSint => true | KUint, KUint => true | _, _ => false end)) n = true).
    { intros b0 s0. revert n Hn' Hn. intros n Hn' _. revert n Hn'. apply byte_sweep. destruct b0, s0; vm_compute; reflexivity. }
    specialize (G bb s). cbv beta in G. apply N.ltb_lt in Hn. rewrite Hn in G. cbn [implb] in G.
    destruct bb, s; destruct (lead_kind _); try discriminate; reflexivity.
  - eexists _, _; split; [reflexivity|]. split; [destruct bb, s; cbn; lia|].
    destruct bb, s; vm_compute; reflexivity.
  - eexists _, _; split; [reflexivity|]. split; [lia|].
    unfold lead_kind.
    destruct (N.ltb_spec t 0x80); [lia|]. destruct (N.ltb_spec t 0xC0); [lia|].
    destruct (N.ltb_spec t 0xE0); [lia|]. destruct (N.ltb_spec t 0xF0); [lia|]. reflexivity.
Qed.

(** GetUint64 in terms of the leading byte. *)
Lemma get_uint64_spec b d : b < 256 -> wf d ->
  get_uint64 (b :: d) =
  if b <? 0x80 then (if N.testbit b 6 then Err (EMsg "illegal data") else Ok (b mod 64))
  else if b <? 0xC0 then
    (if N.testbit b 4 then Err (EMsg "illegal data") else Ok (be_val d mod 2 ^ 64))
  else Err (EMsg "illegal data").
Proof.
  intros Hb Hd. unfold get_uint64. rewrite or_shift_be by assumption.
  assert (G : (fun b =>
    Bool.eqb (N.land b 0x80 =? 0) (b <? 0x80) &&
    (implb (b <? 0x80) (Bool.eqb (negb (N.land b 0x40 =? 0)) (N.testbit b 6) &&
                        implb (negb (N.testbit b 6)) (N.land b 0x3f =? b mod 64))) &&
    implb (negb (b <? 0x80)) (Bool.eqb (N.land b 0x40 =? 0) (b <? 0xC0) &&
                              Bool.eqb (negb (N.land b 0x10 =? 0)) (N.testbit b 4))) b = true).
  { revert b Hb. apply byte_sweep. vm_compute. reflexivity. }
  cbv beta in G. apply andb_prop in G as [G G3]. apply andb_prop in G as [G1 G2].
  apply eqb_prop in G1. rewrite G1.
  destruct (b <? 0x80); cbn [implb negb] in *.
  - apply andb_prop in G2 as [G2 G2']. apply eqb_prop in G2. rewrite G2.
    destruct (N.testbit b 6); cbn [implb negb] in *; [reflexivity|]. apply N.eqb_eq in G2'. now rewrite G2'.
  - apply andb_prop in G3 as [G3 G3']. apply eqb_prop in G3, G3'. rewrite G3, G3'. reflexivity.
Qed.

(** Header size by leading byte: what GetString/GetBytes skip. *)
Lemma get_string_spec b d : b < 256 ->
  get_string (b :: d) =
  if b <? 0x80 then Err (EMsg "illegal data")
  else if b <? 0xC0 then Ok d
  else if b <? 0xE0 then (match d with [] => Panic | _ :: d' => Ok d' end)
  else if b <? 0xF0 then (match d with _ :: _ :: _ :: d' => Ok d' | _ => Panic end)
  else Ok [].
Proof.
  intros Hb. unfold get_string.
  assert (G : (fun b => 
    Bool.eqb (N.land b 0x80 =? 0) (b <? 0x80) &&
    implb (negb (b <? 0x80)) (Bool.eqb (N.land b 0x40 =? 0) (b <? 0xC0)) &&
    implb (negb (b <? 0xC0)) (Bool.eqb (N.land b 0x20 =? 0) (b <? 0xE0)) &&
    implb (negb (b <? 0xE0)) (Bool.eqb (N.land b 0x10 =? 0) (b <? 0xF0))) b = true).
  { revert b Hb. apply byte_sweep. vm_compute. reflexivity. }
  cbv beta in G. apply andb_prop in G as [G G4]. apply andb_prop in G as [G G3]. apply andb_prop in G as [G1 G2].
  apply eqb_prop in G1. rewrite G1. unfold slice_from.
  destruct (b <? 0x80); cbn [implb negb] in *; [reflexivity|].
  apply eqb_prop in G2. rewrite G2. destruct (b <? 0xC0); cbn [implb negb] in *; [reflexivity|].
  apply eqb_prop in G3. rewrite G3. destruct (b <? 0xE0); cbn [implb negb] in *.
  - destruct d as [|x d]; reflexivity.
  - apply eqb_prop in G4. rewrite G4. destruct (b <? 0xF0); [|reflexivity].
    destruct d as [|x [|y [|z d]]]; reflexivity.
Qed.

Lemma get_bytes_string t : get_bytes t = get_string t.
Proof. reflexivity. Qed.

(** ---- memory ---- *)
Lemma rd_memory buf heap i : rd buf heap i = memory buf heap i.
Proof.
  unfold rd, memory, blen. destruct (N.ltb_spec i (N.of_nat (List.length buf))) as [H|H].
  - destruct (nth_error buf (N.to_nat i)) as [b|] eqn:E.
    + symmetry. now apply nth_error_nth.
    + apply nth_error_None in E. lia.
  - destruct (nth_error buf (N.to_nat i)) as [b|] eqn:E; [|reflexivity].
    assert (N.to_nat i < List.length buf)%nat by (apply nth_error_Some; congruence). lia.
Qed.

Lemma rd_slice_mem buf heap cur n : rd_slice buf heap cur n = mem_slice (memory buf heap) cur n.
Proof. unfold rd_slice, mem_slice. apply map_ext. intros k. apply rd_memory. Qed.

Lemma memory_lt buf heap i : wf buf -> (forall j, heap j < 256) -> memory buf heap i < 256.
Proof.
  intros Hb Hh. unfold memory. destruct (N.ltb_spec i (blen buf)) as [H|H]; [|apply Hh].
  unfold wf in Hb. rewrite Forall_forall in Hb. apply Hb. apply nth_In. unfold blen in H. lia.
Qed.

Lemma token_len_extent buf heap cur : wf buf -> (forall j, heap j < 256) ->
  token_len buf heap cur = atom_extent (memory buf heap) cur.
Proof.
  intros Hb Hh. unfold token_len, atom_extent. rewrite !rd_memory.
  set (m := memory buf heap).
  assert (Hm : forall j, m j < 256) by (intros j; now apply memory_lt).
  assert (G : (fun b =>
    Bool.eqb (N.land b 0x80 =? 0) (b <? 0x80) &&
    implb (negb (b <? 0x80)) (Bool.eqb (N.land b 0x40 =? 0) (b <? 0xC0)) &&
    implb (negb (b <? 0xC0)) (Bool.eqb (N.land b 0x20 =? 0) (b <? 0xE0)) &&
    implb (negb (b <? 0xE0)) (Bool.eqb (N.land b 0x10 =? 0) (b <? 0xF0)) &&
    (N.land b 0x0f =? b mod 16) && (N.shiftl (N.land b 0x07) 8 =? (b mod 8) * 256)) (m cur) = true).
  { generalize (Hm cur). generalize (m cur). intros b Hb'. revert b Hb'. apply byte_sweep. vm_compute. reflexivity. }
  cbv beta in G. apply andb_prop in G as [G G6]. apply andb_prop in G as [G G5].
  apply andb_prop in G as [G G4]. apply andb_prop in G as [G G3]. apply andb_prop in G as [G1 G2].
  apply N.eqb_eq in G5, G6. rewrite G5, G6.
  apply eqb_prop in G1. rewrite G1.
  destruct (m cur <? 0x80); cbn [implb negb] in *; [reflexivity|].
  apply eqb_prop in G2. rewrite G2. destruct (m cur <? 0xC0); cbn [implb negb] in *; [reflexivity|].
  apply eqb_prop in G3. rewrite G3. destruct (m cur <? 0xE0); cbn [implb negb] in *.
  - rewrite N.lor_comm. change 256 with (2 ^ 8). rewrite lor_add_pow2 by apply Hm. lia.
  - apply eqb_prop in G4. rewrite G4. destruct (m cur <? 0xF0); [|reflexivity].
    rewrite !N.shiftl_mul_pow2.
    rewrite (N.lor_comm (m (cur + 1) * 2 ^ 16)).
    assert (A : m (cur + 2) * 2 ^ 8 < 2 ^ 16) by (specialize (Hm (cur + 2)); change (2 ^ 16) with (256 * 2 ^ 8); nia).
    rewrite lor_add_pow2 by assumption.
    replace (m (cur + 2) * 2 ^ 8 + m (cur + 1) * 2 ^ 16) with ((m (cur + 2) + m (cur + 1) * 2 ^ 8) * 2 ^ 8)
      by (change (2 ^ 16) with (2 ^ 8 * 2 ^ 8); lia).
    rewrite N.lor_comm. rewrite lor_add_pow2 by apply Hm.
    change 65536 with (2 ^ 8 * 2 ^ 8). change 256 with (2 ^ 8). lia.
Qed.

Lemma atom_extent_pos m i : 1 <= atom_extent m i.
Proof.
  unfold atom_extent.
  destruct (m i <? 0x80); [lia|]. destruct (m i <? 0xC0); [lia|].
  destruct (m i <? 0xE0); [lia|]. destruct (m i <? 0xF0); lia.
Qed.

Lemma mem_slice_length m cur n : List.length (mem_slice m cur n) = N.to_nat n.
Proof. unfold mem_slice. rewrite map_length, seq_length. reflexivity. Qed.

(** The loop in terms of the tiling. *)
Lemma commit_loop_step (t : bytes) (r : list bytes) :
  (match t with
   | [b] => if b =? EMPTYATOM then Ok r else Ok (t :: r)
   | _ => Ok (t :: r)
   end) = Ok (filter not_empty_atom [t] ++ r).
Proof.
  destruct t as [|b [|c t]]; try reflexivity.
  unfold not_empty_atom, EMPTYATOM. cbn [filter]. destruct (b =? 0xff); reflexivity.
Qed.

Lemma commit_loop_tiled : forall fuel buf heap cur end_,
  wf buf -> (forall j, heap j < 256) -> end_ <= cur + N.of_nat fuel ->
  exists all, tiled (memory buf heap) cur end_ all
    /\ commit_loop fuel buf heap cur end_ = Ok (filter not_empty_atom all)
    /\ N.of_nat (List.length all) <= end_ - cur.
Proof.
  induction fuel as [|f IH]; intros buf heap cur end_ Hb Hh Hf; cbn [commit_loop].
  - destruct (N.ltb_spec cur end_); [lia|]. exists []. repeat split; [now constructor | cbn; lia].
  - destruct (N.ltb_spec cur end_) as [Hlt|Hge].
    2:{ exists []. repeat split; [now constructor | cbn; lia]. }
    rewrite token_len_extent, rd_slice_mem by assumption.
    set (m := memory buf heap). pose proof (atom_extent_pos m cur) as Hp.
    destruct (IH buf heap (cur + atom_extent m cur) end_ Hb Hh) as (all & Ht & Hc & Hn); [lia|].
    fold m in Ht. rewrite Hc.
    exists (mem_slice m cur (atom_extent m cur) :: all). repeat split.
    + now constructor.
    + rewrite commit_loop_step. rewrite (filter_app not_empty_atom [_] all) || idtac.
      change (mem_slice m cur (atom_extent m cur) :: all) with ([mem_slice m cur (atom_extent m cur)] ++ all).
      now rewrite filter_app.
    + cbn [List.length]. lia.
Qed.

Lemma tiled_det m cur end_ a b : tiled m cur end_ a -> tiled m cur end_ b -> a = b.
Proof.
  intros Ha. revert b. induction Ha as [cur end_ H | cur end_ rest H Ht IH]; intros b Hb; inversion Hb; subst; try lia; auto.
  f_equal. now apply IH.
Qed.

(** C05 *)
Lemma commit_arbitrary heap r :
  List.length (r_buf r) = resp_size -> wf (r_buf r) -> (forall j, heap j < 256) ->
  let L := be32_at off_sub_len (r_buf r) in
  (1992 < L -> commit heap r = (r, Err (EMsg "illegal data"))) /\
  (L <= 1992 -> exists all,
      tiled (memory (r_buf r) heap) 56 (56 + L) all
      /\ N.of_nat (List.length all) <= L
      /\ commit heap r = ({| r_buf := r_buf r; r_tokens := filter not_empty_atom all |}, Ok tt)).
Proof.
  intros Hlen Hwf Hh L. unfold commit. cbv zeta. change 52%nat with off_sub_len. fold L.
  clearbody L. unfold MIN_BUFFER_LENGTH, OPAL_HEADER_SIZE.
  split; intros HL.
  - destruct (N.ltb_spec 2048 (56 + L)); [reflexivity|lia].
  - destruct (N.ltb_spec 2048 (56 + L)); [lia|].
    destruct (commit_loop_tiled (N.to_nat L) (r_buf r) heap 56 (56 + L) Hwf Hh) as (all & Ht & Hc & Hn); [lia|].
    rewrite Hc. exists all. repeat split; [assumption|lia].
Qed.

(** ---- well-formed streams (C04) ---- *)
Lemma memory_app_mid pre x post heap : memory (pre ++ x :: post) heap (blen pre) = x.
Proof.
  unfold memory. rewrite blen_app, blen_cons.
  destruct (N.ltb_spec (blen pre) (blen pre + (1 + blen post))); [|lia].
  unfold blen. rewrite Nat2N.id. rewrite app_nth2 by lia. now rewrite Nat.sub_diag.
Qed.

Lemma memory_app_k pre l post heap k x : nth_error l (N.to_nat k) = Some x ->
  memory (pre ++ l ++ post) heap (blen pre + k) = x.
Proof.
  intros H. assert (N.to_nat k < List.length l)%nat by (apply nth_error_Some; congruence).
  unfold memory. rewrite !blen_app. unfold blen in *.
  destruct (N.ltb_spec (N.of_nat (List.length pre) + k)
      (N.of_nat (List.length pre) + (N.of_nat (List.length l) + N.of_nat (List.length post)))); [|lia].
  rewrite N2Nat.inj_add, Nat2N.id. rewrite app_nth2 by lia.
  replace (List.length pre + N.to_nat k - List.length pre)%nat with (N.to_nat k) by lia.
  rewrite app_nth1 by lia. now apply nth_error_nth.
Qed.

Lemma mem_slice_app_mid pre l post heap : mem_slice (memory (pre ++ l ++ post) heap) (blen pre) (blen l) = l.
Proof.
  apply list_eq_nth_error. intros i. unfold mem_slice. unfold blen at 2. rewrite Nat2N.id.
  rewrite nth_error_map.
  destruct (nth_error l i) as [x|] eqn:E.
  - assert (i < List.length l)%nat by (apply nth_error_Some; congruence).
    assert (Es : nth_error (seq 0 (List.length l)) i = Some i).
    { rewrite (nth_error_nth' _ 0%nat) by (rewrite seq_length; lia). f_equal. now apply seq_nth. }
    rewrite Es. cbn [option_map]. f_equal. apply memory_app_k. rewrite Nat2N.id. exact E.
  - apply nth_error_None in E.
    assert (Es : nth_error (seq 0 (List.length l)) i = None) by (apply nth_error_None; now rewrite seq_length).
    now rewrite Es.
Qed.

Lemma wf_encode a : atom_ok a -> wf (encode a).
Proof.
  intros H. destruct a as [s v | bb s d | bb s d | bb s d | t]; cbn [encode atom_ok] in *.
  - apply wf_cons; split; [destruct s; cbn; lia | apply wf_nil].
  - destruct H. apply wf_cons; split; [destruct bb, s; cbn; lia | assumption].
  - destruct H as [Hd Hl]. repeat (apply wf_cons; split); try assumption; [destruct bb, s; cbn; lia | lia].
  - destruct H as [Hd Hl]. change (2 ^ 24) with 16777216 in Hl.
    repeat (apply wf_cons; split); try assumption; [destruct bb, s; cbn; lia | lia | lia | lia].
  - apply wf_cons; split; [lia | apply wf_nil].
Qed.

Lemma extent_encode a pre post heap : atom_ok a ->
  atom_extent (memory (pre ++ encode a ++ post) heap) (blen pre) = blen (encode a).
Proof.
  intros H. set (m := memory (pre ++ encode a ++ post) heap).
  assert (Hk : forall k x, nth_error (encode a) (N.to_nat k) = Some x -> m (blen pre + k) = x)
    by (intros; now apply memory_app_k).
  unfold atom_extent.
  destruct a as [s v | bb s d | bb s d | bb s d | t]; cbn [encode atom_ok] in *.
  - rewrite <- (N.add_0_r (blen pre)). rewrite (Hk 0 _ eq_refl).
    destruct (N.ltb_spec (64 * b2n s + v) 0x80); [reflexivity | destruct s; cbn in *; lia].
  - destruct H as [_ Hd]. rewrite <- (N.add_0_r (blen pre)). rewrite (Hk 0 _ eq_refl). rewrite blen_cons.
    destruct (N.ltb_spec (128 + 32 * b2n bb + 16 * b2n s + blen d) 0x80); [lia|].
    destruct (N.ltb_spec (128 + 32 * b2n bb + 16 * b2n s + blen d) 0xC0); [|destruct bb, s; cbn in *; lia].
    destruct bb, s; cbn [b2n]; lia.
  - destruct H as [_ Hd]. rewrite (Hk 1 _ eq_refl). rewrite <- (N.add_0_r (blen pre)).
    rewrite (Hk 0 _ eq_refl). rewrite !blen_cons.
    assert (Hq : blen d / 256 < 8) by lia.
    set (hb := 192 + 16 * b2n bb + 8 * b2n s + blen d / 256).
    destruct (N.ltb_spec hb 0x80); [lia|]. destruct (N.ltb_spec hb 0xC0); [lia|].
    destruct (N.ltb_spec hb 0xE0); [|unfold hb in *; destruct bb, s; cbn in *; lia].
    assert (hb mod 8 = blen d / 256) by (unfold hb; destruct bb, s; cbn [b2n]; lia). lia.
  - destruct H as [_ Hd]. change (2 ^ 24) with 16777216 in Hd.
    rewrite (Hk 1 _ eq_refl), (Hk 2 _ eq_refl), (Hk 3 _ eq_refl). rewrite <- (N.add_0_r (blen pre)).
    rewrite (Hk 0 _ eq_refl). rewrite !blen_cons.
    set (hb := 224 + 2 * b2n bb + b2n s).
    destruct (N.ltb_spec hb 0x80); [lia|]. destruct (N.ltb_spec hb 0xC0); [lia|].
    destruct (N.ltb_spec hb 0xE0); [lia|].
    destruct (N.ltb_spec hb 0xF0); [|unfold hb in *; destruct bb, s; cbn in *; lia]. lia.
  - rewrite <- (N.add_0_r (blen pre)). rewrite (Hk 0 _ eq_refl).
    destruct (N.ltb_spec t 0x80); [lia|]. destruct (N.ltb_spec t 0xC0); [lia|].
    destruct (N.ltb_spec t 0xE0); [lia|]. destruct (N.ltb_spec t 0xF0); [lia|]. reflexivity.
Qed.

Lemma encode_nonempty a : 1 <= blen (encode a).
Proof. destruct a; cbn [encode]; rewrite ?blen_cons; lia. Qed.

Lemma tiled_stream : forall atoms pre post heap, Forall atom_ok atoms ->
  tiled (memory (pre ++ stream atoms ++ post) heap) (blen pre) (blen pre + blen (stream atoms)) (map encode atoms).
Proof.
  induction atoms as [|a atoms IH]; intros pre post heap H.
  - cbn [map]. constructor. change (blen (stream [])) with 0. lia.
  - inversion H as [|? ? Ha Hr]; subst. cbn [map].
    change (stream (a :: atoms)) with (encode a ++ stream atoms). rewrite <- app_assoc.
    pose proof (extent_encode a pre (stream atoms ++ post) heap Ha) as E.
    pose proof (mem_slice_app_mid pre (encode a) (stream atoms ++ post) heap) as Es.
    pose proof (encode_nonempty a) as Hp.
    rewrite <- E in Es at 1.
    match goal with |- tiled ?m ?c ?e (?x :: ?r) =>
      assert (G : tiled m c e (mem_slice m c (atom_extent m c) :: r)); [|rewrite Es in G; exact G] end.
    constructor.
    + rewrite blen_app. lia.
    + rewrite E. specialize (IH (pre ++ encode a) post heap Hr).
      rewrite <- app_assoc in IH. rewrite !blen_app in *. rewrite <- N.add_assoc in IH. exact IH.
Qed.

Lemma not_empty_encode a : atom_ok a -> not_empty_atom (encode a) = negb (is_empty_atom a).
Proof.
  intros H. destruct a as [s v | bb s d | bb s d | bb s d | t]; cbn [encode atom_ok is_empty_atom] in *; try reflexivity.
  - cbn [not_empty_atom]. destruct (N.eqb_spec (64 * b2n s + v) 0xFF); [destruct s; cbn [b2n] in *; lia | reflexivity].
  - destruct H as [_ H]. destruct d as [|x d]; [|reflexivity]. cbn [not_empty_atom]. rewrite blen_nil.
    destruct bb, s; reflexivity.
Qed.

Lemma filter_encode atoms : Forall atom_ok atoms ->
  filter not_empty_atom (map encode atoms) = map encode (visible atoms).
Proof.
  induction 1 as [|a atoms Ha Hr IH]; [reflexivity|].
  unfold visible in *. cbn [map filter]. rewrite not_empty_encode by assumption.
  destruct (negb (is_empty_atom a)); cbn [map]; now rewrite IH.
Qed.

Lemma wf_stream atoms : Forall atom_ok atoms -> wf (stream atoms).
Proof.
  induction 1 as [|a atoms Ha Hr IH]; [apply wf_nil|].
  change (stream (a :: atoms)) with (encode a ++ stream atoms). apply wf_app. split; [now apply wf_encode | exact IH].
Qed.

Lemma commit_stream heap hdr atoms post toks0 :
  List.length hdr = header_size -> wf hdr -> wf post -> (forall j, heap j < 256) ->
  Forall atom_ok atoms ->
  be32_at off_sub_len hdr = blen (stream atoms) ->
  (List.length hdr + List.length (stream atoms) + List.length post = resp_size)%nat ->
  commit heap {| r_buf := hdr ++ stream atoms ++ post; r_tokens := toks0 |}
  = ({| r_buf := hdr ++ stream atoms ++ post; r_tokens := map encode (visible atoms) |}, Ok tt).
Proof.
  intros Hh Hwh Hwp Hheap Hok HL Hlen.
  set (buf := hdr ++ stream atoms ++ post).
  assert (Hb : wf buf) by (unfold buf; rewrite !wf_app; repeat split; auto using wf_stream).
  assert (Hbl : List.length buf = resp_size) by (unfold buf; rewrite !app_length; lia).
  assert (EL : be32_at off_sub_len buf = blen (stream atoms)).
  { rewrite <- HL. unfold be32_at, off_sub_len, buf. rewrite slice_app_l; [reflexivity|].
    rewrite Hh. unfold header_size. lia. }
  pose proof (commit_arbitrary heap {| r_buf := buf; r_tokens := toks0 |} Hbl Hb Hheap) as C.
  cbn [r_buf] in C. rewrite EL in C. destruct C as [_ C].
  destruct C as (all & Ht & Hn & Hc).
  { unfold blen, resp_size, header_size in *. lia. }
  fold buf. rewrite Hc. repeat f_equal.
  pose proof (tiled_stream atoms hdr post heap Hok) as Ht2. fold buf in Ht2.
  assert (Eh : blen hdr = 56) by (unfold blen; rewrite Hh; reflexivity). rewrite Eh in Ht2.
  rewrite (tiled_det _ _ _ _ _ Ht Ht2). now apply filter_encode.
Qed.

(** ---- memory beyond the buffer (C06) ---- *)
Lemma memory_in buf h i : i < blen buf -> memory buf h i = nth (N.to_nat i) buf 0.
Proof. intros H. unfold memory. destruct (N.ltb_spec i (blen buf)); [reflexivity|lia]. Qed.
Lemma memory_out buf h i : blen buf <= i -> memory buf h i = h i.
Proof. intros H. unfold memory. destruct (N.ltb_spec i (blen buf)); [lia|reflexivity]. Qed.

Lemma extent_agree buf h1 h2 cur :
  cur + atom_extent (memory buf h1) cur <= blen buf ->
  atom_extent (memory buf h2) cur = atom_extent (memory buf h1) cur.
Proof.
  intros H. pose proof (atom_extent_pos (memory buf h1) cur) as Hp.
  assert (E : memory buf h2 cur = memory buf h1 cur) by (rewrite !memory_in by lia; reflexivity).
  unfold atom_extent in *. rewrite E.
  destruct (memory buf h1 cur <? 0x80); [reflexivity|]. destruct (memory buf h1 cur <? 0xC0); [reflexivity|].
  destruct (memory buf h1 cur <? 0xE0).
  - assert (E1 : memory buf h2 (cur + 1) = memory buf h1 (cur + 1)) by (rewrite !memory_in by lia; reflexivity).
    now rewrite E1.
  - destruct (memory buf h1 cur <? 0xF0); [|reflexivity].
    assert (E1 : memory buf h2 (cur + 1) = memory buf h1 (cur + 1)) by (rewrite !memory_in by lia; reflexivity).
    assert (E2 : memory buf h2 (cur + 2) = memory buf h1 (cur + 2)) by (rewrite !memory_in by lia; reflexivity).
    assert (E3 : memory buf h2 (cur + 3) = memory buf h1 (cur + 3)) by (rewrite !memory_in by lia; reflexivity).
    now rewrite E1, E2, E3.
Qed.

Lemma mem_slice_agree buf h1 h2 cur n : cur + n <= blen buf ->
  mem_slice (memory buf h2) cur n = mem_slice (memory buf h1) cur n.
Proof.
  intros H. unfold mem_slice. apply map_ext_in. intros k Hk. apply in_seq in Hk.
  rewrite !memory_in by lia. reflexivity.
Qed.

Lemma extent_over_agree buf h1 h2 cur :
  blen buf < cur + atom_extent (memory buf h1) cur -> blen buf < cur + atom_extent (memory buf h2) cur.
Proof.
  intros H. destruct (N.lt_ge_cases (blen buf) (cur + atom_extent (memory buf h2) cur)) as [G|G]; [exact G|].
  rewrite (extent_agree buf h2 h1 cur G) in H. lia.
Qed.

Lemma tiled_indep buf h1 h2 cur end_ all :
  tiled (memory buf h1) cur end_ all -> ~ overruns (memory buf h1) (blen buf) cur end_ ->
  tiled (memory buf h2) cur end_ all.
Proof.
  intros Ht. induction Ht as [cur end_ H | cur end_ rest H Ht IH]; intros Hn.
  - now constructor.
  - destruct (N.lt_ge_cases (blen buf) (cur + atom_extent (memory buf h1) cur)) as [G|G].
    { exfalso. apply Hn. now constructor. }
    pose proof (extent_agree buf h1 h2 cur G) as E.
    rewrite <- (mem_slice_agree buf h1 h2 cur _ G). rewrite <- E.
    constructor; [assumption|]. rewrite E. apply IH. intros O. apply Hn. now apply over_later.
Qed.

Lemma tiled_differ buf h1 h2 cur end_ a1 a2 :
  overruns (memory buf h1) (blen buf) cur end_ -> end_ <= blen buf ->
  h1 (blen buf) <> h2 (blen buf) ->
  tiled (memory buf h1) cur end_ a1 -> tiled (memory buf h2) cur end_ a2 ->
  filter not_empty_atom a1 <> filter not_empty_atom a2.
Proof.
  intros O He Hne. revert a1 a2.
  assert (HERE : forall cur end_ a1 a2, end_ <= blen buf -> cur < end_ ->
     blen buf < cur + atom_extent (memory buf h1) cur ->
     tiled (memory buf h1) cur end_ a1 -> tiled (memory buf h2) cur end_ a2 ->
     filter not_empty_atom a1 <> filter not_empty_atom a2).
  { clear - Hne. intros cur end_ a1 a2 He Hlt Hov T1 T2.
    pose proof (extent_over_agree buf h1 h2 cur Hov) as Hov2.
    inversion T1 as [? ? Hd | ? ? r1 Hd1 Hr1]; subst; [lia|].
    inversion T2 as [? ? Hd | ? ? r2 Hd2 Hr2]; subst; [lia|].
    assert (K : forall m n, 2 <= n -> not_empty_atom (mem_slice m cur n) = true).
    { intros m n Hn. pose proof (mem_slice_length m cur n) as L.
      destruct (mem_slice m cur n) as [|x [|y l]]; cbn [List.length] in L; try lia. reflexivity. }
    cbn [filter]. rewrite !K by lia. intros E. injection E as E _.
    assert (X : forall h, blen buf < cur + atom_extent (memory buf h) cur ->
       nth_error (mem_slice (memory buf h) cur (atom_extent (memory buf h) cur)) (N.to_nat (blen buf - cur)) = Some (h (blen buf))).
    { intros h Hh. unfold mem_slice. rewrite nth_error_map.
      rewrite (nth_error_nth' _ 0%nat) by (rewrite seq_length; lia).
      rewrite seq_nth by lia. cbn [option_map]. f_equal. rewrite Nat.add_0_l, N2Nat.id.
      replace (cur + (blen buf - cur)) with (blen buf) by lia. apply memory_out. lia. }
    apply Hne. pose proof (X h1 Hov) as X1. pose proof (X h2 Hov2) as X2. rewrite E in X1. congruence. }
  induction O as [cur end_ Hlt Hov | cur end_ Hlt O IH]; intros a1 a2 T1 T2.
  - now apply (HERE cur end_).
  - destruct (N.lt_ge_cases (blen buf) (cur + atom_extent (memory buf h1) cur)) as [G|G].
    { now apply (HERE cur end_). }
    pose proof (extent_agree buf h1 h2 cur G) as E.
    inversion T1 as [? ? Hd | ? ? r1 Hd1 Hr1]; subst; [lia|].
    inversion T2 as [? ? Hd | ? ? r2 Hd2 Hr2]; subst; [lia|].
    rewrite E in *. rewrite (mem_slice_agree buf h1 h2 cur _ G). cbn [filter].
    intros Ef. apply (IH He r1 r2 Hr1 Hr2).
    destruct (not_empty_atom _) in Ef; [injection Ef; auto | exact Ef].
Qed.

Lemma commit_leak_iff r :
  List.length (r_buf r) = resp_size -> wf (r_buf r) ->
  be32_at off_sub_len (r_buf r) <= 1992 ->
  (exists h1 h2, byte_heap h1 /\ byte_heap h2 /\ commit h1 r <> commit h2 r) <->
  (exists h, byte_heap h /\
     overruns (memory (r_buf r) h) 2048 56 (56 + be32_at off_sub_len (r_buf r))).
Proof.
  intros Hlen Hwf HL. set (buf := r_buf r) in *. set (L := be32_at off_sub_len buf) in *.
  assert (Bl : blen buf = 2048) by (unfold blen; rewrite Hlen; reflexivity).
  assert (T : forall h, byte_heap h -> exists all, tiled (memory buf h) 56 (56 + L) all /\
     commit h r = ({| r_buf := buf; r_tokens := filter not_empty_atom all |}, Ok tt)).
  { intros h Hh. destruct (commit_arbitrary h r Hlen Hwf Hh) as [_ C].
    destruct (C HL) as (all & Ht & _ & Hc). exists all. split; assumption. }
  split.
  - intros (h1 & h2 & B1 & B2 & Hne).
    destruct (T h1 B1) as (a1 & T1 & C1). destruct (T h2 B2) as (a2 & T2 & C2).
    (* decide whether h1 overruns *)
    assert (D : forall all cur end_, tiled (memory buf h1) cur end_ all ->
        overruns (memory buf h1) (blen buf) cur end_ \/ ~ overruns (memory buf h1) (blen buf) cur end_).
    { induction 1 as [cur end_ H | cur end_ rest H Ht IH].
      - right. intros O. inversion O; lia.
      - destruct (N.lt_ge_cases (blen buf) (cur + atom_extent (memory buf h1) cur)) as [G|G].
        + left. now constructor.
        + destruct IH as [O|N]; [left; now apply over_later|]. right. intros O. inversion O; subst; [lia|auto]. }
    destruct (D _ _ _ T1) as [O|N].
    + exists h1. rewrite Bl in O. split; assumption.
    + exfalso. apply Hne. pose proof (tiled_indep buf h1 h2 _ _ _ T1 N) as T1'.
      rewrite C1, C2. now rewrite (tiled_det _ _ _ _ _ T1' T2).
  - intros (h & Bh & O).
    pose (h2 := fun i => if i =? 2048 then (if h 2048 =? 0 then 1 else 0) else h i).
    assert (B2 : byte_heap h2).
    { intros j. unfold h2. destruct (j =? 2048); [destruct (h 2048 =? 0); lia | apply Bh]. }
    exists h, h2. split; [assumption|]. split; [assumption|].
    destruct (T h Bh) as (a1 & T1 & C1). destruct (T h2 B2) as (a2 & T2 & C2).
    rewrite C1, C2. intros E. injection E as E.
    revert E. rewrite <- Bl in O. apply (tiled_differ buf h h2 _ _ _ _ O); try assumption.
    + lia.
    + rewrite Bl. unfold h2. rewrite N.eqb_refl. destruct (N.eqb_spec (h 2048) 0) as [Z|Z]; [rewrite Z; discriminate | exact Z].
Qed.
