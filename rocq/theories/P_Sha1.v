(** Proofs: Go's streaming SHA-1, HMAC and PBKDF2 compute the functions of the standards. *)
From Verif Require Import Base M_TcgCommand M_Sha1 Spec_Sha1.

(** ---- words ---- *)
Lemma high_bit x n : x < 2 ^ 32 -> 32 <= n -> N.testbit x n = false.
Proof. intros H L. rewrite <- (N.mod_small x (2 ^ 32) H). now apply N.mod_pow2_bits_high. Qed.

Lemma lt_of_bits x : (forall n, 32 <= n -> N.testbit x n = false) -> x < 2 ^ 32.
Proof.
  intros H. replace x with (x mod 2 ^ 32); [apply N.mod_lt; discriminate|].
  apply N.bits_inj. intros n. destruct (N.ltb_spec n 32).
  - now apply N.mod_pow2_bits_low.
  - rewrite N.mod_pow2_bits_high, H; auto.
Qed.

Lemma u32_lt x : u32 x < 2 ^ 32.
Proof. apply N.mod_lt. discriminate. Qed.

Lemma rot_same x k : rotate_left32 x k = rotl32 k x.
Proof. reflexivity. Qed.

Lemma rot_lt x k : x < 2 ^ 32 -> rotate_left32 x k < 2 ^ 32.
Proof.
  intros H. apply lt_of_bits. intros n L. unfold rotate_left32. rewrite N.lor_spec.
  rewrite (high_bit (u32 _)) by (auto using u32_lt).
  rewrite N.shiftr_spec'. rewrite (high_bit x); auto. lia.
Qed.

Lemma ones_bit n : N.testbit 0xffffffff n = (n <? 32).
Proof.
  change 0xffffffff with (N.ones 32). destruct (N.ltb_spec n 32).
  - now apply N.ones_spec_low.
  - now apply N.ones_spec_high.
Qed.

Lemma f_same i b c d : d < 2 ^ 32 -> go_f i b c d = sha1_f i b c d.
Proof.
  intros H. unfold go_f, sha1_f. destruct (i <? 20)%nat; [|destruct (i <? 40)%nat; [reflexivity|destruct (i <? 60)%nat; [|reflexivity]]].
  - apply N.bits_inj. intros n. unfold ch, not32.
    rewrite N.lor_spec, N.lxor_spec, N.ldiff_spec, !N.land_spec, N.lxor_spec, ones_bit.
    destruct (N.ltb_spec n 32).
    + destruct (N.testbit b n), (N.testbit c n), (N.testbit d n); reflexivity.
    + rewrite (high_bit d) by assumption. destruct (N.testbit b n), (N.testbit c n); reflexivity.
  - apply N.bits_inj. intros n. unfold maj.
    rewrite N.lor_spec, !N.lxor_spec, !N.land_spec, N.lor_spec.
    destruct (N.testbit b n), (N.testbit c n), (N.testbit d n); reflexivity.
Qed.

Lemma k_same i : go_k i = sha1_k i.
Proof. reflexivity. Qed.

Lemma sum_same r f e w k : u32 (u32 (u32 (u32 (r + f) + e) + w) + k) = add32 (add32 (add32 (add32 r f) e) k) w.
Proof.
  unfold u32, add32. change (2 ^ 32) with 4294967296.
  rewrite !N.add_mod_idemp_l by discriminate. f_equal. lia.
Qed.

(** ---- the message schedule ---- *)
Notation ext := (fun w => w ++ [next_word w]).
Lemma ext_S k w : Nat.iter (S k) ext w = Nat.iter k ext w ++ [next_word (Nat.iter k ext w)].
Proof. reflexivity. Qed.

Lemma ext_length k w : List.length (Nat.iter k ext w) = (List.length w + k)%nat.
Proof. induction k; [cbn; lia|]. rewrite ext_S, app_length, IHk. cbn. lia. Qed.

Lemma ext_nth k j w t : (t < List.length w + k)%nat -> nth t (Nat.iter (k + j) ext w) 0 = nth t (Nat.iter k ext w) 0.
Proof.
  intros H. induction j; [now rewrite Nat.add_0_r|].
  rewrite Nat.add_succ_r. rewrite ext_S.
  rewrite app_nth1; [exact IHj|]. rewrite ext_length. lia.
Qed.

Lemma words_length b : List.length (block_words b) = 16%nat.
Proof. unfold block_words. now rewrite map_length, seq_length. Qed.

Lemma schedule_low b t : (t < 16)%nat -> nth t (schedule b) 0 = nth t (block_words b) 0.
Proof. intros H. unfold schedule. change 64%nat with (0 + 64)%nat. rewrite ext_nth; [reflexivity|]. rewrite words_length. lia. Qed.

Lemma schedule_high b t : (16 <= t < 80)%nat ->
  nth t (schedule b) 0 =
  rotl32 1 (N.lxor (N.lxor (N.lxor (nth (t - 3) (schedule b) 0) (nth (t - 8) (schedule b) 0)) (nth (t - 14) (schedule b) 0))
                   (nth (t - 16) (schedule b) 0)).
Proof.
  intros H.
  assert (P : forall s, (s < t)%nat -> nth s (schedule b) 0 = nth s (Nat.iter (t - 16) ext (block_words b)) 0).
  { intros s Hs. unfold schedule. replace 64%nat with ((t - 16) + (80 - t))%nat by lia.
    apply ext_nth. rewrite words_length. lia. }
  rewrite (P (t - 3)%nat), (P (t - 8)%nat), (P (t - 14)%nat), (P (t - 16)%nat) by lia. clear P. unfold schedule.
  replace 64%nat with ((t - 15) + (79 - t))%nat by lia. rewrite ext_nth by (rewrite words_length; lia).
  replace (t - 15)%nat with (Datatypes.S (t - 16)) by lia. rewrite ext_S.
  assert (L : List.length (Nat.iter (t - 16) ext (block_words b)) = t) by (rewrite ext_length, words_length; lia).
  rewrite app_nth2 by lia. rewrite L, Nat.sub_diag. cbn [nth].
  revert L. generalize (Nat.iter (t - 16) ext (block_words b)). intros w L. unfold next_word. now rewrite L.
Qed.

(** ---- the circular window ---- *)
Lemma w_set_length i v w : List.length (w_set i v w) = List.length w.
Proof. revert i; induction w as [|x w IH]; intros [|i]; cbn; auto. Qed.
Lemma w_set_same i v w : (i < List.length w)%nat -> nth i (w_set i v w) 0 = v.
Proof. revert i; induction w as [|x w IH]; intros [|i] H; cbn in *; try lia; auto. apply IH. lia. Qed.
Lemma w_set_other i j v w : i <> j -> nth j (w_set i v w) 0 = nth j w 0.
Proof. revert i j; induction w as [|x w IH]; intros [|i] [|j] H; cbn; auto; try lia. Qed.

Definition window (b : bytes) (i : nat) (w : list N) : Prop :=
  List.length w = 16%nat /\
  forall t, (t < Nat.max 16 i)%nat -> (Nat.max 16 i <= t + 16)%nat -> nth (t mod 16) w 0 = nth t (schedule b) 0.

Lemma mod16 a b : (a mod 16 = b mod 16 -> a < b + 16 -> b < a + 16 -> a = b)%nat.
Proof. intros. lia. Qed.

Lemma window_step b i w : (i < 80)%nat -> window b i w ->
  window b (S i) (go_w i w) /\ nth (i mod 16) (go_w i w) 0 = nth i (schedule b) 0.
Proof.
  intros Hi (L & W). unfold go_w. destruct (Nat.ltb_spec i 16).
  - assert (E : Nat.max 16 (S i) = Nat.max 16 i) by lia. split; [split; [exact L|]|].
    + intros t. rewrite E. apply W.
    + apply W; lia.
  - assert (Hm : (i mod 16 < 16)%nat) by (apply Nat.mod_upper_bound; lia).
    assert (Mi : Nat.max 16 i = i) by lia. rewrite Mi in W.
    assert (V : rotate_left32 (N.lxor (N.lxor (N.lxor (nth ((i - 3) mod 16) w 0) (nth ((i - 8) mod 16) w 0))
                       (nth ((i - 14) mod 16) w 0)) (nth (i mod 16) w 0)) 1 = nth i (schedule b) 0).
    { rewrite (W (i - 3)%nat), (W (i - 8)%nat), (W (i - 14)%nat) by lia.
      replace (i mod 16)%nat with ((i - 16) mod 16)%nat by lia. rewrite (W (i - 16)%nat) by lia.
      rewrite rot_same. symmetry. apply schedule_high. lia. }
    rewrite V. split.
    + split; [now rewrite w_set_length|]. intros t H1 H2. replace (Nat.max 16 (S i)) with (S i) in H1, H2 by lia.
      destruct (Nat.eq_dec t i) as [->|Hn].
      * rewrite w_set_same; [reflexivity|]. now rewrite L.
      * rewrite w_set_other; [apply W; lia|]. intros E. apply Hn. symmetry. apply mod16; lia.
    + rewrite w_set_same; [reflexivity|]. now rewrite L.
Qed.

(** ---- one block ---- *)
Definition tow (r : regs) : words5 := W5 (ra r) (rb r) (rc r) (rd r) (re r).
Definition small (r : regs) : Prop :=
  ra r < 2 ^ 32 /\ rb r < 2 ^ 32 /\ rc r < 2 ^ 32 /\ rd r < 2 ^ 32 /\ re r < 2 ^ 32.

Lemma rounds_same b n i w r : (i + n <= 80)%nat -> window b i w -> small r ->
  let st := fold_left go_round (seq i n) (w, r) in
  tow (snd st) = fold_left (sha1_step (schedule b)) (seq i n) (tow r) /\ small (snd st).
Proof.
  revert i w r. induction n as [|n IH]; intros i w r Hn Hw Hs; cbn [seq fold_left]; [split; [reflexivity|exact Hs]|].
  destruct (window_step b i w) as (Hw' & Hv); [lia|exact Hw|].
  unfold go_round at 2 4. cbn [fst snd]. rewrite Hv, sum_same, k_same.
  destruct Hs as (Ha & Hb & Hc & Hd & He). rewrite f_same by exact Hd.
  edestruct (IH (S i) (go_w i w)) as (A & B); [lia|exact Hw'| |split; [rewrite A; reflexivity|exact B]].
  repeat split; cbn [ra rb rc rd re]; auto using rot_lt. apply N.mod_lt. discriminate.
Qed.

Lemma lor_add a k x : x < 2 ^ k -> N.lor (N.shiftl a k) x = a * 2 ^ k + x.
Proof.
  intros H.
  assert (Z : N.land (N.shiftl a k) x = 0).
  { apply N.bits_inj. intros n. rewrite N.land_spec, N.bits_0. destruct (N.ltb_spec n k).
    - now rewrite N.shiftl_spec_low.
    - rewrite <- (N.mod_small x (2 ^ k) H). rewrite N.mod_pow2_bits_high by assumption. apply andb_false_r. }
  rewrite <- N.lxor_lor by exact Z. rewrite <- N.add_nocarry_lxor by exact Z. now rewrite N.shiftl_mul_pow2.
Qed.

Lemma four (p : bytes) i : (4 * i + 4 <= List.length p)%nat ->
  slice (4 * i) 4 p = [nth (4 * i) p 0; nth (4 * i + 1) p 0; nth (4 * i + 2) p 0; nth (4 * i + 3) p 0].
Proof.
  intros H. unfold slice. set (o := (4 * i)%nat) in *. clearbody o. revert p H. induction o as [|o IH]; intros p H.
  - destruct p as [|a [|b [|c [|d p]]]]; cbn in H; try lia. reflexivity.
  - destruct p as [|a p]; [cbn in H; lia|]. cbn [skipn Nat.add nth]. apply IH. cbn in H. lia.
Qed.

Lemma load_same p : wf p -> List.length p = 64%nat -> go_load p = block_words p.
Proof.
  intros W L. unfold go_load, block_words. apply map_ext_in. intros i Hi. apply in_seq in Hi.
  cbv zeta. rewrite (Nat.mul_comm i 4). rewrite four by lia.
  assert (B : forall j, nth j p 0 < 256).
  { intros j. destruct (Nat.ltb_spec j (List.length p)).
    - unfold wf in W. rewrite Forall_forall in W. apply W. now apply nth_In.
    - rewrite nth_overflow by lia. reflexivity. }
  generalize (B (4 * i)%nat), (B (4 * i + 1)%nat), (B (4 * i + 2)%nat), (B (4 * i + 3)%nat).
  generalize (nth (4 * i) p 0), (nth (4 * i + 1) p 0), (nth (4 * i + 2) p 0), (nth (4 * i + 3) p 0).
  intros a b c d Ha Hb Hc Hd.
  rewrite <- !N.lor_assoc. rewrite (lor_add c 8 d) by exact Hd.
  rewrite (lor_add b 16) by (change (2 ^ 8) with 256; change (2 ^ 16) with 65536; lia).
  rewrite (lor_add a 24) by (change (2 ^ 8) with 256; change (2 ^ 16) with 65536; change (2 ^ 24) with 16777216; lia).
  unfold be_val. cbn [fold_left]. change (2 ^ 8) with 256; change (2 ^ 16) with 65536; change (2 ^ 24) with 16777216. lia.
Qed.

Lemma chunk_same h p : small h -> wf p -> List.length p = 64%nat ->
  tow (go_chunk h p) = sha1_block (tow h) p /\ small (go_chunk h p).
Proof.
  intros S W L. unfold go_chunk, sha1_block. rewrite (load_same p W L).
  destruct (rounds_same p 80 0 (block_words p) h) as (A & B); [lia| |exact S|].
  - split; [apply words_length|]. intros t H1 H2. cbn in H1. rewrite Nat.mod_small by lia. symmetry. apply schedule_low. lia.
  - split.
    + rewrite <- A. unfold add5, tow, add32, u32. cbn [ra rb rc rd re wa wb wc wd we]. change (2 ^ 32) with 4294967296.
      f_equal; f_equal; lia.
    + repeat split; apply u32_lt.
Qed.

(** ---- blocks ---- *)
Lemma blocks_short r : (List.length r < 64)%nat -> blocks64 r = [].
Proof. intros H. unfold blocks64. rewrite Nat.div_small by exact H. reflexivity. Qed.

Lemma blocks_cons b r : List.length b = 64%nat -> blocks64 (b ++ r) = b :: blocks64 r.
Proof.
  intros L. unfold blocks64. rewrite app_length, L.
  replace ((64 + List.length r) / 64)%nat with (S (List.length r / 64)) by lia.
  cbn [seq map]. f_equal.
  - unfold slice. rewrite Nat.mul_0_r. change (skipn 0 (b ++ r)) with (b ++ r).
    rewrite firstn_app, L, Nat.sub_diag, firstn_O, app_nil_r. apply firstn_all2. lia.
  - rewrite <- seq_shift, map_map. apply map_ext. intros i. unfold slice. f_equal.
    rewrite skipn_app, L. rewrite (skipn_all2 b) by lia. cbn [app]. f_equal. lia.
Qed.

Lemma blocks_app n a r : List.length a = (64 * n)%nat -> blocks64 (a ++ r) = blocks64 a ++ blocks64 r.
Proof.
  revert a. induction n as [|n IH]; intros a L.
  - destruct a; [|cbn in L; lia]. reflexivity.
  - rewrite <- (firstn_skipn 64 a). set (b := firstn 64 a). set (c := skipn 64 a).
    assert (Lb : List.length b = 64%nat) by (unfold b; rewrite firstn_length; lia).
    assert (Lc : List.length c = (64 * n)%nat) by (unfold c; rewrite skipn_length; lia).
    rewrite <- app_assoc. rewrite (blocks_cons b (c ++ r) Lb), (blocks_cons b c Lb). cbn [app]. f_equal. now apply IH.
Qed.

Lemma blocks_all n a : List.length a = (64 * n)%nat -> wf a -> Forall (fun b => wf b /\ List.length b = 64%nat) (blocks64 a).
Proof.
  revert a. induction n as [|n IH]; intros a L W.
  - rewrite blocks_short by lia. constructor.
  - rewrite <- (firstn_skipn 64 a). rewrite blocks_cons by (rewrite firstn_length; lia). constructor.
    + split; [now apply wf_firstn|rewrite firstn_length; lia].
    + apply IH; [rewrite skipn_length; lia|now apply wf_skipn].
Qed.

Lemma go_block_fold n h p : List.length p = (64 * n)%nat -> go_block n h p = fold_left go_chunk (blocks64 p) h.
Proof.
  revert h p. induction n as [|n IH]; intros h p L.
  - rewrite blocks_short by lia. reflexivity.
  - cbn [go_block]. replace (64 <=? List.length p)%nat with true by (symmetry; apply Nat.leb_le; lia).
    rewrite IH by (rewrite skipn_length; lia).
    rewrite <- (firstn_skipn 64 p) at 3. rewrite blocks_cons by (rewrite firstn_length; lia). reflexivity.
Qed.

Lemma fold_cons {A B} (f : A -> B -> A) b l s : fold_left f (b :: l) s = fold_left f l (f s b).
Proof. reflexivity. Qed.
Lemma fold_nil {A B} (f : A -> B -> A) s : fold_left f [] s = s.
Proof. reflexivity. Qed.

Lemma fold_same bs h : small h -> Forall (fun b => wf b /\ List.length b = 64%nat) bs ->
  tow (fold_left go_chunk bs h) = fold_left sha1_block bs (tow h).
Proof.
  intros S F. revert h S. induction F as [|b bs (W & L) F IH]; intros h S; [now rewrite !fold_nil|].
  destruct (chunk_same h b S W L) as (A & B). rewrite !fold_cons, <- A. exact (IH _ B).
Qed.

(** ---- the streaming digest ---- *)
Definition iv : regs := dg_h sha1_new.
Definition rep (d : digest) (m : bytes) : Prop :=
  exists a r n, m = a ++ r /\ List.length a = (64 * n)%nat /\ (List.length r < 64)%nat /\
    dg_h d = fold_left go_chunk (blocks64 a) iv /\ dg_nx d = List.length r /\
    firstn (List.length r) (dg_x d) = r /\ List.length (dg_x d) = 64%nat /\ dg_len d = blen m mod 2 ^ 64.

Lemma rep_new : rep sha1_new [].
Proof. exists [], [], 0%nat. repeat split. cbn. lia. Qed.

Definition whole (h : regs) (p : bytes) : regs * bytes :=
  if (64 <=? List.length p)%nat then
    let n := (List.length p / 64 * 64)%nat in (go_block (List.length p / 64) h (firstn n p), skipn n p)
  else (h, p).
Definition second (h : regs) (x : bytes) (nx : nat) (len : N) (p : bytes) : digest :=
  let '(h, p) := whole h p in
  match p with
  | [] => Dg h x nx len
  | _ => Dg h (p ++ skipn (List.length p) x) (List.length p) len
  end.

Lemma second_rep a n h x p len : List.length a = (64 * n)%nat -> h = fold_left go_chunk (blocks64 a) iv ->
  List.length x = 64%nat -> len = blen (a ++ p) mod 2 ^ 64 -> rep (second h x 0 len p) (a ++ p).
Proof.
  intros La Hh Lx Hl.
  assert (G : exists q c, whole h p = (fold_left go_chunk (blocks64 (a ++ c)) iv, q) /\ p = c ++ q /\ (List.length q < 64)%nat /\
      exists k, List.length (a ++ c) = (64 * k)%nat).
  { unfold whole. destruct (Nat.leb_spec 64 (List.length p)).
    - cbv zeta. set (k := (List.length p / 64)%nat). exists (skipn (k * 64) p), (firstn (k * 64) p).
      assert (Lf : List.length (firstn (k * 64) p) = (64 * k)%nat) by (rewrite firstn_length; unfold k; lia).
      rewrite (go_block_fold k h _ Lf). rewrite (blocks_app n) by exact La. rewrite fold_left_app, <- Hh.
      split; [reflexivity|]. split; [now rewrite firstn_skipn|]. split; [rewrite skipn_length; unfold k; lia|].
      exists (n + k)%nat. rewrite app_length. lia.
    - exists p, []. rewrite app_nil_r, <- Hh. repeat split; auto. exists n. exact La. }
  destruct G as (q & c & E & Ep & Lq & k & Lk). unfold second. rewrite E.
  exists (a ++ c), q, k. split; [rewrite Ep; apply app_assoc|]. split; [exact Lk|]. split; [exact Lq|].
  destruct q as [|y q]; cbn [dg_h dg_nx dg_x dg_len].
  - repeat split; auto.
  - split; [reflexivity|]. split; [reflexivity|]. split; [|split; [|exact Hl]].
    + rewrite firstn_app, Nat.sub_diag, firstn_O, app_nil_r. apply firstn_all.
    + rewrite app_length, skipn_length, Lx. lia.
Qed.

Lemma write_second d p : dg_write d p =
  let len := (dg_len d + blen p) mod 2 ^ 64 in
  let '(h, x, nx, p) :=
    if (0 <? dg_nx d)%nat then
      let n := Nat.min (64 - dg_nx d) (List.length p) in
      let x := firstn (dg_nx d) (dg_x d) ++ firstn n p ++ skipn (dg_nx d + n) (dg_x d) in
      let nx := (dg_nx d + n)%nat in
      if (nx =? 64)%nat then (go_block 1 (dg_h d) x, x, 0%nat, skipn n p) else (dg_h d, x, nx, skipn n p)
    else (dg_h d, dg_x d, dg_nx d, p) in
  second h x nx len p.
Proof. reflexivity. Qed.

Lemma write_rep d m p : rep d m -> rep (dg_write d p) (m ++ p).
Proof.
  intros (a & r & n & Em & La & Lr & Hh & Hn & Hx & Lx & Hl). rewrite write_second. cbv zeta.
  assert (El : (dg_len d + blen p) mod 2 ^ 64 = blen (m ++ p) mod 2 ^ 64).
  { rewrite Hl, N.add_mod_idemp_l by discriminate. unfold blen. rewrite app_length. f_equal. lia. }
  rewrite El. rewrite Hn, Hx.
  destruct (Nat.ltb_spec 0 (List.length r)) as [Hr|Hr].
  - set (k := Nat.min (64 - List.length r) (List.length p)).
    destruct (Nat.eqb_spec (List.length r + k) 64) as [E|E].
    + set (x := r ++ firstn k p ++ skipn (List.length r + k) (dg_x d)).
      assert (Ex : x = r ++ firstn k p) by (unfold x; rewrite (skipn_all2 (dg_x d)) by lia; now rewrite app_nil_r).
      assert (Lxx : List.length x = (64 * 1)%nat) by (rewrite Ex, app_length, firstn_length; lia).
      rewrite (go_block_fold 1 _ _ Lxx).
      assert (Emp : m ++ p = (a ++ x) ++ skipn k p).
      { rewrite Em, Ex, <- !app_assoc. f_equal. f_equal. symmetry. apply firstn_skipn. }
      rewrite Emp. apply (second_rep (a ++ x) (n + 1)); [rewrite app_length; lia| |lia|reflexivity].
      rewrite (blocks_app n) by exact La. rewrite fold_left_app, <- Hh. reflexivity.
    + assert (Ek : k = List.length p) by lia.
      rewrite Ek, skipn_all, firstn_all. unfold second, whole. cbn [List.length Nat.leb].
      exists a, (r ++ p), n. rewrite app_length. cbn [dg_h dg_nx dg_x dg_len].
      split; [rewrite Em; now rewrite app_assoc|]. split; [exact La|]. split; [lia|]. split; [exact Hh|].
      split; [lia|]. split; [|split; [|reflexivity]].
      * rewrite app_assoc, firstn_app, app_length, Nat.sub_diag, firstn_O, app_nil_r. rewrite <- app_length. apply firstn_all.
      * rewrite !app_length, skipn_length, Lx. lia.
  - destruct r; [|cbn in Hr; lia]. rewrite app_nil_r in Em. subst a. cbn [List.length].
    apply (second_rep m n); auto.
Qed.

(** ---- the final padding ---- *)
Lemma be_bytes_mod n v : be_bytes n (v mod 256 ^ N.of_nat n) = be_bytes n v.
Proof.
  unfold be_bytes. f_equal. revert v. induction n as [|n IH]; intros v; cbn [le_bytes]; [reflexivity|].
  rewrite Nat2N.inj_succ, N.pow_succ_r', N.mod_mul_r by (try apply N.pow_nonzero; lia).
  rewrite (N.mul_comm 256). f_equal.
  - rewrite N.mod_add by lia. apply N.mod_mod. lia.
  - rewrite N.div_add by lia. rewrite (N.div_small (v mod 256)) by (apply N.mod_lt; lia). rewrite N.add_0_l. apply IH.
Qed.

Lemma pad_length m : exists n, List.length (sha1_pad m) = (64 * n)%nat.
Proof.
  unfold sha1_pad, pad_zeros, zeros. rewrite !app_length, repeat_length, be_bytes_length. cbn [List.length].
  exists ((List.length m + (1 + ((119 - List.length m mod 64) mod 64 + 8))) / 64)%nat. lia.
Qed.

Definition bytes_of (r : regs) : bytes := words5_bytes (tow r).

Lemma check_sum_rep d m : rep d m ->
  dg_check_sum d = Some (bytes_of (fold_left go_chunk (blocks64 (sha1_pad m)) iv)).
Proof.
  intros R. pose proof R as (_ & _ & _ & _ & _ & _ & _ & _ & _ & _ & Hl). unfold dg_check_sum.
  set (L := List.length m).
  assert (Em : dg_len d mod 64 = N.of_nat (L mod 64)).
  { rewrite Hl. change (2 ^ 64) with (64 * 2 ^ 58). rewrite N.mod_mul_r by discriminate.
    rewrite N.mul_comm, N.mod_add, N.mod_mod by discriminate. unfold blen. fold L.
    rewrite Nat2N.inj_mod. reflexivity. }
  rewrite Em. set (j := (L mod 64)%nat). assert (Hj : (j < 64)%nat) by (apply Nat.mod_upper_bound; lia).
  set (t := if N.of_nat j <? 56 then 56 - N.of_nat j else 64 + 56 - N.of_nat j).
  assert (Et : (N.to_nat t - 1)%nat = pad_zeros L).
  { unfold t, pad_zeros. fold j. destruct (N.ltb_spec (N.of_nat j) 56); lia. }
  rewrite Et.
  assert (Eb : be_bytes 8 (N.shiftl (dg_len d) 3 mod 2 ^ 64) = be_bytes 8 (8 * blen m)).
  { change (2 ^ 64) with (256 ^ N.of_nat 8). rewrite be_bytes_mod, N.shiftl_mul_pow2, Hl.
    change (2 ^ 3) with 8. rewrite <- (be_bytes_mod 8 (_ * 8)). change (256 ^ N.of_nat 8) with (2 ^ 64).
    rewrite N.mul_mod_idemp_l by discriminate. change (2 ^ 64) with (256 ^ N.of_nat 8). rewrite be_bytes_mod.
    f_equal. lia. }
  rewrite Eb.
  change (0x80 :: repeat 0 (pad_zeros L) ++ be_bytes 8 (8 * blen m)) with ([0x80] ++ zeros (pad_zeros L) ++ be_bytes 8 (8 * blen m)).
  pose proof (write_rep d m ([0x80] ++ zeros (pad_zeros L) ++ be_bytes 8 (8 * blen m)) R) as W. fold (sha1_pad m) in W.
  destruct W as (a & r & n & Ea & La & Lr & Hh & Hn & _).
  assert (E : r = []).
  { destruct (pad_length m) as (q & Lq). unfold sha1_pad in Lq. fold L in Lq. rewrite Ea, app_length in Lq.
    destruct r; [reflexivity|cbn [List.length] in *; lia]. }
  subst r. rewrite Hn. cbn [List.length]. rewrite Hh. rewrite app_nil_r in Ea. fold L in Ea. unfold sha1_pad. fold L. rewrite Ea. reflexivity.
Qed.

Definition gosha (m : bytes) : bytes := bytes_of (fold_left go_chunk (blocks64 (sha1_pad m)) iv).

Lemma gosha_length m : List.length (gosha m) = 20%nat.
Proof. unfold gosha, bytes_of, words5_bytes. now rewrite !app_length, !be_bytes_length. Qed.
Lemma gosha_wf m : wf (gosha m).
Proof. unfold gosha, bytes_of, words5_bytes. rewrite !wf_app. repeat split; apply be_bytes_wf. Qed.

Lemma wf_pad m : wf m -> wf (sha1_pad m).
Proof.
  intros W. unfold sha1_pad. rewrite !wf_app. repeat split; auto using wf_zeros, be_bytes_wf.
  apply wf_cons. split; [reflexivity|apply wf_nil].
Qed.

Lemma gosha_same m : wf m -> gosha m = SHA1 m.
Proof.
  intros W. unfold gosha, SHA1, bytes_of. f_equal. destruct (pad_length m) as (n & Ln).
  apply (fold_same (blocks64 (sha1_pad m)) iv).
  - repeat split; reflexivity.
  - apply (blocks_all n); [exact Ln|now apply wf_pad].
Qed.

Lemma SHA1_length m : List.length (SHA1 m) = 20%nat.
Proof. unfold SHA1, words5_bytes. now rewrite !app_length, !be_bytes_length. Qed.
Lemma SHA1_wf m : wf (SHA1 m).
Proof. unfold SHA1, words5_bytes. rewrite !wf_app. repeat split; apply be_bytes_wf. Qed.

(** ---- HMAC ---- *)
Definition gokey (key : bytes) : bytes :=
  let k := if (64 <? List.length key)%nat then gosha key else key in k ++ repeat 0 (64 - List.length k).
Definition gomac (key text : bytes) : bytes :=
  gosha (map (fun b => N.lxor b 0x5c) (gokey key) ++ gosha (map (fun b => N.lxor b 0x36) (gokey key) ++ text)).

Definition keyed (m : hmac) (key : bytes) : Prop :=
  hm_opad m = map (fun b => N.lxor b 0x5c) (gokey key) /\ hm_ipad m = map (fun b => N.lxor b 0x36) (gokey key).
Definition hrep (m : hmac) (key text : bytes) : Prop := keyed m key /\ rep (hm_inner m) (hm_ipad m ++ text).

Lemma new_hrep key : exists m, hmac_new key = Some m /\ hrep m key [].
Proof.
  unfold hmac_new.
  assert (E : (if (64 <? List.length key)%nat then dg_check_sum (dg_write sha1_new key) else Some key)
              = Some (if (64 <? List.length key)%nat then gosha key else key)).
  { destruct (64 <? List.length key)%nat; [|reflexivity]. apply (check_sum_rep _ key), (write_rep _ [] key), rep_new. }
  rewrite E. cbv zeta.
  match goal with |- context [firstn 64 ?k] => assert (L : (List.length k <= 64)%nat) end.
  { destruct (Nat.ltb_spec 64 (List.length key)); [rewrite gosha_length; lia|lia]. }
  rewrite (firstn_all2 _ L). eexists. split; [reflexivity|]. split.
  - split; reflexivity.
  - cbn [hm_inner hm_ipad]. rewrite app_nil_r. apply (write_rep _ []), rep_new.
Qed.

Lemma reset_hrep m key : keyed m key -> hrep (hmac_reset m) key [].
Proof. intros K. split; [exact K|]. cbn [hmac_reset hm_inner hm_ipad]. rewrite app_nil_r. apply (write_rep _ []), rep_new. Qed.

Lemma write_hrep m key t p : hrep m key t -> hrep (hmac_write m p) key (t ++ p).
Proof. intros (K & R). split; [exact K|]. cbn [hmac_write hm_inner hm_ipad]. rewrite app_assoc. now apply write_rep. Qed.

Lemma sum_hrep m key t : hrep m key t -> hmac_sum m = Some (gomac key t).
Proof.
  intros ((Ko & Ki) & R). unfold hmac_sum. rewrite (check_sum_rep _ _ R). fold (gosha (hm_ipad m ++ t)).
  rewrite (check_sum_rep _ ([] ++ hm_opad m ++ gosha (hm_ipad m ++ t))).
  - unfold gomac, gosha. cbn [app]. now rewrite Ko, Ki.
  - rewrite app_assoc. apply write_rep, write_rep, rep_new.
Qed.

Lemma gomac_length k t : List.length (gomac k t) = 20%nat.
Proof. apply gosha_length. Qed.
Lemma gomac_wf k t : wf (gomac k t).
Proof. apply gosha_wf. Qed.

Lemma lxor_byte a b : a < 256 -> b < 256 -> N.lxor a b < 256.
Proof.
  intros Ha Hb. replace (N.lxor a b) with (N.lxor a b mod 2 ^ 8); [apply N.mod_lt; discriminate|].
  apply N.bits_inj. intros n. destruct (N.ltb_spec n 8).
  - now apply N.mod_pow2_bits_low.
  - rewrite N.mod_pow2_bits_high by assumption. rewrite N.lxor_spec.
    rewrite <- (N.mod_small a (2 ^ 8) Ha), <- (N.mod_small b (2 ^ 8) Hb). now rewrite !N.mod_pow2_bits_high.
Qed.

Lemma wf_xor_all b l : b < 256 -> wf l -> wf (map (fun x => N.lxor x b) l).
Proof. intros Hb W. unfold wf in *. rewrite Forall_map. eapply Forall_impl; [|exact W]. intros x Hx. now apply lxor_byte. Qed.

Lemma gomac_same k t : wf k -> wf t -> gomac k t = HMAC_SHA1 k t.
Proof.
  intros Wk Wt. unfold gomac, HMAC_SHA1.
  assert (Ek : gokey k = hmac_key k).
  { unfold gokey, hmac_key, zeros. rewrite (gosha_same k Wk). reflexivity. }
  assert (Wkey : wf (hmac_key k)).
  { unfold hmac_key. cbv zeta. rewrite wf_app. split; [|apply wf_zeros].
    destruct (64 <? List.length k)%nat; [apply SHA1_wf|exact Wk]. }
  rewrite Ek.
  assert (Ex : forall b, map (fun x => N.lxor x b) (hmac_key k) = xor_all b (hmac_key k)).
  { intros b. apply map_ext. intros x. apply N.lxor_comm. }
  rewrite <- !Ex.
  rewrite gosha_same.
  - f_equal. f_equal. apply gosha_same. rewrite wf_app. split; [apply wf_xor_all; [reflexivity|exact Wkey]|exact Wt].
  - rewrite wf_app. split; [apply wf_xor_all; [reflexivity|exact Wkey]|apply gosha_wf].
Qed.

Lemma HMAC_length k t : List.length (HMAC_SHA1 k t) = 20%nat.
Proof. apply SHA1_length. Qed.
Lemma HMAC_wf k t : wf (HMAC_SHA1 k t).
Proof. apply SHA1_wf. Qed.

(** ---- PBKDF2 ---- *)
Lemma be4 v : be_bytes 4 v = [N.shiftr v 24 mod 256; N.shiftr v 16 mod 256; N.shiftr v 8 mod 256; v mod 256].
Proof.
  unfold be_bytes. cbn [le_bytes rev app]. rewrite !N.shiftr_div_pow2, !N.div_div by discriminate. reflexivity.
Qed.

Definition gopass (key : bytes) (p : bytes * bytes) : bytes * bytes :=
  (xor2 (fst p) (gomac key (snd p)), gomac key (snd p)).

Lemma pass_iter n m key T U :
  keyed m key ->
  exists m', N.iter n key_pass (Some (m, T, U)) = Some (m', fst (N.iter n (gopass key) (T, U)),
                                                       snd (N.iter n (gopass key) (T, U)))
             /\ keyed m' key.
Proof.
  intros K. induction n using N.peano_ind.
  - exists m. split; [reflexivity|exact K].
  - destruct IHn as (m' & E & K'). rewrite !N.iter_succ, E. unfold key_pass.
    pose proof (reset_hrep m' key K') as R. apply (write_hrep _ _ _ (snd (N.iter n (gopass key) (T, U)))) in R.
    rewrite (sum_hrep _ _ _ R). eexists. split; [reflexivity|]. exact (proj1 R).
Qed.

Lemma iter_pb n key salt i :
  N.iter n (gopass key) (gomac key (salt ++ be_bytes 4 i), gomac key (salt ++ be_bytes 4 i))
  = (pb_f gomac key salt i (N.to_nat n), pb_u gomac key salt i (N.to_nat n)).
Proof.
  induction n using N.peano_ind; [reflexivity|].
  rewrite N.iter_succ, IHn, N2Nat.inj_succ. reflexivity.
Qed.

Lemma blocks_key n block iter salt m key dk : keyed m key ->
  key_blocks n block iter salt m dk
  = Some (dk ++ flat_map (fun i => pb_f gomac key salt (block + N.of_nat i) (N.to_nat (iter - 1))) (seq 0 n)).
Proof.
  revert block m dk. induction n as [|n IH]; intros block m dk K; cbn [key_blocks seq flat_map]; [now rewrite app_nil_r|].
  rewrite <- be4.
  pose proof (write_hrep _ _ _ (be_bytes 4 block) (write_hrep _ _ _ salt (reset_hrep m key K))) as R. cbn [app] in R.
  cbv zeta. rewrite (sum_hrep _ _ _ R).
  match goal with |- context [N.iter _ key_pass (Some (?x, ?T, _))] =>
    destruct (pass_iter (iter - 1) x key T T (proj1 R)) as (m' & E & K') end.
  rewrite E, iter_pb. cbn [fst snd]. rewrite IH by exact K'.
  f_equal. rewrite <- app_assoc. f_equal. rewrite N.add_0_r. f_equal.
  rewrite <- seq_shift, !flat_map_concat_map, map_map. f_equal. apply map_ext. intros i. f_equal. lia.
Qed.

Lemma key_go password salt iter keyLen :
  pbkdf2_key password salt iter keyLen = Some (PBKDF2 gomac 20 password salt iter keyLen).
Proof.
  unfold pbkdf2_key, PBKDF2. destruct (new_hrep password) as (m & -> & K & _).
  rewrite (blocks_key _ _ _ _ _ password) by exact K. cbn [app]. f_equal. f_equal.
  rewrite <- seq_shift, !flat_map_concat_map, map_map. f_equal. apply map_ext. intros i. f_equal. lia.
Qed.

Lemma xor2_length x y : List.length x = List.length y -> List.length (xor2 x y) = List.length x.
Proof. intros E. unfold xor2. rewrite map_length, combine_length. lia. Qed.
Lemma xor2_wf x y : wf x -> wf y -> wf (xor2 x y).
Proof.
  intros Wx. revert y. induction Wx as [|a x Ha Wx IH]; intros [|b y] Wy; try apply wf_nil.
  apply wf_cons in Wy as (Hb & Wy). unfold xor2. cbn [combine map fst snd]. apply wf_cons. split; [now apply lxor_byte|].
  exact (IH y Wy).
Qed.

Lemma pb_f_shape prf P S i n : (forall k t, List.length (prf k t) = 20%nat /\ wf (prf k t)) ->
  List.length (pb_f prf P S i n) = 20%nat /\ wf (pb_f prf P S i n).
Proof.
  intros H. assert (U : forall j, List.length (pb_u prf P S i j) = 20%nat /\ wf (pb_u prf P S i j)) by (destruct j; apply H).
  induction n as [|n IH]; [apply U|].
  change (pb_f prf P S i (Datatypes.S n)) with (xor2 (pb_f prf P S i n) (pb_u prf P S i (Datatypes.S n))).
  destruct (U (Datatypes.S n)) as (L & W). destruct IH as (L' & W'). split; [rewrite xor2_length; lia|now apply xor2_wf].
Qed.

Lemma flat_length {A} (f : A -> bytes) l n : (forall x, List.length (f x) = n) -> List.length (flat_map f l) = (n * List.length l)%nat.
Proof. intros H. induction l; cbn [flat_map List.length]; [lia|]. rewrite app_length, H, IHl. lia. Qed.
Lemma flat_wf {A} (f : A -> bytes) l : (forall x, wf (f x)) -> wf (flat_map f l).
Proof. intros H. induction l; cbn [flat_map]; [apply wf_nil|]. rewrite wf_app. auto. Qed.

Lemma PBKDF2_shape prf P S c n : (forall k t, List.length (prf k t) = 20%nat /\ wf (prf k t)) ->
  List.length (PBKDF2 prf 20 P S c n) = n /\ wf (PBKDF2 prf 20 P S c n).
Proof.
  intros H. unfold PBKDF2. split.
  - rewrite firstn_length, (flat_length _ _ 20) by (intros; now apply pb_f_shape). rewrite seq_length. lia.
  - apply wf_firstn, flat_wf. intros. now apply pb_f_shape.
Qed.

Lemma pb_same P S i : wf P -> wf S -> forall n, pb_u gomac P S i n = pb_u HMAC_SHA1 P S i n /\ pb_f gomac P S i n = pb_f HMAC_SHA1 P S i n.
Proof.
  intros WP WS.
  assert (U : forall n, pb_u gomac P S i n = pb_u HMAC_SHA1 P S i n /\ wf (pb_u HMAC_SHA1 P S i n)).
  { induction n as [|n (E & W)]; cbn [pb_u].
    - split; [apply gomac_same; [exact WP|]|apply HMAC_wf]. rewrite wf_app. split; [exact WS|apply be_bytes_wf].
    - rewrite E. split; [now apply gomac_same|apply HMAC_wf]. }
  intros n. split; [apply U|]. induction n as [|n IH]; [apply U|].
  change (xor2 (pb_f gomac P S i n) (pb_u gomac P S i (Datatypes.S n)) = xor2 (pb_f HMAC_SHA1 P S i n) (pb_u HMAC_SHA1 P S i (Datatypes.S n))).
  rewrite IH. f_equal. apply U.
Qed.

Lemma key_same password salt iter keyLen : wf password -> wf salt ->
  pbkdf2_key password salt iter keyLen = Some (PBKDF2_HMAC_SHA1 password salt iter keyLen).
Proof.
  intros WP WS. rewrite key_go. unfold PBKDF2_HMAC_SHA1, PBKDF2. f_equal. f_equal.
  rewrite !flat_map_concat_map. f_equal. apply map_ext. intros i. now apply pb_same.
Qed.

Lemma go_pbkdf2_shape p s : List.length (go_pbkdf2 p s) = 32%nat /\ wf (go_pbkdf2 p s).
Proof.
  unfold go_pbkdf2. rewrite key_go. apply PBKDF2_shape. intros k t. split; [apply gomac_length|apply gomac_wf].
Qed.

(** ---- trailing zeros of a password ---- *)
Lemma gokey_zeros p n : (List.length p + n <= 64)%nat -> gokey (p ++ zeros n) = gokey p.
Proof.
  intros H. unfold gokey. rewrite app_length. unfold zeros. rewrite repeat_length.
  replace (64 <? List.length p + n)%nat with false by (symmetry; apply Nat.ltb_ge; lia).
  replace (64 <? List.length p)%nat with false by (symmetry; apply Nat.ltb_ge; lia).
  rewrite app_length, repeat_length, <- app_assoc, <- repeat_app. f_equal. f_equal. lia.
Qed.

Lemma gomac_key p q t : gokey p = gokey q -> gomac p t = gomac q t.
Proof. intros H. unfold gomac. now rewrite H. Qed.

Lemma pb_key p q S i : gokey p = gokey q -> forall k,
  pb_u gomac p S i k = pb_u gomac q S i k /\ pb_f gomac p S i k = pb_f gomac q S i k.
Proof.
  intros H.
  assert (U : forall k, pb_u gomac p S i k = pb_u gomac q S i k).
  { induction k as [|k IH]; cbn [pb_u]; [now apply gomac_key|]. rewrite IH. now apply gomac_key. }
  intros k. split; [apply U|]. induction k as [|k IH]; [apply U|].
  change (xor2 (pb_f gomac p S i k) (pb_u gomac p S i (Datatypes.S k)) = xor2 (pb_f gomac q S i k) (pb_u gomac q S i (Datatypes.S k))).
  rewrite IH. f_equal. apply U.
Qed.

Lemma PBKDF2_key p q s c n : gokey p = gokey q -> PBKDF2 gomac 20 p s c n = PBKDF2 gomac 20 q s c n.
Proof.
  intros H. unfold PBKDF2. f_equal.
  rewrite !flat_map_concat_map. f_equal. apply map_ext. intros i. now apply pb_key.
Qed.

Lemma go_pbkdf2_go p s : go_pbkdf2 p s = PBKDF2 gomac 20 p s 75000 32.
Proof. unfold go_pbkdf2. rewrite key_go. reflexivity. Qed.

Lemma go_pbkdf2_key p q s : gokey p = gokey q -> go_pbkdf2 p s = go_pbkdf2 q s.
Proof. intros H. rewrite !go_pbkdf2_go. exact (PBKDF2_key p q s 75000 32 H). Qed.

Lemma go_pbkdf2_zeros p q s : (List.length p <= 32)%nat -> (List.length q <= 32)%nat ->
  p ++ zeros (32 - List.length p) = q ++ zeros (32 - List.length q) -> go_pbkdf2 p s = go_pbkdf2 q s.
Proof.
  intros Lp Lq E. apply go_pbkdf2_key.
  rewrite <- (gokey_zeros p (32 - List.length p)), <- (gokey_zeros q (32 - List.length q)) by lia. now rewrite E.
Qed.
