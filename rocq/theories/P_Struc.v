(** Lemmas about struc decoding. *)
From Verif Require Import Base M_Struc.

Fixpoint offset_of (n : string) (lay : list fld) (off : nat) : option (nat * (nat * nat)) :=
  match lay with
  | [] => None
  | f :: lay' => if String.eqb n (f_name f) then Some (off, (f_size f, f_count f))
                 else offset_of n lay' (off + f_size f * f_count f)
  end.

Fixpoint decoded (o : order) (lay : list fld) (off : nat) (b : bytes) : struct_val :=
  match lay with
  | [] => []
  | f :: lay' => (f_name f, decode_elems o (f_size f) (f_count f) (slice off (f_size f * f_count f) b))
                 :: decoded o lay' (off + f_size f * f_count f) b
  end.

Lemma read_full_ok n b : (n <= List.length b)%nat -> read_full n b = Ok (firstn n b, skipn n b).
Proof. intros H. unfold read_full. destruct (Nat.leb_spec n (List.length b)); [reflexivity|lia]. Qed.

Lemma read_full_short n b : (List.length b < n)%nat -> exists e, read_full n b = Err e /\ (e = EEOF \/ e = EUnexpectedEOF).
Proof.
  intros H. unfold read_full. destruct (Nat.leb_spec n (List.length b)); [lia|].
  destruct b; eauto.
Qed.

Lemma unpack_ok o lay : forall off b, (off + struc_sizeof lay <= List.length b)%nat ->
  struc_unpack o lay (skipn off b) = Ok (decoded o lay off b).
Proof.
  induction lay as [|f lay IH]; intros off b H; cbn [struc_unpack decoded struc_sizeof] in *; [reflexivity|].
  rewrite read_full_ok by (rewrite skipn_length; lia).
  rewrite skipn_skipn', IH by lia. reflexivity.
Qed.

Lemma unpack_ok0 o lay b : (struc_sizeof lay <= List.length b)%nat ->
  struc_unpack o lay b = Ok (decoded o lay 0 b).
Proof. intros H. apply (unpack_ok o lay 0 b). lia. Qed.

Lemma unpack_short o lay : forall b, (List.length b < struc_sizeof lay)%nat ->
  exists e, struc_unpack o lay b = Err e /\ (e = EEOF \/ e = EUnexpectedEOF).
Proof.
  induction lay as [|f lay IH]; intros b H; cbn [struc_unpack struc_sizeof] in *; [lia|].
  destruct (Nat.le_gt_cases (f_size f * f_count f) (List.length b)) as [Hl|Hl].
  - rewrite read_full_ok by assumption.
    destruct (IH (skipn (f_size f * f_count f) b)) as (e & -> & He); [rewrite skipn_length; lia|]. eauto.
  - destruct (read_full_short _ _ Hl) as (e & -> & He). eauto.
Qed.

Lemma unpack_cases o lay b :
  (exists v, struc_unpack o lay b = Ok v) <-> (struc_sizeof lay <= List.length b)%nat.
Proof.
  split.
  - intros [v Hv]. destruct (Nat.le_gt_cases (struc_sizeof lay) (List.length b)) as [H|H]; [assumption|].
    destruct (unpack_short o lay b H) as (e & He & _). congruence.
  - intros H. rewrite unpack_ok0 by assumption. eauto.
Qed.

Lemma field_decoded o lay n : forall off b p sz c, offset_of n lay off = Some (p, (sz, c)) ->
  field n (decoded o lay off b) = decode_elems o sz c (slice p (sz * c) b).
Proof.
  induction lay as [|f lay IH]; intros off b p sz c H; cbn [offset_of decoded field] in *; [discriminate|].
  destruct (String.eqb n (f_name f)).
  - injection H as <- <- <-. reflexivity.
  - apply IH, H.
Qed.

Lemma decode_elems_length o sz : forall n b, List.length (decode_elems o sz n b) = n.
Proof. induction n as [|n IH]; intros b; cbn [decode_elems List.length]; [reflexivity|]. now rewrite IH. Qed.

(** Elements of one byte are the bytes themselves. *)
Lemma decode_elems_bytes o : forall n b, List.length b = n -> decode_elems o 1 n b = b.
Proof.
  induction n as [|n IH]; intros b H; destruct b as [|x b]; cbn [List.length] in H; try discriminate; [reflexivity|].
  cbn [decode_elems skipn firstn]. rewrite IH by congruence.
  f_equal. destruct o; cbn [decode_int le_val]; unfold be_val; cbn [fold_left]; lia.
Qed.

Lemma slice_slice_mul p sz k n (b : bytes) : (k < n)%nat ->
  firstn sz (skipn (k * sz) (slice p (sz * n) b)) = slice (p + k * sz) sz b.
Proof.
  intros Hk. apply list_eq_nth_error. intros i.
  change (firstn sz (skipn (k * sz) (slice p (sz * n) b))) with (slice (k * sz) sz (slice p (sz * n) b)).
  rewrite !nth_error_slice.
  destruct (Nat.ltb_spec i sz) as [Hi|Hi]; [|reflexivity].
  assert (k * sz + i < sz * n)%nat by nia.
  destruct (Nat.ltb_spec (k * sz + i) (sz * n)); [|lia]. f_equal. lia.
Qed.

Lemma nth_decode_elems o sz : forall n k b, (k < n)%nat ->
  nth k (decode_elems o sz n b) 0 = decode_int o (firstn sz (skipn (k * sz) b)).
Proof.
  induction n as [|n IH]; intros k b H; [lia|].
  destruct k as [|k]; cbn [decode_elems nth]; [reflexivity|].
  rewrite IH by lia. rewrite skipn_skipn'. reflexivity.
Qed.

Lemma nth_field_decoded o lay n b p sz c k : offset_of n lay 0 = Some (p, (sz, c)) -> (k < c)%nat ->
  nth k (field n (decoded o lay 0 b)) 0 = decode_int o (slice (p + k * sz) sz b).
Proof.
  intros H Hk. rewrite (field_decoded _ _ _ _ _ _ _ _ H), nth_decode_elems by assumption.
  now rewrite slice_slice_mul.
Qed.

Lemma field1_decoded o lay n b p sz c : offset_of n lay 0 = Some (p, (sz, c)) -> (0 < c)%nat ->
  field1 n (decoded o lay 0 b) = decode_int o (slice p sz b).
Proof.
  intros H Hc. unfold field1. rewrite (nth_field_decoded _ _ _ _ _ _ _ 0 H Hc). f_equal. f_equal. lia.
Qed.

Lemma field_bytes o lay n b p c : offset_of n lay 0 = Some (p, (1%nat, c)) -> (p + c <= List.length b)%nat ->
  field n (decoded o lay 0 b) = slice p c b.
Proof.
  intros H Hl. rewrite (field_decoded _ _ _ _ _ _ _ _ H). rewrite Nat.mul_1_l.
  apply decode_elems_bytes. apply slice_length, Hl.
Qed.

Lemma field_set_same n d : forall v, field n v <> [] -> field n (set_field n d v) = d.
Proof.
  induction v as [|(m, x) v IH]; cbn [field set_field]; [congruence|]. intros H.
  destruct (String.eqb n m) eqn:E; cbn [field]; rewrite E; [reflexivity|]. auto.
Qed.
Lemma field_set_other n m d : n <> m -> forall v, field n (set_field m d v) = field n v.
Proof.
  intros Hn. induction v as [|(k, x) v IH]; cbn [field set_field]; [reflexivity|].
  destruct (String.eqb m k) eqn:E; cbn [field].
  - apply String.eqb_eq in E. subst k. destruct (String.eqb n m) eqn:E2; [|reflexivity].
    apply String.eqb_eq in E2. congruence.
  - now rewrite IH.
Qed.
Lemma field1_set_other n m d v : n <> m -> field1 n (set_field m d v) = field1 n v.
Proof. intros H. unfold field1. now rewrite field_set_other. Qed.
