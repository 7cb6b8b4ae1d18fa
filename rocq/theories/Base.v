(** Common vocabulary: bytes, results, byte order, list update.  No repo code is modelled here
    except where cited. *)
From Coq Require Export String.
From Coq Require Export List NArith ZArith Bool Lia.
From Coq Require Export ZifyBool ZifyN ZifyNat.
Export ListNotations.
Ltac Zify.zify_post_hook ::= Z.div_mod_to_equations.
#[global] Open Scope list_scope.
#[global] Open Scope N_scope.
Arguments N.add : simpl never.
Arguments N.mul : simpl never.
Arguments N.sub : simpl never.
Arguments N.div : simpl never.
Arguments N.modulo : simpl never.
Arguments N.pow : simpl never.
Arguments N.shiftl : simpl never.
Arguments N.shiftr : simpl never.
Arguments N.land : simpl never.
Arguments N.lor : simpl never.
Arguments N.to_nat : simpl never.
Arguments N.of_nat : simpl never.
Arguments N.eqb : simpl never.
Arguments N.ltb : simpl never.
Arguments N.leb : simpl never.

(** A Go []byte / string is a list of N; a well-formed byte is < 256. *)
Definition bytes := list N.
Definition is_byte (b : N) : Prop := b < 256.
Definition wf (l : bytes) : Prop := Forall is_byte l.

(** Go errors.  [EMsg s]: errors.New / fmt.Errorf with text s.  [EExt k s]: an error produced by the
    environment (driver, OS) with Error() text s and identity k. *)
Inductive err : Type :=
| EMsg (s : string)
| EFmt (s : string) (v : N)            (* fmt.Errorf("...%d", v) *)
| EEOF                                  (* io.EOF *)
| EUnexpectedEOF                        (* io.ErrUnexpectedEOF *)
| EInvalidParamType                     (* tcg/command.go:11-13 *)
| EIllegalResponse                      (* tcg/response.go:12-14 *)
| ETcg (status : N)                     (* tcg/errors.go:7-13 *)
| EDparm (msg : string) (driverStatus : N) (sense : bytes) (* common/errors.go:7-16 *)
| ENotSupportThisDriver                 (* common/drive_handle.go:23-25 *)
| EExt (k : N) (s : string).

(** Result of a Go call: value, error value, or run-time panic.
    [Fuel] is "the model's recursion bound was too small"; it is proved unreachable where it matters. *)
Inductive res (A : Type) : Type :=
| Ok (a : A)
| Err (e : err)
| Panic
| Fuel.
Arguments Ok {A} _.
Arguments Err {A} _.
Arguments Panic {A}.
Arguments Fuel {A}.

Definition is_ok {A} (r : res A) : bool := match r with Ok _ => true | _ => false end.

Definition blen (l : bytes) : N := N.of_nat (List.length l).

(** l[off .. off+n) (shorter if l is shorter). *)
Definition slice (off n : nat) (l : bytes) : bytes := firstn n (skipn off l).

(** Overwrite l[off ..] by d (in place, length preserved when off + |d| <= |l|). *)
Definition put (off : nat) (d l : bytes) : bytes :=
  firstn off l ++ d ++ skipn (off + List.length d) l.

Definition zeros (n : nat) : bytes := repeat 0 n.

(** Byte order. *)
Definition be_val (l : bytes) : N := fold_left (fun a b => a * 256 + b) l 0.
Fixpoint le_val (l : bytes) : N :=
  match l with [] => 0 | b :: t => b + 256 * le_val t end.
Fixpoint le_bytes (n : nat) (v : N) : bytes :=
  match n with O => [] | S k => v mod 256 :: le_bytes k (v / 256) end.
Definition be_bytes (n : nat) (v : N) : bytes := rev (le_bytes n v).

(** Big-endian 16/32-bit field of a buffer. *)
Definition be32_at (off : nat) (l : bytes) : N := be_val (slice off 4 l).
Definition be16_at (off : nat) (l : bytes) : N := be_val (slice off 2 l).

(** A Go bool flag from a masked byte: (b & m) != 0. *)
Definition bit_set (b m : N) : bool := negb (N.land b m =? 0).

(** ---- generic lemmas ---- *)

Definition bytes256 : list N := map N.of_nat (seq 0 256).

Lemma in_bytes256 b : b < 256 -> In b bytes256.
Proof.
  intros H. unfold bytes256. apply in_map_iff. exists (N.to_nat b). split; [lia|].
  apply in_seq. lia.
Qed.

(** Lift a finite sweep over all 256 bytes to a universally quantified statement. *)
Lemma byte_sweep (P : N -> bool) :
  forallb P bytes256 = true -> forall b, b < 256 -> P b = true.
Proof.
  intros H b Hb. rewrite forallb_forall in H. apply H. now apply in_bytes256.
Qed.

Lemma le_bytes_length n v : List.length (le_bytes n v) = n.
Proof. revert v; induction n as [|n IH]; intros v; cbn [le_bytes List.length]; congruence. Qed.

Lemma be_bytes_length n v : List.length (be_bytes n v) = n.
Proof. unfold be_bytes. rewrite rev_length. apply le_bytes_length. Qed.

Lemma le_bytes_wf n v : wf (le_bytes n v).
Proof.
  revert v; induction n as [|n IH]; intros v; cbn [le_bytes]; constructor.
  - unfold is_byte. apply N.mod_lt. lia.
  - apply IH.
Qed.

Lemma wf_rev l : wf l -> wf (rev l).
Proof. unfold wf. intros H. now apply Forall_rev. Qed.

Lemma wf_app l1 l2 : wf (l1 ++ l2) <-> wf l1 /\ wf l2.
Proof. unfold wf. apply Forall_app. Qed.

Lemma wf_cons b l : wf (b :: l) <-> b < 256 /\ wf l.
Proof. unfold wf. split; intros H; [inversion H; auto | constructor; tauto]. Qed.

Lemma wf_nil : wf [].
Proof. constructor. Qed.

Lemma wf_firstn n l : wf l -> wf (firstn n l).
Proof.
  unfold wf. revert n; induction l as [|b l IH]; intros [|n] H; cbn; try constructor.
  - now inversion H.
  - apply IH. now inversion H.
Qed.

Lemma wf_skipn n l : wf l -> wf (skipn n l).
Proof.
  unfold wf. revert n; induction l as [|b l IH]; intros [|n] H; cbn; auto.
  apply IH. now inversion H.
Qed.

Lemma wf_slice o n l : wf l -> wf (slice o n l).
Proof. intros H. unfold slice. now apply wf_firstn, wf_skipn. Qed.

Lemma wf_zeros n : wf (zeros n).
Proof. unfold wf, zeros. apply Forall_forall. intros x Hx. apply repeat_spec in Hx. subst. reflexivity. Qed.

Lemma be_bytes_wf n v : wf (be_bytes n v).
Proof. apply wf_rev, le_bytes_wf. Qed.

Lemma le_val_bytes n v : le_val (le_bytes n v) = v mod 256 ^ N.of_nat n.
Proof.
  revert v; induction n as [|n IH]; intros v.
  - cbn [le_bytes le_val]. rewrite N.mod_1_r. reflexivity.
  - cbn [le_bytes le_val]. rewrite IH.
    rewrite Nat2N.inj_succ, N.pow_succ_r'.
    rewrite N.mod_mul_r by (try apply N.pow_nonzero; lia). lia.
Qed.

Lemma fold_be_acc l : forall a, fold_left (fun a b => a * 256 + b) l a = a * 256 ^ blen l + be_val l.
Proof.
  unfold be_val, blen.
  induction l as [|b l IH]; intros a.
  - cbn. rewrite N.mul_1_r, N.add_0_r. reflexivity.
  - cbn [fold_left List.length]. rewrite IH. rewrite (IH (0 * 256 + b)).
    rewrite Nat2N.inj_succ, N.pow_succ_r'. nia.
Qed.

Lemma be_val_app l1 l2 : be_val (l1 ++ l2) = be_val l1 * 256 ^ blen l2 + be_val l2.
Proof.
  unfold be_val at 1. rewrite fold_left_app. rewrite fold_be_acc. reflexivity.
Qed.

Lemma be_val_cons b l : be_val (b :: l) = b * 256 ^ blen l + be_val l.
Proof. change (b :: l) with ([b] ++ l). rewrite be_val_app. unfold be_val at 1. cbn. lia. Qed.

Lemma be_val_rev l : be_val (rev l) = le_val l.
Proof.
  induction l as [|b l IH]; cbn [rev le_val]; [reflexivity|].
  rewrite be_val_app, IH. unfold be_val, blen. cbn. lia.
Qed.

Lemma be_val_bytes n v : be_val (be_bytes n v) = v mod 256 ^ N.of_nat n.
Proof. unfold be_bytes. rewrite be_val_rev. apply le_val_bytes. Qed.

Lemma be_val_bytes_small n v : v < 256 ^ N.of_nat n -> be_val (be_bytes n v) = v.
Proof. intros H. rewrite be_val_bytes. now apply N.mod_small. Qed.

Lemma be_val_lt l : wf l -> be_val l < 256 ^ blen l.
Proof.
  induction l as [|b l IH]; intros H.
  - reflexivity.
  - apply wf_cons in H as [Hb Hl]. rewrite be_val_cons. specialize (IH Hl).
    unfold blen in *. cbn [List.length]. rewrite Nat2N.inj_succ, N.pow_succ_r'. nia.
Qed.

Lemma le_bytes_val l : wf l -> le_bytes (List.length l) (le_val l) = l.
Proof.
  induction l as [|b l IH]; intros H; cbn [List.length le_bytes le_val]; [reflexivity|].
  apply wf_cons in H as [Hb Hl].
  f_equal.
  - rewrite (N.mul_comm 256), N.mod_add by lia. now apply N.mod_small.
  - rewrite (N.mul_comm 256), N.div_add by lia. rewrite N.div_small by assumption.
    rewrite N.add_0_l. auto.
Qed.

Lemma be_bytes_val l : wf l -> be_bytes (List.length l) (be_val l) = l.
Proof.
  intros H. unfold be_bytes.
  pose proof (le_bytes_val (rev l) (wf_rev _ H)) as E.
  rewrite rev_length in E. rewrite <- (be_val_rev (rev l)), rev_involutive in E.
  rewrite E. apply rev_involutive.
Qed.

Lemma be_bytes_inj n v w : v < 256 ^ N.of_nat n -> w < 256 ^ N.of_nat n ->
  be_bytes n v = be_bytes n w -> v = w.
Proof. intros Hv Hw H. rewrite <- (be_val_bytes_small n v), <- (be_val_bytes_small n w) by assumption. now rewrite H. Qed.

(** list surgery *)
Lemma put_length off d l : (off + List.length d <= List.length l)%nat ->
  List.length (put off d l) = List.length l.
Proof.
  intros H. unfold put. rewrite !app_length, firstn_length, skipn_length. lia.
Qed.

Lemma put_app_mid (a b c d : bytes) : List.length b = List.length d ->
  put (List.length a) d (a ++ b ++ c) = a ++ d ++ c.
Proof.
  intros H. unfold put. rewrite firstn_app, Nat.sub_diag, firstn_all. cbn [firstn].
  rewrite app_nil_r. f_equal. f_equal.
  rewrite skipn_app. rewrite skipn_all2 by lia. cbn [app].
  replace (List.length a + List.length d - List.length a)%nat with (List.length d) by lia.
  rewrite skipn_app, skipn_all2 by lia. cbn [app].
  rewrite H, Nat.sub_diag. reflexivity.
Qed.

Lemma slice_app_mid (a b c : bytes) : slice (List.length a) (List.length b) (a ++ b ++ c) = b.
Proof.
  unfold slice. rewrite skipn_app, skipn_all2 by lia. rewrite Nat.sub_diag. cbn [app skipn].
  rewrite firstn_app, firstn_all, Nat.sub_diag. cbn [firstn]. apply app_nil_r.
Qed.

Lemma slice_length o n (l : bytes) : (o + n <= List.length l)%nat -> List.length (slice o n l) = n.
Proof. intros H. unfold slice. rewrite firstn_length, skipn_length. lia. Qed.

Lemma slice_put_same off (d l : bytes) : (off + List.length d <= List.length l)%nat ->
  slice off (List.length d) (put off d l) = d.
Proof.
  intros H. unfold put.
  pose proof (slice_app_mid (firstn off l) d (skipn (off + List.length d) l)) as E.
  rewrite firstn_length_le in E by lia. exact E.
Qed.

Lemma nth_error_put off (d l : bytes) i : (off + List.length d <= List.length l)%nat ->
  nth_error (put off d l) i =
  if ((i <? off) || (off + List.length d <=? i))%nat then nth_error l i else nth_error d (i - off).
Proof.
  intros H. unfold put.
  destruct (Nat.ltb_spec i off) as [Hi|Hi]; cbn [orb].
  - rewrite nth_error_app1 by (rewrite firstn_length_le; lia).
    rewrite <- (firstn_skipn off l) at 2. rewrite nth_error_app1 by (rewrite firstn_length_le; lia). reflexivity.
  - rewrite nth_error_app2 by (rewrite firstn_length_le; lia).
    rewrite firstn_length_le by lia.
    destruct (Nat.leb_spec (off + List.length d) i) as [Hj|Hj].
    + rewrite nth_error_app2 by lia.
      rewrite <- (firstn_skipn (off + List.length d) l) at 2.
      rewrite nth_error_app2 by (rewrite firstn_length_le; lia).
      rewrite firstn_length_le by lia. f_equal. lia.
    + rewrite nth_error_app1 by lia. reflexivity.
Qed.

Lemma nth_error_slice off n (l : bytes) i :
  nth_error (slice off n l) i = if (i <? n)%nat then nth_error l (off + i) else None.
Proof.
  unfold slice. destruct (Nat.ltb_spec i n) as [H|H].
  - revert l n i H. induction off as [|off IH]; intros l n i H.
    + cbn [skipn Nat.add]. revert n i H. induction l as [|x l IHl]; intros n i H.
      * rewrite firstn_nil. reflexivity.
      * destruct n as [|n]; [lia|]. destruct i as [|i]; cbn; [reflexivity|]. apply IHl. lia.
    + destruct l as [|x l]; cbn [skipn Nat.add nth_error].
      * rewrite firstn_nil. destruct i; reflexivity.
      * now apply IH.
  - apply nth_error_None. rewrite firstn_length. lia.
Qed.

Lemma list_eq_nth_error {A} (l1 l2 : list A) : (forall i, nth_error l1 i = nth_error l2 i) -> l1 = l2.
Proof.
  revert l2. induction l1 as [|x l1 IH]; intros [|y l2] H; auto.
  - specialize (H 0%nat). discriminate.
  - specialize (H 0%nat). discriminate.
  - f_equal.
    + specialize (H 0%nat). cbn in H. congruence.
    + apply IH. intros i. specialize (H (S i)). exact H.
Qed.

Lemma slice_put_other off (d l : bytes) o n : (off + List.length d <= List.length l)%nat ->
  (o + n <= off)%nat \/ (off + List.length d <= o)%nat ->
  slice o n (put off d l) = slice o n l.
Proof.
  intros H Hd. apply list_eq_nth_error. intros i. rewrite !nth_error_slice.
  destruct (Nat.ltb_spec i n) as [Hi|Hi]; [|reflexivity].
  rewrite nth_error_put by assumption.
  destruct (Nat.ltb_spec (o + i) off); cbn [orb]; [reflexivity|].
  destruct (Nat.leb_spec (off + List.length d) (o + i)); [reflexivity|]. lia.
Qed.

Lemma slice_app_l o n (a b : bytes) : (o + n <= List.length a)%nat -> slice o n (a ++ b) = slice o n a.
Proof.
  intros H. apply list_eq_nth_error. intros i. rewrite !nth_error_slice.
  destruct (Nat.ltb_spec i n) as [Hi|Hi]; [|reflexivity].
  rewrite nth_error_app1 by lia. reflexivity.
Qed.

Lemma slice_app_r o n (a b : bytes) : (List.length a <= o)%nat ->
  slice o n (a ++ b) = slice (o - List.length a) n b.
Proof.
  intros H. apply list_eq_nth_error. intros i. rewrite !nth_error_slice.
  destruct (Nat.ltb_spec i n) as [Hi|Hi]; [|reflexivity].
  rewrite nth_error_app2 by lia. f_equal. lia.
Qed.

Lemma blen_app (a b : bytes) : blen (a ++ b) = blen a + blen b.
Proof. unfold blen. rewrite app_length. lia. Qed.
Lemma blen_cons x (b : bytes) : blen (x :: b) = 1 + blen b.
Proof. unfold blen. cbn [List.length]. lia. Qed.
Lemma blen_nil : blen [] = 0.
Proof. reflexivity. Qed.

Lemma skipn_skipn' {A} (a b : nat) (l : list A) : skipn a (skipn b l) = skipn (b + a) l.
Proof.
  revert l. induction b as [|b IH]; intros l; [reflexivity|].
  destruct l as [|x l]; cbn [skipn Nat.add]; [now rewrite skipn_nil|]. apply IH.
Qed.
