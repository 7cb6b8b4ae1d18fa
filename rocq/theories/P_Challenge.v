(** Lemmas for C177. *)
From Verif Require Import Base Spec_Tcg M_TcgToken M_Buffer M_TcgCommand M_TcgDevice M_TcgSession Spec_TcgCommand Spec_TcgClient
  Spec_TcgSession P_TcgDevice P_TcgSession Spec_Challenge.

Lemma app_same_length {A} (a b c d : list A) : a ++ b = c ++ d -> List.length a = List.length c -> a = c /\ b = d.
Proof.
  revert c. induction a as [|x a IH]; intros [|y c] H L; try discriminate L; [auto|]. injection H as -> H. injection L as L.
  destruct (IH c H L) as [-> ->]. auto.
Qed.

(** a byte string is read from its atom in one way only *)
Lemma bytes_atom_unique a b s t x y : holds_bytes a s -> holds_bytes b t -> encode a ++ x = encode b ++ y -> s = t /\ x = y.
Proof.
  intros (Oa & Ka & <-) (Ob & Kb & <-) H.
  assert (D : forall n m, n / 256 = m / 256 -> n mod 256 = m mod 256 -> n = m).
  { intros n m P Q. rewrite (N.div_mod n 256), (N.div_mod m 256) by discriminate. now rewrite P, Q. }
  assert (L : forall p q : bytes, blen p = blen q -> List.length p = List.length q) by (unfold blen; intros; lia).
  destruct a as [s1 v1|b1 s1 d1|b1 s1 d1|b1 s1 d1|t1]; cbn [atom_kind] in Ka; try (destruct s1; discriminate Ka); try discriminate Ka;
  destruct b as [s2 v2|b2 s2 d2|b2 s2 d2|b2 s2 d2|t2]; cbn [atom_kind] in Kb; try (destruct s2; discriminate Kb); try discriminate Kb;
  destruct b1; try (destruct s1; discriminate Ka); destruct b2; try (destruct s2; discriminate Kb);
  cbn [encode app b2n atom_ok atom_data] in *; destruct Oa as [Wa La], Ob as [Wb Lb].
  - injection H as H0 H. apply app_same_length; [exact H|]. apply L. destruct s1, s2; cbn [b2n] in H0; lia.
  - exfalso. injection H as H0 _. assert (blen d2 / 256 < 8) by (apply N.div_lt_upper_bound; lia). destruct s1, s2; cbn [b2n] in H0; lia.
  - exfalso. injection H as H0 _. destruct s1, s2; cbn [b2n] in H0; lia.
  - exfalso. injection H as H0 _. assert (blen d1 / 256 < 8) by (apply N.div_lt_upper_bound; lia). destruct s1, s2; cbn [b2n] in H0; lia.
  - injection H as H0 H1 H. assert (blen d1 / 256 < 8) by (apply N.div_lt_upper_bound; lia). assert (blen d2 / 256 < 8) by (apply N.div_lt_upper_bound; lia).
    apply app_same_length; [exact H|]. apply L. apply D; [destruct s1, s2; cbn [b2n] in H0; lia|exact H1].
  - exfalso. injection H as H0 _. assert (blen d1 / 256 < 8) by (apply N.div_lt_upper_bound; lia). destruct s1, s2; cbn [b2n] in H0; lia.
  - exfalso. injection H as H0 _. destruct s1, s2; cbn [b2n] in H0; lia.
  - exfalso. injection H as H0 _. assert (blen d2 / 256 < 8) by (apply N.div_lt_upper_bound; lia). destruct s1, s2; cbn [b2n] in H0; lia.
  - injection H as _ H1 H2 H3 H. apply app_same_length; [exact H|]. apply L. apply D; [|exact H3]. apply D; [|exact H2].
    rewrite !N.div_div by discriminate. exact H1.
Qed.

Lemma holds_string s : wf s -> 1 <= blen s < 2048 -> holds_bytes (string_atom s) s /\ credential_atom s = encode (string_atom s).
Proof.
  intros W L. split.
  - unfold holds_bytes, string_atom. destruct (blen s <? 16) eqn:C; [apply N.ltb_lt in C|]; cbn [atom_ok atom_kind atom_data]; repeat split; auto; lia.
  - unfold credential_atom. destruct (blen s =? 0) eqn:Z; [apply N.eqb_eq in Z; lia|]. destruct (blen s <? 2048) eqn:C; [reflexivity|apply N.ltb_ge in C; lia].
Qed.
Lemma encode_string_length s : (List.length (encode (string_atom s)) <= List.length s + 2)%nat.
Proof. unfold string_atom. destruct (blen s <? 16); cbn [encode List.length]; lia. Qed.

(** the frame keeps the whole of a payload that fits *)
Lemma frame_whole hv tv com p : (List.length p <= 456)%nat -> frame hv tv com p = frame_header hv tv com p ++ p ++ zeros (456 - List.length p).
Proof.
  intros L. unfold frame. pose proof (frame_header_length hv tv com p) as H.
  rewrite app_assoc. rewrite firstn_app. rewrite firstn_all2 by (rewrite app_length; lia).
  rewrite <- app_assoc. f_equal. f_equal. unfold zeros. rewrite app_length, H.
  replace (512 - (56 + List.length p))%nat with (456 - List.length p)%nat by lia.
  assert (G : forall (n m : nat) (v : N), (n <= m)%nat -> firstn n (repeat v m) = repeat v n).
  { clear. induction n; intros [|m] v Hm; try reflexivity; [lia|]. cbn. f_equal. apply IHn. lia. }
  apply G. lia.
Qed.
