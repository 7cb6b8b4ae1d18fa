(** Lemmas for C78: strings.TrimSpace. *)
From Verif Require Import Base M_DriveHandle M_Strings M_Utf8 M_Utf16 M_LinuxInfo M_LinuxFactory Spec_Utf16 Spec_Drive Spec_LinuxFactory P_Utf16.

Lemma is_space_iff c : is_space c = true <-> white c.
Proof.
  unfold is_space, white. split.
  - intros H. apply orb_true_iff in H as [H|H].
    + apply existsb_exists in H as (x & Hx & E). apply N.eqb_eq in E. subst x. cbn [In] in *. tauto.
    + apply andb_true_iff in H as [A B]. apply N.leb_le in A, B.
      assert (E : c = 0x2000 \/ c = 0x2001 \/ c = 0x2002 \/ c = 0x2003 \/ c = 0x2004 \/ c = 0x2005 \/ c = 0x2006 \/ c = 0x2007 \/ c = 0x2008 \/ c = 0x2009 \/ c = 0x200A) by lia.
      cbn [In]. intuition (subst; tauto).
  - cbn [In]. intros H. repeat (destruct H as [<-|H]; [reflexivity|]). destruct H.
Qed.
Lemma white_scalar c : white c -> scalar c.
Proof. unfold white, scalar. cbn [In]. intros H. repeat (destruct H as [<-|H]; [lia|]). destruct H. Qed.
Lemma white_error c : white c -> c <> RUNE_ERROR.
Proof. intros H E. subst c. apply is_space_iff in H. discriminate H. Qed.
Lemma cont_off lo b : 0x80 <= lo -> forall hi, hi <= 0xBF -> cont lo hi b = true -> exists d, b = 0x80 + d /\ d < 64.
Proof. unfold cont. intros L hi U H. apply andb_true_iff in H as [A B]. apply N.leb_le in A, B. exists (b - 0x80). lia. Qed.
(** reading back what was read *)
Lemma decode_inv b s r n : decode_rune (b :: s) = (r, n) -> r <> RUNE_ERROR -> b :: s = utf8_of r ++ skipn n (b :: s) /\ n = List.length (utf8_of r).
Proof.
  unfold decode_rune, byte_at. cbn [nth]. intros H Ne.
  destruct (b <? 0x80) eqn:E0. { injection H as <- <-. unfold utf8_of. rewrite E0. split; reflexivity. }
  destruct (b <? 0xC2) eqn:E1; [injection H as <- <-; congruence|]. apply N.ltb_ge in E1.
  destruct (b <? 0xE0) eqn:E2; [|destruct (b <? 0xF0) eqn:E3; [|destruct (b <? 0xF5) eqn:E4; [|injection H as <- <-; congruence]]].
  - apply N.ltb_lt in E2. destruct (cont _ _ _) eqn:C1; [|injection H as <- <-; congruence]. destruct s as [|b1 s]; [discriminate C1|]. cbn [nth] in *.
    apply cont_off in C1 as (d & -> & D); [|lia|lia]. assert (exists a, b = 0xC0 + a /\ 2 <= a < 32) as (a & -> & A) by (exists (b - 0xC0); lia).
    rewrite and_1F, and_3F in H by lia. rewrite (or_low _ _ 6 64) in H by (try reflexivity; lia). injection H as <- <-. rewrite two by lia. split; reflexivity.
  - apply N.ltb_ge in E2. apply N.ltb_lt in E3. destruct (cont _ _ _ && _) eqn:C; [|injection H as <- <-; congruence]. apply andb_true_iff in C as [C1 C2].
    destruct s as [|b1 [|b2 s]]; cbn [nth] in *; [destruct (_ =? _) in C1; discriminate C1|discriminate C2|].
    assert (G : 0x800 <= (b - 0xE0) * 4096 + (b1 - 0x80) * 64).
    { unfold cont in C1. apply andb_true_iff in C1 as [A B]. apply N.leb_le in A, B. destruct (b =? 0xE0) eqn:Q; [apply N.eqb_eq in Q|apply N.eqb_neq in Q]; lia. }
    apply cont_off in C1 as (d & -> & D); [|destruct (_ =? _); lia|destruct (_ =? 0xED); lia]. apply cont_off in C2 as (e & -> & Eb); [|lia|lia].
    assert (exists a, b = 0xE0 + a /\ a < 16) as (a & -> & A) by (exists (b - 0xE0); lia).
    rewrite and_0F, !and_3F in H by lia.
    assert (O : N.lor (N.shiftl a 12) (N.shiftl d 6) = N.shiftl (a * 64 + d) 6).
    { rewrite (or_low a _ 12 4096); [rewrite !N.shiftl_mul_pow2; change (2 ^ 6) with 64; lia|reflexivity|]. rewrite N.shiftl_mul_pow2. change (2 ^ 6) with 64. lia. }
    rewrite O, (or_low _ _ 6 64) in H by (try reflexivity; lia). injection H as <- <-. replace ((a * 64 + d) * 64 + e) with (a * 4096 + d * 64 + e) by lia.
    rewrite three by lia. split; reflexivity.
  - apply N.ltb_ge in E3. apply N.ltb_lt in E4. destruct (cont _ _ _ && _ && _) eqn:C; [|injection H as <- <-; congruence].
    apply andb_true_iff in C as [C C3]. apply andb_true_iff in C as [C1 C2].
    destruct s as [|b1 [|b2 [|b3 s]]]; cbn [nth] in *; [destruct (_ =? _) in C1; discriminate C1|discriminate C2|discriminate C3|].
    assert (G : 0x10000 <= (b - 0xF0) * 262144 + (b1 - 0x80) * 4096).
    { unfold cont in C1. apply andb_true_iff in C1 as [A B]. apply N.leb_le in A, B. destruct (b =? 0xF0) eqn:Q; [apply N.eqb_eq in Q|apply N.eqb_neq in Q]; lia. }
    apply cont_off in C1 as (d & -> & D); [|destruct (_ =? _); lia|destruct (_ =? 0xF4); lia]. apply cont_off in C2 as (e & -> & Eb); [|lia|lia]. apply cont_off in C3 as (f & -> & Fb); [|lia|lia].
    assert (exists a, b = 0xF0 + a /\ a < 5) as (a & -> & A) by (exists (b - 0xF0); lia).
    rewrite and_07, !and_3F in H by lia.
    rewrite (or_low a (N.shiftl d 12) 18 262144) in H by (try reflexivity; rewrite N.shiftl_mul_pow2; change (2 ^ 12) with 4096; lia).
    replace (a * 262144 + N.shiftl d 12) with (N.shiftl (a * 64 + d) 12) in H by (rewrite !N.shiftl_mul_pow2; change (2 ^ 12) with 4096; lia).
    rewrite (or_low _ (N.shiftl e 6) 12 4096) in H by (try reflexivity; rewrite N.shiftl_mul_pow2; change (2 ^ 6) with 64; lia).
    replace ((a * 64 + d) * 4096 + N.shiftl e 6) with (N.shiftl (a * 4096 + d * 64 + e) 6) in H by (rewrite !N.shiftl_mul_pow2; change (2 ^ 6) with 64; lia).
    rewrite (or_low _ _ 6 64) in H by (try reflexivity; lia). injection H as <- <-. replace ((a * 4096 + d * 64 + e) * 64 + f) with (a * 262144 + d * 4096 + e * 64 + f) by lia.
    rewrite four by lia. split; reflexivity.
Qed.
Lemma utf8_len c : (1 <= List.length (utf8_of c) <= 4)%nat.
Proof. unfold utf8_of. destruct (c <? 0x80); [cbn; lia|]. destruct (c <? 0x800); [cbn; lia|]. destruct (c <? 0x10000); cbn; lia. Qed.
Lemma last_scalar t c : scalar c -> decode_last (t ++ utf8_of c) = (c, List.length (utf8_of c)).
Proof.
  intros Sc. pose proof (decode_scalar c [] Sc) as D. rewrite app_nil_r in D. destruct Sc as [L Sg]. pose proof (shaped c L) as H. unfold decode_last.
  assert (N1 : forall k x y u, nth (List.length (t ++ u) - k) (t ++ u) 0 = y -> (List.length (t ++ u) - k)%nat = x -> nth x (t ++ u) 0 = y) by (intros; subst; reflexivity). clear N1.
  destruct H as [c G|a b A B|a b d A B Dd G|a b d e A B Dd F G].
  - rewrite last_last. replace (c <? 0x80) with true by (symmetry; apply N.ltb_lt; lia). reflexivity.
  - change [0xC0 + a; 0x80 + b] with ([0xC0 + a] ++ [0x80 + b]). rewrite app_assoc, last_last, <- app_assoc. cbn [app].
    replace (0x80 + b <? 0x80) with false by (symmetry; apply N.ltb_ge; lia). rewrite app_length. cbn [List.length find].
    replace (List.length t + 2 - 2)%nat with (List.length t) by lia. rewrite app_nth2, Nat.sub_diag by lia. cbn [nth].
    replace (2 <=? List.length t + 2)%nat with true by (symmetry; apply Nat.leb_le; lia).
    assert (R : rune_start (0xC0 + a) = true) by (unfold rune_start, cont; rewrite (proj2 (N.leb_gt (0xC0 + a) 0xBF)) by lia; now rewrite andb_false_r). rewrite R. cbn [andb].
    replace (List.length t + 2 - 2)%nat with (List.length t) by lia. rewrite skip_app, D. reflexivity.
  - change [0xE0 + a; 0x80 + b; 0x80 + d] with ([0xE0 + a; 0x80 + b] ++ [0x80 + d]). rewrite app_assoc, last_last, <- app_assoc. cbn [app].
    replace (0x80 + d <? 0x80) with false by (symmetry; apply N.ltb_ge; lia). rewrite app_length. cbn [List.length find].
    assert (R : rune_start (0xE0 + a) = true) by (unfold rune_start, cont; rewrite (proj2 (N.leb_gt (0xE0 + a) 0xBF)) by lia; now rewrite andb_false_r).
    assert (R2 : rune_start (0x80 + b) = false) by (unfold rune_start, cont; rewrite (proj2 (N.leb_le 0x80 (0x80 + b))), (proj2 (N.leb_le (0x80 + b) 0xBF)) by lia; reflexivity).
    rewrite !app_nth2 by lia. replace (List.length t + 3 - 2 - List.length t)%nat with 1%nat by lia. replace (List.length t + 3 - 3 - List.length t)%nat with 0%nat by lia. cbn [nth].
    rewrite R, R2, andb_false_r. replace (3 <=? List.length t + 3)%nat with true by (symmetry; apply Nat.leb_le; lia). cbn [andb].
    replace (List.length t + 3 - 3)%nat with (List.length t) by lia. rewrite skip_app, D. reflexivity.
  - change [0xF0 + a; 0x80 + b; 0x80 + d; 0x80 + e] with ([0xF0 + a; 0x80 + b; 0x80 + d] ++ [0x80 + e]). rewrite app_assoc, last_last, <- app_assoc. cbn [app].
    replace (0x80 + e <? 0x80) with false by (symmetry; apply N.ltb_ge; lia). rewrite app_length. cbn [List.length find].
    assert (R : rune_start (0xF0 + a) = true) by (unfold rune_start, cont; rewrite (proj2 (N.leb_gt (0xF0 + a) 0xBF)) by lia; now rewrite andb_false_r).
    assert (R2 : rune_start (0x80 + b) = false) by (unfold rune_start, cont; rewrite (proj2 (N.leb_le 0x80 (0x80 + b))), (proj2 (N.leb_le (0x80 + b) 0xBF)) by lia; reflexivity).
    assert (R3 : rune_start (0x80 + d) = false) by (unfold rune_start, cont; rewrite (proj2 (N.leb_le 0x80 (0x80 + d))), (proj2 (N.leb_le (0x80 + d) 0xBF)) by lia; reflexivity).
    rewrite !app_nth2 by lia. replace (List.length t + 4 - 2 - List.length t)%nat with 2%nat by lia. replace (List.length t + 4 - 3 - List.length t)%nat with 1%nat by lia.
    replace (List.length t + 4 - 4 - List.length t)%nat with 0%nat by lia. cbn [nth].
    rewrite R, R2, R3, !andb_false_r. replace (4 <=? List.length t + 4)%nat with true by (symmetry; apply Nat.leb_le; lia). cbn [andb].
    replace (List.length t + 4 - 4)%nat with (List.length t) by lia. rewrite skip_app, D. reflexivity.
Qed.
Lemma last_inv s r n : s <> [] -> decode_last s = (r, n) -> r <> RUNE_ERROR -> s = firstn (List.length s - n) s ++ utf8_of r /\ n = List.length (utf8_of r).
Proof.
  intros Hs H Ne. unfold decode_last in H. destruct (last s 0 <? 0x80) eqn:E.
  - injection H as <- <-. unfold utf8_of. rewrite E. split; [|reflexivity]. rewrite (app_removelast_last 0 Hs) at 1. f_equal. rewrite removelast_firstn_len. f_equal. lia.
  - destruct (find _ _) as [k|] eqn:F; [|injection H as <- <-; congruence]. apply find_some in F as [I F]. apply andb_true_iff in F as [F _]. apply Nat.leb_le in F.
    destruct (decode_rune (skipn (List.length s - k) s)) as [r' m] eqn:D. destruct (m =? k)%nat eqn:Em; [|injection H as <- <-; congruence]. apply Nat.eqb_eq in Em. subst m. injection H as <- <-.
    assert (Lk : List.length (skipn (List.length s - k) s) = k) by (rewrite skipn_length; lia).
    destruct (skipn (List.length s - k) s) as [|b u] eqn:Es; [cbn in Lk; cbn [In] in I; lia|].
    destruct (decode_inv b u r' k D Ne) as [A B]. split; [|exact B].
    assert (Z : skipn k (b :: u) = []) by (apply skipn_all2; lia). rewrite Z, app_nil_r in A. rewrite <- A, <- Es. symmetry. apply firstn_skipn.
Qed.

Lemma trim_left_spec f : forall s, (List.length s <= f)%nat ->
  exists a, s = flat_map utf8_of a ++ trim_left f s /\ Forall white a /\ (forall c t', white c -> trim_left f s <> utf8_of c ++ t').
Proof.
  assert (Nil : forall c t', [] <> utf8_of c ++ t') by (intros c t' E; pose proof (utf8_len c) as U; destruct (utf8_of c); [cbn in U; lia|discriminate E]).
  induction f as [|f IH]; intros s L; [destruct s; [|cbn in L; lia]; exists []; repeat split; [constructor|intros; apply Nil]|].
  destruct s as [|b s]; [exists []; repeat split; [constructor|intros; apply Nil]|]. cbn [trim_left]. destruct (decode_rune (b :: s)) as [r n] eqn:D. destruct (is_space r) eqn:Sp.
  - apply is_space_iff in Sp. destruct (decode_inv b s r n D (white_error r Sp)) as [A B]. pose proof (utf8_len r) as U.
    destruct (IH (skipn n (b :: s))) as (a & E & W & T); [rewrite skipn_length; cbn [List.length] in *; lia|].
    exists (r :: a). cbn [flat_map]. rewrite <- app_assoc, <- E. split; [exact A|]. split; [now constructor|exact T].
  - exists []. split; [reflexivity|]. split; [constructor|]. intros c t' Wc E. rewrite E, (decode_scalar c t' (white_scalar c Wc)) in D. injection D as <- _.
    apply is_space_iff in Wc. congruence.
Qed.
Lemma trim_right_spec f : forall s, (List.length s <= f)%nat ->
  exists b, s = trim_right f s ++ flat_map utf8_of b /\ Forall white b /\ (forall c t', white c -> trim_right f s <> t' ++ utf8_of c).
Proof.
  assert (Nil : forall c t', [] <> t' ++ utf8_of c) by (intros c t' E; pose proof (utf8_len c) as U; destruct (app_eq_nil _ _ (eq_sym E)) as [_ Z]; rewrite Z in U; cbn in U; lia).
  induction f as [|f IH]; intros s L; [destruct s; [|cbn in L; lia]; exists []; repeat split; [constructor|intros; apply Nil]|].
  destruct s as [|b0 s0]; [exists []; repeat split; [constructor|intros; apply Nil]|]. cbn [trim_right]. set (s := b0 :: s0) in *. assert (Hs : s <> []) by discriminate. clearbody s. clear b0 s0.
  destruct (decode_last s) as [r n] eqn:D. destruct (is_space r) eqn:Sp.
  - apply is_space_iff in Sp. destruct (last_inv s r n Hs D (white_error r Sp)) as [A B]. pose proof (utf8_len r) as U.
    destruct (IH (firstn (List.length s - n) s)) as (a & E & W & T).
    { rewrite firstn_length. assert (List.length s <> 0%nat) by (destruct s; [congruence|discriminate]). lia. }
    exists (a ++ [r]). rewrite flat_map_app. cbn [flat_map]. rewrite app_nil_r, app_assoc, <- E. split; [exact A|]. split; [apply Forall_app; split; [exact W|now constructor]|exact T].
  - exists []. cbn [flat_map]. rewrite app_nil_r. split; [reflexivity|]. split; [constructor|]. intros c t' Wc E. rewrite E, (last_scalar t' c (white_scalar c Wc)) in D. injection D as <- _.
    apply is_space_iff in Wc. congruence.
Qed.
Lemma trim_space_spec s : stripped s (trim_space s).
Proof.
  unfold trim_space. cbv zeta. destruct (trim_left_spec _ s (le_n _)) as (a & E & Wa & Ta). set (t := trim_left (List.length s) s) in *.
  destruct (trim_right_spec _ t (le_n _)) as (b & E2 & Wb & Tb). set (u := trim_right (List.length t) t) in *. exists a, b.
  split; [now rewrite <- E2|]. split; [exact Wa|]. split; [exact Wb|]. split; [|exact Tb]. intros c t' Wc Eu. apply (Ta c (t' ++ flat_map utf8_of b) Wc). rewrite E2, Eu. now rewrite app_assoc.
Qed.

(** There is only one way to do it. *)
Definition starts_rune (s : bytes) : Prop := match s with [] => True | b :: _ => rune_start b = true end.
Lemma utf8_shape c : scalar c -> exists b t, utf8_of c = b :: t /\ rune_start b = true /\ Forall (fun x => rune_start x = false) t.
Proof.
  assert (C : forall x, x < 64 -> rune_start (0x80 + x) = false) by (intros x Hx; unfold rune_start, cont; rewrite (proj2 (N.leb_le 0x80 (0x80 + x))), (proj2 (N.leb_le (0x80 + x) 0xBF)) by lia; reflexivity).
  assert (U : forall x, 0xBF < x -> rune_start x = true) by (intros x Hx; unfold rune_start, cont; rewrite (proj2 (N.leb_gt x 0xBF)) by lia; now rewrite andb_false_r).
  intros [L _]. destruct (shaped c L) as [c G|a b A B|a b d A B D G|a b d e A B D F G]; eexists _, _; (split; [reflexivity|]).
  - split; [|constructor]. unfold rune_start, cont. rewrite (proj2 (N.leb_gt 0x80 c)) by lia. reflexivity.
  - split; [apply U; lia|]. repeat constructor; apply C; lia.
  - split; [apply U; lia|]. repeat constructor; apply C; lia.
  - split; [apply U; lia|]. repeat constructor; apply C; lia.
Qed.
Lemma flat_starts a : Forall scalar a -> starts_rune (flat_map utf8_of a).
Proof. destruct a as [|c a]; intros H; [exact I|]. inversion H; subst. destruct (utf8_shape c ltac:(assumption)) as (b & t & E & R & _). cbn [flat_map]. rewrite E. exact R. Qed.
(** a text not starting with white space does not start with it after white space was appended either *)
Lemma still_black t w : t <> [] -> starts_rune w -> (forall c t', white c -> t <> utf8_of c ++ t') -> forall c t', white c -> t ++ w <> utf8_of c ++ t'.
Proof.
  intros Ht Hw B c t' Wc E. destruct (utf8_shape c (white_scalar c Wc)) as (b & u & Eu & R & Cu).
  destruct (le_lt_dec (List.length (utf8_of c)) (List.length t)) as [L|L].
  - apply (B c (skipn (List.length (utf8_of c)) t) Wc). apply (f_equal (firstn (List.length (utf8_of c)))) in E. rewrite !firstn_app in E.
    rewrite Nat.sub_diag, firstn_all in E. replace (List.length (utf8_of c) - List.length t)%nat with 0%nat in E by lia. rewrite !firstn_O, !app_nil_r in E. rewrite <- E at 1. symmetry. apply firstn_skipn.
  - assert (W : w <> []) by (intros ->; rewrite app_nil_r in E; apply (B c t' Wc E)). destruct w as [|x w]; [congruence|]. cbn [starts_rune] in Hw.
    assert (X : nth_error (utf8_of c) (List.length t) = Some x).
    { apply (f_equal (fun l => nth_error l (List.length t))) in E. rewrite nth_error_app2, Nat.sub_diag in E by lia. cbn [nth_error] in E. rewrite nth_error_app1 in E by exact L. congruence. }
    rewrite Eu in X. destruct t as [|y t]; [congruence|]. cbn [List.length nth_error] in X. apply nth_error_In in X. rewrite Forall_forall in Cu. rewrite (Cu x X) in Hw. discriminate Hw.
Qed.
Lemma front_unique a : forall a' u u', Forall white a -> Forall white a' -> flat_map utf8_of a ++ u = flat_map utf8_of a' ++ u' ->
  (forall c t', white c -> u <> utf8_of c ++ t') -> (forall c t', white c -> u' <> utf8_of c ++ t') -> u = u'.
Proof.
  induction a as [|c a IH]; intros [|c' a'] u u' Wa Wa' E B B'; cbn [flat_map app] in E.
  - exact E.
  - inversion Wa'; subst. exfalso. apply (B c' (flat_map utf8_of a' ++ u')); [assumption|]. now rewrite app_assoc.
  - inversion Wa; subst. exfalso. apply (B' c (flat_map utf8_of a ++ u)); [assumption|]. symmetry. now rewrite app_assoc.
  - inversion Wa; inversion Wa'; subst. rewrite <- !app_assoc in E. pose proof (f_equal decode_rune E) as D. rewrite !decode_scalar in D by (apply white_scalar; assumption). injection D as <- _.
    apply app_inv_head in E. apply (IH a'); assumption.
Qed.
Lemma back_unique b : forall b' u u', Forall white b -> Forall white b' -> u ++ flat_map utf8_of b = u' ++ flat_map utf8_of b' ->
  (forall c t', white c -> u <> t' ++ utf8_of c) -> (forall c t', white c -> u' <> t' ++ utf8_of c) -> u = u'.
Proof.
  induction b as [|c b IH] using rev_ind; intros b'; [|destruct b' as [|c' b' _] using rev_ind]; [destruct b' as [|c' b' _] using rev_ind| |]; intros u u' Wb Wb' E B B';
    rewrite ?flat_map_app in E; cbn [flat_map] in E; rewrite ?app_nil_r in E.
  - exact E.
  - apply Forall_app in Wb' as [_ Wc]. inversion Wc; subst. exfalso. apply (B c' (u' ++ flat_map utf8_of b')); [assumption|]. now rewrite <- app_assoc.
  - apply Forall_app in Wb as [_ Wc]. inversion Wc; subst. exfalso. apply (B' c (u ++ flat_map utf8_of b)); [assumption|]. symmetry. now rewrite <- app_assoc.
  - apply Forall_app in Wb as [Wb Wc]. apply Forall_app in Wb' as [Wb' Wc']. inversion Wc; inversion Wc'; subst. rewrite !app_assoc in E. pose proof (f_equal decode_last E) as D.
    rewrite !last_scalar in D by (apply white_scalar; assumption). injection D as <- _. apply app_inv_tail in E. apply (IH b'); assumption.
Qed.
Lemma all_white_stripped a t b a' : t <> [] -> flat_map utf8_of a ++ t ++ flat_map utf8_of b = flat_map utf8_of a' -> Forall white a -> Forall white b -> Forall white a' ->
  (forall c t', white c -> t <> utf8_of c ++ t') -> False.
Proof.
  intros Ht E Wa Wb Wa' B. assert (Sb : starts_rune (flat_map utf8_of b)) by (apply flat_starts; eapply Forall_impl; [|exact Wb]; exact white_scalar).
  pose proof (still_black t _ Ht Sb B) as B2. assert (Nil : forall c t', white c -> [] <> utf8_of c ++ t') by (intros c t' _ X; pose proof (utf8_len c) as U; destruct (utf8_of c); [cbn in U; lia|discriminate X]).
  rewrite <- (app_nil_r (flat_map utf8_of a')) in E. pose proof (front_unique a a' _ [] Wa Wa' E B2 Nil) as Z. apply app_eq_nil in Z as [-> _]. congruence.
Qed.
Lemma stripped_unique s t t' : stripped s t -> stripped s t' -> t = t'.
Proof.
  intros (a & b & E & Wa & Wb & F & L) (a' & b' & E' & Wa' & Wb' & F' & L'). rewrite E in E'.
  assert (Sc : forall x, Forall white x -> starts_rune (flat_map utf8_of x)) by (intros x W; apply flat_starts; eapply Forall_impl; [|exact W]; exact white_scalar).
  destruct t as [|x t]; destruct t' as [|x' t'].
  - reflexivity.
  - exfalso. cbn [app] in E'. rewrite <- flat_map_app in E'. refine (all_white_stripped a' (x' :: t') b' (a ++ b) _ (eq_sym E') Wa' Wb' _ F'); [discriminate|now apply Forall_app].
  - exfalso. cbn [app] in E'. rewrite <- (flat_map_app utf8_of a') in E'. refine (all_white_stripped a (x :: t) b (a' ++ b') _ E' Wa Wb _ F); [discriminate|now apply Forall_app].
  - pose proof (still_black (x :: t) _ ltac:(discriminate) (Sc b Wb) F) as B. pose proof (still_black (x' :: t') _ ltac:(discriminate) (Sc b' Wb') F') as B'.
    pose proof (front_unique a a' _ _ Wa Wa' E' B B') as Z. exact (back_unique b b' _ _ Wb Wb' Z L L').
Qed.
