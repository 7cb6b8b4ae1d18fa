From Verif Require Import Base M_DriveHandle M_Strings M_WinPass M_WinNvme M_WinInfo M_WinFactory M_WinEnum M_Utf16 Spec_Utf16 P_TcgToken P_DriveHandle.

Lemma fin (f : N -> bool) (n : nat) : forallb f (map N.of_nat (seq 0 n)) = true -> forall x, x < N.of_nat n -> f x = true.
Proof.
  intros H x L. rewrite forallb_forall in H. apply H. apply in_map_iff. exists (N.to_nat x). split; [apply N2Nat.id|]. apply in_seq. lia.
Qed.
Lemma or_80 y : y < 64 -> N.lor 0x80 y = 0x80 + y.
Proof. intros L. apply N.eqb_eq. exact (fin (fun y => N.lor 0x80 y =? 0x80 + y) 64 eq_refl y L). Qed.
Lemma or_C0 y : y < 32 -> N.lor 0xC0 y = 0xC0 + y.
Proof. intros L. apply N.eqb_eq. exact (fin (fun y => N.lor 0xC0 y =? 0xC0 + y) 32 eq_refl y L). Qed.
Lemma or_E0 y : y < 16 -> N.lor 0xE0 y = 0xE0 + y.
Proof. intros L. apply N.eqb_eq. exact (fin (fun y => N.lor 0xE0 y =? 0xE0 + y) 16 eq_refl y L). Qed.
Lemma or_F0 y : y < 8 -> N.lor 0xF0 y = 0xF0 + y.
Proof. intros L. apply N.eqb_eq. exact (fin (fun y => N.lor 0xF0 y =? 0xF0 + y) 8 eq_refl y L). Qed.
Lemma and_3F y : y < 64 -> N.land (0x80 + y) 0x3F = y.
Proof. intros L. apply N.eqb_eq. exact (fin (fun y => N.land (0x80 + y) 0x3F =? y) 64 eq_refl y L). Qed.
Lemma and_1F y : y < 32 -> N.land (0xC0 + y) 0x1F = y.
Proof. intros L. apply N.eqb_eq. exact (fin (fun y => N.land (0xC0 + y) 0x1F =? y) 32 eq_refl y L). Qed.
Lemma and_0F y : y < 16 -> N.land (0xE0 + y) 0x0F = y.
Proof. intros L. apply N.eqb_eq. exact (fin (fun y => N.land (0xE0 + y) 0x0F =? y) 16 eq_refl y L). Qed.
Lemma and_07 y : y < 8 -> N.land (0xF0 + y) 0x07 = y.
Proof. intros L. apply N.eqb_eq. exact (fin (fun y => N.land (0xF0 + y) 0x07 =? y) 8 eq_refl y L). Qed.
Lemma low6 x : N.land x 0x3F = x mod 64.
Proof. change 0x3F with (N.ones 6). now rewrite N.land_ones. Qed.
Lemma low10 x : N.land x 0x3FF = x mod 1024.
Proof. change 0x3FF with (N.ones 10). now rewrite N.land_ones. Qed.
Lemma shr x k m : m = 2 ^ k -> N.shiftr x k = x / m.
Proof. intros ->. apply N.shiftr_div_pow2. Qed.
Lemma or_low a b k m : m = 2 ^ k -> b < m -> N.lor (N.shiftl a k) b = a * m + b.
Proof. intros -> L. rewrite N.lor_comm, lor_add_disjoint by exact L. apply N.add_comm. Qed.

(** ---- the bytes of a code point ---- *)
Lemma small_mod x m : m <> 0 -> x mod m < m. Proof. intros H. now apply N.mod_lt. Qed.
Lemma rune_utf8 c : c < 0x110000 -> rune_bytes c = utf8_of c.
Proof.
  intros L. unfold rune_bytes, utf8_of. rewrite !low6, (shr c 6 64), (shr c 12 4096), (shr c 18 262144) by reflexivity.
  destruct (c <? 0x80) eqn:E1; [reflexivity|]. destruct (c <? 0x800) eqn:E2.
  { apply N.ltb_lt in E2. rewrite or_C0, or_80; [reflexivity|apply small_mod; lia|apply N.div_lt_upper_bound; lia]. }
  destruct (c <? 0x10000) eqn:E3.
  { apply N.ltb_lt in E3. rewrite or_E0, !or_80; try (apply small_mod; lia); [reflexivity|apply N.div_lt_upper_bound; lia]. }
  rewrite or_F0, !or_80; try (apply small_mod; lia); [reflexivity|apply N.div_lt_upper_bound; lia].
Qed.
Lemma rune_utf16 c : c < 0x110000 -> rune_units c = utf16_of c.
Proof.
  intros L. unfold rune_units, utf16_of. destruct (c <? 0x10000) eqn:E; [reflexivity|]. apply N.ltb_ge in E.
  rewrite !low10, (shr _ 10 1024) by reflexivity. rewrite (N.mod_small ((c - 0x10000) / 1024)); [reflexivity|]. apply N.div_lt_upper_bound; lia.
Qed.

(** the shape of the bytes, by the digits of the code point in base 64 *)
Lemma two a b : 2 <= a < 32 -> b < 64 -> utf8_of (a * 64 + b) = [0xC0 + a; 0x80 + b].
Proof.
  intros A B. unfold utf8_of. replace (a * 64 + b <? 0x80) with false by (symmetry; apply N.ltb_ge; lia).
  replace (a * 64 + b <? 0x800) with true by (symmetry; apply N.ltb_lt; lia).
  replace ((a * 64 + b) / 64) with a by (apply (N.div_unique _ 64 a b); lia). replace ((a * 64 + b) mod 64) with b by (apply (N.mod_unique _ 64 a b); lia). reflexivity.
Qed.
Lemma three a b d : a < 16 -> b < 64 -> d < 64 -> 0x800 <= a * 4096 + b * 64 + d -> utf8_of (a * 4096 + b * 64 + d) = [0xE0 + a; 0x80 + b; 0x80 + d].
Proof.
  intros A B D G. unfold utf8_of. replace (a * 4096 + b * 64 + d <? 0x80) with false by (symmetry; apply N.ltb_ge; lia).
  replace (a * 4096 + b * 64 + d <? 0x800) with false by (symmetry; apply N.ltb_ge; lia).
  replace (a * 4096 + b * 64 + d <? 0x10000) with true by (symmetry; apply N.ltb_lt; lia).
  replace ((a * 4096 + b * 64 + d) / 4096) with a by (apply (N.div_unique _ 4096 a (b * 64 + d)); lia).
  replace ((a * 4096 + b * 64 + d) / 64) with (a * 64 + b) by (apply (N.div_unique _ 64 _ d); lia).
  replace ((a * 64 + b) mod 64) with b by (apply (N.mod_unique _ 64 a b); lia).
  replace ((a * 4096 + b * 64 + d) mod 64) with d by (apply (N.mod_unique _ 64 (a * 64 + b) d); lia). reflexivity.
Qed.
Lemma four a b d e : a < 5 -> b < 64 -> d < 64 -> e < 64 -> 0x10000 <= a * 262144 + b * 4096 + d * 64 + e ->
  utf8_of (a * 262144 + b * 4096 + d * 64 + e) = [0xF0 + a; 0x80 + b; 0x80 + d; 0x80 + e].
Proof.
  intros A B D G H. unfold utf8_of. set (c := a * 262144 + b * 4096 + d * 64 + e) in *.
  replace (c <? 0x80) with false by (symmetry; apply N.ltb_ge; lia).
  replace (c <? 0x800) with false by (symmetry; apply N.ltb_ge; lia).
  replace (c <? 0x10000) with false by (symmetry; apply N.ltb_ge; lia).
  replace (c / 262144) with a by (apply (N.div_unique _ 262144 a (b * 4096 + d * 64 + e)); subst c; lia).
  replace (c / 4096) with (a * 64 + b) by (apply (N.div_unique _ 4096 _ (d * 64 + e)); subst c; lia).
  replace ((a * 64 + b) mod 64) with b by (apply (N.mod_unique _ 64 a b); lia).
  replace (c / 64) with (a * 4096 + b * 64 + d) by (apply (N.div_unique _ 64 _ e); subst c; lia).
  replace ((a * 4096 + b * 64 + d) mod 64) with d by (apply (N.mod_unique _ 64 (a * 64 + b) d); lia).
  replace (c mod 64) with e by (apply (N.mod_unique _ 64 (a * 4096 + b * 64 + d) e); subst c; lia). reflexivity.
Qed.
Lemma digits2 c : c = (c / 64) * 64 + c mod 64.
Proof. rewrite N.mul_comm. apply N.div_mod. lia. Qed.
Lemma digits3 c : c = (c / 64 / 64) * 4096 + (c / 64) mod 64 * 64 + c mod 64.
Proof. rewrite (digits2 c) at 1. rewrite (digits2 (c / 64)) at 1. lia. Qed.
Lemma digits4 c : c = (c / 64 / 64 / 64) * 262144 + (c / 64 / 64) mod 64 * 4096 + (c / 64) mod 64 * 64 + c mod 64.
Proof. rewrite (digits3 c) at 1. rewrite (digits2 (c / 64 / 64)) at 1. lia. Qed.

Inductive shape : N -> bytes -> Prop :=
| sh1 c : c < 0x80 -> shape c [c]
| sh2 a b : 2 <= a < 32 -> b < 64 -> shape (a * 64 + b) [0xC0 + a; 0x80 + b]
| sh3 a b d : a < 16 -> b < 64 -> d < 64 -> 0x800 <= a * 4096 + b * 64 + d -> shape (a * 4096 + b * 64 + d) [0xE0 + a; 0x80 + b; 0x80 + d]
| sh4 a b d e : a < 5 -> b < 64 -> d < 64 -> e < 64 -> 0x10000 <= a * 262144 + b * 4096 + d * 64 + e < 0x110000 ->
    shape (a * 262144 + b * 4096 + d * 64 + e) [0xF0 + a; 0x80 + b; 0x80 + d; 0x80 + e].
Lemma shaped c : c < 0x110000 -> shape c (utf8_of c).
Proof.
  intros L. assert (M : forall x, x mod 64 < 64) by (intros; apply N.mod_lt; lia). destruct (N.lt_ge_cases c 0x80) as [G|G].
  { unfold utf8_of. replace (c <? 0x80) with true by (symmetry; now apply N.ltb_lt). now constructor. }
  destruct (N.lt_ge_cases c 0x800) as [G2|G2].
  { assert (A : 2 <= c / 64 < 32) by (split; [apply N.div_le_lower_bound; lia|apply N.div_lt_upper_bound; lia]).
    pose proof (sh2 _ _ A (M c)) as P. rewrite <- (two _ _ A (M c)) in P. rewrite <- digits2 in P. exact P. }
  destruct (N.lt_ge_cases c 0x10000) as [G3|G3].
  { assert (A : c / 64 / 64 < 16) by (repeat (apply N.div_lt_upper_bound; [lia|]); lia).
    pose proof (digits3 c) as Dg. pose proof (M (c / 64)) as M1. pose proof (M c) as M2. revert Dg M1 M2 A.
    generalize (c / 64 / 64), ((c / 64) mod 64), (c mod 64). intros a b d -> B D A. rewrite three by assumption. now constructor. }
  assert (A : c / 64 / 64 / 64 < 5) by (repeat (apply N.div_lt_upper_bound; [lia|]); lia).
  pose proof (digits4 c) as Dg. pose proof (M (c / 64 / 64)) as M0. pose proof (M (c / 64)) as M1. pose proof (M c) as M2. revert Dg M0 M1 M2 A.
  generalize (c / 64 / 64 / 64), ((c / 64 / 64) mod 64), ((c / 64) mod 64), (c mod 64). intros a b d e -> B D F A. rewrite four by assumption. now constructor.
Qed.

(** ---- reading a code point back ---- *)
Ltac tst := match goal with
  | |- context [?x <? ?y] => first [replace (x <? y) with true by (symmetry; apply N.ltb_lt; lia) | replace (x <? y) with false by (symmetry; apply N.ltb_ge; lia)]
  | |- context [?x <=? ?y] => first [replace (x <=? y) with true by (symmetry; apply N.leb_le; lia) | replace (x <=? y) with false by (symmetry; apply N.leb_gt; lia)]
  end.
Lemma decode_scalar c rest : scalar c -> decode_rune (utf8_of c ++ rest) = (c, List.length (utf8_of c)).
Proof.
  intros [L Sg]. pose proof (shaped c L) as H. destruct H as [c G|a b A B|a b d A B D G|a b d e A B D F G]; cbn [app List.length]; unfold decode_rune, byte_at; cbn [nth]; cbv zeta.
  - repeat tst. reflexivity.
  - unfold cont. repeat tst. cbn [andb]. rewrite and_1F, and_3F by lia. rewrite (or_low _ _ 6 64) by (try reflexivity; lia). reflexivity.
  - tst. tst. tst. tst.
    assert (C : cont (if 0xE0 + a =? 0xE0 then 0xA0 else 0x80) (if 0xE0 + a =? 0xED then 0x9F else 0xBF) (0x80 + b) = true).
    { unfold cont. destruct (0xE0 + a =? 0xE0) eqn:E1; destruct (0xE0 + a =? 0xED) eqn:E2; rewrite ?N.eqb_eq, ?N.eqb_neq in *; apply andb_true_iff; rewrite !N.leb_le; split; lia. }
    rewrite C. unfold cont. repeat tst. cbn [andb]. rewrite and_0F, !and_3F by lia.
    assert (O : N.lor (N.shiftl a 12) (N.shiftl b 6) = N.shiftl (a * 64 + b) 6).
    { rewrite (or_low a _ 12 4096); [rewrite !N.shiftl_mul_pow2; change (2 ^ 6) with 64; lia|reflexivity|]. rewrite N.shiftl_mul_pow2. change (2 ^ 6) with 64. lia. }
    rewrite O, (or_low _ _ 6 64) by (try reflexivity; lia). apply (f_equal (fun x => (x, 3%nat))). clear. lia.
  - tst. tst. tst. tst. tst.
    assert (C : cont (if 0xF0 + a =? 0xF0 then 0x90 else 0x80) (if 0xF0 + a =? 0xF4 then 0x8F else 0xBF) (0x80 + b) = true).
    { unfold cont. destruct (0xF0 + a =? 0xF0) eqn:E1; destruct (0xF0 + a =? 0xF4) eqn:E2; rewrite ?N.eqb_eq, ?N.eqb_neq in *; apply andb_true_iff; rewrite !N.leb_le; split; lia. }
    rewrite C. unfold cont. repeat tst. cbn [andb]. rewrite and_07, !and_3F by lia.
    rewrite (or_low a (N.shiftl b 12) 18 262144) by (try reflexivity; rewrite N.shiftl_mul_pow2; change (2 ^ 12) with 4096; lia).
    replace (a * 262144 + N.shiftl b 12) with (N.shiftl (a * 64 + b) 12) by (rewrite !N.shiftl_mul_pow2; change (2 ^ 12) with 4096; lia).
    rewrite (or_low _ (N.shiftl d 6) 12 4096) by (try reflexivity; rewrite N.shiftl_mul_pow2; change (2 ^ 6) with 64; lia).
    replace ((a * 64 + b) * 4096 + N.shiftl d 6) with (N.shiftl (a * 4096 + b * 64 + d) 6) by (rewrite !N.shiftl_mul_pow2; change (2 ^ 6) with 64; lia).
    rewrite (or_low _ _ 6 64) by (try reflexivity; lia). apply (f_equal (fun x => (x, 4%nat))). clear. lia.
Qed.
Lemma decode_surrogate c rest : 0xD800 <= c < 0xE000 ->
  decode_rune (utf8_of c ++ rest) = (RUNE_ERROR, 1%nat) /\ wtf8_surrogate (utf8_of c ++ rest) = true /\ surrogate_unit (utf8_of c ++ rest) = c /\ List.length (utf8_of c) = 3%nat.
Proof.
  intros G. pose proof (shaped c ltac:(lia)) as H. destruct H as [c H|a b A B|a b d A B D _|a b d e A B D F H]; try (exfalso; lia).
  assert (a = 13) by lia. subst a. assert (32 <= b) by lia. cbn [app List.length]. unfold decode_rune, wtf8_surrogate, surrogate_unit, byte_at. cbn [nth app List.length]. cbv zeta.
  change (0xE0 + 13) with 0xED. change (0xED <? 0x80) with false. change (0xED <? 0xC2) with false. change (0xED <? 0xE0) with false. change (0xED <? 0xF0) with true.
  change (0xED =? 0xE0) with false. change (0xED =? 0xED) with true. cbv iota. unfold cont. repeat tst. cbn [andb Nat.leb].
  rewrite !and_3F by lia. change (N.land 0xED 0x0F) with 13. repeat split. rewrite !N.shiftl_mul_pow2. change (2 ^ 12) with 4096. change (2 ^ 6) with 64. lia.
Qed.
Lemma no_surrogate_pattern c rest : scalar c -> wtf8_surrogate (utf8_of c ++ rest) = false.
Proof.
  intros [L Sg]. pose proof (shaped c L) as H. destruct H as [c G|a b A B|a b d A B D G|a b d e A B D F G]; unfold wtf8_surrogate, byte_at; cbn [app nth].
  - replace (c =? 0xED) with false by (symmetry; apply N.eqb_neq; lia). now rewrite andb_false_r.
  - replace (0xC0 + a =? 0xED) with false by (symmetry; apply N.eqb_neq; lia). now rewrite andb_false_r.
  - destruct (0xE0 + a =? 0xED) eqn:E; [|now rewrite andb_false_r]. apply N.eqb_eq in E. assert (a = 13) by lia. subst a. unfold cont. tst. now rewrite andb_false_r.
  - replace (0xF0 + a =? 0xED) with false by (symmetry; apply N.eqb_neq; lia). now rewrite andb_false_r.
Qed.
Lemma utf8_some c : c < 0x110000 -> exists b t, utf8_of c = b :: t.
Proof. intros L. destruct (shaped c L); eauto. Qed.
Lemma skip_app {A} (a b : list A) : skipn (List.length a) (a ++ b) = b.
Proof. rewrite skipn_app, skipn_all, Nat.sub_diag. reflexivity. Qed.
Definition kept (m : bool) (c : N) : Prop := scalar c \/ (m = true /\ 0xD800 <= c < 0xE000).
Lemma kept_lt m c : kept m c -> c < 0x110000. Proof. intros [[L _]|[_ L]]; lia. Qed.
Lemma units_of_text m cs : Forall (kept m) cs -> forall f, (List.length (flat_map utf8_of cs) <= f)%nat -> string_units m f (flat_map utf8_of cs) = flat_map utf16_of cs.
Proof.
  induction 1 as [|c cs K _ IH]; intros f Lf; cbn [flat_map] in *; [now destruct f|].
  pose proof (kept_lt _ _ K) as L. destruct (utf8_some c L) as (b0 & t0 & E0). rewrite app_length in Lf.
  assert (1 <= List.length (utf8_of c))%nat by (rewrite E0; cbn; lia). destruct f as [|f]; [lia|]. cbn [string_units].
  assert (Sp : forall A (x y : A), match utf8_of c ++ flat_map utf8_of cs with [] => x | _ => y end = y) by (rewrite E0; reflexivity). rewrite Sp. clear Sp.
  destruct K as [Sc|[-> Su]].
  - rewrite (decode_scalar c _ Sc), (no_surrogate_pattern c _ Sc), andb_false_r, skip_app, rune_utf16, IH by (try exact L; lia). reflexivity.
  - destruct (decode_surrogate c (flat_map utf8_of cs) Su) as (-> & -> & -> & Ln). change (RUNE_ERROR =? RUNE_ERROR) with true. cbn [andb].
    rewrite <- Ln, skip_app, IH by lia. replace (utf16_of c) with [c]; [reflexivity|]. unfold utf16_of. now replace (c <? 0x10000) with true by (symmetry; apply N.ltb_lt; lia).
Qed.

(** ---- the runes of units ---- *)
Lemma pair_ok u v : 0xD800 <= u < 0xDC00 -> 0xDC00 <= v < 0xE000 -> 0x10000 <= pair_rune u v < 0x110000 /\ utf16_of (pair_rune u v) = [u; v].
Proof.
  intros U V. unfold pair_rune. rewrite (or_low _ _ 10 1024) by (try reflexivity; lia). split; [lia|]. unfold utf16_of.
  replace ((u - 0xD800) * 1024 + (v - 0xDC00) + 0x10000 <? 0x10000) with false by (symmetry; apply N.ltb_ge; lia).
  replace ((u - 0xD800) * 1024 + (v - 0xDC00) + 0x10000 - 0x10000) with ((u - 0xD800) * 1024 + (v - 0xDC00)) by lia.
  replace (((u - 0xD800) * 1024 + (v - 0xDC00)) / 1024) with (u - 0xD800) by (apply (N.div_unique _ 1024 _ (v - 0xDC00)); lia).
  replace (((u - 0xD800) * 1024 + (v - 0xDC00)) mod 1024) with (v - 0xDC00) by (apply (N.mod_unique _ 1024 (u - 0xD800) _); lia).
  f_equal; [lia|]. f_equal. lia.
Qed.
Lemma surrogate_true u : is_surrogate u = true <-> 0xD800 <= u < 0xE000.
Proof. unfold is_surrogate. now rewrite andb_true_iff, N.leb_le, N.ltb_lt. Qed.
Lemma surrogate_false u : is_surrogate u = false <-> ~ (0xD800 <= u < 0xE000).
Proof. rewrite <- surrogate_true. destruct (is_surrogate u); intuition congruence. Qed.
Lemma high_low u v : is_high u && is_low v = true -> 0xD800 <= u < 0xDC00 /\ 0xDC00 <= v < 0xE000.
Proof. unfold is_high, is_low. rewrite !andb_true_iff, !N.leb_le, !N.ltb_lt. tauto. Qed.
Lemma modern_runes n : forall us, (List.length us <= n)%nat -> Forall (fun u => 0 < u < 65536) us ->
  Forall (kept true) (units_runes true us) /\ flat_map utf16_of (units_runes true us) = us.
Proof.
  induction n as [|n IH]; intros us Ln W; [destruct us; [now split; [constructor|]|cbn in Ln; lia]|].
  destruct us as [|u t]; [now split; [constructor|]|]. inversion W as [|? ? Hu Ht]; subst. cbn [List.length] in Ln. cbn [units_runes].
  assert (One : u < 0x10000 -> utf16_of u = [u]) by (intros G; unfold utf16_of; replace (u <? 0x10000) with true by (symmetry; now apply N.ltb_lt); reflexivity).
  destruct (is_surrogate u) eqn:Su; cbn [negb].
  - apply surrogate_true in Su. assert (Ku : kept true u) by (right; split; [reflexivity|exact Su]). destruct t as [|v t'].
    + split; [constructor; [exact Ku|constructor]|]. cbn [flat_map]. now rewrite One by lia.
    + destruct (is_high u && is_low v) eqn:Hl.
      * apply high_low in Hl. destruct Hl as [U V]. destruct (pair_ok u v U V) as [R E]. inversion Ht; subst. cbn [List.length] in Ln.
        destruct (IH t' ltac:(lia) ltac:(assumption)) as [I1 I2]. split; [constructor; [left; split; lia|exact I1]|]. cbn [flat_map]. now rewrite E, I2.
      * destruct (IH (v :: t') ltac:(lia) Ht) as [I1 I2]. split; [constructor; [exact Ku|exact I1]|]. cbn [flat_map]. now rewrite One, I2 by lia.
  - apply surrogate_false in Su. destruct (IH t ltac:(lia) Ht) as [I1 I2]. split; [constructor; [left; split; [lia|exact Su]|exact I1]|]. cbn [flat_map]. now rewrite One, I2 by lia.
Qed.
Lemma scalar_runes m cs : Forall scalar cs -> units_runes m (flat_map utf16_of cs) = cs.
Proof.
  induction 1 as [|c cs [L Sg] _ IH]; [reflexivity|]. cbn [flat_map]. unfold utf16_of at 1. destruct (c <? 0x10000) eqn:E; cbn [app].
  - cbn [units_runes]. rewrite (proj2 (surrogate_false c) Sg). cbn [negb]. now rewrite IH.
  - apply N.ltb_ge in E. assert (A : (c - 0x10000) / 1024 < 1024) by (apply N.div_lt_upper_bound; lia). assert (B : (c - 0x10000) mod 1024 < 1024) by (apply N.mod_lt; lia).
    pose proof (N.div_mod (c - 0x10000) 1024 ltac:(lia)) as Dm. revert A B Dm. generalize ((c - 0x10000) / 1024), ((c - 0x10000) mod 1024). intros a b A B Dm.
    cbn [units_runes]. rewrite (proj2 (surrogate_true (0xD800 + a))) by lia. cbn [negb].
    assert (Hl : is_high (0xD800 + a) && is_low (0xDC00 + b) = true).
    { unfold is_high, is_low. rewrite !andb_true_iff, !N.leb_le, !N.ltb_lt. repeat split; lia. }
    rewrite Hl, IH. f_equal. unfold pair_rune. rewrite (or_low _ _ 10 1024) by (try reflexivity; lia). lia.
Qed.

(** ---- the two conversions ---- *)
Lemma nul_free us : ~ In 0 us -> until_nul us = None.
Proof.
  induction us as [|u t IH]; intros H; [reflexivity|]. cbn [until_nul]. replace (u =? 0) with false by (symmetry; apply N.eqb_neq; intros ->; apply H; now left).
  rewrite IH; [reflexivity|]. intros I. apply H. now right.
Qed.
Lemma name_nul_free us : name_units us -> ~ In 0 us.
Proof. intros W I. unfold name_units in W. rewrite Forall_forall in W. specialize (W 0 I). lia. Qed.
Lemma bytes_of_runes m cs : Forall (kept m) cs -> flat_map rune_bytes cs = flat_map utf8_of cs.
Proof. induction 1 as [|c cs K _ IH]; [reflexivity|]. cbn [flat_map]. now rewrite IH, rune_utf8 by (exact (kept_lt _ _ K)). Qed.
Lemma utf8_nul c : c < 0x110000 -> In 0 (utf8_of c) <-> c = 0.
Proof.
  intros L. destruct (shaped c L) as [c G|a b A B|a b d A B D G|a b d e A B D F G]; cbn [In].
  - intuition lia.
  - split; [intros [H|[H|[]]]; lia|lia].
  - split; [intros [H|[H|[H|[]]]]; lia|lia].
  - split; [intros [H|[H|[H|[H|[]]]]]; lia|lia].
Qed.
Lemma utf16_nul c : c < 0x110000 -> In 0 (utf16_of c) <-> c = 0.
Proof. intros L. unfold utf16_of. destruct (c <? 0x10000) eqn:E; cbn [In]; [intuition lia|]. apply N.ltb_ge in E. split; [intros [H|[H|[]]]; lia|lia]. Qed.
Lemma nul_in_text cs : Forall (fun c => c < 0x110000) cs -> In 0 (flat_map utf8_of cs) <-> In 0 (flat_map utf16_of cs).
Proof.
  intros W. rewrite Forall_forall in W. rewrite !in_flat_map. split; intros (c & I & Z); exists c; (split; [exact I|]); pose proof (W c I) as L;
    [apply utf16_nul, (utf8_nul c L), Z; exact L|apply utf8_nul, (utf16_nul c L), Z; exact L].
Qed.
Lemma has_nul s : existsb (N.eqb 0) s = true <-> In 0 s.
Proof. rewrite existsb_exists. split; [intros (x & I & E); apply N.eqb_eq in E; now subst|intros I; exists 0; now split]. Qed.
Lemma to_utf16 m cs : Forall (kept m) cs -> ~ In 0 (flat_map utf16_of cs) -> string_to_utf16 m (flat_map utf8_of cs) = Some (flat_map utf16_of cs).
Proof.
  intros K Z. unfold string_to_utf16. destruct (existsb (N.eqb 0) (flat_map utf8_of cs)) eqn:E.
  { exfalso. apply Z. apply has_nul in E. apply nul_in_text; [|exact E]. eapply Forall_impl; [|exact K]. intros c. apply kept_lt. }
  now rewrite units_of_text.
Qed.
