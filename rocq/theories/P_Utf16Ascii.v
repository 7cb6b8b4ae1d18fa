(** Lemmas for C166: the ASCII part of a converted text. *)
From Verif Require Import Base M_DriveHandle M_Strings M_WinPass M_WinNvme M_WinInfo M_WinFactory M_WinEnum M_Utf16 Spec_Utf16 P_Utf16.

Definition asc (u : N) : bool := u <? 0x80.
Lemma lor_ge a b : a <= N.lor a b.
Proof.
  replace (N.lor a b) with (a + N.ldiff b a); [lia|]. rewrite N.add_nocarry_lxor; [|apply N.bits_inj; intros i; rewrite N.land_spec, N.ldiff_spec, N.bits_0; destruct (N.testbit a i), (N.testbit b i); reflexivity].
  apply N.bits_inj; intros i. rewrite N.lxor_spec, N.lor_spec, N.ldiff_spec. destruct (N.testbit a i), (N.testbit b i); reflexivity.
Qed.
Lemma no_asc r : 0x80 <= r -> filter asc (rune_units r) = [].
Proof.
  intros H. unfold rune_units. destruct (r <? 0x10000).
  - cbn [filter]. unfold asc. now replace (r <? 0x80) with false by (symmetry; apply N.ltb_ge; exact H).
  - cbn [filter]. unfold asc. rewrite !(proj2 (N.ltb_ge _ _)) by (eapply N.le_trans; [|apply N.le_add_r]; lia). reflexivity.
Qed.
Lemma cont_hi lo hi b : 0x80 <= lo -> cont lo hi b = true -> asc b = false /\ lo <= b <= hi.
Proof. unfold cont, asc. intros L H. apply andb_true_iff in H as [A B]. apply N.leb_le in A, B. split; [apply N.ltb_ge|]; lia. Qed.
Lemma step_asc b0 s : b0 < 256 -> let '(r, n) := decode_rune (b0 :: s) in filter asc (rune_units r) = filter asc (firstn n (b0 :: s)).
Proof.
  intros B0. unfold decode_rune, byte_at. cbn [nth]. destruct (b0 <? 0x80) eqn:E0.
  { cbn [firstn filter]. unfold rune_units. replace (b0 <? 0x10000) with true by (symmetry; apply N.ltb_lt; apply N.ltb_lt in E0; lia). cbn [filter]. reflexivity. }
  assert (A0 : asc b0 = false) by exact E0.
  assert (Bad : filter asc (rune_units RUNE_ERROR) = filter asc (firstn 1 (b0 :: s))) by (cbn [firstn filter]; rewrite A0; reflexivity).
  destruct (b0 <? 0xC2) eqn:E1; [exact Bad|]. apply N.ltb_ge in E1. destruct (b0 <? 0xE0) eqn:E2; [|destruct (b0 <? 0xF0) eqn:E3; [|destruct (b0 <? 0xF5) eqn:E4; [|exact Bad]]].
  - destruct (cont _ _ _) eqn:C1; [|exact Bad]. destruct s as [|b1 s]; [discriminate C1|]. cbn [nth] in *. apply cont_hi in C1 as [A1 _]; [|lia].
    cbn [firstn filter]. rewrite A0, A1. apply no_asc. eapply N.le_trans; [|apply lor_ge]. apply N.ltb_lt in E2. rewrite N.shiftl_mul_pow2. change (2 ^ 6) with 64.
    enough (2 <= N.land b0 31) by lia.
    assert (F := fin (fun x => negb ((0xC2 <=? x) && (x <? 0xE0)) || (2 <=? N.land x 31)) 256 eq_refl b0 B0). cbv beta in F.
    rewrite (proj2 (N.leb_le 0xC2 b0)), (proj2 (N.ltb_lt b0 0xE0)) in F by assumption. apply N.leb_le. exact F.
  - destruct (cont _ _ _ && _) eqn:C; [|exact Bad]. apply andb_true_iff in C as [C1 C2]. destruct s as [|b1 [|b2 s]]; cbn [nth] in *; [destruct (_ =? _) in C1; discriminate C1|discriminate C2|].
    apply cont_hi in C1 as [A1 R1]; [|destruct (_ =? _); lia]. apply cont_hi in C2 as [A2 R2]; [|lia]. cbn [firstn filter]. rewrite A0, A1, A2. apply no_asc. apply N.ltb_ge in E2. apply N.ltb_lt in E3.
    eapply N.le_trans; [|apply lor_ge]. destruct (b0 =? 0xE0) eqn:Q.
    + apply N.eqb_eq in Q. subst b0. change (N.shiftl (N.land 0xE0 15) 12) with 0. rewrite N.lor_0_l, N.shiftl_mul_pow2. change (2 ^ 6) with 64.
      change (0xE0 =? 0xED) with false in R1; change (0xE0 =? 0xE0) with true in R1; cbv iota in R1; assert (b1 < 256) by lia.
      assert (F := fin (fun x => negb ((0xA0 <=? x) && (x <=? 0xBF)) || (32 <=? N.land x 63)) 256 eq_refl b1 ltac:(assumption)). cbv beta in F.
      rewrite (proj2 (N.leb_le 0xA0 b1)), (proj2 (N.leb_le b1 0xBF)) in F by lia. apply N.leb_le in F. lia.
    + eapply N.le_trans; [|apply lor_ge]. rewrite N.shiftl_mul_pow2. change (2 ^ 12) with 4096. apply N.eqb_neq in Q. enough (1 <= N.land b0 15) by lia.
      assert (F := fin (fun x => negb ((0xE1 <=? x) && (x <? 0xF0)) || (1 <=? N.land x 15)) 256 eq_refl b0 B0). cbv beta in F.
      rewrite (proj2 (N.leb_le 0xE1 b0)), (proj2 (N.ltb_lt b0 0xF0)) in F by lia. apply N.leb_le. exact F.
  - destruct (cont _ _ _ && _ && _) eqn:C; [|exact Bad]. apply andb_true_iff in C as [C C3]. apply andb_true_iff in C as [C1 C2].
    destruct s as [|b1 [|b2 [|b3 s]]]; cbn [nth] in *; [destruct (_ =? _) in C1; discriminate C1|discriminate C2|discriminate C3|].
    apply cont_hi in C1 as [A1 R1]; [|destruct (_ =? _); lia]. apply cont_hi in C2 as [A2 R2]; [|lia]. apply cont_hi in C3 as [A3 R3]; [|lia].
    cbn [firstn filter]. rewrite A0, A1, A2, A3. apply no_asc. apply N.ltb_ge in E3. apply N.ltb_lt in E4.
    eapply N.le_trans; [|apply lor_ge]. eapply N.le_trans; [|apply lor_ge]. destruct (b0 =? 0xF0) eqn:Q.
    + apply N.eqb_eq in Q. subst b0. change (N.shiftl (N.land 0xF0 7) 18) with 0. rewrite N.lor_0_l, N.shiftl_mul_pow2. change (2 ^ 12) with 4096. change (0xF0 =? 0xF4) with false in R1. change (0xF0 =? 0xF0) with true in R1. cbv iota in R1.
      assert (b1 < 256) by lia.
      assert (F := fin (fun x => negb ((0x90 <=? x) && (x <=? 0xBF)) || (16 <=? N.land x 63)) 256 eq_refl b1 ltac:(assumption)). cbv beta in F.
      rewrite (proj2 (N.leb_le 0x90 b1)), (proj2 (N.leb_le b1 0xBF)) in F by lia. apply N.leb_le in F. lia.
    + eapply N.le_trans; [|apply lor_ge]. rewrite N.shiftl_mul_pow2. change (2 ^ 18) with 262144. apply N.eqb_neq in Q. enough (1 <= N.land b0 7) by lia.
      assert (F := fin (fun x => negb ((0xF1 <=? x) && (x <? 0xF5)) || (1 <=? N.land x 7)) 256 eq_refl b0 B0). cbv beta in F.
      rewrite (proj2 (N.leb_le 0xF1 b0)), (proj2 (N.ltb_lt b0 0xF5)) in F by lia. apply N.leb_le. exact F.
Qed.
Lemma step_moves b0 s : (1 <= snd (decode_rune (b0 :: s)))%nat.
Proof. unfold decode_rune. repeat (match goal with |- context [if ?c then _ else _] => destruct c end); cbn; lia. Qed.
Lemma units_asc m f : forall s, (List.length s <= f)%nat -> Forall (fun b => b < 256) s -> filter asc (string_units m f s) = filter asc s.
Proof.
  induction f as [|f IH]; intros s L W; [destruct s; [reflexivity|cbn in L; lia]|]. destruct s as [|b0 s]; [reflexivity|].
  cbn [string_units]. pose proof (step_asc b0 s) as P. pose proof (step_moves b0 s) as Mv. destruct (decode_rune (b0 :: s)) as [r n]. cbn [snd] in Mv.
  assert (B0 : b0 < 256) by (inversion W; assumption). specialize (P B0).
  assert (K : forall k, (1 <= k)%nat -> filter asc (string_units m f (skipn k (b0 :: s))) = filter asc (skipn k (b0 :: s))).
  { intros k Hk. apply IH; [rewrite skipn_length; cbn [List.length] in *; lia|]. rewrite <- (firstn_skipn k (b0 :: s)) in W. apply Forall_app in W. apply W. }
  destruct (m && _ && wtf8_surrogate (b0 :: s)) eqn:E.
  - apply andb_true_iff in E as [_ E]. unfold wtf8_surrogate in E. apply andb_true_iff in E as [E C2]. apply andb_true_iff in E as [E C1]. apply andb_true_iff in E as [_ C0].
    destruct s as [|b1 [|b2 s]]; unfold byte_at in *; cbn [nth] in *; [discriminate C1|discriminate C2|]. apply N.eqb_eq in C0. subst b0. apply cont_hi in C1 as [A1 _]; [|lia]. apply cont_hi in C2 as [A2 _]; [|lia].
    cbn [filter]. rewrite (K 3%nat) by lia. cbn [skipn filter]. rewrite A1, A2. unfold surrogate_unit, byte_at. cbn [nth].
    assert (A : asc (N.shiftl (N.land 237 15) 12 + N.shiftl (N.land b1 63) 6 + N.land b2 63) = false) by (unfold asc; apply N.ltb_ge; change (N.shiftl (N.land 237 15) 12) with 53248; lia).
    now rewrite A.
  - rewrite filter_app, P, (K n Mv), <- filter_app, firstn_skipn. reflexivity.
Qed.
Lemma bytes_asc r : filter asc (rune_bytes r) = filter asc [r].
Proof.
  unfold rune_bytes. destruct (r <? 0x80) eqn:E; [reflexivity|]. cbn [filter]. unfold asc at 2. rewrite E.
  assert (G : forall k x, 0x80 <= k -> asc (N.lor k x) = false) by (intros k x H; apply N.ltb_ge; eapply N.le_trans; [exact H|apply lor_ge]).
  destruct (r <? 0x800); [|destruct (r <? 0x10000)]; cbn [filter]; rewrite !G by lia; reflexivity.
Qed.
Lemma runes_asc m n : forall us, (List.length us <= n)%nat -> filter asc (units_runes m us) = filter asc us.
Proof.
  induction n as [|n IH]; intros us L; [destruct us; [reflexivity|cbn in L; lia]|]. destruct us as [|u t]; [reflexivity|]. cbn [List.length] in L. cbn [units_runes].
  destruct (is_surrogate u) eqn:Su; cbn [negb]; [|cbn [filter]; rewrite IH by lia; reflexivity].
  apply surrogate_true in Su. assert (Au : asc u = false) by (apply N.ltb_ge; lia). assert (Ax : asc (if m then u else RUNE_ERROR) = false) by (destruct m; [exact Au|reflexivity]).
  destruct t as [|v t]; [cbn [filter]; now rewrite Au, Ax|]. destruct (is_high u && is_low v) eqn:HL.
  - apply high_low in HL as [Hu Hv]. destruct (pair_ok u v Hu Hv) as [B _]. cbn [filter List.length] in *. rewrite Au. assert (asc v = false) as -> by (apply N.ltb_ge; lia).
    assert (asc (pair_rune u v) = false) as -> by (apply N.ltb_ge; lia). apply IH. lia.
  - cbn [filter]. rewrite Ax, Au. change (filter asc (units_runes m (v :: t)) = filter asc (v :: t)). apply IH. cbn [List.length] in *. lia.
Qed.
Lemma flat_asc rs : filter asc (flat_map rune_bytes rs) = filter asc rs.
Proof.
  induction rs as [|r rs IH]; [reflexivity|]. cbn [flat_map]. rewrite filter_app, bytes_asc, IH. cbn [filter]. destruct (asc r); reflexivity.
Qed.
