(** Lemmas about M_WinEnum. *)
From Verif Require Import Base M_TcgDevice M_DriveHandle M_SgDriver M_Strings M_LinuxFactory Spec_LinuxVolume M_WinPass M_WinNvme M_WinInfo M_WinFactory M_WinEnum
  Spec_Sg Spec_WinPass Spec_WinNvme Spec_WinInfo Spec_WinEnum P_Discovery P_Sg P_WinNvme P_WinInfo.

(** ---- buffers ---- *)
Lemma zeros_length n : List.length (zeros n) = n.
Proof. unfold zeros. apply repeat_length. Qed.
Lemma list_ext {A} (l m : list A) : (forall i, nth_error l i = nth_error m i) -> l = m.
Proof.
  revert m. induction l as [|x l IH]; intros [|y m] H; [reflexivity|specialize (H O); discriminate|specialize (H O); discriminate|].
  f_equal; [specialize (H O); now injection H|]. apply IH. intros i. apply (H (S i)).
Qed.
Lemma delivered_fill old new got : delivered old new got <-> got = fill old new.
Proof.
  split; [|intros ->; apply fill_delivered]. intros (L & A & B). destruct (fill_delivered old new) as (L' & A' & B').
  apply list_ext. intros i.
  destruct (Nat.lt_ge_cases i (List.length new)) as [H|H].
  - destruct (Nat.lt_ge_cases i (List.length old)) as [H2|H2].
    + rewrite A, A' by assumption. reflexivity.
    + rewrite (proj2 (nth_error_None got i)), (proj2 (nth_error_None (fill old new) i)) by lia. reflexivity.
  - rewrite B, B' by assumption. reflexivity.
Qed.
Lemma put_header buf : (4 <= List.length buf)%nat -> put 0 (le_bytes 4 8) buf = [8; 0; 0; 0] ++ skipn 4 buf.
Proof. intros H. unfold put. reflexivity. Qed.
Lemma detail_get X d j h buf e size h' b' : (4 <= List.length buf)%nat ->
  (detail X d j h buf e size h' b' <-> get_detail X h d j buf = (h', (e, (b', size)))).
Proof.
  intros L. unfold detail, get_detail. rewrite put_header by exact L. split.
  - intros (-> & out & E & D). rewrite E. apply delivered_fill in D. now rewrite D.
  - intros H. destruct (x_detail X (h ++ [XDetail d j (blen buf)])) as (e0, (out, s0)) eqn:E.
    injection H as <- <- <- <-. split; [reflexivity|]. exists out. split; [exact E|]. apply fill_delivered.
Qed.
Lemma detail_length X d j h buf e size h' b' : (4 <= List.length buf)%nat -> detail X d j h buf e size h' b' -> List.length b' = List.length buf.
Proof. intros L (_ & out & _ & D). destruct D as (D & _). rewrite D. rewrite app_length, skipn_length. cbn [List.length]. lia. Qed.

(** ---- UTF-16 ---- *)
Lemma units_length b : (2 * List.length (units b) <= List.length b < 2 * List.length (units b) + 2)%nat.
Proof.
  assert (G : forall n b, (List.length b <= n)%nat -> (2 * List.length (units b) <= List.length b < 2 * List.length (units b) + 2)%nat).
  { clear. induction n as [|n IH]; intros [|x [|y t]] H; cbn [units List.length] in *; try lia.
    specialize (IH t). lia. }
  eapply G; eauto.
Qed.
Lemma units_nth b : forall k u, nth_error (units b) k = Some u -> u = field (2 * k) 2 b /\ (2 * k + 2 <= List.length b)%nat.
Proof.
  intros k. revert b. induction k as [|k IH]; intros [|x [|y t]] u H; cbn [units nth_error] in H; try discriminate.
  - injection H as <-. split; [unfold field, slice; cbn; lia|cbn; lia].
  - apply IH in H as [E L]. split; [|cbn [List.length]; lia]. rewrite E. unfold field, slice.
    replace (2 * S k)%nat with (S (S (2 * k))) by lia. reflexivity.
Qed.
Lemma units_some b k : (2 * k + 2 <= List.length b)%nat -> nth_error (units b) k = Some (field (2 * k) 2 b).
Proof.
  intros H. destruct (nth_error (units b) k) as [u|] eqn:E; [apply units_nth in E as [-> _]; reflexivity|].
  apply nth_error_None in E. pose proof (units_length b). lia.
Qed.
Lemma field_skipn off n k b : field off n (skipn k b) = field (k + off) n b.
Proof. unfold field, slice. now rewrite skipn_skipn'. Qed.
Lemma until_nul_of s r : ~ In 0 s -> until_nul (s ++ 0 :: r) = Some s.
Proof.
  induction s as [|x s IH]; intros H; [reflexivity|]. cbn [until_nul app].
  destruct (N.eqb_spec x 0) as [->|E]; [exfalso; apply H; now left|]. rewrite IH; [reflexivity|]. intros Y. apply H. now right.
Qed.
Lemma until_nul_none s : ~ In 0 s -> until_nul s = None.
Proof.
  induction s as [|x s IH]; intros H; [reflexivity|]. cbn [until_nul].
  destruct (N.eqb_spec x 0) as [->|E]; [exfalso; apply H; now left|]. rewrite IH; [reflexivity|]. intros Y. apply H. now right.
Qed.
Lemma nth_firstn {A} (l : list A) n k : (k < n)%nat -> nth_error (firstn n l) k = nth_error l k.
Proof. revert l k. induction n as [|n IH]; intros [|x l] [|k] H; try reflexivity; try lia. cbn. apply IH. lia. Qed.

Lemma path_text_ok X buf n p : (4 <= List.length buf)%nat -> (path_text X buf n p <-> detail_path X buf n = Ok p).
Proof.
  intros L. unfold detail_path, path_text. set (us := units (skipn 4 buf)).
  assert (Lu : forall k, nth_error us k = Some (field (4 + 2 * k) 2 buf) <-> (4 + 2 * k + 2 <= List.length buf)%nat).
  { intros k. unfold us. split.
    - intros H. apply units_nth in H as [_ H]. rewrite skipn_length in H. lia.
    - intros H. rewrite units_some by (rewrite skipn_length; lia). now rewrite field_skipn. }
  assert (Lk : forall k u, nth_error us k = Some u -> u = field (4 + 2 * k) 2 buf /\ (4 + 2 * k + 2 <= List.length buf)%nat).
  { intros k u H. unfold us in H. apply units_nth in H as [E H]. rewrite field_skipn in E. rewrite skipn_length in H. split; [exact E|lia]. }
  set (us' := if n <? blen us then firstn (N.to_nat n) us else us).
  assert (Ef : us' = firstn (N.to_nat n) us).
  { unfold us'. destruct (N.ltb_spec n (blen us)) as [H|H]; [reflexivity|]. rewrite firstn_all2; [reflexivity|]. unfold blen in H. lia. }
  split.
  - intros (vs & -> & V & E).
    assert (Nz : ~ In 0 vs). { intros Y. apply In_nth_error in Y as (k & Y). apply V in Y as (_ & Y & _). congruence. }
    assert (Pre : forall k, (k < List.length vs)%nat -> nth_error us k = nth_error vs k).
    { intros k H. destruct (nth_error vs k) as [u|] eqn:Ek; [|apply nth_error_None in Ek; lia]. apply V in Ek as (-> & _ & Y). now apply Lu. }
    assert (Ev : firstn (List.length vs) us = vs).
    { apply list_ext. intros k. destruct (Nat.lt_ge_cases k (List.length vs)) as [H|H].
      - rewrite nth_firstn by exact H. now apply Pre.
      - rewrite (proj2 (nth_error_None vs k)) by lia. apply nth_error_None. rewrite firstn_length. lia. }
    assert (Lv : (List.length vs <= List.length us)%nat).
    { rewrite <- Ev at 1. rewrite firstn_length. lia. }
    destruct E as [E|(E1 & E2 & E3)].
    + rewrite Ef. replace (N.to_nat n) with (List.length vs) by lia. rewrite Ev, until_nul_none by exact Nz.
      replace (n <=? blen us) with true by (symmetry; apply N.leb_le; unfold blen; lia). reflexivity.
    + assert (Es : exists r, us' = vs ++ 0 :: r).
      { apply Lu in E2. rewrite E3 in E2. apply nth_error_split in E2 as (l1 & l2 & E2 & E4).
        assert (l1 = vs). { rewrite <- Ev, E2, <- E4, firstn_app, firstn_all. rewrite Nat.sub_diag. cbn. now rewrite app_nil_r. }
        subst l1. rewrite Ef, E2, firstn_app.
        rewrite firstn_all2 by lia. destruct (N.to_nat n - List.length vs)%nat eqn:En; [lia|]. cbn [firstn]. eauto. }
      destruct Es as (r & Es). rewrite Es, until_nul_of by exact Nz. reflexivity.
  - intros H. pose proof (until_nul_spec us') as U. destruct (until_nul us') as [t|] eqn:Eu.
    + injection H as <-. destruct U as [(r & U) Nt]. exists t. split; [reflexivity|].
      assert (Pre : forall k u, nth_error us' k = Some u -> nth_error us k = Some u /\ (N.of_nat k < n)).
      { intros k u Hk. assert (k < N.to_nat n)%nat. { assert (nth_error us' k <> None) as Hk2 by congruence. apply nth_error_Some in Hk2. rewrite Ef, firstn_length in Hk2. lia. }
        split; [|lia]. rewrite Ef, nth_firstn in Hk by assumption. exact Hk. }
      split.
      * intros k u Hk. assert (Hk' : nth_error us' k = Some u). { rewrite U, nth_error_app1; [exact Hk|]. apply nth_error_Some. congruence. }
        apply Pre in Hk' as [Hk' _]. apply Lk in Hk' as [-> Y]. split; [reflexivity|]. split; [|exact Y].
        intros Z. apply Nt. rewrite <- Z. eapply nth_error_In. exact Hk.
      * right. assert (Hk' : nth_error us' (List.length t) = Some 0). { rewrite U, nth_error_app2, Nat.sub_diag by lia. reflexivity. }
        apply Pre in Hk' as [Hk' Hn]. apply Lk in Hk' as [Y1 Y2]. split; [exact Hn|]. split; [exact Y2|]. now symmetry.
    + destruct (N.leb_spec n (blen us)) as [Hn|Hn]; [|discriminate]. injection H as <-. exists us'. split; [reflexivity|]. split.
      * intros k u Hk. assert (Hk2 : (k < N.to_nat n)%nat). { assert (nth_error us' k <> None) as Hk2 by congruence. apply nth_error_Some in Hk2. rewrite Ef, firstn_length in Hk2. lia. }
        assert (Hk' : nth_error us k = Some u) by (rewrite Ef, nth_firstn in Hk by exact Hk2; exact Hk).
        apply Lk in Hk' as [-> Y]. split; [reflexivity|]. split; [|exact Y]. intros Z. apply U. rewrite <- Z. eapply nth_error_In. exact Hk.
      * left. rewrite Ef, firstn_length. unfold blen in Hn. lia.
Qed.

(** ---- the path of a device ---- *)
Lemma round_ok s : s < 2 ^ 32 -> s <> 0 -> s <= 2 ^ 32 - 1024 -> rounded_up s (round_1024 s).
Proof.
  intros H1 H2 H3. unfold rounded_up, round_1024. pose proof (N.div_mod s 1024 ltac:(lia)) as D. pose proof (N.mod_upper_bound s 1024 ltac:(lia)) as U.
  destruct (N.ltb_spec 0 (s mod 1024)) as [Z|Z].
  - assert (B : s / 1024 < 2 ^ 22 - 1). { revert D U Z. generalize (s / 1024) (s mod 1024). intros q r. lia. }
    assert (E : s + (1024 - s mod 1024) = (s / 1024 + 1) * 1024). { revert D U Z. generalize (s / 1024) (s mod 1024). intros q r. lia. }
    rewrite E, (N.mod_small _ (2 ^ 32)). 2:{ revert B. generalize (s / 1024). intros q. lia. }
    rewrite N.mod_mul by lia. split; [reflexivity|]. revert D U Z B. generalize (s / 1024) (s mod 1024). intros q r. lia.
  - assert (Z0 : s mod 1024 = 0) by lia. split; [exact Z0|]. lia.
Qed.
Lemma round_unique s n : s < 2 ^ 32 -> rounded_up s n -> n = round_1024 s /\ s <> 0 /\ s <= 2 ^ 32 - 1024.
Proof.
  intros H (M & B & P).
  assert (s <> 0). { intros ->. pose proof (N.div_mod n 1024 ltac:(lia)) as D. rewrite M in D. revert D. generalize (n / 1024). intros q D. lia. }
  assert (s <= 2 ^ 32 - 1024). { pose proof (N.div_mod n 1024 ltac:(lia)) as D. rewrite M in D. revert D. generalize (n / 1024). intros q D.
    destruct (N.le_gt_cases s (2 ^ 32 - 1024)) as [Y|Y]; [exact Y|]. exfalso. assert (2 ^ 22 - 1 < q) by lia. assert (q < 2 ^ 22) by lia. lia. }
  split; [|split; assumption].
  destruct (round_ok s) as (M' & B' & P'); try assumption.
  pose proof (N.div_mod n 1024 ltac:(lia)) as D. pose proof (N.div_mod (round_1024 s) 1024 ltac:(lia)) as D'. rewrite M in D. rewrite M' in D'.
  revert D D'. generalize (n / 1024) (round_1024 s / 1024). intros q q' D D'. lia.
Qed.
Lemma round_zero s : s < 2 ^ 32 -> (round_1024 s = 0 <-> s = 0 \/ 2 ^ 32 - 1024 < s).
Proof.
  intros H. split.
  - intros E. destruct (N.eq_dec s 0) as [->|Z]; [auto|]. destruct (N.le_gt_cases s (2 ^ 32 - 1024)) as [Y|Y]; [|auto].
    exfalso. destruct (round_ok s H Z Y) as (_ & _ & P). lia.
  - intros [->|Y]; [reflexivity|]. unfold round_1024. pose proof (N.div_mod s 1024 ltac:(lia)) as D. pose proof (N.mod_upper_bound s 1024 ltac:(lia)) as U.
    destruct (N.ltb_spec 0 (s mod 1024)) as [Z|Z].
    + assert (E : s + (1024 - s mod 1024) = 2 ^ 32). { revert D U Z. generalize (s / 1024) (s mod 1024). intros q r D U Z. lia. }
      rewrite E. reflexivity.
    + exfalso. revert D U Z. generalize (s / 1024) (s mod 1024). intros q r D U Z. assert (r = 0) by lia. lia.
Qed.

Lemma minus4 s : (s + (2 ^ 32 - 4)) mod 2 ^ 32 = u32_minus s 4.
Proof. unfold u32_minus. f_equal. change (2 ^ 32) with 4294967296. lia. Qed.
Lemma asked_length X d j h buf e size h' b' : (4 <= List.length buf)%nat -> asked X d j h buf e size h' b' -> (4 <= List.length b')%nat.
Proof.
  intros L H. inversion H; subst.
  - erewrite detail_length by eassumption. exact L.
  - match goal with R : rounded_up _ _, D : detail _ _ _ _ (zeros _) _ _ _ _ |- _ => destruct R as (R1 & R2 & R3);
      assert (4 <= List.length (zeros (N.to_nat n)))%nat end.
    { rewrite zeros_length. pose proof (N.div_mod n 1024 ltac:(lia)) as D. rewrite R1 in D. revert D. generalize (n / 1024). intros q D. lia. }
    erewrite detail_length by eassumption. assumption.
Qed.
(** What the model's path lookup means, and that nothing else can happen. *)
Definition path_outcome (X : xsys) (d j : N) (h : xhist) (buf : bytes) (h' : xhist) (b' : bytes) (r : res (option bytes)) : Prop :=
  (exists size p, asked X d j h buf 0 size h' b' /\ path_text X b' (u32_minus size 4) p /\ r = Ok (Some p)) \/
  (exists e size, asked X d j h buf e size h' b' /\ e <> 0 /\ r = Ok None) \/
  (exists size b1, detail X d j h buf 122 size h' b1 /\ (size = 0 \/ 2 ^ 32 - 1024 < size) /\ b' = [] /\ r = Panic) \/
  r = Fuel.
Lemma device_path_sound X h d j buf h' b' r : sane X -> (4 <= List.length buf)%nat ->
  device_path X h d j buf = (h', (b', r)) -> path_outcome X d j h buf h' b' r.
Proof.
  intros (_ & Sz) L H. unfold device_path in H. destruct (get_detail X h d j buf) as (h1, (e1, (b1, s1))) eqn:E1.
  pose proof E1 as D1. apply detail_get in D1; [|exact L].
  assert (Fin : forall h2 e b s, asked X d j h buf e s h2 b ->
    (if e =? 0 then (h2, (b, match detail_path X b ((s + (2 ^ 32 - 4)) mod 2 ^ 32) with Ok p => Ok (Some p) | Err x => Err x | Panic => Panic | Fuel => Fuel end))
     else (h2, (b, Ok None))) = (h', (b', r)) -> path_outcome X d j h buf h' b' r).
  { intros h2 e b s A F. destruct (N.eqb_spec e 0) as [->|Ne].
    - injection F as <- <- <-. rewrite minus4. pose proof (asked_length _ _ _ _ _ _ _ _ _ L A) as L2.
      destruct (detail_path X b (u32_minus s 4)) as [p|x| |] eqn:Ep.
      + left. exists s, p. split; [exact A|]. split; [now apply path_text_ok|reflexivity].
      + exfalso. unfold detail_path in Ep. destruct (until_nul _); [discriminate|]. destruct (_ <=? _); discriminate.
      + exfalso. unfold detail_path in Ep. destruct (until_nul _); [discriminate|]. destruct (_ <=? _); discriminate.
      + right; right; right. reflexivity.
    - injection F as <- <- <-. right; left. eauto. }
  destruct (N.eqb_spec e1 122) as [->|N1].
  - assert (S1 : s1 < 2 ^ 32). { destruct D1 as (-> & out & Eo & _). specialize (Sz (h ++ [XDetail d j (blen buf)])). now rewrite Eo in Sz. }
    destruct (N.eqb_spec (round_1024 s1) 0) as [Z|Z].
    + injection H as <- <- <-. right; right; left. exists s1, b1. split; [exact D1|]. split; [now apply round_zero|]. auto.
    + assert (R : rounded_up s1 (round_1024 s1)).
      { apply round_ok; [exact S1| |]; destruct (N.eq_dec s1 0) as [Y|Y]; destruct (N.le_gt_cases s1 (2 ^ 32 - 1024)) as [Y2|Y2]; try assumption;
          exfalso; apply Z; apply round_zero; auto. }
      destruct (get_detail X h1 d j (zeros (N.to_nat (round_1024 s1)))) as (h2, (e2, (b2, s2))) eqn:E2.
      assert (L2 : (4 <= List.length (zeros (N.to_nat (round_1024 s1))))%nat).
      { rewrite zeros_length. destruct R as (R1 & R2 & R3). pose proof (N.div_mod (round_1024 s1) 1024 ltac:(lia)) as D. rewrite R1 in D.
        revert D. generalize (round_1024 s1 / 1024). intros q D. lia. }
      apply detail_get in E2; [|exact L2]. eapply Fin; [eapply asked_twice; eassumption|exact H].
  - eapply Fin; [eapply asked_once; eassumption|exact H].
Qed.
Lemma device_path_complete X h d j buf e size h' b' : sane X -> (4 <= List.length buf)%nat -> asked X d j h buf e size h' b' ->
  forall r, (e = 0 /\ (exists p, path_text X b' (u32_minus size 4) p /\ r = Ok (Some p))) \/ (e <> 0 /\ r = Ok None) ->
  device_path X h d j buf = (h', (b', r)).
Proof.
  intros (_ & Sz) L A r R. pose proof (asked_length _ _ _ _ _ _ _ _ _ L A) as L'.
  assert (Fin : (if e =? 0 then (h', (b', match detail_path X b' ((size + (2 ^ 32 - 4)) mod 2 ^ 32) with Ok p => Ok (Some p) | Err x => Err x | Panic => Panic | Fuel => Fuel end))
     else (h', (b', Ok None))) = (h', (b', r))).
  { destruct R as [(-> & p & P & ->)|(Ne & ->)].
    - cbn [N.eqb]. rewrite minus4. apply path_text_ok in P; [|exact L']. now rewrite P.
    - apply N.eqb_neq in Ne. now rewrite Ne. }
  clear R. unfold device_path. inversion A; subst.
  - match goal with D : detail _ _ _ _ _ _ _ _ _ |- _ => apply detail_get in D; [rewrite D|exact L] end.
    destruct (N.eqb_spec e 122); [contradiction|]. exact Fin.
  - match goal with D : detail _ _ _ _ buf _ _ _ _ |- _ => pose proof D as D0; apply detail_get in D; [rewrite D|exact L] end.
    cbn [N.eqb]. rewrite N.eqb_refl.
    assert (S1 : size0 < 2 ^ 32). { destruct D0 as (-> & out & Eo & _). specialize (Sz (h ++ [XDetail d j (blen buf)])). now rewrite Eo in Sz. }
    match goal with R : rounded_up _ _ |- _ => destruct (round_unique _ _ S1 R) as (-> & R2 & R3); pose proof R as R' end.
    destruct R' as (R1 & _ & R5).
    destruct (N.eqb_spec (round_1024 size0) 0) as [Z|Z]; [rewrite Z in R5; lia|].
    match goal with D : detail _ _ _ _ (zeros _) _ _ _ _ |- _ => apply detail_get in D; [rewrite D|] end; [exact Fin|].
    rewrite zeros_length. pose proof (N.div_mod (round_1024 size0) 1024 ltac:(lia)) as D. rewrite R1 in D.
        revert D. generalize (round_1024 size0 / 1024). intros q D. lia.
Qed.

(** ---- enumerating devices ---- *)
Lemma app2 {A} (h : list A) a b : (h ++ [a]) ++ [b] = h ++ [a; b].
Proof. rewrite <- app_assoc. reflexivity. Qed.
Lemma device_length X d i h buf h' b' o : (4 <= List.length buf)%nat -> device X d i h buf h' b' o -> (4 <= List.length b')%nat.
Proof. intros L H. inversion H; subst; [exact L| |]; eapply asked_length; eassumption. Qed.
Lemma enum_sound X d : sane X -> forall fuel h i buf xs h' ys r, (4 <= List.length buf)%nat ->
  enum_devices X fuel h d i buf xs = (h', (ys, r)) -> r <> Fuel ->
  exists n h1 b1 zs, devices X d i h buf n h1 b1 zs /\ ys = xs ++ zs /\
    ((no_more X d n h1 h' /\ r = Ok tt) \/ (enum_panics X d n h1 b1 h' /\ r = Panic)).
Proof.
  intros Sa. induction fuel as [|fuel IH]; intros h i buf xs h' ys r L H NF; cbn [enum_devices] in H; [injection H as <- <- <-; congruence|].
  assert (Stop : forall g, no_more X d i h g -> (g, (xs, Ok tt)) = (h', (ys, r)) ->
    exists n h1 b1 zs, devices X d i h buf n h1 b1 zs /\ ys = xs ++ zs /\
    ((no_more X d n h1 h' /\ r = Ok tt) \/ (enum_panics X d n h1 b1 h' /\ r = Panic))).
  { intros g G E. injection E as <- <- <-. exists i, h, buf, []. split; [constructor|]. rewrite app_nil_r. auto. }
  assert (Die : forall g, enum_panics X d i h buf g -> (g, (xs, Panic)) = (h', (ys, r)) ->
    exists n h1 b1 zs, devices X d i h buf n h1 b1 zs /\ ys = xs ++ zs /\
    ((no_more X d n h1 h' /\ r = Ok tt) \/ (enum_panics X d n h1 b1 h' /\ r = Panic))).
  { intros g G E. injection E as <- <- <-. exists i, h, buf, []. split; [constructor|]. rewrite app_nil_r. auto. }
  assert (Go : forall g b o, device X d i h buf g b o -> enum_devices X fuel g d (S i) b (match o with Some x => xs ++ [x] | None => xs end) = (h', (ys, r)) ->
    exists n h1 b1 zs, devices X d i h buf n h1 b1 zs /\ ys = xs ++ zs /\
    ((no_more X d n h1 h' /\ r = Ok tt) \/ (enum_panics X d n h1 b1 h' /\ r = Panic))).
  { intros g b o D E. apply IH in E; [|eapply device_length; eassumption|exact NF]. destruct E as (n & h1 & b1 & zs & Ds & -> & R).
    exists n, h1, b1, (match o with Some x => x :: zs | None => zs end). split; [econstructor; eassumption|]. split; [|exact R].
    destruct o; [now rewrite <- app_assoc|reflexivity]. }
  destruct (x_devinfo X (h ++ [XDevInfo d i])) eqn:Ed; cbn [negb] in H; [|apply (Stop (h ++ [XDevInfo d i])); [left; auto|exact H]].
  rewrite app2 in H. set (h2 := h ++ [XDevInfo d i; XInterface d (N.of_nat i mod 2 ^ 32)]) in *.
  destruct (N.eqb_spec (x_iface X h2) 259) as [E1|E1].
  { apply (Go h2 buf None); [apply no_interface; assumption|exact H]. }
  destruct (N.eqb_spec (x_iface X h2) 0) as [E2|E2]; cbn [negb] in H; [|apply (Stop h2); [right; auto|exact H]].
  destruct (device_path X h2 d (N.of_nat i mod 2 ^ 32) buf) as (h3, (b3, q)) eqn:Ep. apply device_path_sound in Ep; [|exact Sa|exact L].
  destruct Ep as [(s & p & A & P & ->)|[(e & s & A & Ne & ->)|[(s & b1 & D & Sz & -> & ->)| ->]]].
  - destruct (x_open_by_path X h3 p) as (h4, [x|e| |]) eqn:Eo.
    + apply (Go h4 b3 (Some x)); [|exact H]. eapply tried; try eassumption. reflexivity.
    + apply (Go h4 b3 None); [|exact H]. eapply tried; try eassumption. reflexivity.
    + apply (Die h4); [|exact H]. split; [exact Ed|]. split; [exact E2|]. right. eauto 8.
    + injection H as <- <- <-. congruence.
  - apply (Go h3 b3 None); [|exact H]. eapply no_path; eassumption.
  - apply (Die h3); [|exact H]. split; [exact Ed|]. split; [exact E2|]. left. eauto.
  - injection H as <- <- <-. congruence.
Qed.
Lemma device_step X d : sane X -> forall fuel h i buf xs h1 b1 o, (4 <= List.length buf)%nat -> device X d i h buf h1 b1 o ->
  enum_devices X (S fuel) h d i buf xs = enum_devices X fuel h1 d (S i) b1 (match o with Some x => xs ++ [x] | None => xs end).
Proof.
  intros Sa fuel h i buf xs h1 b1 o L D. cbn [enum_devices]. rewrite app2.
  inversion D; subst; repeat match goal with x := _ |- _ => subst x end;
    match goal with E : x_devinfo _ _ = true |- _ => rewrite E end; cbn [negb];
    match goal with E : x_iface _ _ = _ |- _ => rewrite E end; cbn [N.eqb Pos.eqb negb]; [reflexivity| |].
  - erewrite device_path_complete; [|exact Sa|exact L|eassumption|right; split; [assumption|reflexivity]]. reflexivity.
  - erewrite device_path_complete; [|exact Sa|exact L|eassumption|left; split; [reflexivity|eauto]].
    change (0 =? 259) with false. change (0 =? 0) with true. cbn [negb]. cbv iota.
    match goal with E : x_open_by_path _ _ _ = _ |- _ => rewrite E end. destruct r; try contradiction; now subst o.
Qed.
Lemma enum_complete X d : sane X -> forall i h buf n h1 b1 zs, devices X d i h buf n h1 b1 zs -> (4 <= List.length buf)%nat ->
  forall fuel xs, (n - i < fuel)%nat ->
  exists fuel', (0 < fuel')%nat /\ (4 <= List.length b1)%nat /\ enum_devices X fuel h d i buf xs = enum_devices X fuel' h1 d n b1 (xs ++ zs).
Proof.
  intros Sa i h buf n h1 b1 zs D. induction D as [i h buf|i h buf g b o n h2 b2 zs D Ds IH]; intros L fuel xs F.
  - exists fuel. rewrite app_nil_r. split; [lia|]. auto.
  - assert (i < n)%nat. { clear -Ds. remember (S i) as k. assert (k <= n)%nat; [|lia]. clear Heqk. induction Ds; lia. }
    destruct fuel as [|fuel]; [lia|]. rewrite (device_step _ _ Sa fuel _ _ _ xs _ _ _ L D).
    destruct (IH (device_length _ _ _ _ _ _ _ _ L D) fuel (match o with Some x => xs ++ [x] | None => xs end)) as (f' & F1 & F2 & F3); [lia|].
    exists f'. split; [exact F1|]. split; [exact F2|]. rewrite F3. destruct o; [now rewrite <- app_assoc|reflexivity].
Qed.
Lemma enum_stops X d fuel h n buf xs h' : (0 < fuel)%nat -> no_more X d n h h' -> enum_devices X fuel h d n buf xs = (h', (xs, Ok tt)).
Proof.
  intros F N. destruct fuel as [|fuel]; [lia|]. cbn [enum_devices]. rewrite app2. destruct N as [(E & ->)|(E & -> & N1 & N2)]; rewrite E; cbn [negb]; [reflexivity|].
  apply N.eqb_neq in N1, N2. rewrite N1, N2. reflexivity.
Qed.
Lemma close_all xs : forall h, fold_left x_close (rev xs) h = h ++ closings xs.
Proof.
  unfold closings. generalize (rev xs). intros l. induction l as [|x l IH]; intros h; cbn [fold_left flat_map]; [now rewrite app_nil_r|].
  rewrite IH. rewrite app_assoc. f_equal. unfold x_close, win_close. destruct (f_drv x) as [((w & g) & cs)|]; reflexivity.
Qed.

(** ---- texts ---- *)
Lemma wlen_le us : (wlen us <= List.length us)%nat.
Proof. induction us as [|x us IH]; cbn [wlen List.length]; [lia|]. destruct (x =? 0); lia. Qed.
Lemma ztext_wlen us : ztext us (firstn (wlen us) us).
Proof.
  unfold ztext. induction us as [|x us (N & E)]; [split; [intros []|now left]|]. cbn [wlen]. destruct (N.eqb_spec x 0) as [->|Z].
  - split; [intros []|]. right. now exists us.
  - cbn [firstn]. split; [intros [Y|Y]; [congruence|contradiction]|]. destruct E as [E|(r & E)]; [left|right; exists r]; cbn; now f_equal.
Qed.
Lemma ztext_fun us v : ztext us v -> v = firstn (wlen us) us.
Proof.
  unfold ztext. revert v. induction us as [|x us IH]; intros v (N & E).
  - destruct E as [<-|(r & E)]; [reflexivity|]. destruct v; discriminate.
  - cbn [wlen]. destruct (N.eqb_spec x 0) as [->|Z].
    + destruct v as [|y v]; [reflexivity|]. exfalso. apply N. destruct E as [E|(r & E)]; injection E as <- _; now left.
    + destruct v as [|y v]; [destruct E as [E|(r & E)]; [discriminate|injection E as -> _; congruence]|]. cbn [firstn].
      destruct E as [E|(r & E)]; injection E as <- E; f_equal; apply IH; (split; [intros Y; apply N; now right|]); [now left|right; now exists r].
Qed.
Lemma wlen_all us : wlen us = List.length us <-> ~ In 0 us.
Proof.
  induction us as [|x us IH]; cbn [wlen List.length In]; [split; [auto|reflexivity]|]. destruct (N.eqb_spec x 0) as [->|Z].
  - split; [discriminate|]. intros H. exfalso. apply H. now left.
  - split; [intros H [Y|Y]; [congruence|apply IH in Y; [exact Y|lia]]|]. intros H. f_equal. apply IH. intros Y. apply H. now right.
Qed.
Lemma wlen_zeros a m : wlen (a ++ zeros m) = wlen a.
Proof.
  induction a as [|x a IH]; cbn [wlen app]; [destruct m; reflexivity|]. destruct (x =? 0); [reflexivity|]. now rewrite IH.
Qed.
Lemma wlen_end us : (wlen us < List.length us)%nat -> nth_error us (wlen us) = Some 0.
Proof.
  induction us as [|x us IH]; cbn [wlen List.length]; [lia|]. destruct (N.eqb_spec x 0) as [->|Z]; [reflexivity|]. intros H. cbn. apply IH. lia.
Qed.
Lemma skipn_zeros k m : skipn k (zeros m) = zeros (m - k).
Proof. unfold zeros. revert m. induction k as [|k IH]; intros [|m]; try reflexivity. cbn. apply IH. Qed.
Lemma fill_zeros' K us : fill (zeros K) us = firstn K us ++ zeros (K - List.length us).
Proof. unfold fill. now rewrite zeros_length, skipn_zeros. Qed.
Lemma strip_spec v : unslashed v (strip_backslashes v).
Proof.
  unfold unslashed, strip_backslashes.
  assert (G : forall s, exists k, s = repeat 92 k ++ drop_backslashes s /\ forall r, drop_backslashes s <> 92 :: r).
  { clear. induction s as [|x s (k & E & F)]; [exists O; split; [reflexivity|discriminate]|]. cbn [drop_backslashes]. destruct (N.eqb_spec x 92) as [->|Z].
    - exists (S k). split; [cbn; now f_equal|exact F].
    - exists O. split; [reflexivity|]. intros r Y. injection Y as Y _. congruence. }
  destruct (G (rev v)) as (k & E & F). exists k. split.
  - rewrite <- (rev_involutive v) at 1. rewrite E at 1. rewrite rev_app_distr. f_equal. clear. induction k as [|k IH]; [reflexivity|].
    cbn [repeat rev]. rewrite IH. clear. induction k as [|k IH]; [reflexivity|]. cbn. now rewrite IH.
  - intros r Y. apply (F (rev r)). rewrite <- (rev_involutive (drop_backslashes (rev v))). rewrite Y, rev_app_distr. reflexivity.
Qed.
Lemma unslashed_fun v a b : unslashed v a -> unslashed v b -> a = b.
Proof.
  intros (k & E & F) (m & E' & F'). rewrite E in E'. clear E.
  assert (G : forall k m (a b : list N), a ++ repeat 92 k = b ++ repeat 92 m -> (forall r, a <> r ++ [92]) -> (forall r, b <> r ++ [92]) -> a = b).
  { clear. assert (R : forall k, repeat 92 (S k) = repeat 92 k ++ [92]). { induction k as [|k IH]; [reflexivity|]. cbn. f_equal. exact IH. }
    induction k as [|k IH]; intros [|m] a b E Fa Fb.
    - now rewrite !app_nil_r in E.
    - exfalso. rewrite R, app_assoc in E. cbn [repeat] in E. rewrite app_nil_r in E. now apply (Fa (b ++ repeat 92 m)).
    - exfalso. rewrite R, app_assoc in E. cbn [repeat] in E. rewrite app_nil_r in E. now apply (Fb (a ++ repeat 92 k)).
    - rewrite !R, !app_assoc in E. apply app_inj_tail in E as [E _]. eapply IH; eassumption. }
  eapply G; eassumption.
Qed.

(** ---- mount points ---- *)
Lemma mount_closed X buf : (0 < List.length buf)%nat -> mount_loop X (S (List.length buf)) buf 0 [] =
  if (wlen buf =? 0)%nat then Ok [] else if (wlen buf =? List.length buf)%nat then Panic else Ok [x_text X (firstn (wlen buf) buf)].
Proof.
  intros L.
  assert (St : forall f pos acc, mount_loop X (S f) buf pos acc = match nth_error buf pos with
    | None => Panic | Some u => if u =? 0 then Ok acc else mount_loop X f buf (pos + wlen (skipn pos buf)) (acc ++ [x_text X (firstn (wlen (skipn pos buf)) (skipn pos buf))]) end) by reflexivity.
  rewrite St. change (skipn 0 buf) with buf. destruct (nth_error buf 0) as [x|] eqn:E0; [|apply nth_error_None in E0; lia].
  destruct (N.eqb_spec x 0) as [->|Z].
  { destruct buf as [|y t]; [discriminate|]. injection E0 as ->. reflexivity. }
  assert (W : (0 < wlen buf)%nat). { destruct buf as [|y t]; [discriminate|]. injection E0 as ->. cbn [wlen]. apply N.eqb_neq in Z. rewrite Z. lia. }
  destruct (Nat.eqb_spec (wlen buf) 0) as [Y|_]; [lia|]. destruct (List.length buf) as [|k] eqn:Lb; [lia|]. rewrite St. cbn [Nat.add].
  destruct (Nat.eqb_spec (wlen buf) (S k)) as [E|E].
  - rewrite (proj2 (nth_error_None buf (wlen buf))); [reflexivity|]. lia.
  - pose proof (wlen_le buf). rewrite wlen_end by lia. reflexivity.
Qed.
Lemma mount_names X us : let buf := fill (zeros (N.to_nat 4096)) us in
  (endless us /\ mount_loop X (S (List.length buf)) buf 0 [] = Panic) \/
  (~ endless us /\ exists ms, mount_loop X (S (List.length buf)) buf 0 [] = Ok ms /\ first_name X us ms).
Proof.
  intros buf. assert (K : exists k, N.to_nat 4096 = S k) by (exists (N.to_nat 4095); lia).
  assert (L : List.length buf = N.to_nat 4096) by (unfold buf; rewrite fill_length; apply zeros_length).
  rewrite mount_closed by lia.
  assert (E : buf = firstn (N.to_nat 4096) us ++ zeros (N.to_nat 4096 - List.length us)) by apply fill_zeros'.
  set (a := firstn (N.to_nat 4096) us) in *.
  assert (W : wlen buf = wlen a) by (rewrite E; apply wlen_zeros). pose proof (wlen_le a) as La.
  assert (F : firstn (wlen buf) buf = firstn (wlen a) a).
  { rewrite W, E, firstn_app. replace (wlen a - List.length a)%nat with O by lia. cbn [firstn]. apply app_nil_r. }
  pose proof (ztext_wlen a) as Za. unfold endless. fold a. rewrite F, W, L.
  destruct (Nat.eqb_spec (wlen a) (N.to_nat 4096)) as [Y|Y].
  - left. destruct (Nat.eqb_spec (wlen a) 0); [lia|]. split; [|reflexivity]. assert (La2 : (List.length a <= N.to_nat 4096)%nat) by (unfold a; apply firstn_le_length).
    split; [unfold a in Y, La; rewrite firstn_length in La; lia|]. apply wlen_all. lia.
  - right. split.
    + intros (G & Nz). apply Y. apply wlen_all in Nz. rewrite Nz. unfold a. rewrite firstn_length. lia.
    + destruct (Nat.eqb_spec (wlen a) 0) as [Z|Z].
      * exists []. split; [reflexivity|]. exists []. split; [rewrite Z in Za; exact Za|]. auto.
      * eexists. split; [reflexivity|]. eexists. split; [exact Za|]. right. split; [|reflexivity]. intros C. apply (f_equal (@List.length N)) in C.
        rewrite firstn_length in C. cbn in C. lia.
Qed.
Lemma first_name_fun X us a b : first_name X us a -> first_name X us b -> a = b.
Proof.
  intros (s & Zs & Hs) (t & Zt & Ht). apply ztext_fun in Zs, Zt. rewrite <- Zt in Zs. subst s.
  destruct Hs as [[? ->]|[? ->]], Ht as [[? ->]|[? ->]]; congruence.
Qed.

(** ---- extents ---- *)
Definition extents_from (data : bytes) (off n : nat) (es : list extent) : Prop :=
  List.length es = n /\ forall i e, nth_error es i = Some e -> e = extent_at data (off + 24 * i).
Lemma extents_loop_spec data : forall n off,
  ((off + 24 * n <= List.length data)%nat -> exists es, extents_loop data n off = Ok es /\ extents_from data off n es) /\
  ((0 < n)%nat -> (off + 24 * (n - 1) < List.length data < off + 24 * n)%nat -> extents_loop data n off = Fuel) /\
  ((0 < n)%nat -> (List.length data <= off + 24 * (n - 1))%nat -> extents_loop data n off = Panic).
Proof.
  induction n as [|n IH]; intros off; cbn [extents_loop].
  - split; [|split; lia]. intros _. exists []. split; [reflexivity|]. split; [reflexivity|]. intros [|i] e; discriminate.
  - specialize (IH (off + 24)%nat). destruct IH as (I1 & I2 & I3). split; [|split].
    + intros H. destruct (Nat.leb_spec (List.length data) off) as [Y|Y]; [lia|]. destruct I1 as (es & -> & L & F); [lia|].
      destruct (Nat.leb_spec (off + 24) (List.length data)) as [Z|Z]; [|lia]. eexists. split; [reflexivity|]. split; [cbn; now f_equal|].
      intros [|i] e E; cbn [nth_error] in E.
      * injection E as <-. f_equal. lia.
      * rewrite (F i e E). f_equal. lia.
    + intros _ H. destruct (Nat.leb_spec (List.length data) off) as [Y|Y]; [lia|]. destruct n as [|n].
      * cbn [extents_loop]. destruct (Nat.leb_spec (off + 24) (List.length data)) as [Z|Z]; [lia|reflexivity].
      * rewrite I2 by lia. reflexivity.
    + intros _ H. destruct (Nat.leb_spec (List.length data) off) as [Y|Y]; [reflexivity|]. rewrite I3 by lia. reflexivity.
Qed.
Lemma extents_fun data es es' : extents_of data es -> extents_of data es' -> es = es'.
Proof.
  intros (L & F) (L' & F'). apply list_ext. intros i. destruct (nth_error es i) as [e|] eqn:E.
  - destruct (nth_error es' i) as [e'|] eqn:E'; [|apply nth_error_None in E'; assert (nth_error es i <> None) as Q by congruence; apply nth_error_Some in Q; lia].
    apply F in E as (_ & A & B & C). apply F' in E' as (_ & A' & B' & C'). f_equal. destruct e, e'; cbn in *. congruence.
  - destruct (nth_error es' i) as [e'|] eqn:E'; [|reflexivity]. apply nth_error_None in E. assert (nth_error es' i <> None) as Q by congruence. apply nth_error_Some in Q. lia.
Qed.
Lemma extents_closed data : List.length data = page -> let n := field 0 4 data in
  match extents_loop data (N.to_nat n) 8 with
  | Ok es => extents_of data es
  | Panic => 172 <= n
  | Fuel => n = 171
  | Err _ => False
  end.
Proof.
  intros L n. assert (Lp : N.of_nat (List.length data) = 4096) by (rewrite L; unfold page; lia).
  destruct (extents_loop_spec data (N.to_nat n) 8) as (I1 & I2 & I3).
  destruct (N.le_gt_cases n 170) as [A|A].
  - destruct I1 as (es & -> & Le & F); [lia|]. split; [fold n; lia|]. intros i e E.
    assert (nth_error es i <> None) as Q by congruence. apply nth_error_Some in Q. split; [lia|]. rewrite (F i e E). unfold extent_at, field. cbn [ex_disk ex_start ex_size].
    split; [reflexivity|]. split; f_equal; f_equal; lia.
  - destruct (N.eq_dec n 171) as [B|B]; [rewrite I2 by lia; exact B|]. rewrite I3 by lia. lia.
Qed.
Lemma extents_run data es : List.length data = page -> extents_of data es -> extents_loop data (N.to_nat (field 0 4 data)) 8 = Ok es.
Proof.
  intros L E. pose proof (extents_closed data L) as C. cbv zeta in C. destruct (extents_loop data (N.to_nat (field 0 4 data)) 8) as [es'|e| |] eqn:Q.
  - f_equal. symmetry. eapply extents_fun; eassumption.
  - contradiction.
  - exfalso. assert (Lp : N.of_nat (List.length data) = 4096) by (rewrite L; unfold page; lia). destruct E as (E1 & E2).
    destruct (nth_error es 171) as [e|] eqn:En; [apply E2 in En as (En & _); lia|]. apply nth_error_None in En. lia.
  - exfalso. assert (Lp : N.of_nat (List.length data) = 4096) by (rewrite L; unfold page; lia). destruct E as (E1 & E2).
    destruct (nth_error es 170) as [e|] eqn:En; [apply E2 in En as (En & _); lia|]. apply nth_error_None in En. lia.
Qed.

(** ---- partition information ---- *)
Lemma reads16_unique s v : reads16 s v -> upper_case s -> forall s', reads16 s' v -> upper_case s' -> List.length s = List.length s' -> s = s'.
Proof.
  induction 1 as [|s v c d R IH H]; intros U s' R' U' L.
  - destruct s'; [reflexivity|discriminate].
  - inversion R' as [|s2 v2 c2 d2 R2 H2 E1 E2]; subst; [rewrite app_length in L; cbn in L; lia|].
    rewrite !app_length in L. cbn [List.length] in L.
    assert (B : forall c d, hex_value c = Some d -> d < 16).
    { clear. intros c d H. unfold hex_value in H. destruct ((48 <=? c) && (c <=? 57)) eqn:A; [injection H as <-; lia|].
      destruct ((65 <=? c) && (c <=? 70)) eqn:A2; [injection H as <-; lia|]. destruct ((97 <=? c) && (c <=? 102)) eqn:A3; [injection H as <-; lia|discriminate]. }
    pose proof (B _ _ H) as Bd. pose proof (B _ _ H2) as Bd2. assert (v2 = v /\ d2 = d) as [-> ->] by lia.
    apply Forall_app in U as [U1 U2]. apply Forall_app in U' as [U1' U2']. f_equal; [apply IH; auto; lia|].
    inversion U2; inversion U2'; subst. f_equal. clear -H H2 H3 H7. unfold hex_value in *.
    repeat match goal with X : context [if ?b then _ else _] |- _ => destruct b eqn:? end; try discriminate; injection H as <-; injection H2 as ?; lia.
Qed.
Lemma guid_text_unique g t u : guid_text g t -> upper_case t -> guid_text g u -> upper_case u -> t = u.
Proof.
  intros (a & b & c & d & e & -> & L1 & L2 & L3 & L4 & L5 & R1 & R2 & R3 & R4 & R5) U
         (a' & b' & c' & d' & e' & -> & L1' & L2' & L3' & L4' & L5' & R1' & R2' & R3' & R4' & R5') U'.
  unfold upper_case in U, U'. rewrite !Forall_app in U, U'. destruct U as (U1 & _ & U2 & _ & U3 & _ & U4 & _ & U5). destruct U' as (V1 & _ & V2 & _ & V3 & _ & V4 & _ & V5).
  rewrite (reads16_unique _ _ R1 U1 _ R1' V1), (reads16_unique _ _ R2 U2 _ R2' V2), (reads16_unique _ _ R3 U3 _ R3' V3),
    (reads16_unique _ _ R4 U4 _ R4' V4), (reads16_unique _ _ R5 U5 _ R5' V5) by lia. reflexivity.
Qed.
Lemma braced_unique g t u : braced_guid g t -> braced_guid g u -> t = u.
Proof. intros (a & -> & A & U) (b & -> & B & V). now rewrite (guid_text_unique _ _ _ A U B V). Qed.
Lemma partition_fun e b p q : partition_of e b p -> partition_of e b q -> p = q.
Proof.
  intros (A1 & A2 & A3 & A4 & A5 & A6 & A7) (B1 & B2 & B3 & B4 & B5 & B6 & B7).
  assert (G : wp_gpt p = wp_gpt q /\ wp_mbr p = wp_mbr q).
  { destruct (N.eq_dec (field 0 4 b) 1) as [E|E].
    - destruct (A5 E) as (C1 & t & i & C2 & C3 & C4). destruct (B5 E) as (D1 & t' & i' & D2 & D3 & D4).
      rewrite C1, D1, C2, D2, (braced_unique _ _ _ C3 D3), (braced_unique _ _ _ C4 D4). auto.
    - destruct (N.eq_dec (field 0 4 b) 0) as [Z|Z].
      + destruct (A6 Z) as (C1 & bo & C2 & C3). destruct (B6 Z) as (D1 & bo' & D2 & D3). rewrite C1, D1, C2, D2.
        assert (bo = bo') as ->; [|auto]. destruct bo, bo'; try reflexivity; exfalso.
        * assert (false = true) by (apply D3; now apply C3). discriminate.
        * assert (false = true) by (apply C3; now apply D3). discriminate.
      + destruct (A7 Z E) as (-> & ->). destruct (B7 Z E) as (-> & ->). auto. }
  destruct p, q; cbn in *. destruct G. congruence.
Qed.
Lemma partition_spec X h hd e : sane X ->
  let h1 := h ++ [partition_query hd] in
  fst (partition_info X h hd e) = h1 /\
  match snd (partition_info X h hd e) with
  | None => wa_err (x_io X h1) <> 0
  | Some p => wa_err (x_io X h1) = 0 /\ partition_of e (fill (zeros 144) (wa_out (x_io X h1))) p
  end.
Proof.
  intros (Sa & _) h1. unfold partition_info. change (h ++ [XSys (WIo _)]) with h1. destruct (N.eqb_spec (wa_err (x_io X h1)) 0) as [E|E]; [|split; [reflexivity|exact E]].
  cbn [fst snd]. split; [reflexivity|]. split; [exact E|]. change entry_size with 144%nat. set (b := fill (zeros 144) (wa_out (x_io X h1))).
  assert (W : wf b). { unfold b, fill. apply Forall_app. split; [apply wf_firstn, Sa|]. apply wf_skipn, wf_zeros. }
  assert (L : List.length b = 144%nat) by (unfold b; rewrite fill_length; apply zeros_length).
  unfold partition_of. cbn [wp_disk wp_start wp_size wp_entry wp_gpt wp_mbr]. repeat (split; [reflexivity|]).
  change (entry_style b) with (field 0 4 b). split; [|split].
  - intros ->. cbn [N.eqb Pos.eqb]. split; [reflexivity|]. eexists _, _. split; [reflexivity|]. split; apply braced_upper; try (now apply wf_slice); apply slice16; auto; lia.
  - intros ->. cbn [N.eqb]. split; [reflexivity|]. eexists. split; [reflexivity|]. unfold reg. destruct (N.eqb_spec (nth 33 b 0) 0); cbn [negb]; split; congruence.
  - intros N0 N1. apply N.eqb_neq in N0, N1. rewrite N0, N1. auto.
Qed.

(** ---- one volume ---- *)
Lemma volume_sound X h name b h' hs r : sane X -> List.length (vb_data b) = page ->
  volume_item X h name b = (h', (hs, r)) ->
  match r with
  | Ok (it, b1) => volume X h name (vb_fs b) (vb_data b) h' hs it (vb_fs b1) (vb_data b1) /\ List.length (vb_data b1) = page
  | Panic => volume_panics X h name (vb_data b) h' hs
  | Err _ => False
  | Fuel => True
  end.
Proof.
  intros Sa L H. unfold volume_item in H. pose proof (ztext_wlen name) as Zn. set (v := firstn (wlen name) name) in *.
  pose proof (strip_spec v) as Us. set (v1 := strip_backslashes v) in *.
  set (h1 := h ++ [XPathNames v]) in *. set (h2 := h1 ++ [XVolumeInfo v]) in *. set (h3 := h2 ++ [XDriveType v]) in *. set (h4 := h3 ++ [XVolumeOpen v1]) in *.
  set (mounts := match x_names X h1 with Some (us, len) => _ | None => Ok [] end) in H.
  assert (M : (mounts = Panic /\ exists us len, x_names X h1 = Some (us, len) /\ 0 < len /\ endless us) \/
              (exists ms, mounts = Ok ms /\ match x_names X h1 with
                | Some (us, len) => (len = 0 -> ms = []) /\ (0 < len -> first_name X us ms /\ ~ endless us) | None => ms = [] end)).
  { unfold mounts. destruct (x_names X h1) as [(us, len)|]; [|right; eauto]. destruct (N.ltb_spec 0 len) as [Z|Z].
    - destruct (mount_names X us) as [(A & B)|(A & ms & B & C)].
      + left. split; [exact B|]. eauto.
      + right. exists ms. split; [exact B|]. split; [lia|auto].
    - right. exists []. split; [reflexivity|]. split; [reflexivity|lia]. }
  clearbody mounts. destruct M as [(-> & us & len & M1 & M2 & M3)|(ms & -> & M)].
  { injection H as <- <- <-. exists v, v1. split; [exact Zn|]. split; [exact Us|]. left. exists us, len. auto. }
  set (fsb := match x_info X h2 with Some us => fill (vb_fs b) us | None => vb_fs b end) in H.
  set (fs := match x_info X h2 with Some _ => x_text X (firstn (wlen fsb) fsb) | None => [] end) in H.
  assert (F : match x_info X h2 with
              | Some us => delivered (vb_fs b) us fsb /\ exists s, ztext fsb s /\ fs = x_text X s
              | None => fsb = vb_fs b /\ fs = [] end).
  { unfold fs, fsb. destruct (x_info X h2) as [us|]; [|auto]. split; [apply fill_delivered|]. eexists. split; [apply ztext_wlen|reflexivity]. }
  clearbody fsb fs. destruct (x_vopen X h4) as [e|hd] eqn:Eo.
  { injection H as <- <- <-. cbn [vb_fs vb_data]. split; [|exact L]. constructor. exists v, v1. split; [exact Zn|]. split; [exact Us|]. cbv zeta. fold h1 h2 h3 h4. rewrite Eo.
    cbn [wv_path wv_mounts wv_fs wv_type wv_extents wv_part]. split; [reflexivity|]. split; [exact M|]. split; [exists fsb; auto|]. auto 8. }
  change (h4 ++ [XSys (WIo _)]) with (h4 ++ [extents_query hd]) in H. set (h5 := h4 ++ [extents_query hd]) in *.
  set (data := fill (vb_data b) (wa_out (x_io X h5))) in *. pose proof (fill_delivered (vb_data b) (wa_out (x_io X h5))) as D. fold data in D.
  assert (Ld : List.length data = page) by (unfold data; now rewrite fill_length).
  assert (Mk : forall hx es p, (h', (hs, r)) = (hx, ([hd], Ok ({| wv_path := x_text X v1; wv_fs := fs; wv_mounts := ms; wv_extents := es; wv_part := p; wv_type := x_type X h3 |}, {| vb_fs := zeros 128; vb_data := data |}))) ->
     (wa_err (x_io X h5) <> 0 -> hx = h5 /\ es = [] /\ p = None) ->
     (wa_err (x_io X h5) = 0 -> extents_of data es /\ match es with [] => hx = h5 /\ p = None | e :: _ => hx = h5 ++ [partition_query hd] /\
           (wa_err (x_io X hx) <> 0 -> p = None) /\
           (wa_err (x_io X hx) = 0 -> exists b p0, delivered (zeros 144) (wa_out (x_io X hx)) b /\ p = Some p0 /\ partition_of e b p0) end) ->
     match r with
     | Ok (it, b1) => volume X h name (vb_fs b) (vb_data b) h' hs it (vb_fs b1) (vb_data b1) /\ List.length (vb_data b1) = page
     | Panic => volume_panics X h name (vb_data b) h' hs | Err _ => False | Fuel => True end).
  { intros hx es p E Q1 Q2. injection E as -> -> ->. cbn [vb_fs vb_data]. split; [|exact Ld]. constructor. exists v, v1. split; [exact Zn|]. split; [exact Us|]. cbv zeta. fold h1 h2 h3 h4. rewrite Eo.
    cbn [wv_path wv_mounts wv_fs wv_type wv_extents wv_part]. split; [reflexivity|]. split; [exact M|]. split; [exists fsb; auto|]. split; [reflexivity|].
    split; [reflexivity|]. fold h5. auto. }
  destruct (N.eqb_spec (wa_err (x_io X h5)) 0) as [Ee|Ee].
  2:{ eapply Mk; [symmetry; exact H|auto|intros; contradiction]. }
  pose proof (extents_closed data Ld) as C. cbv zeta in C. change (le_val (slice 0 4 data)) with (field 0 4 data) in H.
  destruct (extents_loop data (N.to_nat (field 0 4 data)) 8) as [es|x| |] eqn:El; [|contradiction| |].
  - destruct es as [|e es].
    + eapply Mk; [symmetry; exact H|intros; contradiction|auto].
    + pose proof (partition_spec X h5 hd e Sa) as P. cbv zeta in P. destruct (partition_info X h5 hd e) as (h6, p). cbn [fst snd] in P. destruct P as (-> & P).
      eapply Mk; [symmetry; exact H|intros; contradiction|]. intros _. split; [exact C|]. split; [reflexivity|]. destruct p as [p|].
      * destruct P as (P1 & P2). split; [intros; contradiction|]. intros _. eexists _, _. split; [apply fill_delivered|]. split; [reflexivity|exact P2].
      * split; [reflexivity|]. intros; contradiction.
  - injection H as <- <- <-. exists v, v1. split; [exact Zn|]. split; [exact Us|]. right. exists hd, data. cbv zeta. fold h1 h2 h3 h4. auto 8.
  - injection H as <- <- <-. exact I.
Qed.
Lemma delivered_fun a b c d : delivered a b c -> delivered a b d -> c = d.
Proof. rewrite !delivered_fill. congruence. Qed.
Lemma volume_fun X h name fs0 data0 h' hs it fs1 data1 g' gs it' fs1' data1' :
  volume X h name fs0 data0 h' hs it fs1 data1 -> volume X h name fs0 data0 g' gs it' fs1' data1' ->
  h' = g' /\ hs = gs /\ it = it' /\ fs1 = fs1' /\ data1 = data1'.
Proof.
  intros [(v & v1 & Z & U & A)] [(w & w1 & Z' & U' & B)]. pose proof (ztext_fun _ _ Z) as Ev. pose proof (ztext_fun _ _ Z') as Ew. rewrite <- Ev in Ew. subst w.
  pose proof (unslashed_fun _ _ _ U U') as <-. clear Z Z' U U' Ev. cbv zeta in A, B.
  set (h1 := h ++ [XPathNames v]) in *. set (h2 := h1 ++ [XVolumeInfo v]) in *. set (h3 := h2 ++ [XDriveType v]) in *. set (h4 := h3 ++ [XVolumeOpen v1]) in *.
  destruct A as (A1 & A2 & (fs & A3 & A4) & A5 & A6). destruct B as (B1 & B2 & (fs' & B3 & B4) & B5 & B6).
  assert (Em : wv_mounts it = wv_mounts it').
  { destruct (x_names X h1) as [(us, len)|]; [|congruence]. destruct A2 as (A21 & A22). destruct B2 as (B21 & B22). destruct (N.eq_dec len 0) as [->|Y].
    - rewrite A21, B21 by reflexivity. reflexivity.
    - eapply first_name_fun; [apply A22; lia|apply B22; lia]. }
  assert (Ef : fs = fs' /\ wv_fs it = wv_fs it').
  { destruct (x_info X h2) as [us|]; [|intuition congruence]. destruct A3 as (A31 & s & Zs & ->). destruct B3 as (B31 & t & Zt & ->).
    pose proof (delivered_fun _ _ _ _ A31 B31) as <-. split; [reflexivity|]. now rewrite (ztext_fun _ _ Zs), (ztext_fun _ _ Zt). }
  destruct Ef as (<- & Ef).
  assert (Rest : h' = g' /\ hs = gs /\ wv_extents it = wv_extents it' /\ wv_part it = wv_part it' /\ data1 = data1').
  { destruct (x_vopen X h4) as [e|hd]; [intuition congruence|]. destruct A6 as (-> & A6 & A7 & A8). destruct B6 as (-> & B6 & B7 & B8).
    set (h5 := h4 ++ [extents_query hd]) in *. pose proof (delivered_fun _ _ _ _ A6 B6) as <-.
    destruct (N.eq_dec (wa_err (x_io X h5)) 0) as [E|E]; [|intuition congruence]. destruct (A8 E) as (C1 & C2). destruct (B8 E) as (D1 & D2).
    pose proof (extents_fun _ _ _ C1 D1) as Ex. rewrite <- Ex in D2. destruct (wv_extents it) as [|e es]; [intuition congruence|].
    destruct C2 as (-> & C2 & C3). destruct D2 as (-> & D2 & D3). repeat (split; [congruence|]). split; [|reflexivity].
    destruct (N.eq_dec (wa_err (x_io X (h5 ++ [partition_query hd]))) 0) as [E2|E2]; [|rewrite C2, D2 by exact E2; reflexivity].
    destruct (C3 E2) as (b & p & F1 & -> & F2). destruct (D3 E2) as (b' & p' & F1' & -> & F2'). pose proof (delivered_fun _ _ _ _ F1 F1') as <-. f_equal. eapply partition_fun; eassumption. }
  destruct Rest as (-> & -> & R1 & R2 & ->). repeat (split; [reflexivity|]). split; [destruct it, it'; cbn in *; congruence|]. split; [|reflexivity]. congruence.
Qed.
Lemma volume_complete X h name fs0 data0 h' hs it fs1 data1 : sane X -> List.length data0 = page ->
  volume X h name fs0 data0 h' hs it fs1 data1 ->
  volume_item X h name {| vb_fs := fs0; vb_data := data0 |} = (h', (hs, Ok (it, {| vb_fs := fs1; vb_data := data1 |}))) /\ List.length data1 = page.
Proof.
  intros Sa L V. destruct (volume_item X h name {| vb_fs := fs0; vb_data := data0 |}) as (g, (gs, r)) eqn:E.
  pose proof (volume_sound X h name {| vb_fs := fs0; vb_data := data0 |} _ _ _ Sa L E) as S. cbn [vb_fs vb_data] in S.
  assert (O : exists x, r = Ok x).
  { destruct V as [(v & v1 & Z & U & A)]. pose proof (ztext_fun _ _ Z) as Ev. pose proof (unslashed_fun _ _ _ U (strip_spec v)) as E1. clear S Z U.
    unfold volume_item in E. cbv zeta in A. rewrite <- Ev, <- E1 in E. cbn [vb_fs vb_data] in E.
    set (h1 := h ++ [XPathNames v]) in *. set (h2 := h1 ++ [XVolumeInfo v]) in *. set (h3 := h2 ++ [XDriveType v]) in *. set (h4 := h3 ++ [XVolumeOpen v1]) in *.
    destruct A as (_ & A2 & _ & _ & A6).
    set (mounts := match x_names X h1 with Some (us, len) => _ | None => Ok [] end) in E.
    assert (M : exists ms, mounts = Ok ms).
    { unfold mounts. destruct (x_names X h1) as [(us, len)|]; [|eauto]. destruct (N.ltb_spec 0 len) as [Y|Y]; [|eauto].
      destruct (mount_names X us) as [(B & _)|(_ & ms & B & _)]; [exfalso; now apply A2|]. eauto. }
    clearbody mounts. destruct M as (ms & ->). destruct (x_vopen X h4) as [e|hd]; [injection E as _ _ <-; eauto|].
    change (h4 ++ [XSys (WIo _)]) with (h4 ++ [extents_query hd]) in E. set (h5 := h4 ++ [extents_query hd]) in *.
    destruct A6 as (_ & D & _ & A8). apply delivered_fill in D. rewrite <- D in E.
    destruct (N.eqb_spec (wa_err (x_io X h5)) 0) as [Ee|Ee]; [|injection E as _ _ <-; eauto].
    destruct (A8 Ee) as (X1 & _). change (le_val (slice 0 4 data1)) with (field 0 4 data1) in E. rewrite (extents_run _ _) in E by (try exact X1; rewrite D, fill_length; exact L).
    destruct (wv_extents it) as [|e es]; [injection E as _ _ <-; eauto|]. destruct (partition_info X h5 hd e) as (h6, p). injection E as _ _ <-; eauto. }
  destruct O as ((it', b1) & ->). destruct S as (S & L1). destruct (volume_fun _ _ _ _ _ _ _ _ _ _ _ _ _ _ _ S V) as (-> & -> & -> & E1 & E2).
  destruct b1; cbn in *. subst. auto.
Qed.

(** ---- all volumes ---- *)
Lemma loop_sound X f : sane X -> forall fuel h name b vs hs h' gs r, List.length (vb_data b) = page ->
  volume_loop X fuel h f name b vs hs = (h', (gs, r)) ->
  match r with
  | Ok ws => exists hs1 its, volumes X f h name (vb_fs b) (vb_data b) h' hs1 its /\ ws = vs ++ its /\ gs = hs ++ hs1
  | Panic => exists hs1, volumes_panic X f h name (vb_fs b) (vb_data b) h' hs1 /\ gs = hs ++ hs1
  | Err _ => False
  | Fuel => True
  end.
Proof.
  intros Sa. induction fuel as [|fuel IH]; intros h name b vs hs h' gs r L H; cbn [volume_loop] in H; [injection H as <- <- <-; exact I|].
  destruct (volume_item X h name b) as (h1, (o, q)) eqn:E. apply volume_sound in E; [|exact Sa|exact L]. destruct q as [(it, b1)|e| |].
  - destruct E as (V & L1). destruct (x_next X (h1 ++ [XFindNext f])) as [e|us] eqn:En.
    + injection H as <- <- <-. exists o, [it]. split; [econstructor; eassumption|auto].
    + apply IH in H; [|exact L1]. assert (Nb : name_buffer us (fill (zeros 320) us)) by apply fill_delivered.
      destruct r as [ws|e| |]; try exact H.
      * destruct H as (hs1 & its & H1 & -> & ->). exists (o ++ hs1), (it :: its). split; [eapply volumes_more; eassumption|]. now rewrite <- !app_assoc.
      * destruct H as (hs1 & H1 & ->). exists (o ++ hs1). split; [eapply panic_later; eassumption|]. now rewrite app_assoc.
  - contradiction.
  - injection H as <- <- <-. exists o. split; [now constructor|reflexivity].
  - injection H as <- <- <-. exact I.
Qed.
Lemma loop_complete X f : sane X -> forall h name fs0 data0 h' hs1 its, volumes X f h name fs0 data0 h' hs1 its -> List.length data0 = page ->
  forall fuel vs hs, (List.length its <= fuel)%nat ->
  volume_loop X fuel h f name {| vb_fs := fs0; vb_data := data0 |} vs hs = (h', (hs ++ hs1, Ok (vs ++ its))).
Proof.
  intros Sa h name fs0 data0 h' hs1 its V. induction V; intros L fuel vs hs0 F; (destruct fuel as [|fuel]; [cbn in F; lia|]); cbn [volume_loop];
    match goal with V : volume _ _ _ _ _ _ _ _ _ _ |- _ => destruct (volume_complete _ _ _ _ _ _ _ _ _ _ Sa L V) as (E & L1) end; rewrite E;
    match goal with N : x_next _ _ = _ |- _ => rewrite N end; [reflexivity|].
  match goal with N : name_buffer _ _ |- _ => apply delivered_fill in N; rewrite <- N end. rewrite IHV by (try exact L1; cbn in F; lia). now rewrite <- !app_assoc.
Qed.
