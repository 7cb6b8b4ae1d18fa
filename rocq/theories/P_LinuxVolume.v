(** Lemmas for C80-C84. *)
From Verif Require Import Base M_TcgDevice M_DriveHandle M_Strings M_LinuxInfo M_LinuxFactory M_LinuxVolume
  Spec_LinuxFactory P_Strings Spec_LinuxVolume.
From Coq Require Import Permutation.

(** ---- lines ---- *)
Lemma split_lines_spec s : forall cur ls rest, split_lines cur s = (ls, rest) -> ~ In 10 cur -> text_lines (rev cur ++ s) ls rest.
Proof.
  induction s as [|b s IH]; intros cur ls rest H Hc; cbn [split_lines] in H.
  - injection H as <- <-. split; [now rewrite app_nil_r|]. split; [constructor|]. now rewrite <- in_rev.
  - destruct (N.eqb_spec b 10) as [->|Hb].
    + destruct (split_lines [] s) as [ls' r'] eqn:E. injection H as <- <-. destruct (IH _ _ _ E ltac:(intros [])) as (A & B & C).
      split; [cbn [map concat rev app] in *; rewrite A; rewrite <- !app_assoc; reflexivity|]. split; [constructor; [now rewrite <- in_rev|exact B]|exact C].
    + destruct (IH _ _ _ H) as (A & B & C). { intros [X|X]; [congruence|contradiction]. }
      split; [rewrite <- A; cbn [rev]; rewrite <- app_assoc; reflexivity|auto].
Qed.
Lemma until_long_spec ls : let (k, long) := until_long ls in exists tl, ls = k ++ tl /\ Forall short k
  /\ (if long then exists l tl', tl = l :: tl' /\ ~ short l else tl = []).
Proof.
  induction ls as [|l ls IH]; cbn [until_long]; [exists []; repeat split; constructor|].
  unfold max_line. destruct (N.ltb_spec 65535 (blen l)) as [Hl|Hl].
  - exists (l :: ls). split; [reflexivity|]. split; [constructor|]. exists l, ls. split; [reflexivity|]. unfold short. lia.
  - destruct (until_long ls) as [k long]. destruct IH as (tl & -> & Hk & Ht). exists tl. split; [reflexivity|]. split; [constructor; [unfold short; lia|exact Hk]|exact Ht].
Qed.
Lemma trim_suffix_spec c l : (exists x, l = x ++ [c] /\ trim_suffix c l = x) \/ ((forall x, l <> x ++ [c]) /\ trim_suffix c l = l).
Proof.
  unfold trim_suffix. destruct (rev l) as [|b t] eqn:E.
  - right. apply (f_equal (@rev N)) in E. rewrite rev_involutive in E. subst l. split; [|reflexivity]. intros [|]; discriminate.
  - apply (f_equal (@rev N)) in E. rewrite rev_involutive in E. cbn [rev] in E. subst l. destruct (N.eqb_spec b c) as [->|Hb].
    + left. exists (rev t). auto.
    + right. split; [|reflexivity]. intros x X. apply app_inj_tail in X as [_ X]. contradiction.
Qed.
Lemma drop_cr_spec ls : Forall2 without_cr ls (map drop_cr ls).
Proof.
  induction ls as [|l ls IH]; constructor; [|exact IH]. unfold without_cr, drop_cr. destruct (trim_suffix_spec 13 l) as [(x & A & B)|[A B]]; rewrite B; auto.
Qed.
Lemma text_lines_unique : forall t ls1 r1 ls2 r2, text_lines t ls1 r1 -> text_lines t ls2 r2 -> ls1 = ls2 /\ r1 = r2.
Proof.
  intros t ls1. revert t. induction ls1 as [|a ls1 IH]; intros t r1 ls2 r2 (E1 & F1 & G1) (E2 & F2 & G2).
    - destruct ls2 as [|b ls2]; [cbn in E1, E2; split; [reflexivity|congruence]|]. exfalso. cbn in E1, E2. apply G1. rewrite <- E1, E2.
      rewrite <- !app_assoc. apply in_or_app. right. now left.
    - destruct ls2 as [|b ls2].
      { exfalso. cbn in E1, E2. apply G2. rewrite <- E2, E1. rewrite <- !app_assoc. apply in_or_app. right. now left. }
      cbn [map concat] in E1, E2. rewrite <- !app_assoc in E1, E2. cbn [app] in E1, E2. rewrite E1 in E2.
      assert (K : forall a b u v, ~ In 10 a -> ~ In 10 b -> a ++ 10 :: u = b ++ 10 :: v -> a = b /\ u = v).
      { clear. induction a as [|x a IH]; intros [|y b] u v Ha Hb H; cbn [app] in H.
        - injection H as ->. auto.
        - exfalso. injection H as H _. apply Hb. left. now symmetry.
        - exfalso. injection H as H _. apply Ha. now left.
        - injection H as -> H. destruct (IH b u v) as [-> ->]; auto; [intros X; apply Ha; now right|intros X; apply Hb; now right]. }
      inversion F1; inversion F2; subst. destruct (fun X Y => K _ _ _ _ X Y E2) as [-> E3]; try assumption.
      destruct (IH (concat (map (fun l => l ++ [10]) ls1) ++ r1) r1 ls2 r2) as [-> ->]; [repeat split; auto|split; auto|]. auto. 
Qed.
Lemma scan_spec m : let (seen, late) := scan m in delivered (mt_text m) seen /\
  (late = None \/ (late = mt_error m /\ exists ls rest, text_lines (mt_text m) ls rest /\ rest <> [] /\ Forall short ls /\ short rest)) /\
  (forall ls rest, text_lines (mt_text m) ls rest -> rest <> [] -> Forall short ls -> short rest -> late = mt_error m).
Proof.
  unfold scan. destruct (split_lines [] (mt_text m)) as [ls rest] eqn:E.
  pose proof (split_lines_spec _ _ _ _ E ltac:(intros [])) as T. cbn [rev app] in T.
  pose proof (until_long_spec ls) as L. destruct (until_long ls) as [k long]. destruct L as (tl & -> & Hk & Ht). destruct long.
  - destruct Ht as (l & tl' & -> & Hl). split; [|split; [now left|]].
    + exists (k ++ l :: tl'), rest, k, ((l :: tl') ++ match rest with [] => [] | _ => [rest] end). split; [exact T|]. split; [now rewrite <- app_assoc|].
      split; [exact Hk|]. split; [|apply drop_cr_spec]. intros l0 t0 X. cbn [app] in X. injection X as <- _. exact Hl.
    + intros ls' r' T' _ F _. destruct (text_lines_unique _ _ _ _ _ T T') as [<- _]. apply Forall_app in F as [_ F]. inversion F; contradiction.
  - subst tl. rewrite app_nil_r in *. destruct rest as [|b rest].
    + split; [|split; [now left|]].
      * exists k, [], k, []. split; [exact T|]. split; [reflexivity|]. split; [exact Hk|]. split; [discriminate|apply drop_cr_spec].
      * intros ls' r' T' Hr. destruct (text_lines_unique _ _ _ _ _ T T') as [_ <-]. congruence.
    + unfold max_line. destruct (N.ltb_spec 65535 (blen (b :: rest))) as [Hl|Hl].
      * split; [|split; [now left|]].
        -- exists k, (b :: rest), k, [b :: rest]. split; [exact T|]. split; [reflexivity|]. split; [exact Hk|]. split; [|apply drop_cr_spec].
           intros l0 t0 X. injection X as <- _. unfold short. lia.
        -- intros ls' r' T' _ _ Hs. destruct (text_lines_unique _ _ _ _ _ T T') as [_ <-]. unfold short in Hs. lia.
      * assert (Hs : short (b :: rest)) by (unfold short; lia). split; [|split].
        -- exists k, (b :: rest), (k ++ [b :: rest]), []. split; [exact T|]. split; [now rewrite app_nil_r|].
           split; [apply Forall_app; split; [exact Hk|now constructor]|]. split; [discriminate|apply drop_cr_spec].
        -- right. split; [reflexivity|]. exists k, (b :: rest). split; [exact T|]. split; [discriminate|]. auto.
        -- auto.
Qed.

(** ---- fields ---- *)
Lemma cut_at_cut sep s : cut_at sep s (fst (cut sep s)) (snd (cut sep s)).
Proof.
  pose proof (cut_spec sep s) as C. unfold cut_at. destruct (cut sep s) as [x y]. cbn [fst snd]. destruct C as [A [->|[-> ->]]]; auto.
Qed.
Lemma line_fields_spec l : mount_line l (line_fields l).
Proof.
  unfold line_fields, mount_line. destruct (cut 32 l) as [d t1] eqn:E1. destruct (cut 32 t1) as [m t2] eqn:E2. destruct (cut 32 t2) as [f t3] eqn:E3.
  exists t1, t2, t3. pose proof (cut_at_cut 32 l) as A. pose proof (cut_at_cut 32 t1) as B. pose proof (cut_at_cut 32 t2) as C.
  rewrite E1 in A. rewrite E2 in B. rewrite E3 in C. auto.
Qed.

(** ---- the regular expression ---- *)
Lemma is_digit_iff b : is_digit b = true <-> digit b.
Proof. unfold is_digit, digit. rewrite Bool.andb_true_iff, !N.leb_le. tauto. Qed.
Lemma digits_prefix_spec s : let (x, y) := digits_prefix s in s = x ++ y /\ Forall digit x /\ (forall b t, y = b :: t -> ~ digit b).
Proof.
  induction s as [|b s IH]; cbn [digits_prefix]; [repeat split; [constructor|discriminate]|].
  destruct (is_digit b) eqn:E.
  - destruct (digits_prefix s) as [x y]. destruct IH as (-> & A & B). split; [reflexivity|]. split; [constructor; [now apply is_digit_iff|exact A]|exact B].
  - split; [reflexivity|]. split; [constructor|]. intros c t X. injection X as <- _. rewrite <- is_digit_iff. congruence.
Qed.
Lemma digits_prefix_unique x y : Forall digit x -> (forall b t, y = b :: t -> ~ digit b) -> digits_prefix (x ++ y) = (x, y).
Proof.
  induction x as [|b x IH]; intros Hx Hy; cbn [app digits_prefix].
  - destruct y as [|c y]; [reflexivity|]. cbn [digits_prefix]. destruct (is_digit c) eqn:E; [|reflexivity]. exfalso. apply (Hy c y eq_refl). now apply is_digit_iff.
  - inversion Hx; subst. assert (E : is_digit b = true) by (now apply is_digit_iff). rewrite E, IH by assumption. reflexivity.
Qed.
Lemma existsb_eqb_In k l : existsb (N.eqb k) l = true <-> In k l.
Proof. rewrite existsb_exists. split; [intros (x & A & B); apply N.eqb_eq in B; now subst|]. intros H. exists k. split; [exact H|apply N.eqb_refl]. Qed.

Lemma partition_match_iff s p ds : partition_match s = Some (p, ds) <-> partition_name s p ds.
Proof.
  unfold partition_match. split.
  - intros H. pose proof (digits_prefix_spec (rev s)) as D. destruct (digits_prefix (rev s)) as [rd r]. destruct D as (E & Hd & Hr).
    destruct rd as [|d0 rd]; [discriminate|]. destruct r as [|c pr]; [discriminate|].
    assert (Hc : c = 112).
    { clear - H. destruct c as [|c]; [discriminate|]. do 7 (destruct c as [c|c|]; try discriminate). reflexivity. }
    subst c. destruct pr as [|dd mid]; [discriminate|].
    destruct (is_digit dd && has_prefix (str "/dev/") (rev (dd :: mid)) && (7 <=? blen (rev (dd :: mid))) && negb (existsb (N.eqb 10) (skipn 5 (rev mid)))) eqn:B; [|discriminate].
    injection H as <- <-. apply andb_prop in B as [B B4]. apply andb_prop in B as [B B3]. apply andb_prop in B as [B1 B2].
    apply is_digit_iff in B1. apply has_prefix_iff in B2 as [m2 B2]. apply N.leb_le in B3. apply Bool.negb_true_iff in B4.
    unfold partition_name.
    split.
    { apply (f_equal (@rev N)) in E. rewrite rev_involutive in E. rewrite E. rewrite rev_app_distr. cbn [rev]. rewrite <- !app_assoc. reflexivity. }
    split. { cbn [rev]. intros X. apply app_eq_nil in X as [_ X]. discriminate. }
    split. { change (Forall digit (rev (d0 :: rd))). now apply Forall_rev. }
    cbn [rev] in B2, B3 |- *.
    destruct (rev m2) as [|z m3] eqn:Ez.
    { exfalso. apply (f_equal (@rev N)) in Ez. rewrite rev_involutive in Ez. subst m2. rewrite B2 in B3. vm_compute in B3. now apply B3. }
    apply (f_equal (@rev N)) in Ez. rewrite rev_involutive in Ez. cbn [rev] in Ez. subst m2.
    rewrite app_assoc in B2. apply app_inj_tail in B2 as [B2 <-].
    exists (rev m3), dd. split; [rewrite B2; now rewrite <- app_assoc|]. split.
    { intros X. rewrite X, app_nil_r in B2. rewrite B2 in B3. unfold blen in B3. rewrite app_length in B3. change (List.length (str "/dev/")) with 5%nat in B3. cbn [List.length] in B3. lia. }
    split; [|exact B1]. intros X. apply existsb_eqb_In in X. rewrite B2 in B4. change (skipn 5 (str "/dev/" ++ rev m3)) with (rev m3) in B4. congruence.
  - intros (-> & Hds & Hd & m & d & -> & Hm & H10 & Hdig).
    assert (R : rev ((str "/dev/" ++ m ++ [d]) ++ str "p" ++ ds) = rev ds ++ 112 :: d :: rev (str "/dev/" ++ m)).
    { rewrite (app_assoc (str "/dev/") m [d]). generalize (str "/dev/" ++ m). intros q. rewrite !rev_app_distr. change (rev (str "p")) with [112]. rewrite <- app_assoc. reflexivity. }
    rewrite R. rewrite digits_prefix_unique.
    2:{ now apply Forall_rev. } 2:{ intros b t X. injection X as <- _. unfold digit. lia. }
    destruct (rev ds) as [|d0 rd] eqn:Er. { exfalso. apply Hds. apply (f_equal (@rev N)) in Er. now rewrite rev_involutive in Er. }
    assert (P : rev (d :: rev (str "/dev/" ++ m)) = str "/dev/" ++ m ++ [d]). { cbn [rev]. rewrite rev_involutive. now rewrite <- app_assoc. }
    rewrite P. rewrite rev_involutive. change (skipn 5 (str "/dev/" ++ m)) with m.
    assert (B1 : is_digit d = true) by (now apply is_digit_iff).
    assert (B2 : has_prefix (str "/dev/") (str "/dev/" ++ m ++ [d]) = true) by (apply has_prefix_iff; eauto).
    assert (B3 : (7 <=? blen (str "/dev/" ++ m ++ [d])) = true).
    { apply N.leb_le. unfold blen. rewrite !app_length. destruct m; [congruence|]. cbn [List.length str]. lia. }
    assert (B4 : existsb (N.eqb 10) m = false). { destruct (existsb (N.eqb 10) m) eqn:X; [|reflexivity]. apply existsb_eqb_In in X. contradiction. }
    rewrite B1, B2, B3, B4. cbn [andb negb]. rewrite <- Er, rev_involutive. reflexivity.
Qed.
Lemma partition_name_unique s p ds p' ds' : partition_name s p ds -> partition_name s p' ds' -> p = p' /\ ds = ds'.
Proof. intros A B. apply partition_match_iff in A. apply partition_match_iff in B. rewrite A in B. injection B as -> ->. auto. Qed.
Lemma partition_match_none s : partition_match s = None <-> forall p ds, ~ partition_name s p ds.
Proof.
  split.
  - intros H p ds X. apply partition_match_iff in X. congruence.
  - intros H. destruct (partition_match s) as [[p ds]|] eqn:E; [|reflexivity]. apply partition_match_iff in E. exfalso. eapply H. exact E.
Qed.

(** ---- numbers and partitions ---- *)
Lemma dec_val_decimal ds : dec_val ds = decimal ds.
Proof.
  assert (G : forall ds a, fold_left (fun a d => a * 10 + (d - 48)) ds a = a * 10 ^ N.of_nat (List.length ds) + decimal ds).
  { clear. induction ds as [|d ds IH]; intros a; cbn [fold_left decimal List.length].
    - change (10 ^ N.of_nat 0) with 1. lia.
    - rewrite IH. rewrite Nat2N.inj_succ, N.pow_succ_r by lia. generalize (10 ^ N.of_nat (List.length ds)) (d - 48) (decimal ds). intros x y z. nia. }
  unfold dec_val. rewrite G. lia.
Qed.
Lemma atoi_number ds : atoi ds = Z.of_N (part_number ds).
Proof. unfold atoi, part_number. rewrite dec_val_decimal. rewrite N2Z.inj_min. f_equal. Qed.
Lemma part_number_zero ds : part_number ds = 0 <-> decimal ds = 0.
Proof. unfold part_number. lia. Qed.
Lemma upper_spec s : uppercased s (map upper s).
Proof. unfold uppercased. induction s; constructor; [reflexivity|assumption]. Qed.
Lemma to_uint64_spec z : Z.of_N (to_uint64 z) = (z mod 2 ^ 64)%Z.
Proof. unfold to_uint64. rewrite Z2N.id; [reflexivity|]. apply Z.mod_pos_bound. lia. Qed.

Lemma pick_spec ps ds :
  (part_number ds = 0 -> pick ps (atoi ds - 1) = Panic) /\
  (1 <= part_number ds -> pick ps (atoi ds - 1) = Ok (nth_error ps (N.to_nat (part_number ds - 1)))).
Proof.
  rewrite atoi_number. unfold pick. generalize (part_number ds). intros n. split; intros H.
  - subst n. change (Z.of_N 0 - 1)%Z with (-1)%Z. destruct (Z.ltb_spec (-1) (Z.of_nat (List.length ps))); [reflexivity|lia].
  - assert (E : (Z.of_N n - 1)%Z = Z.of_N (n - 1)) by lia. rewrite E. destruct (Z.ltb_spec (Z.of_N (n - 1)) (Z.of_nat (List.length ps))) as [L|L].
    + destruct (Z.ltb_spec (Z.of_N (n - 1)) 0); [lia|]. f_equal. f_equal. lia.
    + f_equal. symmetry. apply nth_error_None. lia.
Qed.
Lemma find_part_spec device parent ds b :
  match entries (ba_table b) with
  | None => find_part device parent (atoi ds - 1) b = Ok None
  | Some ps =>
    (part_number ds = 0 -> find_part device parent (atoi ds - 1) b = Panic) /\
    (1 <= part_number ds -> exists q, find_part device parent (atoi ds - 1) b = Ok q /\
       (forall e, nth_error ps (N.to_nat (part_number ds - 1)) = Some e -> exists x, q = Some x /\ describes x device parent b e) /\
       (nth_error ps (N.to_nat (part_number ds - 1)) = None -> q = None))
  end.
Proof.
  unfold find_part. destruct (ba_table b) as [g ps|ps|] eqn:Et; cbn [entries]; [| |reflexivity].
  - destruct (pick_spec ps ds) as [A B]. split; [intros H; now rewrite A|]. intros H. rewrite (B H).
    destruct (nth_error ps (N.to_nat (part_number ds - 1))) as [e|] eqn:En.
    + eexists. split; [reflexivity|]. split; [|discriminate]. intros e' X. injection X as <-. eexists. split; [reflexivity|].
      unfold describes. cbn [pi_device pi_parent pi_start pi_size pi_style pi_gpt pi_mbr]. rewrite Et.
      repeat (split; [reflexivity || apply to_uint64_spec|]). do 2 eexists. split; [reflexivity|]. split; apply upper_spec.
    + exists None. split; [reflexivity|]. split; [discriminate|reflexivity].
  - destruct (pick_spec ps ds) as [A B]. split; [intros H; now rewrite A|]. intros H. rewrite (B H).
    destruct (nth_error ps (N.to_nat (part_number ds - 1))) as [e|] eqn:En.
    + eexists. split; [reflexivity|]. split; [|discriminate]. intros e' X. injection X as <-. eexists. split; [reflexivity|].
      unfold describes. cbn [pi_device pi_parent pi_start pi_size pi_style pi_gpt pi_mbr]. rewrite Et.
      repeat (split; [reflexivity || apply to_uint64_spec|]). reflexivity.
    + exists None. split; [reflexivity|]. split; [discriminate|reflexivity].
Qed.

(** ---- the map of volumes ---- *)
Fixpoint vlookup (d : bytes) (vs : volumes) : option volume :=
  match vs with [] => None | (k, v) :: t => if beq k d then Some v else vlookup d t end.
Lemma upsert_keys d fs m vs : map fst (upsert d fs m vs) = map fst vs \/ (~ In d (map fst vs) /\ map fst (upsert d fs m vs) = map fst vs ++ [d]).
Proof.
  induction vs as [|[k v] vs IH]; cbn [upsert map fst]; [right; auto|].
  destruct (beq k d) eqn:E; [now left|]. apply beq_false in E. cbn [map fst]. destruct IH as [->|[A ->]]; [now left|right].
  split; [|reflexivity]. intros [X|X]; [congruence|contradiction].
Qed.
Lemma set_part_keys d q vs : map fst (set_part d q vs) = map fst vs.
Proof. induction vs as [|[k v] vs IH]; [reflexivity|]. cbn [set_part]. destruct (beq k d); cbn [map fst]; [reflexivity|now rewrite IH]. Qed.
Lemma upsert_nodup d fs m vs : NoDup (map fst vs) -> NoDup (map fst (upsert d fs m vs)).
Proof.
  intros H. destruct (upsert_keys d fs m vs) as [->|[A ->]]; [exact H|]. apply NoDup_app_comm || idtac.
  apply (Permutation_NoDup (l := d :: map fst vs)); [apply Permutation_cons_append|]. now constructor.
Qed.
Lemma vlookup_upsert d fs m vs d' : vlookup d' (upsert d fs m vs) =
  if beq d d' then Some (match vlookup d vs with Some v => touch d fs m v | None => new_volume d fs m end) else vlookup d' vs.
Proof.
  induction vs as [|[k v] vs IH]; cbn [upsert vlookup].
  - destruct (beq d d'); reflexivity.
  - destruct (beq k d) eqn:E; cbn [vlookup].
    + apply beq_iff in E. subst k. destruct (beq d d'); reflexivity.
    + rewrite IH. destruct (beq k d') eqn:E2; [|reflexivity]. apply beq_iff in E2. subst d'.
      assert (X : beq d k = false) by (apply beq_false; apply beq_false in E; congruence). now rewrite X.
Qed.
Lemma vlookup_set_part d q vs d' : vlookup d' (set_part d q vs) =
  if beq d d' then option_map (fun v => with_part v q) (vlookup d vs) else vlookup d' vs.
Proof.
  induction vs as [|[k v] vs IH]; cbn [set_part vlookup].
  - destruct (beq d d'); reflexivity.
  - destruct (beq k d) eqn:E; cbn [vlookup].
    + apply beq_iff in E. subst k. destruct (beq d d'); reflexivity.
    + rewrite IH. destruct (beq k d') eqn:E2; [|reflexivity]. apply beq_iff in E2. subst d'.
      assert (X : beq d k = false) by (apply beq_false; apply beq_false in E; congruence). now rewrite X.
Qed.
Lemma vlookup_in d v vs : NoDup (map fst vs) -> (vlookup d vs = Some v <-> In (d, v) vs).
Proof.
  induction vs as [|[k w] vs IH]; intros H; cbn [vlookup]; [split; [discriminate|intros []]|].
  cbn [map fst] in H. inversion H as [|? ? Hk Hn]; subst. destruct (beq k d) eqn:E.
  - apply beq_iff in E. subst k. split; [intros X; injection X as ->; now left|]. intros [X|X]; [congruence|].
    exfalso. apply Hk. apply (in_map fst) in X. exact X.
  - apply beq_false in E. rewrite (IH Hn). split; [now right|]. intros [X|X]; [congruence|exact X].
Qed.

(** ---- the whole table ---- *)
Definition vol_ok (recs : list (bytes * bytes * bytes)) (qs : list (option pinfo)) (vs : volumes) : Prop :=
  NoDup (map fst vs) /\ List.length qs = List.length recs /\
  forall d, match about d recs with
  | [] => vlookup d vs = None
  | r :: _ => exists v, vlookup d vs = Some v /\ vo_path v = d /\ vo_mounts v = map rec_mount (about d recs)
      /\ (d <> [] -> vo_fs v = rec_fs r) /\ vo_part v = last_found d recs qs None
  end.
Lemma about_app d a b : about d (a ++ b) = about d a ++ about d b.
Proof. unfold about. now rewrite filter_app. Qed.
Lemma last_found_app d : forall r1 q1 r2 q2 s, List.length q1 = List.length r1 ->
  last_found d (r1 ++ r2) (q1 ++ q2) s = last_found d r2 q2 (last_found d r1 q1 s).
Proof.
  induction r1 as [|r r1 IH]; intros [|q q1] r2 q2 s H; cbn [List.length] in H; try discriminate; [reflexivity|].
  cbn [app last_found]. rewrite IH by lia. reflexivity.
Qed.
Lemma last_found_none d : forall recs qs s, about d recs = [] -> last_found d recs qs s = s.
Proof.
  induction recs as [|r recs IH]; intros qs s H; [destruct qs; reflexivity|]. cbn [about filter] in H.
  destruct qs as [|q qs]; [reflexivity|]. cbn [last_found]. destruct (list_eq_dec N.eq_dec (rec_dev r) d); [discriminate|]. now apply IH.
Qed.
Lemma vol_step recs qs vs r q vs1 : vol_ok recs qs vs ->
  vs1 = upsert (rec_dev r) (rec_fs r) (rec_mount r) vs ->
  vol_ok (recs ++ [r]) (qs ++ [q]) (match q with Some x => set_part (rec_dev r) x vs1 | None => vs1 end).
Proof.
  intros (A & B & C) ->. set (d := rec_dev r). set (vs1 := upsert d (rec_fs r) (rec_mount r) vs).
  assert (N1 : NoDup (map fst vs1)) by (now apply upsert_nodup).
  split. { destruct q; [rewrite set_part_keys|]; exact N1. }
  split. { rewrite !app_length. cbn [List.length]. lia. }
  intros d'. rewrite about_app.
  assert (AB : about d' [r] = if list_eq_dec N.eq_dec d d' then [r] else []) by (unfold about; cbn [filter]; fold d; destruct (list_eq_dec N.eq_dec d d'); reflexivity). rewrite AB. clear AB. rewrite last_found_app by exact B. cbn [last_found]. fold d.
  assert (L : vlookup d' (match q with Some x => set_part d x vs1 | None => vs1 end) =
     if beq d d' then Some (let v := match vlookup d vs with Some v => touch d (rec_fs r) (rec_mount r) v | None => new_volume d (rec_fs r) (rec_mount r) end in
                            match q with Some x => with_part v x | None => v end) else vlookup d' vs).
  { unfold vs1. destruct q as [x|]; [rewrite vlookup_set_part|]; rewrite !vlookup_upsert; rewrite ?beq_refl; destruct (beq d d'); reflexivity. }
  rewrite L. clear L. specialize (C d').
  destruct (list_eq_dec N.eq_dec d d') as [Ed|Ed].
  - subst d'. rewrite beq_refl. destruct (about d recs) as [|r0 ab] eqn:Ea.
    + rewrite C. cbn [app]. eexists. split; [reflexivity|].
      assert (P : last_found d recs qs None = None).
      { now apply last_found_none. }
      rewrite P. destruct q as [x|]; cbn [with_part new_volume vo_path vo_mounts vo_fs vo_part map]; auto.
    + destruct C as (v & -> & P1 & P2 & P3 & P4). cbn [app]. eexists. split; [reflexivity|].
      assert (T : let w := touch d (rec_fs r) (rec_mount r) v in vo_path w = d /\ vo_mounts w = vo_mounts v ++ [rec_mount r] /\ (d <> [] -> vo_fs w = vo_fs v) /\ vo_part w = vo_part v).
      { unfold touch. rewrite P1. destruct (beq d []) eqn:E0; cbn [vo_path vo_mounts vo_fs vo_part].
        - apply beq_iff in E0. rewrite E0. repeat split. congruence.
        - auto. }
      destruct T as (T1 & T2 & T3 & T4).
      assert (M : map rec_mount (r0 :: ab ++ [r]) = vo_mounts v ++ [rec_mount r]).
      { rewrite P2. cbn [map app]. rewrite map_app. reflexivity. }
      rewrite M, <- P4.
      destruct q as [x|]; cbn [with_part vo_path vo_mounts vo_fs vo_part]; (split; [exact T1|]; split; [exact T2|]; split; [intros X; rewrite T3 by exact X; now apply P3|]; auto).
  - assert (Eb : beq d d' = false) by (now apply beq_false). rewrite Eb. rewrite app_nil_r. exact C.
Qed.

Lemma volume_lines_spec W : forall ls recs0 qs0 h vs h' r, vol_ok recs0 qs0 vs -> volume_lines W h ls vs = (h', r) ->
  exists recs es qs, h' = h ++ es /\
  ((exists vs', r = Ok vs' /\ Forall2 mount_line ls recs /\ volume_trace W h recs es qs /\ vol_ok (recs0 ++ recs) (qs0 ++ qs) vs')
   \/ (r = Panic /\ exists k l rest rl es1 seg, ls = k ++ l :: rest /\ Forall2 mount_line k recs /\ mount_line l rl /\
        volume_trace W h recs es1 qs /\ es = es1 ++ seg /\ names_zero W (h ++ es1) (rec_dev rl) seg)).
Proof.
  induction ls as [|l ls IH]; intros recs0 qs0 h vs h' r Hv H; cbn [volume_lines] in H.
  - injection H as <- <-. exists [], [], []. split; [now rewrite app_nil_r|]. left. exists vs. rewrite !app_nil_r. split; [reflexivity|]. split; [constructor|]. split; [apply vt_nil|exact Hv].
  - pose proof (line_fields_spec l) as Hf. destruct (volume_line W h l vs) as (h1, r1) eqn:E.
    unfold volume_line in E. destruct (line_fields l) as [[d m] f] eqn:El.
    set (vs1 := upsert d f m vs) in E.
    assert (St : forall q, vol_ok (recs0 ++ [(d, m, f)]) (qs0 ++ [q]) (match q with Some x => set_part d x vs1 | None => vs1 end)).
    { intros q. apply (vol_step recs0 qs0 vs (d, m, f) q vs1 Hv eq_refl). }
    (* finish: a line with effect [seg], [q] *)
    assert (Fin : forall seg q vs2, line_effect W h d seg q -> vs2 = (match q with Some x => set_part d x vs1 | None => vs1 end) ->
       volume_lines W (h ++ seg) ls vs2 = (h', r) ->
       exists recs es qs, h' = h ++ es /\
       ((exists vs', r = Ok vs' /\ Forall2 mount_line (l :: ls) recs /\ volume_trace W h recs es qs /\ vol_ok (recs0 ++ recs) (qs0 ++ qs) vs')
       \/ (r = Panic /\ exists k l0 rest rl es1 seg, l :: ls = k ++ l0 :: rest /\ Forall2 mount_line k recs /\ mount_line l0 rl /\
        volume_trace W h recs es1 qs /\ es = es1 ++ seg /\ names_zero W (h ++ es1) (rec_dev rl) seg))).
    { intros seg q vs2 He Hq Hr. specialize (St q). rewrite <- Hq in St.
      destruct (IH _ _ _ _ _ _ St Hr) as (recs & es & qs & -> & O).
      exists ((d, m, f) :: recs), (seg ++ es), (q :: qs). split; [now rewrite <- app_assoc|].
      destruct O as [(vs' & -> & O1 & O2 & O3)|(-> & k & l0 & rest & rl & es1 & sg & -> & O2 & O3 & O4 & -> & O6)].
      - left. exists vs'. rewrite <- !app_assoc in O3. split; [reflexivity|]. split; [constructor; [exact Hf|exact O1]|]. split; [|exact O3].
        now constructor.
      - right. split; [reflexivity|]. exists (l :: k), l0, rest, rl, (seg ++ es1), sg. split; [reflexivity|]. split; [constructor; [exact Hf|exact O2]|].
        split; [exact O3|]. split; [now constructor|]. split; [now rewrite <- app_assoc|]. now rewrite app_assoc. }
    destruct (partition_match d) as [[parent ds]|] eqn:Ep.
    2:{ injection E as <- <-. apply (Fin [] None vs1); [constructor; now apply partition_match_none|reflexivity|]. now rewrite app_nil_r. }
    apply partition_match_iff in Ep.
    destruct (w_open W (h ++ [LOpen parent])) as [e|fd] eqn:Ew.
    { injection E as <- <-. apply (Fin [LOpen parent] None vs1); [now apply le_unopened with ds e|reflexivity|exact H]. }
    rewrite <- app_assoc in E. cbn [app] in E.
    destruct (read_basic_info parent (w_basic W (h ++ [LOpen parent; LBasic fd parent]))) as [b|e| |] eqn:Eb.
    2,3,4: injection E as <- <-; apply (Fin [LOpen parent; LBasic fd parent] None vs1); [apply le_unread with ds; [exact Ep|exact Ew|rewrite Eb; discriminate]|reflexivity|exact H].
    pose proof (find_part_spec d parent ds b) as F. destruct (entries (ba_table b)) as [ps|] eqn:En.
    + destruct F as [F0 F1]. destruct (N.eq_dec (part_number ds) 0) as [Z|Z].
      * rewrite (F0 Z) in E. injection E as <- <-. injection H as <- <-.
        exists [], [LOpen parent; LBasic fd parent], []. split; [reflexivity|]. right. split; [reflexivity|].
        exists [], l, ls, (d, m, f), [], [LOpen parent; LBasic fd parent]. split; [reflexivity|]. split; [constructor|]. split; [exact Hf|]. split; [constructor|]. split; [reflexivity|].
        rewrite app_nil_r. exists parent, ds, fd, b, ps. split; [exact Ep|]. split; [now apply part_number_zero|]. auto.
      * destruct (F1 ltac:(lia)) as (q & Fq & G1 & G2). rewrite Fq in E. destruct q as [x|].
        -- injection E as <- <-. apply (Fin [LOpen parent; LBasic fd parent] (Some x) (set_part d x vs1)); [|reflexivity|exact H].
           apply le_read with ds b ps; auto. lia.
        -- injection E as <- <-. apply (Fin [LOpen parent; LBasic fd parent] None vs1); [|reflexivity|exact H].
           apply le_read with ds b ps; auto. lia.
    + rewrite F in E. injection E as <- <-. apply (Fin [LOpen parent; LBasic fd parent] None vs1); [|reflexivity|exact H].
      apply le_unread with ds; [exact Ep|exact Ew|]. rewrite Eb. intros b' X. injection X as <-. exact En.
Qed.

(** ---- uniqueness: the specification relations are functions ---- *)
Lemma without_cr_unique l a b : without_cr l a -> without_cr l b -> a = b.
Proof.
  intros [A|[A A']] [B|[B B']].
  - rewrite A in B. now apply app_inj_tail in B as [B _].
  - exfalso. exact (B' _ A).
  - exfalso. exact (A' _ B).
  - congruence.
Qed.
Lemma raw_unique : forall raw tl raw' tl', raw ++ tl = raw' ++ tl' -> Forall short raw -> Forall short raw' ->
  (forall l t, tl = l :: t -> ~ short l) -> (forall l t, tl' = l :: t -> ~ short l) -> raw = raw'.
Proof.
  induction raw as [|x raw IH]; intros tl [|y raw'] tl' E A B C D; cbn [app] in E; [reflexivity| | |].
  - inversion B as [|? ? B1 _]; subst. exfalso. exact (C _ _ eq_refl B1).
  - inversion A as [|? ? A1 _]; subst. exfalso. exact (D _ _ eq_refl A1).
  - injection E as -> E. inversion A; inversion B; subst. f_equal. now apply (IH tl raw' tl').
Qed.
Lemma delivered_unique t a b : delivered t a -> delivered t b -> a = b.
Proof.
  intros (ls & rest & raw & tl & A1 & A2 & A3 & A4 & A5) (ls' & rest' & raw' & tl' & B1 & B2 & B3 & B4 & B5).
  destruct (text_lines_unique _ _ _ _ _ A1 B1) as [<- <-]. rewrite A2 in B2.
  assert (raw = raw') by (now apply (raw_unique raw tl raw' tl')). subst raw'.
  clear - A5 B5. revert b B5. induction A5 as [|x y l l' H _ IH]; intros b B5; inversion B5 as [|? y' ? l2 H' T]; subst; [reflexivity|].
  f_equal; [exact (without_cr_unique _ _ _ H H')|now apply IH].
Qed.
Lemma cut_at_unique sep s x y x' y' : cut_at sep s x y -> cut_at sep s x' y' -> x = x' /\ y = y'.
Proof.
  assert (K : forall a b u v, ~ In sep a -> ~ In sep b -> a ++ sep :: u = b ++ sep :: v -> a = b /\ u = v).
  { clear. induction a as [|x a IH]; intros [|y b] u v Ha Hb H; cbn [app] in H.
    - injection H as ->. auto.
    - exfalso. injection H as H _. apply Hb. left. now symmetry.
    - exfalso. injection H as H _. apply Ha. now left.
    - injection H as -> H. destruct (IH b u v) as [-> ->]; auto; [intros X; apply Ha; now right|intros X; apply Hb; now right]. }
  intros [[A A1]|(A & A1 & A2)] [[B B1]|(B & B1 & B2)].
  - rewrite A in B. now apply K.
  - exfalso. apply B. rewrite A. apply in_or_app. right. now left.
  - exfalso. apply A. rewrite B. apply in_or_app. right. now left.
  - split; congruence.
Qed.
Lemma mount_line_unique l a b : mount_line l a -> mount_line l b -> a = b.
Proof.
  destruct a as [[d m] f], b as [[d' m'] f']. intros (r1 & r2 & r3 & A & B & C) (s1 & s2 & s3 & A' & B' & C').
  destruct (cut_at_unique _ _ _ _ _ _ A A') as [<- <-]. destruct (cut_at_unique _ _ _ _ _ _ B B') as [<- <-].
  destruct (cut_at_unique _ _ _ _ _ _ C C') as [<- _]. reflexivity.
Qed.
Lemma names_zero_no_effect W h d seg : names_zero W h d seg -> forall seg' q, ~ line_effect W h d seg' q.
Proof.
  intros (parent & ds & fd & b & ps & P & Z & O & _ & R & E) seg' q L.
  inversion L as [P1|parent1 ds1 e1 P1 P2|parent1 ds1 fd1 P1 P2 P3|parent1 ds1 fd1 b1 ps1 q1 P1 P2 P3 P4 P5 P6 P7]; subst.
  - exact (P1 _ _ P).
  - destruct (partition_name_unique _ _ _ _ _ P P1) as [<- <-]. congruence.
  - destruct (partition_name_unique _ _ _ _ _ P P1) as [<- <-]. assert (fd1 = fd) by congruence. subst fd1. specialize (P3 _ R). congruence.
  - destruct (partition_name_unique _ _ _ _ _ P P1) as [<- <-]. apply part_number_zero in Z. lia.
Qed.
