(** Lemmas about M_WinInfo. *)
From Verif Require Import Base M_TcgDevice M_SgDriver M_Strings M_WinPass M_WinNvme M_WinInfo Spec_WinPass Spec_WinInfo P_Discovery P_WinPass.

Lemma buffer_len : forall S h n, blen (buffer_after S h n) = n.
Proof. intros. unfold blen, buffer_after. rewrite fill_length. unfold zeros. rewrite repeat_length. lia. Qed.
(** the variable-size query is [fetch] *)
Lemma read_ioctl_fetch : forall S h hd code inb h' r, read_ioctl S h hd code inb = (h', r) ->
  fetch S hd code inb h h' (match r with Ok (b, n) => Ok (b, firstn (N.to_nat n) b) | Err e => Err e | Panic => Panic | Fuel => Fuel end) /\
  r <> Fuel /\ (forall b n, r = Ok (b, n) -> n <= blen b /\ (blen b = 4096 \/ h' <> h ++ [query hd code inb 4096])).
Proof.
  intros S h hd code inb h' r H. unfold read_ioctl, win_query in H. change ERROR_INSUFFICIENT_BUFFER with 122 in H. cbv beta iota zeta in H.
  fold (query hd code inb 4096) in H. set (h1 := h ++ [query hd code inb 4096]) in *.
  change (fill (zeros (N.to_nat 4096)) (wa_out (s_io S h1))) with (buffer_after S h1 4096) in H.
  rewrite buffer_len in H.
  destruct (N.eqb_spec (wa_err (s_io S h1)) 122) as [E|E].
  - destruct (N.eqb_spec (wa_ret (s_io S h1)) 0) as [Z|Z].
    + injection H as <- <-. split; [now apply fetch_no_size|]. split; [discriminate|]. discriminate.
    + fold (query hd code inb (wa_ret (s_io S h1))) in H. set (n := wa_ret (s_io S h1)) in *. set (h2 := h1 ++ [query hd code inb n]) in *.
      change (fill (zeros (N.to_nat n)) (wa_out (s_io S h2))) with (buffer_after S h2 n) in H. rewrite buffer_len in H.
      destruct (N.eqb_spec (wa_err (s_io S h2)) 0) as [F|F].
      * apply pair_equal_spec in H as [<- <-]. destruct (N.ltb_spec n (wa_ret (s_io S h2))) as [L|L].
        -- split; [now apply (fetch_again_too_much S hd code inb h h1 n h2)|]. split; [discriminate|]. discriminate.
        -- split; [now apply (fetch_again S hd code inb h h1 n h2)|]. split; [discriminate|]. intros b m K. injection K as <- <-. rewrite buffer_len.
           split; [exact L|]. right. unfold h2. fold h1. intros K. apply (f_equal (@List.length wev)) in K. rewrite app_length in K. cbn [List.length] in K. lia.
      * injection H as <- <-. rewrite E. split; [now apply (fetch_again_refused S hd code inb h h1 n h2)|]. split; [discriminate|]. discriminate.
  - destruct (N.eqb_spec (wa_err (s_io S h1)) 0) as [F|F].
    + apply pair_equal_spec in H as [<- <-]. destruct (N.ltb_spec 4096 (wa_ret (s_io S h1))) as [L|L].
      * split; [now apply (fetch_too_much S hd code inb h h1)|]. split; [discriminate|]. discriminate.
      * split; [now apply (fetch_ok S hd code inb h h1)|]. split; [discriminate|]. intros b m K. injection K as <- <-. rewrite buffer_len. auto.
    + injection H as <- <-. split; [now apply (fetch_refused S hd code inb h h1)|]. split; [discriminate|]. discriminate.
Qed.
Lemma fetch_fun : forall S hd code inb h h1 r1 h2 r2, fetch S hd code inb h h1 r1 -> fetch S hd code inb h h2 r2 -> h1 = h2 /\ r1 = r2.
Proof.
  intros S hd code inb h h1 r1 h2 r2 A B. destruct A, B; subst; try congruence; try (split; reflexivity); exfalso; lia.
Qed.

(** ---- GUID text ---- *)
Lemma hex_digit_value : forall n, n < 16 -> hex_value (hex_digit n) = Some n /\ hex_value (lower (hex_digit n)) = Some n /\ hex_value (upper (hex_digit n)) = Some n
  /\ ~ 65 <= lower (hex_digit n) <= 90 /\ ~ 97 <= upper (hex_digit n) <= 122 /\ existsb (N.eqb (hex_digit n)) (str "{}") = false.
Proof.
  intros n Hn. assert (B : forallb (fun m => match hex_value (hex_digit m), hex_value (lower (hex_digit m)), hex_value (upper (hex_digit m)) with
     | Some a, Some b, Some c => (a =? m) && (b =? m) && (c =? m) && negb ((65 <=? lower (hex_digit m)) && (lower (hex_digit m) <=? 90))
         && negb ((97 <=? upper (hex_digit m)) && (upper (hex_digit m) <=? 122)) && negb (existsb (N.eqb (hex_digit m)) (str "{}"))
     | _, _, _ => false end) [0;1;2;3;4;5;6;7;8;9;10;11;12;13;14;15] = true) by (vm_compute; reflexivity).
  rewrite forallb_forall in B. assert (I : In n [0;1;2;3;4;5;6;7;8;9;10;11;12;13;14;15]).
  { cbn. lia. }
  specialize (B n I). cbv beta in B. destruct (hex_value (hex_digit n)) as [a|], (hex_value (lower (hex_digit n))) as [b|], (hex_value (upper (hex_digit n))) as [c|]; try discriminate.
  repeat (apply andb_prop in B as [B ?]).
  repeat match goal with H : (_ =? _) = true |- _ => apply N.eqb_eq in H; subst end.
  split; [reflexivity|]. split; [reflexivity|]. split; [reflexivity|]. split; [|split].
  - intros [P Q]. apply N.leb_le in P, Q. rewrite P, Q in *. discriminate.
  - intros [P Q]. apply N.leb_le in P, Q. rewrite P, Q in *. discriminate.
  - now apply negb_true_iff.
Qed.
Lemma be_val_snoc : forall l b, be_val (l ++ [b]) = 256 * be_val l + b.
Proof. intros l b. unfold be_val. rewrite fold_left_app. cbn [fold_left]. lia. Qed.
Lemma reads_hex : forall f l, (forall n, n < 16 -> hex_value (f (hex_digit n)) = Some n) -> wf l -> reads16 (map f (flat_map hex_byte l)) (be_val l).
Proof.
  intros f l Hf. induction l as [|b l IH] using rev_ind; intros W; [constructor|].
  apply Forall_app in W as [W1 W2]. inversion W2; subst. unfold is_byte in *. rewrite flat_map_app, map_app. cbn [flat_map app hex_byte map]. rewrite be_val_snoc.
  change [f (hex_digit (b / 16)); f (hex_digit (b mod 16))] with ([f (hex_digit (b / 16))] ++ [f (hex_digit (b mod 16))]). rewrite app_assoc.
  pose proof (N.div_mod' b 16) as D. pose proof (N.mod_lt b 16 ltac:(lia)) as M.
  replace (256 * be_val l + b) with (16 * (16 * be_val l + b / 16) + b mod 16) by lia.
  assert (b / 16 < 16) by (apply N.div_lt_upper_bound; lia).
  constructor; [constructor; [now apply IH|]|]; apply Hf; assumption.
Qed.
Lemma hex_all : forall (P : N -> Prop) f l, (forall n, n < 16 -> P (f (hex_digit n))) -> wf l -> Forall P (map f (flat_map hex_byte l)).
Proof.
  intros P f l H W. induction W as [|b l Hb W IH]; [constructor|]. cbn [flat_map app hex_byte map].
  unfold is_byte in Hb. constructor; [apply H; apply N.div_lt_upper_bound; lia|]. constructor; [apply H; apply N.mod_lt; lia|exact IH].
Qed.
Lemma hex_at_map : forall g idx, hex_at g idx = flat_map hex_byte (map (fun i => nth i g 0) idx).
Proof. intros g idx. unfold hex_at. induction idx; [reflexivity|]. cbn [flat_map map]. now rewrite IHidx. Qed.
Lemma drop_clean : forall set s, Forall (fun c => existsb (N.eqb c) set = false) s -> forall t, drop_chars set (s ++ t) = match s with [] => drop_chars set t | _ => s ++ t end.
Proof. intros set [|b s] H t; [reflexivity|]. inversion H; subst. cbn [app drop_chars]. now rewrite H2. Qed.
Lemma trim_braces : forall u, u <> [] -> Forall (fun c => existsb (N.eqb c) (str "{}") = false) u -> trim_chars (str "{}") ([123] ++ u ++ [125]) = u.
Proof.
  intros u Nu H. unfold trim_chars. change (drop_chars (str "{}") ([123] ++ u ++ [125])) with (drop_chars (str "{}") (u ++ [125])).
  rewrite (drop_clean _ u H). destruct u as [|b u]; [congruence|]. rewrite rev_app_distr. change (rev [125]) with [125].
  change (drop_chars (str "{}") ([125] ++ rev (b :: u))) with (drop_chars (str "{}") (rev (b :: u))).
  assert (R : Forall (fun c => existsb (N.eqb c) (str "{}") = false) (rev (b :: u))) by (now apply Forall_rev).
  rewrite <- (app_nil_r (rev (b :: u))). rewrite (drop_clean _ _ R). cbn [drop_chars].
  destruct (rev (b :: u)) eqn:E; [|rewrite app_nil_r, <- E; apply rev_involutive].
  apply (f_equal (@rev N)) in E. rewrite rev_involutive in E. now rewrite E.
Qed.
(** the text between the braces, after a letter-case change [f] *)
Definition guid_core (f : N -> N) (g : bytes) : bytes :=
  map f (hex_at g [3;2;1;0]%nat) ++ [45] ++ map f (hex_at g [5;4]%nat) ++ [45] ++ map f (hex_at g [7;6]%nat) ++ [45]
  ++ map f (hex_at g [8;9]%nat) ++ [45] ++ map f (hex_at g [10;11;12;13;14;15]%nat).
Lemma guid_core_text : forall f g, (forall n, n < 16 -> hex_value (f (hex_digit n)) = Some n) -> wf g -> List.length g = 16%nat ->
  guid_text g (guid_core f g).
Proof.
  intros f g Hf W L.
  assert (WI : forall idx, wf (map (fun i => nth i g 0) idx)).
  { intros idx. apply Forall_map, Forall_forall. intros i _. destruct (nth_in_or_default i g 0) as [I|I]; [|rewrite I; reflexivity].
    revert I. generalize (nth i g 0). apply Forall_forall. exact W. }
  assert (LN : forall idx, List.length (map f (hex_at g idx)) = (2 * List.length idx)%nat).
  { intros idx. rewrite map_length. induction idx as [|i idx IH]; [reflexivity|]. unfold hex_at in *. cbn [flat_map]. rewrite app_length, IH. cbn [hex_byte List.length]. lia. }
  exists (map f (hex_at g [3;2;1;0]%nat)), (map f (hex_at g [5;4]%nat)), (map f (hex_at g [7;6]%nat)), (map f (hex_at g [8;9]%nat)),
    (map f (hex_at g [10;11;12;13;14;15]%nat)). split; [reflexivity|]. rewrite !LN. cbn [List.length Nat.mul Nat.add]. repeat (split; [reflexivity|]).
  do 17 (destruct g as [|? g]; try discriminate L). clear L.
  repeat split.
  all: rewrite hex_at_map.
  all: match goal with |- reads16 _ ?v => match goal with |- context [flat_map hex_byte ?l] => replace v with (be_val l) by (cbn; lia) end end.
  all: apply reads_hex; [exact Hf|]; apply WI.
Qed.
Lemma guid_upper : forall g, map upper (guid_string g) = [123] ++ guid_core upper g ++ [125].
Proof. intros g. unfold guid_string, guid_core. rewrite map_cons, !map_app. cbn [map app]. rewrite <- !app_assoc. cbn [app]. reflexivity. Qed.
Lemma guid_raw : forall g, guid_string g = [123] ++ guid_core (fun x => x) g ++ [125].
Proof. intros g. unfold guid_string, guid_core. rewrite !map_id. cbn [app]. rewrite <- !app_assoc. reflexivity. Qed.
Lemma core_all : forall (P : N -> Prop) f g, P 45 -> (forall n, n < 16 -> P (f (hex_digit n))) -> wf g -> Forall P (guid_core f g).
Proof.
  intros P f g H45 Hf W. unfold guid_core.
  assert (WI : forall idx, wf (map (fun i => nth i g 0) idx)).
  { intros idx. apply Forall_map, Forall_forall. intros i _. destruct (nth_in_or_default i g 0) as [I|I]; [|rewrite I; reflexivity].
    revert I. generalize (nth i g 0). apply Forall_forall. exact W. }
  repeat (apply Forall_app; split); try (constructor; [exact H45|constructor]); rewrite hex_at_map; apply hex_all; auto.
Qed.
Lemma core_map : forall f g, f 45 = 45 -> map f (guid_core (fun x => x) g) = guid_core f g.
Proof. intros f g H. unfold guid_core. rewrite !map_app, !map_map. cbn [map]. now rewrite H. Qed.
Lemma guid_trimmed : forall g, wf g -> map lower (trim_chars (str "{}") (guid_string g)) = guid_core lower g.
Proof.
  intros g W. rewrite guid_raw, trim_braces; [now apply core_map| |].
  - unfold guid_core. intros E. apply (f_equal (@List.length N)) in E. rewrite !app_length in E. cbn [List.length] in E. lia.
  - apply core_all; [reflexivity| |exact W]. intros n Hn. now apply hex_digit_value.
Qed.
Lemma braced_upper : forall g, wf g -> List.length g = 16%nat -> braced_guid g (map upper (guid_string g)).
Proof.
  intros g W L. exists (guid_core upper g). split; [apply guid_upper|]. split.
  - apply guid_core_text; auto. intros n Hn. now apply hex_digit_value.
  - apply core_all; auto; [lia|]. intros n Hn. now apply hex_digit_value.
Qed.
Lemma lower_guid : forall g, wf g -> List.length g = 16%nat ->
  guid_text g (map lower (trim_chars (str "{}") (guid_string g))) /\ lower_case (map lower (trim_chars (str "{}") (guid_string g))).
Proof.
  intros g W L. rewrite guid_trimmed by exact W. split.
  - apply guid_core_text; auto. intros n Hn. now apply hex_digit_value.
  - apply core_all; auto; [lia|]. intros n Hn. now apply hex_digit_value.
Qed.

(** ---- layout entries ---- *)
Lemma layout_entries_spec : forall (gpt : bool) disk n data,
  let k := Nat.min n (List.length data / 144) in
  let s : N := if gpt then 1 else 0 in
  ((forall i, (i < k)%nat -> entry_style (slice (144 * i) 144 data) = s) ->
     exists ps, layout_entries gpt disk n data = Ok ps /\ List.length ps = k /\
       forall i p, nth_error ps i = Some p -> layout_entry gpt disk (slice (144 * i) 144 data) = Ok p) /\
  ((exists i, (i < k)%nat /\ entry_style (slice (144 * i) 144 data) <> s) -> layout_entries gpt disk n data = Panic).
Proof.
  intros gpt disk n. induction n as [|n IH]; intros data k s.
  - subst k. cbn [Nat.min]. split; [|intros (i & Hi & _); lia]. intros _. exists []. split; [reflexivity|]. split; [reflexivity|]. intros [|i] p H; discriminate.
  - cbn [layout_entries]. change entry_size with 144%nat. destruct (Nat.ltb_spec (List.length data) 144) as [L|L].
    + assert (K : k = 0%nat) by (subst k; rewrite (Nat.div_small _ _ L); lia). rewrite K. split; [|intros (i & Hi & _); lia].
      intros _. exists []. split; [reflexivity|]. split; [reflexivity|]. intros [|i] p H; discriminate.
    + assert (K : k = S (Nat.min n (List.length (skipn 144 data) / 144))).
      { subst k. rewrite skipn_length. replace (List.length data) with (List.length data - 144 + 1 * 144)%nat at 1 by lia.
        rewrite Nat.div_add by lia. rewrite Nat.add_1_r. reflexivity. }
      assert (E0 : firstn 144 data = slice (144 * 0) 144 data) by reflexivity.
      assert (ES : forall i, slice (144 * S i) 144 data = slice (144 * i) 144 (skipn 144 data)).
      { intros i. unfold slice. rewrite skipn_skipn'. f_equal. f_equal. lia. }
      specialize (IH (skipn 144 data)). cbv zeta in IH. fold s in IH. destruct IH as [I1 I2]. rewrite K, E0. unfold layout_entry at 1 3.
      fold s. split.
      * intros H. rewrite (H 0%nat) by lia. rewrite N.eqb_refl.
        destruct I1 as (ps & E & Lp & Hp). { intros i Hi. rewrite <- ES. apply H. lia. }
        rewrite E. eexists. split; [reflexivity|]. split; [cbn [List.length]; lia|]. intros [|i] p Hn.
        -- injection Hn as <-. unfold layout_entry. fold s. rewrite (H 0%nat) by lia. now rewrite N.eqb_refl.
        -- rewrite ES. now apply Hp.
      * intros (i & Hi & Hs). destruct (N.eqb_spec (entry_style (slice (144 * 0) 144 data)) s) as [E|E]; [|reflexivity].
        destruct i as [|i]; [congruence|]. rewrite I2; [reflexivity|]. exists i. split; [lia|]. now rewrite <- ES.
Qed.
Lemma slice16 : forall off (e : bytes), List.length e = 144%nat -> (off + 16 <= 144)%nat -> List.length (slice off 16 e) = 16%nat.
Proof. intros off e L H. rewrite slice_length; lia. Qed.
Lemma entry_describes : forall gpt disk e p, wf e -> List.length e = 144%nat -> layout_entry gpt disk e = Ok p -> describes gpt disk e p.
Proof.
  intros gpt disk e p W L H. unfold layout_entry in H. destruct (entry_style e =? _); [|discriminate]. injection H as <-. unfold describes. cbn.
  repeat (split; [reflexivity|]). destruct gpt.
  - split; [reflexivity|]. eexists _, _. split; [reflexivity|]. split; apply braced_upper; try (now apply wf_slice); apply slice16; auto; lia.
  - split; [reflexivity|]. eexists. split; [reflexivity|]. unfold reg. destruct (N.eqb_spec (nth 33 e 0) 0); cbn [negb]; split; congruence.
Qed.
Lemma layout_info_spec : forall disk data, wf data ->
  (unreadable_layout data /\ layout_info disk data = Panic) \/
  (~ unreadable_layout data /\ exists style sig id ps, layout_info disk data = Ok (style, sig, id, ps) /\
     forall dev size, table_of disk data {| wb_devnum := dev; wb_size := size; wb_style := style; wb_mbr := sig; wb_gpt := id; wb_parts := ps |}).
Proof.
  intros disk data W. unfold layout_info. destruct (Nat.ltb_spec (List.length data) 48) as [L|L]; [left; split; [now left|reflexivity]|].
  assert (SL : forall i, (i < layout_count data)%nat -> List.length (layout_entry_at data i) = 144%nat).
  { intros i Hi. unfold layout_entry_at. apply slice_length. unfold layout_count in Hi.
    pose proof (Nat.mul_div_le (List.length data - 48) 144 ltac:(lia)). nia. }
  assert (SE : forall i, slice (144 * i) 144 (skipn 48 data) = layout_entry_at data i).
  { intros i. unfold layout_entry_at, slice. now rewrite skipn_skipn'. }
  set (n := N.to_nat (le_val (slice 4 4 data))).
  assert (KC : Nat.min n (List.length (skipn 48 data) / 144) = layout_count data) by (rewrite skipn_length; reflexivity).
  assert (PO : forall gpt ps, List.length ps = layout_count data ->
      (forall i p, nth_error ps i = Some p -> layout_entry gpt disk (slice (144 * i) 144 (skipn 48 data)) = Ok p) -> partitions_of gpt disk data ps).
  { intros gpt ps Hl Hp. split; [exact Hl|]. intros i p Hi. apply entry_describes; [now apply wf_slice| |rewrite <- SE; now apply Hp].
    apply SL. rewrite <- Hl. apply nth_error_Some. congruence. }
  assert (DEC : forall s, (exists i, (i < layout_count data)%nat /\ field 0 4 (layout_entry_at data i) <> s) \/
                          (forall i, (i < layout_count data)%nat -> field 0 4 (layout_entry_at data i) = s)).
  { intros s. generalize (layout_count data). clear. induction n as [|m IH]; [right; lia|]. destruct IH as [(i & Hi & Hs)|IH]; [left; exists i; split; [lia|auto]|].
    destruct (N.eq_dec (field 0 4 (layout_entry_at data m)) s) as [E|E]; [|left; exists m; split; [lia|auto]].
    right. intros i Hi. destruct (Nat.eq_dec i m) as [->|]; [auto|apply IH; lia]. }
  destruct (N.eqb_spec (le_val (slice 0 4 data)) 1) as [E1|E1].
  - destruct (layout_entries_spec true disk n (skipn 48 data)) as [P1 P2]. cbv zeta in P1, P2. rewrite KC in P1, P2.
    destruct (DEC 1) as [(i & Hi & Hs)|A].
    + left. split; [right; split; [now right|]; exists i; split; auto; unfold layout_style; unfold field at 2; now rewrite E1|].
      rewrite P2; [reflexivity|]. exists i. rewrite SE. auto.
    + right. split. { intros [B|[_ (i & Hi & Hs)]]; [lia|]. apply Hs. rewrite A by exact Hi. symmetry. exact E1. }
      destruct P1 as (ps & -> & Hl & Hp). { intros i Hi. rewrite SE. now apply A. }
      eexists _, _, _, _. split; [reflexivity|]. intros dev size. split; [|split].
      * intros _. cbn. assert (Lg : List.length (slice 8 16 data) = 16%nat) by (apply slice_length; lia).
        destruct (lower_guid (slice 8 16 data) (wf_slice 8 16 data W) Lg) as [G1 G2].
        split; [reflexivity|]. split; [reflexivity|]. split; [exact G1|]. split; [exact G2|]. now apply PO.
      * intros B. unfold layout_style, field in B. rewrite E1 in B. discriminate.
      * intros _ B. exfalso. apply B. exact E1.
  - destruct (N.eqb_spec (le_val (slice 0 4 data)) 0) as [E0|E0].
    + destruct (layout_entries_spec false disk n (skipn 48 data)) as [P1 P2]. cbv zeta in P1, P2. rewrite KC in P1, P2.
      destruct (DEC 0) as [(i & Hi & Hs)|A].
      * left. split; [right; split; [now left|]; exists i; split; auto; unfold layout_style; unfold field at 2; now rewrite E0|].
        rewrite P2; [reflexivity|]. exists i. rewrite SE. auto.
      * right. split. { intros [B|[_ (i & Hi & Hs)]]; [lia|]. apply Hs. rewrite A by exact Hi. symmetry. exact E0. }
        destruct P1 as (ps & -> & Hl & Hp). { intros i Hi. rewrite SE. now apply A. }
        eexists _, _, _, _. split; [reflexivity|]. intros dev size. split; [|split].
        -- intros B. contradiction.
        -- intros _. cbn. repeat (split; [reflexivity|]). now apply PO.
        -- intros B. exfalso. apply B. exact E0.
    + right. split. { intros [B|[[B|B] _]]; [lia| |]; contradiction. }
      eexists _, _, _, _. split; [reflexivity|]. intros dev size. split; [|split]; try (intros; contradiction). cbn. auto.
Qed.

(** ---- texts ---- *)
Lemma until_nul_spec : forall b, match until_nul b with Some s => (exists r, b = s ++ 0 :: r) /\ ~ In 0 s | None => ~ In 0 b end.
Proof.
  induction b as [|x b IH]; [now intros []|]. cbn [until_nul]. destruct (N.eqb_spec x 0) as [->|Hx]; [split; [exists b; reflexivity|now intros []]|].
  destruct (until_nul b) as [s|].
  - destruct IH as [(r & ->) N]. split; [exists r; reflexivity|]. intros [E|E]; [congruence|auto].
  - intros [E|E]; [congruence|auto].
Qed.
Lemma read_ascii_spec : forall data off, off <= blen data -> exists t, read_ascii data off = Ok t /\ text_at data off t.
Proof.
  intros data off H. unfold read_ascii. destruct (N.eqb_spec off 0) as [->|N0]; [exists []; split; [reflexivity|now left]|].
  destruct (N.ltb_spec (blen data) off); [lia|]. eexists. split; [reflexivity|]. right.
  pose proof (until_nul_spec (skipn (N.to_nat off) data)) as U. pose proof (firstn_skipn (N.to_nat off) data) as FS.
  assert (Lf : N.of_nat (List.length (firstn (N.to_nat off) data)) = off). { rewrite firstn_length. unfold blen in *. lia. }
  destruct (until_nul _) as [s|].
  - destruct U as [(r & E) N]. left. split; [exact N0|]. exists (firstn (N.to_nat off) data), r. rewrite <- E. auto.
  - right. split; [exact N0|]. split; [reflexivity|]. exists (firstn (N.to_nat off) data), (skipn (N.to_nat off) data). auto.
Qed.
Lemma read_ascii_panic : forall data off, read_ascii data off = Panic <-> blen data < off.
Proof.
  intros data off. unfold read_ascii. destruct (N.eqb_spec off 0) as [->|N0]; [split; [discriminate|lia]|].
  destruct (N.ltb_spec (blen data) off); split; auto; try discriminate. lia.
Qed.
Lemma drop_chars_spec : forall set s, exists a, s = a ++ drop_chars set s /\ Forall (fun c => existsb (N.eqb c) set = true) a
  /\ (forall x r, drop_chars set s = x :: r -> existsb (N.eqb x) set = false).
Proof.
  intros set s. induction s as [|b s IH]; [exists []; repeat split; [constructor|discriminate]|]. cbn [drop_chars].
  destruct (existsb (N.eqb b) set) eqn:E.
  - destruct IH as (a & A & B & C). exists (b :: a). split; [cbn [app]; now rewrite <- A|]. split; [now constructor|exact C].
  - exists []. split; [reflexivity|]. split; [constructor|]. intros x r H. injection H as <- <-. exact E.
Qed.
Lemma trim_blanks_spec : forall s, without_spaces s (trim_blanks s).
Proof.
  intros s. unfold trim_blanks, trim_chars. destruct (drop_chars_spec [32] s) as (a & A & B & C). set (m := drop_chars [32] s) in *.
  destruct (drop_chars_spec [32] (rev m)) as (z & D & E & F). set (k := drop_chars [32] (rev m)) in *.
  assert (M : m = rev k ++ rev z). { rewrite <- rev_app_distr, <- D. now rewrite rev_involutive. }
  assert (SP : forall l, Forall (fun c => existsb (N.eqb c) [32] = true) l -> Forall (eq 32) l).
  { intros l. apply Forall_impl. intros c Hc. cbn in Hc. destruct (N.eqb_spec c 32); [congruence|discriminate]. }
  exists a, (rev z). split; [rewrite <- M; exact A|]. split; [now apply SP|]. split; [apply Forall_rev; now apply SP|]. split.
  - intros x r H. rewrite H in M. specialize (C x (r ++ rev z) M). cbn in C. destruct (N.eqb_spec x 32); [discriminate|assumption].
  - intros x r H. apply (f_equal (@rev N)) in H. rewrite rev_involutive, rev_app_distr in H. cbn in H. specialize (F x _ H).
    cbn in F. destruct (N.eqb_spec x 32); [discriminate|assumption].
Qed.
