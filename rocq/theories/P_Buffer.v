(** Lemmas about internal/aligned_buffer.go, wrapped_buffer.go, utils.go. *)
From Verif Require Import Base Spec_Buffer M_Buffer Spec_TcgClient P_TcgToken.

(** ---- alignment (C44) ---- *)
Lemma aligned_pointer_ok base align size : 0 < align ->
  exists p, aligned_pointer base align = Ok p /\ p mod align = 0 /\ base <= p /\ p + size <= base + (align + size).
Proof.
  intros Ha. unfold aligned_pointer. destruct (N.eqb_spec align 0); [lia|].
  pose proof (N.mod_lt base align n) as Hm.
  pose proof (N.div_mod base align n) as Hd.
  destruct (N.ltb_spec 0 (base mod align)) as [H|H].
  - exists (base + (align - base mod align)). repeat split; try lia.
    replace (base + (align - base mod align)) with ((base / align + 1) * align) by nia.
    apply N.mod_mul. assumption.
  - exists base. repeat split; lia.
Qed.

Definition binv (size : nat) (b : abuf) : Prop :=
  List.length (a_data b) = size /\ a_cap b = size /\ (a_limit b <= size)%nat.

Lemma binv_new size : binv size (new_aligned size).
Proof. unfold binv, new_aligned; cbn. unfold zeros. rewrite repeat_length. lia. Qed.

Lemma bstep_inv size b o : binv size b -> binv size (fst (bstep b o)).
Proof.
  intros (Hl & Hc & Hm). unfold binv.
  destruct o as [p|x|n| | | |n|n|n]; cbn [bstep fst].
  - unfold buf_write. destruct (Nat.ltb_spec (a_limit b) (a_wpos b)) as [H|H]; cbn [fst]; [auto|].
    destruct (Nat.eqb_spec (Nat.min (a_limit b - a_wpos b) (List.length p)) 0); cbn [fst]; [auto|].
    cbn. rewrite put_length; [auto|]. rewrite firstn_length. lia.
  - unfold write_byte. destruct (Nat.leb_spec (a_limit b) (a_wpos b)); cbn [fst]; [auto|].
    cbn. rewrite put_length; [auto|]. cbn. lia.
  - unfold buf_read. destruct (Nat.ltb_spec (a_limit b) (a_rpos b)); cbn [fst]; [auto|].
    destruct (Nat.eqb_spec (Nat.min (a_limit b - a_rpos b) n) 0); cbn; auto.
  - cbn. unfold zeros. rewrite app_length, repeat_length, skipn_length. lia.
  - auto.
  - auto.
  - auto.
  - auto.
  - unfold set_limit. destruct (Nat.ltb_spec (a_cap b) n); cbn; [auto|]. repeat split; auto. lia.
Qed.

Lemma brun_inv size b ops : binv size b -> binv size (brun b ops).
Proof.
  unfold brun. revert b. induction ops as [|o ops IH]; intros b H; cbn [fold_left]; [exact H|].
  apply IH. now apply bstep_inv.
Qed.

Lemma put_same_outside off d l : (off + List.length d <= List.length l)%nat ->
  same_outside off (off + List.length d) l (put off d l).
Proof.
  intros H. split; [now rewrite put_length|]. intros i Hi. rewrite nth_error_put by assumption.
  destruct (Nat.ltb_spec i off); cbn [orb]; [reflexivity|].
  destruct (Nat.leb_spec (off + List.length d) i); [reflexivity|lia].
Qed.

Lemma same_outside_refl lo hi l : same_outside lo hi l l.
Proof. split; auto. Qed.

(** Per-call frame: what may change. *)
Lemma bstep_frame size b o : binv size b ->
  match o with
  | OReset => a_data (fst (bstep b o)) = zeros (a_limit b) ++ skipn (a_limit b) (a_data b)
  | OWrite _ | OWriteByte _ =>
      same_outside (a_wpos b) (a_wpos (fst (bstep b o))) (a_data b) (a_data (fst (bstep b o)))
      /\ (a_wpos b <= a_wpos (fst (bstep b o)))%nat
      /\ (a_wpos (fst (bstep b o)) <= Nat.max (a_wpos b) (a_limit b))%nat
  | _ => a_data (fst (bstep b o)) = a_data b
  end.
Proof.
  intros (Hl & Hc & Hm).
  destruct o as [p|x|n| | | |n|n|n]; cbn [bstep fst]; try reflexivity.
  - unfold buf_write. destruct (Nat.ltb_spec (a_limit b) (a_wpos b)) as [H|H]; cbn [fst].
    { repeat split; auto; lia. }
    destruct (Nat.eqb_spec (Nat.min (a_limit b - a_wpos b) (List.length p)) 0); cbn [fst].
    { repeat split; auto; lia. }
    cbn. set (k := Nat.min (a_limit b - a_wpos b) (List.length p)) in *.
    assert (Lk : List.length (firstn k p) = k) by (rewrite firstn_length; lia).
    pose proof (put_same_outside (a_wpos b) (firstn k p) (a_data b)) as S. rewrite Lk in S.
    split; [apply S; lia|]. lia.
  - unfold write_byte. destruct (Nat.leb_spec (a_limit b) (a_wpos b)); cbn [fst].
    { repeat split; auto; lia. }
    cbn. pose proof (put_same_outside (a_wpos b) [x] (a_data b)) as S. cbn [List.length] in S.
    split; [apply S; lia|]. lia.
  - unfold buf_read. destruct (Nat.ltb_spec (a_limit b) (a_rpos b)); cbn [fst]; [auto|].
    destruct (Nat.eqb_spec (Nat.min (a_limit b - a_rpos b) n) 0); cbn; auto.
  - unfold set_limit. destruct (Nat.ltb_spec (a_cap b) n); cbn; auto.
Qed.

(** ---- write at the boundary (C46) ---- *)
Lemma buf_write_spec b p :
  let room := (a_limit b - a_wpos b)%nat in
  let k := Nat.min room (List.length p) in
  ((a_limit b < a_wpos b)%nat -> buf_write b p = (b, Panic)) /\
  ((a_wpos b <= a_limit b)%nat -> k = 0%nat -> buf_write b p = (b, Err EEOF)) /\
  ((a_wpos b <= a_limit b)%nat -> k <> 0%nat ->
     exists b', buf_write b p = (b', Ok k)
       /\ a_data b' = put (a_wpos b) (firstn k p) (a_data b)
       /\ a_wpos b' = (a_wpos b + k)%nat /\ a_rpos b' = a_rpos b
       /\ a_limit b' = a_limit b /\ a_cap b' = a_cap b).
Proof.
  intros room k. unfold buf_write. fold room. fold k. repeat split; intros.
  - destruct (Nat.ltb_spec (a_limit b) (a_wpos b)); [reflexivity|lia].
  - destruct (Nat.ltb_spec (a_limit b) (a_wpos b)); [lia|]. destruct (Nat.eqb_spec k 0); [reflexivity|lia].
  - destruct (Nat.ltb_spec (a_limit b) (a_wpos b)); [lia|]. destruct (Nat.eqb_spec k 0); [lia|].
    eexists. split; [reflexivity|]. cbn. repeat split.
Qed.

(** ---- FIFO (C45) ---- *)
(** Writes starting from an all-fitting position. *)
Lemma writes_concat : forall ps b pre,
  a_data b = pre ++ zeros (a_limit b - List.length pre) ->
  a_wpos b = List.length pre ->
  (List.length pre + List.length (concat ps) <= a_limit b)%nat ->
  let b' := brun b (map OWrite ps) in
  a_data b' = (pre ++ concat ps) ++ zeros (a_limit b - List.length (pre ++ concat ps))
  /\ a_wpos b' = List.length (pre ++ concat ps)
  /\ a_rpos b' = a_rpos b /\ a_limit b' = a_limit b.
Proof.
  induction ps as [|p ps IH]; intros b pre Hd Hw Hf; cbn [map concat brun fold_left].
  - rewrite app_nil_r. repeat split; assumption.
  - cbn [concat] in Hf. rewrite app_length in Hf.
    destruct (buf_write_spec b p) as (_ & W0 & W1).
    set (k := Nat.min (a_limit b - a_wpos b) (List.length p)) in *.
    assert (Hk : k = List.length p) by (unfold k; lia).
    change (fold_left (fun s o => fst (bstep s o)) (map OWrite ps) (fst (bstep b (OWrite p))))
      with (brun (fst (bstep b (OWrite p))) (map OWrite ps)).
    cbn [bstep].
    destruct (Nat.eq_dec k 0) as [E|E].
    + rewrite (W0 ltac:(lia) E). cbn [fst].
      assert (p = []) by (destruct p; [reflexivity | cbn in Hk; lia]). subst p. cbn [app] in *.
      apply IH; auto.
    + destruct (W1 ltac:(lia) E) as (b1 & Eb & D1 & P1 & R1 & L1 & C1). rewrite Eb. cbn [fst].
      specialize (IH b1 (pre ++ p)). rewrite L1 in IH.
      cbv zeta in IH. rewrite <- R1. rewrite (app_assoc pre p (concat ps)). apply IH.
      * rewrite D1, Hd, Hw, Hk, firstn_all. unfold zeros.
        replace (a_limit b - List.length pre)%nat
          with (List.length p + (a_limit b - List.length (pre ++ p)))%nat by (rewrite app_length; lia).
        rewrite repeat_app. rewrite put_app_mid by (now rewrite repeat_length).
        now rewrite app_assoc.
      * rewrite P1, Hw, Hk, app_length. reflexivity.
      * rewrite app_length. lia.
Qed.

Lemma reads_chunks : forall ns b, (a_rpos b <= a_limit b)%nat -> List.length (a_data b) = a_limit b ->
  reads b ns = map chunk_res (chunks (skipn (a_rpos b) (a_data b)) ns).
Proof.
  induction ns as [|n ns IH]; intros b Hr Hl; [reflexivity|].
  change (reads b (n :: ns)) with (snd (buf_read b n) :: reads (fst (buf_read b n)) ns).
  cbn [chunks]. unfold buf_read.
  destruct (Nat.ltb_spec (a_limit b) (a_rpos b)); [lia|].
  set (rest := skipn (a_rpos b) (a_data b)).
  assert (Lr : List.length rest = (a_limit b - a_rpos b)%nat) by (unfold rest; rewrite skipn_length; lia).
  destruct (Nat.eqb_spec (Nat.min (a_limit b - a_rpos b) n) 0) as [E|E]; cbn [fst snd].
  - assert (F : firstn n rest = []).
    { apply length_zero_iff_nil. rewrite firstn_length. lia. }
    rewrite F. cbn [map chunk_res]. f_equal. now apply IH.
  - unfold slice. fold rest.
    assert (F : firstn (Nat.min (a_limit b - a_rpos b) n) rest = firstn n rest).
    { rewrite <- Lr. rewrite Nat.min_comm. rewrite <- firstn_firstn, firstn_all. reflexivity. }
    rewrite F.
    destruct (firstn n rest) as [|x l] eqn:Ef.
    { apply (f_equal (@List.length N)) in Ef. rewrite firstn_length in Ef. cbn in Ef. lia. }
    cbn [map chunk_res]. f_equal. rewrite IH; [| cbn; lia | exact Hl].
    cbn [set_rpos a_rpos a_data]. f_equal. f_equal.
    unfold rest. rewrite skipn_skipn'.
    destruct (Nat.le_ge_cases n (a_limit b - a_rpos b)) as [G|G].
    + rewrite Nat.min_r by lia. reflexivity.
    + rewrite Nat.min_l by lia. rewrite !skipn_all2 by lia. reflexivity.
Qed.

(** ---- byte order helpers (C47) ---- *)
Lemma nat_ind2 (P : nat -> Prop) : P 0%nat -> P 1%nat -> (forall n, P n -> P (S (S n))) -> forall n, P n.
Proof.
  intros H0 H1 HS n. assert (P n /\ P (S n)) as [H _]; [|exact H].
  induction n as [|n [I1 I2]]; split; auto.
Qed.

Lemma list_ind2 {A} (P : list A -> Prop) : P [] -> (forall a, P [a]) -> (forall a b l, P l -> P (a :: b :: l)) -> forall l, P l.
Proof.
  intros H0 H1 HS l. assert (P l /\ forall a, P (a :: l)) as [H _]; [|exact H].
  induction l as [|x l [I1 I2]]; split; auto.
Qed.

Lemma swap_odd l : Nat.even (List.length l) = false -> ata_swap_word_endian l = Panic.
Proof.
  induction l as [|a|a b l IH] using list_ind2; intros H; cbn in *; try discriminate; try reflexivity.
  now rewrite IH.
Qed.

Lemma swap_even l : Nat.even (List.length l) = true ->
  exists o, ata_swap_word_endian l = Ok o /\ List.length o = List.length l
    /\ (forall i, (i < List.length l)%nat -> nth_error o i = nth_error l (partner i))
    /\ ata_swap_word_endian o = Ok l /\ (wf l -> wf o).
Proof.
  induction l as [|a|a b l IH] using list_ind2; intros H; cbn in H; try discriminate.
  - exists []. cbn. repeat split; auto. intros i Hi; lia.
  - destruct (IH H) as (o & E & L & N & I & W). exists (b :: a :: o). cbn. rewrite E, I. repeat split; cbn; auto.
    + intros [|[|i]] Hi; try reflexivity. cbn [nth_error]. rewrite N by lia.
      unfold partner. cbn [Nat.even]. destruct (Nat.even i) eqn:Ev.
      * replace (S (S i) + 1)%nat with (S (S (i + 1))) by lia. reflexivity.
      * destruct i as [|i]; [discriminate|]. replace (S (S (S i)) - 1)%nat with (S (S (S i - 1))) by lia. reflexivity.
    + intros Hw. apply wf_cons in Hw as [Ha Hw]. apply wf_cons in Hw as [Hb Hw].
      apply wf_cons; split; auto. apply wf_cons; split; auto.
Qed.

Lemma land_ff x : N.land x 0xff = x mod 256.
Proof. change 0xff with (N.ones 8). rewrite N.land_ones. reflexivity. Qed.

Lemma land_byte_shift x k : N.shiftr (N.land x (N.shiftl 0xff k)) k = N.shiftr x k mod 256.
Proof. rewrite N.shiftr_land. rewrite N.shiftr_shiftl_l, N.sub_diag by lia. rewrite N.shiftl_0_r. apply land_ff. Qed.

Lemma swap16_spec x : x < 2 ^ 16 -> ata_swap16 x = be_val (le_bytes 2 x).
Proof.
  intros H. unfold ata_swap16. change 0x00ff with 0xff. rewrite land_ff.
  change 0xff00 with (N.shiftl 0xff 8). rewrite land_byte_shift.
  rewrite N.shiftl_mul_pow2, N.shiftr_div_pow2.
  change (2 ^ 16) with 65536 in *. change (2 ^ 8) with 256.
  rewrite (N.mod_small (x mod 256 * 256)) by lia.
  rewrite N.lor_comm. change 256 with (2 ^ 8) at 4. rewrite lor_add_pow2 by (change (2 ^ 8) with 256; lia).
  unfold be_val. cbn [le_bytes fold_left]. change (2 ^ 8) with 256. lia.
Qed.

Lemma swap32_spec x : x < 2 ^ 32 -> ata_swap32 x = be_val (le_bytes 4 x).
Proof.
  intros H. unfold ata_swap32. change 0x000000ff with 0xff. rewrite land_ff.
  change 0xff000000 with (N.shiftl 0xff 24). rewrite land_byte_shift.
  change 0x00ff0000 with (N.shiftl 0xff 16).
  change 0x0000ff00 with (N.shiftl 0xff 8).
  assert (E1 : N.shiftl (N.land x (N.shiftl 0xff 8)) 8 = (x / 256 mod 256) * 2 ^ 16).
  { rewrite N.shiftl_mul_pow2. 
    assert (G : N.land x (N.shiftl 0xff 8) = (N.shiftr (N.land x (N.shiftl 0xff 8)) 8) * 2 ^ 8).
    { rewrite <- N.shiftl_mul_pow2. apply N.bits_inj. intros n.
      destruct (N.lt_ge_cases n 8) as [L|L].
      - rewrite N.land_spec, !N.shiftl_spec_low by assumption. apply andb_false_r.
      - rewrite (N.shiftl_spec_high' _ _ _ L), N.shiftr_spec'. f_equal. lia. }
    rewrite G, land_byte_shift, N.shiftr_div_pow2. change (2 ^ 16) with (2 ^ 8 * 2 ^ 8). change (2 ^ 8) with 256. lia. }
  assert (E2 : N.shiftr (N.land x (N.shiftl 0xff 16)) 8 = (x / 65536 mod 256) * 2 ^ 8).
  { assert (G : N.land x (N.shiftl 0xff 16) = (N.shiftr (N.land x (N.shiftl 0xff 16)) 16) * 2 ^ 16).
    { rewrite <- N.shiftl_mul_pow2. apply N.bits_inj. intros n.
      destruct (N.lt_ge_cases n 16) as [L|L].
      - rewrite N.land_spec, !N.shiftl_spec_low by assumption. apply andb_false_r.
      - rewrite (N.shiftl_spec_high' _ _ _ L), N.shiftr_spec'. f_equal. lia. }
    rewrite G, land_byte_shift, !N.shiftr_div_pow2.
    change (2 ^ 16) with 65536. change (2 ^ 8) with 256. lia. }
  rewrite E1, E2, N.shiftl_mul_pow2, N.shiftr_div_pow2.
  change (2 ^ 32) with 4294967296 in *.
  rewrite (N.mod_small (x mod 256 * 2 ^ 24)) by (change (2 ^ 24) with 16777216; lia).
  rewrite (N.mod_small (x / 256 mod 256 * 2 ^ 16)) by (change (2 ^ 16) with 65536; lia).
  set (a := x mod 256). set (b := x / 256 mod 256). set (c := x / 65536 mod 256).
  set (d := (x / 2 ^ 24) mod 256).
  assert (Ha : a < 256) by (unfold a; lia). assert (Hb : b < 256) by (unfold b; lia).
  assert (Hc : c < 256) by (unfold c; lia). assert (Hd : d < 256) by (unfold d; apply N.mod_lt; lia).
  rewrite (N.lor_comm (a * 2 ^ 24)). rewrite (lor_add_pow2 (b * 2 ^ 16) a 24) by (change (2 ^ 24) with 16777216; change (2 ^ 16) with 65536; lia).
  rewrite N.lor_comm, (N.lor_comm (b * 2 ^ 16 + a * 2 ^ 24)).
  replace (b * 2 ^ 16 + a * 2 ^ 24) with ((b + a * 2 ^ 8) * 2 ^ 16) by (change (2 ^ 24) with (2 ^ 8 * 2 ^ 16); lia).
  rewrite (lor_add_pow2 (c * 2 ^ 8) (b + a * 2 ^ 8) 16) by (change (2 ^ 16) with 65536; change (2 ^ 8) with 256; lia).
  replace (c * 2 ^ 8 + (b + a * 2 ^ 8) * 2 ^ 16) with ((c + (b + a * 2 ^ 8) * 2 ^ 8) * 2 ^ 8)
    by (change (2 ^ 16) with (2 ^ 8 * 2 ^ 8); lia).
  rewrite lor_add_pow2 by exact Hd.
  unfold be_val. cbn [le_bytes fold_left]. fold a. fold b.
  replace (x / 256 / 256 mod 256) with c by (unfold c; rewrite N.div_div by lia; reflexivity).
  replace (x / 256 / 256 / 256 mod 256) with d by (unfold d; rewrite !N.div_div by lia; reflexivity).
  change (2 ^ 8) with 256. lia.
Qed.

Lemma be_le_involution n v : v < 256 ^ N.of_nat n -> be_val (le_bytes n (be_val (le_bytes n v))) = v.
Proof.
  intros H.
  assert (E : le_bytes n (be_val (le_bytes n v)) = rev (le_bytes n v)).
  { rewrite <- (be_val_rev (rev (le_bytes n v))) || idtac.
    replace (be_val (le_bytes n v)) with (le_val (rev (le_bytes n v))) by (rewrite <- be_val_rev, rev_involutive; reflexivity).
    rewrite <- (le_bytes_val (rev (le_bytes n v))) at 2 by (apply wf_rev, le_bytes_wf).
    rewrite rev_length, le_bytes_length. reflexivity. }
  rewrite E, be_val_rev, le_val_bytes. now apply N.mod_small.
Qed.
