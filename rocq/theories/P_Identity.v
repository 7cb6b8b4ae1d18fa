(** Lemmas about identify data, SMART data and ata_util. *)
From Verif Require Import Base Spec_Buffer M_Buffer P_Buffer M_Struc M_Layouts M_Ata M_TcgDevice M_DriveHandle Spec_Drive P_Struc
  P_Discovery P_DriveHandle M_AtaUtil Spec_Identity.

(** ---- layouts against tables of places ---- *)
Fixpoint places_of (lay : list fld) (off : nat) : list place :=
  match lay with
  | [] => []
  | f :: lay' => (f_name f, (off, (f_size f, f_count f))) :: places_of lay' (off + f_size f * f_count f)
  end.
Fixpoint plookup (n : string) (ps : list place) : option (nat * (nat * nat)) :=
  match ps with [] => None | (m, x) :: ps' => if String.eqb n m then Some x else plookup n ps' end.
Lemma plookup_offset n lay : forall off, plookup n (places_of lay off) = offset_of n lay off.
Proof.
  induction lay as [|f lay IH]; intros off; cbn [places_of plookup offset_of]; [reflexivity|].
  destruct (String.eqb n (f_name f)); [reflexivity|]. apply IH.
Qed.

Definition place_in (ps : list place) (x : place) : bool :=
  match x with (n, (off, (sz, c))) =>
    match plookup n ps with Some (p, (s, k)) => (p =? off)%nat && (s =? sz)%nat && (k =? c)%nat | None => false end end.
Definition agrees (lay : list fld) (t : list place) : bool := let ps := places_of lay 0 in forallb (place_in ps) t.

Lemma seq_shift1 c : seq 1 c = map S (seq 0 c).
Proof. symmetry. apply seq_shift. Qed.

Lemma decode_elems_map o sz : forall c p b,
  decode_elems o sz c (slice p (sz * c) b) = map (fun k => decode_int o (slice (p + k * sz) sz b)) (seq 0 c).
Proof.
  intros c p b. apply nth_ext with (d := 0) (d' := decode_int o (slice (p + 0 * sz) sz b)).
  - now rewrite decode_elems_length, map_length, seq_length.
  - intros k Hk. rewrite decode_elems_length in Hk. rewrite nth_decode_elems by exact Hk.
    rewrite (map_nth (fun k => decode_int o (slice (p + k * sz) sz b)) (seq 0 c) 0%nat k).
    rewrite seq_nth by exact Hk. cbn [Nat.add]. now rewrite slice_slice_mul.
Qed.

Lemma agrees_field o lay t b n off sz c : agrees lay t = true -> In (n, (off, (sz, c))) t ->
  field n (decoded o lay 0 b) = map (fun k => decode_int o (slice (off + k * sz) sz b)) (seq 0 c).
Proof.
  intros H Hin. unfold agrees in H. rewrite forallb_forall in H. specialize (H _ Hin). unfold place_in in H.
  rewrite plookup_offset in H. destruct (offset_of n lay 0) as [(p, (s, k))|] eqn:E; [|discriminate].
  apply andb_true_iff in H as [H Hc]. apply andb_true_iff in H as [Hp Hs].
  apply Nat.eqb_eq in Hp, Hs, Hc. subst p s k.
  rewrite (field_decoded _ _ _ _ _ _ _ _ E). apply decode_elems_map.
Qed.

(** every field of the layout is in the table *)
Definition covered (lay : list fld) (names : list string) : bool := forallb (fun f => existsb (String.eqb (f_name f)) names) lay.
Lemma covered_field o lay names off b n : covered lay names = true -> field n (decoded o lay off b) <> [] -> In n names.
Proof.
  unfold covered. revert off. induction lay as [|f lay IH]; intros off H Hf; cbn [decoded field forallb] in *; [congruence|].
  apply andb_true_iff in H as [H1 H2]. destruct (String.eqb n (f_name f)) eqn:E.
  - apply String.eqb_eq in E. subst n. apply existsb_exists in H1 as (m & Hm & E). apply String.eqb_eq in E. now subst.
  - apply (IH _ H2 Hf).
Qed.

Lemma ata_agrees : agrees lay_IdentityDeviceData ata_places = true.
Proof. vm_compute. reflexivity. Qed.
Lemma nvme_agrees : agrees lay_IdentifyController nvme_places = true.
Proof. vm_compute. reflexivity. Qed.
Lemma smart_values_agrees : agrees lay_SmartAttributeValues smart_value_places = true.
Proof. vm_compute. reflexivity. Qed.
Lemma smart_thresholds_agrees : agrees lay_SmartAttributeThresholds smart_threshold_places = true.
Proof. vm_compute. reflexivity. Qed.
Lemma ata_covered : covered lay_IdentityDeviceData (map fst ata_places ++ map fst ata_texts) = true.
Proof. vm_compute. reflexivity. Qed.
Lemma nvme_covered : covered lay_IdentifyController (map fst nvme_places) = true.
Proof. vm_compute. reflexivity. Qed.
Lemma smart_values_covered : covered lay_SmartAttributeValues (map fst smart_value_places) = true.
Proof. vm_compute. reflexivity. Qed.
Lemma smart_thresholds_covered : covered lay_SmartAttributeThresholds (map fst smart_threshold_places) = true.
Proof. vm_compute. reflexivity. Qed.

(** no ATA table entry is one of the three text fields *)
Lemma ata_places_not_text n x : In (n, x) ata_places ->
  n <> "ModelNumber"%string /\ n <> "SerialNumber"%string /\ n <> "FirmwareRevision"%string.
Proof.
  assert (H : forallb (fun p : place => negb (String.eqb (fst p) "ModelNumber") && negb (String.eqb (fst p) "SerialNumber")
                         && negb (String.eqb (fst p) "FirmwareRevision")) ata_places = true) by (vm_compute; reflexivity).
  rewrite forallb_forall in H. intros Hi. specialize (H _ Hi). cbn [fst] in H.
  destruct (String.eqb_spec n "ModelNumber"), (String.eqb_spec n "SerialNumber"), (String.eqb_spec n "FirmwareRevision"); cbn in H;
    try discriminate; auto.
Qed.

Definition ata_id_facts (raw : bytes) (id : struct_val) : Prop :=
  (forall n off sz c, In (n, (off, (sz, c))) ata_places -> field n id = le_elems off sz c raw) /\
  (forall n off len, In (n, (off, len)) ata_texts -> word_swapped (slice off len raw) (field n id)) /\
  (forall n, field n id <> [] -> In n (map fst ata_places ++ map fst ata_texts)).

Lemma swap_ok l : Nat.even (List.length l) = true -> exists o, ata_swap_word_endian l = Ok o /\ word_swapped l o.
Proof. intros H. destruct (swap_even l H) as (o & E & Hl & Hn & _). exists o. split; [exact E|]. split; assumption. Qed.

Lemma swap_field_other n m v : m <> n -> field m (swap_field n v) = field m v.
Proof. intros H. unfold swap_field. destruct (ata_swap_word_endian (field n v)); try reflexivity. now apply field_set_other. Qed.
Lemma swap_field_same n v : Nat.even (List.length (field n v)) = true -> field n v <> [] -> word_swapped (field n v) (field n (swap_field n v)).
Proof.
  intros He Hne. destruct (swap_ok _ He) as (o & E & Hw). unfold swap_field. rewrite E. now rewrite field_set_same.
Qed.

Lemma ata_id_ok raw : (512 <= List.length raw)%nat ->
  ata_id_facts raw (swap_field "FirmwareRevision" (swap_field "SerialNumber" (swap_field "ModelNumber"
    (decoded GetStrucOptions lay_IdentityDeviceData 0 raw)))).
Proof.
  intros Hl. set (v := decoded GetStrucOptions lay_IdentityDeviceData 0 raw).
  assert (Hm : field "ModelNumber" v = slice 54 40 raw) by (apply field_bytes; [reflexivity|lia]).
  assert (Hn : field "SerialNumber" v = slice 20 20 raw) by (apply field_bytes; [reflexivity|lia]).
  assert (Hf : field "FirmwareRevision" v = slice 46 8 raw) by (apply field_bytes; [reflexivity|lia]).
  assert (Lm : List.length (slice 54 40 raw) = 40%nat) by (apply slice_length; lia).
  assert (Ln : List.length (slice 20 20 raw) = 20%nat) by (apply slice_length; lia).
  assert (Lf : List.length (slice 46 8 raw) = 8%nat) by (apply slice_length; lia).
  assert (NE : forall (l : bytes) k, List.length l = S k -> l <> []) by (intros l k E ->; discriminate).
  split; [|split].
  - intros n off sz c Hin. destruct (ata_places_not_text _ _ Hin) as (A & B & C).
    rewrite !swap_field_other by assumption.
    unfold v. rewrite (agrees_field GetStrucOptions _ _ raw _ _ _ _ ata_agrees Hin). reflexivity.
  - intros n off len Hin. cbn [ata_texts In] in Hin. destruct Hin as [E|[E|[E|[]]]]; injection E as <- <- <-.
    + rewrite (swap_field_other "FirmwareRevision") by discriminate.
      change (2 * 10)%nat with 20%nat. rewrite <- Hn, <- (swap_field_other "ModelNumber" "SerialNumber" v) by discriminate.
      assert (Q : field "SerialNumber" (swap_field "ModelNumber" v) = slice 20 20 raw) by (rewrite swap_field_other by discriminate; exact Hn).
      apply swap_field_same; rewrite Q; [now rewrite Ln|eapply NE, Ln].
    + change (2 * 23)%nat with 46%nat.
      assert (Q : field "FirmwareRevision" (swap_field "SerialNumber" (swap_field "ModelNumber" v)) = slice 46 8 raw)
        by (rewrite !swap_field_other by discriminate; exact Hf).
      rewrite <- Q. apply swap_field_same; rewrite Q; [now rewrite Lf|eapply NE, Lf].
    + change (2 * 27)%nat with 54%nat. rewrite (swap_field_other "FirmwareRevision"), (swap_field_other "SerialNumber") by discriminate.
      rewrite <- Hm. apply swap_field_same; rewrite Hm; [now rewrite Lm|eapply NE, Lm].
  - intros n Hne.
    destruct (String.eqb_spec n "ModelNumber") as [->|A]; [apply in_or_app; right; cbn; auto|].
    destruct (String.eqb_spec n "SerialNumber") as [->|B]; [apply in_or_app; right; cbn; auto|].
    destruct (String.eqb_spec n "FirmwareRevision") as [->|C]; [apply in_or_app; right; cbn; auto|].
    rewrite !swap_field_other in Hne by assumption. exact (covered_field _ _ _ _ _ _ ata_covered Hne).
Qed.

Lemma init_ata_id i raw i' : (512 <= List.length raw)%nat -> init_ata i raw = (i', Ok tt) ->
  exists id, i_ata i' = Some id /\ ata_id_facts raw id.
Proof.
  intros Hl H. unfold init_ata in H. rewrite unpack_ok0 in H by (change (struc_sizeof lay_IdentityDeviceData) with 512%nat; lia).
  apply (f_equal fst) in H. cbn [fst] in H. subst i'. cbn [i_ata]. eexists. split; [reflexivity|]. exact (ata_id_ok raw Hl).
Qed.

Lemma c48 V p h h' p' r : p_dh p = Some {| is_ata := true; is_nvme := false |} ->
  List.length (i_raw_serial (p_info p)) = 20%nat -> init V p h = (h', (p', r)) ->
  let raw := v_identity V (h ++ [CIdentity]) in (512 <= List.length raw)%nat ->
  exists id, i_ata (p_info p') = Some id /\ ata_id_facts raw id.
Proof.
  intros Hd Hs H raw Hl. unfold init in H. rewrite Hd in H. cbn [is_ata is_nvme] in H. fold raw in H.
  destruct (init_ata_ok (p_info p) raw Hl Hs) as (i' & E & _). rewrite E in H.
  destruct (init_tail_frame _ _ _ _ _ _ H) as (_ & B & _). destruct B as (_ & _ & _ & _ & _ & _ & B & _).
  rewrite B. exact (init_ata_id _ _ _ Hl E).
Qed.

(** one flag of a 16-bit word or its high byte *)
Lemma flag_testbit x k : negb (N.land x (2 ^ k) =? 0) = N.testbit x k.
Proof.
  destruct (N.testbit x k) eqn:E.
  - destruct (N.eqb_spec (N.land x (2 ^ k)) 0) as [H|H]; [|reflexivity].
    apply (f_equal (fun y => N.testbit y k)) in H. rewrite N.land_spec, E, N.pow2_bits_true, N.bits_0 in H. discriminate.
  - destruct (N.eqb_spec (N.land x (2 ^ k)) 0) as [H|H]; [reflexivity|]. exfalso. apply H, N.bits_inj. intros j.
    rewrite N.land_spec, N.bits_0. destruct (N.eq_dec j k) as [->|Hj]; [now rewrite E|].
    rewrite N.pow2_bits_false by congruence. apply andb_false_r.
Qed.

Lemma word_high_bit w raw k : (2 * w + 2 <= List.length raw)%nat -> wf raw ->
  N.testbit (le_val (slice (2 * w + 1) 1 raw)) k = N.testbit (word w raw) (8 + k).
Proof.
  intros Hl Hw. unfold word.
  destruct (nth_error raw (2 * w)) as [a|] eqn:Ea; [|apply nth_error_None in Ea; lia].
  destruct (nth_error raw (2 * w + 1)) as [b|] eqn:Eb; [|apply nth_error_None in Eb; lia].
  assert (S2 : slice (2 * w) 2 raw = [a; b]).
  { apply list_eq_nth_error. intros i. rewrite nth_error_slice. destruct i as [|[|i]].
    - rewrite Nat.add_0_r. exact Ea.
    - exact Eb.
    - cbn. now destruct i. }
  assert (S1 : slice (2 * w + 1) 1 raw = [b]).
  { apply list_eq_nth_error. intros i. rewrite nth_error_slice. destruct i as [|i].
    - rewrite Nat.add_0_r. exact Eb.
    - cbn. now destruct i. }
  rewrite S1, S2. cbn [le_val]. rewrite !N.mul_0_r, !N.add_0_r.
  assert (Ha : a < 256) by (apply (proj1 (Forall_forall _ _) Hw), (nth_error_In _ _ Ea)).
  replace (a + 256 * b) with (a + b * 2 ^ 8) by lia.
  rewrite <- (lor_add_disjoint a b 8) by exact Ha.
  rewrite N.lor_spec, N.shiftl_spec_high' by lia. replace (8 + k - 8) with k by lia.
  replace (N.testbit a (8 + k)) with false; [reflexivity|]. symmetry.
  destruct (N.eq_dec a 0) as [->|Hz]; [apply N.bits_0|]. apply N.bits_above_log2.
  assert (N.log2 a < 8); [|lia]. apply N.log2_lt_pow2; [lia|]. exact Ha.
Qed.

(** ---- NVMe ---- *)
Definition nvme_id_facts (raw : bytes) (id : struct_val) : Prop :=
  (forall n off sz c, In (n, (off, (sz, c))) nvme_places -> field n id = be_elems off sz c raw) /\
  (forall n, field n id <> [] -> In n (map fst nvme_places)).

Lemma c49 V p h h' p' r : p_dh p = Some {| is_ata := false; is_nvme := true |} ->
  List.length (i_raw_serial (p_info p)) = 20%nat -> init V p h = (h', (p', r)) ->
  let raw := v_identity V (h ++ [CIdentity]) in 4096 <= blen raw ->
  exists id, i_nvme (p_info p') = Some id /\ nvme_id_facts raw id.
Proof.
  intros Hd Hs H raw Hl. unfold init in H. rewrite Hd in H. cbn [is_ata is_nvme] in H. fold raw in H.
  destruct (init_nvme_ok (p_info p) raw Hl Hs) as (i' & E & _). rewrite E in H.
  destruct (init_tail_frame _ _ _ _ _ _ H) as (_ & B & _). destruct B as (_ & _ & _ & _ & _ & _ & _ & _ & B & _).
  rewrite B. clear B H.
  unfold init_nvme in E. unfold blen in Hl. rewrite unpack_ok0 in E by (rewrite nvme_size; lia).
  apply (f_equal fst) in E. cbn [fst] in E. subst i'. cbn [i_nvme]. eexists. split; [reflexivity|]. split.
  - intros n off sz c Hin. rewrite (agrees_field struc_default _ _ raw _ _ _ _ nvme_agrees Hin). reflexivity.
  - intros n Hn. exact (covered_field _ _ _ _ _ _ nvme_covered Hn).
Qed.

(** ---- SMART ---- *)
Lemma smart_values_ok b : List.length b = 512%nat -> exists v, struc_unpack struc_default lay_SmartAttributeValues b = Ok v /\
  (forall n off sz c, In (n, (off, (sz, c))) smart_value_places -> field n v = be_elems off sz c b) /\
  (forall n, field n v <> [] -> In n (map fst smart_value_places)).
Proof.
  intros Hl. rewrite unpack_ok0 by (change (struc_sizeof lay_SmartAttributeValues) with 512%nat; lia).
  eexists. split; [reflexivity|]. split.
  - intros n off sz c Hin. rewrite (agrees_field struc_default _ _ b _ _ _ _ smart_values_agrees Hin). reflexivity.
  - intros n Hn. exact (covered_field _ _ _ _ _ _ smart_values_covered Hn).
Qed.
Lemma smart_thresholds_ok b : List.length b = 512%nat -> exists v, struc_unpack struc_default lay_SmartAttributeThresholds b = Ok v /\
  (forall n off sz c, In (n, (off, (sz, c))) smart_threshold_places -> field n v = be_elems off sz c b) /\
  (forall n, field n v <> [] -> In n (map fst smart_threshold_places)).
Proof.
  intros Hl. rewrite unpack_ok0 by (change (struc_sizeof lay_SmartAttributeThresholds) with 512%nat; lia).
  eexists. split; [reflexivity|]. split.
  - intros n off sz c Hin. rewrite (agrees_field struc_default _ _ b _ _ _ _ smart_thresholds_agrees Hin). reflexivity.
  - intros n Hn. exact (covered_field _ _ _ _ _ _ smart_thresholds_covered Hn).
Qed.

(** ---- FixAtaStringOrder ---- *)
Lemma fix_loop_even : forall data, Nat.even (List.length data) = true ->
  exists pre rest, fix_order_loop data = Ok pre /\ word_swapped data (pre ++ rest) /\ ~ In 0 pre /\ (rest = [] \/ exists r, rest = 0 :: r).
Proof.
  intros data. induction data as [|a|a b l IH] using list_ind2; intros He.
  - exists [], []. cbn. split; [reflexivity|]. split; [split; [reflexivity|cbn; lia]|]. split; [easy|auto].
  - discriminate.
  - cbn [List.length] in He. cbn [Nat.even] in He.
    assert (Hsw : forall o, word_swapped l o -> word_swapped (a :: b :: l) (b :: a :: o)).
    { intros o [H1 H2]. split; [cbn; lia|]. intros i Hi. destruct i as [|[|i]]; [reflexivity|reflexivity|].
      cbn [List.length] in Hi. cbn [nth_error]. rewrite H2 by lia.
      unfold partner. change (Nat.even (S (S i))) with (Nat.even i). destruct (Nat.even i) eqn:Ei; [reflexivity|].
      destruct i as [|i]; [discriminate|]. replace (S (S (S i)) - 1)%nat with (S (S (S i - 1))) by lia. reflexivity. }
    assert (Hany : exists o, word_swapped l o).
    { destruct (swap_ok l He) as (o & _ & Ho). eauto. }
    destruct Hany as (o & Ho). cbn [fix_order_loop].
    destruct (N.eqb_spec b 0) as [->|Hb].
    + exists [], (0 :: a :: o). split; [reflexivity|]. split; [apply Hsw, Ho|]. split; [easy|eauto].
    + destruct (N.eqb_spec a 0) as [->|Ha].
      * exists [b], (0 :: o). split; [reflexivity|]. split; [apply Hsw, Ho|]. split; [intros [H|[]]; congruence|eauto].
      * destruct (IH He) as (pre & rest & E & W & Z & R). rewrite E. exists (b :: a :: pre), rest.
        split; [reflexivity|]. split; [apply Hsw, W|]. split; [|exact R]. intros [H|[H|H]]; congruence.
Qed.

Lemma fix_loop_odd : forall d x, Nat.even (List.length d) = true ->
  fix_order_loop (d ++ [x]) = match fix_order_loop d with Ok pre => if (List.length pre =? List.length d)%nat then Panic else Ok pre | e => e end.
Proof.
  intros d. induction d as [|a|a b l IH] using list_ind2; intros x He.
  - reflexivity.
  - discriminate.
  - cbn [app fix_order_loop]. destruct (b =? 0); [reflexivity|]. destruct (a =? 0); [reflexivity|].
    cbn [List.length Nat.even] in He. rewrite (IH x He). destruct (fix_loop_even l He) as (pre & rest & -> & _).
    cbn [List.length]. change (S (S (List.length pre)) =? S (S (List.length l)))%nat with (List.length pre =? List.length l)%nat.
    now destruct (List.length pre =? List.length l)%nat.
Qed.

(** [t] is [s] without its trailing spaces *)
Definition right_trimmed (s t : bytes) : Prop :=
  exists k, s = t ++ repeat 0x20 k /\ (forall t', t <> t' ++ [0x20]).
Lemma drop_spaces_spec l : exists k, l = repeat 0x20 k ++ drop_spaces l /\ (forall t', drop_spaces l <> 0x20 :: t').
Proof.
  induction l as [|b l (k & E & H)]; cbn [drop_spaces].
  - exists 0%nat. split; [reflexivity|discriminate].
  - destruct (N.eqb_spec b 0x20) as [->|Hb].
    + exists (S k). cbn [repeat app]. split; [now f_equal|exact H].
    + exists 0%nat. split; [reflexivity|]. intros t' C. congruence.
Qed.
Lemma right_trim_spec s : right_trimmed s (rev (drop_spaces (rev s))).
Proof.
  destruct (drop_spaces_spec (rev s)) as (k & E & H). exists k. split.
  - apply (f_equal (@rev N)) in E. rewrite rev_involutive, rev_app_distr in E.
    replace (rev (repeat 32 k)) with (repeat 32 k) in E; [exact E|].
    clear. induction k as [|k IH]; [reflexivity|]. cbn [repeat rev]. rewrite <- IH. clear.
    induction k as [|k IH]; [reflexivity|]. cbn [repeat app]. now rewrite <- IH.
  - intros t' C. apply (f_equal (@rev N)) in C. rewrite rev_involutive, rev_app_distr in C. cbn in C. exact (H _ C).
Qed.

(** ---- IsNeedsLba48 ---- *)
Lemma lba28_limit_val : lba28_limit = 2 ^ 28 - 1. Proof. reflexivity. Qed.

Lemma needs48_generic op lba nsect : lba < 2 ^ 64 -> nsect < 2 ^ 64 ->
  ~ In op [0x06; 0x24; 0x25; 0x27; 0x34; 0x35; 0x37; 0x42; 0x45; 0xea] -> ~ In op [0xf3; 0xf4; 0x80; 0xb0] ->
  is_needs_lba48 op lba nsect = true <-> (2 ^ 28 - 1 <= lba \/ 255 < nsect \/ 2 ^ 28 - 1 < lba + nsect).
Proof.
  intros Hl Hn H1 H2. unfold is_needs_lba48. rewrite lba28_limit_val.
  replace (existsb (N.eqb op) [ATA_OP_DSM; ATA_OP_READ_PIO_EXT; ATA_OP_READ_DMA_EXT; ATA_OP_WRITE_PIO_EXT; ATA_OP_WRITE_DMA_EXT;
     ATA_OP_READ_VERIFY_EXT; ATA_OP_WRITE_UNC_EXT; ATA_OP_READ_NATIVE_MAX_EXT; ATA_OP_SET_MAX_EXT; ATA_OP_FLUSHCACHE_EXT]) with false.
  2:{ symmetry. apply not_true_is_false. intros C. apply existsb_exists in C as (x & Hx & E). apply N.eqb_eq in E. subst x.
      apply H1. cbn in Hx |- *. unfold ATA_OP_DSM, ATA_OP_READ_PIO_EXT, ATA_OP_READ_DMA_EXT, ATA_OP_WRITE_PIO_EXT, ATA_OP_WRITE_DMA_EXT,
      ATA_OP_READ_VERIFY_EXT, ATA_OP_WRITE_UNC_EXT, ATA_OP_READ_NATIVE_MAX_EXT, ATA_OP_SET_MAX_EXT, ATA_OP_FLUSHCACHE_EXT in Hx. tauto. }
  replace (existsb (N.eqb op) [ATA_OP_SECURITY_ERASE_PREPARE; ATA_OP_SECURITY_ERASE_UNIT; ATA_OP_VENDOR_SPECIFIC_0x80; ATA_OP_SMART]) with false.
  2:{ symmetry. apply not_true_is_false. intros C. apply existsb_exists in C as (x & Hx & E). apply N.eqb_eq in E. subst x.
      apply H2. cbn in Hx |- *. unfold ATA_OP_SECURITY_ERASE_PREPARE, ATA_OP_SECURITY_ERASE_UNIT, ATA_OP_VENDOR_SPECIFIC_0x80, ATA_OP_SMART in Hx. tauto. }
  destruct (N.leb_spec (2 ^ 28 - 1) lba) as [Ha|Ha]; [tauto|].
  destruct (N.ltb_spec 0 nsect) as [Hb|Hb].
  - destruct (N.ltb_spec 0xff nsect) as [Hc|Hc]; [tauto|].
    rewrite N.mod_small by lia. destruct (N.leb_spec (2 ^ 28 - 1) (lba + nsect - 1)); split; intros; try discriminate; auto; lia.
  - split; [discriminate|lia].
Qed.

Lemma in_existsb op l : In op l -> existsb (N.eqb op) l = true.
Proof. intros H. apply existsb_exists. exists op. split; [exact H|apply N.eqb_refl]. Qed.

(** ---- byte order ---- *)
Lemma le_val_inj a : forall b, List.length a = List.length b -> wf a -> wf b -> le_val a = le_val b -> a = b.
Proof.
  induction a as [|x a IH]; intros [|y b] Hl Ha Hb H; try discriminate; [reflexivity|].
  apply wf_cons in Ha as [Hx Ha]. apply wf_cons in Hb as [Hy Hb]. cbn [le_val] in H. injection Hl as Hl.
  assert (x = y) by lia. subst y. f_equal. apply IH; auto. lia.
Qed.
Lemma be_le_iff b : wf b -> be_val b = le_val b <-> rev b = b.
Proof.
  intros Hw. assert (E : be_val b = le_val (rev b)) by now rewrite <- be_val_rev, rev_involutive. rewrite E.
  split; [|now intros ->]. intros H. apply le_val_inj in H; auto.
  - apply rev_length.
  - apply Forall_rev, Hw.
Qed.

Definition place_eqb (x y : place) : bool :=
  match x, y with (n, (a, (b, c))), (m, (d, (e, f))) => String.eqb n m && (a =? d)%nat && (b =? e)%nat && (c =? f)%nat end.
Lemma has_place t x : existsb (place_eqb x) t = true -> In x t.
Proof.
  intros H. apply existsb_exists in H as (y & Hy & E). destruct x as (n, (a, (b, c))), y as (m, (d, (e, f))). unfold place_eqb in E.
  rewrite !andb_true_iff, String.eqb_eq, !Nat.eqb_eq in E. destruct E as (((-> & ->) & ->) & ->). exact Hy.
Qed.

(** ---- Init followed by NewTcgDevice ---- *)
Lemma wf_last_listed code fs d : wf (descriptors fs) -> last_listed code fs = Some d -> wf d.
Proof.
  unfold descriptors. induction fs as [|f fs IH]; cbn [map concat last_listed]; [discriminate|].
  rewrite wf_app. intros [Hf Hr]. destruct (last_listed code fs) as [x|] eqn:E.
  - intros [= <-]. auto.
  - destruct (ft_code f =? code); [|discriminate]. now intros [= <-].
Qed.
Lemma security_info V p q h rw dma pr com b t : p_dh p = p_dh q ->
  security_command V p h rw dma pr com b t = security_command V q h rw dma pr com b t.
Proof. intros E. unfold security_command. now rewrite E. Qed.
Lemma last_listed_listed code fs d : last_listed code fs = Some d -> listed code fs = true.
Proof.
  unfold listed. induction fs as [|f fs IH]; cbn [last_listed existsb]; [discriminate|].
  destruct (last_listed code fs) as [x|].
  - intros H. rewrite (IH H). apply orb_true_r.
  - destruct (ft_code f =? code); [reflexivity|discriminate].
Qed.

(** ---- little-endian bytes of a number ---- *)
Lemma byte_step x k k' : k' = k + 8 -> x mod 2 ^ k' = x mod 2 ^ k + 2 ^ k * (N.shiftr x k mod 256).
Proof.
  intros ->. rewrite N.pow_add_r, N.shiftr_div_pow2. change 256 with (2 ^ 8). apply N.mod_mul_r; apply N.pow_nonzero; discriminate.
Qed.
Lemma bytes6 x : x < 2 ^ 48 ->
  x mod 256 + 2 ^ 8 * (N.shiftr x 8 mod 256) + 2 ^ 16 * (N.shiftr x 16 mod 256) + 2 ^ 24 * (N.shiftr x 24 mod 256)
  + 2 ^ 32 * (N.shiftr x 32 mod 256) + 2 ^ 40 * (N.shiftr x 40 mod 256) = x.
Proof.
  intros H. change (x mod 256) with (x mod 2 ^ 8).
  rewrite <- (byte_step x 8 16 eq_refl), <- (byte_step x 16 24 eq_refl), <- (byte_step x 24 32 eq_refl), <- (byte_step x 32 40 eq_refl), <- (byte_step x 40 48 eq_refl).
  now apply N.mod_small.
Qed.
Lemma bytes3_nibble x :
  x mod 256 + 2 ^ 8 * (N.shiftr x 8 mod 256) + 2 ^ 16 * (N.shiftr x 16 mod 256) + 2 ^ 24 * (N.shiftr x 24 mod 16) = x mod 2 ^ 28.
Proof.
  change (x mod 256) with (x mod 2 ^ 8).
  rewrite <- (byte_step x 8 16 eq_refl), <- (byte_step x 16 24 eq_refl). rewrite N.shiftr_div_pow2.
  change (2 ^ 28) with (2 ^ 24 * 16). symmetry. apply N.mod_mul_r; discriminate.
Qed.
Lemma list_last_cases (l : bytes) : l = [] \/ exists d x, l = d ++ [x].
Proof. destruct (rev l) as [|x r] eqn:E.
  - left. now rewrite <- (rev_involutive l), E.
  - right. exists (rev r), x. now rewrite <- (rev_involutive l), E.
Qed.
