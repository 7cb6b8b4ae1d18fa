(** Property theorems C57-C66 (CDB accessors and the Linux SCSI-generic driver). *)
From Verif Require Import Base M_Buffer M_Ata M_TcgDevice M_Cdb M_SgDriver Spec_Sg P_Discovery P_DriveHandle P_Sg.

(** ---- C57: bit-field accessors.  [second] selects CDB byte 2 instead of byte 1. ---- *)
Definition flag_byte (second : bool) (c : cdbf) : N := if second then b02 c else b01 c.
Definition wf_cdb (c : cdbf) : Prop := b01 c < 256 /\ b02 c < 256.
(** get reads bits [lo..lo+w-1]; set stores v modulo 2^w there and changes no other bit of either byte. *)
Definition numeric_field (get : cdbf -> N) (set : cdbf -> N -> cdbf) (second : bool) (lo w : N) : Prop :=
  forall c v, wf_cdb c -> v < 256 ->
  get c = bit_range (flag_byte second c) lo w /\ get (set c v) = v mod 2 ^ w /\ wf_cdb (set c v)
  /\ flag_byte (negb second) (set c v) = flag_byte (negb second) c
  /\ (forall i, i < 8 -> ~ (lo <= i < lo + w) -> N.testbit (flag_byte second (set c v)) i = N.testbit (flag_byte second c) i).
Definition flag_field (get : cdbf -> bool) (set : cdbf -> bool -> cdbf) (second : bool) (k : N) : Prop :=
  forall c v, wf_cdb c ->
  get c = N.testbit (flag_byte second c) k /\ get (set c v) = v /\ wf_cdb (set c v)
  /\ flag_byte (negb second) (set c v) = flag_byte (negb second) c
  /\ (forall i, i < 8 -> i <> k -> N.testbit (flag_byte second (set c v)) i = N.testbit (flag_byte second c) i).

Theorem C57_cdb_accessors :
  numeric_field get_protocol set_protocol false 1 4
  /\ numeric_field get_t_length set_t_length true 0 2
  /\ numeric_field get_offline set_offline true 6 2
  /\ numeric_field get_logical_unit_number set_logical_unit_number false 5 3
  /\ flag_field is_byte_block set_byte_block true 2
  /\ flag_field is_t_dir set_t_dir true 3
  /\ flag_field is_ck_cond set_ck_cond true 5
  /\ flag_field is_relative_address set_relative_address false 0
  /\ flag_field is_force_unit_access set_force_unit_access false 3
  /\ flag_field is_disable_page_out set_disable_page_out false 4
  /\ (forall c, wf_cdb c -> get_multiple_count c = bit_range (b01 c) 5 3)
  /\ (forall b v, b < 256 -> is_inc512 b = N.testbit b 7 /\ is_inc512 (set_inc512 b v) = v
                             /\ (forall i, i < 8 -> i <> 7 -> N.testbit (set_inc512 b v) i = N.testbit b i)).
Proof.
  assert (Num1 : forall g s lo w, forallb (fun b => forallb (check_num g s lo w b) bytes256) bytes256 = true ->
     numeric_field (fun c => g (b01 c)) (fun c v => with_b01 c (s (b01 c) v)) false lo w).
  { intros g s lo w H c v [H1 H2] Hv. destruct (check_num_spec g s lo w H (b01 c) v H1 Hv) as (A & B & C & D). now repeat split. }
  assert (Num2 : forall g s lo w, forallb (fun b => forallb (check_num g s lo w b) bytes256) bytes256 = true ->
     numeric_field (fun c => g (b02 c)) (fun c v => with_b02 c (s (b02 c) v)) true lo w).
  { intros g s lo w H c v [H1 H2] Hv. destruct (check_num_spec g s lo w H (b02 c) v H2 Hv) as (A & B & C & D). now repeat split. }
  assert (Fl1 : forall g s k, forallb (check_flag g s k) bytes256 = true ->
     flag_field (fun c => g (b01 c)) (fun c v => with_b01 c (s (b01 c) v)) false k).
  { intros g s k H c v [H1 H2]. destruct (check_flag_spec g s k H (b01 c) v H1) as (A & B & C & D). now repeat split. }
  assert (Fl2 : forall g s k, forallb (check_flag g s k) bytes256 = true ->
     flag_field (fun c => g (b02 c)) (fun c v => with_b02 c (s (b02 c) v)) true k).
  { intros g s k H c v [H1 H2]. destruct (check_flag_spec g s k H (b02 c) v H2) as (A & B & C & D). now repeat split. }
  repeat (match goal with |- _ /\ _ => split end).
  - exact (Num1 (fun b => N.land (N.shiftr b 1) 0x0F) (fun b v => N.lor (N.land b 0xE1) (N.shiftl (N.land v 0x0F) 1)) 1 4 ltac:(vm_compute; reflexivity)).
  - exact (Num2 (fun b => N.land b 0x03) (fun b v => N.lor (N.land b 0xFC) (N.land v 0x03)) 0 2 ltac:(vm_compute; reflexivity)).
  - exact (Num2 (fun b => N.land (N.shiftr b 6) 0x03) (fun b v => N.lor (N.land b 0x3F) (N.shiftl (N.land v 0x03) 6)) 6 2 ltac:(vm_compute; reflexivity)).
  - exact (Num1 (fun b => N.shiftr b 5) (fun b v => N.lor (N.land b 0x1F) (N.shiftl v 5 mod 256)) 5 3 ltac:(vm_compute; reflexivity)).
  - exact (Fl2 (fun b => bit_set b 0x04) (fun b (v : bool) => if v then N.lor b 0x04 else N.land b (not8 0x04)) 2 ltac:(vm_compute; reflexivity)).
  - exact (Fl2 (fun b => bit_set b 0x08) (fun b (v : bool) => if v then N.lor b 0x08 else N.land b (not8 0x08)) 3 ltac:(vm_compute; reflexivity)).
  - exact (Fl2 (fun b => bit_set b 0x20) (fun b (v : bool) => if v then N.lor b 0x20 else N.land b (not8 0x20)) 5 ltac:(vm_compute; reflexivity)).
  - exact (Fl1 (fun b => bit_set b 0x01) (fun b (v : bool) => if v then N.lor b 0x01 else N.land b (not8 0x01)) 0 ltac:(vm_compute; reflexivity)).
  - exact (Fl1 (fun b => bit_set b 0x08) (fun b (v : bool) => if v then N.lor b 0x08 else N.land b (not8 0x08)) 3 ltac:(vm_compute; reflexivity)).
  - exact (Fl1 (fun b => bit_set b 0x10) (fun b (v : bool) => if v then N.lor b 0x10 else N.land b (not8 0x10)) 4 ltac:(vm_compute; reflexivity)).
  - intros c [H1 _]. apply N.eqb_eq.
    exact (byte_sweep (fun b => N.land (N.shiftr b 5) 0x07 =? bit_range b 5 3) ltac:(vm_compute; reflexivity) (b01 c) H1).
  - intros b v Hb. destruct (check_flag_spec is_inc512 set_inc512 7 ltac:(vm_compute; reflexivity) b v Hb) as (A & B & C & D). auto.
Qed.
Print Assumptions C57_cdb_accessors.

(** C57, the fixed-format sense data (SPC-4 4.5.3): response code and VALID in byte 0; sense key, ILI, EOM and FILEMARK in byte 2. *)
Theorem C57_sense_fields : forall s, wf s ->
  get_error_code s = bit_range (nth 0 s 0) 0 7 /\ is_valid s = N.testbit (nth 0 s 0) 7
  /\ get_sense_key s = bit_range (nth 2 s 0) 0 4 /\ is_incorrect_length s = N.testbit (nth 2 s 0) 5
  /\ is_end_of_media s = N.testbit (nth 2 s 0) 6 /\ is_file_mark s = N.testbit (nth 2 s 0) 7.
Proof.
  intros s W. unfold get_error_code, is_valid, get_sense_key, is_incorrect_length, is_end_of_media, is_file_mark, sense_byte.
  assert (B : forall i, nth i s 0 < 256).
  { intros i. destruct (Nat.lt_ge_cases i (List.length s)) as [Hi|Hi]; [|rewrite nth_overflow by exact Hi; lia].
    exact (proj1 (Forall_forall _ _) W _ (nth_In s 0 Hi)). }
  pose proof (B 0%nat) as B0. pose proof (B 2%nat) as B2. generalize dependent (nth 0 s 0). generalize dependent (nth 2 s 0). clear B W s.
  intros y Hy x Hx.
  assert (Q : forall b k, b < 256 -> k < 8 -> bit_set b (2 ^ k) = N.testbit b k).
  { intros b k Hb Hk. pose proof (byte_sweep (fun b => forallb (fun k => Bool.eqb (bit_set b (2 ^ k)) (N.testbit b k)) [0; 1; 2; 3; 4; 5; 6; 7]) ltac:(vm_compute; reflexivity) b Hb) as F.
    rewrite forallb_forall in F. apply Bool.eqb_prop, F.
    assert (k = 0 \/ k = 1 \/ k = 2 \/ k = 3 \/ k = 4 \/ k = 5 \/ k = 6 \/ k = 7) as [ ->|[ ->|[ ->|[ ->|[ ->|[ ->|[ ->| ->]]]]]]] by lia; cbn; tauto. }
  pose proof (byte_sweep (fun b => N.land b 0x7F =? bit_range b 0 7) ltac:(vm_compute; reflexivity) x Hx) as E1.
  pose proof (byte_sweep (fun b => N.land b 0x0F =? bit_range b 0 4) ltac:(vm_compute; reflexivity) y Hy) as E2.
  cbv beta in E1, E2. apply N.eqb_eq in E1, E2.
  split; [exact E1|]. split; [exact (Q x 7 Hx eq_refl)|]. split; [exact E2|]. split; [exact (Q y 5 Hy eq_refl)|]. split; [exact (Q y 6 Hy eq_refl)|exact (Q y 7 Hy eq_refl)].
Qed.
Print Assumptions C57_sense_fields.

(** SetMultipleCount leaves MULTIPLE_COUNT as it was and overwrites byte 2; SetExtend/IsExtend work on bit 0 of byte 2
    (T_LENGTH) instead of bit 0 of byte 1 (EXTEND). *)
Theorem C57_broken_accessors : forall c v, wf_cdb c -> v < 256 ->
  get_multiple_count (set_multiple_count c v) = get_multiple_count c
  /\ b02 (set_multiple_count c v) = N.lor (bit_range (b01 c) 0 5) (v mod 8)
  /\ (forall x, b01 (set_extend c x) = b01 c /\ is_extend c = N.testbit (b02 c) 0
                /\ N.testbit (get_t_length (set_extend c x)) 0 = x).
Proof.
  intros c v [H1 H2] Hv. split; [reflexivity|]. split.
  - cbn [set_multiple_count with_b02 b02]. f_equal.
    + unfold bit_range. change 0x1F with (N.ones 5). rewrite N.land_ones. change (2 ^ 0) with 1. now rewrite N.div_1_r.
    + change 0x07 with (N.ones 3). now rewrite N.land_ones.
  - intros x. split; [reflexivity|].
    destruct (check_flag_spec (fun b => bit_set b 0x01) (fun b (v : bool) => if v then N.lor b 0x01 else N.land b (not8 0x01)) 0 ltac:(vm_compute; reflexivity) (b02 c) x H2)
      as (A & B & C & D).
    split; [exact A|]. unfold get_t_length. cbn [set_extend with_b02 b02].
    rewrite N.land_spec. change (N.testbit 3 0) with true. rewrite andb_true_r.
    destruct (check_flag_spec (fun b => bit_set b 0x01) (fun b (v : bool) => if v then N.lor b 0x01 else N.land b (not8 0x01)) 0 ltac:(vm_compute; reflexivity) _ x C)
      as (A' & _). rewrite <- A'. exact B.
Qed.
Print Assumptions C57_broken_accessors.

Theorem C57_set_multiple_count_refuted : ~ numeric_field get_multiple_count set_multiple_count false 5 3.
Proof.
  intros H. destruct (H cdbf0 1 ltac:(split; reflexivity) ltac:(reflexivity)) as (_ & E & _). discriminate E.
Qed.
Print Assumptions C57_set_multiple_count_refuted.
Theorem C57_set_extend_refuted : ~ flag_field is_extend set_extend false 0.
Proof.
  intros H. destruct (H cdbf0 true ltac:(split; reflexivity)) as (_ & _ & _ & E & _). discriminate E.
Qed.
Print Assumptions C57_set_extend_refuted.

(** ---- vocabulary for the driver ---- *)
Definition has_data (data : option bytes) : bool := match data with Some _ => true | None => false end.
Definition data_length (data : option bytes) : N := match data with Some d => blen d | None => 0 end.
Definition low_lba (g : regs) : N := g_lbal g + 2 ^ 8 * g_lbam g + 2 ^ 16 * g_lbah g.
Definition tf_is_lba48 (t : tf) : bool := negb (t_lba48 t =? 0).
(** Registers of a task file as numbers; without the 48-bit flag only the low halves count. *)
Definition tf_features (t : tf) : N := (if tf_is_lba48 t then 256 * g_feat (t_hob t) else 0) + g_feat (t_lob t).
Definition tf_count (t : tf) : N := (if tf_is_lba48 t then 256 * g_nsect (t_hob t) else 0) + g_nsect (t_lob t).
Definition tf_lba (t : tf) : N := low_lba (t_lob t) + (if tf_is_lba48 t then 2 ^ 24 * low_lba (t_hob t) else 0).
Definition wf_regs (g : regs) : Prop := g_feat g < 256 /\ g_nsect g < 256 /\ g_lbal g < 256 /\ g_lbam g < 256 /\ g_lbah g < 256.
Definition wf_tf (t : tf) : Prop :=
  t_dev t < 256 /\ t_command t < 256 /\ t_error t < 256 /\ t_status t < 256 /\ t_lba48 t < 256 /\ wf_regs (t_lob t) /\ wf_regs (t_hob t).
(** The ioctl of an answer succeeded; its error number otherwise. *)
Definition succeeded (a : sg_ans) : Prop := an_errno a = 0 /\ an_ret a = 0.
Definition error_number (a : sg_ans) : N := if an_errno a =? 0 then an_ret a else an_errno a.
(** The 32 sense bytes the caller finds after one answer: what the device returned, zero-filled. *)
Definition sense32 (a : sg_ans) : bytes := fill (zeros 32) (firstn 32 (an_sense a)).

Lemma succeeded_ok a : succeeded a <-> ok_answer a = true.
Proof. unfold succeeded, ok_answer. rewrite andb_true_iff, !N.eqb_eq. reflexivity. Qed.
Lemma failed_ok a : ~ succeeded a <-> ok_answer a = false.
Proof. rewrite succeeded_ok. destruct (ok_answer a); split; congruence. Qed.

(** ---- C58: every request carries the command asked for ---- *)
Definition request_of (rw dma : bool) (t : tf) (data : option bytes) (c : sg_call) : Prop :=
  sat_decode (sg_cdb c) =
    Some {| sat_multiple := 0;
            sat_protocol := protocol_code (if has_data data then if dma then Dma else if rw then PioOut else PioIn else NonData);
            sat_extend := tf_is_lba48 t;
            sat_offline := 0; sat_ck_cond := negb (has_data data); sat_t_type := false;
            sat_from_device := has_data data && negb rw;
            sat_byte_block := has_data data; sat_t_length := if has_data data then 2 else 0;
            sat_features := tf_features t; sat_count := tf_count t; sat_lba := tf_lba t;
            sat_device := t_dev t; sat_command := t_command t |}
  /\ blen (sg_cdb c) = (if tf_is_lba48 t then 16 else 12)
  /\ sg_dir c = (if has_data data then if rw then -2 else -3 else -1)%Z
  /\ sg_len c = data_length data mod 2 ^ 32
  /\ sg_mx_sb c = 32.

Lemma request_lemma rw dma t data secs w m : wf_tf t -> request_of rw dma t data (task_request rw dma t data secs w m).
Proof.
  intros (_ & Hc & _). unfold request_of, task_request. cbn [sg_cdb sg_dir sg_len sg_mx_sb].
  change (match data with Some _ => true | None => false end) with (has_data data).
  split.
  - rewrite decode_task, (N.mod_small _ _ Hc). unfold tf_features, tf_count, tf_lba, tf_is_lba48, low_lba, lba48.
    change (2 ^ 8) with 256. change (2 ^ 16) with 65536. change (2 ^ 24) with 16777216. change (2 ^ 32) with 4294967296.
    change (2 ^ 40) with 1099511627776.
    apply f_equal. destruct (t_lba48 t =? 0); cbn [negb]; rewrite ?N.add_0_l, ?N.mul_0_r, ?N.add_0_r; [reflexivity|].
    match goal with |- {| sat_multiple := _; sat_protocol := _; sat_extend := _; sat_offline := _; sat_ck_cond := _; sat_t_type := _;
       sat_from_device := _; sat_byte_block := _; sat_t_length := _; sat_features := _; sat_count := _; sat_lba := ?x; sat_device := _; sat_command := _ |}
       = {| sat_multiple := _; sat_protocol := _; sat_extend := _; sat_offline := _; sat_ck_cond := _; sat_t_type := _;
       sat_from_device := _; sat_byte_block := _; sat_t_length := _; sat_features := _; sat_count := _; sat_lba := ?y; sat_device := _; sat_command := _ |} =>
       replace x with y by lia end. reflexivity.
  - split; [unfold task_cdb, tf_is_lba48; destruct (t_lba48 t =? 0); reflexivity|].
    split; [unfold ternary, SG_DXFER_NONE, SG_DXFER_TO_DEV, SG_DXFER_FROM_DEV; destruct (has_data data), rw; reflexivity|].
    split; [destruct data; reflexivity|reflexivity].
Qed.

Theorem C58_task_file_requests : forall K h rw dma t data addr secs h' r,
  wf_tf t -> sg_task_file K h rw dma t data addr secs = (h', r) ->
  exists calls, h' = h ++ calls /\ (List.length calls <= 2)%nat /\ Forall (request_of rw dma t data) calls
  /\ (calls = [] <-> data = Some []) /\ (r = Panic <-> data = Some []).
Proof.
  intros K h rw dma t data addr secs h' r Hw H.
  assert (D : data = Some [] \/ data <> Some []) by (destruct data as [[|]|]; (left; reflexivity) || (right; discriminate)).
  destruct D as [->|Hd].
  - rewrite task_empty in H. inversion H; subst. exists []. rewrite app_nil_r. repeat split; auto; constructor.
  - rewrite task_closed in H by exact Hd. cbv zeta in H.
    set (c1 := task_first rw dma t data addr secs) in *. set (c2 := task_second rw dma t data secs) in *.
    assert (R1 : request_of rw dma t data c1) by (unfold c1, task_first; destruct data; now apply request_lemma).
    assert (R2 : request_of rw dma t data c2) by (now apply request_lemma).
    destruct (ok_answer (K (h ++ [c1]))); inversion H; subst h' r.
    + exists [c1]. repeat split; auto; try congruence; try (cbn; lia).
    + exists [c1; c2]. repeat split; auto; try congruence; try (cbn; lia).
Qed.
Print Assumptions C58_task_file_requests.

(** The packet id of every request is the start LBA (28-bit form: with the low nibble of the device register) as an int32. *)
Theorem C58_packet_id : forall K h rw dma t data addr secs h' r c,
  wf_tf t -> sg_task_file K h rw dma t data addr secs = (h', r) -> In c (skipn (List.length h) h') ->
  (- 2 ^ 31 <= sg_pack_id c < 2 ^ 31)%Z
  /\ (sg_pack_id c mod 2 ^ 32 = Z.of_N (tf_lba t + if tf_is_lba48 t then 0 else 2 ^ 24 * (t_dev t mod 16)) mod 2 ^ 32)%Z.
Proof.
  intros K h rw dma t data addr secs h' r c (Hdev & _ & _ & _ & _ & (_ & _ & L1 & L2 & L3) & (_ & _ & L4 & L5 & L6)) H Hc.
  assert (P : sg_pack_id c = to_int32 (tf_to_lba t)).
  { assert (D : data = Some [] \/ data <> Some []) by (destruct data as [[|]|]; (left; reflexivity) || (right; discriminate)).
    destruct D as [->|Hd].
    { rewrite task_empty in H. inversion H; subst. rewrite skipn_all in Hc. destruct Hc. }
    rewrite task_closed in H by exact Hd. cbv zeta in H.
    set (c1 := task_first rw dma t data addr secs) in *. set (c2 := task_second rw dma t data secs) in *.
    assert (X : c = c1 \/ c = c2).
    { destruct (ok_answer (K (h ++ [c1]))); apply (f_equal fst) in H; cbn [fst] in H; subst h';
        rewrite skipn_app, skipn_all, Nat.sub_diag in Hc; cbn [app skipn In] in Hc; intuition congruence. }
    destruct X as [->| ->]; [unfold c1, task_first; destruct data; reflexivity|reflexivity]. }
  rewrite P. assert (E : tf_lba t + (if tf_is_lba48 t then 0 else 2 ^ 24 * (t_dev t mod 16)) = tf_to_lba t).
  { rewrite tf_to_lba_value by assumption. unfold tf_lba, tf_is_lba48, low_lba. change (2 ^ 8) with 256. change (2 ^ 16) with 65536.
    change (2 ^ 24) with 16777216. destruct (t_lba48 t =? 0); cbn [negb]; lia. }
  rewrite E. apply to_int32_spec.
Qed.
Print Assumptions C58_packet_id.

(** ---- C59: data read from the device ---- *)
Theorem C59_read_data : forall K h dma t d addr secs h' r,
  d <> [] -> sg_task_file K h false dma t (Some d) addr secs = (h', r) ->
  exists e t' got c rest, r = Ok (e, (t', Some got)) /\ h' = h ++ c :: rest
  /\ let a := K (h ++ [c]) in
     (succeeded a -> delivered (if addr mod 512 =? 0 then d else zeros (List.length d)) (an_in a) got)
     /\ (~ succeeded a -> if addr mod 512 =? 0 then delivered d (an_in a) got else got = d).
Proof.
  intros K h dma t d addr secs h' r Hd H.
  rewrite task_closed in H by congruence. cbv zeta in H. set (c1 := task_first false dma t (Some d) addr secs) in *.
  set (c2 := task_second false dma t (Some d) secs) in *. cbn [task_got] in H. unfold aligned512 in H.
  destruct (ok_answer (K (h ++ [c1]))) eqn:E1.
  - set (g := if addr mod 512 =? 0 then _ else _) in H.
    assert (X : exists e t', r = Ok (e, (t', Some g))) by (destruct (sense_error _) in H; inversion H; eauto).
    destruct X as (e & t' & ->). exists e, t', g, c1, []. split; [reflexivity|]. split; [inversion H; reflexivity|].
    cbv zeta. split; [intros _|intros F; now apply failed_ok in F; congruence].
    unfold g. destruct (addr mod 512 =? 0); apply fill_delivered.
  - set (g := if addr mod 512 =? 0 then _ else _) in H.
    assert (X : exists e t', r = Ok (e, (t', Some g))).
    { destruct (ok_answer (K (h ++ [c1; c2]))) in H; [destruct (sense_error _) in H|]; inversion H; eauto. }
    destruct X as (e & t' & ->). exists e, t', g, c1, [c2]. split; [reflexivity|]. split; [inversion H; reflexivity|].
    cbv zeta. split; [intros F; apply succeeded_ok in F; congruence|intros _].
    unfold g. destruct (addr mod 512 =? 0); [apply fill_delivered|reflexivity].
Qed.
Print Assumptions C59_read_data.

(** ---- C60: a write never sends the caller's data ---- *)
Theorem C60_writes_send_zeros : forall K h dma t d addr secs h' r,
  d <> [] -> sg_task_file K h true dma t (Some d) addr secs = (h', r) ->
  (exists e t', r = Ok (e, (t', Some (zeros (List.length d)))))
  /\ exists c rest, h' = h ++ c :: rest
     /\ sg_mem c = zeros (List.length d) /\ (sg_where c = XCaller \/ sg_where c = XBounce)
     /\ (forall c', In c' rest -> sg_where c' = XAddr 128 /\ sg_mem c' = []).
Proof.
  intros K h dma t d addr secs h' r Hd H.
  rewrite task_closed in H by congruence. cbv zeta in H. set (c1 := task_first true dma t (Some d) addr secs) in *.
  set (c2 := task_second true dma t (Some d) secs) in *. cbn [task_got] in H.
  assert (M : sg_mem c1 = zeros (List.length d) /\ (sg_where c1 = XCaller \/ sg_where c1 = XBounce)).
  { unfold c1, task_first, task_request. cbn [sg_mem sg_where]. unfold first_where. destruct (aligned512 addr); auto. }
  destruct (ok_answer (K (h ++ [c1]))) eqn:E1.
  - split; [destruct (sense_error _) in H; inversion H; eauto|]. exists c1, []. inversion H. split; [reflexivity|]. cbn [In]. tauto.
  - split.
    + destruct (ok_answer (K (h ++ [c1; c2]))) in H; [destruct (sense_error _) in H|]; inversion H; eauto.
    + exists c1, [c2]. inversion H. split; [reflexivity|]. split; [tauto|]. split; [tauto|].
      intros c' [<-|[]]. split; reflexivity.
Qed.
Print Assumptions C60_writes_send_zeros.

(** What a user expects (the first request offers the caller's bytes) fails for every non-zero buffer. *)
Theorem C60_write_content_refuted : forall K h dma t d addr secs h' r,
  d <> [] -> d <> zeros (List.length d) -> sg_task_file K h true dma t (Some d) addr secs = (h', r) ->
  ~ exists c, In c (skipn (List.length h) h') /\ sg_mem c = d.
Proof.
  intros K h dma t d addr secs h' r Hd Hz H (c & Hc & Hm).
  destruct (C60_writes_send_zeros K h dma t d addr secs h' r Hd H) as (_ & c1 & rest & -> & M & _ & R).
  rewrite skipn_app, skipn_all, Nat.sub_diag in Hc. cbn [app skipn] in Hc. destruct Hc as [<-|Hc]; [congruence|].
  destruct (R c Hc) as [_ M']. congruence.
Qed.
Print Assumptions C60_write_content_refuted.

(** ---- C61: attempts ---- *)
Definition same_request (c c' : sg_call) : Prop :=
  sg_dir c = sg_dir c' /\ sg_cdb c = sg_cdb c' /\ sg_mx_sb c = sg_mx_sb c' /\ sg_len c = sg_len c'
  /\ sg_timeout_ms c = sg_timeout_ms c' /\ sg_pack_id c = sg_pack_id c'.

Theorem C61_attempts : forall K h rw dma t data addr secs h' r,
  data <> Some [] -> sg_task_file K h rw dma t data addr secs = (h', r) ->
  exists c1, let a1 := K (h ++ [c1]) in
  (succeeded a1 -> h' = h ++ [c1]
     /\ forall e t' d, r = Ok (e, (t', d)) -> forall k s, e <> Some (EExt k s))
  /\ (~ succeeded a1 ->
      exists c2, let a2 := K (h ++ [c1; c2]) in
      h' = h ++ [c1; c2] /\ same_request c2 c1 /\ sg_where c2 = XAddr 128
      /\ (succeeded a2 -> forall e t' d, r = Ok (e, (t', d)) -> forall k s, e <> Some (EExt k s))
      /\ (~ succeeded a2 -> exists t' d, r = Ok (Some (errno (error_number a2)), (t', d)))).
Proof.
  intros K h rw dma t data addr secs h' r Hd H. rewrite task_closed in H by exact Hd. cbv zeta in H.
  set (c1 := task_first rw dma t data addr secs) in *. set (c2 := task_second rw dma t data secs) in *.
  exists c1. cbv zeta.
  assert (SE : forall s x, sense_error s = Some x -> forall k m, Some x <> Some (EExt k m)).
  { intros s x E k m. unfold sense_error in E. destruct (negb _); inversion E. discriminate. }
  destruct (ok_answer (K (h ++ [c1]))) eqn:E1; (split; intros F; [apply succeeded_ok in F|apply failed_ok in F]; try congruence).
  - inversion H; subst h' r. split; [reflexivity|]. intros e t' d X k s. destruct (sense_error _) eqn:S; inversion X; subst; [eapply SE; eauto|discriminate].
  - inversion H; subst h' r. exists c2. split; [reflexivity|]. split.
    + unfold same_request, c1, c2, task_first, task_second, task_request. destruct data; repeat split; reflexivity.
    + split; [reflexivity|]. split; intros G; [apply succeeded_ok in G|apply failed_ok in G]; rewrite G.
      * intros e t' d X k s. destruct (sense_error _) eqn:S; inversion X; subst; [eapply SE; eauto|discriminate].
      * eauto.
Qed.
Print Assumptions C61_attempts.

(** ---- C62: when is an error reported ---- *)
(** Low nibble of sense byte 2, the only thing looked at. *)
Definition nibble2 (s : bytes) : N := bit_range (nth 2 s 0) 0 4.
Lemma key_nibble s : get_sense_key (firstn 18 s) = nibble2 s.
Proof.
  unfold get_sense_key, nibble2, bit_range, sense_byte. change 0x0F with (N.ones 4). rewrite N.land_ones. change (2 ^ 0) with 1. rewrite N.div_1_r.
  f_equal. destruct s as [|x [|y [|z s]]]; reflexivity.
Qed.

Theorem C62_error_detection : forall K h rw dma t data addr secs h' r,
  data <> Some [] -> sg_task_file K h rw dma t data addr secs = (h', r) ->
  exists e t' d c1 rest, r = Ok (e, (t', d)) /\ h' = h ++ c1 :: rest
  /\ let a1 := K (h ++ [c1]) in
     (succeeded a1 \/ (exists c2, rest = [c2] /\ succeeded (K (h ++ [c1; c2]))) ->
      (* some attempt succeeded: what the first answer's sense says decides *)
      (nibble2 (sense32 a1) = 0 -> e = None)
      /\ (nibble2 (sense32 a1) <> 0 ->
          exists msg, e = Some (EDparm msg (match an_status a1 with Some x => x | None => 0 end) (firstn 18 (sense32 a1))) /\ t' = t))
     /\ (~ succeeded a1 -> (forall c2, rest = [c2] -> ~ succeeded (K (h ++ [c1; c2]))) -> exists k, e = Some (errno k)).
Proof.
  intros K h rw dma t data addr secs h' r Hd H. rewrite task_closed in H by exact Hd. cbv zeta in H.
  set (c1 := task_first rw dma t data addr secs) in *. set (c2 := task_second rw dma t data secs) in *.
  set (a1 := K (h ++ [c1])) in *. set (s1 := after 32 sg_state0 a1) in *.
  assert (S1 : s_sense s1 = sense32 a1) by reflexivity.
  assert (Fin : forall e t' (d : option bytes), match sense_error s1 with Some x => (Some x, (t, d)) | None => (None, (task_result s1 t, d)) end = (e, (t', d)) ->
     (nibble2 (sense32 a1) = 0 -> e = None)
      /\ (nibble2 (sense32 a1) <> 0 ->
          exists msg, e = Some (EDparm msg (match an_status a1 with Some x => x | None => 0 end) (firstn 18 (sense32 a1))) /\ t' = t)).
  { intros e t' d E. unfold sense_error in E. rewrite S1, key_nibble in E. destruct (N.eqb_spec (nibble2 (sense32 a1)) 0) as [Z|Z]; cbn [negb] in E; inversion E; subst.
    - split; [reflexivity|congruence].
    - split; [congruence|]. intros _. eexists. split; reflexivity. }
  set (d0 := task_got rw data addr (ok_answer a1) a1) in *.
  destruct (ok_answer a1) eqn:E1.
  - inversion H; subst h' r.
    destruct (match sense_error s1 with Some x => (Some x, (t, d0)) | None => (None, (task_result s1 t, d0)) end) as [e [t' d]] eqn:R.
    assert (d = d0) by (destruct (sense_error s1); inversion R; reflexivity). subst d.
    exists e, t', d0, c1, []. split; [reflexivity|]. split; [reflexivity|]. cbv zeta. split; [intros _; eapply Fin; exact R|].
    intros F. apply failed_ok in F. unfold a1 in E1. congruence.
  - destruct (ok_answer (K (h ++ [c1; c2]))) eqn:E2; inversion H; subst h' r.
    + destruct (match sense_error s1 with Some x => (Some x, (t, d0)) | None => (None, (task_result s1 t, d0)) end) as [e [t' d]] eqn:R.
      assert (d = d0) by (destruct (sense_error s1); inversion R; reflexivity). subst d.
      exists e, t', d0, c1, [c2]. split; [reflexivity|]. split; [reflexivity|]. cbv zeta. split; [intros _; eapply Fin; exact R|].
      intros _ F. exfalso. apply (F c2 eq_refl). now apply succeeded_ok.
    + eexists _, _, _, c1, [c2]. split; [reflexivity|]. split; [reflexivity|]. cbv zeta. split.
      * intros [F|(c & Ec & F)]; [apply succeeded_ok in F; unfold a1 in E1; congruence|]. inversion Ec; subst c. apply succeeded_ok in F. congruence.
      * intros _ _. eauto.
Qed.
Print Assumptions C62_error_detection.

(** For fixed-format sense the nibble is the sense key, so every failed command is reported; for descriptor format it is the
    low nibble of the ADDITIONAL SENSE CODE, so a failure is reported exactly when that nibble is not 0. *)
Theorem C62_sense_formats : forall s k, sense_key s = Some k ->
  ((bit_range (nth 0 s 0) 0 7 = 0x70 \/ bit_range (nth 0 s 0) 0 7 = 0x71) -> nibble2 s = k)
  /\ ((bit_range (nth 0 s 0) 0 7 = 0x72 \/ bit_range (nth 0 s 0) 0 7 = 0x73) -> k = bit_range (nth 1 s 0) 0 4).
Proof.
  intros s k H. unfold sense_key in H. split; intros [E|E]; rewrite E in H; cbn in H; inversion H; reflexivity.
Qed.
Print Assumptions C62_sense_formats.

(** A device that aborts the command (CHECK CONDITION, descriptor sense, key Bh ABORTED COMMAND, ASC 0) is reported as success. *)
Theorem C62_all_failures_reported_refuted : exists K h rw dma t data addr secs h' t' d' c,
  sg_task_file K h rw dma t data addr secs = (h', Ok (None, (t', d'))) /\ h' = h ++ [c]
  /\ succeeded (K h') /\ an_status (K h') = Some 2 /\ sense_key (an_sense (K h')) = Some 0x0B.
Proof.
  exists (fun _ => {| an_errno := 0; an_ret := 0; an_in := []; an_sense := [0x72; 0x0B; 0; 0; 0; 0; 0; 0]; an_status := Some 2 |}).
  exists [], false, false, identify_tf, (Some (zeros 4)), 0, 3%Z. eexists _, _, _, _.
  split; [vm_compute; reflexivity|]. split; [reflexivity|]. split; [split; reflexivity|]. split; reflexivity.
Qed.
Print Assumptions C62_all_failures_reported_refuted.

(** ---- C63: the task file afterwards ---- *)
Theorem C63_result_registers : forall K h rw dma t data addr secs h' e t' d,
  sg_task_file K h rw dma t data addr secs = (h', Ok (e, (t', d))) ->
  (forall msg st s, e <> Some (EDparm msg st s)) ->
  exists c1 rest, h' = h ++ c1 :: rest
  /\ let a1 := K (h ++ [c1]) in
     let sense := match rest with
                  | [c2] => if ok_answer (K (h ++ [c1; c2])) then sense32 a1
                            else fill (sense32 a1) (firstn 32 (an_sense (K (h ++ [c1; c2]))))
                  | _ => sense32 a1 end in
     let v := ata_status_return sense in
     tf_is_lba48 t' = as_extend v /\ t_error t' = as_error v /\ t_status t' = as_status v /\ t_dev t' = as_device v
     /\ tf_count t' = as_count v /\ tf_lba t' = as_lba v
     /\ t_command t' = t_command t /\ g_feat (t_lob t') = g_feat (t_lob t) /\ g_feat (t_hob t') = 0.
Proof.
  intros K h rw dma t data addr secs h' e t' d H Hn.
  assert (Hd : data <> Some []) by (intros ->; rewrite task_empty in H; discriminate).
  rewrite task_closed in H by exact Hd. cbv zeta in H.
  set (c1 := task_first rw dma t data addr secs) in *. set (c2 := task_second rw dma t data secs) in *.
  set (a1 := K (h ++ [c1])) in *. set (s1 := after 32 sg_state0 a1) in *. set (d0 := task_got rw data addr (ok_answer a1) a1) in *.
  assert (R : forall s x, x = task_result s t ->
     let v := ata_status_return (s_sense s) in
     tf_is_lba48 x = as_extend v /\ t_error x = as_error v /\ t_status x = as_status v /\ t_dev x = as_device v
     /\ tf_count x = as_count v /\ tf_lba x = as_lba v
     /\ t_command x = t_command t /\ g_feat (t_lob x) = g_feat (t_lob t) /\ g_feat (t_hob x) = 0).
  { intros s x ->. cbv zeta. unfold ata_status_return, task_result, tf_is_lba48, tf_count, tf_lba, tf_is_lba48, low_lba, lba48.
    cbn [t_lba48 t_error t_status t_dev t_lob t_hob t_command g_feat g_nsect g_lbal g_lbam g_lbah as_extend as_error as_status as_device as_count as_lba].
    change (2 ^ 8) with 256. change (2 ^ 16) with 65536. change (2 ^ 24) with 16777216. change (2 ^ 32) with 4294967296.
    change (2 ^ 40) with 1099511627776.
    rewrite !testbit0_land. destruct (N.testbit (nth (8 + 2) (s_sense s) 0) 0); repeat split; try reflexivity; lia. }
  assert (SE : forall s x, sense_error s = Some x -> Some x = e -> False).
  { intros s x E X. unfold sense_error in E. destruct (negb _); inversion E; subst. eapply Hn. reflexivity. }
  destruct (ok_answer a1) eqn:E1.
  - destruct (sense_error s1) eqn:S; inversion H; subst; [exfalso; eapply SE; eauto|].
    exists c1, []. split; [reflexivity|]. exact (R s1 _ eq_refl).
  - destruct (ok_answer (K (h ++ [c1; c2]))) eqn:E2.
    + destruct (sense_error s1) eqn:S; inversion H; subst; [exfalso; eapply SE; eauto|].
      exists c1, [c2]. split; [reflexivity|]. cbv zeta. rewrite E2. exact (R s1 _ eq_refl).
    + inversion H; subst. exists c1, [c2]. split; [reflexivity|]. cbv zeta. rewrite E2. exact (R (after 32 s1 (K (h ++ [c1; c2]))) _ eq_refl).
Qed.
Print Assumptions C63_result_registers.

(** ---- C64: timeouts ---- *)
Theorem C64_timeouts : forall K h h' r,
  (forall rw dma t data addr secs c, sg_task_file K h rw dma t data addr secs = (h', r) -> (0 <= secs < 2 ^ 32)%Z ->
     In c (skipn (List.length h) h') -> Z.of_N (sg_timeout_ms c) = secs)
  /\ (forall rw dma protocol comId data addr secs c, forall r', sg_security K h rw dma protocol comId data addr secs = (h', r') -> (0 <= secs)%Z ->
     (secs * 1000 < 2 ^ 32)%Z -> In c (skipn (List.length h) h') -> Z.of_N (sg_timeout_ms c) = (secs * 1000)%Z).
Proof.
  intros K h h' r. split.
  - intros rw dma t data addr secs c H Hs Hc.
    assert (U : Z.of_N (to_uint32 secs) = secs) by (unfold to_uint32; rewrite Z.mod_small by exact Hs; lia).
    assert (D : data = Some [] \/ data <> Some []) by (destruct data as [[|]|]; (left; reflexivity) || (right; discriminate)).
    destruct D as [->|Hd].
    { rewrite task_empty in H. inversion H; subst. rewrite skipn_all in Hc. destruct Hc. }
    rewrite task_closed in H by exact Hd. cbv zeta in H.
    set (c1 := task_first rw dma t data addr secs) in *. set (c2 := task_second rw dma t data secs) in *.
    assert (T1 : sg_timeout_ms c1 = to_uint32 secs) by (unfold c1, task_first, task_request; destruct data; reflexivity).
    assert (T2 : sg_timeout_ms c2 = to_uint32 secs) by reflexivity.
    assert (X : c = c1 \/ c = c2).
    { destruct (ok_answer (K (h ++ [c1]))); apply (f_equal fst) in H; cbn [fst] in H; subst h';
        rewrite skipn_app, skipn_all, Nat.sub_diag in Hc; cbn [app skipn In] in Hc; intuition congruence. }
    destruct X as [->| ->]; congruence.
  - intros rw dma protocol comId data addr secs c r' H H0 Hs Hc.
    assert (U : Z.of_N ((to_uint32 secs * 1000) mod 2 ^ 32) = (secs * 1000)%Z).
    { unfold to_uint32. rewrite (Z.mod_small secs) by lia. rewrite N.mod_small; [lia|]. change (2 ^ 32) with 4294967296. lia. }
    destruct data as [|x data].
    { rewrite security_empty in H. inversion H; subst. rewrite skipn_all in Hc. destruct Hc. }
    rewrite security_closed in H by discriminate. cbv zeta in H.
    set (c1 := sec_first rw protocol comId (x :: data) addr secs) in *. set (c2 := sec_second rw protocol comId (x :: data) secs) in *.
    assert (T1 : sg_timeout_ms c1 = (to_uint32 secs * 1000) mod 2 ^ 32) by reflexivity.
    assert (T2 : sg_timeout_ms c2 = (to_uint32 secs * 1000) mod 2 ^ 32) by reflexivity.
    assert (X : c = c1 \/ c = c2).
    { destruct (ok_answer (K (h ++ [c1]))); apply (f_equal fst) in H; cbn [fst] in H; subst h';
        rewrite skipn_app, skipn_all, Nat.sub_diag in Hc; cbn [app skipn In] in Hc; intuition congruence. }
    destruct X as [->| ->]; congruence.
Qed.
Print Assumptions C64_timeouts.

(** ---- C65: security commands ---- *)
Theorem C65_security_command : forall K h rw dma protocol comId data addr secs h' r,
  comId < 2 ^ 16 -> blen data < 2 ^ 32 -> data <> [] ->
  sg_security K h rw dma protocol comId data addr secs = (h', r) ->
  exists e got c rest, r = Ok (e, got) /\ h' = h ++ c :: rest /\ (List.length rest <= 1)%nat
  /\ (forall c', In c' (c :: rest) ->
        security_decode (sg_cdb c') = Some {| sc_out := rw; sc_protocol := protocol; sc_specific := comId; sc_inc512 := false; sc_length := blen data |}
        /\ sg_dir c' = (if rw then -2 else -3)%Z /\ sg_len c' = blen data /\ sg_mx_sb c' = 0)
  /\ (rw = true -> sg_mem c = data /\ got = data)
  /\ (rw = false -> sg_mem c = zeros (List.length data)
      /\ if ok_answer (K (h ++ [c])) || (addr mod 512 =? 0) then delivered (zeros (List.length data)) (an_in (K (h ++ [c]))) got
         else got = zeros (List.length data))
  (* the SCSI status and the sense data never matter *)
  /\ (e = None <-> succeeded (K (h ++ [c])) \/ exists c2, rest = [c2] /\ succeeded (K (h ++ [c; c2])))
  (* a second request is sent exactly when the first ioctl failed, and its error is the one returned *)
  /\ (succeeded (K (h ++ [c])) <-> rest = [])
  /\ (e <> None -> exists c2, rest = [c2] /\ e = Some (errno (error_number (K (h ++ [c; c2]))))).
Proof.
  intros K h rw dma protocol comId data addr secs h' r Hc Hl Hd H.
  rewrite security_closed in H by exact Hd. cbv zeta in H.
  set (c1 := sec_first rw protocol comId data addr secs) in *. set (c2 := sec_second rw protocol comId data secs) in *.
  assert (Rq : forall w m, let c' := security_request rw protocol comId data secs w m in
        security_decode (sg_cdb c') = Some {| sc_out := rw; sc_protocol := protocol; sc_specific := comId; sc_inc512 := false; sc_length := blen data |}
        /\ sg_dir c' = (if rw then -2 else -3)%Z /\ sg_len c' = blen data /\ sg_mx_sb c' = 0).
  { intros w m. cbv zeta. unfold security_request. cbn [sg_cdb sg_dir sg_len sg_mx_sb]. rewrite (N.mod_small _ _ Hl).
    rewrite decode_security by assumption. destruct rw; repeat split; reflexivity. }
  assert (M1 : sg_mem c1 = if rw then data else zeros (List.length data)) by reflexivity.
  set (a1 := K (h ++ [c1])) in *. change (aligned512 addr) with (addr mod 512 =? 0) in H. destruct (ok_answer a1) eqn:E1.
  - inversion H; subst h' r. eexists None, _, c1, []. split; [reflexivity|]. split; [reflexivity|]. split; [cbn; lia|].
    split. { intros c' [<-|[]]. apply Rq. }
    split. { intros ->. auto. }
    split. { intros ->. split; [exact M1|]. fold a1. rewrite E1. cbn [orb]. apply fill_delivered. }
    split; [split; [|reflexivity]; intros _; left; now apply succeeded_ok|].
    split; [split; [reflexivity|intros _; now apply succeeded_ok]|]. intros F. now destruct F.
  - inversion H; subst h' r. eexists _, _, c1, [c2]. split; [reflexivity|]. split; [reflexivity|]. split; [cbn; lia|].
    split. { intros c' [<-|[<-|[]]]; apply Rq. }
    split. { intros ->. auto. }
    split. { intros ->. split; [exact M1|]. fold a1. rewrite E1. cbn [orb]. destruct (addr mod 512 =? 0); [apply fill_delivered|reflexivity]. }
    split; [split|split; [split|]].
    + destruct (ok_answer (K (h ++ [c1; c2]))) eqn:E2; [|discriminate]. intros _. right. exists c2. split; [reflexivity|]. now apply succeeded_ok.
    + intros [F|(c' & Ec & F)]; [apply succeeded_ok in F; unfold a1 in E1; congruence|]. inversion Ec; subst c'. apply succeeded_ok in F. now rewrite F.
    + intros F. apply succeeded_ok in F. unfold a1 in E1. congruence.
    + discriminate.
    + intros F. exists c2. split; [reflexivity|]. destruct (ok_answer (K (h ++ [c1; c2]))) eqn:E2; [now destruct F|reflexivity].
Qed.
Print Assumptions C65_security_command.

(** An empty buffer panics before anything is sent. *)
Theorem C65_empty_panics : forall K h rw dma protocol comId addr secs,
  sg_security K h rw dma protocol comId [] addr secs = (h, Panic).
Proof. exact security_empty. Qed.
Print Assumptions C65_empty_panics.

(** ---- C66: opening a drive ---- *)
Theorem C66_open : forall K h addr h' r,
  addr mod 512 = 0 -> sg_open K h addr = (h', r) ->
  exists c1 rest, h' = h ++ c1 :: rest /\ (List.length rest <= 1)%nat
  /\ (forall c, In c (c1 :: rest) -> sg_cdb c = [0xA1; 0x08; 0x0E; 0; 1; 0; 0; 0; 0; 0xEC; 0; 0] /\ sg_len c = 512 /\ sg_dir c = (-3)%Z)
  /\ match r with
     | Ok identity => delivered (zeros 512) (an_in (K (h ++ [c1]))) identity
         /\ (succeeded (K (h ++ [c1])) \/ exists c2, rest = [c2] /\ succeeded (K (h ++ [c1; c2])))
         /\ nibble2 (sense32 (K (h ++ [c1]))) = 0
     | Err e => (exists c2, rest = [c2] /\ e = errno (error_number (K (h ++ [c1; c2]))) /\ ~ succeeded (K (h ++ [c1])) /\ ~ succeeded (K (h ++ [c1; c2])))
         \/ nibble2 (sense32 (K (h ++ [c1]))) <> 0 /\ exists msg st s, e = EDparm msg st s
     | Panic | Fuel => False
     end.
Proof.
  intros K h addr h' r Ha H. unfold sg_open in H. rewrite task_closed in H by discriminate. cbv zeta in H.
  set (c1 := task_first _ _ _ _ _ _) in *. set (c2 := task_second _ _ _ _ _) in *.
  assert (Al : aligned512 addr = true) by (unfold aligned512; now apply N.eqb_eq).
  cbn [task_got] in H. rewrite Al in H. cbn [new_aligned a_data] in H.
  assert (Q : forall c, In c [c1; c2] -> sg_cdb c = [0xA1; 0x08; 0x0E; 0; 1; 0; 0; 0; 0; 0xEC; 0; 0] /\ sg_len c = 512 /\ sg_dir c = (-3)%Z).
  { intros c [<-|[<-|[]]]; repeat split; try reflexivity. }
  set (a1 := K (h ++ [c1])) in *. set (s1 := after 32 sg_state0 a1) in *.
  assert (G : List.length (fill (zeros 512) (an_in a1)) = 512%nat) by (rewrite fill_length; apply repeat_length).
  pose proof (bounce_read (fill (zeros 512) (an_in a1)) 512 G ltac:(lia)) as BR.
  assert (G' : fill (zeros 512) (fill (zeros 512) (an_in a1)) = fill (zeros 512) (an_in a1)).
  { apply fill_whole. rewrite G. apply repeat_length. }
  assert (SE : sense_error s1 = None /\ nibble2 (sense32 a1) = 0 \/ exists msg st s, sense_error s1 = Some (EDparm msg st s) /\ nibble2 (sense32 a1) <> 0).
  { unfold sense_error. change (s_sense s1) with (sense32 a1). rewrite key_nibble. destruct (N.eqb_spec (nibble2 (sense32 a1)) 0); [left|right]; cbn [negb]; auto.
    eexists _, _, _. split; [reflexivity|assumption]. }
  destruct (ok_answer a1) eqn:E1.
  - exists c1, []. destruct SE as [[S N0]|(msg & st & s & S & N0)]; rewrite S in H; cbv iota beta in H; rewrite ?BR, ?G' in H; inversion H; subst h' r; (split; [reflexivity|]); (split; [cbn; lia|]);
      (split; [intros c [<-|[]]; apply Q; cbn; auto|]).
    + split; [apply fill_delivered|]. split; [left; now apply succeeded_ok|exact N0].
    + right. split; [exact N0|eauto].
  - destruct (ok_answer (K (h ++ [c1; c2]))) eqn:E2.
    + exists c1, [c2]. destruct SE as [[S N0]|(msg & st & s & S & N0)]; rewrite S in H; cbv iota beta in H; rewrite ?BR, ?G' in H; inversion H; subst h' r; (split; [reflexivity|]); (split; [cbn; lia|]);
      (split; [intros c [<-|[<-|[]]]; apply Q; cbn; auto|]).
      * split; [apply fill_delivered|]. split; [|exact N0]. right. exists c2. split; [reflexivity|]. now apply succeeded_ok.
      * right. split; [exact N0|eauto].
    + exists c1, [c2]. inversion H; subst h' r. (split; [reflexivity|]); (split; [cbn; lia|]);
      (split; [intros c [<-|[<-|[]]]; apply Q; cbn; auto|]).
      left. exists c2. split; [reflexivity|]. split; [reflexivity|]. split; now apply failed_ok.
Qed.
Print Assumptions C66_open.
