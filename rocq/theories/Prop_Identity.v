(** Property theorems C48-C56 (identify data, SMART data, discovery descriptors, ata_util). *)
From Verif Require Import Base Spec_Buffer M_Buffer M_Struc M_Layouts M_Ata M_TcgDevice M_DriveHandle M_AtaUtil Spec_Drive Spec_Identity
  P_Struc P_Discovery P_DriveHandle P_Identity Prop_Drive Prop_TcgDevice.

(** C48.  [ata_places] and [ata_texts] (Spec_Identity) say where ACS puts each field. *)
Theorem C48_ata_identify_fields : forall V p h h' p' r,
  p_dh p = Some {| is_ata := true; is_nvme := false |} -> List.length (i_raw_serial (p_info p)) = 20%nat ->
  init V p h = (h', (p', r)) ->
  let raw := v_identity V (h ++ [CIdentity]) in
  (512 <= List.length raw)%nat ->
  exists id, i_ata (p_info p') = Some id
  /\ (forall n off sz c, In (n, (off, (sz, c))) ata_places -> field n id = le_elems off sz c raw)
  /\ (forall n off len, In (n, (off, len)) ata_texts -> word_swapped (slice off len raw) (field n id))
  /\ (forall n, field n id <> [] -> In n (map fst ata_places ++ map fst ata_texts)).
Proof. intros V p h h' p' r Hd Hs H raw Hl. exact (c48 V p h h' p' r Hd Hs H Hl). Qed.
Print Assumptions C48_ata_identify_fields.

(** The flag accessors, as bits of 16-bit words of the block. *)
Theorem C48_ata_identify_flags : forall V p h h' p' r,
  p_dh p = Some {| is_ata := true; is_nvme := false |} -> List.length (i_raw_serial (p_info p)) = 20%nat ->
  init V p h = (h', (p', r)) ->
  let raw := v_identity V (h ++ [CIdentity]) in
  (512 <= List.length raw)%nat -> wf raw ->
  exists id, i_ata (p_info p') = Some id
  /\ is_multi_sector_setting_valid id = N.testbit (word 59 raw) 8
  /\ is_sanitize_antifreeze_lock_ext_supported id = N.testbit (word 59 raw) 10
  /\ is_sanitize_operation_standard_compliant id = N.testbit (word 59 raw) 11
  /\ is_sanitize_feature_set_supported id = N.testbit (word 59 raw) 12
  /\ is_crypto_scramble_ext_supported id = N.testbit (word 59 raw) 13
  /\ is_overwrite_ext_supported id = N.testbit (word 59 raw) 14
  /\ is_block_erase_ext_supported id = N.testbit (word 59 raw) 15
  /\ smart_commands_supported id = N.testbit (word 82 raw) 0
  /\ smart_commands_active id = N.testbit (word 85 raw) 0
  /\ get_trim id = N.testbit (word 169 raw) 0.
Proof.
  intros V p h h' p' r Hd Hs H raw Hl Hw. destruct (c48 V p h h' p' r Hd Hs H Hl) as (id & E & Hn & _). fold raw in Hn.
  exists id. split; [exact E|].
  assert (F59 : field1 "Word59.B" id = le_val (slice (2 * 59 + 1) 1 raw)).
  { unfold field1. rewrite (Hn "Word59.B"%string (2 * 59 + 1)%nat 1%nat 1%nat); [reflexivity|]. apply has_place. vm_compute. reflexivity. }
  assert (F82 : field1 "CommandSetSupport.A" id = word 82 raw).
  { unfold field1. rewrite (Hn "CommandSetSupport.A"%string (2 * 82)%nat 2%nat 1%nat); [reflexivity|]. apply has_place. vm_compute. reflexivity. }
  assert (F85 : field1 "CommandSetActive.A" id = word 85 raw).
  { unfold field1. rewrite (Hn "CommandSetActive.A"%string (2 * 85)%nat 2%nat 1%nat); [reflexivity|]. apply has_place. vm_compute. reflexivity. }
  assert (F169 : field1 "DataSetManagementFeature.A" id = word 169 raw).
  { unfold field1. rewrite (Hn "DataSetManagementFeature.A"%string (2 * 169)%nat 2%nat 1%nat); [reflexivity|]. apply has_place. vm_compute. reflexivity. }
  assert (B : forall k m, m = 2 ^ k -> flag8 "Word59.B" m id = N.testbit (word 59 raw) (8 + k)).
  { intros k m ->. unfold flag8. rewrite F59, flag_testbit. apply word_high_bit; [lia|exact Hw]. }
  assert (Z : forall x, negb (N.land x 1 =? 0) = N.testbit x 0) by (intros x; exact (flag_testbit x 0)).
  split; [exact (B 0 _ eq_refl)|]. split; [exact (B 2 _ eq_refl)|]. split; [exact (B 3 _ eq_refl)|]. split; [exact (B 4 _ eq_refl)|].
  split; [exact (B 5 _ eq_refl)|]. split; [exact (B 6 _ eq_refl)|]. split; [exact (B 7 _ eq_refl)|].
  unfold smart_commands_supported, smart_commands_active, get_trim, flag8. rewrite F82, F85, F169, !Z. auto.
Qed.
Print Assumptions C48_ata_identify_flags.

(** C49.  NVMe data structures are little-endian; the fields are read big-endian. *)
Theorem C49_nvme_identify_fields : forall V p h h' p' r,
  p_dh p = Some {| is_ata := false; is_nvme := true |} -> List.length (i_raw_serial (p_info p)) = 20%nat ->
  init V p h = (h', (p', r)) ->
  let raw := v_identity V (h ++ [CIdentity]) in
  4096 <= blen raw ->
  exists id, i_nvme (p_info p') = Some id
  /\ (forall n off sz c, In (n, (off, (sz, c))) nvme_places -> field n id = be_elems off sz c raw)
  /\ (forall n, field n id <> [] -> In n (map fst nvme_places)).
Proof. intros V p h h' p' r Hd Hs H raw Hl. exact (c49 V p h h' p' r Hd Hs H Hl). Qed.
Print Assumptions C49_nvme_identify_fields.

(** Hence a numeric field has its NVMe value exactly when its bytes are a palindrome. *)
Theorem C49_value_correct_iff_palindrome : forall V p h h' p' r n off sz,
  p_dh p = Some {| is_ata := false; is_nvme := true |} -> List.length (i_raw_serial (p_info p)) = 20%nat ->
  init V p h = (h', (p', r)) ->
  let raw := v_identity V (h ++ [CIdentity]) in
  4096 <= blen raw -> wf raw -> In (n, (off, (sz, 1%nat))) nvme_places ->
  exists id, i_nvme (p_info p') = Some id
  /\ (field n id = [le_val (slice off sz raw)] <-> rev (slice off sz raw) = slice off sz raw).
Proof.
  intros V p h h' p' r n off sz Hd Hs H raw Hl Hw Hin. destruct (c49 V p h h' p' r Hd Hs H Hl) as (id & E & Hn & _). fold raw in Hn.
  exists id. split; [exact E|]. rewrite (Hn _ _ _ _ Hin). unfold be_elems. cbn [seq map]. rewrite Nat.mul_0_l, Nat.add_0_r.
  rewrite <- be_le_iff by (apply wf_slice, Hw). split; [congruence|now intros ->].
Qed.
Print Assumptions C49_value_correct_iff_palindrome.

(** C50: what the 16-byte union can be converted to *)
Theorem C50_union_conversions : forall u, List.length u = 16%nat ->
  (exists e, to_tper u = Err e) /\ (exists e, to_locking u = Err e) /\ (exists e, to_geometry u = Err e) /\
  (exists e, to_opal_v200 u = Err e) /\ (exists e, to_enterprise u = Err e) /\
  (exists v, to_basic u = Ok v /\ forall n off sz c, In (n, (off, (sz, c))) basic_places -> field n v = be_elems off sz c u) /\
  (exists v, to_opal_v100 u = Ok v /\ forall n off sz c, In (n, (off, (sz, c))) opal_v100_places -> field n v = be_elems off sz c u) /\
  (exists v, to_single_user u = Ok v /\ forall n off sz c, In (n, (off, (sz, c))) single_user_places -> field n v = be_elems off sz c u) /\
  (exists v, to_data_store u = Ok v /\ forall n off sz c, In (n, (off, (sz, c))) data_store_places -> field n v = be_elems off sz c u).
Proof.
  intros u Hu.
  assert (B : forall lay, (16 < struc_sizeof lay)%nat -> exists e, union_to lay u = Err e).
  { intros lay Hs. destruct (unpack_short struc_default lay u) as (e & E & _); [lia|]. eauto. }
  assert (G : forall lay t, (struc_sizeof lay <= 16)%nat -> agrees lay t = true ->
    exists v, union_to lay u = Ok v /\ forall n off sz c, In (n, (off, (sz, c))) t -> field n v = be_elems off sz c u).
  { intros lay t Hs Ha. unfold union_to. rewrite unpack_ok0 by lia. eexists. split; [reflexivity|].
    intros n off sz c Hin. rewrite (agrees_field struc_default _ _ u _ _ _ _ Ha Hin). reflexivity. }
  split; [apply B; vm_compute; lia|]. split; [apply B; vm_compute; lia|]. split; [apply B; vm_compute; lia|].
  split; [apply B; vm_compute; lia|]. split; [apply B; vm_compute; lia|].
  split; [apply G; [vm_compute; lia|reflexivity]|]. split; [apply G; [vm_compute; lia|reflexivity]|].
  split; [apply G; [vm_compute; lia|reflexivity]|]. apply G; [vm_compute; lia|reflexivity].
Qed.
Print Assumptions C50_union_conversions.

(** The version nibble: the high four bits, the low four kept. *)
Theorem C50_version_field : forall b v, b < 256 -> v < 256 ->
  get_version (set_version b v) = v mod 16 /\ set_version b v mod 16 = b mod 16 /\ set_version b v < 256 /\ get_version b = b / 16.
Proof.
  intros b v Hb Hv.
  assert (E : set_version b v = b mod 16 + (v mod 16) * 16).
  { unfold set_version. change 0x0f with (N.ones 4). rewrite !N.land_ones. change (2 ^ 4) with 16.
    rewrite (N.mod_small (N.shiftl _ _)) by (rewrite N.shiftl_mul_pow2; change (2 ^ 4) with 16; lia).
    rewrite lor_add_disjoint; [reflexivity|]. change (2 ^ 4) with 16. lia. }
  assert (G : forall x, get_version x = (x / 16) mod 16).
  { intros x. unfold get_version. change 0x0f with (N.ones 4). rewrite N.land_ones, N.shiftr_div_pow2. reflexivity. }
  rewrite !G, E. clear G E. lia.
Qed.
Print Assumptions C50_version_field.

(** C51.  The driver calls Init makes before discovery. *)
Definition identify_calls (ty : dtype) : dhist := (if is_ata ty then [CIdentity] else []) ++ (if is_nvme ty then [CIdentity] else []).

Theorem C51_init_then_device : forall V ty p h h1 header fs rest mem,
  p_dh p = Some ty -> p_info p = new_info (i_path (p_info p)) ->
  (is_ata ty = true -> (512 <= List.length (v_identity V (h ++ [CIdentity])))%nat) ->
  (is_nvme ty = true -> 4096 <= blen (v_identity V (h ++ identify_calls ty))) ->
  Forall feature_ok fs -> wf (descriptors fs) -> level0_read V p (h ++ identify_calls ty) h1 None (header ++ descriptors fs ++ rest) ->
  List.length header = 32%nat -> be32_at 0 header = 32 + blen (descriptors fs) ->
  exists p' d, init V p h = (h1, (p', Ok tt))
  /\ new_tcg_device (fst (get_tcg_level0_info_and_serial p')) (snd (get_tcg_level0_info_and_serial p')) mem = Ok d
  /\ get_device_type d = (if listed 0x0200 fs then 2 else if listed 0x0203 fs then 3 else if listed 0x0100 fs then 4 else 1)
  /\ get_serial d = i_serial (p_info p')
  /\ is_locking_supported d = listed 0x0002 fs
  /\ (forall data b, last_listed 0x0002 fs = Some data -> nth_error data 4 = Some b ->
        is_locking_enabled d = Ok (N.testbit b 1) /\ is_locked d = Ok (N.testbit b 2) /\ is_media_encryption d = Ok (N.testbit b 3)
        /\ is_mbr_enabled d = Ok (N.testbit b 4) /\ is_mbr_done d = Ok (N.testbit b 5))
  /\ (forall code data, In (get_device_type d, code) [(2, 0x0200); (3, 0x0203); (4, 0x0100)] ->
        last_listed code fs = Some data -> (8 <= List.length data)%nat ->
        get_base_com_id d = Ok (be16_at 4 data) /\ get_num_com_ids d = Ok (be16_at 6 data))
  /\ (get_device_type d = 1 -> get_base_com_id d = Ok 0).
Proof.
  intros V ty p h h1 header fs rest mem Hd Hnew Ha Hn Hok Hwf Hr Hh HL.
  assert (Hs : List.length (i_raw_serial (p_info p)) = 20%nat) by (rewrite Hnew; reflexivity).
  assert (Ht : i_tcg (p_info p) = i_tcg (new_info (i_path (p_info p)))) by now rewrite <- Hnew.
  (* the handle after the identify part: only the discovery record matters *)
  assert (Q : exists i2, i_tcg i2 = i_tcg (p_info p) /\ init V p h = init_tail V (with_info p i2) (h ++ identify_calls ty)).
  { unfold init. rewrite Hd. unfold identify_calls in *. destruct (is_ata ty).
    - destruct (init_ata_ok (p_info p) _ (Ha eq_refl) Hs) as (i1 & E1 & _ & _ & _ & _ & _ & T1 & _ & S1). rewrite E1.
      destruct (is_nvme ty).
      + cbn [app] in *. rewrite <- app_assoc. cbn [app].
        destruct (init_nvme_ok i1 _ (Hn eq_refl) S1) as (i2 & E2 & _ & _ & _ & _ & _ & T2 & _). rewrite E2. exists i2. split; [congruence|reflexivity].
      + exists i1. cbn [app]. split; [exact T1|reflexivity].
    - destruct (is_nvme ty).
      + cbn [app] in *. destruct (init_nvme_ok (p_info p) _ (Hn eq_refl) Hs) as (i2 & E2 & _ & _ & _ & _ & _ & T2 & _). rewrite E2.
        exists i2. split; [congruence|reflexivity].
      + exists (p_info p). cbn [app]. rewrite app_nil_r. split; reflexivity. }
  destruct Q as (i2 & T2 & Q). rewrite Q. unfold init_tail.
  set (p1 := with_info (with_info p i2) (set_tcg (p_info (with_info p i2)) true (with_map (i_tcg (p_info (with_info p i2)))))).
  assert (Hr1 : level0_read V p1 (h ++ identify_calls ty) h1 None (header ++ descriptors fs ++ rest)).
  { unfold level0_read in *. rewrite <- Hr. now apply security_info. }
  destruct (c32 V p1 _ h1 header fs rest Hok eq_refl Hr1 Hh HL) as (p' & E & Pd & _ & _ & Sid & Add). rewrite E.
  destruct Add as (F1 & F2 & F3 & F4 & F5 & F6 & F7 & F8 & FR).
  replace (i_tcg (p_info p1)) with (i_tcg (p_info p1)) in * by reflexivity.
  assert (B : i_tcg (p_info p1) = with_map (i_tcg (new_info (i_path (p_info p))))) by (rewrite <- Ht, <- T2; reflexivity).
  rewrite B in *. cbn [with_map new_info i_tcg l_tper l_locking l_geometry l_opal1 l_opal2 l_enterprise l_single_user l_data_store
     l_raw orb no_level0 raw_lookup] in *.
  set (t := i_tcg (p_info p')) in *.
  destruct (C16_device_selection t (i_serial (p_info p')) mem) as (d & Ed & Di & Ds & D2 & D3 & D4 & D1 & _).
  exists p', d. split; [reflexivity|]. split; [exact Ed|].
  rewrite F4, F5, F8 in *.
  split. { destruct (listed 0x0200 fs); [auto|]. destruct (listed 0x0203 fs); [auto|]. destruct (listed 0x0100 fs); auto. }
  split; [exact Ds|]. split; [unfold is_locking_supported; now rewrite Di|].
  pose proof (C18_com_ids _ _ _ _ Ed) as (G1 & GC). split; [|split].
  - intros data b Hl Hb.
    assert (Hb' : b < 256) by (apply (proj1 (Forall_forall _ _) (wf_last_listed _ _ _ Hwf Hl)), (nth_error_In _ _ Hb)).
    assert (HR : raw_lookup (l_raw (d_info d)) 0x0002 = Some data) by (rewrite Di, FR, Hl; reflexivity).
    assert (HL2 : l_locking (d_info d) = true) by (rewrite Di, F2; exact (last_listed_listed _ _ _ Hl)).
    destruct C17_locking_status as (S1 & S2 & S3 & S4 & S5 & _).
    assert (K : forall q k, locking_query q k -> q d = Ok (N.testbit b k)) by (intros q k H; exact (proj1 (proj2 (proj2 (H d))) data b HL2 HR Hb Hb')).
    auto 10.
  - intros code data Hin Hl H8. destruct (GC _ _ Hin eq_refl) as (_ & GB & _). apply GB; [rewrite FR, Hl; reflexivity| |exact H8].
    exact (wf_last_listed _ _ _ Hwf Hl).
  - intros H1. apply G1, H1.
Qed.
Print Assumptions C51_init_then_device.

(** C52.  IsNeedsLba48: commands that exist only in the 48-bit set, commands without a 48-bit form, and the rest. *)
Definition ext_commands : list N := [0x06; 0x24; 0x25; 0x27; 0x34; 0x35; 0x37; 0x42; 0x45; 0xea].
Definition no_ext_commands : list N := [0xf3; 0xf4; 0x80; 0xb0].
Theorem C52_lba48_decision : forall op lba nsect, lba < 2 ^ 64 -> nsect < 2 ^ 64 ->
  (In op ext_commands -> is_needs_lba48 op lba nsect = true) /\
  (In op no_ext_commands -> is_needs_lba48 op lba nsect = false) /\
  (~ In op ext_commands -> ~ In op no_ext_commands ->
     (is_needs_lba48 op lba nsect = true <-> 2 ^ 28 - 1 <= lba \/ 255 < nsect \/ 2 ^ 28 - 1 < lba + nsect)).
Proof.
  intros op lba nsect Hl Hn. split; [|split].
  - intros H. unfold is_needs_lba48. rewrite (in_existsb op [ATA_OP_DSM; ATA_OP_READ_PIO_EXT; ATA_OP_READ_DMA_EXT; ATA_OP_WRITE_PIO_EXT; ATA_OP_WRITE_DMA_EXT;
                         ATA_OP_READ_VERIFY_EXT; ATA_OP_WRITE_UNC_EXT; ATA_OP_READ_NATIVE_MAX_EXT; ATA_OP_SET_MAX_EXT;
                         ATA_OP_FLUSHCACHE_EXT]); [reflexivity|].
    unfold ext_commands in H. cbn [In] in *.
    unfold ATA_OP_DSM, ATA_OP_READ_PIO_EXT, ATA_OP_READ_DMA_EXT, ATA_OP_WRITE_PIO_EXT, ATA_OP_WRITE_DMA_EXT,
      ATA_OP_READ_VERIFY_EXT, ATA_OP_WRITE_UNC_EXT, ATA_OP_READ_NATIVE_MAX_EXT, ATA_OP_SET_MAX_EXT, ATA_OP_FLUSHCACHE_EXT. tauto.
  - intros H. unfold no_ext_commands in H. cbn [In] in H. destruct H as [<-|[<-|[<-|[<-|[]]]]]; reflexivity.
  - apply needs48_generic; assumption.
Qed.
Print Assumptions C52_lba48_decision.

(** C53 *)
Theorem C53_dma_commands : forall op, is_dma op = true <->
  op = 0x06 (* DSM *) \/ op = 0x25 (* READ DMA EXT *) \/ op = 0x35 (* WRITE DMA EXT *) \/ op = 0x60 (* READ FPDMA *) \/
  op = 0x61 (* WRITE FPDMA *) \/ op = 0xc8 (* READ DMA *) \/ op = 0xca (* WRITE DMA *).
Proof.
  intros op. unfold is_dma. rewrite existsb_exists. cbn [In].
  unfold ATA_OP_DSM, ATA_OP_READ_DMA_EXT, ATA_OP_READ_FPDMA, ATA_OP_WRITE_DMA_EXT, ATA_OP_WRITE_FPDMA, ATA_OP_READ_DMA, ATA_OP_WRITE_DMA.
  split.
  - intros (x & H & E). apply N.eqb_eq in E. subst x. intuition congruence.
  - intros H. exists op. rewrite N.eqb_refl. split; [|reflexivity]. intuition congruence.
Qed.
Print Assumptions C53_dma_commands.

(** C54.  What a 28-bit or 48-bit task file addresses (ATA8-ACS). *)
Definition tf_lba48 (t : tf) : N :=
  g_lbal (t_lob t) + 2 ^ 8 * g_lbam (t_lob t) + 2 ^ 16 * g_lbah (t_lob t)
  + 2 ^ 24 * g_lbal (t_hob t) + 2 ^ 32 * g_lbam (t_hob t) + 2 ^ 40 * g_lbah (t_hob t).
Definition tf_lba28 (t : tf) : N :=
  g_lbal (t_lob t) + 2 ^ 8 * g_lbam (t_lob t) + 2 ^ 16 * g_lbah (t_lob t) + 2 ^ 24 * (t_dev t mod 16).
Definition tf_count48 (t : tf) : N := g_nsect (t_lob t) + 256 * g_nsect (t_hob t).

(** The task file TfInit computes addresses the request... *)
Theorem C54_computed_task_file : forall t op lba nsect, lba < 2 ^ 48 -> nsect < 2 ^ 16 ->
  let c := tf_init_local t op lba nsect in
  t_command c = op /\ N.testbit (t_dev c) 6 = true /\ t_error c = t_error t /\ t_status c = t_status t
  /\ g_feat (t_lob c) = g_feat (t_lob t) /\ g_feat (t_hob c) = g_feat (t_hob t)
  /\ (is_needs_lba48 op lba nsect = true -> t_lba48 c = 1 /\ tf_lba48 c = lba /\ tf_count48 c = nsect)
  /\ (is_needs_lba48 op lba nsect = false -> t_lba48 c = t_lba48 t /\ tf_lba28 c = lba mod 2 ^ 28 /\ g_nsect (t_lob c) = nsect mod 256
      /\ (~ In op no_ext_commands -> tf_lba28 c = lba /\ g_nsect (t_lob c) = nsect)).
Proof.
  intros t op lba nsect Hl Hn c. unfold c, tf_init_local.
  destruct (is_needs_lba48 op lba nsect) eqn:E.
  - cbn [t_command t_dev t_error t_status t_lba48 t_lob t_hob g_feat g_nsect g_lbal g_lbam g_lbah].
    repeat (split; [reflexivity|]). split; [intros _|discriminate]. split; [reflexivity|].
    unfold tf_lba48, tf_count48. cbn [t_lob t_hob g_nsect g_lbal g_lbam g_lbah]. split; [now apply bytes6|].
    transitivity (nsect mod 2 ^ 16); [symmetry; exact (byte_step nsect 8 16 eq_refl)|now apply N.mod_small].
  - cbn [t_command t_dev t_error t_status t_lba48 t_lob t_hob g_feat g_nsect g_lbal g_lbam g_lbah].
    assert (D : N.lor ATA_USING_LBA (N.land (N.shiftr lba 24) 0x0f) = N.shiftr lba 24 mod 16 + 4 * 2 ^ 4).
    { change 0x0f with (N.ones 4). rewrite N.land_ones, N.lor_comm. change ATA_USING_LBA with (N.shiftl 4 4).
      apply lor_add_disjoint. apply N.mod_lt. discriminate. }
    assert (D16 : N.lor ATA_USING_LBA (N.land (N.shiftr lba 24) 0x0f) mod 16 = N.shiftr lba 24 mod 16) by (rewrite D; lia).
    split; [reflexivity|]. split. { rewrite N.lor_spec. reflexivity. }
    repeat (split; [reflexivity|]). split; [discriminate|]. intros _. split; [reflexivity|].
    unfold tf_lba28. cbn [t_lob t_dev g_nsect g_lbal g_lbam g_lbah]. rewrite D16, bytes3_nibble.
    split; [reflexivity|]. split; [reflexivity|]. intros Hop.
    destruct (C52_lba48_decision op lba nsect) as (A & _ & B); [lia|lia|].
    assert (Hext : ~ In op ext_commands) by (intros X; rewrite (A X) in E; discriminate).
    specialize (B Hext Hop). assert (L : lba < 2 ^ 28 /\ nsect < 256).
    { destruct (N.lt_ge_cases lba (2 ^ 28 - 1)); [|exfalso; assert (is_needs_lba48 op lba nsect = true) by (apply B; auto); congruence].
      destruct (N.lt_ge_cases 255 nsect); [exfalso; assert (is_needs_lba48 op lba nsect = true) by (apply B; auto); congruence|]. lia. }
    split; apply N.mod_small; tauto.
Qed.
Print Assumptions C54_computed_task_file.
(** ... but the caller's task file is the same before and after. *)
Theorem C54_tfinit_no_effect :
  (forall t op lba nsect, tf_init t op lba nsect = t) /\
  exists op lba nsect, t_command (tf_init tf0 op lba nsect) <> op /\ tf_lba28 (tf_init tf0 op lba nsect) <> lba /\ g_nsect (t_lob (tf_init tf0 op lba nsect)) <> nsect.
Proof. split; [reflexivity|]. exists 0xec, 5, 1. vm_compute. repeat split; discriminate. Qed.
Print Assumptions C54_tfinit_no_effect.

(** C55.  [cut_at_nul s r]: [r] is what precedes the first NUL of [s] (all of [s] if there is none). *)
Definition cut_at_nul (s r : bytes) : Prop := exists rest, s = r ++ rest /\ ~ In 0 r /\ (rest = [] \/ exists x, rest = 0 :: x).
(** [even_part d]: without a last odd byte *)
Definition even_part (d : bytes) : bytes := firstn (2 * (List.length d / 2)) d.
Theorem C55_ata_string : forall data, exists s r, word_swapped (even_part data) s /\ cut_at_nul s r /\
  (* even length, or a NUL before the odd byte *)
  (Nat.even (List.length data) = true \/ r <> s ->
     fix_ata_string_order data false = Ok r /\ exists t, fix_ata_string_order data true = Ok t /\ right_trimmed r t) /\
  (* odd length and no NUL before *)
  (Nat.even (List.length data) = false -> r = s -> forall trim, fix_ata_string_order data trim = Panic).
Proof.
  intros data. assert (He : Nat.even (List.length (even_part data)) = true).
  { unfold even_part. rewrite firstn_length_le by (pose proof (Nat.mul_div_le (List.length data) 2); lia). rewrite Nat.even_mul. reflexivity. }
  destruct (fix_loop_even _ He) as (pre & rest & E & W & Z & R). exists (pre ++ rest), pre.
  split; [exact W|]. split; [exists rest; auto|].
  assert (G : fix_order_loop data = Ok pre -> fix_ata_string_order data false = Ok pre /\
     exists t, fix_ata_string_order data true = Ok t /\ right_trimmed pre t).
  { intros G. unfold fix_ata_string_order. rewrite G. split; [reflexivity|]. eexists. split; [reflexivity|]. apply right_trim_spec. }
  destruct (Nat.even (List.length data)) eqn:Hd.
  - assert (Q : even_part data = data).
    { unfold even_part. apply firstn_all2. apply Nat.even_spec in Hd as (m & Hm). rewrite Hm, Nat.mul_comm, Nat.div_mul; lia. }
    rewrite Q in E. split; [intros _; exact (G E)|discriminate].
  - destruct (list_last_cases data) as [->|(d & x & Q)]; [discriminate|].
    assert (Hev : Nat.even (List.length d) = true).
    { rewrite Q, app_length in Hd. cbn [List.length] in Hd. rewrite Nat.add_comm in Hd. cbn [Nat.add] in Hd.
      rewrite Nat.even_succ in Hd. rewrite <- Nat.negb_odd. now rewrite Hd. }
    assert (Qe : even_part data = d).
    { unfold even_part. rewrite Q, app_length. cbn [List.length]. apply Nat.even_spec in Hev as (m & Hm).
      rewrite Hm. replace ((2 * m + 1) / 2)%nat with m by (apply Nat.div_unique with 1%nat; lia). rewrite <- Hm. now rewrite firstn_app, Nat.sub_diag, firstn_all, firstn_O, app_nil_r. }
    rewrite Qe in *. pose proof (fix_loop_odd d x Hev) as O. rewrite <- Q, E in O. destruct W as [Wl _].
    rewrite app_length in Wl. split.
    + intros [C|C]; [discriminate|]. apply G. rewrite O. destruct (Nat.eqb_spec (List.length pre) (List.length d)) as [L|L]; [|reflexivity].
      exfalso. apply C. destruct rest; [now rewrite app_nil_r|cbn in Wl; lia].
    + intros _ C tr. unfold fix_ata_string_order. rewrite O.
      assert (L : rest = []) by (apply (f_equal (@List.length N)) in C; rewrite app_length in C; destruct rest; [reflexivity|cbn in C; lia]).
      subst rest. cbn [List.length] in Wl. rewrite Nat.add_0_r in Wl. rewrite Wl, Nat.eqb_refl. reflexivity.
Qed.
Print Assumptions C55_ata_string.

(** C56.  The task file of a SMART read (ATA8-ACS: feature code, count 1, LBA mid/high 4Fh/C2h, all else zero). *)
Definition smart_read (feature : N) (t : tf) : Prop :=
  t_command t = 0xb0 /\ g_feat (t_lob t) = feature /\ g_nsect (t_lob t) = 1 /\ g_lbal (t_lob t) = 0 /\ g_lbam (t_lob t) = 0x4f
  /\ g_lbah (t_lob t) = 0xc2 /\ t_dev t = 0 /\ t_error t = 0 /\ t_status t = 0 /\ t_lba48 t = 0 /\ t_hob t = regs0.

Theorem C56_read_smart : forall V p h timeout,
  match p_dh p with
  | Some {| is_ata := true |} =>
    exists t1 t2, smart_read 0xd0 t1 /\ smart_read 0xd1 t2 /\
    let h1 := h ++ [CTask false false t1 (zeros 512) timeout] in
    let buf1 := fill (zeros 512) (snd (v_io V h1)) in
    let h2 := h1 ++ [CTask false false t2 buf1 timeout] in
    let buf2 := fill buf1 (snd (v_io V h2)) in
    match fst (v_io V h1), fst (v_io V h2) with
    | Some e, _ => read_smart V p h timeout = (h1, Err e)
    | None, Some e => read_smart V p h timeout = (h2, Err e)
    | None, None => exists values thresholds, read_smart V p h timeout = (h2, Ok (values, thresholds))
        /\ (forall n off sz c, In (n, (off, (sz, c))) smart_value_places -> field n values = be_elems off sz c buf1)
        /\ (forall n, field n values <> [] -> In n (map fst smart_value_places))
        /\ (forall n off sz c, In (n, (off, (sz, c))) smart_threshold_places -> field n thresholds = be_elems off sz c buf2)
        /\ (forall n, field n thresholds <> [] -> In n (map fst smart_threshold_places))
    end
  | _ => read_smart V p h timeout = (h, Err ENotSupportThisDriver)
  end.
Proof.
  intros V p h timeout. unfold read_smart, ata_do_task_file_cmd. destruct (p_dh p) as [[a n]|]; [|reflexivity].
  cbn [is_ata]. destruct a; [|reflexivity].
  exists (smart_tf 0xd0), (smart_tf 0xd1). split; [repeat split|]. split; [repeat split|]. cbv zeta.
  change SMART_FEAT_READ_ATTRIBUTE_VALUES with 0xd0. change SMART_FEAT_READ_ATTRIBUTE_THRESHOLDS with 0xd1.
  set (h1 := h ++ _). destruct (v_io V h1) as (e1, n1). cbn [fst snd].
  set (b1 := fill (zeros 512) n1).
  assert (L1 : List.length b1 = 512%nat) by (unfold b1; rewrite fill_length; apply repeat_length).
  destruct e1 as [e1|]; [reflexivity|].
  destruct (smart_values_ok b1 L1) as (v & -> & Hv & Hv'). clearbody b1.
  set (h2 := h1 ++ _). destruct (v_io V h2) as (e2, n2). cbn [fst snd]. destruct e2 as [e2|]; [reflexivity|].
  assert (L2 : List.length (fill b1 n2) = 512%nat) by now rewrite fill_length.
  destruct (smart_thresholds_ok _ L2) as (w & -> & Hw & Hw'). exists v, w. auto 10.
Qed.
Print Assumptions C56_read_smart.

(** SMART data is little-endian: the reported flags of attribute [k] are right exactly when their two bytes are equal. *)
Theorem C56_flags_correct_iff : forall V p h timeout h' values thresholds k,
  read_smart V p h timeout = (h', Ok (values, thresholds)) -> (k < 30)%nat ->
  let buf := fill (zeros 512) (snd (v_io V (firstn (S (List.length h)) h'))) in   (* the first answer *)
  wf buf ->
  (field (indexed "Attributes" k "Flags") values = [le_val (slice (3 + 12 * k) 2 buf)]
   <-> nth_error buf (3 + 12 * k) = nth_error buf (4 + 12 * k)).
Proof.
  intros V p h timeout h' values thresholds k H Hk buf Hw.
  pose proof (C56_read_smart V p h timeout) as R. destruct (p_dh p) as [[[] n]|]; try congruence.
  destruct R as (t1 & t2 & _ & _ & R). cbv zeta in R.
  set (h1 := h ++ [CTask false false t1 (zeros 512) timeout]) in *.
  destruct (fst (v_io V h1)); [congruence|].
  set (b1 := fill (zeros 512) (snd (v_io V h1))) in *.
  destruct (fst (v_io V (h1 ++ _))); [congruence|].
  destruct R as (v & w & R & Hv & _). rewrite H in R. injection R as -> -> ->.
  assert (B : buf = b1).
  { unfold buf, b1, h1. rewrite <- app_assoc. cbn [app]. rewrite (firstn_app_2 1) || rewrite firstn_app.
    rewrite firstn_all2 by lia. replace (S (List.length h) - List.length h)%nat with 1%nat by lia. reflexivity. }
  rewrite B in *. clear B.
  assert (L1 : List.length b1 = 512%nat) by (unfold b1; rewrite fill_length; apply repeat_length). clearbody b1.
  rewrite (Hv (indexed "Attributes" k "Flags") (3 + 12 * k)%nat 2%nat 1%nat).
  2:{ unfold smart_value_places. apply in_or_app. right. apply in_concat. exists (smart_attr k). split.
      - apply in_map, in_seq. lia.
      - cbn [smart_attr In]. right. left. unfold At. do 2 f_equal. lia. }
  unfold be_elems. cbn [seq map]. rewrite Nat.mul_0_l, Nat.add_0_r.
  destruct (nth_error b1 (3 + 12 * k)) as [x|] eqn:Ex; [|apply nth_error_None in Ex; lia].
  destruct (nth_error b1 (4 + 12 * k)) as [y|] eqn:Ey; [|apply nth_error_None in Ey; lia].
  assert (S2 : slice (3 + 12 * k) 2 b1 = [x; y]).
  { apply list_eq_nth_error. intros i. rewrite nth_error_slice. destruct i as [|[|i]].
    - rewrite Nat.add_0_r. exact Ex.
    - replace (3 + 12 * k + 1)%nat with (4 + 12 * k)%nat by lia. exact Ey.
    - cbn. now destruct i. }
  assert (W2 : wf [x; y]) by (rewrite <- S2; apply wf_slice, Hw).
  rewrite S2. split.
  - intros [= E]. apply be_le_iff in E; [|exact W2]. cbn in E. congruence.
  - intros [= ->]. f_equal. apply be_le_iff; [exact W2|reflexivity].
Qed.
Print Assumptions C56_flags_correct_iff.
