(** Property theorems C137-C138: repeated Level 0 discovery. *)
From Verif Require Import Base Spec_Buffer M_Ata M_TcgDevice M_Struc M_DriveHandle Spec_Drive P_Discovery P_Identity Prop_TcgDevice
  M_Rediscovery Spec_Rediscovery P_Rediscovery.

(** C137.  Over any run of interface calls, what the handle reports is what it reported before plus everything any discovery answer of the run
    listed; for each feature code the last descriptor seen wins; the support value is that of the last discovery. *)
Theorem C137_what_a_handle_has_learned : forall V p h ops h' p' outs,
  byte_driver V -> i_raw_made (p_info p) = true -> forallb interface_call ops = true ->
  hrun V p h ops = (h', (p', outs)) -> no_crash outs ->
  exists fss, Forall2 contributes (discovery_answers V p h ops) fss
  /\ (forall fss', Forall2 contributes (discovery_answers V p h ops) fss' -> fss' = fss)
  /\ adds_features (i_tcg (p_info p)) (i_tcg (p_info p')) (concat fss)
  /\ same_identity (p_info p) (p_info p')
  /\ i_support (p_info p') = last_support (i_support (p_info p)) (discovery_answers V p h ops).
Proof.
  intros V p h ops h' p' outs HV Hm Hi H Hn. destruct (run_learns V HV ops p h h' p' outs Hm Hi H Hn) as (fss & F & A & S & _ & U & _).
  exists fss. split; [exact F|]. split; [|auto]. clear - F. intros fss' F'. revert fss' F'.
  induction F as [|a fs l fss C F IH]; intros fss' F'; inversion F' as [|? fs' ? fss2 C' F2]; subst; [reflexivity|].
  f_equal; [exact (contributes_unique _ _ _ C' C)|now apply IH].
Qed.
Print Assumptions C137_what_a_handle_has_learned.

(** C138.  A TCG device made from the handle before the run: the type, the serial number and "locking supported" stay what they were; the
    locking state and the ComIDs are those of the last descriptor seen since (or of before, if there was none). *)
Theorem C138_device_after_rediscovery : forall V p h ops h' p' outs mem d mem',
  byte_driver V -> i_raw_made (p_info p) = true -> forallb interface_call ops = true ->
  hrun V p h ops = (h', (p', outs)) -> no_crash outs ->
  new_tcg_device (fst (get_tcg_level0_info_and_serial p)) (snd (get_tcg_level0_info_and_serial p)) mem = Ok d ->
  let d' := device_now d p' mem' in
  exists fss, Forall2 contributes (discovery_answers V p h ops) fss
  /\ get_device_type d' = get_device_type d /\ get_serial d' = get_serial d /\ is_any_ssc d' = is_any_ssc d
  /\ is_locking_supported d' = is_locking_supported d
  /\ (is_locking_supported d = false -> Forall (fun q => q d' = Ok false) [is_locking_enabled; is_locked; is_media_encryption; is_mbr_enabled; is_mbr_done])
  /\ (forall data b, last_listed 0x0002 (concat fss) = Some data -> nth_error data 4 = Some b -> is_locking_supported d = true ->
        is_locking_enabled d' = Ok (N.testbit b 1) /\ is_locked d' = Ok (N.testbit b 2) /\ is_media_encryption d' = Ok (N.testbit b 3)
        /\ is_mbr_enabled d' = Ok (N.testbit b 4) /\ is_mbr_done d' = Ok (N.testbit b 5))
  /\ (last_listed 0x0002 (concat fss) = None -> (forall data, raw_lookup (l_raw (i_tcg (p_info p))) 0x0002 = Some data -> (5 <= List.length data)%nat) ->
        is_locking_enabled d' = is_locking_enabled d /\ is_locked d' = is_locked d /\ is_media_encryption d' = is_media_encryption d
        /\ is_mbr_enabled d' = is_mbr_enabled d /\ is_mbr_done d' = is_mbr_done d)
  /\ (forall code data, In (get_device_type d, code) [(2, 0x0200); (3, 0x0203); (4, 0x0100)] ->
        last_listed code (concat fss) = Some data -> (8 <= List.length data)%nat ->
        get_base_com_id d' = Ok (be16_at 4 data) /\ get_num_com_ids d' = Ok (be16_at 6 data))
  /\ (forall code, In (get_device_type d, code) [(2, 0x0200); (3, 0x0203); (4, 0x0100)] -> last_listed code (concat fss) = None ->
        (forall data, raw_lookup (l_raw (i_tcg (p_info p))) code = Some data -> (8 <= List.length data)%nat) ->
        get_base_com_id d' = get_base_com_id d /\ get_num_com_ids d' = get_num_com_ids d).
Proof.
  intros V p h ops h' p' outs mem d mem' HV Hm Hi H Hn Hd d'.
  destruct (run_learns V HV ops p h h' p' outs Hm Hi H Hn) as (fss & F & A & _ & _ & _ & W). exists fss. split; [exact F|].
  destruct A as (_ & _ & _ & _ & _ & _ & _ & _ & AR). cbn [get_tcg_level0_info_and_serial fst snd] in Hd.
  assert (Di : d_info d = i_tcg (p_info p)).
  { unfold new_tcg_device in Hd. destruct (l_opal1 (i_tcg (p_info p))), (l_opal2 (i_tcg (p_info p))), (l_enterprise (i_tcg (p_info p))); now inversion Hd. }
  assert (Ed' : new_tcg_device (d_info d') (d_serial d') mem' = Ok d').
  { unfold new_tcg_device in *. rewrite <- Di in Hd. unfold d', device_now. cbn [d_info l_opal1 l_opal2 l_enterprise d_serial].
    destruct (l_opal1 (d_info d)), (l_opal2 (d_info d)), (l_enterprise (d_info d)); injection Hd as Hd; apply (f_equal d_kind) in Hd; cbn [d_kind] in Hd;
      now rewrite <- Hd. }
  assert (Lr : forall code, raw_lookup (l_raw (d_info d')) code = match last_listed code (concat fss) with Some x => Some x | None => raw_lookup (l_raw (d_info d)) code end).
  { intros code. rewrite Di. cbn [d' device_now d_info l_raw]. apply AR. }
  assert (Lk : l_locking (d_info d') = l_locking (d_info d)) by reflexivity.
  do 4 (split; [reflexivity|]).
  destruct C17_locking_status as (S1 & S2 & S3 & S4 & S5 & _).
  split; [|split; [|split; [|split]]].
  - intros L. unfold is_locking_supported in L. rewrite <- Lk in L.
    assert (K : forall q k, locking_query q k -> q d' = Ok false) by (intros q k X; exact (proj1 (X d') L)).
    repeat apply Forall_cons; [exact (K _ _ S1)|exact (K _ _ S2)|exact (K _ _ S3)|exact (K _ _ S4)|exact (K _ _ S5)|apply Forall_nil].
  - intros data b Ll Hb L. unfold is_locking_supported in L.
    assert (Hb' : b < 256) by (apply (proj1 (Forall_forall _ _) (wf_last_listed _ _ _ W Ll)), (nth_error_In _ _ Hb)).
    assert (HR : raw_lookup (l_raw (d_info d')) 0x0002 = Some data) by now rewrite Lr, Ll.
    assert (K : forall q k, locking_query q k -> q d' = Ok (N.testbit b k)) by (intros q k X; apply (X d') with data; auto).
    auto 10.
  - intros Ll Hlong.
    assert (K : forall k, locking_bit k d' = locking_bit k d).
    { intros k. unfold locking_bit. rewrite Lk. destruct (l_locking (d_info d)); [|reflexivity]. cbn [negb].
      change FcLocking with 0x0002. rewrite Lr, Ll. rewrite Di in *. destruct (raw_lookup _ 0x0002) as [data|] eqn:Er; [|reflexivity].
      specialize (Hlong data eq_refl). unfold feature_byte. destruct data as [|x data]; [cbn in Hlong; lia|].
      destruct (nth_error (x :: data) 4) as [b|] eqn:Eb; [reflexivity|apply nth_error_None in Eb; lia]. }
    unfold is_locking_enabled, is_locked, is_media_encryption, is_mbr_enabled, is_mbr_done. rewrite !K. auto.
  - intros code data Hin Ll H8. destruct (C18_com_ids _ _ _ _ Ed') as (_ & GC).
    destruct (GC _ _ Hin eq_refl) as (_ & GB & _). apply GB; [now rewrite Lr, Ll|exact (wf_last_listed _ _ _ W Ll)|exact H8].
  - intros code Hin Ll Hlong.
    assert (Hs : ssc_code (d_kind d) = Some code).
    { unfold get_device_type in Hin. cbn [In] in Hin. destruct Hin as [X|[X|[X|[]]]]; injection X as X <-; destruct (d_kind d); try discriminate X; reflexivity. }
    assert (K : forall k, (k <= 6)%nat -> feature_be16 d' k = feature_be16 d k).
    { intros k Hk. unfold feature_be16. change (d_kind d') with (d_kind d). rewrite Hs, Lr, Ll, Di in *. destruct (raw_lookup _ code) as [data|] eqn:Er; [|reflexivity].
      specialize (Hlong data eq_refl).
      assert (B : forall i, (i <= 7)%nat -> feature_byte d' code data i = feature_byte d code data i).
      { intros i Hi7. unfold feature_byte. destruct data as [|x data]; [reflexivity|].
        destruct (nth_error (x :: data) i) as [b|] eqn:Eb; [reflexivity|apply nth_error_None in Eb; lia]. }
      now rewrite !B by lia. }
    unfold get_base_com_id, get_num_com_ids. rewrite !K by lia. auto.
Qed.
Print Assumptions C138_device_after_rediscovery.
