(** Property theorems C74 (drive handles over the Linux SCSI driver). *)
From Verif Require Import Base M_Buffer M_Ata M_TcgDevice M_DriveHandle M_Cdb M_SgDriver M_SgHandle Spec_Drive Spec_Sg P_Discovery P_DriveHandle
  P_Sg Prop_Sg Prop_Drive.

Lemma sg_current_app cs c : sg_current (cs ++ [c]) = Some (cs, c).
Proof. unfold sg_current. rewrite rev_app_distr. cbn. now rewrite rev_involutive. Qed.
Lemma sg_replay_app K A kh cs c : sg_replay K A kh (cs ++ [c]) = fst (sg_exec K A (sg_replay K A kh cs) c).
Proof. unfold sg_replay. now rewrite fold_left_app. Qed.
Lemma sg_drv_io K A kh id cs c : v_io (sg_drv K A kh id) (cs ++ [c]) = fst (snd (sg_exec K A (sg_replay K A kh cs) c)).
Proof. cbn [sg_drv v_io]. now rewrite sg_current_app. Qed.

Definition over_sg (p : dh) : Prop := p_dh p = Some {| is_ata := true; is_nvme := false |}.
Definition is_security (rw : bool) (proto comId : N) (buf : bytes) (c : sg_call) : Prop :=
  security_decode (sg_cdb c) = Some {| sc_out := rw; sc_protocol := proto; sc_specific := comId; sc_inc512 := false; sc_length := blen buf |}.
(** TRUSTED SEND 5Eh/5Fh, TRUSTED RECEIVE 5Ch/5Dh through ATA PASS-THROUGH (12) *)
Definition is_trusted (rw dma : bool) (proto comId : N) (buf : bytes) (c : sg_call) : Prop :=
  exists s, sat_decode (sg_cdb c) = Some s
  /\ sat_command s = (if rw then if dma then 0x5F else 0x5E else if dma then 0x5D else 0x5C)
  /\ sat_protocol s = protocol_code (if dma then Dma else if rw then PioOut else PioIn)
  /\ sat_features s = proto /\ sat_count s = (blen buf / 512) mod 256 /\ sat_lba s = 2 ^ 8 * comId /\ sat_device s = 0
  /\ sat_from_device s = negb rw /\ sg_len c = blen buf /\ sg_dir c = (if rw then -2 else -3)%Z.

Theorem C74_security_over_sg : forall K A kh identity p h rw dma proto comId buf secs h' e out,
  let V := sg_drv K A kh identity in
  let before := sg_replay K A kh h in
  over_sg p -> proto < 256 -> comId < 2 ^ 16 -> blen buf < 2 ^ 32 -> buf <> [] ->
  security_command V p h rw dma proto comId buf secs = (h', (e, out)) ->
  exists c1 rest, sg_replay K A kh h' = before ++ c1 :: rest /\ (List.length rest <= 3)%nat
  /\ is_security rw proto comId buf c1 /\ (rw = true -> sg_mem c1 = buf)
  /\ (* the SCSI command went through: its answer is the result *)
     (succeeded (K (before ++ [c1])) -> rest = [] /\ e = None /\ (rw = true -> out = buf)
        /\ (rw = false -> delivered (zeros (List.length buf)) (an_in (K (before ++ [c1]))) out))
  /\ (~ succeeded (K (before ++ [c1])) -> exists c2 rest', rest = c2 :: rest' /\ is_security rw proto comId buf c2
      /\ (succeeded (K (before ++ [c1; c2])) -> rest' = [] /\ e = None)
      /\ (~ succeeded (K (before ++ [c1; c2])) ->
          (* the ATA fallback: one or two requests, and on a send they carry zeros, never the caller's bytes *)
          exists c3 last, rest' = c3 :: last /\ (List.length last <= 1)%nat /\ Forall (is_trusted rw dma proto comId buf) rest'
          /\ (rw = true -> sg_mem c3 = zeros (List.length buf) /\ (forall c, In c last -> sg_mem c = []) /\ out = zeros (List.length buf))
          /\ (rw = false -> succeeded (K (before ++ [c1; c2; c3])) -> List.length out = List.length buf
               /\ forall i, (i < List.length (an_in (K (before ++ [c1; c2; c3]))))%nat -> (i < List.length buf)%nat ->
                    nth_error out i = nth_error (an_in (K (before ++ [c1; c2; c3]))) i)
          /\ (e = None -> succeeded (K (before ++ [c1; c2; c3])) \/ exists c4, last = [c4] /\ succeeded (K (before ++ [c1; c2; c3; c4]))))).
Proof.
  intros K A kh identity p h rw dma proto comId buf secs h' e out V before Hp Hpr Hc Hb Hne H.
  unfold security_command in H. unfold over_sg in Hp. rewrite Hp in H. cbv zeta in H. cbn [is_ata is_nvme] in H.
  set (sec := CSec rw dma proto comId buf secs) in *.
  destruct (sg_security K before rw dma proto comId buf (A before) (Z.of_N secs)) as [k1 r1] eqn:ES.
  destruct (C65_security_command K before rw dma proto comId buf (A before) (Z.of_N secs) k1 r1 Hc Hb Hne ES)
    as (e1 & got & c1 & rest1 & -> & -> & L1 & Q & W1 & W2 & Eq & Es & Ee).
  assert (X1 : sg_exec K A before sec = (before ++ c1 :: rest1, ((e1, got), tf0))) by (cbn [sec sg_exec]; rewrite ES; reflexivity).
  assert (E1 : v_io V (h ++ [sec]) = (e1, got)) by (unfold V; rewrite sg_drv_io; fold before; rewrite X1; reflexivity).
  assert (R1 : sg_replay K A kh (h ++ [sec]) = before ++ c1 :: rest1) by (rewrite sg_replay_app; fold before; rewrite X1; reflexivity).
  rewrite E1 in H.
  assert (LG : List.length got = List.length buf).
  { destruct rw; [now rewrite (proj2 (W1 eq_refl))|]. destruct (W2 eq_refl) as [_ W3].
    destruct (ok_answer (K (before ++ [c1])) || (A before mod 512 =? 0)).
    - rewrite (proj1 W3). apply repeat_length.
    - rewrite W3. apply repeat_length. }
  rewrite (fill_whole buf got) in H by (symmetry; exact LG).
  assert (S1 : is_security rw proto comId buf c1) by (apply (Q c1); now left).
  destruct e1 as [x1|].
  - (* both attempts of the SCSI command failed *)
    destruct (Ee ltac:(discriminate)) as (c2 & -> & Ex1).
    assert (F1 : ~ succeeded (K (before ++ [c1]))) by (intros F; apply Es in F; discriminate).
    assert (F2 : ~ succeeded (K (before ++ [c1; c2]))).
    { intros F. assert (Some x1 = None) by (apply Eq; right; exists c2; auto). discriminate. }
    set (t := {| t_dev := 0 |}) in *.
    set (kh1 := before ++ [c1; c2]) in *.
    destruct (sg_task_file K kh1 rw dma t (Some got) (A kh1) (Z.of_N secs)) as [k2 r2] eqn:ET.
    assert (Gne : got <> []) by (intros ->; destruct buf; [congruence|discriminate]).
    assert (Wt : wf_tf t).
    { unfold wf_tf, wf_regs, t. cbn [t_dev t_command t_error t_status t_lba48 t_lob t_hob g_feat g_nsect g_lbal g_lbam g_lbah regs0].
      repeat split; try reflexivity; try exact Hpr; try (apply N.mod_lt; discriminate). destruct rw, dma; reflexivity. }
    destruct (C58_task_file_requests K kh1 rw dma t (Some got) (A kh1) (Z.of_N secs) k2 r2 Wt ET) as (calls & Hk & Lc & Fc & Cn & _).
    destruct (C62_error_detection K kh1 rw dma t (Some got) (A kh1) (Z.of_N secs) k2 r2 ltac:(congruence) ET) as (e2 & t2 & d2 & c3 & last & Er & Hk3 & Det).
    assert (Ecalls : calls = c3 :: last) by (apply (app_inv_head kh1); congruence). subst calls. rewrite Hk in *. clear Hk Hk3 Cn.
    assert (G2 : exists got2, d2 = Some got2 /\ List.length got2 = List.length buf
       /\ (rw = true -> sg_mem c3 = zeros (List.length buf) /\ (forall c, In c last -> sg_mem c = []) /\ got2 = zeros (List.length buf))
       /\ (rw = false -> succeeded (K (kh1 ++ [c3])) -> forall i, (i < List.length (an_in (K (kh1 ++ [c3]))))%nat -> (i < List.length buf)%nat ->
             nth_error got2 i = nth_error (an_in (K (kh1 ++ [c3]))) i)).
    { destruct rw.
      - destruct (C60_writes_send_zeros K kh1 dma t got (A kh1) (Z.of_N secs) _ r2 Gne ET) as ((ex & tx & Erx) & c & rest & Hc' & M1 & _ & M2).
        apply app_inv_head in Hc'. inversion Hc'; subst c rest. rewrite Er in Erx. inversion Erx; subst.
        eexists. split; [reflexivity|]. rewrite LG in *. split; [apply repeat_length|]. split; [|discriminate].
        intros _. split; [exact M1|]. split; [|reflexivity]. intros c Hin. apply (M2 c Hin).
      - destruct (C59_read_data K kh1 dma t got (A kh1) (Z.of_N secs) _ r2 Gne ET) as (ex & tx & got2 & c & rest & Erx & Hc' & Y).
        apply app_inv_head in Hc'. inversion Hc'; subst c rest. rewrite Er in Erx. inversion Erx; subst. cbv zeta in Y. destruct Y as [Y1 Y2].
        exists got2. split; [reflexivity|].
        assert (LL : forall base, List.length base = List.length got -> forall nw, delivered base nw got2 -> List.length got2 = List.length buf
            /\ forall i, (i < List.length nw)%nat -> (i < List.length buf)%nat -> nth_error got2 i = nth_error nw i).
        { intros base Lb nw (D1 & D2 & D3). split; [congruence|]. intros i I1 I2. apply D2; [exact I1|]. rewrite Lb, LG. exact I2. }
        assert (LZ : List.length (zeros (List.length got)) = List.length got) by apply repeat_length.
        destruct (ok_answer (K (kh1 ++ [c3]))) eqn:O.
        + assert (Su : succeeded (K (kh1 ++ [c3]))) by now apply succeeded_ok. specialize (Y1 Su).
          assert (Z : List.length got2 = List.length buf /\ forall i, (i < List.length (an_in (K (kh1 ++ [c3]))))%nat -> (i < List.length buf)%nat -> nth_error got2 i = nth_error (an_in (K (kh1 ++ [c3]))) i).
          { destruct (A kh1 mod 512 =? 0); eapply LL; [|exact Y1| |exact Y1]; auto. }
          split; [exact (proj1 Z)|]. split; [discriminate|]. intros _ _. exact (proj2 Z).
        + assert (Su : ~ succeeded (K (kh1 ++ [c3]))) by now apply failed_ok. specialize (Y2 Su).
          split; [|split; [discriminate|intros _ F; contradiction]].
          destruct (A kh1 mod 512 =? 0); [eapply (LL got); eauto|congruence]. }
    destruct G2 as (got2 & -> & L2 & Gw & Gr).
    assert (X2 : sg_exec K A kh1 (CTask rw dma t got secs) = (kh1 ++ c3 :: last, ((e2, got2), t2))) by (cbn [sg_exec]; rewrite ET, Er; reflexivity).
    assert (E2 : v_io V ((h ++ [sec]) ++ [CTask rw dma t got secs]) = (e2, got2)) by (unfold V; rewrite sg_drv_io, R1; fold kh1; rewrite X2; reflexivity).
    rewrite E2 in H. inversion H; subst h' e out. clear H.
    rewrite (fill_whole got got2) by congruence.
    exists c1, (c2 :: c3 :: last). split.
    { rewrite sg_replay_app, R1. fold kh1. rewrite X2. cbn [fst]. unfold kh1. rewrite <- app_assoc. reflexivity. }
    split; [cbn [List.length] in *; lia|]. split; [exact S1|]. split; [intros Y; apply (W1 Y)|]. split; [contradiction|]. intros _.
    exists c2, (c3 :: last). split; [reflexivity|]. split; [apply (Q c2); right; now left|]. split; [contradiction|]. intros _.
    exists c3, last. split; [reflexivity|]. split; [cbn [List.length] in Lc; lia|].
    assert (Hk1 : forall l, kh1 ++ l = before ++ c1 :: c2 :: l) by (intros l; unfold kh1; rewrite <- app_assoc; reflexivity).
    split.
    { eapply Forall_impl; [|exact Fc]. intros c (D & _ & Dd & Dl & _). eexists. split; [exact D|]. cbn [sat_command sat_protocol sat_features sat_count sat_lba sat_device sat_from_device].
      cbn [has_data] in Dd, Dl |- *. unfold tf_features, tf_count, tf_lba, tf_is_lba48, low_lba. unfold t. cbn [t_command t_lob t_hob t_dev t_lba48 g_feat g_nsect g_lbal g_lbam g_lbah negb N.eqb andb].
      split; [destruct rw, dma; reflexivity|]. split; [reflexivity|]. split; [reflexivity|]. split; [reflexivity|]. split.
      { change (2 ^ 8) with 256. change (2 ^ 16) with 65536 in *. rewrite N.shiftr_div_pow2. change (2 ^ 8) with 256.
        rewrite (N.mod_small (comId / 256)) by (apply N.div_lt_upper_bound; lia). pose proof (N.div_mod comId 256 ltac:(lia)) as DM. set (q := comId / 256) in *. set (m := comId mod 256) in *. clearbody q m. rewrite DM. change (negb (0 =? 0)) with false. cbv iota. lia. }
      split; [reflexivity|]. split; [reflexivity|]. split; [|exact Dd].
      rewrite Dl. cbn [data_length]. unfold blen. rewrite LG. apply N.mod_small. exact Hb. }
    split; [exact Gw|]. split.
    { intros Y Su. split; [exact L2|]. rewrite <- Hk1 in Su |- *. now apply Gr. }
    { intros Z. rewrite <- Hk1. destruct Det as [_ Det].
      destruct (ok_answer (K (kh1 ++ [c3]))) eqn:O; [left; now apply succeeded_ok|]. right.
      assert (Su : ~ succeeded (K (kh1 ++ [c3]))) by now apply failed_ok.
      destruct last as [|c4 [|c5 last]].
      - exfalso. destruct (Det Su) as [k Ek]; [discriminate|congruence].
      - exists c4. split; [reflexivity|]. rewrite <- Hk1. destruct (ok_answer (K (kh1 ++ [c3; c4]))) eqn:O2; [now apply succeeded_ok|].
        exfalso. destruct (Det Su) as [k Ek]; [|congruence]. intros c Ec. inversion Ec; subst c. now apply failed_ok.
      - cbn [List.length] in Lc. lia. }
  - inversion H; subst h' e out. clear H. exists c1, rest1. split; [exact R1|]. split; [lia|]. split; [exact S1|].
    split; [intros Y; apply (W1 Y)|]. split.
    + intros Su. split; [now apply Es|]. split; [reflexivity|]. split; [intros Y; apply (W1 Y)|].
      intros Y. destruct (W2 Y) as [_ W3]. apply succeeded_ok in Su. rewrite Su in W3. exact W3.
    + intros F. destruct rest1 as [|c2 rest1]; [exfalso; apply F; now apply Es|]. destruct rest1 as [|c rest1]; [|cbn [List.length] in L1; lia].
      exists c2, []. split; [reflexivity|]. split; [apply (Q c2); right; now left|]. split; [auto|].
      intros F2. exfalso. destruct (proj1 Eq eq_refl) as [Y|(c & Ec & Y)]; [contradiction|]. inversion Ec; subst c. contradiction.
Qed.
Print Assumptions C74_security_over_sg.
