(** Lemmas about Init, Close, SecurityCommand and log pages. *)
From Verif Require Import Base Spec_Buffer M_Buffer M_Struc M_Layouts M_Ata M_TcgDevice M_DriveHandle Spec_Drive P_Buffer P_Struc P_Discovery.

(** ---- trimming ---- *)
Lemma in_trim_set_blank b : in_trim_set b = true <-> blank b.
Proof.
  unfold in_trim_set, blank, trim_set. rewrite existsb_exists. split.
  - intros (x & Hx & E). apply N.eqb_eq in E. now subst.
  - intros H. exists b. split; [exact H|apply N.eqb_refl].
Qed.

Lemma trim_left_spec s : exists a, s = a ++ trim_left s /\ Forall blank a /\ (forall x t', trim_left s = x :: t' -> ~ blank x).
Proof.
  induction s as [|b s IH]; cbn [trim_left].
  - exists []. repeat split; [constructor|discriminate].
  - destruct (in_trim_set b) eqn:E.
    + destruct IH as (a & Es & Ha & Hh). exists (b :: a). cbn [app]. split; [|split].
      * now rewrite <- Es.
      * constructor; [now apply in_trim_set_blank|assumption].
      * intros x t' H. apply (Hh x t'). exact H.
    + exists []. repeat split; [constructor|]. intros x t' [= <- _] H. apply in_trim_set_blank in H. congruence.
Qed.

Lemma trim_spec s : trimmed s (trim s).
Proof.
  unfold trim. destruct (trim_left_spec s) as (a & E1 & Ha & H1).
  destruct (trim_left_spec (rev (trim_left s))) as (b & E2 & Hb & H2).
  apply (f_equal (@rev N)) in E2. rewrite rev_involutive, rev_app_distr in E2.
  exists a, (rev b). split; [rewrite <- E2; exact E1|]. split; [exact Ha|]. split; [now apply Forall_rev|]. split.
  - intros x t' H. apply (H1 x (t' ++ rev b)). rewrite E2, H. reflexivity.
  - intros x t' H. apply (f_equal (@rev N)) in H. rewrite rev_involutive, rev_app_distr in H. cbn [rev app] in H.
    apply (H2 x (rev t')). exact H.
Qed.

(** Trimming is a function of the text. *)
Lemma trimmed_unique s t1 t2 : trimmed s t1 -> trimmed s t2 -> t1 = t2.
Proof.
  assert (Hpre : forall a1 a2 r1 r2, Forall blank a1 -> Forall blank a2 ->
    (forall x r, r1 = x :: r -> ~ blank x) -> (forall x r, r2 = x :: r -> ~ blank x) ->
    a1 ++ r1 = a2 ++ r2 -> r1 = r2 \/ (r1 = [] \/ r2 = [])).
  { induction a1 as [|x a1 IH]; intros [|y a2] r1 r2 H1 H2 N1 N2 E; cbn [app] in E; auto.
    - destruct r1 as [|x r1]; [auto|]. injection E as -> E. inversion H2; subst. exfalso. eapply N1; eauto.
    - destruct r2 as [|z r2]; [auto|]. injection E as -> E. inversion H1; subst. exfalso. eapply N2; eauto.
    - injection E as -> E. inversion H1; inversion H2; subst. eapply IH; eauto. }
  intros (a1 & b1 & E1 & A1 & B1 & F1 & L1) (a2 & b2 & E2 & A2 & B2 & F2 & L2).
  assert (Hall : forall a b t, s = a ++ t ++ b -> t = [] -> Forall blank a -> Forall blank b -> Forall blank s).
  { intros a b t -> -> Ha Hb. cbn [app]. apply Forall_app. auto. }
  assert (Hemp : Forall blank s -> forall a b t, s = a ++ t ++ b -> (forall x t', t = x :: t' -> ~ blank x) -> t = []).
  { intros Hs a b t -> Hf. destruct t as [|x t]; [reflexivity|]. exfalso. apply (Hf x t eq_refl).
    rewrite Forall_forall in Hs. apply Hs. apply in_or_app. right. now left. }
  destruct t1 as [|x1 r1].
  { symmetry. apply (Hemp (Hall a1 b1 [] E1 eq_refl A1 B1) a2 b2); auto. }
  destruct t2 as [|x2 r2].
  { apply (Hemp (Hall a2 b2 [] E2 eq_refl A2 B2) a1 b1); auto. }
  assert (E : (x1 :: r1) ++ b1 = (x2 :: r2) ++ b2).
  { destruct (Hpre a1 a2 ((x1 :: r1) ++ b1) ((x2 :: r2) ++ b2)) as [H|[H|H]]; auto; try discriminate.
    - intros x r [= <- _]. apply (F1 x1 r1 eq_refl).
    - intros x r [= <- _]. apply (F2 x2 r2 eq_refl).
    - congruence. }
  apply (f_equal (@rev N)) in E. rewrite !rev_app_distr in E.
  assert (Hrev : forall x r, (forall y t', x :: r = t' ++ [y] -> ~ blank y) -> forall y q, rev (x :: r) = y :: q -> ~ blank y).
  { intros x r H y q Hy. apply (f_equal (@rev N)) in Hy. rewrite rev_involutive in Hy. cbn [rev] in Hy. now apply (H y (rev q)). }
  destruct (Hpre (rev b1) (rev b2) (rev (x1 :: r1)) (rev (x2 :: r2))) as [H|[H|H]];
    [now apply Forall_rev|now apply Forall_rev|apply Hrev, L1|apply Hrev, L2|exact E| | |].
  - apply (f_equal (@rev N)) in H. now rewrite !rev_involutive in H.
  - apply (f_equal (@List.length N)) in H. rewrite rev_length in H. discriminate.
  - apply (f_equal (@List.length N)) in H. rewrite rev_length in H. discriminate.
Qed.

(** ---- Init ---- *)
Lemma land1_testbit x : negb (N.land x 1 =? 0) = N.testbit x 0.
Proof.
  change 1 with (N.ones 1). rewrite N.land_ones, <- N.bit0_mod.
  destruct (N.testbit x 0); reflexivity.
Qed.
Lemma land15_bits x : N.land x 0xf = bits 3 0 x.
Proof. change 0xf with (N.ones 4). rewrite N.land_ones. unfold bits. now rewrite N.div_1_r. Qed.

Lemma swap_field_spec n v : Nat.even (List.length (field n v)) = true -> field n v <> [] ->
  exists o, word_swapped (field n v) o /\ field n (swap_field n v) = o
  /\ (forall m, m <> n -> field m (swap_field n v) = field m v).
Proof.
  intros He Hne. destruct (swap_even (field n v) He) as (o & E & Hl & Hn & _). exists o.
  split; [split; assumption|]. unfold swap_field. rewrite E. split.
  - now apply field_set_same.
  - intros m Hm. now apply field_set_other.
Qed.

Lemma fill_raw20 i b : List.length i = 20%nat -> List.length b = 20%nat -> fill i b = b.
Proof. intros H1 H2. unfold fill. rewrite skipn_all2 by lia. rewrite firstn_all2 by lia. apply app_nil_r. Qed.

Definition ata_facts (raw : bytes) (i : info) : Prop :=
  i_ata_raw i = Some raw /\
  (exists m, word_swapped (slice 54 40 raw) m /\ trimmed m (i_model i)) /\
  (exists s, word_swapped (slice 20 20 raw) s /\ trimmed s (i_serial i) /\ i_raw_serial i = s) /\
  (exists f, word_swapped (slice 46 8 raw) f /\ trimmed f (i_fw i)) /\
  i_smart i = (N.testbit (word 82 raw) 0 && N.testbit (word 85 raw) 0)%bool /\
  i_weight i = (if bits 3 0 (word 168 raw) =? 5 then 1 else 0) + (if word 217 raw <=? 1 then 1 else 0) /\
  i_ssd i = (0 <? i_weight i).

Lemma init_ata_ok i raw : (512 <= List.length raw)%nat -> List.length (i_raw_serial i) = 20%nat ->
  exists i', init_ata i raw = (i', Ok tt) /\ ata_facts raw i'
  /\ i_path i' = i_path i /\ i_nvme i' = i_nvme i /\ i_nvme_raw i' = i_nvme_raw i /\ i_support i' = i_support i
  /\ i_tcg i' = i_tcg i /\ i_raw_made i' = i_raw_made i /\ List.length (i_raw_serial i') = 20%nat.
Proof.
  intros Hl Hs. unfold init_ata. rewrite unpack_ok0 by (change (struc_sizeof lay_IdentityDeviceData) with 512%nat; lia).
  set (v := decoded GetStrucOptions lay_IdentityDeviceData 0 raw).
  assert (Hm : field "ModelNumber" v = slice 54 40 raw) by (apply field_bytes; [reflexivity|lia]).
  assert (Hn : field "SerialNumber" v = slice 20 20 raw) by (apply field_bytes; [reflexivity|lia]).
  assert (Hf : field "FirmwareRevision" v = slice 46 8 raw) by (apply field_bytes; [reflexivity|lia]).
  assert (H82 : field1 "CommandSetSupport.A" v = word 82 raw).
  { unfold v. rewrite (field1_decoded _ _ _ _ 164 2 1) by (try reflexivity; lia). reflexivity. }
  assert (H85 : field1 "CommandSetActive.A" v = word 85 raw).
  { unfold v. rewrite (field1_decoded _ _ _ _ 170 2 1) by (try reflexivity; lia). reflexivity. }
  assert (H168 : field1 "Word168.A" v = word 168 raw).
  { unfold v. rewrite (field1_decoded _ _ _ _ 336 2 1) by (try reflexivity; lia). reflexivity. }
  assert (H217 : field1 "NominalMediaRotationRate" v = word 217 raw).
  { unfold v. rewrite (field1_decoded _ _ _ _ 434 2 1) by (try reflexivity; lia). reflexivity. }
  clearbody v.
  assert (Lm : List.length (slice 54 40 raw) = 40%nat) by (apply slice_length; lia).
  assert (Ln : List.length (slice 20 20 raw) = 20%nat) by (apply slice_length; lia).
  assert (Lf : List.length (slice 46 8 raw) = 8%nat) by (apply slice_length; lia).
  destruct (swap_field_spec "ModelNumber" v) as (m & Sm & Em & Om).
  { rewrite Hm, Lm. reflexivity. } { rewrite Hm. intros C. rewrite C in Lm. discriminate. }
  set (v1 := swap_field "ModelNumber" v) in *.
  destruct (swap_field_spec "SerialNumber" v1) as (s & Ss & Es & Os).
  { rewrite Om, Hn, Ln by discriminate. reflexivity. } { rewrite Om, Hn by discriminate. intros C. rewrite C in Ln. discriminate. }
  set (v2 := swap_field "SerialNumber" v1) in *.
  destruct (swap_field_spec "FirmwareRevision" v2) as (f & Sf & Ef & Of).
  { rewrite Os, Om, Hf, Lf by discriminate. reflexivity. } { rewrite Os, Om, Hf by discriminate. intros C. rewrite C in Lf. discriminate. }
  set (v3 := swap_field "FirmwareRevision" v2) in *.
  clearbody v1 v2 v3.
  assert (G1 : forall n, n <> "ModelNumber"%string -> n <> "SerialNumber"%string -> n <> "FirmwareRevision"%string -> field1 n v3 = field1 n v).
  { intros n A B C. unfold field1. now rewrite Of, Os, Om. }
  rewrite !G1 by discriminate. rewrite H82, H85, H168, H217.
  rewrite Ef. rewrite (Of "SerialNumber"%string) by discriminate. rewrite Es.
  rewrite (Of "ModelNumber"%string) by discriminate. rewrite (Os "ModelNumber"%string) by discriminate. rewrite Em.
  rewrite Hm in Sm. rewrite Om, Hn in Ss by discriminate. rewrite Os, Om, Hf in Sf by discriminate.
  cbn [set_ata_raw i_raw_serial i_path i_nvme i_nvme_raw i_support i_tcg i_raw_made i_ata_raw].
  assert (Ls : List.length s = 20%nat) by (destruct Ss as [Ss _]; congruence).
  rewrite fill_raw20 by assumption.
  eexists. split; [reflexivity|]. cbn [i_ata_raw i_nvme i_nvme_raw i_serial i_model i_fw i_raw_serial i_smart i_ssd i_weight i_path i_ata i_support i_tcg i_raw_made]. split; [|repeat split; auto].
  unfold ata_facts. cbn [i_ata_raw i_nvme i_nvme_raw i_serial i_model i_fw i_raw_serial i_smart i_ssd i_weight i_path i_ata i_support i_tcg i_raw_made]. split; [reflexivity|].
  split; [exists m; split; [exact Sm|apply trim_spec]|].
  split; [exists s; split; [exact Ss|split; [apply trim_spec|reflexivity]]|].
  split; [exists f; split; [exact Sf|apply trim_spec]|].
  rewrite !land1_testbit, land15_bits. split; [reflexivity|]. split; [|reflexivity].
  assert (Hr : ((word 217 raw =? 0) || (word 217 raw =? 1))%bool = (word 217 raw <=? 1)) by lia.
  rewrite Hr. destruct (bits 3 0 (word 168 raw) =? 5), (word 217 raw <=? 1); reflexivity.
Qed.

Lemma init_ata_short i raw : (List.length raw < 512)%nat ->
  exists e, init_ata i raw = (set_ata_raw i raw, Err e) /\ (e = EEOF \/ e = EUnexpectedEOF).
Proof.
  intros H. unfold init_ata.
  destruct (unpack_short GetStrucOptions lay_IdentityDeviceData raw) as (e & -> & He).
  { change (struc_sizeof lay_IdentityDeviceData) with 512%nat. lia. }
  eauto.
Qed.

Definition nvme_facts (raw : bytes) (i : info) : Prop :=
  i_nvme_raw i = Some raw /\ trimmed (slice 4 20 raw) (i_serial i) /\ trimmed (slice 24 40 raw) (i_model i) /\
  trimmed (slice 64 8 raw) (i_fw i) /\ i_raw_serial i = slice 4 20 raw /\ i_smart i = true /\ i_ssd i = true /\ i_weight i = 0.

Lemma nvme_size : struc_sizeof lay_IdentifyController = N.to_nat 4096.
Proof. vm_compute. reflexivity. Qed.

Lemma init_nvme_ok i raw : 4096 <= blen raw -> List.length (i_raw_serial i) = 20%nat ->
  exists i', init_nvme i raw = (i', Ok tt) /\ nvme_facts raw i'
  /\ i_path i' = i_path i /\ i_ata i' = i_ata i /\ i_ata_raw i' = i_ata_raw i /\ i_support i' = i_support i
  /\ i_tcg i' = i_tcg i /\ i_raw_made i' = i_raw_made i /\ List.length (i_raw_serial i') = 20%nat.
Proof.
  intros Hl Hs. unfold init_nvme. unfold blen in Hl.
  rewrite unpack_ok0 by (rewrite nvme_size; lia).
  assert (Hm : field "Mn" (decoded struc_default lay_IdentifyController 0 raw) = slice 24 40 raw)
    by (apply field_bytes; [reflexivity|lia]).
  assert (Hn : field "Sn" (decoded struc_default lay_IdentifyController 0 raw) = slice 4 20 raw)
    by (apply field_bytes; [reflexivity|lia]).
  assert (Hf : field "Fr" (decoded struc_default lay_IdentifyController 0 raw) = slice 64 8 raw)
    by (apply field_bytes; [reflexivity|lia]).
  rewrite Hm, Hn, Hf.
  assert (Ln : List.length (slice 4 20 raw) = 20%nat) by (apply slice_length; lia).
  cbn [set_nvme_raw i_raw_serial i_path i_ata i_ata_raw i_support i_tcg i_raw_made i_nvme_raw].
  rewrite fill_raw20 by assumption.
  eexists. split; [reflexivity|].
  cbn [i_nvme_raw i_serial i_model i_fw i_raw_serial i_smart i_ssd i_weight i_path i_ata i_ata_raw i_support i_tcg i_raw_made].
  split; [|repeat split; auto].
  unfold nvme_facts.
  cbn [i_nvme_raw i_serial i_model i_fw i_raw_serial i_smart i_ssd i_weight i_path i_ata i_ata_raw i_support i_tcg i_raw_made].
  split; [reflexivity|].
  repeat (split; [apply trim_spec|]). repeat split; reflexivity.
Qed.

Lemma init_nvme_short i raw : blen raw < 4096 ->
  exists e, init_nvme i raw = (set_nvme_raw i raw, Err e) /\ (e = EEOF \/ e = EUnexpectedEOF).
Proof.
  intros H. unfold init_nvme. unfold blen in H.
  destruct (unpack_short struc_default lay_IdentifyController raw) as (e & -> & He).
  { rewrite nvme_size. lia. }
  eauto.
Qed.

Lemma discovery_frame V p h h' p' r : tcg_discovery0 V p h = (h', (p', r)) ->
  p_dh p' = p_dh p /\ same_identity (p_info p) (p_info p') /\ i_raw_made (p_info p') = i_raw_made (p_info p) /\ r <> Fuel.
Proof.
  intros H. destruct (security_command V p h false false 1 1 (zeros 2048) 3) as (h1, (e, buf)) eqn:E.
  pose proof (c35 V p h h1 e buf E) as C. rewrite H in C. destruct C as (_ & A & B & C & D).
  split; [exact A|]. split; [exact B|]. split; [exact C|].
  destruct e as [x|]; [destruct D as [-> _]; discriminate|].
  pose proof (c34 V p h h1 buf E) as [_ C34]. cbv zeta in C34. rewrite H in C34.
  destruct C34 as (_ & _ & [[-> _]|[[-> _]|[-> _]]]); discriminate.
Qed.

Lemma init_tail_frame V p h h' p' r : init_tail V p h = (h', (p', r)) ->
  p_dh p' = p_dh p /\ same_identity (p_info p) (p_info p') /\ i_raw_made (p_info p') = true /\ (r = Ok tt \/ r = Panic).
Proof.
  unfold init_tail. set (p1 := with_info p _).
  destruct (tcg_discovery0 V p1 h) as (h1, (p2, r1)) eqn:E. intros H.
  destruct (discovery_frame _ _ _ _ _ _ E) as (A & B & C & D).
  injection H as <- <- <-. split; [exact A|]. split; [exact B|]. split; [exact C|].
  destruct r1; auto. congruence.
Qed.

Lemma ata_facts_frame raw i i' : same_identity i i' -> ata_facts raw i -> ata_facts raw i'.
Proof.
  intros (E1 & E2 & E3 & E4 & E5 & E6 & E7 & E8 & E9 & E10 & E11 & E12). unfold ata_facts.
  now rewrite E2, E3, E4, E5, E6, E8, E11, E12.
Qed.
Lemma nvme_facts_frame raw i i' : same_identity i i' -> nvme_facts raw i -> nvme_facts raw i'.
Proof.
  intros (E1 & E2 & E3 & E4 & E5 & E6 & E7 & E8 & E9 & E10 & E11 & E12). unfold nvme_facts.
  now rewrite E2, E3, E4, E5, E6, E10, E11, E12.
Qed.

Lemma init_ata_full V p h h' p' r : p_dh p = Some {| is_ata := true; is_nvme := false |} ->
  List.length (i_raw_serial (p_info p)) = 20%nat -> init V p h = (h', (p', r)) ->
  let raw := v_identity V (h ++ [CIdentity]) in
  (512 <= List.length raw)%nat ->
  (r = Ok tt \/ r = Panic) /\ p_dh p' = p_dh p /\ ata_facts raw (p_info p').
Proof.
  intros Hd Hs H raw Hl. unfold init in H. rewrite Hd in H. cbn [is_ata is_nvme] in H. fold raw in H.
  destruct (init_ata_ok (p_info p) raw Hl Hs) as (i' & E & F & _). rewrite E in H.
  destruct (init_tail_frame _ _ _ _ _ _ H) as (A & B & C & D).
  split; [exact D|]. split; [exact A|]. eapply ata_facts_frame; [exact B|exact F].
Qed.

Lemma init_nvme_full V p h h' p' r : p_dh p = Some {| is_ata := false; is_nvme := true |} ->
  List.length (i_raw_serial (p_info p)) = 20%nat -> init V p h = (h', (p', r)) ->
  let raw := v_identity V (h ++ [CIdentity]) in
  4096 <= blen raw ->
  (r = Ok tt \/ r = Panic) /\ p_dh p' = p_dh p /\ nvme_facts raw (p_info p').
Proof.
  intros Hd Hs H raw Hl. unfold init in H. rewrite Hd in H. cbn [is_ata is_nvme] in H. fold raw in H.
  destruct (init_nvme_ok (p_info p) raw Hl Hs) as (i' & E & F & _). rewrite E in H.
  destruct (init_tail_frame _ _ _ _ _ _ H) as (A & B & C & D).
  split; [exact D|]. split; [exact A|]. eapply nvme_facts_frame; [exact B|exact F].
Qed.

(** ---- Close ---- *)
Lemma dead_step V i h o : exists i' out,
  hstep V {| p_dh := None; p_info := i |} h o = (h, ({| p_dh := None; p_info := i' |}, out)) /\ dead_answer o out.
Proof.
  destruct o; cbn; try (do 2 eexists; split; reflexivity).
Qed.

Lemma dead_run V ops : forall i h, exists i' outs,
  hrun V {| p_dh := None; p_info := i |} h ops = (h, ({| p_dh := None; p_info := i' |}, outs)) /\ Forall2 dead_answer ops outs.
Proof.
  induction ops as [|o ops IH]; intros i h; cbn [hrun].
  - do 2 eexists. split; [reflexivity|constructor].
  - destruct (dead_step V i h o) as (i1 & out & -> & Ho).
    destruct (IH i1 h) as (i2 & outs & -> & Hs). do 2 eexists. split; [reflexivity|]. now constructor.
Qed.

Lemma closes_app a b : closes (a ++ b) = (closes a + closes b)%nat.
Proof. unfold closes. now rewrite filter_app, app_length. Qed.

Lemma security_extends V p h rw dma pr c b t : exists cs, fst (security_command V p h rw dma pr c b t) = h ++ cs /\ closes cs = 0%nat.
Proof.
  unfold security_command. destruct (p_dh p) as [ty|]; [|exists []; now rewrite app_nil_r].
  destruct (v_io V _) as [e1 n1]. destruct e1 as [x|]; cbn [fst].
  2:{ eexists. split; reflexivity. }
  destruct (is_ata ty); [|destruct (is_nvme ty)].
  - destruct (v_io V _) as [e2 n2]. cbn [fst]. rewrite <- app_assoc. eexists. split; reflexivity.
  - destruct (v_io V _) as [e2 n2]. cbn [fst]. rewrite <- app_assoc. eexists. split; reflexivity.
  - eexists. split; reflexivity.
Qed.

Lemma discovery_extends V p h : exists cs, fst (tcg_discovery0 V p h) = h ++ cs /\ closes cs = 0%nat.
Proof.
  pose proof (security_extends V p h false false 1 1 (zeros 2048) 3) as (cs & E & H).
  destruct (security_command V p h false false 1 1 (zeros 2048) 3) as (h1, (e, buf)) eqn:Es. cbn [fst] in E.
  pose proof (c35 V p h h1 e buf Es) as C. destruct (tcg_discovery0 V p h) as (h', (p', r)). destruct C as (-> & _).
  exists cs. auto.
Qed.

Lemma live_step V p ty h o : p_dh p = Some ty -> is_close o = false ->
  exists cs p' out, hstep V p h o = (h ++ cs, (p', out)) /\ p_dh p' = Some ty /\ closes cs = 0%nat.
Proof.
  intros Hd Ho. destruct o; try discriminate Ho; cbn [hstep].
  - (* Init *)
    assert (Ht : forall q g, p_dh q = Some ty -> exists cs p' r, init_tail V q g = (g ++ cs, (p', r)) /\ p_dh p' = Some ty /\ closes cs = 0%nat).
    { intros q g Hq. destruct (init_tail V q g) as (g', (q', r)) eqn:E.
      destruct (init_tail_frame _ _ _ _ _ _ E) as (A & _). unfold init_tail in E.
      set (q1 := with_info q (set_tcg (p_info q) true (with_map (i_tcg (p_info q))))) in E.
      pose proof (discovery_extends V q1 g) as (cs & Ec & Hc).
      destruct (tcg_discovery0 V q1 g) as (g1, (q2, r1)). cbn [fst] in Ec. subst g1. injection E as <- <- <-.
      exists cs. do 2 eexists. split; [reflexivity|]. split; [congruence|exact Hc]. }
    unfold init. rewrite Hd.
    destruct (is_ata ty) eqn:Ea; cbn [fst snd].
    + destruct (init_ata _ _) as [i1 r1]. destruct r1.
      * destruct (is_nvme ty).
        -- destruct (init_nvme _ _) as [i2 r2]. destruct r2.
           ++ destruct (Ht (with_info p i2) ((h ++ [CIdentity]) ++ [CIdentity]) Hd) as (cs & p' & r & -> & Hp & Hc).
              exists ([CIdentity; CIdentity] ++ cs). do 2 eexists. split; [now rewrite <- !app_assoc|]. split; [exact Hp|]. exact Hc.
           ++ do 3 eexists. split; [now rewrite <- app_assoc|]. split; [exact Hd|reflexivity].
           ++ do 3 eexists. split; [now rewrite <- app_assoc|]. split; [exact Hd|reflexivity].
           ++ do 3 eexists. split; [now rewrite <- app_assoc|]. split; [exact Hd|reflexivity].
        -- destruct (Ht (with_info p i1) (h ++ [CIdentity]) Hd) as (cs & p' & r & -> & Hp & Hc).
           exists ([CIdentity] ++ cs). do 2 eexists. split; [now rewrite <- !app_assoc|]. split; [exact Hp|]. exact Hc.
      * do 3 eexists. split; [reflexivity|]. split; [exact Hd|reflexivity].
      * do 3 eexists. split; [reflexivity|]. split; [exact Hd|reflexivity].
      * do 3 eexists. split; [reflexivity|]. split; [exact Hd|reflexivity].
    + destruct (is_nvme ty).
      -- destruct (init_nvme _ _) as [i2 r2]. destruct r2.
         ++ destruct (Ht (with_info p i2) (h ++ [CIdentity]) Hd) as (cs & p' & r & -> & Hp & Hc).
            exists ([CIdentity] ++ cs). do 2 eexists. split; [now rewrite <- !app_assoc|]. split; [exact Hp|]. exact Hc.
         ++ do 3 eexists. split; [reflexivity|]. split; [exact Hd|reflexivity].
         ++ do 3 eexists. split; [reflexivity|]. split; [exact Hd|reflexivity].
         ++ do 3 eexists. split; [reflexivity|]. split; [exact Hd|reflexivity].
      -- destruct (Ht (with_info p (p_info p)) h Hd) as (cs & p' & r & -> & Hp & Hc).
         exists cs. do 2 eexists. split; [reflexivity|]. split; [exact Hp|exact Hc].
  - unfold get_driving_type. rewrite Hd. do 3 eexists. split; [reflexivity|]. split; [exact Hd|reflexivity].
  - unfold get_driver_name. rewrite Hd. do 3 eexists. split; [reflexivity|]. split; [exact Hd|reflexivity].
  - pose proof (discovery_extends V p h) as (cs & Ec & Hc).
    destruct (tcg_discovery0 V p h) as (h1, (p1, r)) eqn:E. cbn [fst] in Ec. subst h1.
    destruct (discovery_frame _ _ _ _ _ _ E) as (A & _). exists cs. do 2 eexists. split; [reflexivity|]. split; [congruence|exact Hc].
  - pose proof (security_extends V p h rw dma protocol comId buffer timeoutSecs) as (cs & Ec & Hc).
    destruct (security_command V p h rw dma protocol comId buffer timeoutSecs) as (h1, (e, b)). cbn [fst] in Ec. subst h1.
    exists cs. do 2 eexists. split; [reflexivity|]. split; [exact Hd|exact Hc].
  - unfold ata_do_task_file_cmd. rewrite Hd. destruct (is_ata ty).
    + destruct (v_io V _) as [e new]. do 3 eexists. split; [reflexivity|]. split; [exact Hd|reflexivity].
    + exists []. do 2 eexists. split; [now rewrite app_nil_r|]. split; [exact Hd|reflexivity].
  - unfold nvme_get_log_page. rewrite Hd. destruct (is_nvme ty).
    + destruct (v_log V _) as [b e]. do 3 eexists. split; [reflexivity|]. split; [exact Hd|reflexivity].
    + exists []. do 2 eexists. split; [now rewrite app_nil_r|]. split; [exact Hd|reflexivity].
Qed.

Lemma live_run V ty ops : forall p h, p_dh p = Some ty -> existsb is_close ops = false ->
  exists cs p' outs, hrun V p h ops = (h ++ cs, (p', outs)) /\ p_dh p' = Some ty /\ closes cs = 0%nat /\ List.length outs = List.length ops.
Proof.
  induction ops as [|o ops IH]; intros p h Hd Ho; cbn [hrun existsb] in *.
  - exists []. do 2 eexists. rewrite app_nil_r. repeat split; assumption.
  - apply orb_false_iff in Ho as [Ho1 Ho2].
    destruct (live_step V p ty h o Hd Ho1) as (c1 & p1 & out & -> & H1 & H2).
    destruct (IH p1 (h ++ c1) H1 Ho2) as (c2 & p2 & outs & -> & H3 & H4 & H5).
    exists (c1 ++ c2), p2, (out :: outs). rewrite app_assoc, closes_app. repeat split; auto; [lia|cbn; lia].
Qed.

Lemma hrun_app V ops1 ops2 : forall p h,
  hrun V p h (ops1 ++ ops2) =
  let '(h1, (p1, o1)) := hrun V p h ops1 in
  let '(h2, (p2, o2)) := hrun V p1 h1 ops2 in (h2, (p2, o1 ++ o2)).
Proof.
  induction ops1 as [|o ops IH]; intros p h; cbn [app hrun].
  - destruct (hrun V p h ops2) as (h2, (p2, o2)). reflexivity.
  - destruct (hstep V p h o) as (h1, (p1, r)). rewrite IH.
    destruct (hrun V p1 h1 ops) as (h2, (p2, o1)). destruct (hrun V p2 h2 ops2) as (h3, (p3, o2)). reflexivity.
Qed.

Lemma c39 V ty p h before after : p_dh p = Some ty -> existsb is_close before = false ->
  exists cs i' outs1 outs2,
    hrun V p h (before ++ HClose :: after) =
      (h ++ cs ++ [CClose], ({| p_dh := None; p_info := i' |}, outs1 ++ OutNone :: outs2))
    /\ closes cs = 0%nat /\ fst (hrun V p h before) = h ++ cs
    /\ List.length outs1 = List.length before /\ Forall2 dead_answer after outs2.
Proof.
  intros Hd Hb. destruct (live_run V ty before p h Hd Hb) as (cs & p1 & outs & E & H1 & H2 & H3).
  rewrite hrun_app, E. cbn [hrun hstep]. unfold close. rewrite H1.
  destruct (dead_run V after (p_info p1) ((h ++ cs) ++ [CClose])) as (i' & o2 & -> & Ho).
  exists cs, i', outs, o2. rewrite <- app_assoc. repeat split; assumption.
Qed.

(** ---- Get Log Page ---- *)
Lemma log_loop V nsid logId rae n : forall fuel offset data root h, offset < n -> n <= offset + 4096 * N.of_nat fuel ->
  exists h' d r, log_page_loop V fuel nsid logId rae n offset data root h = (h', Ok (d, r))
  /\ attempts V (log_page_cmd nsid logId rae n) (N.to_nat ((n - offset + 4095) / 4096)) h data h' d r.
Proof.
  induction fuel as [|fuel IH]; intros offset data root h Ho Hf; [lia|].
  cbn [log_page_loop]. destruct (N.leb_spec n offset); [lia|].
  destruct (v_io V (h ++ [CAdmin (log_page_cmd nsid logId rae n data)])) as [e new] eqn:E.
  assert (Hk : exists k, N.to_nat ((n - offset + 4095) / 4096) = S k).
  { exists (N.to_nat ((n - offset + 4095) / 4096) - 1)%nat. lia. }
  destruct Hk as [k Hk]. rewrite Hk.
  destruct e as [x|].
  - destruct (N.ltb_spec 4096 (n - offset)) as [Hl|Hl].
    + destruct (IH (offset + 4096) (fill data new) (Some x) (h ++ [CAdmin (log_page_cmd nsid logId rae n data)]))
        as (h' & d & r & -> & Ha); [lia|lia|].
      do 3 eexists. split; [reflexivity|].
      assert (Hk' : N.to_nat ((n - (offset + 4096) + 4095) / 4096) = k) by lia.
      rewrite Hk' in Ha. destruct k as [|k]; [exfalso; lia|].
      eapply att_again; eassumption.
    + assert (k = 0)%nat by lia. subst k.
      assert (Hend : forall g, log_page_loop V fuel nsid logId rae n (offset + (n - offset)) (fill data new) (Some x) g = (g, Ok (fill data new, Some x))).
      { intros g. destruct fuel; cbn [log_page_loop]; (destruct (N.leb_spec n (offset + (n - offset))); [reflexivity|lia]). }
      rewrite Hend. do 3 eexists. split; [reflexivity|]. now apply att_last.
  - do 3 eexists. split; [reflexivity|]. now apply att_ok.
Qed.

Lemma attempts_facts V mk k h d h' d' r : attempts V mk k h d h' d' r ->
  exists cs, h' = h ++ cs /\ (1 <= List.length cs <= k)%nat /\ List.length d' = List.length d
  /\ Forall (fun c => exists b, c = CAdmin (mk b)) cs
  /\ (forall i, (S i < List.length cs)%nat -> fst (v_io V (h ++ firstn (S i) cs)) <> None)
  /\ r = fst (v_io V h') /\ (r <> None -> List.length cs = k).
Proof.
  induction 1 as [k h d new E|h d e new E|k h d e new h' d' r E H IH].
  - eexists. split; [reflexivity|]. cbn [List.length]. repeat split; try lia.
    + apply fill_length.
    + repeat constructor. eauto.
    + now rewrite E.
    + congruence.
  - eexists. split; [reflexivity|]. cbn [List.length]. repeat split; try lia.
    + apply fill_length.
    + repeat constructor. eauto.
    + now rewrite E.
  - destruct IH as (cs & -> & Hl & Hd & Hc & Hi & Hr & Hn).
    exists (CAdmin (mk d) :: cs). cbn [List.length]. split; [now rewrite <- app_assoc|].
    split; [lia|]. split; [now rewrite Hd, fill_length|]. split; [constructor; [eauto|exact Hc]|].
    split; [|split; [exact Hr|intros Hx; rewrite (Hn Hx); reflexivity]].
    intros [|i] Hlt; cbn [firstn].
    + rewrite E. discriminate.
    + specialize (Hi i). rewrite <- app_assoc in Hi. apply Hi. lia.
Qed.

Lemma c42 V h nsid logId rae size :
  match size with
  | Zneg _ => nvme_get_log_page_by_admin_passthru V h nsid logId rae size = (h, Panic)
  | Z0 => nvme_get_log_page_by_admin_passthru V h nsid logId rae size = (h, Ok ([], None))
  | Zpos q => let n := Npos q in
    exists h' d r, nvme_get_log_page_by_admin_passthru V h nsid logId rae size = (h', Ok (d, r))
    /\ blen d = n
    /\ attempts V (log_page_cmd nsid logId rae n) (N.to_nat ((n + 4095) / 4096)) h (zeros (N.to_nat n)) h' d r
  end.
Proof.
  destruct size as [|q|q]; try reflexivity.
  unfold nvme_get_log_page_by_admin_passthru. cbn [Z.ltb Z.compare Z.to_N]. cbv zeta.
  destruct (log_loop V nsid logId rae (Npos q) (N.to_nat (Npos q / 4096 + 1)) 0 (zeros (N.to_nat (Npos q))) None h)
    as (h' & d & r & E & Ha); [lia|lia|].
  exists h', d, r. split; [exact E|]. rewrite N.sub_0_r in Ha. split; [|exact Ha].
  apply attempts_facts in Ha as (cs & _ & _ & Hd & _). unfold blen. rewrite Hd. unfold zeros. rewrite repeat_length. lia.
Qed.

(** ---- command encodings ---- *)
Lemma lor_add_disjoint a b k : a < 2 ^ k -> N.lor a (N.shiftl b k) = a + b * 2 ^ k.
Proof.
  intros H. rewrite <- N.shiftl_mul_pow2. symmetry. rewrite <- N.lxor_lor.
  - apply N.add_nocarry_lxor. apply N.bits_inj. intros i. rewrite N.land_spec, N.bits_0.
    destruct (N.lt_ge_cases i k) as [Hi|Hi].
    + rewrite N.shiftl_spec_low by assumption. apply andb_false_r.
    + destruct (N.eq_dec a 0) as [->|Ha]; [now rewrite N.bits_0|].
      rewrite N.bits_above_log2; [reflexivity|]. apply N.log2_lt_pow2; [lia|]. eapply N.lt_le_trans; [exact H|].
      apply N.pow_le_mono_r; lia.
  - apply N.bits_inj. intros i. rewrite N.land_spec, N.bits_0.
    destruct (N.lt_ge_cases i k) as [Hi|Hi].
    + rewrite N.shiftl_spec_low by assumption. apply andb_false_r.
    + destruct (N.eq_dec a 0) as [->|Ha]; [now rewrite N.bits_0|].
      rewrite N.bits_above_log2; [reflexivity|]. apply N.log2_lt_pow2; [lia|]. eapply N.lt_le_trans; [exact H|].
      apply N.pow_le_mono_r; lia.
Qed.

Lemma numd_small n : 4 <= n -> n / 4 <= 2 ^ 32 -> Z.to_N ((Z.shiftr (Z.of_N n) 2 - 1) mod 2 ^ 32) = n / 4 - 1.
Proof.
  intros H1 H2. rewrite Z.shiftr_div_pow2 by lia. change (2 ^ 2)%Z with 4%Z.
  assert (E : (Z.of_N n / 4 - 1)%Z = Z.of_N (n / 4 - 1)) by lia.
  rewrite E. rewrite Z.mod_small; [lia|]. change (2 ^ 32) with 4294967296 in H2. change (2 ^ 32)%Z with 4294967296%Z. lia.
Qed.

Lemma c43 nsid logId (rae : bool) n data : logId < 256 -> 4 <= n -> n / 4 <= 2 ^ 32 ->
  let c := log_page_cmd nsid logId rae n data in
  c_opcode c = 0x02 /\ c_nsid c = nsid /\ c_data c = data /\ c_data_len c = n mod 2 ^ 32 /\
  bits 31 16 (c_cdw10 c) + 2 ^ 16 * bits 15 0 (c_cdw11 c) = n / 4 - 1 /\
  bits 7 0 (c_cdw10 c) = logId /\ bits 11 8 (c_cdw10 c) = 0 /\ bits 14 12 (c_cdw10 c) = 0 /\
  bits 15 15 (c_cdw10 c) = (if rae then 1 else 0) /\ bits 31 16 (c_cdw11 c) = 0 /\ c_cdw10 c < 2 ^ 32 /\
  c_flags c = 0 /\ c_cdw2 c = 0 /\ c_cdw3 c = 0 /\ c_metadata c = 0 /\ c_cdw12 c = 0 /\ c_cdw13 c = 0 /\ c_cdw14 c = 0 /\ c_cdw15 c = 0.
Proof.
  intros Hl H1 H2. cbv zeta. unfold log_page_cmd. rewrite numd_small by assumption.
  set (m := n / 4 - 1). assert (Hm : m < 2 ^ 32) by (unfold m; change (2 ^ 32) with 4294967296 in *; lia). clearbody m.
  cbn [c_opcode c_nsid c_data c_data_len c_cdw10 c_cdw11 c_cdw12 c_cdw13 c_cdw14 c_cdw15 c_flags c_cdw2 c_cdw3 c_metadata].
  change (N.shiftl 0 16) with 0. change (N.shiftl 0 8) with 0. change (N.shiftr 0 32) with 0. rewrite !N.lor_0_r.
  change 0xffff with (N.ones 16). rewrite !N.land_ones, N.shiftr_div_pow2.
  assert (E10 : N.lor (N.lor logId (N.shiftl (m mod 2 ^ 16) 16 mod 2 ^ 32)) (ternary rae (N.shiftl 1 15) 0)
     = logId + (if rae then 1 else 0) * 2 ^ 15 + (m mod 2 ^ 16) * 2 ^ 16).
  { assert (Hmm : m mod 2 ^ 16 < 2 ^ 16) by (apply N.mod_lt; discriminate).
    rewrite N.mod_small by (rewrite N.shiftl_mul_pow2; change (2 ^ 16) with 65536 in *; change (2 ^ 32) with 4294967296; lia).
    rewrite <- N.lor_assoc, (N.lor_comm (N.shiftl _ 16)), N.lor_assoc.
    assert (E1 : N.lor logId (ternary rae (N.shiftl 1 15) 0) = logId + (if rae then 1 else 0) * 2 ^ 15).
    { destruct rae; cbn [ternary]; [apply lor_add_disjoint; change (2 ^ 15) with 32768; lia|]. rewrite N.lor_0_r. lia. }
    rewrite E1. apply lor_add_disjoint. change (2 ^ 16) with 65536. change (2 ^ 15) with 32768. destruct rae; lia. }
  rewrite E10. unfold bits.
  change (2 ^ (31 - 16 + 1)) with 65536. change (2 ^ (15 - 0 + 1)) with 65536. change (2 ^ (7 - 0 + 1)) with 256.
  change (2 ^ (11 - 8 + 1)) with 16. change (2 ^ (14 - 12 + 1)) with 8. change (2 ^ (15 - 15 + 1)) with 2.
  change (2 ^ 0) with 1. change (2 ^ 16) with 65536. change (2 ^ 15) with 32768. change (2 ^ 8) with 256. change (2 ^ 12) with 4096.
  change (2 ^ 32) with 4294967296 in *.
  assert (Hr : exists b, (if rae then 1 else 0) = b /\ b < 2) by (destruct rae; eexists; split; try reflexivity; lia).
  destruct Hr as (b & -> & Hb).
  split; [reflexivity|]. split; [reflexivity|]. split; [reflexivity|]. split; [reflexivity|].
  assert (Hq : m mod 65536 < 65536) by (apply N.mod_lt; discriminate).
  assert (Hqq : m = 65536 * (m / 65536) + m mod 65536) by (apply N.div_mod; discriminate).
  assert (Hq2 : m / 65536 < 65536) by (apply N.div_lt_upper_bound; lia).
  set (q := m mod 65536) in *. set (q2 := m / 65536) in *. clearbody q q2.
  split.
  { rewrite (N.mod_small q2) by lia. rewrite N.div_1_r. rewrite N.div_add by discriminate. rewrite N.div_small by lia.
    rewrite N.add_0_l. rewrite !N.mod_small by lia. lia. }
  split.
  { rewrite N.div_1_r. lia. }
  split; [lia|]. split; [lia|]. split; [lia|]. split; [lia|]. split; [lia|]. repeat split; reflexivity.
Qed.

Lemma c43_small nsid logId (rae : bool) n data : 0 < n < 4 ->
  let c := log_page_cmd nsid logId rae n data in
  c_cdw11 c = 0xFFFF /\ bits 31 16 (c_cdw10 c) = 0xFFFF.
Proof.
  intros H. cbv zeta. unfold log_page_cmd.
  assert (E : Z.to_N ((Z.shiftr (Z.of_N n) 2 - 1) mod 2 ^ 32) = 0xFFFFFFFF).
  { assert (n = 1 \/ n = 2 \/ n = 3) as [->|[->| ->]] by lia; reflexivity. }
  rewrite E. cbn [c_cdw10 c_cdw11]. split; [reflexivity|].
  unfold bits. rewrite <- N.shiftr_div_pow2. change (31 - 16 + 1) with 16. rewrite <- N.land_ones.
  rewrite !N.shiftr_lor, !N.land_lor_distr_l.
  assert (Er : N.land (N.shiftr (ternary rae (N.shiftl 1 15) 0) 16) (N.ones 16) = 0) by (destruct rae; reflexivity).
  rewrite Er. change (N.shiftl (N.land 0xFFFFFFFF 0xffff) 16 mod 2 ^ 32) with 0xFFFF0000.
  change (N.land (N.shiftr 0xFFFF0000 16) (N.ones 16)) with (N.ones 16).
  change (N.land (N.shiftr (N.shiftl 0 8) 16) (N.ones 16)) with 0. rewrite !N.lor_0_r.
  change 0xFFFF with (N.ones 16). apply N.bits_inj. intros i. rewrite N.lor_spec, N.land_spec.
  destruct (N.testbit (N.ones 16) i); now rewrite ?orb_true_r, ?andb_false_r.
Qed.

(** ---- SecurityCommand fallbacks ---- *)
Lemma c40 V p h rw dma proto comId buf timeout : proto < 256 -> comId < 65536 ->
  let '(h', (e, out)) := security_command V p h rw dma proto comId buf timeout in
  List.length out = List.length buf /\
  match p_dh p with
  | None => h' = h /\ e = Some (EMsg "not supported") /\ out = buf
  | Some ty =>
    let h1 := h ++ [CSec rw dma proto comId buf timeout] in
    let e1 := fst (v_io V h1) in
    let buf1 := fill buf (snd (v_io V h1)) in
    match e1 with
    | None => h' = h1 /\ e = None /\ out = buf1
    | Some _ =>
      if is_ata ty then
        exists t, h' = h1 ++ [CTask rw dma t buf1 timeout] /\ e = fst (v_io V h') /\ out = fill buf1 (snd (v_io V h'))
          /\ t_command t = trusted_opcode rw dma /\ g_feat (t_lob t) = proto /\ trusted_com_id t = comId
          /\ trusted_blocks t = (blen buf / 512) mod 256
          /\ t_dev t = 0 /\ t_lba48 t = 0 /\ t_hob t = regs0
      else if is_nvme ty then
        exists c, h' = h1 ++ [CAdmin c] /\ e = fst (v_io V h') /\ out = fill buf1 (snd (v_io V h'))
          /\ c_opcode c = (if rw then 0x81 else 0x82) /\ c_data c = buf1
          /\ bits 31 24 (c_cdw10 c) = proto /\ bits 23 8 (c_cdw10 c) = comId /\ bits 7 0 (c_cdw10 c) = 0
          /\ c_cdw11 c = blen buf mod 2 ^ 32 /\ c_data_len c = blen buf mod 2 ^ 32 /\ c_nsid c = 0 /\ c_data_addr c = 0
      else h' = h1 /\ e = e1 /\ out = buf1
    end
  end.
Proof.
  intros Hp Hc. pose proof (security_buffer_length V p h rw dma proto comId buf timeout) as Hlen.
  destruct (security_command V p h rw dma proto comId buf timeout) as (h', (e, out)) eqn:E. cbn [snd] in Hlen.
  split; [exact Hlen|]. clear Hlen. unfold security_command in E.
  destruct (p_dh p) as [ty|]; [|injection E as <- <- <-; auto].
  cbv zeta in *. destruct (v_io V (h ++ [CSec rw dma proto comId buf timeout])) as [e1 new1]. cbn [fst snd].
  destruct e1 as [x|]; [|injection E as <- <- <-; auto].
  destruct (is_ata ty).
  - match type of E with context [CTask rw dma ?t0 _ _] => set (t := t0) in E; exists t end.
    destruct (v_io V ((h ++ [CSec rw dma proto comId buf timeout]) ++ [CTask rw dma t (fill buf new1) timeout])) as [e2 new2] eqn:E2.
    injection E as <- <- <-. rewrite E2. cbn [fst snd]. do 3 (split; [reflexivity|]).
    split; [destruct rw, dma; reflexivity|]. split; [reflexivity|].
    split.
    { unfold trusted_com_id, t. cbn [t_lob g_lbam g_lbah]. rewrite N.shiftr_div_pow2. change (2 ^ 8) with 256. lia. }
    split; [unfold trusted_blocks, t; cbn [t_lob g_nsect g_lbal]; lia|]. repeat split; reflexivity.
  - destruct (is_nvme ty); [|injection E as <- <- <-; auto].
    match type of E with context [CAdmin ?c0] => set (c := c0) in E; exists c end.
    destruct (v_io V ((h ++ [CSec rw dma proto comId buf timeout]) ++ [CAdmin c])) as [e2 new2] eqn:E2.
    injection E as <- <- <-. rewrite E2. cbn [fst snd]. do 3 (split; [reflexivity|]).
    assert (E10 : c_cdw10 c = comId * 2 ^ 8 + proto * 2 ^ 24).
    { unfold c. cbn [c_cdw10]. change 0xff with (N.ones 8). change 0xffff with (N.ones 16). rewrite !N.land_ones.
      change (2 ^ 8) with 256. change (2 ^ 16) with 65536. rewrite !(N.mod_small proto), !(N.mod_small comId) by assumption.
      rewrite !N.shiftl_mul_pow2. change (2 ^ 24) with 16777216. change (2 ^ 8) with 256. change (2 ^ 32) with 4294967296.
      rewrite !N.mod_small by lia. rewrite N.lor_comm.
      change 16777216 with (2 ^ 24). rewrite <- (N.shiftl_mul_pow2 proto). rewrite lor_add_disjoint by (change (2 ^ 24) with 16777216; lia). now rewrite N.shiftl_mul_pow2. }
    split; [destruct rw; reflexivity|]. split; [reflexivity|].
    rewrite E10. unfold bits. change (2 ^ (31 - 24 + 1)) with 256. change (2 ^ (23 - 8 + 1)) with 65536. change (2 ^ (7 - 0 + 1)) with 256.
    change (2 ^ 24) with 16777216. change (2 ^ 8) with 256. change (2 ^ 0) with 1.
    split; [lia|]. split; [lia|]. split; [lia|]. repeat split; reflexivity.
Qed.

Lemma c41 len : 512 * ((len / 512) mod 256) = len <-> len mod 512 = 0 /\ len < 131072.
Proof. lia. Qed.
