(** Lemmas about SecurityCommand and Level 0 discovery. *)
From Verif Require Import Base M_Buffer M_Struc M_Layouts M_Ata M_TcgDevice M_DriveHandle Spec_Drive P_Struc.

Lemma fill_length old new : List.length (fill old new) = List.length old.
Proof. unfold fill. rewrite app_length, firstn_length, skipn_length. lia. Qed.

Lemma nth_error_fill old new i : (i < List.length new)%nat -> (i < List.length old)%nat ->
  nth_error (fill old new) i = nth_error new i.
Proof.
  intros H1 H2. unfold fill. rewrite nth_error_app1 by (rewrite firstn_length; lia).
  rewrite <- (firstn_skipn (List.length old) new) at 2.
  rewrite nth_error_app1 by (rewrite firstn_length; lia). reflexivity.
Qed.

Lemma nth_error_skipn {A} (l : list A) : forall o i, nth_error (skipn o l) i = nth_error l (o + i).
Proof.
  induction l as [|x l IH]; intros o i.
  - rewrite skipn_nil. rewrite !(proj2 (nth_error_None _ _)) by (cbn; lia). reflexivity.
  - destruct o as [|o]; cbn [skipn Nat.add]; [reflexivity|]. apply IH.
Qed.

Lemma security_buffer_length V p h rw dma pr c b t :
  List.length (snd (snd (security_command V p h rw dma pr c b t))) = List.length b.
Proof.
  unfold security_command. destruct (p_dh p) as [ty|]; [|reflexivity].
  destruct (v_io V _) as [e1 n1]. destruct e1 as [x|]; cbn [snd]; [|apply fill_length].
  destruct (is_ata ty); [|destruct (is_nvme ty)].
  - destruct (v_io V _) as [e2 n2]. cbn [snd]. now rewrite !fill_length.
  - destruct (v_io V _) as [e2 n2]. cbn [snd]. now rewrite !fill_length.
  - apply fill_length.
Qed.

(** The basic header decoded from 16 bytes. *)
Lemma basic_decode u : List.length u = 16%nat ->
  exists basic, struc_unpack struc_default lay_Discovery0BasicFeature u = Ok basic
  /\ field1 "FeatureCode" basic = be_val (slice 0 2 u)
  /\ field1 "Length" basic = nth 3 u 0.
Proof.
  intros H. eexists. split; [apply unpack_ok0; rewrite H; cbn; lia|]. split.
  - rewrite (field1_decoded _ _ _ _ 0 2 1) by (try reflexivity; lia). reflexivity.
  - rewrite (field1_decoded _ _ _ _ 3 1 1) by (try reflexivity; lia).
    do 4 (destruct u as [|? u]; [discriminate|]). cbn. lia.
Qed.

Lemma basic_field u buf offset : List.length u = 16%nat -> (offset + 4 <= List.length buf)%nat ->
  slice 0 2 (fill u (skipn offset buf)) = slice offset 2 buf /\ nth_error (fill u (skipn offset buf)) 3 = nth_error buf (offset + 3).
Proof.
  intros Hu Hb. split.
  - apply list_eq_nth_error. intros i. rewrite !nth_error_slice.
    destruct (Nat.ltb_spec i 2); [|reflexivity].
    rewrite nth_error_fill by (try rewrite skipn_length; lia). rewrite nth_error_skipn. reflexivity.
  - rewrite nth_error_fill by (try rewrite skipn_length; lia). apply nth_error_skipn.
Qed.

(** One step of the loop. *)
Lemma loop_step fuel made buf len u offset t : List.length u = 16%nat -> (offset < len)%nat ->
  discovery_loop (S fuel) made buf len u offset t =
  let u1 := fill u (skipn offset buf) in
  let n := N.to_nat (nth 3 u1 0) in
  if (List.length buf <? offset + n + 4)%nat then (t, Panic)
  else let fc := be_val (slice 0 2 u1) in
       if negb made then (set_flag fc t, Panic)
       else discovery_loop fuel made buf len u1 (offset + n + 4) (set_raw fc (slice offset (n + 4) buf) (set_flag fc t)).
Proof.
  intros Hu Ho. cbn [discovery_loop].
  destruct (Nat.ltb_spec offset len); [|lia].
  destruct (basic_decode (fill u (skipn offset buf))) as (basic & Hb & H1 & H2); [now rewrite fill_length|].
  cbv zeta. rewrite Hb, H1, H2. reflexivity.
Qed.

Lemma loop_end fuel made buf len u offset t : (len <= offset)%nat ->
  discovery_loop fuel made buf len u offset t = (t, Ok tt).
Proof. intros H. destruct fuel; cbn [discovery_loop]; (destruct (Nat.ltb_spec offset len); [lia|reflexivity]). Qed.

Lemma adds_nil t : adds_features t t [].
Proof. unfold adds_features. cbn [listed existsb last_listed]. rewrite !orb_false_r. repeat split. Qed.

Lemma adds_one t f d : d = descriptor f -> adds_features t (set_raw (ft_code f) d (set_flag (ft_code f) t)) [f].
Proof.
  intros ->. unfold adds_features. cbn -[descriptor N.eqb]. unfold FcTPer, FcLocking, FcGeometryReporting, FcOpalSscV100,
    FcOpalSscV200, FcEnterprise, FcSingleUser, FcDataStore.
  rewrite !orb_false_r. repeat (split; [apply orb_comm|]). intros code. destruct (ft_code f =? code); reflexivity.
Qed.

Lemma listed_cons c f fs : listed c (f :: fs) = (listed c [f] || listed c fs)%bool.
Proof. unfold listed. cbn. now rewrite orb_false_r. Qed.

Lemma adds_trans t1 t2 t3 f fs : adds_features t1 t2 [f] -> adds_features t2 t3 fs -> adds_features t1 t3 (f :: fs).
Proof.
  unfold adds_features. rewrite !(listed_cons _ f fs).
  intros (A1 & A2 & A3 & A4 & A5 & A6 & A7 & A8 & A9) (B1 & B2 & B3 & B4 & B5 & B6 & B7 & B8 & B9).
  rewrite B1, B2, B3, B4, B5, B6, B7, B8, A1, A2, A3, A4, A5, A6, A7, A8, <- !orb_assoc.
  repeat (split; [reflexivity|]). intros code. rewrite B9, A9. cbn [last_listed].
  destruct (last_listed code fs); [reflexivity|]. destruct (ft_code f =? code); reflexivity.
Qed.

Lemma descriptor_length f : List.length (descriptor f) = (4 + List.length (ft_body f))%nat.
Proof. unfold descriptor. rewrite !app_length, be_bytes_length. reflexivity. Qed.

Lemma descriptor_at pre f rest : feature_ok f ->
  let buf := pre ++ descriptor f ++ rest in let o := List.length pre in
  be_val (slice o 2 buf) = ft_code f /\ nth_error buf (o + 3) = Some (blen (ft_body f))
  /\ slice o (List.length (descriptor f)) buf = descriptor f.
Proof.
  intros [Hc Hb]. cbv zeta. split; [|split].
  - unfold descriptor. rewrite <- !app_assoc.
    rewrite slice_app_r by lia. rewrite Nat.sub_diag.
    rewrite slice_app_l by (rewrite be_bytes_length; lia).
    unfold slice. cbn [skipn]. rewrite firstn_all2 by (rewrite be_bytes_length; lia).
    apply be_val_bytes_small. exact Hc.
  - rewrite nth_error_app2 by lia. replace (List.length pre + 3 - List.length pre)%nat with 3%nat by lia.
    unfold descriptor. rewrite <- !app_assoc. rewrite nth_error_app2 by (rewrite be_bytes_length; lia).
    rewrite be_bytes_length. reflexivity.
  - apply slice_app_mid.
Qed.

(** The loop over a list of descriptors, with the length bound anywhere inside the last one. *)
Lemma loop_descriptors fs : forall fuel buf pre rest len u t,
  List.length u = 16%nat -> Forall feature_ok fs -> buf = pre ++ descriptors fs ++ rest ->
  (List.length fs < fuel)%nat ->
  (len <= List.length pre + List.length (descriptors fs))%nat ->
  (forall fs0 f, fs = fs0 ++ [f] -> (List.length pre + List.length (descriptors fs0) < len)%nat) ->
  exists t', discovery_loop fuel true buf len u (List.length pre) t = (t', Ok tt) /\ adds_features t t' fs.
Proof.
  induction fs as [|f fs IH]; intros fuel buf pre rest len u t Hu Hok Hbuf Hf Hlen Hlast.
  - exists t. split; [|apply adds_nil]. apply loop_end. cbn in Hlen. lia.
  - destruct fuel as [|fuel]; [cbn in Hf; lia|].
    inversion Hok as [|? ? Hok1 Hok2]; subst x l.
    assert (Hlt : (List.length pre < len)%nat).
    { destruct fs as [|g fs] using rev_ind.
      - specialize (Hlast [] f eq_refl). cbn in Hlast. lia.
      - specialize (Hlast (f :: fs) g eq_refl). lia. }
    assert (Hbuf' : buf = pre ++ descriptor f ++ descriptors fs ++ rest).
    { rewrite Hbuf. unfold descriptors. cbn [map concat]. now rewrite <- app_assoc. }
    pose proof (descriptor_at pre f (descriptors fs ++ rest) Hok1) as (E1 & E2 & E3). rewrite <- Hbuf' in E1, E2, E3.
    assert (Hbl : (List.length pre + List.length (descriptor f) <= List.length buf)%nat).
    { rewrite Hbuf'. rewrite !app_length. lia. }
    rewrite descriptor_length in Hbl, E3.
    rewrite loop_step by assumption. cbv zeta.
    destruct (basic_field u buf (List.length pre) Hu) as [F1 F2]; [lia|].
    rewrite E2 in F2. rewrite (nth_error_nth _ _ 0 F2), F1, E1.
    unfold blen at 1 2 3. rewrite !Nat2N.id.
    destruct (Nat.ltb_spec (List.length buf) (List.length pre + List.length (ft_body f) + 4)); [lia|].
    cbn [negb].
    replace (List.length (ft_body f) + 4)%nat with (4 + List.length (ft_body f))%nat by lia. rewrite E3.
    destruct (IH fuel buf (pre ++ descriptor f) rest len (fill u (skipn (List.length pre) buf))
                (set_raw (ft_code f) (descriptor f) (set_flag (ft_code f) t))) as (t' & H1 & H2); auto.
    + now rewrite fill_length.
    + rewrite Hbuf'. now rewrite <- app_assoc.
    + cbn [List.length] in Hf. lia.
    + rewrite app_length. unfold descriptors in Hlen |- *. cbn [map concat] in Hlen. rewrite app_length in Hlen. lia.
    + intros fs0 g Hg. specialize (Hlast (f :: fs0) g). unfold descriptors in Hlast |- *. cbn [map concat] in Hlast.
      rewrite app_length in Hlast |- *. rewrite <- Nat.add_assoc. apply Hlast. now rewrite Hg.
    + exists t'. split.
      * rewrite app_length, descriptor_length in H1. 
        replace (List.length pre + List.length (ft_body f) + 4)%nat with (List.length pre + (4 + List.length (ft_body f)))%nat by lia.
        exact H1.
      * apply (adds_trans t (set_raw (ft_code f) (descriptor f) (set_flag (ft_code f) t))); [now apply adds_one|exact H2].
Qed.

(** The whole call, given the buffer the drive returned. *)
Lemma discovery_unfold V p h h1 buf :
  security_command V p h false false 1 1 (zeros 2048) 3 = (h1, (None, buf)) ->
  List.length buf = 2048%nat /\
  let L := be32_at 0 buf in
  let i := set_support (p_info p) 1 in
  tcg_discovery0 V p h =
  if 2048 <? L then (h1, (with_info p i, Err (EMsg "invalid data: length overflow")))
  else let (t, r) := discovery_loop 513 (i_raw_made (p_info p)) buf (N.to_nat L) (zeros 16) 32 (i_tcg (p_info p)) in
       (h1, (with_info p (set_tcg i (i_raw_made (p_info p)) t), r)).
Proof.
  intros H. pose proof (security_buffer_length V p h false false 1 1 (zeros 2048) 3) as Hl. rewrite H in Hl. cbn [snd] in Hl.
  unfold zeros in Hl. rewrite repeat_length in Hl. split; [exact Hl|].
  unfold tcg_discovery0. rewrite H. cbv zeta.
  rewrite unpack_ok0 by (rewrite Hl; cbn [struc_sizeof]; cbn; lia).
  rewrite (field1_decoded _ _ _ _ 0 4 1) by (try reflexivity; lia).
  rewrite Hl. change (decode_int struc_default (slice 0 4 buf)) with (be32_at 0 buf).
  change (N.of_nat 2048) with 2048. change (struc_sizeof lay_Discovery0Header) with 32%nat.
  reflexivity.
Qed.

(** ---- arbitrary answers ---- *)
Inductive vis (buf : bytes) (L s : nat) : nat -> Prop :=
| vis_start : (s < L)%nat -> vis buf L s s
| vis_next : forall o n, vis buf L s o -> nth_error buf (o + 3) = Some n ->
    (o + 4 + N.to_nat n < L)%nat -> vis buf L s (o + 4 + N.to_nat n).

Lemma vis_visited buf L o : vis buf L 32 o <-> visited buf L o.
Proof. split; intros H; induction H; (now constructor) || (econstructor; eassumption). Qed.

Definition over (buf : bytes) (o : nat) : Prop :=
  match nth_error buf (o + 3) with Some n => (List.length buf < o + 4 + N.to_nat n)%nat | None => True end.

Lemma vis_lt buf L s o : vis buf L s o -> (s < L)%nat.
Proof. intros H. now induction H. Qed.

Lemma vis_step buf L s n o : nth_error buf (s + 3) = Some n -> vis buf L s o ->
  o = s \/ vis buf L (s + 4 + N.to_nat n) o.
Proof.
  intros Hn H. induction H as [H|o m H IH Hm Ho]; [now left|]. right.
  destruct IH as [->|IH].
  - assert (m = n) by congruence. subst m. now constructor.
  - now constructor.
Qed.
Lemma vis_unstep buf L s n o : (s < L)%nat -> nth_error buf (s + 3) = Some n -> vis buf L (s + 4 + N.to_nat n) o -> vis buf L s o.
Proof.
  intros Hs Hn H. induction H as [H|o m H IH Hm Ho].
  - apply vis_next; [now constructor|assumption|assumption].
  - now constructor.
Qed.

Lemma loop_arbitrary : forall fuel buf len u offset t,
  List.length u = 16%nat -> (len <= List.length buf)%nat -> (len <= offset + 4 * fuel)%nat ->
  exists t' r, discovery_loop fuel true buf len u offset t = (t', r)
  /\ ((r = Panic /\ exists o, vis buf len offset o /\ over buf o)
      \/ (r = Ok tt /\ forall o, vis buf len offset o -> ~ over buf o)).
Proof.
  induction fuel as [|fuel IH]; intros buf len u offset t Hu Hlen Hf.
  - rewrite loop_end by lia. do 2 eexists. split; [reflexivity|]. right. split; [reflexivity|].
    intros o Ho. apply vis_lt in Ho. lia.
  - destruct (Nat.le_gt_cases len offset) as [Hle|Hlt].
    { rewrite loop_end by lia. do 2 eexists. split; [reflexivity|]. right. split; [reflexivity|].
      intros o Ho. apply vis_lt in Ho. lia. }
    rewrite loop_step by assumption. cbv zeta.
    destruct (Nat.ltb_spec (List.length buf)
       (offset + N.to_nat (nth 3 (fill u (skipn offset buf)) 0) + 4)) as [Hov|Hfit].
    + do 2 eexists. split; [reflexivity|]. left. split; [reflexivity|]. exists offset. split; [now constructor|].
      unfold over. destruct (nth_error buf (offset + 3)) as [n|] eqn:En; [|exact I].
      assert (offset + 3 < List.length buf)%nat by (apply nth_error_Some; congruence).
      destruct (basic_field u buf offset Hu) as [_ F2]; [lia|].
      rewrite En in F2. rewrite (nth_error_nth _ _ 0 F2) in Hov. lia.
    + cbn [negb].
      destruct (basic_field u buf offset Hu) as [_ F2]; [lia|].
      destruct (nth_error buf (offset + 3)) as [n|] eqn:En; [|apply nth_error_None in En; lia].
      rewrite (nth_error_nth _ _ 0 F2) in *.
      destruct (IH buf len (fill u (skipn offset buf)) (offset + N.to_nat n + 4)%nat
        (set_raw (be_val (slice 0 2 (fill u (skipn offset buf)))) (slice offset (N.to_nat n + 4) buf)
           (set_flag (be_val (slice 0 2 (fill u (skipn offset buf)))) t))) as (t' & r & E & H); try lia.
      { now rewrite fill_length. }
      exists t', r. split; [exact E|].
      replace (offset + N.to_nat n + 4)%nat with (offset + 4 + N.to_nat n)%nat in H by lia.
      destruct H as [[-> (o & Ho & Hov)]|[-> H]].
      * left. split; [reflexivity|]. exists o. split; [|exact Hov]. eapply vis_unstep; eassumption.
      * right. split; [reflexivity|]. intros o Ho. destruct (vis_step _ _ _ _ _ En Ho) as [->|Ho']; [|auto].
        unfold over. rewrite En. lia.
Qed.

(** Without a map any descriptor panics. *)
Lemma loop_no_map fuel buf len u offset t : List.length u = 16%nat -> (offset < len)%nat ->
  snd (discovery_loop (S fuel) false buf len u offset t) = Panic.
Proof.
  intros Hu Ho. rewrite loop_step by assumption. cbv zeta. cbn [negb].
  destruct (_ <? _)%nat; reflexivity.
Qed.

Lemma runs_over_vis buf L : runs_over buf L <-> exists o, vis buf L 32 o /\ over buf o.
Proof. split; intros (o & H1 & H2); exists o; (split; [now apply vis_visited|exact H2]). Qed.

Lemma c34 V p h h1 buf :
  security_command V p h false false 1 1 (zeros 2048) 3 = (h1, (None, buf)) ->
  List.length buf = 2048%nat /\
  let L := be32_at 0 buf in
  let '(h', (p', r)) := tcg_discovery0 V p h in
  h' = h1 /\ p_dh p' = p_dh p /\
  ((r = Err (EMsg "invalid data: length overflow") /\ 2048 < L)
   \/ (r = Panic /\ L <= 2048 /\ (if i_raw_made (p_info p) then runs_over buf (N.to_nat L) else 32 < L))
   \/ (r = Ok tt /\ L <= 2048 /\ (if i_raw_made (p_info p) then ~ runs_over buf (N.to_nat L) else L <= 32))).
Proof.
  intros H. destruct (discovery_unfold V p h h1 buf H) as [Hl E]. split; [exact Hl|]. cbv zeta in *. rewrite E. clear E H.
  destruct (N.ltb_spec 2048 (be32_at 0 buf)) as [Ho|Ho]; [auto|].
  assert (HL : (N.to_nat (be32_at 0 buf) <= 2048)%nat) by lia.
  destruct (i_raw_made (p_info p)).
  - destruct (loop_arbitrary 513 buf (N.to_nat (be32_at 0 buf)) (zeros 16) 32 (i_tcg (p_info p))) as (t' & r & E & Hr);
      try reflexivity; try lia.
    rewrite E. cbn [p_dh with_info]. rewrite runs_over_vis. split; [reflexivity|]. split; [reflexivity|]. right.
    destruct Hr as [[-> Hr]|[-> Hr]]; [left|right]; (split; [reflexivity|]); (split; [exact Ho|]).
    + exact Hr.
    + intros (o & H1 & H2). exact (Hr o H1 H2).
  - destruct (N.ltb_spec 32 (be32_at 0 buf)) as [H32|H32].
    + pose proof (loop_no_map 512 buf (N.to_nat (be32_at 0 buf)) (zeros 16) 32 (i_tcg (p_info p)) eq_refl ltac:(lia)) as E.
      destruct (discovery_loop 513 false buf (N.to_nat (be32_at 0 buf)) (zeros 16) 32 (i_tcg (p_info p))) as [t r].
      cbn [snd] in E. subst r. cbn [p_dh with_info]. auto 10.
    + rewrite loop_end by lia. cbn [p_dh with_info]. auto 10.
Qed.

Lemma c35 V p h h1 e buf :
  security_command V p h false false 1 1 (zeros 2048) 3 = (h1, (e, buf)) ->
  let '(h', (p', r)) := tcg_discovery0 V p h in
  h' = h1 /\ p_dh p' = p_dh p /\ same_identity (p_info p) (p_info p') /\ i_raw_made (p_info p') = i_raw_made (p_info p) /\
  match e with
  | Some x => r = Err x /\ i_tcg (p_info p') = i_tcg (p_info p)
      /\ (i_support (p_info p') = (-1)%Z <-> err_text x = "not supported"%string)
      /\ (i_support (p_info p') = 0%Z <-> err_text x <> "not supported"%string)
  | None => i_support (p_info p') = 1%Z
  end.
Proof.
  intros H. destruct e as [x|].
  - unfold tcg_discovery0. rewrite H. cbn [p_dh with_info p_info set_support i_tcg i_raw_made i_support].
    split; [reflexivity|]. split; [reflexivity|]. split; [repeat split|]. split; [reflexivity|]. split; [reflexivity|].
    split; [reflexivity|].
    destruct (String.eqb (err_text x) "not supported") eqn:E.
    + apply String.eqb_eq in E. rewrite E. split; split; intros; auto; try congruence; discriminate.
    + apply String.eqb_neq in E. split; split; intros; auto; try congruence; try discriminate.
  - destruct (discovery_unfold V p h h1 buf H) as [_ E]. cbv zeta in E. rewrite E. destruct (_ <? _).
    + cbn. repeat split.
    + destruct (discovery_loop _ _ _ _ _ _ _) as [t r]. cbn. repeat split.
Qed.

Lemma c32 V p h h1 header fs rest : Forall feature_ok fs -> i_raw_made (p_info p) = true ->
  let buf := header ++ descriptors fs ++ rest in
  security_command V p h false false 1 1 (zeros 2048) 3 = (h1, (None, buf)) ->
  List.length header = 32%nat -> be32_at 0 header = 32 + blen (descriptors fs) ->
  exists p', tcg_discovery0 V p h = (h1, (p', Ok tt)) /\ p_dh p' = p_dh p /\ i_support (p_info p') = 1%Z
  /\ i_raw_made (p_info p') = true
  /\ same_identity (p_info p) (p_info p') /\ adds_features (i_tcg (p_info p)) (i_tcg (p_info p')) fs.
Proof.
  intros Hok Hm buf H Hh HL.
  destruct (discovery_unfold V p h h1 buf H) as [Hl E]. cbv zeta in E. rewrite E.
  assert (HL' : be32_at 0 buf = 32 + blen (descriptors fs)).
  { rewrite <- HL. unfold be32_at, buf. now rewrite slice_app_l by lia. }
  rewrite HL', Hm.
  assert (Hb : (32 + List.length (descriptors fs) <= 2048)%nat).
  { unfold buf in Hl. rewrite !app_length, Hh in Hl. lia. }
  assert (Hn : (4 * List.length fs <= List.length (descriptors fs))%nat).
  { clear. unfold descriptors. induction fs as [|f fs IH]; cbn [map concat List.length]; [lia|].
    rewrite app_length, descriptor_length. lia. }
  destruct (N.ltb_spec 2048 (32 + blen (descriptors fs))); [unfold blen in *; lia|].
  destruct (loop_descriptors fs 513 buf header rest (N.to_nat (32 + blen (descriptors fs))) (zeros 16) (i_tcg (p_info p)))
    as (t' & E2 & Ha); auto.
  - lia.
  - rewrite Hh. unfold blen. lia.
  - intros fs0 f ->. rewrite Hh. unfold descriptors. rewrite map_app, concat_app. cbn [map concat].
    unfold blen. rewrite !app_length, descriptor_length. lia.
  - rewrite Hh in E2. rewrite E2. eexists. split; [reflexivity|]. cbn. repeat split; apply Ha.
Qed.

(** ---- the 48-byte header of the TCG specification ---- *)
Definition null_feature : feature := {| ft_code := 0; ft_version := 0; ft_body := [] |}.

Lemma last_listed_app code a b :
  last_listed code (a ++ b) = match last_listed code b with Some d => Some d | None => last_listed code a end.
Proof.
  induction a as [|f a IH]; cbn [app last_listed]; [destruct (last_listed code b); reflexivity|].
  rewrite IH. destruct (last_listed code b); reflexivity.
Qed.
Lemma listed_app c a b : listed c (a ++ b) = (listed c a || listed c b)%bool.
Proof. unfold listed. now rewrite existsb_app. Qed.

Lemma adds_null k t t' fs : (0 < k)%nat -> adds_features t t' (repeat null_feature k ++ fs) ->
  adds_features (set_raw 0 (zeros 4) t) t' fs.
Proof.
  intros Hk (A1 & A2 & A3 & A4 & A5 & A6 & A7 & A8 & A9).
  assert (Hl : forall c, c <> 0 -> listed c (repeat null_feature k) = false).
  { intros c Hc. clear -Hc. induction k as [|k IH]; cbn; [reflexivity|].
    destruct (N.eqb_spec 0 c); [congruence|]. exact IH. }
  assert (Hr : forall c, last_listed c (repeat null_feature k) = if 0 =? c then Some (zeros 4) else None).
  { clear -Hk. intros c. induction k as [|k IH]; [lia|]. cbn [repeat last_listed].
    destruct k as [|k]; [cbn; destruct (0 =? c); reflexivity|].
    rewrite IH by lia. destruct (0 =? c) eqn:E; [reflexivity|]. cbn [null_feature ft_code]. now rewrite E. }
  rewrite !listed_app in *. rewrite !Hl in * by discriminate. cbn [orb] in *.
  unfold adds_features. cbn [set_raw l_tper l_locking l_geometry l_opal1 l_opal2 l_enterprise l_single_user l_data_store l_raw].
  repeat (split; [assumption|]). intros code. rewrite A9, last_listed_app, Hr. cbn [raw_lookup].
  destruct (last_listed code fs); [reflexivity|]. destruct (0 =? code); reflexivity.
Qed.

Lemma descriptors_app a b : descriptors (a ++ b) = descriptors a ++ descriptors b.
Proof. unfold descriptors. now rewrite map_app, concat_app. Qed.

Lemma c33 V p h h1 header fs rest : Forall feature_ok fs -> i_raw_made (p_info p) = true ->
  let buf := header ++ zeros 16 ++ descriptors fs ++ rest in
  security_command V p h false false 1 1 (zeros 2048) 3 = (h1, (None, buf)) ->
  List.length header = 32%nat ->
  (be32_at 0 header = 44 + blen (descriptors fs) /\ Forall (fun f => ft_body f <> []) fs
   \/ be32_at 0 header = 48 + blen (descriptors fs)) ->
  exists p', tcg_discovery0 V p h = (h1, (p', Ok tt)) /\ i_support (p_info p') = 1%Z
  /\ same_identity (p_info p) (p_info p')
  /\ adds_features (set_raw 0 (zeros 4) (i_tcg (p_info p))) (i_tcg (p_info p')) fs.
Proof.
  intros Hok Hm buf H Hh HL.
  destruct (discovery_unfold V p h h1 buf H) as [Hl E]. cbv zeta in E. rewrite E. clear E.
  assert (HL' : be32_at 0 buf = be32_at 0 header) by (unfold be32_at, buf; now rewrite slice_app_l by lia).
  rewrite HL', Hm.
  assert (Hb : (48 + List.length (descriptors fs) <= 2048)%nat).
  { unfold buf in Hl. rewrite !app_length, Hh in Hl. unfold zeros in Hl. rewrite repeat_length in Hl. lia. }
  assert (Hn : (4 * List.length fs <= List.length (descriptors fs))%nat).
  { clear. unfold descriptors. induction fs as [|f fs IH]; cbn [map concat List.length]; [lia|].
    rewrite app_length, descriptor_length. lia. }
  destruct (N.ltb_spec 2048 (be32_at 0 header)); [unfold blen in *; lia|].
  assert (Hnull : Forall feature_ok (repeat null_feature 4)).
  { apply Forall_forall. intros x Hx. apply repeat_spec in Hx. subst x. split; reflexivity. }
  assert (Hcases : exists k, (0 < k <= 4)%nat /\
    exists t', discovery_loop 513 true buf (N.to_nat (be32_at 0 header)) (zeros 16) 32 (i_tcg (p_info p)) = (t', Ok tt)
      /\ adds_features (i_tcg (p_info p)) t' (repeat null_feature k ++ fs)).
  { assert (Hgo : forall k fs' r', (0 < k <= 4)%nat -> fs' = repeat null_feature k ++ fs -> descriptors fs' ++ r' = zeros 16 ++ descriptors fs ++ rest ->
      (N.to_nat (be32_at 0 header) <= 32 + List.length (descriptors fs'))%nat ->
      (forall fs0 f, fs' = fs0 ++ [f] -> (32 + List.length (descriptors fs0) < N.to_nat (be32_at 0 header))%nat) ->
      exists k, (0 < k <= 4)%nat /\ exists t', discovery_loop 513 true buf (N.to_nat (be32_at 0 header)) (zeros 16) 32 (i_tcg (p_info p)) = (t', Ok tt)
      /\ adds_features (i_tcg (p_info p)) t' (repeat null_feature k ++ fs)).
    { intros k fs' r' Hk Hfs' Hbuf Hle Hlast. exists k. split; [exact Hk|]. rewrite <- Hfs', <- Hh.
      apply loop_descriptors with (rest := r').
      - reflexivity.
      - rewrite Hfs'. apply Forall_app. split; [|assumption].
        apply Forall_forall. intros x Hx. apply repeat_spec in Hx. subst x. split; reflexivity.
      - unfold buf. now rewrite Hbuf.
      - rewrite Hfs', app_length, repeat_length. lia.
      - rewrite Hh. exact Hle.
      - intros fs0 f Hf. rewrite Hh. now apply (Hlast fs0 f). }
    destruct fs as [|f0 fs0] using rev_ind.
    - cbn [descriptors map concat List.length app] in *. rewrite blen_nil in HL.
      destruct HL as [[HL _]|HL]; rewrite N.add_0_r in HL; rewrite HL in *.
      + apply (Hgo 3%nat (repeat null_feature 3) (zeros 4 ++ rest)); [lia|reflexivity|reflexivity|cbn; lia|].
        intros fs0 f Hf. assert (Hx : List.length fs0 = 2%nat).
        { apply (f_equal (@List.length _)) in Hf. rewrite app_length in Hf. cbn in Hf. lia. }
        do 3 (destruct fs0 as [|? fs0]; try discriminate Hx). injection Hf as <- <- _. cbn. lia.
      + apply (Hgo 4%nat (repeat null_feature 4) rest); [lia|reflexivity|reflexivity|cbn; lia|].
        intros fs0 f Hf. assert (Hx : List.length fs0 = 3%nat).
        { apply (f_equal (@List.length _)) in Hf. rewrite app_length in Hf. cbn in Hf. lia. }
        do 4 (destruct fs0 as [|? fs0]; try discriminate Hx). injection Hf as <- <- <- _. cbn. lia.
    - clear IHfs0. apply (Hgo 4%nat (repeat null_feature 4 ++ fs0 ++ [f0]) rest); [lia|reflexivity| | |].
      + rewrite descriptors_app, <- app_assoc. reflexivity.
      + rewrite descriptors_app, app_length. change (List.length (descriptors (repeat null_feature 4))) with 16%nat.
        unfold blen in HL. destruct HL as [[HL _]|HL]; lia.
      + intros fs1 f Hf. rewrite app_assoc in Hf. apply app_inj_tail in Hf as [Hf1 Hf2]. subst fs1 f.
        rewrite descriptors_app, app_length. change (List.length (descriptors (repeat null_feature 4))) with 16%nat.
        destruct HL as [[HL Hne]|HL]; rewrite HL, descriptors_app; unfold blen; rewrite app_length;
          unfold descriptors at 3; cbn [map concat]; rewrite app_nil_r, descriptor_length.
        * apply Forall_app in Hne as [_ Hne]. inversion Hne as [|? ? Hb0 _]; subst x l.
          destruct (ft_body f0); [congruence|]. cbn [List.length]. lia.
        * lia. }
  destruct Hcases as (k & Hk & t' & -> & Ha).
  eexists. split; [reflexivity|]. cbn. split; [reflexivity|]. split; [repeat split|].
  apply (adds_null k); [lia|exact Ha].
Qed.
