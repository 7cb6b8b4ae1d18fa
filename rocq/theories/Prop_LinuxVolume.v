(** Property theorems C80-C84: volumes on Linux.  [W] is an arbitrary system, each answer any function of the whole history. *)
From Verif Require Import Base M_TcgDevice M_DriveHandle M_Strings M_LinuxInfo M_LinuxFactory M_LinuxVolume
  Spec_LinuxFactory P_Strings Spec_LinuxVolume P_LinuxVolume P_LinuxFactory Prop_LinuxFactory.
From Coq Require Import Permutation.

Lemma vol_ok_nil : vol_ok [] [] [].
Proof. split; [constructor|]. split; [reflexivity|]. intros d. reflexivity. Qed.
Lemma enum_volumes_closed W h h' r : enum_volumes W h = (h', r) ->
  match vw_mounts W (h ++ [LMounts]) with
  | inl e => r = Err e /\ h' = h ++ [LMounts]
  | inr m => exists seen, delivered (mt_text m) seen /\
    exists recs es qs, h' = (h ++ [LMounts]) ++ es /\
    ((exists vs, r = match snd (scan m) with Some e => Err e | None => Ok vs end /\ Forall2 mount_line seen recs
        /\ volume_trace (vw W) (h ++ [LMounts]) recs es qs /\ vol_ok recs qs vs)
     \/ (r = Panic /\ exists k l rest rl es1 seg, seen = k ++ l :: rest /\ Forall2 mount_line k recs /\ mount_line l rl /\
          volume_trace (vw W) (h ++ [LMounts]) recs es1 qs /\ es = es1 ++ seg /\ names_zero (vw W) ((h ++ [LMounts]) ++ es1) (rec_dev rl) seg))
  end.
Proof.
  intros H. unfold enum_volumes in H. destruct (vw_mounts W (h ++ [LMounts])) as [e|m]; [now injection H as <- <-|].
  pose proof (scan_spec m) as S. destruct (scan m) as [seen late]. destruct S as (S1 & _ & _). exists seen. split; [exact S1|].
  destruct (volume_lines (vw W) (h ++ [LMounts]) seen []) as (h2, r2) eqn:E.
  destruct (volume_lines_spec _ _ _ _ _ _ _ _ vol_ok_nil E) as (recs & es & qs & -> & O). cbn [app] in O. exists recs, es, qs.
  destruct O as [(vs & -> & O)|(-> & O)]; injection H as <- <-; (split; [reflexivity|]).
  - left. exists vs. cbn [snd]. auto.
  - right. auto.
Qed.

(** C80: one volume per device named in /proc/mounts, with all its mount points in order and the file system of its first line. *)
Theorem C80_volumes : forall W h h' vs, enum_volumes W h = (h', Ok vs) ->
  exists m seen recs, vw_mounts W (h ++ [LMounts]) = inr m /\ delivered (mt_text m) seen /\ Forall2 mount_line seen recs /\
  NoDup (map fst vs) /\ (forall d, In d (map fst vs) <-> exists r, In r recs /\ rec_dev r = d) /\
  forall d v, In (d, v) vs -> vo_path v = d /\ vo_mounts v = map rec_mount (about d recs)
    /\ (d <> [] -> Some (vo_fs v) = option_map rec_fs (hd_error (about d recs))).
Proof.
  intros W h h' vs H. apply enum_volumes_closed in H. destruct (vw_mounts W (h ++ [LMounts])) as [e|m]; [destruct H; discriminate|].
  destruct H as (seen & Hs & recs & es & qs & -> & [(vs' & E & F & _ & A & B & C)|[E _]]); [|discriminate].
  destruct (snd (scan m)); [discriminate|]. injection E as <-.
  exists m, seen, recs. split; [reflexivity|]. split; [exact Hs|]. split; [exact F|]. split; [exact A|].
  assert (K : forall d, about d recs <> [] <-> exists r, In r recs /\ rec_dev r = d).
  { intros d. unfold about. split.
    - intros X. destruct (filter _ recs) as [|r l] eqn:Ef; [congruence|]. assert (I0 : In r (r :: l)) by now left. rewrite <- Ef in I0.
      apply filter_In in I0 as [I1 I2]. exists r. split; [exact I1|]. destruct (list_eq_dec N.eq_dec (rec_dev r) d); [assumption|discriminate].
    - intros (r & I1 & I2) X. assert (I0 : In r (filter (fun r => if list_eq_dec N.eq_dec (rec_dev r) d then true else false) recs)).
      { apply filter_In. split; [exact I1|]. destruct (list_eq_dec N.eq_dec (rec_dev r) d); [reflexivity|contradiction]. }
      rewrite X in I0. exact I0. }
  split.
  - intros d. rewrite <- K. specialize (C d). split.
    + intros I0 X. rewrite X in C. apply in_map_iff in I0 as ([d' v] & E & I0). cbn [fst] in E. subst d'. apply vlookup_in in I0; [congruence|exact A].
    + intros X. destruct (about d recs) as [|r l]; [congruence|]. destruct C as (v & C & _). apply vlookup_in in C; [|exact A]. apply (in_map fst) in C. exact C.
  - intros d v I0. apply vlookup_in in I0; [|exact A]. specialize (C d). destruct (about d recs) as [|r l]; [congruence|].
    destruct C as (v' & C1 & C2 & C3 & C4 & _). rewrite I0 in C1. injection C1 as <-. split; [exact C2|]. split; [exact C3|].
    intros X. cbn [hd_error option_map]. now rewrite C4.
Qed.
Print Assumptions C80_volumes.

(** C81: the partition of a volume.  The trace of the enumeration determines what each line found; the last find counts. *)
Theorem C81_partitions : forall W h h' vs, enum_volumes W h = (h', Ok vs) ->
  exists m seen recs es qs, vw_mounts W (h ++ [LMounts]) = inr m /\ delivered (mt_text m) seen /\ Forall2 mount_line seen recs /\
  h' = h ++ LMounts :: es /\ volume_trace (vw W) (h ++ [LMounts]) recs es qs /\
  forall d v, In (d, v) vs -> vo_part v = last_found d recs qs None.
Proof.
  intros W h h' vs H. apply enum_volumes_closed in H. destruct (vw_mounts W (h ++ [LMounts])) as [e|m]; [destruct H; discriminate|].
  destruct H as (seen & Hs & recs & es & qs & -> & [(vs' & E & F & T & A & B & C)|[E _]]); [|discriminate].
  destruct (snd (scan m)); [discriminate|]. injection E as <-.
  exists m, seen, recs, es, qs. split; [reflexivity|]. split; [exact Hs|]. split; [exact F|]. split; [now rewrite <- app_assoc|]. split; [exact T|].
  intros d v I0. apply vlookup_in in I0; [|exact A]. specialize (C d). destruct (about d recs) as [|r l]; [congruence|].
  destruct C as (v' & C1 & _ & _ & _ & C5). rewrite I0 in C1. injection C1 as <-. exact C5.
Qed.
Print Assumptions C81_partitions.

Lemma trace_finds W : forall h recs es qs, volume_trace W h recs es qs -> forall d s q, last_found d recs qs s = Some q ->
  s = Some q \/ exists h0 seg, line_effect W h0 d seg (Some q).
Proof.
  induction 1 as [h|h r recs seg q0 es qs Hl Ht IH]; intros d s q E; cbn [last_found] in E; [now left|].
  destruct (IH _ _ _ E) as [X|X]; [|now right]. destruct (list_eq_dec N.eq_dec (rec_dev r) d) as [<-|]; [|now left].
  destruct q0 as [x|]; [|now left]. injection X as ->. right. eauto.
Qed.
(** Whatever is reported belongs to a name <parent>p<number>, and its size is its start. *)
Theorem C81_reported : forall W h h' vs d v q, enum_volumes W h = (h', Ok vs) -> In (d, v) vs -> vo_part v = Some q ->
  exists parent ds e, partition_name d parent ds /\ pi_device q = d /\ pi_parent q = parent /\ Z.of_N (pi_start q) = (pt_start e mod 2 ^ 64)%Z
  /\ pi_size q = pi_start q
  /\ exists h0 fd b ps, read_basic_info parent (w_basic (vw W) (h0 ++ [LOpen parent; LBasic fd parent])) = Ok b /\ entries (ba_table b) = Some ps
     /\ 1 <= part_number ds /\ nth_error ps (N.to_nat (part_number ds - 1)) = Some e /\ describes q d parent b e.
Proof.
  intros W h h' vs d v q H I0 Hq. destruct (C81_partitions _ _ _ _ H) as (m & seen & recs & es & qs & _ & _ & _ & _ & T & L).
  rewrite (L d v I0) in Hq. destruct (trace_finds _ _ _ _ _ T _ _ _ Hq) as [X|(h0 & seg & X)]; [discriminate|].
  inversion X as [| | |parent ds fd b ps q0 P1 P2 P3 P4 P5 P6 P7]; subst.
  destruct (nth_error ps (N.to_nat (part_number ds - 1))) as [e|] eqn:En; [|specialize (P7 eq_refl); discriminate].
  destruct (P6 e eq_refl) as (x & Ex & D). injection Ex as <-. exists parent, ds, e. pose proof D as (D1 & D2 & D3 & D4 & _).
  split; [exact P1|]. split; [exact D1|]. split; [exact D2|]. split; [exact D3|]. split; [exact D4|].
  exists h0, fd, b, ps. auto.
Qed.
Print Assumptions C81_reported.

(** /dev/sda1 and the like are never given a partition. *)
Theorem C81_sd_names_have_none : forall W h h' vs letters number v, enum_volumes W h = (h', Ok vs) ->
  Forall (fun b => ~ digit b) letters -> Forall digit number ->
  In (str "/dev/" ++ letters ++ number, v) vs -> vo_part v = None.
Proof.
  intros W h h' vs letters number v H Hl Hn I0. destruct (vo_part v) as [q|] eqn:E; [|reflexivity]. exfalso.
  destruct (C81_reported _ _ _ _ _ _ _ H I0 E) as (parent & ds & _ & (P1 & P2 & P3 & m & d & -> & _ & _ & Pd) & _).
  assert (R1 : rev (str "/dev/" ++ letters ++ number) = rev number ++ rev (str "/dev/" ++ letters)) by (rewrite app_assoc, rev_app_distr; reflexivity).
  assert (R2 : rev ((str "/dev/" ++ m ++ [d]) ++ str "p" ++ ds) = rev ds ++ 112 :: d :: rev (str "/dev/" ++ m)).
  { rewrite (app_assoc (str "/dev/") m [d]). generalize (str "/dev/" ++ m). intros z. rewrite !rev_app_distr. change (rev (str "p")) with [112]. rewrite <- app_assoc. reflexivity. }
  assert (ND : Forall (fun b => ~ digit b) (rev (str "/dev/" ++ letters))).
  { apply Forall_rev, Forall_app. split; [|exact Hl]. change (str "/dev/") with [47;100;101;118;47]. repeat (apply Forall_cons; [unfold digit; lia|]). apply Forall_nil. }
  assert (D1 : digits_prefix (rev number ++ rev (str "/dev/" ++ letters)) = (rev number, rev (str "/dev/" ++ letters))).
  { apply digits_prefix_unique; [now apply Forall_rev|]. intros b t X. rewrite X in ND. now inversion ND. }
  assert (D2 : digits_prefix (rev ds ++ 112 :: d :: rev (str "/dev/" ++ m)) = (rev ds, 112 :: d :: rev (str "/dev/" ++ m))).
  { apply digits_prefix_unique; [now apply Forall_rev|]. intros b t X. injection X as <- _. unfold digit. lia. }
  rewrite P1, R2 in R1. rewrite <- R1, D2 in D1. apply pair_equal_spec in D1 as [_ D1]. rewrite <- D1 in ND. inversion ND as [|? ? _ ND']. inversion ND'. contradiction.
Qed.
Print Assumptions C81_sd_names_have_none.


(** The only way to panic is a name ending in p0 (p00, ...) whose parent has a readable partition table, even an empty one. *)
Theorem C81_panics_only : forall W h h', enum_volumes W h = (h', Panic) ->
  exists m seen k l rest recs rl es1 seg qs, vw_mounts W (h ++ [LMounts]) = inr m /\ delivered (mt_text m) seen
     /\ seen = k ++ l :: rest /\ Forall2 mount_line k recs /\ mount_line l rl /\ volume_trace (vw W) (h ++ [LMounts]) recs es1 qs
     /\ h' = h ++ LMounts :: es1 ++ seg /\ names_zero (vw W) ((h ++ [LMounts]) ++ es1) (rec_dev rl) seg.
Proof.
  intros W h h' H. apply enum_volumes_closed in H. destruct (vw_mounts W (h ++ [LMounts])) as [e|m]; [destruct H; discriminate|].
  destruct H as (seen & Hs & recs & es & qs & -> & [(vs' & E & _)|(_ & k & l & rest & rl & es1 & seg & O1 & O2 & O3 & O4 & -> & O6)]).
  - destruct (snd (scan m)); discriminate.
  - exists m, seen, k, l, rest, recs, rl, es1, seg, qs. split; [reflexivity|]. split; [exact Hs|]. split; [exact O1|]. split; [exact O2|]. split; [exact O3|].
    split; [exact O4|]. split; [now rewrite <- app_assoc|exact O6].
Qed.
Print Assumptions C81_panics_only.
(** Conversely a single such line is enough, whatever the other mounts are and wherever it stands. *)
Theorem C81_zero_panics : forall W h m seen d k l rest, vw_mounts W (h ++ [LMounts]) = inr m -> delivered (mt_text m) seen ->
  seen = k ++ l :: rest -> mount_line l d ->
  (forall h0, exists seg, names_zero (vw W) h0 (rec_dev d) seg) -> snd (enum_volumes W h) = Panic.
Proof.
  intros W h m seen d k l rest Hm Hs Hk Hl Hz. destruct (enum_volumes W h) as (h', r) eqn:H. cbn [snd]. apply enum_volumes_closed in H. rewrite Hm in H.
  destruct H as (seen' & Hs' & recs & es & qs & -> & [(vs' & E & F & T & _)|(-> & _)]); [|reflexivity]. exfalso.
  rewrite (delivered_unique _ _ _ Hs' Hs), Hk in F. clear - F T Hl Hz. apply Forall2_app_inv_l in F as (r1 & r2 & _ & F & ->).
  inversion F as [|? d' ? r3 F1 _]; subst. rewrite (mount_line_unique _ _ _ F1 Hl) in T. clear - T Hz.
  assert (X : exists h0 seg q, line_effect (vw W) h0 (rec_dev d) seg q).
  { revert T. generalize (h ++ [LMounts]) es qs. clear - r1. induction r1 as [|r r1 IH]; intros h es qs T; cbn [app] in T; inversion T; subst; eauto. }
  destruct X as (h0 & seg & q & X). destruct (Hz h0) as (sg & Z). exact (names_zero_no_effect _ _ _ _ Z _ _ X).
Qed.
Print Assumptions C81_zero_panics.

(** C82: errors.  Opening /proc/mounts fails: that error, nothing else is done. *)
Theorem C82_errors : forall W h h' e, enum_volumes W h = (h', Err e) ->
  (vw_mounts W (h ++ [LMounts]) = inl e /\ h' = h ++ [LMounts]) \/
  exists m ls rest, vw_mounts W (h ++ [LMounts]) = inr m /\ mt_error m = Some e /\ text_lines (mt_text m) ls rest /\ rest <> []
    /\ Forall short ls /\ short rest.
Proof.
  intros W h h' e H. apply enum_volumes_closed in H. destruct (vw_mounts W (h ++ [LMounts])) as [e'|m].
  - destruct H as [H ->]. injection H as <-. now left.
  - right. destruct H as (seen & Hs & recs & es & qs & -> & [(vs' & E & _)|(E & _)]); [|discriminate].
    pose proof (scan_spec m) as S. destruct (scan m) as [s0 late]. cbn [snd] in E. destruct S as (_ & [->|(E1 & ls & rest & S)] & _); [discriminate|].
    destruct late as [e0|]; [|discriminate]. injection E as <-. exists m, ls, rest. symmetry in E1. tauto.
Qed.
Print Assumptions C82_errors.
(** A read error is reported exactly when the text read so far ends inside a line of less than 64 KiB with only such lines before it
    (and no line panics). *)
Theorem C82_midline : forall W h m e ls rest, vw_mounts W (h ++ [LMounts]) = inr m -> mt_error m = Some e -> text_lines (mt_text m) ls rest ->
  rest <> [] -> Forall short ls -> short rest -> snd (enum_volumes W h) = Err e \/ snd (enum_volumes W h) = Panic.
Proof.
  intros W h m e ls rest Hm He Ht Hr Hs Hs'. destruct (enum_volumes W h) as (h', r) eqn:H. cbn [snd]. apply enum_volumes_closed in H. rewrite Hm in H.
  destruct H as (seen' & _ & recs & es & qs & _ & [(vs' & -> & _)|(-> & _)]); [|now right]. left.
  pose proof (scan_spec m) as S. destruct (scan m) as [s0 late]. destruct S as (_ & _ & S). cbn [snd]. rewrite (S _ _ Ht Hr Hs Hs'), He. reflexivity.
Qed.
Print Assumptions C82_midline.
(** A read error between two lines, and a line of 64 KiB or more, go unnoticed: the enumeration answers as if the text had ended there. *)
Theorem C82_unnoticed : forall W h m ls rest, vw_mounts W (h ++ [LMounts]) = inr m -> text_lines (mt_text m) ls rest ->
  rest = [] \/ ~ Forall short ls \/ ~ short rest -> forall e, snd (enum_volumes W h) <> Err e.
Proof.
  intros W h m ls rest Hm Ht Hc e H. destruct (enum_volumes W h) as (h', r) eqn:E. cbn [snd] in H. subst r.
  destruct (C82_errors _ _ _ _ E) as [[X _]|(m' & ls' & rest' & X & _ & T & A & B & C)]; [congruence|].
  assert (m' = m) by congruence. subst m'. destruct (text_lines_unique _ _ _ _ _ Ht T) as [<- <-]. tauto.
Qed.
Print Assumptions C82_unnoticed.

(** C83: lookups.  Go walks a map in an unspecified order: [order] is any function that permutes. *)
Theorem C83_list : forall W h h' vs order, enum_volumes W h = (h', Ok vs) -> (forall l, Permutation (order l) l) ->
  exists m seen recs, vw_mounts W (h ++ [LMounts]) = inr m /\ delivered (mt_text m) seen /\ Forall2 mount_line seen recs /\
  NoDup (map vi_path (get_list order vs)) /\ (forall d, In d (map vi_path (get_list order vs)) <-> exists r, In r recs /\ rec_dev r = d) /\
  forall i, In i (get_list order vs) -> vi_mounts i = map rec_mount (about (vi_path i) recs)
    /\ (vi_path i <> [] -> Some (vi_fs i) = option_map rec_fs (hd_error (about (vi_path i) recs))).
Proof.
  intros W h h' vs order H Ho. destruct (C80_volumes _ _ _ _ H) as (m & seen & recs & Hm & Hs & F & N1 & K & D).
  assert (P : map vi_path (get_list order vs) = map (fun e => vo_path (snd e)) (order vs)) by (unfold get_list; rewrite map_map; reflexivity).
  assert (Q : map (fun e => vo_path (snd e)) vs = map fst vs).
  { apply map_ext_in. intros [d v] I0. cbn [fst snd]. now destruct (D d v I0). }
  assert (R : Permutation (map vi_path (get_list order vs)) (map fst vs)).
  { rewrite P, <- Q. apply Permutation_map, Ho. }
  exists m, seen, recs. split; [exact Hm|]. split; [exact Hs|]. split; [exact F|].
  split; [now apply (Permutation_NoDup (Permutation_sym R))|]. split.
  - intros d. rewrite <- K. split; intros I0; [now apply (Permutation_in _ R)|now apply (Permutation_in _ (Permutation_sym R))].
  - intros i I0. unfold get_list in I0. apply in_map_iff in I0 as ([d v] & <- & I0). apply (Permutation_in _ (Ho vs)) in I0.
    destruct (D d v I0) as (A & B & C). cbn [snd to_volume_info vi_path vi_mounts vi_fs]. rewrite A. auto.
Qed.
Print Assumptions C83_list.

(** Volumes are found by exact device path only: at most one, and none that lives on a partition of the drive. *)
Theorem C83_by_drive : forall W h h' vs order path, enum_volumes W h = (h', Ok vs) -> (forall l, Permutation (order l) l) ->
  let found := find_volumes_by_drive order vs path in
  (forall i, In i found <-> In i (get_list order vs) /\ vi_path i = path) /\ (List.length found <= 1)%nat /\
  (forall i parent ds, In i found -> partition_name (vi_path i) parent ds -> path <> parent).
Proof.
  intros W h h' vs order path H Ho found.
  assert (A : forall i, In i found <-> In i (get_list order vs) /\ vi_path i = path).
  { intros i. unfold found, find_volumes_by_drive, get_list. rewrite !in_map_iff. split.
    - intros ([d v] & <- & I0). apply filter_In in I0 as [I0 B]. apply beq_iff in B. split; [exists (d, v); auto|exact B].
    - intros [([d v] & <- & I0) B]. exists (d, v). split; [reflexivity|]. apply filter_In. split; [exact I0|]. now apply beq_iff. }
  split; [exact A|]. split.
  - destruct (C83_list _ _ _ _ order H Ho) as (_ & _ & _ & _ & _ & _ & Nd & _).
    assert (X : map vi_path found = filter (fun p => beq p path) (map vi_path (get_list order vs))).
    { unfold found, find_volumes_by_drive, get_list. generalize (order vs). intros l. induction l as [|[d v] l IH]; [reflexivity|].
      cbn [filter map snd]. change (vi_path (to_volume_info v)) with (vo_path v). destruct (beq (vo_path v) path); cbn [map]; [f_equal|]; exact IH. }
    assert (Y : NoDup (map vi_path found)) by (rewrite X; now apply NoDup_filter).
    assert (Z : forall p, In p (map vi_path found) -> p = path). { intros p I0. rewrite X in I0. apply filter_In in I0 as [_ B]. now apply beq_iff. }
    rewrite <- (map_length vi_path). destruct (map vi_path found) as [|p [|q l]]; [cbn; lia|cbn; lia|]. exfalso.
    assert (p = path) by (apply Z; now left). assert (q = path) by (apply Z; right; now left). subst p q. inversion Y as [|? ? N0 _]. apply N0. now left.
  - intros i parent ds I0 (E & Hd & _) ->. apply A in I0 as [_ I0]. rewrite E in I0. apply (f_equal (@List.length N)) in I0. rewrite !app_length in I0. cbn in I0. lia.
Qed.
Print Assumptions C83_by_drive.

(** Opening a drive by volume path looks at one volume only, the first in the runtime's order. *)
Lemma slash_trimmed_iff p q : slash_trimmed p q <-> trim_suffix 47 p = q.
Proof.
  unfold slash_trimmed. change (str "/") with [47]. destruct (trim_suffix_spec 47 p) as [(x & A & B)|[A B]]; rewrite B.
  - split.
    + intros [X|[-> X]]; [|exfalso; exact (X _ A)]. rewrite A in X. now apply app_inj_tail in X as [X _].
    + intros <-. now left.
  - split.
    + intros [X|[-> _]]; [exfalso; exact (A _ X)|reflexivity].
    + intros <-. right. auto.
Qed.
Theorem C83_by_volume_path : forall W order vs h p q, slash_trimmed p q ->
  (forall d v t, order vs = (d, v) :: t -> slash_trimmed (vo_path v) q ->
     open_drive_by_volume_path W order vs h p = (fst (open_by_path W h q), Some (snd (open_by_path W h q)))) /\
  ((forall d v t, order vs = (d, v) :: t -> ~ slash_trimmed (vo_path v) q) -> open_drive_by_volume_path W order vs h p = (h, None)).
Proof.
  intros W order vs h p q Hp. apply slash_trimmed_iff in Hp. unfold open_drive_by_volume_path. rewrite Hp. split.
  - intros d v t -> X. apply slash_trimmed_iff in X. rewrite X, beq_refl. destruct (open_by_path W h q). reflexivity.
  - intros X. destruct (order vs) as [|[d v] t]; [reflexivity|]. specialize (X d v t eq_refl). rewrite slash_trimmed_iff in X.
    destruct (beq (trim_suffix 47 (vo_path v)) q) eqn:E; [apply beq_iff in E; contradiction|reflexivity].
Qed.
Print Assumptions C83_by_volume_path.
(** So with a single other volume mounted, the runtime may answer (nil, nil) for a volume that is there. *)
Theorem C83_volume_lost : forall W h vs p q d v d' v', slash_trimmed p q -> In (d, v) vs -> slash_trimmed (vo_path v) q ->
  In (d', v') vs -> ~ slash_trimmed (vo_path v') q ->
  (exists order, (forall l, Permutation (order l) l) /\ open_drive_by_volume_path W order vs h p = (h, None)) /\
  (exists order, (forall l, Permutation (order l) l) /\ snd (open_drive_by_volume_path W order vs h p) = Some (snd (open_by_path W h q))).
Proof.
  intros W h vs p q d v d' v' Hp I1 Hv I0 Hn.
  assert (R : forall x : bytes * volume, In x vs -> exists order, (forall l, Permutation (order l) l) /\ hd_error (order vs) = Some x).
  { intros x I. destruct (in_split _ _ I) as (a & b & ->). exists (fun l => skipn (List.length a) l ++ firstn (List.length a) l). split.
    - intros l. rewrite Permutation_app_comm, firstn_skipn. reflexivity.
    - rewrite skipn_app, skipn_all, Nat.sub_diag. reflexivity. }
  split.
  - destruct (R _ I0) as (order & Ho & Hh). exists order. split; [exact Ho|]. apply (proj2 (C83_by_volume_path W order vs h p q Hp)).
    intros x y t E. rewrite E in Hh. injection Hh as -> ->. exact Hn.
  - destruct (R _ I1) as (order & Ho & Hh). exists order. split; [exact Ho|]. destruct (order vs) as [|[x y] t] eqn:E; [discriminate|]. injection Hh as -> ->.
    rewrite (proj1 (C83_by_volume_path W order vs h p q Hp) _ _ _ E Hv). reflexivity.
Qed.
Print Assumptions C83_volume_lost.

(** A reported partition opens its parent drive. *)
Theorem C83_by_partition : forall W h h' vs d v q h1, enum_volumes W h = (h', Ok vs) -> In (d, v) vs -> vo_part v = Some q ->
  exists parent ds, partition_name d parent ds /\ open_drive_by_partition (vw W) h1 (Some q) = open_by_path (vw W) h1 parent.
Proof.
  intros W h h' vs d v q h1 H I0 Hq. destruct (C81_reported _ _ _ _ _ _ _ H I0 Hq) as (parent & ds & _ & P & _ & E & _).
  exists parent, ds. split; [exact P|]. cbn [open_drive_by_partition]. now rewrite E.
Qed.
Print Assumptions C83_by_partition.

(** C84: descriptors.  One attempt to open per line that names a partition, in order; nothing is ever closed. *)
Lemma opens_app a b : opens (a ++ b) = opens a ++ opens b.
Proof. induction a as [|e a IH]; [reflexivity|]. destruct e; cbn [app opens]; rewrite IH; reflexivity. Qed.
Lemma trace_opens W h recs es qs : volume_trace W h recs es qs -> parents recs (opens es) /\ Forall (fun e => is_lclose e = false) es.
Proof.
  induction 1 as [h|h r recs seg q es qs Hl Ht [IH1 IH2]]; [split; constructor|]. rewrite opens_app. rewrite Forall_app.
  inversion Hl as [P1|parent1 ds1 e1 P1 P2|parent1 ds1 fd1 P1 P2 P3|parent1 ds1 fd1 b1 ps1 q1 P1 P2 P3 P4 P5 P6 P7]; subst; cbn [opens app].
  - split; [now constructor|]. split; [constructor|exact IH2].
  - split; [now apply pa_part with ds1|]. split; [repeat constructor|exact IH2].
  - split; [now apply pa_part with ds1|]. split; [repeat constructor|exact IH2].
  - split; [now apply pa_part with ds1|]. split; [repeat constructor|exact IH2].
Qed.
Theorem C84_descriptors : forall W h h' vs, enum_volumes W h = (h', Ok vs) ->
  exists m seen recs es, vw_mounts W (h ++ [LMounts]) = inr m /\ delivered (mt_text m) seen /\ Forall2 mount_line seen recs /\
  h' = h ++ LMounts :: es /\ parents recs (opens es) /\ forall fd, ~ In (LClose fd) es.
Proof.
  intros W h h' vs H. destruct (C81_partitions _ _ _ _ H) as (m & seen & recs & es & qs & Hm & Hs & F & -> & T & _).
  destruct (trace_opens _ _ _ _ _ T) as [A B]. exists m, seen, recs, es. split; [exact Hm|]. split; [exact Hs|]. split; [exact F|]. split; [reflexivity|]. split; [exact A|].
  intros fd I0. rewrite Forall_forall in B. specialize (B _ I0). discriminate.
Qed.
Print Assumptions C84_descriptors.
