(** Lemmas for C171. *)
From Verif Require Import Base M_Buffer M_Struc M_Layouts M_Ata M_TcgDevice M_DriveHandle M_Cdb M_SgDriver M_SgHandle M_NvmeLinux M_Strings M_LinuxInfo M_LinuxFactory M_LinuxVolume
  M_LinuxMachine M_BasicCalls Spec_Inspect Spec_LinuxMachine P_DriveHandle P_Inspect P_LinuxMachine Spec_Ledger.

Lemma count_app {A} (f : A -> bool) a b : count f (a ++ b) = (count f a + count f b)%nat.
Proof. unfold count. now rewrite filter_app, app_length. Qed.
Lemma total_app w a : forall g b, total_of w g (a ++ b) = (total_of w g a + total_of w (g ++ a) b)%nat.
Proof.
  induction a as [|e a IH]; intros g b; cbn [app total_of]; [now rewrite app_nil_r|]. rewrite IH, <- app_assoc. cbn [app]. lia.
Qed.
Lemma total_zero w es : (forall g e, In e es -> w g e = 0%nat) -> forall g, total_of w g es = 0%nat.
Proof.
  induction es as [|e es IH]; intros H g; cbn [total_of]; [reflexivity|]. rewrite H by (left; reflexivity). rewrite IH; [reflexivity|]. intros; apply H; now right.
Qed.
Lemma no_file_closed fd path a : count is_close_file (fst (basic_run fd path a)) = 0%nat.
Proof. unfold basic_run. destruct (da_open a); [reflexivity|]. destruct (da_geo a); [reflexivity|]. destruct (da_table a); reflexivity. Qed.
Lemma one_file_opened fd path a : count is_open_file (fst (basic_run fd path a)) = 1%nat.
Proof. unfold basic_run. destruct (da_open a); [reflexivity|]. destruct (da_geo a); [reflexivity|]. destruct (da_table a); reflexivity. Qed.

(** What a segment of a history does to the ledger. *)
Record moves (M : machine) (g es : ghist) (opened closed tables : nat) : Prop := {
  mv_got : total_of (obtained M) g es = (opened + tables)%nat;
  mv_back : total_of (given_back M) g es = closed;
  mv_tab : total_of (table_read M) g es = tables }.
Lemma moves_nil M g : moves M g [] 0 0 0.
Proof. split; reflexivity. Qed.
Lemma moves_app M g a b o1 c1 t1 o2 c2 t2 : moves M g a o1 c1 t1 -> moves M (g ++ a) b o2 c2 t2 -> moves M g (a ++ b) (o1 + o2) (c1 + c2) (t1 + t2).
Proof. intros [A1 A2 A3] [B1 B2 B3]. split; rewrite total_app; lia. Qed.
Definition quiet (e : gev) : Prop := match e with GFile (LOpen _ | LBasic _ _ | LClose _) => False | _ => True end.
Lemma moves_quiet M g es : Forall quiet es -> moves M g es 0 0 0.
Proof.
  intros H. rewrite Forall_forall in H. split; apply total_zero; intros g' e I; specialize (H e I); destruct e as [[]| |]; cbn in *; try reflexivity; contradiction.
Qed.
Lemma ioctls_quiet fd es : Forall (ioctl_on fd) es -> Forall quiet es.
Proof. apply Forall_impl. intros [l|c|f c]; cbn; tauto. Qed.
Definition ok_open (M : machine) (g : ghist) : nat := match m_open M g with inr _ => 1 | inl _ => 0 end.
Definition ok_table (M : machine) (g : ghist) : nat := match da_open (m_basic M g) with None => 1 | Some _ => 0 end.
Lemma moves_open M g p : moves M g [GFile (LOpen p)] (ok_open M (g ++ [GFile (LOpen p)])) 0 0.
Proof. split; cbn [total_of obtained given_back table_read]; unfold ok_open; try reflexivity; lia. Qed.
Lemma moves_basic M g fd p : moves M g [GFile (LBasic fd p)] 0 0 (ok_table M (g ++ [GFile (LBasic fd p)])).
Proof.
  split; cbn [total_of obtained given_back table_read]; unfold ok_table.
  - destruct (da_open _); [reflexivity|]. now rewrite one_file_opened.
  - now rewrite no_file_closed.
  - now rewrite Nat.add_0_r.
Qed.
Lemma moves_close M g fd : moves M g [GFile (LClose fd)] 0 1 0.
Proof. split; reflexivity. Qed.

(** ---- OpenByPath ---- *)
Lemma gprobe_loop_quiet M fd k : forall g x n, exists es, fst (gprobe_loop M g fd x n k) = g ++ es /\ Forall quiet es.
Proof.
  induction k as [|k IH]; intros g x n; cbn [gprobe_loop]; [exists []; rewrite app_nil_r; split; [reflexivity|constructor]|].
  destruct (gprobe_adds M (g ++ [GFile (LProbe n fd)]) n fd) as (e1 & E1 & F1 & _). apply ioctls_quiet in F1.
  destruct (gprobe M (g ++ [GFile (LProbe n fd)]) n fd) as [g1 od]. cbn [fst snd] in *. subst g1.
  assert (Q1 : Forall quiet ([GFile (LProbe n fd)] ++ e1)) by (constructor; [exact I|exact F1]). destruct od as [d|].
  - destruct (ginstall_adds M ((g ++ [GFile (LProbe n fd)]) ++ e1) x d) as (e2 & E2 & F2 & _). apply ioctls_quiet in F2.
    destruct (ginstall M ((g ++ [GFile (LProbe n fd)]) ++ e1) x d) as [g2 [x1 r1]]. cbn [fst snd] in *. subst g2.
    assert (Q2 : Forall quiet (([GFile (LProbe n fd)] ++ e1) ++ e2)) by (apply Forall_app; split; assumption).
    destruct (IH (((g ++ [GFile (LProbe n fd)]) ++ e1) ++ e2) x1 (S n)) as (e3 & E3 & M4).
    destruct r1; [rewrite E3; exists ((([GFile (LProbe n fd)] ++ e1) ++ e2) ++ e3)..|exists (([GFile (LProbe n fd)] ++ e1) ++ e2)|exists (([GFile (LProbe n fd)] ++ e1) ++ e2)];
      (split; [cbn [fst]; now rewrite <- !app_assoc|]); try exact Q2; apply Forall_app; split; assumption.
  - destruct (IH ((g ++ [GFile (LProbe n fd)]) ++ e1) x (S n)) as (e3 & E3 & M4). rewrite E3. exists (([GFile (LProbe n fd)] ++ e1) ++ e3).
    split; [now rewrite <- !app_assoc|]. apply Forall_app; split; assumption.
Qed.
(** opening: one descriptor if the open succeeds, and then a second one if the partition table can be read *)
Lemma gopen_moves M g path : exists es t, fst (gopen_by_path M g path) = g ++ es /\ moves M g es (ok_open M (g ++ [GFile (LOpen path)])) 0 t
  /\ (forall e, m_open M (g ++ [GFile (LOpen path)]) = inl e -> t = 0%nat)
  /\ (forall fd, m_open M (g ++ [GFile (LOpen path)]) = inr fd -> t = ok_table M (g ++ [GFile (LOpen path); GFile (LBasic fd path)])).
Proof.
  unfold gopen_by_path. cbv zeta. pose proof (moves_open M g path) as M1. set (g1 := g ++ [GFile (LOpen path)]) in *.
  destruct (m_open M g1) as [e|fd] eqn:Eo.
  - exists [GFile (LOpen path)], 0%nat. split; [reflexivity|]. split; [exact M1|]. split; [reflexivity|discriminate].
  - unfold gopen_by_fd. cbv zeta. set (g3 := (g1 ++ [GFile (LBasic fd path)]) ++ [GFile (LIds path)]).
    match goal with |- context [gprobe_loop M g3 fd ?y 0 driver_count] => set (x0 := y) end.
    destruct (gprobe_loop_quiet M fd driver_count g3 x0 0) as (e4 & E4 & Q4).
    pose proof (gprobe_loop_no_err M fd driver_count g3 x0 0) as NE.
    destruct (gprobe_loop M g3 fd x0 0 driver_count) as [g4 r]. cbn [fst snd] in *. subst g4.
    pose proof (moves_basic M g1 fd path) as M2.
    assert (M3 : moves M (g1 ++ [GFile (LBasic fd path)]) (GFile (LIds path) :: e4) 0 0 0) by (apply moves_quiet; constructor; [exact I|exact Q4]).
    exists ([GFile (LOpen path)] ++ [GFile (LBasic fd path)] ++ GFile (LIds path) :: e4), (ok_table M (g1 ++ [GFile (LBasic fd path)])).
    assert (Es : g3 ++ e4 = g ++ [GFile (LOpen path)] ++ [GFile (LBasic fd path)] ++ GFile (LIds path) :: e4) by (unfold g3, g1; rewrite <- !app_assoc; reflexivity).
    split; [destruct r; cbn [fst]; [exact Es|destruct (NE e eq_refl)|exact Es|exact Es]|]. split.
    + pose proof (moves_app _ _ _ _ _ _ _ _ _ _ M2 M3) as M4. pose proof (moves_app _ _ _ _ _ _ _ _ _ _ M1 M4) as M5. rewrite !Nat.add_0_r in M5. exact M5.
    + split; [discriminate|]. intros f E. injection E as <-. unfold g1. rewrite <- app_assoc. reflexivity.
Qed.

(** ---- Close ---- *)
Definition one (x : ghandle) : nat := if is_live x then 1 else 0.
Lemma gclose_moves M g x : exists es, fst (gclose g x) = g ++ es /\ moves M g es 0 (one x) 0 /\ is_live (snd (gclose g x)) = false.
Proof.
  unfold gclose, one, is_live. destruct (p_dh (gh_dh x)) as [t|] eqn:E; cbn [fst snd gh_dh p_dh].
  - exists [GFile (LClose (gh_fd x))]. split; [reflexivity|]. split; [apply moves_close|reflexivity].
  - exists []. rewrite app_nil_r, E. split; [reflexivity|]. split; [apply moves_nil|reflexivity].
Qed.
Lemma count_cons {A} (f : A -> bool) a l : count f (a :: l) = ((if f a then 1 else 0) + count f l)%nat.
Proof. unfold count. cbn [filter]. destruct (f a); reflexivity. Qed.
Lemma count_snoc {A} (f : A -> bool) l a : count f (l ++ [a]) = (count f l + if f a then 1 else 0)%nat.
Proof. rewrite count_app, count_cons. unfold count at 2. cbn. lia. Qed.
Lemma close_all_moves M xs : forall g, exists es, fold_left (fun k x => fst (gclose k x)) xs g = g ++ es /\ moves M g es 0 (count is_live xs) 0.
Proof.
  induction xs as [|x xs IH]; intros g; cbn [fold_left]; [exists []; rewrite app_nil_r; split; [reflexivity|apply moves_nil]|].
  destruct (gclose_moves M g x) as (e1 & -> & M1 & _). destruct (IH (g ++ e1)) as (e2 & -> & M2). exists (e1 ++ e2). split; [now rewrite app_assoc|].
  rewrite count_cons. exact (moves_app _ _ _ _ _ _ _ _ _ _ M1 M2).
Qed.
Lemma count_rev {A} (f : A -> bool) l : count f (rev l) = count f l.
Proof. induction l as [|a l IH]; [reflexivity|]. cbn [rev]. rewrite count_app, IH, !count_cons. unfold count at 2. cbn. lia. Qed.
Lemma one_le x : (one x <= 1)%nat.
Proof. unfold one. destruct (is_live x); lia. Qed.

(** ---- EnumDrives ---- *)
Lemma genum_loop_moves M names : forall g xs, exists es o c t, fst (genum_loop M g names xs) = g ++ es /\ moves M g es o c t
  /\ (forall ys, snd (genum_loop M g names xs) = Ok ys -> c = 0%nat /\ (count is_live ys <= count is_live xs + o)%nat)
  /\ (c <= count is_live xs + o)%nat.
Proof.
  induction names as [|name rest IH]; intros g xs; cbn [genum_loop].
  { exists [], 0%nat, 0%nat, 0%nat. rewrite app_nil_r. split; [reflexivity|]. split; [apply moves_nil|]. split; [|lia]. intros ys E. injection E as <-. lia. }
  destruct (contains _ name); [apply IH|]. set (g1 := g ++ [GFile (LStat (dev_path name))]).
  assert (M1 : moves M g [GFile (LStat (dev_path name))] 0 0 0) by (apply moves_quiet; repeat constructor).
  assert (Go : forall xs', exists es o c t, fst (genum_loop M g1 rest xs') = g ++ es /\ moves M g es o c t
     /\ (forall ys, snd (genum_loop M g1 rest xs') = Ok ys -> c = 0%nat /\ (count is_live ys <= count is_live xs' + o)%nat) /\ (c <= count is_live xs' + o)%nat).
  { intros xs'. destruct (IH g1 xs') as (es & o & c & t & E & Mv & R). exists ([GFile (LStat (dev_path name))] ++ es), o, c, t. rewrite E. unfold g1. split; [now rewrite <- app_assoc|].
    split; [exact (moves_app _ _ _ _ _ _ _ _ _ _ M1 Mv)|exact R]. }
  destruct (m_mode M g1) as [mode|]; [|apply Go]. destruct (is_block mode); [|apply Go]. destruct (contains (str "sr") name); [apply Go|].
  destruct (gopen_moves M g1 (dev_path name)) as (e2 & t2 & E2 & M2 & _). destruct (gopen_adds M g1 (dev_path name)) as (e0 & _ & _ & _ & X).
  set (o2 := ok_open M (g1 ++ [GFile (LOpen (dev_path name))])) in *.
  destruct (gopen_by_path M g1 (dev_path name)) as [g2 r]. cbn [fst snd] in *. subst g2.
  pose proof (moves_app _ _ _ _ _ _ _ _ _ _ M1 M2) as M12. cbn [Nat.add] in M12.
  assert (Eg : g1 ++ e2 = g ++ ([GFile (LStat (dev_path name))] ++ e2)) by (unfold g1; now rewrite <- app_assoc).
  destruct r as [x|e| |].
  - destruct (X x eq_refl) as (_ & _ & O & _). assert (O2 : o2 = 1%nat) by (unfold o2, ok_open; now rewrite O).
    destruct (IH (g1 ++ e2) (xs ++ [x])) as (es & o & c & t & E & Mv & R & R'). rewrite E. rewrite Eg in *. eexists _, _, _, _. split; [now rewrite <- app_assoc|].
    split; [exact (moves_app _ _ _ _ _ _ _ _ _ _ M12 Mv)|]. rewrite count_snoc in R'. setoid_rewrite count_snoc in R.
    assert (L : ((if is_live x then 1 else 0) <= 1)%nat) by (destruct (is_live x); lia). split; [|lia].
    intros ys Ey. destruct (R ys Ey) as (-> & R2). split; [reflexivity|lia].
  - destruct (IH (g1 ++ e2) xs) as (es & o & c & t & E & Mv & R & R'). rewrite E. rewrite Eg in *. eexists _, _, _, _. split; [now rewrite <- app_assoc|].
    split; [exact (moves_app _ _ _ _ _ _ _ _ _ _ M12 Mv)|]. split; [|lia]. intros ys Ey. destruct (R ys Ey) as (-> & R2). split; [reflexivity|lia].
  - destruct (close_all_moves M (rev xs) (g1 ++ e2)) as (e3 & E3 & M3). cbn [fst snd]. rewrite E3. rewrite Eg in *. eexists _, _, _, _. split; [now rewrite <- app_assoc|].
    split; [exact (moves_app _ _ _ _ _ _ _ _ _ _ M12 M3)|]. split; [discriminate|]. rewrite count_rev. lia.
  - cbn [fst snd]. rewrite Eg. eexists _, _, _, _. split; [reflexivity|]. split; [exact M12|]. split; [discriminate|lia].
Qed.
Lemma genum_moves M g : exists es o c t, fst (genum_drives M g) = g ++ es /\ moves M g es o c t /\ (c <= o)%nat.
Proof.
  unfold genum_drives. cbv zeta. assert (M1 : moves M g [GFile LReadDir] 0 0 0) by (apply moves_quiet; repeat constructor). set (g1 := g ++ [GFile LReadDir]).
  destruct (m_dir M g1) as [e|names]; [exists [GFile LReadDir], 0%nat, 0%nat, 0%nat; split; [reflexivity|]; split; [exact M1|lia]|].
  destruct (genum_loop_moves M names g1 []) as (es & o & c & t & E & Mv & R & R'). destruct (genum_loop M g1 names []) as [g2 r]. cbn [fst snd] in *. subst g2.
  pose proof (moves_app _ _ _ _ _ _ _ _ _ _ M1 Mv) as M2. assert (Eg : g1 ++ es = g ++ ([GFile LReadDir] ++ es)) by (unfold g1; now rewrite <- app_assoc).
  unfold count in R'. cbn [filter List.length Nat.add] in R'.
  destruct r as [xs|e| |]; cbn [fst]; try (rewrite Eg; eexists _, _, _, _; split; [reflexivity|]; split; [exact M2|lia]).
  destruct (R xs eq_refl) as (-> & Lx). unfold count at 2 in Lx. cbn [filter List.length Nat.add] in Lx.
  destruct (close_all_moves M (rev xs) (g1 ++ es)) as (e3 & -> & M3). rewrite Eg in *. eexists _, _, _, _. split; [now rewrite <- app_assoc|].
  split; [exact (moves_app _ _ _ _ _ _ _ _ _ _ M2 M3)|]. rewrite count_rev. lia.
Qed.

(** ---- EnumVolumes ---- *)
Lemma volume_line_moves M g h l vs : exists es o t, fst (volume_line (vw (files_at M g)) h l vs) = h ++ es /\ moves M (g ++ map GFile h) (map GFile es) o 0 t.
Proof.
  assert (Z : forall r : res volumes, exists es o t, fst (h, r) = h ++ es /\ moves M (g ++ map GFile h) (map GFile es) o 0 t)
    by (intros r; exists [], 0%nat, 0%nat; rewrite app_nil_r; split; [reflexivity|apply moves_nil]).
  unfold volume_line. destruct (line_fields l) as [[device mount] fs]. cbv zeta. destruct (partition_match device) as [[parent ds]|]; [|apply Z].
  cbn [files_at vw w_open w_basic]. pose proof (moves_open M (g ++ map GFile h) parent) as M1.
  destruct (m_open M _) as [e|fd].
  { exists [LOpen parent], (ok_open M ((g ++ map GFile h) ++ [GFile (LOpen parent)])), 0%nat. split; [reflexivity|exact M1]. }
  pose proof (moves_basic M ((g ++ map GFile h) ++ [GFile (LOpen parent)]) fd parent) as M2.
  pose proof (moves_app _ _ _ _ _ _ _ _ _ _ M1 M2) as M3. eexists ([LOpen parent] ++ [LBasic fd parent]), _, _.
  split; [|exact M3]. destruct (read_basic_info _ _); [destruct (find_part _ _ _ _) as [[q|]|e| |]|..]; cbn [fst]; now rewrite <- app_assoc.
Qed.
Lemma volume_lines_moves M g ls : forall h vs, exists es o t, fst (volume_lines (vw (files_at M g)) h ls vs) = h ++ es /\ moves M (g ++ map GFile h) (map GFile es) o 0 t.
Proof.
  induction ls as [|l ls IH]; intros h vs; cbn [volume_lines]; [exists [], 0%nat, 0%nat; rewrite app_nil_r; split; [reflexivity|apply moves_nil]|].
  destruct (volume_line_moves M g h l vs) as (e1 & o1 & t1 & E1 & M1). destruct (volume_line (vw (files_at M g)) h l vs) as [h1 r]. cbn [fst] in E1. subst h1.
  destruct r as [vs1|e| |]; try (exists e1, o1, t1; split; [reflexivity|exact M1]).
  destruct (IH (h ++ e1) vs1) as (e2 & o2 & t2 & -> & M2). exists (e1 ++ e2), (o1 + o2)%nat, (t1 + t2)%nat. split; [now rewrite app_assoc|].
  rewrite map_app. apply (moves_app _ _ _ _ _ 0 _ _ 0 _ M1). rewrite map_app, app_assoc in M2. exact M2.
Qed.
Lemma gvolumes_moves M g : exists es o t, genum_volumes M g = g ++ es /\ moves M g es o 0 t.
Proof.
  unfold genum_volumes, enum_volumes. cbv zeta. cbn [app]. assert (M1 : moves M g [GFile LMounts] 0 0 0) by (apply moves_quiet; repeat constructor).
  destruct (vw_mounts (files_at M g) [LMounts]) as [e|m]; [exists [GFile LMounts], 0%nat, 0%nat; split; [reflexivity|exact M1]|].
  destruct (scan m) as [ls late]. destruct (volume_lines_moves M g ls [LMounts] []) as (es & o & t & E & Mv).
  destruct (volume_lines (vw (files_at M g)) [LMounts] ls []) as [h r]. cbn [fst] in E. subst h.
  exists ([GFile LMounts] ++ map GFile es), o, t. split; [destruct r; cbn [fst]; now rewrite map_app|].
  exact (moves_app _ _ _ _ _ _ _ _ _ _ M1 Mv).
Qed.

(** ---- calls on a handle ---- *)
Lemma gcall_moves M g x o : o <> HClose -> exists es, fst (gcall M g x o) = g ++ es /\ moves M g es 0 0 0 /\ is_live (snd (gcall M g x o)) = is_live x.
Proof.
  intros Ho. unfold gcall. assert (A : is_live (snd (let V := match gh_dev x with Some d => drv_at M g d | None => no_drv end in
    let '(cs, (p, _)) := hstep V (gh_dh x) [] o in (match gh_dev x with Some d => g ++ ioctls_of M g d cs | None => g end,
     {| gh_path := gh_path x; gh_fd := gh_fd x; gh_dh := p; gh_dev := gh_dev x; gh_driving := gh_driving x; gh_driver_name := gh_driver_name x |}))) = is_live x).
  { cbv zeta. pose proof (hstep_keeps (match gh_dev x with Some d => drv_at M g d | None => no_drv end) (gh_dh x) o Ho) as K.
    destruct (hstep _ (gh_dh x) [] o) as [cs [p u]]. cbn [fst snd] in *. unfold is_live. cbn [gh_dh]. now rewrite K. }
  assert (B : forall V, exists es, fst (let '(cs, (p, _)) := hstep V (gh_dh x) [] o in (match gh_dev x with Some d => g ++ ioctls_of M g d cs | None => g end,
     {| gh_path := gh_path x; gh_fd := gh_fd x; gh_dh := p; gh_dev := gh_dev x; gh_driving := gh_driving x; gh_driver_name := gh_driver_name x |})) = g ++ es /\ moves M g es 0 0 0).
  { intros V. destruct (hstep V (gh_dh x) [] o) as [cs [p u]]. cbn [fst]. destruct (gh_dev x) as [d|].
    - exists (ioctls_of M g d cs). split; [reflexivity|]. apply moves_quiet. exact (ioctls_quiet _ _ (ioctls_fd M g d cs)).
    - exists []. rewrite app_nil_r. split; [reflexivity|apply moves_nil]. }
  destruct (B (match gh_dev x with Some d => drv_at M g d | None => no_drv end)) as (es & E & Mv). exists es. cbv zeta in A. destruct o; try (split; [exact E|split; [exact Mv|exact A]]). congruence.
Qed.
Lemma count_replace (xs : list ghandle) i x y : nth_error xs i = Some x -> (count is_live (replace_nth i y xs) + one x = count is_live xs + one y)%nat.
Proof.
  intros H. destruct (nth_split_ext xs i x H) as (a & b & -> & R). rewrite R, !count_app, !count_cons. unfold one. lia.
Qed.
