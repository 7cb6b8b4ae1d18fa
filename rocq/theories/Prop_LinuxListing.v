(** Property theorems C139: what EnumDrives says about each drive it lists. *)
From Verif Require Import Base M_Buffer M_Struc M_Ata M_TcgDevice M_DriveHandle M_Cdb M_SgDriver M_SgHandle M_NvmeLinux M_Strings M_LinuxInfo M_LinuxFactory
  M_LinuxSystem Spec_Drive P_DriveHandle Prop_Drive Spec_LinuxFactory P_LinuxFactory Prop_LinuxFactory Spec_NvmeLinux Spec_Sg P_Sg Prop_Sg
  Prop_NvmeLinux Prop_SgHandle Spec_LinuxSystem P_LinuxSystem Prop_LinuxSystem.

(** In the run ending in [h'], [x] is what OpenByPath gave for [path] when the descriptor [fd] was opened after [pre]. *)
Definition opened_as (W : world) (h' pre : lhist) (path : bytes) (fd : N) (x : handle) : Prop :=
  (exists post, h' = pre ++ LOpen path :: post) /\ w_open W (pre ++ [LOpen path]) = inr fd /\ exists k, open_by_path W pre path = (k, Ok x).

Definition grows (h h' : lhist) : Prop := exists t, h' = h ++ t.
Lemma grows_refl h : grows h h. Proof. exists []. now rewrite app_nil_r. Qed.
Lemma grows_trans a b c : grows a b -> grows b c -> grows a c.
Proof. intros (s & ->) (t & ->). exists (s ++ t). apply app_assoc_reverse. Qed.
Lemma grows_snoc h e : grows h (h ++ [e]). Proof. now exists [e]. Qed.
Lemma probe_grows W fd : forall k h x n h' r, probe_loop W h fd x n k = (h', r) -> grows h h'.
Proof.
  induction k as [|k IH]; intros h x n h' r H; cbn [probe_loop] in H; [injection H as <- <-; apply grows_refl|].
  destruct (w_probe W _) as [e|o]; [exact (grows_trans _ _ _ (grows_snoc _ _) (IH _ _ _ _ _ H))|].
  destruct (install x o) as [x1 [u|e| |]]; try (injection H as <- <-; apply grows_snoc); exact (grows_trans _ _ _ (grows_snoc _ _) (IH _ _ _ _ _ H)).
Qed.
Lemma open_grows W h path h' r : open_by_path W h path = (h', r) -> grows (h ++ [LOpen path]) h'.
Proof.
  unfold open_by_path. destruct (w_open W (h ++ [LOpen path])) as [e|fd]; [intros H; injection H as <- <-; apply grows_refl|].
  destruct (open_by_fd W (h ++ [LOpen path]) fd path) as [h2 r2] eqn:E. unfold open_by_fd in E. apply probe_grows in E.
  pose proof (grows_trans _ _ _ (grows_trans _ _ _ (grows_snoc (h ++ [LOpen path]) (LBasic fd path)) (grows_snoc _ (LIds path))) E) as G.
  destruct r2; intros H; injection H as <- <-; try exact G. exact (grows_trans _ _ _ G (grows_snoc _ _)).
Qed.
Lemma close_grows h x : grows h (fst (close_handle h x)).
Proof. unfold close_handle. destruct (p_dh (l_dh x)); [apply grows_snoc|apply grows_refl]. Qed.
Lemma closes_grow xs : forall h, grows h (fold_left (fun k x => fst (close_handle k x)) xs h).
Proof. induction xs as [|x xs IH]; intros h; cbn [fold_left]; [apply grows_refl|]. exact (grows_trans _ _ _ (close_grows h x) (IH _)). Qed.

Lemma opened_grows W h' h2 pre path fd x : opened_as W h' pre path fd x -> grows h' h2 -> opened_as W h2 pre path fd x.
Proof. intros ((post & ->) & B) (t & ->). split; [|exact B]. exists (post ++ t). now rewrite <- app_assoc. Qed.

Definition listed_as (W : world) (names : list bytes) (h' : lhist) (x : handle) : Prop :=
  exists pre name fd, In name names /\ opened_as W h' pre (str "/dev/" ++ name) fd x.
Lemma listed_grows W names h' h2 x : listed_as W names h' x -> grows h' h2 -> listed_as W names h2 x.
Proof. intros (pre & name & fd & A & B) G. exists pre, name, fd. split; [exact A|]. exact (opened_grows _ _ _ _ _ _ _ B G). Qed.

Lemma loop_lists W all : forall names h acc h' xs, (forall n, In n names -> In n all) -> enum_loop W h names acc = (h', Ok xs) ->
  Forall (listed_as W all h) acc -> grows h h' /\ Forall (listed_as W all h') xs.
Proof.
  induction names as [|name rest IH]; intros h acc h' xs Hin H Ha; cbn [enum_loop] in H.
  - injection H as <- <-. split; [apply grows_refl|exact Ha].
  - assert (Hin' : forall n, In n rest -> In n all) by (intros n Hn; apply Hin; now right).
    assert (Up : forall h2, grows h h2 -> Forall (listed_as W all h2) acc).
    { intros h2 G. apply (Forall_impl _ (fun x Hx => listed_grows W all h h2 x Hx G) Ha). }
    destruct (contains (str "loop") name); [exact (IH _ _ _ _ Hin' H Ha)|].
    pose proof (grows_snoc h (LStat (dev_path name))) as G1.
    assert (Skip : forall h2, grows h h2 -> enum_loop W h2 rest acc = (h', Ok xs) -> grows h h' /\ Forall (listed_as W all h') xs).
    { intros h2 G E. destruct (IH _ _ _ _ Hin' E (Up h2 G)) as [G2 F]. split; [exact (grows_trans _ _ _ G G2)|exact F]. }
    destruct (w_mode W _) as [mode|]; [|exact (Skip _ G1 H)].
    destruct (is_block mode); [|exact (Skip _ G1 H)]. destruct (contains (str "sr") name); [exact (Skip _ G1 H)|].
    destruct (open_by_path W (h ++ [LStat (dev_path name)]) (dev_path name)) as [h2 [x|e| |]] eqn:Eo; try discriminate H.
    + pose proof (open_grows _ _ _ _ _ Eo) as G2. assert (G : grows h h2) by (exact (grows_trans _ _ _ G1 (grows_trans _ _ _ (grows_snoc _ _) G2))).
      destruct (IH h2 (acc ++ [x]) h' xs Hin' H) as [G3 F]; [|split; [exact (grows_trans _ _ _ G G3)|exact F]].
      apply Forall_app. split; [exact (Up h2 G)|]. constructor; [|constructor].
      unfold open_by_path in Eo. destruct (w_open W ((h ++ [LStat (dev_path name)]) ++ [LOpen (dev_path name)])) as [e|fd] eqn:Ew; [discriminate|].
      exists (h ++ [LStat (dev_path name)]), name, fd. split; [apply Hin; now left|]. split; [|split; [exact Ew|]].
      * destruct G2 as (t & ->). exists t. now rewrite <- app_assoc.
      * exists h2. unfold open_by_path. change (str "/dev/" ++ name) with (dev_path name). now rewrite Ew.
    + refine (Skip _ _ H). exact (grows_trans _ _ _ G1 (grows_trans _ _ _ (grows_snoc _ _) (open_grows _ _ _ _ _ Eo))).
Qed.

(** C139, any world: the information EnumDrives returns for a drive is what opening its path at that moment gives. *)
Theorem C139_listed_as_opened : forall W h h' xs names, w_dir W (h ++ [LReadDir]) = inr names -> enum_drives W h = (h', Ok xs) ->
  Forall (fun x => exists pre name fd, In name names /\ opened_as W h' pre (str "/dev/" ++ name) fd x) xs.
Proof.
  intros W h h' xs names Hd H. unfold enum_drives in H. rewrite Hd in H.
  destruct (enum_loop W (h ++ [LReadDir]) names []) as [h2 [ys|e| |]] eqn:E; try discriminate H. injection H as <- <-.
  destruct (loop_lists W names names _ [] h2 ys (fun n Hn => Hn) E (Forall_nil _)) as [_ F].
  refine (Forall_impl _ (fun x Hx => listed_grows W names h2 _ x Hx _) F). apply closes_grow.
Qed.
Print Assumptions C139_listed_as_opened.

(** C139 on a complete Linux system: an NVMe drive is listed with the texts of its IDENTIFY answer and the features of its discovery
    answer; so is a SATA drive (which refuses NVMe commands).  The two commands went to the descriptor opened for its path. *)
Definition nvme_listed (S : system) (at_ : lhist) (path : bytes) (fd : N) (x : handle) : Prop :=
  let K := sy_nvme S (at_nvme at_ path fd) in
  exists c1 c2 id ans, nvme_identify fd c1 /\ nvme_level0 fd c2 /\ nv_succeeded (K [c1]) /\ delivered (zeros 4096) (firstn 4096 (na_in (K [c1]))) id
  /\ nvme_texts id (p_info (l_dh x)) /\ delivered (zeros 2048) (na_in (K [c1; c2])) ans
  /\ (nv_succeeded (K [c1; c2]) -> discovery_recorded (Some ans) (p_info (l_dh x)))
  /\ (~ nv_succeeded (K [c1; c2]) -> discovery_recorded None (p_info (l_dh x))).
Definition sata_listed (S : system) (at_ : lhist) (path : bytes) (fd : N) (x : handle) : Prop :=
  let K := sy_sg S (at_sg at_ path fd) in
  exists s1 srest id, Forall sata_identify (s1 :: srest) /\ sg_accepted K (s1 :: srest) /\ delivered (zeros 512) (an_in (K [s1])) id
  /\ ata_texts id (p_info (l_dh x)).
Lemma sg_accepted_dec K cs : sg_accepted K cs \/ ~ sg_accepted K cs.
Proof.
  destruct cs as [|c1 rest]; [right; intros []|]. cbn [sg_accepted]. destruct (N.eq_dec (nibble2 (sense32 (K [c1]))) 0) as [Z|Z]; [|right; tauto].
  destruct (succeeded_dec (K [c1])) as [Y|Y]; [left; auto|]. destruct rest as [|c2 [|c3 r]].
  - right. intros [[X|(c & X & _)] _]; [tauto|discriminate].
  - destruct (succeeded_dec (K [c1; c2])) as [Y2|Y2]; [left; split; [right; eauto|exact Z]|right]. intros [[X|(c & [= <-] & X)] _]; tauto.
  - right. intros [[X|(c & X & _)] _]; [tauto|discriminate].
Qed.
Theorem C139_what_is_listed : forall S h h' xs names, addresses_ok S -> w_dir (sy_world S) (h ++ [LReadDir]) = inr names ->
  enum_drives (linux S) h = (h', Ok xs) ->
  Forall (fun x => exists pre name fd, let path := str "/dev/" ++ name in
    In name names /\ (exists post, h' = pre ++ LOpen path :: post) /\ w_open (sy_world S) (pre ++ [LOpen path]) = inr fd
    /\ (l_driver_name x = str "LinuxNvmeDriver" -> nvme_listed S pre path fd x)
    /\ (l_driver_name x = str "LinuxScsiDriver" -> no_nvme (sy_nvme S (at_nvme pre path fd)) -> sata_listed S pre path fd x)
    /\ (l_driver_name x = str "LinuxNvmeDriver" \/ l_driver_name x = str "LinuxScsiDriver"
        \/ l_driver_name x = [] /\ l_driving x = 0)) xs.
Proof.
  intros S h h' xs names HS Hd H. apply (C139_listed_as_opened (linux S) h h' xs names Hd) in H.
  refine (Forall_impl _ _ H). clear H xs. intros x (pre & name & fd & Hin & Hp & Hw & k & Ho). exists pre, name, fd. cbv zeta.
  split; [exact Hin|]. split; [exact Hp|]. split; [exact Hw|]. split; [|split].
  - intros Hn. destruct (C122_nvme_information S pre _ k x fd HS Hw Ho Hn) as (c1 & c2 & id & ans & _ & A). exists c1, c2, id, ans. tauto.
  - intros Hn Nn. destruct (C123_sata_information S pre _ k x fd HS Hw Ho Nn Hn) as (s1 & srest & c1 & rest & id & _ & A). exists s1, srest, id. tauto.
  - destruct (C121_driver_name S pre _ k x fd HS Hw Ho) as (n1 & ss & _ & _ & _ & A & B & C).
    destruct (sg_accepted_dec (sy_sg S (at_sg pre (str "/dev/" ++ name) fd)) ss) as [X|X]; [right; left; apply A, X|].
    destruct (nv_succeeded_dec (sy_nvme S (at_nvme pre (str "/dev/" ++ name) fd) [n1])) as [Y|Y]; [left; now apply B|].
    right; right. destruct (C X Y) as (Z1 & Z2 & _). auto.
Qed.
Print Assumptions C139_what_is_listed.
