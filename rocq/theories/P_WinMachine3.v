(** More lemmas for C154: the enumerations and the calls on handles. *)
From Verif Require Import Base M_Buffer M_Struc M_Layouts M_Ata M_TcgDevice M_DriveHandle M_Cdb M_SgDriver M_NvmeLinux M_Strings M_WinPass M_WinNvme M_WinInfo
  M_WinFactory M_WinEnum M_WinMachine Spec_Inspect Spec_InspectWin P_DriveHandle P_WinNvme Prop_WinNvme P_Inspect P_InspectWin Spec_WinMachine P_WinMachine P_WinMachine2.
From Coq Require Import Permutation.

Lemma Forall2_impl {A B} (P Q : A -> B -> Prop) l l' : (forall a b, P a b -> Q a b) -> Forall2 P l l' -> Forall2 Q l l'.
Proof. intros H. induction 1; constructor; auto. Qed.
(** [does] together with what it adds. *)
Lemma does_extends X Q h L h' L' : owns X h L -> does X Q h L h' L' -> exists es, h' = h ++ es /\ owns X h' L'.
Proof. intros O D. destruct (D O) as (es & E & _ & O'). eauto. Qed.

(** ---- EnumDrives ---- *)
Definition since_step (X : xsys) (k0 : nat) : allowed := fun h o j => (k0 <= j)%nat /\ exists p, belongs_to X h p o.
Definition listed (X : xsys) (h : xhist) (k0 : nat) (x : whandle) (E : list entry) : Prop :=
  exists p k, (k0 <= k)%nat /\ opened X h p k x E.
Lemma opened_lasting X h es p k x E : opened X h p k x E -> opened X (h ++ es) p k x E.
Proof. unfold opened. destruct (f_drv x) as [[[d g] cs]|]; [apply entries_lasting|tauto]. Qed.
Lemma listed_lasting X h es k0 xs Es : Forall2 (listed X h k0) xs Es -> Forall2 (listed X (h ++ es) k0) xs Es.
Proof. intros H. eapply Forall2_impl; [|exact H]. intros x E (p & k & L & O). exists p, k. split; [exact L|now apply opened_lasting]. Qed.
Lemma silent_steps X Q h L e : uses_handle e = None -> owns X h L -> does X Q h L (h ++ [e]) L /\ owns X (h ++ [e]) L.
Proof. intros U O. pose proof (does_silent X Q h L e U) as D. split; [exact D|]. destruct (D O) as (es & E & _ & O'). exact O'. Qed.
Lemma detail_does X Q h L d i b : does X Q h L (fst (get_detail X h d i b)) L.
Proof. unfold get_detail. cbv zeta. destruct (x_detail X _) as [e [o s]]. cbn [fst]. now apply does_silent. Qed.
Lemma path_does X Q h L d i b : does X Q h L (fst (device_path X h d i b)) L.
Proof.
  unfold device_path. pose proof (detail_does X Q h L d i b) as P. destruct (get_detail X h d i b) as [h1 [e1 [b1 s1]]]. cbn [fst] in P. cbv zeta.
  destruct (e1 =? 122).
  - destruct (round_1024 s1 =? 0); [exact P|]. pose proof (detail_does X Q h1 L d i (zeros (N.to_nat (round_1024 s1)))) as R.
    destruct (get_detail X h1 d i (zeros (N.to_nat (round_1024 s1)))) as [h2 [e2 [b2 s2]]]. cbn [fst] in R.
    destruct (e2 =? 0); exact (does_trans _ _ _ _ _ _ _ _ P R).
  - destruct (e1 =? 0); exact P.
Qed.
Lemma enum_devices_does X k0 L fuel : fresh_handles X -> answers_bytes X -> forall h d i b xs Es, (k0 <= List.length h)%nat ->
  Forall2 (listed X h k0) xs Es -> owns X h (concat Es ++ L) ->
  let r := enum_devices X fuel h d i b xs in
  exists Es', Forall2 (listed X (fst r) k0) (fst (snd r)) Es' /\ does X (since_step X k0) h (concat Es ++ L) (fst r) (concat Es' ++ L).
Proof.
  intros F B. induction fuel as [|f IH]; intros h d i b xs Es K HE O; cbn [enum_devices].
  - cbn [fst snd]. exists Es. split; [exact HE|apply does_refl].
  - cbv zeta. set (L1 := concat Es ++ L) in *. set (Q := since_step X k0) in *.
    (* continuing from a later point with the same handles *)
    assert (STEP : forall h1 i b, does X Q h L1 h1 L1 -> let r := enum_devices X f h1 d i b xs in
      exists Es', Forall2 (listed X (fst r) k0) (fst (snd r)) Es' /\ does X Q h L1 (fst r) (concat Es' ++ L)).
    { intros h1 i1 b1 D. destruct (does_extends _ _ _ _ _ _ O D) as (es & -> & O1). cbv zeta.
      destruct (IH (h ++ es) d i1 b1 xs Es) as (Es' & H' & D'); [rewrite app_length; lia|now apply listed_lasting|exact O1|].
      exists Es'. split; [exact H'|]. exact (does_trans _ _ _ _ _ _ _ _ D D'). }
    assert (STOP : forall h1 (y : res unit), does X Q h L1 h1 L1 ->
      exists Es', Forall2 (listed X (fst (h1, (xs, y))) k0) (fst (snd (h1, (xs, y)))) Es' /\ does X Q h L1 (fst (h1, (xs, y))) (concat Es' ++ L)).
    { intros h1 y D. cbn [fst snd]. exists Es. destruct (does_extends _ _ _ _ _ _ O D) as (es & -> & _). split; [now apply listed_lasting|exact D]. }
    destruct (silent_steps X Q h L1 (XDevInfo d i) eq_refl O) as [D1 O1]. set (h1 := h ++ [XDevInfo d i]) in *.
    destruct (negb (x_devinfo X h1)); [apply STOP, D1|]. set (j := N.of_nat i mod 2 ^ 32).
    destruct (silent_steps X Q h1 L1 (XInterface d j) eq_refl O1) as [D2 O2]. set (h2 := h1 ++ [XInterface d j]) in *.
    pose proof (does_trans _ _ _ _ _ _ _ _ D1 D2) as D12.
    assert (K2 : (k0 <= List.length h2)%nat) by (unfold h2, h1; rewrite !app_length; lia).
    destruct (x_iface X h2 =? 259); [apply STEP, D12|]. destruct (negb _); [apply STOP, D12|].
    pose proof (path_does X Q h2 L1 d j b) as D3. destruct (device_path X h2 d j b) as [h3 [b1 q]]. cbn [fst] in D3.
    pose proof (does_trans _ _ _ _ _ _ _ _ D12 D3) as D123. destruct (does_extends _ _ _ _ _ _ O D123) as (es3 & Ees3 & O3).
    assert (K3 : (k0 <= List.length h3)%nat) by (rewrite Ees3, app_length; lia).
    destruct q as [[p|]|e| |]; try (apply STOP, D123); [|apply STEP, D123].
    pose proof (open_path_does X h3 p L1 F B O3) as P. cbv zeta in P. destruct (x_open_by_path X h3 p) as [h4 y]. cbn [fst snd] in P.
    assert (W : forall L', does X (about X p (List.length h3)) h3 L1 h4 L' -> does X Q h L1 h4 L').
    { intros L' D. apply (does_trans _ _ _ _ _ _ _ _ D123). eapply does_weaken; [|exact D]. intros hh o jj [-> Bb]. split; [exact K3|eauto]. }
    destruct y as [x|e| |]; [|apply STEP, W, P|apply STOP, W, P|apply STOP, W, P].
    destruct P as (E & Ho & D). pose proof (W _ D) as D4.
    destruct (does_extends _ _ _ _ _ _ O D4) as (es4 & E4 & O4).
    assert (PM : Permutation (E ++ L1) (concat (Es ++ [E]) ++ L)).
    { rewrite concat_app. cbn [concat]. rewrite app_nil_r. unfold L1. rewrite <- app_assoc. apply Permutation_app_swap_app. }
    destruct (IH h4 d (S i) b1 (xs ++ [x]) (Es ++ [E])) as (Es' & H' & D').
    + rewrite E4, app_length. lia.
    + apply Forall2_app; [rewrite E4; now apply listed_lasting|]. constructor; [|constructor]. exists p, (List.length h3). auto.
    + eapply owns_sub; [apply sub_perm; exact PM|exact O4].
    + exists Es'. split; [exact H'|]. apply (does_trans _ _ _ _ _ _ _ _ D4). refine (does_trans _ _ _ _ _ _ _ _ _ D'). apply does_sub, sub_perm, PM.
Qed.
Lemma close_one_does X k0 h x E L : listed X h k0 x E -> does X (since_step X k0) h (E ++ L) (x_close h x) L.
Proof.
  intros (p & k & K & H). unfold x_close, win_close, opened in *. destruct (f_drv x) as [[[d g] cs]|].
  - destruct (entries_head _ _ _ _ _ _ H) as (R & ->). cbn [fst close_handle app map].
    assert (C : does X (since_step X k0) h (((wd_handle d, (OPath p, k)) :: R) ++ L) (h ++ [XSys (WClose (wd_handle d))]) (R ++ L)).
    { apply (does_close X (since_step X k0) h [] (R ++ L)). split; [exact K|]. exists p. now left. }
    apply (does_trans _ _ _ _ _ _ _ _ C), does_sub, sub_drop.
  - subst E. cbn [fst map]. rewrite !app_nil_r. apply does_refl.
Qed.
Lemma close_list_does X k0 L xs : forall h Es, Forall2 (listed X h k0) xs Es -> owns X h (concat Es ++ L) ->
  does X (since_step X k0) h (concat Es ++ L) (fold_left x_close xs h) L.
Proof.
  induction xs as [|x xs IH]; intros h Es H O; inversion H; subst; cbn [fold_left concat app].
  - apply does_refl.
  - cbn [concat] in O. rewrite <- app_assoc in *. pose proof (close_one_does X k0 h x y (concat l' ++ L) H2) as D.
    destruct (does_extends _ _ _ _ _ _ O D) as (es & E & O'). apply (does_trans _ _ _ _ _ _ _ _ D). apply IH; [|exact O']. rewrite E. now apply listed_lasting.
Qed.
Lemma Forall2_rev' {A B} (P : A -> B -> Prop) l l' : Forall2 P l l' -> Forall2 P (rev l) (rev l').
Proof. induction 1; cbn [rev]; [constructor|]. apply Forall2_app; [assumption|]. constructor; [assumption|constructor]. Qed.
Lemma concat_rev_perm {A} (l : list (list A)) : Permutation (concat (rev l)) (concat l).
Proof.
  induction l as [|a l IH]; [reflexivity|]. cbn [rev concat]. rewrite concat_app. cbn [concat]. rewrite app_nil_r, IH. apply Permutation_app_comm.
Qed.
Lemma enum_does X fuel h L : fresh_handles X -> answers_bytes X -> owns X h L ->
  does X (since_step X (List.length h)) h L (fst (win_enum_drives X fuel h)) L.
Proof.
  intros F B O. unfold win_enum_drives. cbv zeta. set (k0 := List.length h). set (Q := since_step X k0).
  destruct (silent_steps X Q h L XClassDevs eq_refl O) as [D1 O1]. set (h1 := h ++ [XClassDevs]) in *.
  assert (K1 : (k0 <= List.length h1)%nat) by (unfold h1, k0; rewrite app_length; lia).
  destruct (x_class X h1) as [e|d]; [exact D1|].
  destruct (enum_devices_does X k0 L fuel F B h1 d 0%nat (zeros 1024) [] [] K1 (Forall2_nil _) O1) as (Es & HE & D2).
  destruct (enum_devices X fuel h1 d 0 (zeros 1024) []) as [h2 [xs r]]. cbn [fst snd] in *. cbn [concat app] in D2.
  pose proof (does_trans _ _ _ _ _ _ _ _ D1 D2) as D12. destruct (does_extends _ _ _ _ _ _ O D12) as (es2 & E2 & O2).
  assert (D3 : does X Q h L (fold_left x_close (rev xs) h2 ++ [XDestroy d]) L).
  { apply (does_trans _ _ _ _ _ _ _ _ D12).
    assert (P : Permutation (concat Es ++ L) (concat (rev Es) ++ L)) by (apply Permutation_app_tail; symmetry; apply concat_rev_perm).
    refine (does_trans _ _ _ h2 _ _ _ _ (does_sub _ _ _ _ _ (sub_perm _ _ P)) _).
    refine (does_trans _ _ _ _ _ _ _ _ (close_list_does X k0 L (rev xs) h2 (rev Es) (Forall2_rev' _ _ _ HE) (owns_sub _ _ _ _ (sub_perm _ _ P) O2)) _).
    now apply does_silent. }
  destruct r; cbn [fst]; try exact D3. apply (does_trans _ _ _ _ _ _ _ _ D12), does_sub, sub_drop.
Qed.

(** ---- EnumVolumes ---- *)
Definition volumes_since (k0 : nat) : allowed := fun h o j => (k0 <= j)%nat /\ exists v, o = OVolume v.
Definition volume_entry (k0 : nat) (e : entry) : Prop := exists v, snd e = (OVolume v, k0).
Lemma item_does X k0 h L name b : fresh_handles X -> (k0 <= List.length h)%nat -> owns X h L ->
  let r := volume_item X h name b in
  exists E, map fst E = fst (snd r) /\ Forall (volume_entry k0) E /\ does X (volumes_since k0) h L (fst r) (E ++ L).
Proof.
  intros F K O. unfold volume_item. cbv zeta. set (Q := volumes_since k0). set (v := firstn (wlen name) name). clearbody v.
  destruct (silent_steps X Q h L (XPathNames v) eq_refl O) as [D1 O1]. set (h1 := h ++ [XPathNames v]) in *.
  assert (NONE : forall h' (r : res (wvolume * vbufs)), does X Q h L h' L -> exists E, map fst E = fst (snd (h', (@nil N, r))) /\ Forall (volume_entry k0) E /\ does X Q h L (fst (h', (@nil N, r))) (E ++ L)).
  { intros h' r D. exists []. split; [reflexivity|]. split; [constructor|exact D]. }
  match goal with |- context [match ?m with Ok _ => _ | Err _ => _ | Panic => _ | Fuel => _ end] => destruct m as [ms|e| |] end; try (apply NONE, D1).
  destruct (silent_steps X Q h1 L (XVolumeInfo v) eq_refl O1) as [D2 O2]. set (h2 := h1 ++ [XVolumeInfo v]) in *.
  destruct (silent_steps X Q h2 L (XDriveType v) eq_refl O2) as [D3 O3]. set (h3 := h2 ++ [XDriveType v]) in *.
  set (v1 := strip_backslashes v). pose proof (does_silent X Q h3 L (XVolumeOpen v1) eq_refl) as D4s. set (h4 := h3 ++ [XVolumeOpen v1]) in *.
  pose proof (does_trans _ _ _ _ _ _ _ _ D1 (does_trans _ _ _ _ _ _ _ _ D2 D3)) as D123.
  destruct (x_vopen X h4) as [e|hd] eqn:Eo; [apply NONE; exact (does_trans _ _ _ _ _ _ _ _ D123 D4s)|].
  assert (D4 : does X Q h3 L h4 ((hd, (OVolume v1, k0)) :: L)).
  { apply does_open; [exact F|reflexivity|split; [exact Eo|reflexivity]|]. unfold h3, h2, h1. rewrite !app_length. lia. }
  set (L4 := (hd, (OVolume v1, k0)) :: L) in *.
  assert (Q4 : forall hh, Q hh (OVolume v1) k0) by (intros hh; split; [lia|eauto]).
  assert (IO : forall h5 c, wc_handle c = hd -> does X Q h5 L4 (h5 ++ [XSys (WIo c)]) L4).
  { intros h5 c Hc. apply (does_io X Q h5 L4 c (OVolume v1) k0); [rewrite Hc; now left|apply Q4]. }
  assert (ONE : forall h' (r : res (wvolume * vbufs)), does X Q h4 L4 h' L4 -> exists E, map fst E = fst (snd (h', ([hd], r))) /\ Forall (volume_entry k0) E /\ does X Q h L (fst (h', ([hd], r))) (E ++ L)).
  { intros h' r D. exists [(hd, (OVolume v1, k0))]. split; [reflexivity|]. split; [constructor; [exists v1; reflexivity|constructor]|].
    exact (does_trans _ _ _ _ _ _ _ _ D123 (does_trans _ _ _ _ _ _ _ _ D4 D)). }
  match goal with |- context [h4 ++ [XSys (WIo ?c)]] => pose proof (IO h4 c eq_refl) as D5; set (h5 := h4 ++ [XSys (WIo c)]) in * end.
  destruct (wa_err (x_io X h5) =? 0); [|apply ONE, D5].
  match goal with |- context [extents_loop ?a ?b ?c] => destruct (extents_loop a b c) as [es|e| |] end; try (apply ONE, D5).
  destruct es as [|e es]; [apply ONE, D5|].
  assert (D6 : does X Q h5 L4 (fst (partition_info X h5 hd e)) L4).
  { unfold partition_info. cbv zeta. destruct (wa_err _ =? 0); cbn [fst]; apply IO; reflexivity. }
  destruct (partition_info X h5 hd e) as [h6 p]. cbn [fst] in D6. apply ONE. exact (does_trans _ _ _ _ _ _ _ _ D5 D6).
Qed.
Lemma loop_does X k0 L fuel : fresh_handles X -> forall h f name b vs hs E, (k0 <= List.length h)%nat -> map fst E = hs -> Forall (volume_entry k0) E ->
  owns X h (E ++ L) ->
  let r := volume_loop X fuel h f name b vs hs in
  exists E', map fst E' = fst (snd r) /\ Forall (volume_entry k0) E' /\ does X (volumes_since k0) h (E ++ L) (fst r) (E' ++ L).
Proof.
  intros F. induction fuel as [|fu IH]; intros h f name b vs hs E K HE FE O; cbn [volume_loop].
  - cbn [fst snd]. exists E. split; [exact HE|]. split; [exact FE|apply does_refl].
  - destruct (item_does X k0 h (E ++ L) name b F K O) as (E1 & M1 & F1 & D1). destruct (volume_item X h name b) as [h1 [o r]]. cbn [fst snd] in *.
    assert (P : Permutation (E1 ++ E ++ L) ((E ++ E1) ++ L)) by (rewrite <- app_assoc; apply Permutation_app_swap_app).
    assert (D1' : does X (volumes_since k0) h (E ++ L) h1 ((E ++ E1) ++ L)) by (apply (does_trans _ _ _ _ _ _ _ _ D1), does_sub, sub_perm, P).
    assert (M1' : map fst (E ++ E1) = hs ++ o) by (rewrite map_app; congruence).
    assert (F1' : Forall (volume_entry k0) (E ++ E1)) by (apply Forall_app; auto).
    destruct r as [[v b1]|e| |]; cbn [fst snd]; try (exists (E ++ E1); split; [exact M1'|]; split; [exact F1'|exact D1']).
    pose proof (does_trans _ _ _ _ _ _ _ _ D1' (does_silent X (volumes_since k0) h1 ((E ++ E1) ++ L) (XFindNext f) eq_refl)) as D2.
    destruct (does_extends _ _ _ _ _ _ O D2) as (es & Ees & O2). cbv zeta. destruct (x_next X (h1 ++ [XFindNext f])) as [e|us].
    + exists (E ++ E1). split; [exact M1'|]. split; [exact F1'|exact D2].
    + destruct (IH (h1 ++ [XFindNext f]) f (fill (zeros 320) us) b1 (vs ++ [v]) (hs ++ o) (E ++ E1)) as (E' & M' & F' & D'); try assumption.
      { rewrite Ees, app_length. lia. }
      exists E'. split; [exact M'|]. split; [exact F'|]. exact (does_trans _ _ _ _ _ _ _ _ D2 D').
Qed.
Lemma volume_closes_does X k0 L E : forall h, Forall (volume_entry k0) E -> does X (volumes_since k0) h (E ++ L) (h ++ map (fun x => XSys (WClose x)) (map fst E)) L.
Proof.
  induction E as [|[hd [o k]] E IH]; intros h FE.
  - cbn [map app]. rewrite app_nil_r. apply does_refl.
  - inversion FE; subst. destruct H1 as (v & Ev). cbn [snd] in Ev. injection Ev as -> ->. cbn [map fst].
    replace (h ++ XSys (WClose hd) :: map (fun x => XSys (WClose x)) (map fst E)) with ((h ++ [XSys (WClose hd)]) ++ map (fun x => XSys (WClose x)) (map fst E)) by (rewrite <- app_assoc; reflexivity).
    refine (does_trans _ _ _ _ _ _ _ _ _ (IH (h ++ [XSys (WClose hd)]) H2)).
    apply (does_close X (volumes_since k0) h [] (E ++ L)). split; [lia|eauto].
Qed.
Lemma volumes_does X fuel h L : fresh_handles X -> owns X h L -> does X (volumes_since (List.length h)) h L (fst (win_enum_volumes X fuel h)) L.
Proof.
  intros F O. unfold win_enum_volumes. cbv zeta. set (k0 := List.length h). set (Q := volumes_since k0).
  destruct (silent_steps X Q h L (XErrorMode 1) eq_refl O) as [D1 O1]. set (h1 := h ++ [XErrorMode 1]) in *.
  destruct (silent_steps X Q h1 L XFindFirst eq_refl O1) as [D2 O2]. set (h2 := h1 ++ [XFindFirst]) in *.
  pose proof (does_trans _ _ _ _ _ _ _ _ D1 D2) as D12.
  assert (K2 : (k0 <= List.length h2)%nat) by (unfold h2, h1, k0; rewrite !app_length; lia).
  destruct (x_first X h2) as [e|[f us]].
  - cbn [fst]. apply (does_trans _ _ _ _ _ _ _ _ D12). now apply does_silent.
  - match goal with |- context [volume_loop X fuel h2 f ?a ?b [] []] => destruct (loop_does X k0 L fuel F h2 f a b [] [] [] K2 eq_refl (Forall_nil _) O2) as (E & M & FE & D3);
      destruct (volume_loop X fuel h2 f a b [] []) as [h3 [hs r]] end. cbn [fst snd app] in *.
    pose proof (does_trans _ _ _ _ _ _ _ _ D12 D3) as D.
    assert (D4 : does X Q h L (h3 ++ map (fun x => XSys (WClose x)) (rev hs) ++ [XFindClose f; XErrorMode (x_mode X h1)]) L).
    { apply (does_trans _ _ _ _ _ _ _ _ D).
      assert (P : Permutation (E ++ L) (rev E ++ L)) by (apply Permutation_app_tail, Permutation_rev).
      refine (does_trans _ _ _ h3 _ _ _ _ (does_sub _ _ _ _ _ (sub_perm _ _ P)) _).
      rewrite app_assoc. rewrite <- M, <- map_rev.
      refine (does_trans _ _ _ _ _ _ _ _ (volume_closes_does X k0 L (rev E) h3 _) _); [apply Forall_rev; exact FE|].
      match goal with |- does X _ ?g L (?g ++ [?a; ?b]) L => replace (g ++ [a; b]) with ((g ++ [a]) ++ [b]) by (rewrite <- app_assoc; reflexivity);
        refine (does_trans _ _ _ _ _ _ _ _ (does_silent X Q g L a eq_refl) _); now apply does_silent end. }
    destruct r; cbn [fst]; try exact D4. apply (does_trans _ _ _ _ _ _ _ _ D), does_sub, sub_drop.
Qed.

(** ---- one call of a program ---- *)
Definition handle_entries (X : xsys) (h : xhist) (x : mhandle) (E : list entry) : Prop :=
  match mh_dev x with Some d => dev_entries X h (mh_path x) 0 d E | None => E = [] end.
Definition handle_allowed (X : xsys) (p : bytes) : allowed := fun h o _ => belongs_to X h p o.
Lemma handles_lasting X h es xs Es : Forall2 (handle_entries X h) xs Es -> Forall2 (handle_entries X (h ++ es)) xs Es.
Proof. intros H. eapply Forall2_impl; [|exact H]. intros x E. unfold handle_entries. destruct (mh_dev x); [apply entries_lasting|tauto]. Qed.
Lemma mcall_does X h x o E L : handle_entries X h x E -> owns X h (E ++ L) ->
  let r := mcall X h x o in
  exists E', handle_entries X (fst r) (snd r) E' /\ mh_path (snd r) = mh_path x /\ does X (handle_allowed X (mh_path x)) h (E ++ L) (fst r) (E' ++ L).
Proof.
  intros H O. cbv zeta. assert (D : o = HClose \/ o <> HClose) by (destruct o; (now left) || (right; discriminate)). destruct D as [->|Hn].
  - cbn [mcall]. unfold mclose, handle_entries in *. destruct (mh_dev x) as [d|] eqn:Ed; cbn [fst snd].
    + exists []. split; [reflexivity|]. split; [reflexivity|]. destruct (entries_head _ _ _ _ _ _ H) as (R & ->). cbn [close_handle app map].
      refine (does_trans _ _ _ _ _ _ _ _ (does_close X (handle_allowed X (mh_path x)) h [] (R ++ L) (wd_handle d) (OPath (mh_path x)) 0 (or_introl eq_refl)) _).
      exact (does_sub X _ _ (R ++ L) L (sub_drop R L)).
    + exists []. rewrite Ed. split; [reflexivity|]. split; [reflexivity|]. subst E. apply does_refl.
  - set (V := match mh_dev x with Some d => win_drv (wsys_at X h) (waddr_at X h) d [] | None => mno_drv end).
    assert (Q : mcall X h x o = (let '(cs, (p, _)) := hstep V (mh_dh x) [] o in
      (match mh_dev x with Some d => h ++ map XSys (win_replay (wsys_at X h) (waddr_at X h) d [] cs) | None => h end,
       {| mh_path := mh_path x; mh_dh := p; mh_dev := mh_dev x |}))).
    { unfold mcall. fold V. destruct o; (reflexivity || congruence). }
    rewrite Q. pose proof (hstep_no_close V (mh_dh x) [] o Hn) as NC. destruct (hstep V (mh_dh x) [] o) as [cs [p out]]. cbn [fst snd] in *.
    destruct NC as (cs' & E0 & NC). cbn [app] in E0. subst cs'. cbn [mh_path]. unfold handle_entries in *. cbn [mh_dev mh_path].
    destruct (mh_dev x) as [d|].
    + exists E. set (w := win_replay (wsys_at X h) (waddr_at X h) d [] cs).
      assert (D : does X (about X (mh_path x) 0) (h ++ map XSys []) (E ++ L) (h ++ map XSys w) (E ++ L)).
      { apply replay_does; [exact NC|]. cbn [map]. rewrite app_nil_r. exact H. }
      cbn [map] in D. rewrite app_nil_r in D. split; [now apply entries_lasting|]. split; [reflexivity|]. eapply does_weaken; [|exact D]. intros hh oo j [_ Bb]. exact Bb.
    + subst E. exists []. split; [reflexivity|]. split; [reflexivity|]. apply does_refl.
Qed.
Lemma set_nth_ext {A} (l : list A) i x : nth_error l i = Some x -> exists a b, l = a ++ x :: b /\ forall y, set_nth i y l = a ++ y :: b.
Proof.
  revert i. induction l as [|z l IH]; intros [|i] H; cbn in H; try discriminate.
  - injection H as ->. exists [], l. auto.
  - destruct (IH i H) as (a & b & -> & R). exists (z :: a), b. split; [reflexivity|]. intros y. cbn. now rewrite R.
Qed.
Definition good_state (X : xsys) (s : mstate) : Prop :=
  exists Es, Forall2 (handle_entries X (ms_hist s)) (ms_handles s) Es /\ owns X (ms_hist s) (concat Es).
Lemma mstep_does X s o : fresh_handles X -> answers_bytes X -> good_state X s ->
  exists es, ms_hist (mstep X s o) = ms_hist s ++ es
  /\ (forall e1 e e2 hd, es = e1 ++ e :: e2 -> uses_handle e = Some hd ->
        exists obj, is_open_on X (ms_hist s ++ e1) hd obj /\ may_use X s o (ms_hist s ++ e1) hd obj)
  /\ good_state X (mstep X s o)
  /\ (mpaths (mstep X s o) = mpaths s \/ exists p, o = MOpen p /\ mpaths (mstep X s o) = mpaths s ++ [p]).
Proof.
  intros F B (Es & HE & O). destruct s as [h xs]. unfold good_state, mpaths in *. cbn [ms_hist ms_handles] in *.
  assert (T0 : forall (Q : allowed) (P : xhist -> N -> wobj -> Prop) es, touches X Q h es ->
     (forall e1 hd obj k, open_since X k (h ++ e1) hd obj -> Q (h ++ e1) obj k -> P (h ++ e1) hd obj) ->
     forall e1 e e2 hd, es = e1 ++ e :: e2 -> uses_handle e = Some hd -> exists obj, is_open_on X (h ++ e1) hd obj /\ P (h ++ e1) hd obj).
  { intros Q P es T W e1 e e2 hd E U. destruct (T e1 e e2 hd E U) as (obj & k & S & HQ). exists obj. split; [apply (since_le X 0 k); [lia|exact S]|]. exact (W _ _ _ _ S HQ). }
  destruct o as [p|fuel|fuel|i o]; cbn [mstep may_use ms_hist ms_handles].
  - pose proof (open_path_does X h p (concat Es) F B O) as P. cbv zeta in P. destruct (x_open_by_path X h p) as [h' r]. cbn [fst snd] in P.
    assert (Same : does X (about X p (List.length h)) h (concat Es) h' (concat Es) -> exists es, h' = h ++ es
      /\ (forall e1 e e2 hd, es = e1 ++ e :: e2 -> uses_handle e = Some hd -> exists obj, is_open_on X (h ++ e1) hd obj /\ open_since X (List.length h) (h ++ e1) hd obj /\ belongs_to X (h ++ e1) p obj)
      /\ (exists Es0, Forall2 (handle_entries X h') xs Es0 /\ owns X h' (concat Es0))
      /\ (map mh_path xs = map mh_path xs \/ exists q, MOpen p = MOpen q /\ map mh_path xs = map mh_path xs ++ [q])).
    { intros D. destruct (D O) as (es & -> & T & O'). exists es. split; [reflexivity|]. split; [|split; [exists Es; split; [now apply handles_lasting|exact O']|now left]].
      apply (T0 _ (fun hh hd obj => open_since X (List.length h) hh hd obj /\ belongs_to X hh p obj) es T). intros e1 hd obj k S [-> Bb]. auto. }
    destruct r as [x|e| |]; cbn [ms_hist ms_handles]; try exact (Same P). clear Same.
    destruct P as (E & Ho & D). destruct (D O) as (es & -> & T & O'). exists es. split; [reflexivity|]. split; [|split].
    + apply (T0 _ (fun hh hd obj => open_since X (List.length h) hh hd obj /\ belongs_to X hh p obj) es T). intros e1 hd obj k S [-> Bb]. auto.
    + set (lower := fun e : entry => (fst e, (fst (snd e), 0%nat))).
      exists (Es ++ [map lower E]). split.
      * apply Forall2_app; [now apply handles_lasting|]. constructor; [|constructor]. unfold handle_entries, mhandle_of, opened in *. cbn [mh_dev mh_path].
        destruct (f_drv x) as [[[d g] cs]|]; [|subst E; reflexivity]. unfold dev_entries in *. destruct (wd_kind d); [|subst E; reflexivity..].
        destruct Ho as (port & Np & ->). exists port. auto.
      * rewrite concat_app. cbn [concat]. rewrite app_nil_r. destruct O' as [Nd Op]. split.
        -- assert (Mf : map fst (map lower E) = map fst E) by (rewrite map_map; apply map_ext; reflexivity).
           rewrite map_app. match goal with |- NoDup (?a ++ ?b) => replace b with (map fst E) by (symmetry; exact Mf) end. rewrite map_app in Nd. eapply Permutation_NoDup; [apply Permutation_app_comm|exact Nd].
        -- intros hd ob k I. apply in_app_or in I as [I|I]; [apply Op, in_or_app; now right|]. apply in_map_iff in I as ([hd' [ob' k']] & El & I). injection El as <- <- <-.
           apply (since_le X 0 k'); [lia|]. apply Op, in_or_app. now left.
    + right. exists p. rewrite map_app. cbn [map mhandle_of mh_path]. auto.
  - destruct (enum_does X fuel h (concat Es) F B O O) as (es & E & T & O'). exists es. rewrite E in *. split; [reflexivity|]. split.
    + apply (T0 _ (fun hh hd obj => open_since X (List.length h) hh hd obj /\ exists p, belongs_to X hh p obj) es T). intros e1 hd obj k S [K Bb].
      split; [exact (since_le X _ k _ _ _ K S)|exact Bb].
    + split; [exists Es; split; [now apply handles_lasting|exact O']|now left].
  - destruct (volumes_does X fuel h (concat Es) F O O) as (es & E & T & O'). exists es. rewrite E in *. split; [reflexivity|]. split.
    + apply (T0 _ (fun hh hd obj => open_since X (List.length h) hh hd obj /\ exists v, obj = OVolume v) es T). intros e1 hd obj k S [K Bb].
      split; [exact (since_le X _ k _ _ _ K S)|exact Bb].
    + split; [exists Es; split; [now apply handles_lasting|exact O']|now left].
  - destruct (nth_error xs i) as [x|] eqn:Ei.
    2:{ exists []. rewrite app_nil_r. cbn [ms_hist ms_handles]. split; [reflexivity|]. split; [|split; [exists Es; auto|now left]]. intros e1 e e2 hd E. destruct e1; discriminate E. }
    destruct (set_nth_ext _ _ _ Ei) as (a & b & Ex & R). rewrite Ex in HE. apply Forall2_app_inv_l in HE as (Ea & Eb' & Ha & Hb & ->).
    inversion Hb as [|x0 Ei0 b0 Eb Hx Hb']; subst x0 b0 Eb'.
    assert (P : Permutation (concat (Ea ++ Ei0 :: Eb)) (Ei0 ++ concat (Ea ++ Eb))).
    { rewrite !concat_app. cbn [concat]. apply Permutation_app_swap_app. }
    pose proof (owns_sub _ _ _ _ (sub_perm _ _ P) O) as O1.
    destruct (mcall_does X h x o Ei0 (concat (Ea ++ Eb)) Hx O1) as (E' & He & Hp & D). destruct (mcall X h x o) as [h' x']. cbn [fst snd ms_hist ms_handles] in *.
    destruct (D O1) as (es & -> & T & O'). exists es. split; [reflexivity|]. split; [|split].
    + intros e1 e e2 hd E U. destruct (T e1 e e2 hd E U) as (obj & k & S & HQ). apply (since_le X 0 k) in S; [|lia]. exists obj. split; [exact S|]. exists x. auto.
    + exists (Ea ++ E' :: Eb). split; [rewrite R; apply Forall2_app; [now apply handles_lasting|]; constructor; [exact He|now apply handles_lasting]|].
      eapply owns_sub; [|exact O']. apply sub_perm. rewrite !concat_app. cbn [concat]. apply Permutation_app_swap_app.
    + left. rewrite R, Ex, !map_app. cbn [map]. now rewrite Hp.
Qed.
Lemma mrun_good X ops : fresh_handles X -> answers_bytes X -> good_state X (mrun X ops).
Proof.
  intros F B. unfold mrun. assert (G0 : good_state X {| ms_hist := []; ms_handles := [] |}).
  { exists []. split; [constructor|]. split; [constructor|]. intros hd o k []. }
  revert G0. generalize {| ms_hist := []; ms_handles := [] |}. induction ops as [|o ops IH]; intros s G; cbn [fold_left]; [exact G|].
  apply IH. destruct (mstep_does X s o F B G) as (_ & _ & _ & G' & _). exact G'.
Qed.
