(** C149: the development program on Windows. *)
From Verif Require Import Base M_Buffer M_TcgDevice M_DriveHandle M_Strings M_WinPass M_WinNvme M_WinInfo M_WinFactory M_WinEnum M_DevelopWin
  Spec_LinuxVolume Spec_Sg Spec_WinPass Spec_WinNvme Spec_WinInfo Spec_WinEnum P_WinEnum Prop_WinEnum Spec_Inspect Spec_InspectWin P_InspectWin Prop_Inspect.

Definition drive1 : bytes := str "\\.\PhysicalDrive1".
(** IOCTL_VOLUME_GET_VOLUME_DISK_EXTENTS and IOCTL_DISK_GET_PARTITION_INFO_EX: questions to Windows about a volume. *)
Definition volume_questions : list N := [0x560000; 0x70048].

(** A numbered listing: as many lines as things, the i-th about the i-th. *)
Definition listing {A} (show : nat -> A -> wshown) (l : list A) (out : list wshown) : Prop :=
  List.length out = List.length l /\ forall i a, nth_error l i = Some a -> nth_error out i = Some (show i a).
Lemma wnumbered_listing A (show : nat -> A -> wshown) l : listing show l (wnumbered show l).
Proof.
  unfold listing, wnumbered. split; [rewrite map_length, combine_length, seq_length; apply Nat.min_id|].
  intros i y Hy. rewrite nth_error_map.
  assert (C : forall (l : list A) a i y, nth_error l i = Some y -> nth_error (combine (seq a (List.length l)) l) i = Some ((a + i)%nat, y)).
  { clear. induction l as [|z l IH]; intros a i y Hy; [destruct i; discriminate|]. destruct i as [|i]; cbn [nth_error List.length seq combine] in *.
    - injection Hy as ->. now rewrite Nat.add_0_r.
    - rewrite (IH (S a) i y Hy). f_equal. f_equal. lia. }
  rewrite (C l 0%nat i y Hy). reflexivity.
Qed.

(** Every run.  The program gets to its end unless one of its three calls panics ([Fuel]: an enumeration longer than the bound, or a read
    outside the modelled memory); an error of a call is printed and the run goes on.  In particular it needs no particular drive. *)
Theorem C149_whole_run : forall X fuel h h' out fin, develop_windows X fuel h = (h', (out, fin)) ->
  exists h1 r1, x_open_by_path X h drive1 = (h1, r1) /\
  match r1 with
  | Panic | Fuel => h' = h1 /\ out = [] /\ fin = false
  | _ =>
    exists o1 h2 r2, match r1 with Err e => o1 = [WsError e] | _ => o1 = [] end /\ win_enum_drives X fuel h1 = (h2, r2) /\
    match r2 with
    | Panic | Fuel => h' = h2 /\ out = o1 /\ fin = false
    | _ =>
      exists o2 h3 r3, match r2 with Ok xs => listing WsDrive xs o2 | Err e => o2 = [WsError e] | _ => False end /\ win_enum_volumes X fuel h2 = (h3, r3) /\
      h' = h3 /\
      match r3 with
      | Ok vs => fin = true /\ exists infos o3, Forall2 shows vs infos /\ listing WsVolume infos o3 /\ out = o1 ++ o2 ++ o3
      | Err e => fin = true /\ out = o1 ++ o2 ++ [WsError e]
      | Panic | Fuel => fin = false /\ out = o1 ++ o2
      end
    end
  end.
Proof.
  intros X fuel h h' out fin H. unfold develop_windows in H. fold drive1 in H.
  destruct (x_open_by_path X h drive1) as (h1, r1). exists h1, r1. split; [reflexivity|].
  assert (K : forall o1, wstage r1 (fun _ => []) = Some o1 -> match r1 with Err e => o1 = [WsError e] | _ => o1 = [] end).
  { intros o1. destruct r1; cbn; try discriminate; now intros [= <-]. }
  destruct (wstage r1 (fun _ => [])) as [o1|] eqn:S1.
  2:{ destruct r1; try discriminate S1; injection H as <- <- <-; auto. }
  specialize (K o1 eq_refl).
  destruct (win_enum_drives X fuel h1) as (h2, r2).
  assert (G : exists h2' r2', (h2, r2) = (h2', r2') /\
    match r2' with
    | Panic | Fuel => h' = h2' /\ out = o1 /\ fin = false
    | _ =>
      exists o2 h3 r3, match r2' with Ok xs => listing WsDrive xs o2 | Err e => o2 = [WsError e] | _ => False end /\ win_enum_volumes X fuel h2' = (h3, r3) /\
      h' = h3 /\
      match r3 with
      | Ok vs => fin = true /\ exists infos o3, Forall2 shows vs infos /\ listing WsVolume infos o3 /\ out = o1 ++ o2 ++ o3
      | Err e => fin = true /\ out = o1 ++ o2 ++ [WsError e]
      | Panic | Fuel => fin = false /\ out = o1 ++ o2
      end
    end).
  { exists h2, r2. split; [reflexivity|].
    assert (K2 : forall o2, wstage r2 (wnumbered WsDrive) = Some o2 -> match r2 with Ok xs => listing WsDrive xs o2 | Err e => o2 = [WsError e] | _ => False end).
    { intros o2. destruct r2; cbn [wstage]; try discriminate; intros [= <-]; [apply wnumbered_listing|reflexivity]. }
    destruct (wstage r2 (wnumbered WsDrive)) as [o2|] eqn:S2.
    2:{ destruct r2; try discriminate S2; injection H as <- <- <-; auto. }
    specialize (K2 o2 eq_refl). destruct (win_enum_volumes X fuel h2) as (h3, r3).
    assert (D : h' = h3 /\ match r3 with
      | Ok vs => fin = true /\ exists infos o3, Forall2 shows vs infos /\ listing WsVolume infos o3 /\ out = o1 ++ o2 ++ o3
      | Err e => fin = true /\ out = o1 ++ o2 ++ [WsError e]
      | Panic | Fuel => fin = false /\ out = o1 ++ o2
      end).
    { destruct r3 as [vs|e| |]; cbn [wstage] in H; injection H as <- <- <-; split; auto. split; [reflexivity|].
      exists (win_get_list vs), (wnumbered WsVolume (win_get_list vs)). split; [|split; [apply wnumbered_listing|reflexivity]].
      unfold win_get_list. clear. induction vs; constructor; [repeat split|assumption]. }
    destruct r2; try contradiction; exists o2, h3, r3; auto. }
  destruct G as (h2' & r2' & E & G). injection E as <- <-. destruct r1; try discriminate S1; exists o1, h2, r2; auto.
Qed.
Print Assumptions C149_whole_run.

(** When it crashes, why: the drive, a device of the listing or a volume makes one of the calls panic. *)
Theorem C149_crashes : forall X fuel h h' out, sane X -> develop_windows X fuel h = (h', (out, false)) ->
  x_open_by_path X h drive1 = (h', Panic)
  \/ (exists g d n h1 b1 xs h2, x_class X (g ++ [XClassDevs]) = inr d /\ devices X d 0 (g ++ [XClassDevs]) (zeros 1024) n h1 b1 xs /\ enum_panics X d n h1 b1 h2
        /\ h' = h2 ++ closings xs ++ [XDestroy d])
  \/ (exists g f us name h3 hs prev, x_first X (g ++ [XErrorMode 1; XFindFirst]) = inr (f, us) /\ name_buffer us name
        /\ volumes_panic X f (g ++ [XErrorMode 1; XFindFirst]) name (zeros 128) (zeros page) h3 hs /\ h' = h3 ++ volume_closings hs ++ [XFindClose f; XErrorMode prev])
  \/ (exists g, x_open_by_path X g drive1 = (h', Fuel) \/ win_enum_drives X fuel g = (h', Fuel) \/ win_enum_volumes X fuel g = (h', Fuel)).
Proof.
  intros X fuel h h' out Sa H. destruct (C149_whole_run _ _ _ _ _ _ H) as (h1 & r1 & E1 & C).
  assert (F : forall r2 h2, win_enum_drives X fuel h1 = (h2, r2) -> r2 = Panic -> exists g d n h1 b1 xs h2', x_class X (g ++ [XClassDevs]) = inr d
     /\ devices X d 0 (g ++ [XClassDevs]) (zeros 1024) n h1 b1 xs /\ enum_panics X d n h1 b1 h2' /\ h2 = h2' ++ closings xs ++ [XDestroy d]).
  { intros r2 h2 E2 ->. pose proof (C109_enum_drives _ _ _ _ _ Sa E2 ltac:(discriminate)) as P. cbv zeta in P.
    destruct (x_class X (h1 ++ [XClassDevs])) as [e|d] eqn:Ed; [destruct P; discriminate|].
    destruct P as (n & k1 & b1 & xs & k2 & D & -> & [(_ & P)|(P & _)]); [discriminate|]. exists h1, d, n, k1, b1, xs, k2. auto. }
  assert (V : forall g r3, win_enum_volumes X fuel g = (h', r3) -> r3 = Panic -> exists g f us name h3 hs prev, x_first X (g ++ [XErrorMode 1; XFindFirst]) = inr (f, us) /\ name_buffer us name
        /\ volumes_panic X f (g ++ [XErrorMode 1; XFindFirst]) name (zeros 128) (zeros page) h3 hs /\ h' = h3 ++ volume_closings hs ++ [XFindClose f; XErrorMode prev]).
  { intros g r3 E3 ->. pose proof (C111_enum_volumes _ _ _ _ _ Sa E3 ltac:(discriminate)) as P. cbv zeta in P. rewrite <- app_assoc in P. cbn [app] in P.
    destruct (x_first X (g ++ [XErrorMode 1; XFindFirst])) as [e|[f us]] eqn:Ef; [destruct P; discriminate|].
    destruct P as (name & k3 & hs & Nb & -> & [(its & _ & P)|(P & _)]); [discriminate|]. exists g, f, us, name, k3, hs, (x_mode X (g ++ [XErrorMode 1])). auto. }
  assert (Z : forall h2 r2, win_enum_drives X fuel h1 = (h2, r2) ->
    forall o1 : list wshown, match r2 with
    | Panic | Fuel => h' = h2 /\ out = o1 /\ false = false
    | _ =>
      exists o2 h3 r3, match r2 with Ok xs => listing WsDrive xs o2 | Err e => o2 = [WsError e] | _ => False end /\ win_enum_volumes X fuel h2 = (h3, r3) /\
      h' = h3 /\
      match r3 with
      | Ok vs => false = true /\ exists infos o3, Forall2 shows vs infos /\ listing WsVolume infos o3 /\ out = o1 ++ o2 ++ o3
      | Err e => false = true /\ out = o1 ++ o2 ++ [WsError e]
      | Panic | Fuel => false = false /\ out = o1 ++ o2
      end
    end -> (exists g d n h1 b1 xs h2, x_class X (g ++ [XClassDevs]) = inr d /\ devices X d 0 (g ++ [XClassDevs]) (zeros 1024) n h1 b1 xs /\ enum_panics X d n h1 b1 h2
        /\ h' = h2 ++ closings xs ++ [XDestroy d])
  \/ (exists g f us name h3 hs prev, x_first X (g ++ [XErrorMode 1; XFindFirst]) = inr (f, us) /\ name_buffer us name
        /\ volumes_panic X f (g ++ [XErrorMode 1; XFindFirst]) name (zeros 128) (zeros page) h3 hs /\ h' = h3 ++ volume_closings hs ++ [XFindClose f; XErrorMode prev])
  \/ (exists g, x_open_by_path X g drive1 = (h', Fuel) \/ win_enum_drives X fuel g = (h', Fuel) \/ win_enum_volumes X fuel g = (h', Fuel))).
  { intros h2 r2 E2 o1 Q.
    assert (W : forall h3 r3, win_enum_volumes X fuel h2 = (h3, r3) -> h' = h3 -> r3 = Panic \/ r3 = Fuel -> (exists g f us name h3 hs prev, x_first X (g ++ [XErrorMode 1; XFindFirst]) = inr (f, us) /\ name_buffer us name
        /\ volumes_panic X f (g ++ [XErrorMode 1; XFindFirst]) name (zeros 128) (zeros page) h3 hs /\ h' = h3 ++ volume_closings hs ++ [XFindClose f; XErrorMode prev])
       \/ (exists g, x_open_by_path X g drive1 = (h', Fuel) \/ win_enum_drives X fuel g = (h', Fuel) \/ win_enum_volumes X fuel g = (h', Fuel))).
    { intros h3 r3 E3 <- [R|R]; [left; exact (V _ _ E3 R)|right; exists h2; subst r3; auto]. }
    destruct r2 as [xs|e| |].
    - destruct Q as (o2 & h3 & r3 & _ & E3 & Eh & Q). right. destruct r3; try (destruct Q; discriminate); eapply W; eauto.
    - destruct Q as (o2 & h3 & r3 & _ & E3 & Eh & Q). right. destruct r3; try (destruct Q; discriminate); eapply W; eauto.
    - left. destruct Q as (-> & _). exact (F _ _ E2 eq_refl).
    - right; right. destruct Q as (-> & _). exists h1. auto. }
  destruct r1 as [x|e| |].
  - destruct C as (o1 & h2 & r2 & _ & E2 & C). right. exact (Z _ _ E2 o1 C).
  - destruct C as (o1 & h2 & r2 & _ & E2 & C). right. exact (Z _ _ E2 o1 C).
  - destruct C as (-> & _). auto.
  - destruct C as (-> & _). right; right; right. exists h. auto.
Qed.
Print Assumptions C149_crashes.

(** Every request it makes to a device reads or asks. *)
Definition harmless (c : wcall) : Prop := win_reads c \/ In (wc_code c) volume_questions.
Definition vquiet (e : xev) : Prop := match e with XSys (WIo c) => harmless c | _ => True end.
Definition vadds (h h' : xhist) : Prop := exists es, h' = h ++ es /\ Forall vquiet es.
Lemma vadds_refl h : vadds h h.
Proof. exists []. now rewrite app_nil_r. Qed.
Lemma vadds_trans h1 h2 h3 : vadds h1 h2 -> vadds h2 h3 -> vadds h1 h3.
Proof. intros (a & -> & A) (b & -> & B). exists (a ++ b). rewrite app_assoc. split; [reflexivity|]. apply Forall_app. auto. Qed.
Lemma vadds_one h e : vquiet e -> vadds h (h ++ [e]).
Proof. intros H. exists [e]. auto. Qed.
Lemma xadds_vadds h h' : xadds h h' -> vadds h h'.
Proof.
  intros (es & E & F). exists es. split; [exact E|]. eapply Forall_impl; [|exact F]. intros e Q. destruct e as [w| | | | | | | | | | | | |]; try exact I.
  destruct w as [c|p|q]; try exact I. left. exact Q.
Qed.
Lemma item_vadds X h name b : vadds h (fst (volume_item X h name b)).
Proof.
  unfold volume_item. cbv zeta. set (v := firstn (wlen name) name).
  pose proof (vadds_one h (XPathNames v) I) as O1. set (h1 := h ++ [XPathNames v]) in *.
  destruct (match x_names X h1 with Some (us, len) => _ | None => _ end) as [ms| | |]; try exact O1.
  pose proof (vadds_trans _ _ _ O1 (vadds_one h1 (XVolumeInfo v) I)) as O2. set (h2 := h1 ++ [XVolumeInfo v]) in *.
  pose proof (vadds_trans _ _ _ O2 (vadds_one h2 (XDriveType v) I)) as O3. set (h3 := h2 ++ [XDriveType v]) in *.
  pose proof (vadds_trans _ _ _ O3 (vadds_one h3 (XVolumeOpen (strip_backslashes v)) I)) as O4. set (h4 := h3 ++ [XVolumeOpen (strip_backslashes v)]) in *.
  destruct (x_vopen X h4) as [e|hd]; [exact O4|].
  set (c := {| wc_handle := hd; wc_code := 0x560000; wc_in := []; wc_outlen := 4096; wc_target := TNone; wc_mem := [] |}).
  assert (Qc : vquiet (XSys (WIo c))) by (right; now left).
  pose proof (vadds_trans _ _ _ O4 (vadds_one h4 (XSys (WIo c)) Qc)) as O5. set (h5 := h4 ++ [XSys (WIo c)]) in *.
  destruct (wa_err (x_io X h5) =? 0); [|exact O5]. destruct (extents_loop _ _ _) as [es| | |]; try exact O5.
  destruct es as [|e es]; [exact O5|]. unfold partition_info. cbv zeta.
  set (c2 := {| wc_handle := hd; wc_code := 0x70048; wc_in := []; wc_outlen := 144; wc_target := TNone; wc_mem := [] |}).
  assert (Qc2 : vquiet (XSys (WIo c2))) by (right; right; now left).
  destruct (wa_err (x_io X (h5 ++ [XSys (WIo c2)])) =? 0); exact (vadds_trans _ _ _ O5 (vadds_one h5 _ Qc2)).
Qed.
Lemma loop_vadds X fuel : forall h f name b vs hs, vadds h (fst (volume_loop X fuel h f name b vs hs)).
Proof.
  induction fuel as [|fu IH]; intros h f name b vs hs; cbn [volume_loop]; [apply vadds_refl|].
  pose proof (item_vadds X h name b) as P. destruct (volume_item X h name b) as [h1 [o r]]. cbn [fst] in P. cbv zeta.
  destruct r as [[v b1]| | |]; try exact P. pose proof (vadds_trans _ _ _ P (vadds_one h1 (XFindNext f) I)) as W.
  destruct (x_next X (h1 ++ [XFindNext f])); [exact W|]. exact (vadds_trans _ _ _ W (IH _ _ _ _ _ _)).
Qed.
Lemma volumes_vadds X fuel h : vadds h (fst (win_enum_volumes X fuel h)).
Proof.
  unfold win_enum_volumes. cbv zeta. set (m := x_mode X (h ++ [XErrorMode 1])).
  pose proof (vadds_trans _ _ _ (vadds_one h (XErrorMode 1) I) (vadds_one (h ++ [XErrorMode 1]) XFindFirst I)) as O.
  set (h2 := (h ++ [XErrorMode 1]) ++ [XFindFirst]) in *. destruct (x_first X h2) as [e|[f us]]; [exact (vadds_trans _ _ _ O (vadds_one h2 (XErrorMode m) I))|].
  set (bb := {| vb_fs := zeros 128; vb_data := zeros page |}). clearbody bb.
  pose proof (loop_vadds X fuel h2 f (fill (zeros 320) us) bb [] []) as P. destruct (volume_loop X fuel h2 f (fill (zeros 320) us) bb [] []) as [h3 [hs r]]. cbn [fst] in P.
  pose proof (vadds_trans _ _ _ O P) as W.
  assert (Z : vadds h (h3 ++ map (fun x => XSys (WClose x)) (rev hs) ++ [XFindClose f; XErrorMode m])).
  { apply (vadds_trans _ _ _ W). eexists. split; [reflexivity|]. apply Forall_app. split; [|repeat constructor].
    apply Forall_map, Forall_forall. intros x _. exact I. }
  destruct r; try exact Z; exact W.
Qed.
Theorem C149_only_asks : forall X fuel h, (forall k, x_data X k < 2 ^ 64 /\ x_bounce X k < 2 ^ 64) ->
  exists es, fst (develop_windows X fuel h) = h ++ es /\ forall c, In (XSys (WIo c)) es -> win_reads c \/ In (wc_code c) volume_questions.
Proof.
  intros X fuel h HA.
  assert (E : vadds h (fst (develop_windows X fuel h))).
  { unfold develop_windows. fold drive1. pose proof (xadds_vadds _ _ (x_open_adds X h drive1 HA)) as P1. destruct (x_open_by_path X h drive1) as (h1, r1). cbn [fst] in P1.
    destruct (wstage r1 (fun _ => [])) as [o1|]; [|exact P1].
    assert (P2 : vadds h1 (fst (win_enum_drives X fuel h1))).
    { destruct (C143_enum_drives X fuel h1 HA) as (es & Ee & F). exists es. split; [exact Ee|]. apply Forall_forall. intros e I. destruct e as [w| | | | | | | | | | | | |]; try exact Logic.I.
      destruct w as [c|p|q]; try exact Logic.I. left. now apply F. }
    destruct (win_enum_drives X fuel h1) as (h2, r2). cbn [fst] in P2. pose proof (vadds_trans _ _ _ P1 P2) as W2. destruct (wstage r2 (wnumbered WsDrive)) as [o2|]; [|exact W2].
    pose proof (volumes_vadds X fuel h2) as P3. destruct (win_enum_volumes X fuel h2) as (h3, r3). cbn [fst] in P3. pose proof (vadds_trans _ _ _ W2 P3) as W3.
    destruct (wstage r3 _); exact W3. }
  destruct E as (es & -> & F). exists es. split; [reflexivity|]. rewrite Forall_forall in F. intros c I. exact (F _ I).
Qed.
Print Assumptions C149_only_asks.
