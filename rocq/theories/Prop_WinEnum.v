(** Property theorems C109-C116: enumerating drives and volumes on Windows.  [X] is an arbitrary system: each answer is any function of
    the whole history.  [fuel] bounds the number of devices (volumes) looked at; results that ran out of it, or that depend on memory
    outside the program's buffers, are [Fuel] and excluded; the [_complete] theorems show that fuel is no restriction. *)
From Verif Require Import Base M_TcgDevice M_DriveHandle M_SgDriver M_Strings M_LinuxFactory Spec_LinuxVolume M_WinPass M_WinNvme M_WinInfo M_WinFactory M_WinEnum
  Spec_Sg Spec_WinPass Spec_WinNvme Spec_WinInfo Spec_LinuxFactory Spec_WinFactory Spec_WinEnum
  P_Strings P_Discovery P_Sg P_WinNvme P_WinInfo P_WinFactory P_WinEnum Prop_WinPass Prop_WinNvme Prop_WinInfo Prop_WinFactory.

(** C109: EnumDrives.  It fails exactly if SetupDiGetClassDevsEx does.  Otherwise devices 0, 1, ... are looked at in order until there is
    none (or its interfaces cannot be enumerated), and the result is, in order, those that could be opened; a device without interface,
    path or that OpenByPath refuses is left out.  Whatever happens the opened drives are closed, last first, then the device list is
    destroyed. *)
Theorem C109_enum_drives : forall X fuel h h' r, sane X -> win_enum_drives X fuel h = (h', r) -> r <> Fuel ->
  let h0 := h ++ [XClassDevs] in
  match x_class X h0 with
  | inl e => r = Err e /\ h' = h0
  | inr d => exists n h1 b1 xs h2, devices X d 0 h0 (zeros 1024) n h1 b1 xs /\ h' = h2 ++ closings xs ++ [XDestroy d] /\
      ((no_more X d n h1 h2 /\ r = Ok xs) \/ (enum_panics X d n h1 b1 h2 /\ r = Panic))
  end.
Proof.
  intros X fuel h h' r Sa H NF h0. unfold win_enum_drives in H. fold h0 in H. destruct (x_class X h0) as [e|d]; [now injection H as <- <-|].
  destruct (enum_devices X fuel h0 d 0 (zeros 1024) []) as (h2, (xs, q)) eqn:E. rewrite close_all, <- app_assoc in H.
  assert (Nq : q <> Fuel) by (intros ->; injection H as _ <-; congruence).
  apply enum_sound in E; [|exact Sa|rewrite zeros_length; lia|exact Nq]. destruct E as (n & h1 & b1 & zs & Ds & -> & R). cbn [app] in H.
  exists n, h1, b1, zs, h2. split; [exact Ds|]. destruct R as [(R & ->)|(R & ->)]; injection H as <- <-; auto.
Qed.
Print Assumptions C109_enum_drives.
(** ... and when the devices come to an end, so does EnumDrives, with that result. *)
Theorem C109_enum_drives_complete : forall X h d n h1 b1 xs h2, sane X -> x_class X (h ++ [XClassDevs]) = inr d ->
  devices X d 0 (h ++ [XClassDevs]) (zeros 1024) n h1 b1 xs -> no_more X d n h1 h2 ->
  forall fuel, (n < fuel)%nat -> win_enum_drives X fuel h = (h2 ++ closings xs ++ [XDestroy d], Ok xs).
Proof.
  intros X h d n h1 b1 xs h2 Sa C D N fuel F. unfold win_enum_drives. rewrite C.
  destruct (enum_complete X d Sa _ _ _ _ _ _ _ D ltac:(rewrite zeros_length; lia) fuel [] ltac:(lia)) as (f' & F1 & _ & E).
  rewrite E, (enum_stops _ _ _ _ _ _ _ _ F1 N). cbn [app]. now rewrite close_all, <- app_assoc.
Qed.
Print Assumptions C109_enum_drives_complete.

(** ---- C110 ---- *)
Lemma devices_in X d i h buf n h1 b1 xs : devices X d i h buf n h1 b1 xs -> forall x, In x xs -> exists g g' p, x_open_by_path X g p = (g', Ok x).
Proof.
  induction 1 as [|i h buf g b o n h2 b2 zs D Ds IH]; intros x Hx; [destruct Hx|].
  destruct o as [y|]; [|now apply IH]. destruct Hx as [<-|Hx]; [|now apply IH].
  inversion D; subst. destruct r; try contradiction; try discriminate. match goal with E : Some _ = Some _ |- _ => injection E as -> end. eauto.
Qed.
Lemma sane_bytes X h : sane X -> answers_bytes (wsys_at X h).
Proof. intros (Sa & _) w. apply Sa. Qed.
(** The handle of a drive opened by path, and what closing it does. *)
Lemma opened_drive X g p g' x : sane X -> x_open_by_path X g p = (g', Ok x) ->
  i_path (p_info (f_dh x)) = p /\ exists hd, x_open X (g ++ [XSys (WOpen p)]) = inr hd /\
    closings [x] = match p_dh (f_dh x) with Some _ => [XSys (WClose hd)] | None => [] end.
Proof.
  intros Sa H. unfold x_open_by_path in H. destruct (win_open_by_path (wsys_at X g) (waddr_at X g) [] p) as (w, r) eqn:E. injection H as <- ->.
  pose proof (sane_bytes X g Sa) as WS. destruct (C105_open_by_path _ _ _ _ _ _ WS E) as [(_ & _ & e & ?)|(_ & O)]; [discriminate|].
  change (s_open (wsys_at X g) ([] ++ [WOpen p])) with (x_open X (g ++ [XSys (WOpen p)])) in O.
  destruct (x_open X (g ++ [XSys (WOpen p)])) as [e|hd]; [now destruct O as (_ & ?)|]. destruct O as (O & _).
  destruct (C104_open_by_handle _ _ _ _ _ _ _ WS O) as (g1 & disk & _ & Y).
  assert (D : i_path (p_info (f_dh x)) = p /\ (without_driver x \/ exists d g cs, wd_handle d = hd /\ driven x d g cs)).
  { destruct disk as [b| | |]; try contradiction; [|now destruct Y].
    destruct Y as [(before & k & after & g2 & d' & g3 & _ & _ & _ & _ & Eh & _ & [[? _]|(x' & cs & Ex & AB & Dr & _)])|(g2 & q & _ & _ & Y)]; try discriminate.
    - injection Ex as <-. split; [apply AB|]. right. eauto.
    - destruct q as [de|e| |]; try discriminate; destruct Y as (x' & Ex & AB & W & _); injection Ex as <-; (split; [apply AB|now left]). }
  destruct D as (Pa & D). split; [exact Pa|]. exists hd. split; [reflexivity|]. unfold closings. cbn [rev app flat_map].
  destruct D as [(W1 & W2 & _)|(d & g2 & cs & Eh & D1 & D2 & _)].
  - now rewrite W1, W2.
  - now rewrite D1, D2, Eh.
Qed.
Definition keeps_list (e : xev) : Prop := match e with XDestroy _ => False | _ => True end.
Lemma detail_grows X d j h buf e s h' b' : detail X d j h buf e s h' b' -> exists t, h' = h ++ t /\ Forall keeps_list t.
Proof. intros (-> & _). eexists. split; [reflexivity|]. repeat constructor. Qed.
Lemma asked_grows X d j h buf e s h' b' : asked X d j h buf e s h' b' -> exists t, h' = h ++ t /\ Forall keeps_list t.
Proof.
  intros A. inversion A; subst; [eapply detail_grows; eassumption|].
  match goal with D1 : detail _ _ _ _ buf _ _ _ _, D2 : detail _ _ _ _ (zeros _) _ _ _ _ |- _ => apply detail_grows in D1 as (t1 & -> & F1); apply detail_grows in D2 as (t2 & -> & F2) end.
  exists (t1 ++ t2). split; [now rewrite app_assoc|]. apply Forall_app. auto.
Qed.
Lemma open_grows X g p g' r : x_open_by_path X g p = (g', r) -> exists t, g' = g ++ t /\ Forall keeps_list t.
Proof.
  unfold x_open_by_path. destruct (win_open_by_path (wsys_at X g) (waddr_at X g) [] p) as (w, q). intros H. injection H as <- _. eexists. split; [reflexivity|].
  apply Forall_forall. intros e He. apply in_map_iff in He as (y & <- & _). exact I.
Qed.
Lemma device_grows X d i h buf h' b' o : device X d i h buf h' b' o -> exists t, h' = h ++ t /\ Forall keeps_list t.
Proof.
  intros D. assert (T : forall h2, (exists t, h2 = (h ++ [XDevInfo d i; XInterface d (N.of_nat i mod 2 ^ 32)]) ++ t /\ Forall keeps_list t) -> exists t, h2 = h ++ t /\ Forall keeps_list t).
  { intros h2 (t & -> & F). eexists. split; [rewrite <- app_assoc; reflexivity|]. apply Forall_app. split; [repeat constructor|exact F]. }
  inversion D; subst; apply T.
  - exists []. rewrite app_nil_r. auto.
  - eapply asked_grows. eassumption.
  - match goal with A : asked _ _ _ _ _ _ _ _ _, O : x_open_by_path _ _ _ = _ |- _ => apply asked_grows in A as (t1 & -> & F1); apply open_grows in O as (t2 & -> & F2) end.
    exists (t1 ++ t2). split; [now rewrite app_assoc|]. apply Forall_app. auto.
Qed.
Lemma devices_grow X d i h buf n h1 b1 xs : devices X d i h buf n h1 b1 xs -> exists t, h1 = h ++ t /\ Forall keeps_list t.
Proof.
  induction 1 as [|i h buf g b o n h2 b2 zs D Ds IH]; [exists []; rewrite app_nil_r; auto|].
  destruct IH as (t2 & -> & F2). apply device_grows in D as (t1 & -> & F1). exists (t1 ++ t2). split; [now rewrite app_assoc|]. apply Forall_app. auto.
Qed.
(** C110: EnumDrives keeps nothing it can close: each reported drive that has a driver is closed exactly once, by the handle its own path
    was opened with, last opened first; the device list is destroyed exactly once, after that; a panic changes nothing about it. *)
Theorem C110_enum_drives_closes : forall X fuel h h' r d, sane X -> win_enum_drives X fuel h = (h', r) -> r <> Fuel ->
  x_class X (h ++ [XClassDevs]) = inr d ->
  exists t xs, h' = h ++ t ++ closings xs ++ [XDestroy d] /\ (forall d', ~ In (XDestroy d') (t ++ closings xs)) /\ (r = Ok xs \/ r = Panic) /\
  (forall x, In x xs -> exists g hd, x_open X (g ++ [XSys (WOpen (i_path (p_info (f_dh x))))]) = inr hd /\
     closings [x] = match p_dh (f_dh x) with Some _ => [XSys (WClose hd)] | None => [] end) /\
  (forall a b, closings (a ++ b) = closings b ++ closings a).
Proof.
  intros X fuel h h' r d Sa H NF C. pose proof (C109_enum_drives X fuel h h' r Sa H NF) as T. cbv zeta in T. rewrite C in T.
  destruct T as (n & h1 & b1 & xs & h2 & Ds & -> & R).
  assert (G : exists t, h2 = (h ++ [XClassDevs]) ++ t /\ Forall keeps_list t).
  { destruct (devices_grow _ _ _ _ _ _ _ _ _ Ds) as (t1 & -> & F1).
    assert (G2 : exists t2, h2 = ((h ++ [XClassDevs]) ++ t1) ++ t2 /\ Forall keeps_list t2).
    { destruct R as [([(_ & ->)|(_ & -> & _)] & _)|((_ & _ & [(s & b & D & _)|(s & g & b & p & A & _ & O)]) & _)].
      - eexists. split; [reflexivity|]. repeat constructor.
      - eexists. split; [reflexivity|]. repeat constructor.
      - apply detail_grows in D as (t & -> & F). eexists. split; [rewrite <- app_assoc; reflexivity|]. apply Forall_app. split; [repeat constructor|exact F].
      - apply asked_grows in A as (t & -> & F). apply open_grows in O as (t' & -> & F'). exists ([XDevInfo d n; XInterface d (N.of_nat n mod 2 ^ 32)] ++ t ++ t').
        split; [now rewrite <- !app_assoc|]. apply Forall_app. split; [repeat constructor|]. apply Forall_app. auto. }
    destruct G2 as (t2 & -> & F2). exists (t1 ++ t2). split; [now rewrite <- !app_assoc|]. apply Forall_app. auto. }
  destruct G as (t & -> & F). exists ([XClassDevs] ++ t), xs. split; [now rewrite <- !app_assoc|]. split; [|split; [|split]].
  - intros d' Hi. apply in_app_iff in Hi as [Hi|Hi].
    + destruct Hi as [Hi|Hi]; [discriminate|]. rewrite Forall_forall in F. now apply F in Hi.
    + unfold closings in Hi. apply in_flat_map in Hi as (x & _ & Hi). destruct (f_drv x) as [((w & ?) & ?)|]; [|destruct Hi]. destruct Hi as [Hi|[]]. discriminate.
  - destruct R as [(_ & ->)|(_ & ->)]; auto.
  - intros x Hx. destruct (devices_in _ _ _ _ _ _ _ _ _ Ds x Hx) as (g & g' & p & O). destruct (opened_drive _ _ _ _ _ Sa O) as (<- & hd & O1 & O2). eauto.
  - intros a b. unfold closings. now rewrite rev_app_distr, flat_map_app.
Qed.
Print Assumptions C110_enum_drives_closes.
(** "Every handle EnumDrives opened is closed when it returns" is false: one disk that no driver accepts. *)
Definition one_disk : xsys := {|
  x_io := fun _ => {| wa_err := 5; wa_out := []; wa_mem := []; wa_ret := 0 |}; x_open := fun _ => inr 3; x_data := fun _ => 512; x_bounce := fun _ => 1024;
  x_class := fun _ => inr 1; x_devinfo := fun h => match last h XClassDevs with XDevInfo _ O => true | _ => false end; x_iface := fun _ => 0;
  x_detail := fun _ => (0, ([8; 0; 0; 0; 99; 0; 0; 0], 8)); x_mode := fun _ => 0; x_first := fun _ => inl (EMsg "none"); x_next := fun _ => inl (EMsg "none");
  x_names := fun _ => None; x_info := fun _ => None; x_type := fun _ => 0; x_vopen := fun _ => inl (EMsg "none"); x_text := fun us => us |}.
Lemma one_disk_sane : sane one_disk.
Proof. split; intros h; [constructor|reflexivity]. Qed.
Theorem C110_closed_refuted : ~ (forall X fuel h h' xs p hd, sane X -> win_enum_drives X fuel h = (h', Ok xs) ->
  (forall g, x_open X g = inr hd) -> In (XSys (WOpen p)) h' -> In (XSys (WClose hd)) h').
Proof.
  intros H.
  assert (B : let '(h', r) := win_enum_drives one_disk 3%nat [] in
    existsb (fun e => match e with XSys (WClose _) => true | _ => false end) h' = false /\
    existsb (fun e => match e with XSys (WOpen p) => beq p [99] | _ => false end) h' = true /\ match r with Ok _ => True | _ => False end).
  { vm_compute. auto. }
  specialize (H one_disk 3%nat []). destruct (win_enum_drives one_disk 3%nat []) as (h', r). destruct B as (B1 & B2 & B3). destruct r as [xs| | |]; try contradiction.
  apply existsb_exists in B2 as (e & He & Ee). destruct e as [[| |]| | | | | | | | | | | | |]; try discriminate. apply beq_iff in Ee. subst.
  specialize (H _ _ [99] 3 one_disk_sane eq_refl (fun _ => eq_refl) He).
  assert (existsb (fun e => match e with XSys (WClose _) => true | _ => false end) h' = true) by (apply existsb_exists; eexists; split; [exact H|reflexivity]). congruence.
Qed.
Print Assumptions C110_closed_refuted.

(** C111: EnumVolumes.  It fails exactly if FindFirstVolume does.  Otherwise every volume found is reported, in order, as [volume] says,
    until FindNextVolume fails, whatever the reason; then the handles are closed, last opened first, the search is closed and the error
    mode restored, also after a panic. *)
Theorem C111_enum_volumes : forall X fuel h h' r, sane X -> win_enum_volumes X fuel h = (h', r) -> r <> Fuel ->
  let h1 := h ++ [XErrorMode 1] in let prev := x_mode X h1 in let h2 := h1 ++ [XFindFirst] in
  match x_first X h2 with
  | inl e => r = Err e /\ h' = h2 ++ [XErrorMode prev]
  | inr (f, us) => exists name h3 hs, name_buffer us name /\ h' = h3 ++ volume_closings hs ++ [XFindClose f; XErrorMode prev] /\
      ((exists its, volumes X f h2 name (zeros 128) (zeros page) h3 hs its /\ r = Ok its) \/
       (volumes_panic X f h2 name (zeros 128) (zeros page) h3 hs /\ r = Panic))
  end.
Proof.
  intros X fuel h h' r Sa H NF h1 prev h2. unfold win_enum_volumes in H. fold h1 in H. fold prev in H. fold h2 in H.
  destruct (x_first X h2) as [e|(f, us)]; [now injection H as <- <-|].
  destruct (volume_loop X fuel h2 f (fill (zeros 320) us) {| vb_fs := zeros 128; vb_data := zeros page |} [] []) as (h3, (hs, q)) eqn:E.
  apply loop_sound in E; [|exact Sa|apply zeros_length]. cbn [vb_fs vb_data app] in E. exists (fill (zeros 320) us), h3, hs. split; [apply fill_delivered|].
  destruct q as [ws|e| |]; [|contradiction| |injection H as _ <-; congruence]; injection H as <- <-.
  - destruct E as (hs1 & its & V & -> & ->). split; [reflexivity|]. left. exists its. auto.
  - destruct E as (hs1 & V & ->). split; [reflexivity|]. right. auto.
Qed.
Print Assumptions C111_enum_volumes.
Theorem C111_enum_volumes_complete : forall X h f us name h3 hs its, sane X ->
  let h1 := h ++ [XErrorMode 1] in let h2 := h1 ++ [XFindFirst] in
  x_first X h2 = inr (f, us) -> name_buffer us name -> volumes X f h2 name (zeros 128) (zeros page) h3 hs its ->
  forall fuel, (List.length its <= fuel)%nat ->
  win_enum_volumes X fuel h = (h3 ++ volume_closings hs ++ [XFindClose f; XErrorMode (x_mode X h1)], Ok its).
Proof.
  intros X h f us name h3 hs its Sa h1 h2 E Nb V fuel F. unfold win_enum_volumes. fold h1. fold h2. rewrite E. apply delivered_fill in Nb. rewrite <- Nb.
  rewrite (loop_complete X f Sa _ _ _ _ _ _ _ V (zeros_length page) fuel [] [] F). reflexivity.
Qed.
Print Assumptions C111_enum_volumes_complete.

(** C112: what is reported about every volume. *)
Lemma volumes_in X f h name fs0 data0 h' hs its : volumes X f h name fs0 data0 h' hs its ->
  forall P : bytes -> Prop, P data0 -> (forall g o d, P d -> delivered d (wa_out (x_io X g)) o -> P o) ->
  forall it, In it its -> exists g name fs0 data0 g' gs fs1 data1, volume X g name fs0 data0 g' gs it fs1 data1 /\ P data0.
Proof.
  intros V P. induction V; intros P0 Pd it0 Hi.
  - destruct Hi as [<-|[]]. eauto 12.
  - destruct Hi as [<-|Hi]; [eauto 12|]. apply IHV; [|exact Pd|exact Hi].
    match goal with V : volume _ _ _ _ _ _ _ _ _ _ |- _ => destruct V as [(v & v1 & _ & _ & A)] end. cbv zeta in A. destruct A as (_ & _ & _ & _ & A).
    destruct (x_vopen X _); [now destruct A as (_ & _ & _ & _ & ->)|]. destruct A as (_ & A & _). eapply Pd; eassumption.
Qed.
Lemma le_val_bound b : wf b -> le_val b < 256 ^ N.of_nat (List.length b).
Proof.
  induction 1 as [|x b Hx _ IH]; [reflexivity|]. cbn [le_val List.length]. rewrite Nat2N.inj_succ, N.pow_succ_r by lia. unfold is_byte in Hx. revert IH.
  generalize (le_val b) (256 ^ N.of_nat (List.length b)). intros u w. lia.
Qed.
Lemma field4_bound off b : wf b -> field off 4 b < 2 ^ 32.
Proof.
  intros W. unfold field. assert (L : (List.length (slice off 4 b) <= 4)%nat) by (unfold slice; apply firstn_le_length).
  assert (B : le_val (slice off 4 b) < 256 ^ N.of_nat (List.length (slice off 4 b))). { apply le_val_bound. now apply wf_slice. }
  eapply N.lt_le_trans; [exact B|]. change (2 ^ 32) with (256 ^ 4). apply N.pow_le_mono_r; lia.
Qed.
Theorem C112_volume_facts : forall X fuel h h' its, sane X -> win_enum_volumes X fuel h = (h', Ok its) -> its <> [] /\ forall it, In it its ->
  (List.length (wv_mounts it) <= 1)%nat /\
  (exists v, wv_path it = x_text X v /\ forall r, v <> r ++ [92]) /\
  (List.length (wv_extents it) <= 170)%nat /\ Forall (fun e => ex_disk e < 2 ^ 32) (wv_extents it) /\
  (forall p, wv_part it = Some p -> exists e es, wv_extents it = e :: es /\ wp_disk p = ex_disk e /\ wp_start p = ex_start e /\ wp_size p = ex_size e) /\
  (forall p, wv_part it = Some p -> exists b, List.length b = 144%nat /\ partition_of (hd {| ex_disk := 0; ex_start := 0; ex_size := 0 |} (wv_extents it)) b p).
Proof.
  intros X fuel h h' its Sa H. pose proof (C111_enum_volumes _ _ _ _ _ Sa H ltac:(discriminate)) as T. cbv zeta in T.
  destruct (x_first X _) as [e|(f, us)]; [now destruct T|]. destruct T as (name & h3 & hs & _ & _ & [(its' & V & E)|(_ & ?)]); [|discriminate].
  injection E as <-. split; [inversion V; discriminate|]. intros it Hi.
  destruct (volumes_in _ _ _ _ _ _ _ _ _ V (fun d => wf d /\ List.length d = page)) with (it := it) as (g & nm & fs0 & data0 & g' & gs & fs1 & data1 & [(v & v1 & Zn & Us & A)] & W & L);
    [split; [apply wf_zeros|apply zeros_length]| |exact Hi|].
  { intros g o d (W & L) D. apply delivered_fill in D. subst o. split; [|now rewrite fill_length]. unfold fill. apply Forall_app. split; [apply wf_firstn, Sa|now apply wf_skipn]. }
  cbv zeta in A. destruct A as (A1 & A2 & _ & _ & A6). split.
  { destruct (x_names X _) as [(us', len)|]; [|rewrite A2; cbn; lia]. destruct A2 as (A21 & A22). destruct (N.eq_dec len 0) as [->|Y]; [rewrite A21 by reflexivity; cbn; lia|].
    destruct A22 as ((s & _ & [(_ & ->)|(_ & ->)]) & _); [lia|cbn; lia|cbn; lia]. }
  split. { exists v1. split; [exact A1|]. now destruct Us as (k & _ & Us). }
  destruct (x_vopen X _) as [e|hd].
  { destruct A6 as (_ & _ & -> & -> & _). cbn [List.length]. split; [lia|]. split; [constructor|]. split; discriminate. }
  destruct A6 as (_ & D & A7 & A8).
  assert (Wd : wf data1 /\ N.of_nat (List.length data1) = 4096).
  { apply delivered_fill in D. subst data1. split; [unfold fill; apply Forall_app; split; [apply wf_firstn, Sa|now apply wf_skipn]|]. rewrite fill_length, L. unfold page. lia. }
  destruct Wd as (Wd & Ld).
  match type of A7 with context [x_io X ?g5] => set (h5 := g5) in * end.
  destruct (N.eq_dec (wa_err (x_io X h5)) 0) as [E|E].
  2:{ destruct (A7 E) as (_ & -> & ->). cbn [List.length]. split; [lia|]. split; [constructor|]. split; discriminate. }
  destruct (A8 E) as ((X1 & X2) & P). split.
  { destruct (nth_error (wv_extents it) 170) as [e|] eqn:En; [apply X2 in En as (En & _); lia|]. apply nth_error_None in En. exact En. }
  split. { apply Forall_forall. intros e He. apply In_nth_error in He as (i & He). apply X2 in He as (_ & -> & _). now apply field4_bound. }
  destruct (wv_extents it) as [|e es]; [destruct P as (_ & ->); split; discriminate|]. destruct P as (-> & P1 & P2).
  destruct (N.eq_dec (wa_err (x_io X (h5 ++ [partition_query hd]))) 0) as [E2|E2]; [|rewrite P1 by exact E2; split; discriminate].
  destruct (P2 E2) as (b & p & Db & Ep & Pp). rewrite Ep. split; intros q Eq; injection Eq as <-.
  - exists e, es. split; [reflexivity|]. destruct Pp as (P3 & P4 & P5 & _). auto.
  - exists b. split; [destruct Db as (Db & _); rewrite Db; apply zeros_length|exact Pp].
Qed.
Print Assumptions C112_volume_facts.
(** "All mount points of a volume are reported" is false: of several only the first is, for every system. *)
Definition two_mounts : xsys := {|
  x_io := fun _ => {| wa_err := 5; wa_out := []; wa_mem := []; wa_ret := 0 |}; x_open := fun _ => inr 3; x_data := fun _ => 512; x_bounce := fun _ => 1024;
  x_class := fun _ => inr 1; x_devinfo := fun _ => false; x_iface := fun _ => 0;
  x_detail := fun _ => (0, ([], 8)); x_mode := fun _ => 0; x_first := fun _ => inr (7, [86; 92]); x_next := fun _ => inl (EMsg "none");
  x_names := fun _ => Some ([67; 58; 92; 0; 68; 58; 92; 0; 0], 9); x_info := fun _ => None; x_type := fun _ => 3; x_vopen := fun _ => inl (EMsg "none"); x_text := fun us => us |}.
Lemma two_mounts_sane : sane two_mounts.
Proof. split; intros h; [constructor|reflexivity]. Qed.
Theorem C112_all_mounts_refuted : ~ (forall X fuel h h' its len a b r, sane X -> win_enum_volumes X fuel h = (h', Ok its) ->
  (forall g, x_names X g = Some (a ++ 0 :: b ++ 0 :: r, len)) -> 0 < len -> ~ In 0 a -> ~ In 0 b -> a <> [] -> b <> [] ->
  forall it, In it its -> In (x_text X b) (wv_mounts it)).
Proof.
  intros H. specialize (H two_mounts 2%nat []).
  destruct (win_enum_volumes two_mounts 2%nat []) as (h', r) eqn:E.
  assert (R : exists it, r = Ok [it] /\ wv_mounts it = [[67; 58; 92]]). { vm_compute in E. injection E as <- <-. eexists. split; reflexivity. }
  destruct R as (it & -> & Em).
  specialize (H _ _ 9 [67; 58; 92] [68; 58; 92] [0] two_mounts_sane eq_refl (fun _ => eq_refl) ltac:(lia)).
  specialize (H ltac:(cbn; intuition discriminate) ltac:(cbn; intuition discriminate) ltac:(discriminate) ltac:(discriminate) it (or_introl eq_refl)).
  rewrite Em in H. cbn in H. intuition discriminate.
Qed.
Print Assumptions C112_all_mounts_refuted.

(** ---- C113 ---- *)
Lemma opened_app X t : forall h t', opened_along X h (t ++ t') = opened_along X h t ++ opened_along X (h ++ t) t'.
Proof.
  induction t as [|e t IH]; intros h t'; cbn [opened_along app]; [now rewrite app_nil_r|]. rewrite IH. rewrite <- app_assoc. cbn [app]. now rewrite <- app_assoc.
Qed.
Lemma closed_app t t' : closed_in (t ++ t') = closed_in t ++ closed_in t'.
Proof. apply flat_map_app. Qed.
Definition mode_kept (t : xhist) : Prop := Forall (fun e => match e with XErrorMode _ => False | XFindClose _ => False | _ => True end) t.
Definition segment (X : xsys) (h h' : xhist) (hs : list N) : Prop :=
  exists t, h' = h ++ t /\ opened_along X h t = hs /\ closed_in t = [] /\ mode_kept t.
Lemma segment_trans X a b c hs hs' : segment X a b hs -> segment X b c hs' -> segment X a c (hs ++ hs').
Proof.
  intros (t & -> & O & C & M) (t' & -> & O' & C' & M'). exists (t ++ t'). split; [now rewrite app_assoc|]. split; [rewrite opened_app; congruence|].
  split; [rewrite closed_app, C, C'; reflexivity|]. apply Forall_app. auto.
Qed.
Lemma segment_next X h f : segment X h (h ++ [XFindNext f]) [].
Proof. exists [XFindNext f]. repeat split. repeat constructor. Qed.
Lemma volume_segment X h name fs0 data0 h' hs it fs1 data1 : volume X h name fs0 data0 h' hs it fs1 data1 -> segment X h h' hs.
Proof.
  intros [(v & v1 & _ & _ & A)]. cbv zeta in A. destruct A as (_ & _ & _ & _ & A). rewrite <- !app_assoc in A. cbn [app] in A.
  set (t := [XPathNames v; XVolumeInfo v; XDriveType v; XVolumeOpen v1]) in *.
  assert (O : opened_along X h t = match x_vopen X (h ++ t) with inr hd => [hd] | inl _ => [] end).
  { unfold t. cbn [opened_along app]. rewrite <- !app_assoc. cbn [app]. now rewrite app_nil_r. }
  assert (Q : forall h', (exists t2, h' = (h ++ t) ++ t2 /\ closed_in t2 = [] /\ mode_kept t2 /\ opened_along X (h ++ t) t2 = []) ->
     segment X h h' (match x_vopen X (h ++ t) with inr hd => [hd] | inl _ => [] end)).
  { intros g (t2 & -> & C & M & O2). exists (t ++ t2). split; [now rewrite app_assoc|]. split; [rewrite opened_app, O, O2; apply app_nil_r|].
    split; [rewrite closed_app, C; reflexivity|]. apply Forall_app. split; [repeat constructor|exact M]. }
  destruct (x_vopen X (h ++ t)) as [e|hd].
  - destruct A as (-> & -> & _). apply Q. exists []. rewrite app_nil_r. repeat split. constructor.
  - destruct A as (-> & _ & A7 & A8).
    set (h5 := (h ++ t) ++ [extents_query hd]) in *.
    assert (C5 : h' = h5 \/ h' = h5 ++ [partition_query hd]).
    { destruct (N.eq_dec (wa_err (x_io X h5)) 0) as [E|E]; [|left; now apply A7]. destruct (A8 E) as (_ & A9). destruct (wv_extents it); [left|right]; apply A9. }
    apply Q. destruct C5 as [-> | ->].
    + exists [extents_query hd]. repeat split. repeat constructor.
    + exists [extents_query hd; partition_query hd]. split; [unfold h5; now rewrite <- app_assoc|]. repeat split. repeat constructor.
Qed.
Lemma panic_segment X h name data0 h' hs : volume_panics X h name data0 h' hs -> segment X h h' hs.
Proof.
  intros (v & v1 & _ & _ & A). cbv zeta in A. destruct A as [(us & len & _ & _ & _ & -> & ->)|(hd & d1 & O & -> & -> & _)].
  - exists [XPathNames v]. repeat split. repeat constructor.
  - exists [XPathNames v; XVolumeInfo v; XDriveType v; XVolumeOpen v1; extents_query hd]. split; [now rewrite <- !app_assoc|]. split.
    + rewrite <- !app_assoc in O. cbn [app] in O. cbn [opened_along app]. rewrite <- !app_assoc. cbn [app]. now rewrite O.
    + repeat split. repeat constructor.
Qed.
Lemma volumes_segment X f h name fs0 data0 h' hs its : volumes X f h name fs0 data0 h' hs its -> segment X h h' hs.
Proof.
  induction 1.
  - rewrite <- (app_nil_r hs). eapply segment_trans; [eapply volume_segment; eassumption|apply segment_next].
  - eapply segment_trans; [eapply volume_segment; eassumption|]. change hs2 with ([] ++ hs2). eapply segment_trans; [apply segment_next|exact IHvolumes].
Qed.
Lemma volumes_panic_segment X f h name fs0 data0 h' hs : volumes_panic X f h name fs0 data0 h' hs -> segment X h h' hs.
Proof.
  induction 1; [now eapply panic_segment; eassumption|].
  eapply segment_trans; [eapply volume_segment; eassumption|]. change hs2 with ([] ++ hs2). eapply segment_trans; [apply segment_next|exact IHvolumes_panic].
Qed.
Lemma closings_closed hs : closed_in (volume_closings hs) = rev hs.
Proof. unfold volume_closings. induction (rev hs) as [|x l IH]; [reflexivity|]. unfold closed_in in *. cbn [map flat_map app]. now rewrite IH. Qed.
Lemma closings_opened X hs : forall h, opened_along X h (volume_closings hs) = [].
Proof. unfold volume_closings. induction (rev hs) as [|x l IH]; intros h; [reflexivity|]. cbn. apply IH. Qed.
(** C113: whatever EnumVolumes returns (result, error or panic): the volume handles closed are exactly those it opened, each once, in
    reverse order; the error mode is changed exactly twice, and the last thing done is to put the previous one back. *)
Theorem C113_enum_volumes_closes : forall X fuel h h' r, sane X -> win_enum_volumes X fuel h = (h', r) -> r <> Fuel ->
  exists t, h' = h ++ [XErrorMode 1] ++ t ++ [XErrorMode (x_mode X (h ++ [XErrorMode 1]))] /\
  (forall m, ~ In (XErrorMode m) t) /\
  closed_in t = rev (opened_along X (h ++ [XErrorMode 1]) t) /\
  match x_first X (h ++ [XErrorMode 1] ++ [XFindFirst]) with
  | inl _ => t = [XFindFirst]
  | inr (f, _) => exists t1, t = XFindFirst :: t1 ++ [XFindClose f] /\ forall g, ~ In (XFindClose g) t1
  end.
Proof.
  intros X fuel h h' r Sa H NF. pose proof (C111_enum_volumes _ _ _ _ _ Sa H NF) as T. cbv zeta in T. rewrite <- (app_assoc h [XErrorMode 1] [XFindFirst]) in T.
  set (h1 := h ++ [XErrorMode 1]) in *.
  destruct (x_first X (h ++ [XErrorMode 1] ++ [XFindFirst])) as [e|(f, us)].
  { destruct T as (-> & ->). exists [XFindFirst]. split; [now rewrite <- !app_assoc|]. split; [intros m [Y|[]]; discriminate|]. split; reflexivity. }
  destruct T as (name & h3 & hs & _ & -> & V).
  assert (G : segment X (h1 ++ [XFindFirst]) h3 hs).
  { unfold h1. rewrite <- app_assoc. destruct V as [(its & V & _)|(V & _)]; [eapply volumes_segment|eapply volumes_panic_segment]; exact V. }
  destruct G as (t & -> & O & C & M). exists (XFindFirst :: (t ++ volume_closings hs) ++ [XFindClose f]). split; [unfold h1; rewrite <- !app_assoc; cbn [app]; rewrite <- !app_assoc; reflexivity|].
  assert (NC : forall e, In e (volume_closings hs) -> exists x, e = XSys (WClose x)).
  { intros e He. unfold volume_closings in He. apply in_map_iff in He as (x & <- & _). eauto. }
  unfold mode_kept in M. rewrite Forall_forall in M. split; [|split].
  - intros m Y. destruct Y as [Y|Y]; [discriminate|]. rewrite !in_app_iff in Y. destruct Y as [[Y|Y]|[Y|[]]]; [now apply M in Y|apply NC in Y as (x & Y); discriminate|discriminate].
  - change (XFindFirst :: (t ++ volume_closings hs) ++ [XFindClose f]) with ([XFindFirst] ++ (t ++ volume_closings hs) ++ [XFindClose f]).
    rewrite !closed_app, !opened_app, C, O, closings_closed, closings_opened. cbn [closed_in flat_map opened_along app]. now rewrite !app_nil_r.
  - exists (t ++ volume_closings hs). split; [reflexivity|]. intros g Y. rewrite in_app_iff in Y. destruct Y as [Y|Y]; [now apply M in Y|apply NC in Y as (x & Y); discriminate].
Qed.
Print Assumptions C113_enum_volumes_closes.

(** C114: GetList shows every volume and FindVolumesByDrive exactly those whose first extent lies on the drive's device number, in order. *)
Theorem C114_find_volumes : forall vs n, exists sel, picked (starts_on n) vs sel /\ Forall2 shows sel (win_find_volumes vs n) /\ Forall2 shows vs (win_get_list vs).
Proof.
  intros vs n. assert (Sh : forall l, Forall2 shows l (map to_wvolume_info l)). { induction l; constructor; [repeat split|assumption]. }
  exists (filter (fun v => match wv_extents v with [] => false | e :: _ => (Z.of_N (ex_disk e) =? n)%Z end) vs). split; [|split; apply Sh].
  induction vs as [|v vs IH]; [constructor|]. cbn [filter]. destruct (wv_extents v) as [|e es] eqn:E.
  - apply picked_no; [|exact IH]. intros (e & es & E' & _). congruence.
  - destruct (Z.eqb_spec (Z.of_N (ex_disk e)) n) as [Y|Y].
    + apply picked_yes; [|exact IH]. exists e, es. auto.
    + apply picked_no; [|exact IH]. intros (e' & es' & E' & Y'). rewrite E in E'. injection E' as <- <-. contradiction.
Qed.
Print Assumptions C114_find_volumes.
(** A drive whose device number Windows did not tell is credited with disk 0's volumes. *)
Theorem C114_unknown_number : forall S A h hd path h' x vs, answers_bytes S -> win_open_by_handle S A h hd path = (h', Ok x) ->
  wa_err (s_io S (h ++ [query hd 0x2d1080 [] 12])) <> 0 -> win_find_volumes vs (Z.of_N (f_devnum x)) = win_find_volumes vs 0.
Proof. intros S A h hd path h' x vs W H E. destruct (C108_device_number _ _ _ _ _ _ _ W H) as (_ & D). destruct (D E) as (-> & _). reflexivity. Qed.
Print Assumptions C114_unknown_number.
(** "A drive's volumes include every volume with an extent on it" is false for volumes spanning disks. *)
Theorem C114_spanned_refuted : ~ (forall vs n v e, In v vs -> In e (wv_extents v) -> Z.of_N (ex_disk e) = n -> exists i, In i (win_find_volumes vs n) /\ shows v i).
Proof.
  intros H. set (v := {| wv_path := []; wv_fs := []; wv_mounts := []; wv_extents := [{| ex_disk := 1; ex_start := 0; ex_size := 1 |}; {| ex_disk := 2; ex_start := 0; ex_size := 1 |}]; wv_part := None; wv_type := 0 |}).
  destruct (H [v] 2%Z v {| ex_disk := 2; ex_start := 0; ex_size := 1 |}) as (i & [] & _); [now left|right; now left|reflexivity].
Qed.
Print Assumptions C114_spanned_refuted.

(** ---- C115 ---- *)
Lemma decimal_snoc ds d : decimal (ds ++ [d]) = 10 * decimal ds + (d - 48).
Proof.
  induction ds as [|x ds IH]; cbn [decimal app List.length]; [rewrite N.pow_0_r; lia|]. rewrite IH, app_length, Nat2N.inj_add, N.pow_add_r.
  cbn [List.length]. change (10 ^ N.of_nat 1) with 10. generalize (10 ^ N.of_nat (List.length ds)) (x - 48) (decimal ds) (d - 48). intros a b c e. nia.
Qed.
Lemma dec_digits_ok fuel : forall n, n < 10 ^ N.of_nat (S fuel) ->
  let ds := dec_digits (S fuel) n in Forall (fun d => 48 <= d <= 57) ds /\ ds <> [] /\ decimal ds = n /\ (n <> 0 -> forall r, ds <> 48 :: r) /\ (n = 0 -> ds = [48]).
Proof.
  induction fuel as [|fuel IH]; intros n H ds.
  - assert (n < 10) by (change (10 ^ N.of_nat 1) with 10 in H; exact H). unfold ds. cbn [dec_digits]. destruct (N.ltb_spec n 10); [|lia].
    split; [repeat constructor; lia|]. split; [discriminate|]. split; [cbn [decimal List.length]; rewrite N.pow_0_r; lia|]. split.
    + intros Z r E. injection E as E _. lia.
    + intros ->. reflexivity.
  - unfold ds. change (dec_digits (S (S fuel)) n) with (if n <? 10 then [48 + n] else dec_digits (S fuel) (n / 10) ++ [48 + n mod 10]).
    pose proof (N.div_mod n 10 ltac:(lia)) as D. pose proof (N.mod_upper_bound n 10 ltac:(lia)) as U.
    destruct (N.ltb_spec n 10) as [L|L].
    + split; [repeat constructor; lia|]. split; [discriminate|]. split; [cbn [decimal List.length]; rewrite N.pow_0_r; lia|]. split.
      * intros Z r E. injection E as E _. lia.
      * intros ->. reflexivity.
    + assert (Q : n / 10 < 10 ^ N.of_nat (S fuel)).
      { apply N.div_lt_upper_bound; [lia|]. rewrite <- N.pow_succ_r by lia. now rewrite <- Nat2N.inj_succ. }
      assert (Z : n / 10 <> 0). { revert D U L. generalize (n / 10) (n mod 10). intros q r. lia. }
      destruct (IH (n / 10) Q) as (I1 & I2 & I3 & I4 & _). split; [apply Forall_app; split; [exact I1|repeat constructor; lia]|].
      split; [intros E; apply app_eq_nil in E as [_ E]; discriminate|]. split; [rewrite decimal_snoc, I3; lia|]. split; [|lia].
      intros _ r E. destruct (dec_digits (S fuel) (n / 10)) as [|x l]; [congruence|]. injection E as -> _. now apply (I4 Z l).
Qed.
Lemma physical_ok n : n < 2 ^ 32 -> device_of_disk n (physical_drive n).
Proof.
  intros H. destruct (dec_digits_ok 9 n) as (A & B & C & D & E). { eapply N.lt_trans; [exact H|]. reflexivity. }
  exists (dec_digits 10 n). split; [reflexivity|]. split; [|exact C]. split; [exact A|]. split; [exact B|]. intros r Er.
  destruct (N.eq_dec n 0) as [Z|Z]; [specialize (E Z); rewrite E in Er; now injection Er as <-|]. exfalso. now apply (D Z r).
Qed.
Lemma device_of_disk_unique n p q : device_of_disk n p -> device_of_disk n q -> p = q.
Proof. intros (a & -> & A & A') (b & -> & B & B'). f_equal. apply numeral_unique; congruence. Qed.
Lemma trim_ok s : without_slash s (trim_suffix 92 s).
Proof.
  unfold without_slash, trim_suffix. destruct (rev s) as [|x t] eqn:E.
  - right. split; [reflexivity|]. intros r Er. rewrite Er, rev_app_distr in E. discriminate.
  - assert (Es : s = rev t ++ [x]). { rewrite <- (rev_involutive s), E. reflexivity. } destruct (N.eqb_spec x 92) as [->|Z]; [now left|].
    right. split; [reflexivity|]. intros r Er. rewrite Es in Er. apply app_inj_tail in Er as [_ Er]. contradiction.
Qed.
Lemma without_fun s a b : without_slash s a -> without_slash s b -> a = b.
Proof.
  intros [Ha|(Ha & Na)] [Hb|(Hb & Nb)]; try congruence.
  rewrite Ha in Hb. now apply app_inj_tail in Hb as [Hb _].
Qed.
Lemma same_iff a b : same_volume a b <-> trim_suffix 92 a = trim_suffix 92 b.
Proof.
  split.
  - intros (t & A & B). rewrite (without_fun _ _ _ (trim_ok a) A), (without_fun _ _ _ (trim_ok b) B). reflexivity.
  - intros E. exists (trim_suffix 92 a). split; [apply trim_ok|]. rewrite E. apply trim_ok.
Qed.
(** C115: OpenDriveByVolumePath opens \\.\PhysicalDriveN, N being the disk of the first extent of the first volume of that path (up to a
    trailing backslash); without such a volume, or if it has no extents, nothing is opened and neither a drive nor an error returned. *)
Theorem C115_open_by_volume : forall S A h vs p h' r, Forall (fun v => Forall (fun e => ex_disk e < 2 ^ 32) (wv_extents v)) vs ->
  win_open_by_volume_path S A h vs p = (h', r) ->
  (h' = h /\ r = None /\ forall v, In v vs -> ~ same_volume (wv_path v) p) \/
  (exists before v after, vs = before ++ v :: after /\ (forall u, In u before -> ~ same_volume (wv_path u) p) /\ same_volume (wv_path v) p /\
     match wv_extents v with
     | [] => h' = h /\ r = None
     | e :: _ => exists path q, device_of_disk (ex_disk e) path /\ win_open_by_path S A h path = (h', q) /\ r = Some q
     end).
Proof.
  intros S A h vs p h' r W H. unfold win_open_by_volume_path in H. induction vs as [|v vs IH]; cbn [win_open_by_volume] in H.
  { injection H as <- <-. left. auto. }
  inversion W as [|? ? Wv Ws]; subst. destruct (beq (trim_suffix 92 (wv_path v)) (trim_suffix 92 p)) eqn:E.
  - apply beq_iff, same_iff in E. right. exists [], v, vs. split; [reflexivity|]. split; [intros u []|]. split; [exact E|].
    destruct (wv_extents v) as [|e es]; [now injection H as <- <-|]. inversion Wv; subst. destruct (win_open_by_path S A h (physical_drive (ex_disk e))) as (h1, q) eqn:O.
    injection H as <- <-. exists (physical_drive (ex_disk e)), q. split; [now apply physical_ok|auto].
  - apply beq_false in E. assert (Nv : ~ same_volume (wv_path v) p) by (rewrite same_iff; exact E). destruct (IH Ws H) as [(-> & -> & F)|(before & u & after & -> & F & X)].
    + left. split; [reflexivity|]. split; [reflexivity|]. intros u [<-|Hu]; auto.
    + right. exists (v :: before), u, after. split; [reflexivity|]. split; [intros w [<-|Hw]; auto|exact X].
Qed.
Print Assumptions C115_open_by_volume.
(** OpenDriveByPartition opens the drive the partition says it is on (for a drive of unknown number that is disk 4294967295, see C108). *)
Theorem C115_open_by_partition : forall S A h p, wp_disk p < 2 ^ 32 -> exists path, device_of_disk (wp_disk p) path /\
  win_open_by_partition S A h (Some p) = win_open_by_path S A h path.
Proof. intros S A h p B. exists (physical_drive (wp_disk p)). split; [now apply physical_ok|reflexivity]. Qed.
Print Assumptions C115_open_by_partition.
(** ... different disks have different paths. *)
Theorem C115_paths_injective : forall n m p, device_of_disk n p -> device_of_disk m p -> n = m.
Proof. intros n m p (a & -> & _ & A) (b & E & _ & B). apply app_inv_head in E. congruence. Qed.
Print Assumptions C115_paths_injective.
(** Composition: a path EnumVolumes reported leads to the disk its first extent is on, with or without trailing backslash. *)
Theorem C115_round_trip : forall X fuel h0 h0' its S A h it e es h' r, sane X -> win_enum_volumes X fuel h0 = (h0', Ok its) ->
  NoDup (map (fun v => trim_suffix 92 (wv_path v)) its) -> In it its -> wv_extents it = e :: es ->
  forall p, same_volume (wv_path it) p -> win_open_by_volume_path S A h its p = (h', r) ->
  exists path q, device_of_disk (ex_disk e) path /\ win_open_by_path S A h path = (h', q) /\ r = Some q.
Proof.
  intros X fuel h0 h0' its S A h it e es h' r Sa H Nd Hi Ee p Sp O. destruct (C112_volume_facts _ _ _ _ _ Sa H) as (_ & F).
  assert (W : Forall (fun v => Forall (fun e => ex_disk e < 2 ^ 32) (wv_extents v)) its). { apply Forall_forall. intros v Hv. now apply F in Hv. }
  destruct (C115_open_by_volume _ _ _ _ _ _ _ W O) as [(_ & _ & N)|(before & v & after & -> & _ & Sv & R)]; [exfalso; eapply N; eassumption|].
  assert (v = it).
  { apply same_iff in Sp, Sv. rewrite map_app in Nd. cbn [map] in Nd. apply NoDup_remove_2 in Nd. apply in_app_iff in Hi as [Hi|[Hi|Hi]]; [| exact Hi|];
      exfalso; apply Nd; apply in_app_iff; [left|right]; rewrite Sv, <- Sp; now apply (in_map (fun v => trim_suffix 92 (wv_path v))). }
  subst v. now rewrite Ee in R.
Qed.
Print Assumptions C115_round_trip.

(** ---- C116 ---- *)
(** C116: what a partition says about itself agrees: it is GPT (2) with exactly the GPT information, MBR (1) with exactly the MBR
    information, or raw (0) with neither.  For the partitions of an opened drive the style is the drive's. *)
Definition coherent (p : wpart) : Prop :=
  (get_style p = 2 <-> get_gpt_info p <> None) /\ (get_style p = 1 <-> get_mbr_info p <> None) /\ (get_style p <= 2) /\
  get_gpt_info p = wp_gpt p /\ get_mbr_info p = wp_mbr p /\ get_start p = wp_start p /\ get_size p = wp_size p.
Ltac coh := repeat match goal with |- _ /\ _ => split | |- _ <-> _ => split; intro end; try lia; try reflexivity; try congruence; try discriminate.
Lemma coherent_volume e b p : partition_of e b p -> coherent p.
Proof.
  intros (_ & _ & _ & E & G & M & R). unfold coherent, get_style, get_gpt_info, get_mbr_info. rewrite E. change (entry_style b) with (field 0 4 b).
  destruct (N.eq_dec (field 0 4 b) 1) as [Y|Y].
  - destruct (G Y) as (-> & t & i & -> & _). rewrite Y. change (1 =? 1) with true; change (1 =? 0) with false; change (0 =? 0) with true; change (0 =? 1) with false; cbv iota. coh.
  - destruct (N.eq_dec (field 0 4 b) 0) as [Z|Z].
    + destruct (M Z) as (-> & bo & -> & _). rewrite Z. change (1 =? 1) with true; change (1 =? 0) with false; change (0 =? 0) with true; change (0 =? 1) with false; cbv iota. coh.
    + destruct (R Z Y) as (-> & ->). apply N.eqb_neq in Y, Z. rewrite Y, Z. coh.
Qed.
Theorem C116_volume_partition : forall X fuel h h' its it p, sane X -> win_enum_volumes X fuel h = (h', Ok its) -> In it its -> wv_part it = Some p -> coherent p.
Proof. intros X fuel h h' its it p Sa H Hi Hp. destruct (C112_volume_facts _ _ _ _ _ Sa H) as (_ & F). apply F in Hi as (_ & _ & _ & _ & _ & Q). destruct (Q p Hp) as (b & _ & P). eapply coherent_volume; eassumption. Qed.
Print Assumptions C116_volume_partition.
Theorem C116_drive_partition : forall S A h hd path h' x p, answers_bytes S -> win_open_by_handle S A h hd path = (h', Ok x) -> In p (f_parts x) ->
  coherent p /\ get_style p = f_style x.
Proof.
  intros S A h hd path h' x p WS H Hp. destruct (C104_open_by_handle _ _ _ _ _ _ _ WS H) as (g1 & disk & B & X).
  assert (Y : exists b, disk = Ok b /\ about_disk x path b).
  { destruct disk as [b| | |]; try contradiction; [|now destruct X]. exists b. split; [reflexivity|].
    destruct X as [(before & k & after & g2 & d' & g3 & _ & _ & _ & _ & _ & _ & [[? _]|(x' & cs & Ex & AB & _)])|(g2 & q & _ & _ & X)]; try discriminate.
    - now injection Ex as <-.
    - destruct q; try discriminate; destruct X as (x' & Ex & AB & _); now injection Ex as <-. }
  destruct Y as (b & -> & (_ & As & _ & _ & Ap & _)). rewrite As. rewrite Ap in Hp.
  destruct (C101_basic_info S h hd _ _ WS B) as (f & _ & F). cbv zeta in F.
  destruct f as [(buf, data)|e| |]; [|destruct F as (b' & E & _ & (_ & _ & _ & N)); injection E as <-; rewrite N in Hp; destruct Hp|discriminate|discriminate].
  destruct F as [(_ & ?)|(Un & b' & E & _ & T1 & T2 & T3)]; [discriminate|]. injection E as <-.
  apply In_nth_error in Hp as (i & Hp). assert (Li : (i < List.length (wb_parts b))%nat) by (apply nth_error_Some; congruence).
  assert (Sty : forall gpt, partitions_of gpt (match wb_devnum b with Some n => n | None => 0xffffffff end) data (wb_parts b) -> layout_style data = (if gpt : bool then 1 else 0) ->
     entry_style (wp_entry p) = (if gpt then 1 else 0) /\ describes gpt (match wb_devnum b with Some n => n | None => 0xffffffff end) (layout_entry_at data i) p).
  { intros gpt (L & D) Ls. pose proof (D i p Hp) as De. destruct De as (D1 & D2 & D3 & D4 & D5) eqn:Dq. clear Dq. split; [|exact (D i p Hp)]. rewrite D4.
    change (entry_style (layout_entry_at data i)) with (field 0 4 (layout_entry_at data i)). rewrite <- Ls.
    destruct (N.eq_dec (field 0 4 (layout_entry_at data i)) (layout_style data)) as [Q|Q]; [exact Q|]. exfalso. apply Un. right. split; [destruct gpt; auto|].
    exists i. split; [lia|exact Q]. }
  destruct (N.eq_dec (layout_style data) 1) as [Y|Y].
  - destruct (T1 Y) as (-> & _ & _ & _ & P). destruct (Sty true P Y) as (E1 & (_ & _ & _ & _ & E2 & t & j & E3 & _)).
    unfold coherent, get_style, get_gpt_info, get_mbr_info. rewrite E1, E2, E3. change (1 =? 1) with true; change (1 =? 0) with false; change (0 =? 0) with true; change (0 =? 1) with false; cbv iota. coh.
  - destruct (N.eq_dec (layout_style data) 0) as [Z|Z].
    + destruct (T2 Z) as (-> & _ & _ & P). destruct (Sty false P Z) as (E1 & (_ & _ & _ & _ & E2 & bo & E3 & _)).
      unfold coherent, get_style, get_gpt_info, get_mbr_info. rewrite E1, E2, E3. change (1 =? 1) with true; change (1 =? 0) with false; change (0 =? 0) with true; change (0 =? 1) with false; cbv iota. coh.
    + destruct (T3 Z Y) as (_ & _ & _ & N). rewrite N in Li. cbn in Li. lia.
Qed.
Print Assumptions C116_drive_partition.
(** The name of a storage bus is the one in the STORAGE_BUS_TYPE enumeration and identifies it; an unknown bus has the empty name. *)
Theorem C116_bus_names : forall t u, bus_type_name t = bus_called t /\ (bus_type_name t = ""%string <-> 20 <= t) /\ (bus_type_name t = bus_type_name u -> t < 20 -> t = u).
Proof.
  assert (Big : forall t, 20 <= t -> bus_type_name t = ""%string). { intros t H. unfold bus_type_name. apply nth_overflow. cbn. lia. }
  assert (Sw : forall P : N -> Prop, (forall k, In k (map N.of_nat (seq 0 20)) -> P k) -> forall t, t < 20 -> P t).
  { intros P HP t Ht. apply HP. apply in_map_iff. exists (N.to_nat t). split; [lia|]. apply in_seq. lia. }
  assert (NonE : forall t, t < 20 -> bus_type_name t <> ""%string).
  { apply Sw. intros k Hk. assert (F : forallb (fun k => negb (String.eqb (bus_type_name k) "")) (map N.of_nat (seq 0 20)) = true) by reflexivity.
    rewrite forallb_forall in F. apply F in Hk. intros E. rewrite E in Hk. discriminate. }
  intros t u. split.
  { destruct (N.lt_ge_cases t 20) as [L|L].
    - revert t L. apply Sw. intros k Hk. assert (F : forallb (fun k => String.eqb (bus_type_name k) (bus_called k)) (map N.of_nat (seq 0 20)) = true) by reflexivity.
      rewrite forallb_forall in F. apply F in Hk. now apply String.eqb_eq.
    - rewrite (Big t L). symmetry. destruct t as [|q]; [lia|]. unfold bus_called.
      destruct q as [q|q|]; try lia; destruct q as [q|q|]; try lia; destruct q as [q|q|]; try lia; destruct q as [q|q|]; try lia; destruct q as [q|q|]; try lia; try reflexivity; destruct q; try lia; reflexivity. }
  split.
  - split; [|apply Big]. intros E. destruct (N.lt_ge_cases t 20) as [L|L]; [|exact L]. exfalso. now apply (NonE t L).
  - intros E L. destruct (N.lt_ge_cases u 20) as [Lu|Lu].
    + assert (F : forallb (fun a => forallb (fun b => (a =? b) || negb (String.eqb (bus_type_name a) (bus_type_name b))) (map N.of_nat (seq 0 20))) (map N.of_nat (seq 0 20)) = true) by reflexivity.
      rewrite forallb_forall in F.
      assert (It : In t (map N.of_nat (seq 0 20))) by (apply in_map_iff; exists (N.to_nat t); split; [lia|apply in_seq; lia]).
      assert (Iu : In u (map N.of_nat (seq 0 20))) by (apply in_map_iff; exists (N.to_nat u); split; [lia|apply in_seq; lia]).
      apply F in It. rewrite forallb_forall in It. apply It in Iu. apply orb_true_iff in Iu as [Iu|Iu]; [now apply N.eqb_eq|].
      rewrite E, String.eqb_refl in Iu. discriminate.
    + exfalso. apply (NonE t L). rewrite E. now apply Big.
Qed.
Print Assumptions C116_bus_names.
