(** Lemmas for C164, C165: opening, enumerating and the calls of a program on one Windows machine. *)
From Verif Require Import Base M_Buffer M_Struc M_Layouts M_Ata M_TcgDevice M_DriveHandle M_Cdb M_SgDriver M_NvmeLinux M_Strings M_LinuxFactory M_LinuxVolume M_LinuxMachine P_LinuxMachine
  M_WinPass M_WinNvme M_WinInfo M_WinFactory M_WinEnum M_WinMachine Spec_WorkWin P_DriveHandle P_AloneWin P_AloneWin2 P_WorkWin.
Local Open Scope nat_scope.

Lemma install_res S A h x d : (forall e, snd (win_install S A h x d) <> Err e) /\ forall x1, snd (win_install S A h x d) = Ok x1 -> fkinded x1.
Proof.
  unfold win_install. cbv zeta. match goal with |- context [init ?V ?p ?c] => destruct (init V p c) as [cs [p' r]] eqn:E end. apply init_keeps in E. cbn [p_dh] in E.
  destruct r; cbn [snd]; (split; [discriminate|]); intros x1 Q; try discriminate Q; injection Q as <-; exact E.
Qed.
Lemma probes_goes S A hd x last ks : forall h,
  match snd (win_probes S A h hd x ks) with
  | Ok None => exists c n, wgoes h (fst (win_probes S A h hd x ks)) c n /\ c + last <= wprobes_reqs ks last /\ n + last <= wprobes_acts ks last
  | Ok (Some x1) => fkinded x1 /\ wgoes h (fst (win_probes S A h hd x ks)) (wprobes_reqs ks last) (wprobes_acts ks last)
  | Err _ => False
  | _ => wgoes h (fst (win_probes S A h hd x ks)) (wprobes_reqs ks last) (wprobes_acts ks last)
  end.
Proof.
  induction ks as [|k ks IH]; intros h; cbn [win_probes wprobes_reqs wprobes_acts].
  - cbn [fst snd]. exists 0, 0. split; [apply wgoes_refl|]. lia.
  - destruct (probe_goes S A h hd k) as [W K]. destruct (win_probe S A h hd k) as [h1 r]. cbn [fst snd] in *. destruct r as [d|e| |].
    + specialize (K d eq_refl). pose proof (install_goes S A h1 x d) as W2. destruct (install_res S A h1 x d) as [NE KX]. rewrite K in W2.
      destruct (win_install S A h1 x d) as [h2 r2]. cbn [fst snd] in *. pose proof (wgoes_trans _ _ _ _ _ _ _ W W2) as W3.
      assert (G : wgoes h h2 (wprobe_reqs k + Nat.max (wcall_limit k HInit) (wprobes_reqs ks last)) (wprobe_acts k + Nat.max (wcall_limit k HInit) (wprobes_acts ks last)))
        by (eapply wgoes_le; [exact W3|lia|lia]).
      destruct r2 as [x1|e| |]; cbn [fst snd]; [|exact (NE e eq_refl)| |]; try exact G. split; [now apply KX|exact G].
    + specialize (IH h1). destruct (win_probes S A h1 hd x ks) as [h2 r2]. cbn [fst snd] in *. destruct r2 as [[x1|]|e2| |].
      * destruct IH as [IH1 IH2]. split; [exact IH1|]. eapply wgoes_le; [exact (wgoes_trans _ _ _ _ _ _ _ W IH2)|lia|lia].
      * destruct IH as (c & n & G & L1 & L2). eexists _, _. split; [exact (wgoes_trans _ _ _ _ _ _ _ W G)|]. lia.
      * exact IH.
      * eapply wgoes_le; [exact (wgoes_trans _ _ _ _ _ _ _ W IH)|lia|lia].
      * eapply wgoes_le; [exact (wgoes_trans _ _ _ _ _ _ _ W IH)|lia|lia].
    + cbn [fst snd]. eapply wgoes_le; [exact W|lia|lia].
    + cbn [fst snd]. eapply wgoes_le; [exact W|lia|lia].
Qed.
Lemma open_goes S A h path : wgoes h (fst (win_open_by_path S A h path)) 13 16 /\ forall x, snd (win_open_by_path S A h path) = Ok x -> fkinded x.
Proof.
  unfold win_open_by_path. destruct (existsb _ path); [split; [eapply wgoes_le; [apply wgoes_refl|lia|lia]|discriminate]|].
  pose proof (wgoes_open S h path) as W0. destruct (open_device S h path) as [h1 [e|hd]]; cbn [fst] in W0; [split; [eapply wgoes_le; [exact W0|lia|lia]|discriminate]|].
  unfold win_open_by_handle. pose proof (basic_goes S h1 hd) as W1. destruct (win_basic_info S h1 hd) as [h2 b]. cbn [fst] in W1.
  pose proof (wgoes_trans _ _ _ _ _ _ _ W0 W1) as W. destruct b as [basic|e| |].
  - match goal with |- context [win_probes S A h2 hd ?y win_drivers] => pose proof (probes_goes S A hd y 2 win_drivers h2) as P; destruct (win_probes S A h2 hd y win_drivers) as [h3 r] end. cbn [fst snd] in P.
    destruct r as [[x1|]|e| |].
    + destruct P as [K P]. cbn [fst snd]. split; [|intros x E; now injection E as <-]. eapply wgoes_le; [exact (wgoes_trans _ _ _ _ _ _ _ W P)|cbn; lia|cbn; lia].
    + destruct P as (c & n & P & L1 & L2). pose proof (storage_goes S h3 hd) as W2. destruct (win_storage_query S h3 hd) as [h4 q]. cbn [fst] in W2.
      assert (G : wgoes h h4 13 16) by (cbn in L1, L2; eapply wgoes_le; [exact (wgoes_trans _ _ _ _ _ _ _ W (wgoes_trans _ _ _ _ _ _ _ P W2))|lia|lia]).
      destruct q; cbn [fst snd]; (split; [exact G|]); intros x E; try discriminate E; injection E as <-; reflexivity.
    + destruct P.
    + cbn [fst snd]. split; [|discriminate]. eapply wgoes_le; [exact (wgoes_trans _ _ _ _ _ _ _ W P)|cbn; lia|cbn; lia].
    + cbn [fst snd]. split; [|discriminate]. eapply wgoes_le; [exact (wgoes_trans _ _ _ _ _ _ _ W P)|cbn; lia|cbn; lia].
  - cbn [fst snd]. split; [|discriminate]. eapply wgoes_le; [exact (wgoes_trans _ _ _ _ _ _ _ W (wgoes_close h2 hd))|lia|lia].
  - cbn [fst snd]. split; [|discriminate]. eapply wgoes_le; [exact W|lia|lia].
  - cbn [fst snd]. split; [|discriminate]. eapply wgoes_le; [exact W|lia|lia].
Qed.

(** ---- on the machine ---- *)
Lemma requests_app a b : requests (a ++ b) = requests a + requests b.
Proof. unfold requests. now rewrite filter_app, app_length. Qed.
Lemma devices_app a b : devices_found (a ++ b) = devices_found a + devices_found b.
Proof. unfold devices_found. now rewrite filter_app, app_length. Qed.
Lemma volumes_app a b : volumes_found (a ++ b) = volumes_found a + volumes_found b.
Proof. unfold volumes_found. now rewrite filter_app, app_length. Qed.
Lemma nexts_app a b : nexts_asked (a ++ b) = nexts_asked a + nexts_asked b.
Proof. unfold nexts_asked. now rewrite filter_app, app_length. Qed.
Lemma requests_sys l : requests (map XSys l) = wreqs l.
Proof. unfold requests, wreqs. induction l as [|x l IH]; [reflexivity|]. cbn. destruct x; cbn; now rewrite IH. Qed.
Lemma devices_sys l : devices_found (map XSys l) = 0.
Proof. unfold devices_found. induction l as [|x l IH]; [reflexivity|exact IH]. Qed.
Lemma volumes_sys l : volumes_found (map XSys l) = 0.
Proof. unfold volumes_found. induction l as [|x l IH]; [reflexivity|exact IH]. Qed.
Lemma nexts_sys l : nexts_asked (map XSys l) = 0.
Proof. unfold nexts_asked. induction l as [|x l IH]; [reflexivity|exact IH]. Qed.
(** From [h] to [h'] at most [c] requests and [n] actions, finding [k] devices. *)
Definition xgoes (h h' : xhist) (c n k : nat) : Prop := exists es, h' = h ++ es /\ requests es <= c /\ List.length es <= n /\ devices_found es = k.
Lemma xgoes_refl h : xgoes h h 0 0 0.
Proof. exists []. rewrite app_nil_r. cbn. auto. Qed.
Lemma xgoes_trans a b c m1 n1 k1 m2 n2 k2 : xgoes a b m1 n1 k1 -> xgoes b c m2 n2 k2 -> xgoes a c (m1 + m2) (n1 + n2) (k1 + k2).
Proof. intros (x & -> & X1 & X2 & X3) (y & -> & Y1 & Y2 & Y3). exists (x ++ y). rewrite app_assoc, requests_app, app_length, devices_app. split; [reflexivity|]. lia. Qed.
Lemma xgoes_le a b m n k m' n' : xgoes a b m n k -> m <= m' -> n <= n' -> xgoes a b m' n' k.
Proof. intros (x & -> & X1 & X2 & X3) L1 L2. exists x. split; [reflexivity|]. lia. Qed.
Lemma xopen_goes X h path : xgoes h (fst (x_open_by_path X h path)) 13 16 0 /\ forall x, snd (x_open_by_path X h path) = Ok x -> fkinded x.
Proof.
  unfold x_open_by_path. destruct (open_goes (wsys_at X h) (waddr_at X h) [] path) as [(es & E & L1 & L2) K]. destruct (win_open_by_path _ _ [] path) as [w r]. cbn [fst snd] in *.
  split; [|exact K]. subst w. exists (map XSys es). cbn [app]. rewrite requests_sys, devices_sys, map_length. auto.
Qed.
Lemma get_detail_goes X h d i buf : xgoes h (fst (get_detail X h d i buf)) 0 1 0.
Proof. unfold get_detail. cbv zeta. destruct (x_detail X _) as [e [o s]]. eexists [XDetail _ _ _]. cbn. auto. Qed.
Lemma path_goes X h d i buf : xgoes h (fst (device_path X h d i buf)) 0 2 0.
Proof.
  unfold device_path. pose proof (get_detail_goes X h d i buf) as L1. destruct (get_detail X h d i buf) as [h1 [e1 [b1 s1]]]. cbn [fst] in L1. cbv zeta.
  assert (G : xgoes h h1 0 2 0) by (eapply xgoes_le; [exact L1|lia|lia]).
  destruct (N.eqb e1 122); [|destruct (N.eqb e1 0); exact G]. destruct (N.eqb (round_1024 s1) 0); [exact G|].
  pose proof (get_detail_goes X h1 d i (zeros (N.to_nat (round_1024 s1)))) as L2. destruct (get_detail X h1 d i _) as [h2 [e2 [b2 s2]]]. cbn [fst] in L2.
  pose proof (xgoes_trans _ _ _ _ _ _ _ _ _ L1 L2) as G2. destruct (N.eqb e2 0); exact G2.
Qed.
(** The loop over the devices: at most 13 requests and 20 actions for each one found, one more action, and no more drives than devices. *)
Lemma devices_goes X d fuel : forall h i buf xs, exists c n k,
  xgoes h (fst (enum_devices X fuel h d i buf xs)) c n k /\ c <= 13 * k /\ n <= 20 * k + 1 /\ List.length (fst (snd (enum_devices X fuel h d i buf xs))) <= List.length xs + k.
Proof.
  induction fuel as [|f IH]; intros h i buf xs; cbn [enum_devices].
  - exists 0, 0, 0. cbn [fst snd]. split; [apply xgoes_refl|]. lia.
  - cbv zeta. set (h1 := h ++ [XDevInfo d i]). assert (W1 : xgoes h h1 0 1 0) by (exists [XDevInfo d i]; cbn; auto).
    assert (Stop : forall h' c n, xgoes h h' c n 1 -> c <= 13 -> n <= 20 -> forall (r : res unit), exists c n k,
      xgoes h (fst (h', (xs, r))) c n k /\ c <= 13 * k /\ n <= 20 * k + 1 /\ List.length (fst (snd (h', (xs, r)))) <= List.length xs + k).
    { intros h' c n W Lc Ln r. exists c, n, 1. cbn [fst snd]. split; [exact W|]. lia. }
    assert (Go : forall h' c n b ys, xgoes h h' c n 1 -> c <= 13 -> n <= 20 -> List.length ys <= List.length xs + 1 -> exists c n k,
      xgoes h (fst (enum_devices X f h' d (S i) b ys)) c n k /\ c <= 13 * k /\ n <= 20 * k + 1 /\ List.length (fst (snd (enum_devices X f h' d (S i) b ys))) <= List.length xs + k).
    { intros h' c n b ys W Lc Ln Ly. destruct (IH h' (S i) b ys) as (c2 & n2 & k2 & W2 & A1 & A2 & A3). exists (c + c2), (n + n2), (1 + k2).
      split; [exact (xgoes_trans _ _ _ _ _ _ _ _ _ W W2)|]. lia. }
    destruct (negb (x_devinfo X h1)); [exists 0, 1, 0; cbn [fst snd]; split; [exact W1|]; lia|].
    set (h2 := h1 ++ [XInterface d _]). assert (W2 : xgoes h h2 0 2 1) by (apply (xgoes_trans _ h1 _ 0 1 0 0 1 1 W1); unfold h2; eexists; split; [reflexivity|]; cbn; auto).
    destruct (N.eqb (x_iface X h2) 259); [apply (Go h2 0 2); auto; lia|]. destruct (negb (N.eqb (x_iface X h2) 0)); [apply (Stop h2 0 2 W2); lia|].
    match goal with |- context [device_path X h2 d ?j buf] => pose proof (path_goes X h2 d j buf) as W3; destruct (device_path X h2 d j buf) as [h3 [buf1 r]] end. cbn [fst] in W3.
    pose proof (xgoes_trans _ _ _ _ _ _ _ _ _ W2 W3) as W4. destruct r as [[p|]|e| |]; [|apply (Go h3 _ _ buf1 xs W4); lia|apply (Stop h3 _ _ W4); lia|apply (Stop h3 _ _ W4); lia|apply (Stop h3 _ _ W4); lia].
    destruct (xopen_goes X h3 p) as [W5 _]. destruct (x_open_by_path X h3 p) as [h4 q]. cbn [fst] in W5. pose proof (xgoes_trans _ _ _ _ _ _ _ _ _ W4 W5) as W6.
    destruct q as [x|e| |]; [|apply (Go h4 _ _ buf1 xs W6); lia|apply (Stop h4 _ _ W6); lia|apply (Stop h4 _ _ W6); lia].
    apply (Go h4 _ _ buf1 (xs ++ [x]) W6); [lia|lia|]. rewrite app_length. cbn. lia.
Qed.
Lemma xclose_goes h x : xgoes h (x_close h x) 0 1 0.
Proof. unfold x_close, win_close. destruct (f_drv x) as [[[d w] c]|]; cbn [fst]; [eexists [XSys (WClose _)]; cbn; auto|]. rewrite app_nil_r. eapply xgoes_le; [apply xgoes_refl|lia|lia]. Qed.
Lemma xclose_all_goes xs : forall h, xgoes h (fold_left x_close xs h) 0 (List.length xs) 0.
Proof. induction xs as [|x xs IH]; intros h; cbn [fold_left]; [apply xgoes_refl|]. exact (xgoes_trans _ _ _ _ _ _ _ _ _ (xclose_goes h x) (IH _)). Qed.
Lemma xenum_goes X fuel h : exists es, fst (win_enum_drives X fuel h) = h ++ es /\ requests es <= 13 * devices_found es /\ List.length es <= 3 + 21 * devices_found es.
Proof.
  unfold win_enum_drives. cbv zeta. set (h1 := h ++ [XClassDevs]). assert (W1 : xgoes h h1 0 1 0) by (exists [XClassDevs]; cbn; auto).
  destruct (x_class X h1) as [e|d]; [exists [XClassDevs]; cbn; auto with arith|].
  destruct (devices_goes X d fuel h1 0 (zeros 1024) []) as (c & n & k & W2 & A1 & A2 & A3). destruct (enum_devices X fuel h1 d 0 (zeros 1024) []) as [h2 [xs r]]. cbn [fst snd List.length] in *.
  pose proof (xgoes_trans _ _ _ _ _ _ _ _ _ W1 W2) as W.
  pose proof (xclose_all_goes (rev xs) h2) as W3. rewrite rev_length in W3. set (hc := fold_left x_close (rev xs) h2) in *.
  assert (W4 : xgoes hc (hc ++ [XDestroy d]) 0 1 0) by (exists [XDestroy d]; cbn; auto).
  pose proof (xgoes_trans _ _ _ _ _ _ _ _ _ W (xgoes_trans _ _ _ _ _ _ _ _ _ W3 W4)) as WW. destruct W as (e1 & E1 & B1 & B2 & B3), WW as (e2 & E2 & C1 & C2 & C3).
  destruct r; cbn [fst]; [exists e2|exists e2|exists e2|exists e1]; (split; [assumption|]); lia.
Qed.

(** ---- EnumVolumes ---- *)
(** From [h] to [h'] at most [c] requests and [n] actions, [k] volumes, [m] calls of FindNextVolume. *)
Definition vgoes (h h' : xhist) (c n k m : nat) : Prop := exists es, h' = h ++ es /\ requests es <= c /\ List.length es <= n /\ volumes_found es = k /\ nexts_asked es = m.
Lemma vgoes_refl h : vgoes h h 0 0 0 0.
Proof. exists []. rewrite app_nil_r. cbn. auto 6. Qed.
Lemma vgoes_trans a b c m1 n1 k1 j1 m2 n2 k2 j2 : vgoes a b m1 n1 k1 j1 -> vgoes b c m2 n2 k2 j2 -> vgoes a c (m1 + m2) (n1 + n2) (k1 + k2) (j1 + j2).
Proof.
  intros (x & -> & X1 & X2 & X3 & X4) (y & -> & Y1 & Y2 & Y3 & Y4). exists (x ++ y). rewrite app_assoc, requests_app, app_length, volumes_app, nexts_app. split; [reflexivity|]. lia.
Qed.
Lemma vgoes_le a b m n k j m' n' : vgoes a b m n k j -> m <= m' -> n <= n' -> vgoes a b m' n' k j.
Proof. intros (x & -> & X1 & X2 & X3 & X4) L1 L2. exists x. split; [reflexivity|]. lia. Qed.
Lemma item_goes X h name b : vgoes h (fst (volume_item X h name b)) 2 6 1 0 /\ List.length (fst (snd (volume_item X h name b))) <= 1.
Proof.
  unfold volume_item. cbv zeta. set (v := firstn _ name). set (h1 := h ++ [XPathNames v]). assert (W1 : vgoes h h1 0 1 1 0) by (exists [XPathNames v]; cbn; auto 6).
  match goal with |- context [match ?m with Ok ms => _ | Err x => _ | Panic => _ | Fuel => _ end] => destruct m as [ms|x| |] end; cbn [fst snd List.length];
    try (split; [eapply vgoes_le; [exact W1|lia|lia]|lia]).
  set (h4 := ((h1 ++ [XVolumeInfo v]) ++ [XDriveType v]) ++ [XVolumeOpen (strip_backslashes v)]).
  assert (W4 : vgoes h h4 0 4 1 0).
  { apply (vgoes_trans _ h1 _ 0 1 1 0 0 3 0 0 W1). exists [XVolumeInfo v; XDriveType v; XVolumeOpen (strip_backslashes v)]. unfold h4. rewrite <- !app_assoc. cbn. auto 6. }
  destruct (x_vopen X h4) as [e|hd]; [cbn [fst snd List.length]; split; [eapply vgoes_le; [exact W4|lia|lia]|lia]|].
  match goal with |- context [x_io X (h4 ++ [XSys (WIo ?c0)])] => set (c := c0); set (h5 := h4 ++ [XSys (WIo c)]) end.
  assert (W5 : vgoes h h5 1 5 1 0) by (apply (vgoes_trans _ h4 _ 0 4 1 0 1 1 0 0 W4); exists [XSys (WIo c)]; cbn; auto 6).
  assert (G5 : vgoes h h5 2 6 1 0) by (eapply vgoes_le; [exact W5|lia|lia]).
  destruct (N.eqb (wa_err (x_io X h5)) 0); [|cbn [fst snd List.length]; split; [exact G5|lia]].
  destruct (extents_loop _ _ _) as [es|x| |]; try (cbn [fst snd List.length]; split; [exact G5|lia]).
  destruct es as [|e es]; [cbn [fst snd List.length]; split; [exact G5|lia]|].
  assert (P : forall h0 k0 e0, vgoes h0 (fst (partition_info X h0 k0 e0)) 1 1 0 0).
  { intros h0 k0 e0. unfold partition_info. cbv zeta. destruct (N.eqb _ 0); eexists [XSys (WIo _)]; cbn; auto 6. }
  specialize (P h5 hd e). destruct (partition_info X h5 hd e) as [h6 p]. cbn [fst snd List.length] in *. split; [|lia]. exact (vgoes_trans _ _ _ _ _ _ _ _ _ _ _ W5 P).
Qed.
Lemma vloop_goes X f fuel : forall h name b vs hs, exists c n k m,
  vgoes h (fst (volume_loop X fuel h f name b vs hs)) c n k m /\ c <= 2 * k /\ n <= 7 * k /\ k <= fuel /\ List.length (fst (snd (volume_loop X fuel h f name b vs hs))) <= List.length hs + k.
Proof.
  induction fuel as [|fu IH]; intros h name b vs hs; cbn [volume_loop].
  - exists 0, 0, 0, 0. cbn [fst snd]. split; [apply vgoes_refl|]. lia.
  - destruct (item_goes X h name b) as [W1 L1]. destruct (volume_item X h name b) as [h1 [o r]]. cbn [fst snd] in *. cbv zeta.
    assert (Lh : List.length (hs ++ o) <= List.length hs + 1) by (rewrite app_length; lia).
    destruct r as [[v b1]|e| |]; try (exists 2, 6, 1, 0; cbn [fst snd]; split; [exact W1|]; lia).
    set (h2 := h1 ++ [XFindNext f]). assert (W2 : vgoes h h2 2 7 1 1) by (apply (vgoes_trans _ h1 _ 2 6 1 0 0 1 0 1 W1); exists [XFindNext f]; cbn; auto 6).
    destruct (x_next X h2) as [e|us]; [exists 2, 7, 1, 1; cbn [fst snd]; split; [exact W2|]; lia|].
    destruct (IH h2 (fill (zeros 320) us) b1 (vs ++ [v]) (hs ++ o)) as (c & n & k & m & W3 & A1 & A2 & A3 & A4).
    exists (2 + c), (7 + n), (1 + k), (1 + m). split; [exact (vgoes_trans _ _ _ _ _ _ _ _ _ _ _ W2 W3)|]. lia.
Qed.
Lemma closes_len l : requests (map (fun x => XSys (WClose x)) l) = 0 /\ volumes_found (map (fun x => XSys (WClose x)) l) = 0 /\ nexts_asked (map (fun x => XSys (WClose x)) l) = 0.
Proof. unfold requests, volumes_found, nexts_asked. induction l as [|x l IH]; [auto|exact IH]. Qed.
Lemma xvolumes_goes X fuel h : exists es, fst (win_enum_volumes X fuel h) = h ++ es /\ requests es <= 2 * volumes_found es /\ List.length es <= 4 + 8 * volumes_found es
  /\ volumes_found es <= fuel.
Proof.
  unfold win_enum_volumes. cbv zeta. set (h2 := (h ++ [XErrorMode 1]) ++ [XFindFirst]). assert (W1 : vgoes h h2 0 2 0 0) by (exists [XErrorMode 1; XFindFirst]; unfold h2; rewrite <- app_assoc; cbn; auto 6).
  set (prev := x_mode X _). destruct (x_first X h2) as [e|[f us]].
  - exists [XErrorMode 1; XFindFirst; XErrorMode prev]. cbn [fst]. unfold h2. rewrite <- !app_assoc. cbn. split; [reflexivity|]. lia.
  - match goal with |- context [volume_loop X fuel h2 f ?a ?b ?c ?d] => destruct (vloop_goes X f fuel h2 a b c d) as (c0 & n & k & m & W2 & A1 & A2 & A3 & A4); destruct (volume_loop X fuel h2 f a b c d) as [h3 [hs r]] end.
    cbn [fst snd List.length] in *. pose proof (vgoes_trans _ _ _ _ _ _ _ _ _ _ _ W1 W2) as W.
    assert (W3 : vgoes h3 (h3 ++ map (fun x => XSys (WClose x)) (rev hs) ++ [XFindClose f; XErrorMode prev]) 0 (List.length hs + 2) 0 0).
    { eexists. split; [reflexivity|]. destruct (closes_len (rev hs)) as (Q1 & Q2 & Q3). rewrite requests_app, volumes_app, nexts_app, app_length, map_length, rev_length, Q1, Q2, Q3. cbn. auto. }
    pose proof (vgoes_trans _ _ _ _ _ _ _ _ _ _ _ W W3) as WW. destruct W as (e1 & E1 & B1 & B2 & B3 & B4), WW as (e2 & E2 & C1 & C2 & C3 & C4).
    destruct r; cbn [fst]; [exists e2|exists e2|exists e2|exists e1]; (split; [assumption|]); lia.
Qed.

(** ---- enumerations end ---- *)
Lemma devices_end X n d f1 : at_most_devices X n -> forall f2 h i buf xs, i <= n -> n < i + f1 -> n < i + f2 -> enum_devices X f1 h d i buf xs = enum_devices X f2 h d i buf xs.
Proof.
  intros B. induction f1 as [|f1 IH]; intros f2 h i buf xs L0 L1 L2; [lia|]. destruct f2 as [|f2]; [lia|]. cbn [enum_devices]; cbv zeta.
  destruct (negb (x_devinfo X _)) eqn:E; [reflexivity|].
  assert (Li : i < n) by (destruct (Nat.lt_ge_cases i n) as [Q|Q]; [exact Q|]; rewrite (B h d i Q) in E; discriminate E).
  clear E. destruct (N.eqb (x_iface X _) 259); [apply IH; lia|]. destruct (negb (N.eqb (x_iface X _) 0)); [reflexivity|]. destruct (device_path _ _ _ _ _) as [h3 [b1 r]]. destruct r as [[p|]|e| |]; try reflexivity; [|apply IH; lia].
  destruct (x_open_by_path X h3 p) as [h4 q]. destruct q; try reflexivity; apply IH; lia.
Qed.
Lemma devices_few X n d f : at_most_devices X n -> forall h i buf xs, i <= n -> exists es, fst (enum_devices X f h d i buf xs) = h ++ es /\ devices_found es <= n - i.
Proof.
  intros B. induction f as [|f IH]; intros h i buf xs L; cbn [enum_devices]; [exists []; rewrite app_nil_r; cbn; split; [reflexivity|lia]|]. cbv zeta.
  set (h1 := h ++ [XDevInfo d i]). destruct (negb (x_devinfo X h1)) eqn:E; [exists [XDevInfo d i]; cbn; split; [reflexivity|lia]|].
  assert (Li : i < n) by (destruct (Nat.lt_ge_cases i n) as [Q|Q]; [exact Q|]; unfold h1 in E; rewrite (B h d i Q) in E; discriminate E).
  set (h2 := h1 ++ [XInterface d _]). assert (W2 : xgoes h h2 0 2 1) by (unfold h2, h1; rewrite <- app_assoc; eexists; split; [reflexivity|]; cbn; auto).
  assert (Stop : forall h' c m, xgoes h h' c m 1 -> exists es, h' = h ++ es /\ devices_found es <= n - i) by (intros h' c m (es & -> & _ & _ & Q); exists es; split; [reflexivity|]; lia).
  assert (Go : forall h' c m b ys, xgoes h h' c m 1 -> exists es, fst (enum_devices X f h' d (S i) b ys) = h ++ es /\ devices_found es <= n - i).
  { intros h' c m b ys (es & -> & _ & _ & Q). destruct (IH (h ++ es) (S i) b ys Li) as (es2 & -> & L2). exists (es ++ es2). rewrite app_assoc, devices_app. split; [reflexivity|]. lia. }
  clear E. destruct (N.eqb (x_iface X h2) 259); [apply (Go h2 0 2); exact W2|]. destruct (negb (N.eqb (x_iface X h2) 0)); [apply (Stop h2 0 2 W2)|].
  match goal with |- context [device_path X h2 d ?j buf] => pose proof (path_goes X h2 d j buf) as W3; destruct (device_path X h2 d j buf) as [h3 [buf1 r]] end. cbn [fst] in W3.
  pose proof (xgoes_trans _ _ _ _ _ _ _ _ _ W2 W3) as W4. destruct r as [[p|]|e| |]; [|apply (Go h3 _ _ buf1 xs W4)|apply (Stop h3 _ _ W4)|apply (Stop h3 _ _ W4)|apply (Stop h3 _ _ W4)].
  destruct (xopen_goes X h3 p) as [W5 _]. destruct (x_open_by_path X h3 p) as [h4 q]. cbn [fst] in W5. pose proof (xgoes_trans _ _ _ _ _ _ _ _ _ W4 W5) as W6.
  destruct q as [x|e| |]; [apply (Go h4 _ _ buf1 _ W6)|apply (Go h4 _ _ buf1 xs W6)|apply (Stop h4 _ _ W6)|apply (Stop h4 _ _ W6)].
Qed.
Lemma volumes_end X n h0 f f1 : at_most_volumes X h0 n -> forall f2 es name b vs hs, nexts_asked es <= n -> n < nexts_asked es + f1 -> n < nexts_asked es + f2 ->
  volume_loop X f1 (h0 ++ es) f name b vs hs = volume_loop X f2 (h0 ++ es) f name b vs hs.
Proof.
  intros B. induction f1 as [|f1 IH]; intros f2 es name b vs hs L0 L1 L2; [lia|]. destruct f2 as [|f2]; [lia|]. cbn [volume_loop]; cbv zeta.
  destruct (item_goes X (h0 ++ es) name b) as [(es1 & E1 & _ & _ & _ & Q1) _]. destruct (volume_item X (h0 ++ es) name b) as [h1 [o r]]. cbn [fst] in E1.
  destruct r as [[v b1]|e| |]; try reflexivity. destruct (x_next X (h1 ++ [XFindNext f])) as [e|us] eqn:E; [reflexivity|].
  assert (N1 : nexts_asked (es ++ es1) = nexts_asked es) by (rewrite nexts_app; lia).
  assert (Li : nexts_asked es < n).
  { destruct (Nat.eq_dec (nexts_asked es) n) as [Q|Q]; [|lia]. destruct (B (es ++ es1) f ltac:(lia)) as (e & C).
    rewrite E1 in E. rewrite <- !app_assoc in E. rewrite <- app_assoc in C. congruence. }
  assert (Eh : h1 ++ [XFindNext f] = h0 ++ es ++ es1 ++ [XFindNext f]) by (rewrite E1, <- !app_assoc; reflexivity). rewrite Eh.
  assert (N2 : nexts_asked (es ++ es1 ++ [XFindNext f]) = S (nexts_asked es)) by (rewrite !nexts_app, Q1; cbn; lia).
  apply IH; rewrite N2; lia.
Qed.

(** ---- one call of a program ---- *)
Lemma whstep_keeps V p o : o <> HClose -> p_dh (fst (snd (hstep V p [] o))) = p_dh p.
Proof. exact (hstep_keeps V p o). Qed.
Lemma mcall_within X h x o : wkinded x -> let c := match mh_dev x with Some d => wcall_limit (wd_kind d) o | None => 0 end in
  (exists es, fst (mcall X h x o) = h ++ es /\ requests es <= c /\ List.length es <= match o with HClose => 1 | _ => c end) /\ wkinded (snd (mcall X h x o)).
Proof.
  intros Hx c. assert (D : o = HClose \/ o <> HClose) by (destruct o; (now left) || (right; discriminate)). destruct D as [->|NC].
  - cbn [mcall]. unfold mclose. destruct (mh_dev x) as [d|] eqn:E; cbn [fst snd].
    + split; [exists [XSys (WClose (wd_handle d))]; cbn; split; [reflexivity|lia]|]. reflexivity.
    + split; [exists []; rewrite app_nil_r; cbn; split; [reflexivity|lia]|exact Hx].
  - set (V := match mh_dev x with Some d => win_drv (wsys_at X h) (waddr_at X h) d [] | None => mno_drv end).
    assert (Q : mcall X h x o = (let '(cs, (p, _)) := hstep V (mh_dh x) [] o in
      (match mh_dev x with Some d => h ++ map XSys (win_replay (wsys_at X h) (waddr_at X h) d [] cs) | None => h end, {| mh_path := mh_path x; mh_dh := p; mh_dev := mh_dev x |}))).
    { unfold mcall. fold V. destruct o; (reflexivity || congruence). }
    rewrite Q. clear Q. pose proof (whstep_keeps V (mh_dh x) o NC) as K.
    assert (T : forall d, mh_dev x = Some d -> wtotal (wd_kind d) (fst (hstep V (mh_dh x) [] o)) <= c).
    { intros d Ed. unfold c. rewrite Ed. apply whstep_total; [|exact NC]. unfold wkinded in Hx. rewrite Ed in Hx. exact Hx. }
    assert (C1 : match o with HClose => 1 | _ => c end = c) by (destruct o; (reflexivity || congruence)). rewrite C1.
    destruct (hstep V (mh_dh x) [] o) as [cs [p out]]. cbn [fst snd] in *. unfold wkinded in *. cbn [mh_dev mh_dh]. rewrite K.
    split; [|exact Hx]. destruct (mh_dev x) as [d|].
    + specialize (T d eq_refl). destruct (replay_goes (wsys_at X h) (waddr_at X h) d cs []) as (es & E & L1 & L2). exists (map XSys es). rewrite E, requests_sys, map_length. split; [reflexivity|]. lia.
    + exists []. rewrite app_nil_r. cbn. split; [reflexivity|lia].
Qed.
Lemma set_nth_forall {A} (P : A -> Prop) i a l : Forall P l -> P a -> Forall P (M_WinMachine.set_nth i a l).
Proof. revert i. induction l as [|b l IH]; intros [|i] H Ha; cbn; auto; inversion H; subst; constructor; auto. Qed.
Lemma mstep_within X s o : Forall wkinded (ms_handles s) ->
  (exists es, ms_hist (mstep X s o) = ms_hist s ++ es /\ requests es <= request_limit s o es /\ List.length es <= waction_limit s o es) /\ Forall wkinded (ms_handles (mstep X s o)).
Proof.
  intros H. destruct s as [h xs]. cbn [ms_hist ms_handles] in *. destruct o as [path|fuel|fuel|i o]; cbn [mstep ms_hist ms_handles request_limit waction_limit].
  - destruct (xopen_goes X h path) as [(es & E & L1 & L2 & _) K]. destruct (x_open_by_path X h path) as [h' r]. cbn [fst snd] in *.
    destruct r as [x|e| |]; cbn [ms_hist ms_handles]; (split; [exists es; auto|]); try exact H. apply Forall_app. split; [exact H|]. constructor; [now apply fkinded_of, K|constructor].
  - split; [|exact H]. apply xenum_goes.
  - split; [|exact H]. destruct (xvolumes_goes X fuel h) as (es & E & L1 & L2 & _). exists es. auto.
  - destruct (nth_error xs i) as [x|] eqn:Ei.
    2:{ split; [|exact H]. exists []. rewrite app_nil_r. cbn. split; [reflexivity|]. lia. }
    assert (Hx : wkinded x) by (rewrite Forall_forall in H; apply H; eapply nth_error_In; exact Ei).
    destruct (mcall_within X h x o Hx) as [(es & E & L1 & L2) W]. destruct (mcall X h x o) as [h' x']. cbn [fst snd ms_hist ms_handles] in *. split; [|now apply set_nth_forall].
    exists es. split; [exact E|]. cbn [request_limit ms_handles]. rewrite ?Ei. split; [exact L1|]. destruct o; cbn [request_limit ms_handles]; rewrite ?Ei; exact L2.
Qed.
Lemma mrun_kinded X ops : Forall wkinded (ms_handles (mrun X ops)).
Proof.
  unfold mrun. assert (G0 : Forall wkinded (ms_handles {| ms_hist := []; ms_handles := [] |})) by constructor.
  revert G0. generalize {| ms_hist := []; ms_handles := [] |}. induction ops as [|o ops IH]; intros s G; cbn [fold_left]; [exact G|]. apply IH. exact (proj2 (mstep_within X s o G)).
Qed.
