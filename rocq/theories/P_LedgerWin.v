(** Lemmas for C172. *)
From Verif Require Import Base M_Buffer M_Struc M_Layouts M_Ata M_TcgDevice M_DriveHandle M_Cdb M_SgDriver M_NvmeLinux M_Strings M_WinPass M_WinNvme M_WinInfo
  M_WinFactory M_WinEnum M_WinMachine Spec_Inspect Spec_InspectWin P_DriveHandle P_WinNvme Prop_WinNvme P_Inspect P_InspectWin Spec_WinMachine P_WinMachine P_WinMachine2 P_WinMachine3 Spec_LedgerWin.
Local Open Scope Z_scope.

Lemma balance_app X es : forall h fs, balance X h (es ++ fs) = balance X h es + balance X (h ++ es) fs.
Proof. induction es as [|e es IH]; intros h fs; cbn [balance app]; [now rewrite app_nil_r|]. rewrite IH, <- app_assoc. cbn [app]. lia. Qed.
(** From [h] to [h'], the balance is [n]. *)
Definition net (X : xsys) (h h' : xhist) (n : Z) : Prop := exists es, h' = (h ++ es)%list /\ balance X h es = n.
Lemma net_refl X h : net X h h 0.
Proof. exists []. now rewrite app_nil_r. Qed.
Lemma net_trans X h1 h2 h3 n m : net X h1 h2 n -> net X h2 h3 m -> net X h1 h3 (n + m).
Proof. intros (a & -> & A) (b & -> & B). exists (a ++ b)%list. rewrite app_assoc, balance_app, A, B. split; reflexivity. Qed.
Lemma net_one X h e n : change X (h ++ [e]) e = n -> net X h (h ++ [e]) n.
Proof. intros <-. exists [e]. cbn [balance]. split; [reflexivity|lia]. Qed.
Lemma net_eq X h h' n m : net X h h' n -> n = m -> net X h h' m.
Proof. now intros H <-. Qed.
Lemma net_snoc X h h' e n m : net X h h' n -> change X (h' ++ [e]) e = m -> net X h (h' ++ [e]) (n + m).
Proof. intros H E. exact (net_trans _ _ _ _ _ _ H (net_one _ _ _ _ E)). Qed.
Lemma net_ios X h w w' hds : ios hds w w' -> net X (h ++ map XSys w) (h ++ map XSys w') 0.
Proof.
  intros (es & -> & F). rewrite map_app, app_assoc. exists (map XSys es). split; [reflexivity|]. generalize (h ++ map XSys w)%list. induction F as [|e es He F IH]; intros g; [reflexivity|].
  cbn [map balance]. rewrite IH. destruct e; cbn in He; try contradiction. reflexivity.
Qed.
Lemma net_wsnoc X h0 h w e n m : net X h0 (h ++ map XSys w) n -> change X (h ++ map XSys (w ++ [e])) (XSys e) = m -> net X h0 (h ++ map XSys (w ++ [e])) (n + m).
Proof. rewrite map_app, app_assoc. apply net_snoc. Qed.
Lemma net_wclose X h0 h w hd n : net X h0 (h ++ map XSys w) n -> net X h0 (h ++ map XSys (close_handle w hd)) (n - 1).
Proof. intros H. unfold close_handle. eapply net_eq; [apply (net_wsnoc X h0 h w (WClose hd) n (-1) H); reflexivity|lia]. Qed.

(** ---- opening ---- *)
Lemma nvmewin_net X h w hd : let r := nvmewin_open (wsys_at X h) w hd in
  match snd r with
  | Ok _ => net X (h ++ map XSys w) (h ++ map XSys (fst r)) 1
  | Err _ => net X (h ++ map XSys w) (h ++ map XSys (fst r)) 0
  | _ => exists n, net X (h ++ map XSys w) (h ++ map XSys (fst r)) n /\ 0 <= n <= 1
  end.
Proof.
  cbv zeta. unfold nvmewin_open, get_scsi_path. set (S := wsys_at X h).
  pose proof (same_ios S w hd IOCTL_SCSI_GET_ADDRESS (zeros 8)) as I. destruct (win_same S w hd IOCTL_SCSI_GET_ADDRESS (zeros 8)) as [w1 [e out]]. cbn [fst] in I.
  pose proof (net_ios X h w w1 _ I) as N1. destruct e as [e|]; [exact N1|]. cbv zeta. unfold open_device. cbv zeta.
  match goal with |- context [(w1 ++ [WOpen ?q])%list] => set (port := q) end. clearbody port.
  assert (N2 : net X (h ++ map XSys w) (h ++ map XSys (w1 ++ [WOpen port])) (0 + got (s_open S (w1 ++ [WOpen port])))) by (apply net_wsnoc; [exact N1|reflexivity]).
  destruct (s_open S (w1 ++ [WOpen port])) as [e|sh]; cbn [got] in N2; [cbn [fst snd]; exact (net_eq _ _ _ _ _ N2 eq_refl)|].
  generalize dependent (w1 ++ [WOpen port])%list. intros w2 N2. unfold miniport_identity.
  match goal with |- context [win_same S w2 sh ?code ?b] => pose proof (same_ios S w2 sh code b) as J; destruct (win_same S w2 sh code b) as [w3 [e2 out2]] end. cbn [fst] in J.
  pose proof (net_trans _ _ _ _ _ _ N2 (net_ios X h w2 w3 _ J)) as N3.
  destruct e2 as [e2|]; [cbn [fst snd]; exact (net_eq _ _ _ _ _ (net_wclose X _ h w3 sh _ N3) eq_refl)|].
  destruct (negb _); cbn [fst snd]; [exact (net_eq _ _ _ _ _ (net_wclose X _ h w3 sh _ N3) eq_refl)|exact (net_eq _ _ _ _ _ N3 eq_refl)].
Qed.
Definition extra (d : wdh) : Z := match wd_kind d with KNvmeWin => 1 | _ => 0 end.
Lemma probe_net X h A w hd k : let r := win_probe (wsys_at X h) A w hd k in
  match snd r with
  | Ok d => net X (h ++ map XSys w) (h ++ map XSys (fst r)) (extra d)
  | Err _ => net X (h ++ map XSys w) (h ++ map XSys (fst r)) 0
  | _ => exists n, net X (h ++ map XSys w) (h ++ map XSys (fst r)) n /\ 0 <= n <= 1
  end.
Proof.
  cbv zeta. unfold win_probe. cbv zeta. set (S := wsys_at X h).
  assert (SIMPLE : forall k' (r : whist * res bytes), ios [hd] w (fst r) -> k' <> KNvmeWin ->
    let q := (let '(h1, x) := r in (h1, match x with Ok i => Ok {| wd_kind := k'; wd_handle := hd; wd_scsi := 0; wd_identity := i |} | Err e => Err e | Panic => Panic | Fuel => Fuel end)) in
    match snd q with
    | Ok d => net X (h ++ map XSys w) (h ++ map XSys (fst q)) (extra d)
    | Err _ => net X (h ++ map XSys w) (h ++ map XSys (fst q)) 0
    | _ => exists n, net X (h ++ map XSys w) (h ++ map XSys (fst q)) n /\ 0 <= n <= 1
    end).
  { intros k' [w1 x] I Hk. cbn [fst] in I. pose proof (net_ios X h w w1 _ I) as N1. cbv zeta. destruct x; cbn [fst snd]; try exact N1; try (exists 0; split; [exact N1|lia]).
    unfold extra. cbn [wd_kind]. destruct k'; try exact N1. congruence. }
  destruct k.
  - pose proof (nvmewin_net X h w hd) as N1. cbv zeta in N1. fold S in N1. destruct (nvmewin_open S w hd) as [w1 [[sh i]|e| |]]; exact N1.
  - apply SIMPLE; [apply winnvme_ios|discriminate].
  - apply SIMPLE; [|discriminate]. unfold win_scsi_open. rewrite finish_fst. apply scsi_ios.
  - apply SIMPLE; [|discriminate]. unfold win_ata_open. rewrite finish_fst. apply ata_ios.
Qed.
Lemma install_net X h S A w x d : let r := win_install S A w x d in net X (h ++ map XSys w) (h ++ map XSys (fst r)) 0
  /\ (forall x', snd r = Ok x' -> exists g cs, f_drv x' = Some (d, g, cs)) /\ (forall e, snd r <> Err e).
Proof.
  cbv zeta. unfold win_install. cbv zeta. set (pp := {| p_dh := _; p_info := _ |}).
  pose proof (init_no_close (win_drv S A d w) pp [CType; CName]) as N0. destruct (init (win_drv S A d w) pp [CType; CName]) as [cs [p' r]]. cbn [fst] in N0.
  assert (N' : Forall no_close cs) by (destruct N0 as (c1 & -> & F); apply Forall_app; split; [repeat constructor; discriminate|exact F]).
  pose proof (net_ios X h w _ _ (replay_ios S A d cs w N')) as Y.
  destruct r; cbn [fst snd]; (split; [exact Y|]); split; try discriminate; intros x' Ex; injection Ex as <-; cbn [f_drv]; eauto.
Qed.
Lemma probes_net X h A hd x ks : forall w, let r := win_probes (wsys_at X h) A w hd x ks in
  match snd r with
  | Ok (Some x') => has_driver x' = 1 /\ net X (h ++ map XSys w) (h ++ map XSys (fst r)) (left_over x')
  | Ok None => net X (h ++ map XSys w) (h ++ map XSys (fst r)) 0
  | Err _ => False
  | _ => exists n, net X (h ++ map XSys w) (h ++ map XSys (fst r)) n /\ 0 <= n <= 1
  end.
Proof.
  induction ks as [|k ks IH]; intros w; cbn [win_probes]; [apply net_refl|]. cbv zeta in *.
  pose proof (probe_net X h A w hd k) as P. cbv zeta in P. destruct (win_probe (wsys_at X h) A w hd k) as [w1 [d|e| |]]; cbn [fst snd] in P; [| |exact P|exact P].
  - destruct (install_net X h (wsys_at X h) A w1 x d) as (I & D & E). destruct (win_install (wsys_at X h) A w1 x d) as [w2 y]. cbn [fst snd] in *.
    assert (B : 0 <= extra d <= 1) by (unfold extra; destruct (wd_kind d); lia).
    pose proof (net_trans _ _ _ _ _ _ P I) as N2.
    destruct y as [x'|e| |]; cbn [fst snd]; [|exact (E e eq_refl)|eexists; split; [exact N2|lia]|eexists; split; [exact N2|lia]].
    destruct (D x' eq_refl) as (g & cs & F). unfold has_driver, left_over. rewrite F. split; [reflexivity|]. unfold extra in N2. eapply net_eq; [exact N2|lia].
  - specialize (IH w1). destruct (win_probes (wsys_at X h) A w1 hd x ks) as [w2 [[x'|]|e2| |]]; cbn [fst snd] in *.
    + destruct IH as [H N2]. split; [exact H|]. exact (net_trans _ _ _ _ _ _ P N2).
    + exact (net_trans _ _ _ _ _ _ P IH).
    + exact IH.
    + destruct IH as (n & N2 & B). exists n. split; [exact (net_trans _ _ _ _ _ _ P N2)|exact B].
    + destruct IH as (n & N2 & B). exists n. split; [exact (net_trans _ _ _ _ _ _ P N2)|exact B].
Qed.
Lemma open_path_net X h p : let r := x_open_by_path X h p in
  match snd r with
  | Ok x => net X h (fst r) (has_driver x + left_over x)
  | Err _ => net X h (fst r) 0
  | _ => exists n, net X h (fst r) n /\ 0 <= n <= 2
  end.
Proof.
  cbv zeta. unfold x_open_by_path, win_open_by_path. set (S := wsys_at X h). set (A := waddr_at X h).
  destruct (existsb _ p); [cbn [fst snd map]; rewrite app_nil_r; apply net_refl|].
  unfold open_device. cbv zeta. cbn [app].
  assert (N1 : net X h (h ++ map XSys [WOpen p]) (got (s_open S [WOpen p]))) by (apply net_one; reflexivity).
  destruct (s_open S [WOpen p]) as [e|hd]; cbn [got] in N1; [exact N1|]. generalize dependent [WOpen p]. intros w1 N1. unfold win_open_by_handle.
  pose proof (net_ios X h w1 _ _ (basic_ios S w1 hd)) as N2. destruct (win_basic_info S w1 hd) as [w2 b]. cbn [fst] in N2. pose proof (net_trans _ _ _ _ _ _ N1 N2) as N12.
  destruct b as [basic|e| |]; cbn [fst snd]; [|exact (net_eq _ _ _ _ _ (net_wclose X h h w2 hd _ N12) eq_refl)|exists (1 + 0); split; [exact N12|lia]..].
  cbv zeta. pose proof (probes_net X h A hd (whandle0 p basic) win_drivers w2) as P. cbv zeta in P. fold S in P.
  destruct (win_probes S A w2 hd (whandle0 p basic) win_drivers) as [w3 [[x'|]|e| |]]; cbn [fst snd] in *.
  - destruct P as [H N3]. eapply net_eq; [exact (net_trans _ _ _ _ _ _ N12 N3)|lia].
  - pose proof (net_ios X h w3 _ _ (storage_ios S w3 hd)) as N4. destruct (win_storage_query S w3 hd) as [w4 q]. cbn [fst] in N4.
    pose proof (net_trans _ _ _ _ _ _ (net_trans _ _ _ _ _ _ N12 P) N4) as N5.
    destruct q as [dd|e| |]; cbn [fst snd]; [exact N5|exact N5|eexists; split; [exact N5|lia]..].
  - destruct P.
  - destruct P as (n & N3 & B). eexists. split; [exact (net_trans _ _ _ _ _ _ N12 N3)|lia].
  - destruct P as (n & N3 & B). eexists. split; [exact (net_trans _ _ _ _ _ _ N12 N3)|lia].
Qed.

(** ---- listing drives ---- *)
Lemma detail_net X h d i b : net X h (fst (get_detail X h d i b)) 0.
Proof. unfold get_detail. cbv zeta. destruct (x_detail X _) as [e [o s]]. cbn [fst]. apply net_one. reflexivity. Qed.
Lemma path_net X h d i b : net X h (fst (device_path X h d i b)) 0 /\ forall e, snd (snd (device_path X h d i b)) <> Err e.
Proof.
  assert (DP : forall b n e, detail_path X b n <> Err e).
  { intros b' n e. unfold detail_path. cbv zeta. destruct (until_nul _); [discriminate|]. destruct (_ <=? _)%N; discriminate. }
  unfold device_path. pose proof (detail_net X h d i b) as P. destruct (get_detail X h d i b) as [h1 [e1 [b1 s1]]]. cbn [fst] in P. cbv zeta.
  assert (Q : forall h2 e b2 s2, net X h h2 0 -> let r := (if (e =? 0)%N then (h2, (b2, match detail_path X b2 ((s2 + (2 ^ 32 - 4)) mod 2 ^ 32)%N with Ok p => Ok (Some p) | Err x => Err x | Panic => Panic | Fuel => Fuel end))
      else (h2, (b2, @Ok (option bytes) None))) in net X h (fst r) 0 /\ forall x, snd (snd r) <> Err x).
  { intros h2 e b2 s2 N2. cbv zeta. destruct (e =? 0)%N; cbn [fst snd]; (split; [exact N2|]); [|discriminate]. intros x. specialize (DP b2 ((s2 + (2 ^ 32 - 4)) mod 2 ^ 32)%N).
    destruct (detail_path _ _ _); try discriminate. now elim (DP e0). }
  cbv zeta in Q. destruct (e1 =? 122)%N; [|exact (Q h1 e1 b1 s1 P)].
  destruct (round_1024 s1 =? 0)%N; [cbn [fst snd]; split; [exact P|discriminate]|]. pose proof (detail_net X h1 d i (zeros (N.to_nat (round_1024 s1)))) as R.
  destruct (get_detail X h1 d i (zeros (N.to_nat (round_1024 s1)))) as [h2 [e2 [b2 s2]]]. cbn [fst] in R. apply Q. exact (net_trans _ _ _ _ _ _ P R).
Qed.
Lemma sum_left_app xs ys : sum_left (xs ++ ys) = sum_left xs + sum_left ys.
Proof. unfold sum_left. induction xs as [|x xs IH]; cbn [app fold_right]; [reflexivity|]. rewrite IH. lia. Qed.
Definition sum_driver (xs : list whandle) : Z := fold_right (fun x n => has_driver x + n) 0 xs.
Lemma sum_driver_app xs ys : sum_driver (xs ++ ys) = sum_driver xs + sum_driver ys.
Proof. unfold sum_driver. induction xs as [|x xs IH]; cbn [app fold_right]; [reflexivity|]. rewrite IH. lia. Qed.
Definition owed (xs : list whandle) : Z := sum_driver xs + sum_left xs.
Lemma enum_devices_net X fuel : forall h0 h d i b xs, net X h0 h (1 + owed xs) -> let r := enum_devices X fuel h d i b xs in
  match snd (snd r) with
  | Ok _ => net X h0 (fst r) (1 + owed (fst (snd r)))
  | Err _ => False
  | _ => exists n, net X h0 (fst r) (1 + owed (fst (snd r)) + n) /\ 0 <= n <= 2
  end.
Proof.
  induction fuel as [|f IH]; intros h0 h d i b xs H; cbn [enum_devices]; cbv zeta in *.
  - cbn [fst snd]. exists 0. split; [eapply net_eq; [exact H|lia]|lia].
  - assert (N1 : net X h0 (h ++ [XDevInfo d i]) (1 + owed xs)) by (eapply net_eq; [apply (net_snoc _ _ _ _ _ 0 H); reflexivity|lia]).
    destruct (negb _); [exact N1|]. generalize dependent (h ++ [XDevInfo d i])%list. intros h1 N1. set (j := (N.of_nat i mod 2 ^ 32)%N).
    assert (N2 : net X h0 (h1 ++ [XInterface d j]) (1 + owed xs)) by (eapply net_eq; [apply (net_snoc _ _ _ _ _ 0 N1); reflexivity|lia]).
    generalize dependent (h1 ++ [XInterface d j])%list. intros h2 N2. destruct (x_iface X h2 =? 259)%N; [now apply IH|]. destruct (negb _); [exact N2|].
    destruct (path_net X h2 d j b) as [N3 NE]. destruct (device_path X h2 d j b) as [h3 [b1 q]]. cbn [fst snd] in *.
    assert (N4 : net X h0 h3 (1 + owed xs)) by (eapply net_eq; [exact (net_trans _ _ _ _ _ _ N2 N3)|lia]).
    destruct q as [[p|]|e| |]; cbn [fst snd]; [|now apply IH|exact (NE e eq_refl)|exists 0; split; [eapply net_eq; [exact N4|lia]|lia]..].
    pose proof (open_path_net X h3 p) as P. cbv zeta in P. destruct (x_open_by_path X h3 p) as [h4 y]. cbn [fst snd] in P.
    destruct y as [x|e| |]; cbn [fst snd].
    + apply IH. eapply net_eq; [exact (net_trans _ _ _ _ _ _ N4 P)|]. unfold owed. rewrite sum_left_app, sum_driver_app. cbn [sum_left sum_driver fold_right]. lia.
    + apply IH. eapply net_eq; [exact (net_trans _ _ _ _ _ _ N4 P)|lia].
    + destruct P as (n & P & B). exists n. split; [exact (net_trans _ _ _ _ _ _ N4 P)|exact B].
    + destruct P as (n & P & B). exists n. split; [exact (net_trans _ _ _ _ _ _ N4 P)|exact B].
Qed.
Lemma close_one_net X h x : net X h (x_close h x) (- has_driver x).
Proof.
  unfold x_close, win_close, has_driver. destruct (f_drv x) as [[[d g] cs]|]; cbn [fst close_handle app map]; [apply net_one; reflexivity|]. rewrite app_nil_r. apply net_refl.
Qed.
Lemma close_list_net X xs : forall h, net X h (fold_left x_close xs h) (- sum_driver xs).
Proof.
  induction xs as [|x xs IH]; intros h; cbn [fold_left]; [apply net_refl|]. eapply net_eq; [exact (net_trans _ _ _ _ _ _ (close_one_net X h x) (IH _))|]. cbn [sum_driver fold_right]. fold (sum_driver xs). lia.
Qed.
Lemma sum_driver_rev xs : sum_driver (rev xs) = sum_driver xs.
Proof. induction xs as [|x xs IH]; [reflexivity|]. cbn [rev]. rewrite sum_driver_app, IH. cbn [sum_driver fold_right]. fold (sum_driver xs). lia. Qed.
Lemma left_nonneg x : 0 <= left_over x <= 1.
Proof. unfold left_over. destruct (f_drv x) as [[[d g] cs]|]; [destruct (wd_kind d)|]; lia. Qed.
Lemma driver_nonneg x : 0 <= has_driver x <= 1.
Proof. unfold has_driver. destruct (f_drv x); lia. Qed.
Lemma sum_left_nonneg xs : 0 <= sum_left xs.
Proof. induction xs as [|x xs IH]; cbn [sum_left fold_right]; [lia|]. fold (sum_left xs). pose proof (left_nonneg x). lia. Qed.
Lemma sum_driver_nonneg xs : 0 <= sum_driver xs.
Proof. induction xs as [|x xs IH]; cbn [sum_driver fold_right]; [lia|]. fold (sum_driver xs). pose proof (driver_nonneg x). lia. Qed.
Lemma enum_net X fuel h : let r := win_enum_drives X fuel h in
  match snd r with
  | Ok xs => net X h (fst r) (sum_left xs)
  | Err _ => net X h (fst r) 0
  | _ => exists n, net X h (fst r) n /\ 0 <= n
  end.
Proof.
  cbv zeta. unfold win_enum_drives. cbv zeta. assert (N1 : net X h (h ++ [XClassDevs]) (got (x_class X (h ++ [XClassDevs])))) by (apply net_one; reflexivity).
  destruct (x_class X (h ++ [XClassDevs])) as [e|d]; cbn [got] in N1; [exact N1|]. generalize dependent (h ++ [XClassDevs])%list. intros h1 N1.
  pose proof (enum_devices_net X fuel h h1 d 0%nat (zeros 1024) [] N1) as P. cbv zeta in P. destruct (enum_devices X fuel h1 d 0 (zeros 1024) []) as [h2 [xs r]]. cbn [fst snd] in P.
  assert (C : forall n, net X h h2 n -> net X h (fold_left x_close (rev xs) h2 ++ [XDestroy d]) (n - sum_driver xs - 1)).
  { intros n H. eapply net_eq; [apply (net_snoc _ _ _ _ _ (-1) (net_trans _ _ _ _ _ _ H (close_list_net X (rev xs) h2))); reflexivity|]. rewrite sum_driver_rev. lia. }
  pose proof (sum_left_nonneg xs). pose proof (sum_driver_nonneg xs).
  destruct r as [u|e| |]; cbn [fst snd] in *.
  - eapply net_eq; [exact (C _ P)|]. unfold owed. lia.
  - destruct P.
  - destruct P as (n & P & B). eexists. split; [exact (C _ P)|]. unfold owed. lia.
  - destruct P as (n & P & B). eexists. split; [exact P|]. unfold owed. lia.
Qed.

(** ---- listing volumes ---- *)
Definition zlen {A} (l : list A) : Z := Z.of_nat (List.length l).
Lemma item_net X h name b : let r := volume_item X h name b in net X h (fst r) (zlen (fst (snd r))).
Proof.
  cbv zeta. unfold volume_item. cbv zeta. set (v := firstn (wlen name) name). clearbody v.
  assert (N1 : net X h (h ++ [XPathNames v]) 0) by (apply net_one; reflexivity). set (h1 := (h ++ [XPathNames v])%list) in *. 
  match goal with |- context [match ?m with Ok _ => _ | Err _ => _ | Panic => _ | Fuel => _ end] => destruct m as [ms|e| |] end; try exact N1. clearbody h1.
  pose proof (net_snoc _ _ _ (XVolumeInfo v) _ 0 N1 eq_refl) as N2. generalize dependent (h1 ++ [XVolumeInfo v])%list. intros h2 N2.
  pose proof (net_snoc _ _ _ (XDriveType v) _ 0 N2 eq_refl) as N3. generalize dependent (h2 ++ [XDriveType v])%list. intros h3 N3.
  set (v1 := strip_backslashes v). clearbody v1.
  pose proof (net_snoc _ _ _ (XVolumeOpen v1) _ _ N3 eq_refl) as N4. cbn [change] in N4. generalize dependent (h3 ++ [XVolumeOpen v1])%list. intros h4 N4.
  destruct (x_vopen X h4) as [e|hd]; cbn [got] in N4; [exact N4|].
  match goal with |- context [(h4 ++ [XSys (WIo ?c)])%list] => pose proof (net_snoc _ _ _ (XSys (WIo c)) _ 0 N4 eq_refl) as N5; generalize dependent (h4 ++ [XSys (WIo c)])%list end. intros h5 N5.
  destruct (wa_err (x_io X h5) =? 0)%N; [|exact N5].
  match goal with |- context [extents_loop ?a ?b ?c] => destruct (extents_loop a b c) as [es|e| |] end; try exact N5.
  destruct es as [|e es]; [exact N5|].
  assert (N6 : net X h5 (fst (partition_info X h5 hd e)) 0) by (unfold partition_info; cbv zeta; destruct (wa_err _ =? 0)%N; cbn [fst]; apply net_one; reflexivity).
  destruct (partition_info X h5 hd e) as [h6 p]. cbn [fst snd] in *. eapply net_eq; [exact (net_trans _ _ _ _ _ _ N5 N6)|reflexivity].
Qed.
Lemma loop_net X fuel : forall h0 h f name b vs hs n, net X h0 h (n + zlen hs) -> let r := volume_loop X fuel h f name b vs hs in net X h0 (fst r) (n + zlen (fst (snd r))).
Proof.
  induction fuel as [|fu IH]; intros h0 h f name b vs hs n H; cbn [volume_loop]; cbv zeta in *; [exact H|].
  pose proof (item_net X h name b) as P. cbv zeta in P. destruct (volume_item X h name b) as [h1 [o r]]. cbn [fst snd] in P.
  assert (N1 : net X h0 h1 (n + zlen (hs ++ o))) by (eapply net_eq; [exact (net_trans _ _ _ _ _ _ H P)|unfold zlen; rewrite app_length; lia]).
  destruct r as [[v b1]|e| |]; try exact N1.
  assert (N2 : net X h0 (h1 ++ [XFindNext f]) (n + zlen (hs ++ o))) by (eapply net_eq; [apply (net_snoc _ _ _ _ _ 0 N1); reflexivity|lia]).
  generalize dependent (h1 ++ [XFindNext f])%list. intros h2 N2. destruct (x_next X h2); [exact N2|]. now apply IH.
Qed.
Lemma closes_net X hs : forall h, net X h (h ++ map (fun x => XSys (WClose x)) hs) (- zlen hs).
Proof.
  induction hs as [|hd hs IH]; intros h; [exists []; split; reflexivity|]. cbn [map]. replace (h ++ XSys (WClose hd) :: map (fun x => XSys (WClose x)) hs)%list with ((h ++ [XSys (WClose hd)]) ++ map (fun x => XSys (WClose x)) hs)%list by (rewrite <- app_assoc; reflexivity).
  eapply net_eq; [exact (net_trans _ _ _ _ _ _ (net_one X h (XSys (WClose hd)) (-1) eq_refl) (IH _))|]. unfold zlen. cbn [List.length]. lia.
Qed.
Lemma volumes_net X fuel h : let r := win_enum_volumes X fuel h in
  match snd r with
  | Fuel => exists n, net X h (fst r) n /\ 0 <= n
  | _ => net X h (fst r) 0
  end.
Proof.
  cbv zeta. unfold win_enum_volumes. cbv zeta. pose proof (net_one X h (XErrorMode 1) 0 eq_refl) as N1. set (prev := x_mode X _). clearbody prev. generalize dependent (h ++ [XErrorMode 1])%list. intros h1 N1.
  pose proof (net_snoc _ _ _ XFindFirst _ _ N1 eq_refl) as N2. cbn [change] in N2. generalize dependent (h1 ++ [XFindFirst])%list. intros h2 N2.
  destruct (x_first X h2) as [e|[f us]]; cbn [got] in N2; [cbn [fst snd]; exact (net_snoc _ _ _ (XErrorMode prev) _ 0 N2 eq_refl)|].
  match goal with |- context [volume_loop X fuel h2 f ?a ?b [] []] => pose proof (loop_net X fuel h h2 f a b [] [] (0 + 1)) as P; cbv zeta in P; destruct (volume_loop X fuel h2 f a b [] []) as [h3 [hs r]] end.
  cbn [fst snd] in P. specialize (P N2).
  assert (C : net X h (h3 ++ map (fun x => XSys (WClose x)) (rev hs) ++ [XFindClose f; XErrorMode prev]) 0).
  { pose proof (net_trans _ _ _ _ _ _ P (closes_net X (rev hs) h3)) as N3. rewrite app_assoc. generalize dependent (h3 ++ map (fun x => XSys (WClose x)) (rev hs))%list. intros h4 N3.
    pose proof (net_snoc _ _ _ (XErrorMode prev) _ 0 (net_snoc _ _ _ (XFindClose f) _ (-1) N3 eq_refl) eq_refl) as N4. rewrite <- app_assoc in N4. cbn [app] in N4. eapply net_eq; [exact N4|].
    unfold zlen. rewrite rev_length. lia. }
  destruct r; cbn [fst snd]; try exact C. eexists. split; [exact P|unfold zlen; lia].
Qed.

(** ---- calls on a handle ---- *)
Lemma mclose_net X h x : net X h (fst (mclose h x)) (if is_live x then -1 else 0) /\ is_live (snd (mclose h x)) = false.
Proof.
  unfold mclose, is_live. destruct (mh_dev x) as [d|] eqn:E; cbn [fst snd mh_dev].
  - split; [|reflexivity]. cbn [close_handle app map]. apply net_one. reflexivity.
  - rewrite E. split; [apply net_refl|reflexivity].
Qed.
Lemma mcall_net X h x o : o <> HClose -> net X h (fst (mcall X h x o)) 0 /\ is_live (snd (mcall X h x o)) = is_live x.
Proof.
  intros Hn. set (V := match mh_dev x with Some d => win_drv (wsys_at X h) (waddr_at X h) d [] | None => mno_drv end).
  assert (Q : mcall X h x o = (let '(cs, (p, _)) := hstep V (mh_dh x) [] o in
    (match mh_dev x with Some d => (h ++ map XSys (win_replay (wsys_at X h) (waddr_at X h) d [] cs))%list | None => h end,
     {| mh_path := mh_path x; mh_dh := p; mh_dev := mh_dev x |}))).
  { unfold mcall. fold V. destruct o; (reflexivity || congruence). }
  rewrite Q. pose proof (hstep_no_close V (mh_dh x) [] o Hn) as NC. destruct (hstep V (mh_dh x) [] o) as [cs [p out]]. cbn [fst snd] in *.
  destruct NC as (cs' & E0 & NC). cbn [app] in E0. subst cs'. unfold is_live. cbn [mh_dev]. split; [|reflexivity].
  destruct (mh_dev x) as [d|]; [|apply net_refl]. pose proof (net_ios X h [] _ _ (replay_ios (wsys_at X h) (waddr_at X h) d cs [] NC)) as N1. cbn [map] in N1. rewrite app_nil_r in N1. exact N1.
Qed.
