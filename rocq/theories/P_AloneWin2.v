(** Lemmas for C157: opening a drive on Windows depends on the system only at the requests it makes. *)
From Verif Require Import Base M_Buffer M_Struc M_Layouts M_Ata M_TcgDevice M_DriveHandle M_Cdb M_SgDriver M_SgHandle M_NvmeLinux M_Strings M_WinPass M_WinNvme M_WinInfo M_WinFactory
  P_DriveHandle P_Alone P_Alone2 P_AloneWin.
Notation wlen h := (@List.length wev h).

Lemma read_ioctl_len S h hd code inb : (wlen h <= wlen (fst (read_ioctl S h hd code inb)))%nat.
Proof.
  unfold read_ioctl. match goal with |- context [win_query S h ?a ?b ?c ?d] => pose proof (win_query_len S h a b c d) as L; destruct (win_query S h a b c d) as [h1 [a1 b1]] end. cbn [fst] in L. cbv zeta.
  destruct (wa_err a1 =? ERROR_INSUFFICIENT_BUFFER).
  - destruct (wa_ret a1 =? 0); [cbn [fst]; lia|].
    match goal with |- context [win_query S h1 ?a ?b ?c ?d] => pose proof (win_query_len S h1 a b c d) as L2; destruct (win_query S h1 a b c d) as [h2 [a2 b2]] end. cbn [fst] in L2.
    destruct (wa_err a2 =? 0); cbn [fst]; lia.
  - destruct (wa_err a1 =? 0); cbn [fst]; lia.
Qed.
Lemma read_ioctl_sh n S S' A A' h hd code inb h1 r : wagree n [] S S' A A' -> read_ioctl S' h hd code inb = (h1, r) -> (wlen h1 <= n)%nat -> read_ioctl S h hd code inb = (h1, r).
Proof.
  intros H. unfold read_ioctl. match goal with |- context [win_query S' h ?a ?b ?c ?d] => destruct (win_query S' h a b c d) as [h2 [a1 b1]] eqn:E1 end. cbv zeta. intros E L.
  assert (G : (wlen h2 <= n)%nat).
  { destruct (wa_err a1 =? ERROR_INSUFFICIENT_BUFFER).
    - destruct (wa_ret a1 =? 0); [injection E as <- _; exact L|].
      match type of E with context [win_query S' h2 ?a ?b ?c ?d] => pose proof (win_query_len S' h2 a b c d) as L2; destruct (win_query S' h2 a b c d) as [h3 [a2 b2]] end. cbn [fst] in L2.
      destruct (wa_err a2 =? 0); injection E as <- _; lia.
    - destruct (wa_err a1 =? 0); injection E as <- _; exact L. }
  pose proof (win_query_sh n [] S S' A A' _ _ _ _ _ _ _ H E1 G) as Q. cbn [app] in Q. rewrite Q. destruct (wa_err a1 =? ERROR_INSUFFICIENT_BUFFER); [|exact E].
  destruct (wa_ret a1 =? 0); [exact E|].
  match type of E with context [win_query S' h2 ?a ?b ?c ?d] => destruct (win_query S' h2 a b c d) as [h3 [a2 b2]] eqn:E2 end.
  assert (G2 : (wlen h3 <= n)%nat) by (destruct (wa_err a2 =? 0); injection E as <- _; exact L).
  pose proof (win_query_sh n [] S S' A A' _ _ _ _ _ _ _ H E2 G2) as Q2. cbn [app] in Q2. rewrite Q2. exact E.
Qed.
Lemma basic_len S h hd : (wlen h <= wlen (fst (win_basic_info S h hd)))%nat.
Proof.
  unfold win_basic_info. match goal with |- context [win_query S h ?a ?b ?c ?d] => pose proof (win_query_len S h a b c d) as L1; destruct (win_query S h a b c d) as [h1 [a1 b1]] end. cbn [fst] in L1.
  match goal with |- context [win_query S h1 ?a ?b ?c ?d] => pose proof (win_query_len S h1 a b c d) as L2; destruct (win_query S h1 a b c d) as [h2 [a2 b2]] end. cbn [fst] in L2.
  match goal with |- context [read_ioctl S h2 ?a ?b ?c] => pose proof (read_ioctl_len S h2 a b c) as L3; destruct (read_ioctl S h2 a b c) as [h3 r] end. cbn [fst] in L3. cbv zeta.
  assert (G : (wlen h <= wlen h3)%nat) by lia. destruct r as [[buf k]|e| |]; try exact G. destruct (layout_info _ _) as [[[[a b] c] d]|e| |]; exact G.
Qed.
Lemma basic_sh n S S' A A' h hd h1 r : wagree n [] S S' A A' -> win_basic_info S' h hd = (h1, r) -> (wlen h1 <= n)%nat -> win_basic_info S h hd = (h1, r).
Proof.
  intros H. unfold win_basic_info. match goal with |- context [win_query S' h ?a ?b ?c ?d] => destruct (win_query S' h a b c d) as [h2 [a1 b1]] eqn:E1 end.
  match goal with |- context [win_query S' h2 ?a ?b ?c ?d] => pose proof (win_query_len S' h2 a b c d) as L2; destruct (win_query S' h2 a b c d) as [h3 [a2 b2]] eqn:E2 end. cbn [fst] in L2.
  match goal with |- context [read_ioctl S' h3 ?a ?b ?c] => pose proof (read_ioctl_len S' h3 a b c) as L3; destruct (read_ioctl S' h3 a b c) as [h4 q] eqn:E3 end. cbn [fst] in L3. cbv zeta. intros E L.
  assert (h4 = h1) as -> by (destruct q as [[buf k]|e| |]; try (injection E as <- _; reflexivity); destruct (layout_info _ _) as [[[[a b] c] d]|e| |]; injection E as <- _; reflexivity).
  assert (G1 : (wlen h2 <= n)%nat) by lia. assert (G2 : (wlen h3 <= n)%nat) by lia.
  pose proof (win_query_sh n [] S S' A A' _ _ _ _ _ _ _ H E1 G1) as Q1. pose proof (win_query_sh n [] S S' A A' _ _ _ _ _ _ _ H E2 G2) as Q2. cbn [app] in Q1, Q2. rewrite Q1, Q2.
  rewrite (read_ioctl_sh n S S' A A' _ _ _ _ _ _ H E3 L). exact E.
Qed.
Lemma storage_sh n S S' A A' h hd h1 r : wagree n [] S S' A A' -> win_storage_query S' h hd = (h1, r) -> (wlen h1 <= n)%nat -> win_storage_query S h hd = (h1, r).
Proof.
  intros H. unfold win_storage_query. match goal with |- context [read_ioctl S' h ?a ?b ?c] => destruct (read_ioctl S' h a b c) as [h4 q] eqn:E3 end. intros E L.
  assert (h4 = h1) as ->.
  { destruct q as [[buf k]|e| |]; try (injection E as <- _; reflexivity). destruct (k =? 0); [injection E as <- _; reflexivity|]. destruct (_ <? 36)%nat; [injection E as <- _; reflexivity|]. cbv zeta in E.
    destruct (read_ascii _ _); try (injection E as <- _; reflexivity). destruct (read_ascii _ (le_val (slice 16 4 buf))); try (injection E as <- _; reflexivity).
    destruct (read_ascii _ (le_val (slice 24 4 buf))); try (injection E as <- _; reflexivity). destruct (read_ascii _ (le_val (slice 20 4 buf))); injection E as <- _; reflexivity. }
  rewrite (read_ioctl_sh n S S' A A' _ _ _ _ _ _ H E3 L). exact E.
Qed.
Lemma storage_len S h hd : (wlen h <= wlen (fst (win_storage_query S h hd)))%nat.
Proof.
  unfold win_storage_query. match goal with |- context [read_ioctl S h ?a ?b ?c] => pose proof (read_ioctl_len S h a b c) as L; destruct (read_ioctl S h a b c) as [h4 q] end. cbn [fst] in L.
  destruct q as [[buf k]|e| |]; try exact L. destruct (k =? 0); [exact L|]. destruct (_ <? 36)%nat; [exact L|]. cbv zeta.
  destruct (read_ascii _ _); try exact L. destruct (read_ascii _ (le_val (slice 16 4 buf))); try exact L. destruct (read_ascii _ (le_val (slice 24 4 buf))); try exact L.
  destruct (read_ascii _ (le_val (slice 20 4 buf))); exact L.
Qed.

(** ---- the four probes ---- *)
Lemma scsi_path_len S h hd : wlen (fst (get_scsi_path S h hd)) = Datatypes.S (wlen h).
Proof. unfold get_scsi_path. match goal with |- context [win_same S h ?a ?b ?c] => pose proof (win_same_len S h a b c) as L; destruct (win_same S h a b c) as [h1 [[e|] o]] end; exact L. Qed.
Lemma scsi_path_sh n S S' A A' h hd h1 r : wagree n [] S S' A A' -> get_scsi_path S' h hd = (h1, r) -> (wlen h1 <= n)%nat -> get_scsi_path S h hd = (h1, r).
Proof.
  intros H. unfold get_scsi_path. match goal with |- context [win_same S' h ?a ?b ?c] => destruct (win_same S' h a b c) as [h2 [e o]] eqn:E1 end. intros E L.
  assert (h2 = h1) as -> by (destruct e; injection E as <- _; reflexivity). pose proof (win_same_sh n [] S S' A A' _ _ _ _ _ _ H E1 L) as Q. cbn [app] in Q. rewrite Q. exact E.
Qed.
Lemma mini_identity_len S h hd : wlen (fst (miniport_identity S h hd)) = Datatypes.S (wlen h).
Proof. unfold miniport_identity. match goal with |- context [win_same S h ?a ?b ?c] => pose proof (win_same_len S h a b c) as L; destruct (win_same S h a b c) as [h1 [[e|] o]] end; exact L. Qed.
Lemma mini_identity_sh n S S' A A' h hd h1 r : wagree n [] S S' A A' -> miniport_identity S' h hd = (h1, r) -> (wlen h1 <= n)%nat -> miniport_identity S h hd = (h1, r).
Proof.
  intros H. unfold miniport_identity. match goal with |- context [win_same S' h ?a ?b ?c] => destruct (win_same S' h a b c) as [h2 [e o]] eqn:E1 end. intros E L.
  assert (h2 = h1) as -> by (destruct e; injection E as <- _; reflexivity). pose proof (win_same_sh n [] S S' A A' _ _ _ _ _ _ H E1 L) as Q. cbn [app] in Q. rewrite Q. exact E.
Qed.
Lemma nvmewin_len S h hd : (wlen h <= wlen (fst (nvmewin_open S h hd)))%nat.
Proof.
  unfold nvmewin_open. pose proof (scsi_path_len S h hd) as L1. destruct (get_scsi_path S h hd) as [h1 [p|e| |]]; cbn [fst] in *; try lia.
  pose proof (open_device_len S h1 p) as L2. destruct (open_device S h1 p) as [h2 [e|sh]]; cbn [fst] in *; [lia|].
  pose proof (mini_identity_len S h2 sh) as L3. destruct (miniport_identity S h2 sh) as [h3 [i|e| |]]; cbn [fst] in *; try lia; [destruct (negb _); cbn [fst]; [|lia]|]; unfold close_handle; rewrite app_length; cbn; lia.
Qed.
Lemma nvmewin_sh n S S' A A' h hd h1 r : wagree n [] S S' A A' -> nvmewin_open S' h hd = (h1, r) -> (wlen h1 <= n)%nat -> nvmewin_open S h hd = (h1, r).
Proof.
  intros H. unfold nvmewin_open. destruct (get_scsi_path S' h hd) as [h2 q] eqn:E1. intros E L.
  assert (G1 : (wlen h2 <= n)%nat).
  { destruct q as [p|e| |]; try (injection E as <- _; exact L). pose proof (open_device_len S' h2 p) as L2. destruct (open_device S' h2 p) as [h3 [e|sh]]; cbn [fst] in *; [injection E as <- _; lia|].
    pose proof (mini_identity_len S' h3 sh) as L3. destruct (miniport_identity S' h3 sh) as [h4 [i|e| |]]; cbn [fst] in *; [destruct (negb _)|..]; injection E as <- _; unfold close_handle in L; rewrite ?app_length in L; lia. }
  rewrite (scsi_path_sh n S S' A A' _ _ _ _ H E1 G1). destruct q as [p|e| |]; try exact E.
  destruct (open_device S' h2 p) as [h3 o] eqn:E2.
  assert (G2 : (wlen h3 <= n)%nat).
  { destruct o as [e|sh]; [injection E as <- _; exact L|].
    pose proof (mini_identity_len S' h3 sh) as L3. destruct (miniport_identity S' h3 sh) as [h4 [i|e| |]]; cbn [fst] in *; [destruct (negb _)|..]; injection E as <- _; unfold close_handle in L; rewrite ?app_length in L; lia. }
  pose proof (open_device_sh n [] S S' A A' _ _ _ _ H E2 G2) as Q. cbn [app] in Q. rewrite Q. destruct o as [e|sh]; [exact E|].
  destruct (miniport_identity S' h3 sh) as [h4 i] eqn:E3.
  assert (G3 : (wlen h4 <= n)%nat) by (destruct i as [i|e| |]; [destruct (negb _)|..]; injection E as <- _; unfold close_handle in L; rewrite ?app_length in L; lia).
  rewrite (mini_identity_sh n S S' A A' _ _ _ _ H E3 G3). exact E.
Qed.
Lemma winnvme_len S h hd : (wlen h <= wlen (fst (winnvme_open S h hd)))%nat.
Proof.
  unfold winnvme_open, winnvme_identity. match goal with |- context [win_same S h ?a ?b ?c] => pose proof (win_same_len S h a b c) as L; destruct (win_same S h a b c) as [h1 [[e|] o]] end; cbn [fst] in *; [lia|]. destruct (negb _); cbn [fst]; lia.
Qed.
Lemma winnvme_sh n S S' A A' h hd h1 r : wagree n [] S S' A A' -> winnvme_open S' h hd = (h1, r) -> (wlen h1 <= n)%nat -> winnvme_open S h hd = (h1, r).
Proof.
  intros H. unfold winnvme_open, winnvme_identity. match goal with |- context [win_same S' h ?a ?b ?c] => destruct (win_same S' h a b c) as [h2 [e o]] eqn:E1 end. intros E L.
  assert (h2 = h1) as -> by (destruct e; [|destruct (negb _)]; injection E as <- _; reflexivity). pose proof (win_same_sh n [] S S' A A' _ _ _ _ _ _ H E1 L) as Q. cbn [app] in Q. rewrite Q. exact E.
Qed.
Lemma finish_fst r : fst (finish_open r) = fst r.
Proof. destruct r as [h [[[e|] d]|e| |]]; reflexivity. Qed.
Lemma finish_eq r : finish_open r = (fst r, snd (finish_open r)).
Proof. destruct r as [h [[[e|] d]|e| |]]; reflexivity. Qed.
Lemma probe_len S A h hd k : (wlen h <= wlen (fst (win_probe S A h hd k)))%nat.
Proof.
  unfold win_probe. destruct k; cbv zeta.
  - pose proof (nvmewin_len S h hd) as L. destruct (nvmewin_open S h hd) as [h1 [[sh i]|e| |]]; exact L.
  - pose proof (winnvme_len S h hd) as L. destruct (winnvme_open S h hd) as [h1 x]. exact L.
  - assert (L : (wlen h <= wlen (fst (win_scsi_open S h hd (ad_data A h) (ad_bounce A h))))%nat) by (unfold win_scsi_open, win_task_file; rewrite finish_fst; apply win_scsi_len).
    destruct (win_scsi_open _ _ _ _ _) as [h1 x]. exact L.
  - assert (L : (wlen h <= wlen (fst (win_ata_open S h hd (ad_data A h) (ad_bounce A h))))%nat) by (unfold win_ata_open; rewrite finish_fst; apply win_ata_len).
    destruct (win_ata_open _ _ _ _ _) as [h1 x]. exact L.
Qed.
Lemma probe_sh n S S' A A' h hd k h1 r : wagree n [] S S' A A' -> win_probe S' A' h hd k = (h1, r) -> (wlen h1 <= n)%nat -> win_probe S A h hd k = (h1, r).
Proof.
  intros H. assert (HA : (wlen h < n)%nat -> ad_data A h = ad_data A' h /\ ad_bounce A h = ad_bounce A' h).
  { intros L. split; [apply (wg_data _ _ _ _ _ _ H h)|apply (wg_bounce _ _ _ _ _ _ H h)]; exact L. }
  unfold win_probe. destruct k; cbv zeta; intros E L.
  - destruct (nvmewin_open S' h hd) as [h2 x] eqn:E1. assert (h2 = h1) as -> by (injection E as <- _; reflexivity). rewrite (nvmewin_sh n S S' A A' _ _ _ _ H E1 L). exact E.
  - destruct (winnvme_open S' h hd) as [h2 x] eqn:E1. assert (h2 = h1) as -> by (injection E as <- _; reflexivity). rewrite (winnvme_sh n S S' A A' _ _ _ _ H E1 L). exact E.
  - unfold win_scsi_open, win_task_file in *.
    match type of E with context [win_scsi S' h ?q ?a ?b ?c ?d ?e ?g] => destruct (win_scsi S' h q a b c d e g) as [h2 x] eqn:E1 end.
    assert (h2 = h1) as -> by (destruct x as [[[e|] d]|e| |]; injection E as <- _; reflexivity).
    pose proof (win_scsi_sh n [] S S' A A' _ _ _ _ _ _ _ _ _ _ _ _ H E1 L HA) as Q. cbn [app] in Q. rewrite Q. exact E.
  - unfold win_ata_open in *.
    match type of E with context [win_ata S' h ?q ?a ?b ?c ?d ?e ?g ?z] => destruct (win_ata S' h q a b c d e g z) as [h2 x] eqn:E1 end.
    assert (h2 = h1) as -> by (destruct x as [[[e|] d]|e| |]; injection E as <- _; reflexivity).
    pose proof (win_ata_sh n [] S S' A A' _ _ _ _ _ _ _ _ _ _ _ _ _ H E1 L HA) as Q. cbn [app] in Q. rewrite Q. exact E.
Qed.
Lemma install_fst S A h x d : fst (win_install S A h x d) = win_replay S A d h (fst (init (win_drv S A d h) {| p_dh := Some (win_dtype (wd_kind d)); p_info := p_info (f_dh x) |} [CType; CName])).
Proof. unfold win_install. cbv zeta. destruct (init _ _ _) as [cs [p r]]. destruct r; reflexivity. Qed.
Lemma install_len S A h x d : (wlen h <= wlen (fst (win_install S A h x d)))%nat.
Proof. rewrite install_fst. apply win_replay_len. Qed.
Lemma winstall_sh n S S' A A' h x d h1 r : wagree n [] S S' A A' -> win_install S' A' h x d = (h1, r) -> (wlen h1 <= n)%nat -> win_install S A h x d = (h1, r).
Proof.
  intros H E L. pose proof (install_fst S' A' h x d) as F. rewrite E in F. cbn [fst] in F.
  set (p0 := {| p_dh := Some (win_dtype (wd_kind d)); p_info := p_info (f_dh x) |}) in *. set (V' := win_drv S' A' d h) in *.
  assert (G : wagree (wlen (win_replay S' A' d h (fst (init V' p0 [CType; CName])))) [] S S' A A') by (rewrite <- F; exact (wagree_le _ _ _ _ _ _ _ H L)).
  pose proof (init_sh (win_drv S A d h) V' [] p0 [CType; CName] (win_drv_sees S S' A A' d h h [] _ [] eq_refl G)) as I. cbn [app] in I.
  assert (R : win_replay S A d h (fst (init V' p0 [CType; CName])) = win_replay S' A' d h (fst (init V' p0 [CType; CName]))) by (apply (win_replay_sh _ [] S S' A A' d h _ G), Nat.le_refl).
  unfold win_install in *. cbv zeta in *. fold p0 in E |- *. fold V' in E. rewrite I. destruct (init V' p0 [CType; CName]) as [cs [p q]]. cbn [fst snd] in *. rewrite R. exact E.
Qed.
Lemma probes_len S A hd x ks : forall h, (wlen h <= wlen (fst (win_probes S A h hd x ks)))%nat.
Proof.
  induction ks as [|k ks IH]; intros h; cbn [win_probes]; [apply Nat.le_refl|]. pose proof (probe_len S A h hd k) as L. destruct (win_probe S A h hd k) as [h1 [d|e| |]]; cbn [fst] in *; try exact L.
  - pose proof (install_len S A h1 x d) as L2. destruct (win_install S A h1 x d) as [h2 [y|e| |]]; cbn [fst] in *; lia.
  - exact (Nat.le_trans _ _ _ L (IH _)).
Qed.
Lemma probes_sh n S S' A A' hd x ks : wagree n [] S S' A A' -> forall h h1 r, win_probes S' A' h hd x ks = (h1, r) -> (wlen h1 <= n)%nat -> win_probes S A h hd x ks = (h1, r).
Proof.
  intros H. induction ks as [|k ks IH]; intros h h1 r; cbn [win_probes]; [auto|]. destruct (win_probe S' A' h hd k) as [h2 q] eqn:E1. intros E L.
  assert (G : (wlen h2 <= n)%nat).
  { destruct q as [d|e| |]; try (injection E as <- _; exact L).
    - pose proof (install_len S' A' h2 x d) as L2. destruct (win_install S' A' h2 x d) as [h3 [y|e| |]]; cbn [fst] in *; injection E as <- _; lia.
    - pose proof (probes_len S' A' hd x ks h2) as L2. rewrite E in L2. cbn [fst] in L2. lia. }
  rewrite (probe_sh n S S' A A' _ _ _ _ _ H E1 G). destruct q as [d|e| |]; try exact E.
  - destruct (win_install S' A' h2 x d) as [h3 y] eqn:E2. assert (h3 = h1) as -> by (destruct y; injection E as <- _; reflexivity).
    rewrite (winstall_sh n S S' A A' _ _ _ _ _ H E2 L). exact E.
  - exact (IH _ _ _ E L).
Qed.
Lemma open_handle_len S A h hd path : (wlen h <= wlen (fst (win_open_by_handle S A h hd path)))%nat.
Proof.
  unfold win_open_by_handle. pose proof (basic_len S h hd) as L1. destruct (win_basic_info S h hd) as [h1 [b|e| |]]; cbn [fst] in *; try exact L1. cbv zeta.
  pose proof (probes_len S A hd (whandle0 path b) win_drivers h1) as L2. destruct (win_probes S A h1 hd (whandle0 path b) win_drivers) as [h2 [[y|]|e| |]]; cbn [fst] in *; try lia.
  pose proof (storage_len S h2 hd) as L3. destruct (win_storage_query S h2 hd) as [h3 q]. cbn [fst] in *. lia.
Qed.
Lemma open_handle_sh n S S' A A' h hd path h1 r : wagree n [] S S' A A' -> win_open_by_handle S' A' h hd path = (h1, r) -> (wlen h1 <= n)%nat -> win_open_by_handle S A h hd path = (h1, r).
Proof.
  intros H. unfold win_open_by_handle. destruct (win_basic_info S' h hd) as [h2 q] eqn:E1. cbv zeta. intros E L.
  assert (G : (wlen h2 <= n)%nat).
  { destruct q as [b|e| |]; try (injection E as <- _; exact L).
    pose proof (probes_len S' A' hd (whandle0 path b) win_drivers h2) as L2. destruct (win_probes S' A' h2 hd (whandle0 path b) win_drivers) as [h3 [[y|]|e| |]]; cbn [fst] in *; try (injection E as <- _; lia).
    pose proof (storage_len S' h3 hd) as L3. destruct (win_storage_query S' h3 hd) as [h4 z]. cbn [fst] in *. injection E as <- _. lia. }
  rewrite (basic_sh n S S' A A' _ _ _ _ H E1 G). destruct q as [b|e| |]; try exact E.
  destruct (win_probes S' A' h2 hd (whandle0 path b) win_drivers) as [h3 y] eqn:E2.
  assert (G2 : (wlen h3 <= n)%nat).
  { destruct y as [[y|]|e| |]; try (injection E as <- _; exact L). pose proof (storage_len S' h3 hd) as L3. destruct (win_storage_query S' h3 hd) as [h4 z]. cbn [fst] in *. injection E as <- _. lia. }
  rewrite (probes_sh n S S' A A' hd _ _ H _ _ _ E2 G2). destruct y as [[y|]|e| |]; try exact E.
  destruct (win_storage_query S' h3 hd) as [h4 z] eqn:E3. assert (h4 = h1) as -> by (injection E as <- _; reflexivity). rewrite (storage_sh n S S' A A' _ _ _ _ H E3 L). exact E.
Qed.
Lemma open_path_sh n S S' A A' h path h1 r : wagree n [] S S' A A' -> win_open_by_path S' A' h path = (h1, r) -> (wlen h1 <= n)%nat -> win_open_by_path S A h path = (h1, r).
Proof.
  intros H. unfold win_open_by_path. destruct (existsb (N.eqb 0) path); [auto|]. destruct (open_device S' h path) as [h2 o] eqn:E1. intros E L.
  assert (X : match o with inl _ => (wlen h2 <= n)%nat | inr hd => forall h3 q, win_open_by_handle S' A' h2 hd path = (h3, q) -> (wlen h3 <= n)%nat end).
  { destruct o as [e|hd]; [injection E as <- _; exact L|]. intros h3 q Eq. rewrite Eq in E. destruct q; injection E as <- _; unfold close_handle in L; rewrite ?app_length in L; lia. }
  assert (G : (wlen h2 <= n)%nat).
  { destruct o as [e|hd]; [exact X|]. pose proof (open_handle_len S' A' h2 hd path) as L2. destruct (win_open_by_handle S' A' h2 hd path) as [h3 q]. cbn [fst] in L2. pose proof (X _ _ eq_refl). lia. }
  pose proof (open_device_sh n [] S S' A A' _ _ _ _ H E1 G) as Q. cbn [app] in Q. rewrite Q. destruct o as [e|hd]; [exact E|].
  destruct (win_open_by_handle S' A' h2 hd path) as [h3 q] eqn:E2. rewrite (open_handle_sh n S S' A A' _ _ _ _ _ H E2 (X _ _ eq_refl)). exact E.
Qed.
