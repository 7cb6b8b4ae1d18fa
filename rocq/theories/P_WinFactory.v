(** Lemmas about the Windows drive factory. *)
From Verif Require Import Base M_Buffer M_Struc M_Ata M_TcgDevice M_DriveHandle M_SgDriver M_Strings M_LinuxFactory M_WinPass M_WinNvme M_WinInfo M_WinFactory
  Spec_Drive Spec_WinPass Spec_WinInfo Spec_LinuxFactory Spec_WinFactory P_DriveHandle P_LinuxFactory P_Discovery P_WinPass P_WinNvme P_WinInfo
  Prop_WinPass Prop_WinNvme Prop_WinDrive.

Lemma identity_of_len d : List.length (identity_of d) = 512%nat.
Proof. unfold identity_of. destruct (snd _); rewrite ?fill_length; apply repeat_length. Qed.

Lemma finish_total S h hd rw cdb data addr baddr secs h' r : data <> [] -> (List.length cdb <= 16)%nat ->
  finish_open (win_scsi S h hd rw cdb data addr baddr secs) = (h', r) ->
  (exists e, r = Err e) \/ (exists id, r = Ok id /\ List.length id = 512%nat).
Proof.
  intros Hd Hc H. rewrite win_scsi_closed in H by assumption. cbv zeta in H.
  repeat match type of H with context [if ?c then _ else _] => destruct c end; cbn [finish_open] in H;
  repeat match type of H with context [match ?e with None => _ | _ => _ end] => destruct e end; inversion H; subst; eauto;
  right; eexists; (split; [reflexivity|]); apply identity_of_len.
Qed.
Lemma ata_open_total S h hd addr baddr h' r : win_ata_open S h hd addr baddr = (h', r) ->
  (exists e, r = Err e) \/ (exists id, r = Ok id /\ List.length id = 512%nat).
Proof.
  intros H. unfold win_ata_open in H. destruct (win_ata S h hd false false win_identify_tf (a_data (new_aligned 512)) addr baddr 10) as [hx rx] eqn:E.
  change (a_data (new_aligned 512)) with (zeros 512) in E.
  pose proof (C85_ata_panics _ _ _ _ _ _ _ _ _ _ _ _ wf_identify E) as [_ P]. destruct (P ltac:(discriminate)) as (e & d & -> & Ld).
  cbn [finish_open] in H. destruct e; inversion H; subst; eauto. right. eexists. split; [reflexivity|]. apply identity_of_len.
Qed.
Lemma scsi_open_total S h hd addr baddr h' r : win_scsi_open S h hd addr baddr = (h', r) ->
  (exists e, r = Err e) \/ (exists id, r = Ok id /\ List.length id = 512%nat).
Proof.
  intros H. unfold win_scsi_open, win_task_file in H. change (win_task_cdb win_identify_tf) with [0xA1; 0; 0; 0; 0; 0; 0; 0; 0; 0xEC; 0; 0] in H.
  eapply finish_total; [| |exact H]; [discriminate|cbn [List.length]; lia].
Qed.
Lemma winnvme_open_total S h hd h' r : winnvme_open S h hd = (h', r) ->
  (exists e, r = Err e) \/ (exists id, r = Ok id /\ blen id = 4096).
Proof.
  intros H. unfold winnvme_open, winnvme_identity in H. destruct (win_same _ _ _ _ _) as [h1 [e out]].
  destruct e; [inversion H; subst; eauto|]. destruct (N.eqb_spec (blen (slice 48 page out)) 4096) as [L|L]; cbn [negb] in H; inversion H; subst; eauto.
Qed.
Lemma nvmewin_open_total S h hd h' r : nvmewin_open S h hd = (h', r) ->
  (exists e, r = Err e) \/ (exists sh id, r = Ok (sh, id) /\ blen id = 4096).
Proof.
  intros H. unfold nvmewin_open, get_scsi_path, miniport_identity in H. destruct (win_same S h _ _ _) as [h1 [e out]].
  destruct e; [inversion H; subst; eauto|]. destruct (open_device S h1 _) as [h2 o]. destruct o as [x|sh]; [inversion H; subst; eauto|].
  destruct (win_same S h2 _ _ _) as [h3 [e2 out2]]. destruct e2; [inversion H; subst; eauto|].
  destruct (N.eqb_spec (blen (slice 152 page out2)) 4096) as [L|L]; cbn [negb] in H; inversion H; subst; eauto.
Qed.

(** A driver accepts, with a handle of its own kind and an identity of full length, or returns an error. *)
Definition full_identity (d : wdh) : Prop :=
  match wd_kind d with KScsi | KAta => List.length (wd_identity d) = 512%nat | _ => blen (wd_identity d) = 4096 end.
Lemma probe_total S A h hd k h' r : win_probe S A h hd k = (h', r) ->
  (exists e, r = Err e) \/ (exists d, r = Ok d /\ wd_kind d = k /\ wd_handle d = hd /\ full_identity d).
Proof.
  intros H. unfold full_identity. unfold win_probe in H. destruct k; cbv zeta in H.
  - destruct (nvmewin_open S h hd) as (h1, x) eqn:E. destruct (nvmewin_open_total _ _ _ _ _ E) as [(e & ->)|(sh & id & -> & L)]; inversion H; subst; eauto.
    right. eexists. split; [reflexivity|]. auto.
  - destruct (winnvme_open S h hd) as (h1, x) eqn:E. destruct (winnvme_open_total _ _ _ _ _ E) as [(e & ->)|(id & -> & L)]; inversion H; subst; eauto.
    right. eexists. split; [reflexivity|]. auto.
  - destruct (win_scsi_open S h hd _ _) as (h1, x) eqn:E. destruct (scsi_open_total _ _ _ _ _ _ _ E) as [(e & ->)|(id & -> & L)]; inversion H; subst; eauto.
    right. eexists. split; [reflexivity|]. auto.
  - destruct (win_ata_open S h hd _ _) as (h1, x) eqn:E. destruct (ata_open_total _ _ _ _ _ _ _ E) as [(e & ->)|(id & -> & L)]; inversion H; subst; eauto.
    right. eexists. split; [reflexivity|]. auto.
Qed.

Lemma no_close_count cs : ~ In CClose cs -> filter is_close cs = [].
Proof.
  induction cs as [|c cs IH]; intros N; [reflexivity|]. cbn [filter]. destruct c; cbn [is_close]; try (apply IH; intros X; apply N; now right).
  exfalso. apply N. now left.
Qed.

(** what install leaves alone *)
Definition kept_fields (x x' : whandle) : Prop :=
  f_removable x' = f_removable x /\ f_style x' = f_style x /\ f_gpt x' = f_gpt x /\ f_mbr x' = f_mbr x /\ f_parts x' = f_parts x /\
  f_devnum x' = f_devnum x /\ f_capacity x' = f_capacity x /\ f_vendor x' = f_vendor x /\ f_revision x' = f_revision x /\ f_drive_type x' = f_drive_type x /\
  i_path (p_info (f_dh x')) = i_path (p_info (f_dh x)).
Lemma install_win S A h x d h' r : List.length (i_raw_serial (p_info (f_dh x))) = 20%nat -> full_identity d -> win_install S A h x d = (h', r) ->
  exists cs, ~ In CClose cs /\ h' = win_replay S A d h ([CType; CName] ++ cs) /\
  ((r = Panic /\ malformed_discovery {| o_drv := win_drv S A d h; o_type := win_dtype (wd_kind d) |}) \/
   (exists x', r = Ok x' /\ kept_fields x x' /\ driven x' d h cs /\ identified x' d)).
Proof.
  intros Hs Hf H. unfold win_install in H. cbv zeta in H.
  set (V := win_drv S A d h) in *. set (p := {| p_dh := Some _; p_info := _ |}) in *.
  destruct (init V p [CType; CName]) as [calls [p' q]] eqn:E.
  pose proof (init_general V (win_dtype (wd_kind d)) p _ _ _ _ eq_refl Hs E) as (D & L & Pa & (cs & Hc & Nc) & R & T). cbv zeta in T.
  exists cs. split; [exact Nc|]. subst calls.
  change (v_identity V (([CType; CName]) ++ [CIdentity])) with (wd_identity d) in T. destruct T as (Ta & Tn & _).
  assert (X : q = Panic /\ malformed_discovery {| o_drv := V; o_type := win_dtype (wd_kind d) |} /\ (h', r) = (win_replay S A d h ([CType; CName] ++ cs), Panic) \/
              exists u, (q = Ok u \/ exists e, q = Err e) /\
              (h', r) = (win_replay S A d h ([CType; CName] ++ cs),
                 Ok {| f_dh := p'; f_drv := Some (d, h, [CType; CName] ++ cs); f_driving := v_type V [CType]; f_driver_name := v_name V [CType; CName];
               f_removable := f_removable x; f_style := f_style x; f_gpt := f_gpt x; f_mbr := f_mbr x; f_parts := f_parts x;
               f_devnum := f_devnum x; f_capacity := f_capacity x; f_vendor := f_vendor x; f_revision := f_revision x; f_drive_type := f_drive_type x |})).
  { destruct R as [-> |[(e & ->)|(-> & M)]]; [right; exists tt|right; exists tt|left]; eauto. }
  destruct X as [(-> & M & X)|(u & _ & X)]; apply pair_equal_spec in X as [-> ->]; (split; [reflexivity|]).
  - left. auto.
  - right. eexists. split; [reflexivity|]. split; [repeat split; exact Pa|]. split.
    + split; [exact D|]. split; [reflexivity|]. split; [exact Nc|]. cbn [f_driving f_driver_name]. unfold V, win_drv. cbn [v_type v_name]. destruct (wd_kind d); split; reflexivity.
    + unfold identified, full_identity in *. cbn [f_dh]. destruct (wd_kind d).
      1,2: destruct (Tn eq_refl) as (F1 & F2 & F3 & F4 & F5 & _); [lia|]; unfold nvme_texts; auto.
      all: destruct (Ta eq_refl) as (F1 & F2 & F3 & F4 & _); [lia|]; unfold ata_texts; auto.
Qed.

(** The probing loop. *)
Lemma probes_spec S A hd x ks : List.length (i_raw_serial (p_info (f_dh x))) = 20%nat -> forall h h' r, win_probes S A h hd x ks = (h', r) ->
  (refused S A hd h ks h' /\ r = Ok None) \/
  (exists before k after h1 d h2 cs, ks = before ++ k :: after /\ refused S A hd h before h1 /\ win_probe S A h1 hd k = (h2, Ok d) /\
     wd_kind d = k /\ wd_handle d = hd /\ ~ In CClose cs /\ h' = win_replay S A d h2 ([CType; CName] ++ cs) /\
     ((r = Panic /\ malformed_discovery {| o_drv := win_drv S A d h2; o_type := win_dtype (wd_kind d) |}) \/
      (exists x', r = Ok (Some x') /\ kept_fields x x' /\ driven x' d h2 cs /\ identified x' d))).
Proof.
  intros Hs. induction ks as [|k ks IH]; intros h h' r H; cbn [win_probes] in H.
  - injection H as <- <-. left. split; [constructor|reflexivity].
  - destruct (win_probe S A h hd k) as (h1, q) eqn:E. destruct (probe_total _ _ _ _ _ _ _ E) as [(e & ->)|(d & -> & Ek & Eh & Ef)].
    + destruct (IH _ _ _ H) as [[R ->]|(before & k' & after & g & d & h2 & cs & Eq & R & P & X)].
      * left. split; [|reflexivity]. econstructor; eassumption.
      * right. exists (k :: before), k', after, g, d, h2, cs. subst ks. split; [reflexivity|]. split; [econstructor; eassumption|]. auto.
    + right. destruct (win_install S A h1 x d) as (h2, q2) eqn:E2. destruct (install_win _ _ _ _ _ _ _ Hs Ef E2) as (cs & Nc & -> & X).
      exists [], k, ks, h, d, h1, cs. split; [reflexivity|]. split; [constructor|]. split; [exact E|]. split; [exact Ek|]. split; [exact Eh|]. split; [exact Nc|].
      destruct X as [[-> M]|(x' & -> & X)]; injection H as <- <-; (split; [reflexivity|]); [left|right]; eauto.
Qed.

Lemma to_int64_spec n : n < 2 ^ 64 -> (-2 ^ 63 <= to_int64 n < 2 ^ 63)%Z /\ (to_int64 n mod 2 ^ 64)%Z = Z.of_N n.
Proof.
  intros H. unfold to_int64. assert (Z.of_N n < 2 ^ 64)%Z by (change (2 ^ 64)%Z with (Z.of_N (2 ^ 64)); lia).
  destruct (N.ltb_spec n (2 ^ 63)) as [L|L].
  - assert (Z.of_N n < 2 ^ 63)%Z by (change (2 ^ 63)%Z with (Z.of_N (2 ^ 63)); lia). split; [split; [|assumption]|].
    + apply (Z.le_trans _ 0); [discriminate|apply N2Z.is_nonneg].
    + apply Z.mod_small. split; [apply N2Z.is_nonneg|assumption].
  - assert (2 ^ 63 <= Z.of_N n)%Z by (change (2 ^ 63)%Z with (Z.of_N (2 ^ 63)); lia). change (2 ^ 64)%Z with (2 * 2 ^ 63)%Z in *. split; [lia|].
    replace (Z.of_N n - 2 * 2 ^ 63)%Z with (Z.of_N n + (-1) * (2 * 2 ^ 63))%Z by lia. rewrite Z_mod_plus_full. apply Z.mod_small. lia.
Qed.
Lemma about_handle0 path b : about_disk (whandle0 path b) path b.
Proof.
  unfold about_disk, whandle0. cbn [f_dh p_info i_path f_style f_gpt f_mbr f_parts f_devnum f_capacity]. repeat (split; [reflexivity|]).
  destruct (wb_size b); [|reflexivity]. intros H. now apply to_int64_spec.
Qed.
Lemma about_kept x x' path b : about_disk x path b -> kept_fields x x' -> about_disk x' path b.
Proof.
  intros (A1 & A2 & A3 & A4 & A5 & A6 & A7) (K1 & K2 & K3 & K4 & K5 & K6 & K7 & K8 & K9 & K10 & K11). unfold about_disk.
  rewrite K2, K3, K4, K5, K6, K7, K11. auto 10.
Qed.
Lemma drive_type_ok t : drive_type_of t 0 = drive_type t.
Proof.
  unfold drive_type_of, drive_type.
  destruct (N.eqb_spec t 0) as [->|?]; [reflexivity|]. destruct (N.eqb_spec t 1) as [->|?]; [reflexivity|].
  destruct (N.eqb_spec t 5) as [->|?]; [reflexivity|]. destruct (N.eqb_spec t 9) as [->|?]; [reflexivity|].
  destruct t as [|p]; [congruence|]. do 4 (destruct p as [p|p|]; try reflexivity; try congruence).
Qed.
