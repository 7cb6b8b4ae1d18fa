(** Property theorems C104-C108: opening and closing drives on Windows.  [S] is an arbitrary system: each answer is any function of the
    whole history; [A] gives buffer addresses. *)
From Verif Require Import Base M_Buffer M_TcgDevice M_DriveHandle M_SgDriver M_Strings M_LinuxFactory M_WinPass M_WinNvme M_WinInfo M_WinFactory
  Spec_WinPass Spec_WinInfo Spec_LinuxFactory Spec_WinFactory P_WinPass P_WinNvme P_WinInfo P_WinFactory Prop_WinPass Prop_WinNvme Prop_WinInfo.

Lemma replay_quiet S A d cs : ~ In CClose cs -> forall h, io_on (command_handle d) h (win_replay S A d h cs).
Proof.
  induction cs as [|c cs IH]; intros N h; [apply io_on_refl|].
  change (win_replay S A d h (c :: cs)) with (win_replay S A d (replay_step S A d h c) cs).
  eapply io_on_trans; [|apply IH; intros X; apply N; now right]. apply replay_step_spec. destruct c; try reflexivity. exfalso. apply N. now left.
Qed.

(** C104: OpenByHandle.  First ReadBasicInfo (C101); then the drivers are asked in order, and the first that accepts is the one used: the
    later ones are not asked and the storage query is not sent.  After that only the accepting driver's own command handle is used (by
    Init, whose failure is ignored).  If all refuse, the storage query (C103) supplies what it can.  Never an error. *)
Theorem C104_open_by_handle : forall S A h hd path h' r, answers_bytes S -> win_open_by_handle S A h hd path = (h', r) ->
  exists h1 disk, win_basic_info S h hd = (h1, disk) /\
  match disk with
  | Ok b =>
    (exists before k after h2 d h3, driver_order = before ++ k :: after /\ refused S A hd h1 before h2 /\
       win_probe S A h2 hd k = (h3, Ok d) /\ wd_kind d = k /\ wd_handle d = hd /\ io_on (command_handle d) h3 h' /\
       ((r = Panic /\ malformed_discovery {| o_drv := win_drv S A d h3; o_type := win_dtype k |}) \/
        (exists x cs, r = Ok x /\ about_disk x path b /\ driven x d h3 cs /\ h' = win_replay S A d h3 ([CType; CName] ++ cs) /\
           identified x d /\ not_queried x)))
    \/
    (exists h2 q, refused S A hd h1 driver_order h2 /\ win_storage_query S h2 hd = (h', q) /\
       match q with
       | Ok de => exists x, r = Ok x /\ about_disk x path b /\ without_driver x /\ queried x de
       | Err _ => exists x, r = Ok x /\ about_disk x path b /\ without_driver x /\ not_queried x /\ unidentified x
       | Panic => r = Panic
       | Fuel => r = Fuel
       end)
  | Panic => r = Panic /\ h' = h1
  | _ => False
  end.
Proof.
  intros S A h hd path h' r WS H. unfold win_open_by_handle in H. destruct (win_basic_info S h hd) as (h1, disk) eqn:E.
  exists h1, disk. split; [reflexivity|]. destruct (C101_basic_info S h hd h1 disk WS E) as (f & _ & B). cbv zeta in B.
  assert (D : disk = Panic \/ exists b, disk = Ok b).
  { destruct f as [(buf, data)| | |]; [destruct B as [[_ B]|(_ & b & B & _)]|destruct B as (b & B & _)|..]; eauto. }
  clear B. destruct D as [->|(b & ->)]; [now injection H as <- <-|].
  destruct (win_probes S A h1 hd (whandle0 path b) win_drivers) as (h2, q) eqn:Ep.
  pose proof (about_handle0 path b) as AB.
  destruct (probes_spec S A hd (whandle0 path b) win_drivers eq_refl _ _ _ Ep) as [[R ->]|(before & k & after & h3 & d & h4 & cs & Eq & R & P & Ek & Eh & Nc & Er & X)].
  - right. destruct (win_storage_query S h2 hd) as (h3, sq) eqn:Es. exists h2, sq. split; [exact R|]. injection H as <- <-. split; [exact Es|].
    destruct sq as [de|e| |]; try reflexivity.
    + eexists. split; [reflexivity|]. split; [exact AB|]. split; [repeat split|]. repeat (split; [reflexivity|]).
      cbn [f_drive_type with_descr whandle0]. apply drive_type_ok.
    + eexists. split; [reflexivity|]. split; [exact AB|]. repeat split.
  - left. exists before, k, after, h3, d, h4. split; [exact Eq|]. split; [exact R|]. split; [exact P|]. split; [exact Ek|]. split; [exact Eh|].
    assert (Q : io_on (command_handle d) h4 h2) by (rewrite Er; apply replay_quiet; intros [X1|[X1|X1]]; try discriminate; contradiction).
    destruct X as [[-> M]|(x' & -> & K & Dr & Id)]; injection H as <- <-; (split; [exact Q|]).
    + left. rewrite Ek in M. auto.
    + right. exists x', cs. split; [reflexivity|]. split; [eapply about_kept; eassumption|]. split; [exact Dr|]. split; [exact Er|]. split; [exact Id|].
      destruct K as (K1 & _ & _ & _ & _ & _ & _ & K8 & K9 & K10 & _). unfold not_queried. rewrite K1, K8, K9, K10. repeat split.
Qed.
Print Assumptions C104_open_by_handle.

(** The order of the drivers matters: an NVMe drive that answers both NVMe drivers is driven by the miniport one. *)
Theorem C104_first_wins : forall S A h hd path h' x h1 b h2 d, answers_bytes S ->
  win_open_by_handle S A h hd path = (h', Ok x) -> win_basic_info S h hd = (h1, Ok b) -> win_probe S A h1 hd KNvmeWin = (h2, Ok d) ->
  f_driver_name x = str "NvmeWinDriver" /\ exists cs, f_drv x = Some (d, h2, cs).
Proof.
  intros S A h hd path h' x h1 b h2 d WS H B P. destruct (C104_open_by_handle _ _ _ _ _ _ _ WS H) as (g1 & disk & B' & X).
  rewrite B in B'. injection B' as <- <-.
  destruct X as [(before & k & after & g2 & d' & g3 & Eq & R & P' & Ek & _ & _ & [[? _]|(x' & cs & Ex & _ & Dr & _)])|(g2 & q & R & _)]; try discriminate.
  - injection Ex as <-. destruct before as [|k0 before].
    + cbn in Eq. injection Eq as <- _. inversion R; subst. rewrite P in P'. injection P' as <- <-. destruct Dr as (_ & D2 & _ & D5). rewrite Ek in D5. destruct D5. eauto.
    + cbn in Eq. injection Eq as <- _. inversion R; subst. congruence.
  - inversion R; subst. congruence.
Qed.
Print Assumptions C104_first_wins.

(** C105: OpenByPath fails exactly if the path cannot be passed to Windows or the system refuses to open it; then nothing stays open. *)
Theorem C105_open_by_path : forall S A h path h' r, answers_bytes S -> win_open_by_path S A h path = (h', r) ->
  (In 0 path /\ h' = h /\ exists e, r = Err e) \/
  (~ In 0 path /\
   match s_open S (h ++ [WOpen path]) with
   | inl e => h' = h ++ [WOpen path] /\ r = Err e
   | inr hd => win_open_by_handle S A (h ++ [WOpen path]) hd path = (h', r) /\ forall e, r <> Err e
   end).
Proof.
  intros S A h path h' r WS H. unfold win_open_by_path in H. destruct (existsb (N.eqb 0) path) eqn:E.
  - left. apply existsb_exists in E as (z & Hz & Ez). apply N.eqb_eq in Ez. subst z. injection H as <- <-. eauto.
  - right. split. { intros X. assert (existsb (N.eqb 0) path = true) by (apply existsb_exists; exists 0; auto). congruence. }
    unfold open_device in H. destruct (s_open S (h ++ [WOpen path])) as [e|hd]; [injection H as <- <-; auto|].
    destruct (win_open_by_handle S A (h ++ [WOpen path]) hd path) as (h2, q) eqn:E2.
    assert (Q : forall e, q <> Err e).
    { intros e ->. destruct (C104_open_by_handle _ _ _ _ _ _ _ WS E2) as (g1 & disk & _ & X). destruct disk; [|contradiction|now destruct X|contradiction].
      destruct X as [(before & k & after & g2 & d' & g3 & _ & _ & _ & _ & _ & _ & [[? _]|(x' & cs & Ex & _)])|(g2 & q & _ & _ & X)]; try discriminate.
      destruct q; [destruct X as (? & ? & _)|destruct X as (? & ? & _)|..]; discriminate. }
    destruct q; try (injection H as <- <-; split; [reflexivity|exact Q]). exfalso. eapply Q. reflexivity.
Qed.
Print Assumptions C105_open_by_path.


(** C106: Close closes the drive's handle once if some driver accepted it, and not at all if none did (the handle is then lost);
    closing again does nothing. *)
Theorem C106_close : forall S A h hd path h' x, answers_bytes S -> win_open_by_handle S A h hd path = (h', Ok x) ->
  let '(h1, x1) := win_close h' x in
  (p_dh (f_dh x) <> None -> h1 = h' ++ [WClose hd]) /\
  (p_dh (f_dh x) = None -> h1 = h') /\
  p_dh (f_dh x1) = None /\ win_close h1 x1 = (h1, x1).
Proof.
  intros S A h hd path h' x WS H. destruct (C104_open_by_handle _ _ _ _ _ _ _ WS H) as (g1 & disk & _ & X).
  assert (D : (without_driver x) \/ exists d g cs, wd_handle d = hd /\ driven x d g cs).
  { destruct disk as [b| | |]; try contradiction; [|now destruct X].
    destruct X as [(before & k & after & g2 & d' & g3 & _ & _ & _ & _ & Eh & _ & [[? _]|(x' & cs & Ex & _ & Dr & _)])|(g2 & q & _ & _ & X)]; try discriminate.
    - injection Ex as <-. right. eauto.
    - left. destruct q as [de|e| |]; try discriminate; [destruct X as (x' & Ex & _ & W & _)|destruct X as (x' & Ex & _ & W & _)]; injection Ex as <-; exact W. }
  unfold win_close. destruct D as [(W1 & W2 & _)|(d & g & cs & Eh & D1 & D2 & _)].
  - rewrite W2. rewrite W1, W2. repeat split. congruence.
  - rewrite D2. cbn [f_drv f_dh p_dh]. rewrite D1. split; [intros _; now rewrite Eh|]. split; [discriminate|]. split; reflexivity.
Qed.
Print Assumptions C106_close.

(** The guarantee a caller expects, "after OpenByPath and Close the handle is closed", is false: no driver may have accepted it. *)
Definition no_driver : wsys := {| s_io := fun _ => {| wa_err := 5; wa_out := []; wa_mem := []; wa_ret := 0 |}; s_open := fun _ => inr 3 |}.
Theorem C106_closed_refuted : ~ (forall S A h path h' x hd, answers_bytes S -> win_open_by_path S A h path = (h', Ok x) ->
  s_open S (h ++ [WOpen path]) = inr hd -> In (WClose hd) (fst (win_close h' x))).
Proof.
  intros H. specialize (H no_driver {| ad_data := fun _ => 512; ad_bounce := fun _ => 1024 |} [] (str "x")).
  destruct (win_open_by_path no_driver {| ad_data := fun _ => 512; ad_bounce := fun _ => 1024 |} [] (str "x")) as (h', r) eqn:E. vm_compute in E.
  injection E as <- <-. specialize (H _ _ 3 (fun _ => Forall_nil _) eq_refl eq_refl). vm_compute in H. intuition discriminate.
Qed.
Print Assumptions C106_closed_refuted.

(** C107: without a driver, the identification is the storage device descriptor's. *)
Theorem C107_fallback : forall S A h hd path h' x, answers_bytes S -> win_open_by_handle S A h hd path = (h', Ok x) -> p_dh (f_dh x) = None ->
  exists h2 f, fetch S hd 0x2d1400 (zeros 12) h2 h' f /\
  match f with
  | Ok (buf, data) =>
    trimmed_text data (field 16 4 buf) (i_model (p_info (f_dh x))) /\ trimmed_text data (field 24 4 buf) (i_serial (p_info (f_dh x))) /\
    trimmed_text data (field 12 4 buf) (f_vendor x) /\ trimmed_text data (field 20 4 buf) (f_revision x) /\
    (f_removable x = 1%Z <-> reg 10 buf <> 0) /\ (f_removable x = 0%Z <-> reg 10 buf = 0) /\ f_drive_type x = drive_type (reg 8 buf)
  | _ => texts (p_info (f_dh x)) = ([], [], []) /\ f_vendor x = [] /\ f_revision x = [] /\ f_removable x = (-1)%Z /\ f_drive_type x = 0
  end.
Proof.
  intros S A h hd path h' x WS H Np. destruct (C104_open_by_handle _ _ _ _ _ _ _ WS H) as (g1 & disk & _ & X).
  destruct disk as [b| | |]; try contradiction; [|now destruct X].
  destruct X as [(before & k & after & g2 & d' & g3 & _ & _ & _ & _ & Eh & _ & [[? _]|(x' & cs & Ex & _ & Dr & _)])|(g2 & q & _ & Q & X)]; try discriminate.
  { injection Ex as <-. destruct Dr as (D & _). congruence. }
  exists g2. destruct (C103_storage_query _ _ _ _ _ Q) as (f & F & Y). exists f. split; [exact F|]. destruct f as [(buf, data)|e| |].
  - cbv zeta in Y. destruct Y as [[_ ->]|[(_ & _ & _ & ->)|[(_ & _ & _ & de & -> & De)|(_ & _ & ->)]]]; try discriminate.
    destruct X as (x' & Ex & _ & _ & (Q1 & Q2 & _ & Q4 & Q5 & Q6 & Q7)). injection Ex as <-. destruct De as (E1 & _ & E3 & _ & E5 & E6 & E7 & E8).
    rewrite Q1, Q2, Q4, Q5, Q6, Q7, E1. repeat (split; [assumption|]). destruct (de_removable de).
    + split; [split; [intros _; now apply E3|reflexivity]|]. split; [|reflexivity]. split; [discriminate|]. intros Z. exfalso. now apply (proj1 E3).
    + split; [split; [discriminate|intros Z; apply E3 in Z; discriminate]|]. split; [|reflexivity]. split; [|reflexivity]. intros _.
      destruct (N.eq_dec (reg 10 buf) 0) as [Z|Z]; [exact Z|]. apply E3 in Z. discriminate.
  - subst q. destruct X as (x' & Ex & _ & _ & (Q1 & Q2 & Q3 & Q4) & U). injection Ex as <-. auto 8.
  - subst q. discriminate.
  - subst q. discriminate.
Qed.
Print Assumptions C107_fallback.

(** C108: the reported device number.  Known: the drive and all its partitions carry it.  Unknown: the drive reports 0, like disk 0, and
    its partitions report disk 0xffffffff. *)
Theorem C108_device_number : forall S A h hd path h' x, answers_bytes S -> win_open_by_handle S A h hd path = (h', Ok x) ->
  let h1 := h ++ [query hd 0x2d1080 [] 12] in
  let a := s_io S h1 in
  (wa_err a = 0 -> f_devnum x = field 4 4 (buffer_after S h1 12) /\ Forall (fun p => wp_disk p = f_devnum x) (f_parts x)) /\
  (wa_err a <> 0 -> f_devnum x = 0 /\ Forall (fun p => wp_disk p = 0xffffffff) (f_parts x)).
Proof.
  intros S A h hd path h' x WS H h1 a. destruct (C104_open_by_handle _ _ _ _ _ _ _ WS H) as (g1 & disk & B & X).
  assert (Y : exists b, disk = Ok b /\ about_disk x path b).
  { destruct disk as [b| | |]; try contradiction; [|now destruct X]. exists b. split; [reflexivity|].
    destruct X as [(before & k & after & g2 & d' & g3 & _ & _ & _ & _ & _ & _ & [[? _]|(x' & cs & Ex & AB & _)])|(g2 & q & _ & _ & X)]; try discriminate.
    - now injection Ex as <-.
    - destruct q; try discriminate; destruct X as (x' & Ex & AB & _); now injection Ex as <-. }
  destruct Y as (b & -> & AB). destruct (C101_basic_info S h hd _ _ WS B) as (f & _ & F). cbv zeta in F. fold h1 in F. fold a in F.
  assert (Z : wb_devnum b = (if wa_err a =? 0 then Some (field 4 4 (buffer_after S h1 12)) else None) /\
              Forall (fun p => wp_disk p = match wb_devnum b with Some n => n | None => 0xffffffff end) (wb_parts b)).
  { destruct f as [(buf, data)| | |]; try discriminate.
    - destruct F as [[_ F]|(_ & b' & Eb & (N1 & _) & T)]; [discriminate|]. injection Eb as <-. split; [exact N1|].
      destruct T as (T1 & T2 & T3). rewrite Forall_forall. intros p Hp. apply In_nth_error in Hp as (i & Hi).
      destruct (N.eq_dec (layout_style data) 1) as [L1|L1].
      + destruct (T1 L1) as (_ & _ & _ & _ & _ & P). now apply P in Hi as (W & _).
      + destruct (N.eq_dec (layout_style data) 0) as [L0|L0].
        * destruct (T2 L0) as (_ & _ & _ & _ & P). now apply P in Hi as (W & _).
        * destruct (T3 L0 L1) as (_ & _ & _ & E). rewrite E in Hi. now destruct i.
    - destruct F as (b' & Eb & (N1 & _) & (_ & _ & _ & P)). injection Eb as <-. split; [exact N1|]. rewrite P. constructor. }
  destruct Z as [Z1 Z2]. destruct AB as (_ & _ & _ & _ & Ap & Ad & _). rewrite Ap, Ad. rewrite Z1 in *. destruct (N.eqb_spec (wa_err a) 0) as [E|E].
  - split; [auto|contradiction].
  - split; [contradiction|auto].
Qed.
Print Assumptions C108_device_number.
