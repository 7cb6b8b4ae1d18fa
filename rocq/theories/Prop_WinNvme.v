(** C91-C96: the Windows NVMe drivers (plat_win/nvme_scsi.go, nvme_win_driver.go, windows_nvme_driver.go). *)
From Verif Require Import Base M_Buffer M_Ata M_TcgDevice M_DriveHandle M_Cdb M_SgDriver M_NvmeLinux M_Strings M_WinPass M_WinNvme Spec_Sg Spec_WinPass
  Spec_WinNvme Spec_LinuxVolume P_Discovery P_DriveHandle P_Sg P_WinPass P_WinNvme.
From Verif Require Import Prop_Sg Prop_NvmeLinux Prop_WinPass.
(** Spec_LinuxVolume has a relation of the same name. *)
Notation delivered := Spec_Sg.delivered.

(** ---- C91: admin commands through the miniport ---- *)
(** The request [b] carries command [c] with [data]; the direction is always "from the device". *)
Definition miniport_carries (c : admin_cmd) (data b : bytes) : Prop :=
  miniport_decode b =
  {| mp_header_length := 28; mp_signature := str "NvmeMini"; mp_timeout := 40; mp_control := 0xe0002000; mp_length := 4220;
     mp_opcode := c_opcode c; mp_nsid := c_nsid c; mp_cdw10 := c_cdw10 c; mp_cdw11 := c_cdw11 c; mp_cdw12 := c_cdw12 c; mp_cdw13 := c_cdw13 c;
     mp_cdw14 := c_cdw14 c; mp_cdw15 := c_cdw15 c; mp_direction := 2; mp_data_length := 4096; mp_return_length := 4248;
     mp_data := data; mp_rest := zeros 87 |}.
(** The memory a command refers to: the DataLen bytes at DataAddr if that is set, DataBuffer otherwise. *)
Definition memory_of (c : admin_cmd) (ext : bytes) : bytes := if c_data_addr c =? 0 then c_data c else ext.

Theorem C91_miniport_admin : forall S h hd c ext h' e c' ext', wf_cmd c ->
  miniport_admin S h hd c ext = (h', (e, (c', ext'))) ->
  (4096 < c_data_len c -> h' = h /\ e = Some (EMsg "too long data") /\ c' = c /\ ext' = ext)
  /\ (c_data_len c <= 4096 -> exists call sent, h' = h ++ [WIo call]
      /\ wc_handle call = hd /\ wc_code call = 0x4d008 /\ blen (wc_in call) = 4248 /\ wc_outlen call = 4248
      /\ miniport_carries c sent (wc_in call) /\ delivered (zeros (N.to_nat 4096)) (memory_of c ext) sent
      /\ let a := s_io S h' in
         (win_ok a -> e = None /\ same_but_data c c' /\ (c_data_addr c = 0 -> ext' = ext) /\ (c_data_addr c <> 0 -> c' = c)
            /\ exists reply, delivered sent (skipn 152 (wa_out a)) reply
               /\ delivered (memory_of c ext) (firstn (N.to_nat (c_data_len c)) reply) (memory_of c' ext'))
         /\ (~ win_ok a -> e = Some (errno (wa_err a)) /\ c' = c /\ ext' = ext)).
Proof.
  intros S h hd c ext h' e c' ext' W H. unfold miniport_admin in H. split; intros L.
  - apply N.ltb_lt in L. rewrite L in H. inversion H. auto.
  - apply N.ltb_ge in L. rewrite L in H. set (ref := if negb (c_data_addr c =? 0) then ext else c_data c) in *. cbv zeta in H.
    assert (R : ref = memory_of c ext) by (unfold ref, memory_of; destruct (c_data_addr c =? 0); reflexivity).
    change (N.to_nat 4096) with page. set (sent := fill (zeros page) ref) in *.
    assert (Ls : List.length sent = page) by (unfold sent; rewrite fill_length; apply len_zeros).
    match type of H with context [win_same S h hd _ ?x] => set (b := x) in * end.
    rewrite (win_same_closed S h hd IOCTL_SCSI_MINIPORT b) in H. set (call := same_call hd IOCTL_SCSI_MINIPORT b) in *.
    assert (Hh : h' = h ++ [WIo call]).
    { destruct (wa_err _ =? 0) in H; [destruct (negb _) in H|]; inversion H; reflexivity. }
    exists call, sent. split; [exact Hh|]. split; [reflexivity|]. split; [reflexivity|].
    assert (Lb : blen b = 4248) by (unfold blen, b; rewrite miniport_len, Ls; reflexivity).
    split; [exact Lb|]. split; [exact Lb|]. destruct W as (W1 & W2 & W3 & W4 & W5 & W6 & W7 & W8 & W9 & W10 & W11 & W12 & W13 & W14 & W15 & _).
    split. { unfold miniport_carries. cbn [call same_call wc_in]. unfold b. rewrite miniport_decode_mem by assumption. reflexivity. }
    split; [rewrite <- R; apply fill_delivered|]. cbv zeta. rewrite Hh in H |- *. set (a := s_io S (h ++ [WIo call])) in *.
    destruct (wa_err a =? 0) eqn:E.
    + split; [intros _|rewrite win_fail_iff; congruence]. unfold b in H. rewrite (miniport_reply _ _ _ _ _ _ _ _ sent) in H by exact Ls.
      set (reply := fill sent (skipn 152 (wa_out a))) in *.
      destruct (c_data_addr c =? 0) eqn:Da; cbn [negb] in H.
      * apply N.eqb_eq in Da. apply pair_equal_spec in H as [_ H]. apply pair_equal_spec in H as [He H]. apply pair_equal_spec in H as [Hc Hx]. subst e c' ext'.
        split; [reflexivity|]. split; [repeat split|]. split; [reflexivity|]. split; [congruence|]. exists reply. split; [apply fill_delivered|].
        unfold memory_of. cbn [set_c_data c_data_addr c_data]. rewrite Da. change (0 =? 0) with true. change (negb true) with false. cbv iota.
        replace (c_data c) with ref by reflexivity. apply fill_delivered.
      * apply pair_equal_spec in H as [_ H]. apply pair_equal_spec in H as [He H]. apply pair_equal_spec in H as [Hc Hx]. subst e c' ext'.
        split; [reflexivity|]. split; [repeat split|]. split; [intros Z; rewrite Z in Da; discriminate Da|]. split; [reflexivity|].
        exists reply. split; [apply fill_delivered|]. unfold memory_of. rewrite Da. replace ext with ref at 1 by (unfold ref; reflexivity). apply fill_delivered.
    + split; [rewrite win_ok_iff; congruence|]. intros _. apply pair_equal_spec in H as [_ H]. apply pair_equal_spec in H as [He H]. apply pair_equal_spec in H as [Hc Hx]. subst. auto.
Qed.
Print Assumptions C91_miniport_admin.

(** Security Send, Firmware Download, ...: every command that moves data to the controller is nevertheless marked "from the device". *)
Theorem C91_direction_refuted : forall S h hd c ext h' e c' ext', wf_cmd c -> moves_to_device (c_opcode c) -> c_data_len c <= 4096 ->
  miniport_admin S h hd c ext = (h', (e, (c', ext'))) ->
  exists call, h' = h ++ [WIo call] /\ mp_opcode (miniport_decode (wc_in call)) = c_opcode c /\ mp_direction (miniport_decode (wc_in call)) <> 1.
Proof.
  intros S h hd c ext h' e c' ext' W _ L H. destruct (C91_miniport_admin _ _ _ _ _ _ _ _ _ W H) as [_ X].
  destruct (X L) as (call & sent & E & _ & _ & _ & _ & M & _). exists call. unfold miniport_carries in M. rewrite M.
  split; [exact E|]. split; [reflexivity|discriminate].
Qed.
Print Assumptions C91_direction_refuted.

(** ---- C92: opening through the miniport ---- *)
Definition scsi_port_path (port : N) (path : bytes) : Prop :=
  exists ds, numeral ds /\ decimal ds = port /\ path = str "\\.\SCSI" ++ ds ++ str ":".
Definition identify_controller : admin_cmd :=
  {| c_opcode := 6; c_flags := 0; c_rsvd1 := 0; c_nsid := 0; c_cdw2 := 0; c_cdw3 := 0; c_metadata := 0; c_metadata_len := 0; c_data_len := 4096;
     c_cdw10 := 1; c_cdw11 := 0; c_cdw12 := 0; c_cdw13 := 0; c_cdw14 := 0; c_cdw15 := 0; c_timeout_ms := 0; c_result := 0; c_data_addr := 0; c_data := [] |}.

Lemma address_port out : wf out -> nth 4 (fill (zeros 8) out) 0 < 256.
Proof.
  intros W. assert (F : wf (fill (zeros 8) out)) by (unfold fill; rewrite wf_app; auto using wf_firstn, wf_skipn, wf_zeros).
  apply Forall_nth; [exact F|]. rewrite fill_length, len_zeros. lia.
Qed.

Theorem C92_nvmewin_open : forall S h hd h' r, (forall k, wf (wa_out (s_io S k))) -> nvmewin_open S h hd = (h', r) ->
  exists c1 rest addr, h' = h ++ WIo c1 :: rest /\ wc_handle c1 = hd /\ wc_code c1 = 0x41018 /\ wc_in c1 = zeros 8 /\ wc_outlen c1 = 8
  /\ let a1 := s_io S (h ++ [WIo c1]) in delivered (zeros 8) (wa_out a1) addr
  /\ (~ win_ok a1 -> rest = [] /\ r = Err (errno (wa_err a1)))
  /\ (win_ok a1 -> exists path, scsi_port_path (reg 4 addr) path
      /\ match s_open S (h ++ [WIo c1; WOpen path]) with
         | inl x => rest = [WOpen path] /\ r = Err x
         | inr sh => exists c2, wc_handle c2 = sh /\ wc_code c2 = 0x4d008 /\ wc_outlen c2 = 4248
             /\ miniport_carries identify_controller (zeros (N.to_nat 4096)) (wc_in c2)
             /\ let a2 := s_io S (h ++ [WIo c1; WOpen path; WIo c2]) in
                (win_ok a2 -> rest = [WOpen path; WIo c2] /\ exists id, r = Ok (sh, id) /\ delivered (zeros (N.to_nat 4096)) (skipn 152 (wa_out a2)) id)
                (* on failure the second handle is closed again *)
                /\ (~ win_ok a2 -> rest = [WOpen path; WIo c2; WClose sh] /\ r = Err (errno (wa_err a2)))
         end).
Proof.
  intros S h hd h' r Wo H. unfold nvmewin_open, get_scsi_path in H. rewrite win_same_closed in H. cbv zeta in H.
  set (c1 := same_call hd IOCTL_SCSI_GET_ADDRESS (zeros 8)) in *. set (a1 := s_io S (h ++ [WIo c1])) in *.
  destruct (wa_err a1 =? 0) eqn:E1.
  2:{ inversion H; subst. exists c1, [], (fill (zeros 8) (wa_out a1)). split; [reflexivity|]. do 4 (split; [reflexivity|]). cbv zeta. fold a1.
      split; [apply fill_delivered|]. split; [auto|]. rewrite win_ok_iff. congruence. }
  assert (P : nth 4 (fill (zeros 8) (wa_out a1)) 0 < 256) by apply address_port, Wo.
  destruct (byte_dec_spec _ P) as [Pn Pd].
  set (path := str "\\.\SCSI" ++ byte_dec (nth 4 (fill (zeros 8) (wa_out a1)) 0) ++ str ":") in *.
  unfold open_device in H. rewrite <- app_assoc in H. cbn [app] in H.
  assert (Pp : scsi_port_path (reg 4 (fill (zeros 8) (wa_out a1))) path) by (exists (byte_dec (nth 4 (fill (zeros 8) (wa_out a1)) 0)); auto).
  assert (Ok1 : win_ok a1) by now apply win_ok_iff.
  destruct (s_open S (h ++ [WIo c1; WOpen path])) as [x|sh] eqn:Eo.
  - inversion H; subst. exists c1, [WOpen path], (fill (zeros 8) (wa_out a1)). split; [reflexivity|]. do 4 (split; [reflexivity|]). cbv zeta. fold a1.
    split; [apply fill_delivered|]. split; [congruence|]. intros _. exists path. split; [exact Pp|]. rewrite Eo. auto.
  - unfold miniport_identity in H. rewrite win_same_closed in H. cbv zeta in H. rewrite <- app_assoc in H. cbn [app] in H.
    match type of H with context [same_call sh ?cd ?x] => set (b := x) in *; set (c2 := same_call sh cd b) in * end.
    set (a2 := s_io S (h ++ [WIo c1; WOpen path; WIo c2])) in *.
    assert (Lb : blen b = 4248) by (unfold blen, b; rewrite miniport_len, len_zeros; reflexivity).
    assert (Cr : miniport_carries identify_controller (zeros (N.to_nat 4096)) (wc_in c2)).
    { unfold miniport_carries. cbn [c2 same_call wc_in]. unfold b. rewrite miniport_decode_mem by reflexivity. reflexivity. }
    assert (Lz : List.length (zeros page) = page) by apply len_zeros.
    unfold b in H. rewrite (miniport_reply _ _ _ _ _ _ _ _ (zeros page)) in H by exact Lz.
    set (id := fill (zeros page) (skipn 152 (wa_out a2))) in *.
    assert (Li : blen id = 4096) by (unfold blen, id; rewrite fill_length, Lz; reflexivity).
    destruct (wa_err a2 =? 0) eqn:E2.
    + rewrite Li in H. change (negb (4096 =? 4096)) with false in H. cbv iota in H. apply pair_equal_spec in H as [<- <-].
      exists c1, [WOpen path; WIo c2], (fill (zeros 8) (wa_out a1)). split; [reflexivity|]. do 4 (split; [reflexivity|]). cbv zeta. fold a1.
      split; [apply fill_delivered|]. split; [congruence|]. intros _. exists path. split; [exact Pp|]. rewrite Eo.
      exists c2. split; [reflexivity|]. split; [reflexivity|]. split; [exact Lb|]. split; [exact Cr|]. fold a2.
      split; [intros _|rewrite win_fail_iff; congruence]. split; [reflexivity|]. exists id. split; [reflexivity|apply fill_delivered].
    + apply pair_equal_spec in H as [<- <-]. unfold close_handle.
      exists c1, [WOpen path; WIo c2; WClose sh], (fill (zeros 8) (wa_out a1)). split; [rewrite <- app_assoc; reflexivity|]. do 4 (split; [reflexivity|]). cbv zeta. fold a1.
      split; [apply fill_delivered|]. split; [congruence|]. intros _. exists path. split; [exact Pp|]. rewrite Eo.
      exists c2. split; [reflexivity|]. split; [reflexivity|]. split; [exact Lb|]. split; [exact Cr|]. fold a2.
      split; [rewrite win_ok_iff; congruence|]. auto.
Qed.
Print Assumptions C92_nvmewin_open.

(** ---- C93: handles ---- *)
Definition closes (h : whist) : list N := flat_map (fun e => match e with WClose x => [x] | _ => [] end) h.
Definition opens (h : whist) : list bytes := flat_map (fun e => match e with WOpen p => [p] | _ => [] end) h.
Definition ios_only (h : whist) : Prop := Forall (fun e => match e with WIo _ => True | _ => False end) h.
Definition is_close (c : dcall) : bool := match c with CClose => true | _ => false end.

(** [h'] extends [h] by DeviceIoControl calls on handle [x] only. *)
Definition io_on (x : N) (h h' : whist) : Prop := exists cs, h' = h ++ map WIo cs /\ Forall (fun c => wc_handle c = x) cs.
Lemma io_on_refl x h : io_on x h h. Proof. exists []. split; [now rewrite app_nil_r|constructor]. Qed.
Lemma io_on_step x h c : wc_handle c = x -> io_on x h (h ++ [WIo c]). Proof. intros H. exists [c]. auto. Qed.
Lemma io_on_trans x a b c : io_on x a b -> io_on x b c -> io_on x a c.
Proof.
  intros (u & -> & Hu) (v & -> & Hv). exists (u ++ v). rewrite map_app, app_assoc. split; [reflexivity|]. now apply Forall_app.
Qed.
Lemma one_io S h c : io_on (wc_handle c) h (fst (win_io S h c)). Proof. now apply io_on_step. Qed.
Lemma tries_io S h hd dc bc hdr n back rw data addr baddr : io_on hd h (fst (win_tries S h hd dc bc hdr n back rw data addr baddr)).
Proof.
  unfold win_tries. cbv zeta. destruct data as [|x data]; [apply io_on_refl|]. destruct (is_aligned_pointer 512 addr) as [[]| | |]; try apply io_on_refl;
    (match goal with |- context [win_io S h ?c] => pose proof (one_io S h c) as X; destruct (win_io S h c) as [h1 [e1 [p1 mem]]] end);
    cbn [fst wc_handle] in X; (destruct e1;
      [match goal with |- context [win_io S ?k ?c] => pose proof (one_io S k c) as Y; destruct (win_io S k c) as [h2 [e2 [out m2]]] end;
       cbn [fst wc_handle] in Y; destruct e2; exact (io_on_trans _ _ _ _ X Y)|]).
  - exact X.
  - destruct rw; [exact X|]. destruct (snd _); exact X.
Qed.
Lemma ata_io S h hd rw dma t data addr baddr secs : io_on hd h (fst (win_ata S h hd rw dma t data addr baddr secs)).
Proof.
  unfold win_ata. cbv zeta. match goal with |- context [win_tries ?a ?b ?c ?d ?e ?f ?g ?i ?j ?k ?l ?m] => pose proof (tries_io a b c d e f g i j k l m) as X;
    destruct (win_tries a b c d e f g i j k l m) as [h1 r] end.
  destruct r as [[[y|] [u v]]| | |]; try exact X. destruct (negb _); exact X.
Qed.
Lemma scsi_io S h hd rw cdb data addr baddr secs : io_on hd h (fst (win_scsi S h hd rw cdb data addr baddr secs)).
Proof.
  unfold win_scsi. cbv zeta. match goal with |- context [win_tries ?a ?b ?c ?d ?e ?f ?g ?i ?j ?k ?l ?m] => pose proof (tries_io a b c d e f g i j k l m) as X;
    destruct (win_tries a b c d e f g i j k l m) as [h1 r] end.
  destruct r as [[[y|] [u v]]| | |]; exact X.
Qed.
Lemma miniport_io S h hd c ext : io_on hd h (fst (miniport_admin S h hd c ext)).
Proof.
  unfold miniport_admin. destruct (4096 <? c_data_len c); [apply io_on_refl|]. cbv zeta. rewrite win_same_closed. cbv zeta.
  destruct (wa_err _ =? 0); [destruct (negb _)|]; apply io_on_step; reflexivity.
Qed.
Lemma log_page_io S h hd nsid logId rae size : io_on hd h (fst (winnvme_log_page S h hd nsid logId rae size)).
Proof.
  unfold winnvme_log_page. destruct (size <=? -48)%Z; [apply io_on_refl|]. destruct (size <? 0)%Z; [apply io_on_refl|].
  rewrite win_same_closed. cbv zeta. destruct (wa_err _ =? 0); [destruct (_ || _)|]; apply io_on_step; reflexivity.
Qed.
Definition command_handle (d : wdh) : N := match wd_kind d with KNvmeWin => wd_scsi d | _ => wd_handle d end.
Definition replay_step (S : wsys) (A : waddr) (d : wdh) (k : whist) (c : dcall) : whist := win_replay S A d k [c].
Lemma replay_step_spec S A d k c : (is_close c = true -> replay_step S A d k c = k ++ [WClose (wd_handle d)])
  /\ (is_close c = false -> io_on (command_handle d) k (replay_step S A d k c)).
Proof.
  unfold replay_step, win_replay, command_handle. cbn [fold_left]. split; intros H.
  - destruct c; try discriminate H. unfold win_exec. destruct (wd_kind d); reflexivity.
  - destruct c; try discriminate H; unfold win_exec, win_security, win_task_file; destruct (wd_kind d); try apply io_on_refl;
      try apply scsi_io; try apply ata_io; cbn [fst].
    + pose proof (miniport_io S k (wd_scsi d) c []) as X. destruct (miniport_admin S k (wd_scsi d) c []) as [h1 [e [c' x]]]. exact X.
    + pose proof (log_page_io S k (wd_handle d) nsid logId rae size) as X. destruct (winnvme_log_page _ _ _ _ _ _ _) as [h1 q]. exact X.
Qed.
Lemma closes_app a b : closes (a ++ b) = closes a ++ closes b. Proof. apply flat_map_app. Qed.
Lemma opens_app a b : opens (a ++ b) = opens a ++ opens b. Proof. apply flat_map_app. Qed.
Lemma closes_io cs : closes (map WIo cs) = []. Proof. induction cs; [reflexivity|exact IHcs]. Qed.
Lemma opens_io cs : opens (map WIo cs) = []. Proof. induction cs; [reflexivity|exact IHcs]. Qed.

Theorem C93_handles : forall S A d h cs, exists ev, win_replay S A d h cs = h ++ ev
  (* every Close call closes the handle the driver was opened with, and nothing else is ever closed or opened *)
  /\ closes ev = repeat (wd_handle d) (List.length (filter is_close cs)) /\ opens ev = []
  /\ forall c, In (WIo c) ev -> wc_handle c = command_handle d.
Proof.
  intros S A d h cs. revert h. induction cs as [|c cs IH]; intros h.
  - exists []. rewrite app_nil_r. repeat split; try reflexivity. intros c [].
  - change (win_replay S A d h (c :: cs)) with (win_replay S A d (replay_step S A d h c) cs).
    destruct (replay_step_spec S A d h c) as [X Y]. cbn [filter]. destruct (is_close c) eqn:E.
    + rewrite (X eq_refl). destruct (IH (h ++ [WClose (wd_handle d)])) as (ev & -> & Hc & Ho & Hi). exists (WClose (wd_handle d) :: ev).
      rewrite <- app_assoc. split; [reflexivity|]. change (closes (WClose (wd_handle d) :: ev)) with (wd_handle d :: closes ev). rewrite Hc.
      split; [reflexivity|]. split; [exact Ho|]. intros x [Hx|Hx]; [discriminate Hx|auto].
    + destruct (Y eq_refl) as (ios & Eq & F). rewrite Eq. destruct (IH (h ++ map WIo ios)) as (ev & -> & Hc & Ho & Hi). exists (map WIo ios ++ ev).
      rewrite <- app_assoc. split; [reflexivity|]. rewrite closes_app, opens_app, closes_io, opens_io. split; [exact Hc|]. split; [exact Ho|].
      intros x Hx. apply in_app_or in Hx as [Hx|Hx]; [|auto]. apply in_map_iff in Hx as (y & Ey & Hy). injection Ey as ->.
      rewrite Forall_forall in F. now apply F.
Qed.
Print Assumptions C93_handles.

(** The handle the miniport driver opens for itself is never closed, however the drive handle is used and closed. *)
Theorem C93_leak_refuted : forall S A h hd h1 sh id cs, nvmewin_open S h hd = (h1, Ok (sh, id)) -> sh <> hd ->
  exists ev path, win_replay S A {| wd_kind := KNvmeWin; wd_handle := hd; wd_scsi := sh; wd_identity := id |} h1 cs = h ++ ev
  /\ opens ev = [path] /\ s_open S (firstn (List.length h + 2) (h ++ ev)) = inr sh /\ ~ In sh (closes ev).
Proof.
  intros S A h hd h1 sh id cs H Hne. unfold nvmewin_open, get_scsi_path in H. rewrite win_same_closed in H. cbv zeta in H.
  set (c1 := same_call hd IOCTL_SCSI_GET_ADDRESS (zeros 8)) in *. destruct (wa_err (s_io S (h ++ [WIo c1])) =? 0); [|discriminate H].
  match type of H with context [open_device S _ ?q] => set (path := q) in * end. unfold open_device in H. rewrite <- app_assoc in H. cbn [app] in H.
  destruct (s_open S (h ++ [WIo c1; WOpen path])) as [x|sh'] eqn:Eo; [discriminate H|].
  unfold miniport_identity in H. rewrite win_same_closed in H. cbv zeta in H. rewrite <- app_assoc in H. cbn [app] in H.
  match type of H with context [same_call sh' ?cd ?x] => set (c2 := same_call sh' cd x) in * end.
  destruct (wa_err _ =? 0) in H; [|discriminate H]. destruct (negb _) in H; [discriminate H|]. apply pair_equal_spec in H as [<- H]. injection H as -> _.
  set (d := {| wd_kind := KNvmeWin; wd_handle := hd; wd_scsi := sh; wd_identity := id |}).
  destruct (C93_handles S A d (h ++ [WIo c1; WOpen path; WIo c2]) cs) as (ev & E & Hc & Ho & _).
  exists ([WIo c1; WOpen path; WIo c2] ++ ev), path. rewrite app_assoc. split; [exact E|]. rewrite opens_app, closes_app, Ho, Hc.
  split; [reflexivity|]. split.
  - rewrite <- app_assoc. rewrite firstn_app_2. exact Eo.
  - cbn [closes flat_map app]. intros I. apply repeat_spec in I. cbn [d wd_handle] in I. congruence.
Qed.
Print Assumptions C93_leak_refuted.

(** ---- C94: opening through the storage query ---- *)
Lemma pquery_mem pr dt v len tl : pr < 2 ^ 32 -> dt < 2 ^ 32 -> v < 2 ^ 32 -> len < 2 ^ 32 ->
  pquery_decode (protocol_query pr dt v len ++ tl) =
  {| pq_property := pr; pq_type := 0; pq_protocol := 3; pq_data_type := dt; pq_value := v; pq_offset := 40; pq_length := len; pq_subs := [0; 0; 0; 0; 0] |}.
Proof.
  intros H1 H2 H3 H4. set (m := protocol_query pr dt v len ++ tl). unfold pquery_decode, field.
  change (slice 0 4 m) with (le_bytes 4 pr). change (slice 4 4 m) with (le_bytes 4 0). change (slice 8 4 m) with (le_bytes 4 3).
  change (slice 12 4 m) with (le_bytes 4 dt). change (slice 16 4 m) with (le_bytes 4 v). change (slice 20 4 m) with (le_bytes 4 0).
  change (slice 24 4 m) with (le_bytes 4 40). change (slice 28 4 m) with (le_bytes 4 len). change (slice 32 4 m) with (le_bytes 4 0).
  change (slice 36 4 m) with (le_bytes 4 0). change (slice 40 4 m) with (le_bytes 4 0). change (slice 44 4 m) with (le_bytes 4 0).
  rewrite !le_val_bytes. change (256 ^ N.of_nat 4) with (2 ^ 32). rewrite !N.mod_small by (assumption || reflexivity). reflexivity.
Qed.

(** Any successful answer is taken for an identity: neither the returned header nor the returned length is looked at. *)
Theorem C94_winnvme_open : forall S h hd h' r, winnvme_open S h hd = (h', r) ->
  exists c, h' = h ++ [WIo c] /\ wc_handle c = hd /\ wc_code c = 0x2d1400 /\ blen (wc_in c) = 4144 /\ wc_outlen c = 4144
  /\ pquery_decode (wc_in c) = {| pq_property := 49; pq_type := 0; pq_protocol := 3; pq_data_type := 1; pq_value := 1;
                                   pq_offset := 40; pq_length := 4096; pq_subs := [0; 0; 0; 0; 0] |}
  /\ let a := s_io S h' in
     (win_ok a -> exists id, r = Ok id /\ delivered (zeros (N.to_nat 4096)) (skipn 48 (wa_out a)) id) /\ (~ win_ok a -> r = Err (errno (wa_err a))).
Proof.
  intros S h hd h' r H. unfold winnvme_open, winnvme_identity in H. rewrite win_same_closed in H. cbv zeta in H.
  match type of H with context [same_call hd ?cd ?x] => set (b := x) in *; set (c := same_call hd cd b) in * end.
  set (a := s_io S (h ++ [WIo c])) in *.
  assert (Lb : blen b = 4144) by (unfold blen, b; rewrite app_length, len_zeros; reflexivity).
  unfold b in H. rewrite (reply_data _ (zeros page)) in H by (reflexivity || apply len_zeros). set (id := fill (zeros page) (skipn 48 (wa_out a))) in *.
  assert (Li : blen id = 4096) by (unfold blen, id; rewrite fill_length, len_zeros; reflexivity).
  exists c. assert (Hh : h' = h ++ [WIo c]) by (destruct (wa_err _ =? 0) in H; [destruct (negb _) in H|]; inversion H; reflexivity).
  split; [exact Hh|]. split; [reflexivity|]. split; [reflexivity|]. split; [exact Lb|]. split; [exact Lb|].
  split; [cbn [c same_call wc_in]; unfold b; now rewrite pquery_mem|]. cbv zeta. rewrite Hh in H |- *. fold a.
  destruct (wa_err a =? 0) eqn:E.
  - rewrite Li in H. change (negb (4096 =? 4096)) with false in H. apply pair_equal_spec in H as [_ <-].
    split; [intros _; exists id; split; [reflexivity|apply fill_delivered]|rewrite win_fail_iff; congruence].
  - apply pair_equal_spec in H as [_ <-]. split; [rewrite win_ok_iff; congruence|reflexivity].
Qed.
Print Assumptions C94_winnvme_open.

(** ---- C95: log pages through the storage query ---- *)
(** The query names the page and the size, but neither the namespace nor the retain bit; the answer is accepted only with the right
    descriptor header and then has exactly the requested size, whatever number of bytes the device returned. *)
Theorem C95_winnvme_log_page : forall S h hd nsid logId rae n h' r,
  logId < 2 ^ 32 -> N.of_nat n < 2 ^ 32 -> winnvme_log_page S h hd nsid logId rae (Z.of_nat n) = (h', r) ->
  exists c d e, h' = h ++ [WIo c] /\ r = Ok (d, e) /\ wc_handle c = hd /\ wc_code c = 0x2d1400
  /\ blen (wc_in c) = 48 + N.of_nat n /\ wc_outlen c = 48 + N.of_nat n /\ skipn 48 (wc_in c) = zeros n
  /\ pquery_decode (wc_in c) = {| pq_property := 50; pq_type := 0; pq_protocol := 3; pq_data_type := 2; pq_value := logId;
                                   pq_offset := 40; pq_length := N.of_nat n; pq_subs := [0; 0; 0; 0; 0] |}
  /\ let a := s_io S h' in
     (~ win_ok a -> d = [] /\ e = Some (errno (wa_err a)))
     /\ (win_ok a -> exists reply, delivered (wc_in c) (wa_out a) reply
         /\ (field 0 4 reply = 48 /\ field 4 4 reply = 48 -> e = None /\ d = skipn 48 reply /\ List.length d = n)
         /\ (field 0 4 reply <> 48 \/ field 4 4 reply <> 48 -> d = [] /\ exists m, e = Some (EFmt "invalid response header: 0x%x, 0x%x" m))).
Proof.
  intros S h hd nsid logId rae n h' r Hl Hn H. unfold winnvme_log_page in H.
  destruct (Z.leb_spec (Z.of_nat n) (-48)) as [Q|_]; [exfalso; lia|]. destruct (Z.ltb_spec (Z.of_nat n) 0) as [Q|_]; [exfalso; lia|].
  rewrite win_same_closed in H. cbv zeta in H. rewrite Nat2Z.id in H.
  assert (U : to_uint32 (Z.of_nat n) = N.of_nat n).
  { unfold to_uint32. rewrite Z.mod_small; [now rewrite <- nat_N_Z, N2Z.id|]. change (2 ^ 32)%Z with (Z.of_N (2 ^ 32)). rewrite <- nat_N_Z. lia. }
  rewrite U in H. match type of H with context [same_call hd ?cd ?x] => set (b := x) in *; set (c := same_call hd cd b) in * end.
  set (a := s_io S (h ++ [WIo c])) in *. set (reply := fill b (wa_out a)) in *.
  assert (Lb : List.length b = (48 + n)%nat) by (unfold b; rewrite app_length, len_zeros; reflexivity).
  assert (Lc : blen b = 48 + N.of_nat n) by (unfold blen; rewrite Lb; lia).
  assert (Ld : List.length (skipn 48 reply) = n) by (rewrite skipn_length; unfold reply; rewrite fill_length, Lb; lia).
  exists c. exists (if wa_err a =? 0 then if negb (field 0 4 reply =? 48) || negb (field 4 4 reply =? 48) then [] else skipn 48 reply else []).
  exists (if wa_err a =? 0 then if negb (field 0 4 reply =? 48) || negb (field 4 4 reply =? 48) then Some (EFmt "invalid response header: 0x%x, 0x%x" (field 0 4 reply)) else None
          else Some (errno (wa_err a))).
  assert (Hh : h' = h ++ [WIo c]) by (destruct (wa_err _ =? 0) in H; [destruct (_ || _) in H|]; inversion H; reflexivity).
  split; [exact Hh|]. split.
  { rewrite Hh in H. destruct (wa_err a =? 0); [|now inversion H]. change (le_val (slice 0 4 reply)) with (field 0 4 reply) in H.
    change (le_val (slice 4 4 reply)) with (field 4 4 reply) in H. destruct (_ || _); now inversion H. }
  split; [reflexivity|]. split; [reflexivity|]. split; [exact Lc|]. split; [exact Lc|]. split; [reflexivity|].
  split; [cbn [c same_call wc_in]; unfold b; now rewrite pquery_mem|]. cbv zeta. rewrite Hh. fold a. destruct (wa_err a =? 0) eqn:E.
  - split; [rewrite win_fail_iff; congruence|]. intros _. exists reply. split; [apply fill_delivered|].
    destruct (N.eqb_spec (field 0 4 reply) 48) as [A|A], (N.eqb_spec (field 4 4 reply) 48) as [B|B]; cbn [negb orb];
      (split; [intros [X Y]|intros X]); try contradiction; auto; try tauto; (split; [reflexivity|eexists; reflexivity]).
  - split; [auto|rewrite win_ok_iff; congruence].
Qed.
Print Assumptions C95_winnvme_log_page.
