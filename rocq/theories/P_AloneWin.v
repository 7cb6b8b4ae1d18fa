(** Lemmas for C157: what the Windows drivers and the Windows factory do depends on the system only at the requests they make. *)
From Verif Require Import Base M_Buffer M_Struc M_Layouts M_Ata M_TcgDevice M_DriveHandle M_Cdb M_SgDriver M_SgHandle M_NvmeLinux M_Strings M_WinPass M_WinNvme M_WinInfo M_WinFactory
  P_DriveHandle P_Alone P_Alone2.

(** [S] after [w0] answers like [S'] from the start, up to [n] events; [A] gives the same addresses before each of them. *)
Record wagree (n : nat) (w0 : whist) (S S' : wsys) (A A' : waddr) : Prop := {
  wg_io : kagree n w0 (s_io S) (s_io S'); wg_open : kagree n w0 (s_open S) (s_open S');
  wg_data : aagree n w0 (ad_data A) (ad_data A'); wg_bounce : aagree n w0 (ad_bounce A) (ad_bounce A') }.
Lemma wagree_le n m w0 S S' A A' : wagree n w0 S S' A A' -> (m <= n)%nat -> wagree m w0 S S' A A'.
Proof. intros [a b c d] L. constructor; [eapply kagree_le|eapply kagree_le|eapply aagree_le|eapply aagree_le]; eassumption. Qed.
Notation wlen h := (@List.length wev h).

(** ---- one request ---- *)
Lemma win_io_len S h c : wlen (fst (win_io S h c)) = Datatypes.S (wlen h).
Proof. unfold win_io. cbn [fst]. rewrite app_length. cbn. lia. Qed.
Lemma win_io_sh n w0 S S' A A' h c h1 r : wagree n w0 S S' A A' -> win_io S' h c = (h1, r) -> (wlen h1 <= n)%nat -> win_io S (w0 ++ h) c = (w0 ++ h1, r).
Proof.
  intros H E L. unfold win_io in *. injection E as <- <-. rewrite <- app_assoc, (wg_io _ _ _ _ _ _ H); [reflexivity|]. split; [rewrite app_length; cbn; lia|exact L].
Qed.
Lemma win_query_len S h hd code inb m : wlen (fst (win_query S h hd code inb m)) = Datatypes.S (wlen h).
Proof. unfold win_query. cbn [fst]. rewrite app_length. cbn. lia. Qed.
Lemma win_query_sh n w0 S S' A A' h hd code inb m h1 r : wagree n w0 S S' A A' -> win_query S' h hd code inb m = (h1, r) -> (wlen h1 <= n)%nat -> win_query S (w0 ++ h) hd code inb m = (w0 ++ h1, r).
Proof.
  intros H E L. unfold win_query in *. injection E as <- <-. rewrite <- app_assoc, (wg_io _ _ _ _ _ _ H); [reflexivity|]. split; [rewrite app_length; cbn; lia|exact L].
Qed.
Lemma open_device_len S h p : wlen (fst (open_device S h p)) = Datatypes.S (wlen h).
Proof. unfold open_device. cbn [fst]. rewrite app_length. cbn. lia. Qed.
Lemma open_device_sh n w0 S S' A A' h p h1 r : wagree n w0 S S' A A' -> open_device S' h p = (h1, r) -> (wlen h1 <= n)%nat -> open_device S (w0 ++ h) p = (w0 ++ h1, r).
Proof.
  intros H E L. unfold open_device in *. injection E as <- <-. rewrite <- app_assoc, (wg_open _ _ _ _ _ _ H); [reflexivity|]. split; [rewrite app_length; cbn; lia|exact L].
Qed.
Lemma win_same_len S h hd code b : wlen (fst (win_same S h hd code b)) = Datatypes.S (wlen h).
Proof. unfold win_same. match goal with |- context [win_io S h ?c] => pose proof (win_io_len S h c) as L; destruct (win_io S h c) as [h1 [e [o m]]] end. exact L. Qed.
Lemma win_same_sh n w0 S S' A A' h hd code b h1 r : wagree n w0 S S' A A' -> win_same S' h hd code b = (h1, r) -> (wlen h1 <= n)%nat -> win_same S (w0 ++ h) hd code b = (w0 ++ h1, r).
Proof.
  intros H E L. unfold win_same in *. match type of E with context [win_io S' h ?c] => destruct (win_io S' h c) as [h2 [e [o m]]] eqn:E1 end. injection E as <- <-.
  rewrite (win_io_sh n w0 S S' A A' _ _ _ _ H E1 L). reflexivity.
Qed.

(** ---- the pass-through loop ---- *)
Definition win_second (S : wsys) (hd buffered : N) (hdr : N -> bytes -> bytes) (n : nat) (back rw : bool) (h1 : whist) (data1 p1 : bytes) : whist * res (option err * (bytes * bytes)) :=
  let p2 := hdr (N.of_nat n) p1 in
  let '(h2, (e2, (out, _))) := win_io S h1 {| wc_handle := hd; wc_code := buffered; wc_in := p2 ++ data1; wc_outlen := N.of_nat n + blen data1; wc_target := TNone; wc_mem := [] |} in
  match e2 with
  | Some e => (h2, Ok (Some e, (data1, p2)))
  | None => (h2, Ok (None, (if rw then data1 else fill data1 (skipn n out), if back then firstn n out else p2)))
  end.
Lemma win_second_len S hd b hdr n back rw h d p : wlen (fst (win_second S hd b hdr n back rw h d p)) = Datatypes.S (wlen h).
Proof. unfold win_second. cbv zeta. match goal with |- context [win_io S h ?c] => pose proof (win_io_len S h c) as L; destruct (win_io S h c) as [h1 [[e|] [o m]]] end; exact L. Qed.
Lemma win_second_sh n w0 S S' A A' hd b hdr m back rw h d p h1 r : wagree n w0 S S' A A' -> win_second S' hd b hdr m back rw h d p = (h1, r) -> (wlen h1 <= n)%nat ->
  win_second S hd b hdr m back rw (w0 ++ h) d p = (w0 ++ h1, r).
Proof.
  intros H E L. unfold win_second in *. cbv zeta in *. match type of E with context [win_io S' h ?c] => destruct (win_io S' h c) as [h2 [e [o k]]] eqn:E1 end.
  assert (h2 = h1) as -> by (destruct e; injection E as <- _; reflexivity).
  rewrite (win_io_sh n w0 S S' A A' _ _ _ _ H E1 L). destruct e; injection E as <-; reflexivity.
Qed.
Definition win_first (S : wsys) (h : whist) (hd direct : N) (hdr : N -> bytes -> bytes) (n : nat) (ptr : N) (tg : target) (mem : bytes) :=
  win_io S h {| wc_handle := hd; wc_code := direct; wc_in := hdr ptr (zeros n); wc_outlen := N.of_nat n; wc_target := tg; wc_mem := mem |}.
Lemma win_tries_eq S h hd direct buffered hdr n back rw data addr baddr : win_tries S h hd direct buffered hdr n back rw data addr baddr =
  match data with
  | [] => (h, Panic)
  | _ =>
    if addr mod 512 =? 0 then
      let '(h1, (e1, (p1, mem))) := win_first S h hd direct hdr n addr TCaller data in
      match e1 with None => (h1, Ok (None, (mem, p1))) | Some _ => win_second S hd buffered hdr n back rw h1 mem p1 end
    else
      let b0 := new_aligned (List.length data) in
      let b1 := if rw then fst (buf_write (reset_write b0) data) else b0 in
      let '(h1, (e1, (p1, mem))) := win_first S h hd direct hdr n baddr TBounce (a_data b1) in
      match e1 with
      | None => (h1, if rw then Ok (None, (data, p1))
                     else match snd (buf_read (reset_read (with_data b1 mem)) (List.length data)) with
                          | Ok got => Ok (None, (fill data got, p1)) | Err _ => Ok (None, (data, p1)) | Panic => Panic | Fuel => Fuel end)
      | Some _ => win_second S hd buffered hdr n back rw h1 data p1
      end
  end.
Proof.
  unfold win_tries. destruct data as [|x d]; [reflexivity|]. change (is_aligned_pointer 512 addr) with (Ok (addr mod 512 =? 0)). destruct (addr mod 512 =? 0); [reflexivity|].
  cbv zeta. unfold win_first. match goal with |- context [win_io S h ?c] => destruct (win_io S h c) as [h1 [[e|] [p m]]] end; [reflexivity|].
  destruct rw; [reflexivity|]. destruct (snd (buf_read _ _)); reflexivity.
Qed.
Lemma win_first_len S h hd c hdr n ptr tg mem : wlen (fst (win_first S h hd c hdr n ptr tg mem)) = Datatypes.S (wlen h).
Proof. apply win_io_len. Qed.
Lemma win_tries_more S h hd direct buffered hdr n back rw x d addr baddr : (wlen h < wlen (fst (win_tries S h hd direct buffered hdr n back rw (x :: d) addr baddr)))%nat.
Proof.
  rewrite win_tries_eq. cbv zeta. destruct (addr mod 512 =? 0);
    match goal with |- context [win_first S h hd direct hdr n ?a ?t ?m] => pose proof (win_first_len S h hd direct hdr n a t m) as L; destruct (win_first S h hd direct hdr n a t m) as [h1 [[e|] [p m1]]] end;
    cbn [fst] in *; rewrite ?win_second_len; lia.
Qed.
Lemma win_tries_len S h hd direct buffered hdr n back rw data addr baddr : (wlen h <= wlen (fst (win_tries S h hd direct buffered hdr n back rw data addr baddr)))%nat.
Proof. destruct data as [|x d]; [apply Nat.le_refl|]. apply Nat.lt_le_incl, win_tries_more. Qed.
Lemma win_tries_sh n w0 S S' A A' h hd direct buffered hdr m back rw data a b a' b' h1 r : wagree n w0 S S' A A' ->
  win_tries S' h hd direct buffered hdr m back rw data a' b' = (h1, r) -> (wlen h1 <= n)%nat -> ((wlen h < n)%nat -> a = a' /\ b = b') ->
  win_tries S (w0 ++ h) hd direct buffered hdr m back rw data a b = (w0 ++ h1, r).
Proof.
  intros H E L HA. destruct data as [|x d]; [injection E as <- <-; reflexivity|].
  pose proof (win_tries_more S' h hd direct buffered hdr m back rw x d a' b') as G. rewrite E in G. cbn [fst] in G.
  destruct (HA (Nat.lt_le_trans _ _ _ G L)) as [-> ->]. clear G HA. rewrite win_tries_eq in *. cbv zeta in *. destruct (a' mod 512 =? 0).
  - match type of E with context [win_first S' h hd direct hdr m ?p ?t ?z] => destruct (win_first S' h hd direct hdr m p t z) as [h2 [[e|] [p1 m1]]] eqn:E1 end.
    + assert (L2 : (wlen h2 <= n)%nat) by (pose proof (win_second_len S' hd buffered hdr m back rw h2 m1 p1) as Q; rewrite E in Q; cbn [fst] in Q; lia).
      unfold win_first in *. rewrite (win_io_sh n w0 S S' A A' _ _ _ _ H E1 L2). exact (win_second_sh n w0 S S' A A' _ _ _ _ _ _ _ _ _ _ _ H E L).
    + injection E as <- <-. unfold win_first in *. rewrite (win_io_sh n w0 S S' A A' _ _ _ _ H E1 L). reflexivity.
  - match type of E with context [win_first S' h hd direct hdr m ?p ?t ?z] => destruct (win_first S' h hd direct hdr m p t z) as [h2 [[e|] [p1 m1]]] eqn:E1 end.
    + assert (L2 : (wlen h2 <= n)%nat) by (pose proof (win_second_len S' hd buffered hdr m back rw h2 (x :: d) p1) as Q; rewrite E in Q; cbn [fst] in Q; lia).
      unfold win_first in *. rewrite (win_io_sh n w0 S S' A A' _ _ _ _ H E1 L2). exact (win_second_sh n w0 S S' A A' _ _ _ _ _ _ _ _ _ _ _ H E L).
    + injection E as <- <-. unfold win_first in *. rewrite (win_io_sh n w0 S S' A A' _ _ _ _ H E1 L). reflexivity.
Qed.
Definition ata_post (r : res (option err * (bytes * bytes))) : wpt :=
  match r with
  | Ok (None, (d, p)) => let status := nth 46 p 0 in if negb (N.land status (N.lor 1 8) =? 0) then Ok (Some (EDparm "ATA Status: %02x" status []), d) else Ok (None, d)
  | Ok (Some e, (d, _)) => Ok (Some e, d)
  | Err e => Err e | Panic => Panic | Fuel => Fuel
  end.
Lemma win_ata_eq S h hd rw dma t data addr baddr secs : win_ata S h hd rw dma t data addr baddr secs =
  let T := win_tries S h hd IOCTL_ATA_PASS_THROUGH_DIRECT IOCTL_ATA_PASS_THROUGH (ata_params rw t (blen data) secs) sizeof_ata_params false rw (if rw then zeros (List.length data) else data) addr baddr in
  (fst T, ata_post (snd T)).
Proof.
  unfold win_ata. cbv zeta. match goal with |- context [win_tries S h hd ?a ?b ?c ?d ?e rw ?f addr baddr] => destruct (win_tries S h hd a b c d e rw f addr baddr) as [h1 [[[e0|] [x p]]|e0| |]] end; try reflexivity.
  cbn [fst snd ata_post]. destruct (negb _); reflexivity.
Qed.
Definition scsi_post (r : res (option err * (bytes * bytes))) : wpt :=
  match r with Ok (None, (d, p)) => Ok (win_sense_error p, d) | Ok (Some e, (d, _)) => Ok (Some e, d) | Err e => Err e | Panic => Panic | Fuel => Fuel end.
Lemma win_scsi_eq S h hd rw cdb data addr baddr secs : win_scsi S h hd rw cdb data addr baddr secs =
  let T := win_tries S h hd IOCTL_SCSI_PASS_THROUGH_DIRECT IOCTL_SCSI_PASS_THROUGH (scsi_params rw cdb (blen data) secs) sizeof_scsi_params true rw (if rw then zeros (List.length data) else data) addr baddr in
  (fst T, scsi_post (snd T)).
Proof.
  unfold win_scsi. cbv zeta. match goal with |- context [win_tries S h hd ?a ?b ?c ?d ?e rw ?f addr baddr] => destruct (win_tries S h hd a b c d e rw f addr baddr) as [h1 [[[e0|] [x p]]|e0| |]] end; reflexivity.
Qed.
Lemma win_ata_len S h hd rw dma t data addr baddr secs : (wlen h <= wlen (fst (win_ata S h hd rw dma t data addr baddr secs)))%nat.
Proof. rewrite win_ata_eq. cbv zeta. cbn [fst]. apply win_tries_len. Qed.
Lemma win_scsi_len S h hd rw cdb data addr baddr secs : (wlen h <= wlen (fst (win_scsi S h hd rw cdb data addr baddr secs)))%nat.
Proof. rewrite win_scsi_eq. cbv zeta. cbn [fst]. apply win_tries_len. Qed.
Lemma win_ata_sh n w0 S S' A A' h hd rw dma t data a b a' b' secs h1 r : wagree n w0 S S' A A' -> win_ata S' h hd rw dma t data a' b' secs = (h1, r) -> (wlen h1 <= n)%nat ->
  ((wlen h < n)%nat -> a = a' /\ b = b') -> win_ata S (w0 ++ h) hd rw dma t data a b secs = (w0 ++ h1, r).
Proof.
  rewrite !win_ata_eq. cbv zeta. intros H E L HA. match type of E with context [win_tries S' h ?q ?a1 ?b1 ?c ?d ?e ?g ?f a' b'] => destruct (win_tries S' h q a1 b1 c d e g f a' b') as [h2 r2] eqn:E1 end.
  cbn [fst snd] in E. injection E as <- <-. rewrite (win_tries_sh n w0 S S' A A' _ _ _ _ _ _ _ _ _ _ _ _ _ _ _ H E1 L HA). reflexivity.
Qed.
Lemma win_scsi_sh n w0 S S' A A' h hd rw cdb data a b a' b' secs h1 r : wagree n w0 S S' A A' -> win_scsi S' h hd rw cdb data a' b' secs = (h1, r) -> (wlen h1 <= n)%nat ->
  ((wlen h < n)%nat -> a = a' /\ b = b') -> win_scsi S (w0 ++ h) hd rw cdb data a b secs = (w0 ++ h1, r).
Proof.
  rewrite !win_scsi_eq. cbv zeta. intros H E L HA. match type of E with context [win_tries S' h ?q ?a1 ?b1 ?c ?d ?e ?g ?f a' b'] => destruct (win_tries S' h q a1 b1 c d e g f a' b') as [h2 r2] eqn:E1 end.
  cbn [fst snd] in E. injection E as <- <-. rewrite (win_tries_sh n w0 S S' A A' _ _ _ _ _ _ _ _ _ _ _ _ _ _ _ H E1 L HA). reflexivity.
Qed.

(** ---- NVMe requests ---- *)
Lemma miniport_len S h hd c ext : (wlen h <= wlen (fst (miniport_admin S h hd c ext)))%nat.
Proof.
  unfold miniport_admin. destruct (4096 <? c_data_len c); [apply Nat.le_refl|]. cbv zeta.
  match goal with |- context [win_same S h hd ?a ?b] => pose proof (win_same_len S h hd a b) as L; destruct (win_same S h hd a b) as [h1 [[e|] o]] end; cbn [fst] in *; lia.
Qed.
Lemma miniport_sh n w0 S S' A A' h hd c ext h1 r : wagree n w0 S S' A A' -> miniport_admin S' h hd c ext = (h1, r) -> (wlen h1 <= n)%nat -> miniport_admin S (w0 ++ h) hd c ext = (w0 ++ h1, r).
Proof.
  intros H. unfold miniport_admin. destruct (4096 <? c_data_len c); [now intros [= <- <-]|]. cbv zeta.
  match goal with |- context [win_same S' h hd ?a ?b] => destruct (win_same S' h hd a b) as [h2 [e o]] eqn:E1 end. intros E L.
  assert (h2 = h1) as -> by (destruct e; injection E as <- _; reflexivity). rewrite (win_same_sh n w0 S S' A A' _ _ _ _ _ _ H E1 L). destruct e; injection E as <-; reflexivity.
Qed.
Lemma wlog_len S h hd nsid logId rae size : (wlen h <= wlen (fst (winnvme_log_page S h hd nsid logId rae size)))%nat.
Proof.
  unfold winnvme_log_page. destruct (size <=? -48)%Z; [apply Nat.le_refl|]. destruct (size <? 0)%Z; [apply Nat.le_refl|].
  match goal with |- context [win_same S h hd ?a ?b] => pose proof (win_same_len S h hd a b) as L; destruct (win_same S h hd a b) as [h1 [[e|] o]] end; cbn [fst] in *; [lia|].
  cbv zeta. destruct (_ || _); cbn [fst]; lia.
Qed.
Lemma wlog_sh n w0 S S' A A' h hd nsid logId rae size h1 r : wagree n w0 S S' A A' -> winnvme_log_page S' h hd nsid logId rae size = (h1, r) -> (wlen h1 <= n)%nat ->
  winnvme_log_page S (w0 ++ h) hd nsid logId rae size = (w0 ++ h1, r).
Proof.
  intros H. unfold winnvme_log_page. destruct (size <=? -48)%Z; [now intros [= <- <-]|]. destruct (size <? 0)%Z; [now intros [= <- <-]|].
  match goal with |- context [win_same S' h hd ?a ?b] => destruct (win_same S' h hd a b) as [h2 [e o]] eqn:E1 end. intros E L.
  assert (h2 = h1) as -> by (cbv zeta in E; destruct e; [|destruct (_ || _)]; injection E as <- _; reflexivity). rewrite (win_same_sh n w0 S S' A A' _ _ _ _ _ _ H E1 L).
  cbv zeta in *. destruct e; [injection E as <-; reflexivity|]. destruct (_ || _); injection E as <-; reflexivity.
Qed.

(** ---- calls to a driver ---- *)
(** One driver call, GetLogPage included: what win_replay folds over. *)
Definition win_one (S : wsys) (A : waddr) (d : wdh) (k : whist) (c : dcall) : whist :=
  fst (match c with
       | CLogPage nsid logId rae size =>
           match wd_kind d with
           | KWinNvme => let '(h1, _) := winnvme_log_page S k (wd_handle d) nsid logId rae size in (h1, Ok (None, []))
           | _ => (k, Ok (None, [])) end
       | _ => win_exec S A d k c end).
Lemma win_exec_len S A d h c : (wlen h <= wlen (fst (win_exec S A d h c)))%nat.
Proof.
  unfold win_exec, win_security, win_task_file. cbv zeta. destruct c, (wd_kind d); cbn [fst]; try apply Nat.le_refl; try apply win_scsi_len; try apply win_ata_len;
    try (unfold close_handle; rewrite app_length; apply Nat.le_add_r).
  pose proof (miniport_len S h (wd_scsi d) c []) as L. destruct (miniport_admin S h (wd_scsi d) c []) as [h1 [e [c' x]]]. exact L.
Qed.
Lemma win_exec_sh n w0 S S' A A' d h c h1 r : wagree n w0 S S' A A' -> win_exec S' A' d h c = (h1, r) -> (wlen h1 <= n)%nat -> win_exec S A d (w0 ++ h) c = (w0 ++ h1, r).
Proof.
  intros H. assert (HA : (wlen h < n)%nat -> ad_data A (w0 ++ h) = ad_data A' h /\ ad_bounce A (w0 ++ h) = ad_bounce A' h).
  { intros L. split; [apply (wg_data _ _ _ _ _ _ H)|apply (wg_bounce _ _ _ _ _ _ H)]; exact L. }
  unfold win_exec, win_security, win_task_file, close_handle. cbv zeta. destruct c, (wd_kind d); try (intros [= <- <-] _; rewrite ?app_assoc; reflexivity); intros E L;
    try exact (win_scsi_sh n w0 S S' A A' _ _ _ _ _ _ _ _ _ _ _ _ H E L HA); try exact (win_ata_sh n w0 S S' A A' _ _ _ _ _ _ _ _ _ _ _ _ _ H E L HA).
  destruct (miniport_admin S' h (wd_scsi d) c []) as [h2 [e [c' x]]] eqn:E1. injection E as <- <-. rewrite (miniport_sh n w0 S S' A A' _ _ _ _ _ _ H E1 L). reflexivity.
Qed.
Lemma win_one_len S A d h c : (wlen h <= wlen (win_one S A d h c))%nat.
Proof.
  unfold win_one. destruct c; try apply win_exec_len. destruct (wd_kind d); try apply Nat.le_refl.
  match goal with |- context [winnvme_log_page S h ?a ?b ?c ?e ?f] => pose proof (wlog_len S h a b c e f) as L; destruct (winnvme_log_page S h a b c e f) end. exact L.
Qed.
Lemma win_one_sh n w0 S S' A A' d h c : wagree n w0 S S' A A' -> (wlen (win_one S' A' d h c) <= n)%nat -> win_one S A d (w0 ++ h) c = w0 ++ win_one S' A' d h c.
Proof.
  intros H. unfold win_one. destruct c;
    try (match goal with |- context [win_exec S' A' d h ?q] => destruct (win_exec S' A' d h q) as [h1 r] eqn:E1; cbn [fst]; intros L; rewrite (win_exec_sh n w0 S S' A A' _ _ _ _ _ H E1 L); reflexivity end).
  destruct (wd_kind d); try reflexivity.
  match goal with |- context [winnvme_log_page S' h ?a ?b ?c ?e ?f] => destruct (winnvme_log_page S' h a b c e f) as [h1 r] eqn:E1 end. cbn [fst]. intros L.
  rewrite (wlog_sh n w0 S S' A A' _ _ _ _ _ _ _ _ H E1 L). reflexivity.
Qed.
Lemma win_replay_snoc S A d h cs c : win_replay S A d h (cs ++ [c]) = win_one S A d (win_replay S A d h cs) c.
Proof. unfold win_replay. now rewrite fold_left_app. Qed.
Lemma win_replay_app S A d h cs cs' : win_replay S A d h (cs ++ cs') = win_replay S A d (win_replay S A d h cs) cs'.
Proof. unfold win_replay. now rewrite fold_left_app. Qed.
Lemma win_replay_len S A d cs : forall h, (wlen h <= wlen (win_replay S A d h cs))%nat.
Proof. induction cs as [|c cs IH]; intros h; [apply Nat.le_refl|]. change (win_replay S A d h (c :: cs)) with (win_replay S A d (win_one S A d h c) cs). exact (Nat.le_trans _ _ _ (win_one_len S A d h c) (IH _)). Qed.
Lemma win_replay_sh n w0 S S' A A' d h cs : wagree n w0 S S' A A' -> (wlen (win_replay S' A' d h cs) <= n)%nat -> win_replay S A d (w0 ++ h) cs = w0 ++ win_replay S' A' d h cs.
Proof.
  intros H. induction cs as [|c cs IH] using rev_ind; [reflexivity|]. rewrite !win_replay_snoc. intros L.
  rewrite IH by exact (Nat.le_trans _ _ _ (win_one_len S' A' d _ c) L). exact (win_one_sh n w0 S S' A A' _ _ _ H L).
Qed.
Lemma win_drv_sees S S' A A' d h0 h c0 f w0 : win_replay S A d h0 c0 = w0 ++ h -> wagree (wlen (win_replay S' A' d h f)) w0 S S' A A' ->
  sees_upto (win_drv S A d h0) (win_drv S' A' d h) c0 f.
Proof.
  intros R H b c [x Ef]. set (n := wlen (win_replay S' A' d h f)) in *.
  assert (L1 : (wlen (win_replay S' A' d h (b ++ [c])) <= n)%nat) by (unfold n; rewrite Ef, (win_replay_app S' A' d h (b ++ [c]) x); apply win_replay_len).
  assert (E : win_replay S A d h0 (c0 ++ b) = w0 ++ win_replay S' A' d h b).
  { rewrite win_replay_app, R. apply (win_replay_sh n); [exact H|]. refine (Nat.le_trans _ _ _ _ L1). rewrite win_replay_snoc. apply win_one_len. }
  rewrite win_replay_snoc in L1. unfold win_one in L1.
  constructor; cbn [win_drv v_io v_tf v_identity v_log v_type v_name]; rewrite ?app_assoc, ?last_call_snoc; try reflexivity; rewrite E.
  - destruct c;
      try (match goal with |- context [win_exec S' A' d ?k ?q] => destruct (win_exec S' A' d k q) as [h1 r] eqn:E1; cbn [fst] in L1; rewrite (win_exec_sh n w0 S S' A A' _ _ _ _ _ H E1 L1); reflexivity end).
    unfold win_exec. destruct (wd_kind d); reflexivity.
  - destruct c; try reflexivity. destruct (wd_kind d); try reflexivity.
    match goal with |- context [winnvme_log_page S' ?k ?a ?b ?c ?e ?f] => destruct (winnvme_log_page S' k a b c e f) as [h1 r] eqn:E1 end. cbn [fst] in L1.
    rewrite (wlog_sh n w0 S S' A A' _ _ _ _ _ _ _ _ H E1 L1). reflexivity.
Qed.
