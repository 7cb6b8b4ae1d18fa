(** Property theorems C100-C103: what the Windows code asks about a disk and what it makes of the answers.  [S] is an arbitrary system:
    each answer is any function of the whole history. *)
From Verif Require Import Base M_TcgDevice M_SgDriver M_Strings M_WinPass M_WinNvme M_WinInfo Spec_WinPass Spec_WinInfo P_WinPass P_WinInfo.

Definition answers_bytes (S : wsys) : Prop := forall h, wf (wa_out (s_io S h)).
Lemma wf_got : forall S h n, answers_bytes S -> wf (got S h n).
Proof.
  intros S h n H. unfold got, buffer_after. apply wf_firstn. unfold fill. apply Forall_app. split; [apply wf_firstn, H|]. apply wf_skipn, wf_zeros.
Qed.
Lemma fetch_wf : forall S hd code inb h h' b d, answers_bytes S -> fetch S hd code inb h h' (Ok (b, d)) -> wf d.
Proof. intros S hd code inb h h' b d H F. inversion F; subst; now apply wf_got. Qed.
Lemma fetch_fits : forall S hd code inb h h' b d, fetch S hd code inb h h' (Ok (b, d)) -> exists n, d = firstn n b /\ (n <= List.length b)%nat.
Proof.
  intros S hd code inb h h' b d F. inversion F; subst; unfold got; eexists; (split; [reflexivity|]);
    match goal with |- context [buffer_after S ?h ?n] => pose proof (buffer_len S h n) as L end; unfold blen in L; lia.
Qed.

(** C100: a query of unknown size (utils.go ReadDeviceIoControl: buffer and byte count) takes one call, or two when the first says its
    4096 bytes are too few; the second repeats the question with the size the system named.  An error reported is that of the first call. *)
Theorem C100_size_negotiation : forall S h hd code inb h' r, read_ioctl S h hd code inb = (h', r) ->
  let h1 := h ++ [query hd code inb 4096] in
  let n := wa_ret (s_io S h1) in
  let size := if wa_err (s_io S h1) =? 122 then n else 4096 in
  (h' = h1 \/ h' = h1 ++ [query hd code inb n]) /\
  (h' <> h1 <-> wa_err (s_io S h1) = 122 /\ n <> 0) /\
  (forall e, r = Err e <-> e = errno (wa_err (s_io S h1)) /\ wa_err (s_io S h') <> 0 /\ (wa_err (s_io S h1) = 122 -> n <> 0)) /\
  (forall b k, r = Ok (b, k) <-> wa_err (s_io S h') = 0 /\ b = buffer_after S h' size /\ blen b = size /\ k = wa_ret (s_io S h') /\ k <= size) /\
  (r = Panic <-> (wa_err (s_io S h1) = 122 /\ n = 0) \/ (wa_err (s_io S h') = 0 /\ size < wa_ret (s_io S h'))).
Proof.
  intros S h hd code inb h' r H. cbv zeta.
  assert (NE : forall (l : whist) x, l ++ [x] <> l) by (intros l x E; apply (f_equal (@List.length wev)) in E; rewrite app_length in E; cbn in E; lia).
  unfold read_ioctl, win_query in H.
  change (WIo {| wc_handle := hd; wc_code := code; wc_in := inb; wc_outlen := 4096; wc_target := TNone; wc_mem := [] |}) with (query hd code inb 4096) in H.
  set (h1 := h ++ [query hd code inb 4096]) in *. cbv zeta in H. unfold ERROR_INSUFFICIENT_BUFFER in H.
  fold (buffer_after S h1 4096) in H. set (n := wa_ret (s_io S h1)) in *.
  destruct (N.eqb_spec (wa_err (s_io S h1)) 122) as [E|E].
  - destruct (N.eqb_spec n 0) as [Z|Z].
    + injection H as <- <-. split; [now left|]. split; [split; [congruence|intros [_ X]; contradiction]|]. split; [|split].
      * intros e. split; [discriminate|]. intros (_ & _ & X). exfalso. now apply X.
      * intros b k. split; [discriminate|]. intros (X & _). congruence.
      * split; [auto|reflexivity].
    + change (WIo {| wc_handle := hd; wc_code := code; wc_in := inb; wc_outlen := n; wc_target := TNone; wc_mem := [] |}) with (query hd code inb n) in H.
      set (h2 := h1 ++ [query hd code inb n]) in *. fold (buffer_after S h2 n) in H. pose proof (buffer_len S h2 n) as L. rewrite L in H.
      assert (HH : h' = h2) by (destruct (wa_err (s_io S h2) =? 0); [destruct (n <? wa_ret (s_io S h2))|]; inversion H; reflexivity). subst h'.
      split; [now right|]. split; [split; [auto|intros _; apply NE]|].
      destruct (N.eqb_spec (wa_err (s_io S h2)) 0) as [E2|E2]; [destruct (N.ltb_spec n (wa_ret (s_io S h2))) as [G|G]|]; apply pair_equal_spec in H as [_ <-].
      * split; [|split].
        -- intros e. split; [discriminate|]. intros (_ & X & _). contradiction.
        -- intros b k. split; [discriminate|]. intros (_ & _ & _ & -> & X). lia.
        -- split; [auto|reflexivity].
      * split; [|split].
        -- intros e. split; [discriminate|]. intros (_ & X & _). contradiction.
        -- intros b k. split; [intros X; injection X as <- <-; auto|]. intros (_ & -> & _ & -> & _). reflexivity.
        -- split; [discriminate|]. intros [[_ X]|[_ X]]; [contradiction|lia].
      * split; [|split].
        -- intros e. split; [intros X; injection X as <-; auto|]. intros (-> & _). reflexivity.
        -- intros b k. split; [discriminate|]. intros (X & _). contradiction.
        -- split; [discriminate|]. intros [[_ X]|[X _]]; contradiction.
  - pose proof (buffer_len S h1 4096) as L. rewrite L in H. fold n in H.
    assert (HH : h' = h1) by (destruct (wa_err (s_io S h1) =? 0); [destruct (4096 <? n)|]; inversion H; reflexivity). subst h'.
    split; [now left|]. split; [split; [congruence|intros [X _]; contradiction]|].
    destruct (N.eqb_spec (wa_err (s_io S h1)) 0) as [E2|E2]; [destruct (N.ltb_spec 4096 n) as [G|G]|]; apply pair_equal_spec in H as [_ <-].
    + split; [|split].
      * intros e. split; [discriminate|]. intros (_ & X & _). contradiction.
      * intros b k. split; [discriminate|]. intros (_ & _ & _ & -> & X). lia.
      * split; [auto|reflexivity].
    + split; [|split].
      * intros e. split; [discriminate|]. intros (_ & X & _). contradiction.
      * intros b k. split; [intros X; injection X as <- <-; auto|]. intros (_ & -> & _ & -> & _). reflexivity.
      * split; [discriminate|]. intros [[X _]|[_ X]]; [congruence|lia].
    + split; [|split].
      * intros e. split; [intros X; injection X as <-; repeat split; auto; contradiction|]. intros (-> & _). reflexivity.
      * intros b k. split; [discriminate|]. intros (X & _). contradiction.
      * split; [discriminate|]. intros [[X _]|[X _]]; contradiction.
Qed.
Print Assumptions C100_size_negotiation.

(** C101, C102: ReadBasicInfo.  Three questions, on this handle: device number, geometry, partition layout.  The first two only matter if
    answered; without a device number partitions are reported on disk 0xffffffff.  The layout's answer gives the partition table; a
    refused layout query gives none; an unreadable layout (or an impossible size, see [fetch]) panics. *)
Theorem C101_basic_info : forall S h hd h' r, answers_bytes S -> win_basic_info S h hd = (h', r) ->
  let h1 := h ++ [query hd 0x2d1080 [] 12] in
  let h2 := h1 ++ [query hd 0x700a0 [] 32] in
  let numbers b :=
    wb_devnum b = (if wa_err (s_io S h1) =? 0 then Some (field 4 4 (buffer_after S h1 12)) else None) /\
    wb_size b = (if wa_err (s_io S h2) =? 0 then Some (field 24 8 (buffer_after S h2 32)) else None) in
  exists f, fetch S hd 0x70050 [] h2 h' f /\
  match f with
  | Ok (_, data) => unreadable_layout data /\ r = Panic \/
      ~ unreadable_layout data /\ exists b, r = Ok b /\ numbers b /\
        table_of (match wb_devnum b with Some n => n | None => 0xffffffff end) data b
  | Err _ => exists b, r = Ok b /\ numbers b /\ no_table b
  | _ => r = Panic
  end.
Proof.
  intros S h hd h' r WS H h1 h2 numbers. unfold win_basic_info, win_query in H.
  change (WIo {| wc_handle := hd; wc_code := IOCTL_STORAGE_GET_DEVICE_NUMBER; wc_in := []; wc_outlen := 12; wc_target := TNone; wc_mem := [] |})
    with (query hd 0x2d1080 [] 12) in H. fold h1 in H.
  change (WIo {| wc_handle := hd; wc_code := IOCTL_DISK_GET_DRIVE_GEOMETRY_EX; wc_in := []; wc_outlen := 32; wc_target := TNone; wc_mem := [] |})
    with (query hd 0x700a0 [] 32) in H. fold h2 in H.
  fold (buffer_after S h1 12) in H. fold (buffer_after S h2 32) in H.
  change (le_val (slice 4 4 (buffer_after S h1 12))) with (field 4 4 (buffer_after S h1 12)) in H.
  change (le_val (slice 24 8 (buffer_after S h2 32))) with (field 24 8 (buffer_after S h2 32)) in H.
  change IOCTL_DISK_GET_DRIVE_LAYOUT_EX with 0x70050 in H.
  destruct (read_ioctl S h2 hd 0x70050 []) as (h3, q) eqn:E. apply read_ioctl_fetch in E as (F & NF & _).
  set (dev := if wa_err (s_io S h1) =? 0 then _ else _) in *. set (size := if wa_err (s_io S h2) =? 0 then _ else _) in *.
  destruct q as [(buf, n)| | |].
  - exists (Ok (buf, firstn (N.to_nat n) buf)).
    pose proof (fetch_wf _ _ _ _ _ _ _ _ WS F) as W. set (data := firstn (N.to_nat n) buf) in *.
    destruct (layout_info_spec (disk_number dev) data W) as [[U L]|[U (style & sig & id & ps & L & T)]]; rewrite L in H; injection H as <- <-.
    + split; [exact F|]. left. auto.
    + split; [exact F|]. right. split; [exact U|]. eexists. split; [reflexivity|]. split; [split; reflexivity|]. apply T.
  - injection H as <- <-. eexists. split; [exact F|]. cbn. eexists. split; [reflexivity|]. split; [split; reflexivity|]. repeat split.
  - injection H as <- <-. exists Panic. split; [exact F|reflexivity].
  - congruence.
Qed.
Print Assumptions C101_basic_info.

(** The reported GUID text determines the GUID. *)
Lemma reads16_fun : forall s v, reads16 s v -> forall w, reads16 s w -> v = w.
Proof.
  intros s v A. induction A as [|s v c d A IH Hd]; intros w B; inversion B; subst.
  - reflexivity.
  - now destruct s.
  - now destruct s.
  - apply app_inj_tail in H as [-> ->]. rewrite (IH _ H0). congruence.
Qed.
Theorem C101_guid_text_injective : forall g1 g2 t, wf g1 -> wf g2 -> List.length g1 = 16%nat -> List.length g2 = 16%nat ->
  guid_text g1 t -> guid_text g2 t -> g1 = g2.
Proof.
  intros g1 g2 t W1 W2 L1 L2 (a & b & c & d & e & E & La & Lb & Lc & Ld & Le & Ra & Rb & Rc & Rd & Re)
    (a' & b' & c' & d' & e' & E' & La' & Lb' & Lc' & Ld' & Le' & Ra' & Rb' & Rc' & Rd' & Re').
  rewrite E in E'. clear E t.
  assert (SP : forall (x x' y y' : bytes), List.length x = List.length x' -> x ++ [45] ++ y = x' ++ [45] ++ y' -> x = x' /\ y = y').
  { intros x x' y y' Lx Ex. split.
    - apply (f_equal (firstn (List.length x))) in Ex. rewrite Lx in Ex at 2. rewrite !firstn_app, !Nat.sub_diag, !firstn_all in Ex. cbn in Ex. now rewrite !app_nil_r in Ex.
    - apply (f_equal (skipn (List.length x))) in Ex. rewrite Lx in Ex at 2. rewrite !skipn_app, !Nat.sub_diag, !skipn_all in Ex. cbn in Ex. congruence. }
  apply SP in E' as [<- E']; [|congruence]. apply SP in E' as [<- E']; [|congruence]. apply SP in E' as [<- E']; [|congruence].
  apply SP in E' as [<- <-]; [|congruence].
  pose proof (reads16_fun _ _ Ra _ Ra') as Fa. pose proof (reads16_fun _ _ Rb _ Rb') as Fb. pose proof (reads16_fun _ _ Rc _ Rc') as Fc.
  pose proof (reads16_fun _ _ Rd _ Rd') as Fd. pose proof (reads16_fun _ _ Re _ Re') as Fe.
  clear - W1 W2 L1 L2 Fa Fb Fc Fd Fe. unfold field in *.
  assert (LI : forall o n, (o + n <= 16)%nat -> le_val (slice o n g1) = le_val (slice o n g2) -> slice o n g1 = slice o n g2).
  { intros o n Ho E. rewrite <- (le_bytes_val (slice o n g1)), <- (le_bytes_val (slice o n g2)) by (now apply wf_slice).
    rewrite E, !slice_length by lia. reflexivity. }
  assert (BI : forall o n, (o + n <= 16)%nat -> be_val (slice o n g1) = be_val (slice o n g2) -> slice o n g1 = slice o n g2).
  { intros o n Ho E. rewrite <- (rev_involutive (slice o n g1)), <- (rev_involutive (slice o n g2)) in E. rewrite !be_val_rev in E.
    apply (f_equal (le_bytes n)) in E. assert (R : forall g, wf g -> List.length g = 16%nat -> le_bytes n (le_val (rev (slice o n g))) = rev (slice o n g)).
    { intros g W L. rewrite <- (le_bytes_val (rev (slice o n g))) at 2 by (now apply wf_rev, wf_slice). rewrite rev_length, slice_length by lia. reflexivity. }
    rewrite !R in E by assumption. apply (f_equal (@rev N)) in E. now rewrite !rev_involutive in E. }
  assert (P : forall g, List.length g = 16%nat -> g = slice 0 4 g ++ slice 4 2 g ++ slice 6 2 g ++ slice 8 2 g ++ slice 10 6 g).
  { clear. intros g L. do 17 (destruct g as [|? g]; try discriminate L). reflexivity. }
  rewrite (P g1 L1), (P g2 L2). rewrite (LI 0%nat 4%nat), (LI 4%nat 2%nat), (LI 6%nat 2%nat), (BI 8%nat 2%nat), (BI 10%nat 6%nat) by (assumption || lia). reflexivity.
Qed.
Print Assumptions C101_guid_text_injective.

(** C102: when ReadBasicInfo ends the program. *)
Theorem C102_basic_info_panics : forall S h hd, answers_bytes S ->
  let h2 := h ++ [query hd 0x2d1080 [] 12; query hd 0x700a0 [] 32] in
  (exists h', win_basic_info S h hd = (h', Panic)) <->
  (exists h', fetch S hd 0x70050 [] h2 h' Panic) \/
  (exists h' buf data, fetch S hd 0x70050 [] h2 h' (Ok (buf, data)) /\ unreadable_layout data).
Proof.
  intros S h hd WS h2. destruct (win_basic_info S h hd) as (h', r) eqn:E. pose proof (C101_basic_info S h hd h' r WS E) as T. cbv zeta in T.
  rewrite <- app_assoc in T. change ([query hd 0x2d1080 [] 12] ++ [query hd 0x700a0 [] 32]) with [query hd 0x2d1080 [] 12; query hd 0x700a0 [] 32] in T. fold h2 in T.
  destruct T as (f & F & T). split.
  - intros (k & K). injection K as <- ->. destruct f as [(buf, data)| | |].
    + right. destruct T as [[U _]|(_ & b & B & _)]; [|discriminate]. exists h', buf, data. auto.
    + destruct T as (b & B & _). discriminate.
    + left. now exists h'.
    + inversion F.
  - intros [(k & K)|(k & buf & data & K & U)]; destruct (fetch_fun _ _ _ _ _ _ _ _ _ F K) as [-> ->].
    + exists k. now rewrite T.
    + destruct T as [[_ ->]|(N & _)]; [now exists k|contradiction].
Qed.
Print Assumptions C102_basic_info_panics.

(** C103: ReadStorageQuery.  [buf]: the output buffer, [data]: what was returned of it. *)
Theorem C103_storage_query : forall S h hd h' r, win_storage_query S h hd = (h', r) ->
  exists f, fetch S hd 0x2d1400 (zeros 12) h h' f /\
  match f with
  | Ok (buf, data) =>
    let outside := exists off, In off [12; 16; 20; 24]%nat /\ blen data < field off 4 buf in
    (data = [] /\ r = Panic) \/
    (data <> [] /\ (36 <= List.length buf)%nat /\ outside /\ r = Panic) \/
    (data <> [] /\ (36 <= List.length buf)%nat /\ ~ outside /\ exists d, r = Ok d /\ descriptor_of buf data d) \/
    (data <> [] /\ (List.length buf < 36)%nat /\ r = Fuel)
  | Err e => r = Err e
  | _ => r = Panic
  end.
Proof.
  intros S h hd h' r H. unfold win_storage_query in H. change IOCTL_STORAGE_QUERY_PROPERTY with 0x2d1400 in H.
  destruct (read_ioctl S h hd 0x2d1400 (zeros 12)) as (h1, q) eqn:E. apply read_ioctl_fetch in E as (F & NF & Fit).
  destruct q as [(buf, n)| | |].
  - exists (Ok (buf, firstn (N.to_nat n) buf)). destruct (Fit _ _ eq_refl) as [Hn _]. clear Fit NF.
    assert (DL : blen (firstn (N.to_nat n) buf) = n) by (unfold blen in *; rewrite firstn_length; lia).
    set (data := firstn (N.to_nat n) buf) in *. cbv zeta.
    destruct (N.eqb_spec n 0) as [Z|Z].
    { injection H as <- <-. split; [exact F|]. left. split; [|reflexivity]. apply length_zero_iff_nil. unfold blen in DL. lia. }
    assert (DN : data <> []) by (intros E; rewrite E in DL; unfold blen in DL; cbn in DL; lia).
    destruct (Nat.ltb_spec (List.length buf) 36) as [L|L].
    { injection H as <- <-. split; [exact F|]. right. right. right. auto. }
    change (le_val (slice 12 4 buf)) with (field 12 4 buf) in H. change (le_val (slice 16 4 buf)) with (field 16 4 buf) in H.
    change (le_val (slice 20 4 buf)) with (field 20 4 buf) in H. change (le_val (slice 24 4 buf)) with (field 24 4 buf) in H.
    destruct (N.ltb_spec (blen data) (field 12 4 buf)) as [B|B1].
    { rewrite (proj2 (read_ascii_panic data _) B) in H. injection H as <- <-. split; [exact F|]. right. left. repeat split; auto. exists 12%nat. split; [cbn; auto 10|exact B]. }
    destruct (N.ltb_spec (blen data) (field 16 4 buf)) as [B|B2].
    { rewrite (proj2 (read_ascii_panic data (field 16 4 buf)) B) in H.
      assert (K : (h1, Panic) = (h', r)) by (destruct (read_ascii data (field 12 4 buf)); exact H). injection K as <- <-. split; [exact F|]. right. left. repeat split; auto. exists 16%nat. split; [cbn; auto 10|exact B]. }
    destruct (N.ltb_spec (blen data) (field 24 4 buf)) as [B|B3].
    { rewrite (proj2 (read_ascii_panic data (field 24 4 buf)) B) in H.
      assert (K : (h1, Panic) = (h', r)) by (destruct (read_ascii data (field 12 4 buf)), (read_ascii data (field 16 4 buf)); exact H). injection K as <- <-. split; [exact F|]. right. left. repeat split; auto. exists 24%nat. split; [cbn; auto 10|exact B]. }
    destruct (N.ltb_spec (blen data) (field 20 4 buf)) as [B|B4].
    { rewrite (proj2 (read_ascii_panic data (field 20 4 buf)) B) in H.
      assert (K : (h1, Panic) = (h', r)) by (destruct (read_ascii data (field 12 4 buf)), (read_ascii data (field 16 4 buf)), (read_ascii data (field 24 4 buf)); exact H). injection K as <- <-. split; [exact F|]. right. left. repeat split; auto. exists 20%nat. split; [cbn; auto 10|exact B]. }
    destruct (read_ascii_spec data _ B1) as (v & Ev & Tv). destruct (read_ascii_spec data _ B2) as (p & Ep & Tp).
    destruct (read_ascii_spec data _ B3) as (s & Es & Ts). destruct (read_ascii_spec data _ B4) as (x & Ex & Tx).
    rewrite Ev, Ep, Es, Ex in H. injection H as <- <-. split; [exact F|]. right. right. left. repeat split; auto.
    { intros (off & I & B). cbn in I. destruct I as [<-|[<-|[<-|[<-|[]]]]]; lia. }
    eexists. split; [reflexivity|]. unfold descriptor_of. cbn. repeat (split; [reflexivity|]).
    split. { unfold reg. destruct (N.eqb_spec (nth 10 buf 0) 0); cbn [negb]; split; congruence. }
    split; [reflexivity|]. unfold trimmed_text. repeat split; eexists; (split; [eassumption|apply trim_blanks_spec]).
  - injection H as <- <-. eexists. split; [exact F|reflexivity].
  - injection H as <- <-. exists Panic. auto.
  - congruence.
Qed.
Print Assumptions C103_storage_query.
