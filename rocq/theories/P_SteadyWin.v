(** Lemmas for C146. *)
From Verif Require Import Base M_Buffer M_Struc M_Layouts M_Ata M_TcgDevice M_DriveHandle M_Cdb M_SgDriver M_NvmeLinux M_Strings M_WinPass M_WinNvme M_WinInfo M_WinFactory M_WinEnum
  Spec_Sg P_Discovery P_NvmeLinux P_TcgTrust P_Steady P_Sg P_WinPass P_WinNvme Prop_Sg Prop_WinNvme Spec_Steady Spec_SteadyWin.

(** ---- requests that differ in an address only ---- *)
Record near (a b : bytes) : Prop := { near_len : List.length a = List.length b; near_at : forall i, (i < 24 \/ 32 <= i)%nat -> nth_error a i = nth_error b i }.
Lemma near_refl a : near a a.
Proof. constructor; auto. Qed.
Lemma list_ext (a b : bytes) : (forall i, nth_error a i = nth_error b i) -> a = b.
Proof.
  revert b. induction a as [|x a IH]; intros [|y b] H; auto; [specialize (H 0%nat); discriminate H|specialize (H 0%nat); discriminate H|].
  pose proof (H 0%nat) as H0. cbn in H0. injection H0 as ->. f_equal. apply IH. intros i. exact (H (S i)).
Qed.
Lemma near_firstn a b n : near a b -> (n <= 24)%nat -> firstn n a = firstn n b.
Proof.
  intros E L. apply list_ext. intros i. destruct (Nat.lt_ge_cases i n).
  - rewrite !nth_error_firstn_lt by assumption. apply (near_at _ _ E). lia.
  - rewrite !(proj2 (nth_error_None _ _)); [reflexivity|rewrite firstn_length; lia..].
Qed.
Lemma near_skipn a b n : near a b -> (32 <= n)%nat -> skipn n a = skipn n b.
Proof. intros E L. apply list_ext. intros i. rewrite !nth_error_skipn. apply (near_at _ _ E). lia. Qed.
Lemma near_slice a b o n : near a b -> (o + n <= 24 \/ 32 <= o)%nat -> slice o n a = slice o n b.
Proof.
  intros E L. unfold slice. apply list_ext. intros i. destruct (Nat.lt_ge_cases i n).
  - rewrite !nth_error_firstn_lt by assumption. rewrite !nth_error_skipn. apply (near_at _ _ E). lia.
  - rewrite !(proj2 (nth_error_None _ _)); [reflexivity|rewrite firstn_length; lia..].
Qed.
Lemma near_nth a b i d : near a b -> (i < 24 \/ 32 <= i)%nat -> nth i a d = nth i b d.
Proof. intros E L. rewrite <- !nth_default_eq. unfold nth_default. now rewrite (near_at _ _ E) by assumption. Qed.
Lemma near_fill a b o : near a b -> near (fill a o) (fill b o).
Proof.
  intros E. constructor; [rewrite !fill_length; apply E|]. intros i L. rewrite !nth_error_fill, (near_len _ _ E). destruct (_ <? _)%nat; [|reflexivity].
  destruct (nth_error o i); [reflexivity|now apply E].
Qed.
Lemma near_app p q m m' r : List.length p = 24%nat -> List.length m = 8%nat -> List.length m' = 8%nat -> q = r -> near (p ++ m ++ q) (p ++ m' ++ r).
Proof.
  intros Lp Lm Lm' ->. constructor; [rewrite !app_length; lia|]. intros i [L|L].
  - rewrite !nth_error_app1 by lia. reflexivity.
  - rewrite !(nth_error_app2 p) by lia. rewrite !nth_error_app2 by lia. f_equal. lia.
Qed.

(** ---- two systems that are the same machine for one device ---- *)
Definition track := whist -> N -> bytes -> list io_view -> Prop.
Record obeys (S : wsys) (A : waddr) (M : wmachine) (T : track) : Prop := {
  ob_io : forall w c p l, T w (wc_handle c) p l -> s_io S (w ++ [WIo c]) = wm_io M (APath p) (l ++ [io_seen c]) /\ T (w ++ [WIo c]) (wc_handle c) p (l ++ [io_seen c]);
  ob_other : forall w e hd p l, T w hd p l -> match e with WIo c => wc_handle c <> hd | WClose k => k <> hd | WOpen _ => True end -> T (w ++ [e]) hd p l;
  ob_open : forall w p, match wm_open M (APath p) with Some e => s_open S (w ++ [WOpen p]) = inl e
                        | None => exists hd, s_open S (w ++ [WOpen p]) = inr hd /\ T (w ++ [WOpen p]) hd p [] /\ forall p' l, ~ T w hd p' l end;
  ob_aligned : forall w, ad_data A w mod 512 = 0 }.
(** what matters of two machines: [path] and the ports it names *)
Definition same_reach (M M' : wmachine) (path : bytes) : Prop :=
  same_thing M M' (APath path)
  /\ forall l, same_thing M M' (APath (str "\\.\SCSI" ++ byte_dec (nth 4 (fill (zeros 8) (wa_out (wm_io M (APath path) l))) 0) ++ str ":")).
Record sides := { sd_S : wsys; sd_A : waddr; sd_M : wmachine; sd_T : track; sd_ok : obeys sd_S sd_A sd_M sd_T }.
(** the device behind handle [hd] has been sent the same on both sides *)
Definition both (X Y : sides) (p : bytes) (w : whist) (hd : N) (w' : whist) (hd' : N) : Prop := exists l, sd_T X w hd p l /\ sd_T Y w' hd' p l.

Lemma io_both X Y p w hd w' hd' c c' : same_thing (sd_M X) (sd_M Y) (APath p) -> both X Y p w hd w' hd' ->
  wc_handle c = hd -> wc_handle c' = hd' -> io_seen c = io_seen c' ->
  s_io (sd_S X) (w ++ [WIo c]) = s_io (sd_S Y) (w' ++ [WIo c']) /\ both X Y p (w ++ [WIo c]) hd (w' ++ [WIo c']) hd'.
Proof.
  intros (_ & E) (l & T & T') <- <- C. destruct (ob_io _ _ _ _ (sd_ok X) _ _ _ _ T) as [I1 T1]. destruct (ob_io _ _ _ _ (sd_ok Y) _ _ _ _ T') as [I2 T2].
  rewrite I1, I2, E, C. split; [reflexivity|]. exists (l ++ [io_seen c]). split; [exact T1|]. rewrite C. exact T2.
Qed.
(** ... and the device behind another handle does not notice *)
Lemma io_bystander X Y p w hd w' hd' c c' : both X Y p w hd w' hd' -> wc_handle c <> hd -> wc_handle c' <> hd' ->
  both X Y p (w ++ [WIo c]) hd (w' ++ [WIo c']) hd'.
Proof. intros (l & T & T') N1 N2. exists l. split; [apply (ob_other _ _ _ _ (sd_ok X))|apply (ob_other _ _ _ _ (sd_ok Y))]; assumption. Qed.
Lemma close_bystander X Y p w hd w' hd' k k' : both X Y p w hd w' hd' -> k <> hd -> k' <> hd' ->
  both X Y p (w ++ [WClose k]) hd (w' ++ [WClose k']) hd'.
Proof. intros (l & T & T') N1 N2. exists l. split; [apply (ob_other _ _ _ _ (sd_ok X))|apply (ob_other _ _ _ _ (sd_ok Y))]; assumption. Qed.

Lemma same_both X Y p w hd w' hd' code b : same_thing (sd_M X) (sd_M Y) (APath p) -> both X Y p w hd w' hd' ->
  both X Y p (fst (win_same (sd_S X) w hd code b)) hd (fst (win_same (sd_S Y) w' hd' code b)) hd'
  /\ snd (win_same (sd_S X) w hd code b) = snd (win_same (sd_S Y) w' hd' code b).
Proof.
  intros E B. unfold win_same, win_io. cbv zeta. cbn [wc_in wc_mem fst snd].
  match goal with |- both _ _ _ (w ++ [WIo ?c]) _ (w' ++ [WIo ?c']) _ /\ _ => destruct (io_both X Y p w hd w' hd' c c' E B eq_refl eq_refl eq_refl) as [I B1] end.
  rewrite I. auto.
Qed.
Lemma query_both X Y p w hd w' hd' code b n : same_thing (sd_M X) (sd_M Y) (APath p) -> both X Y p w hd w' hd' ->
  both X Y p (fst (win_query (sd_S X) w hd code b n)) hd (fst (win_query (sd_S Y) w' hd' code b n)) hd'
  /\ snd (win_query (sd_S X) w hd code b n) = snd (win_query (sd_S Y) w' hd' code b n).
Proof.
  intros E B. unfold win_query. cbv zeta. cbn [fst snd].
  match goal with |- both _ _ _ (w ++ [WIo ?c]) _ (w' ++ [WIo ?c']) _ /\ _ => destruct (io_both X Y p w hd w' hd' c c' E B eq_refl eq_refl eq_refl) as [I B1] end.
  rewrite I. auto.
Qed.
Lemma ioctl_both X Y p w hd w' hd' code b : same_thing (sd_M X) (sd_M Y) (APath p) -> both X Y p w hd w' hd' ->
  both X Y p (fst (read_ioctl (sd_S X) w hd code b)) hd (fst (read_ioctl (sd_S Y) w' hd' code b)) hd'
  /\ snd (read_ioctl (sd_S X) w hd code b) = snd (read_ioctl (sd_S Y) w' hd' code b).
Proof.
  intros E B. unfold read_ioctl. destruct (query_both X Y p w hd w' hd' code b 4096 E B) as [B1 Q1].
  destruct (win_query (sd_S X) w hd code b 4096) as [w1 [a1 b1]], (win_query (sd_S Y) w' hd' code b 4096) as [w1' [a1' b1']]. cbn [fst snd] in B1, Q1.
  injection Q1 as <- <-. cbv zeta. destruct (wa_err a1 =? ERROR_INSUFFICIENT_BUFFER).
  - destruct (wa_ret a1 =? 0); [split; [exact B1|reflexivity]|]. destruct (query_both X Y p w1 hd w1' hd' code b (wa_ret a1) E B1) as [B2 Q2].
    destruct (win_query (sd_S X) w1 hd code b (wa_ret a1)) as [w2 [a2 b2]], (win_query (sd_S Y) w1' hd' code b (wa_ret a1)) as [w2' [a2' b2']]. cbn [fst snd] in B2, Q2.
    injection Q2 as <- <-. destruct (wa_err a2 =? 0); split; auto.
  - destruct (wa_err a1 =? 0); split; auto.
Qed.
Lemma basic_both X Y p w hd w' hd' : same_thing (sd_M X) (sd_M Y) (APath p) -> both X Y p w hd w' hd' ->
  both X Y p (fst (win_basic_info (sd_S X) w hd)) hd (fst (win_basic_info (sd_S Y) w' hd')) hd'
  /\ snd (win_basic_info (sd_S X) w hd) = snd (win_basic_info (sd_S Y) w' hd').
Proof.
  intros E B. unfold win_basic_info. destruct (query_both X Y p w hd w' hd' IOCTL_STORAGE_GET_DEVICE_NUMBER [] 12 E B) as [B1 Q1].
  destruct (win_query (sd_S X) w hd _ [] 12) as [w1 [a1 b1]], (win_query (sd_S Y) w' hd' _ [] 12) as [w1' [a1' b1']]. cbn [fst snd] in B1, Q1. injection Q1 as <- <-.
  destruct (query_both X Y p w1 hd w1' hd' IOCTL_DISK_GET_DRIVE_GEOMETRY_EX [] 32 E B1) as [B2 Q2].
  destruct (win_query (sd_S X) w1 hd _ [] 32) as [w2 [a2 b2]], (win_query (sd_S Y) w1' hd' _ [] 32) as [w2' [a2' b2']]. cbn [fst snd] in B2, Q2. injection Q2 as <- <-.
  destruct (ioctl_both X Y p w2 hd w2' hd' IOCTL_DISK_GET_DRIVE_LAYOUT_EX [] E B2) as [B3 Q3].
  destruct (read_ioctl (sd_S X) w2 hd _ []) as [w3 r], (read_ioctl (sd_S Y) w2' hd' _ []) as [w3' r']. cbn [fst snd] in B3, Q3. subst r'.
  cbv zeta. destruct r as [[buf n]|e| |]; try (split; [exact B3|reflexivity]).
  destruct (layout_info _ _) as [[[[st sg] id] ps]|e| |]; (split; [exact B3|reflexivity]).
Qed.
Lemma storage_both X Y p w hd w' hd' : same_thing (sd_M X) (sd_M Y) (APath p) -> both X Y p w hd w' hd' ->
  snd (win_storage_query (sd_S X) w hd) = snd (win_storage_query (sd_S Y) w' hd').
Proof.
  intros E B. unfold win_storage_query. destruct (ioctl_both X Y p w hd w' hd' IOCTL_STORAGE_QUERY_PROPERTY (zeros 12) E B) as [_ Q].
  destruct (read_ioctl (sd_S X) w hd _ _) as [w1 r], (read_ioctl (sd_S Y) w' hd' _ _) as [w1' r']. cbn [fst snd] in Q. subst r'.
  destruct r as [[buf n]|e| |]; try reflexivity. destruct (n =? 0); [reflexivity|]. destruct (_ <? 36)%nat; [reflexivity|]. cbv zeta.
  destruct (read_ascii _ _); try reflexivity. destruct (read_ascii _ _); try reflexivity. destruct (read_ascii _ _); try reflexivity. destruct (read_ascii _ _); reflexivity.
Qed.

(** ---- pass-through requests ---- *)
Record masked (hdr : N -> bytes -> bytes) (n : nat) : Prop := {
  mk_near : forall a b, near (hdr a (zeros n)) (hdr b (zeros n)); mk_old : forall a p q, near p q -> hdr a p = hdr a q }.
Definition tries_like (r r' : res (option err * (bytes * bytes))) : Prop :=
  match r, r' with
  | Ok (e, (d, p)), Ok (e', (d', p')) => e = e' /\ d = d' /\ near p p'
  | Err e, Err e' => e = e' | Panic, Panic => True | Fuel, Fuel => True | _, _ => False end.
Lemma seen_direct hd hd' code a a' n t m : (code = 0x4d030 \/ code = 0x4d014) -> near a a' ->
  io_seen {| wc_handle := hd; wc_code := code; wc_in := a; wc_outlen := n; wc_target := t; wc_mem := m |}
  = io_seen {| wc_handle := hd'; wc_code := code; wc_in := a'; wc_outlen := n; wc_target := t; wc_mem := m |}.
Proof.
  intros C E. unfold io_seen. cbn [wc_code wc_in wc_outlen wc_target wc_mem]. rewrite (near_firstn a a' 24 E), (near_skipn a a' 32 E) by lia.
  destruct C as [->| ->]; reflexivity.
Qed.
Lemma win_io_both X Y p w hd w' hd' code a a' n t m : same_thing (sd_M X) (sd_M Y) (APath p) -> both X Y p w hd w' hd' ->
  (code = 0x4d030 \/ code = 0x4d014) -> near a a' ->
  let c := {| wc_handle := hd; wc_code := code; wc_in := a; wc_outlen := n; wc_target := t; wc_mem := m |} in
  let c' := {| wc_handle := hd'; wc_code := code; wc_in := a'; wc_outlen := n; wc_target := t; wc_mem := m |} in
  let r := win_io (sd_S X) w c in let r' := win_io (sd_S Y) w' c' in
  both X Y p (fst r) hd (fst r') hd' /\ fst (snd r) = fst (snd r') /\ near (fst (snd (snd r))) (fst (snd (snd r'))) /\ snd (snd (snd r)) = snd (snd (snd r')).
Proof.
  intros E B C Ne c c'. destruct (io_both X Y p w hd w' hd' c c' E B eq_refl eq_refl (seen_direct _ _ _ _ _ _ _ _ C Ne)) as [I B1].
  unfold win_io. cbv zeta. cbn [fst snd]. rewrite I. split; [exact B1|]. split; [reflexivity|]. split; [apply near_fill, Ne|].
  assert (D : direct_in c = direct_in c').
  { unfold direct_in. cbn [c c' wc_code wc_in]. destruct (_ =? _); [rewrite (near_nth a a' 2)|rewrite (near_nth a a' 8)]; auto; lia. }
  rewrite D. reflexivity.
Qed.
Lemma tries_both X Y p w hd w' hd' direct buffered hdr n back rw data ad ad' ba ba' :
  same_thing (sd_M X) (sd_M Y) (APath p) -> both X Y p w hd w' hd' -> (direct = 0x4d030 \/ direct = 0x4d014) -> masked hdr n ->
  (ad mod 512 =? 0) = (ad' mod 512 =? 0) ->
  let r := win_tries (sd_S X) w hd direct buffered hdr n back rw data ad ba in let r' := win_tries (sd_S Y) w' hd' direct buffered hdr n back rw data ad' ba' in
  both X Y p (fst r) hd (fst r') hd' /\ tries_like (snd r) (snd r').
Proof.
  intros E B C Mk Al. unfold win_tries. cbv beta zeta. destruct data as [|x data]; [split; [exact B|exact I]|].
  assert (Second : forall w1 w1' d p1 p1', both X Y p w1 hd w1' hd' -> near p1 p1' ->
    let f S h1 hd data1 p1 := let '(h2, (e2, (out, _))) := win_io S h1 {| wc_handle := hd; wc_code := buffered; wc_in := hdr (N.of_nat n) p1 ++ data1; wc_outlen := N.of_nat n + blen data1;
                                                 wc_target := TNone; wc_mem := [] |} in
      match e2 with
      | Some e => (h2, Ok (Some e, (data1, hdr (N.of_nat n) p1)))
      | None => (h2, Ok (None, (if rw then data1 else fill data1 (skipn n out), if back then firstn n out else hdr (N.of_nat n) p1)))
      end in
    both X Y p (fst (f (sd_S X) w1 hd d p1)) hd (fst (f (sd_S Y) w1' hd' d p1')) hd' /\ tries_like (snd (f (sd_S X) w1 hd d p1)) (snd (f (sd_S Y) w1' hd' d p1'))).
  { intros w1 w1' d p1 p1' B1 Ne. cbv beta zeta. rewrite (mk_old _ _ Mk (N.of_nat n) p1 p1' Ne). unfold win_io. cbv zeta. cbn [wc_in wc_mem].
    match goal with |- context [s_io (sd_S X) (w1 ++ [WIo ?c])] => match goal with |- context [s_io (sd_S Y) (w1' ++ [WIo ?c'])] =>
      destruct (io_both X Y p w1 hd w1' hd' c c' E B1 eq_refl eq_refl eq_refl) as [I B2] end end.
    rewrite I. destruct (win_result _); (split; [exact B2|]); cbn [snd tries_like]; auto using near_refl. }
  cbv beta zeta in Second. rewrite (aligned_same ad ad' Al). destruct (is_aligned_pointer 512 ad') as [[]| | |]; try (split; [exact B|exact I]).
  - destruct (win_io_both X Y p w hd w' hd' direct (hdr ad (zeros n)) (hdr ad' (zeros n)) (N.of_nat n) TCaller (x :: data) E B C (mk_near _ _ Mk ad ad')) as (B1 & E1 & P1 & M1).
    destruct (win_io (sd_S X) w _) as [w1 [e1 [p1 m1]]], (win_io (sd_S Y) w' _) as [w1' [e1' [p1' m1']]]. cbn [fst snd] in *. subst e1' m1'.
    destruct e1 as [e|]; [now apply Second|]. split; [exact B1|]. cbn. auto.
  - destruct (win_io_both X Y p w hd w' hd' direct (hdr ba (zeros n)) (hdr ba' (zeros n)) (N.of_nat n) TBounce
      (a_data (if rw then fst (buf_write (reset_write (new_aligned (List.length (x :: data)))) (x :: data)) else new_aligned (List.length (x :: data)))) E B C (mk_near _ _ Mk ba ba')) as (B1 & E1 & P1 & M1).
    destruct (win_io (sd_S X) w _) as [w1 [e1 [p1 m1]]], (win_io (sd_S Y) w' _) as [w1' [e1' [p1' m1']]]. cbn [fst snd] in *. subst e1' m1'.
    destruct e1 as [e|]; [now apply Second|]. destruct rw; [split; [exact B1|cbn; auto]|].
    destruct (snd (buf_read _ _)); (split; [exact B1|cbn; auto]).
Qed.
Lemma ata_params_cut rw t len secs ptr old : exists pre post,
  ata_params rw t len secs ptr old = pre ++ le_bytes 8 ptr ++ post /\
  pre = le_bytes 2 48 ++ le_bytes 2 (ata_flags rw (negb (t_lba48 t =? 0))) ++ slice 4 4 old ++ le_bytes 4 (len mod 2 ^ 32) ++ le_bytes 4 (to_uint32 secs) ++ slice 16 8 old
  /\ post = (if negb (t_lba48 t =? 0) then [g_feat (t_hob t); g_nsect (t_hob t); g_lbal (t_hob t); g_lbam (t_hob t); g_lbah (t_hob t); 0; 0; 0] else slice 32 8 old)
  ++ [g_feat (t_lob t); g_nsect (t_lob t); g_lbal (t_lob t); g_lbam (t_lob t); g_lbah (t_lob t); t_dev t; t_command t mod 256; 0].
Proof. do 2 eexists. split; [|split; reflexivity]. unfold ata_params. cbv zeta. rewrite <- !app_assoc. reflexivity. Qed.
Lemma ata_masked rw t len secs : masked (ata_params rw t len secs) sizeof_ata_params.
Proof.
  constructor.
  - intros a b. destruct (ata_params_cut rw t len secs a (zeros sizeof_ata_params)) as (pre & post & -> & -> & ->).
    destruct (ata_params_cut rw t len secs b (zeros sizeof_ata_params)) as (pre' & post' & -> & -> & ->). apply near_app; reflexivity.
  - intros a p q E. unfold ata_params. cbv zeta. rewrite (near_slice p q 4 4 E), (near_slice p q 16 8 E), (near_slice p q 32 8 E) by lia. reflexivity.
Qed.
Lemma scsi_masked rw cdb len secs : masked (scsi_params rw cdb len secs) sizeof_scsi_params.
Proof.
  constructor.
  - intros a b. set (z := zeros sizeof_scsi_params).
    assert (C : forall ptr, scsi_params rw cdb len secs ptr z = (le_bytes 2 56 ++ slice 2 4 z ++ [blen cdb mod 256; 32; ternary rw 0 1] ++ slice 9 3 z ++ le_bytes 4 (len mod 2 ^ 32)
      ++ le_bytes 4 (to_uint32 secs) ++ slice 20 4 z) ++ le_bytes 8 ptr ++ (le_bytes 4 60 ++ cdb ++ skipn (36 + List.length cdb) z)) by (intros; unfold scsi_params; rewrite <- !app_assoc; reflexivity).
    rewrite !C. apply near_app; reflexivity.
  - intros a p q E. unfold scsi_params. rewrite (near_slice p q 2 4 E), (near_slice p q 9 3 E), (near_slice p q 20 4 E), (near_skipn p q (36 + List.length cdb) E) by lia. reflexivity.
Qed.

Lemma aligned_both X Y p w hd w' hd' : same_thing (sd_M X) (sd_M Y) (APath p) -> both X Y p w hd w' hd' ->
  (ad_data (sd_A X) w mod 512 =? 0) = (ad_data (sd_A Y) w' mod 512 =? 0).
Proof. intros _ _. now rewrite (ob_aligned _ _ _ _ (sd_ok X) w), (ob_aligned _ _ _ _ (sd_ok Y) w'). Qed.
Lemma ata_both X Y p w hd w' hd' rw dma t data ad ad' ba ba' secs : same_thing (sd_M X) (sd_M Y) (APath p) -> both X Y p w hd w' hd' -> (ad mod 512 =? 0) = (ad' mod 512 =? 0) ->
  let r := win_ata (sd_S X) w hd rw dma t data ad ba secs in let r' := win_ata (sd_S Y) w' hd' rw dma t data ad' ba' secs in
  both X Y p (fst r) hd (fst r') hd' /\ snd r = snd r'.
Proof.
  intros E B Al. unfold win_ata. cbv zeta.
  destruct (tries_both X Y p w hd w' hd' IOCTL_ATA_PASS_THROUGH_DIRECT IOCTL_ATA_PASS_THROUGH (ata_params rw t (blen data) secs) sizeof_ata_params false rw
    (if rw then zeros (List.length data) else data) ad ad' ba ba' E B (or_introl eq_refl) (ata_masked _ _ _ _) Al) as [B1 L].
  destruct (win_tries (sd_S X) _ _ _ _ _ _ _ _ _ _ _) as [w1 r], (win_tries (sd_S Y) _ _ _ _ _ _ _ _ _ _ _) as [w1' r']. cbn [fst snd] in B1, L.
  destruct r as [[e [d q]]|e| |], r' as [[e' [d' q']]|e'| |]; cbn in L; try contradiction; try (split; [exact B1|now subst]).
  destruct L as (<- & <- & Ne). destruct e; [split; [exact B1|reflexivity]|]. rewrite (near_nth q q' 46 0 Ne) by lia. destruct (negb _); (split; [exact B1|reflexivity]).
Qed.
Lemma scsi_both X Y p w hd w' hd' rw cdb data ad ad' ba ba' secs : same_thing (sd_M X) (sd_M Y) (APath p) -> both X Y p w hd w' hd' -> (ad mod 512 =? 0) = (ad' mod 512 =? 0) ->
  let r := win_scsi (sd_S X) w hd rw cdb data ad ba secs in let r' := win_scsi (sd_S Y) w' hd' rw cdb data ad' ba' secs in
  both X Y p (fst r) hd (fst r') hd' /\ snd r = snd r'.
Proof.
  intros E B Al. unfold win_scsi. cbv zeta.
  destruct (tries_both X Y p w hd w' hd' IOCTL_SCSI_PASS_THROUGH_DIRECT IOCTL_SCSI_PASS_THROUGH (scsi_params rw cdb (blen data) secs) sizeof_scsi_params true rw
    (if rw then zeros (List.length data) else data) ad ad' ba ba' E B (or_intror eq_refl) (scsi_masked _ _ _ _) Al) as [B1 L].
  destruct (win_tries (sd_S X) _ _ _ _ _ _ _ _ _ _ _) as [w1 r], (win_tries (sd_S Y) _ _ _ _ _ _ _ _ _ _ _) as [w1' r']. cbn [fst snd] in B1, L.
  destruct r as [[e [d q]]|e| |], r' as [[e' [d' q']]|e'| |]; cbn in L; try contradiction; try (split; [exact B1|now subst]).
  destruct L as (<- & <- & Ne). destruct e; (split; [exact B1|]); [reflexivity|]. cbn [snd]. unfold win_sense_error. rewrite (near_slice q q' 60 32 Ne), (near_nth q q' 2 0 Ne) by lia. reflexivity.
Qed.

(** ---- the drivers' OpenByHandle ---- *)
Lemma finish_both X Y p hd hd' (r r' : whist * res (option err * bytes)) : both X Y p (fst r) hd (fst r') hd' /\ snd r = snd r' ->
  both X Y p (fst (finish_open r)) hd (fst (finish_open r')) hd' /\ snd (finish_open r) = snd (finish_open r').
Proof. destruct r as [w r], r' as [w' r']. cbn [fst snd]. intros [B <-]. destruct r as [[[e|] d]|e| |]; cbn; auto. Qed.
(** drivers of the same kind for the same device, to which the same was said *)
Definition dpair (X Y : sides) (p : bytes) (d d' : wdh) (w w' : whist) : Prop :=
  wd_kind d = wd_kind d' /\ wd_identity d = wd_identity d' /\ both X Y p w (wd_handle d) w' (wd_handle d')
  /\ (wd_kind d = KNvmeWin -> wd_scsi d <> wd_handle d /\ wd_scsi d' <> wd_handle d'
      /\ exists p2, same_thing (sd_M X) (sd_M Y) (APath p2) /\ both X Y p2 w (wd_scsi d) w' (wd_scsi d')).
Lemma nvmewin_both X Y p w hd w' hd' : same_reach (sd_M X) (sd_M Y) p -> both X Y p w hd w' hd' ->
  let r := nvmewin_open (sd_S X) w hd in let r' := nvmewin_open (sd_S Y) w' hd' in
  both X Y p (fst r) hd (fst r') hd'
  /\ match snd r, snd r' with
     | Ok (sh, i), Ok (sh', i') => i = i' /\ sh <> hd /\ sh' <> hd' /\ exists p2, same_thing (sd_M X) (sd_M Y) (APath p2) /\ both X Y p2 (fst r) sh (fst r') sh'
     | Err _, Err _ => True | Panic, Panic => True | Fuel, Fuel => True | _, _ => False end.
Proof.
  intros [E EP] B. cbv zeta. unfold nvmewin_open, get_scsi_path.
  assert (G : exists l, sd_T X w hd p l /\ sd_T Y w' hd' p l) by exact B. destruct G as (l & Tx & Ty).
  set (c := {| wc_handle := hd; wc_code := IOCTL_SCSI_GET_ADDRESS; wc_in := zeros 8; wc_outlen := blen (zeros 8); wc_target := TNone; wc_mem := [] |}).
  set (c' := {| wc_handle := hd'; wc_code := IOCTL_SCSI_GET_ADDRESS; wc_in := zeros 8; wc_outlen := blen (zeros 8); wc_target := TNone; wc_mem := [] |}).
  destruct (io_both X Y p w hd w' hd' c c' E B eq_refl eq_refl eq_refl) as [I B1].
  destruct (ob_io _ _ _ _ (sd_ok X) w c p l Tx) as [Ix _].
  unfold win_same, win_io. cbv zeta. fold c c'. rewrite <- I. rewrite Ix in *. clear I.
  set (a := wm_io (sd_M X) (APath p) (l ++ [io_seen c])) in *. cbn [c c' wc_in].
  destruct (win_result a) as [e|]; [cbn; auto|]. pose proof (EP (l ++ [io_seen c])) as Es. fold a in Es.
  set (path := str "\\.\SCSI" ++ byte_dec (nth 4 (fill (zeros 8) (wa_out a)) 0) ++ str ":") in *.
  unfold open_device. cbv zeta. pose proof (ob_open _ _ _ _ (sd_ok X) (w ++ [WIo c]) path) as Ox. pose proof (ob_open _ _ _ _ (sd_ok Y) (w' ++ [WIo c']) path) as Oy.
  pose proof Es as St. destruct Es as (Eo & Ei). rewrite <- Eo in Oy.
  assert (B2 : both X Y p ((w ++ [WIo c]) ++ [WOpen path]) hd ((w' ++ [WIo c']) ++ [WOpen path]) hd').
  { destruct B1 as (l1 & T1 & T2). exists l1. split; [apply (ob_other _ _ _ _ (sd_ok X))|apply (ob_other _ _ _ _ (sd_ok Y))]; auto. }
  destruct (wm_open (sd_M X) (APath path)) as [e|]; [rewrite Ox, Oy; cbn; auto|].
  destruct Ox as (sh & -> & Tsx & Fx). destruct Oy as (sh' & -> & Tsy & Fy).
  assert (Nx : sh <> hd). { intros ->. destruct B1 as (l1 & T1 & _). exact (Fx _ _ T1). }
  assert (Ny : sh' <> hd'). { intros ->. destruct B1 as (l1 & _ & T1). exact (Fy _ _ T1). }
  assert (Bs : both X Y path ((w ++ [WIo c]) ++ [WOpen path]) sh ((w' ++ [WIo c']) ++ [WOpen path]) sh') by (exists []; auto).
  destruct (same_both X Y path _ sh _ sh' IOCTL_SCSI_MINIPORT (miniport_mem 0x06 0 1 0 0 0 0 0 (zeros page)) St Bs) as [B3 R3].
  unfold miniport_identity.
  assert (B4 : both X Y p (fst (win_same (sd_S X) ((w ++ [WIo c]) ++ [WOpen path]) sh IOCTL_SCSI_MINIPORT (miniport_mem 0x06 0 1 0 0 0 0 0 (zeros page)))) hd
                          (fst (win_same (sd_S Y) ((w' ++ [WIo c']) ++ [WOpen path]) sh' IOCTL_SCSI_MINIPORT (miniport_mem 0x06 0 1 0 0 0 0 0 (zeros page)))) hd').
  { unfold win_same, win_io. cbv zeta. cbn [fst]. apply io_bystander; [exact B2|exact Nx|exact Ny]. }
  destruct (win_same (sd_S X) _ sh _ _) as [w3 [e3 o3]], (win_same (sd_S Y) _ sh' _ _) as [w3' [e3' o3']]. cbn [fst snd] in B3, B4, R3. injection R3 as <- <-.
  destruct e3 as [e|]; cbn [fst snd].
  - split; [|exact I]. unfold close_handle. apply close_bystander; assumption.
  - destruct (negb (blen _ =? 4096)); cbn [fst snd]; [split; [unfold close_handle; apply close_bystander; assumption|exact I]|].
    split; [exact B4|]. split; [reflexivity|]. split; [exact Nx|]. split; [exact Ny|]. exists path. auto.
Qed.
Lemma winnvme_both X Y p w hd w' hd' : same_thing (sd_M X) (sd_M Y) (APath p) -> both X Y p w hd w' hd' ->
  both X Y p (fst (winnvme_open (sd_S X) w hd)) hd (fst (winnvme_open (sd_S Y) w' hd')) hd' /\ snd (winnvme_open (sd_S X) w hd) = snd (winnvme_open (sd_S Y) w' hd').
Proof.
  intros E B. unfold winnvme_open, winnvme_identity. destruct (same_both X Y p w hd w' hd' IOCTL_STORAGE_QUERY_PROPERTY (protocol_query 49 1 1 4096 ++ zeros page) E B) as [B1 R].
  destruct (win_same (sd_S X) w hd _ _) as [w1 [e o]], (win_same (sd_S Y) w' hd' _ _) as [w1' [e' o']]. cbn [fst snd] in B1, R. injection R as <- <-.
  destruct e; [cbn; auto|]. destruct (negb _); cbn; auto.
Qed.
Lemma probe_both X Y p w hd w' hd' k : same_reach (sd_M X) (sd_M Y) p -> both X Y p w hd w' hd' ->
  let r := win_probe (sd_S X) (sd_A X) w hd k in let r' := win_probe (sd_S Y) (sd_A Y) w' hd' k in
  both X Y p (fst r) hd (fst r') hd'
  /\ match snd r, snd r' with
     | Ok d, Ok d' => wd_handle d = hd /\ wd_handle d' = hd' /\ dpair X Y p d d' (fst r) (fst r')
     | Err _, Err _ => True | Panic, Panic => True | Fuel, Fuel => True | _, _ => False end.
Proof.
  intros E B. cbv zeta. pose proof E as [Et _].
  assert (Simple : forall k (r r' : whist * res bytes), k <> KNvmeWin -> both X Y p (fst r) hd (fst r') hd' /\ snd r = snd r' ->
    let f (hd : N) (r : whist * res bytes) : whist * res wdh := let '(h1, x) := r in (h1, match x with Ok i => Ok {| wd_kind := k; wd_handle := hd; wd_scsi := 0; wd_identity := i |} | Err e => Err e | Panic => Panic | Fuel => Fuel end) in
    both X Y p (fst (f hd r)) hd (fst (f hd' r')) hd'
    /\ match snd (f hd r), snd (f hd' r') with
     | Ok d, Ok d' => wd_handle d = hd /\ wd_handle d' = hd' /\ dpair X Y p d d' (fst (f hd r)) (fst (f hd' r'))
     | Err _, Err _ => True | Panic, Panic => True | Fuel, Fuel => True | _, _ => False end).
  { intros k0 [w1 r] [w1' r'] Nk. cbn [fst snd]. intros [B1 <-]. destruct r; cbn; auto. split; [exact B1|]. split; [reflexivity|]. split; [reflexivity|].
    split; [reflexivity|]. split; [reflexivity|]. split; [exact B1|]. intros Q. contradiction. }
  cbv beta zeta in Simple. destruct k; cbn [win_probe].
  - destruct (nvmewin_both X Y p w hd w' hd' E B) as [B1 R]. destruct (nvmewin_open (sd_S X) w hd) as [w1 r], (nvmewin_open (sd_S Y) w' hd') as [w1' r']. cbn [fst snd] in *.
    split; [exact B1|]. destruct r as [[sh i]|e| |], r' as [[sh' i']|e'| |]; try contradiction; auto. destruct R as (<- & N1 & N2 & R). split; [reflexivity|]. split; [reflexivity|].
    split; [reflexivity|]. split; [reflexivity|]. split; [exact B1|]. intros _. cbn. auto.
  - apply (Simple KWinNvme); [discriminate|]. now apply winnvme_both.
  - apply (Simple KScsi); [discriminate|]. unfold win_scsi_open. apply finish_both. unfold win_task_file. apply scsi_both; auto. now apply (aligned_both X Y p w hd w' hd').
  - apply (Simple KAta); [discriminate|]. unfold win_ata_open. apply finish_both. apply ata_both; auto. now apply (aligned_both X Y p w hd w' hd').
Qed.

(** ---- a driver's calls ---- *)
Lemma exec_both X Y p d d' w w' c : same_thing (sd_M X) (sd_M Y) (APath p) -> dpair X Y p d d' w w' -> no_log c ->
  dpair X Y p d d' (fst (win_exec (sd_S X) (sd_A X) d w c)) (fst (win_exec (sd_S Y) (sd_A Y) d' w' c))
  /\ snd (win_exec (sd_S X) (sd_A X) d w c) = snd (win_exec (sd_S Y) (sd_A Y) d' w' c).
Proof.
  intros E D Nl. pose proof D as (Ek & Ei & B & Bs). pose proof (aligned_both X Y p w _ w' _ E B) as Al.
  assert (Keep : forall w1 w1', wd_kind d <> KNvmeWin -> both X Y p w1 (wd_handle d) w1' (wd_handle d') -> dpair X Y p d d' w1 w1').
  { intros w1 w1' Nk B1. split; [exact Ek|]. split; [exact Ei|]. split; [exact B1|]. intros Q. contradiction. }
  unfold win_exec. cbv zeta. rewrite <- Ek. destruct c as [rw dma pr cm b s|rw dma t b s|cmd|n lg ra sz| | | |]; try contradiction; try (split; [exact D|reflexivity]).
  - destruct (wd_kind d) eqn:K; try (split; [exact D|reflexivity]); unfold win_security;
      (destruct (scsi_both X Y p w (wd_handle d) w' (wd_handle d') rw (pack_security (if rw then 181 else 162) pr cm 0 0 (blen b mod 2 ^ 32) 0 0) b (ad_data (sd_A X) w) (ad_data (sd_A Y) w') (ad_bounce (sd_A X) w) (ad_bounce (sd_A Y) w') (Z.of_N s) E B Al) as [B1 R];
       split; [apply Keep; [discriminate|exact B1]|exact R]).
  - destruct (wd_kind d) eqn:K; try (split; [exact D|reflexivity]).
    + destruct (scsi_both X Y p w (wd_handle d) w' (wd_handle d') rw (win_task_cdb t) b (ad_data (sd_A X) w) (ad_data (sd_A Y) w') (ad_bounce (sd_A X) w) (ad_bounce (sd_A Y) w') (Z.of_N s) E B Al) as [B1 R].
      split; [apply Keep; [discriminate|exact B1]|exact R].
    + destruct (ata_both X Y p w (wd_handle d) w' (wd_handle d') rw dma t b (ad_data (sd_A X) w) (ad_data (sd_A Y) w') (ad_bounce (sd_A X) w) (ad_bounce (sd_A Y) w') (Z.of_N s) E B Al) as [B1 R].
      split; [apply Keep; [discriminate|exact B1]|exact R].
  - destruct (wd_kind d) eqn:K; try (split; [exact D|reflexivity]). destruct (Bs eq_refl) as (N1 & N2 & p2 & E2 & B2). unfold miniport_admin.
    destruct (4096 <? c_data_len cmd); [split; [exact D|reflexivity]|]. cbv zeta.
    set (b := miniport_mem _ _ _ _ _ _ _ _ _). destruct (same_both X Y p2 w (wd_scsi d) w' (wd_scsi d') IOCTL_SCSI_MINIPORT b E2 B2) as [B3 R3].
    assert (B4 : both X Y p (fst (win_same (sd_S X) w (wd_scsi d) IOCTL_SCSI_MINIPORT b)) (wd_handle d) (fst (win_same (sd_S Y) w' (wd_scsi d') IOCTL_SCSI_MINIPORT b)) (wd_handle d'))
      by (unfold win_same, win_io; cbv zeta; cbn [fst]; apply io_bystander; assumption).
    destruct (win_same (sd_S X) w _ _ b) as [w1 [e o]], (win_same (sd_S Y) w' _ _ b) as [w1' [e' o']]. cbn [fst snd] in *. injection R3 as <- <-.
    assert (D1 : dpair X Y p d d' w1 w1') by (split; [congruence|split; [exact Ei|split; [exact B4|intros _; eauto]]]).
    destruct e as [e|]; [split; [exact D1|reflexivity]|]. destruct (negb _); (split; [exact D1|reflexivity]).
Qed.
Lemma replay_both X Y p d d' : same_thing (sd_M X) (sd_M Y) (APath p) -> forall cs w w', Forall no_log cs -> dpair X Y p d d' w w' ->
  dpair X Y p d d' (win_replay (sd_S X) (sd_A X) d w cs) (win_replay (sd_S Y) (sd_A Y) d' w' cs).
Proof.
  intros E. induction cs as [|c cs IH]; intros w w' F D; [exact D|]. inversion F; subst. unfold win_replay. cbn [fold_left]. apply IH; [assumption|].
  pose proof (exec_both X Y p d d' w w' c E D H1) as [D1 _]. destruct c; try exact D1. contradiction.
Qed.
Lemma drv_both X Y p d d' w w' : same_thing (sd_M X) (sd_M Y) (APath p) -> dpair X Y p d d' w w' ->
  drv_like (win_drv (sd_S X) (sd_A X) d w) (win_drv (sd_S Y) (sd_A Y) d' w').
Proof.
  intros E D. pose proof D as (Ek & Ei & _). constructor; cbn [win_drv v_io v_identity v_type v_name]; intros; try congruence.
  unfold last_call. destruct (rev cs) as [|c r] eqn:Er; [reflexivity|].
  assert (F' : Forall no_log (rev r ++ [c])) by (change (rev r ++ [c]) with (rev (c :: r)); rewrite <- Er, rev_involutive; assumption). apply Forall_app in F' as [F1 F2]. inversion F2; subst.
  pose proof (exec_both X Y p d d' _ _ c E (replay_both X Y p d d' E (rev r) w w' F1 D) H2) as [_ R]. rewrite R. reflexivity.
Qed.
Lemma wreport_fields x x' : wreport x = wreport x' -> p_info (f_dh x) = p_info (f_dh x') /\ f_driving x = f_driving x' /\ f_driver_name x = f_driver_name x' /\ f_removable x = f_removable x'
  /\ f_style x = f_style x' /\ f_gpt x = f_gpt x' /\ f_mbr x = f_mbr x' /\ f_parts x = f_parts x' /\ f_devnum x = f_devnum x' /\ f_capacity x = f_capacity x'
  /\ f_vendor x = f_vendor x' /\ f_revision x = f_revision x' /\ f_drive_type x = f_drive_type x'.
Proof. unfold wreport. intros H. injection H. intros. repeat split; assumption. Qed.
Lemma install_both X Y p d d' w w' x : same_thing (sd_M X) (sd_M Y) (APath p) -> dpair X Y p d d' w w' ->
  seen wreport (snd (win_install (sd_S X) (sd_A X) w x d)) = seen wreport (snd (win_install (sd_S Y) (sd_A Y) w' x d')).
Proof.
  intros E D. pose proof D as (Ek & Ei & _). pose proof (drv_both X Y p d d' w w' E D) as L. unfold win_install. cbv zeta. rewrite <- Ek.
  rewrite <- (init_like (win_drv (sd_S X) (sd_A X) d w) (win_drv (sd_S Y) (sd_A Y) d' w')) by (auto; repeat constructor).
  destruct (init _ _ _) as [calls [p' r]]. destruct r; cbn [snd seen]; unfold wreport; cbn; rewrite ?Ek; reflexivity.
Qed.
Lemma probes_both X Y p x hd hd' : same_reach (sd_M X) (sd_M Y) p -> forall ks w w', both X Y p w hd w' hd' ->
  let r := win_probes (sd_S X) (sd_A X) w hd x ks in let r' := win_probes (sd_S Y) (sd_A Y) w' hd' x ks in
  seen (option_map wreport) (snd r) = seen (option_map wreport) (snd r') /\ (snd r = Ok None -> both X Y p (fst r) hd (fst r') hd').
Proof.
  intros E. pose proof E as [Et _]. induction ks as [|k ks IH]; intros w w' B; cbn [win_probes]; [split; auto|].
  destruct (probe_both X Y p w hd w' hd' k E B) as [B1 R].
  destruct (win_probe (sd_S X) (sd_A X) w hd k) as [w1 r], (win_probe (sd_S Y) (sd_A Y) w' hd' k) as [w1' r']. cbn [fst snd] in B1, R.
  destruct r as [d|e| |], r' as [d'|e'| |]; try contradiction; try (split; [reflexivity|discriminate]).
  - destruct R as (_ & _ & D). pose proof (install_both X Y p d d' w1 w1' x Et D) as G.
    destruct (win_install (sd_S X) (sd_A X) w1 x d) as [w2 [y|e| |]], (win_install (sd_S Y) (sd_A Y) w1' x d') as [w2' [y'|e'| |]]; cbn [snd seen] in G; try discriminate G;
      (split; [|discriminate]); cbn [snd seen option_map].
    + assert (G' : wreport y = wreport y') by (exact (f_equal (fun r => match r with Ok v => v | _ => wreport y end) G)). now rewrite G'.
    + assert (G' : e = e') by (exact (f_equal (fun r => match r with Err v => v | _ => e end) G)). now rewrite G'.
    + reflexivity.
    + reflexivity.
  - apply IH. exact B1.
Qed.
Lemma by_handle_both X Y p w hd w' hd' path : same_reach (sd_M X) (sd_M Y) p -> both X Y p w hd w' hd' ->
  seen wreport (snd (win_open_by_handle (sd_S X) (sd_A X) w hd path)) = seen wreport (snd (win_open_by_handle (sd_S Y) (sd_A Y) w' hd' path)).
Proof.
  intros E B. pose proof E as [Et _]. unfold win_open_by_handle. destruct (basic_both X Y p w hd w' hd' Et B) as [B1 R1].
  destruct (win_basic_info (sd_S X) w hd) as [w1 r], (win_basic_info (sd_S Y) w' hd') as [w1' r']. cbn [fst snd] in B1, R1. subst r'.
  destruct r as [basic|e| |]; try reflexivity. destruct (probes_both X Y p (whandle0 path basic) hd hd' E win_drivers w1 w1' B1) as [R2 B2].
  destruct (win_probes (sd_S X) (sd_A X) w1 hd _ _) as [w2 [[y|]|e| |]], (win_probes (sd_S Y) (sd_A Y) w1' hd' _ _) as [w2' [[y'|]|e'| |]]; cbn [fst snd seen option_map] in R2, B2; try discriminate R2; cbn [fst snd seen].
  - f_equal. exact (f_equal (fun r => match r with Ok (Some v) => v | _ => wreport y end) R2).
  - pose proof (storage_both X Y p w2 hd w2' hd' Et (B2 eq_refl)) as R3.
    destruct (win_storage_query (sd_S X) w2 hd) as [w3 q], (win_storage_query (sd_S Y) w2' hd') as [w3' q']. cbn [snd] in R3. subst q'. destruct q; reflexivity.
  - assert (G' : e = e') by (exact (f_equal (fun r => match r with Err v => v | _ => e end) R2)). now rewrite G'.
  - reflexivity.
  - reflexivity.
Qed.
Lemma by_path_both X Y path w w' : same_reach (sd_M X) (sd_M Y) path ->
  seen wreport (snd (win_open_by_path (sd_S X) (sd_A X) w path)) = seen wreport (snd (win_open_by_path (sd_S Y) (sd_A Y) w' path)).
Proof.
  intros E. pose proof E as [(Eo & _) _]. unfold win_open_by_path. destruct (existsb _ path); [reflexivity|]. unfold open_device. cbv zeta.
  pose proof (ob_open _ _ _ _ (sd_ok X) w path) as Ox. pose proof (ob_open _ _ _ _ (sd_ok Y) w' path) as Oy. rewrite <- Eo in Oy.
  destruct (wm_open (sd_M X) (APath path)) as [e|]; [now rewrite Ox, Oy|]. destruct Ox as (hd & -> & Tx & _). destruct Oy as (hd' & -> & Ty & _).
  assert (B : both X Y path (w ++ [WOpen path]) hd (w' ++ [WOpen path]) hd') by (exists []; auto).
  pose proof (by_handle_both X Y path _ hd _ hd' path E B) as G.
  destruct (win_open_by_handle (sd_S X) (sd_A X) _ hd path) as [w2 [y|e| |]], (win_open_by_handle (sd_S Y) (sd_A Y) _ hd' path) as [w2' [y'|e'| |]]; cbn [snd seen] in G |- *; try discriminate G; exact G.
Qed.

(** ---- the whole system as one side ---- *)
Lemma talk_step X h e hd o l : talk X h hd o l -> match e with XSys (WIo c) => wc_handle c <> hd | XSys (WClose k) => k <> hd | _ => True end -> ~ gives X h e hd -> talk X (h ++ [e]) hd o l.
Proof.
  intros T C G. apply talk_other; [exact T| |intros ->; now apply C|exact G]. intros c ->. exact C.
Qed.
Lemma not_given X M h e hd o l : wsteady X M -> talk X h hd o l -> ~ gives X h e hd.
Proof.
  intros St T G. destruct e as [[c|p|k]| | | | | | | | | | | | |v]; cbn [gives] in G; try contradiction.
  - pose proof (st_open _ _ St h p) as O. destruct (wm_open M (APath p)); [congruence|]. destruct O as (hd' & O & F). assert (hd' = hd) by congruence. subst. exact (F _ _ T).
  - pose proof (st_vopen _ _ St h v) as O. destruct (wm_open M (AVolume v)); [congruence|]. destruct O as (hd' & O & F). assert (hd' = hd) by congruence. subst. exact (F _ _ T).
Qed.
Lemma side_obeys X M h : wsteady X M -> obeys (wsys_at X h) (waddr_at X h) M (fun w hd p l => talk X (h ++ map XSys w) hd (APath p) l).
Proof.
  intros St. assert (A : forall w e, h ++ map XSys (w ++ [e]) = (h ++ map XSys w) ++ [XSys e]) by (intros; rewrite map_app, app_assoc; reflexivity).
  constructor; cbn [wsys_at waddr_at s_io s_open ad_data].
  - intros w c p l T. rewrite A. split; [now apply (st_io _ _ St)|now apply talk_io].
  - intros w e hd p l T C. rewrite A. apply talk_step; [exact T|destruct e; auto|exact (not_given X M _ _ _ _ _ St T)].
  - intros w p. rewrite A. pose proof (st_open _ _ St (h ++ map XSys w) p) as O. destruct (wm_open M (APath p)); [exact O|]. destruct O as (hd & O & F).
    exists hd. split; [exact O|]. split; [now apply talk_path|]. intros p' l. apply F.
  - intros w. exact (st_aligned _ _ St _).
Qed.
Lemma reach_of M M' path : same_drive M M' path -> same_reach M M' path.
Proof.
  intros (S1 & W & S2). split; [exact S1|]. intros l. apply (S2 l (fill (zeros 8) (wa_out (wm_io M (APath path) l)))); [apply fill_delivered|].
  pose proof (address_port _ (W l)) as P. destruct (byte_dec_spec _ P) as [Pn Pd]. exists (byte_dec (nth 4 (fill (zeros 8) (wa_out (wm_io M (APath path) l))) 0)). auto.
Qed.
Lemma reach_refl M path : same_reach M M path.
Proof. split; [|intros l]; repeat split; reflexivity. Qed.
Lemma win_open_like X X' M M' h h' path : wsteady X M -> wsteady X' M' -> same_reach M M' path ->
  seen wreport (snd (x_open_by_path X h path)) = seen wreport (snd (x_open_by_path X' h' path)).
Proof.
  intros St St' E. unfold x_open_by_path.
  pose proof (by_path_both {| sd_ok := side_obeys X M h St |} {| sd_ok := side_obeys X' M' h' St' |} path [] [] E) as G. cbn [sd_S sd_A] in G.
  destruct (win_open_by_path (wsys_at X h) _ [] path) as [w r], (win_open_by_path (wsys_at X' h') _ [] path) as [w' r']. exact G.
Qed.

(** ---- EnumDrives ---- *)
Lemma listing_app X h d es : listing X h d -> Forall (fun e => match e with XSys _ | XDevInfo _ _ | XInterface _ _ | XDetail _ _ _ => True | _ => False end) es -> listing X (h ++ es) d.
Proof.
  intros L F. revert h L. induction F as [|e es He F IH]; intros h L; [now rewrite app_nil_r|]. replace (h ++ e :: es) with ((h ++ [e]) ++ es) by (rewrite <- app_assoc; reflexivity).
  apply IH. apply listing_other; [exact L|destruct e; try contradiction; discriminate..].
Qed.
Lemma sys_events (w : whist) : Forall (fun e => match e with XSys _ | XDevInfo _ _ | XInterface _ _ | XDetail _ _ _ => True | _ => False end) (map XSys w).
Proof. induction w; constructor; auto. Qed.
Lemma open_listing X h d path : listing X h d -> listing X (fst (x_open_by_path X h path)) d.
Proof. intros L. unfold x_open_by_path. destruct (win_open_by_path _ _ [] path) as [w r]. cbn [fst]. apply listing_app; [exact L|apply sys_events]. Qed.
Lemma detail_like X X' M h h' d d' i buf : wsteady X M -> wsteady X' M -> listing X h d -> listing X' h' d' -> (forall u, x_text X u = x_text X' u) ->
  listing X (fst (device_path X h d i buf)) d /\ listing X' (fst (device_path X' h' d' i buf)) d' /\ snd (device_path X h d i buf) = snd (device_path X' h' d' i buf).
Proof.
  intros St St' L L' Tx.
  assert (P : forall b n, detail_path X b n = detail_path X' b n) by (intros b n; unfold detail_path; cbv zeta; destruct (until_nul _); [now rewrite Tx|destruct (n <=? _); [now rewrite Tx|reflexivity]]).
  unfold device_path, get_detail. cbv zeta.
  assert (L1 : forall n, listing X (h ++ [XDetail d i n]) d) by (intros n; apply listing_app; [exact L|repeat constructor]).
  assert (L1' : forall n, listing X' (h' ++ [XDetail d' i n]) d') by (intros n; apply listing_app; [exact L'|repeat constructor]).
  rewrite (st_detail _ _ St _ _ _ _ L), (st_detail _ _ St' _ _ _ _ L'). destruct (wm_detail M i (blen buf)) as [e1 [o1 s1]]. cbn [fst snd].
  destruct (e1 =? 122).
  - destruct (round_1024 s1 =? 0); [cbn; auto|].
    rewrite (st_detail _ _ St _ _ _ _ (L1 _)), (st_detail _ _ St' _ _ _ _ (L1' _)). destruct (wm_detail M i _) as [e2 [o2 s2]]. cbn [fst snd].
    assert (L2 : forall n, listing X ((h ++ [XDetail d i (blen buf)]) ++ [XDetail d i n]) d) by (intros n; apply listing_app; [apply L1|repeat constructor]).
    assert (L2' : forall n, listing X' ((h' ++ [XDetail d' i (blen buf)]) ++ [XDetail d' i n]) d') by (intros n; apply listing_app; [apply L1'|repeat constructor]).
    destruct (e2 =? 0); cbn [fst snd]; rewrite ?P; auto.
  - destruct (e1 =? 0); cbn [fst snd]; rewrite ?P; auto.
Qed.
Definition devices_seen (r : list whandle * res unit) := (map wreport (fst r), snd r).
Lemma devices_like X X' M d d' : wsteady X M -> wsteady X' M -> (forall u, x_text X u = x_text X' u) -> forall fuel h h' i buf xs xs',
  listing X h d -> listing X' h' d' -> map wreport xs = map wreport xs' ->
  devices_seen (snd (enum_devices X fuel h d i buf xs)) = devices_seen (snd (enum_devices X' fuel h' d' i buf xs')).
Proof.
  intros St St' Tx. induction fuel as [|f IH]; intros h h' i buf xs xs' L L' E; cbn [enum_devices]; [unfold devices_seen; cbn; now rewrite E|].
  assert (Fin : forall r, devices_seen (xs, r) = devices_seen (xs', r)) by (intros r; unfold devices_seen; cbn; now rewrite E).
  rewrite (st_devinfo _ _ St _ _ _ L), (st_devinfo _ _ St' _ _ _ L'). destruct (negb (wm_devinfo M i)); [apply Fin|].
  assert (L1 : listing X (h ++ [XDevInfo d i]) d) by (apply listing_app; [exact L|repeat constructor]).
  assert (L1' : listing X' (h' ++ [XDevInfo d' i]) d') by (apply listing_app; [exact L'|repeat constructor]).
  rewrite (st_iface _ _ St _ _ _ L1), (st_iface _ _ St' _ _ _ L1'). set (j := N.of_nat i mod 2 ^ 32).
  assert (L2 : listing X ((h ++ [XDevInfo d i]) ++ [XInterface d j]) d) by (apply listing_app; [exact L1|repeat constructor]).
  assert (L2' : listing X' ((h' ++ [XDevInfo d' i]) ++ [XInterface d' j]) d') by (apply listing_app; [exact L1'|repeat constructor]).
  destruct (wm_iface M j =? 259); [now apply IH|]. destruct (negb (wm_iface M j =? 0)); [apply Fin|].
  destruct (detail_like X X' M _ _ d d' j buf St St' L2 L2' Tx) as (L3 & L3' & R3).
  destruct (device_path X _ d j buf) as [h3 [b3 r3]], (device_path X' _ d' j buf) as [h3' [b3' r3']]. cbn [fst snd] in L3, L3', R3. injection R3 as <- <-.
  destruct r3 as [[path|]|e| |]; try apply Fin; [|now apply IH].
  pose proof (win_open_like X X' M M h3 h3' path St St' (reach_refl M path)) as G. pose proof (open_listing X h3 d path L3) as L4. pose proof (open_listing X' h3' d' path L3') as L4'.
  destruct (x_open_by_path X h3 path) as [h4 [y|e| |]], (x_open_by_path X' h3' path) as [h4' [y'|e'| |]]; cbn [fst snd seen] in G, L4, L4'; try discriminate G; try apply Fin.
  - apply IH; auto. assert (G' : wreport y = wreport y') by (exact (f_equal (fun r => match r with Ok v => v | _ => wreport y end) G)). rewrite !map_app, E. cbn [map]. now rewrite G'.
  - now apply IH.
Qed.

(** ---- EnumVolumes ---- *)
Definition no_find (e : xev) : Prop := match e with XFindFirst | XFindNext _ | XFindClose _ => False | _ => True end.
Lemma finding_app X h f n es : finding X h f n -> Forall no_find es -> finding X (h ++ es) f n.
Proof.
  intros L F. revert h L. induction F as [|e es He F IH]; intros h L; [now rewrite app_nil_r|]. replace (h ++ e :: es) with ((h ++ [e]) ++ es) by (rewrite <- app_assoc; reflexivity).
  apply IH. apply finding_other; [exact L|destruct e; try contradiction; discriminate..].
Qed.
Lemma mount_like X X' : (forall u, x_text X u = x_text X' u) -> forall fuel buf pos acc, mount_loop X fuel buf pos acc = mount_loop X' fuel buf pos acc.
Proof. intros Tx. induction fuel as [|f IH]; intros buf pos acc; cbn [mount_loop]; [reflexivity|]. destruct (nth_error buf pos) as [u|]; [|reflexivity]. destruct (u =? 0); [reflexivity|]. rewrite Tx. apply IH. Qed.
Lemma item_like X X' M h h' name b : wsteady X M -> wsteady X' M -> (forall u, x_text X u = x_text X' u) ->
  snd (snd (volume_item X h name b)) = snd (snd (volume_item X' h' name b)).
Proof.
  intros St St' Tx. unfold volume_item. cbv zeta. set (v := firstn (wlen name) name). rewrite !(st_names _ _ St), !(st_names _ _ St').
  replace (match wm_names M v with Some (us, len) => if 0 <? len then mount_loop X' _ (fill (zeros (N.to_nat 4096)) us) 0 [] else Ok [] | None => Ok [] end)
    with (match wm_names M v with Some (us, len) => if 0 <? len then mount_loop X (S (List.length (fill (zeros (N.to_nat 4096)) us))) (fill (zeros (N.to_nat 4096)) us) 0 [] else Ok [] | None => Ok [] end)
    by (destruct (wm_names M v) as [[us len]|]; [destruct (0 <? len); [apply mount_like, Tx|reflexivity]|reflexivity]).
  match goal with |- snd (snd (match ?m with _ => _ end)) = _ => destruct m as [ms|e| |]; try reflexivity end.
  rewrite !(st_info _ _ St), !(st_info _ _ St'), !(st_type _ _ St), !(st_type _ _ St'). rewrite !(Tx (strip_backslashes v)).
  set (fsb := match wm_info M v with Some us => fill (vb_fs b) us | None => vb_fs b end). rewrite !(Tx (firstn (wlen fsb) fsb)).
  set (k := ((h ++ [XPathNames v]) ++ [XVolumeInfo v]) ++ [XDriveType v]). set (k' := ((h' ++ [XPathNames v]) ++ [XVolumeInfo v]) ++ [XDriveType v]).
  pose proof (st_vopen _ _ St k (strip_backslashes v)) as O. pose proof (st_vopen _ _ St' k' (strip_backslashes v)) as O'.
  destruct (wm_open M (AVolume (strip_backslashes v))) as [e|] eqn:Ev; [now rewrite O, O'|]. destruct O as (hd & O & _). destruct O' as (hd' & O' & _). rewrite O, O'.
  set (v1 := strip_backslashes v) in *.
  assert (T : talk X (k ++ [XVolumeOpen v1]) hd (AVolume v1) []) by (now apply talk_volume).
  assert (T' : talk X' (k' ++ [XVolumeOpen v1]) hd' (AVolume v1) []) by (now apply talk_volume).
  set (c := {| wc_handle := hd; wc_code := 0x560000; wc_in := []; wc_outlen := 4096; wc_target := TNone; wc_mem := [] |}).
  set (c' := {| wc_handle := hd'; wc_code := 0x560000; wc_in := []; wc_outlen := 4096; wc_target := TNone; wc_mem := [] |}).
  rewrite (st_io _ _ St _ c _ _ T), (st_io _ _ St' _ c' _ _ T'). change (io_seen c') with (io_seen c). set (a := wm_io M (AVolume v1) ([] ++ [io_seen c])).
  pose proof (talk_io X _ c _ _ T) as T1. pose proof (talk_io X' _ c' _ _ T') as T1'.
  destruct (wa_err a =? 0); [|reflexivity]. destruct (extents_loop _ _ 8) as [es|e| |]; try reflexivity. destruct es as [|e es]; [reflexivity|].
  unfold partition_info. cbv zeta.
  set (q := {| wc_handle := hd; wc_code := 0x70048; wc_in := []; wc_outlen := 144; wc_target := TNone; wc_mem := [] |}).
  set (q' := {| wc_handle := hd'; wc_code := 0x70048; wc_in := []; wc_outlen := 144; wc_target := TNone; wc_mem := [] |}).
  rewrite (st_io _ _ St _ q _ _ T1), (st_io _ _ St' _ q' _ _ T1'). change (io_seen q') with (io_seen q). change (io_seen c') with (io_seen c).
  destruct (wa_err _ =? 0); reflexivity.
Qed.
Lemma item_finding X h name b f n : finding X h f n -> finding X (fst (volume_item X h name b)) f n.
Proof.
  intros F. unfold volume_item. cbv zeta.
  assert (G : forall es, Forall no_find es -> finding X (h ++ es) f n) by (intros es; now apply finding_app).
  match goal with |- finding _ (fst (match ?m with _ => _ end)) _ _ => destruct m as [ms|e| |]; try (apply G; repeat constructor) end.
  destruct (x_vopen X _) as [e|hd]; [rewrite <- !app_assoc; apply G; repeat constructor|].
  destruct (wa_err _ =? 0); [|rewrite <- !app_assoc; apply G; repeat constructor].
  destruct (extents_loop _ _ 8) as [es|e| |]; try (rewrite <- !app_assoc; apply G; repeat constructor). destruct es as [|e es]; [rewrite <- !app_assoc; apply G; repeat constructor|].
  unfold partition_info. cbv zeta. destruct (wa_err _ =? 0); (rewrite <- !app_assoc; apply G; repeat constructor).
Qed.
Lemma volumes_like X X' M f f' : wsteady X M -> wsteady X' M -> (forall u, x_text X u = x_text X' u) -> forall fuel h h' name b vs hs hs' n,
  finding X h f n -> finding X' h' f' n -> snd (snd (volume_loop X fuel h f name b vs hs)) = snd (snd (volume_loop X' fuel h' f' name b vs hs')).
Proof.
  intros St St' Tx. induction fuel as [|fu IH]; intros h h' name b vs hs hs' n F F'; cbn [volume_loop]; [reflexivity|].
  pose proof (item_like X X' M h h' name b St St' Tx) as G. pose proof (item_finding X h name b f n F) as F1. pose proof (item_finding X' h' name b f' n F') as F1'.
  destruct (volume_item X h name b) as [h1 [o r]], (volume_item X' h' name b) as [h1' [o' r']]. cbn [fst snd] in G, F1, F1'. subst r'.
  destruct r as [[v b1]|e| |]; try reflexivity. rewrite (st_next _ _ St _ _ _ F1), (st_next _ _ St' _ _ _ F1'). destruct (wm_next M n) as [e|us]; [reflexivity|].
  apply (IH _ _ _ _ _ _ _ (S n)); now apply finding_next.
Qed.

(** ---- a device list as documented ---- *)
Lemma utf16_length us : List.length (utf16 us) = (2 * List.length us)%nat.
Proof. induction us as [|u us IH]; cbn [utf16 List.length app]; [reflexivity|]. rewrite IH. lia. Qed.
Lemma units_utf16 us r : Forall (fun u => 0 < u < 65536) us -> units (utf16 us ++ r) = us ++ units r.
Proof.
  induction 1 as [|u us H F IH]; [reflexivity|]. cbn [utf16 app units]. rewrite IH. f_equal. pose proof (N.div_mod u 256 ltac:(lia)). lia.
Qed.
Lemma until_nul_units us t : Forall (fun u => 0 < u < 65536) us -> until_nul (us ++ 0 :: t) = Some us.
Proof. induction 1 as [|u us H F IH]; [reflexivity|]. cbn [app until_nul]. destruct (N.eqb_spec u 0); [lia|]. now rewrite IH. Qed.
Lemma fill_prefix old out : (List.length out <= List.length old)%nat -> fill old out = out ++ skipn (List.length out) old.
Proof. intros L. unfold fill. rewrite firstn_all2 by lia. reflexivity. Qed.
Lemma firstn_units us t n : (List.length us < n)%nat -> firstn n (us ++ 0 :: t) = us ++ 0 :: firstn (n - List.length us - 1) t.
Proof.
  intros L. rewrite firstn_app, firstn_all2 by lia. f_equal. replace (n - List.length us)%nat with (S (n - List.length us - 1)) by lia. cbn [firstn]. repeat f_equal. lia.
Qed.
Lemma path_of_detail X buf us : Forall (fun u => 0 < u < 65536) us -> detail_size us <= 2 ^ 31 -> (N.to_nat (detail_size us) <= List.length buf)%nat ->
  detail_path X (fill buf ([8; 0; 0; 0] ++ utf16 us ++ [0; 0])) ((detail_size us + (2 ^ 32 - 4)) mod 2 ^ 32) = Ok (x_text X us).
Proof.
  intros F L1 L2. assert (Dn : N.to_nat (detail_size us) = (4 + 2 * (List.length us + 1))%nat) by (unfold detail_size, blen; lia).
  rewrite fill_prefix by (cbn [app List.length]; rewrite app_length, utf16_length; cbn [List.length]; lia).
  set (rest := skipn _ buf).
  assert (Es : (detail_size us + (2 ^ 32 - 4)) mod 2 ^ 32 = detail_size us - 4).
  { change (2 ^ 32) with 4294967296 in *. change (2 ^ 31) with 2147483648 in *. unfold detail_size in *.
    replace (4 + 2 * (blen us + 1) + (4294967296 - 4)) with (4 + 2 * (blen us + 1) - 4 + 1 * 4294967296) by lia. rewrite N.mod_add by lia. apply N.mod_small. lia. }
  rewrite Es. unfold detail_path. cbv zeta. change (skipn 4 (([8; 0; 0; 0] ++ utf16 us ++ [0; 0]) ++ rest)) with ((utf16 us ++ [0; 0]) ++ rest).
  rewrite <- app_assoc, units_utf16 by exact F. change (units ([0; 0] ++ rest)) with (0 :: units rest).
  assert (Cut : exists t, (if detail_size us - 4 <? blen (us ++ 0 :: units rest) then firstn (N.to_nat (detail_size us - 4)) (us ++ 0 :: units rest) else us ++ 0 :: units rest) = us ++ 0 :: t).
  { destruct (_ <? _); [|eauto]. rewrite firstn_units; [eauto|]. unfold detail_size, blen. lia. }
  destruct Cut as (t & ->). rewrite until_nul_units by exact F. reflexivity.
Qed.
Lemma round_1024_room s : 0 < s <= 2 ^ 31 -> s <= round_1024 s /\ round_1024 s <> 0.
Proof.
  intros L. unfold round_1024. pose proof (N.mod_lt s 1024 ltac:(lia)). change (2 ^ 32) with 4294967296. change (2 ^ 31) with 2147483648 in L.
  destruct (0 <? s mod 1024); [|lia]. rewrite N.mod_small by lia. lia.
Qed.
Lemma put_length_le off d l : (off + List.length d <= List.length l)%nat -> List.length (put off d l) = List.length l.
Proof. intros L. unfold put. rewrite !app_length, firstn_length, skipn_length. lia. Qed.
Lemma device_path_listed X M h d i us ds buf : wsteady X M -> lists M ds -> nth_error ds i = Some us -> listing X h d -> (1024 <= List.length buf)%nat ->
  exists buf', snd (device_path X h d (N.of_nat i) buf) = (buf', Ok (Some (x_text X us))) /\ (1024 <= List.length buf')%nat.
Proof.
  intros St (_ & _ & _ & Ld) Ni L Lb. destruct (Ld i us Ni) as (_ & Dt & Fu & Sz). clear Ld. unfold device_path, get_detail. cbv zeta.
  assert (L1 : forall n, listing X (h ++ [XDetail d (N.of_nat i) n]) d) by (intros n; apply listing_app; [exact L|repeat constructor]).
  rewrite (st_detail _ _ St _ _ _ _ L), Dt. unfold detail_of at 1. destruct (N.ltb_spec (blen buf) (detail_size us)) as [R|R]; cbn [fst snd].
  - change (122 =? 122) with true. cbv iota. assert (D0 : 0 < detail_size us <= 2 ^ 31) by (split; [unfold detail_size; lia|exact Sz]).
    destruct (round_1024_room _ D0) as [R1 R0]. destruct (N.eqb_spec (round_1024 (detail_size us)) 0) as [Q|_]; [contradiction|].
    rewrite (st_detail _ _ St _ _ _ _ (L1 _)), Dt. unfold detail_of. set (n := round_1024 (detail_size us)) in *.
    assert (Lz : blen (zeros (N.to_nat n)) = n) by (unfold blen; rewrite len_zeros; lia). rewrite Lz. destruct (N.ltb_spec n (detail_size us)) as [Q|_]; [lia|]. cbn [fst snd].
    change (0 =? 0) with true. cbv iota.
    assert (Lp : List.length (put 0 (le_bytes 4 8) (zeros (N.to_nat n))) = N.to_nat n).
    { rewrite put_length_le; [apply len_zeros|]. rewrite len_zeros. change (List.length (le_bytes 4 8)) with 4%nat. unfold detail_size in R1. lia. }
    rewrite (path_of_detail X (put 0 (le_bytes 4 8) (zeros (N.to_nat n))) us Fu Sz) by (rewrite Lp; lia). eexists. split; [reflexivity|]. rewrite fill_length, Lp. unfold blen in R. lia.
  - change (0 =? 122) with false. change (0 =? 0) with true. cbv iota.
    assert (Lp : List.length (put 0 (le_bytes 4 8) buf) = List.length buf) by (apply put_length_le; change (List.length (le_bytes 4 8)) with 4%nat; lia).
    rewrite (path_of_detail X (put 0 (le_bytes 4 8) buf) us Fu Sz) by (rewrite Lp; unfold blen in R; lia). eexists. split; [reflexivity|]. rewrite fill_length, Lp. exact Lb.
Qed.
(** [f]: what opening each path gives at another moment *)
Definition opened_elsewhere (X : xsys) (g : xhist) (us : list N) := seen wreport (snd (x_open_by_path X g (x_text X us))).
Lemma devices_listed X M d ds g : wsteady X M -> lists M ds -> forall k fuel h i buf xs, (List.length ds = i + k)%nat -> (k < fuel)%nat -> listing X h d -> (1024 <= List.length buf)%nat ->
  let r := snd (enum_devices X fuel h d i buf xs) in
  match collect (map (opened_elsewhere X g) (skipn i ds)) with
  | Ok rs => map wreport (fst r) = map wreport xs ++ rs /\ snd r = Ok tt
  | Err _ => False | Panic => snd r = Panic | Fuel => snd r = Fuel end.
Proof.
  intros St Ls. pose proof Ls as (_ & Cn & Dv & Ld). induction k as [|k IH]; intros fuel h i buf xs Li Lf L Lb; (destruct fuel as [|f]; [lia|]); cbn [enum_devices]; rewrite (st_devinfo _ _ St _ _ _ L), Dv.
  - destruct (Nat.ltb_spec i (List.length ds)) as [Q|_]; [lia|]. rewrite skipn_all2 by lia. cbn. now rewrite app_nil_r.
  - destruct (Nat.ltb_spec i (List.length ds)) as [_|Q]; [|lia]. cbn [negb].
    destruct (nth_error ds i) as [us|] eqn:Ni; [|apply nth_error_None in Ni; lia]. destruct (Ld i us Ni) as (If & _).
    assert (Ej : N.of_nat i mod 2 ^ 32 = N.of_nat i) by (apply N.mod_small; lia). rewrite Ej.
    assert (L1 : listing X (h ++ [XDevInfo d i]) d) by (apply listing_app; [exact L|repeat constructor]).
    assert (L2 : listing X ((h ++ [XDevInfo d i]) ++ [XInterface d (N.of_nat i)]) d) by (apply listing_app; [exact L1|repeat constructor]).
    rewrite (st_iface _ _ St _ _ _ L1), If. change (0 =? 259) with false. change (negb (0 =? 0)) with false. cbv iota.
    destruct (device_path_listed X M _ d i us ds buf St Ls Ni L2 Lb) as (b1 & Dp & Lb1).
    pose proof (detail_like X X M _ _ d d (N.of_nat i) buf St St L2 L2 (fun _ => eq_refl)) as (L3 & _ & _).
    destruct (device_path X _ d (N.of_nat i) buf) as [h3 r3]. cbn [fst snd] in Dp, L3. subst r3.
    assert (Sk : skipn i ds = us :: skipn (S i) ds).
    { clear -Ni. revert i Ni. induction ds as [|x ds IH]; intros [|i] Ni; try discriminate Ni; [cbn in Ni; injection Ni as ->; reflexivity|]. cbn. now apply IH. }
    rewrite Sk. cbn [map]. unfold opened_elsewhere at 1. rewrite (win_open_like X X M M g h3 (x_text X us) St St (reach_refl M _)).
    pose proof (open_listing X h3 d (x_text X us) L3) as L4. destruct (x_open_by_path X h3 (x_text X us)) as [h4 [y|e| |]]; cbn [snd seen collect fst] in *; try reflexivity.
    + specialize (IH f h4 (S i) b1 (xs ++ [y]) ltac:(lia) ltac:(lia) L4 Lb1). cbv zeta in IH.
      destruct (collect _) as [rs|e| |]; auto. destruct IH as [IH1 IH2]. split; [|exact IH2]. rewrite IH1, map_app, <- app_assoc. reflexivity.
    + exact (IH f h4 (S i) b1 xs ltac:(lia) ltac:(lia) L4 Lb1).
Qed.
Lemma collect_no_err {A} (rs : list (res A)) e : collect rs <> Err e.
Proof. induction rs as [|[x|e'| |] rs IH]; cbn; try discriminate; [destruct (collect rs); try discriminate; congruence|exact IH]. Qed.
Lemma collect_app {A} (a b : list (res A)) : collect (a ++ b) = match collect a with Ok xs => match collect b with Ok ys => Ok (xs ++ ys) | r => r end | r => r end.
Proof.
  induction a as [|[x|e| |] a IH]; cbn [app collect]; try reflexivity; [destruct (collect b); reflexivity| |exact IH].
  rewrite IH. destruct (collect a); [|reflexivity..]. destruct (collect b); reflexivity.
Qed.
