(** C159 - C162: what the texts of errors say. *)
From Verif Require Import Base M_Buffer M_Struc M_Layouts M_Strings M_Ata M_TcgDevice M_DriveHandle M_Cdb M_SgDriver M_SgHandle M_NvmeLinux M_LinuxInfo M_LinuxFactory.
From Verif Require Import Spec_LinuxVolume Spec_WinInfo Spec_WinNvme M_WinPass M_WinNvme P_WinNvme Prop_WinEnum P_TcgOnDrive M_ErrorText Spec_ErrorText P_ErrorText P_ErrorText2.

(** C159.  Whatever call on a drive handle fails with an error that carries a device status: its message states that status and, for
    SCSI, the sense key, the additional sense code and its qualifier of the sense data the error carries, each as two hexadecimal
    digits; the other drivers never return such an error. *)
Theorem C159_message_states_the_numbers O k V p h o h' p' out msg st si :
  driver_of k V -> p_dh p = Some (driver_type k) -> hstep V p h o = (h', (p', out)) -> error_in out = Some (EDparm msg st si) ->
  is_byte st -> wf si ->
  says k st si (text_after O k h' (EDparm msg st si)).
Proof.
  intros D T H E Hs Hw. pose proof (step_reported _ _ _ _ _ _ _ _ _ D T H E) as R.
  unfold reported, plain, is_errno in R.
  destruct R as [R|[R|[R|[R|[[[n R]|[R|R]]|[(s & n & R & _)|(bf & c & L & U & Kn)]]]]]]; try discriminate.
  destruct U as [[[n R]|[R|R]]|(msg' & st' & si' & Eq & M)]; try discriminate. injection Eq as <- <- <-.
  unfold text_after. rewrite L. unfold error_text.
  destruct k as [| |[]], c; try contradiction; cbn [site_of says].
  - now apply sg_text.
  - apply win_text; [tauto|assumption|assumption].
  - apply win_text; [tauto|assumption|assumption].
  - destruct M as [-> _]. split; [now apply ata_text|reflexivity].
Qed.
Print Assumptions C159_message_states_the_numbers.

(** The numbers can be read back from the text. *)
Theorem C159_message_determines_the_numbers k st si st' si' t :
  says k st si t -> says k st' si' t ->
  st = st' /\ nth 2 si 0 mod 16 = nth 2 si' 0 mod 16 /\ nth 12 si 0 = nth 12 si' 0 /\ nth 13 si 0 = nth 13 si' 0.
Proof.
  destruct k as [| |[]]; cbn [says]; intros A B; try contradiction.
  - exact (scsi_report_value _ _ _ _ _ _ _ _ _ _ _ A B).
  - exact (scsi_report_value _ _ _ _ _ _ _ _ _ _ _ A B).
  - destruct A as [(a & Ba & ->) ->], B as [(b & Bb & E) ->]. apply app_cut in E as [_ <-]; [|reflexivity]. split; [exact (byte_text_value _ _ _ Ba Bb)|]. auto.
Qed.
Print Assumptions C159_message_determines_the_numbers.

(** C160.  After a failed discovery the drive is marked as "TCG not supported" (-1) exactly when the error, as text, is "not supported";
    no number a message contains and no operating system error can be taken for it. *)
Theorem C160_verdict_is_the_text O k V p h h' p' e :
  (forall n, O n <> str "not supported") ->
  driver_of k V -> p_dh p = Some (driver_type k) -> tcg_discovery0 V p h = (h', (p', Err e)) ->
  (i_support (p_info p') = (-1)%Z <-> text_after O k h' e = str "not supported").
Proof.
  intros HO D T H. pose proof (discovery_reported _ _ _ _ _ _ _ D T H) as R.
  pose proof (text_agrees O k h' e HO R) as X.
  rewrite X. clear X. unfold tcg_discovery0 in H. destruct (security_command V p h false false 1 1 (zeros 2048) 3) as [h1 [[e1|] buf]] eqn:Es.
  - injection H as <- <- <-. cbn [p_info with_info i_support set_support]. destruct (String.eqb_spec (err_text e1) "not supported"); split; congruence || tauto.
  - cbv zeta in H. unfold reported in R.
    assert (Q : i_support (p_info p') = 1%Z /\ (e = EEOF \/ e = EUnexpectedEOF \/ e = EMsg "invalid data: length overflow")).
    { destruct (struc_unpack _ _ buf) eqn:U in H; try discriminate.
      - destruct (_ <? _) in H; [injection H as _ <- <-; split; [reflexivity|tauto]|].
        match type of H with context [discovery_loop ?a ?b ?c ?d ?f ?g ?i] => destruct (discovery_loop a b c d f g i) as [t r] eqn:L end.
        injection H as _ <- ->. split; [reflexivity|]. apply (f_equal snd) in L. destruct (discovery_loop_error _ _ _ _ _ _ _ _ L); tauto.
      - injection H as _ <- ->. split; [reflexivity|]. destruct (unpack_error _ _ _ _ U); tauto. }
    destruct Q as [-> [->|[->| ->]]]; split; discriminate.
Qed.
Print Assumptions C160_verdict_is_the_text.
(** On a closed handle (or one no driver accepted) the verdict is -1 and the text "not supported". *)
Theorem C160_no_driver O k V p h h' p' r : p_dh p = None -> tcg_discovery0 V p h = (h', (p', r)) ->
  h' = h /\ i_support (p_info p') = (-1)%Z /\ exists e, r = Err e /\ text_after O k h' e = str "not supported".
Proof.
  intros T H. unfold tcg_discovery0, security_command in H. rewrite T in H. injection H as <- <- <-. split; [reflexivity|]. split; [reflexivity|].
  eexists. split; reflexivity.
Qed.
Print Assumptions C160_no_driver.

(** C161.  A nested error's text is its message, a colon and the text of its cause, and Cause gives that cause; so a chain of them reads
    from the outermost message to the innermost text. *)
Theorem C161_nested m c : gtext (new_nested m c) = m ++ str ": " ++ gtext c /\ cause (new_nested m c) = Some c.
Proof. split; reflexivity. Qed.
Theorem C161_chain ms t : let e := fold_right new_nested (Leaf t) ms in chain e ms t /\ gtext e = joined ms t.
Proof.
  cbv zeta. induction ms as [|m ms [IH1 IH2]]; cbn [fold_right joined]; [split; [constructor|reflexivity]|].
  split; [econstructor; [reflexivity|exact IH1|reflexivity]|]. cbn [new_nested gtext]. now rewrite IH2.
Qed.
Print Assumptions C161_chain.
(** ReadBasicInfo reports an error exactly when go-diskfs or HDIO_GETGEO fails; it names the path and the step, and keeps the cause. *)
Theorem C161_basic_info O path a : 
  (basic_info_error O path a = None <-> exists b, read_basic_info path a = Ok b) /\
  (forall g, basic_info_error O path a = Some g ->
     exists step x, (da_open a = Some x /\ step = " diskfs.open failed"%string \/ da_open a = None /\ da_geo a = Some x /\ step = " HDIO_GETGEO failed"%string) /\
       chain g [path ++ str step] (error_text O Elsewhere x) /\ gtext g = path ++ str step ++ str ": " ++ error_text O Elsewhere x).
Proof.
  unfold basic_info_error, read_basic_info. destruct (da_open a) as [x|] eqn:E1; [|destruct (da_geo a) as [x|] eqn:E2].
  - split; [split; [discriminate|intros [b H]; discriminate]|]. intros g H. injection H as <-. exists " diskfs.open failed"%string, x. split; [now left|].
    split; [econstructor; [reflexivity|constructor|reflexivity]|]. cbn [new_nested gtext]. now rewrite <- app_assoc.
  - split; [split; [discriminate|intros [b H]; discriminate]|]. intros g H. injection H as <-. exists " HDIO_GETGEO failed"%string, x. split; [now right|].
    split; [econstructor; [reflexivity|constructor|reflexivity]|]. cbn [new_nested gtext]. now rewrite <- app_assoc.
  - split; [split; [eauto|reflexivity]|]. discriminate.
Qed.
Print Assumptions C161_basic_info.
(** EnumDrives reports an error exactly when /sys/block cannot be read: then the text names it and ends with the system's text. *)
Theorem C161_enum_drives O W h :
  let '(h', r) := enum_drives W h in
  ((exists e, r = Err e) <-> exists x, w_dir W (h ++ [LReadDir]) = inl x) /\
  (forall x, w_dir W (h ++ [LReadDir]) = inl x ->
     h' = h ++ [LReadDir] /\ chain (enum_drives_error O x) [str "open /sys/block failed"] (error_text O Elsewhere x)
     /\ gtext (enum_drives_error O x) = str "open /sys/block failed: " ++ error_text O Elsewhere x).
Proof.
  unfold enum_drives. cbv zeta. destruct (w_dir W (h ++ [LReadDir])) as [y|names] eqn:Ed.
  - split; [split; intros _; eauto|]. intros x Hx. injection Hx as ->. split; [reflexivity|]. split; [econstructor; [reflexivity|constructor|reflexivity]|reflexivity].
  - assert (L : forall ns k xs k' e, enum_loop W k ns xs <> (k', Err e)).
    { induction ns as [|n ns IH]; intros k xs k' e H; cbn [enum_loop] in H; [discriminate|].
      repeat (match type of H with context [if ?c then _ else _] => destruct c | context [match ?c with _ => _ end] => destruct c end; try discriminate; try (now apply IH in H)). }
    destruct (enum_loop W (h ++ [LReadDir]) names []) as [h2 r] eqn:E. destruct r as [xs|e| |]; try (split; [split; intros [x X]; discriminate|discriminate]).
    exfalso. exact (L _ _ _ _ _ E).
Qed.
Print Assumptions C161_enum_drives.
(** getIdInfo: the error names the first entry of /dev/disk/by-id, in directory order and among those not passed over, whose link cannot be resolved. *)
Theorem C161_id_info O path dir link order file :
  let a := {| ia_dir := match dir with inl _ => None | inr names => Some names end;
              ia_link := fun n => match link n with inl _ => None | inr p => Some p end; ia_order := order; ia_file := file |} in
  (id_info_error O dir link = None <-> exists v, get_id_info path a = Ok v) /\
  (forall g, id_info_error O dir link = Some g -> exists m x, chain g [m] (error_text O Elsewhere x) /\ gtext g = m ++ str ": " ++ error_text O Elsewhere x /\
     match dir with
     | inl y => x = y /\ m = str "readdir /dev/disk/by-id failed"
     | inr names => exists pre n post, names = pre ++ n :: post /\ skip_pat n = false /\ link n = inl x
         /\ (forall q, In q pre -> skip_pat q = true \/ exists r, link q = inr r) /\ m = str "EvalSymlinks /dev/disk/by-id/" ++ n ++ str " failed"
     end).
Proof.
  cbv zeta. unfold id_info_error, get_id_info. cbn [ia_dir ia_link ia_order ia_file]. destruct dir as [y|names].
  - split; [split; [discriminate|intros [v H]; discriminate]|]. intros g H. injection H as <-. eexists _, y. split; [econstructor; [reflexivity|constructor|reflexivity]|].
    split; [reflexivity|]. split; reflexivity.
  - assert (M : forall ns, id_info_links O link ns = None <-> exists m, id_map (fun n => match link n with inl _ => None | inr p => Some p end) ns = Some m).
    { induction ns as [|n ns IH]; cbn [id_info_links id_map]; [split; [eauto|reflexivity]|]. destruct (skip_pat n); [exact IH|]. destruct (link n) as [x|p].
      - split; [discriminate|intros [m H]; discriminate].
      - rewrite IH. destruct (id_map _ ns); split; intros [m H]; eauto; discriminate. }
    split.
    + rewrite M. split; intros [m H].
      * rewrite H. destruct (id_search path (order m)). eauto.
      * destruct (id_map _ names); [eauto|discriminate].
    + clear M. induction names as [|n ns IH]; intros g H; cbn [id_info_links] in H; [discriminate|].
      destruct (skip_pat n) eqn:Sk; [|destruct (link n) as [x|p] eqn:Ln].
      * destruct (IH g H) as (m & x & C & Tx & pre & n' & post & -> & R1 & R2 & R3 & R4). exists m, x. split; [exact C|]. split; [exact Tx|].
        exists (n :: pre), n', post. split; [reflexivity|]. split; [exact R1|]. split; [exact R2|]. split; [|exact R4]. intros q [<-|Q]; [now left|now apply R3].
      * injection H as <-. eexists _, x. split; [econstructor; [reflexivity|constructor|reflexivity]|]. split; [reflexivity|].
        exists [], n, ns. split; [reflexivity|]. split; [exact Sk|]. split; [exact Ln|]. split; [intros q []|]. reflexivity.
      * destruct (IH g H) as (m & x & C & Tx & pre & n' & post & -> & R1 & R2 & R3 & R4). exists m, x. split; [exact C|]. split; [exact Tx|].
        exists (n :: pre), n', post. split; [reflexivity|]. split; [exact R1|]. split; [exact R2|]. split; [|exact R4]. intros q [<-|Q]; [right; eauto|now apply R3].
Qed.
Print Assumptions C161_id_info.

(** C162.  Numbers in the other messages are complete and exact. *)
Theorem C162_tcg_status O c v : v < 2 ^ 64 -> exists t, decimal_text v t /\ error_text O c (ETcg v) = str "tcg error: " ++ t.
Proof. intros H. exists (fmt_int false false 0 10 v). split; [now apply fmt_d|]. rewrite <- (app_nil_r (fmt_int false false 0 10 v)). cbv -[fmt_int]. reflexivity. Qed.
Print Assumptions C162_tcg_status.
Theorem C162_distinct O c v w : v < 2 ^ 64 -> w < 2 ^ 64 -> error_text O c (ETcg v) = error_text O c (ETcg w) -> v = w.
Proof.
  intros Hv Hw E. destruct (C162_tcg_status O c v Hv) as (t & [_ T] & Et), (C162_tcg_status O c w Hw) as (u & [_ U] & Eu). rewrite Et, Eu in E.
  apply app_cut in E as [_ ->]; [congruence|reflexivity].
Qed.
Print Assumptions C162_distinct.
(** The errors with a fixed text, which differ from each other and from every TCG status. *)
Definition fixed_texts : list (err * string) :=
  [ (EInvalidParamType, "invalid param type"); (EIllegalResponse, "illegal response"); (ENotSupportThisDriver, "not supported in this driver");
    (EEOF, "EOF"); (EUnexpectedEOF, "unexpected EOF") ]%string.
Theorem C162_fixed O c : (forall e t, In (e, t) fixed_texts -> error_text O c e = str t)
  /\ (forall e t e' t', In (e, t) fixed_texts -> In (e', t') fixed_texts -> error_text O c e = error_text O c e' -> e = e')
  /\ (forall e t v, In (e, t) fixed_texts -> v < 2 ^ 64 -> error_text O c e <> error_text O c (ETcg v)).
Proof.
  assert (A : forall e t, In (e, t) fixed_texts -> error_text O c e = str t).
  { intros e t H. unfold fixed_texts in H. cbn [In] in H. repeat (destruct H as [H|H]; [injection H as <- <-; reflexivity|]). contradiction. }
  split; [exact A|]. split.
  - intros e t e' t' H H' E. rewrite (A _ _ H), (A _ _ H') in E. unfold fixed_texts in H, H'. cbn [In] in H, H'.
    repeat (destruct H as [H|H]; [injection H as <- <-; repeat (destruct H' as [H'|H']; [injection H' as <- <-; first [reflexivity|vm_compute in E; discriminate E]|]); contradiction|]). contradiction.
  - intros e t v H Hv E. rewrite (A _ _ H) in E. destruct (C162_tcg_status O c v Hv) as (u & _ & U). rewrite U in E.
    unfold fixed_texts in H. cbn [In] in H. repeat (destruct H as [H|H]; [injection H as <- <-; vm_compute in E; discriminate E|]). contradiction.
Qed.
Print Assumptions C162_fixed.
(** An error that carries one decimal number: the TCG authentication failure, the wrong identity size. *)
Theorem C162_one_number O c f title v :
  In (f, title) [("authentication failed: %d", "authentication failed: "); ("invalid identity size: %d", "invalid identity size: ")]%string ->
  (forall n, c <> WinNvmeLog n) -> v < 2 ^ 64 ->
  exists t, decimal_text v t /\ error_text O c (EFmt f v) = str title ++ t.
Proof.
  intros I C H. exists (fmt_int false false 0 10 v). split; [now apply fmt_d|]. rewrite <- (app_nil_r (fmt_int false false 0 10 v)).
  replace (error_text O c (EFmt f v)) with (sprintf f [AInt v]) by (unfold error_text; destruct c; try reflexivity; exfalso; eapply C; reflexivity).
  destruct I as [I|[I|[]]]; injection I as <- <-; cbv -[fmt_int]; reflexivity.
Qed.
Print Assumptions C162_one_number.
(** The Windows NVMe driver's complaint about a log page's header quotes the two fields the system returned, of which at least one is not 48. *)
Theorem C162_log_header O S h hd nsid logId rae size h' d f v :
  (forall k, wf (wa_out (s_io S k))) ->
  winnvme_log_page S h hd nsid logId rae size = (h', Ok (d, Some (EFmt f v))) ->
  let out := fill (protocol_query 50 2 logId (to_uint32 size) ++ zeros (Z.to_nat size)) (wa_out (s_io S h')) in
  let version := le_val (slice 0 4 out) in
  let length := le_val (slice 4 4 out) in
  (version <> 48 \/ length <> 48) /\
  exists a b, hex_text version a /\ hex_text length b /\
    error_text O (WinNvmeLog length) (EFmt f v) = str "invalid response header: 0x" ++ a ++ str ", 0x" ++ b.
Proof.
  intros W H. unfold winnvme_log_page in H. destruct (_ <=? _)%Z in H; [discriminate|]. destruct (_ <? _)%Z in H; [discriminate|].
  unfold win_same, win_io in H. cbv zeta in H. cbn [wc_in] in H.
  match type of H with context [win_result ?r] => destruct (win_result r) as [y|] eqn:R in H end.
  { injection H as _ _ E. destruct (win_errno _ _ R) as [n Y]. rewrite Y in E. discriminate. }
  match type of H with context [if ?c then _ else _] => destruct c eqn:B end; [|discriminate].
  apply pair_equal_spec in H as [<- H]. injection H as _ <- <-. cbv zeta.
  set (out := fill _ _) in *. assert (Wo : wf out).
  { apply wf_fill; [|apply W]. apply wf_app. split; [|apply wf_zeros]. unfold protocol_query. rewrite !wf_app. repeat split; try apply le_bytes_wf; apply wf_zeros. }
  clearbody out. assert (Bd : forall i, le_val (slice i 4 out) < 2 ^ 64).
  { intros i. eapply N.lt_le_trans; [apply le_val_bound; now apply wf_slice|]. change (2 ^ 64) with (256 ^ 8). apply N.pow_le_mono_r; [lia|].
    unfold slice. rewrite firstn_length. lia. }
  pose proof (Bd 0%nat) as B0. pose proof (Bd 4%nat) as B4. clear Bd. revert B B0 B4. generalize (le_val (slice 0 4 out)) (le_val (slice 4 4 out)). intros x y B B0 B4.
  split; [apply orb_prop in B as [B|B]; apply negb_true_iff, N.eqb_neq in B; tauto|].
  exists (fmt_int false false 0 16 x), (fmt_int false false 0 16 y). split; [now apply fmt_x|]. split; [now apply fmt_x|].
  rewrite <- (app_nil_r (fmt_int false false 0 16 y)). cbv -[fmt_int]. reflexivity.
Qed.
Print Assumptions C162_log_header.
Lemma tail2 n : forall buf : bytes, List.length buf = S (S n) -> skipn n buf = [nth n buf 0; nth (S n) buf 0].
Proof.
  induction n as [|n IH]; intros [|x buf] L; try discriminate.
  - destruct buf as [|y [|z buf]]; try discriminate. reflexivity.
  - cbn [skipn]. injection L as L. rewrite (IH buf L). reflexivity.
Qed.
Lemma padded_length n (b : bytes) : List.length (firstn n (b ++ skipn (List.length b) (zeros n))) = n.
Proof. unfold zeros. rewrite firstn_length, app_length, skipn_length, repeat_length. lia. Qed.
Lemma padded_nth n (b : bytes) i : (i < n)%nat -> nth i (firstn n (b ++ skipn (List.length b) (zeros n))) 0 = nth i (b ++ zeros n) 0.
Proof.
  intros H. assert (F : forall (l : bytes), nth i (firstn n l) 0 = nth i l 0).
  { clear b. revert n H. induction i as [|i IH]; intros [|n] H l; try lia; destruct l; try reflexivity. cbn [firstn nth]. apply IH. lia. }
  rewrite F. clear F. assert (Z : forall j m, nth j (zeros m) 0 = 0) by (intros j m; unfold zeros; apply nth_repeat).
  assert (Zs : forall j k m, nth j (skipn k (zeros m)) 0 = 0).
  { intros j k. revert j. induction k as [|k IH]; intros j m; [apply Z|]. destruct m as [|m]; [destruct j; reflexivity|]. cbn [zeros repeat skipn]. apply IH. }
  destruct (Nat.lt_ge_cases i (List.length b)); [now rewrite !app_nth1 by assumption|]. rewrite !app_nth2 by assumption. now rewrite Z, Zs.
Qed.
Lemma mbr_text1 t : sprintf "error reading MBR from file: %v" [AText t] = str "error reading MBR from file: " ++ t ++ [].
Proof. cbv. reflexivity. Qed.
Lemma mbr_text2 r n : sprintf "read only %d bytes of MBR from file instead of expected %d" [AInt r; AInt n]
  = str "read only " ++ fmt_int false false 0 10 r ++ str " bytes of MBR from file instead of expected " ++ fmt_int false false 0 10 n ++ [].
Proof. cbv -[fmt_int]. reflexivity. Qed.
Lemma mbr_text3 b : sprintf "invalid MBR Signature %v" [ABytes b] = str "invalid MBR Signature " ++ fmt_bytes b ++ [].
Proof. cbv -[fmt_bytes]. reflexivity. Qed.
(** The MBR reader has a text exactly when it fails, and then the text gives the cause, the number of bytes read, or the two bytes found
    where the signature should be. *)
Theorem C162_mbr O answer : 
  (mbr_error_text O answer = None <-> exists v, mbr_read answer = Ok v) /\
  forall t, mbr_error_text O answer = Some t ->
  let '(b, (read, e)) := answer 512%nat in
  match e with
  | Some x => t = str "error reading MBR from file: " ++ error_text O Elsewhere x
  | None => if read =? 512 then exists u v a c, nth 510 (b ++ zeros 512) 0 = u /\ nth 511 (b ++ zeros 512) 0 = v /\ (u < 2 ^ 64 -> v < 2 ^ 64 -> decimal_text u a /\ decimal_text v c)
                                /\ t = str "invalid MBR Signature [" ++ a ++ str " " ++ c ++ str "]"
            else read < 2 ^ 64 -> exists a, decimal_text read a /\ t = str "read only " ++ a ++ str " bytes of MBR from file instead of expected 512"
  end.
Proof.
  unfold mbr_error_text, mbr_read, mbr_table_from_bytes. destruct (answer 512%nat) as [b [read e]]. destruct e as [x|].
  { split; [split; [discriminate|intros [v H]; discriminate]|]. intros t H. injection H as <-. now rewrite mbr_text1, app_nil_r. }
  cbv zeta. pose proof (padded_length 512 b) as Lb. pose proof (padded_nth 512 b 510 ltac:(lia)) as N0. pose proof (padded_nth 512 b 511 ltac:(lia)) as N1.
  set (buf := firstn 512 (b ++ skipn (List.length b) (zeros 512))) in *. clearbody buf.
  rewrite <- N0, <- N1. clear N0 N1. pose proof (tail2 510 buf Lb) as T. rewrite T. clear T. change (S 510) with 511%nat.
  assert (Ln : blen buf =? 512 = true) by (unfold blen; rewrite Lb; reflexivity). rewrite Ln. cbn [negb].
  generalize (nth 510 buf 0) (nth 511 buf 0) (le_val (slice 440 4 buf)). clear Lb Ln buf b. intros u v y.
  destruct (N.eqb_spec read 512) as [R|R]; cbn [negb].
  - destruct (beq [u; v] [85; 170]) eqn:B; cbn [negb].
    + split; [split; eauto|discriminate].
    + split; [split; [discriminate|intros [z H]; discriminate]|]. intros t H. injection H as <-. exists u, v, (digits 64 10 u), (digits 64 10 v).
      split; [reflexivity|]. split; [reflexivity|]. split; [intros Hu Hv; split; now apply digits_decimal|].
      rewrite mbr_text3, app_nil_r. unfold fmt_bytes. cbn [map spaced]. generalize (digits 64 10 u) (digits 64 10 v). intros du dv.
      change (str "invalid MBR Signature [") with (str "invalid MBR Signature " ++ [91]). rewrite <- !app_assoc. reflexivity.
  - split; [split; [discriminate|intros [z H]; discriminate]|]. intros t H Hr. injection H as <-. exists (fmt_int false false 0 10 read).
    split; [now apply fmt_d|]. rewrite mbr_text2, app_nil_r. reflexivity.
Qed.
Print Assumptions C162_mbr.
