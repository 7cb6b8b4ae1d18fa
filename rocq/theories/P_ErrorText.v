(** Lemmas about the texts of errors: numerals, the errors drivers return. *)
From Verif Require Import Base M_Buffer M_Struc M_Layouts M_Strings M_Ata M_TcgDevice M_DriveHandle M_Cdb M_SgDriver M_SgHandle P_Sg M_NvmeLinux M_LinuxInfo M_LinuxFactory.
From Verif Require Import Spec_LinuxVolume Spec_WinInfo Spec_WinNvme M_WinPass M_WinNvme P_WinNvme M_WinEnum P_Struc Prop_WinEnum M_ErrorText Spec_ErrorText.

(** ---- numerals ---- *)
Lemma digit_small n : n < 16 -> (48 <= digit n <= 57 \/ 97 <= digit n <= 102) /\ hex_value (digit n) = Some n.
Proof.
  intros H. assert (B : forallb (fun m => ((48 <=? digit m) && (digit m <=? 57) || (97 <=? digit m) && (digit m <=? 102)) && match hex_value (digit m) with Some x => x =? m | None => false end)
    [0;1;2;3;4;5;6;7;8;9;10;11;12;13;14;15] = true) by reflexivity.
  rewrite forallb_forall in B. specialize (B n). cbv beta in B.
  assert (I : In n [0;1;2;3;4;5;6;7;8;9;10;11;12;13;14;15]).
  { destruct (N.eq_dec n 15) as [->|]; [cbn; tauto|]. cbn [In]. lia. }
  specialize (B I). apply andb_prop in B as [B1 B2]. split; [lia|]. destruct (hex_value (digit n)); [|discriminate]. apply N.eqb_eq in B2. now subst.
Qed.
Lemma digits_16 fuel : forall n, n < 16 ^ N.of_nat (S fuel) ->
  let ds := digits (S fuel) 16 n in ds <> [] /\ small_hex ds /\ reads16 ds n /\ (n <> 0 -> forall r, ds <> 48 :: r) /\ (n = 0 -> ds = [48]) /\ (n < 16 -> List.length ds = 1%nat)
  /\ (16 <= n < 256 -> List.length ds = 2%nat).
Proof.
  assert (One : forall n, n < 16 -> [digit n] <> [] /\ small_hex [digit n] /\ reads16 [digit n] n /\ (n <> 0 -> forall r, [digit n] <> 48 :: r) /\ (n = 0 -> [digit n] = [48])
     /\ (n < 16 -> List.length [digit n] = 1%nat) /\ (16 <= n < 256 -> List.length [digit n] = 2%nat)).
  { intros n Hn. destruct (digit_small n Hn) as [D V]. split; [discriminate|]. split; [constructor; [exact D|constructor]|]. split; [|split; [|split; [intros ->; reflexivity|split; [reflexivity|lia]]]].
    - change [digit n] with ([] ++ [digit n]). replace n with (16 * 0 + n) at 2 by lia. constructor; [constructor|exact V].
    - intros Z r E. injection E as E _. rewrite E in V. cbn in V. injection V as V. lia. }
  induction fuel as [|fuel IH]; intros n H.
  - assert (n < 16) by (change (16 ^ N.of_nat 1) with 16 in H; exact H). cbn [digits]. destruct (N.ltb_spec n 16); [|lia]. now apply One.
  - intros ds. unfold ds. change (digits (S (S fuel)) 16 n) with (if n <? 16 then [digit n] else digits (S fuel) 16 (n / 16) ++ [digit (n mod 16)]).
    destruct (N.ltb_spec n 16) as [L|L]; [now apply One|]. clear ds.
    pose proof (N.div_mod n 16 ltac:(lia)) as D. pose proof (N.mod_upper_bound n 16 ltac:(lia)) as U.
    assert (Q : n / 16 < 16 ^ N.of_nat (S fuel)).
    { apply N.div_lt_upper_bound; [lia|]. rewrite <- N.pow_succ_r by lia. now rewrite <- Nat2N.inj_succ. }
    assert (Z : n / 16 <> 0). { revert D U L. generalize (n / 16) (n mod 16). intros q r. lia. }
    assert (Lq : n < 256 -> n / 16 < 16). { intros X. revert D U X. generalize (n / 16) (n mod 16). intros q r. lia. }
    destruct (IH (n / 16) Q) as (I1 & I2 & I3 & I4 & _ & I6 & _). destruct (digit_small (n mod 16) U) as [Ds Vs].
    split; [intros E; apply app_eq_nil in E as [_ E]; discriminate|].
    split; [apply Forall_app; split; [exact I2|constructor; [exact Ds|constructor]]|].
    split; [rewrite D at 3; now constructor|]. split; [|split; [lia|split; [lia|]]].
    + intros _ r E. destruct (digits (S fuel) 16 (n / 16)) as [|x l]; [congruence|]. injection E as -> _. now apply (I4 Z l).
    + intros X. rewrite app_length, (I6 (Lq (proj2 X))). reflexivity.
Qed.
Lemma reads16_zero t n : reads16 t n -> reads16 (48 :: t) n.
Proof.
  induction 1 as [|s v c d R IH H]; [exact (reads_snoc [] 0 48 0 reads_nil eq_refl)|].
  change (48 :: s ++ [c]) with ((48 :: s) ++ [c]). now constructor.
Qed.
Lemma digits_byte n : n < 256 -> byte_text n (repeat 48 (2 - List.length (digits 64 16 n)) ++ digits 64 16 n).
Proof.
  intros H. destruct (digits_16 63 n) as (A & B & C & _ & _ & L1 & L2). { eapply N.lt_le_trans; [exact H|]. change 256 with (16 ^ 2). apply N.pow_le_mono_r; [lia|]. vm_compute. discriminate. }
  change 64%nat with (S 63) in *. set (ds := digits (S 63) 16 n) in *. clearbody ds. destruct (N.lt_ge_cases n 16) as [L|L].
  - rewrite (L1 L). cbn [Nat.sub repeat app]. split; [cbn [List.length]; now rewrite (L1 L)|]. split; [constructor; [lia|exact B]|]. now apply reads16_zero.
  - rewrite (L2 (conj L H)). cbn [Nat.sub repeat app]. split; [exact (L2 (conj L H))|]. split; [exact B|exact C].
Qed.
Lemma fmt_02x n : n < 256 -> byte_text n (fmt_int false true 2 16 n).
Proof.
  intros H. pose proof (digits_byte n H) as B. unfold fmt_int. cbn [andb]. set (t := repeat 48 _ ++ _) in *. destruct B as (L & R). rewrite L. exact (conj L R).
Qed.
Lemma fmt_02x_sharp n : n < 256 -> exists t, byte_text n t /\ fmt_int true true 2 16 n = str "0x" ++ t.
Proof.
  intros H. pose proof (digits_byte n H) as B.
  change (fmt_int true true 2 16 n) with ((fun t => repeat 32 (2 - List.length ([48; 120] ++ t)) ++ [48; 120] ++ t) (repeat 48 (2 - List.length (digits 64 16 n)) ++ digits 64 16 n)).
  revert B. generalize (repeat 48 (2 - List.length (digits 64 16 n)) ++ digits 64 16 n). intros t B. exists t. split; [exact B|].
  destruct B as (L & R). cbn [app List.length]. rewrite L. reflexivity.
Qed.
Lemma fmt_x n : n < 2 ^ 64 -> hex_text n (fmt_int false false 0 16 n).
Proof.
  intros H. destruct (digits_16 63 n) as (A & B & C & D & E & _). { eapply N.lt_le_trans; [exact H|]. change (2 ^ 64) with (16 ^ 16). apply N.pow_le_mono_r; [lia|]. vm_compute. discriminate. }
  unfold fmt_int. cbn [andb Nat.sub repeat app]. change (digits 64 16 n) with (digits (S 63) 16 n). set (ds := digits (S 63) 16 n) in *. clearbody ds.
  split; [exact A|]. split; [exact B|]. split; [exact C|]. intros r Er. destruct (N.eq_dec n 0) as [Z|Z]; [specialize (E Z); rewrite E in Er; now injection Er as <-|].
  exfalso. now apply (D Z r).
Qed.
Lemma digits_10 fuel : forall n, digits fuel 10 n = dec_digits fuel n.
Proof.
  induction fuel as [|f IH]; intros n; [reflexivity|]. cbn [digits dec_digits]. rewrite IH. destruct (N.ltb_spec n 10) as [L|L].
  - unfold digit. destruct (N.ltb_spec n 10); [reflexivity|lia].
  - unfold digit. pose proof (N.mod_upper_bound n 10 ltac:(lia)). destruct (N.ltb_spec (n mod 10) 10); [reflexivity|lia].
Qed.
Lemma digits_decimal n : n < 2 ^ 64 -> decimal_text n (digits 64 10 n).
Proof.
  intros H. rewrite digits_10. destruct (dec_digits_ok 63 n) as (A & B & C & D & E).
  { eapply N.lt_trans; [exact H|]. reflexivity. }
  change (dec_digits 64 n) with (dec_digits (S 63) n). set (ds := dec_digits (S 63) n) in *. clearbody ds.
  split; [|exact C]. split; [exact A|]. split; [exact B|]. intros r Er. destruct (N.eq_dec n 0) as [Z|Z]; [specialize (E Z); rewrite E in Er; now injection Er as <-|].
  exfalso. now apply (D Z r).
Qed.
Lemma fmt_d n : n < 2 ^ 64 -> decimal_text n (fmt_int false false 0 10 n).
Proof. intros H. unfold fmt_int. cbn [andb Nat.sub repeat app]. now apply digits_decimal. Qed.

Lemma hex_value_inj c d v : (48 <= c <= 57 \/ 97 <= c <= 102) -> (48 <= d <= 57 \/ 97 <= d <= 102) -> hex_value c = Some v -> hex_value d = Some v -> c = d.
Proof.
  unfold hex_value. intros A B H1 H2.
  repeat match goal with X : context [if ?b then _ else _] |- _ => destruct b eqn:? end; try discriminate; injection H1 as <-; injection H2 as ?; lia.
Qed.
Lemma reads16_value s v : reads16 s v -> forall w, reads16 s w -> v = w.
Proof.
  induction 1 as [|s v c d R IH H]; intros w Rw.
  - remember [] as l eqn:El. destruct Rw; [reflexivity|]. destruct s; discriminate.
  - remember (s ++ [c]) as l eqn:El. destruct Rw as [|s2 v2 c2 d2 R2 H2]; [destruct s; discriminate|].
    apply app_inj_tail in El as [-> ->]. rewrite (IH _ R2). congruence.
Qed.
Lemma byte_text_value a b t : byte_text a t -> byte_text b t -> a = b.
Proof. intros (_ & _ & A) (_ & _ & B). exact (reads16_value _ _ A _ B). Qed.
Lemma app_cut (A : Type) (a b c d : list A) : List.length a = List.length b -> a ++ c = b ++ d -> a = b /\ c = d.
Proof.
  revert b. induction a as [|x a IH]; intros [|y b] L E; try discriminate; [now split|]. injection L as L. injection E as -> E. destruct (IH b L E) as [-> ->]. now split.
Qed.
Lemma scsi_report_value w l st k a q st' k' a' q' t : scsi_report w l st k a q t -> scsi_report w l st' k' a' q' t -> st = st' /\ k = k' /\ a = a' /\ q = q'.
Proof.
  intros (x1 & x2 & x3 & x4 & B1 & B2 & B3 & B4 & ->) (y1 & y2 & y3 & y4 & C1 & C2 & C3 & C4 & E).
  assert (L : forall n m x y, byte_text n x -> byte_text m y -> List.length x = List.length y) by (intros n m x y (-> & _) (-> & _); reflexivity).
  apply app_cut in E as [_ E]; [|reflexivity]. apply app_cut in E as [<- E]; [|eapply L; eassumption]. apply app_cut in E as [_ E]; [|reflexivity].
  apply app_cut in E as [_ E]; [|reflexivity]. apply app_cut in E as [_ E]; [|reflexivity]. apply app_cut in E as [<- E]; [|eapply L; eassumption].
  apply app_cut in E as [_ E]; [|reflexivity]. apply app_cut in E as [<- E]; [|eapply L; eassumption]. apply app_cut in E as [_ <-]; [|reflexivity].
  repeat split; eapply byte_text_value; eassumption.
Qed.

(** ---- the messages ---- *)
Lemma scsi_text (f title label : string) st k a q :
  (forall x1 x2 x3 x4, sprintf f [AInt x1; AInt x2; AInt x3; AInt x4]
     = str title ++ fmt_int false true 2 16 x1 ++ str ", " ++ str label ++ str ": " ++ fmt_int true true 2 16 x2 ++ str ", ASC: " ++ fmt_int true true 2 16 x3
       ++ str ", ASCQ: " ++ fmt_int true true 2 16 x4) ->
  st < 256 -> k < 256 -> a < 256 -> q < 256 -> scsi_report title label st k a q (sprintf f [AInt st; AInt k; AInt a; AInt q]).
Proof.
  intros F H1 H2 H3 H4. rewrite F. destruct (fmt_02x_sharp k H2) as (b & B & ->). destruct (fmt_02x_sharp a H3) as (c & C & ->). destruct (fmt_02x_sharp q H4) as (d & D & ->).
  exists (fmt_int false true 2 16 st), b, c, d. split; [now apply fmt_02x|]. split; [exact B|]. split; [exact C|]. split; [exact D|].
  generalize (fmt_int false true 2 16 st). intros x. reflexivity.
Qed.
Lemma sense_key_mod si : get_sense_key si = nth 2 si 0 mod 16.
Proof. unfold get_sense_key, sense_byte. change 0x0F with (N.ones 4). apply N.land_ones. Qed.
Lemma nth_byte si i : wf si -> nth i si 0 < 256.
Proof.
  intros W. destruct (Nat.lt_ge_cases i (List.length si)) as [L|L]; [|rewrite nth_overflow by assumption; lia].
  pose proof (proj1 (Forall_forall _ _) W _ (nth_In si 0 L)) as B. exact B.
Qed.
Lemma sg_text msg st si : st < 256 -> wf si -> scsi_report "SCSI status: " "Sense key" st (nth 2 si 0 mod 16) (nth 12 si 0) (nth 13 si 0) (dparm_message SgTask msg st si).
Proof.
  intros H W. unfold dparm_message. cbv zeta. rewrite <- sense_key_mod. apply scsi_text.
  - intros x1 x2 x3 x4. rewrite <- (app_nil_r (fmt_int true true 2 16 x4)) at 1. cbv -[fmt_int]. reflexivity.
  - exact H.
  - rewrite sense_key_mod. pose proof (N.mod_upper_bound (nth 2 si 0) 16). lia.
  - now apply nth_byte.
  - now apply nth_byte.
Qed.
Lemma win_text c msg st si : c = WinScsiTask \/ c = WinScsiSecurity \/ c = SgSecurity -> st < 256 -> wf si ->
  scsi_report "SCSI Status: " "Sense Key" st (nth 2 si 0 mod 16) (nth 12 si 0) (nth 13 si 0) (dparm_message c msg st si).
Proof.
  intros Hc H W. destruct Hc as [->|[->| ->]]; unfold dparm_message; cbv zeta; rewrite <- sense_key_mod; apply scsi_text;
  [intros x1 x2 x3 x4; rewrite <- (app_nil_r (fmt_int true true 2 16 x4)) at 1; cbv -[fmt_int]; reflexivity
  |exact H|rewrite sense_key_mod; pose proof (N.mod_upper_bound (nth 2 si 0) 16); lia|now apply nth_byte|now apply nth_byte
  |intros x1 x2 x3 x4; rewrite <- (app_nil_r (fmt_int true true 2 16 x4)) at 1; cbv -[fmt_int]; reflexivity
  |exact H|rewrite sense_key_mod; pose proof (N.mod_upper_bound (nth 2 si 0) 16); lia|now apply nth_byte|now apply nth_byte
  |intros x1 x2 x3 x4; rewrite <- (app_nil_r (fmt_int true true 2 16 x4)) at 1; cbv -[fmt_int]; reflexivity
  |exact H|rewrite sense_key_mod; pose proof (N.mod_upper_bound (nth 2 si 0) 16); lia|now apply nth_byte|now apply nth_byte].
Qed.
Lemma ata_text msg st si : st < 256 -> ata_report st (dparm_message WinAtaTask msg st si).
Proof.
  intros H. exists (fmt_int false true 2 16 st). split; [now apply fmt_02x|]. rewrite <- (app_nil_r (fmt_int false true 2 16 st)). cbv -[fmt_int]. reflexivity.
Qed.

(** ---- the errors the drivers return ---- *)
Definition is_errno (e : err) : Prop := exists n, e = errno n.
Lemma ioctl_errno a b e : ioctl_result a b = Some e -> is_errno e.
Proof. unfold ioctl_result. destruct (negb _); [|destruct (negb _)]; intros H; try discriminate; injection H as <-; eexists; reflexivity. Qed.
Lemma win_errno a e : win_result a = Some e -> is_errno e.
Proof. unfold win_result. destruct (_ =? _); intros H; try discriminate. injection H as <-. eexists. reflexivity. Qed.
Lemma win_tries_errno S h hd d b hdr n back rw data addr baddr h' e x : win_tries S h hd d b hdr n back rw data addr baddr = (h', Ok (Some e, x)) -> is_errno e.
Proof.
  unfold win_tries. destruct data as [|y data]; [discriminate|]. set (dat := y :: data). clearbody dat.
  change (is_aligned_pointer 512 addr) with (@Ok bool (addr mod 512 =? 0)). destruct (addr mod 512 =? 0); unfold win_io; cbv zeta;
  (match goal with |- context [match win_result ?r with _ => _ end] => destruct (win_result r) end;
   [match goal with |- context [match win_result ?r with _ => _ end] => destruct (win_result r) eqn:E end; intros H; [|discriminate]; injection H as _ <- _; eapply win_errno; exact E|]).
  - discriminate.
  - destruct rw; [discriminate|]. destruct (snd _); discriminate.
Qed.
Lemma sg_tries_errno K h mk rw data addr h' e x : sg_tries K h mk rw data addr = (h', Ok (Some e, x)) -> is_errno e.
Proof.
  unfold sg_tries. destruct data as [[|y data]|]; [discriminate| |].
  - set (dat := y :: data). clearbody dat.
    change (is_aligned_pointer 512 addr) with (@Ok bool (addr mod 512 =? 0)). destruct (addr mod 512 =? 0); unfold sg_ioctl; cbv zeta;
    (match goal with |- context [match ioctl_result ?r ?q with _ => _ end] => destruct (ioctl_result r q) end;
     [match goal with |- context [match ioctl_result ?r ?q with _ => _ end] => destruct (ioctl_result r q) eqn:E end; intros H; [|discriminate]; injection H as _ <- _; eapply ioctl_errno; exact E|]).
    + discriminate.
    + destruct rw; [discriminate|]. destruct (snd _); discriminate.
  - unfold sg_ioctl. cbv zeta. match goal with |- context [match ioctl_result ?r ?q with _ => _ end] => destruct (ioctl_result r q) end; [|discriminate].
    match goal with |- context [match ioctl_result ?r ?q with _ => _ end] => destruct (ioctl_result r q) eqn:E end; intros H; [|discriminate]. injection H as _ <- _. eapply ioctl_errno; exact E.
Qed.

(** What a driver's error can be, after call [c]. *)
Definition plain (e : err) : Prop := is_errno e \/ e = EMsg "not supported" \/ e = EMsg "too long data".
Definition usual (k : kind) (c : dcall) (e : err) : Prop :=
  plain e \/ exists msg st si, e = EDparm msg st si /\
    match k, c with
    | OnSg, CTask _ _ _ _ _ | OnWin KScsi, (CTask _ _ _ _ _ | CSec _ _ _ _ _ _) | OnWin KWinNvme, CSec _ _ _ _ _ _ => msg = "SCSI status, Sense key, ASC, ASCQ"%string
    | OnWin KAta, CTask _ _ _ _ _ => si = [] /\ msg = "ATA Status: %02x"%string
    | _, _ => False
    end.
Lemma plain_usual k c e : plain e -> usual k c e.
Proof. now left. Qed.
Lemma win_scsi_usual S h hd rw cdb data addr baddr secs e d : snd (win_scsi S h hd rw cdb data addr baddr secs) = Ok (Some e, d) ->
  is_errno e \/ exists st si, e = EDparm "SCSI status, Sense key, ASC, ASCQ" st si.
Proof.
  unfold win_scsi. destruct (win_tries S h hd _ _ _ _ _ rw _ addr baddr) as [h1 r] eqn:E. destruct r as [[[x|] [d' p]]| | |]; cbn [snd]; intros H; try discriminate.
  - injection H as <- _. left. exact (win_tries_errno _ _ _ _ _ _ _ _ _ _ _ _ _ _ _ E).
  - right. injection H as H _. unfold win_sense_error in H. destruct (negb _); [|discriminate]. injection H as <-. eauto.
Qed.
Lemma win_ata_usual S h hd rw dma t data addr baddr secs e d : snd (win_ata S h hd rw dma t data addr baddr secs) = Ok (Some e, d) ->
  is_errno e \/ exists st, e = EDparm "ATA Status: %02x" st [].
Proof.
  unfold win_ata. destruct (win_tries S h hd _ _ _ _ _ rw _ addr baddr) as [h1 r] eqn:E. destruct r as [[[x|] [d' p]]| | |]; cbn [snd]; intros H; try discriminate.
  - injection H as <- _. left. exact (win_tries_errno _ _ _ _ _ _ _ _ _ _ _ _ _ _ _ E).
  - right. destruct (negb _) in H; [|discriminate]. injection H as <- _. eauto.
Qed.
Lemma sg_task_usual K h rw dma t data addr secs e x : snd (sg_task_file K h rw dma t data addr secs) = Ok (Some e, x) ->
  is_errno e \/ exists st si, e = EDparm "SCSI status, Sense key, ASC, ASCQ" st si.
Proof.
  unfold sg_task_file. destruct (sg_tries K h _ rw _ addr) as [h1 r] eqn:E. destruct r as [[[y|] [d' p]]| | |]; cbn [snd]; intros H; try discriminate.
  - injection H as <- _. left. exact (sg_tries_errno _ _ _ _ _ _ _ _ _ E).
  - right. destruct (sense_error p) eqn:Ep; [|discriminate]. injection H as <- _. unfold sense_error in Ep. destruct (negb _); [|discriminate]. injection Ep as <-. eauto.
Qed.
Lemma sg_security_usual K h rw dma p c data addr secs e x : snd (sg_security K h rw dma p c data addr secs) = Ok (Some e, x) -> is_errno e.
Proof.
  destruct data as [|b data]; [rewrite security_empty; discriminate|]. rewrite security_closed by discriminate. cbv zeta.
  destruct (ok_answer _); [discriminate|]. cbn [snd]. destruct (ok_answer _); [discriminate|]. intros H. injection H as <- _. eexists. reflexivity.
Qed.
Lemma nv_admin_usual K h fd c a e x : snd (nv_admin K h fd c a) = (Some e, x) -> is_errno e.
Proof. unfold nv_admin. cbv zeta. intros H. cbn [snd] in H. injection H as H _. eapply ioctl_errno. exact H. Qed.
Lemma miniport_usual S h hd c ext e x : snd (miniport_admin S h hd c ext) = (Some e, x) -> plain e.
Proof.
  unfold miniport_admin. destruct (_ <? _); [intros H; injection H as <- _; right; now right|]. unfold win_same, win_io. cbv zeta.
  match goal with |- context [win_result ?r] => destruct (win_result r) eqn:E end; cbn [snd]; intros H; [|discriminate]. injection H as <- _. left. eapply win_errno; exact E.
Qed.

Lemma io_usual k V cs e b : driver_of k V -> v_io V cs = (Some e, b) -> exists before c, last_call cs = Some (before, c) /\ usual k c e.
Proof.
  intros D H. destruct D as [K A kh id|K fd A kh id|S A d h]; cbn [v_io sg_drv nv_drv win_drv] in H.
  - change (sg_current cs) with (last_call cs) in H. destruct (last_call cs) as [[before c]|]; [|discriminate]. exists before, c. split; [reflexivity|].
    unfold sg_exec in H. destruct c; try discriminate.
    + destruct (sg_security _ _ _ _ _ _ _ _ _) as [k1 r] eqn:E. destruct r as [x| | |]; try discriminate. cbn [fst snd] in H. subst x.
      apply plain_usual. left. eapply (sg_security_usual _ _ _ _ _ _ _ _ _ e b). now rewrite E.
    + destruct (sg_task_file _ _ _ _ _ _ _ _) as [k1 r] eqn:E. destruct r as [[e1 [t' [d'|]]]| | |]; try discriminate. cbn [fst snd] in H. injection H as -> ->.
      destruct (sg_task_usual _ _ _ _ _ _ _ _ e (t', Some b) (f_equal snd E)) as [Q|(st & si & ->)]; [apply plain_usual; now left|].
      right. eexists _, st, si. split; [reflexivity|reflexivity].
  - destruct (last_call cs) as [[before c]|]; [|discriminate]. exists before, c. split; [reflexivity|]. apply plain_usual.
    unfold nv_exec in H. destruct c; try discriminate.
    + unfold nv_security in H. cbn [snd] in H. injection H as <- _. right. now left.
    + destruct (nv_admin _ _ _ _ _) as [k1 [e1 c']] eqn:E. cbn [snd] in H. injection H as -> _. left. eapply (nv_admin_usual _ _ _ _ _ e c'). now rewrite E.
  - destruct (last_call cs) as [[before c]|]; [|discriminate]. exists before, c. split; [reflexivity|].
    destruct (snd (win_exec S A d (win_replay S A d h before) c)) as [x| | |] eqn:E; try discriminate. subst x. unfold win_exec in E.
    destruct c, (wd_kind d); cbn [snd] in E; try discriminate E; try (injection E as <- _; apply plain_usual; right; now left).
    + unfold win_security in E. destruct (win_scsi_usual _ _ _ _ _ _ _ _ _ _ _ E) as [Q|(st & si & ->)]; [apply plain_usual; now left|]. right. eexists _, st, si. split; reflexivity.
    + unfold win_security in E. destruct (win_scsi_usual _ _ _ _ _ _ _ _ _ _ _ E) as [Q|(st & si & ->)]; [apply plain_usual; now left|]. right. eexists _, st, si. split; reflexivity.
    + unfold win_task_file in E. destruct (win_scsi_usual _ _ _ _ _ _ _ _ _ _ _ E) as [Q|(st & si & ->)]; [apply plain_usual; now left|]. right. eexists _, st, si. split; reflexivity.
    + destruct (win_ata_usual _ _ _ _ _ _ _ _ _ _ _ _ E) as [Q|(st & ->)]; [apply plain_usual; now left|]. right. eexists _, st, []. split; [reflexivity|]. split; reflexivity.
    + destruct (miniport_admin _ _ _ _ _) as [h1 [e1 x]] eqn:E1. destruct x as [cmd' ex]. cbn [snd] in E. injection E as -> _. apply plain_usual.
      eapply (miniport_usual _ _ _ _ _ e (cmd', ex)). now rewrite E1.
Qed.

(** ---- the calls on a handle ---- *)
Lemma unpack_error o lay b e : struc_unpack o lay b = Err e -> e = EEOF \/ e = EUnexpectedEOF.
Proof.
  intros H. destruct (Nat.le_gt_cases (struc_sizeof lay) (List.length b)) as [L|L]; [rewrite unpack_ok0 in H by assumption; discriminate|].
  destruct (unpack_short o lay b L) as (e' & E & He). rewrite E in H. injection H as <-. exact He.
Qed.
Lemma discovery_loop_error fuel : forall made buf len u off t e, snd (discovery_loop fuel made buf len u off t) = Err e -> e = EEOF \/ e = EUnexpectedEOF.
Proof.
  induction fuel as [|f IH]; intros made buf len u off t e H; cbn [discovery_loop] in H; destruct (off <? len)%nat; try discriminate.
  destruct (struc_unpack _ _ _) eqn:E in H; cbv zeta in H; try discriminate.
  - destruct (_ <? _)%nat in H; [discriminate|]. destruct (negb made); [discriminate|]. exact (IH _ _ _ _ _ _ _ H).
  - cbn [snd] in H. injection H as ->. exact (unpack_error _ _ _ _ E).
Qed.
Lemma last_snoc cs c : last_call (cs ++ [c]) = Some (cs, c).
Proof. unfold last_call. rewrite rev_app_distr. cbn [rev app]. now rewrite rev_involutive. Qed.

(** What a call on a handle can report, [h'] being the driver calls up to its return. *)
Definition reported (k : kind) (h' : dhist) (e : err) : Prop :=
  e = EEOF \/ e = EUnexpectedEOF \/ e = EMsg "invalid data: length overflow" \/ e = ENotSupportThisDriver \/ plain e
  \/ (exists s n, e = EFmt s n /\ s = "invalid response header: 0x%x, 0x%x"%string)
  \/ exists before c, last_call h' = Some (before, c) /\ usual k c e /\ match k with OnWin KWinNvme => False | _ => True end.
Lemma security_reported k V p h rw dma pr ci b secs h' e b' : driver_of k V -> p_dh p = Some (driver_type k) ->
  security_command V p h rw dma pr ci b secs = (h', (Some e, b')) -> reported k h' e.
Proof.
  intros D T H. unfold security_command in H. rewrite T in H. cbv zeta in H.
  destruct (v_io V (h ++ [CSec rw dma pr ci b secs])) as [[e1|] n1] eqn:E1; [|discriminate].
  destruct (is_ata (driver_type k)) eqn:TA; [|destruct (is_nvme (driver_type k)) eqn:TN].
  - match type of H with context [v_io V ?x] => destruct (v_io V x) as [e2 n2] eqn:E2 end. injection H as <- -> _.
    destruct (io_usual _ _ _ _ _ D E2) as (bf & c & L & U). rewrite last_snoc in L. injection L as <- <-. do 6 right. eexists _, _. split; [apply last_snoc|]. split; [exact U|].
    destruct k as [| |[]]; try exact I; discriminate.
  - match type of H with context [v_io V ?x] => destruct (v_io V x) as [e2 n2] eqn:E2 end. injection H as <- -> _.
    destruct (io_usual _ _ _ _ _ D E2) as (bf & c & L & U). rewrite last_snoc in L. injection L as <- <-.
    destruct U as [P|(msg & st & si & -> & X)]; [right; right; right; right; now left|]. destruct k as [| |[]]; contradiction.
  - destruct k as [| |[]]; discriminate.
Qed.
Lemma discovery_reported k V p h h' p' e : driver_of k V -> p_dh p = Some (driver_type k) -> tcg_discovery0 V p h = (h', (p', Err e)) -> reported k h' e.
Proof.
  intros D T H. unfold tcg_discovery0 in H. destruct (security_command V p h false false 0x01 0x0001 (zeros 2048) 3) as [h1 [[e1|] buf]] eqn:E.
  - injection H as <- _ <-. exact (security_reported _ _ _ _ _ _ _ _ _ _ _ _ _ D T E).
  - cbv zeta in H. destruct (struc_unpack _ _ buf) eqn:U in H; try discriminate.
    + destruct (_ <? _) in H; [injection H as _ _ <-; right; right; now left|].
      match type of H with context [discovery_loop ?a ?b ?c ?d ?f ?g ?i] => destruct (discovery_loop a b c d f g i) as [t r] eqn:L end.
      injection H as _ _ ->. apply (f_equal snd) in L. cbn [snd] in L. destruct (discovery_loop_error _ _ _ _ _ _ _ _ L) as [->| ->]; [now left|right; now left].
    + injection H as _ _ ->. destruct (unpack_error _ _ _ _ U) as [->| ->]; [now left|right; now left].
Qed.
