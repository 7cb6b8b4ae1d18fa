(** Property theorems C141: what OpenByPath and EnumDrives say about a drive on Windows. *)
From Verif Require Import Base M_Buffer M_Struc M_Ata M_TcgDevice M_DriveHandle M_Cdb M_SgDriver M_Strings M_LinuxFactory M_WinPass M_WinNvme M_WinInfo M_WinFactory M_WinEnum
  Spec_Drive P_Discovery P_DriveHandle Prop_Drive Spec_LinuxFactory P_LinuxFactory Spec_LinuxVolume Spec_Sg P_Sg Prop_Sg Spec_WinPass Spec_WinNvme Spec_WinInfo P_WinPass P_WinNvme
  Prop_WinPass Prop_WinNvme Prop_WinDrive Prop_WinInfo Spec_WinFactory P_WinFactory Prop_WinFactory Spec_WinEnum Prop_WinEnum Spec_LinuxSystem P_LinuxSystem Prop_LinuxTcg Spec_WinSystem P_WinSystem
  Prop_WinSystem Spec_WinOpen Prop_WinOpen Spec_WinListing.

Lemma aligned_ok A : aligned_addr A -> addr_ok A. Proof. intros H k. destruct (H k) as (_ & B). exact B. Qed.

Lemma probe_reads S A h hd k g d : answers_bytes S -> aligned_addr A -> win_probe S A h hd k = (g, Ok d) ->
  reads_identity S A hd h k (wd_scsi d) g (wd_identity d).
Proof.
  intros WS HA P. destruct (HA h) as (A1 & A2 & A3). unfold win_probe in P. cbv zeta in P. destruct k.
  - destruct (nvmewin_open S h hd) as (h3, q) eqn:E. apply pair_equal_spec in P as [-> P].
    destruct q as [(sh, i)| | |]; try discriminate. injection P as <-. cbn [wd_scsi wd_identity].
    destruct (C92_nvmewin_open S h hd g _ WS E) as (c1 & rest & addr & Eh & H1 & H2 & _ & _ & D & N1 & N2). cbv zeta in *.
    destruct (N.eq_dec (wa_err (s_io S (h ++ [WIo c1]))) 0) as [O|O]; [|destruct (N1 O) as (_ & X); discriminate].
    destruct (N2 O) as (path & Pp & X). destruct (s_open S (h ++ [WIo c1; WOpen path])) as [e|sh'] eqn:Eo; [destruct X as (_ & X); discriminate|].
    destruct X as (c2 & G1 & G2 & _ & G3 & Y & Z). cbv zeta in *. set (a2 := s_io S (h ++ [WIo c1; WOpen path; WIo c2])) in *.
    destruct (N.eq_dec (wa_err a2) 0) as [O2|O2]; [|destruct (Z O2) as (_ & X); discriminate].
    destruct (Y O2) as (-> & id & Eid & Did). injection Eid as <- <-. subst g. eapply id_miniport; eauto.
  - destruct (winnvme_open S h hd) as (h3, q) eqn:E. apply pair_equal_spec in P as [-> P]. destruct q as [i| | |]; try discriminate. injection P as <-.
    cbn [wd_scsi wd_identity]. destruct (C94_winnvme_open S h hd g _ E) as (c & Eh & H1 & H2 & _ & _ & H3 & Y & Z). cbv zeta in *.
    destruct (N.eq_dec (wa_err (s_io S g)) 0) as [O|O]; [|pose proof (Z O); discriminate]. destruct (Y O) as (id & Eid & Did). injection Eid as <-. subst g.
    now apply id_query.
  - destruct (win_scsi_open S h hd (ad_data A h) (ad_bounce A h)) as (h3, q) eqn:E. apply pair_equal_spec in P as [-> P].
    destruct q as [i| | |]; try discriminate. injection P as <-. cbn [wd_scsi wd_identity].
    destruct (C90_scsi_open S h hd _ _ g _ A1 A2 A3 E) as (e & got & X & _ & R). destruct e; [discriminate|]. injection R as ->. now apply id_scsi.
  - destruct (win_ata_open S h hd (ad_data A h) (ad_bounce A h)) as (h3, q) eqn:E. apply pair_equal_spec in P as [-> P].
    destruct q as [i| | |]; try discriminate. injection P as <-. cbn [wd_scsi wd_identity].
    destruct (C90_ata_open S h hd _ _ g _ A1 A2 A3 E) as (c1 & rest & Eh & H1 & X). cbv zeta in X.
    pose proof (fill_delivered (wc_in c1) (wa_out (s_io S (h ++ [WIo c1])))) as D. destruct (X _ D) as (Y & _). destruct (Y i eq_refl) as (O & S0 & S3 & -> & Did).
    assert (Hc : wc_handle c1 = hd /\ wc_code c1 = 0x4d030).
    { unfold win_ata_open in E. destruct (win_ata S h hd false false win_identify_tf (a_data (new_aligned 512)) (ad_data A h) (ad_bounce A h) 10) as [hx rx] eqn:Ex.
      change (a_data (new_aligned 512)) with (zeros 512) in Ex. assert (Nz : zeros 512 <> []) by discriminate.
      pose proof (C85_ata_requests _ _ _ _ _ _ _ _ _ _ _ _ wf_identify A2 A3 Nz Ex) as (c & r & Eg & G1 & G2 & _).
      assert (H : hx = g). { destruct rx as [([z|], y)| | |]; cbn [finish_open] in E; apply pair_equal_spec in E as [E _]; exact E. }
      rewrite H, Eh in Eg. apply app_inv_head in Eg. injection Eg as <- _. auto. }
    subst g. eapply id_ata; try eassumption; apply Hc.
Qed.

(** What is known about a drive [x] opened with handle [hd] after [h]; opening took the history to [h']. *)
Definition known (S : wsys) (A : waddr) (h : whist) (hd : N) (h' : whist) (x : whandle) : Prop :=
  (* a driver: named; the texts are those of the identity it read from this very device, the TCG features those of its answer *)
  (exists k d h2 g id o, f_driver_name x = name_of k /\ (exists h1 b before after, win_basic_info S h hd = (h1, Ok b)
      /\ driver_order = before ++ k :: after /\ refused S A hd h1 before h2)
    /\ reads_identity S A hd h2 k (wd_scsi d) g id /\ texts_of_identity k id (p_info (f_dh x))
    /\ level0 S A hd d g k h' o
    /\ match o with Some ans => discovery_recorded (Some ans) (p_info (f_dh x)) | None => recorded_refusal k (p_info (f_dh x)) end)
  \/ (* no driver: no driver name, and the storage descriptor's texts *)
  (f_driver_name x = [] /\ f_driving x = 0 /\ exists h1 b h2 f, win_basic_info S h hd = (h1, Ok b) /\ refused S A hd h1 driver_order h2
    /\ fetch S hd 0x2d1400 (zeros 12) h2 h' f
    /\ match f with
       | Ok (buf, data) => trimmed_text data (field 16 4 buf) (i_model (p_info (f_dh x))) /\ trimmed_text data (field 24 4 buf) (i_serial (p_info (f_dh x)))
       | _ => texts (p_info (f_dh x)) = ([], [], [])
       end).

Theorem C141_what_is_known : forall S A h path h' x hd, answers_bytes S -> aligned_addr A -> s_open S (h ++ [WOpen path]) = inr hd ->
  win_open_by_path S A h path = (h', Ok x) -> i_path (p_info (f_dh x)) = path /\ known S A (h ++ [WOpen path]) hd h' x.
Proof.
  intros S A h path h' x hd WS HA Ho H. destruct (C105_open_by_path _ _ _ _ _ _ WS H) as [(_ & _ & e & E)|(_ & Y)]; [discriminate|].
  rewrite Ho in Y. destruct Y as [Y _]. destruct (C104_open_by_handle _ _ _ _ _ _ _ WS Y) as (h1 & disk & Eb & X).
  destruct disk as [b|e| |]; [|contradiction|now destruct X|contradiction].
  destruct X as [(before & k & after & h2 & d & h3 & Eq & Rf & Pr & Ek & _ & _ & [[E _]|(x' & cs & [= <-] & AB & Dr & _ & Id & _)])|(h2 & q & Rf & Q & X)]; [discriminate| |].
  - split; [apply AB|]. left.
    assert (Ac : accepted_by S A (h ++ [WOpen path]) hd k d h3) by (exists h1, b, before, after, h2; auto).
    destruct (C140_one_discovery _ _ _ _ _ _ _ _ _ _ (aligned_ok A HA) Ac Y) as (o & L & An).
    exists k, d, h2, h3, (wd_identity d), o. destruct Dr as (_ & _ & _ & Dr). split; [|split; [|split; [|split; [|split]]]].
    + rewrite Ek in Dr. destruct k; apply Dr.
    + exists h1, b, before, after. auto.
    + exact (probe_reads _ _ _ _ _ _ _ WS HA Pr).
    + unfold identified in Id. rewrite Ek in Id. destruct k; exact Id.
    + exact L.
    + destruct o as [ans|].
      * destruct An as [[_ E]|[_ (x' & cs' & [= <-] & _ & _ & P)]]; [discriminate|exact P].
      * destruct An as (x' & cs' & [= <-] & _ & _ & P). exact P.
  - assert (G : about_disk x path b /\ without_driver x).
    { destruct q as [de|e| |]; try discriminate; destruct X as (x' & [= <-] & AB & W & _); auto. }
    destruct G as (AB & W). split; [apply AB|]. right. split; [apply W|]. split; [apply W|].
    destruct (C103_storage_query _ _ _ _ _ Q) as (f & F & Z). exists h1, b, h2, f. split; [exact Eb|]. split; [exact Rf|]. split; [exact F|].
    destruct f as [(buf, data)|e| |].
    + cbv zeta in Z. destruct Z as [(E & ->)|[(E & L & O & ->)|[(E & L & O & de & -> & De)|(E & L & ->)]]]; try discriminate.
      destruct X as (x' & [= <-] & _ & _ & (Q1 & Q2 & _)). destruct De as (_ & _ & _ & _ & _ & E6 & _ & E8). rewrite Q1, Q2. auto.
    + subst q. destruct X as (x' & [= <-] & _ & _ & _ & U). exact U.
    + subst q. discriminate.
    + subst q. discriminate.
Qed.
Print Assumptions C141_what_is_known.

(** ---- EnumDrives ---- *)
Definition xgrows (h h' : xhist) : Prop := exists t, h' = h ++ t.
Lemma xgrows_refl h : xgrows h h. Proof. exists []. now rewrite app_nil_r. Qed.
Lemma xgrows_trans a b c : xgrows a b -> xgrows b c -> xgrows a c.
Proof. intros (s & ->) (t & ->). exists (s ++ t). apply app_assoc_reverse. Qed.
Lemma xgrows_app h t : xgrows h (h ++ t). Proof. now exists t. Qed.
Lemma asked_grows X d j h buf e size h' b' : asked X d j h buf e size h' b' -> xgrows h h'.
Proof.
  intros [? ? ? ? (-> & _) _|? ? ? ? ? ? ? ? (-> & _) _ (-> & _)]; [apply xgrows_app|].
  exact (xgrows_trans _ _ _ (xgrows_app _ _) (xgrows_app _ _)).
Qed.
Lemma open_xgrows X h p h' r : x_open_by_path X h p = (h', r) -> xgrows h h'.
Proof. unfold x_open_by_path. destruct (win_open_by_path _ _ _ _) as (w, q). intros [= <- _]. apply xgrows_app. Qed.
Lemma device_grows X d i h buf h' b' o : device X d i h buf h' b' o -> xgrows h h'.
Proof.
  intros [h1 _ _|e size h2 b2 h1 _ _ Ak _|size h2 b2 p h3 r h1 _ _ Ak _ O o' _].
  - apply xgrows_app.
  - exact (xgrows_trans _ _ _ (xgrows_app _ _) (asked_grows _ _ _ _ _ _ _ _ _ Ak)).
  - exact (xgrows_trans _ _ _ (xgrows_trans _ _ _ (xgrows_app _ _) (asked_grows _ _ _ _ _ _ _ _ _ Ak)) (open_xgrows _ _ _ _ _ O)).
Qed.

(** In the run ending in [h'], the drive [x] was opened by the path [p] that the system gave for one of its disk interfaces; [hd] is the
    handle it got, [w] what was done to open it. *)
Definition listed_from (X : xsys) (h' : xhist) (x : whandle) : Prop :=
  exists pre w post p hd, h' = pre ++ map XSys w ++ post
  /\ (exists d j h1 buf size b2, asked X d j h1 buf 0 size pre b2 /\ path_text X b2 (u32_minus size 4) p)
  /\ x_open X (pre ++ [XSys (WOpen p)]) = inr hd /\ i_path (p_info (f_dh x)) = p
  /\ known (wsys_at X pre) (waddr_at X pre) [WOpen p] hd w x.
Definition aligned_sys (X : xsys) : Prop := forall h, x_data X h mod 512 = 0 /\ x_data X h < 2 ^ 64 /\ x_bounce X h < 2 ^ 64.

Lemma listed_grows X h' h2 x : listed_from X h' x -> xgrows h' h2 -> listed_from X h2 x.
Proof. intros (pre & w & post & p & hd & -> & B) (t & ->). exists pre, w, (post ++ t), p, hd. split; [now rewrite <- !app_assoc|exact B]. Qed.
Lemma devices_listed X d : sane X -> aligned_sys X -> forall i h buf n h' b' xs, devices X d i h buf n h' b' xs -> xgrows h h' /\ Forall (listed_from X h') xs.
Proof.
  intros (S1 & _) HA i h buf n h' b' xs D. induction D as [i h buf|i h buf h1 b1 o n h2 b2 xs Dv D IH]; [split; [apply xgrows_refl|constructor]|].
  destruct IH as [G F]. split; [exact (xgrows_trans _ _ _ (device_grows _ _ _ _ _ _ _ _ Dv) G)|].
  destruct o as [x|]; [|exact F]. constructor; [|exact F]. eapply listed_grows; [|exact G].
  inversion Dv as [| |size g2 b' p g3 r g1 _ _ Ak Pt O o' Eo]; subst. clear Dv.
  destruct r as [y|e| |]; try contradiction; [|discriminate]. injection Eo as <-.
  assert (O' := O). unfold x_open_by_path in O'. destruct (win_open_by_path (wsys_at X g2) (waddr_at X g2) [] p) as (w, q) eqn:E. injection O' as <- ->.
  assert (WS : answers_bytes (wsys_at X g2)) by (intros k; apply S1).
  assert (WA : aligned_addr (waddr_at X g2)) by (intros k; apply HA).
  destruct (C105_open_by_path _ _ _ _ _ _ WS E) as [(_ & _ & e & Ee)|(_ & Y)]; [discriminate|].
  destruct (s_open (wsys_at X g2) ([] ++ [WOpen p])) as [e|hd] eqn:Eo; [now destruct Y|].
  destruct (C141_what_is_known _ _ _ _ _ _ _ WS WA Eo E) as (Ep & K).
  exists g2, w, [], p, hd. rewrite app_nil_r. split; [reflexivity|]. split; [eauto 10|]. split; [exact Eo|]. split; [exact Ep|exact K].
Qed.

Theorem C141_what_is_listed : forall X fuel h h' xs, sane X -> aligned_sys X -> win_enum_drives X fuel h = (h', Ok xs) -> Forall (listed_from X h') xs.
Proof.
  intros X fuel h h' xs Sa HA H. pose proof (C109_enum_drives _ _ _ _ _ Sa H ltac:(discriminate)) as T. cbv zeta in T.
  destruct (x_class X (h ++ [XClassDevs])) as [e|d]; [now destruct T|].
  destruct T as (n & h1 & b1 & ys & h2 & D & -> & [(Nm & [= <-])|(_ & E)]); [|discriminate].
  destruct (devices_listed X d Sa HA _ _ _ _ _ _ _ D) as [_ F]. refine (Forall_impl _ (fun x Hx => listed_grows X _ _ x Hx _) F).
  destruct Nm as [(_ & ->)|(_ & -> & _)]; rewrite <- app_assoc; apply xgrows_app.
Qed.
Print Assumptions C141_what_is_listed.

(** EnumDrives ends the program exactly over a device whose required path size is impossible or whose opening does (C140). *)
Theorem C141_enum_crashes : forall X fuel h h' d, sane X -> aligned_sys X -> x_class X (h ++ [XClassDevs]) = inr d -> win_enum_drives X fuel h = (h', Panic) ->
  exists n h1 b1 h2 ys, devices X d 0 (h ++ [XClassDevs]) (zeros 1024) n h1 b1 ys /\
  let j := N.of_nat n mod 2 ^ 32 in let g := h1 ++ [XDevInfo d n; XInterface d j] in
  ((exists size b, detail X d j g b1 122 size h2 b /\ (size = 0 \/ 2 ^ 32 - 1024 < size)) \/
   (exists size pre b2 p hd w, asked X d j g b1 0 size pre b2 /\ path_text X b2 (u32_minus size 4) p /\ x_open X (pre ++ [XSys (WOpen p)]) = inr hd
     /\ let S := wsys_at X pre in let A := waddr_at X pre in
        (layout_ends S [WOpen p] hd
         \/ (exists k d0 g0 ans, accepted_by S A [WOpen p] hd k d0 g0 /\ level0 S A hd d0 g0 k w (Some ans) /\ malformed ans)
         \/ (exists k1 b k2 f, win_basic_info S [WOpen p] hd = (k1, Ok b) /\ refused S A hd k1 driver_order k2 /\ fetch S hd 0x2d1400 (zeros 12) k2 w f
               /\ unreadable_descriptor f)))).
Proof.
  intros X fuel h h' d Sa HA C H. pose proof (C109_enum_drives _ _ _ _ _ Sa H ltac:(discriminate)) as T. cbv zeta in T. rewrite C in T.
  destruct T as (n & h1 & b1 & ys & h2 & D & _ & [(_ & E)|(P & _)]); [discriminate|]. exists n, h1, b1, h2, ys. split; [exact D|]. cbv zeta.
  destruct P as (_ & _ & [P|(size & g2 & b2 & p & Ak & Pt & O)]); [left; exact P|right].
  unfold x_open_by_path in O. destruct (win_open_by_path (wsys_at X g2) (waddr_at X g2) [] p) as (w, q) eqn:E. injection O as _ ->.
  assert (WS : answers_bytes (wsys_at X g2)) by (intros k; apply Sa).
  assert (WA : addr_ok (waddr_at X g2)) by (intros k; apply (HA (g2 ++ map XSys k))).
  destruct (C105_open_by_path _ _ _ _ _ _ WS E) as [(_ & _ & e & Ee)|(Np & Y)]; [discriminate|].
  destruct (s_open (wsys_at X g2) ([] ++ [WOpen p])) as [e|hd] eqn:Eo; [now destruct Y|].
  exists size, g2, b2, p, hd, w. split; [exact Ak|]. split; [exact Pt|]. split; [exact Eo|].
  destruct (C140_when_open_crashes _ _ _ _ _ _ _ WS WA Np Eo E) as [(L & _)|[(k & d0 & g0 & o & Ac & L & I & _)|(k1 & b & k2 & f & B & R & F & I & _)]].
  - left. exact L.
  - right. left. destruct (proj1 I eq_refl) as (ans & -> & M). exists k, d0, g0, ans. auto.
  - right. right. exists k1, b, k2, f. split; [exact B|]. split; [exact R|]. split; [exact F|]. now apply I.
Qed.
Print Assumptions C141_enum_crashes.
