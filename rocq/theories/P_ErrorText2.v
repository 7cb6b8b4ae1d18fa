(** The errors calls on a drive handle report. *)
From Verif Require Import Base M_Buffer M_Struc M_Layouts M_Strings M_Ata M_TcgDevice M_DriveHandle M_Cdb M_SgDriver M_SgHandle M_NvmeLinux M_LinuxInfo M_LinuxFactory.
From Verif Require Import Spec_LinuxVolume Spec_WinInfo Spec_WinNvme M_WinPass M_WinNvme P_WinNvme M_ErrorText Spec_ErrorText P_ErrorText.

Lemma task_reported k V p h rw dma t d secs h' e x : driver_of k V -> p_dh p = Some (driver_type k) ->
  ata_do_task_file_cmd V p h rw dma t d secs = (h', (Some e, x)) -> reported k h' e.
Proof.
  intros D T H. unfold ata_do_task_file_cmd in H. rewrite T in H. destruct (is_ata (driver_type k)) eqn:TA.
  - cbv zeta in H. destruct (v_io V _) as [e1 n] eqn:E in H. injection H as <- -> _. destruct (io_usual _ _ _ _ _ D E) as (bf & c & L & U).
    do 6 right. exists bf, c. split; [exact L|]. split; [exact U|]. destruct k as [| |[]]; try exact I; discriminate.
  - injection H as _ <- _. right. right. right. now left.
Qed.
Lemma nv_admins_errno K fd A : forall cs kh e b, snd (nv_admins K fd A kh cs) = (Some e, b) -> is_errno e.
Proof.
  induction cs as [|c cs IH]; intros kh e b H; cbn [nv_admins] in H; [discriminate|]. cbv zeta in H. destruct cs as [|c2 cs].
  - destruct c; try discriminate. destruct (nv_admin _ _ _ _ _) as [k1 [e1 c']] eqn:E. cbn [snd] in H. injection H as -> _. eapply (nv_admin_usual _ _ _ _ _ e c'). now rewrite E.
  - exact (IH _ _ _ H).
Qed.
Lemma log_loop_errno K fd A kh fuel : forall nsid logId rae size off data root cs d e,
  (forall x, root = Some x -> is_errno x) -> snd (log_page_loop (nv_admin_drv K fd A kh) fuel nsid logId rae size off data root cs) = Ok (d, Some e) -> is_errno e.
Proof.
  induction fuel as [|f IH]; intros nsid logId rae size off data root cs d e R H; cbn [log_page_loop] in H; destruct (_ <=? _) in H; try discriminate.
  - cbn [snd] in H. injection H as _ ->. now apply R.
  - cbn [snd] in H. injection H as _ ->. now apply R.
  - cbv zeta in H. match type of H with context [v_io ?V ?x] => destruct (v_io V x) as [[e1|] n] eqn:E in H end; [|discriminate].
    eapply IH; [|exact H]. intros x X. injection X as <-. eapply nv_admins_errno. exact E.
Qed.
Lemma log_reported k V p h nsid logId rae size h' b e : driver_of k V -> p_dh p = Some (driver_type k) ->
  nvme_get_log_page V p h nsid logId rae size = (h', (b, Some e)) -> reported k h' e.
Proof.
  intros D T H. unfold nvme_get_log_page in H. rewrite T in H. destruct (is_nvme (driver_type k)) eqn:TN; [|injection H as _ _ <-; right; right; right; now left].
  cbv zeta in H. injection H as _ H. destruct D as [K A kh id|K fd A kh id|S A d g]; cbn [v_log sg_drv nv_drv win_drv] in H; try rewrite last_snoc in H.
  - discriminate.
  - destruct (snd (nv_log_page _ _ _ _ _ _ _ _)) as [x| | |] eqn:E in H; try discriminate. subst x. unfold nv_log_page, nvme_get_log_page_by_admin_passthru in E.
    destruct (_ <? _)%Z in E; [discriminate|]. cbv zeta in E.
    match type of E with context [log_page_loop ?V ?f ?a ?b ?c ?s ?o ?dd ?r ?x] => destruct (log_page_loop V f a b c s o dd r x) as [cs q] eqn:L end.
    cbn [snd] in E. right. right. right. right. left. left. eapply log_loop_errno; [|rewrite L; exact E]. intros x X. discriminate.
  - destruct (wd_kind d); try (injection H as _ <-; do 4 right; left; right; now left).
    destruct (snd (winnvme_log_page _ _ _ _ _ _ _)) as [x| | |] eqn:E in H; try discriminate. subst x. unfold winnvme_log_page in E.
    destruct (_ <=? _)%Z in E; [discriminate|]. destruct (_ <? _)%Z in E; [discriminate|]. unfold win_same, win_io in E. cbv zeta in E.
    match type of E with context [win_result ?r] => destruct (win_result r) eqn:W in E end; cbn [snd] in E.
    + injection E as _ <-. do 4 right. left. left. eapply win_errno; exact W.
    + match type of E with context [if ?c then _ else _] => destruct c end; [|discriminate]. cbn [snd] in E. injection E as _ <-.
      do 5 right. left. eexists _, _. split; reflexivity.
Qed.
Lemma init_reported V p h h' p' e : init V p h = (h', (p', Err e)) -> e = EEOF \/ e = EUnexpectedEOF.
Proof.
  intros H. assert (T : forall p0 h0 h1 p1 x, init_tail V p0 h0 = (h1, (p1, Err x)) -> False).
  { intros p0 h0 h1 p1 x Hx. unfold init_tail in Hx. cbv zeta in Hx. destruct (tcg_discovery0 _ _ _) as [h2 [p2 r]]. destruct r; discriminate. }
  assert (N : forall i raw j x, init_nvme i raw = (j, Err x) -> x = EEOF \/ x = EUnexpectedEOF).
  { intros i raw j x Hx. unfold init_nvme in Hx. cbv zeta in Hx. destruct (struc_unpack _ _ _) eqn:U in Hx; try discriminate. injection Hx as _ <-. exact (unpack_error _ _ _ _ U). }
  assert (A : forall i raw j x, init_ata i raw = (j, Err x) -> x = EEOF \/ x = EUnexpectedEOF).
  { intros i raw j x Hx. unfold init_ata in Hx. cbv zeta in Hx. destruct (struc_unpack _ _ _) eqn:U in Hx; try discriminate. injection Hx as _ <-. exact (unpack_error _ _ _ _ U). }
  unfold init in H. cbv zeta in H. set (ty := match p_dh p with Some t => t | None => _ end) in H. clearbody ty.
  assert (Rest : forall h1 i1, (let '(h2, (i2, r2)) :=
      if is_nvme ty then (h1 ++ [CIdentity], init_nvme i1 (v_identity V (h1 ++ [CIdentity]))) else (h1, (i1, Ok tt)) in
    match r2 with Ok _ => init_tail V (with_info p i2) h2 | _ => (h2, (with_info p i2, r2)) end) = (h', (p', Err e)) -> e = EEOF \/ e = EUnexpectedEOF).
  { intros h1 i1 R. destruct (is_nvme ty).
    - destruct (init_nvme i1 _) as [i2 r2] eqn:E in R. destruct r2 as [[]|x| |]; try discriminate; [exfalso; exact (T _ _ _ _ _ R)|]. injection R as _ _ <-. exact (N _ _ _ _ E).
    - exfalso. exact (T _ _ _ _ _ R). }
  destruct (is_ata ty).
  - destruct (init_ata _ _) as [i1 r1] eqn:E in H. destruct r1 as [[]|x| |]; try discriminate; [exact (Rest _ _ H)|]. injection H as _ _ <-. exact (A _ _ _ _ E).
  - exact (Rest _ _ H).
Qed.
Lemma step_reported k V p h o h' p' out e : driver_of k V -> p_dh p = Some (driver_type k) ->
  hstep V p h o = (h', (p', out)) -> error_in out = Some e -> reported k h' e.
Proof.
  intros D T H E. destruct o; cbn [hstep] in H.
  - destruct (init V p h) as [h1 [p1 r]] eqn:I. injection H as <- <- <-. destruct r; try discriminate. injection E as ->.
    destruct (init_reported _ _ _ _ _ _ I) as [->| ->]; [now left|right; now left].
  - destruct (close p h). injection H as <- <- <-. discriminate.
  - unfold get_driving_type in H. rewrite T in H. injection H as <- <- <-. discriminate.
  - unfold get_driver_name in H. rewrite T in H. injection H as <- <- <-. discriminate.
  - destruct (tcg_discovery0 V p h) as [h1 [p1 r]] eqn:I. injection H as <- <- <-. destruct r; try discriminate. injection E as ->. exact (discovery_reported _ _ _ _ _ _ _ D T I).
  - destruct (security_command V p h _ _ _ _ _ _) as [h1 [e1 b]] eqn:I. injection H as <- <- <-. cbn in E. subst e1. exact (security_reported _ _ _ _ _ _ _ _ _ _ _ _ _ D T I).
  - destruct (ata_do_task_file_cmd V p h _ _ _ _ _) as [h1 [e1 b]] eqn:I. injection H as <- <- <-. cbn in E. subst e1. exact (task_reported _ _ _ _ _ _ _ _ _ _ _ _ D T I).
  - destruct (nvme_get_log_page V p h _ _ _ _) as [h1 [b e1]] eqn:I. injection H as <- <- <-. cbn in E. subst e1. exact (log_reported _ _ _ _ _ _ _ _ _ _ _ D T I).
Qed.
(** ---- texts as strings ---- *)
Lemma str_inj a : forall b, str a = str b -> a = b.
Proof.
  induction a as [|c a IH]; intros [|d b] H; try discriminate; [reflexivity|]. cbn [str] in H. injection H as H1 H2. f_equal; [|now apply IH].
  apply Nat2N.inj in H1. rewrite <- (Ascii.ascii_nat_embedding c), <- (Ascii.ascii_nat_embedding d). now rewrite H1.
Qed.
Lemma sprintf_head f args : hd 37 (str f) <> 37 -> hd 37 (sprintf f args) = hd 37 (str f).
Proof.
  unfold sprintf. destruct (str f) as [|c r]; cbn [hd]; [congruence|]. intros H. cbn [sprintf_from]. destruct (N.eqb_spec c 37); [contradiction|]. reflexivity.
Qed.
Lemma other_text f args (s : string) : hd 37 (str f) <> 37 -> hd 37 (str f) <> hd 37 (str s) -> sprintf f args <> str s.
Proof. intros H1 H2 E. apply (f_equal (hd 37)) in E. rewrite sprintf_head in E by exact H1. contradiction. Qed.
Lemma str_differ (a b : string) : String.eqb a b = false -> str a <> str b.
Proof. intros H E. apply str_inj in E. subst. rewrite String.eqb_refl in H. discriminate. Qed.
Lemma errno_text O c n : error_text O c (errno n) = O n.
Proof. reflexivity. Qed.
(** Comparing the full text with "not supported" gives what comparing the abbreviated one gives. *)
Lemma dparm_other k c msg st si :
  match k, c with
  | OnSg, CTask _ _ _ _ _ | OnWin KScsi, (CTask _ _ _ _ _ | CSec _ _ _ _ _ _) | OnWin KWinNvme, CSec _ _ _ _ _ _ => True
  | OnWin KAta, CTask _ _ _ _ _ => True | _, _ => False end ->
  dparm_message (site_of k c) msg st si <> str "not supported".
Proof.
  intros M. destruct k as [| |[]], c; try contradiction; unfold dparm_message, site_of; cbv zeta; (apply other_text; cbv; discriminate).
Qed.
Lemma text_agrees O k h' e : (forall n, O n <> str "not supported") -> reported k h' e ->
  (text_after O k h' e = str "not supported" <-> err_text e = "not supported"%string).
Proof.
  intros HO R. unfold text_after. set (s := match last_call h' with Some (_, c) => site_of k c | None => Elsewhere end).
  assert (Pl : plain e -> (error_text O s e = str "not supported" <-> err_text e = "not supported"%string)).
  { clearbody s. intros [[n ->]|[->| ->]].
    - rewrite errno_text. split; intros Y; [now apply HO in Y|discriminate Y].
    - split; reflexivity.
    - split; intros Y; [|discriminate Y]. exfalso. revert Y. apply str_differ. reflexivity. }
  assert (Ms : forall m : string, String.eqb m "not supported" = false -> (str m = str "not supported" <-> m = "not supported"%string)).
  { intros m Hm. split; intros Y; [now apply str_inj in Y|now subst]. }
  destruct R as [->|[->|[->|[->|[P|[(f & n & -> & ->)|(bf & c & L & U & Kn)]]]]]].
  - apply (Ms "EOF"%string). reflexivity.
  - apply (Ms "unexpected EOF"%string). reflexivity.
  - apply (Ms "invalid data: length overflow"%string). reflexivity.
  - apply (Ms "not supported in this driver"%string). reflexivity.
  - exact (Pl P).
  - split; intros Y; [|discriminate Y]. exfalso. revert Y. unfold error_text. apply other_text; cbv; discriminate.
  - destruct U as [P|(msg & st & si & -> & M)]; [exact (Pl P)|]. clear Pl. unfold s. rewrite L. unfold error_text, err_text. split; intros Y; exfalso.
    + revert Y. apply dparm_other. destruct k as [| |[]], c; tauto.
    + subst msg. destruct k as [| |[]], c; try contradiction; first [discriminate M | destruct M as [_ M]; discriminate M].
Qed.
