(** Lemmas for C157, C158: prolonging the system a handle sees; enumerations counted from where they start. *)
From Verif Require Import Base M_Buffer M_Struc M_Layouts M_Ata M_TcgDevice M_DriveHandle M_Cdb M_SgDriver M_SgHandle M_NvmeLinux M_Strings M_LinuxInfo M_LinuxFactory M_LinuxMachine
  Spec_Alone M_WinPass M_WinNvme M_WinInfo M_WinFactory M_WinEnum M_WinMachine P_DriveHandle P_LinuxMachine P_Alone P_Alone2 P_Alone3 P_Alone4 P_Alone5 Spec_AloneWin P_AloneWin P_AloneWin2.

Definition wsplice (own : whist) (S S' : wsys) : wsys := {| s_io := splice own (s_io S) (s_io S'); s_open := splice own (s_open S) (s_open S') |}.
Definition wsplice_addr (own : whist) (A A' : waddr) : waddr := {| ad_data := splice_addr own (ad_data A) (ad_data A'); ad_bounce := splice_addr own (ad_bounce A) (ad_bounce A') |}.
Lemma wsplice_old own S S' A A' n : (n <= List.length own)%nat -> wagree n [] (wsplice own S S') S (wsplice_addr own A A') A.
Proof. intros L. constructor; cbn [wsplice wsplice_addr s_io s_open ad_data ad_bounce]; (apply splice_old || apply splice_addr_old); exact L. Qed.
Lemma wsplice_new own S S' A A' n : wagree n own (wsplice own S S') S' (wsplice_addr own A A') A'.
Proof. constructor; cbn [wsplice wsplice_addr s_io s_open ad_data ad_bounce]; (apply splice_new || apply splice_addr_new). Qed.
Lemma splice_end {C R} (own : list C) (K K' : list C -> R) (P : C -> R -> Prop) : (forall k c, P c (K (k ++ [c]))) -> (forall k c, P c (K' (k ++ [c]))) -> forall k c, P c (splice own K K' (k ++ [c])).
Proof.
  intros H H' k c. unfold splice. destruct (Nat.leb_spec (List.length (k ++ [c])) (List.length own)) as [L|L]; [apply H|].
  rewrite skipn_app. rewrite app_length in L. cbn in L. replace (List.length own - List.length k)%nat with O by lia. apply H'.
Qed.
Lemma wanswers_at X g : wanswers_of X (wsys_at X g) (waddr_at X g).
Proof.
  unfold wanswers_of, wsys_at, waddr_at. cbn [s_io s_open ad_data ad_bounce]. repeat split; intros; try (eexists; reflexivity);
    exists (g ++ map XSys w); rewrite map_app, app_assoc; reflexivity.
Qed.
Lemma wanswers_splice X own S S' A A' : wanswers_of X S A -> wanswers_of X S' A' -> wanswers_of X (wsplice own S S') (wsplice_addr own A A').
Proof.
  intros (a & b & c & d) (a' & b' & c' & d'). unfold wanswers_of. cbn [wsplice wsplice_addr s_io s_open ad_data ad_bounce]. split; [|split; [|split]].
  - exact (splice_end own (s_io S) (s_io S') (fun e r => exists g, r = x_io X (g ++ [XSys e])) a a').
  - exact (splice_end own (s_open S) (s_open S') (fun e r => exists g, r = x_open X (g ++ [XSys e])) b b').
  - intros w. destruct (splice_addr_values own (ad_data A) (ad_data A') w) as [E|[k E]]; rewrite E; auto.
  - intros w. destruct (splice_addr_values own (ad_bounce A) (ad_bounce A') w) as [E|[k E]]; rewrite E; auto.
Qed.

(** ---- what opening leaves ---- *)
Definition opened_well (S : wsys) (A : waddr) (w : whist) (y : whandle) : Prop :=
  match f_drv y with Some (d, h, cs) => w = win_replay S A d h cs /\ p_dh (f_dh y) <> None | None => p_dh (f_dh y) = None end.
Lemma install_well S A h x d h1 y : win_install S A h x d = (h1, Ok y) -> opened_well S A h1 y.
Proof.
  unfold win_install. cbv zeta. set (p0 := {| p_dh := Some (win_dtype (wd_kind d)); p_info := p_info (f_dh x) |}).
  destruct (init (win_drv S A d h) p0 [CType; CName]) as [cs [p r]] eqn:K0. pose proof (init_keeps _ _ _ _ _ _ K0) as K.
  destruct r as [u|e| |]; intros E; try discriminate E; injection E as <- <-; unfold opened_well; cbn [f_drv f_dh]; (split; [reflexivity|]); rewrite K; discriminate.
Qed.
Lemma probes_well S A hd x ks : forall h h1 y, win_probes S A h hd x ks = (h1, Ok (Some y)) -> opened_well S A h1 y.
Proof.
  induction ks as [|k ks IH]; intros h h1 y; cbn [win_probes]; [discriminate|]. destruct (win_probe S A h hd k) as [h2 [d|e| |]]; try discriminate; [|apply IH].
  destruct (win_install S A h2 x d) as [h3 [z|e| |]] eqn:E; try discriminate. intros [= <- <-]. exact (install_well _ _ _ _ _ _ _ E).
Qed.
Lemma open_well S A path w y : win_open_by_path S A [] path = (w, Ok y) -> opened_well S A w y.
Proof.
  unfold win_open_by_path. destruct (existsb (N.eqb 0) path); [discriminate|]. destruct (open_device S [] path) as [h1 [e|hd]]; [discriminate|].
  destruct (win_open_by_handle S A h1 hd path) as [h2 [z|e| |]] eqn:E; try discriminate. intros [= <- <-]. unfold win_open_by_handle in E.
  destruct (win_basic_info S h1 hd) as [h3 [b|e| |]]; try discriminate E. cbv zeta in E.
  destruct (win_probes S A h3 hd (whandle0 path b) win_drivers) as [h4 [[v|]|e| |]] eqn:P; try discriminate E; [injection E as <- <-; exact (probes_well _ _ _ _ _ _ _ _ P)|].
  destruct (win_storage_query S h4 hd) as [h5 [q|e| |]]; try discriminate E; injection E as <- <-; reflexivity.
Qed.

(** ---- the invariant ---- *)
Definition alone_drv (S : wsys) (A : waddr) (y : whandle) : drv := match f_drv y with Some (d, h, _) => win_drv S A d h | None => mno_drv end.
Definition alone_calls (y : whandle) : dhist := match f_drv y with Some (_, _, cs) => cs | None => [] end.
Record walone (X : xsys) (path : bytes) (w : whist) (y : whandle) (x : mhandle) (calls : list hop) (rs : list reply) (done : xhist) (S : wsys) (A : waddr) (cs : dhist) : Prop := {
  wl_open : win_open_by_path S A [] path = (w, Ok y);
  wl_path : mh_path x = path;
  wl_from : wanswers_of X S A;
  wl_dev : match mh_dev x with Some d => (exists h c, f_drv y = Some (d, h, c)) /\ p_dh (mh_dh x) <> None | None => p_dh (mh_dh x) = None end;
  wl_calls : fst (hrun (alone_drv S A y) (f_dh y) (alone_calls y) calls) = cs;
  wl_state : fst (snd (hrun (alone_drv S A y) (f_dh y) (alone_calls y) calls)) = mh_dh x;
  wl_replies : replies (alone_drv S A y) (f_dh y) (alone_calls y) calls = rs;
  wl_done : exists later, done = map XSys later /\ match f_drv y with Some (d, h, _) => win_replay S A d h cs = w ++ later | None => later = [] end }.
Lemma walone_open X g path w y : win_open_by_path (wsys_at X g) (waddr_at X g) [] path = (w, Ok y) ->
  walone X path w y (mhandle_of path y) [] [] [] (wsys_at X g) (waddr_at X g) (alone_calls y).
Proof.
  intros E. pose proof (open_well _ _ _ _ _ E) as O. unfold opened_well in O. constructor; try reflexivity.
  - exact E.
  - apply wanswers_at.
  - unfold mhandle_of. cbn [mh_dev mh_dh]. destruct (f_drv y) as [[[d h] c]|]; [|exact O]. split; [eauto|exact (proj2 O)].
  - exists []. split; [reflexivity|]. unfold alone_calls. destruct (f_drv y) as [[[d h] c]|]; [|reflexivity]. rewrite app_nil_r. symmetry. exact (proj1 O).
Qed.
Lemma mcall_live X g x o d : mh_dev x = Some d -> o <> HClose -> let r := hstep (win_drv (wsys_at X g) (waddr_at X g) d []) (mh_dh x) [] o in
  mcall X g x o = (g ++ map XSys (win_replay (wsys_at X g) (waddr_at X g) d [] (fst r)), {| mh_path := mh_path x; mh_dh := fst (snd r); mh_dev := Some d |}).
Proof.
  intros H N. cbv zeta. unfold mcall. rewrite H. destruct o; try congruence; cbv zeta; match goal with |- context [hstep ?v ?p ?h ?q] => destruct (hstep v p h q) as [c [p1 r]] end; reflexivity.
Qed.
Definition driver_in (X : xsys) (g : xhist) (x : mhandle) : drv := match mh_dev x with Some d => win_drv (wsys_at X g) (waddr_at X g) d [] | None => mno_drv end.
Lemma wstep_live X g path w y x calls rs done S A cs o d : walone X path w y x calls rs done S A cs -> mh_dev x = Some d -> o <> HClose ->
  exists es S2 A2 cs2, fst (mcall X g x o) = g ++ es
    /\ walone X path w y (snd (mcall X g x o)) (calls ++ [o]) (rs ++ [reply_of (driver_in X g x) (mh_dh x) [] o]) (done ++ es) S2 A2 cs2.
Proof.
  intros [O Pa Fr Dv Hh Hp Hr Dn] N NC. rewrite (mcall_live X g x o _ N NC). cbn [fst snd]. unfold driver_in. rewrite N in *.
  destruct Dv as [(h & c0 & Fd) L]. destruct Dn as (later & -> & Rp). unfold alone_drv, alone_calls in *. rewrite Fd in *.
  set (S' := wsys_at X g) in *. set (A' := waddr_at X g) in *. set (own := w ++ later) in *. set (S2 := wsplice own S S'). set (A2 := wsplice_addr own A A').
  set (V := win_drv S A d h) in *. set (V2 := win_drv S2 A2 d h). set (V' := win_drv S' A' d []). set (fr := hstep V' (mh_dh x) [] o).
  assert (AG : wagree (List.length own) [] S2 S A2 A) by (apply wsplice_old, Nat.le_refl).
  assert (AN : forall n, wagree n own S2 S' A2 A') by (intros n; apply wsplice_new).
  assert (R1 : win_replay S2 A2 d h cs = own) by (rewrite <- Rp; apply (win_replay_sh (List.length own) [] S2 S A2 A d h cs AG); rewrite Rp; apply Nat.le_refl).
  assert (S1 : sees_upto V2 V [] cs) by (apply (win_drv_sees S2 S A2 A d h h [] cs []); [reflexivity|rewrite Rp; exact AG]).
  assert (S3 : sees_upto V2 V' cs (fst fr)) by (apply (win_drv_sees S2 S' A2 A' d h [] cs (fst fr) own); [rewrite app_nil_r; exact R1|apply AN]).
  assert (R2 : win_replay S2 A2 d h (cs ++ fst fr) = own ++ win_replay S' A' d [] (fst fr)).
  { rewrite win_replay_app, R1. pose proof (win_replay_sh _ own S2 S' A2 A' d [] (fst fr) (AN _) (Nat.le_refl _)) as E. rewrite app_nil_r in E. exact E. }
  destruct (run_more V V' V2 (f_dh y) c0 calls o cs Hh) as (Q1 & Q2 & Q3); [exact S1|rewrite Hp; exact S3|]. rewrite Hp in Q1, Q2, Q3. fold fr in Q1, Q2.
  exists (map XSys (win_replay S' A' d [] (fst fr))), S2, A2, (cs ++ fst fr). split; [reflexivity|].
  constructor; unfold alone_drv, alone_calls; rewrite ?Fd; cbn [mh_path mh_dh mh_dev].
  - apply (open_path_sh (List.length own) S2 S A2 A); [exact AG|exact O|]. unfold own. rewrite app_length. apply Nat.le_add_r.
  - exact Pa.
  - apply wanswers_splice; [exact Fr|apply wanswers_at].
  - split; [eauto|]. intros Z. apply L. rewrite <- (hstep_keeps V' (mh_dh x) o NC). exact Z.
  - exact Q1.
  - exact Q2.
  - fold V2. rewrite Q3, Hr. reflexivity.
  - exists (later ++ win_replay S' A' d [] (fst fr)). split; [now rewrite map_app|]. rewrite R2. unfold own. now rewrite app_assoc.
Qed.
Lemma wstep_close X g path w y x calls rs done S A cs d : walone X path w y x calls rs done S A cs -> mh_dev x = Some d ->
  exists es, fst (mcall X g x HClose) = g ++ es
    /\ walone X path w y (snd (mcall X g x HClose)) (calls ++ [HClose]) (rs ++ [reply_of (driver_in X g x) (mh_dh x) [] HClose]) (done ++ es) S A (cs ++ [CClose]).
Proof.
  intros [O Pa Fr Dv Hh Hp Hr Dn] N. unfold mcall, mclose, driver_in. rewrite N in *. cbn [fst snd]. exists (map XSys (close_handle [] (wd_handle d))). split; [reflexivity|].
  destruct Dv as [(h & c0 & Fd) L]. destruct (p_dh (mh_dh x)) as [ty|] eqn:T; [|congruence].
  constructor; cbn [mh_path mh_dh mh_dev]; try assumption.
  - reflexivity.
  - rewrite hrun_snoc. cbn [fst]. rewrite Hp, Hh. cbn [hstep]. unfold close. rewrite T. reflexivity.
  - rewrite hrun_snoc. cbn [fst snd]. rewrite Hp, Hh. cbn [hstep]. unfold close. rewrite T. reflexivity.
  - rewrite replies_snoc, Hr, Hp, Hh. unfold reply_of. cbn [hstep]. unfold close. rewrite T. reflexivity.
  - destruct Dn as (later & -> & Rp). exists (later ++ close_handle [] (wd_handle d)). split; [now rewrite map_app|]. rewrite Fd in *. rewrite win_replay_snoc, Rp. unfold win_one, win_exec, close_handle. cbn [fst app].
    now rewrite app_assoc.
Qed.
Lemma wstep_dead X g path w y x calls rs done S A cs o : walone X path w y x calls rs done S A cs -> mh_dev x = None ->
  fst (mcall X g x o) = g /\ walone X path w y (snd (mcall X g x o)) (calls ++ [o]) (rs ++ [reply_of (driver_in X g x) (mh_dh x) [] o]) done S A cs.
Proof.
  intros [O Pa Fr Dv Hh Hp Hr Dn] N. unfold driver_in. rewrite N in *.
  destruct (dead_same (alone_drv S A y) mno_drv (mh_dh x) cs [] o Dv) as (E1 & E2 & E3 & E4). rewrite E2 in E4.
  assert (ST : mcall X g x o = (g, {| mh_path := mh_path x; mh_dh := fst (snd (hstep mno_drv (mh_dh x) [] o)); mh_dev := None |})).
  { unfold mcall, mclose. rewrite N. destruct o; cbv zeta; try (match goal with |- context [hstep mno_drv (mh_dh x) [] ?q] => destruct (hstep mno_drv (mh_dh x) [] q) as [c [p r]] end; reflexivity).
    cbn [hstep]. unfold close. rewrite Dv. destruct x. cbn in N |- *. subst. reflexivity. }
  rewrite ST. cbn [fst snd]. split; [reflexivity|].
  constructor; cbn [mh_path mh_dh mh_dev]; try assumption.
  - rewrite hrun_snoc. cbn [fst]. rewrite Hp, Hh. exact E1.
  - rewrite hrun_snoc. cbn [fst snd]. rewrite Hp, Hh, E2. reflexivity.
  - rewrite replies_snoc, Hr, Hp, Hh, E3. reflexivity.
Qed.
Lemma wstep_any X g path w y x calls rs done S A cs o : walone X path w y x calls rs done S A cs ->
  exists es S2 A2 cs2, fst (mcall X g x o) = g ++ es
    /\ walone X path w y (snd (mcall X g x o)) (calls ++ [o]) (rs ++ [reply_of (driver_in X g x) (mh_dh x) [] o]) (done ++ es) S2 A2 cs2.
Proof.
  intros H. destruct (mh_dev x) as [d|] eqn:D.
  - assert (C : o = HClose \/ o <> HClose) by (destruct o; auto; right; discriminate). destruct C as [->|NC]; [|exact (wstep_live X g _ _ _ _ _ _ _ _ _ _ _ d H D NC)].
    destruct (wstep_close X g _ _ _ _ _ _ _ _ _ _ d H D) as (es & E & H2). exists es, S, A, (cs ++ [CClose]). auto.
  - destruct (wstep_dead X g _ _ _ _ _ _ _ _ _ _ o H D) as [E H2]. exists [], S, A, cs. rewrite !app_nil_r. auto.
Qed.

(** ---- enumerations ---- *)
(** Machine [X] with its history counted from [h0] on. *)
Definition xfrom (X : xsys) (h0 : xhist) : xsys :=
  {| x_io := fun h => x_io X (h0 ++ h); x_open := fun h => x_open X (h0 ++ h); x_data := fun h => x_data X (h0 ++ h); x_bounce := fun h => x_bounce X (h0 ++ h);
     x_class := fun h => x_class X (h0 ++ h); x_devinfo := fun h => x_devinfo X (h0 ++ h); x_iface := fun h => x_iface X (h0 ++ h); x_detail := fun h => x_detail X (h0 ++ h);
     x_mode := fun h => x_mode X (h0 ++ h); x_first := fun h => x_first X (h0 ++ h); x_next := fun h => x_next X (h0 ++ h); x_names := fun h => x_names X (h0 ++ h);
     x_info := fun h => x_info X (h0 ++ h); x_type := fun h => x_type X (h0 ++ h); x_vopen := fun h => x_vopen X (h0 ++ h); x_text := x_text X |}.
Lemma xfrom_answers X h0 : machine_answers_of X (xfrom X h0).
Proof. unfold machine_answers_of, same_answers. cbn. repeat split; intros; try (eexists; reflexivity); exists (h0 ++ h); rewrite app_assoc; reflexivity. Qed.
Lemma xopen_from X h0 h p : x_open_by_path X (h0 ++ h) p = (h0 ++ fst (x_open_by_path (xfrom X h0) h p), snd (x_open_by_path (xfrom X h0) h p)).
Proof.
  unfold x_open_by_path.
  set (S := wsys_at X (h0 ++ h)). set (A := waddr_at X (h0 ++ h)). set (S' := wsys_at (xfrom X h0) h). set (A' := waddr_at (xfrom X h0) h).
  destruct (win_open_by_path S' A' [] p) as [w r] eqn:E. cbn [fst snd].
  assert (AG : wagree (List.length w) [] S S' A A') by (constructor; intros k _; unfold S, S', A, A', wsys_at, waddr_at, xfrom; cbn; now rewrite app_assoc).
  rewrite (open_path_sh _ S S' A A' [] p w r AG E (Nat.le_refl _)). now rewrite app_assoc.
Qed.
Lemma detail_from X h0 h d i buf : get_detail X (h0 ++ h) d i buf = (h0 ++ fst (get_detail (xfrom X h0) h d i buf), snd (get_detail (xfrom X h0) h d i buf)).
Proof. unfold get_detail. cbv zeta. cbn [xfrom x_detail]. rewrite <- app_assoc. destruct (x_detail X _) as [e [o z]]. reflexivity. Qed.
Lemma dpath_from X h0 h d i buf : device_path X (h0 ++ h) d i buf = (h0 ++ fst (device_path (xfrom X h0) h d i buf), snd (device_path (xfrom X h0) h d i buf)).
Proof.
  unfold device_path. rewrite detail_from. destruct (get_detail (xfrom X h0) h d i buf) as [h1 [e1 [b1 s1]]]. cbn [fst snd]. cbv zeta. change (detail_path (xfrom X h0)) with (detail_path X).
  destruct (e1 =? 122).
  - destruct (round_1024 s1 =? 0); [reflexivity|]. rewrite detail_from. destruct (get_detail (xfrom X h0) h1 d i _) as [h2 [e2 [b2 s2]]]. cbn [fst snd]. destruct (e2 =? 0); reflexivity.
  - destruct (e1 =? 0); reflexivity.
Qed.
Lemma devices_from X h0 d fuel : forall h i buf xs, enum_devices X fuel (h0 ++ h) d i buf xs = (h0 ++ fst (enum_devices (xfrom X h0) fuel h d i buf xs), snd (enum_devices (xfrom X h0) fuel h d i buf xs)).
Proof.
  induction fuel as [|f IH]; intros h i buf xs; cbn [enum_devices]; [reflexivity|]. cbv zeta. rewrite <- !app_assoc. cbn [xfrom x_devinfo x_iface]. fold (xfrom X h0).
  destruct (negb (x_devinfo X (h0 ++ h ++ [XDevInfo d i]))); [reflexivity|]. cbn [app].
  match goal with |- context [x_iface X ?k] => destruct (x_iface X k =? 259); [|destruct (negb (x_iface X k =? 0)); [reflexivity|]] end; [apply IH|].
  rewrite dpath_from. match goal with |- context [device_path (xfrom X h0) ?k ?a ?b ?c] => destruct (device_path (xfrom X h0) k a b c) as [h3 [b1 r]] end. cbn [fst snd].
  destruct r as [[p|]|e| |]; try reflexivity; [|apply IH]. rewrite xopen_from. destruct (x_open_by_path (xfrom X h0) h3 p) as [h4 [x|e| |]]; cbn [fst snd]; try reflexivity; apply IH.
Qed.
Lemma closes_from h0 xs : forall h, fold_left x_close xs (h0 ++ h) = h0 ++ fold_left x_close xs h.
Proof. induction xs as [|x xs IH]; intros h; cbn [fold_left]; [reflexivity|]. unfold x_close at 2 4. rewrite <- app_assoc. apply IH. Qed.
Lemma drives_from X h0 fuel h : win_enum_drives X fuel (h0 ++ h) = (h0 ++ fst (win_enum_drives (xfrom X h0) fuel h), snd (win_enum_drives (xfrom X h0) fuel h)).
Proof.
  unfold win_enum_drives. cbv zeta. rewrite <- app_assoc. cbn [xfrom x_class]. fold (xfrom X h0). destruct (x_class X _) as [e|d]; [reflexivity|]. rewrite devices_from.
  destruct (enum_devices (xfrom X h0) fuel _ d 0 _ []) as [h2 [xs r]]. cbn [fst snd]. rewrite closes_from, <- app_assoc. destruct r; reflexivity.
Qed.
Lemma part_from X h0 h hd e : partition_info X (h0 ++ h) hd e = (h0 ++ fst (partition_info (xfrom X h0) h hd e), snd (partition_info (xfrom X h0) h hd e)).
Proof. unfold partition_info. cbv zeta. cbn [xfrom x_io]. rewrite <- app_assoc. destruct (wa_err _ =? 0); reflexivity. Qed.
Lemma mounts_from X h0 fuel : forall buf pos acc, mount_loop (xfrom X h0) fuel buf pos acc = mount_loop X fuel buf pos acc.
Proof. induction fuel as [|f IH]; intros; cbn [mount_loop]; [reflexivity|]. destruct (nth_error buf pos) as [u|]; [|reflexivity]. destruct (u =? 0); [reflexivity|]. apply IH. Qed.
Lemma item_from X h0 h name b : volume_item X (h0 ++ h) name b = (h0 ++ fst (volume_item (xfrom X h0) h name b), snd (volume_item (xfrom X h0) h name b)).
Proof.
  unfold volume_item. cbv zeta. rewrite <- !app_assoc. cbn [xfrom x_names x_info x_type x_vopen x_io x_text app]. fold (xfrom X h0).
  match goal with |- context [match x_names X ?k with _ => _ end] => assert (M : forall z : xsys, match x_names X k with Some (us, len) => if 0 <? len then mount_loop (xfrom X h0) (S (List.length (fill (zeros (N.to_nat 4096)) us))) (fill (zeros (N.to_nat 4096)) us) 0 [] else Ok [] | None => Ok [] end
    = match x_names X k with Some (us, len) => if 0 <? len then mount_loop X (S (List.length (fill (zeros (N.to_nat 4096)) us))) (fill (zeros (N.to_nat 4096)) us) 0 [] else Ok [] | None => Ok [] end) by (intros _; destruct (x_names X k) as [[us len]|]; [destruct (0 <? len); [apply mounts_from|reflexivity]|reflexivity]) end.
  rewrite (M X). clear M. match goal with |- context [match ?m with Ok ms => _ | Err x => _ | Panic => _ | Fuel => _ end] => destruct m as [ms|e| |] end; try reflexivity.
  match goal with |- context [x_vopen X ?k] => destruct (x_vopen X k) as [e|hd]; [reflexivity|] end.
  rewrite <- !app_assoc. cbn [app].
  match goal with |- context [wa_err ?k =? 0] => destruct (wa_err k =? 0); [|reflexivity] end.
  match goal with |- context [extents_loop ?a ?b ?c] => destruct (extents_loop a b c) as [[|e es]|e| |] end; try reflexivity.
  rewrite part_from. match goal with |- context [partition_info (xfrom X h0) ?k hd e] => destruct (partition_info (xfrom X h0) k hd e) as [h6 p] end. reflexivity.
Qed.
Lemma vloop_from X h0 f fuel : forall h name b vs hs, volume_loop X fuel (h0 ++ h) f name b vs hs = (h0 ++ fst (volume_loop (xfrom X h0) fuel h f name b vs hs), snd (volume_loop (xfrom X h0) fuel h f name b vs hs)).
Proof.
  induction fuel as [|n IH]; intros h name b vs hs; cbn [volume_loop]; [reflexivity|]. rewrite item_from. destruct (volume_item (xfrom X h0) h name b) as [h1 [o r]]. cbn [fst snd]. cbv zeta.
  destruct r as [[v b1]|e| |]; try reflexivity. rewrite <- app_assoc. cbn [xfrom x_next]. fold (xfrom X h0). destruct (x_next X _) as [e|us]; [reflexivity|]. apply IH.
Qed.
Lemma volumes_from X h0 fuel h : win_enum_volumes X fuel (h0 ++ h) = (h0 ++ fst (win_enum_volumes (xfrom X h0) fuel h), snd (win_enum_volumes (xfrom X h0) fuel h)).
Proof.
  unfold win_enum_volumes. cbv zeta. rewrite <- !app_assoc. cbn [xfrom x_mode x_first app]. fold (xfrom X h0). destruct (x_first X _) as [e|[f us]]; [reflexivity|].
  rewrite vloop_from. match goal with |- context [volume_loop (xfrom X h0) ?a ?b ?c ?d ?e ?g ?i] => destruct (volume_loop (xfrom X h0) a b c d e g i) as [h3 [hs r]] end. cbn [fst snd]. rewrite <- app_assoc. destruct r; reflexivity.
Qed.
