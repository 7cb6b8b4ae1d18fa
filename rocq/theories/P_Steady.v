(** Lemmas for C145. *)
From Verif Require Import Base M_Buffer M_Struc M_Layouts M_Ata M_TcgDevice M_DriveHandle M_Cdb M_SgDriver M_SgHandle M_NvmeLinux M_Strings M_LinuxInfo M_LinuxFactory M_LinuxSystem Spec_Steady.

(** neither a log page is read nor the driver closed *)
Definition no_log (c : dcall) : Prop := match c with CLogPage _ _ _ _ | CClose => False | _ => True end.
Record drv_like (V V' : drv) : Prop := {
  like_io : forall cs, Forall no_log cs -> v_io V cs = v_io V' cs;
  like_identity : forall cs, v_identity V cs = v_identity V' cs;
  like_type : forall cs, v_type V cs = v_type V' cs;
  like_name : forall cs, v_name V cs = v_name V' cs }.

Lemma no_log_app h l : Forall no_log h -> Forall no_log l -> Forall no_log (h ++ l).
Proof. intros; apply Forall_app; auto. Qed.
Lemma sec_like V V' p h rw dma pr c b t : drv_like V V' -> Forall no_log h ->
  security_command V p h rw dma pr c b t = security_command V' p h rw dma pr c b t.
Proof.
  intros L H. unfold security_command. destruct (p_dh p) as [ty|]; [|reflexivity]. cbv zeta.
  rewrite <- (like_io _ _ L) by (apply no_log_app; [exact H|repeat constructor]).
  destruct (v_io V _) as [[e|] new]; [|reflexivity].
  destruct (is_ata ty); [|destruct (is_nvme ty); [|reflexivity]];
    (rewrite <- (like_io _ _ L) by (repeat apply no_log_app; [exact H|repeat constructor..])); reflexivity.
Qed.
Lemma disc_like V V' p h : drv_like V V' -> Forall no_log h -> tcg_discovery0 V p h = tcg_discovery0 V' p h.
Proof. intros L H. unfold tcg_discovery0. now rewrite (sec_like V V' p h) by assumption. Qed.
Lemma init_like V V' p h : drv_like V V' -> Forall no_log h -> init V p h = init V' p h.
Proof.
  intros L H. unfold init. cbv zeta.
  set (ty := match p_dh p with Some t => t | None => _ end).
  assert (T : forall q k, Forall no_log k -> init_tail V q k = init_tail V' q k) by (intros q k Hk; unfold init_tail; now rewrite (disc_like V V') by assumption).
  assert (N1 : forall k, Forall no_log k -> Forall no_log (k ++ [CIdentity])) by (intros k Hk; apply no_log_app; [exact Hk|repeat constructor]).
  destruct (is_ata ty).
  - rewrite <- (like_identity _ _ L). destruct (init_ata _ _) as [i1 r1]. destruct r1; try reflexivity.
    destruct (is_nvme ty).
    + rewrite <- (like_identity _ _ L). destruct (init_nvme _ _) as [i2 r2]. destruct r2; try reflexivity. apply T. auto.
    + apply T; auto.
  - destruct (is_nvme ty).
    + rewrite <- (like_identity _ _ L). destruct (init_nvme _ _) as [i2 r2]. destruct r2; try reflexivity. apply T. auto.
    + apply T; auto.
Qed.

(** handles that differ only in the descriptor and in the driver behind it *)
Definition like (x x' : handle) : Prop := report x = report x' /\ l_calls x = l_calls x' /\ p_dh (l_dh x) = p_dh (l_dh x').
Definition opened_like (a b : err + opened) : Prop :=
  match a, b with inl _, inl _ => True | inr o, inr o' => o_type o = o_type o' /\ drv_like (o_drv o) (o_drv o') | _, _ => False end.
Lemma report_fields x x' : report x = report x' -> p_info (l_dh x) = p_info (l_dh x') /\ l_driving x = l_driving x' /\ l_driver_name x = l_driver_name x' /\ l_removable x = l_removable x'
  /\ l_style x = l_style x' /\ l_gpt x = l_gpt x' /\ l_mbr x = l_mbr x' /\ l_capacity x = l_capacity x' /\ l_vendor x = l_vendor x'.
Proof. unfold report. intros H. injection H. intros. repeat split; assumption. Qed.
Lemma install_like x x' o o' : report x = report x' -> o_type o = o_type o' -> drv_like (o_drv o) (o_drv o') ->
  report (fst (install x o)) = report (fst (install x' o')) /\ snd (install x o) = snd (install x' o').
Proof.
  intros R T L. destruct (report_fields _ _ R) as (R1 & R2 & R3 & R4 & R5 & R6 & R7 & R8 & R9). unfold install. cbv zeta. rewrite <- T, <- R1.
  rewrite <- (init_like (o_drv o) (o_drv o')) by (auto; repeat constructor).
  rewrite <- (like_type _ _ L), <- (like_name _ _ L). destruct (init _ _ _) as [calls [p' r]]. cbn [fst snd]. unfold report. cbn [l_dh l_driving l_driver_name l_removable l_style l_gpt l_mbr l_capacity l_vendor].
  rewrite R4, R5, R6, R7, R8, R9. auto.
Qed.

(** ---- the NVMe driver on two descriptors of the same device ---- *)
Definition nsim (k k' : nv_hist) : Prop := map nv_seen k = map nv_seen k'.
Lemma nv_seen_admin fd fd' req a1 a2 a3 a4 a5 a6 a7 ad ad' a8 a9 b1 b2 b3 b4 b5 b6 b7 b8 buf :
  nv_seen {| nc_fd := fd; nc_req := req; nc_arg := passthru_mem a1 a2 a3 a4 a5 a6 a7 ad a8 a9 b1 b2 b3 b4 b5 b6 b7 b8; nc_buf := buf |}
  = nv_seen {| nc_fd := fd'; nc_req := req; nc_arg := passthru_mem a1 a2 a3 a4 a5 a6 a7 ad' a8 a9 b1 b2 b3 b4 b5 b6 b7 b8; nc_buf := buf |}.
Proof. unfold nv_seen. cbn [nc_req nc_arg nc_buf]. reflexivity. Qed.
Lemma nv_admin_sim K K' D k k' fd fd' c a a' : (forall l, K l = D (map nv_seen l)) -> (forall l, K' l = D (map nv_seen l)) -> nsim k k' ->
  nsim (fst (nv_admin K k fd c a)) (fst (nv_admin K' k' fd' c a')) /\ snd (nv_admin K k fd c a) = snd (nv_admin K' k' fd' c a').
Proof.
  intros HK HK' S. unfold nv_admin, nv_ioctl. cbv zeta. cbn [fst snd nc_arg nc_buf].
  assert (E : map nv_seen (k ++ [{| nc_fd := fd; nc_req := NVME_IOCTL_ADMIN_CMD; nc_arg := passthru_mem (c_opcode c) (c_flags c) (c_rsvd1 c) (c_nsid c) (c_cdw2 c) (c_cdw3 c) (c_metadata c)
               (admin_data_addr c a) (c_metadata_len c) (c_data_len c) (c_cdw10 c) (c_cdw11 c) (c_cdw12 c) (c_cdw13 c) (c_cdw14 c) (c_cdw15 c) (c_timeout_ms c) (c_result c); nc_buf := passed_buffer c |}])
           = map nv_seen (k' ++ [{| nc_fd := fd'; nc_req := NVME_IOCTL_ADMIN_CMD; nc_arg := passthru_mem (c_opcode c) (c_flags c) (c_rsvd1 c) (c_nsid c) (c_cdw2 c) (c_cdw3 c) (c_metadata c)
               (admin_data_addr c a') (c_metadata_len c) (c_data_len c) (c_cdw10 c) (c_cdw11 c) (c_cdw12 c) (c_cdw13 c) (c_cdw14 c) (c_cdw15 c) (c_timeout_ms c) (c_result c); nc_buf := passed_buffer c |}])).
  { rewrite !map_app. unfold nsim in S. rewrite S. reflexivity. }
  split; [exact E|]. rewrite HK, HK', E. reflexivity.
Qed.
Lemma nv_exec_sim K K' D k k' fd fd' A A' c : (forall l, K l = D (map nv_seen l)) -> (forall l, K' l = D (map nv_seen l)) -> nsim k k' -> no_log c ->
  nsim (fst (nv_exec K fd A k c)) (fst (nv_exec K' fd' A' k' c)) /\ snd (nv_exec K fd A k c) = snd (nv_exec K' fd' A' k' c).
Proof.
  intros HK HK' S Nl. destruct c as [| |cmd| | | | |]; cbn [nv_exec nv_security fst snd]; auto; [|contradiction].
  destruct (nv_admin_sim K K' D k k' fd fd' cmd (A k) (A' k') HK HK' S) as [S1 E1].
  destruct (nv_admin K k fd cmd (A k)) as [k1 [e c1]]. destruct (nv_admin K' k' fd' cmd (A' k')) as [k1' [e' c1']]. cbn [fst snd] in *. injection E1 as -> ->. auto.
Qed.
Lemma nv_replay_sim K K' D fd fd' A A' : (forall l, K l = D (map nv_seen l)) -> (forall l, K' l = D (map nv_seen l)) ->
  forall cs k k', nsim k k' -> Forall no_log cs -> nsim (nv_replay K fd A k cs) (nv_replay K' fd' A' k' cs).
Proof.
  intros HK HK'. induction cs as [|c cs IH]; intros k k' S F; [exact S|]. inversion F; subst. unfold nv_replay. cbn [fold_left].
  apply IH; [|assumption]. now apply (nv_exec_sim K K' D).
Qed.
Lemma probe_nvme_like S S' h h' n n' fd fd' M M' path : steady S M -> steady S' M' -> same_device M M' path ->
  refers (sy_world S) h fd path -> refers (sy_world S') h' fd' path ->
  opened_like (probe_nvme S (h ++ [LProbe n fd]) fd) (probe_nvme S' (h' ++ [LProbe n' fd']) fd').
Proof.
  intros (_ & _ & _ & _ & _ & HN & _) (_ & _ & _ & _ & _ & HN' & _) (_ & _ & _ & _ & E & _) R R'.
  pose proof (HN h n fd path R) as HK. assert (HK' : forall l, sy_nvme S' (h' ++ [LProbe n' fd']) l = mc_nvme M path (map nv_seen l)) by (intros l; rewrite E; now apply HN').
  clear HN HN'. unfold probe_nvme. cbv zeta. set (K := sy_nvme S _) in *. set (K' := sy_nvme S' _) in *.
  set (A := sy_nvme_addr S _). set (A' := sy_nvme_addr S' _). set (D := mc_nvme M path) in *.
  unfold nv_open. destruct (nv_admin_sim K K' D [] [] fd fd' identify_cmd (A []) (A' []) HK HK' eq_refl) as [S1 E1].
  destruct (nv_admin K [] fd identify_cmd (A [])) as [k1 [e c1]]. destruct (nv_admin K' [] fd' identify_cmd (A' [])) as [k1' [e' c1']]. cbn [fst snd] in *. injection E1 as -> ->.
  destruct e' as [x|]; [exact I|]. destruct (negb (blen (c_data c1') =? 4096)); [exact I|]. split; [reflexivity|]. cbn [o_drv].
  constructor; try reflexivity. intros cs F. cbn [nv_drv v_io]. unfold last_call. destruct (rev cs) as [|c r] eqn:Er; [reflexivity|].
  assert (F' : Forall no_log (rev r ++ [c])) by (change (rev r ++ [c]) with (rev (c :: r)); rewrite <- Er, rev_involutive; exact F). apply Forall_app in F' as [F1 F2]. inversion F2; subst.
  apply (nv_exec_sim K K' D); auto. now apply (nv_replay_sim K K' D).
Qed.

(** ---- the SG driver ---- *)
Lemma aligned_same a a' : (a mod 512 =? 0) = (a' mod 512 =? 0) -> is_aligned_pointer 512 a = is_aligned_pointer 512 a'.
Proof. intros E. unfold is_aligned_pointer. cbn. now rewrite E. Qed.
Lemma sg_tries_like K K' k mk rw data a a' : (forall l, K l = K' l) -> (a mod 512 =? 0) = (a' mod 512 =? 0) ->
  sg_tries K k mk rw data a = sg_tries K' k mk rw data a'.
Proof.
  intros HK E. assert (HI : forall k c s, sg_ioctl K k c s = sg_ioctl K' k c s) by (intros; unfold sg_ioctl; now rewrite HK).
  unfold sg_tries. cbv zeta. destruct data as [[|b d]|].
  - reflexivity.
  - rewrite (aligned_same a a' E). destruct (is_aligned_pointer 512 a') as [[]| | |]; try reflexivity; rewrite HI;
      destruct (sg_ioctl K' k _ _) as [h1 [[e|] [mem s1]]]; try reflexivity; now rewrite HI.
  - rewrite HI. destruct (sg_ioctl K' k _ _) as [h1 [[e|] [mem s1]]]; try reflexivity; now rewrite HI.
Qed.
Lemma sg_exec_like K K' A A' k c : (forall l, K l = K' l) -> (forall l, (A l mod 512 =? 0) = (A' l mod 512 =? 0)) -> sg_exec K A k c = sg_exec K' A' k c.
Proof.
  intros HK HA. destruct c; cbn [sg_exec]; try reflexivity.
  - unfold sg_security. now rewrite (sg_tries_like K K' k _ _ _ (A k) (A' k) HK (HA k)).
  - unfold sg_task_file. now rewrite (sg_tries_like K K' k _ _ _ (A k) (A' k) HK (HA k)).
Qed.
Lemma sg_replay_like K K' A A' : (forall l, K l = K' l) -> (forall l, (A l mod 512 =? 0) = (A' l mod 512 =? 0)) ->
  forall cs k, sg_replay K A k cs = sg_replay K' A' k cs.
Proof. intros HK HA. induction cs as [|c cs IH]; intros k; [reflexivity|]. unfold sg_replay. cbn [fold_left]. rewrite (sg_exec_like K K' A A') by assumption. apply IH. Qed.
Lemma probe_sg_like S S' h h' n n' fd fd' M M' path : steady S M -> steady S' M' -> same_device M M' path ->
  refers (sy_world S) h fd path -> refers (sy_world S') h' fd' path ->
  opened_like (probe_sg S (h ++ [LProbe n fd])) (probe_sg S' (h' ++ [LProbe n' fd'])).
Proof.
  intros (_ & _ & _ & _ & _ & _ & HG & HA) (_ & _ & _ & _ & _ & _ & HG' & HA') (_ & _ & _ & _ & _ & E) R R'.
  assert (HK : forall l, sy_sg S (h ++ [LProbe n fd]) l = sy_sg S' (h' ++ [LProbe n' fd']) l) by (intros l; rewrite (HG _ _ _ _ R), (HG' _ _ _ _ R'); apply E).
  assert (HB : forall l, (sy_sg_addr S (h ++ [LProbe n fd]) l mod 512 =? 0) = (sy_sg_addr S' (h' ++ [LProbe n' fd']) l mod 512 =? 0)) by (intros l; now rewrite HA, HA').
  unfold probe_sg. cbv zeta. set (K := sy_sg S _) in *. set (K' := sy_sg S' _) in *. set (A := sy_sg_addr S _) in *. set (A' := sy_sg_addr S' _) in *.
  assert (Eo : sg_open K [] (A []) = sg_open K' [] (A' [])) by (unfold sg_open, sg_task_file; now rewrite (sg_tries_like K K' [] _ _ _ (A []) (A' []) HK (HB []))).
  rewrite Eo. destruct (sg_open K' [] (A' [])) as [kh [id| | |]]; try exact I. split; [reflexivity|]. cbn [o_drv].
  constructor; try reflexivity. intros cs _. cbn [sg_drv v_io]. destruct (sg_current cs) as [[before c]|]; [|reflexivity].
  now rewrite (sg_replay_like K K' A A'), (sg_exec_like K K' A A') by assumption.
Qed.

(** ---- opening a path ---- *)
Lemma refers_step W h e fd path : refers W h fd path -> match e with LOpen _ => False | LClose _ => False | _ => True end -> refers W (h ++ [e]) fd path.
Proof. intros R H. apply refers_old; [exact R| |]; destruct e; try contradiction; try discriminate; intros q Q; discriminate Q. Qed.
Lemma probe_at S h n fd : w_probe (linux S) (h ++ [LProbe n fd]) = match n with O => probe_nvme S (h ++ [LProbe n fd]) fd | _ => probe_sg S (h ++ [LProbe n fd]) end.
Proof. cbn [linux w_probe]. rewrite rev_app_distr. cbn [rev app]. destruct n; reflexivity. Qed.
Lemma probe_loop_like S S' M M' path fd fd' : steady S M -> steady S' M' -> same_device M M' path ->
  forall k n h h' x x', refers (sy_world S) h fd path -> refers (sy_world S') h' fd' path -> report x = report x' ->
  seen report (snd (probe_loop (linux S) h fd x n k)) = seen report (snd (probe_loop (linux S') h' fd' x' n k)).
Proof.
  intros HS HS' HD. induction k as [|k IH]; intros n h h' x x' R R' E; cbn [probe_loop]; [cbn; now rewrite E|].
  assert (R1 : refers (sy_world S) (h ++ [LProbe n fd]) fd path) by (now apply refers_step).
  assert (R1' : refers (sy_world S') (h' ++ [LProbe n fd']) fd' path) by (now apply refers_step).
  assert (L : opened_like (w_probe (linux S) (h ++ [LProbe n fd])) (w_probe (linux S') (h' ++ [LProbe n fd']))).
  { rewrite !probe_at. destruct n; [eapply probe_nvme_like|eapply probe_sg_like]; eassumption. }
  destruct (w_probe (linux S) _) as [e|o], (w_probe (linux S') _) as [e'|o']; try contradiction; [now apply IH|].
  destruct L as [T L]. destruct (install_like x x' o o' E T L) as [E1 E2].
  destruct (install x o) as [x1 r1], (install x' o') as [x1' r1']. cbn [fst snd] in *. subst r1'. destruct r1; try reflexivity; now apply IH.
Qed.
Lemma open_like S S' M M' h h' path : steady S M -> steady S' M' -> same_device M M' path ->
  seen report (snd (open_by_path (linux S) h path)) = seen report (snd (open_by_path (linux S') h' path)).
Proof.
  intros HS HS' HD. unfold open_by_path. cbn [linux w_open].
  pose proof HS as (_ & _ & HO & HB & HI & _). pose proof HS' as (_ & _ & HO' & HB' & HI' & _). pose proof HD as (_ & EO & EB & EI & _).
  specialize (HO h path). specialize (HO' h' path). rewrite <- EO in HO'. destruct (mc_open M path) as [e|]; [now rewrite HO, HO'|].
  destruct HO as (fd & HO). destruct HO' as (fd' & HO'). rewrite HO, HO'.
  assert (R : refers (sy_world S) (h ++ [LOpen path]) fd path) by (now apply refers_new).
  assert (R' : refers (sy_world S') (h' ++ [LOpen path]) fd' path) by (now apply refers_new).
  assert (G : seen report (snd (open_by_fd (linux S) (h ++ [LOpen path]) fd path)) = seen report (snd (open_by_fd (linux S') (h' ++ [LOpen path]) fd' path))).
  { unfold open_by_fd. cbv zeta. cbn [linux w_basic w_ids]. rewrite (HB _ _ _ R), (HB' _ _ _ R'), HI, HI', EB, EI.
    apply (probe_loop_like S S' M M' path); auto; [do 2 (apply refers_step; [|exact I]); assumption..|].
    destruct (read_basic_info path _) as [b| | |]; destruct (get_id_info path _) as [[[[a1 a2] a3] a4]| | |]; reflexivity. }
  change {| w_open := _ |} with (linux S) in |- *. change {| w_open := _ |} with (linux S').
  destruct (open_by_fd (linux S) _ fd path) as [h2 [x|e| |]], (open_by_fd (linux S') _ fd' path) as [h2' [x'|e'| |]]; cbn [snd seen] in G |- *; try discriminate G; exact G.
Qed.

(** ---- EnumDrives ---- *)
Lemma loop_like S S' M M' : steady S M -> steady S' M' -> forall names h h' acc acc',
  (forall name, In name names -> same_device M M' (dev_path name)) -> map report acc = map report acc' ->
  seen (map report) (snd (enum_loop (linux S) h names acc)) = seen (map report) (snd (enum_loop (linux S') h' names acc')).
Proof.
  intros HS HS'. induction names as [|name rest IH]; intros h h' acc acc' HN E; cbn [enum_loop]; [cbn; now rewrite E|].
  assert (HR : forall n, In n rest -> same_device M M' (dev_path n)) by (intros n Hn; apply HN; now right).
  destruct (contains (str "loop") name); [now apply IH|].
  pose proof (HN name (or_introl eq_refl)) as HD.
  assert (Hm : w_mode (linux S) (h ++ [LStat (dev_path name)]) = w_mode (linux S') (h' ++ [LStat (dev_path name)])).
  { cbn [linux w_mode]. destruct HS as (_ & HM & _). destruct HS' as (_ & HM' & _). rewrite HM, HM'. apply HD. }
  rewrite Hm. destruct (w_mode (linux S') _) as [mode|]; [|now apply IH].
  destruct (is_block mode); [|now apply IH]. destruct (contains (str "sr") name); [now apply IH|].
  pose proof (open_like S S' M M' (h ++ [LStat (dev_path name)]) (h' ++ [LStat (dev_path name)]) (dev_path name) HS HS' HD) as G.
  destruct (open_by_path (linux S) _ _) as [h2 [x|e| |]], (open_by_path (linux S') _ _) as [h2' [x'|e'| |]]; cbn [snd seen] in G |- *; try discriminate G; try reflexivity.
  - apply IH; [exact HR|]. assert (G' : report x = report x') by (exact (f_equal (fun r => match r with Ok v => v | _ => report x end) G)). rewrite !map_app, E. cbn [map]. now rewrite G'.
  - now apply IH.
Qed.
Lemma loop_acc_app W : forall names h acc acc0 h' ys, enum_loop W h names acc = (h', Ok ys) -> enum_loop W h names (acc0 ++ acc) = (h', Ok (acc0 ++ ys)).
Proof.
  induction names as [|name rest IH]; intros h acc acc0 h' ys H; cbn [enum_loop] in *; [now injection H as <- <-|].
  destruct (contains (str "loop") name); [now apply IH|]. destruct (w_mode W _) as [mode|]; [|now apply IH].
  destruct (is_block mode); [|now apply IH]. destruct (contains (str "sr") name); [now apply IH|].
  destruct (open_by_path W _ _) as [h2 [x|e| |]]; try discriminate H; [|now apply IH]. rewrite <- app_assoc. now apply IH.
Qed.
Lemma loop_acc W : forall names h acc h' xs, enum_loop W h names acc = (h', Ok xs) -> exists ys, xs = acc ++ ys /\ enum_loop W h names [] = (h', Ok ys).
Proof.
  induction names as [|name rest IH]; intros h acc h' xs H; cbn [enum_loop] in *; [injection H as <- <-; exists []; now rewrite app_nil_r|].
  destruct (contains (str "loop") name); [now apply IH|]. destruct (w_mode W _) as [mode|]; [|now apply IH].
  destruct (is_block mode); [|now apply IH]. destruct (contains (str "sr") name); [now apply IH|].
  destruct (open_by_path W _ _) as [h2 [x|e| |]]; try discriminate H; [|now apply IH].
  apply IH in H as (ys & -> & H). exists (x :: ys). rewrite <- app_assoc. split; [reflexivity|]. cbn [app].
  exact (loop_acc_app W rest h2 [] [x] h' ys H).
Qed.
Lemma loop_app W : forall a b h acc h' xs, enum_loop W h (a ++ b) acc = (h', Ok xs) ->
  exists k ys, enum_loop W h a acc = (k, Ok ys) /\ enum_loop W k b ys = (h', Ok xs).
Proof.
  induction a as [|name rest IH]; intros b h acc h' xs H; cbn [app enum_loop] in *; [exists h, acc; auto|].
  destruct (contains (str "loop") name); [now apply IH|]. destruct (w_mode W _) as [mode|]; [|now apply IH].
  destruct (is_block mode); [|now apply IH]. destruct (contains (str "sr") name); [now apply IH|].
  destruct (open_by_path W _ _) as [h2 [x|e| |]]; try discriminate H; now apply IH.
Qed.
Lemma loop_app_ok W : forall a b h acc k ys, enum_loop W h a acc = (k, Ok ys) -> enum_loop W h (a ++ b) acc = enum_loop W k b ys.
Proof.
  induction a as [|name rest IH]; intros b h acc k ys H; cbn [app enum_loop] in *; [now injection H as <- <-|].
  destruct (contains (str "loop") name); [now apply IH|]. destruct (w_mode W _) as [mode|]; [|now apply IH].
  destruct (is_block mode); [|now apply IH]. destruct (contains (str "sr") name); [now apply IH|].
  destruct (open_by_path W _ _) as [h2 [x|e| |]]; try discriminate H; now apply IH.
Qed.
