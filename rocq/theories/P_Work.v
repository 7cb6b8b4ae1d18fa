(** Lemmas for C163: every call does a bounded amount of work. *)
From Verif Require Import Base M_Buffer M_Struc M_Layouts M_Ata M_TcgDevice M_DriveHandle M_Cdb M_SgDriver M_SgHandle M_NvmeLinux M_Strings M_LinuxInfo M_LinuxFactory M_LinuxVolume
  M_LinuxMachine Spec_Work P_DriveHandle P_Alone2 P_LinuxMachine.

Lemma commands_app a b : commands (a ++ b) = (commands a + commands b)%nat.
Proof. unfold commands. now rewrite filter_app, app_length. Qed.
Lemma commands_nvme l : commands (map GNvme l) = List.length l.
Proof. unfold commands. induction l as [|x l IH]; [reflexivity|]. cbn. now rewrite IH. Qed.
Lemma commands_sg fd l : commands (map (GSg fd) l) = List.length l.
Proof. unfold commands. induction l as [|x l IH]; [reflexivity|]. cbn. now rewrite IH. Qed.

(** ---- driver calls ---- *)
Definition log_cost (size : Z) : nat := Z.to_nat ((size + 4095) / 4096).
Definition nv_cost (c : dcall) : nat := match c with CAdmin _ => 1 | CLogPage _ _ _ size => log_cost size | _ => 0 end.
Definition sg_cost (c : dcall) : nat := match c with CSec _ _ _ _ _ _ | CTask _ _ _ _ _ => 2 | _ => 0 end.
Definition cost (k : lkind) (c : dcall) : nat := match k with KNvme => nv_cost c | KSg => sg_cost c end.
Fixpoint total (k : lkind) (cs : dhist) : nat := match cs with [] => 0 | c :: r => cost k c + total k r end.
Lemma total_app k a b : total k (a ++ b) = (total k a + total k b)%nat.
Proof. induction a as [|c a IH]; cbn [app total]; [reflexivity|]. rewrite IH. lia. Qed.

Definition admins (cs : dhist) : nat := List.length (filter (fun c => match c with CAdmin _ => true | _ => false end) cs).
Lemma nv_admins_count K fd A cs : forall kh, (List.length (fst (nv_admins K fd A kh cs)) <= List.length kh + List.length cs)%nat.
Proof.
  assert (One : forall kh c, (List.length (fst (nv_one K fd A kh c)) <= List.length kh + 1)%nat).
  { intros kh c. destruct c; cbn [nv_one fst]; try lia. pose proof (nv_admin_len K kh fd c (A kh)) as L. destruct (nv_admin K kh fd c (A kh)) as [k1 [e c']]. cbn [fst] in *. lia. }
  induction cs as [|c cs IH]; intros kh; [cbn; lia|]. rewrite nv_admins_cons. pose proof (One kh c) as L. cbn [List.length].
  destruct cs as [|c' cs]; [cbn [List.length]; lia|]. specialize (IH (fst (nv_one K fd A kh c))). lia.
Qed.
Lemma log_loop_count V fuel nsid logId rae n : forall off data e h,
  (List.length (fst (log_page_loop V fuel nsid logId rae n off data e h)) <= List.length h + N.to_nat ((n - off + 4095) / 4096))%nat.
Proof.
  induction fuel as [|f IH]; intros off data e h; cbn [log_page_loop].
  - destruct (n <=? off); cbn [fst]; lia.
  - destruct (n <=? off) eqn:L; cbn [fst]; [lia|]. apply N.leb_gt in L. cbv zeta. destruct (v_io V _) as [e1 new].
    set (cmd := CAdmin _). clearbody cmd.
    assert (Lh : List.length (h ++ [cmd]) = S (List.length h)) by (rewrite app_length; cbn; lia).
    assert (One : 1 <= (n - off + 4095) / 4096) by (apply N.div_le_lower_bound; lia).
    destruct e1 as [x|]; cbn [fst]; [|lia].
    match goal with |- context [log_page_loop V f nsid logId rae n ?o ?d ?x' ?hh] => specialize (IH o d x' hh) end.
    rewrite Lh in IH. etransitivity; [exact IH|]. destruct (4096 <? n - off) eqn:B.
    + apply N.ltb_lt in B. replace (n - off + 4095) with (n - (off + 4096) + 4095 + 1 * 4096) by lia. rewrite N.div_add by lia. lia.
    + apply N.ltb_ge in B. replace (n - (off + (n - off)) + 4095) with 4095 by lia. change (4095 / 4096) with 0. lia.
Qed.
Lemma nv_log_count K fd A kh nsid logId rae size : (List.length (fst (nv_log_page K fd A kh nsid logId rae size)) <= List.length kh + log_cost size)%nat.
Proof.
  unfold nv_log_page, nvme_get_log_page_by_admin_passthru, log_cost. destruct (size <? 0)%Z eqn:Z0.
  - cbn. lia.
  - apply Z.ltb_ge in Z0. cbv zeta. match goal with |- context [log_page_loop ?V ?f ?a ?b ?c ?n ?o ?d ?e ?h] => pose proof (log_loop_count V f a b c n o d e h) as L; destruct (log_page_loop V f a b c n o d e h) as [cs r] end.
    cbn [fst List.length] in *. pose proof (nv_admins_count K fd A cs kh) as L2.
    assert (Q : N.to_nat ((Z.to_N size - 0 + 4095) / 4096) = Z.to_nat ((size + 4095) / 4096)).
    { rewrite N.sub_0_r. rewrite <- Z_N_nat. f_equal. rewrite <- (N2Z.id ((Z.to_N size + 4095) / 4096)). f_equal. rewrite N2Z.inj_div, N2Z.inj_add, Z2N.id by lia. reflexivity. }
    rewrite <- Q. lia.
Qed.
Lemma nv_exec_count K fd A kh c : (List.length (fst (nv_exec K fd A kh c)) <= List.length kh + nv_cost c)%nat.
Proof.
  unfold nv_exec, nv_security. destruct c; cbn [fst nv_cost]; try lia.
  - pose proof (nv_admin_len K kh fd c (A kh)) as L. destruct (nv_admin K kh fd c (A kh)) as [k1 [e c']]. cbn [fst] in *. lia.
  - apply nv_log_count.
Qed.
Lemma nv_replay_count K fd A cs : forall kh, (List.length (nv_replay K fd A kh cs) <= List.length kh + total KNvme cs)%nat.
Proof.
  induction cs as [|c cs IH]; intros kh; [cbn; lia|]. cbn [nv_replay fold_left total cost]. pose proof (nv_exec_count K fd A kh c) as L.
  specialize (IH (fst (nv_exec K fd A kh c))). unfold nv_replay in IH. lia.
Qed.
Lemma sg_tries_count K h mk rw data addr : (List.length (fst (sg_tries K h mk rw data addr)) <= List.length h + 2)%nat.
Proof.
  rewrite sg_tries_eq. cbv zeta. destruct data as [[|b d]|]; [cbn; lia|destruct (addr mod 512 =? 0)|].
  - match goal with |- context [sg_ioctl K h ?c ?s] => pose proof (sg_ioctl_len K h c s) as L; destruct (sg_ioctl K h c s) as [h1 [[e|] [m s1]]] end; cbn [fst] in *; [rewrite sg_second_len|]; lia.
  - match goal with |- context [sg_ioctl K h ?c ?s] => pose proof (sg_ioctl_len K h c s) as L; destruct (sg_ioctl K h c s) as [h1 [[e|] [m s1]]] end; cbn [fst] in *; [rewrite sg_second_len; lia|].
    destruct rw; [cbn [fst]; lia|]. destruct (snd (buf_read _ _)); cbn [fst]; lia.
  - match goal with |- context [sg_ioctl K h ?c ?s] => pose proof (sg_ioctl_len K h c s) as L; destruct (sg_ioctl K h c s) as [h1 [[e|] [m s1]]] end; cbn [fst] in *; [rewrite sg_second_len|]; lia.
Qed.
Lemma sg_exec_count K A kh c : (List.length (fst (sg_exec K A kh c)) <= List.length kh + sg_cost c)%nat.
Proof.
  destruct c; cbn [sg_exec sg_cost fst]; try lia; [rewrite sg_security_eq|rewrite sg_task_eq]; cbv zeta; cbn [fst]; apply sg_tries_count.
Qed.
Lemma sg_replay_count K A cs : forall kh, (List.length (sg_replay K A kh cs) <= List.length kh + total KSg cs)%nat.
Proof.
  induction cs as [|c cs IH]; intros kh; [cbn; lia|]. cbn [sg_replay fold_left total cost]. pose proof (sg_exec_count K A kh c) as L.
  specialize (IH (fst (sg_exec K A kh c))). unfold sg_replay in IH. lia.
Qed.
Lemma sg_open_count K a : (List.length (fst (sg_open K [] a)) <= 2)%nat.
Proof.
  unfold sg_open. rewrite sg_task_eq. cbv zeta. match goal with |- context [fst (sg_tries ?K ?h ?m ?r ?d ?a)] => pose proof (sg_tries_count K h m r d a) as L; destruct (sg_tries K h m r d a) as [h1 q] end.
  cbn [fst snd List.length] in *. destruct (task_post identify_tf q) as [[[e|] [t d]]| | |]; cbn [fst]; exact L.
Qed.
(** All events of a driver are commands. *)
Lemma ioctls_count M g d cs : List.length (ioctls_of M g d cs) = commands (ioctls_of M g d cs) /\ (commands (ioctls_of M g d cs) <= total (d_kind d) cs)%nat.
Proof.
  unfold ioctls_of. destruct (d_kind d).
  - rewrite commands_nvme, map_length. split; [reflexivity|]. pose proof (nv_replay_count (nvme_at M g) (d_fd d) (nvme_addr_at M g) cs []) as L. cbn [List.length] in L. lia.
  - rewrite commands_sg, map_length. split; [reflexivity|]. pose proof (sg_replay_count (sg_at M g (d_fd d)) (sg_addr_at M g (d_fd d)) cs []) as L. cbn [List.length] in L. lia.
Qed.

(** ---- calls on a drive handle ---- *)
Lemma sec_total V p h k rw dma pr c b t : p_dh p = Some (dtype_of k) ->
  (total k (fst (security_command V p h rw dma pr c b t)) <= total k h + call_limit k (HSec rw dma pr c b t))%nat.
Proof.
  intros H. unfold security_command. rewrite H. cbv zeta. destruct (v_io V _) as [[e|] n1].
  - destruct k; cbn [dtype_of is_ata is_nvme]; cbv zeta; destruct (v_io V _) as [e2 n2]; cbn [fst]; rewrite !total_app; cbn [total cost nv_cost sg_cost call_limit]; lia.
  - cbn [fst]. rewrite total_app. destruct k; cbn [total cost nv_cost sg_cost call_limit]; lia.
Qed.
Lemma disc_total V p h k : p_dh p = Some (dtype_of k) -> (total k (fst (tcg_discovery0 V p h)) <= total k h + call_limit k HDiscovery)%nat.
Proof.
  intros H. pose proof (sec_total V p h k false false 0x01 0x0001 (zeros 2048) 3 H) as L. unfold tcg_discovery0.
  destruct (security_command V p h false false 0x01 0x0001 (zeros 2048) 3) as [h1 [e buf]]. cbn [fst] in L.
  assert (Q : (total k h1 <= total k h + call_limit k HDiscovery)%nat) by (destruct k; exact L). clear L.
  destruct e as [x|]; [exact Q|]. cbv zeta. destruct (struc_unpack _ _ _) as [hd| | |]; try exact Q.
  destruct (N.of_nat _ <? _); [exact Q|]. destruct (discovery_loop _ _ _ _ _ _ _) as [t r]. exact Q.
Qed.
Lemma tail_total V p h k : p_dh p = Some (dtype_of k) -> (total k (fst (init_tail V p h)) <= total k h + call_limit k HDiscovery)%nat.
Proof.
  intros H. unfold init_tail. cbv zeta. match goal with |- context [tcg_discovery0 V ?q h] => pose proof (disc_total V q h k H) as L; destruct (tcg_discovery0 V q h) as [h1 [p2 r]] end. exact L.
Qed.
Lemma init_total V p h k : p_dh p = Some (dtype_of k) -> (total k (fst (init V p h)) <= total k h + call_limit k HInit)%nat.
Proof.
  intros H. unfold init. rewrite H.
  assert (T : forall i hh, (total k hh <= total k h)%nat -> (total k (fst (init_tail V (with_info p i) hh)) <= total k h + call_limit k HInit)%nat).
  { intros i hh L. pose proof (tail_total V (with_info p i) hh k H) as Q. destruct k; cbn [call_limit] in *; lia. }
  destruct k; cbn [dtype_of is_ata is_nvme]; cbv zeta.
  - destruct (init_nvme _ _) as [i2 r2].
    assert (B : total KNvme (h ++ [CIdentity]) = total KNvme h) by (rewrite total_app; cbn; lia).
    destruct r2; try (cbn [fst]; rewrite B; lia). apply T. rewrite B. lia.
  - destruct (init_ata _ _) as [i1 r1].
    assert (B : total KSg (h ++ [CIdentity]) = total KSg h) by (rewrite total_app; cbn; lia).
    destruct r1; try (cbn [fst]; rewrite B; lia). apply T. rewrite B. lia.
Qed.
Lemma hstep_total V p k o : p_dh p = Some (dtype_of k) -> (total k (fst (hstep V p [] o)) <= call_limit k o)%nat.
Proof.
  intros H. destruct o; cbn [hstep].
  - pose proof (init_total V p [] k H) as L. destruct (init V p []) as [h1 [p1 r]]. exact L.
  - unfold close. rewrite H. destruct k; cbn; lia.
  - unfold get_driving_type. rewrite H. destruct k; cbn; lia.
  - unfold get_driver_name. rewrite H. destruct k; cbn; lia.
  - pose proof (disc_total V p [] k H) as L. destruct (tcg_discovery0 V p []) as [h1 [p1 r]]. exact L.
  - pose proof (sec_total V p [] k rw dma protocol comId buffer timeoutSecs H) as L. destruct (security_command _ _ _ _ _ _ _ _ _) as [h1 [e b]]. exact L.
  - unfold ata_do_task_file_cmd. rewrite H. destruct k; cbn [dtype_of is_ata]; [cbn; lia|]. destruct (v_io V _) as [e n]. cbn; lia.
  - unfold nvme_get_log_page. rewrite H. destruct k; cbn [dtype_of is_nvme]; [|cbn; lia]. cbv zeta. destruct (v_log V _) as [b e].
    cbn [fst app total cost nv_cost call_limit]. unfold log_cost. lia.
Qed.
