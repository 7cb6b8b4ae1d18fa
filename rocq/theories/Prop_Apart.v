(** C188: a drive that answers only what it is asked itself is not disturbed by the rest of the program (Linux). *)
From Verif Require Import Base Spec_Tcg M_Buffer M_Struc M_Layouts M_Ata M_TcgDevice M_TcgSession M_TcgProgram M_DriveHandle M_TcgOnDrive M_Cdb M_SgDriver M_SgHandle M_NvmeLinux M_Strings M_LinuxInfo
  M_LinuxFactory M_LinuxVolume M_LinuxMachine Prop_NvmeLinux P_DriveHandle Spec_LinuxMachine P_LinuxMachine Spec_TcgClient Spec_NvmeConform Spec_TcgAlone P_TcgLocal P_TcgAlone Prop_TcgAlone Prop_NvmeConform
  P_Alone P_Alone2 P_Alone3 P_Alone4 P_Alone5 P_Alone6 Prop_Alone P_Apart Spec_Alone Spec_Apart P_ApartRun P_ApartElse.

Lemma opened_handle M ops1 path : let before := grun M ops1 in let opened := gstep M before (GOpen path) in let i := List.length (st_handles before) in
  List.length (st_handles opened) = S i ->
  exists x, nth_error (st_handles opened) i = Some x /\ gh_path x = path /\ sound_handle x
  /\ (fresh_descriptors M -> guarded M opened i (gh_fd x) path).
Proof.
  cbv zeta. pose proof (grun_good M ops1) as GG. set (before := grun M ops1) in *. clearbody before.
  cbn [gstep]. destruct (gopen_adds M (st_hist before) path) as (es & E & C & _ & X).
  destruct (gopen_by_path M (st_hist before) path) as [g [x|e| |]]; cbn [st_handles st_hist fst snd] in *; intros L; try (exfalso; lia).
  exists x. destruct (X x eq_refl) as (P & So & Eo & On).
  assert (N : nth_error (st_handles before ++ [x]) (List.length (st_handles before)) = Some x) by (rewrite nth_error_app2 by apply le_n; now rewrite Nat.sub_diag).
  split; [exact N|]. split; [exact P|]. split; [exact So|].
  intros HF. destruct (GG HF) as [HS [_ HO]]. unfold guarded. cbn [st_hist st_handles]. split; [now rewrite E|]. split; [exists x; auto|].
  intros j z NE Hj. assert (Lt : (j < List.length (st_handles before ++ [x]))%nat) by (apply nth_error_Some; congruence). rewrite app_length in Lt. cbn in Lt.
  rewrite nth_error_app1 in Hj by lia. apply nth_error_In in Hj. rewrite Forall_forall in HS. split; [exact (HS _ Hj)|].
  intros Lv Ef. apply (HF _ _ _ (gh_path z) Eo). apply HO. apply in_flat_map. exists z. split; [exact Hj|]. unfold live1. rewrite <- Ef. destruct (p_dh (gh_dh z)); [now left|congruence].
Qed.

(** The calls a program makes on a handle it does not close, and the ioctls they make, are those of a program that makes only these
    calls, on the same machine, if the drive behind the handle is undisturbed by what is done through other descriptors. *)
Theorem C188_same_machine : forall M ops1 path ops2, fresh_descriptors M ->
  let before := grun M ops1 in let opened := gstep M before (GOpen path) in let i := List.length (st_handles before) in
  List.length (st_handles opened) = S i -> ~ In HClose (calls_on i ops2) -> exists x,
  nth_error (st_handles opened) i = Some x /\ gh_path x = path
  /\ (undisturbed M (st_hist opened) (gh_fd x) ->
      let only := map (GOn i) (calls_on i ops2) in
      replies_on M opened i ops2 = replies_on M opened i only /\ sent_on M opened i ops2 = sent_on M opened i only).
Proof.
  intros M ops1 path ops2 HF before opened i L NC. destruct (opened_handle M ops1 path L) as (x & N & P & So & G). exists x.
  split; [exact N|]. split; [exact P|]. intros U. pose proof (guarded_run M i (gh_fd x) path ops2 HF NC opened (G HF)) as EW.
  exact (apart_run M (st_hist opened) (gh_fd x) i ops2 U opened opened [] [] x (eq_sym (app_nil_r _)) (eq_sym (app_nil_r _)) eq_refl N N eq_refl So EW).
Qed.
Print Assumptions C188_same_machine.

(** And what the rest of the program does - opening drives, the same one included, listing drives and volumes, calls on the other
    handles, closing them - it does not do on the handle's descriptor. *)
Theorem C188_own_descriptor : forall M ops1 path ops2 o, fresh_descriptors M ->
  let before := grun M ops1 in let opened := gstep M before (GOpen path) in let i := List.length (st_handles before) in
  List.length (st_handles opened) = S i -> ~ In HClose (calls_on i ops2) -> call_on i o = [] -> exists x es,
  nth_error (st_handles opened) i = Some x
  /\ let s := grun_from M opened ops2 in st_hist (gstep M s o) = st_hist s ++ es /\ forall e, In e es -> acts_on e <> Some (gh_fd x).
Proof.
  intros M ops1 path ops2 o HF before opened i L NC C. destruct (opened_handle M ops1 path L) as (x & N & P & So & G).
  assert (NC' : ~ In HClose (calls_on i (ops2 ++ [o]))).
  { unfold calls_on. rewrite flat_map_app. cbn [flat_map]. rewrite C. cbn [app]. now rewrite app_nil_r. }
  pose proof (guarded_run M i (gh_fd x) path (ops2 ++ [o]) HF NC' opened (G HF)) as EW.
  assert (A : forall ops s, elsewhere M s i (gh_fd x) (ops ++ [o]) -> exists es, st_hist (gstep M (grun_from M s ops) o) = st_hist (grun_from M s ops) ++ es /\ done_on (gh_fd x) es = []).
  { induction ops as [|o' ops IH]; intros s E; cbn [app elsewhere] in E; [exact (proj1 E C)|exact (IH _ (proj2 E))]. }
  destruct (A ops2 opened EW) as (es & E & D). exists x, es. split; [exact N|]. split; [exact E|].
  intros e I Ea. assert (Q : In e (done_on (gh_fd x) es)) by (apply filter_In; split; [exact I|rewrite Ea; apply N.eqb_refl]). now rewrite D in Q.
Qed.
Print Assumptions C188_own_descriptor.

Lemma on_one M i o s x : nth_error (st_handles s) i = Some x -> o <> HClose ->
  let V := match gh_dev x with Some d => drv_at M (st_hist s) d | None => no_drv end in
  exists y, nth_error (st_handles (gstep M s (GOn i o))) i = Some y /\ gh_dev y = gh_dev x /\ gh_dh y = fst (snd (hstep V (gh_dh x) [] o))
  /\ st_hist (gstep M s (GOn i o)) = match gh_dev x with Some d => st_hist s ++ ioctls_of M (st_hist s) d (fst (hstep V (gh_dh x) [] o)) | None => st_hist s end.
Proof.
  intros N NC V. cbn [gstep]. rewrite N.
  assert (G : gcall M (st_hist s) x o = let '(cs, (p, _)) := hstep V (gh_dh x) [] o in
      (match gh_dev x with Some d => st_hist s ++ ioctls_of M (st_hist s) d cs | None => st_hist s end,
       {| gh_path := gh_path x; gh_fd := gh_fd x; gh_dh := p; gh_dev := gh_dev x; gh_driving := gh_driving x; gh_driver_name := gh_driver_name x |})).
  { destruct o; try reflexivity. congruence. }
  rewrite G. destruct (hstep V (gh_dh x) [] o) as [cs [p r]]. cbn [fst snd st_handles st_hist].
  eexists. split; [exact (nth_replace_same _ _ _ _ N)|]. cbn [gh_dev gh_dh]. auto.
Qed.
Lemma at_later M g d cs f : sees_upto (drv_at M g d) (drv_at M (g ++ ioctls_of M g d cs) d) cs f.
Proof.
  apply upto_of. unfold drv_at, ioctls_of. destruct (d_kind d).
  - apply (nv_drv_sees _ _ _ _ _ [] [] _ cs f (nv_replay (nvme_at M g) (d_fd d) (nvme_addr_at M g) [] cs)); [now rewrite app_nil_r|apply nvme_shift|apply nvme_shift_addr].
  - apply (sg_drv_sees _ _ _ _ [] [] _ cs f (sg_replay (sg_at M g (d_fd d)) (sg_addr_at M g (d_fd d)) [] cs)); [now rewrite app_nil_r|apply sg_shift|apply sg_shift_addr].
Qed.
Lemma ioctls_later M g d cs cs' : ioctls_of M g d (cs ++ cs') = ioctls_of M g d cs ++ ioctls_of M (g ++ ioctls_of M g d cs) d cs'.
Proof.
  unfold ioctls_of. destruct (d_kind d); rewrite <- map_app; f_equal.
  - rewrite nv_replay_app. rewrite <- (nv_replay_sh (nvme_at M g) _ _ (nvme_addr_at M g) _ _ [] cs' (nvme_shift _ _ _ _) (nvme_shift_addr _ _ _ _)), app_nil_r. reflexivity.
  - rewrite sg_replay_app. rewrite <- (sg_replay_sh (sg_at M g (d_fd d)) _ (sg_addr_at M g (d_fd d)) _ _ [] cs' (sg_shift _ _ _ _ _) (sg_shift_addr _ _ _ _ _)), app_nil_r. reflexivity.
Qed.
(** Calls on the handle and nothing else: the handle's driver, from there on. *)
Lemma only_calls M g d i os : Forall (fun o => o <> HClose) os -> forall s x cs, st_hist s = g ++ ioctls_of M g d cs ->
  nth_error (st_handles s) i = Some x -> gh_dev x = Some d ->
  replies_on M s i (map (GOn i) os) = replies (drv_at M g d) (gh_dh x) cs os.
Proof.
  induction 1 as [|o os NC _ IH]; intros s x cs H N D; [reflexivity|]. cbn [map replies_on call_on replies]. rewrite N, Nat.eqb_refl. cbn [map app].
  destruct (on_one M i o s x N NC) as (y & Ny & Dy & Hy & Gy). unfold driver_now. rewrite D in *. cbv zeta in *. rewrite H in *.
  pose proof (at_later M g d cs (fst (hstep (drv_at M (g ++ ioctls_of M g d cs) d) (gh_dh x) [] o))) as X.
  pose proof (hstep_sh _ _ cs (gh_dh x) [] o X) as Q1. pose proof (reply_sh _ _ cs (gh_dh x) [] o X) as Q2. rewrite app_nil_r in Q1, Q2.
  rewrite Q2, Q1. cbn [fst snd]. f_equal. rewrite <- Hy. apply IH; [|exact Ny|exact Dy].
  rewrite Gy, ioctls_later, app_assoc. reflexivity.
Qed.
Lemma hsecs_open t : Forall (fun o => o <> HClose) (hsecs t).
Proof. induction t as [|e t IH]; [constructor|]. destruct e; cbn [hsecs flat_map hsec]; [exact IH|exact IH|]. constructor; [discriminate|exact IH]. Qed.

(** A TCG client on the handle, in such a program, does what it does alone on the drive as it was when the handle was opened. *)
Theorem C188_client : forall M ops1 path meanwhile dev clock kdf heap fuel prog, fresh_descriptors M ->
  let before := grun M ops1 in let opened := gstep M before (GOpen path) in let i := List.length (st_handles before) in
  List.length (st_handles opened) = S i -> (forall t, calls_on i (meanwhile t) = []) -> exists x,
  nth_error (st_handles opened) i = Some x /\ gh_path x = path
  /\ forall d, gh_dev x = Some d -> undisturbed M (st_hist opened) (gh_fd x) ->
     trun (program_env (replies_on M opened i) (GOn i) meanwhile clock kdf heap fuel) dev [] [] prog
     = trun (drive_env (drv_at M (st_hist opened) d) (gh_dh x) [] clock kdf heap fuel) dev [] [] prog.
Proof.
  intros M ops1 path meanwhile dev clock kdf heap fuel prog HF before opened i L Mw.
  destruct (opened_handle M ops1 path L) as (x & N & P & So & G). exists x. split; [exact N|]. split; [exact P|]. intros d D U.
  assert (CO : forall t, calls_on i (program_of (GOn i) meanwhile [] t) = hsecs t).
  { intros t. apply program_of_calls; [intros o; cbn [call_on]; now rewrite Nat.eqb_refl|exact Mw]. }
  symmetry. apply same_run; [intros a b; eexists; apply replies_on_app| |].
  - intros t. rewrite <- CO. now apply replies_on_count.
  - match goal with |- context [program_of _ _ _ ?t] => set (h := t) end. clearbody h.
    assert (NC : ~ In HClose (calls_on i (program_of (GOn i) meanwhile [] h))) by (rewrite CO; intros I; pose proof (hsecs_open h) as F; rewrite Forall_forall in F; exact (F _ I eq_refl)).
    pose proof (guarded_run M i (gh_fd x) path _ HF NC opened (G HF)) as EW.
    destruct (apart_run M (st_hist opened) (gh_fd x) i _ U opened opened [] [] x (eq_sym (app_nil_r _)) (eq_sym (app_nil_r _)) eq_refl N N eq_refl So EW) as [R _].
    rewrite R, CO. symmetry. apply only_calls; [apply hsecs_open| |exact N|exact D].
    unfold ioctls_of. destruct (d_kind d); cbn; now rewrite app_nil_r.
Qed.
Print Assumptions C188_client.

(** So, whatever else the program does meanwhile, a PSID revert of an NVMe drive succeeds with the right PSID and with no other. *)
Theorem C188_psid : forall M ops1 path meanwhile dev clock kdf heap fuel com pw isAdm psid n hv tv st, fresh_descriptors M ->
  let before := grun M ops1 in let opened := gstep M before (GOpen path) in let i := List.length (st_handles before) in
  List.length (st_handles opened) = S i -> (forall t, calls_on i (meanwhile t) = []) -> exists x,
  nth_error (st_handles opened) i = Some x /\ gh_path x = path
  /\ forall d, gh_dev x = Some d -> undisturbed M (st_hist opened) (gh_fd x) ->
     let K := nvme_at M (st_hist opened) in
     d_kind d = KNvme -> over_nvme (gh_dh x) -> (forall g, m_addr M g < 2 ^ 64) -> (forall g, wf (na_in (m_nvme M g))) -> (forall j, heap j < 256) ->
     (forall s c, List.length (kdf s c) = 32%nat /\ wf (kdf s c)) -> (n < fuel)%nat -> fast_enough clock com n ->
     is_any_ssc dev = true -> get_base_com_id dev = Ok com -> com < 2 ^ 16 -> wf pw -> 1 <= blen pw <= 400 ->
     checks_psid K (gh_fd x) com [] n psid hv tv st -> 1 <= st < 64 ->
     let results := snd (trun (program_env (replies_on M opened i) (GOn i) meanwhile clock kdf heap fuel) dev [] [] [TRevert pw true isAdm]) in
     (pw = psid -> results = [Ok tt]) /\ (pw <> psid -> results = [Err (ETcg st)]).
Proof.
  intros M ops1 path meanwhile dev clock kdf heap fuel com pw isAdm psid n hv tv st HF before opened i L Mw.
  destruct (C188_client M ops1 path meanwhile dev clock kdf heap fuel [TRevert pw true isAdm] HF L Mw) as (x & N & P & CL).
  exists x. split; [exact N|]. split; [exact P|].
  intros d D U K Kd Ov HA HK Hh Hkdf Hf Ck Hs Hc Hc16 Wp Lp CP Hst results.
  assert (Fd : d_fd d = gh_fd x).
  { destruct (opened_handle M ops1 path L) as (x' & N' & _ & So & _). assert (x' = x) as -> by (pose proof (eq_trans (eq_sym N') N) as Q; injection Q as Q; exact Q).
    unfold sound_handle in So. rewrite D in So. exact (proj1 So). }
  assert (R : results = [snd (revert_tper (drive_env (drv_at M (st_hist opened) d) (gh_dh x) [] clock kdf heap fuel) dev pw true isAdm [])]).
  { refine (eq_trans (f_equal snd (CL d D U)) _). cbn [trun tstep]. destruct (revert_tper _ dev pw true isAdm []) as [h r]. reflexivity. }
  rewrite R. unfold drv_at. rewrite Kd, Fd.
  destruct (C180_psid_over_nvme K (gh_fd x) (nvme_addr_at M (st_hist opened)) [] (d_identity d) (gh_dh x) [] clock kdf heap fuel dev com pw isAdm psid n hv tv st Ov
    (fun k => HA _) (fun k => HK _) Hh Hkdf Hf Ck Hs Hc Hc16 Wp Lp CP Hst) as [A B].
  split; intros E; f_equal; auto.
Qed.
Print Assumptions C188_psid.
