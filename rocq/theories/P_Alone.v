(** Lemmas for C155: what a drive handle does depends on its driver only at the calls it makes, and what a driver does on the kernel only
    at the ioctls it makes. *)
From Verif Require Import Base M_Buffer M_Struc M_Layouts M_Ata M_TcgDevice M_DriveHandle M_Cdb M_SgDriver M_SgHandle M_NvmeLinux P_DriveHandle.

Definition pre {A} (k f : list A) : Prop := exists r, f = k ++ r.
Lemma pre_refl {A} (k : list A) : pre k k.
Proof. exists []. now rewrite app_nil_r. Qed.
Lemma pre_app {A} (k r : list A) : pre k (k ++ r).
Proof. now exists r. Qed.
Lemma pre_trans {A} (a b c : list A) : pre a b -> pre b c -> pre a c.
Proof. intros [r ->] [s ->]. exists (r ++ s). now rewrite app_assoc. Qed.
Lemma pre_app_l {A} (k r f : list A) : pre (k ++ r) f -> pre k f.
Proof. apply pre_trans, pre_app. Qed.

(** Driver [V] after the calls [c0] answers like [V'] from the start, for the calls [k]. *)
Record sees (V V' : drv) (c0 k : dhist) : Prop := {
  sees_io : v_io V (c0 ++ k) = v_io V' k; sees_tf : v_tf V (c0 ++ k) = v_tf V' k; sees_identity : v_identity V (c0 ++ k) = v_identity V' k;
  sees_log : v_log V (c0 ++ k) = v_log V' k; sees_type : v_type V (c0 ++ k) = v_type V' k; sees_name : v_name V (c0 ++ k) = v_name V' k }.
Definition sees_upto V V' c0 f : Prop := forall k c, pre (k ++ [c]) f -> sees V V' c0 (k ++ [c]).
Lemma sees_pre V V' c0 f f' : sees_upto V V' c0 f -> pre f' f -> sees_upto V V' c0 f'.
Proof. intros S P k c Q. apply S. exact (pre_trans _ _ _ Q P). Qed.

Lemma sec_adds V p h rw dma pr c b t : pre h (fst (security_command V p h rw dma pr c b t)).
Proof.
  unfold security_command. destruct (p_dh p) as [ty|]; [|apply pre_refl]. cbv zeta. destruct (v_io V _) as [[e|] new]; [|apply pre_app].
  destruct (is_ata ty); [|destruct (is_nvme ty); [|apply pre_app]]; destruct (v_io V _) as [e2 new2]; cbn [fst]; rewrite <- app_assoc; apply pre_app.
Qed.
Lemma sec_sh V V' c0 p h rw dma pr c b t : sees_upto V V' c0 (fst (security_command V' p h rw dma pr c b t)) ->
  security_command V p (c0 ++ h) rw dma pr c b t = (c0 ++ fst (security_command V' p h rw dma pr c b t), snd (security_command V' p h rw dma pr c b t)).
Proof.
  unfold security_command. destruct (p_dh p) as [ty|]; [|reflexivity]. cbv zeta. rewrite <- !app_assoc. intros S.
  assert (S1 : v_io V (c0 ++ h ++ [CSec rw dma pr c b t]) = v_io V' (h ++ [CSec rw dma pr c b t])).
  { apply sees_io, S. destruct (v_io V' _) as [[e|] new]; [|apply pre_refl].
    destruct (is_ata ty); [|destruct (is_nvme ty); [|apply pre_refl]]; destruct (v_io V' _) as [e2 new2]; cbn [fst]; apply pre_app. }
  rewrite S1. destruct (v_io V' (h ++ _)) as [[e|] new]; [|reflexivity].
  destruct (is_ata ty); [|destruct (is_nvme ty); [|reflexivity]].
  - match goal with |- context [v_io V' ((h ++ ?x) ++ ?y)] => set (k := (h ++ x) ++ y) in * end.
    match goal with |- context [v_io V ?z] => replace z with (c0 ++ k) by (unfold k; now rewrite <- !app_assoc) end.
    assert (S2 : v_io V (c0 ++ k) = v_io V' k) by (apply sees_io, S; destruct (v_io V' k); apply pre_refl).
    rewrite S2. destruct (v_io V' k). reflexivity.
  - match goal with |- context [v_io V' ((h ++ ?x) ++ ?y)] => set (k := (h ++ x) ++ y) in * end.
    match goal with |- context [v_io V ?z] => replace z with (c0 ++ k) by (unfold k; now rewrite <- !app_assoc) end.
    assert (S2 : v_io V (c0 ++ k) = v_io V' k) by (apply sees_io, S; destruct (v_io V' k); apply pre_refl).
    rewrite S2. destruct (v_io V' k). reflexivity.
Qed.
Lemma disc_adds V p h : pre h (fst (tcg_discovery0 V p h)).
Proof.
  unfold tcg_discovery0. pose proof (sec_adds V p h false false 0x01 0x0001 (zeros 2048) 3) as P.
  destruct (security_command _ _ _ _ _ _ _ _ _) as [h1 [[e|] buf]]; [exact P|]. cbv zeta. destruct (struc_unpack _ _ _); try exact P.
  destruct (_ <? _); [exact P|]. destruct (discovery_loop _ _ _ _ _ _ _). exact P.
Qed.
Lemma disc_fst V p h : fst (tcg_discovery0 V p h) = fst (security_command V p h false false 0x01 0x0001 (zeros 2048) 3).
Proof.
  unfold tcg_discovery0. destruct (security_command _ _ _ _ _ _ _ _ _) as [h1 [[e|] buf]]; [reflexivity|]. cbv zeta. destruct (struc_unpack _ _ _); try reflexivity.
  destruct (_ <? _); [reflexivity|]. destruct (discovery_loop _ _ _ _ _ _ _). reflexivity.
Qed.
Lemma disc_sh V V' c0 p h : sees_upto V V' c0 (fst (tcg_discovery0 V' p h)) ->
  tcg_discovery0 V p (c0 ++ h) = (c0 ++ fst (tcg_discovery0 V' p h), snd (tcg_discovery0 V' p h)).
Proof.
  rewrite disc_fst. intros S. unfold tcg_discovery0. rewrite (sec_sh V V') by exact S.
  destruct (security_command _ _ _ _ _ _ _ _ _) as [h1 [[e|] buf]]; [reflexivity|]. cbn [fst snd]. cbv zeta. destruct (struc_unpack _ _ _); try reflexivity.
  destruct (_ <? _); [reflexivity|]. destruct (discovery_loop _ _ _ _ _ _ _). reflexivity.
Qed.
Lemma tail_adds V p h : pre h (fst (init_tail V p h)).
Proof. unfold init_tail. match goal with |- context [tcg_discovery0 V ?q h] => pose proof (disc_adds V q h) as P; destruct (tcg_discovery0 V q h) as [h1 [p2 r]] end. exact P. Qed.
Lemma tail_sh V V' c0 p h : sees_upto V V' c0 (fst (init_tail V' p h)) -> init_tail V p (c0 ++ h) = (c0 ++ fst (init_tail V' p h), snd (init_tail V' p h)).
Proof.
  unfold init_tail. match goal with |- context [tcg_discovery0 V' ?q h] => set (q0 := q) end. intros S. rewrite (disc_sh V V').
  - destruct (tcg_discovery0 V' q0 h) as [h1 [p2 r]]. reflexivity.
  - destruct (tcg_discovery0 V' q0 h) as [h1 [p2 r]]. exact S.
Qed.
Lemma init_adds V p h : pre h (fst (init V p h)).
Proof.
  unfold init. cbv zeta. destruct (is_ata _).
  - destruct (init_ata _ _) as [i1 r1]. destruct r1; try apply pre_app. destruct (is_nvme _).
    + destruct (init_nvme _ _) as [i2 r2]. rewrite <- app_assoc. destruct r2; try apply pre_app. eapply pre_trans; [apply pre_app|apply tail_adds].
    + eapply pre_trans; [apply pre_app|apply tail_adds].
  - destruct (is_nvme _).
    + destruct (init_nvme _ _) as [i2 r2]. destruct r2; try apply pre_app. eapply pre_trans; [apply pre_app|apply tail_adds].
    + apply tail_adds.
Qed.
Lemma init_sh V V' c0 p h : sees_upto V V' c0 (fst (init V' p h)) -> init V p (c0 ++ h) = (c0 ++ fst (init V' p h), snd (init V' p h)).
Proof.
  unfold init. cbv zeta. set (ty := match p_dh p with Some t => t | None => _ end). clearbody ty.
  assert (ONE : forall k, pre (k ++ [CIdentity]) (fst (init_tail V' p (k ++ [CIdentity]))) ) by (intros; apply tail_adds).
  destruct (is_ata ty).
  - replace ((c0 ++ h) ++ [CIdentity]) with (c0 ++ h ++ [CIdentity]) by (now rewrite <- app_assoc). intros S.
    assert (S1 : v_identity V (c0 ++ h ++ [CIdentity]) = v_identity V' (h ++ [CIdentity])).
    { apply sees_identity, S. destruct (init_ata _ _) as [i1 r1]. destruct r1; try apply pre_refl. destruct (is_nvme ty).
      - destruct (init_nvme _ _) as [i2 r2]. destruct r2; try apply pre_app. eapply pre_trans; [|apply tail_adds]. apply pre_app.
      - apply tail_adds. }
    rewrite S1. destruct (init_ata _ _) as [i1 r1]. destruct r1; try reflexivity. destruct (is_nvme ty).
    + replace ((c0 ++ h ++ [CIdentity]) ++ [CIdentity]) with (c0 ++ (h ++ [CIdentity]) ++ [CIdentity]) by (now rewrite <- !app_assoc).
      assert (S2 : v_identity V (c0 ++ (h ++ [CIdentity]) ++ [CIdentity]) = v_identity V' ((h ++ [CIdentity]) ++ [CIdentity])).
      { apply sees_identity, S. destruct (init_nvme _ _) as [i2 r2]. destruct r2; try apply pre_refl. apply tail_adds. }
      rewrite S2. destruct (init_nvme _ _) as [i2 r2]. destruct r2; try reflexivity. now apply tail_sh.
    + now apply tail_sh.
  - destruct (is_nvme ty).
    + replace ((c0 ++ h) ++ [CIdentity]) with (c0 ++ h ++ [CIdentity]) by (now rewrite <- app_assoc). intros S.
      assert (S2 : v_identity V (c0 ++ h ++ [CIdentity]) = v_identity V' (h ++ [CIdentity])).
      { apply sees_identity, S. destruct (init_nvme _ _) as [i2 r2]. destruct r2; try apply pre_refl. apply tail_adds. }
      rewrite S2. destruct (init_nvme _ _) as [i2 r2]. destruct r2; try reflexivity. now apply tail_sh.
    + intros S. now apply tail_sh.
Qed.
Lemma hstep_adds V p h o : pre h (fst (hstep V p h o)).
Proof.
  destruct o; cbn [hstep].
  - pose proof (init_adds V p h) as P. destruct (init V p h) as [h1 [p1 r]]. exact P.
  - unfold close. destruct (p_dh p); [apply pre_app|apply pre_refl].
  - unfold get_driving_type. destruct (p_dh p); [apply pre_app|apply pre_refl].
  - unfold get_driver_name. destruct (p_dh p); [apply pre_app|apply pre_refl].
  - pose proof (disc_adds V p h) as P. destruct (tcg_discovery0 V p h) as [h1 [p1 r]]. exact P.
  - pose proof (sec_adds V p h rw dma protocol comId buffer timeoutSecs) as P. destruct (security_command _ _ _ _ _ _ _ _ _) as [h1 [e b]]. exact P.
  - unfold ata_do_task_file_cmd. destruct (p_dh p) as [ty|]; [|apply pre_refl]. destruct (is_ata ty); [|apply pre_refl]. cbv zeta. destruct (v_io V _). apply pre_app.
  - unfold nvme_get_log_page. destruct (p_dh p) as [ty|]; [|apply pre_refl]. destruct (is_nvme ty); [|apply pre_refl]. cbv zeta. destruct (v_log V _). apply pre_app.
Qed.
Lemma hstep_sh V V' c0 p h o : sees_upto V V' c0 (fst (hstep V' p h o)) -> hstep V p (c0 ++ h) o = (c0 ++ fst (hstep V' p h o), snd (hstep V' p h o)).
Proof.
  destruct o; cbn [hstep].
  - intros S. rewrite (init_sh V V'); destruct (init V' p h) as [h1 [p1 r]]; [reflexivity|exact S].
  - unfold close. destruct (p_dh p); [|reflexivity]. intros _. now rewrite <- app_assoc.
  - unfold get_driving_type. destruct (p_dh p); [|reflexivity]. cbv zeta. rewrite <- app_assoc. intros S. cbn [fst snd] in *. now rewrite (sees_type _ _ _ _ (S _ _ (pre_refl _))).
  - unfold get_driver_name. destruct (p_dh p); [|reflexivity]. cbv zeta. rewrite <- app_assoc. intros S. cbn [fst snd] in *. now rewrite (sees_name _ _ _ _ (S _ _ (pre_refl _))).
  - intros S. rewrite (disc_sh V V'); destruct (tcg_discovery0 V' p h) as [h1 [p1 r]]; [reflexivity|exact S].
  - intros S. rewrite (sec_sh V V'); destruct (security_command _ _ _ _ _ _ _ _ _) as [h1 [e b]]; [reflexivity|exact S].
  - unfold ata_do_task_file_cmd. destruct (p_dh p) as [ty|]; [|reflexivity]. destruct (is_ata ty); [|reflexivity]. cbv zeta. rewrite <- app_assoc.
    match goal with |- context [v_io V' ?k] => set (k0 := k) end. intros S.
    assert (E : v_io V (c0 ++ k0) = v_io V' k0) by (apply sees_io, S; destruct (v_io V' k0); apply pre_refl). rewrite E. destruct (v_io V' k0). reflexivity.
  - unfold nvme_get_log_page. destruct (p_dh p) as [ty|]; [|reflexivity]. destruct (is_nvme ty); [|reflexivity]. cbv zeta. rewrite <- app_assoc.
    match goal with |- context [v_log V' ?k] => set (k0 := k) end. intros S.
    assert (E : v_log V (c0 ++ k0) = v_log V' k0) by (apply sees_log, S; destruct (v_log V' k0); apply pre_refl). rewrite E. destruct (v_log V' k0). reflexivity.
Qed.
Lemma hrun_adds V os : forall p h, pre h (fst (hrun V p h os)).
Proof.
  induction os as [|o os IH]; intros p h; cbn [hrun]; [apply pre_refl|]. pose proof (hstep_adds V p h o) as P. destruct (hstep V p h o) as [h1 [p1 r]].
  pose proof (IH p1 h1) as Q. destruct (hrun V p1 h1 os) as [h2 [p2 rs]]. exact (pre_trans _ _ _ P Q).
Qed.
Lemma hrun_sh V V' c0 os : forall p h, sees_upto V V' c0 (fst (hrun V' p h os)) -> hrun V p (c0 ++ h) os = (c0 ++ fst (hrun V' p h os), snd (hrun V' p h os)).
Proof.
  induction os as [|o os IH]; intros p h; cbn [hrun]; [reflexivity|]. intros S. rewrite (hstep_sh V V').
  - destruct (hstep V' p h o) as [h1 [p1 r]]. cbn [fst snd]. rewrite IH; destruct (hrun V' p1 h1 os) as [h2 [p2 rs]]; [reflexivity|exact S].
  - destruct (hstep V' p h o) as [h1 [p1 r]]. pose proof (hrun_adds V' os p1 h1) as Q. destruct (hrun V' p1 h1 os) as [h2 [p2 rs]]. exact (sees_pre _ _ _ _ _ S Q).
Qed.
Lemma hrun_app V os os' : forall p h, hrun V p h (os ++ os') =
  (let '(h1, (p1, rs)) := hrun V p h os in let '(h2, (p2, rs')) := hrun V p1 h1 os' in (h2, (p2, rs ++ rs'))).
Proof.
  induction os as [|o os IH]; intros p h; cbn [hrun app]; [destruct (hrun V p h os') as [h2 [p2 rs']]; reflexivity|].
  destruct (hstep V p h o) as [h1 [p1 r]]. rewrite IH. destruct (hrun V p1 h1 os) as [h2 [p2 rs]]. destruct (hrun V p2 h2 os') as [h3 [p3 rs']]. reflexivity.
Qed.
