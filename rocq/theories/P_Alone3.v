(** Lemmas for C155: prolonging the kernel a handle sees. *)
From Verif Require Import Base M_Buffer M_Struc M_Layouts M_Ata M_TcgDevice M_DriveHandle M_Cdb M_SgDriver M_SgHandle M_NvmeLinux M_LinuxInfo M_LinuxFactory M_LinuxMachine
  P_DriveHandle Spec_Alone P_Alone P_Alone2.

Lemma reply_sh V V' c0 p h o : sees_upto V V' c0 (fst (hstep V' p h o)) -> reply_of V p (c0 ++ h) o = reply_of V' p h o.
Proof.
  intros S. unfold reply_of. rewrite (hstep_sh V V') by exact S. cbn [fst snd]. f_equal. destruct o; try reflexivity; cbn [hstep] in S.
  - rewrite (sec_sh V V'); [reflexivity|]. destruct (security_command _ _ _ _ _ _ _ _ _) as [h1 [e b]]. exact S.
  - revert S. unfold ata_do_task_file_cmd. destruct (p_dh p) as [ty|]; [|reflexivity]. destruct (is_ata ty); [|reflexivity]. cbv zeta. rewrite <- app_assoc.
    match goal with |- context [v_io V' ?k] => set (k0 := k) end. intros S.
    assert (E : sees V V' c0 k0) by (apply S; destruct (v_io V' k0); apply pre_refl). rewrite (sees_io _ _ _ _ E), (sees_tf _ _ _ _ E). destruct (v_io V' k0). reflexivity.
  - revert S. unfold nvme_get_log_page. destruct (p_dh p) as [ty|]; [|reflexivity]. destruct (is_nvme ty); [|reflexivity]. cbv zeta. rewrite <- app_assoc.
    match goal with |- context [v_log V' ?k] => set (k0 := k) end. intros S.
    assert (E : v_log V (c0 ++ k0) = v_log V' k0) by (apply sees_log, S; destruct (v_log V' k0); apply pre_refl). cbn [fst snd]. now rewrite E.
Qed.
Lemma hrun_cons V p h o os : hrun V p h (o :: os) =
  (fst (hrun V (fst (snd (hstep V p h o))) (fst (hstep V p h o)) os),
   (fst (snd (hrun V (fst (snd (hstep V p h o))) (fst (hstep V p h o)) os)), snd (snd (hstep V p h o)) :: snd (snd (hrun V (fst (snd (hstep V p h o))) (fst (hstep V p h o)) os)))).
Proof. cbn [hrun]. destruct (hstep V p h o) as [h1 [p1 r]]. cbn [fst snd]. destruct (hrun V p1 h1 os) as [h2 [p2 rs]]. reflexivity. Qed.
Lemma replies_sh V V' c0 os : forall p h, sees_upto V V' c0 (fst (hrun V' p h os)) -> replies V p (c0 ++ h) os = replies V' p h os.
Proof.
  induction os as [|o os IH]; intros p h; cbn [replies]; [reflexivity|]. rewrite hrun_cons. cbn [fst]. intros S.
  assert (S1 : sees_upto V V' c0 (fst (hstep V' p h o))) by (eapply sees_pre; [exact S|apply hrun_adds]).
  rewrite (reply_sh V V') by exact S1. f_equal. rewrite (hstep_sh V V') by exact S1. cbn [fst snd]. apply IH. exact S.
Qed.
Lemma replies_app V os os' : forall p h, replies V p h (os ++ os') = replies V p h os ++ replies V (fst (snd (hrun V p h os))) (fst (hrun V p h os)) os'.
Proof. induction os as [|o os IH]; intros p h; cbn [replies app]; [reflexivity|]. rewrite IH, hrun_cons. reflexivity. Qed.
Lemma replies_fst V os : forall p h, map fst (replies V p h os) = snd (snd (hrun V p h os)).
Proof. induction os as [|o os IH]; intros p h; cbn [replies map]; [reflexivity|]. rewrite IH, hrun_cons. reflexivity. Qed.

(** [K] up to the history [own], [K'] from there on. *)
Definition splice {C R} (own : list C) (K K' : list C -> R) : list C -> R :=
  fun k => if (List.length k <=? List.length own)%nat then K k else K' (skipn (List.length own) k).
Definition splice_addr {C} (own : list C) (A A' : list C -> N) : list C -> N :=
  fun k => if (List.length k <? List.length own)%nat then A k else A' (skipn (List.length own) k).
Lemma skipn_own {C} (own k : list C) : skipn (List.length own) (own ++ k) = k.
Proof. rewrite skipn_app, skipn_all, Nat.sub_diag. reflexivity. Qed.
Lemma splice_old {C R} (own : list C) (K K' : list C -> R) n : (n <= List.length own)%nat -> kagree n [] (splice own K K') K.
Proof. intros L k Hk. unfold splice. cbn [app]. destruct (Nat.leb_spec (List.length k) (List.length own)); [reflexivity|lia]. Qed.
Lemma splice_new {C R} (own : list C) (K K' : list C -> R) n : kagree n own (splice own K K') K'.
Proof. intros k Hk. unfold splice. rewrite app_length. destruct (Nat.leb_spec (List.length own + List.length k) (List.length own)); [lia|]. now rewrite skipn_own. Qed.
Lemma splice_addr_old {C} (own : list C) (A A' : list C -> N) n : (n <= List.length own)%nat -> aagree n [] (splice_addr own A A') A.
Proof. intros L k Hk. unfold splice_addr. cbn [app]. destruct (Nat.ltb_spec (List.length k) (List.length own)); [reflexivity|lia]. Qed.
Lemma splice_addr_new {C} (own : list C) (A A' : list C -> N) n : aagree n own (splice_addr own A A') A'.
Proof. intros k Hk. unfold splice_addr. rewrite app_length. destruct (Nat.ltb_spec (List.length own + List.length k) (List.length own)); [lia|]. now rewrite skipn_own. Qed.
Lemma splice_values {C R} (own : list C) (K K' : list C -> R) k : splice own K K' k = K k \/ exists k', splice own K K' k = K' k'.
Proof. unfold splice. destruct (_ <=? _)%nat; [now left|right; eauto]. Qed.
Lemma splice_addr_values {C} (own : list C) (A A' : list C -> N) k : splice_addr own A A' k = A k \/ exists k', splice_addr own A A' k = A' k'.
Proof. unfold splice_addr. destruct (_ <? _)%nat; [now left|right; eauto]. Qed.

Lemma upto_of V V' c0 f : (forall k, pre k f -> k <> [] -> sees V V' c0 k) -> sees_upto V V' c0 f.
Proof. intros H k c P. apply H; [exact P|]. destruct k; discriminate. Qed.

(** An NVMe driver whose kernel answers differently only after everything it has asked so far. *)
Lemma nv_same K fd A kh0 id cs K' A' : let own := nv_replay K fd A kh0 cs in
  let V2 := nv_drv (splice own K K') fd (splice_addr own A A') kh0 id in
  nv_replay (splice own K K') fd (splice_addr own A A') kh0 cs = own /\ sees_upto V2 (nv_drv K fd A kh0 id) [] cs.
Proof.
  cbv zeta. set (own := nv_replay K fd A kh0 cs). split.
  - pose proof (nv_replay_sh (splice own K K') K fd (splice_addr own A A') A [] kh0 cs) as E. cbn [app] in E. apply E; [apply splice_old|apply splice_addr_old]; apply Nat.le_refl.
  - apply upto_of. apply (nv_drv_sees _ _ fd _ _ kh0 kh0 id [] cs []); [reflexivity|apply splice_old|apply splice_addr_old]; apply Nat.le_refl.
Qed.
Lemma nv_more K fd A kh0 id cs K' A' f : let own := nv_replay K fd A kh0 cs in
  let V2 := nv_drv (splice own K K') fd (splice_addr own A A') kh0 id in
  sees_upto V2 (nv_drv K' fd A' [] id) cs f /\ nv_replay (splice own K K') fd (splice_addr own A A') kh0 (cs ++ f) = own ++ nv_replay K' fd A' [] f.
Proof.
  cbv zeta. destruct (nv_same K fd A kh0 id cs K' A') as [R _]. set (own := nv_replay K fd A kh0 cs) in *. split.
  - apply upto_of. apply (nv_drv_sees _ _ fd _ _ kh0 [] id cs f own); [rewrite app_nil_r; exact R|apply splice_new|apply splice_addr_new].
  - rewrite nv_replay_app, R. rewrite <- (app_nil_r own) at 3. apply nv_replay_sh; [apply splice_new|apply splice_addr_new].
Qed.
Lemma sg_same K A kh0 id cs K' A' : let own := sg_replay K A kh0 cs in
  let V2 := sg_drv (splice own K K') (splice_addr own A A') kh0 id in
  sg_replay (splice own K K') (splice_addr own A A') kh0 cs = own /\ sees_upto V2 (sg_drv K A kh0 id) [] cs.
Proof.
  cbv zeta. set (own := sg_replay K A kh0 cs). split.
  - pose proof (sg_replay_sh (splice own K K') K (splice_addr own A A') A [] kh0 cs) as E. cbn [app] in E. apply E; [apply splice_old|apply splice_addr_old]; apply Nat.le_refl.
  - apply upto_of. apply (sg_drv_sees _ _ _ _ kh0 kh0 id [] cs []); [reflexivity|apply splice_old|apply splice_addr_old]; apply Nat.le_refl.
Qed.
Lemma sg_more K A kh0 id cs K' A' f : let own := sg_replay K A kh0 cs in
  let V2 := sg_drv (splice own K K') (splice_addr own A A') kh0 id in
  sees_upto V2 (sg_drv K' A' [] id) cs f /\ sg_replay (splice own K K') (splice_addr own A A') kh0 (cs ++ f) = own ++ sg_replay K' A' [] f.
Proof.
  cbv zeta. destruct (sg_same K A kh0 id cs K' A') as [R _]. set (own := sg_replay K A kh0 cs) in *. split.
  - apply upto_of. apply (sg_drv_sees _ _ _ _ kh0 [] id cs f own); [rewrite app_nil_r; exact R|apply splice_new|apply splice_addr_new].
  - rewrite sg_replay_app, R. rewrite <- (app_nil_r own) at 3. apply sg_replay_sh; [apply splice_new|apply splice_addr_new].
Qed.
