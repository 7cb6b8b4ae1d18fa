(** Lemmas for C188: as P_Alone2, for kernels that agree on the requests made on one descriptor. *)
From Verif Require Import Base M_Buffer M_Struc M_Layouts M_Ata M_TcgDevice M_DriveHandle M_Cdb M_SgDriver M_SgHandle M_NvmeLinux P_DriveHandle P_Alone P_Alone2.

Section Apart.
Variable fd : N.
(** [K] after [k0] answers requests on [fd] like [K'] from the start, up to [n] requests. *)
Definition kagreef (n : nat) (k0 : nv_hist) (K K' : nv_kern) : Prop := forall k c, (List.length k < n)%nat -> nc_fd c = fd -> K (k0 ++ k ++ [c]) = K' (k ++ [c]).
Lemma kagreef_le n m k0 (K K' : nv_kern) : kagreef n k0 K K' -> (m <= n)%nat -> kagreef m k0 K K'.
Proof. intros H L k c Hk E. apply H; [lia|exact E]. Qed.
Lemma nv_ioctl_shf K K' k0 h c : nc_fd c = fd -> kagreef (S (List.length h)) k0 K K' -> nv_ioctl K (k0 ++ h) c = (k0 ++ fst (nv_ioctl K' h c), snd (nv_ioctl K' h c)).
Proof. intros F H. unfold nv_ioctl. cbv zeta. rewrite <- app_assoc. rewrite (H h c) by (exact F || lia). reflexivity. Qed.
Lemma nv_admin_shf K K' k0 h c a : kagreef (S (List.length h)) k0 K K' -> nv_admin K (k0 ++ h) fd c a = (k0 ++ fst (nv_admin K' h fd c a), snd (nv_admin K' h fd c a)).
Proof.
  intros H. unfold nv_admin. cbv zeta. rewrite (nv_ioctl_shf K K') by (reflexivity || exact H). match goal with |- context [nv_ioctl K' h ?x] => destruct (nv_ioctl K' h x) as [h1 [e [b1 b]]] end. reflexivity.
Qed.
Lemma nv_one_shf K K' A A' k0 kh c : kagreef (List.length (fst (nv_one K' fd A' kh c))) k0 K K' -> aagree (List.length (fst (nv_one K' fd A' kh c))) k0 A A' ->
  nv_one K fd A (k0 ++ kh) c = (k0 ++ fst (nv_one K' fd A' kh c), snd (nv_one K' fd A' kh c)).
Proof.
  destruct c; cbn [nv_one]; try reflexivity. pose proof (nv_admin_len K' kh fd c (A' kh)) as L. intros HK HA.
  rewrite (HA kh). 2: { destruct (nv_admin K' kh fd c (A' kh)) as [k1 [e c']]. cbn [fst] in *. lia. }
  rewrite (nv_admin_shf K K'). 2: { eapply kagreef_le; [exact HK|]. destruct (nv_admin K' kh fd c (A' kh)) as [k1 [e c']]. cbn [fst] in *. lia. }
  destruct (nv_admin K' kh fd c (A' kh)) as [k1 [e c']]. reflexivity.
Qed.
Lemma nv_admins_shf K K' A A' k0 cs : forall kh, kagreef (List.length (fst (nv_admins K' fd A' kh cs))) k0 K K' -> aagree (List.length (fst (nv_admins K' fd A' kh cs))) k0 A A' ->
  nv_admins K fd A (k0 ++ kh) cs = (k0 ++ fst (nv_admins K' fd A' kh cs), snd (nv_admins K' fd A' kh cs)).
Proof.
  induction cs as [|c cs IH]; intros kh; [reflexivity|]. rewrite !nv_admins_cons. intros HK HA. destruct cs as [|c' cs]; [now apply nv_one_shf|].
  pose proof (nv_admins_len K' fd A' (c' :: cs) (fst (nv_one K' fd A' kh c))) as L.
  rewrite (nv_one_shf K K' A A') by (exact (kagreef_le _ _ _ _ _ HK L) || exact (aagree_le _ _ _ _ _ HA L)). cbn [fst]. apply IH; assumption.
Qed.
Lemma nv_log_shf K K' A A' k0 kh nsid logId rae size :
  kagreef (List.length (fst (nv_log_page K' fd A' kh nsid logId rae size))) k0 K K' -> aagree (List.length (fst (nv_log_page K' fd A' kh nsid logId rae size))) k0 A A' ->
  nv_log_page K fd A (k0 ++ kh) nsid logId rae size = (k0 ++ fst (nv_log_page K' fd A' kh nsid logId rae size), snd (nv_log_page K' fd A' kh nsid logId rae size)).
Proof.
  unfold nv_log_page, nvme_get_log_page_by_admin_passthru. destruct (size <? 0)%Z; [reflexivity|]. cbv zeta.
  generalize (zeros (N.to_nat (Z.to_N size))). intros d0. generalize (N.to_nat (Z.to_N size / 4096 + 1)). intros f0. generalize (Z.to_N size). intros n0.
  destruct (log_page_loop (nv_admin_drv K' fd A' kh) f0 nsid logId rae n0 0 d0 None []) as [cs r] eqn:E. cbn [fst snd]. intros HK HA.
  assert (Q : log_page_loop (nv_admin_drv K fd A (k0 ++ kh)) f0 nsid logId rae n0 0 d0 None [] = (cs, r)).
  { rewrite <- E. apply log_loop_sh. rewrite E. cbn [fst]. intros k [x Ek]. cbn [nv_admin_drv v_io]. pose proof (nv_admins_snoc K' fd A' k x kh) as L. rewrite <- Ek in L.
    rewrite (nv_admins_shf K K' A A'); [reflexivity|exact (kagreef_le _ _ _ _ _ HK L)|exact (aagree_le _ _ _ _ _ HA L)]. }
  rewrite Q. rewrite (nv_admins_shf K K' A A') by assumption. reflexivity.
Qed.
Lemma nv_exec_shf K K' A A' k0 kh c : kagreef (List.length (fst (nv_exec K' fd A' kh c))) k0 K K' -> aagree (List.length (fst (nv_exec K' fd A' kh c))) k0 A A' ->
  nv_exec K fd A (k0 ++ kh) c = (k0 ++ fst (nv_exec K' fd A' kh c), snd (nv_exec K' fd A' kh c)).
Proof.
  destruct c; cbn [nv_exec]; try reflexivity.
  - pose proof (nv_admin_len K' kh fd c (A' kh)) as L. intros HK HA. rewrite (HA kh). 2: { destruct (nv_admin K' kh fd c (A' kh)) as [k1 [e c']]. cbn [fst] in *. lia. }
    rewrite (nv_admin_shf K K'). 2: { eapply kagreef_le; [exact HK|]. destruct (nv_admin K' kh fd c (A' kh)) as [k1 [e c']]. cbn [fst] in *. lia. }
    destruct (nv_admin K' kh fd c (A' kh)) as [k1 [e c']]. reflexivity.
  - cbn [fst snd]. intros HK HA. now rewrite (nv_log_shf K K' A A').
Qed.
Lemma nv_replay_shf K K' A A' k0 kh cs : kagreef (List.length (nv_replay K' fd A' kh cs)) k0 K K' -> aagree (List.length (nv_replay K' fd A' kh cs)) k0 A A' ->
  nv_replay K fd A (k0 ++ kh) cs = k0 ++ nv_replay K' fd A' kh cs.
Proof.
  induction cs as [|c cs IH] using rev_ind; intros HK HA; [reflexivity|]. rewrite !nv_replay_snoc in *.
  pose proof (nv_exec_len K' fd A' (nv_replay K' fd A' kh cs) c) as L.
  rewrite IH by (eapply kagreef_le || eapply aagree_le; eassumption). now rewrite (nv_exec_shf K K' A A').
Qed.
Lemma nv_drv_seesf K K' A A' kh0 kh id c0 f k0 : nv_replay K fd A kh0 c0 = k0 ++ kh ->
  kagreef (List.length (nv_replay K' fd A' kh f)) k0 K K' -> aagree (List.length (nv_replay K' fd A' kh f)) k0 A A' ->
  forall k, pre k f -> k <> [] -> sees (nv_drv K fd A kh0 id) (nv_drv K' fd A' kh id) c0 k.
Proof.
  intros R HK HA k [x ->] Hk. destruct (exists_last Hk) as (b & c & ->). clear Hk.
  assert (L1 : (List.length (nv_replay K' fd A' kh (b ++ [c])) <= List.length (nv_replay K' fd A' kh ((b ++ [c]) ++ x)))%nat) by (rewrite (nv_replay_app K' fd A' kh (b ++ [c]) x); apply nv_replay_len).
  assert (L2 : (List.length (nv_replay K' fd A' kh b) <= List.length (nv_replay K' fd A' kh (b ++ [c])))%nat) by (rewrite nv_replay_app; apply nv_replay_len).
  assert (E : nv_replay K fd A kh0 (c0 ++ b) = k0 ++ nv_replay K' fd A' kh b).
  { rewrite nv_replay_app, R. apply nv_replay_shf; [eapply kagreef_le|eapply aagree_le]; try eassumption; lia. }
  assert (X : nv_exec K fd A (k0 ++ nv_replay K' fd A' kh b) c = (k0 ++ fst (nv_exec K' fd A' (nv_replay K' fd A' kh b) c), snd (nv_exec K' fd A' (nv_replay K' fd A' kh b) c))).
  { rewrite nv_replay_snoc in L1. apply nv_exec_shf; [eapply kagreef_le|eapply aagree_le]; try eassumption; lia. }
  constructor; cbn [nv_drv v_io v_tf v_identity v_log v_type v_name]; try reflexivity; rewrite app_assoc, !last_call_snoc, E.
  - now rewrite X.
  - destruct c; try reflexivity. rewrite nv_replay_snoc in L1. cbn [nv_exec fst] in L1.
    rewrite (nv_log_shf K K' A A'); [reflexivity|eapply kagreef_le|eapply aagree_le]; try eassumption; lia.
Qed.
End Apart.
