(** Lemmas for C155: the two Linux drivers depend on the kernel only at the ioctls they make. *)
From Verif Require Import Base M_Buffer M_Struc M_Layouts M_Ata M_TcgDevice M_DriveHandle M_Cdb M_SgDriver M_SgHandle M_NvmeLinux P_DriveHandle P_Alone.

(** [K] after [k0] answers like [K'] from the start, up to [n] requests; [A] gives the same addresses before each of them. *)
Definition kagree {C R} (n : nat) (k0 : list C) (K K' : list C -> R) : Prop := forall k, (0 < List.length k <= n)%nat -> K (k0 ++ k) = K' k.
Definition aagree {C} (n : nat) (k0 : list C) (A A' : list C -> N) : Prop := forall k, (List.length k < n)%nat -> A (k0 ++ k) = A' k.
Lemma kagree_le {C R} n m k0 (K K' : list C -> R) : kagree n k0 K K' -> (m <= n)%nat -> kagree m k0 K K'.
Proof. intros H L k Hk. apply H. lia. Qed.
Lemma aagree_le {C} n m k0 (A A' : list C -> N) : aagree n k0 A A' -> (m <= n)%nat -> aagree m k0 A A'.
Proof. intros H L k Hk. apply H. lia. Qed.
Lemma pre_length {A} (k f : list A) : pre k f -> (List.length k <= List.length f)%nat.
Proof. intros [r ->]. rewrite app_length. lia. Qed.

(** ---- NVMe ---- *)
Lemma nv_ioctl_sh K K' k0 h c : kagree (S (List.length h)) k0 K K' -> nv_ioctl K (k0 ++ h) c = (k0 ++ fst (nv_ioctl K' h c), snd (nv_ioctl K' h c)).
Proof. intros H. unfold nv_ioctl. cbn [fst snd]. rewrite <- app_assoc. rewrite H; [reflexivity|]. rewrite app_length. cbn. lia. Qed.
Lemma nv_ioctl_len K h c : List.length (fst (nv_ioctl K h c)) = S (List.length h).
Proof. unfold nv_ioctl. cbn [fst]. rewrite app_length. cbn. lia. Qed.
Lemma nv_admin_len K h fd c a : List.length (fst (nv_admin K h fd c a)) = S (List.length h).
Proof.
  unfold nv_admin. cbv zeta. match goal with |- context [nv_ioctl K h ?x] => pose proof (nv_ioctl_len K h x) as L; destruct (nv_ioctl K h x) as [h1 [e [b1 b]]] end. exact L.
Qed.
Lemma nv_admin_sh K K' k0 h fd c a : kagree (S (List.length h)) k0 K K' -> nv_admin K (k0 ++ h) fd c a = (k0 ++ fst (nv_admin K' h fd c a), snd (nv_admin K' h fd c a)).
Proof.
  intros H. unfold nv_admin. cbv zeta. rewrite (nv_ioctl_sh K K') by exact H. match goal with |- context [nv_ioctl K' h ?x] => destruct (nv_ioctl K' h x) as [h1 [e [b1 b]]] end. reflexivity.
Qed.
Definition nv_one (K : nv_kern) (fd : N) (A : nv_hist -> N) (kh : nv_hist) (c : dcall) : nv_hist * (option err * bytes) :=
  match c with CAdmin cmd => let '(k1, (e, cmd')) := nv_admin K kh fd cmd (A kh) in (k1, (e, c_data cmd')) | _ => (kh, (None, [])) end.
Lemma nv_admins_cons K fd A kh c cs : nv_admins K fd A kh (c :: cs) = match cs with [] => nv_one K fd A kh c | _ => nv_admins K fd A (fst (nv_one K fd A kh c)) cs end.
Proof. reflexivity. Qed.
Lemma nv_one_len K fd A kh c : (List.length kh <= List.length (fst (nv_one K fd A kh c)))%nat.
Proof. destruct c; cbn [nv_one fst]; try lia. pose proof (nv_admin_len K kh fd c (A kh)) as L. destruct (nv_admin K kh fd c (A kh)) as [k1 [e c']]. cbn [fst] in *. lia. Qed.
Lemma nv_one_sh K K' fd A A' k0 kh c : kagree (List.length (fst (nv_one K' fd A' kh c))) k0 K K' -> aagree (List.length (fst (nv_one K' fd A' kh c))) k0 A A' ->
  nv_one K fd A (k0 ++ kh) c = (k0 ++ fst (nv_one K' fd A' kh c), snd (nv_one K' fd A' kh c)).
Proof.
  destruct c; cbn [nv_one]; try reflexivity. pose proof (nv_admin_len K' kh fd c (A' kh)) as L. intros HK HA.
  rewrite (HA kh). 2: { destruct (nv_admin K' kh fd c (A' kh)) as [k1 [e c']]. cbn [fst] in *. lia. }
  rewrite (nv_admin_sh K K'). 2: { eapply kagree_le; [exact HK|]. destruct (nv_admin K' kh fd c (A' kh)) as [k1 [e c']]. cbn [fst] in *. lia. }
  destruct (nv_admin K' kh fd c (A' kh)) as [k1 [e c']]. reflexivity.
Qed.
Lemma nv_admins_len K fd A cs : forall kh, (List.length kh <= List.length (fst (nv_admins K fd A kh cs)))%nat.
Proof.
  induction cs as [|c cs IH]; intros kh; [cbn; lia|]. rewrite nv_admins_cons. pose proof (nv_one_len K fd A kh c) as L.
  destruct cs as [|c' cs]; [exact L|]. exact (Nat.le_trans _ _ _ L (IH _)).
Qed.
Lemma nv_admins_snoc K fd A cs x : forall kh, (List.length (fst (nv_admins K fd A kh cs)) <= List.length (fst (nv_admins K fd A kh (cs ++ x))))%nat.
Proof.
  induction cs as [|c cs IH]; intros kh; cbn [app]; [cbn [nv_admins fst]; apply nv_admins_len|]. rewrite !nv_admins_cons.
  destruct cs as [|c' cs]; [destruct x as [|y x]; cbn [app]; [lia|apply nv_admins_len]|]. exact (IH _).
Qed.
Lemma nv_admins_sh K K' fd A A' k0 cs : forall kh, kagree (List.length (fst (nv_admins K' fd A' kh cs))) k0 K K' -> aagree (List.length (fst (nv_admins K' fd A' kh cs))) k0 A A' ->
  nv_admins K fd A (k0 ++ kh) cs = (k0 ++ fst (nv_admins K' fd A' kh cs), snd (nv_admins K' fd A' kh cs)).
Proof.
  induction cs as [|c cs IH]; intros kh; [reflexivity|]. rewrite !nv_admins_cons. intros HK HA. destruct cs as [|c' cs]; [now apply nv_one_sh|].
  pose proof (nv_admins_len K' fd A' (c' :: cs) (fst (nv_one K' fd A' kh c))) as L.
  rewrite (nv_one_sh K K' fd A A') by (exact (kagree_le _ _ _ _ _ HK L) || exact (aagree_le _ _ _ _ _ HA L)). cbn [fst]. apply IH; assumption.
Qed.
Lemma log_loop_adds V fuel nsid logId rae n : forall off data e h, pre h (fst (log_page_loop V fuel nsid logId rae n off data e h)).
Proof.
  induction fuel as [|f IH]; intros off data e h; cbn [log_page_loop]; (destruct (n <=? off); [apply pre_refl|]); [apply pre_refl|]. cbv zeta.
  destruct (v_io V _) as [[x|] new]; [|apply pre_app]. eapply pre_trans; [apply pre_app|apply IH].
Qed.
Lemma log_loop_sh V V' fuel nsid logId rae n : forall off data e h,
  (forall k, pre k (fst (log_page_loop V' fuel nsid logId rae n off data e h)) -> v_io V k = v_io V' k) ->
  log_page_loop V fuel nsid logId rae n off data e h = log_page_loop V' fuel nsid logId rae n off data e h.
Proof.
  induction fuel as [|f IH]; intros off data e h; cbn [log_page_loop]; (destruct (n <=? off); [reflexivity|]); [reflexivity|]. cbv zeta.
  match goal with |- context [v_io V' ?k] => set (k0 := k) end. intros S.
  assert (E : v_io V k0 = v_io V' k0) by (apply S; destruct (v_io V' k0) as [[x|] new]; [apply log_loop_adds|apply pre_refl]). rewrite E.
  destruct (v_io V' k0) as [[x|] new]; [|reflexivity]. apply IH. exact S.
Qed.
Lemma nv_log_sh K K' fd A A' k0 kh nsid logId rae size :
  kagree (List.length (fst (nv_log_page K' fd A' kh nsid logId rae size))) k0 K K' -> aagree (List.length (fst (nv_log_page K' fd A' kh nsid logId rae size))) k0 A A' ->
  nv_log_page K fd A (k0 ++ kh) nsid logId rae size = (k0 ++ fst (nv_log_page K' fd A' kh nsid logId rae size), snd (nv_log_page K' fd A' kh nsid logId rae size)).
Proof.
  unfold nv_log_page, nvme_get_log_page_by_admin_passthru. destruct (size <? 0)%Z; [reflexivity|]. cbv zeta.
  generalize (zeros (N.to_nat (Z.to_N size))). intros d0. generalize (N.to_nat (Z.to_N size / 4096 + 1)). intros f0. generalize (Z.to_N size). intros n0.
  destruct (log_page_loop (nv_admin_drv K' fd A' kh) f0 nsid logId rae n0 0 d0 None []) as [cs r] eqn:E. cbn [fst snd]. intros HK HA.
  assert (Q : log_page_loop (nv_admin_drv K fd A (k0 ++ kh)) f0 nsid logId rae n0 0 d0 None [] = (cs, r)).
  { rewrite <- E. apply log_loop_sh. rewrite E. cbn [fst]. intros k [x Ek]. cbn [nv_admin_drv v_io]. pose proof (nv_admins_snoc K' fd A' k x kh) as L. rewrite <- Ek in L.
    rewrite (nv_admins_sh K K' fd A A'); [reflexivity|exact (kagree_le _ _ _ _ _ HK L)|exact (aagree_le _ _ _ _ _ HA L)]. }
  rewrite Q. rewrite (nv_admins_sh K K' fd A A') by assumption. reflexivity.
Qed.
Lemma nv_exec_sh K K' fd A A' k0 kh c : kagree (List.length (fst (nv_exec K' fd A' kh c))) k0 K K' -> aagree (List.length (fst (nv_exec K' fd A' kh c))) k0 A A' ->
  nv_exec K fd A (k0 ++ kh) c = (k0 ++ fst (nv_exec K' fd A' kh c), snd (nv_exec K' fd A' kh c)).
Proof.
  destruct c; cbn [nv_exec]; try reflexivity.
  - pose proof (nv_admin_len K' kh fd c (A' kh)) as L. intros HK HA. rewrite (HA kh). 2: { destruct (nv_admin K' kh fd c (A' kh)) as [k1 [e c']]. cbn [fst] in *. lia. }
    rewrite (nv_admin_sh K K'). 2: { eapply kagree_le; [exact HK|]. destruct (nv_admin K' kh fd c (A' kh)) as [k1 [e c']]. cbn [fst] in *. lia. }
    destruct (nv_admin K' kh fd c (A' kh)) as [k1 [e c']]. reflexivity.
  - cbn [fst snd]. intros HK HA. now rewrite (nv_log_sh K K' fd A A').
Qed.
Lemma nv_exec_len K fd A kh c : (List.length kh <= List.length (fst (nv_exec K fd A kh c)))%nat.
Proof.
  destruct c; cbn [nv_exec]; try apply Nat.le_refl.
  - pose proof (nv_admin_len K kh fd c (A kh)) as L. destruct (nv_admin K kh fd c (A kh)) as [k1 [e c']]. cbn [fst] in *. lia.
  - cbn [fst]. unfold nv_log_page. destruct (nvme_get_log_page_by_admin_passthru _ _ _ _ _ _) as [cs r]. cbn [fst]. apply nv_admins_len.
Qed.
Lemma nv_replay_snoc K fd A kh cs c : nv_replay K fd A kh (cs ++ [c]) = fst (nv_exec K fd A (nv_replay K fd A kh cs) c).
Proof. unfold nv_replay. now rewrite fold_left_app. Qed.
Lemma nv_replay_app K fd A kh cs cs' : nv_replay K fd A kh (cs ++ cs') = nv_replay K fd A (nv_replay K fd A kh cs) cs'.
Proof. unfold nv_replay. now rewrite fold_left_app. Qed.
Lemma nv_replay_len K fd A cs : forall kh, (List.length kh <= List.length (nv_replay K fd A kh cs))%nat.
Proof. induction cs as [|c cs IH]; intros kh; [cbn; lia|]. cbn [nv_replay fold_left]. etransitivity; [apply (nv_exec_len K fd A kh c)|apply IH]. Qed.
Lemma nv_replay_sh K K' fd A A' k0 kh cs : kagree (List.length (nv_replay K' fd A' kh cs)) k0 K K' -> aagree (List.length (nv_replay K' fd A' kh cs)) k0 A A' ->
  nv_replay K fd A (k0 ++ kh) cs = k0 ++ nv_replay K' fd A' kh cs.
Proof.
  induction cs as [|c cs IH] using rev_ind; intros HK HA; [reflexivity|]. rewrite !nv_replay_snoc in *.
  pose proof (nv_exec_len K' fd A' (nv_replay K' fd A' kh cs) c) as L.
  rewrite IH by (eapply kagree_le || eapply aagree_le; eassumption). now rewrite (nv_exec_sh K K' fd A A').
Qed.
Lemma last_call_snoc cs c : last_call (cs ++ [c]) = Some (cs, c).
Proof. unfold last_call. rewrite rev_app_distr. cbn. now rewrite rev_involutive. Qed.
(** The NVMe driver after the calls [c0]. *)
Lemma nv_drv_sees K K' fd A A' kh0 kh id c0 f k0 : nv_replay K fd A kh0 c0 = k0 ++ kh ->
  kagree (List.length (nv_replay K' fd A' kh f)) k0 K K' -> aagree (List.length (nv_replay K' fd A' kh f)) k0 A A' ->
  forall k, pre k f -> k <> [] -> sees (nv_drv K fd A kh0 id) (nv_drv K' fd A' kh id) c0 k.
Proof.
  intros R HK HA k [x ->] Hk. destruct (exists_last Hk) as (b & c & ->). clear Hk.
  assert (L1 : (List.length (nv_replay K' fd A' kh (b ++ [c])) <= List.length (nv_replay K' fd A' kh ((b ++ [c]) ++ x)))%nat) by (rewrite (nv_replay_app K' fd A' kh (b ++ [c]) x); apply nv_replay_len).
  assert (L2 : (List.length (nv_replay K' fd A' kh b) <= List.length (nv_replay K' fd A' kh (b ++ [c])))%nat) by (rewrite nv_replay_app; apply nv_replay_len).
  assert (E : nv_replay K fd A kh0 (c0 ++ b) = k0 ++ nv_replay K' fd A' kh b).
  { rewrite nv_replay_app, R. apply nv_replay_sh; [eapply kagree_le|eapply aagree_le]; try eassumption; lia. }
  assert (X : nv_exec K fd A (k0 ++ nv_replay K' fd A' kh b) c = (k0 ++ fst (nv_exec K' fd A' (nv_replay K' fd A' kh b) c), snd (nv_exec K' fd A' (nv_replay K' fd A' kh b) c))).
  { rewrite nv_replay_snoc in L1. apply nv_exec_sh; [eapply kagree_le|eapply aagree_le]; try eassumption; lia. }
  constructor; cbn [nv_drv v_io v_tf v_identity v_log v_type v_name]; try reflexivity; rewrite app_assoc, !last_call_snoc, E.
  - now rewrite X.
  - destruct c; try reflexivity. rewrite nv_replay_snoc in L1. cbn [nv_exec fst] in L1.
    rewrite (nv_log_sh K K' fd A A'); [reflexivity|eapply kagree_le|eapply aagree_le]; try eassumption; lia.
Qed.
Lemma nv_open_sh K K' fd a : kagree 1 [] K K' -> nv_open K [] fd a = nv_open K' [] fd a.
Proof. intros H. unfold nv_open. pose proof (nv_admin_sh K K' [] [] fd identify_cmd a H) as E. cbn [app] in E. rewrite E. destruct (nv_admin K' [] fd identify_cmd a) as [h1 [e c]]. reflexivity. Qed.
Lemma nv_open_len K fd a : List.length (fst (nv_open K [] fd a)) = 1%nat.
Proof.
  unfold nv_open. pose proof (nv_admin_len K [] fd identify_cmd a) as L. destruct (nv_admin K [] fd identify_cmd a) as [h1 [e c]].
  destruct e; [exact L|]. destruct (negb _); exact L.
Qed.

(** ---- SG ---- *)
Lemma sg_ioctl_sh K K' k0 h c s : kagree (S (List.length h)) k0 K K' -> sg_ioctl K (k0 ++ h) c s = (k0 ++ fst (sg_ioctl K' h c s), snd (sg_ioctl K' h c s)).
Proof. intros H. unfold sg_ioctl. cbn [fst snd]. rewrite <- app_assoc. rewrite H; [reflexivity|]. rewrite app_length. cbn. lia. Qed.
Lemma sg_ioctl_len K h c s : List.length (fst (sg_ioctl K h c s)) = S (List.length h).
Proof. unfold sg_ioctl. cbn [fst]. rewrite app_length. cbn. lia. Qed.
Definition sg_second (K : kern) (mk : xfer -> bytes -> sg_call) (h1 : sg_hist) (data1 : option bytes) (s1 : sg_state) : sg_hist * res (option err * (option bytes * sg_state)) :=
    let '(h2, (e2, (_, s2))) := sg_ioctl K h1 (mk (XAddr sizeof_sg) []) s1 in
    match e2 with
    | Some e => (h2, Ok (Some e, (data1, s2)))
    | None => (h2, Ok (None, (data1, s1)))
    end.
Lemma sg_second_len K mk h d s : List.length (fst (sg_second K mk h d s)) = S (List.length h).
Proof. unfold sg_second. pose proof (sg_ioctl_len K h (mk (XAddr sizeof_sg) []) s) as L. destruct (sg_ioctl _ _ _ _) as [h2 [[e|] [m s2]]]; exact L. Qed.
Lemma sg_second_sh K K' mk k0 h d s : kagree (S (List.length h)) k0 K K' -> sg_second K mk (k0 ++ h) d s = (k0 ++ fst (sg_second K' mk h d s), snd (sg_second K' mk h d s)).
Proof. intros H. unfold sg_second. rewrite (sg_ioctl_sh K K') by exact H. destruct (sg_ioctl _ _ _ _) as [h2 [[e|] [m s2]]]; reflexivity. Qed.
Lemma sg_tries_eq K h mk rw data addr : sg_tries K h mk rw data addr =
  match data with
  | None => let '(h1, (e1, (_, s1))) := sg_ioctl K h (mk XHeader []) sg_state0 in
            match e1 with None => (h1, Ok (None, (None, s1))) | Some _ => sg_second K mk h1 None s1 end
  | Some [] => (h, Panic)
  | Some d =>
    if addr mod 512 =? 0 then
      let '(h1, (e1, (mem, s1))) := sg_ioctl K h (mk XCaller d) sg_state0 in
      match e1 with None => (h1, Ok (None, (Some mem, s1))) | Some _ => sg_second K mk h1 (Some mem) s1 end
    else
      let b0 := new_aligned (List.length d) in
      let b1 := if rw then fst (buf_write (reset_write b0) d) else b0 in
      let '(h1, (e1, (mem, s1))) := sg_ioctl K h (mk XBounce (a_data b1)) sg_state0 in
      match e1 with
      | None => if rw then (h1, Ok (None, (data, s1)))
                else match snd (buf_read (reset_read (with_data b1 mem)) (List.length d)) with
                     | Ok got => (h1, Ok (None, (Some (fill d got), s1))) | Err _ => (h1, Ok (None, (data, s1))) | Panic => (h1, Panic) | Fuel => (h1, Fuel) end
      | Some _ => sg_second K mk h1 data s1
      end
  end.
Proof. unfold sg_tries, sg_second. destruct data as [[|b d]|]; reflexivity. Qed.
Lemma sg_tries_len K h mk rw data addr : (List.length h <= List.length (fst (sg_tries K h mk rw data addr)))%nat.
Proof.
  rewrite sg_tries_eq. cbv zeta. destruct data as [[|b d]|]; [cbn; lia|destruct (addr mod 512 =? 0)|].
  - match goal with |- context [sg_ioctl K h ?c ?s] => pose proof (sg_ioctl_len K h c s) as L; destruct (sg_ioctl K h c s) as [h1 [[e|] [m s1]]] end; cbn [fst] in *; [rewrite sg_second_len|]; lia.
  - match goal with |- context [sg_ioctl K h ?c ?s] => pose proof (sg_ioctl_len K h c s) as L; destruct (sg_ioctl K h c s) as [h1 [[e|] [m s1]]] end; cbn [fst] in *; [rewrite sg_second_len; lia|].
    destruct rw; [cbn [fst]; lia|]. destruct (snd (buf_read _ _)); cbn [fst]; lia.
  - match goal with |- context [sg_ioctl K h ?c ?s] => pose proof (sg_ioctl_len K h c s) as L; destruct (sg_ioctl K h c s) as [h1 [[e|] [m s1]]] end; cbn [fst] in *; [rewrite sg_second_len|]; lia.
Qed.
Lemma sg_tries_sh K K' k0 h mk rw data addr : kagree (List.length (fst (sg_tries K' h mk rw data addr))) k0 K K' ->
  sg_tries K (k0 ++ h) mk rw data addr = (k0 ++ fst (sg_tries K' h mk rw data addr), snd (sg_tries K' h mk rw data addr)).
Proof.
  rewrite !sg_tries_eq. cbv zeta. destruct data as [[|b d]|]; [reflexivity|destruct (addr mod 512 =? 0)|].
  - match goal with |- context [sg_ioctl K' h ?c ?s] => set (c0 := c); set (s0 := s); pose proof (sg_ioctl_len K' h c0 s0) as L end. intros HK. rewrite (sg_ioctl_sh K K').
    + destruct (sg_ioctl K' h c0 s0) as [h1 [[e|] [m s1]]]; cbn [fst snd] in *; [|reflexivity]. apply sg_second_sh. rewrite sg_second_len in HK. exact HK.
    + eapply kagree_le; [exact HK|]. destruct (sg_ioctl K' h c0 s0) as [h1 [[e|] [m s1]]]; cbn [fst snd] in *; [rewrite sg_second_len|]; lia.
  - match goal with |- context [sg_ioctl K' h ?c ?s] => set (c0 := c); set (s0 := s); pose proof (sg_ioctl_len K' h c0 s0) as L end. intros HK. rewrite (sg_ioctl_sh K K').
    + destruct (sg_ioctl K' h c0 s0) as [h1 [[e|] [m s1]]]; cbn [fst snd] in *; [apply sg_second_sh; rewrite sg_second_len in HK; exact HK|].
      destruct rw; [reflexivity|]. destruct (snd (buf_read _ _)); reflexivity.
    + eapply kagree_le; [exact HK|]. destruct (sg_ioctl K' h c0 s0) as [h1 [[e|] [m s1]]]; cbn [fst snd] in *; [rewrite sg_second_len; lia|].
      destruct rw; [cbn [fst]; lia|]. destruct (snd (buf_read _ _)); cbn [fst]; lia.
  - match goal with |- context [sg_ioctl K' h ?c ?s] => set (c0 := c); set (s0 := s); pose proof (sg_ioctl_len K' h c0 s0) as L end. intros HK. rewrite (sg_ioctl_sh K K').
    + destruct (sg_ioctl K' h c0 s0) as [h1 [[e|] [m s1]]]; cbn [fst snd] in *; [|reflexivity]. apply sg_second_sh. rewrite sg_second_len in HK. exact HK.
    + eapply kagree_le; [exact HK|]. destruct (sg_ioctl K' h c0 s0) as [h1 [[e|] [m s1]]]; cbn [fst snd] in *; [rewrite sg_second_len|]; lia.
Qed.
(** An address only matters if a request is made. *)
Lemma sg_tries_addr K h mk rw data a a' : List.length (fst (sg_tries K h mk rw data a')) = List.length h -> sg_tries K h mk rw data a = sg_tries K h mk rw data a'.
Proof.
  rewrite !sg_tries_eq. cbv zeta. destruct data as [[|b d]|]; try reflexivity. intros L. exfalso. destruct (a' mod 512 =? 0).
  - match type of L with context [sg_ioctl K h ?c ?s] => pose proof (sg_ioctl_len K h c s) as L1; destruct (sg_ioctl K h c s) as [h1 [[e|] [m s1]]] end; cbn [fst] in *;
      [rewrite sg_second_len in L|]; lia.
  - match type of L with context [sg_ioctl K h ?c ?s] => pose proof (sg_ioctl_len K h c s) as L1; destruct (sg_ioctl K h c s) as [h1 [[e|] [m s1]]] end; cbn [fst] in *;
      [rewrite sg_second_len in L; lia|]. destruct rw; [cbn [fst] in L; lia|]. destruct (snd (buf_read _ _)); cbn [fst] in L; lia.
Qed.
Lemma sg_tries_both K K' k0 h mk rw data a a' : kagree (List.length (fst (sg_tries K' h mk rw data a'))) k0 K K' -> ((List.length h < List.length (fst (sg_tries K' h mk rw data a')))%nat -> a = a') ->
  sg_tries K (k0 ++ h) mk rw data a = (k0 ++ fst (sg_tries K' h mk rw data a'), snd (sg_tries K' h mk rw data a')).
Proof.
  intros HK HA. pose proof (sg_tries_len K' h mk rw data a') as L.
  assert (D : (List.length h < List.length (fst (sg_tries K' h mk rw data a')))%nat \/ List.length (fst (sg_tries K' h mk rw data a')) = List.length h) by lia. destruct D as [D|D].
  - rewrite (HA D). now apply sg_tries_sh.
  - rewrite <- (sg_tries_addr K' h mk rw data a a' D). apply sg_tries_sh. rewrite (sg_tries_addr K' h mk rw data a a' D). exact HK.
Qed.
Definition sec_post (data0 : bytes) (r : res (option err * (option bytes * sg_state))) : res (option err * bytes) :=
  match r with
  | Ok (e, (d, s)) =>
    let d' := match d with Some x => x | None => data0 end in
    match (match e with None => sense_error s | Some _ => None end) with Some x => Ok (Some x, d') | None => Ok (e, d') end
  | Err x => Err x | Panic => Panic | Fuel => Fuel
  end.
Lemma sg_security_eq K h rw dma protocol comId data addr secs : sg_security K h rw dma protocol comId data addr secs =
  let data0 := if rw then data else zeros (List.length data) in
  let T := sg_tries K h (security_request rw protocol comId data secs) rw (Some data0) addr in (fst T, sec_post data0 (snd T)).
Proof.
  unfold sg_security, sec_post. cbv zeta. destruct (sg_tries _ _ _ _ _ _) as [h1 [[e [d s]]| | |]]; try reflexivity. cbn [fst snd].
  destruct (match e with Some _ => None | None => _ end); reflexivity.
Qed.
Definition task_post (t : tf) (r : res (option err * (option bytes * sg_state))) : res (option err * (tf * option bytes)) :=
  match r with
  | Ok (e, (d, s)) => match (match e with None => sense_error s | Some _ => None end) with Some x => Ok (Some x, (t, d)) | None => Ok (e, (task_result s t, d)) end
  | Err x => Err x | Panic => Panic | Fuel => Fuel
  end.
Lemma sg_task_eq K h rw dma t data addr secs : sg_task_file K h rw dma t data addr secs =
  let T := sg_tries K h (task_request rw dma t data secs) rw (if rw then option_map (fun d => zeros (List.length d)) data else data) addr in (fst T, task_post t (snd T)).
Proof.
  unfold sg_task_file, task_post. cbv zeta. destruct (sg_tries _ _ _ _ _ _) as [h1 [[e [d s]]| | |]]; try reflexivity. cbn [fst snd].
  destruct (match e with Some _ => None | None => _ end); reflexivity.
Qed.
Lemma sg_exec_len K A kh c : (List.length kh <= List.length (fst (sg_exec K A kh c)))%nat.
Proof.
  destruct c; cbn [sg_exec]; try apply Nat.le_refl; [rewrite sg_security_eq|rewrite sg_task_eq]; cbv zeta; cbn [fst]; apply sg_tries_len.
Qed.
Lemma sg_exec_sh K K' A A' k0 kh c : kagree (List.length (fst (sg_exec K' A' kh c))) k0 K K' -> aagree (List.length (fst (sg_exec K' A' kh c))) k0 A A' ->
  sg_exec K A (k0 ++ kh) c = (k0 ++ fst (sg_exec K' A' kh c), snd (sg_exec K' A' kh c)).
Proof.
  destruct c; cbn [sg_exec]; try reflexivity; [rewrite !sg_security_eq|rewrite !sg_task_eq]; cbv zeta; cbn [fst snd]; intros HK HA;
    (rewrite (sg_tries_both K K') with (a' := A' kh); [reflexivity|exact HK|intros D; apply HA; exact D]).
Qed.
Lemma sg_replay_snoc K A kh cs c : sg_replay K A kh (cs ++ [c]) = fst (sg_exec K A (sg_replay K A kh cs) c).
Proof. unfold sg_replay. now rewrite fold_left_app. Qed.
Lemma sg_replay_app K A kh cs cs' : sg_replay K A kh (cs ++ cs') = sg_replay K A (sg_replay K A kh cs) cs'.
Proof. unfold sg_replay. now rewrite fold_left_app. Qed.
Lemma sg_replay_len K A cs : forall kh, (List.length kh <= List.length (sg_replay K A kh cs))%nat.
Proof. induction cs as [|c cs IH]; intros kh; [cbn; lia|]. cbn [sg_replay fold_left]. etransitivity; [apply (sg_exec_len K A kh c)|apply IH]. Qed.
Lemma sg_replay_sh K K' A A' k0 kh cs : kagree (List.length (sg_replay K' A' kh cs)) k0 K K' -> aagree (List.length (sg_replay K' A' kh cs)) k0 A A' ->
  sg_replay K A (k0 ++ kh) cs = k0 ++ sg_replay K' A' kh cs.
Proof.
  induction cs as [|c cs IH] using rev_ind; intros HK HA; [reflexivity|]. rewrite !sg_replay_snoc in *.
  pose proof (sg_exec_len K' A' (sg_replay K' A' kh cs) c) as L.
  rewrite IH by (eapply kagree_le || eapply aagree_le; eassumption). now rewrite (sg_exec_sh K K' A A').
Qed.
Lemma sg_current_snoc cs c : sg_current (cs ++ [c]) = Some (cs, c).
Proof. unfold sg_current. rewrite rev_app_distr. cbn. now rewrite rev_involutive. Qed.
Lemma sg_drv_sees K K' A A' kh0 kh id c0 f k0 : sg_replay K A kh0 c0 = k0 ++ kh ->
  kagree (List.length (sg_replay K' A' kh f)) k0 K K' -> aagree (List.length (sg_replay K' A' kh f)) k0 A A' ->
  forall k, pre k f -> k <> [] -> sees (sg_drv K A kh0 id) (sg_drv K' A' kh id) c0 k.
Proof.
  intros R HK HA k [x ->] Hk. destruct (exists_last Hk) as (b & c & ->). clear Hk.
  assert (L1 : (List.length (sg_replay K' A' kh (b ++ [c])) <= List.length (sg_replay K' A' kh ((b ++ [c]) ++ x)))%nat) by (rewrite (sg_replay_app K' A' kh (b ++ [c]) x); apply sg_replay_len).
  assert (L2 : (List.length (sg_replay K' A' kh b) <= List.length (sg_replay K' A' kh (b ++ [c])))%nat) by (rewrite sg_replay_app; apply sg_replay_len).
  assert (E : sg_replay K A kh0 (c0 ++ b) = k0 ++ sg_replay K' A' kh b).
  { rewrite sg_replay_app, R. apply sg_replay_sh; [eapply kagree_le|eapply aagree_le]; try eassumption; lia. }
  assert (X : sg_exec K A (k0 ++ sg_replay K' A' kh b) c = (k0 ++ fst (sg_exec K' A' (sg_replay K' A' kh b) c), snd (sg_exec K' A' (sg_replay K' A' kh b) c))).
  { rewrite sg_replay_snoc in L1. apply sg_exec_sh; [eapply kagree_le|eapply aagree_le]; try eassumption; lia. }
  constructor; cbn [sg_drv v_io v_tf v_identity v_log v_type v_name]; try reflexivity; rewrite app_assoc, !sg_current_snoc, E, X; reflexivity.
Qed.
Lemma sg_tries_ge K h mk rw b d addr : (S (List.length h) <= List.length (fst (sg_tries K h mk rw (Some (b :: d)) addr)))%nat.
Proof.
  rewrite sg_tries_eq. cbv zeta. destruct (addr mod 512 =? 0).
  - match goal with |- context [sg_ioctl K h ?c ?s] => pose proof (sg_ioctl_len K h c s) as L; destruct (sg_ioctl K h c s) as [h1 [[e|] [m s1]]] end; cbn [fst] in *; [rewrite sg_second_len|]; lia.
  - match goal with |- context [sg_ioctl K h ?c ?s] => pose proof (sg_ioctl_len K h c s) as L; destruct (sg_ioctl K h c s) as [h1 [[e|] [m s1]]] end; cbn [fst] in *; [rewrite sg_second_len; lia|].
    destruct rw; [cbn [fst]; lia|]. destruct (snd (buf_read _ _)); cbn [fst]; lia.
Qed.
Lemma sg_open_len K a : (1 <= List.length (fst (sg_open K [] a)))%nat.
Proof.
  unfold sg_open. rewrite sg_task_eq. cbv zeta. set (T := sg_tries _ _ _ _ _ _).
  assert (L : (1 <= List.length (fst T))%nat) by (apply (sg_tries_ge K [])).
  destruct (task_post identify_tf (snd T)) as [[[e|] [t d]]| | |]; cbn [fst]; exact L.
Qed.
Lemma sg_open_sh K K' a : kagree (List.length (fst (sg_open K' [] a))) [] K K' -> sg_open K [] a = sg_open K' [] a.
Proof.
  unfold sg_open. rewrite !sg_task_eq. cbv zeta. intros H.
  match goal with |- context [sg_tries K' [] ?mk ?rw ?d a] => pose proof (sg_tries_sh K K' [] [] mk rw d a) as E; set (T := sg_tries K' [] mk rw d a) in * end. cbn [app] in E. rewrite E.
  - reflexivity.
  - eapply kagree_le; [exact H|]. destruct (task_post identify_tf (snd T)) as [[[e|] [t d]]| | |]; cbn [fst]; apply Nat.le_refl.
Qed.
