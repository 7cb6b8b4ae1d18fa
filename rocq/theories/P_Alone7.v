(** Lemmas for C156: EnumDrives in a program and alone. *)
From Verif Require Import Base M_Buffer M_Struc M_Layouts M_Ata M_TcgDevice M_DriveHandle M_Cdb M_SgDriver M_SgHandle M_NvmeLinux M_Strings M_LinuxInfo M_LinuxFactory M_LinuxVolume M_LinuxSystem M_LinuxMachine
  P_DriveHandle Spec_LinuxMachine P_LinuxMachine Spec_Alone P_Alone P_Alone2 P_Alone3 P_Alone4 P_Alone5 P_Alone6.

Definition files (g : ghist) : lhist := flat_map (fun e => match e with GFile e => [e] | _ => [] end) g.
Lemma files_app a b : files (a ++ b) = files a ++ files b.
Proof. apply flat_map_app. Qed.
Lemma files_nvme k : files (map GNvme k) = [].
Proof. induction k; [reflexivity|exact IHk]. Qed.
Lemma files_sg fd k : files (map (GSg fd) k) = [].
Proof. induction k; [reflexivity|exact IHk]. Qed.
(** The shortest prefix with [n] file events. *)
Fixpoint cut (n : nat) (g : ghist) : ghist :=
  match n, g with O, _ => [] | _, [] => [] | S m, e :: r => e :: cut (match e with GFile _ => m | _ => n end) r end.
Lemma cut_at g e r : cut (List.length (files (g ++ [GFile e]))) ((g ++ [GFile e]) ++ r) = g ++ [GFile e].
Proof.
  rewrite files_app, app_length. cbn [files flat_map List.length app]. rewrite Nat.add_1_r. induction g as [|a g IH].
  - cbn [files flat_map List.length app cut]. destruct r; reflexivity.
  - destruct a as [a|c|fd c]; cbn [app cut files flat_map List.length]; f_equal; exact IH.
Qed.
Definition last_fd (h : lhist) : N := match rev h with LProbe _ fd :: _ => fd | _ => 0 end.
(** The system on which the actions [G] of machine [M] after [g0] happen alone. *)
Definition solo (M : machine) (g0 G : ghist) : system :=
  let at_ h := g0 ++ cut (List.length h) G in
  {| sy_world := {| w_open := fun h => m_open M (at_ h); w_basic := fun h => m_basic M (at_ h); w_ids := fun h => m_ids M (at_ h); w_probe := fun _ => inl (EMsg "");
                    w_dir := fun h => m_dir M (at_ h); w_mode := fun h => m_mode M (at_ h) |};
     sy_nvme := fun h => nvme_at M (at_ h); sy_nvme_addr := fun h => nvme_addr_at M (at_ h);
     sy_sg := fun h => sg_at M (at_ h) (last_fd h); sy_sg_addr := fun h => sg_addr_at M (at_ h) (last_fd h) |}.

(** The factory's functions only add to the history. *)
Lemma gprobe_pre M g n fd : pre g (fst (gprobe M g n fd)).
Proof.
  unfold gprobe. destruct n; [destruct (nv_open _ _ _ _)|destruct (sg_open _ _ _)]; apply pre_app.
Qed.
Lemma ginstall_pre M g x d : pre g (fst (ginstall M g x d)).
Proof. unfold ginstall. cbv zeta. destruct (init _ _ _) as [cs [p r]]. apply pre_app. Qed.
Lemma one_pre M g n fd x : pre g (fst (match gprobe M g n fd with (g1, None) => (g1, (x, Ok tt)) | (g1, Some d) => ginstall M g1 x d end)).
Proof.
  pose proof (gprobe_pre M g n fd) as P. destruct (gprobe M g n fd) as [g1 [d|]]; [|exact P]. exact (pre_trans _ _ _ P (ginstall_pre M g1 x d)).
Qed.
Lemma gloop_pre M fd k : forall g x n, pre g (fst (gprobe_loop M g fd x n k)).
Proof.
  induction k as [|k IH]; intros g x n; [apply pre_refl|]. rewrite loop_step. pose proof (one_pre M (g ++ [GFile (LProbe n fd)]) n fd x) as P.
  destruct (match gprobe M (g ++ [GFile (LProbe n fd)]) n fd with (g1, None) => (g1, (x, Ok tt)) | (g1, Some d) => ginstall M g1 x d end) as [g2 [x1 r]].
  assert (Q : pre g g2) by (exact (pre_app_l _ _ _ P)). destruct r; try exact Q; exact (pre_trans _ _ _ Q (IH _ _ _)).
Qed.
Lemma gopen_pre M g path : pre (g ++ [GFile (LOpen path)]) (fst (gopen_by_path M g path)).
Proof.
  unfold gopen_by_path. cbv zeta. destruct (m_open M _) as [e|fd]; [apply pre_refl|]. unfold gopen_by_fd. cbv zeta.
  match goal with |- context [gprobe_loop M ?a fd ?y 0 driver_count] => pose proof (gloop_pre M fd driver_count a y 0) as L; destruct (gprobe_loop M a fd y 0 driver_count) as [g2 r] end.
  cbn [fst] in L. apply pre_app_l in L. apply pre_app_l in L. destruct r; cbn [fst]; try exact L. exact (pre_trans _ _ _ L (pre_app _ _)).
Qed.
Lemma gcloses_pre xs : forall g, pre g (fold_left (fun k x => fst (gclose k x)) xs g).
Proof.
  induction xs as [|x xs IH]; intros g; cbn [fold_left]; [apply pre_refl|]. apply (pre_trans _ (fst (gclose g x))); [|apply IH].
  unfold gclose. destruct (p_dh (gh_dh x)); [apply pre_app|apply pre_refl].
Qed.
Lemma gloop_enum_pre M names : forall g xs, pre g (fst (genum_loop M g names xs)).
Proof.
  induction names as [|name rest IH]; intros g xs; cbn [genum_loop]; [apply pre_refl|]. destruct (contains _ name); [apply IH|]. cbv zeta.
  assert (P : pre g (g ++ [GFile (LStat (dev_path name))])) by apply pre_app. set (g1 := g ++ [GFile (LStat (dev_path name))]) in *. clearbody g1.
  destruct (m_mode M g1) as [mode|]; [|exact (pre_trans _ _ _ P (IH _ _))]. destruct (is_block mode); [|exact (pre_trans _ _ _ P (IH _ _))].
  destruct (contains _ name); [exact (pre_trans _ _ _ P (IH _ _))|].
  pose proof (gopen_pre M g1 (dev_path name)) as Q. apply pre_app_l in Q. destruct (gopen_by_path M g1 (dev_path name)) as [g2 r]. cbn [fst] in Q.
  pose proof (pre_trans _ _ _ P Q) as R. destruct r; try exact (pre_trans _ _ _ R (IH _ _)); [exact (pre_trans _ _ _ R (gcloses_pre _ _))|exact R].
Qed.
Lemma pre_cancel {A} (g a b : list A) : pre (g ++ a) (g ++ b) -> pre a b.
Proof. intros [r E]. exists r. rewrite <- app_assoc in E. exact (app_inv_head _ _ _ E). Qed.

(** [solo] asked at the moment the machine is. *)
Lemma solo_at (M : machine) g0 G p e (R : Type) (f : ghist -> R) : pre (p ++ [GFile e]) G -> f (g0 ++ cut (List.length (files p ++ [e])) G) = f (g0 ++ p ++ [GFile e]).
Proof. intros [r ->]. pose proof (cut_at p e r) as C. rewrite files_app in C. cbn [files flat_map app] in C. now rewrite C. Qed.

Definition rel_res {A B} (P : A -> B -> Prop) (r : res A) (r' : res B) : Prop :=
  match r, r' with Ok a, Ok b => P a b | Err e, Err e' => e = e' | Panic, Panic | Fuel, Fuel => True | _, _ => False end.

(** Opening, on both sides. *)
Lemma solo_nvme M g0 G p fd y : pre (p ++ [GFile (LProbe 0 fd)]) G ->
  probe_nvme (solo M g0 G) (files p ++ [LProbe 0 fd]) fd =
  (let Kn := nvme_at M (g0 ++ p ++ [GFile (LProbe 0 fd)]) in let An := nvme_addr_at M (g0 ++ p ++ [GFile (LProbe 0 fd)]) in
   match nv_open Kn [] fd (An []) with (kh, Ok id) => inr (nv_opened Kn fd An kh id) | (_, Err e) => inl e | _ => inl (EMsg "panic") end)
  /\ match probe_nvme (solo M g0 G) (files p ++ [LProbe 0 fd]) fd with inl _ => (y, Ok tt) | inr o => install y o end
     = phase0 (nvme_at M (g0 ++ p ++ [GFile (LProbe 0 fd)])) (nvme_addr_at M (g0 ++ p ++ [GFile (LProbe 0 fd)])) fd y.
Proof.
  intros P. unfold probe_nvme. cbn [solo sy_nvme sy_nvme_addr].
  rewrite (solo_at M g0 G p (LProbe 0 fd) _ (nvme_at M) P), (solo_at M g0 G p (LProbe 0 fd) _ (nvme_addr_at M) P). cbv zeta. unfold phase0.
  destruct (nv_open _ _ _ _) as [kh [id|e| |]]; split; reflexivity.
Qed.
Lemma solo_sg M g0 G p fd n y : pre (p ++ [GFile (LProbe n fd)]) G ->
  match probe_sg (solo M g0 G) (files p ++ [LProbe n fd]) with inl _ => (y, Ok tt) | inr o => install y o end
     = phase1 (sg_at M (g0 ++ p ++ [GFile (LProbe n fd)]) fd) (sg_addr_at M (g0 ++ p ++ [GFile (LProbe n fd)]) fd) y.
Proof.
  intros P. unfold probe_sg. cbn [solo sy_sg sy_sg_addr]. assert (L : last_fd (files p ++ [LProbe n fd]) = fd) by (unfold last_fd; rewrite rev_app_distr; reflexivity). rewrite L.
  rewrite (solo_at M g0 G p (LProbe n fd) _ (fun g => sg_at M g fd) P), (solo_at M g0 G p (LProbe n fd) _ (fun g => sg_addr_at M g fd) P). unfold phase1.
  destruct (sg_open _ _ _) as [kh [id|e| |]]; reflexivity.
Qed.
Lemma probe_loop_step W h fd x n k : probe_loop W h fd x n (S k) =
  (let '(x1, r) := match w_probe W (h ++ [LProbe n fd]) with inl _ => (x, Ok tt) | inr o => install x o end in
   match r with Ok _ | Err _ => probe_loop W (h ++ [LProbe n fd]) fd x1 (S n) k | Panic => (h ++ [LProbe n fd], Panic) | Fuel => (h ++ [LProbe n fd], Fuel) end).
Proof. cbn [probe_loop]. destruct (w_probe W _) as [e|o]; [reflexivity|]. destruct (install x o) as [x1 [u|e| |]]; reflexivity. Qed.
Lemma linux_probe0 S h fd : w_probe (linux S) (h ++ [LProbe 0 fd]) = probe_nvme S (h ++ [LProbe 0 fd]) fd.
Proof. cbn [linux w_probe]. rewrite rev_app_distr. reflexivity. Qed.
Lemma linux_probe1 S h n fd : w_probe (linux S) (h ++ [LProbe (Datatypes.S n) fd]) = probe_sg S (h ++ [LProbe (Datatypes.S n) fd]).
Proof. cbn [linux w_probe]. rewrite rev_app_distr. reflexivity. Qed.
Lemma open_sim M g0 G p path p' r : gopen_by_path M (g0 ++ p) path = (g0 ++ p', r) -> pre p' G ->
  exists r', open_by_path (linux (solo M g0 G)) (files p) path = (files p', r') /\ rel_res corr r r'.
Proof.
  intros H PG. pose proof (gopen_pre M (g0 ++ p) path) as PO. rewrite H in PO. cbn [fst] in PO. rewrite <- app_assoc in PO. apply pre_cancel in PO.
  unfold gopen_by_path in H. cbv zeta in H. unfold open_by_path. cbv zeta. rewrite <- app_assoc in H.
  assert (WO : w_open (linux (solo M g0 G)) (files p ++ [LOpen path]) = m_open M (g0 ++ p ++ [GFile (LOpen path)])).
  { cbn [linux w_open sy_world solo]. exact (solo_at M g0 G p (LOpen path) _ (m_open M) (pre_trans _ _ _ PO PG)). }
  rewrite WO. destruct (m_open M (g0 ++ p ++ [GFile (LOpen path)])) as [e|fd].
  { injection H as H <-. apply app_inv_head in H. subst p'. exists (Err e). split; [rewrite files_app; reflexivity|reflexivity]. }
  unfold gopen_by_fd in H. cbv zeta in H. unfold open_by_fd. cbv zeta.
  set (p1 := (p ++ [GFile (LOpen path)]) ++ [GFile (LBasic fd path)]). set (p2 := p1 ++ [GFile (LIds path)]).
  replace (((g0 ++ p ++ [GFile (LOpen path)]) ++ [GFile (LBasic fd path)]) ++ [GFile (LIds path)]) with (g0 ++ p2) in H by (unfold p2, p1; now rewrite <- !app_assoc).
  replace (files p ++ [LOpen path]) with (files (p ++ [GFile (LOpen path)])) by (rewrite files_app; reflexivity).
  replace (files (p ++ [GFile (LOpen path)]) ++ [LBasic fd path]) with (files p1) by (unfold p1; rewrite !files_app; reflexivity).
  replace (files p1 ++ [LIds path]) with (files p2) by (unfold p2; rewrite files_app; reflexivity).
  match goal with |- context [probe_loop _ (files p2) fd ?z 0 _] => set (y0 := z) end.
  match type of H with context [gprobe_loop M (g0 ++ p2) fd ?z 0 _] => set (x0 := z) in H end.
  assert (PL : exists q rr, gprobe_loop M (g0 ++ p2) fd x0 0 driver_count = (g0 ++ q, rr) /\ pre p2 q /\ (forall e, rr <> Err e) /\ p' = q /\ r = rr).
  { pose proof (gloop_pre M fd driver_count (g0 ++ p2) x0 0) as L. pose proof (gprobe_loop_no_err M fd driver_count (g0 ++ p2) x0 0) as NE.
    destruct (gprobe_loop M (g0 ++ p2) fd x0 0 driver_count) as [gg rr]. cbn [fst snd] in *. destruct L as [z L]. rewrite <- app_assoc in L. subst gg.
    exists (p2 ++ z), rr. split; [reflexivity|]. split; [apply pre_app|]. split; [exact NE|].
    destruct rr as [u|e| |]; try (injection H as H <-; apply app_inv_head in H; subst p'; split; reflexivity). exfalso. exact (NE e eq_refl). }
  destruct PL as (q & rr & PL & P2 & NE & -> & ->). clear H.
  assert (PG2 : pre p2 G) by exact (pre_trans _ _ _ P2 PG). assert (PG1 : pre p1 G) by exact (pre_app_l _ _ _ PG2).
  assert (BI : w_basic (linux (solo M g0 G)) (files p1) = m_basic M (g0 ++ p1) /\ w_ids (linux (solo M g0 G)) (files p2) = m_ids M (g0 ++ p2)).
  { cbn [linux w_basic w_ids sy_world solo]. unfold p2, p1. rewrite !files_app. cbn [files flat_map app]. split.
    - pose proof (solo_at M g0 G (p ++ [GFile (LOpen path)]) (LBasic fd path) _ (m_basic M) PG1) as E. rewrite files_app in E. exact E.
    - pose proof (solo_at M g0 G p1 (LIds path) _ (m_ids M) PG2) as E. unfold p1 in E. rewrite !files_app in E. exact E. }
  destruct BI as [EB EI].
  assert (C0 : corr x0 y0 /\ gh_dev x0 = None /\ p_dh (gh_dh x0) = None /\ l_drv y0 = None /\ l_driving y0 = 0).
  { unfold x0, y0, corr, same_fields. rewrite EB, EI. destruct (read_basic_info path (m_basic M (g0 ++ p1))) as [b|e| |]; destruct (get_id_info path (m_ids M (g0 ++ p2))) as [[[[m s] v] t]|e'| |]; repeat split; reflexivity. }
  destruct C0 as (C0 & D0 & P0 & Z1 & Z2). clearbody x0 y0. clear EB EI WO PO. clearbody p2. clear PG1.
  unfold driver_count in *. rewrite loop_step in PL. rewrite <- app_assoc in PL. rewrite probe_loop_step, linux_probe0.
  pose proof (one_pre M (g0 ++ p2 ++ [GFile (LProbe 0 fd)]) 0 fd x0) as O0.
  destruct (match gprobe M (g0 ++ p2 ++ [GFile (LProbe 0 fd)]) 0 fd with (g1, None) => (g1, (x0, Ok tt)) | (g1, Some d) => ginstall M g1 x0 d end) as [g3 [x1 r1]] eqn:E1.
  destruct (probe_nvme_both M _ fd x0 y0 C0 D0 P0 Z1 Z2 _ _ _ E1) as (y1 & Q0 & C1 & _ & CASE0). clear E1. cbn [fst] in O0.
  assert (F3 : exists c, g3 = g0 ++ p2 ++ [GFile (LProbe 0 fd)] ++ map GNvme c).
  { destruct CASE0 as [(_ & _ & _ & E3)|(kh0 & id0 & _ & _ & _ & _ & _ & E3)]; eexists; rewrite E3, <- !app_assoc; reflexivity. }
  destruct F3 as [c3 F3]. clear CASE0 O0.
  set (p3 := p2 ++ [GFile (LProbe 0 fd)] ++ map GNvme c3) in *. assert (FP3 : files p3 = files p2 ++ [LProbe 0 fd]) by (unfold p3; rewrite !files_app, files_nvme; now rewrite app_nil_r).
  assert (PQ3 : pre p3 q).
  { subst g3. destruct r1 as [u|e| |]; try (injection PL as PL _; apply app_inv_head in PL; subst q; apply pre_refl);
      pose proof (gloop_pre M fd 1 (g0 ++ p3) x1 1) as L; rewrite PL in L; exact (pre_cancel _ _ _ L). }
  assert (PG3 : pre (p2 ++ [GFile (LProbe 0 fd)]) G). { apply (pre_trans _ p3); [|exact (pre_trans _ _ _ PQ3 PG)]. unfold p3. exists (map GNvme c3). now rewrite <- app_assoc. }
  destruct (solo_nvme M g0 G p2 fd y0 PG3) as [_ SN]. rewrite SN, Q0.
  assert (DONE : forall (A : Type), fine r1 = false -> exists r', match r1 with Ok _ | Err _ => probe_loop (linux (solo M g0 G)) (files p2 ++ [LProbe 0 fd]) fd y1 1 1 | Panic => (files p2 ++ [LProbe 0 fd], Panic) | Fuel => (files p2 ++ [LProbe 0 fd], Fuel) end = (files q, r') /\ rel_res corr rr r').
  { intros _ F. subst g3. destruct r1; try discriminate F; injection PL as PL <-; apply app_inv_head in PL; subst q; rewrite FP3; [exists Panic|exists Fuel]; split; reflexivity. }
  assert (MAIN : exists r', match r1 with Ok _ | Err _ => probe_loop (linux (solo M g0 G)) (files p2 ++ [LProbe 0 fd]) fd y1 1 1 | Panic => (files p2 ++ [LProbe 0 fd], Panic) | Fuel => (files p2 ++ [LProbe 0 fd], Fuel) end = (files q, r') /\ rel_res corr rr r').
  { destruct (fine r1) eqn:F1; [|exact (DONE unit eq_refl)]. clear DONE.
    assert (PL' : gprobe_loop M (g0 ++ p3) fd x1 1 1 = (g0 ++ q, rr)) by (subst g3; destruct r1; try discriminate F1; exact PL). clear PL.
    assert (exists r', probe_loop (linux (solo M g0 G)) (files p3) fd y1 1 1 = (files q, r') /\ rel_res corr rr r') as (r' & X & Y);
      [|exists r'; split; [rewrite <- FP3; destruct r1; try discriminate F1; exact X|exact Y]].
    rewrite loop_step in PL'. rewrite <- app_assoc in PL'. rewrite probe_loop_step, linux_probe1.
    destruct (match gprobe M (g0 ++ p3 ++ [GFile (LProbe 1 fd)]) 1 fd with (g1, None) => (g1, (x1, Ok tt)) | (g1, Some d) => ginstall M g1 x1 d end) as [g4 [x2 r2]] eqn:E2.
    destruct (probe_sg_both M _ fd x1 y1 C1 _ _ _ E2) as (y2 & Q1 & C2 & _ & CASE1). clear E2.
    assert (F4 : exists c, g4 = g0 ++ p3 ++ [GFile (LProbe 1 fd)] ++ map (GSg fd) c).
    { destruct CASE1 as [(_ & _ & _ & E3)|(kh0 & id0 & _ & _ & _ & _ & _ & E3)]; eexists; rewrite E3, <- !app_assoc; reflexivity. }
    destruct F4 as [c4 F4]. clear CASE1. set (p4 := p3 ++ [GFile (LProbe 1 fd)] ++ map (GSg fd) c4) in *.
    assert (FP4 : files p4 = files p3 ++ [LProbe 1 fd]) by (unfold p4; rewrite !files_app, files_sg; now rewrite app_nil_r).
    assert (EQ4 : p4 = q) by (subst g4; destruct r2; cbn [gprobe_loop] in PL'; injection PL' as PL' _; exact (app_inv_head _ _ _ PL')).
    assert (PG4 : pre (p3 ++ [GFile (LProbe 1 fd)]) G). { apply (pre_trans _ p4); [|rewrite EQ4; exact PG]. unfold p4. exists (map (GSg fd) c4). now rewrite <- app_assoc. }
    rewrite (solo_sg M g0 G p3 fd 1 y1 PG4), Q1. rewrite <- EQ4, FP4. subst g4. cbn [probe_loop]. cbn [gprobe_loop] in PL'.
    destruct r2; injection PL' as _ <-; eexists; (split; [reflexivity|]); try exact I; exact C2. }
  destruct MAIN as (r' & X & Y). exists r'. split; [|exact Y]. rewrite X. destruct r'; try reflexivity. destruct rr; try contradiction Y. exfalso. exact (NE _ eq_refl).
Qed.
Lemma closes_sim g0 xs ys : Forall2 corr xs ys -> forall p, exists p', fold_left (fun k x => fst (gclose k x)) xs (g0 ++ p) = g0 ++ p'
  /\ fold_left (fun k y => fst (close_handle k y)) ys (files p) = files p'.
Proof.
  induction 1 as [|x y xs ys C F IH]; intros p; cbn [fold_left]; [eauto|].
  assert (E : exists q, fst (gclose (g0 ++ p) x) = g0 ++ q /\ fst (close_handle (files p) y) = files q).
  { destruct C as [(C1 & _) C2]. unfold gclose, close_handle. rewrite C2, C1. destruct (p_dh (l_dh y)); cbn [fst]; [|eauto].
    exists (p ++ [GFile (LClose (l_fd y))]). rewrite <- app_assoc, files_app. auto. }
  destruct E as (q & -> & ->). apply IH.
Qed.
Lemma Forall2_rev {A B} (P : A -> B -> Prop) l l' : Forall2 P l l' -> Forall2 P (rev l) (rev l').
Proof. induction 1 as [|a b l l' H F IH]; [constructor|]. cbn [rev]. apply Forall2_app; [exact IH|]. constructor; [exact H|constructor]. Qed.
Lemma enum_sim M g0 G names : forall p xs ys p' r, Forall2 corr xs ys -> genum_loop M (g0 ++ p) names xs = (g0 ++ p', r) -> pre p' G ->
  exists r', enum_loop (linux (solo M g0 G)) (files p) names ys = (files p', r') /\ rel_res (Forall2 corr) r r'.
Proof.
  induction names as [|name rest IH]; intros p xs ys p' r C H PG; cbn [genum_loop enum_loop] in *.
  - injection H as H <-. apply app_inv_head in H. subst p'. exists (Ok ys). split; [reflexivity|exact C].
  - destruct (contains (str "loop") name); [exact (IH _ _ _ _ _ C H PG)|]. cbv zeta in *. rewrite <- app_assoc in H.
    set (e := LStat (dev_path name)) in *. set (p1 := p ++ [GFile e]) in *.
    replace (files p ++ [e]) with (files p1) by (unfold p1; rewrite files_app; reflexivity).
    assert (P1 : pre p1 p').
    { assert (Q : pre (g0 ++ p1) (fst (g0 ++ p', r))); [|exact (pre_cancel _ _ _ Q)]. destruct (m_mode M (g0 ++ p1)) as [mode|]; [destruct (is_block mode); [destruct (contains (str "sr") name)|]|];
        try (rewrite <- H; apply gloop_enum_pre).
      pose proof (gopen_pre M (g0 ++ p1) (dev_path name)) as Q. apply pre_app_l in Q. destruct (gopen_by_path M (g0 ++ p1) (dev_path name)) as [g2 rr]. cbn [fst] in Q.
      destruct rr; apply (pre_trans _ _ _ Q); rewrite <- H; cbn [fst]; [apply gloop_enum_pre|apply gloop_enum_pre|apply gcloses_pre|apply pre_refl]. }
    assert (WM : w_mode (linux (solo M g0 G)) (files p1) = m_mode M (g0 ++ p1)).
    { cbn [linux w_mode sy_world solo]. unfold p1 at 1. rewrite files_app. exact (solo_at M g0 G p e _ (m_mode M) (pre_trans _ _ _ P1 PG)). }
    rewrite WM. destruct (m_mode M (g0 ++ p1)) as [mode|]; [|exact (IH _ _ _ _ _ C H PG)]. destruct (is_block mode); [|exact (IH _ _ _ _ _ C H PG)].
    destruct (contains (str "sr") name); [exact (IH _ _ _ _ _ C H PG)|].
    pose proof (gopen_pre M (g0 ++ p1) (dev_path name)) as Q. apply pre_app_l in Q. destruct (gopen_by_path M (g0 ++ p1) (dev_path name)) as [g2 rr] eqn:EO. cbn [fst] in Q.
    destruct Q as [z Q]. rewrite <- app_assoc in Q. subst g2. set (p2 := p1 ++ z) in *.
    assert (P2 : pre p2 p').
    { assert (Q : pre (g0 ++ p2) (fst (g0 ++ p', r))); [|exact (pre_cancel _ _ _ Q)]. destruct rr; rewrite <- H; cbn [fst]; [apply gloop_enum_pre|apply gloop_enum_pre|apply gcloses_pre|apply pre_refl]. }
    destruct (open_sim M g0 G p1 (dev_path name) p2 rr EO (pre_trans _ _ _ P2 PG)) as (rr' & EO' & RR). rewrite EO'.
    destruct rr as [x|er| |]; destruct rr' as [y|er'| |]; try contradiction RR.
    + refine (IH _ _ _ _ _ _ H PG). apply Forall2_app; [exact C|]. constructor; [exact RR|constructor].
    + exact (IH _ _ _ _ _ C H PG).
    + injection H as H <-. destruct (closes_sim g0 (rev xs) (rev ys) (Forall2_rev _ _ _ C) p2) as (q & E1 & E2). exists Panic. split; [|exact I].
      assert (q = p') as <- by (apply (app_inv_head g0); rewrite <- E1; exact H). rewrite <- E2. reflexivity.
    + injection H as H <-. apply app_inv_head in H. exists Fuel. rewrite <- H. split; [reflexivity|exact I].
Qed.
