(** Lemmas for C155: opening a drive in a program is opening it alone. *)
From Verif Require Import Base M_Buffer M_Struc M_Layouts M_Ata M_TcgDevice M_DriveHandle M_Cdb M_SgDriver M_SgHandle M_NvmeLinux M_Strings M_LinuxInfo M_LinuxFactory M_LinuxVolume M_LinuxSystem M_LinuxMachine
  P_DriveHandle Spec_LinuxMachine P_LinuxMachine Spec_Alone P_Alone P_Alone2 P_Alone3 P_Alone4 P_Alone5.

Definition corr (x : ghandle) (y : handle) : Prop := same_fields x y /\ gh_dh x = l_dh y.
Lemma nvme_shift M g kh n : kagree n kh (nvme_at M g) (nvme_at M (g ++ map GNvme kh)).
Proof. intros k _. unfold nvme_at. now rewrite map_app, app_assoc. Qed.
Lemma nvme_shift_addr M g kh n : aagree n kh (nvme_addr_at M g) (nvme_addr_at M (g ++ map GNvme kh)).
Proof. intros k _. unfold nvme_addr_at. now rewrite map_app, app_assoc. Qed.
Lemma sg_shift M g fd kh n : kagree n kh (sg_at M g fd) (sg_at M (g ++ map (GSg fd) kh) fd).
Proof. intros k _. unfold sg_at. now rewrite map_app, app_assoc. Qed.
Lemma sg_shift_addr M g fd kh n : aagree n kh (sg_addr_at M g fd) (sg_addr_at M (g ++ map (GSg fd) kh) fd).
Proof. intros k _. unfold sg_addr_at. now rewrite map_app, app_assoc. Qed.

Lemma install_nvme M g fd kh id x y : corr x y ->
  let Kn := nvme_at M g in let An := nvme_addr_at M g in
  let G := ginstall M (g ++ map GNvme kh) x {| d_kind := KNvme; d_fd := fd; d_identity := id |} in let R := install y (nv_opened Kn fd An kh id) in
  snd (snd G) = snd R /\ corr (fst (snd G)) (fst R) /\ gh_dev (fst (snd G)) = Some {| d_kind := KNvme; d_fd := fd; d_identity := id |} /\ p_dh (gh_dh (fst (snd G))) <> None
  /\ l_drv (fst R) = Some (nv_drv Kn fd An kh id) /\ l_driving (fst R) = 2 /\ l_fd (fst R) = l_fd y
  /\ fst G = g ++ map GNvme (nv_replay Kn fd An kh (l_calls (fst R))).
Proof.
  intros [(C1 & C2 & C3) C4]. cbv zeta. unfold ginstall, install. cbn [o_drv o_type nv_opened d_kind dtype_of ioctls_of drv_at]. rewrite C4. set (p := {| p_dh := _; p_info := _ |}).
  unfold drv_at, ioctls_of. cbn [d_kind d_fd d_identity].
  set (V := nv_drv (nvme_at M g) fd (nvme_addr_at M g) kh id). set (V' := nv_drv (nvme_at M (g ++ map GNvme kh)) fd (nvme_addr_at M (g ++ map GNvme kh)) [] id).
  assert (S : forall f, sees_upto V V' [] f).
  { intros f. apply upto_of. apply (nv_drv_sees _ _ fd _ _ kh [] id [] f kh); [now rewrite app_nil_r|apply nvme_shift|apply nvme_shift_addr]. }
  pose proof (init_sh V V' [] p [CType; CName] (S _)) as E. cbn [app] in E. rewrite E. destruct (init V' p [CType; CName]) as [cs [p1 r]] eqn:EI. cbn [fst snd l_drv l_driving l_fd l_calls gh_dev gh_dh].
  split; [reflexivity|]. split; [split; [repeat split; cbn; [exact C1]|reflexivity]|]. split; [reflexivity|]. split.
  { rewrite (init_keeps _ _ _ _ _ _ EI). discriminate. }
  split; [reflexivity|]. split; [reflexivity|]. split; [reflexivity|]. rewrite <- app_assoc, <- map_app. f_equal. f_equal.
  rewrite <- (app_nil_r kh) at 4. symmetry. apply nv_replay_sh; [apply nvme_shift|apply nvme_shift_addr].
Qed.
Lemma install_sg M g fd kh id x y : corr x y ->
  let Ks := sg_at M g fd in let As := sg_addr_at M g fd in
  let G := ginstall M (g ++ map (GSg fd) kh) x {| d_kind := KSg; d_fd := fd; d_identity := id |} in let R := install y (sg_opened Ks As kh id) in
  snd (snd G) = snd R /\ corr (fst (snd G)) (fst R) /\ gh_dev (fst (snd G)) = Some {| d_kind := KSg; d_fd := fd; d_identity := id |} /\ p_dh (gh_dh (fst (snd G))) <> None
  /\ l_drv (fst R) = Some (sg_drv Ks As kh id) /\ l_driving (fst R) = 1 /\ l_fd (fst R) = l_fd y
  /\ fst G = g ++ map (GSg fd) (sg_replay Ks As kh (l_calls (fst R))).
Proof.
  intros [(C1 & C2 & C3) C4]. cbv zeta. unfold ginstall, install. cbn [o_drv o_type sg_opened d_kind dtype_of ioctls_of drv_at]. rewrite C4. set (p := {| p_dh := _; p_info := _ |}).
  unfold drv_at, ioctls_of. cbn [d_kind d_fd d_identity].
  set (V := sg_drv (sg_at M g fd) (sg_addr_at M g fd) kh id). set (V' := sg_drv (sg_at M (g ++ map (GSg fd) kh) fd) (sg_addr_at M (g ++ map (GSg fd) kh) fd) [] id).
  assert (S : forall f, sees_upto V V' [] f).
  { intros f. apply upto_of. apply (sg_drv_sees _ _ _ _ kh [] id [] f kh); [now rewrite app_nil_r|apply sg_shift|apply sg_shift_addr]. }
  pose proof (init_sh V V' [] p [CType; CName] (S _)) as E. cbn [app] in E. rewrite E. destruct (init V' p [CType; CName]) as [cs [p1 r]] eqn:EI. cbn [fst snd l_drv l_driving l_fd l_calls gh_dev gh_dh].
  split; [reflexivity|]. split; [split; [repeat split; cbn; [exact C1]|reflexivity]|]. split; [reflexivity|]. split.
  { rewrite (init_keeps _ _ _ _ _ _ EI). discriminate. }
  split; [reflexivity|]. split; [reflexivity|]. split; [reflexivity|]. rewrite <- app_assoc, <- map_app. f_equal. f_equal.
  rewrite <- (app_nil_r kh) at 4. symmetry. apply sg_replay_sh; [apply sg_shift|apply sg_shift_addr].
Qed.
(** One probing of the loop, on both sides. *)
Lemma probe_nvme_both M g fd x y : corr x y -> gh_dev x = None -> p_dh (gh_dh x) = None -> l_drv y = None -> l_driving y = 0 ->
  let Kn := nvme_at M g in let An := nvme_addr_at M g in
  forall g1 x1 r1, (match gprobe M g 0 fd with (g1, None) => (g1, (x, Ok tt)) | (g1, Some d) => ginstall M g1 x d end) = (g1, (x1, r1)) ->
  exists y1, phase0 Kn An fd y = (y1, r1) /\ corr x1 y1 /\ l_fd y1 = l_fd y
    /\ ((nv_no Kn fd An /\ x1 = x /\ y1 = y /\ g1 = g ++ map GNvme (nv_seen Kn fd An []))
        \/ exists kh id, nv_open Kn [] fd (An []) = (kh, Ok id) /\ gh_dev x1 = Some {| d_kind := KNvme; d_fd := fd; d_identity := id |} /\ p_dh (gh_dh x1) <> None
             /\ l_drv y1 = Some (nv_drv Kn fd An kh id) /\ l_driving y1 = 2 /\ g1 = g ++ map GNvme (nv_seen Kn fd An (l_calls y1))).
Proof.
  intros C D P L Z. cbv zeta. intros g1 x1 r1. unfold gprobe, phase0, nv_no, nv_seen.
  destruct (nv_open (nvme_at M g) [] fd (nvme_addr_at M g [])) as [kh [id|e| |]] eqn:E; cbn [fst snd].
  1:{ intros H. destruct (install_nvme M g fd kh id x y C) as (A1 & A2 & A3 & A4 & A5 & A6 & A7 & A8). rewrite H in *. cbn [fst snd] in *.
      exists (fst (install y (nv_opened (nvme_at M g) fd (nvme_addr_at M g) kh id))). split; [rewrite A1; apply surjective_pairing|]. split; [exact A2|]. split; [exact A7|]. right.
      exists kh, id. auto 10. }
  all: intros H; injection H as <- <- <-; exists y; split; [reflexivity|]; split; [exact C|]; split; [reflexivity|]; left; split; [discriminate|auto].
Qed.
Lemma probe_sg_both M g fd x y : corr x y ->
  let Ks := sg_at M g fd in let As := sg_addr_at M g fd in
  forall g1 x1 r1, (match gprobe M g 1 fd with (g1, None) => (g1, (x, Ok tt)) | (g1, Some d) => ginstall M g1 x d end) = (g1, (x1, r1)) ->
  exists y1, phase1 Ks As y = (y1, r1) /\ corr x1 y1 /\ l_fd y1 = l_fd y
    /\ ((sg_no Ks As /\ x1 = x /\ y1 = y /\ g1 = g ++ map (GSg fd) (sg_seen Ks As []))
        \/ exists kh id, sg_open Ks [] (As []) = (kh, Ok id) /\ gh_dev x1 = Some {| d_kind := KSg; d_fd := fd; d_identity := id |} /\ p_dh (gh_dh x1) <> None
             /\ l_drv y1 = Some (sg_drv Ks As kh id) /\ l_driving y1 = 1 /\ g1 = g ++ map (GSg fd) (sg_seen Ks As (l_calls y1))).
Proof.
  intros C. cbv zeta. intros g1 x1 r1. unfold gprobe, phase1, sg_no, sg_seen.
  destruct (sg_open (sg_at M g fd) [] (sg_addr_at M g fd [])) as [kh [id|e| |]] eqn:E; cbn [fst snd].
  1:{ intros H. destruct (install_sg M g fd kh id x y C) as (A1 & A2 & A3 & A4 & A5 & A6 & A7 & A8). rewrite H in *. cbn [fst snd] in *.
      exists (fst (install y (sg_opened (sg_at M g fd) (sg_addr_at M g fd) kh id))). split; [rewrite A1; apply surjective_pairing|]. split; [exact A2|]. split; [exact A7|]. right.
      exists kh, id. auto 10. }
  all: intros H; injection H as <- <- <-; exists y; split; [reflexivity|]; split; [exact C|]; split; [reflexivity|]; left; split; [discriminate|auto].
Qed.
Lemma loop_step M g fd x n k : gprobe_loop M g fd x n (S k) =
  (let '(g2, (x1, r)) := match gprobe M (g ++ [GFile (LProbe n fd)]) n fd with (g1, None) => (g1, (x, Ok tt)) | (g1, Some d) => ginstall M g1 x d end in
   match r with Ok _ | Err _ => gprobe_loop M g2 fd x1 (S n) k | Panic => (g2, Panic) | Fuel => (g2, Fuel) end).
Proof.
  cbn [gprobe_loop]. destruct (gprobe M _ n fd) as [g1 [d|]]; [|reflexivity]. destruct (ginstall M g1 x d) as [g2 [x1 [u|e| |]]]; reflexivity.
Qed.
Lemma filter_files l : filter is_ioctl (map GFile l) = [].
Proof. induction l as [|e l IH]; [reflexivity|exact IH]. Qed.
Lemma filter_nvme k : filter is_ioctl (map GNvme k) = map GNvme k.
Proof. induction k as [|e l IH]; [reflexivity|]. cbn. now rewrite IH. Qed.
Lemma filter_sg fd k : filter is_ioctl (map (GSg fd) k) = map (GSg fd) k.
Proof. induction k as [|e l IH]; [reflexivity|]. cbn. now rewrite IH. Qed.
Lemma open_alone M g path g' x : gopen_by_path M g path = (g', Ok x) ->
  exists seg fd B I Kn An Ks As y, g' = g ++ seg /\ m_open M (g ++ [GFile (LOpen path)]) = inr fd
    /\ B = m_basic M (g ++ [GFile (LOpen path)] ++ [GFile (LBasic fd path)]) /\ I = m_ids M (g ++ [GFile (LOpen path)] ++ [GFile (LBasic fd path)] ++ [GFile (LIds path)])
    /\ alone M path (filter is_ioctl seg) x [] [] [] fd B I Kn An Ks As y (l_calls y).
Proof.
  unfold gopen_by_path. cbv zeta. destruct (m_open M (g ++ [GFile (LOpen path)])) as [e|fd] eqn:EO; [discriminate|].
  unfold gopen_by_fd. cbv zeta. set (g2 := ((g ++ [GFile (LOpen path)]) ++ [GFile (LBasic fd path)]) ++ [GFile (LIds path)]).
  set (B := m_basic M (g ++ [GFile (LOpen path)] ++ [GFile (LBasic fd path)])). set (I := m_ids M (g ++ [GFile (LOpen path)] ++ [GFile (LBasic fd path)] ++ [GFile (LIds path)])).
  assert (EI : m_ids M g2 = I) by (unfold I, g2; now rewrite <- !app_assoc). rewrite EI.
  match goal with |- context [gprobe_loop M g2 fd ?z 0 driver_count] => set (x0 := z) end.
  assert (C0 : corr x0 (base fd path B I) /\ l_drv (base fd path B I) = None /\ l_driving (base fd path B I) = 0 /\ l_fd (base fd path B I) = fd).
  { unfold x0, base, corr, same_fields. destruct (read_basic_info path B) as [b|e| |]; destruct (get_id_info path I) as [[[[m s] v] r]|e'| |]; repeat split; reflexivity. }
  destruct C0 as (C0 & Z1 & Z2 & Z3). assert (D0 : gh_dev x0 = None) by reflexivity. assert (P0 : p_dh (gh_dh x0) = None) by reflexivity. clearbody x0. clear EI.
  unfold driver_count. rewrite loop_step.
  destruct (match gprobe M (g2 ++ [GFile (LProbe 0 fd)]) 0 fd with (g1, None) => (g1, (x0, Ok tt)) | (g1, Some d) => ginstall M g1 x0 d end) as [g3 [x1 r1]] eqn:E1.
  destruct (probe_nvme_both M _ fd x0 _ C0 D0 P0 Z1 Z2 _ _ _ E1) as (y1 & Q0 & C1 & Fd1 & CASE0). clear E1.
  set (Kn := nvme_at M (g2 ++ [GFile (LProbe 0 fd)])) in *. set (An := nvme_addr_at M (g2 ++ [GFile (LProbe 0 fd)])) in *.
  assert (T : forall H : (let '(g2, r) := match r1 with Ok _ | Err _ => gprobe_loop M g3 fd x1 1 1 | Panic => (g3, Panic) | Fuel => (g3, Fuel) end in (g2, r)) = (g', Ok x),
      fine r1 = true /\ gprobe_loop M g3 fd x1 1 1 = (g', Ok x)).
  { destruct r1; cbn [fine]; intros H; try discriminate H; (split; [reflexivity|]); destruct (gprobe_loop M g3 fd x1 1 1) as [gg rr]; exact H. }
  intros H. destruct T as [F1 H1].
  { destruct r1 as [u|e| |]; try discriminate H; destruct (gprobe_loop M g3 fd x1 1 1) as [gg [rr|rr| |]]; try discriminate H; exact H. }
  clear H. rewrite loop_step in H1.
  destruct (match gprobe M (g3 ++ [GFile (LProbe 1 fd)]) 1 fd with (g1, None) => (g1, (x1, Ok tt)) | (g1, Some d) => ginstall M g1 x1 d end) as [g4 [x2 r2]] eqn:E2.
  destruct (probe_sg_both M _ fd x1 y1 C1 _ _ _ E2) as (y & Q1 & C2 & Fd2 & CASE1). clear E2.
  set (Ks := sg_at M (g3 ++ [GFile (LProbe 1 fd)]) fd) in *. set (As := sg_addr_at M (g3 ++ [GFile (LProbe 1 fd)]) fd) in *.
  assert (F2 : fine r2 = true /\ g4 = g' /\ x2 = x) by (destruct r2; try discriminate H1; cbn [gprobe_loop] in H1; injection H1 as <- <-; auto). destruct F2 as (F2 & -> & ->). clear H1.
  assert (G2 : g2 = g ++ map GFile [LOpen path; LBasic fd path; LIds path]) by (unfold g2; now rewrite <- !app_assoc).
  assert (DR : drawn M fd Kn An Ks As).
  { constructor; [apply nvme_at_drawn|intros; eexists; reflexivity|apply sg_at_drawn|intros; eexists; reflexivity|].
    exists g3. unfold As, sg_addr_at. cbn [map]. now rewrite app_nil_r. }
  assert (W : forall c1 c2, g3 = (g2 ++ [GFile (LProbe 0 fd)]) ++ map GNvme (nv_seen Kn fd An c1) -> g' = (g3 ++ [GFile (LProbe 1 fd)]) ++ map (GSg fd) (sg_seen Ks As c2) ->
     exists seg, g' = g ++ seg /\ filter is_ioctl seg = map GNvme (nv_seen Kn fd An c1) ++ map (GSg fd) (sg_seen Ks As c2)).
  { intros c1 c2 E3 E4. exists (map GFile (hist4 path fd) ++ map GNvme (nv_seen Kn fd An c1) ++ map GFile [LProbe 1 fd] ++ map (GSg fd) (sg_seen Ks As c2)).
    rewrite E4, E3, G2. split; [cbn [map hist4]; rewrite <- !app_assoc; reflexivity|]. rewrite !filter_app, !filter_files, filter_nvme, filter_sg. reflexivity. }
  assert (FIN : forall c1 c2, g3 = (g2 ++ [GFile (LProbe 0 fd)]) ++ map GNvme (nv_seen Kn fd An c1) -> g' = (g3 ++ [GFile (LProbe 1 fd)]) ++ map (GSg fd) (sg_seen Ks As c2) ->
     same_driver x y Kn fd An Ks As ->
     ((l_driving y = 2 /\ c1 = l_calls y /\ c2 = []) \/ (l_driving y = 1 /\ c2 = l_calls y) \/ (l_driving y = 0 /\ c1 = [] /\ c2 = [])) ->
     exists seg fd' B' I' Kn An Ks As y, g' = g ++ seg /\ @inr err N fd = inr fd' /\ B' = m_basic M (g ++ [GFile (LOpen path)] ++ [GFile (LBasic fd' path)])
       /\ I' = m_ids M (g ++ [GFile (LOpen path)] ++ [GFile (LBasic fd' path)] ++ [GFile (LIds path)])
       /\ alone M path (filter is_ioctl seg) x [] [] [] fd' B' I' Kn An Ks As y (l_calls y)).
  { intros c1 c2 E3 E4 SD CC. destruct (W c1 c2 E3 E4) as (seg & Sg & Fs). exists seg, fd, B, I, Kn, An, Ks, As, y. repeat (split; [first [exact Sg|reflexivity]|]).
    destruct C2 as [C2a C2b]. constructor.
    - exists y1, r1, r2. auto.
    - exact C2a.
    - rewrite Fd2, Fd1. exact Z3.
    - exact SD.
    - reflexivity.
    - cbn [hrun fst snd]. symmetry. exact C2b.
    - reflexivity.
    - exact DR.
    - rewrite !app_nil_r. destruct CC as [(A & _)|[(A & _)|(A & _)]]; auto.
    - exists c1, c2. split; [exact Fs|exact CC]. }
  destruct CASE1 as [(N1 & -> & -> & E4)|(kh1 & id1 & O1 & D1 & P1 & L1 & T1 & E4)].
  - destruct CASE0 as [(N0 & -> & -> & E3)|(kh0 & id0 & O0 & D0' & P0' & L0 & T0 & E3)].
    + apply (FIN [] [] E3 E4); [|right; right; auto]. unfold same_driver. rewrite D0. exact P0.
    + apply (FIN _ [] E3 E4); [|left; auto]. unfold same_driver. rewrite D0'. split; [reflexivity|]. split; [exact P0'|]. split; [exact N1|]. exists kh0. auto.
  - assert (exists c1, g3 = (g2 ++ [GFile (LProbe 0 fd)]) ++ map GNvme (nv_seen Kn fd An c1)) as [c1 E3].
    { destruct CASE0 as [(N0 & _ & _ & E3)|(kh0 & id0 & O0 & D0' & P0' & L0 & T0 & E3)]; eauto. }
    apply (FIN c1 (l_calls y) E3 E4); [|right; left; auto]. unfold same_driver. rewrite D1. split; [reflexivity|]. split; [exact P1|]. exists kh1. auto.
Qed.
