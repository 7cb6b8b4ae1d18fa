(** Lemmas for C155: a handle of a program and the same handle alone on a system. *)
From Verif Require Import Base M_Buffer M_Struc M_Layouts M_Ata M_TcgDevice M_DriveHandle M_Cdb M_SgDriver M_SgHandle M_NvmeLinux M_Strings M_LinuxInfo M_LinuxFactory M_LinuxVolume M_LinuxSystem M_LinuxMachine
  P_DriveHandle Spec_LinuxMachine P_LinuxMachine Spec_Alone P_Alone P_Alone2 P_Alone3.

(** A system on which one path is opened. *)
Definition sys (M : machine) (fd : N) (B : disk_answers) (I : id_answers) Kn An Ks As : system :=
  {| sy_world := {| w_open := fun _ => inr fd; w_basic := fun _ => B; w_ids := fun _ => I; w_probe := fun _ => inl (EMsg "");
                    w_dir := fun h => m_dir M (map GFile h); w_mode := fun h => m_mode M (map GFile h) |};
     sy_nvme := fun _ => Kn; sy_nvme_addr := fun _ => An; sy_sg := fun _ => Ks; sy_sg_addr := fun _ => As |}.
Definition fine (r : res unit) : bool := match r with Ok _ | Err _ => true | _ => false end.
Definition nv_opened Kn fd An kh id : opened := {| o_drv := nv_drv Kn fd An kh id; o_type := {| is_ata := false; is_nvme := true |} |}.
Definition sg_opened Ks As kh id : opened := {| o_drv := sg_drv Ks As kh id; o_type := {| is_ata := true; is_nvme := false |} |}.
Definition phase0 Kn An fd (x : handle) : handle * res unit :=
  match nv_open Kn [] fd (An []) with (kh, Ok id) => install x (nv_opened Kn fd An kh id) | _ => (x, Ok tt) end.
Definition phase1 Ks As (x : handle) : handle * res unit :=
  match sg_open Ks [] (As []) with (kh, Ok id) => install x (sg_opened Ks As kh id) | _ => (x, Ok tt) end.
Definition base fd path (B : disk_answers) (I : id_answers) : handle :=
  let x1 := match read_basic_info path B with Ok b => with_basic (handle0 fd path) b | _ => handle0 fd path end in
  match get_id_info path I with Ok (model, serial, vendor, rev) => with_ids x1 model serial vendor rev | _ => with_ids x1 [] [] [] [] end.
Definition hist4 path fd : lhist := [LOpen path; LBasic fd path; LIds path; LProbe 0 fd].
Definition hist5 path fd : lhist := [LOpen path; LBasic fd path; LIds path; LProbe 0 fd; LProbe 1 fd].
Lemma open_sys M fd B I Kn An Ks As path x1 r1 y r2 : phase0 Kn An fd (base fd path B I) = (x1, r1) -> fine r1 = true -> phase1 Ks As x1 = (y, r2) -> fine r2 = true ->
  open_by_path (linux (sys M fd B I Kn An Ks As)) [] path = (hist5 path fd, Ok y).
Proof.
  intros P0 F1 P1 F2. unfold open_by_path. cbn [linux sys sy_world w_open app]. unfold open_by_fd. cbn [linux sys sy_world w_basic w_ids app]. fold (base fd path B I).
  unfold driver_count. cbn [probe_loop app linux w_probe rev]. unfold probe_nvme. cbn [sys sy_nvme sy_nvme_addr]. fold (hist5 path fd).
  unfold phase0 in P0. unfold phase1 in P1.
  assert (TAIL : forall z, z = x1 -> (match match probe_sg (sys M fd B I Kn An Ks As) (hist5 path fd) with
      | inl _ => (hist5 path fd, Ok z)
      | inr o => match install z o with (x1, (Ok _ | Err _)) => (hist5 path fd, Ok x1) | (_, Panic) => (hist5 path fd, Panic) | (_, Fuel) => (hist5 path fd, Fuel) end end
    with (h2, Ok x) => (h2, Ok x) | (h2, Err e) => (h2 ++ [LClose fd], Err e) | (h2, r) => (h2, r) end) = (hist5 path fd, Ok y)).
  { intros z ->. unfold probe_sg. cbn [sys sy_sg sy_sg_addr]. destruct (sg_open Ks [] (As [])) as [kh [id|e| |]].
    - unfold sg_opened in P1. rewrite P1. destruct r2; try discriminate F2; reflexivity.
    - injection P1 as <- <-. reflexivity.
    - injection P1 as <- <-. reflexivity.
    - injection P1 as <- <-. reflexivity. }
  destruct (nv_open Kn [] fd (An [])) as [kh [id|e| |]].
  - unfold nv_opened in P0. rewrite P0. destruct r1; try discriminate F1; apply TAIL; reflexivity.
  - injection P0 as <- <-. apply TAIL. reflexivity.
  - injection P0 as <- <-. apply TAIL. reflexivity.
  - injection P0 as <- <-. apply TAIL. reflexivity.
Qed.

(** ---- the ioctls of the two drivers on that system ---- *)
Definition nv_seen Kn fd An (c : dhist) : nv_hist := nv_replay Kn fd An (fst (nv_open Kn [] fd (An []))) c.
Definition sg_seen Ks As (c : dhist) : sg_hist := sg_replay Ks As (fst (sg_open Ks [] (As []))) c.
Definition drv_of (y : handle) : drv := match l_drv y with Some V => V | None => no_drv end.
Definition same_fields (x : ghandle) (y : handle) : Prop := gh_fd x = l_fd y /\ gh_driving x = l_driving y /\ gh_driver_name x = l_driver_name y.

Definition nv_no Kn fd (An : nv_hist -> N) : Prop := forall id, snd (nv_open Kn [] fd (An [])) <> Ok id.
Definition sg_no Ks (As : sg_hist -> N) : Prop := forall id, snd (sg_open Ks [] (As [])) <> Ok id.
(** Which driver the handle [x] of the program has, and that the handle [y] alone has the same. *)
Definition same_driver (x : ghandle) (y : handle) Kn fd An Ks As : Prop :=
  match gh_dev x with
  | None => p_dh (gh_dh x) = None
  | Some {| d_kind := KNvme; d_fd := f; d_identity := id |} =>
      f = fd /\ p_dh (gh_dh x) <> None /\ sg_no Ks As /\ exists kh, nv_open Kn [] fd (An []) = (kh, Ok id) /\ l_drv y = Some (nv_drv Kn fd An kh id)
  | Some {| d_kind := KSg; d_fd := f; d_identity := id |} =>
      f = fd /\ p_dh (gh_dh x) <> None /\ exists kh, sg_open Ks [] (As []) = (kh, Ok id) /\ l_drv y = Some (sg_drv Ks As kh id)
  end.
Record drawn (M : machine) (fd : N) Kn An Ks As : Prop := {
  dr_n : forall k c, exists g, Kn (k ++ [c]) = m_nvme M (g ++ [GNvme c]); dr_an : forall k : nv_hist, exists g, An k = m_addr M g;
  dr_s : forall k c, exists g, Ks (k ++ [c]) = m_sg M (g ++ [GSg fd c]); dr_as : forall k : sg_hist, exists g, As k = m_addr M g;
  dr_a0 : exists g, As [] = m_addr M (g ++ [GFile (LProbe 1 fd)]) }.
(** [x]: the handle in the program; [calls], [rs], [snt]: the calls made on it so far, their replies and ioctls; [seg]: the ioctls of
    its opening. *)
Record alone (M : machine) (path : bytes) (seg : ghist) (x : ghandle) (calls : list hop) (rs : list reply) (snt : ghist)
             (fd : N) (B : disk_answers) (I : id_answers) Kn An Ks As (y : handle) (cs : dhist) : Prop := {
  al_open : exists x1 r1 r2, phase0 Kn An fd (base fd path B I) = (x1, r1) /\ fine r1 = true /\ phase1 Ks As x1 = (y, r2) /\ fine r2 = true;
  al_fields : same_fields x y; al_fd : l_fd y = fd;
  al_driver : same_driver x y Kn fd An Ks As;
  al_hist : fst (hrun (drv_of y) (l_dh y) (l_calls y) calls) = cs;
  al_dh : fst (snd (hrun (drv_of y) (l_dh y) (l_calls y) calls)) = gh_dh x;
  al_rs : replies (drv_of y) (l_dh y) (l_calls y) calls = rs;
  al_drawn : drawn M fd Kn An Ks As;
  al_sent : (l_driving y = 2 /\ map GNvme (nv_seen Kn fd An cs) = map GNvme (nv_seen Kn fd An (l_calls y)) ++ snt)
         \/ (l_driving y = 1 /\ map (GSg fd) (sg_seen Ks As cs) = map (GSg fd) (sg_seen Ks As (l_calls y)) ++ snt)
         \/ (l_driving y = 0 /\ snt = []);
  al_seg : exists c1 c2, seg = map GNvme (nv_seen Kn fd An c1) ++ map (GSg fd) (sg_seen Ks As c2)
         /\ ((l_driving y = 2 /\ c1 = l_calls y /\ c2 = []) \/ (l_driving y = 1 /\ c2 = l_calls y) \/ (l_driving y = 0 /\ c1 = [] /\ c2 = []))
}.

Lemma skipn_snoc {C} n (k : list C) c : (n <= List.length k)%nat -> skipn n (k ++ [c]) = skipn n k ++ [c].
Proof. intros L. rewrite skipn_app. replace (n - List.length k)%nat with 0%nat by lia. reflexivity. Qed.
Lemma splice_drawn {C R} (own : list C) (K K' : list C -> R) (Q : C -> R -> Prop) :
  (forall k c, Q c (K (k ++ [c]))) -> (forall k c, Q c (K' (k ++ [c]))) -> forall k c, Q c (splice own K K' (k ++ [c])).
Proof.
  intros A B k c. unfold splice. destruct (Nat.leb_spec (List.length (k ++ [c])) (List.length own)) as [L|L]; [apply A|].
  rewrite app_length in L. cbn in L. rewrite skipn_snoc by lia. apply B.
Qed.
Lemma nvme_at_drawn M g k c : exists g', nvme_at M g (k ++ [c]) = m_nvme M (g' ++ [GNvme c]).
Proof. unfold nvme_at. rewrite map_app, app_assoc. eauto. Qed.
Lemma sg_at_drawn M g fd k c : exists g', sg_at M g fd (k ++ [c]) = m_sg M (g' ++ [GSg fd c]).
Proof. unfold sg_at. rewrite map_app, app_assoc. eauto. Qed.

(** Installing a driver that behaves the same. *)
Definition with_drv (y : handle) (V : drv) : handle :=
  {| l_dh := l_dh y; l_drv := Some V; l_calls := l_calls y; l_fd := l_fd y; l_driving := l_driving y; l_driver_name := l_driver_name y;
     l_removable := l_removable y; l_style := l_style y; l_gpt := l_gpt y; l_mbr := l_mbr y; l_capacity := l_capacity y; l_vendor := l_vendor y |}.
Lemma install_same x V V' ty y r : install x {| o_drv := V; o_type := ty |} = (y, r) -> sees_upto V' V [] (l_calls y) ->
  v_type V' [CType] = v_type V [CType] -> v_name V' [CType; CName] = v_name V [CType; CName] ->
  install x {| o_drv := V'; o_type := ty |} = (with_drv y V', r).
Proof.
  unfold install. cbn [o_drv o_type]. set (p := {| p_dh := Some ty; p_info := _ |}). intros H S T N.
  pose proof (init_sh V' V [] p [CType; CName]) as E. cbn [app] in E. rewrite T, N.
  destruct (init V p [CType; CName]) as [c [p1 r1]]. injection H as <- <-. cbn [l_calls] in S. rewrite E by exact S. reflexivity.
Qed.

(** ---- one more call ---- *)
Lemma dead_same V V' p h h' o : p_dh p = None -> fst (hstep V p h o) = h /\ snd (hstep V p h o) = snd (hstep V' p h' o) /\ reply_of V p h o = reply_of V' p h' o
  /\ p_dh (fst (snd (hstep V p h o))) = None.
Proof.
  destruct p as [[ty|] i]; [discriminate|]. intros _. unfold reply_of. destruct o; cbn; repeat split; reflexivity.
Qed.
Lemma hrun_snoc V p h os o : hrun V p h (os ++ [o]) =
  (fst (hstep V (fst (snd (hrun V p h os))) (fst (hrun V p h os)) o), (fst (snd (hstep V (fst (snd (hrun V p h os))) (fst (hrun V p h os)) o)),
    snd (snd (hrun V p h os)) ++ [snd (snd (hstep V (fst (snd (hrun V p h os))) (fst (hrun V p h os)) o))])).
Proof.
  rewrite P_Alone.hrun_app. destruct (hrun V p h os) as [h1 [p1 rs]]. cbn [fst snd hrun]. destruct (hstep V p1 h1 o) as [h2 [p2 r]]. reflexivity.
Qed.
Lemma replies_snoc V p h os o : replies V p h (os ++ [o]) = replies V p h os ++ [reply_of V (fst (snd (hrun V p h os))) (fst (hrun V p h os)) o].
Proof. rewrite replies_app. reflexivity. Qed.
Definition driver_at (M : machine) (g : ghist) (x : ghandle) : drv := match gh_dev x with Some d => drv_at M g d | None => no_drv end.
(** A call on a handle without driver. *)
Lemma step_dead M g path seg x calls rs snt fd B I Kn An Ks As y cs o : alone M path seg x calls rs snt fd B I Kn An Ks As y cs -> gh_dev x = None ->
  alone M path seg (snd (gcall M g x o)) (calls ++ [o]) (rs ++ [reply_of (driver_at M g x) (gh_dh x) [] o]) (snt ++ []) fd B I Kn An Ks As y cs
  /\ fst (gcall M g x o) = g.
Proof.
  intros [O F Fd D Hh Hp Hr Dr Sn Sg] N. unfold same_driver in D. rewrite N in D. rewrite app_nil_r.
  destruct (dead_same (drv_of y) no_drv (gh_dh x) cs [] o D) as (E1 & E2 & E3 & E4). rewrite E2 in E4.
  assert (R : snd (gcall M g x o) = {| gh_path := gh_path x; gh_fd := gh_fd x; gh_dh := fst (snd (hstep no_drv (gh_dh x) [] o)); gh_dev := None; gh_driving := gh_driving x; gh_driver_name := gh_driver_name x |}
            /\ fst (gcall M g x o) = g).
  { destruct x as [xp xf xd xv xk xn]. cbn [gh_dev gh_dh gh_path gh_fd gh_driving gh_driver_name] in *. subst xv. destruct o; cbn [gcall];
      [|unfold gclose; cbn [gh_dh]; rewrite D; unfold hstep, close; rewrite D; split; reflexivity| | | | | |];
      unfold gcall; cbn [gh_dev gh_dh]; match goal with |- context [hstep ?v ?p ?h ?q] => destruct (hstep v p h q) as [c [p1 r]] end; split; reflexivity. }
  destruct R as [R1 R2]. split; [|exact R2]. rewrite R1. constructor; cbn [gh_fd gh_dh gh_dev gh_driving gh_driver_name gh_path]; try assumption.
  - rewrite hrun_snoc. cbn [fst]. rewrite Hp, Hh. exact E1.
  - rewrite hrun_snoc. cbn [fst snd]. rewrite Hp, Hh, E2. reflexivity.
  - rewrite replies_snoc, Hr, Hp, Hh, E3. unfold driver_at. rewrite N. reflexivity.
Qed.
(** Closing a handle with a driver. *)
Lemma step_close M g path seg x calls rs snt fd B I Kn An Ks As y cs d : alone M path seg x calls rs snt fd B I Kn An Ks As y cs -> gh_dev x = Some d ->
  alone M path seg (snd (gcall M g x HClose)) (calls ++ [HClose]) (rs ++ [reply_of (driver_at M g x) (gh_dh x) [] HClose]) (snt ++ []) fd B I Kn An Ks As y (cs ++ [CClose])
  /\ fst (gcall M g x HClose) = g ++ [GFile (LClose (gh_fd x))].
Proof.
  intros [O F Fd D Hh Hp Hr Dr Sn Sg] N.
  assert (L : p_dh (gh_dh x) <> None). { unfold same_driver in D. rewrite N in D. destruct d as [[|] f id]; destruct D as (_ & D & _); exact D. }
  destruct (p_dh (gh_dh x)) as [ty|] eqn:T; [|congruence]. cbn [gcall]. unfold gclose. rewrite T. cbn [fst snd]. split; [|reflexivity]. rewrite app_nil_r.
  constructor; cbn [gh_fd gh_dh gh_dev gh_driving gh_driver_name gh_path]; try assumption.
  - reflexivity.
  - rewrite hrun_snoc. cbn [fst]. rewrite Hp, Hh. cbn [hstep]. unfold close. rewrite T. reflexivity.
  - rewrite hrun_snoc. cbn [fst snd]. rewrite Hp, Hh. cbn [hstep]. unfold close. rewrite T. reflexivity.
  - rewrite replies_snoc, Hr, Hp, Hh. unfold reply_of. cbn [hstep]. unfold close. rewrite T. reflexivity.
  - unfold nv_seen, sg_seen in *. rewrite nv_replay_snoc, sg_replay_snoc. exact Sn.
Qed.
