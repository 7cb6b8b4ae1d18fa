(** C153, C154: programs using any number of drives on one Windows machine. *)
From Verif Require Import Base M_Buffer M_Struc M_Layouts M_Ata M_TcgDevice M_DriveHandle M_Cdb M_SgDriver M_NvmeLinux M_Strings M_WinPass M_WinNvme M_WinInfo
  M_WinFactory M_WinEnum M_WinMachine Spec_Inspect Spec_InspectWin P_DriveHandle P_WinNvme Prop_WinNvme Prop_WinDrive P_Inspect P_InspectWin Prop_Inspect Prop_DevelopWin
  Spec_WinMachine P_WinMachine P_WinMachine2 P_WinMachine3.
From Coq Require Import Permutation.

(** ---- C153: looking at drives sends only reading requests ---- *)
Lemma wadds_vadds h w w' : wadds w w' -> vadds (h ++ map XSys w) (h ++ map XSys w').
Proof.
  intros (es & -> & F). exists (map XSys es). rewrite map_app, app_assoc. split; [reflexivity|]. apply Forall_map. eapply Forall_impl; [|exact F].
  intros [c|p|q] H; try exact I. left. exact H.
Qed.
Lemma mstep_looks X s o : xaddr_ok X -> mlooks o -> vadds (ms_hist s) (ms_hist (mstep X s o)).
Proof.
  intros HA L. destruct o as [p|fuel|fuel|i o]; cbn [mstep].
  - pose proof (xadds_vadds _ _ (x_open_adds X (ms_hist s) p HA)) as P. destruct (x_open_by_path X (ms_hist s) p) as [h [x|e| |]]; exact P.
  - cbn [ms_hist]. destruct (C143_enum_drives X fuel (ms_hist s) HA) as (es & -> & F). exists es. split; [reflexivity|]. apply Forall_forall.
    intros e I. destruct e as [[c|p|q]| | | | | | | | | | | | |]; try exact Logic.I. left. exact (F c I).
  - cbn [ms_hist]. apply volumes_vadds.
  - destruct (nth_error (ms_handles s) i) as [x|]; [|apply vadds_refl].
    assert (G : vadds (ms_hist s) (fst (mcall X (ms_hist s) x o))).
    { assert (D : o = HClose \/ o <> HClose) by (destruct o; (now left) || (right; discriminate)). destruct D as [->|Hn].
      - cbn [mcall]. unfold mclose. destruct (mh_dev x) as [d|]; cbn [fst close_handle app map]; [now apply vadds_one|apply vadds_refl].
      - set (h := ms_hist s). set (V := match mh_dev x with Some d => win_drv (wsys_at X h) (waddr_at X h) d [] | None => mno_drv end).
        assert (Q : fst (mcall X h x o) = match mh_dev x with Some d => h ++ map XSys (win_replay (wsys_at X h) (waddr_at X h) d [] (fst (hstep V (mh_dh x) [] o))) | None => h end).
        { unfold mcall. fold V. destruct o; try congruence; destruct (hstep V (mh_dh x) [] _) as [cs [p out]]; reflexivity. }
        rewrite Q. destruct (mh_dev x) as [d|]; [|apply vadds_refl].
        destruct (hstep V (mh_dh x) [] o) as [cs y] eqn:E. destruct (hstep_gentle _ _ _ _ _ _ L E) as (cs' & E' & Gc). cbn [app fst] in *. subst cs'.
        assert (HA' : addr_ok (waddr_at X h)) by (intros k; apply HA).
        pose proof (wadds_vadds h _ _ (replay_adds (wsys_at X h) (waddr_at X h) d cs [] HA' Gc)) as W. cbn [map] in W. rewrite app_nil_r in W. exact W. }
    destruct (mcall X (ms_hist s) x o) as [h x']. exact G.
Qed.
(** Every DeviceIoControl of a program that only looks - opening, listing, looking at any number of drives, in any order - reads from a
    drive or asks Windows a question. *)
Theorem C153_windows_programs : forall X ops, (forall k, x_data X k < 2 ^ 64 /\ x_bounce X k < 2 ^ 64) -> Forall mlooks ops ->
  forall c, In (XSys (WIo c)) (ms_hist (mrun X ops)) -> only_looks c.
Proof.
  intros X ops HA L.
  assert (R : vadds [] (ms_hist (mrun X ops))).
  { unfold mrun. change (@nil xev) with (ms_hist {| ms_hist := []; ms_handles := [] |}) at 1.
    generalize {| ms_hist := []; ms_handles := [] |}. induction L as [|o ops Lo Ls IH]; intros s; cbn [fold_left]; [apply vadds_refl|].
    exact (vadds_trans _ _ _ (mstep_looks X s o HA Lo) (IH _)). }
  destruct R as (es & -> & F). cbn [app]. rewrite Forall_forall in F. intros c I. exact (F _ I).
Qed.
Print Assumptions C153_windows_programs.

(** ---- C154: no command reaches another drive ---- *)
(** Each DeviceIoControl and each CloseHandle of a call happens while its system handle is open on something the call concerns.  A call on
    a drive handle: the path it was opened with, or the SCSI port that device named.  OpenByPath: the same, through handles that very call
    obtained.  EnumDrives and EnumVolumes touch no handle of the program's drives, only ones they opened themselves. *)
Theorem C154_own_drive : forall X ops o, fresh_handles X -> (forall h, wf (wa_out (x_io X h))) ->
  let s := mrun X ops in let s' := mstep X s o in
  exists es, ms_hist s' = ms_hist s ++ es
  /\ forall e1 e e2 hd, es = e1 ++ e :: e2 -> uses_handle e = Some hd ->
       exists obj, is_open_on X (ms_hist s ++ e1) hd obj /\ may_use X s o (ms_hist s ++ e1) hd obj.
Proof.
  intros X ops o F B s s'. destruct (mstep_does X s o F B (mrun_good X ops F B)) as (es & E & T & _). exists es. split; [exact E|exact T].
Qed.
Print Assumptions C154_own_drive.
(** The path of a handle is the one given to OpenByPath, for as long as the program runs. *)
Theorem C154_handle_paths : forall X ops o, fresh_handles X -> (forall h, wf (wa_out (x_io X h))) ->
  let s := mrun X ops in let s' := mstep X s o in
  mpaths s' = mpaths s \/ exists p, o = MOpen p /\ mpaths s' = mpaths s ++ [p].
Proof. intros X ops o F B s s'. destruct (mstep_does X s o F B (mrun_good X ops F B)) as (es & _ & _ & _ & P). exact P. Qed.
Print Assumptions C154_handle_paths.
Lemma nodup_disjoint {A} (l m : list A) : NoDup (l ++ m) -> forall a, In a l -> In a m -> False.
Proof.
  induction l as [|b l IHl]; intros D a I J; [exact I|]. cbn [app] in D. apply NoDup_cons_iff in D. destruct D as [D1 D2].
  destruct I as [<-|I]; [apply D1, in_or_app; now right|exact (IHl D2 a I J)].
Qed.
Lemma nodup_right {A} (l m : list A) : NoDup (l ++ m) -> NoDup m.
Proof. induction l as [|b l IHl]; intros D; [exact D|]. cbn [app] in D. apply NoDup_cons_iff in D. exact (IHl (proj2 D)). Qed.
(** A system handle is open on one thing only; two live drive handles never share one. *)
Theorem C154_one_object : forall X, fresh_handles X -> (forall h, wf (wa_out (x_io X h))) ->
  (forall h hd o o', is_open_on X h hd o -> is_open_on X h hd o' -> o = o')
  /\ (forall ops i j x y hd, nth_error (ms_handles (mrun X ops)) i = Some x -> nth_error (ms_handles (mrun X ops)) j = Some y ->
        In hd (sys_handles x) -> In hd (sys_handles y) -> i = j).
Proof.
  intros X F B. split; [intros h hd o o'; now apply is_open_unique|].
  intros ops i j x y hd Hi Hj Ix Iy. destruct (mrun_good X ops F B) as (Es & HE & [D _]).
  set (h := ms_hist (mrun X ops)) in *. set (xs := ms_handles (mrun X ops)) in *. clearbody xs.
  assert (SYS : forall z E, handle_entries X h z E -> forall hd, In hd (sys_handles z) -> In hd (map fst E)).
  { intros z E H g. unfold handle_entries, sys_handles, dev_entries in *. destruct (mh_dev z) as [d|]; [|intros []].
    destruct (wd_kind d); [destruct H as (port & _ & ->)|subst E..]; cbn; tauto. }
  clear -HE D SYS Hi Hj Ix Iy. revert i j Hi Hj D. induction HE as [|z E xs Es Hz HE IH]; intros i j Hi Hj D; [destruct i; discriminate Hi|].
  cbn [concat] in D. rewrite map_app in D.
  assert (DJ : forall a, In a (map fst E) -> In a (map fst (concat Es)) -> False) by exact (nodup_disjoint _ _ D).
  assert (MEM : forall k w, nth_error xs k = Some w -> In hd (sys_handles w) -> In hd (map fst (concat Es))).
  { clear -HE SYS. induction HE as [|z E xs Es Hz HE IH]; intros k w Hk I; [destruct k; discriminate Hk|]. cbn [concat]. rewrite map_app. apply in_or_app.
    destruct k as [|k]; cbn [nth_error] in Hk; [injection Hk as ->; left; exact (SYS w E Hz hd I)|right; exact (IH k w Hk I)]. }
  destruct i as [|i], j as [|j]; cbn [nth_error] in *.
  - reflexivity.
  - injection Hi as ->. exfalso. exact (DJ hd (SYS x E Hz hd Ix) (MEM j y Hj Iy)).
  - injection Hj as ->. exfalso. exact (DJ hd (SYS y E Hz hd Iy) (MEM i x Hi Ix)).
  - f_equal. apply IH; try assumption. exact (nodup_right _ _ D).
Qed.
Print Assumptions C154_one_object.
