(** Non-vacuity for C151, C152: a machine that gives the same descriptor number to one drive after another. *)
From Verif Require Import Base M_Buffer M_Struc M_Layouts M_Ata M_TcgDevice M_DriveHandle M_Cdb M_SgDriver M_SgHandle M_NvmeLinux M_Strings M_LinuxInfo M_LinuxFactory M_LinuxVolume
  M_LinuxMachine Prop_LinuxFactory Spec_Inspect Spec_LinuxMachine P_LinuxMachine Prop_LinuxMachine.

Definition exlm_is_open (e : gev) : bool := match e with GFile (LOpen _) => true | _ => false end.
Definition exlm_is_close (e : gev) : bool := match e with GFile (LClose fd) => fd =? 3 | _ => false end.
Definition exlm_opens (g : ghist) : nat := List.length (filter exlm_is_open g).
Definition exlm_closes (g : ghist) : nat := List.length (filter exlm_is_close g).
(** One descriptor, number 3, free again as soon as it is closed; NVMe commands succeed, SG_IO is refused. *)
Definition exlm : machine :=
  {| m_open := fun g => if (exlm_opens g =? S (exlm_closes g))%nat then inr 3 else inl (EMsg "too many open files");
     m_basic := fun _ => w_basic refusing []; m_ids := fun _ => w_ids refusing []; m_dir := fun _ => inr [str "sr0"; str "nvme0n1"; str "loop3"];
     m_mode := fun _ => Some 0x6000; m_mounts := fun _ => inl (EMsg "no /proc");
     m_nvme := fun _ => {| na_errno := 0; na_ret := 0; na_result := 0; na_in := [] |};
     m_sg := fun _ => {| an_errno := 25; an_ret := 0; an_in := []; an_sense := []; an_status := None |};
     m_addr := fun _ => 4096 |}.
Lemma exlm_filter_app f (a b : ghist) : List.length (filter f (a ++ b)) = (List.length (filter f a) + List.length (filter f b))%nat.
Proof. now rewrite filter_app, app_length. Qed.
Example exlm_fresh : fresh_descriptors exlm.
Proof.
  intros g path fd other H (g1 & g2 & -> & O & C). cbn [m_open exlm] in *.
  destruct (exlm_opens (g1 ++ [GFile (LOpen other)]) =? S (exlm_closes (g1 ++ [GFile (LOpen other)])))%nat eqn:E1; [|discriminate O]. injection O as <-.
  destruct (exlm_opens ((g1 ++ GFile (LOpen other) :: g2) ++ [GFile (LOpen path)]) =? S (exlm_closes ((g1 ++ GFile (LOpen other) :: g2) ++ [GFile (LOpen path)])))%nat eqn:E2;
    [|discriminate H]. clear H. apply Nat.eqb_eq in E1, E2. unfold exlm_opens, exlm_closes in *.
  assert (Z : filter exlm_is_close g2 = []).
  { clear -C. induction g2 as [|e g2 IH]; [reflexivity|]. cbn [filter]. assert (IH' := IH (fun I => C (or_intror I))).
    destruct e as [[]| |]; cbn [exlm_is_close]; try exact IH'. destruct (fd =? 3) eqn:E; [|exact IH']. apply N.eqb_eq in E. subst fd. exfalso. apply C. now left. }
  change (g1 ++ GFile (LOpen other) :: g2) with (g1 ++ [GFile (LOpen other)] ++ g2) in E2. rewrite !exlm_filter_app, Z in E2. rewrite !exlm_filter_app in E1.
  cbn [filter List.length exlm_is_open exlm_is_close] in *. lia.
Qed.
Example exlm_addresses : (forall g, m_addr exlm g < 2 ^ 64) /\ forall g n fd, m_addr exlm (g ++ [GFile (LProbe (S n) fd)]) mod 512 = 0.
Proof. split; intros; reflexivity. Qed.

(** A program opens one drive, reads a log page and closes it, lists the drives, opens another drive, and then uses both handles.  The second drive got
    the first one's descriptor number; the call on the first handle does nothing, the one on the second reaches it. *)
Definition exlm_ops : list gop :=
  [GOpen (str "/dev/nvme0n1"); GOn 0 (HLog 1 2 false 512); GOn 0 HClose; GEnum; GOpen (str "/dev/nvme1n1"); GOn 0 (HLog 1 2 false 512); GOn 0 HClose; GOn 1 (HLog 1 3 false 512); GOn 0 HDiscovery].
Example exlm_looks : Forall looks exlm_ops.
Proof. repeat constructor; reflexivity. Qed.
(** Descriptor and kind of every action, and the opcode of each NVMe command. *)
Definition exlm_brief (e : gev) : list N :=
  match e with
  | GFile (LOpen p) => [1; blen p] | GFile (LClose fd) => [2; fd] | GNvme c => [3; nc_fd c; nth 0 (nc_arg c) 0] | GSg fd _ => [4; fd] | GFile (LStat p) => [5; blen p] | _ => []
  end.
Fixpoint nlist_eqb (a b : list (list N)) : bool :=
  match a, b with [], [] => true | x :: a', y :: b' => beq x y && nlist_eqb a' b' | _, _ => false end.
Definition exlm_expected : list (list N) :=
  [[1; 12]; [3; 3; 6]; [3; 3; 0x82]; [4; 3]; [4; 3]; [3; 3; 2]; [2; 3];
   [5; 8]; [5; 12]; [1; 12]; [3; 3; 6]; [3; 3; 0x82]; [4; 3]; [4; 3]; [2; 3];
   [1; 12]; [3; 3; 6]; [3; 3; 0x82]; [4; 3]; [4; 3]; [3; 3; 2]].
Definition exlm_trace : list (list N) := filter (fun l => negb (beq l [])) (map exlm_brief (st_hist (grun exlm exlm_ops))).
Example exlm_runs : nlist_eqb exlm_trace exlm_expected = true.
Proof. vm_compute. reflexivity. Qed.

(** Closing every handle does not release every descriptor: a device both drivers refuse leaves its descriptor open for good, since Close
    on a handle without driver does nothing. *)
Definition exlm_refusing : machine :=
  {| m_open := m_open exlm; m_basic := m_basic exlm; m_ids := m_ids exlm; m_dir := m_dir exlm; m_mode := m_mode exlm; m_mounts := m_mounts exlm;
     m_nvme := fun _ => {| na_errno := 25; na_ret := 0; na_result := 0; na_in := [] |}; m_sg := m_sg exlm; m_addr := m_addr exlm |}.
Definition exlm_closed (g : ghist) : bool := existsb exlm_is_close g.
Theorem C152_all_released_refuted :
  exists M path fd, let s := grun M [GOpen path; GOn 0 HClose] in
  fresh_descriptors M /\ paths s = [path] /\ Forall (fun x => p_dh (gh_dh x) = None) (st_handles s) /\ open_on M (st_hist s) fd path.
Proof.
  exists exlm_refusing, (str "/dev/sda"), 3. cbv zeta. split; [exact exlm_fresh|].
  assert (E : map (fun x => (gh_path x, p_dh (gh_dh x))) (st_handles (grun exlm_refusing [GOpen (str "/dev/sda"); GOn 0 HClose])) = [(str "/dev/sda", None)]) by (vm_compute; reflexivity).
  assert (H : exists g2, st_hist (grun exlm_refusing [GOpen (str "/dev/sda"); GOn 0 HClose]) = GFile (LOpen (str "/dev/sda")) :: g2 /\ exlm_closed g2 = false).
  { eexists. split; vm_compute; reflexivity. }
  destruct (grun exlm_refusing _) as [g xs]. cbn [st_hist st_handles] in *. unfold paths. cbn [st_handles].
  destruct xs as [|x [|y xs]]; try discriminate E. cbn [map] in E. injection E as E1 E2. cbn [map].
  split; [now rewrite E1|]. split; [constructor; [exact E2|constructor]|]. destruct H as (g2 & -> & C). exists [], g2. split; [reflexivity|]. split; [vm_compute; reflexivity|].
  intros I. unfold exlm_closed in C. assert (T : existsb exlm_is_close g2 = true) by (apply existsb_exists; eexists; split; [exact I|reflexivity]). congruence.
Qed.
Print Assumptions C152_all_released_refuted.
