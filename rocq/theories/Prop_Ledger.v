(** C171: what a program on a Linux machine obtains from the operating system and what it gives back. *)
From Verif Require Import Base M_Buffer M_Struc M_Layouts M_Ata M_TcgDevice M_DriveHandle M_Cdb M_SgDriver M_SgHandle M_NvmeLinux M_Strings M_LinuxInfo M_LinuxFactory M_LinuxVolume
  M_LinuxMachine M_BasicCalls Spec_Inspect Spec_LinuxMachine P_DriveHandle P_Inspect P_LinuxMachine Spec_Ledger P_Ledger.

(** Reading the basic information of a disk, call by call: the result is the one the rest of the model uses; the file of the disk is
    opened first and once, its three questions go to the descriptor that was passed in and in this order, the disk itself is read only
    when its table is an MBR, and the file is never closed. *)
Theorem C171_calls : forall fd path a,
  snd (basic_run fd path a) = read_basic_info path a /\
  (exists later, fst (basic_run fd path a) = BOpenFile path :: later /\ ~ In BCloseFile later /\ (forall p, ~ In (BOpenFile p) later) /\ (List.length later <= 4)%nat /\
     (da_open a <> None -> later = []) /\
     (da_open a = None -> firstn 3 later = [BIoctl fd 0x1268; BIoctl fd 0x80081272; BIoctl fd 0x301]) /\
     (forall n, In (BReadAt n) later <-> n = 512%nat /\ da_open a = None /\ da_geo a = None /\ exists l, da_table a = TMbr l)).
Proof.
  intros fd path a. unfold basic_run, read_basic_info. destruct (da_open a) as [e|].
  { split; [reflexivity|]. exists []. cbn. split; [reflexivity|]. split; [tauto|]. split; [tauto|]. split; [lia|]. split; [reflexivity|]. split; [discriminate|].
    intros n. split; [tauto|]. intros (_ & E & _). discriminate E. }
  assert (Q : forall l, (forall n, In (BReadAt n) l <-> n = 512%nat /\ (@None err) = None /\ da_geo a = None /\ exists l, da_table a = TMbr l) -> (List.length l <= 1)%nat ->
    ~ In BCloseFile l -> (forall p, ~ In (BOpenFile p) l) -> forall later, later = [BIoctl fd 0x1268; BIoctl fd 0x80081272; BIoctl fd 0x301] ++ l ->
    ~ In BCloseFile later /\ (forall p, ~ In (BOpenFile p) later) /\ (List.length later <= 4)%nat /\ ((@None err) <> None -> later = []) /\
    ((@None err) = None -> firstn 3 later = [BIoctl fd 0x1268; BIoctl fd 0x80081272; BIoctl fd 0x301]) /\
    (forall n, In (BReadAt n) later <-> n = 512%nat /\ (@None err) = None /\ da_geo a = None /\ exists l, da_table a = TMbr l)).
  { intros l H L C O later ->. split; [|split; [|split; [|split; [|split]]]].
    - intros I. apply in_app_iff in I as [I|I]; [|exact (C I)]. cbn in I. repeat destruct I as [I|I]; try discriminate I. exact I.
    - intros p I. apply in_app_iff in I as [I|I]; [|exact (O p I)]. cbn in I. repeat destruct I as [I|I]; try discriminate I. exact I.
    - rewrite app_length. cbn [List.length]. lia.
    - congruence.
    - reflexivity.
    - intros n. rewrite <- H, in_app_iff. split; [|now right]. intros [I|I]; [|exact I]. cbn in I. repeat destruct I as [I|I]; try discriminate I. destruct I. }
  destruct (da_geo a) as [e|] eqn:G.
  { split; [reflexivity|]. eexists. split; [reflexivity|]. apply (Q []); try reflexivity; cbn; try tauto; try lia. intros n. split; [tauto|]. intros (_ & _ & E & _). discriminate E. }
  destruct (da_table a) as [guid ps|ps|] eqn:T; (split; [reflexivity|]); eexists; (split; [reflexivity|]).
  - apply (Q []); try reflexivity; cbn; try tauto; try lia. intros n. split; [tauto|]. intros (_ & _ & _ & l & E). discriminate E.
  - apply (Q [BReadAt 512]); try reflexivity; cbn [In List.length]; try lia; [|intros [E|[]]; discriminate E|intros p [E|[]]; discriminate E].
    intros n. split; [intros [E|[]]; injection E as <-; repeat split; eauto|]. intros (-> & _). now left.
  - apply (Q []); try reflexivity; cbn; try tauto; try lia. intros n. split; [tauto|]. intros (_ & _ & _ & l & E). discriminate E.
Qed.

(** One call of a program, in any state it can be in: what it does is appended to the history, and
    - opening a drive gives nothing back, and obtains nothing if the device cannot be opened, one descriptor if it can, and a second
      one if its partition table can be read as well;
    - closing a handle obtains nothing and gives back one descriptor if the handle is open and none otherwise, and it is closed after;
    - every other call on a handle neither obtains nor gives back any, and leaves the handle open or closed as it was;
    - listing volumes gives nothing back; listing drives gives back at most what it obtained beyond the tables it read. *)
Theorem C171_step : forall M s o, exists es, st_hist (gstep M s o) = st_hist s ++ es /\
  let g := st_hist s in
  let got := total_of (obtained M) g es in let back := total_of (given_back M) g es in let tables := total_of (table_read M) g es in
  match o with
  | GOpen path => back = 0%nat /\ match m_open M (g ++ [GFile (LOpen path)]) with
      | inl _ => got = 0%nat
      | inr fd => got = match da_open (m_basic M (g ++ [GFile (LOpen path); GFile (LBasic fd path)])) with None => 2%nat | Some _ => 1%nat end
      end
  | GOn i HClose => got = 0%nat /\
      match nth_error (st_handles s) i with
      | Some x => back = (if is_live x then 1 else 0)%nat /\ exists y, nth_error (st_handles (gstep M s o)) i = Some y /\ is_live y = false
      | None => back = 0%nat
      end
  | GOn i _ => got = 0%nat /\ back = 0%nat /\ map is_live (st_handles (gstep M s o)) = map is_live (st_handles s)
  | GVolumes => back = 0%nat
  | GEnum => (back + tables <= got)%nat
  end.
Proof.
  assert (RN : forall (xs : list ghandle) i x y, nth_error xs i = Some x -> is_live y = is_live x -> map is_live (replace_nth i y xs) = map is_live xs).
  { intros xs i x y H E. destruct (nth_split_ext xs i x H) as (a & b & -> & R). rewrite R, !map_app. cbn [map]. now rewrite E. }
  assert (NR : forall (xs : list ghandle) i x y, nth_error xs i = Some x -> nth_error (replace_nth i y xs) i = Some y).
  { induction xs as [|z xs IH]; intros [|i] x y H; cbn in *; try discriminate; [reflexivity|eauto]. }
  intros M s o. cbv zeta. destruct o as [path| | |i h]; cbn [gstep].
  - destruct (gopen_moves M (st_hist s) path) as (es & t & E & [A B C] & T0 & T1). exists es. split.
    { destruct (gopen_by_path M (st_hist s) path) as [g [x|e| |]]; exact E. }
    split; [exact B|]. rewrite A. unfold ok_open. destruct (m_open M _) as [e|fd]; [rewrite (T0 e eq_refl); reflexivity|]. rewrite (T1 fd eq_refl). unfold ok_table. destruct (da_open _); reflexivity.
  - destruct (genum_moves M (st_hist s)) as (es & o & c & t & E & [A B C] & L). exists es. split; [exact E|]. rewrite A, B, C. lia.
  - destruct (gvolumes_moves M (st_hist s)) as (es & o & t & E & [A B C]). exists es. split; [exact E|exact B].
  - destruct (nth_error (st_handles s) i) as [x|] eqn:Hx; [|exists []; rewrite app_nil_r; split; [reflexivity|destruct h; repeat split]].
    destruct h; lazymatch goal with
      | |- context [gcall M (st_hist s) x HClose] => destruct (gclose_moves M (st_hist s) x) as (es & E & [A B C] & L); cbn [gcall]; destruct (gclose (st_hist s) x) as [g x']; cbn [fst snd] in *;
          exists es; split; [exact E|]; split; [exact A|]; split; [exact B|]; exists x'; split; [exact (NR _ _ _ _ Hx)|exact L]
      | |- context [gcall M (st_hist s) x ?o] => destruct (gcall_moves M (st_hist s) x o ltac:(discriminate)) as (es & E & [A B C] & L); destruct (gcall M (st_hist s) x o) as [g x'];
          cbn [fst snd] in *; exists es; (split; [exact E|]); (split; [exact A|]); (split; [exact B|]); exact (RN _ _ _ _ Hx L)
      end.
Qed.

(** What a whole program has obtained covers what it has given back, plus the handles still open, plus one descriptor for every
    partition table that was read: those are given back by no call, whatever handles are closed. *)
Theorem C171_programs : forall M ops, let s := grun M ops in
  (total_of (given_back M) [] (st_hist s) + live_handles s + total_of (table_read M) [] (st_hist s) <= total_of (obtained M) [] (st_hist s))%nat.
Proof.
  intros M ops. cbv zeta. unfold grun.
  assert (G : forall ops s, (exists o c t, moves M [] (st_hist s) o c t /\ (c + live_handles s <= o)%nat) ->
    let s' := fold_left (gstep M) ops s in (exists o c t, moves M [] (st_hist s') o c t /\ (c + live_handles s' <= o)%nat)).
  { clear ops. induction ops as [|p ops IH]; intros s H; [exact H|]. cbn [fold_left]. cbv zeta in *. apply IH. clear IH.
    destruct H as (o & c & t & Mv & L). destruct p as [path| | |i h]; cbn [gstep].
    - destruct (gopen_moves M (st_hist s) path) as (es & t2 & E & Mv2 & _). destruct (gopen_adds M (st_hist s) path) as (e0 & _ & _ & _ & X).
      destruct (gopen_by_path M (st_hist s) path) as [g r]. cbn [fst snd] in *. subst g.
      pose proof (moves_app M [] (st_hist s) es _ _ _ _ _ _ Mv Mv2) as Mv3. rewrite Nat.add_0_r in Mv3.
      destruct r as [x|e| |]; eexists _, _, _; (split; [exact Mv3|]); unfold live_handles in *; cbn [st_handles]; try lia.
      destruct (X x eq_refl) as (_ & _ & O & _). unfold ok_open. rewrite O, count_snoc. destruct (is_live x); lia.
    - destruct (genum_moves M (st_hist s)) as (es & o2 & c2 & t2 & -> & Mv2 & L2). eexists _, _, _. split; [exact (moves_app M [] (st_hist s) es _ _ _ _ _ _ Mv Mv2)|].
      unfold live_handles in *. cbn [st_handles]. lia.
    - destruct (gvolumes_moves M (st_hist s)) as (es & o2 & t2 & -> & Mv2). eexists _, _, _. split; [exact (moves_app M [] (st_hist s) es _ _ _ _ _ _ Mv Mv2)|].
      unfold live_handles in *. cbn [st_handles]. lia.
    - destruct (nth_error (st_handles s) i) as [x|] eqn:Hx; [|eauto 6]. unfold live_handles in *.
      assert (D : h = HClose \/ h <> HClose) by (destruct h; (left; reflexivity) || (right; discriminate)). destruct D as [->|D].
      + cbn [gcall]. destruct (gclose_moves M (st_hist s) x) as (es & E & Mv2 & Lx). destruct (gclose (st_hist s) x) as [g x']. cbn [fst snd] in *. subst g.
        eexists _, _, _. split; [exact (moves_app M [] (st_hist s) es _ _ _ _ _ _ Mv Mv2)|]. cbn [st_handles].
        pose proof (count_replace _ _ _ x' Hx) as R. unfold one in *. rewrite Lx in R. lia.
      + destruct (gcall_moves M (st_hist s) x h D) as (es & E & Mv2 & Lx). destruct (gcall M (st_hist s) x h) as [g x']. cbn [fst snd] in *. subst g.
        eexists _, _, _. split; [exact (moves_app M [] (st_hist s) es _ _ _ _ _ _ Mv Mv2)|]. cbn [st_handles].
        pose proof (count_replace _ _ _ x' Hx) as R. unfold one in R. rewrite Lx in R. lia. }
  destruct (G ops {| st_hist := []; st_handles := [] |}) as (o & c & t & [A B C] & L).
  { exists 0%nat, 0%nat, 0%nat. split; [apply moves_nil|]. unfold live_handles, count. cbn. lia. }
  cbv zeta in *. rewrite A, B, C. lia.
Qed.

(** On a machine where every device and every partition table can be read, a program that opened n drives has at least n descriptors
    more than it gave back, whatever else it did, closing every handle included. *)
Definition opens (o : gop) : bool := match o with GOpen _ => true | _ => false end.
Theorem C171_leak : forall M ops, (forall g, exists fd, m_open M g = inr fd) -> (forall g, da_open (m_basic M g) = None) ->
  let s := grun M ops in (total_of (given_back M) [] (st_hist s) + live_handles s + count opens ops <= total_of (obtained M) [] (st_hist s))%nat.
Proof.
  intros M ops HO HB. cbv zeta. pose proof (C171_programs M ops) as P. cbv zeta in P.
  enough (T : (count opens ops <= total_of (table_read M) [] (st_hist (grun M ops)))%nat) by lia. clear P. unfold grun.
  assert (G : forall ops s, (total_of (table_read M) [] (st_hist s) + count opens ops <= total_of (table_read M) [] (st_hist (fold_left (gstep M) ops s)))%nat).
  { clear ops. induction ops as [|p ops IH]; intros s; [unfold count; cbn; lia|]. cbn [fold_left]. specialize (IH (gstep M s p)). rewrite count_cons.
    enough (K : (total_of (table_read M) [] (st_hist s) + (if opens p then 1 else 0) <= total_of (table_read M) [] (st_hist (gstep M s p)))%nat) by lia. clear IH.
    destruct p as [path| | |i h]; cbn [opens].
    - destruct (gopen_moves M (st_hist s) path) as (es & t & E & [A B C] & _ & T1). destruct (HO (st_hist s ++ [GFile (LOpen path)])) as (fd & O).
      assert (Et : t = 1%nat) by (rewrite (T1 fd O); unfold ok_table; now rewrite HB). rewrite Et in C.
      assert (Es : st_hist (gstep M s (GOpen path)) = st_hist s ++ es) by (cbn [gstep]; destruct (gopen_by_path M (st_hist s) path) as [g [x|e| |]]; exact E).
      rewrite Es, total_app. cbn [app]. rewrite C. lia.
    - destruct (C171_step M s GEnum) as (es & -> & _). rewrite total_app. lia.
    - destruct (C171_step M s GVolumes) as (es & -> & _). rewrite total_app. lia.
    - destruct (C171_step M s (GOn i h)) as (es & -> & _). rewrite total_app. lia. }
  specialize (G ops {| st_hist := []; st_handles := [] |}). cbn [st_hist total_of] in G. exact G.
Qed.

(** A handle that is not open - closed, or returned for a device no driver accepted - is never open again and is worth nothing to
    close: its descriptor, if it has one, is out of reach. *)
Theorem C171_out_of_reach : forall M s ops i x, nth_error (st_handles s) i = Some x -> is_live x = false ->
  let s' := fold_left (gstep M) ops s in
  exists y, nth_error (st_handles s') i = Some y /\ is_live y = false /\ st_hist (gstep M s' (GOn i HClose)) = st_hist s'.
Proof.
  intros M s ops. revert s. induction ops as [|p ops IH]; intros s i x H L; cbv zeta.
  - exists x. cbn [fold_left gstep]. rewrite H. split; [reflexivity|]. split; [exact L|]. cbn [gcall]. unfold gclose. unfold is_live in L. destruct (p_dh (gh_dh x)); [discriminate|reflexivity].
  - cbn [fold_left]. assert (K : exists y, nth_error (st_handles (gstep M s p)) i = Some y /\ is_live y = false).
    { destruct p as [path| | |j h]; cbn [gstep].
      - destruct (gopen_by_path M (st_hist s) path) as [g [z|e| |]]; cbn [st_handles]; try (now exists x). exists x. split; [|exact L]. rewrite nth_error_app1; [exact H|].
        apply nth_error_Some. congruence.
      - now exists x.
      - now exists x.
      - destruct (nth_error (st_handles s) j) as [z|] eqn:Hz; [|now exists x].
        assert (Lz : is_live z = false -> is_live (snd (gcall M (st_hist s) z h)) = false).
        { intros Z. assert (D : h = HClose \/ h <> HClose) by (destruct h; (left; reflexivity) || (right; discriminate)). destruct D as [->|D].
          - cbn [gcall]. destruct (gclose_moves M (st_hist s) z) as (_ & _ & _ & E). exact E.
          - destruct (gcall_moves M (st_hist s) z h D) as (_ & _ & _ & E). now rewrite E. }
        destruct (gcall M (st_hist s) z h) as [g z']. cbn [snd st_handles] in *.
        destruct (Nat.eq_dec i j) as [<-|Ne].
        + rewrite H in Hz. injection Hz as <-. exists z'. split; [|exact (Lz L)].
          clear -H. revert i H. induction (st_handles s) as [|a l IH]; intros [|i] H; cbn in *; try discriminate; [reflexivity|eauto].
        + exists x. split; [|exact L]. clear -H Ne. revert i j H Ne. induction (st_handles s) as [|a l IH]; intros [|i] [|j] H Ne; cbn in *; try discriminate; try congruence. apply IH; [exact H|lia]. }
    destruct K as (y & Hy & Ly). exact (IH _ _ _ Hy Ly).
Qed.

Print Assumptions C171_calls.
Print Assumptions C171_step.
Print Assumptions C171_programs.
Print Assumptions C171_leak.
Print Assumptions C171_out_of_reach.
