(** C172: what a program on a Windows machine obtains from the operating system and what it gives back. *)
From Verif Require Import Base M_Buffer M_Struc M_Layouts M_Ata M_TcgDevice M_DriveHandle M_Cdb M_SgDriver M_NvmeLinux M_Strings M_WinPass M_WinNvme M_WinInfo
  M_WinFactory M_WinEnum M_WinMachine Spec_Inspect Spec_InspectWin Spec_WinMachine P_WinMachine P_WinMachine2 P_WinMachine3 Spec_LedgerWin P_LedgerWin.
Local Open Scope Z_scope.

(** One call of a program, in any state: what it does is appended to the history, and of the system handles it then holds
    - OpenByPath that fails has none left; OpenByPath that returns a drive has its device and, with the miniport driver only, its SCSI port;
    - EnumDrives that returns has one left for every drive it listed without a driver or with the miniport driver, none else;
    - EnumVolumes that ends has none left, also when it panics;
    - closing a drive handle gives back one if it is open and none otherwise, and it is closed after;
    - every other call on a handle neither obtains nor gives back any, and leaves the handle open or closed as it was. *)
Theorem C172_step : forall X s o, exists es, ms_hist (mstep X s o) = (ms_hist s ++ es)%list /\
  let n := balance X (ms_hist s) es in
  match o with
  | MOpen p => match snd (x_open_by_path X (ms_hist s) p) with
      | Ok x => n = has_driver x + left_over x /\ 1 <= n <= 2
      | Err _ => n = 0
      | _ => 0 <= n <= 2
      end
  | MEnum k => match snd (win_enum_drives X k (ms_hist s)) with Ok xs => n = sum_left xs | Err _ => n = 0 | _ => 0 <= n end
  | MVolumes k => match snd (win_enum_volumes X k (ms_hist s)) with Fuel => 0 <= n | _ => n = 0 end
  | MOn i HClose => match nth_error (ms_handles s) i with
      | Some x => n = (if is_live x then -1 else 0) /\ exists y, nth_error (ms_handles (mstep X s o)) i = Some y /\ is_live y = false
      | None => n = 0
      end
  | MOn i _ => n = 0 /\ map is_live (ms_handles (mstep X s o)) = map is_live (ms_handles s)
  end.
Proof.
  intros X s o. cbv zeta. destruct o as [p|k|k|i h]; cbn [mstep].
  - pose proof (open_path_net X (ms_hist s) p) as P. cbv zeta in P. destruct (x_open_by_path X (ms_hist s) p) as [h [x|e| |]]; cbn [fst snd ms_hist] in *.
    + destruct P as (es & -> & B). exists es. split; [reflexivity|]. split; [exact B|]. rewrite B. unfold has_driver, left_over. destruct (f_drv x) as [[[d g] cs]|]; [destruct (wd_kind d)|]; lia.
    + exact P.
    + destruct P as (n & (es & -> & B) & L). exists es. rewrite B. auto.
    + destruct P as (n & (es & -> & B) & L). exists es. rewrite B. auto.
  - pose proof (enum_net X k (ms_hist s)) as P. cbv zeta in P. cbn [ms_hist]. destruct (win_enum_drives X k (ms_hist s)) as [h [x|e| |]]; cbn [fst snd] in *; try exact P;
      destruct P as (n & (es & -> & B) & L); exists es; rewrite B; auto.
  - pose proof (volumes_net X k (ms_hist s)) as P. cbv zeta in P. cbn [ms_hist]. destruct (win_enum_volumes X k (ms_hist s)) as [h [x|e| |]]; cbn [fst snd] in *; try exact P.
    destruct P as (n & (es & -> & B) & L); exists es; rewrite B; auto.
  - destruct (nth_error (ms_handles s) i) as [x|] eqn:E.
    2:{ exists []. rewrite app_nil_r. split; [reflexivity|]. destruct h; cbn; auto. }
    destruct (set_nth_ext _ _ _ E) as (a & b & Ex & R).
    assert (D : h = HClose \/ h <> HClose) by (destruct h; (left; reflexivity) || (right; discriminate)). destruct D as [->|D].
    + cbn [mcall]. destruct (mclose_net X (ms_hist s) x) as [(es & E1 & B) L]. destruct (mclose (ms_hist s) x) as [h' x']. cbn [fst snd ms_hist ms_handles] in *.
      exists es. split; [exact E1|]. split; [exact B|]. exists x'. split; [|exact L]. rewrite R. rewrite Ex in E. clear -E R Ex.
      assert (Hl : nth_error (set_nth i x' (ms_handles s)) i = Some x').
      { assert (E' : nth_error (ms_handles s) i = Some x) by (rewrite Ex; exact E). clear -E'. revert i E'. induction (ms_handles s) as [|y l IH]; intros [|i] H; cbn in *; try discriminate; auto. }
      now rewrite R in Hl.
    + destruct (mcall_net X (ms_hist s) x h D) as [(es & E1 & B) L]. destruct (mcall X (ms_hist s) x h) as [h' x']. cbn [fst snd ms_hist ms_handles] in *.
      exists es. split; [exact E1|]. assert (M : map is_live (set_nth i x' (ms_handles s)) = map is_live (ms_handles s)) by (rewrite R, Ex, !map_app; cbn [map]; now rewrite L).
      destruct h; try (split; [exact B|exact M]). congruence.
Qed.
Lemma live_snoc s x h : live_handles {| ms_hist := h; ms_handles := ms_handles s ++ [x] |} = live_handles s + (if is_live x then 1 else 0).
Proof. unfold live_handles. cbn [ms_handles]. rewrite filter_app, app_length. cbn [filter]. destruct (is_live x); cbn [List.length]; lia. Qed.
Lemma live_map s s' : map is_live (ms_handles s') = map is_live (ms_handles s) -> live_handles s' = live_handles s.
Proof.
  unfold live_handles. generalize (ms_handles s), (ms_handles s'). intros l l' H. f_equal. revert l' H. induction l as [|x l IH]; intros [|y l'] H; cbn [map filter] in *; try discriminate; [reflexivity|].
  injection H as A B. rewrite A. specialize (IH _ B). destruct (is_live x); cbn [List.length]; lia.
Qed.
Lemma live_set xs i x y : nth_error xs i = Some x -> is_live y = false ->
  Z.of_nat (List.length (filter is_live (set_nth i y xs))) = Z.of_nat (List.length (filter is_live xs)) + (if is_live x then -1 else 0).
Proof.
  intros H L. destruct (set_nth_ext _ _ _ H) as (a & b & -> & R). rewrite R, !filter_app, !app_length. cbn [filter]. rewrite L. destruct (is_live x); cbn [List.length]; lia.
Qed.
(** In every call, the balance is the change in the number of live drive handles plus what the call leaves behind; nothing for a tidy one. *)
Lemma step_live X s o : exists es m, ms_hist (mstep X s o) = (ms_hist s ++ es)%list /\ balance X (ms_hist s) es = live_handles (mstep X s o) - live_handles s + m
  /\ 0 <= m /\ (tidy X s o -> m = 0).
Proof.
  destruct (C172_step X s o) as (es & E & H). cbv zeta in H. exists es, (balance X (ms_hist s) es - (live_handles (mstep X s o) - live_handles s)). split; [exact E|]. split; [lia|].
  assert (SAME : forall h, live_handles {| ms_hist := h; ms_handles := ms_handles s |} = live_handles s) by reflexivity.
  destruct o as [p|k|k|i h]; cbn [tidy].
  - clear E. cbn [mstep]. destruct (x_open_by_path X (ms_hist s) p) as [h [x|e| |]]; cbn [snd] in *; rewrite ?SAME; try (split; [lia|tauto || lia]).
    destruct H as [H _]. rewrite live_snoc, H. assert (D : (if is_live (mhandle_of p x) then 1 else 0) = has_driver x) by (unfold is_live, mhandle_of, has_driver; cbn [mh_dev]; now destruct (f_drv x) as [[[d g] cs]|]).
    rewrite D. pose proof (left_nonneg x). split; [lia|]. intros T. lia.
  - clear E. cbn [mstep]. rewrite SAME. destruct (win_enum_drives X k (ms_hist s)) as [h [xs|e| |]]; cbn [snd] in *; try (split; [lia|tauto || lia]).
    pose proof (sum_left_nonneg xs). split; [lia|]. intros T. enough (sum_left xs = 0) by lia. clear -T. induction T as [|x xs Hx T IH]; [reflexivity|]. cbn [sum_left fold_right]. fold (sum_left xs). lia.
  - clear E. cbn [mstep]. rewrite SAME. destruct (win_enum_volumes X k (ms_hist s)) as [h [xs|e| |]]; cbn [snd] in *; try (split; [lia|intros; lia]). split; [lia|congruence].
  - enough (Q : balance X (ms_hist s) es = live_handles (mstep X s (MOn i h)) - live_handles s) by (split; lia). clear E.
    assert (D : h = HClose \/ h <> HClose) by (destruct h; (left; reflexivity) || (right; discriminate)). destruct D as [->|D].
    + cbn [mstep] in *. destruct (nth_error (ms_handles s) i) as [x|] eqn:E; [|lia]. cbn [mcall] in *. destruct H as [H _]. rewrite H. destruct (mclose_net X (ms_hist s) x) as [_ L].
      destruct (mclose (ms_hist s) x) as [h' x']. cbn [snd] in L. unfold live_handles. cbn [ms_handles]. rewrite (live_set _ _ _ _ E L). lia.
    + assert (H' : balance X (ms_hist s) es = 0 /\ map is_live (ms_handles (mstep X s (MOn i h))) = map is_live (ms_handles s)) by (destruct h; try exact H; congruence).
      destruct H' as [A B]. rewrite A, (live_map _ _ B). lia.
Qed.
(** A whole program, whatever it does and however its calls end, holds at least one system handle for every drive handle it has open: no
    call gives back a handle twice or one that a drive handle still needs. *)
Lemma run_live X ops : forall s, exists es m, ms_hist (fold_left (mstep X) ops s) = (ms_hist s ++ es)%list
  /\ balance X (ms_hist s) es = live_handles (fold_left (mstep X) ops s) - live_handles s + m /\ 0 <= m /\ (tidy_from X s ops -> m = 0).
Proof.
  induction ops as [|o ops IH]; intros s; cbn [fold_left tidy_from].
  - exists [], 0. rewrite app_nil_r. cbn [balance]. repeat split; lia.
  - destruct (step_live X s o) as (es1 & m1 & E1 & B1 & P1 & T1). destruct (IH (mstep X s o)) as (es2 & m2 & E2 & B2 & P2 & T2). rewrite E2, E1, <- app_assoc. exists (es1 ++ es2)%list, (m1 + m2).
    split; [reflexivity|]. rewrite balance_app, <- E1, B1, B2. split; [lia|]. split; [lia|]. intros [U V]. rewrite (T1 U), (T2 V). lia.
Qed.
Theorem C172_programs : forall X ops, let s := mrun X ops in live_handles s <= balance X [] (ms_hist s).
Proof.
  intros X ops. cbv zeta. destruct (run_live X ops {| ms_hist := []; ms_handles := [] |}) as (es & m & E & B & P & _). unfold mrun. rewrite E. cbn [ms_hist app] in *. rewrite B. unfold live_handles at 3. cbn [ms_handles filter List.length]. lia.
Qed.
Print Assumptions C172_step.
Print Assumptions C172_programs.
(** A program whose calls are all tidy holds exactly one system handle for every drive handle it has open: none, once it has closed them. *)
Theorem C172_balanced : forall X ops, tidy_from X {| ms_hist := []; ms_handles := [] |} ops ->
  let s := mrun X ops in balance X [] (ms_hist s) = live_handles s.
Proof.
  intros X ops T. cbv zeta. destruct (run_live X ops {| ms_hist := []; ms_handles := [] |}) as (es & m & E & B & P & Z). unfold mrun. rewrite E. cbn [ms_hist app] in *. rewrite B, (Z T). unfold live_handles at 2. cbn [ms_handles filter List.length]. lia.
Qed.
Print Assumptions C172_balanced.
(** What a drive leaves behind is out of reach: a drive handle that is not open is never open again, and closing it makes no request. *)
Theorem C172_out_of_reach : forall X s ops i x, nth_error (ms_handles s) i = Some x -> is_live x = false ->
  let s' := fold_left (mstep X) ops s in
  exists y, nth_error (ms_handles s') i = Some y /\ is_live y = false /\ ms_hist (mstep X s' (MOn i HClose)) = ms_hist s'.
Proof.
  intros X s ops. revert s. induction ops as [|p ops IH]; intros s i x H L; cbv zeta.
  - exists x. cbn [fold_left mstep]. rewrite H. split; [reflexivity|]. split; [exact L|]. cbn [mcall]. unfold mclose. unfold is_live in L. destruct (mh_dev x); [discriminate|reflexivity].
  - cbn [fold_left]. assert (K : exists y, nth_error (ms_handles (mstep X s p)) i = Some y /\ is_live y = false).
    { destruct p as [path|k|k|j h]; cbn [mstep].
      - destruct (x_open_by_path X (ms_hist s) path) as [g [z|e| |]]; cbn [ms_handles]; try (now exists x). exists x. split; [|exact L]. rewrite nth_error_app1; [exact H|].
        apply nth_error_Some. congruence.
      - now exists x.
      - now exists x.
      - destruct (nth_error (ms_handles s) j) as [z|] eqn:Hz; [|now exists x].
        assert (Lz : is_live z = false -> is_live (snd (mcall X (ms_hist s) z h)) = false).
        { intros Z. assert (D : h = HClose \/ h <> HClose) by (destruct h; (left; reflexivity) || (right; discriminate)). destruct D as [->|D].
          - cbn [mcall]. exact (proj2 (mclose_net X (ms_hist s) z)).
          - now rewrite (proj2 (mcall_net X (ms_hist s) z h D)). }
        destruct (mcall X (ms_hist s) z h) as [g z']. cbn [snd ms_handles] in *.
        destruct (Nat.eq_dec i j) as [<-|Ne].
        + rewrite H in Hz. injection Hz as <-. exists z'. split; [|exact (Lz L)].
          clear -H. revert i H. induction (ms_handles s) as [|a l IH]; intros [|i] H; cbn in *; try discriminate; [reflexivity|eauto].
        + exists x. split; [|exact L]. clear -H Ne. revert i j H Ne. induction (ms_handles s) as [|a l IH]; intros [|i] [|j] H Ne; cbn in *; try discriminate; try congruence. apply IH; [exact H|lia]. }
    destruct K as (y & Hy & Ly). exact (IH _ _ _ Hy Ly).
Qed.
Print Assumptions C172_out_of_reach.
