(** C148: the development program on Linux. *)
From Verif Require Import Base M_Buffer M_Struc M_Layouts M_Ata M_TcgDevice M_DriveHandle M_AtaUtil M_Cdb M_SgDriver M_SgHandle M_NvmeLinux M_Strings M_LinuxInfo M_LinuxFactory M_LinuxVolume
  M_LinuxSystem M_Develop Spec_Drive P_Discovery P_DriveHandle Prop_Drive Spec_LinuxFactory P_LinuxFactory Prop_LinuxFactory Prop_LinuxEnum Spec_LinuxVolume P_LinuxVolume Prop_LinuxVolume Spec_NvmeLinux P_NvmeLinux Spec_Sg P_Sg Prop_Sg
  Prop_NvmeLinux Prop_SgHandle Spec_LinuxSystem P_LinuxSystem Prop_LinuxSystem Prop_LinuxTcg Prop_Health.

Definition sda : bytes := str "/dev/sda".
Definition nvme0n1 : bytes := str "/dev/nvme0n1".

(** The three ways the program can crash. *)
Definition crashed_on_nvme (S : system) (h' : lhist) (shown_ : list shown) : Prop :=
  exists pre e, h' = pre ++ [LOpen nvme0n1] /\ w_open (sy_world S) h' = inl e /\ exists o, shown_ = o ++ [SError e].
Definition crashed_on_drive (S : system) (h' : lhist) : Prop :=
  exists pre n fd closing o, h' = (pre ++ [LProbe n fd]) ++ closing /\ (forall e, In e closing -> is_lclose e = true)
    /\ w_probe (linux S) (pre ++ [LProbe n fd]) = inr o /\ malformed_discovery o.
Definition crashed_on_mounts (S : system) (h' : lhist) : Prop :=
  exists pre device seg, h' = pre ++ seg /\ names_zero (linux S) pre device seg.

Lemma open_panics_on_drive S h path h' : open_by_path (linux S) h path = (h', Panic) -> crashed_on_drive S h'.
Proof.
  intros H. pose proof (C76_open_path _ _ _ _ _ H) as P. destruct (w_open (linux S) (h ++ [LOpen path])) as [e|fd]; [destruct P; discriminate|].
  destruct P as [(x & P & _)|(_ & n & o & Hn & -> & A & B)]; [discriminate|].
  assert (E : exists pre m, h ++ LOpen path :: firstn n (probing fd path) = pre ++ [LProbe m fd]).
  { destruct Hn as [->| ->]; unfold probing; cbn [firstn].
    - exists (h ++ [LOpen path; LBasic fd path; LIds path]), 0%nat. now rewrite <- app_assoc.
    - exists (h ++ [LOpen path; LBasic fd path; LIds path; LProbe 0 fd]), 1%nat. now rewrite <- app_assoc. }
  destruct E as (pre & m & E). rewrite E in *. exists pre, m, fd, [], o. rewrite app_nil_r. split; [reflexivity|]. split; [intros ? []|]. auto.
Qed.
Lemma open_fuel S h path h' : open_by_path (linux S) h path <> (h', Fuel).
Proof.
  intros H. pose proof (C76_open_path _ _ _ _ _ H) as P. destruct (w_open (linux S) (h ++ [LOpen path])) as [e|fd]; [destruct P; discriminate|].
  destruct P as [(x & P & _)|(P & _)]; discriminate.
Qed.
Lemma enum_ends S h h' r : enum_drives (linux S) h = (h', r) ->
  (r = Panic /\ crashed_on_drive S h') \/ (exists e, r = Err e /\ filter is_lclose h' = filter is_lclose h)
  \/ exists xs, r = Ok xs /\ filter is_lclose h' = filter is_lclose h ++ map (fun x => LClose (l_fd x)) (filter has_driver (rev xs)).
Proof.
  intros H. pose proof (C77_enum_drives _ _ _ _ H) as P. destruct (w_dir (linux S) (h ++ [LReadDir])) as [e|names].
  - destruct P as (-> & ->). right; left. eexists. split; [reflexivity|]. rewrite filter_app. cbn. apply app_nil_r.
  - destruct P as (es & xs & -> & Nc & _ & _ & v & m & _ & _ & [(-> & _)|(-> & _ & o & n & fd & pre & E1 & E2 & E3)]).
    + right; right. exists xs. split; [reflexivity|]. rewrite filter_app. cbn [filter is_lclose]. f_equal. rewrite filter_app.
      assert (Z : filter is_lclose es = []).
      { clear - Nc. induction es as [|e es IH]; [reflexivity|]. cbn [filter]. destruct (is_lclose e) eqn:E.
        - destruct e; try discriminate. destruct (Nc fd). now left.
        - apply IH. intros fd I. apply (Nc fd). now right. }
      rewrite Z. cbn [app]. clear. induction (filter has_driver (rev xs)) as [|y l IH]; [reflexivity|]. cbn [map filter is_lclose]. f_equal. exact IH.
    + left. split; [reflexivity|]. exists pre, n, fd, (map (fun x => LClose (l_fd x)) (filter has_driver (rev xs))), o.
      split; [rewrite <- E1, <- app_assoc; reflexivity|]. split.
      { intros e I. apply in_map_iff in I as (x & <- & _). reflexivity. }
      rewrite E1 in E2. auto.
Qed.
Lemma volume_line_closes W h l vs h' r : volume_line W h l vs = (h', r) -> filter is_lclose h' = filter is_lclose h.
Proof.
  unfold volume_line. destruct (line_fields l) as ((device, mount), fs). destruct (partition_match device) as [(parent, ds)|]; [|now intros [= <- <-]]. cbv zeta.
  assert (A1 : filter is_lclose (h ++ [LOpen parent]) = filter is_lclose h) by (rewrite filter_app; cbn; apply app_nil_r).
  destruct (w_open W (h ++ [LOpen parent])) as [e|fd]; [now intros [= <- <-]|].
  assert (A2 : filter is_lclose ((h ++ [LOpen parent]) ++ [LBasic fd parent]) = filter is_lclose h) by (rewrite filter_app; cbn; now rewrite app_nil_r).
  destruct (read_basic_info parent _) as [b| | |]; try (now intros [= <- <-]). destruct (find_part device parent _ b) as [[q|]| | |]; now intros [= <- <-].
Qed.
Lemma volume_lines_close W ls : forall h vs h' r, volume_lines W h ls vs = (h', r) -> filter is_lclose h' = filter is_lclose h.
Proof.
  induction ls as [|l ls IH]; intros h vs h' r H; cbn [volume_lines] in H; [now injection H as <- <-|].
  destruct (volume_line W h l vs) as (h1, r1) eqn:E. pose proof (volume_line_closes _ _ _ _ _ _ E) as C.
  destruct r1; try (injection H as <- <-; exact C). rewrite <- C. exact (IH _ _ _ _ H).
Qed.
Lemma volumes_close W h h' r : enum_volumes W h = (h', r) -> filter is_lclose h' = filter is_lclose h.
Proof.
  intros H. unfold enum_volumes in H. assert (A : filter is_lclose (h ++ [LMounts]) = filter is_lclose h) by (rewrite filter_app; cbn; apply app_nil_r).
  destruct (vw_mounts W (h ++ [LMounts])) as [e|m]; [now injection H as <- <-|]. destruct (scan m) as (ls, late).
  destruct (volume_lines (vw W) (h ++ [LMounts]) ls []) as (h2, r2) eqn:E. apply volume_lines_close in E.
  destruct r2; injection H as <- <-; congruence.
Qed.
Lemma volumes_fuel W h h' : enum_volumes W h <> (h', Fuel).
Proof.
  intros H. apply enum_volumes_closed in H. destruct (vw_mounts W (h ++ [LMounts])) as [e|m]; [destruct H; discriminate|].
  destruct H as (seen & Hs & recs & es & qs & _ & [(vs' & E & _)|(E & _)]); [|discriminate]. destruct (snd (scan m)); discriminate.
Qed.

(** Every run, whatever the machine: the program either crashes for one of three reasons, or ends with /dev/nvme0n1 open. *)
Theorem C148_how_it_ends : forall S M order h h' run, develop_linux S M order h = (h', run) ->
  match rn_end run with
  | None => crashed_on_nvme S h' (rn_shown run) \/ crashed_on_drive S h' \/ crashed_on_mounts S h'
  | Some x => exists pre fd, w_open (sy_world S) (pre ++ [LOpen nvme0n1]) = inr fd /\ h' = pre ++ LOpen nvme0n1 :: probing fd nvme0n1 /\ l_fd x = fd
  end.
Proof.
  intros S M order h h' run H. unfold develop_linux in H. cbv zeta in H. fold sda nvme0n1 in H.
  destruct (open_by_path (linux S) h sda) as (h1, r1) eqn:E1.
  destruct (stage r1 (fun _ => [])) as [o1|] eqn:S1.
  2:{ injection H as <- <-. cbn [rn_end]. right; left. destruct r1; try discriminate; [exact (open_panics_on_drive _ _ _ _ E1)|destruct (open_fuel _ _ _ _ E1)]. }
  destruct (enum_drives (linux S) h1) as (h2, r2) eqn:E2.
  destruct (stage r2 (numbered drive_line)) as [o2|] eqn:S2.
  2:{ injection H as <- <-. cbn [rn_end]. right; left. destruct (enum_ends _ _ _ _ E2) as [(-> & D)|[(e & -> & _)|(xs & -> & _)]]; [exact D|discriminate..]. }
  destruct (enum_volumes {| vw := linux S; vw_mounts := M |} h2) as (h3, r3) eqn:E3.
  destruct (stage r3 _) as [o3|] eqn:S3.
  2:{ injection H as <- <-. cbn [rn_end]. right; right. destruct r3; try discriminate; [|destruct (volumes_fuel _ _ _ E3)].
      destruct (C81_panics_only _ _ _ E3) as (m & seen & k & l & rest & recs & rl & es1 & seg & qs & _ & _ & _ & _ & _ & _ & -> & Z). cbn [vw] in Z.
      exists ((h2 ++ [LMounts]) ++ es1), (rec_dev rl), seg. split; [|exact Z]. rewrite <- !app_assoc. reflexivity. }
  destruct (open_by_path (linux S) h3 nvme0n1) as (h4, r4) eqn:E4.
  pose proof (C76_open_path _ _ _ _ _ E4) as P. change (w_open (linux S)) with (w_open (sy_world S)) in P. destruct r4 as [x|e| |].
  - unfold log_stage in H. destruct (match l_drv x with Some V => _ | None => _ end) as (cs, (page, e)). injection H as <- <-. cbn [rn_end with_calls l_fd].
    destruct (w_open (sy_world S) (h3 ++ [LOpen nvme0n1])) as [e'|fd] eqn:W; [destruct P; discriminate|].
    destruct P as [(x' & X & F & _ & Eh)|(X & _)]; [|discriminate]. injection X as <-. exists h3, fd. auto.
  - injection H as <- <-. cbn [rn_end rn_shown]. left. destruct (w_open (sy_world S) (h3 ++ [LOpen nvme0n1])) as [e'|fd] eqn:W.
    + destruct P as (X & ->). injection X as <-. exists h3, e. split; [reflexivity|]. split; [exact W|]. exists (o1 ++ o2 ++ o3). now rewrite <- !app_assoc.
    + destruct P as [(x' & X & _)|(X & _)]; discriminate.
  - injection H as <- <-. cbn [rn_end]. right; left. exact (open_panics_on_drive _ _ _ _ E4).
  - destruct (open_fuel _ _ _ _ E4).
Qed.
Print Assumptions C148_how_it_ends.

(** A machine without /dev/nvme0n1: the program always crashes. *)
Theorem C148_needs_nvme : forall S M order h,
  (forall pre, exists e, w_open (sy_world S) (pre ++ [LOpen nvme0n1]) = inl e) -> rn_end (snd (develop_linux S M order h)) = None.
Proof.
  intros S M order h R. destruct (develop_linux S M order h) as (h', run) eqn:E. cbn [snd]. pose proof (C148_how_it_ends _ _ _ _ _ _ E) as P.
  destruct (rn_end run) as [x|]; [|reflexivity]. destruct P as (pre & fd & W & _). destruct (R pre) as (e & W'). congruence.
Qed.
Print Assumptions C148_needs_nvme.

(** A run to the end: what is printed, and what is closed.  The only descriptors closed are those EnumDrives opened itself, so the one of
    /dev/sda (when it can be opened) and the one of /dev/nvme0n1 stay open; the last thing printed is the SMART log page. *)
Theorem C148_full_run : forall S M order h h' run x', develop_linux S M order h = (h', run) -> rn_end run = Some x' ->
  exists h1 h2 h3 r1 r2 r3 x page,
  open_by_path (linux S) h sda = (h1, r1) /\ enum_drives (linux S) h1 = (h2, r2) /\ enum_volumes {| vw := linux S; vw_mounts := M |} h2 = (h3, r3)
  /\ open_by_path (linux S) h3 nvme0n1 = (h', Ok x)
  /\ (exists o1 o2 o3 tail, rn_shown run = o1 ++ o2 ++ o3 ++ SInfo x :: tail ++ [SPage page]
      /\ match r1 with Ok _ => o1 = [] | Err e => o1 = [SError e] | _ => False end
      /\ match r2 with
         | Ok xs => List.length o2 = List.length xs /\ forall i y, nth_error xs i = Some y ->
             nth_error o2 i = Some (SDrive i (i_model (p_info (l_dh y))) (i_serial (p_info (l_dh y))) (i_fw (p_info (l_dh y))) (l_vendor y))
         | Err e => o2 = [SError e] | _ => False end
      /\ match r3 with
         | Ok vs => List.length o3 = List.length (get_list order vs) /\ forall i v, nth_error (get_list order vs) i = Some v -> nth_error o3 i = Some (SVolume i v)
         | Err e => o3 = [SError e] | _ => False end
      /\ (tail = [] \/ exists e, tail = [SError e]))
  /\ filter is_lclose h' = filter is_lclose h ++ match r2 with Ok xs => map (fun y => LClose (l_fd y)) (filter has_driver (rev xs)) | _ => [] end.
Proof.
  intros S M order h h' run x' H He. unfold develop_linux in H. cbv zeta in H. fold sda nvme0n1 in H.
  destruct (open_by_path (linux S) h sda) as (h1, r1) eqn:E1.
  destruct (stage r1 (fun _ => [])) as [o1|] eqn:S1; [|injection H as <- <-; discriminate He].
  destruct (enum_drives (linux S) h1) as (h2, r2) eqn:E2.
  destruct (stage r2 (numbered drive_line)) as [o2|] eqn:S2; [|injection H as <- <-; discriminate He].
  destruct (enum_volumes {| vw := linux S; vw_mounts := M |} h2) as (h3, r3) eqn:E3.
  destruct (stage r3 _) as [o3|] eqn:S3; [|injection H as <- <-; discriminate He].
  destruct (open_by_path (linux S) h3 nvme0n1) as (h4, r4) eqn:E4.
  destruct r4 as [x|e| |]; try (injection H as <- <-; discriminate He).
  unfold log_stage in H. destruct (match l_drv x with Some V => _ | None => _ end) as (cs, (page, e)). injection H as <- <-.
  assert (Nu : forall (A B : Type) (f : nat -> A -> B) l, List.length (numbered f l) = List.length l
     /\ forall i y, nth_error l i = Some y -> nth_error (numbered f l) i = Some (f i y)).
  { intros A B f l. unfold numbered. split; [rewrite map_length, combine_length, seq_length; apply Nat.min_id|].
    intros i y Hy. rewrite nth_error_map.
    assert (C : forall (l : list A) a i y, nth_error l i = Some y -> nth_error (combine (seq a (List.length l)) l) i = Some ((a + i)%nat, y)).
    { clear. induction l as [|z l IH]; intros a i y Hy; [destruct i; discriminate|]. destruct i as [|i]; cbn [nth_error List.length seq combine] in *.
      - injection Hy as ->. now rewrite Nat.add_0_r.
      - rewrite (IH (S a) i y Hy). f_equal. f_equal. lia. }
    rewrite (C l 0%nat i y Hy). reflexivity. }
  exists h1, h2, h3, r1, r2, r3, x, page. split; [reflexivity|]. split; [exact E2|]. split; [exact E3|]. split; [exact E4|]. split.
  - exists o1, o2, o3, (match e with Some e => [SError e] | None => [] end). cbn [rn_shown]. split; [destruct e; reflexivity|].
    split; [destruct r1; try discriminate; now injection S1 as <-|].
    split. { destruct r2 as [xs|e2| |]; try discriminate; injection S2 as <-; [|reflexivity]. destruct (Nu _ _ drive_line xs) as (L & Q). split; [exact L|exact Q]. }
    split. { destruct r3 as [vs|e3| |]; try discriminate; injection S3 as <-; [|reflexivity]. destruct (Nu _ _ SVolume (get_list order vs)) as (L & Q). split; [exact L|exact Q]. }
    destruct e; eauto.
  - assert (O4 : filter is_lclose h4 = filter is_lclose h3) by (destruct (C76_close _ _ _ _ _ E4) as (fd & _ & C & _); exact C).
    assert (O1 : filter is_lclose h1 = filter is_lclose h).
    { destruct r1 as [y|e1| |]; try discriminate.
      - destruct (C76_close _ _ _ _ _ E1) as (fd & _ & C & _); exact C.
      - pose proof (C76_open_path _ _ _ _ _ E1) as P. destruct (w_open (linux S) (h ++ [LOpen sda])) as [e'|fd].
        + destruct P as (_ & ->). rewrite filter_app. cbn. apply app_nil_r.
        + destruct P as [(y & P & _)|(P & _)]; discriminate. }
    rewrite O4, (volumes_close _ _ _ _ E3). destruct (enum_ends _ _ _ _ E2) as [(-> & _)|[(e2 & -> & C)|(xs & -> & C)]]; [discriminate S2| |].
    + rewrite C, O1, app_nil_r. reflexivity.
    + rewrite C, O1. reflexivity.
Qed.
Print Assumptions C148_full_run.

(** The log page printed for an NVMe drive: one GET LOG PAGE for 516 bytes of page 2 of all namespaces, sent to the descriptor opened; what
    it delivered is printed, after its error if there was one. *)
Theorem C148_smart_page : forall S M order h h' run x', addresses_ok S -> develop_linux S M order h = (h', run) -> rn_end run = Some x' ->
  l_driver_name x' = str "LinuxNvmeDriver" ->
  exists pre fd c page e front, h' = pre ++ LOpen nvme0n1 :: probing fd nvme0n1
  /\ let at_ := at_nvme pre nvme0n1 fd in
     let K := sy_nvme S at_ in
     let after := nvme_ioctls S at_ x' in
     (exists opening, after = opening ++ [c] /\ wants_log_page fd 0xffffffff 2 false 516 (sy_nvme_addr S at_) opening c)
     /\ delivered (zeros 516) (firstn 516 (na_in (K after))) page
     /\ (nv_succeeded (K after) -> e = [])
     /\ (~ nv_succeeded (K after) -> e = [SError (errno (nv_error_number (K after)))])
     /\ rn_shown run = front ++ e ++ [SPage page].
Proof.
  intros S M order h h' run x' HS H He Hn. unfold develop_linux in H. cbv zeta in H. fold sda nvme0n1 in H.
  destruct (open_by_path (linux S) h sda) as (h1, r1). destruct (stage r1 (fun _ => [])) as [o1|]; [|injection H as <- <-; discriminate He].
  destruct (enum_drives (linux S) h1) as (h2, r2). destruct (stage r2 (numbered drive_line)) as [o2|]; [|injection H as <- <-; discriminate He].
  destruct (enum_volumes {| vw := linux S; vw_mounts := M |} h2) as (h3, r3). destruct (stage r3 _) as [o3|]; [|injection H as <- <-; discriminate He].
  destruct (open_by_path (linux S) h3 nvme0n1) as (h4, r4) eqn:E4. destruct r4 as [x|e| |]; try (injection H as <- <-; discriminate He).
  destruct (log_stage x) as (cs, o4) eqn:L. injection H as <- <-. cbn [rn_end] in He. injection He as <-. cbn [with_calls l_driver_name] in Hn. cbn [rn_shown].
  pose proof (C76_open_path _ _ _ _ _ E4) as P. change (w_open (linux S)) with (w_open (sy_world S)) in P.
  destruct (w_open (sy_world S) (h3 ++ [LOpen nvme0n1])) as [e'|fd] eqn:W; [destruct P; discriminate|].
  destruct P as [(x0 & X & _ & _ & Eh)|(X & _)]; [|discriminate]. injection X as <-.
  destruct (nvme_opened S h3 nvme0n1 h4 x fd HS W E4 Hn) as (c1 & c2 & id & ans & _ & _ & _ & _ & _ & _ & _ & _ & _ & _ & _ & _ & _ & _ & Ed).
  unfold log_stage in L. rewrite Ed in L.
  match type of Ed with _ = Some ?D => destruct (nvme_get_log_page D (l_dh x) (l_calls x) 0xffffffff 2 false 516) as (cs', (page, e)) eqn:G end.
  injection L as <- <-.
  pose proof (C147_nvme_log_page S h3 nvme0n1 h4 x fd 0xffffffff 2 false 516%positive cs' page e HS W E4 Hn ltac:(reflexivity) ltac:(reflexivity)
    ltac:(split; [discriminate|reflexivity]) _ Ed G) as C. cbv zeta in C. destruct C as (_ & KA).
  change (N.to_nat ((516 + 4095) / 4096)) with 1%nat in KA. change (Pos.to_nat 516) with 516%nat in KA.
  set (at_ := at_nvme h3 nvme0n1 fd) in *. set (K := sy_nvme S at_) in *. set (opening := nvme_ioctls S at_ x) in *. set (after := nvme_ioctls S at_ (with_calls x cs')) in *.
  remember (zeros 516) as z516 eqn:Ez. remember 516%nat as n516 eqn:En. assert (Ea : nvme_ioctls S (at_nvme h3 nvme0n1 fd) (with_calls x cs') = after) by reflexivity. clearbody opening after.
  assert (G2 : exists c, after = opening ++ [c] /\ wants_log_page fd 0xffffffff 2 false 516 (sy_nvme_addr S at_) opening c
    /\ delivered z516 (firstn n516 (na_in (K after))) page /\ ((nv_succeeded (K after) /\ e = None) \/ (~ nv_succeeded (K after) /\ e = Some (errno (nv_error_number (K after)))))).
  { inversion KA; subst; eexists; (split; [reflexivity|]); auto 8. }
  destruct G2 as (c & Ec & Q1 & Q2 & Q3).
  exists h3, fd, c, page, (match e with Some e => [SError e] | None => [] end), (o1 ++ o2 ++ o3 ++ [SInfo x]). split; [exact Eh|]. cbv zeta. fold at_ K. fold at_ in Ea. rewrite Ea.
  split; [exists opening; auto|]. split; [exact Q2|]. destruct Q3 as [(F & ->)|(F & ->)].
  - split; [reflexivity|]. split; [intros F'; contradiction|]. rewrite <- !app_assoc. reflexivity.
  - split; [intros F'; contradiction|]. split; [reflexivity|]. rewrite <- !app_assoc. reflexivity.
Qed.
Print Assumptions C148_smart_page.
