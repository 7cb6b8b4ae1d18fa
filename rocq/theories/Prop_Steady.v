(** Property theorems C145: on an unchanged machine the reports are the same each time and do not depend on the other drives. *)
From Verif Require Import Base M_Buffer M_DriveHandle M_SgDriver M_NvmeLinux M_Strings M_LinuxInfo M_LinuxFactory M_LinuxVolume M_LinuxSystem Spec_LinuxFactory P_Strings P_LinuxFactory Prop_LinuxFactory Spec_Steady P_Steady.

(** Opening one path, at any two moments (and even on two machines on which that path is the same device), gives the same outcome. *)
Theorem C145_open_again : forall S S' M M' h h' path, steady S M -> steady S' M' -> same_device M M' path ->
  seen report (snd (open_by_path (linux S) h path)) = seen report (snd (open_by_path (linux S') h' path)).
Proof. exact open_like. Qed.
Print Assumptions C145_open_again.

Lemma enum_seen W h : seen (map report) (snd (enum_drives W h)) =
  match w_dir W (h ++ [LReadDir]) with inl _ => Err (EMsg "open /sys/block failed") | inr names => seen (map report) (snd (enum_loop W (h ++ [LReadDir]) names [])) end.
Proof. unfold enum_drives. destruct (w_dir W _) as [e|names]; [reflexivity|]. destruct (enum_loop W _ names []) as [h2 [xs|e| |]]; reflexivity. Qed.

(** Enumerating again gives the same list of reports, or the same failure. *)
Theorem C145_enum_again : forall S M h h', steady S M ->
  seen (map report) (snd (enum_drives (linux S) h)) = seen (map report) (snd (enum_drives (linux S) h')).
Proof.
  intros S M h h' HS. rewrite !enum_seen. cbn [linux w_dir]. pose proof HS as (HD & _). rewrite !HD.
  destruct (mc_dir M) as [e|names]; [reflexivity|]. apply (loop_like S S M M HS HS); [|reflexivity]. intros; repeat split; reflexivity.
Qed.
Print Assumptions C145_enum_again.

(** Plugging in one more drive adds at most its own report and changes no other; and if EnumDrives works with it, it works without it. *)
Theorem C145_other_drives : forall S S' M M' h h' a b name xs', steady S M -> steady S' M' ->
  mc_dir M = inr (a ++ b) -> mc_dir M' = inr (a ++ name :: b) -> (forall n, In n (a ++ b) -> same_device M M' (str "/dev/" ++ n)) ->
  snd (enum_drives (linux S') h') = Ok xs' ->
  exists xs before added after, snd (enum_drives (linux S) h) = Ok xs
    /\ map report xs = before ++ after /\ map report xs' = before ++ map report added ++ after
    /\ (List.length added <= 1)%nat /\ Forall (fun x => i_path (p_info (l_dh x)) = str "/dev/" ++ name) added.
Proof.
  intros S S' M M' h h' a b name xs' HS HS' HM HM' HD HO.
  pose proof (enum_seen (linux S) h) as E. pose proof (enum_seen (linux S') h') as E'. rewrite HO in E'. cbn [linux w_dir] in E, E'.
  pose proof HS as (Hd & _). pose proof HS' as (Hd' & _). rewrite Hd, HM in E. rewrite Hd', HM' in E'. clear Hd Hd'.
  set (k := h ++ [LReadDir]) in *. set (k' := h' ++ [LReadDir]) in *.
  destruct (enum_loop (linux S') k' (a ++ name :: b) []) as [h2 [ys'|e| |]] eqn:El; try discriminate E'.
  apply loop_app in El as (k1 & A' & La & Lb). change (name :: b) with ([name] ++ b) in Lb. apply loop_app in Lb as (k2 & B' & Ln & Lb).
  apply loop_acc in Ln as (added & -> & Ln). apply loop_acc in Lb as (C' & -> & Lb).
  assert (Ga : seen (map report) (snd (enum_loop (linux S) k a [])) = Ok (map report A')).
  { pose proof (loop_like S S' M M' HS HS' a k k' [] [] (fun n Hn => HD n (proj2 (in_app_iff a b n) (or_introl Hn))) eq_refl) as G. rewrite La in G. exact G. }
  destruct (enum_loop (linux S) k a []) as [k3 [A| | |]] eqn:Ea; try discriminate Ga. cbn [snd seen] in Ga.
  assert (Ga' : map report A = map report A') by (exact (f_equal (fun r => match r with Ok v => v | _ => [] end) Ga)).
  assert (Gb : seen (map report) (snd (enum_loop (linux S) k3 b A)) = Ok (map report (A ++ C'))).
  { assert (Lc : enum_loop (linux S') k2 b (A ++ []) = (h2, Ok (A ++ C'))) by (now apply loop_acc_app). rewrite app_nil_r in Lc.
    pose proof (loop_like S S' M M' HS HS' b k3 k2 A A (fun n Hn => HD n (proj2 (in_app_iff a b n) (or_intror Hn))) eq_refl) as G. rewrite Lc in G. exact G. }
  assert (Eab : enum_loop (linux S) k (a ++ b) [] = enum_loop (linux S) k3 b A) by (eapply loop_app_ok; exact Ea).
  rewrite Eab, Gb in E. destruct (enum_drives (linux S) h) as [hh [xs| | |]]; try discriminate E. cbn [snd seen] in E.
  assert (Ex : map report xs = map report (A ++ C')) by (exact (f_equal (fun r => match r with Ok v => v | _ => [] end) E)).
  assert (Ex' : map report xs' = map report ((A' ++ added) ++ C')) by (exact (f_equal (fun r => match r with Ok v => v | _ => [] end) E')).
  exists xs, (map report A), added, (map report C'). split; [reflexivity|]. rewrite Ex, Ex', Ga', !map_app, app_assoc, <- Ga'. split; [reflexivity|]. split; [reflexivity|].
  clear -Ln. cbn [enum_loop] in Ln. destruct (contains (str "loop") name); [injection Ln as _ <-; split; [cbn; lia|constructor]|].
  destruct (w_mode _ _) as [mode|]; [|injection Ln as _ <-; split; [cbn; lia|constructor]].
  destruct (is_block mode); [|injection Ln as _ <-; split; [cbn; lia|constructor]].
  destruct (contains (str "sr") name); [injection Ln as _ <-; split; [cbn; lia|constructor]|].
  destruct (open_by_path _ _ _) as [h2 [x|e| |]] eqn:Eo; try discriminate Ln; injection Ln as _ <-; [|split; [cbn; lia|constructor]].
  split; [cbn; lia|]. constructor; [|constructor]. pose proof (C76_open_path _ _ _ _ _ Eo) as P. destruct (w_open _ _) as [e|fd]; [destruct P; discriminate|].
  destruct P as [(x' & P & _ & Q & _)|[P _]]; [|discriminate]. injection P as <-. exact Q.
Qed.
Print Assumptions C145_other_drives.

Lemma loop_is_open S M g : steady S M -> forall names ks h acc, kept (candidate M) names ks ->
  match collect (map (fun n => seen report (snd (open_by_path (linux S) g (dev_path n)))) ks) with
  | Ok rs => seen (map report) (snd (enum_loop (linux S) h names acc)) = Ok (map report acc ++ rs)
  | Err _ => False
  | r => seen (map report) (snd (enum_loop (linux S) h names acc)) = r end.
Proof.
  intros HS names ks h acc K. revert h acc. pose proof HS as (_ & HM & _).
  induction K as [|n names ks C K IH|n names ks C K IH]; intros h acc; cbn [enum_loop]; [cbn; now rewrite app_nil_r| |].
  - destruct C as (C1 & C2 & m & C3 & C4). rewrite (proj2 (contains_false _ _) C1). cbn [linux w_mode]. rewrite HM. change (str "/dev/" ++ n) with (dev_path n) in C3. rewrite C3, (proj2 (is_block_iff m) C4), (proj2 (contains_false _ _) C2).
    change {| w_open := _ |} with (linux S). cbn [map]. rewrite (open_like S S M M g (h ++ [LStat (dev_path n)]) (dev_path n) HS HS) by (repeat split; reflexivity).
    destruct (open_by_path (linux S) _ (dev_path n)) as [h2 [x|e| |]]; cbn [snd seen collect]; try reflexivity; [|apply IH].
    specialize (IH h2 (acc ++ [x])). destruct (collect _) as [rs|e| |]; auto. rewrite IH, map_app, <- app_assoc. reflexivity.
  - destruct (contains (str "loop") n) eqn:E1; [apply IH|]. apply contains_false in E1. cbn [linux w_mode]. rewrite HM. change {| w_open := _ |} with (linux S).
    destruct (mc_mode M (dev_path n)) as [m|] eqn:E2; [|apply IH]. destruct (is_block m) eqn:E3; [|apply IH]. destruct (contains (str "sr") n) eqn:E4; [apply IH|].
    exfalso. apply C. apply contains_false in E4. apply is_block_iff in E3. split; [exact E1|]. split; [exact E4|]. eauto.
Qed.
(** EnumDrives reports, in the directory's order, what OpenByPath reports for each candidate at any other moment; a drive that cannot be opened
    is left out, and a panic for one of them is a panic of the whole. *)
Theorem C145_enum_is_open : forall S M names ks h g, steady S M -> mc_dir M = inr names -> kept (candidate M) names ks ->
  seen (map report) (snd (enum_drives (linux S) h)) = collect (map (fun n => seen report (snd (open_by_path (linux S) g (str "/dev/" ++ n)))) ks).
Proof.
  intros S M names ks h g HS HM K. rewrite enum_seen. cbn [linux w_dir]. pose proof HS as (HD & _). rewrite HD, HM.
  change {| w_open := _ |} with (linux S) in *. pose proof (loop_is_open S M g HS names ks (h ++ [LReadDir]) [] K) as G.
  change (fun n : list N => seen report (snd (open_by_path (linux S) g (str "/dev/" ++ n)))) with (fun n => seen report (snd (open_by_path (linux S) g (dev_path n)))).
  destruct (collect _) as [rs|e| |]; auto. contradiction.
Qed.
Print Assumptions C145_enum_is_open.

(** EnumVolumes: the mount table, the same each time, is turned into the same volumes or the same failure. *)
Theorem C145_volumes_again : forall S M m mounts h h', steady S M -> (forall h, mounts (h ++ [LMounts]) = m) ->
  let V := {| vw := linux S; vw_mounts := mounts |} in
  snd (enum_volumes V h) = snd (enum_volumes V h').
Proof.
  intros S M m mounts h h' HS Hm V. unfold enum_volumes. cbn [V vw_mounts vw]. rewrite !Hm. destruct m as [e|m]; [reflexivity|].
  destruct (scan m) as [ls late].
  assert (L : forall ls k k' vs, snd (volume_lines (linux S) k ls vs) = snd (volume_lines (linux S) k' ls vs)).
  { clear -HS. pose proof HS as (_ & _ & HO & HB & _). induction ls as [|l ls IH]; intros k k' vs; cbn [volume_lines]; [reflexivity|].
    assert (G : snd (volume_line (linux S) k l vs) = snd (volume_line (linux S) k' l vs)).
    { unfold volume_line. destruct (line_fields l) as [[device mount] fs]. destruct (partition_match device) as [[parent ds]|]; [|reflexivity].
      cbn [linux w_open w_basic]. pose proof (HO k parent) as O1. pose proof (HO k' parent) as O2. destruct (mc_open M parent) as [e|]; [now rewrite O1, O2|].
      destruct O1 as (fd & O1). destruct O2 as (fd' & O2). rewrite O1, O2.
      rewrite (HB _ _ _ (refers_new _ _ _ _ O1)), (HB _ _ _ (refers_new _ _ _ _ O2)).
      destruct (read_basic_info parent _) as [b| | |]; try reflexivity. destruct (find_part device parent _ b) as [[q|]| | |]; reflexivity. }
    destruct (volume_line (linux S) k l vs) as [k1 [v1| | |]], (volume_line (linux S) k' l vs) as [k1' [v1'| | |]]; cbn [snd] in G |- *; try discriminate G; try exact G.
    injection G as ->. apply IH. }
  specialize (L ls (h ++ [LMounts]) (h' ++ [LMounts]) []).
  destruct (volume_lines (linux S) (h ++ _) ls []) as [k1 r1], (volume_lines (linux S) (h' ++ _) ls []) as [k2 r2]. cbn [snd] in L. subst r2. destruct r1; reflexivity.
Qed.
Print Assumptions C145_volumes_again.
