(** Property theorems C77-C79. *)
From Verif Require Import Base M_Buffer M_Struc M_Ata M_TcgDevice M_DriveHandle M_Strings M_Utf8 M_LinuxInfo M_LinuxFactory
  Spec_Drive Spec_LinuxFactory P_Strings P_Trim P_LinuxFactory Prop_LinuxFactory P_LinuxEnum.
From Coq Require Import Permutation.

Lemma filter_kept names : kept (fun n => ~ occurs (str "loop") n) names (filter no_loop names).
Proof.
  induction names as [|n names IH]; cbn [filter]; [constructor|]. unfold no_loop at 1. destruct (contains (str "loop") n) eqn:E; cbn [negb].
  - apply kept_drop; [|exact IH]. apply contains_iff in E. tauto.
  - apply kept_take; [|exact IH]. now apply contains_false.
Qed.
Lemma stat_rule_at W names es : forall h, stat_rule W names h es -> forall pre p post, es = pre ++ LStat p :: post -> stat_at W names (h ++ pre) p post.
Proof.
  induction es as [|e es IH]; intros h H pre p post E; [destruct pre; discriminate|]. cbn [stat_rule] in H. destruct H as [A B].
  destruct pre as [|e' pre]; cbn [app] in E.
  - injection E as -> ->. now rewrite app_nil_r.
  - injection E as <- E. specialize (IH _ B _ _ _ E). rewrite <- app_assoc in IH. exact IH.
Qed.
Lemma open_rule_at es : forall l, open_rule l es -> forall pre p post, es = pre ++ LOpen p :: post ->
  (pre = [] /\ l = Some (LStat p)) \/ exists pre', pre = pre' ++ [LStat p].
Proof.
  induction es as [|e es IH]; intros l H pre p post E; [destruct pre; discriminate|]. cbn [open_rule] in H. destruct H as [A B].
  destruct pre as [|e' pre]; cbn [app] in E.
  - injection E as -> ->. auto.
  - injection E as <- E. right. destruct (IH _ B _ _ _ E) as [[-> X]|(pre' & ->)]; [injection X as ->; now exists []|]. now exists (e :: pre').
Qed.

(** C77.  [es] is what happens between listing /sys/block and closing; [xs] are the drives opened completely. *)
Theorem C77_enum_drives : forall W h h' r, enum_drives W h = (h', r) ->
  match w_dir W (h ++ [LReadDir]) with
  | inl _ => r = Err (EMsg "open /sys/block failed") /\ h' = h ++ [LReadDir]
  | inr names => exists es xs,
     (* every handle with a driver is closed once, last opened first, after everything else; also when a drive panics *)
     h' = h ++ LReadDir :: es ++ map (fun x => LClose (l_fd x)) (filter has_driver (rev xs)) /\
     (forall fd, ~ In (LClose fd) es) /\
     (* what is stat'ed and what is opened *)
     (forall pre p post, es = pre ++ LStat p :: post -> exists name, In name names /\ p = str "/dev/" ++ name /\ ~ occurs (str "loop") name /\
        ((exists m, w_mode W (h ++ LReadDir :: pre ++ [LStat p]) = Some m /\ block_mode m) /\ ~ occurs (str "sr") name
         <-> exists post', post = LOpen p :: post')) /\
     (forall pre p post, es = pre ++ LOpen p :: post -> exists pre', pre = pre' ++ [LStat p]) /\
     (* the outcome *)
     exists visited missed, kept (fun n => ~ occurs (str "loop") n) names (visited ++ missed) /\
       statted es = map (fun n => str "/dev/" ++ n) visited /\
       let done := map (fun x => (i_path (p_info (l_dh x)), l_fd x)) xs in
       ((r = Ok xs /\ missed = [] /\ opened_in W (h ++ [LReadDir]) es = done)
        \/ (r = Panic /\ (exists p fd, opened_in W (h ++ [LReadDir]) es = done ++ [(p, fd)])
            /\ exists o n fd pre, h ++ LReadDir :: es = pre ++ [LProbe n fd] /\ w_probe W (h ++ LReadDir :: es) = inr o /\ malformed_discovery o))
  end.
Proof.
  intros W h h' r H. unfold enum_drives in H. destruct (w_dir W (h ++ [LReadDir])) as [e|names]; [now injection H as <- <-|].
  destruct (enum_loop W (h ++ [LReadDir]) names []) as (h2, r2) eqn:E.
  destruct (enum_loop_spec _ _ _ _ _ _ E) as (es & xs & A & B & C & D & F). cbn [app] in F.
  assert (Hcl : forall fd, ~ In (LClose fd) es).
  { intros fd Hi. assert (Hf : In (LClose fd) (filter is_lclose es)) by (apply filter_In; auto). rewrite A in Hf. exact Hf. }
  assert (HS : forall pre p post, es = pre ++ LStat p :: post -> exists name, In name names /\ p = str "/dev/" ++ name /\ ~ occurs (str "loop") name /\
        ((exists m, w_mode W (h ++ LReadDir :: pre ++ [LStat p]) = Some m /\ block_mode m) /\ ~ occurs (str "sr") name
         <-> exists post', post = LOpen p :: post')).
  { intros pre p post Ep. pose proof (stat_rule_at _ _ _ _ C _ _ _ Ep) as (name & N1 & N2 & N3 & N4). rewrite <- !app_assoc in N4. exists name. auto. }
  assert (HO : forall pre p post, es = pre ++ LOpen p :: post -> exists pre', pre = pre' ++ [LStat p]).
  { intros pre p post Ep. destruct (open_rule_at _ _ D _ _ _ Ep) as [[-> _]|X]; [|exact X]. exfalso. apply B. do 2 eexists. exact Ep. }
  exists es, xs.
  destruct F as [(-> & -> & F3 & F4)|(-> & -> & F3 & (rest & F4) & F5)].
  - rewrite fold_close in H. injection H as <- <-. split; [now rewrite <- !app_assoc|]. split; [exact Hcl|]. split; [exact HS|]. split; [exact HO|].
    exists (filter no_loop names), []. rewrite app_nil_r. split; [apply filter_kept|]. split; [exact F4|]. cbv zeta. left. split; [reflexivity|]. split; [reflexivity|]. exact F3.
  - injection H as <- <-. split; [rewrite <- !app_assoc; reflexivity|]. split; [exact Hcl|]. split; [exact HS|]. split; [exact HO|].
    destruct (map_eq_app _ _ _ _ (eq_sym F4)) as (v & m & Ev & Ev1 & Ev2). exists v, m. split; [rewrite <- Ev; apply filter_kept|].
    split; [now symmetry|]. cbv zeta. right. split; [reflexivity|]. split; [exact F3|].
    destruct F5 as (o & pre & n & fd & F5 & F6 & F7). exists o, n, fd, pre. rewrite <- app_assoc in F5, F6. auto.
Qed.
Print Assumptions C77_enum_drives.

(** C78.  [a] holds what the system answers; [ia_order] is the order in which the runtime walks the map, any permutation. *)
Definition shuffles (order : list (bytes * bytes) -> list (bytes * bytes)) : Prop := forall m, Permutation m (order m).
(** a name under /dev/disk/by-id that is not ignored *)
Definition counts (names : list bytes) (n : bytes) : Prop := In n names /\ ~ ignored_id n.
Definition file_text (content : option bytes) (t : bytes) : Prop :=
  match content with Some b => stripped b t | None => t = [] end.
Theorem C78_id_info : forall path a, shuffles (ia_order a) ->
  match ia_dir a with
  | None => get_id_info path a = Err (EMsg "readdir /dev/disk/by-id failed")
  | Some names =>
    (* one name that does not resolve and everything is lost *)
    (exists n, counts names n /\ ia_link a n = None) /\ get_id_info path a = Err (EMsg "EvalSymlinks failed") \/
    (forall n, counts names n -> ia_link a n <> None) /\
    exists model serial vendor rev dev, get_id_info path a = Ok (model, serial, vendor, rev) /\
      ((exists n, counts names n /\ ia_link a n = Some path /\ id_parts n model serial)
       \/ (model = [] /\ serial = [] /\ forall n, counts names n -> ia_link a n = Some path -> ~ In 95 n)) /\
      (* the last component of the path *)
      ((exists front, path = front ++ str "/" ++ dev) \/ path = dev) /\ ~ In 47 dev /\
      file_text (ia_file a (str "/sys/block/" ++ dev ++ str "/device/vendor")) vendor /\
      file_text (ia_file a (str "/sys/block/" ++ dev ++ str "/device/rev")) rev
  end.
Proof.
  intros path a Ho. unfold get_id_info. destruct (ia_dir a) as [names|]; [|reflexivity].
  destruct (id_map (ia_link a) names) as [m|] eqn:Em.
  2:{ left. split; [|reflexivity]. destruct (id_map_none _ _ Em) as (n & A & B & C). exists n. split; [split; assumption|exact C]. }
  right. destruct (id_map_some _ _ _ Em) as [A B]. split.
  { intros n [Hn Hi] Hl. destruct (A n Hn Hi) as [p Hp]. congruence. }
  pose proof (id_search_spec path (ia_order a m)) as S. destruct (id_search path (ia_order a m)) as [model serial].
  do 4 eexists. exists (sole_dev path). split; [reflexivity|].
  assert (P : forall n p, In (n, p) (ia_order a m) <-> In n names /\ ~ ignored_id n /\ ia_link a n = Some p).
  { intros n p. rewrite <- B. pose proof (Ho m) as Hp. split; intros X; [apply Permutation_sym in Hp|]; eapply Permutation_in; eauto. }
  split.
  { destruct S as [(n & X & Y)|(-> & -> & Y)]; [left|right].
    - apply P in X as (X1 & X2 & X3). exists n. split; [split; assumption|]. auto.
    - split; [reflexivity|]. split; [reflexivity|]. intros n [Hn Hi] Hl. apply Y, P. auto. }
  unfold sole_dev. destruct (cut_last 47 path) as [[f d]|] eqn:Ec.
  - apply cut_last_some in Ec as [-> Hd]. split; [left; now exists f|]. split; [exact Hd|].
    split; unfold file_text; destruct (ia_file a _); auto using trim_space_spec.
  - apply cut_last_none in Ec. split; [now right|]. split; [exact Ec|].
    split; unfold file_text; destruct (ia_file a _); auto using trim_space_spec.
Qed.
Print Assumptions C78_id_info.
(** The two texts are determined by the contents of the files. *)
Theorem C78_text_unique : forall content t t', file_text content t -> file_text content t' -> t = t'.
Proof. intros [b|] t t' A B; unfold file_text in *; [exact (stripped_unique b t t' A B)|congruence]. Qed.
Print Assumptions C78_text_unique.

(** When several names lead to the drive, any of them may be the one reported: the answer depends on map iteration order. *)
Theorem C78_any_match : forall path a names n model serial, ia_dir a = Some names -> (forall k, counts names k -> ia_link a k <> None) ->
  counts names n -> ia_link a n = Some path -> id_parts n model serial ->
  exists order vendor rev, shuffles order /\
    get_id_info path {| ia_dir := ia_dir a; ia_link := ia_link a; ia_order := order; ia_file := ia_file a |} = Ok (model, serial, vendor, rev).
Proof.
  intros path a names n model serial Hd Hl Hn Hp Hi.
  exists (fun m => filter (fun e => beq (fst e) n) m ++ filter (fun e => negb (beq (fst e) n)) m). unfold get_id_info. cbn [ia_dir ia_link ia_order ia_file].
  rewrite Hd. destruct (id_map (ia_link a) names) as [m|] eqn:Em.
  2:{ exfalso. destruct (id_map_none _ _ Em) as (k & A & B & C). apply (Hl k); [split; assumption|exact C]. }
  destruct (id_map_some _ _ _ Em) as [A B].
  assert (Hin : In (n, path) m) by (apply B; destruct Hn; auto).
  assert (F : exists l, filter (fun e => beq (fst e) n) m = (n, path) :: l).
  { destruct (filter (fun e => beq (fst e) n) m) as [|[k q] l] eqn:Ef.
    - exfalso. assert (X : In (n, path) (filter (fun e => beq (fst e) n) m)) by (apply filter_In; split; [exact Hin|apply beq_refl]). rewrite Ef in X. exact X.
    - assert (X : In (k, q) (filter (fun e => beq (fst e) n) m)) by (rewrite Ef; now left). apply filter_In in X as [X1 X2]. cbn [fst] in X2. apply beq_iff in X2. subst k.
      apply B in X1 as (_ & _ & X1). rewrite Hp in X1. injection X1 as ->. now exists l. }
  destruct F as (l & F). rewrite F. cbn [app id_search]. rewrite beq_refl.
  destruct (cut_last 95 n) as [[t s]|] eqn:Ec.
  2:{ exfalso. apply cut_last_none in Ec. apply Ec, id_parts_iff. eauto. }
  destruct (id_parts_unique _ _ _ _ _ Hi (id_parts_of _ _ _ Ec)) as [-> ->].
  do 2 eexists. split; [|reflexivity].
  intros m'. clear. induction m' as [|e m' IH]; [constructor|]. cbn [filter]. destruct (beq (fst e) n); cbn [negb app]; [now constructor|].
  apply Permutation_cons_app. exact IH.
Qed.
Print Assumptions C78_any_match.

(** C79.  ReadBasicInfo: the partition table style and identifiers and the capacity. *)
Definition lowercased (s t : bytes) : Prop := Forall2 (fun x y => y = if (65 <=? x) && (x <=? 90) then x + 32 else x) s t.
(** the disk signature in a boot record *)
Definition mbr_signature (b : bytes) : N := if beq (slice 510 2 b) [0x55; 0xaa] then le_val (slice 440 4 b) else 0.
Theorem C79_basic_info : forall path a,
  match da_open a, da_geo a with
  | None, None => exists b, read_basic_info path a = Ok b /\ ba_table b = da_table a /\
     match da_table a with
     | TGpt guid _ => ba_style b = 2 /\ lowercased guid (ba_gpt b) /\ ba_mbr b = 0
     | TMbr _ => ba_style b = 1 /\ ba_gpt b = [] /\
         (forall sector, List.length sector = 512%nat -> da_readat a 512%nat = (sector, (512, None)) -> ba_mbr b = mbr_signature sector) /\
         (forall data n e, da_readat a 512%nat = (data, (n, e)) -> e <> None \/ n <> 512 -> ba_mbr b = 0)
     | TOther => ba_style b = 0 /\ ba_gpt b = [] /\ ba_mbr b = 0
     end /\
     match da_size a with
     | None => ba_total b = 0%Z
     | Some n => n < 2 ^ 64 -> (n < 2 ^ 63 -> ba_total b = Z.of_N n) /\ (2 ^ 63 <= n -> ba_total b = (Z.of_N n - 2 ^ 64)%Z)
     end /\
     (forall n, da_ssz a = Some n -> ba_sector b = n) /\ (da_ssz a = None -> ba_sector b = 0)
  (* without a geometry nothing is reported, not even the size *)
  | _, _ => exists e, read_basic_info path a = Err e
  end.
Proof.
  intros path a. unfold read_basic_info. destruct (da_open a); [eauto|]. destruct (da_geo a); [eauto|].
  eexists. split; [reflexivity|]. cbn [ba_table ba_style ba_gpt ba_mbr ba_total]. split; [reflexivity|]. split; [|split].
  - destruct (da_table a) as [g ps|ps|].
    + split; [reflexivity|]. split; [|reflexivity]. unfold lowercased. induction g as [|x g IH]; constructor; [reflexivity|exact IH].
    + split; [reflexivity|]. split; [reflexivity|]. split.
      * intros sector Hl E. unfold mbr_read. rewrite E. change (negb (512 =? 512)) with false. cbv iota.
        assert (Es : firstn 512 (sector ++ skipn (List.length sector) (zeros 512)) = sector).
        { rewrite Hl. change (skipn 512 (zeros 512)) with (@nil N). rewrite app_nil_r. rewrite <- Hl. apply firstn_all. }
        rewrite Es. unfold mbr_table_from_bytes. unfold blen. rewrite Hl. change (N.of_nat 512 =? 512) with true. cbv iota beta.
        assert (E2 : slice 510 2 sector = skipn 510 sector).
        { unfold slice. apply firstn_all2. rewrite skipn_length, Hl. reflexivity. }
        unfold mbr_signature. rewrite E2. cbn [negb]. destruct (beq (skipn 510 sector) [85; 170]); reflexivity.
      * intros data n e E Hor. unfold mbr_read. rewrite E. destruct e as [x|]; [reflexivity|].
        destruct (N.eqb_spec n 512) as [->|Hn]; [destruct Hor; congruence|reflexivity].
    + auto.
  - destruct (da_size a) as [n|]; [|reflexivity]. intros Hn. unfold to_int64. rewrite N.mod_small by assumption. cbv zeta.
    destruct (Z.ltb_spec (Z.of_N n) (2 ^ 63)); split; intros; lia.
  - cbn [ba_sector]. split; [intros n ->|intros ->]; reflexivity.
Qed.
Print Assumptions C79_basic_info.

(** ... and that is what the handle says. *)
Theorem C79_handle : forall W h fd path h' x, open_by_fd W h fd path = (h', Ok x) ->
  match read_basic_info path (w_basic W (h ++ [LBasic fd path])) with
  | Ok b => l_style x = ba_style b /\ l_gpt x = ba_gpt b /\ l_mbr x = ba_mbr b /\ l_capacity x = ba_total b
  | _ => l_style x = 0 /\ l_gpt x = [] /\ l_mbr x = 0 /\ l_capacity x = 0%Z
  end.
Proof.
  intros W h fd path h' x H. apply open_fd_closed in H. cbv zeta in H.
  destruct H as [[H _]|(x3 & x' & H & _ & R & _)]; [discriminate|]. injection H as <-.
  destruct R as (_ & _ & R3 & R4 & R5 & R6 & _). rewrite R3, R4, R5, R6.
  destruct (get_id_info _ _) as [[[[m s] v] f]| | |]; destruct (read_basic_info _ _); repeat split.
Qed.
Print Assumptions C79_handle.

(** C77: one drive with a malformed discovery answer and the whole enumeration is lost, though the other drive is fine. *)
Definition overlong : bytes := be_bytes 4 2048 ++ zeros 28 ++ concat (repeat ([0; 1; 0; 255] ++ zeros 255) 8).
Definition two_drives : world :=
  {| w_open := fun h => inr (N.of_nat (List.length h)); w_basic := w_basic refusing; w_ids := w_ids refusing;
     w_probe := fun h => if (List.length h <=? 7)%nat then inr {| o_drv := Prop_Drive.steady (zeros 2048); o_type := plain_type |}
                         else inr {| o_drv := Prop_Drive.steady overlong; o_type := plain_type |};
     w_dir := fun _ => inr [str "sda"; str "sdb"]; w_mode := fun _ => Some 0x61b0 |}.
Theorem C77_enumeration_survives_refuted : ~ (forall W h h' r names, w_dir W (h ++ [LReadDir]) = inr names -> enum_drives W h = (h', r) ->
  exists xs, r = Ok xs).
Proof.
  intros H. destruct (enum_drives two_drives []) as (h', r) eqn:E.
  destruct (H two_drives [] h' r [str "sda"; str "sdb"] eq_refl E) as (xs & ->). apply (f_equal (fun x => match snd x with Panic => true | _ => false end)) in E.
  vm_compute in E. discriminate.
Qed.
Print Assumptions C77_enumeration_survives_refuted.

(** Non-vacuity for C78: a vendor file that ends in a no-break space, a narrow space and a newline, and one that is not UTF-8. *)
Example c78_texts :
  trim_space (str "  ATA" ++ [0xC2; 0xA0; 0xE2; 0x80; 0x89; 10]) = str "ATA" /\
  trim_space ([0xC2; 0xA0] ++ str "A B" ++ [0xA0; 32]) = str "A B" ++ [0xA0] /\ trim_space [0xE3; 0x80; 0x80; 9] = [] /\ trim_space [0xE3; 0x80] = [0xE3; 0x80].
Proof. vm_compute. repeat split. Qed.
