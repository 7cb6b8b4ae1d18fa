(** C169, C170: decoding log pages and raw descriptors with the exported structures. *)
From Verif Require Import Base M_Buffer M_Struc M_Layouts M_Ata M_TcgDevice M_DriveHandle M_AtaUtil M_Cdb M_SgDriver M_SgHandle M_NvmeLinux M_Strings M_LinuxInfo M_LinuxFactory
  M_LinuxVolume M_LinuxSystem M_Develop M_LogPages Spec_Drive Spec_Identity Spec_LogPages P_Struc P_Discovery P_DriveHandle P_Identity Prop_Drive Spec_LinuxFactory Spec_NvmeLinux Spec_Sg
  Prop_NvmeLinux Spec_LinuxSystem P_NvmeLinux P_LinuxSystem Prop_LinuxSystem Prop_LinuxTcg Prop_Health.

Lemma page_ok lay t size : agrees lay t = true -> covered lay (map fst t) = true -> struc_sizeof lay = size -> forall b,
  ((size <= List.length b)%nat -> exists v, struc_unpack Little lay b = Ok v
     /\ (forall n off sz c, In (n, (off, (sz, c))) t -> field n v = le_elems off sz c b) /\ (forall n, field n v <> [] -> In n (map fst t)))
  /\ ((List.length b < size)%nat -> forall o, exists e, struc_unpack o lay b = Err e /\ (e = EEOF \/ e = EUnexpectedEOF)).
Proof.
  intros Ha Hc <- b. split; intros H.
  - rewrite unpack_ok0 by exact H. eexists. split; [reflexivity|]. split.
    + intros n off sz c Hin. exact (agrees_field Little _ _ b _ _ _ _ Ha Hin).
    + intros n. apply covered_field, Hc.
  - intros o. apply unpack_short, H.
Qed.

(** C169.  A health page of at least 512 bytes decodes in little-endian order, each field to what NVMe puts at its place, and there are no
    other fields; anything shorter is an error. *)
Theorem C169_smart_page : forall b,
  ((512 <= List.length b)%nat -> exists v, decode_smart Little b = Ok v
     /\ (forall n off sz c, In (n, (off, (sz, c))) smart_places -> field n v = le_elems off sz c b)
     /\ (forall n, field n v <> [] -> In n (map fst smart_places)))
  /\ ((List.length b < 512)%nat -> forall o, exists e, decode_smart o b = Err e /\ (e = EEOF \/ e = EUnexpectedEOF)).
Proof. intros b. apply page_ok; vm_compute; reflexivity. Qed.
Print Assumptions C169_smart_page.

Theorem C169_sanitize_page : forall b,
  ((32 <= List.length b)%nat -> exists v, decode_sanitize Little b = Ok v
     /\ (forall n off sz c, In (n, (off, (sz, c))) sanitize_places -> field n v = le_elems off sz c b)
     /\ (forall n, field n v <> [] -> In n (map fst sanitize_places)))
  /\ ((List.length b < 32)%nat -> forall o, exists e, decode_sanitize o b = Err e /\ (e = EEOF \/ e = EUnexpectedEOF)).
Proof. intros b. apply page_ok; vm_compute; reflexivity. Qed.
Print Assumptions C169_sanitize_page.

(** With the default options a number of the page comes out right exactly if its bytes read the same backwards. *)
Theorem C169_default_order : forall b n off sz, wf b -> (512 <= List.length b)%nat -> In (n, (off, (sz, 1%nat))) smart_places ->
  exists v, decode_smart struc_default b = Ok v /\ (field n v = [le_val (slice off sz b)] <-> rev (slice off sz b) = slice off sz b).
Proof.
  intros b n off sz W H Hin. unfold decode_smart. rewrite unpack_ok0 by exact H. eexists. split; [reflexivity|].
  rewrite (agrees_field struc_default lay_SmartLogPage smart_places b n off sz 1%nat ltac:(vm_compute; reflexivity) Hin).
  cbn [seq map]. rewrite Nat.mul_0_l, Nat.add_0_r. cbn [decode_int struc_default]. rewrite <- be_le_iff by (apply wf_slice, W). split; [congruence|now intros ->].
Qed.
Print Assumptions C169_default_order.

Lemma slice_prefix (a b : bytes) m off sz : firstn m a = firstn m b -> (off + sz <= m)%nat -> slice off sz a = slice off sz b.
Proof.
  intros E H. unfold slice. transitivity (firstn sz (skipn off (firstn m a))); [|rewrite E]; rewrite skipn_firstn_comm, firstn_firstn; f_equal; lia.
Qed.
Lemma le_elems_prefix off sz c m (a b : bytes) : firstn m a = firstn m b -> (off + c * sz <= m)%nat -> le_elems off sz c a = le_elems off sz c b.
Proof.
  intros E H. unfold le_elems. apply map_ext_in. intros k Hk. apply in_seq in Hk. f_equal. apply (slice_prefix _ _ m); [exact E|]. nia.
Qed.
Lemma delivered_front old new got m : delivered old new got -> (m <= List.length new)%nat -> (m <= List.length old)%nat -> firstn m got = firstn m new.
Proof.
  intros (L & A & _) H1 H2. apply list_eq_nth_error. intros i. destruct (Nat.lt_ge_cases i m) as [Hi|Hi].
  - rewrite !nth_error_firstn_lt by exact Hi. apply A; lia.
  - transitivity (@None N); [|symmetry]; apply nth_error_None; rewrite firstn_length; lia.
Qed.

Lemma smart_in_page n off sz c : In (n, (off, (sz, c))) smart_places -> (off + c * sz <= 512)%nat.
Proof.
  assert (F : forallb (fun x : place => match x with (_, (off, (sz, c))) => (off + c * sz <=? 512)%nat end) smart_places = true) by (vm_compute; reflexivity).
  rewrite forallb_forall in F. intros H. specialize (F _ H). cbn in F. now apply Nat.leb_le.
Qed.

(** From the drive to the numbers: NvmeGetLogPage of the health page of a drive opened by path, asking for 512 to 4096 bytes, is one command;
    if it succeeds and the controller wrote the page, decoding the result gives the fields of what the controller wrote. *)
Theorem C169_from_drive : forall S h path h' x fd nsid (rae : bool) q cs page e,
  addresses_ok S -> w_open (sy_world S) (h ++ [LOpen path]) = inr fd -> open_by_path (linux S) h path = (h', Ok x) ->
  l_driver_name x = str "LinuxNvmeDriver" -> nsid < 2 ^ 32 -> 512 <= N.pos q <= 4096 ->
  forall V, l_drv x = Some V -> nvme_get_log_page V (l_dh x) (l_calls x) nsid 2 rae (Zpos q) = (cs, (page, e)) ->
  let at_ := at_nvme h path fd in
  let K := sy_nvme S at_ in
  let opening := nvme_ioctls S at_ x in
  let after := nvme_ioctls S at_ (with_calls x cs) in
  exists c v, after = opening ++ [c] /\ wants_log_page fd nsid 2 rae (N.pos q) (sy_nvme_addr S at_) opening c
  /\ (e = None <-> nv_succeeded (K after)) /\ decode_smart Little page = Ok v
  /\ ((512 <= List.length (na_in (K after)))%nat -> forall n off sz cn, In (n, (off, (sz, cn))) smart_places ->
        field n v = le_elems off sz cn (na_in (K after))).
Proof.
  intros S h path h' x fd nsid rae q cs page e HS Ew H Hn Hns Hq V HV HL at_ K opening after.
  destruct (C147_nvme_log_page S h path h' x fd nsid 2 rae q cs page e HS Ew H Hn Hns ltac:(reflexivity) ltac:(lia) V HV HL) as (Lp & KA).
  fold at_ in KA. fold K in KA. change (nvme_ioctls S at_ x) with opening in KA. change (nvme_ioctls S at_ (with_calls x cs)) with after in KA. clearbody opening after.
  replace (N.to_nat ((N.pos q + 4095) / 4096)) with 1%nat in KA.
  2: { replace ((N.pos q + 4095) / 4096) with 1; [reflexivity|]. apply N.div_unique with (r := N.pos q - 1); lia. }
  assert (L512 : (512 <= List.length page)%nat) by (unfold blen in Lp; lia).
  assert (Lq : (512 <= Pos.to_nat q)%nat) by lia.
  destruct (proj1 (C169_smart_page page) L512) as (v & Ev & Fv & _).
  assert (D : exists c, after = opening ++ [c] /\ wants_log_page fd nsid 2 rae (N.pos q) (sy_nvme_addr S at_) opening c /\ (e = None <-> nv_succeeded (K after))
    /\ delivered (zeros (Pos.to_nat q)) (firstn (Pos.to_nat q) (na_in (K after))) page).
  { remember (zeros (Pos.to_nat q)) as z eqn:Ez. inversion KA; subst; eexists; (split; [reflexivity|]); (split; [eassumption|]); (split; [|eassumption]); split; try congruence; tauto. }
  destruct D as (c & Ec & Wc & Ee & Dp). exists c, v. split; [exact Ec|]. split; [exact Wc|]. split; [exact Ee|]. split; [exact Ev|].
  intros Lk n off sz cn Hin. rewrite (Fv _ _ _ _ Hin). apply (le_elems_prefix _ _ _ 512); [|apply (smart_in_page _ _ _ _ Hin)].
  rewrite (delivered_front _ _ _ 512 Dp); [|rewrite firstn_length; lia|unfold zeros; rewrite repeat_length; exact Lq].
  rewrite firstn_firstn. f_equal. lia.
Qed.
Print Assumptions C169_from_drive.

(** The structure is four bytes longer in memory than the page, so the development program, which passes unsafe.Sizeof, asks for 516 bytes. *)
Theorem C169_memory_size : struc_sizeof lay_SmartLogPage = 512%nat /\ go_sizeof lay_SmartLogPage = 516%nat /\ struc_sizeof lay_SanitizeLogPage = 32%nat
  /\ go_sizeof lay_SanitizeLogPage = 32%nat
  /\ forall x V, l_drv x = Some V -> exists page e, nvme_get_log_page V (l_dh x) (l_calls x) 0xffffffff 2 false (Z.of_nat (go_sizeof lay_SmartLogPage)) = (fst (log_stage x), (page, e))
     /\ snd (log_stage x) = match e with Some e => [SError e; SPage page] | None => [SPage page] end.
Proof.
  repeat (split; [vm_compute; reflexivity|]). intros x V Hx. replace (Z.of_nat (go_sizeof lay_SmartLogPage)) with 516%Z by (vm_compute; reflexivity).
  unfold log_stage. rewrite Hx. destruct (nvme_get_log_page V (l_dh x) (l_calls x) 0xffffffff 2 false 516) as (cs, (page, e)). exists page, e. split; reflexivity.
Qed.
Print Assumptions C169_memory_size.

(** C170.  The structures for raw descriptors: code, structure, its size, where the standards put the fields. *)
Definition structures : list (N * (list fld * (nat * list place))) :=
  [ (0x0001, (lay_Discovery0TPerFeature, (17%nat, tper_places))); (0x0002, (lay_Discovery0LockingFeature, (17%nat, locking_places)));
    (0x0003, (lay_Discovery0GeometryReportingFeature, (32%nat, geometry_places))); (0x0100, (lay_Discovery0EnterpriseSSCFeature, (20%nat, enterprise_places)));
    (0x0200, (lay_Discovery0OpalSSCFeatureV100, (8%nat, opal1_places))); (0x0201, (lay_Discovery0SingleUserModeFeature, (16%nat, single_places)));
    (0x0202, (lay_Discovery0DataStoreTableFeature, (16%nat, store_places))); (0x0203, (lay_Discovery0OpalSSCFeatureV200, (20%nat, opal2_places))) ].

Lemma structures_ok code lay size t : In (code, (lay, (size, t))) structures -> struc_sizeof lay = size /\ agrees lay t = true.
Proof.
  assert (F : forallb (fun x : N * (list fld * (nat * list place)) => match x with (_, (lay, (size, t))) => (struc_sizeof lay =? size)%nat && agrees lay t end) structures = true) by (vm_compute; reflexivity).
  rewrite forallb_forall in F. intros H. specialize (F _ H). cbn beta iota in F. apply andb_true_iff in F as (F1 & F2). split; [now apply Nat.eqb_eq|exact F2].
Qed.

(** Any descriptor: decoding succeeds exactly if it is as long as the structure, and then gives what the standards put at each place. *)
Theorem C170_descriptor_fields : forall code lay size t d, In (code, (lay, (size, t))) structures ->
  ((size <= List.length d)%nat -> exists v, decode_descriptor lay d = Ok v
      /\ forall n off sz c, In (n, (off, (sz, c))) t -> field n v = be_elems off sz c d)
  /\ ((List.length d < size)%nat -> exists e, decode_descriptor lay d = Err e /\ (e = EEOF \/ e = EUnexpectedEOF)).
Proof.
  intros code lay size t d Hin. destruct (structures_ok _ _ _ _ Hin) as (<- & Ha). unfold decode_descriptor. split; intros H.
  - rewrite unpack_ok0 by exact H. eexists. split; [reflexivity|]. intros n off sz c Hp. exact (agrees_field struc_default _ _ d _ _ _ _ Ha Hp).
  - apply unpack_short, H.
Qed.
Print Assumptions C170_descriptor_fields.

Lemma last_listed_in code : forall fs d, last_listed code fs = Some d -> exists f, In f fs /\ ft_code f = code /\ d = descriptor f.
Proof.
  induction fs as [|f fs IH]; intros d H; cbn [last_listed] in H; [discriminate|]. destruct (last_listed code fs) as [d'|] eqn:E.
  - injection H as ->. destruct (IH _ eq_refl) as (g & G1 & G2). exists g. split; [right; exact G1|exact G2].
  - destruct (ft_code f =? code) eqn:Ec; [|discriminate]. injection H as <-. apply N.eqb_eq in Ec. exists f. split; [left; reflexivity|]. split; [exact Ec|reflexivity].
Qed.
Lemma descriptor_length f : List.length (descriptor f) = (4 + List.length (ft_body f))%nat.
Proof. unfold descriptor. rewrite !app_length, be_bytes_length. reflexivity. Qed.

(** From the drive: what discovery recorded of a conforming answer is, for each code, the last descriptor of that code; if it has the length
    the standards give it, the structures of all features except TPer and Locking decode it to the drive's values, and those two, which are one
    byte too long, never do. *)
Theorem C170_from_drive : forall i ans fs, discovery_recorded (Some ans) i -> level0_answer ans fs ->
  forall code lay size t len f, In (code, (lay, (size, t))) structures -> In (code, len) standard_length ->
  last_listed code fs = Some (descriptor f) -> List.length (ft_body f) = len ->
  exists d, raw_lookup (l_raw (i_tcg i)) code = Some d /\ d = descriptor f
  /\ (code <> 0x0001 -> code <> 0x0002 -> exists v, decode_descriptor lay d = Ok v /\ forall n off sz c, In (n, (off, (sz, c))) t -> field n v = be_elems off sz c d)
  /\ (code = 0x0001 \/ code = 0x0002 -> exists e, decode_descriptor lay d = Err e).
Proof.
  intros i ans fs (_ & _ & R) HA code lay size t len f Hin Hs Hl Hb. specialize (R _ HA). destruct R as (_ & _ & _ & _ & _ & _ & _ & _ & R).
  exists (descriptor f). split; [rewrite R; [exact Hl|]|].
  { unfold structures in Hin. cbn [In] in Hin. intros ->. repeat (destruct Hin as [Hin|Hin]; [discriminate Hin|]). exact Hin. }
  split; [reflexivity|]. pose proof (C170_descriptor_fields code lay size t (descriptor f) Hin) as (Ok' & Er). rewrite descriptor_length, Hb in Ok', Er.
  assert (Sz : (code <> 0x0001 -> code <> 0x0002 -> (size <= 4 + len)%nat) /\ (code = 0x0001 \/ code = 0x0002 -> (4 + len < size)%nat)).
  { assert (Fb : forallb (fun x : N * (list fld * (nat * list place)) => forallb (fun y : N * nat => match x, y with (c, (_, (sz, _))), (c', l) =>
        negb (c =? c') || (if (c =? 1) || (c =? 2) then (4 + l <? sz)%nat else (sz <=? 4 + l)%nat) end) standard_length) structures = true) by (vm_compute; reflexivity).
    rewrite forallb_forall in Fb. specialize (Fb _ Hin). cbn beta iota in Fb. rewrite forallb_forall in Fb. specialize (Fb _ Hs). cbn beta iota in Fb.
    rewrite N.eqb_refl in Fb. cbn [negb orb] in Fb.
    split; [intros A B|intros [->| ->]; now apply Nat.ltb_lt in Fb].
    apply N.eqb_neq in A. apply N.eqb_neq in B. rewrite A, B in Fb. cbn [orb] in Fb. now apply Nat.leb_le. }
  split.
  - intros A B. apply Ok', (proj1 Sz A B).
  - intros A. destruct (Er (proj2 Sz A)) as (e & E & _). exists e. exact E.
Qed.
Print Assumptions C170_from_drive.

(** On a complete Linux system, for an NVMe drive. *)
Theorem C170_opened_nvme : forall S h path h' x fd, addresses_ok S ->
  w_open (sy_world S) (h ++ [LOpen path]) = inr fd -> open_by_path (linux S) h path = (h', Ok x) -> l_driver_name x = str "LinuxNvmeDriver" ->
  let K := sy_nvme S (at_nvme h path fd) in
  exists c1 c2 ans, nvme_ioctls S (at_nvme h path fd) x = [c1; c2] /\ nvme_level0 fd c2 /\ delivered (zeros 2048) (na_in (K [c1; c2])) ans
  /\ (nv_succeeded (K [c1; c2]) -> forall fs, level0_answer ans fs ->
      forall code lay size t f, In (code, (lay, (size, t))) structures -> last_listed code fs = Some (descriptor f) -> (size <= 4 + List.length (ft_body f))%nat ->
      exists d v, raw_lookup (l_raw (i_tcg (p_info (l_dh x)))) code = Some d /\ decode_descriptor lay d = Ok v
      /\ forall n off sz c, In (n, (off, (sz, c))) t -> field n v = be_elems off sz c (descriptor f)).
Proof.
  intros S h path h' x fd HS Ew H Hn K. destruct (C122_nvme_information S h path h' x fd HS Ew H Hn) as (c1 & c2 & id & ans & E & _ & L0 & _ & _ & _ & _ & _ & D & R & _).
  fold K in D, R. exists c1, c2, ans. split; [exact E|]. split; [exact L0|]. split; [exact D|]. intros Su fs HA code lay size t f Hin Hl Hb.
  destruct (R Su) as (_ & _ & R'). destruct (R' fs HA) as (_ & _ & _ & _ & _ & _ & _ & _ & R9).
  assert (C0 : code <> 0) by (unfold structures in Hin; cbn [In] in Hin; intros ->; repeat (destruct Hin as [Hin|Hin]; [discriminate Hin|]); exact Hin).
  destruct (proj1 (C170_descriptor_fields code lay size t (descriptor f) Hin)) as (v & Ev & Fv); [rewrite descriptor_length; exact Hb|].
  exists (descriptor f), v. split; [rewrite R9 by exact C0; exact Hl|]. split; [exact Ev|exact Fv].
Qed.
Print Assumptions C170_opened_nvme.
