(** Lemmas for C121-C125. *)
From Verif Require Import Base M_Buffer M_Struc M_Ata M_TcgDevice M_DriveHandle M_Cdb M_SgDriver M_SgHandle M_NvmeLinux M_Strings M_LinuxInfo M_LinuxFactory M_LinuxSystem
  Spec_Drive P_Discovery P_DriveHandle Prop_Drive Spec_LinuxFactory P_LinuxFactory Prop_LinuxFactory Spec_NvmeLinux Spec_Sg P_Sg Prop_Sg Prop_NvmeLinux Prop_SgHandle Spec_LinuxSystem.

Lemma sec_info V p p' h rw dma pr c b s : p_dh p = p_dh p' -> security_command V p h rw dma pr c b s = security_command V p' h rw dma pr c b s.
Proof. intros E. unfold security_command. now rewrite E. Qed.

(** what a discovery answer (or failure) does to the information, the flags being [t] before *)
Definition outcome (t : level0) (e : option err) (buf : bytes) (i : info) (r : res unit) : Prop :=
  match e with
  | Some x => r = Ok tt /\ i_support i = (if String.eqb (err_text x) "not supported" then (-1)%Z else 0%Z) /\ i_tcg i = with_map t
  | None => i_support i = 1%Z /\ (r = Ok tt \/ r = Panic) /\ (r = Panic <-> malformed buf)
      /\ (forall fs, level0_answer buf fs -> adds_features (set_raw 0 (zeros 4) (with_map t)) (i_tcg i) fs)
  end.
Lemma tail_outcome V p h h1 e buf h' p' r : level0_read V p h h1 e buf -> init_tail V p h = (h', (p', r)) ->
  h' = h1 /\ outcome (i_tcg (p_info p)) e buf (p_info p') r.
Proof.
  intros L H. destruct (init_tail_frame _ _ _ _ _ _ H) as (_ & _ & _ & HR). unfold init_tail in H.
  set (p1 := with_info p (set_tcg (p_info p) true (with_map (i_tcg (p_info p))))) in H.
  assert (L1 : level0_read V p1 h h1 e buf) by (unfold level0_read in *; rewrite <- L; apply sec_info; reflexivity).
  pose proof (C35_support_flag V p1 h h1 e buf L1) as C5.
  destruct (tcg_discovery0 V p1 h) as (h2, (p2, r2)) eqn:E2. injection H as -> -> <-.
  destruct C5 as (-> & _ & _ & _ & C5). split; [reflexivity|]. destruct e as [x|]; cbn [outcome].
  - destruct C5 as (-> & T & S1 & S2). split; [reflexivity|]. split; [|exact T].
    destruct (String.eqb_spec (err_text x) "not supported"); [now apply S1|now apply S2].
  - split; [exact C5|]. split; [exact HR|]. clear HR. pose proof (C34_discovery_total V p1 h h1 buf L1) as [LB C4]. cbv zeta in C4. rewrite E2 in C4.
    change (i_raw_made (p_info p1)) with true in C4. cbv iota in C4. destruct C4 as (_ & _ & C4). split.
    + unfold malformed. destruct C4 as [[-> C4]|[(-> & C4)|(-> & C4 & C4')]]; split; try discriminate; try tauto. intros [? _]. lia.
    + intros fs (header & rest & Eb & Lh & Hb & Hf). subst buf.
      assert (Hok : Forall feature_ok fs) by (eapply Forall_impl; [|exact Hf]; cbv beta; intros ? []; assumption).
      assert (Hne : Forall (fun f => ft_body f <> []) fs) by (eapply Forall_impl; [|exact Hf]; cbv beta; intros ? []; assumption).
      destruct (C33_conforming_header V p1 h h1 header fs rest Hok eq_refl L1 Lh (or_introl (conj Hb Hne))) as (p3 & E3 & _ & _ & F3).
      rewrite E2 in E3. injection E3 as -> _. exact F3.
Qed.
Lemma outcome_recorded t e buf i r : t = no_level0 -> outcome t e buf i r -> r = Ok tt -> (forall x, e = Some x -> err_text x <> "not supported"%string) ->
  discovery_recorded (match e with Some _ => None | None => Some buf end) i.
Proof.
  intros -> O -> Ht. destruct e as [x|]; cbn [outcome discovery_recorded] in *.
  - destruct O as (_ & O1 & O2). destruct (String.eqb_spec (err_text x) "not supported") as [E|_]; [destruct (Ht x eq_refl E)|].
    split; [exact O1|]. rewrite O2. unfold reports. repeat split; try reflexivity.
  - destruct O as (O1 & _ & O2 & O3). split; [exact O1|]. split; [intros M; apply O2 in M; discriminate|].
    intros fs F. destruct (O3 fs F) as (A1 & A2 & A3 & A4 & A5 & A6 & A7 & A8 & A9).
    unfold reports. repeat (split; [assumption|]). intros code Hc. rewrite A9. destruct (last_listed code fs); [reflexivity|].
    cbn. destruct (N.eqb_spec 0 code); [congruence|reflexivity].
Qed.

(** ---- installing the NVMe driver ---- *)
Lemma install_nvme K fd A kh identity x x' r :
  let o := {| o_drv := nv_drv K fd A kh identity; o_type := nvme_type |} in
  ihealthy x -> blen identity = 4096 -> (forall k, A k < 2 ^ 64) -> install x o = (x', r) ->
  exists call ans, nv_replay K fd A kh (l_calls x') = kh ++ [call] /\ nvme_level0 fd call
  /\ delivered (zeros 2048) (na_in (K (kh ++ [call]))) ans
  /\ nvme_facts identity (p_info (l_dh x'))
  /\ ((nv_succeeded (K (kh ++ [call])) /\ outcome (i_tcg (p_info (l_dh x))) None ans (p_info (l_dh x')) r)
      \/ (~ nv_succeeded (K (kh ++ [call])) /\ exists k, outcome (i_tcg (p_info (l_dh x))) (Some (errno k)) ans (p_info (l_dh x')) r)).
Proof.
  intros o Hh Hl HA H. unfold install in H. cbn [o o_drv o_type] in H. set (V := nv_drv K fd A kh identity) in *.
  set (p := {| p_dh := Some nvme_type; p_info := p_info (l_dh x) |}) in H.
  destruct (init V p [CType; CName]) as (calls, (p', r')) eqn:E. injection H as <- <-. cbn [l_calls l_dh].
  unfold init in E. cbn [p p_dh nvme_type is_ata is_nvme] in E. cbv iota in E. cbv beta zeta iota in E. cbn [app] in E.
  change (v_identity V [CType; CName; CIdentity]) with identity in E. change (p_info p) with (p_info (l_dh x)) in E.
  destruct (init_nvme_ok (p_info (l_dh x)) identity ltac:(lia) Hh) as (i' & E1 & F & _ & _ & _ & _ & T & _ & L). rewrite E1 in E.
  destruct (security_command V (with_info p i') [CType; CName; CIdentity] false false 1 1 (zeros 2048) 3) as (h1, (e, buf)) eqn:ES.
  destruct (init_tail_frame _ _ _ _ _ _ E) as (_ & SI & _).
  destruct (tail_outcome V _ _ _ _ _ _ _ _ ES E) as (-> & O). cbn [with_info p_info] in O. rewrite T in O.
  assert (Ho : over_nvme (with_info p i')) by reflexivity.
  destruct (C72_security_over_nvme K fd A kh identity _ _ false false 1 1 (zeros 2048) 3 _ _ _ Ho ltac:(lia) ltac:(lia) ltac:(vm_compute; reflexivity) HA ES)
    as (call & R & Q1 & Q2 & Q3 & Q4 & Q5 & Q6 & _ & Q7).
  change (nv_replay K fd A kh [CType; CName; CIdentity]) with kh in *.
  exists call, buf. split; [exact R|]. split.
  { unfold nvme_level0. repeat (split; [assumption|]). eexists. exact Q4. }
  split; [exact (Q7 eq_refl)|]. split; [eapply nvme_facts_frame; [exact SI|exact F]|].
  destruct e as [y|].
  - right. assert (NS : ~ nv_succeeded (K (kh ++ [call]))) by (intros X; apply Q5 in X; discriminate).
    split; [exact NS|]. specialize (Q6 NS). injection Q6 as ->. eexists. exact O.
  - left. split; [now apply Q5|exact O].
Qed.

(** ---- installing the SG driver ---- *)
Lemma task_error_text K h rw dma t data addr secs h' x y : data <> Some [] -> sg_task_file K h rw dma t data addr secs = (h', Ok (Some x, y)) ->
  err_text x <> "not supported"%string.
Proof.
  intros Hd H. pose proof (task_closed K h rw dma t data addr secs Hd) as C. cbv zeta in C. rewrite H in C. clear H.
  unfold sense_error in C.
  repeat match type of C with context [if ?b then _ else _] => destruct b end; injection C as _ C _; try discriminate C; subst x; discriminate.
Qed.
Lemma succeeded_dec a : succeeded a \/ ~ succeeded a.
Proof. unfold succeeded. destruct (N.eq_dec (an_errno a) 0), (N.eq_dec (an_ret a) 0); tauto. Qed.
Lemma sec_error_text K A kh identity p h rw dma pr c b s h' x out : over_sg p -> b <> [] ->
  security_command (sg_drv K A kh identity) p h rw dma pr c b s = (h', (Some x, out)) -> err_text x <> "not supported"%string.
Proof.
  intros Hp Hb H. unfold security_command in H. unfold over_sg in Hp. rewrite Hp in H. cbv zeta in H. cbn [is_ata] in H.
  rewrite sg_drv_io in H. destruct (fst (snd (sg_exec K A (sg_replay K A kh h) (CSec rw dma pr c b s)))) as (e1, new1) eqn:E1.
  destruct e1 as [x1|]; [|discriminate]. rewrite sg_drv_io in H.
  set (kh1 := sg_replay K A kh (h ++ [CSec rw dma pr c b s])) in H. cbn [sg_exec] in H.
  match type of H with context [sg_task_file K kh1 rw dma ?t ?d ?a ?z] => destruct (sg_task_file K kh1 rw dma t d a z) as (k1, r1) eqn:E2 end.
  assert (Nb : Some (fill b new1) <> Some []).
  { intros Z. injection Z as Z. apply Hb. apply length_zero_iff_nil. rewrite <- (fill_length b new1), Z. reflexivity. }
  destruct r1 as [(e2, (t2, [d2|]))| | |]; cbn [fst snd] in H; try discriminate. injection H as _ -> _.
  exact (task_error_text _ _ _ _ _ _ _ _ _ _ _ Nb E2).
Qed.
Lemma install_sg K A kh identity x x' r :
  let o := {| o_drv := sg_drv K A kh identity; o_type := ata_type |} in
  ihealthy x -> List.length identity = 512%nat -> install x o = (x', r) ->
  exists c1 rest e ans, sg_replay K A kh (l_calls x') = kh ++ c1 :: rest /\ (List.length rest <= 3)%nat /\ sata_level0 c1
  /\ Forall (fun c => sata_level0 c \/ sata_trusted c) rest
  /\ ata_facts identity (p_info (l_dh x'))
  /\ outcome (i_tcg (p_info (l_dh x))) e ans (p_info (l_dh x')) r
  /\ (forall y, e = Some y -> err_text y <> "not supported"%string)
  /\ (succeeded (K (kh ++ [c1])) -> rest = [] /\ e = None /\ delivered (zeros 2048) (an_in (K (kh ++ [c1]))) ans)
  /\ (e = None -> exists n, (n <= List.length rest)%nat /\ succeeded (K (kh ++ c1 :: firstn n rest)))
  /\ List.length ans = 2048%nat.
Proof.
  intros o Hh Hl H. unfold install in H. cbn [o o_drv o_type] in H. set (V := sg_drv K A kh identity) in *.
  set (p := {| p_dh := Some ata_type; p_info := p_info (l_dh x) |}) in H.
  destruct (init V p [CType; CName]) as (calls, (p', r')) eqn:E. injection H as <- <-. cbn [l_calls l_dh].
  unfold init in E. cbn [p p_dh ata_type is_ata is_nvme] in E. cbv iota in E. cbv beta zeta iota in E. cbn [app] in E.
  change (v_identity V [CType; CName; CIdentity]) with identity in E. change (p_info p) with (p_info (l_dh x)) in E.
  destruct (init_ata_ok (p_info (l_dh x)) identity ltac:(lia) Hh) as (i' & E1 & F & _ & _ & _ & _ & T & _ & L). rewrite E1 in E.
  destruct (security_command V (with_info p i') [CType; CName; CIdentity] false false 1 1 (zeros 2048) 3) as (h1, (e, buf)) eqn:ES.
  destruct (init_tail_frame _ _ _ _ _ _ E) as (_ & SI & _).
  destruct (tail_outcome V _ _ _ _ _ _ _ _ ES E) as (-> & O). cbn [with_info p_info] in O. rewrite T in O.
  assert (Ho : over_sg (with_info p i')) by reflexivity.
  assert (Hb : blen (zeros 2048) = 2048) by (vm_compute; reflexivity).
  assert (Hz : zeros 2048 <> []) by discriminate.
  assert (Zz : zeros (List.length (zeros 2048)) = zeros 2048) by (f_equal; apply repeat_length).
  assert (Lz : List.length (zeros 2048) = 2048%nat) by (apply repeat_length).
  remember (zeros 2048) as z eqn:Ez. clear Ez.
  destruct (C74_security_over_sg K A kh identity _ _ false false 1 1 z 3 _ _ _ Ho ltac:(lia) ltac:(lia) ltac:(lia) Hz ES)
    as (c1 & rest & R & Lr & S1 & _ & G1 & G2).
  change (sg_replay K A kh [CType; CName; CIdentity]) with kh in *.
  assert (S0 : forall c, is_security false 1 1 z c -> sata_level0 c) by (intros c D; unfold is_security in D; rewrite Hb in D; exact D).
  exists c1, rest, e, buf. split; [exact R|]. split; [exact Lr|]. split; [exact (S0 _ S1)|].
  assert (TR : forall c, is_trusted false false 1 1 z c -> sata_trusted c).
  { intros c (s & D1 & D2 & _ & D3 & D4 & D5 & _ & D6 & D7 & _). rewrite Hb in D4, D7. exists s. repeat (split; [assumption|]). exact D7. }
  split; [|split; [eapply ata_facts_frame; [exact SI|exact F]|split; [exact O|split; [|split; [|split]]]]].
  - destruct (succeeded_dec (K (kh ++ [c1]))) as [Y|Y]; [destruct (G1 Y) as (-> & _); constructor|].
    destruct (G2 Y) as (c2 & rest' & -> & S2 & H1 & H2). constructor; [left; exact (S0 _ S2)|].
    destruct (succeeded_dec (K (kh ++ [c1; c2]))) as [Y2|Y2]; [destruct (H1 Y2) as (-> & _); constructor|].
    destruct (H2 Y2) as (c3 & last & -> & _ & Fl & _). eapply Forall_impl; [|exact Fl]. cbv beta. auto.
  - intros y ->. exact (sec_error_text K A kh identity _ _ _ _ _ _ _ _ _ _ _ Ho Hz ES).
  - intros Y. destruct (G1 Y) as (-> & -> & _ & D). specialize (D eq_refl). rewrite Zz in D. auto.
  - intros ->. destruct (succeeded_dec (K (kh ++ [c1]))) as [Y|Y]; [exists 0%nat; split; [lia|exact Y]|].
    destruct (G2 Y) as (c2 & rest' & -> & S2 & H1 & H2).
    destruct (succeeded_dec (K (kh ++ [c1; c2]))) as [Y2|Y2]; [exists 1%nat; split; [cbn; lia|exact Y2]|].
    destruct (H2 Y2) as (c3 & last & -> & _ & _ & _ & _ & D). destruct (D eq_refl) as [D1|(c4 & -> & D1)].
    + exists 2%nat. split; [cbn; lia|exact D1].
    + exists 3%nat. split; [cbn; lia|exact D1].
  - rewrite <- Lz. pose proof (C40_security_fallback V (with_info p i') [CType; CName; CIdentity] false false 1 1 z 3 eq_refl eq_refl) as C. rewrite ES in C. exact (proj1 C).
Qed.

(** ---- the two probes of OpenByPath ---- *)
Definition then_install (x : handle) (d : err + opened) (k : handle -> res handle) : res handle :=
  match d with
  | inl _ => k x
  | inr o => match install x o with
             | (x', (Ok _ | Err _)) => k x'
             | (_, Panic) => Panic
             | (_, Fuel) => Fuel
             end
  end.
Definition blank_handle (fd : N) (x : handle) : Prop :=
  ihealthy x /\ undriven x /\ l_fd x = fd /\ l_calls x = [] /\ i_tcg (p_info (l_dh x)) = no_level0.
Lemma open_installs W h path h' r fd : w_open W (h ++ [LOpen path]) = inr fd -> open_by_path W h path = (h', r) ->
  exists x, blank_handle fd x
  /\ r = then_install x (w_probe W (at_nvme h path fd)) (fun x1 => then_install x1 (w_probe W (at_sg h path fd)) (fun x2 => Ok x2)).
Proof.
  intros Ew H. unfold open_by_path in H. rewrite Ew in H. unfold open_by_fd in H.
  set (x1 := match read_basic_info _ _ with Ok b => _ | _ => _ end) in H.
  set (x2 := match get_id_info _ _ with Ok _ => _ | _ => _ end) in H.
  assert (K1 : blank_handle fd x1). { unfold x1. destruct (read_basic_info _ _); repeat split. }
  assert (K2 : blank_handle fd x2).
  { unfold x2. destruct (get_id_info _ _) as [[[[m s] v] w]| | |]; exact K1. }
  exists x2. split; [exact K2|]. clearbody x2.
  assert (E3 : at_nvme h path fd = (((h ++ [LOpen path]) ++ [LBasic fd path]) ++ [LIds path]) ++ [LProbe 0 fd])
    by (unfold at_nvme, probing; cbn [firstn]; now rewrite <- !app_assoc).
  assert (E4 : at_sg h path fd = ((((h ++ [LOpen path]) ++ [LBasic fd path]) ++ [LIds path]) ++ [LProbe 0 fd]) ++ [LProbe 1 fd])
    by (unfold at_sg, probing; now rewrite <- !app_assoc).
  cbn [probe_loop driver_count] in H. rewrite <- E4, <- E3 in H. unfold then_install.
  destruct (w_probe W (at_nvme h path fd)) as [e|o].
  - destruct (w_probe W (at_sg h path fd)) as [e'|o']; [now injection H as _ <-|].
    destruct (install x2 o') as (x3, [ | | | ]); now injection H as _ <-.
  - destruct (install x2 o) as (x3, [ | | | ]); try (now injection H as _ <-);
    (destruct (w_probe W (at_sg h path fd)) as [e'|o']; [now injection H as _ <-|];
     destruct (install x3 o') as (x4, [ | | | ]); now injection H as _ <-).
Qed.
Lemma linux_nvme S h path fd : w_probe (linux S) (at_nvme h path fd) = probe_nvme S (at_nvme h path fd) fd.
Proof. unfold linux, at_nvme, probing. cbn [w_probe firstn]. rewrite rev_app_distr. reflexivity. Qed.
Lemma linux_sg S h path fd : w_probe (linux S) (at_sg h path fd) = probe_sg S (at_sg h path fd).
Proof. unfold linux, at_sg, probing. cbn [w_probe]. rewrite rev_app_distr. reflexivity. Qed.

Lemma nv_succeeded_dec a : nv_succeeded a \/ ~ nv_succeeded a.
Proof. unfold nv_succeeded. destruct (N.eq_dec (na_errno a) 0), (N.eq_dec (na_ret a) 0); tauto. Qed.
(** the NVMe probe *)
Lemma nvme_probe S h fd : sy_nvme_addr S h [] < 2 ^ 64 ->
  let K := sy_nvme S h in let A := sy_nvme_addr S h in
  exists c1, fst (nv_open K [] fd (A [])) = [c1] /\ nvme_identify fd c1
  /\ ((~ nv_succeeded (K [c1]) /\ exists e, probe_nvme S h fd = inl e)
      \/ (nv_succeeded (K [c1]) /\ exists id, blen id = 4096 /\ delivered (zeros 4096) (firstn 4096 (na_in (K [c1]))) id
          /\ probe_nvme S h fd = inr {| o_drv := nv_drv K fd A [c1] id; o_type := nvme_type |})).
Proof.
  intros Ha K A. unfold probe_nvme. fold K A. destruct (nv_open K [] fd (A [])) as (kh, r) eqn:E.
  destruct (C71_open K [] fd (A []) kh r Ha E) as (c & -> & B1 & B2 & B3 & B4 & B5). cbn [app fst] in *.
  exists c. split; [reflexivity|]. split. { unfold nvme_identify. repeat (split; [assumption|]). eauto. }
  destruct r as [id|e| |]; try contradiction.
  - right. destruct B5 as (B5 & B6). split; [exact B5|]. exists id. split; [|auto]. unfold blen. rewrite (proj1 B6). unfold zeros. rewrite repeat_length. reflexivity.
  - left. destruct B5 as (B5 & _). eauto.
Qed.
(** the SG probe *)
Lemma sg_probe S h : sy_sg_addr S h [] mod 512 = 0 ->
  let K := sy_sg S h in let A := sy_sg_addr S h in
  exists c1 rest, fst (sg_open K [] (A [])) = c1 :: rest /\ (List.length rest <= 1)%nat /\ Forall sata_identify (c1 :: rest)
  /\ ((exists e, probe_sg S h = inl e)
        /\ ((~ succeeded (K [c1]) /\ exists c2, rest = [c2] /\ ~ succeeded (K [c1; c2])) \/ nibble2 (sense32 (K [c1])) <> 0)
      \/ (succeeded (K [c1]) \/ exists c2, rest = [c2] /\ succeeded (K [c1; c2]))
         /\ nibble2 (sense32 (K [c1])) = 0
         /\ exists id, delivered (zeros 512) (an_in (K [c1])) id
            /\ probe_sg S h = inr {| o_drv := sg_drv K A (c1 :: rest) id; o_type := ata_type |}).
Proof.
  intros Ha K A. unfold probe_sg. fold K A. destruct (sg_open K [] (A [])) as (kh, r) eqn:E.
  destruct (C66_open K [] (A []) kh r Ha E) as (c & rest & -> & B1 & B2 & B3). cbn [app fst] in *.
  exists c, rest. split; [reflexivity|]. split; [exact B1|]. split. { apply Forall_forall. exact B2. }
  destruct r as [id|e| |]; try contradiction.
  - right. destruct B3 as (B3 & B4 & B5). eauto 10.
  - left. split; [eauto|]. destruct B3 as [(c2 & -> & _ & B4 & B5)|(B4 & _)]; [left; eauto|right; exact B4].
Qed.
