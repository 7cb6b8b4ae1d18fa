(** Property theorem C134: several goroutines using the TCG devices of one drive.
    [G0 ++ G1 ++ G2] is the whole run, in the order the calls of all goroutines took place (M_Exchange); goroutine [t] made the
    call under consideration when the run had reached [G0], and it returned within [G1]. *)
From Verif Require Import Base Spec_Tcg M_TcgToken M_Buffer M_TcgCommand M_TcgDevice M_TcgSession Spec_TcgCommand Spec_TcgClient
  Spec_TcgSession P_TcgDevice P_TcgSession P_TcgOnDrive M_Exchange Spec_Exchange P_Exchange.

(** [resp] is the drive's answer to the command that ends [P], found after [n] other receives. *)
Definition answers (E : env) (reply : gtrace -> nat -> option err * bytes) (P : gtrace) (n : nat) (resp : response) : Prop :=
  exists b, reply P n = (None, b) /\ exec_result (e_heap E) (received b) (Ok (Some resp, None)).

Definition own_send (t : nat) (com : N) (cmd : bytes) : nat * ev := (t, EvSec true false 1 com cmd 5).

Lemma receives_rounds com k : receives (rounds 1 com k) = k.
Proof. induction k as [|k IH]; [reflexivity|]. rewrite rounds_succ. cbn. now rewrite IH. Qed.
Lemma filter_rounds com k : List.length (filter (receives_on com) (rounds 1 com k)) = k.
Proof. induction k as [|k IH]; [reflexivity|]. rewrite rounds_succ, filter_app, app_length, IH. unfold round. cbn [filter receives_on]. rewrite !N.eqb_refl. reflexivity. Qed.
Lemma receives_app a b : receives (a ++ b) = (receives a + receives b)%nat.
Proof. induction a as [|x a IH]; [reflexivity|]. destruct x as [| |[] ? ? ? ? ?]; cbn; rewrite IH; reflexivity. Qed.

Lemma exec_head V d c com h h' resp : env_ok V -> is_any_ssc d = true -> get_base_com_id d = Ok com ->
  exec V d c 1 h = (h', Ok (Some resp, None)) -> exists tl, h' = h ++ EvNow :: tl.
Proof.
  intros HV Hs Hc H. destruct (c19 V d c 1 com h h' _ HV Hs Hc H) as [A B]. cbv zeta in A, B.
  set (h1 := h ++ [EvNow; EvSec true false 1 com (cmd_slice c) 5]) in *.
  destruct (fst (e_sec V h1)) as [e|] eqn:Ee; [destruct (A e eq_refl) as [_ X]; discriminate|].
  destruct (B eq_refl) as [(X & _)|(k & _ & -> & _)]; [discriminate|]. unfold h1. rewrite <- app_assoc. cbn [app]. eauto.
Qed.

Lemma own_answer : forall W E t d c com G0 G1 G2 resp reply,
  world_ok W -> env_ok E -> is_any_ssc d = true -> get_base_com_id d = Ok com -> mailbox W com reply ->
  left_alone t com G1 ->
  exec (view W E (G0 ++ G1 ++ G2) t) d c 1 (own t G0) = (own t (G0 ++ G1), Ok (Some resp, None)) ->
  let cmd := cmd_slice c in
  exists M R n, G1 = M ++ own_send t com cmd :: R /\ answers E reply (G0 ++ M ++ [own_send t com cmd]) n resp
  /\ (undisturbed t com G1 -> receives (own t G1) = S n).
Proof.
  intros W E t d c com G0 G1 G2 resp reply HW HE Hs Hc HM HL H cmd.
  destruct (exchange _ _ _ _ _ _ _ _ _ _ _ HW HE Hs Hc HM HL H) as (M & R & b & E1 & OM & NS & R1 & R2 & ER & O2 & Rp & _ & Xr & k & OR).
  exists M, R, (receipts com R1). split; [exact E1|]. split; [exists b; split; [exact Rp|exact Xr]|]. intros U.
  rewrite E1, own_app, own_cons_same, OM, OR. cbn [app receives]. rewrite receives_rounds.
  rewrite (receipts_own t).
  2:{ intros u x Hi. apply U. rewrite E1, ER. apply in_or_app. right. right. apply in_or_app. now left. }
  assert (X : own t R = own t R1 ++ [EvSec false false 1 com (zeros 2048) 5]). { now rewrite ER, own_app, own_cons_same, O2. }
  rewrite OR in X. apply (f_equal (fun l => List.length (filter (receives_on com) l))) in X.
  rewrite filter_app, app_length, filter_rounds in X. cbn [filter receives_on] in X. rewrite !N.eqb_refl in X. cbn in X. lia.
Qed.

(** C134, Exec: as long as no other goroutine sends on the ComID before Exec is done, an answer it returns is the answer
    to its own command - and the first one not yet polled if nobody else receives either. *)
Theorem C134_own_answer : forall W E t d c com G0 G1 G2 resp reply,
  world_ok W -> env_ok E -> is_any_ssc d = true -> get_base_com_id d = Ok com -> mailbox W com reply ->
  left_alone t com G1 ->
  exec (view W E (G0 ++ G1 ++ G2) t) d c 1 (own t G0) = (own t (G0 ++ G1), Ok (Some resp, None)) ->
  let cmd := firstn (N.to_nat (get_cmd_size c)) (a_data c) in
  exists M R n, G1 = M ++ own_send t com cmd :: R /\ answers E reply (G0 ++ M ++ [own_send t com cmd]) n resp
  /\ (undisturbed t com G1 -> receives (own t G1) = S n).
Proof. exact own_answer. Qed.
Print Assumptions C134_own_answer.

(** C134, RevertTPer: nil means that the drive accepted this very Revert, in the session it opened for this very goroutine. *)
Theorem C134_revert : forall W E t d com pw isPsid isAdm G0 G1 G2 reply,
  world_ok W -> env_ok E -> is_any_ssc d = true -> get_base_com_id d = Ok com -> com < 2 ^ 16 -> wf pw -> mailbox W com reply ->
  left_alone t com G1 ->
  revert_tper (view W E (G0 ++ G1 ++ G2) t) d pw isPsid isAdm (own t G0) = (own t (G0 ++ G1), Ok tt) ->
  let uid := if isPsid then uid_PSID else uid_SID in
  let start := frame 0 0 com (start_payload uid_AdminSP (credential_of (e_pbkdf2 E) (get_serial d) isPsid pw) (uid8 uid)) in
  exists M1 M2 M3 n1 n2 opened reverted t4 t5 hv tv,
    G1 = M1 ++ own_send t com start :: M2 ++ own_send t com (frame hv tv com revert_payload) :: M3
    /\ answers E reply (G0 ++ M1 ++ [own_send t com start]) n1 opened /\ accepted opened
    /\ nth_error (r_tokens opened) 4 = Some t4 /\ nth_error (r_tokens opened) 5 = Some t5
    /\ unsigned_value t4 = Some hv /\ unsigned_value t5 = Some tv
    /\ answers E reply (G0 ++ M1 ++ own_send t com start :: M2 ++ [own_send t com (frame hv tv com revert_payload)]) n2 reverted
    /\ accepted reverted.
Proof.
  intros W E t d com pw isPsid isAdm G0 G1 G2 reply HW HE Hs Hc Hc16 Wp HM HL H uid start.
  set (V := view W E (G0 ++ G1 ++ G2) t) in *. assert (HV : env_ok V) by now apply view_ok.
  destruct (c29 V d com pw isPsid isAdm _ _ _ HV Hs Hc Hc16 Wp H) as (s1 & h1 & r1 & Est & (t1 & Eh1 & St1) & N1 & O1).
  fold uid in Est, St1. change (e_pbkdf2 V) with (e_pbkdf2 E) in St1. fold start in St1.
  assert (r1 = Ok tt) as ->. { destruct r1 as [[]|e| |]; [reflexivity| | |]; destruct N1 as [_ X]; discriminate. }
  destruct (O1 eq_refl) as (hv' & tv' & t2 & c2 & Nu' & Eh2 & St2 & Ec2 & [X _]). destruct (X eq_refl) as (resp2 & Ex2 & Ac2). clear X N1 O1.
  set (s0 := set_no_hash_password new_session isPsid) in *.
  destruct (start_numbers V d s0 _ pw _ com _ s1 h1 HV Hs Hc Est) as (resp1 & t4 & t5 & hv & tv & Sd & T4 & T5 & U4 & U5 & Nu & _).
  apply (c22 V d s0 _ com _ h1 _ HV Hc) in Sd as (resp1' & [= <-] & Ex1 & Ac1).
  assert (Ef2 : cmd_slice c2 = frame hv tv com revert_payload).
  { rewrite Ec2, <- (revert_framed s1 hv tv com Nu Hc16). symmetry. now apply revert_framed. }
  assert (Wu : wf uid /\ List.length uid = 8%nat).
  { unfold uid. destruct isPsid; (split; [wf_lit|reflexivity]). }
  destruct (authority_ok (AUid uid) Wu) as [Wa La].
  assert (Ef1 : cmd_slice (stamp s0 com (start_command V d s0 uid_AdminSP pw (authority_bytes (AUid uid)))) = start).
  { unfold start. rewrite (start_framed V d s0 uid_AdminSP pw _ 0 0 com HV Hs); auto; [split; reflexivity|wf_lit]. }
  (* where the run was when the session had been opened *)
  destruct (exec_head V d c2 com h1 _ resp2 HV Hs Hc Ex2) as (tl & Et).
  destruct (own_split _ _ _ _ _ Et) as (P & R & EP & OP & _).
  assert (Ls : (List.length (own t G0) < List.length (own t P))%nat).
  { rewrite OP, Eh1, app_length. destruct t1; [discriminate|]. cbn. lia. }
  destruct (prefix_own t G0 G1 P _ EP Ls) as (GA & -> & E1). set (GB := (t, EvNow) :: R) in *.
  assert (LA : left_alone t com GA) by (intros u x Hi; apply HL; rewrite E1; apply in_or_app; now left).
  assert (LB : left_alone t com GB) by (intros u x Hi; apply HL; rewrite E1; apply in_or_app; now right).
  assert (Ex1' : exec (view W E (G0 ++ GA ++ (GB ++ G2)) t) d (stamp s0 com (start_command V d s0 uid_AdminSP pw (authority_bytes (AUid uid)))) 1 (own t G0)
            = (own t (G0 ++ GA), Ok (Some resp1, None))).
  { rewrite OP. replace (GA ++ GB ++ G2) with (G1 ++ G2) by (rewrite E1, <- app_assoc; reflexivity). exact Ex1. }
  assert (Ex2' : exec (view W E ((G0 ++ GA) ++ GB ++ G2) t) d c2 1 (own t (G0 ++ GA)) = (own t ((G0 ++ GA) ++ GB), Ok (Some resp2, None))).
  { rewrite OP. replace ((G0 ++ GA) ++ GB ++ G2) with (G0 ++ G1 ++ G2) by (rewrite E1, <- !app_assoc; reflexivity).
    replace ((G0 ++ GA) ++ GB) with (G0 ++ G1) by (rewrite E1, <- app_assoc; reflexivity). exact Ex2. }
  destruct (own_answer _ _ _ _ _ _ _ _ _ _ _ HW HE Hs Hc HM LA Ex1') as (M1 & R1 & n1 & EA & An1 & _).
  destruct (own_answer _ _ _ _ _ _ _ _ _ _ _ HW HE Hs Hc HM LB Ex2') as (M2 & R2 & n2 & EB & An2 & _).
  rewrite Ef1 in EA, An1. rewrite Ef2 in EB, An2.
  exists M1, (R1 ++ M2), R2, n1, n2, resp1, resp2, t4, t5, hv, tv.
  split. { rewrite E1, EA, EB. repeat (rewrite <- ?app_assoc; cbn [app]). reflexivity. }
  repeat (split; [assumption|]). split; [|exact Ac2]. rewrite EA in An2.
  replace (G0 ++ M1 ++ own_send t com start :: (R1 ++ M2) ++ [own_send t com (frame hv tv com revert_payload)])
    with ((G0 ++ M1 ++ own_send t com start :: R1) ++ M2 ++ [own_send t com (frame hv tv com revert_payload)]).
  2:{ repeat (rewrite <- ?app_assoc; cbn [app]). reflexivity. }
  exact An2.
Qed.
Print Assumptions C134_revert.

(** C134, GetDefaultPassword: the text is what the drive answered to this very Get, in the session it opened for this very goroutine. *)
Theorem C134_default_password : forall W E t d com text G0 G1 G2 reply,
  world_ok W -> env_ok E -> is_any_ssc d = true -> get_base_com_id d = Ok com -> com < 2 ^ 16 -> mailbox W com reply ->
  left_alone t com G1 ->
  get_default_password (view W E (G0 ++ G1 ++ G2) t) d (own t G0) = (own t (G0 ++ G1), Ok text) ->
  let start := frame 0 0 com (start_payload uid_AdminSP None []) in
  let get := get_payload (uid8 uid_C_PIN_MSID) 3 3 in
  exists M1 M2 M3 n1 n2 opened got t4 t5 hv tv,
    G1 = M1 ++ own_send t com start :: M2 ++ own_send t com (frame hv tv com get) :: M3
    /\ answers E reply (G0 ++ M1 ++ [own_send t com start]) n1 opened /\ accepted opened
    /\ nth_error (r_tokens opened) 4 = Some t4 /\ nth_error (r_tokens opened) 5 = Some t5
    /\ unsigned_value t4 = Some hv /\ unsigned_value t5 = Some tv
    /\ answers E reply (G0 ++ M1 ++ own_send t com start :: M2 ++ [own_send t com (frame hv tv com get)]) n2 got
    /\ accepted got /\ exists tok, nth_error (r_tokens got) 4 = Some tok /\ get_string tok = Ok text.
Proof.
  intros W E t d com text G0 G1 G2 reply HW HE Hs Hc Hc16 HM HL H start get.
  set (V := view W E (G0 ++ G1 ++ G2) t) in *. assert (HV : env_ok V) by now apply view_ok.
  destruct (c31 V d com _ _ _ HV Hs Hc Hc16 H) as (s1 & h1 & r1 & Est & (t1 & Eh1 & St1) & N1 & N2 & N3 & O1).
  fold start in St1.
  assert (r1 = Ok tt) as ->. { destruct r1 as [[]|e| |]; [reflexivity| | |]; [destruct (N1 _ eq_refl) as [_ X]|destruct N2 as [_ X]|destruct N3 as [_ X]]; try reflexivity; discriminate. }
  destruct (O1 eq_refl) as (hv' & tv' & t2 & c2 & Nu' & Eh2 & St2 & Ec2 & X). destruct (X text) as [X' _]. destruct (X' eq_refl) as (resp2 & tok & Ex2 & Ac2 & Tk & Gs). clear X X' N1 N2 N3 O1.
  set (s0 := new_session) in *.
  destruct (start_numbers V d s0 _ [] _ com _ s1 h1 HV Hs Hc Est) as (resp1 & t4 & t5 & hv & tv & Sd & T4 & T5 & U4 & U5 & Nu & _).
  apply (c22 V d s0 _ com _ h1 _ HV Hc) in Sd as (resp1' & [= <-] & Ex1 & Ac1).
  assert (Ef2 : cmd_slice c2 = frame hv tv com get).
  { rewrite Ec2. unfold get. rewrite <- (get_framed s1 hv tv com _ 3 3 Nu Hc16) by (try wf_lit; vm_compute; congruence). symmetry.
    apply get_framed; auto; try wf_lit; vm_compute; congruence. }
  assert (Ef1 : cmd_slice (stamp s0 com (start_command V d s0 uid_AdminSP [] (authority_bytes (AUid (repeat 255 8))))) = start).
  { unfold start. rewrite (start_framed V d s0 uid_AdminSP [] _ 0 0 com HV Hs); auto.
    - exact numbers_new.
    - wf_lit.
    - apply wf_nil.
    - wf_lit.
    - vm_compute. congruence. }
  (* where the run was when the session had been opened *)
  destruct (exec_head V d c2 com h1 _ resp2 HV Hs Hc Ex2) as (tl & Et).
  destruct (own_split _ _ _ _ _ Et) as (P & R & EP & OP & _).
  assert (Ls : (List.length (own t G0) < List.length (own t P))%nat).
  { rewrite OP, Eh1, app_length. destruct t1; [discriminate|]. cbn. lia. }
  destruct (prefix_own t G0 G1 P _ EP Ls) as (GA & -> & E1). set (GB := (t, EvNow) :: R) in *.
  assert (LA : left_alone t com GA) by (intros u x Hi; apply HL; rewrite E1; apply in_or_app; now left).
  assert (LB : left_alone t com GB) by (intros u x Hi; apply HL; rewrite E1; apply in_or_app; now right).
  assert (Ex1' : exec (view W E (G0 ++ GA ++ (GB ++ G2)) t) d (stamp s0 com (start_command V d s0 uid_AdminSP [] (authority_bytes (AUid (repeat 255 8))))) 1 (own t G0)
            = (own t (G0 ++ GA), Ok (Some resp1, None))).
  { rewrite OP. replace (GA ++ GB ++ G2) with (G1 ++ G2) by (rewrite E1, <- app_assoc; reflexivity). exact Ex1. }
  assert (Ex2' : exec (view W E ((G0 ++ GA) ++ GB ++ G2) t) d c2 1 (own t (G0 ++ GA)) = (own t ((G0 ++ GA) ++ GB), Ok (Some resp2, None))).
  { rewrite OP. replace ((G0 ++ GA) ++ GB ++ G2) with (G0 ++ G1 ++ G2) by (rewrite E1, <- !app_assoc; reflexivity).
    replace ((G0 ++ GA) ++ GB) with (G0 ++ G1) by (rewrite E1, <- app_assoc; reflexivity). exact Ex2. }
  destruct (own_answer _ _ _ _ _ _ _ _ _ _ _ HW HE Hs Hc HM LA Ex1') as (M1 & R1 & n1 & EA & An1 & _).
  destruct (own_answer _ _ _ _ _ _ _ _ _ _ _ HW HE Hs Hc HM LB Ex2') as (M2 & R2 & n2 & EB & An2 & _).
  rewrite Ef1 in EA, An1. rewrite Ef2 in EB, An2.
  exists M1, (R1 ++ M2), R2, n1, n2, resp1, resp2, t4, t5, hv, tv.
  split. { rewrite E1, EA, EB. repeat (rewrite <- ?app_assoc; cbn [app]). reflexivity. }
  repeat (split; [assumption|]). split; [|split; [exact Ac2|exists tok; auto]]. rewrite EA in An2.
  replace (G0 ++ M1 ++ own_send t com start :: (R1 ++ M2) ++ [own_send t com (frame hv tv com get)])
    with ((G0 ++ M1 ++ own_send t com start :: R1) ++ M2 ++ [own_send t com (frame hv tv com get)]).
  2:{ repeat (rewrite <- ?app_assoc; cbn [app]). reflexivity. }
  exact An2.
Qed.
Print Assumptions C134_default_password.
