(** Lemmas for C186. *)
From Verif Require Import Base M_NvmeLinux P_Sg P_DriveHandle Prop_Sg M_Buffer M_Ata M_TcgToken M_TcgCommand M_TcgDevice M_TcgSession M_DriveHandle M_Cdb M_SgDriver M_Strings M_TcgOnDrive M_WinPass M_WinNvme
  Spec_Tcg Spec_TcgCommand Spec_TcgClient Spec_TcgSession P_TcgDevice P_TcgSession P_TcgToken Spec_Sg Spec_WinPass P_WinPass P_WinNvme Spec_TcgOnDrive P_TcgOnDrive
  Prop_WinPass Prop_WinNvme Prop_WinDrive P_TcgOnWin M_TcgTables M_TcgProgram Spec_OneSession P_Challenge P_OneSession Prop_OneSession Spec_Deaf.

(** ---- empty packets ---- *)
Lemma nth_of {A} (l : list A) i d : nth i l d = match nth_error l i with Some x => x | None => d end.
Proof. revert i. induction l as [|x l IH]; intros [|i]; cbn; auto. Qed.
Lemma nth_first {A} (l : list A) n i d : (i < n)%nat -> nth i (firstn n l) d = nth i l d.
Proof. revert n i. induction l as [|x l IH]; intros [|n] [|i] H; cbn; auto; try lia. apply IH. lia. Qed.
Lemma nth_skip {A} (l : list A) n i d : nth i (skipn n l) d = nth (n + i) l d.
Proof. revert n. induction l as [|x l IH]; intros [|n]; cbn [skipn Nat.add nth]; auto. destruct i; reflexivity. Qed.
Lemma empty_zeros n : empty_packet (zeros n).
Proof. intros i _. unfold zeros. rewrite nth_of. destruct (nth_error (repeat 0 n) i) as [x|] eqn:E; [|reflexivity]. apply nth_error_In in E. now apply repeat_spec in E. Qed.
Lemma empty_delivered old new got : empty_packet old -> empty_packet new -> delivered old new got -> empty_packet got.
Proof.
  intros O N1 (L & A & B) i Hi. specialize (O i Hi). specialize (N1 i Hi). rewrite nth_of in *.
  destruct (Nat.lt_ge_cases i (List.length new)) as [H|H]; [|now rewrite (B i H)].
  destruct (Nat.lt_ge_cases i (List.length old)) as [H2|H2]; [now rewrite (A i H H2)|].
  replace (nth_error got i) with (@None N); [reflexivity|]. symmetry. apply nth_error_None. lia.
Qed.
Lemma empty_no_payload b : empty_packet b -> ~ has_payload (received b).
Proof.
  intros H (P & _). apply P. unfold be32_at. change off_cp_len with 16%nat.
  assert (Z : forall i, (16 <= i < 20)%nat -> nth i (received b) 0 = 0).
  { intros i Hi. unfold received. destruct (Nat.lt_ge_cases i (List.length (firstn 2048 b))) as [L|L].
    - rewrite app_nth1 by exact L. rewrite firstn_length in L. rewrite nth_first by lia. exact (H i Hi).
    - rewrite app_nth2 by exact L. unfold zeros. rewrite nth_of. destruct (nth_error (repeat 0 _) _) as [x|] eqn:E; [|reflexivity]. apply nth_error_In in E. now apply repeat_spec in E. }
  assert (L : List.length (received b) = 2048%nat).
  { unfold received, zeros. rewrite app_length, firstn_length, repeat_length. lia. }
  set (r := received b) in *. clearbody r.
  assert (Q : slice 16 4 r = zeros 4).
  { unfold slice. apply (nth_ext _ _ 0 0).
    - rewrite firstn_length, skipn_length, L. reflexivity.
    - intros n Hn. rewrite firstn_length, skipn_length, L in Hn. change (Nat.min 4 (2048 - 16)) with 4%nat in Hn.
      rewrite nth_first by exact Hn. rewrite nth_skip. rewrite (Z (16 + n)%nat) by lia. unfold zeros. destruct n as [|[|[|[|n]]]]; try reflexivity. lia. }
  rewrite Q. reflexivity.
Qed.

(** ---- the client over a drive that never sends a packet ---- *)
Definition ok_ev (com : N) (e : ev) : Prop :=
  match e with
  | EvSec rw dma pr c b s => pr = 1 /\ c = com /\ dma = false /\ s = 5 /\ (if rw then block b else b = zeros 2048)
  | _ => True
  end.
Definition ok_hist (com : N) : hist -> Prop := Forall (ok_ev com).
Definition mute (com : N) (E : env) : Prop :=
  forall t b, ok_hist com t -> e_sec E (t ++ [EvSec false false 1 com (zeros 2048) 5]) = (None, b) -> empty_packet b.

Lemma ok_rounds com k : ok_hist com (rounds 1 com k).
Proof. unfold rounds. induction k as [|k IH]; cbn [repeat concat]; [constructor|]. apply Forall_app. split; [|exact IH]. repeat constructor. Qed.
Lemma rounds_last com k : rounds 1 com (S k) = (rounds 1 com k ++ [EvNow; EvSleep 25000000]) ++ [EvSec false false 1 com (zeros 2048) 5].
Proof.
  unfold rounds. replace (S k) with (k + 1)%nat by lia. rewrite repeat_app, concat_app. cbn [repeat concat]. rewrite app_nil_r, <- app_assoc. reflexivity.
Qed.
Lemma exec_mute com E d c h h' r : env_ok E -> mute com E -> is_any_ssc d = true -> get_base_com_id d = Ok com -> ok_hist com h -> block (cmd_slice c) ->
  exec E d c 1 h = (h', r) ->
  ok_hist com h' /\ ((exists o e, r = Ok (o, Some e)) \/ r = Fuel \/ exists resp, r = Ok (Some resp, None) /\ ~ has_payload (r_buf resp)).
Proof.
  intros HE M Hs Hc Oh Bc H. destruct (c19 E d c 1 com h h' r HE Hs Hc H) as [A B]. cbv zeta in *.
  set (b0 := EvSec true false 1 com (cmd_slice c) 5) in *.
  assert (O1 : ok_hist com (h ++ [EvNow; b0])) by (apply Forall_app; split; [exact Oh|]; repeat constructor; apply Bc).
  destruct (fst (e_sec E (h ++ [EvNow; b0]))) as [e|] eqn:Ee.
  { destruct (A e eq_refl) as [-> ->]. split; [exact O1|]. left. eauto. }
  destruct (B eq_refl) as [(-> & -> & P)|(k & K & -> & P & R)].
  { split; [apply Forall_app; split; [exact O1|apply ok_rounds]|]. auto. }
  split; [apply Forall_app; split; [exact O1|apply ok_rounds]|].
  destruct (answer E 1 com (h ++ [EvNow; b0]) (k - 1)) as [[x|] b] eqn:Ea; [left; eauto|].
  destruct R as [[_ R]|(_ & _ & R)]; [left; eauto|].
  destruct R as [(_ & all & _ & R)|(_ & R)]; [|left; eauto].
  right. right. eexists. split; [exact R|]. cbn [r_buf]. apply empty_no_payload.
  unfold answer in Ea. rewrite rounds_last, app_assoc in Ea. refine (M _ _ _ Ea).
  apply Forall_app. split; [exact O1|]. apply Forall_app. split; [apply ok_rounds|repeat constructor].
Qed.
Lemma send_mute com E d s c h h' r : env_ok E -> mute com E -> is_any_ssc d = true -> get_base_com_id d = Ok com -> ok_hist com h ->
  block (cmd_slice (stamp s com c)) -> send_command E d s c h = (h', r) ->
  ok_hist com h' /\ ((exists o e, r = Ok (o, Some e)) \/ r = Fuel).
Proof.
  intros HE M Hs Hc Oh Bc H. rewrite (send_unfold E d s c com h Hc) in H.
  destruct (exec E d (stamp s com c) 1 h) as [h1 r1] eqn:Ex.
  destruct (exec_mute com E d _ h h1 r1 HE M Hs Hc Oh Bc Ex) as (O1 & [(o & e & ->)|[-> |(resp & -> & N1)]]).
  - destruct o; injection H as <- <-; (split; [exact O1|]); left; eauto.
  - injection H as <- <-. auto.
  - injection H as <- <-. split; [exact O1|]. left. unfold check_response. rewrite has_payload_iff in N1.
    destruct (is_zero32 16 resp || is_zero32 40 resp || is_zero32 52 resp); [eauto|contradiction].
Qed.
Lemma frame_block hv tv com p : wf p -> block (frame hv tv com p).
Proof. intros W. split; [apply frame_length|now apply frame_wf]. Qed.

(** ---- one call, and programs of calls ---- *)
Lemma unsuccessful_ok r : unsuccessful r -> r <> Ok tt.
Proof. intros [(e & ->)| ->]; discriminate. Qed.
Lemma start_mute com E d s sp ch a h s' h' r : env_ok E -> mute com E -> is_any_ssc d = true -> get_base_com_id d = Ok com -> com < 2 ^ 16 -> some_numbers s ->
  wf sp -> List.length sp = 8%nat -> wf ch -> match a with AUid u => wf u /\ blen u <= 8 | ABuf b => wf b /\ blen b <= 50000 | ANil => True end ->
  ok_hist com h -> session_start E d s sp ch a h = (s', h', r) -> ok_hist com h' /\ unsuccessful r.
Proof.
  intros HE M Hs Hc Hc16 (hv & tv & Hn) Wsp Lsp Wch Wa Oh H. destruct (P_OneSession.authority_ok a Wa) as [Wau Lau].
  pose proof (start_framed E d s sp ch (authority_bytes a) hv tv com HE Hs Hn Hc16 Wsp Lsp Wch Wau Lau) as F.
  assert (B : block (cmd_slice (stamp s com (start_command E d s sp ch (authority_bytes a))))).
  { rewrite F. apply frame_block, start_payload_wf; auto. apply HE. }
  rewrite start_unfold in H by exact Hs.
  destruct (send_command E d s (start_command E d s sp ch (authority_bytes a)) h) as [h2 x] eqn:Es.
  destruct (send_mute com E d s _ h h2 x HE M Hs Hc Oh B Es) as (O2 & [(o & e & ->)| ->]).
  - destruct o; injection H as _ <- <-; (split; [exact O2|]); left; eauto.
  - injection H as _ <- <-. split; [exact O2|]. now right.
Qed.
Lemma step_mute com E d ss h c ss' h' r : env_ok E -> mute com E -> is_any_ssc d = true -> get_base_com_id d = Ok com -> com < 2 ^ 16 ->
  Forall some_numbers ss -> tcg_call c -> ok_hist com h -> tstep E d ss h c = (ss', h', r) ->
  ok_hist com h' /\ (needs_drive c -> unsuccessful r) /\ Forall some_numbers ss'.
Proof.
  intros HE M Hs Hc Hc16 Hss [L L2] Oh H.
  destruct c as [|i o|i table a b| |pw isPsid isAdm|t]; cbn [tstep library_call needs_drive] in *; [| | | | |contradiction].
  - injection H as <- <- <-. repeat split; auto; try contradiction. apply Forall_app. split; [exact Hss|]. constructor; [exact new_some|constructor].
  - destruct (nth_error ss i) as [s|] eqn:Ei.
    2: { injection H as <- <- <-. repeat split; auto. intros _. left. eauto. }
    pose proof (Forall_nth _ _ _ _ Hss Ei) as Hn. destruct (sstep E d (s, h) o) as [[s' h2] r2] eqn:Es. injection H as <- <- <-.
    destruct o as [sp ch a|au ch|x|b| |ms|]; cbn [sstep] in Es.
    + destruct L as (Wsp & Lsp & Wch & Wa).
      destruct (start_mute com E d s sp ch a h s' h2 r2 HE M Hs Hc Hc16 Hn Wsp Lsp Wch Wa Oh Es) as (O2 & U).
      repeat split; auto. apply Forall_replace; [exact Hss|]. exact (start_some_numbers E d s sp ch a h s' h2 r2 HE Hs Hn Es).
    + destruct L as (Wau & Lau & Wch). destruct (authenticate E d s au ch h) as [h3 r3] eqn:Ea. injection Es as <- <- <-.
      pose proof Hn as (hv & tv & Hv). pose proof (auth_framed E d s ch au hv tv com HE Hs Hv Hc16 Wch Wau Lau) as F.
      assert (B : block (cmd_slice (stamp s com (authenticate_command E d s au ch)))).
      { rewrite F. apply frame_block. unfold authenticate_payload. apply method_call_wf; [unfold uid8; wf_lit|wf_lit|]. apply wf_app. split; [exact Wau|].
        destruct (credential_of (e_pbkdf2 E) (get_serial d) (s_nohash s) ch) as [cr|] eqn:Ec; [|apply wf_nil].
        assert (Wc : wf cr) by (eapply credential_of_wf; [apply HE|exact Wch|exact Ec]).
        rewrite !wf_app. repeat split; [wf_lit|now apply credential_atom_wf|wf_lit]. }
      unfold authenticate in Ea.
      destruct (send_command E d s (authenticate_command E d s au ch) h) as [h4 x] eqn:Ex.
      destruct (send_mute com E d s _ h h4 x HE M Hs Hc Oh B Ex) as (O2 & [(o & e & ->)| ->]).
      * destruct o; injection Ea as <- <-; (split; [exact O2|]); (split; [intros _; left; eauto|]); apply Forall_replace; auto.
      * injection Ea as <- <-. split; [exact O2|]. split; [intros _; now right|]. apply Forall_replace; auto.
    + contradiction.
    + injection Es as <- <- <-. repeat split; auto; try contradiction. apply Forall_replace; [exact Hss|]. now apply set_no_hash_some.
    + injection Es as <- <- <-. repeat split; auto; try contradiction. apply Forall_replace; [exact Hss|exact Hn].
    + injection Es as <- <- <-. repeat split; auto; try contradiction. apply Forall_replace; [exact Hss|exact Hn].
    + unfold session_close in Es. destruct (s_autoclose s && s_opened s); injection Es as <- <- <-; repeat split; auto; try contradiction; apply Forall_replace; assumption.
  - destruct (nth_error ss i) as [s|] eqn:Ei.
    2: { injection H as <- <- <-. repeat split; auto. intros _. left. eauto. }
    destruct (Forall_nth _ _ _ _ Hss Ei) as (hv & tv & Hn). destruct L as ((u & -> & Wu & Lu) & La & Lb).
    destruct (device_get_table E d d s (uid8 u) a b h) as [h3 r3] eqn:Eg. injection H as <- <- <-.
    assert (X : device_get_table E d d s (uid8 u) a b h = send_command E d s (get_table_command (uid8 u) a b) h)
      by (unfold device_get_table; destruct (opal_kind d Hs) as [-> | ->]; reflexivity).
    rewrite X in Eg. assert (Wt : wf (uid8 u)) by (apply wf_cons; split; [reflexivity|exact Wu]).
    assert (Lt : blen (uid8 u) <= 50000) by (unfold blen, uid8; cbn [List.length]; rewrite Lu; vm_compute; discriminate).
    assert (B : block (cmd_slice (stamp s com (get_table_command (uid8 u) a b)))).
    { rewrite (get_framed s hv tv com (uid8 u) a b Hn Hc16 Wt Lt La Lb). apply frame_block. unfold get_payload. apply method_call_wf; [exact Wt|wf_lit|].
      assert (NA : forall v, v < 2 ^ 16 -> wf (encode (number_atom v))).
      { intros v Hv. apply wf_encode. unfold number_atom.
        destruct (N.ltb_spec v 64) as [l|l]; [exact l|]. destruct (N.ltb_spec v (2 ^ 8)); [|destruct (N.ltb_spec v (2 ^ 16)) as [q|q]; [|exfalso; apply (N.lt_irrefl v); eapply N.lt_le_trans; eassumption]].
        all: cbn [atom_ok]; split; [apply be_bytes_wf|]; unfold blen; rewrite be_bytes_length; lia. }
      pose proof (NA a La). pose proof (NA b Lb). repeat (apply wf_app; split); try assumption; wf_lit. }
    destruct (send_mute com E d s _ h h3 r3 HE M Hs Hc Oh B Eg) as (O2 & [(o & e & ->)| ->]); (split; [exact O2|]); (split; [|exact Hss]); intros _.
    + left. destruct o; cbn [only_err]; eauto.
    + now right.
  - destruct (get_default_password E d h) as [h2 r2] eqn:Ep. injection H as <- <- <-.
    destruct (c31 E d com h h2 r2 HE Hs Hc Hc16 Ep) as (s1 & h1 & r1 & E1 & _ & C1 & C2 & C3 & _).
    destruct (start_mute com E d new_session uid_AdminSP [] (AUid (repeat 255 8)) h s1 h1 r1 HE M Hs Hc Hc16 new_some admin_wf eq_refl wf_nil hexff_ok Oh E1) as (O2 & [(e & ->)| ->]).
    + destruct (C1 e eq_refl) as [-> ->]. repeat split; auto. intros _. left. cbn [result_of]. eauto.
    + destruct (C3 eq_refl) as [-> ->]. repeat split; auto. intros _. now right.
  - destruct (revert_tper E d pw isPsid isAdm h) as [h2 r2] eqn:Er. injection H as <- <- <-.
    destruct (c29 E d com pw isPsid isAdm h h2 r2 HE Hs Hc Hc16 L Er) as (s1 & h1 & r1 & E1 & _ & C1 & _).
    destruct (start_mute com E d _ uid_AdminSP pw (AUid (if isPsid then uid_PSID else uid_SID)) h s1 h1 r1 HE M Hs Hc Hc16
                (set_no_hash_some new_session isPsid new_some) admin_wf eq_refl L (psid_ok isPsid) Oh E1) as (O2 & U).
    destruct (C1 (unsuccessful_ok _ U)) as [-> ->]. repeat split; auto.
Qed.
Lemma run_mute com E d prog : forall ss h ss' h' rs, env_ok E -> mute com E -> is_any_ssc d = true -> get_base_com_id d = Ok com -> com < 2 ^ 16 ->
  Forall some_numbers ss -> Forall tcg_call prog -> ok_hist com h -> trun E d ss h prog = (ss', h', rs) ->
  ok_hist com h' /\ Forall2 (fun c r => needs_drive c -> unsuccessful r) prog rs.
Proof.
  induction prog as [|c prog IH]; intros ss h ss' h' rs HE M Hs Hc Hc16 Hss L Oh H; cbn [trun] in H.
  - injection H as <- <- <-. split; [exact Oh|constructor].
  - destruct (tstep E d ss h c) as [[ss1 h1] r] eqn:E1. destruct (trun E d ss1 h1 prog) as [[ss2 h2] rs2] eqn:E2. injection H as <- <- <-.
    inversion L as [|? ? Lc Lp]; subst.
    destruct (step_mute com E d ss h c ss1 h1 r HE M Hs Hc Hc16 Hss Lc Oh E1) as (O1 & U & S1).
    destruct (IH ss1 _ ss2 h2 rs2 HE M Hs Hc Hc16 S1 Lp O1 E2) as (O2 & F). split; [exact O2|]. constructor; assumption.
Qed.

(** ---- Windows ---- *)
Lemma first_all (b : bytes) n : blen b = N.of_nat n -> firstn n b = b.
Proof. intros H. apply firstn_all2. unfold blen in H. lia. Qed.
Lemma exchange_mute S k hd com cs h cdb data addr baddr secs h' e got :
  answers_only_packets S hd com k -> h = k ++ map WIo cs -> Forall (fun x => gives_zeros x \/ asks hd com x) cs ->
  is_security_cdb false 1 com (zeros 2048) cdb \/ is_trusted_cdb false false 1 com (zeros 2048) cdb ->
  blen data = 2048 -> empty_packet data -> scsi_exchange S h hd false cdb data addr baddr secs h' e got ->
  exists cs', h' = h ++ map WIo cs' /\ Forall (asks hd com) cs' /\ empty_packet got.
Proof.
  intros Q Eh Hcs Hcdb Ld Ed (c1 & rest & p1 & mid & Eh' & H1 & H2 & H3 & _ & R1 & _ & _ & _ & X). cbv zeta in X. cbn [negb andb orb] in X.
  destruct X as (_ & Dm & G1 & G2).
  assert (A1 : asks hd com c1).
  { split; [exact H1|]. left. split; [now left|]. exists cdb, secs. eexists. split; [exact Hcdb|]. rewrite (first_all (wc_in c1) 96 H3). rewrite <- Ld. exact R1. }
  assert (E1 : empty_packet (wa_mem (s_io S (h ++ [WIo c1])))).
  { pose proof (Q cs c1 Hcs A1) as Y. unfold data_of in Y. rewrite H2 in Y. change ((0x4d014 =? 0x4d014) || (0x4d014 =? 0x4d030)) with true in Y. cbv iota in Y.
    rewrite map_app, app_assoc, <- Eh in Y. exact Y. }
  assert (Em : empty_packet mid).
  { destruct (addr mod 512 =? 0); [exact (empty_delivered _ _ _ Ed E1 Dm)|]. rewrite Dm. exact Ed. }
  destruct (N.eq_dec (wa_err (s_io S (h ++ [WIo c1]))) 0) as [O|O].
  - destruct (G1 O) as (-> & _ & D). exists [c1]. split; [exact Eh'|]. split; [constructor; [exact A1|constructor]|].
    destruct (addr mod 512 =? 0); eapply empty_delivered; try exact D; auto using empty_zeros.
  - destruct (G2 O) as (c2 & -> & K1 & K2 & _ & _ & R2 & _ & _ & Y1 & Y2). exists [c1; c2].
    assert (A2 : asks hd com c2).
    { split; [exact K1|]. left. split; [now right|]. exists cdb, secs. eexists. split; [exact Hcdb|]. rewrite <- Ld. exact R2. }
    split; [exact Eh'|]. split; [constructor; [exact A1|]; constructor; [exact A2|constructor]|].
    assert (E2 : empty_packet (skipn 96 (wa_out (s_io S h')))).
    { pose proof (Q (cs ++ [c1]) c2 ltac:(apply Forall_app; split; [exact Hcs|]; constructor; [now right|constructor]) A2) as Y. unfold data_of in Y. rewrite K2 in Y.
      change ((0x4d004 =? 0x4d014) || (0x4d004 =? 0x4d030)) with false in Y. change (0x4d004 =? 0x4d004) with true in Y. cbv iota in Y.
      rewrite <- app_assoc, map_app, app_assoc, <- Eh in Y. cbn [map app] in Y. rewrite Eh'. exact Y. }
    destruct (N.eq_dec (wa_err (s_io S h')) 0) as [O2|O2].
    + destruct (Y1 O2) as (_ & D). exact (empty_delivered _ _ _ Em E2 D).
    + destruct (Y2 O2) as (_ & ->). exact Em.
Qed.
Lemma asked_task com : com < 2 ^ 16 -> let t := trusted_task false false 1 com (zeros 2048) in
  t_command t = 0x5C /\ tf_features t = 1 /\ tf_count t = 4 /\ tf_lba t = 2 ^ 8 * com.
Proof.
  intros Hc t. unfold tf_features, tf_count, tf_lba, low_lba, tf_is_lba48, t, trusted_task. cbn [t_lba48 t_lob t_command g_feat g_nsect g_lbal g_lbam g_lbah].
  change (negb (0 =? 0)) with false. cbv iota. split; [reflexivity|]. split; [reflexivity|]. split; [reflexivity|].
  pose proof (trusted_low com Hc) as T. rewrite N.add_0_r. cbn [N.add]. rewrite <- T. rewrite (N.mul_comm (2 ^ 8)), (N.mul_comm (2 ^ 16)). reflexivity.
Qed.
Lemma receive_mute S A d h0 p g k cs com g' e out :
  let V := win_drv S A d h0 in
  wd_kind d <> KNvmeWin -> over_win d p -> addr_ok A -> com < 2 ^ 16 -> answers_only_packets S (wd_handle d) com k ->
  win_replay S A d h0 g = k ++ map WIo cs -> Forall (fun x => gives_zeros x \/ asks (wd_handle d) com x) cs ->
  security_command V p g false false 1 com (zeros 2048) 5 = (g', (e, out)) ->
  exists cs', win_replay S A d h0 g' = win_replay S A d h0 g ++ map WIo cs' /\ Forall (asks (wd_handle d) com) cs' /\ empty_packet out.
Proof.
  intros V Hk Hp HA Hc Q Eh Hcs H.
  assert (B2 : blen (zeros 2048) = 2048) by reflexivity. assert (Ne : zeros 2048 <> []) by discriminate.
  destruct (wd_kind d) eqn:K; [congruence|..].
  1,2: destruct (C97_security_over_scsi S A d h0 p g false false 1 com (zeros 2048) 5 g' e out) as (k1 & e1 & mid & cdb1 & C1 & Ex & N1 & N2 & N3); auto; try reflexivity;
    destruct (exchange_mute S k (wd_handle d) com cs _ cdb1 (zeros 2048) _ _ _ k1 e1 mid Q Eh Hcs (or_introl C1) B2 (empty_zeros _) Ex) as (cs1 & Ek & F1 & Em);
    destruct e1 as [x|]; [|destruct (N1 eq_refl) as (-> & _ & ->); exists cs1; auto].
  - destruct (N2 ltac:(discriminate) K) as (-> & _ & ->). exists cs1. auto.
  - destruct (N3 ltac:(discriminate) K) as (cdb2 & C2 & Ex2).
    assert (Lm : blen mid = 2048) by (unfold blen; rewrite (exchange_len _ _ _ _ _ _ _ _ _ _ _ _ Ex); reflexivity).
    assert (Ek' : k1 = k ++ map WIo (cs ++ cs1)) by (rewrite Ek, Eh, map_app, app_assoc; reflexivity).
    assert (Hcs' : Forall (fun x => gives_zeros x \/ asks (wd_handle d) com x) (cs ++ cs1)).
    { apply Forall_app. split; [exact Hcs|]. eapply Forall_impl; [|exact F1]. cbn beta. auto. }
    destruct (exchange_mute S k (wd_handle d) com (cs ++ cs1) _ cdb2 mid _ _ _ _ e out Q Ek' Hcs' (or_intror C2) Lm Em Ex2) as (cs2 & Ea & F2 & Eo).
    exists (cs1 ++ cs2). rewrite map_app, app_assoc, <- Ek. split; [exact Ea|]. split; [now apply Forall_app|exact Eo].
  - set (before := win_replay S A d h0 g) in *.
    unfold security_command in H. unfold over_win in Hp. rewrite Hp, K in H. cbv zeta in H. cbn [win_dtype is_ata is_nvme] in H.
    set (sec := CSec false false 1 com (zeros 2048) 5) in *.
    assert (X1 : win_exec S A d before sec = (before, Ok (Some not_supported, zeros 2048))) by (unfold win_exec, sec; rewrite K; reflexivity).
    assert (E1 : v_io V (g ++ [sec]) = (Some not_supported, zeros 2048)) by (unfold V; rewrite win_drv_io; fold before; rewrite X1; reflexivity).
    assert (R1 : win_replay S A d h0 (g ++ [sec]) = before) by (rewrite win_replay_app; fold before; unfold sec; rewrite step_sec; fold sec; rewrite X1; reflexivity).
    rewrite E1, fill_same in H. rewrite (fallback_task false false 1 com (zeros 2048)) in H. set (t := trusted_task false false 1 com (zeros 2048)) in *.
    assert (Z : win_exec S A d before (CTask false false t (zeros 2048) 5) = win_ata S before (wd_handle d) false false t (zeros 2048) (ad_data A before) (ad_bounce A before) (Z.of_N 5))
      by (unfold win_exec; rewrite K; reflexivity).
    destruct (win_ata S before (wd_handle d) false false t (zeros 2048) (ad_data A before) (ad_bounce A before) (Z.of_N 5)) as [k2 r2] eqn:E2.
    pose proof (trusted_wf false false 1 com (zeros 2048) eq_refl) as Wt. fold t in Wt. destruct (HA before) as [Ha1 Ha2].
    destruct (C85_ata_panics _ _ _ _ _ _ _ _ _ _ _ _ Wt E2) as [_ Y]. destruct (Y Ne) as (e2 & got & -> & Lg).
    destruct (C85_ata_requests _ _ _ _ _ _ _ _ _ _ _ _ Wt Ha1 Ha2 Ne E2) as (c1 & rest & Hk2 & H1 & H2 & H3 & _ & H4 & _ & _ & _ & _ & F1 & F2). cbv zeta in F1, F2.
    destruct (C86_ata_reads _ _ _ _ _ _ _ _ _ _ _ Wt Ne E2) as (e3 & got3 & c1' & rest' & mid & Eo & Hk2' & Dm & G1 & G2). injection Eo as <- <-.
    rewrite Hk2 in Hk2'. apply app_inv_head in Hk2'. injection Hk2' as <- <-. cbv zeta in G1, G2.
    assert (V2 : v_io V ((g ++ [sec]) ++ [CTask false false t (zeros 2048) 5]) = (e2, got)) by (unfold V; rewrite win_drv_io, R1, Z; reflexivity).
    rewrite V2, (fill_whole (zeros 2048) got) in H by (symmetry; exact Lg). apply pair_equal_spec in H as [Hh H]. apply pair_equal_spec in H as [<- <-].
    assert (Af : win_replay S A d h0 g' = k2) by (rewrite <- Hh, win_replay_app, R1, step_task, Z; reflexivity). rewrite Af.
    assert (Tr : t_command t = 0x5C /\ tf_features t = 1 /\ tf_count t = 4 /\ tf_lba t = 2 ^ 8 * com).
    { exact (asked_task com Hc). }
    assert (A1 : asks (wd_handle d) com c1).
    { split; [exact H1|]. right. split; [now left|]. exists t. eexists. destruct Tr as (T1 & T2 & T3 & T4). repeat (split; [eassumption|]). rewrite (first_all (wc_in c1) 48 H3). exact H4. }
    assert (Em1 : empty_packet (wa_mem (s_io S (before ++ [WIo c1])))).
    { pose proof (Q cs c1 Hcs A1) as W. unfold data_of in W. rewrite H2 in W. change ((0x4d030 =? 0x4d014) || (0x4d030 =? 0x4d030)) with true in W. cbv iota in W.
      rewrite map_app, app_assoc, <- Eh in W. exact W. }
    assert (Em : empty_packet mid).
    { destruct (ad_data A before mod 512 =? 0); [exact (empty_delivered _ _ _ (empty_zeros _) Em1 Dm)|]. rewrite Dm. apply empty_zeros. }
    destruct (N.eq_dec (wa_err (s_io S (before ++ [WIo c1]))) 0) as [O|O].
    + exists [c1]. rewrite (F1 O) in Hk2. split; [exact Hk2|]. split; [constructor; [exact A1|constructor]|].
      pose proof (G1 O) as D. destruct (ad_data A before mod 512 =? 0); exact (empty_delivered _ _ _ (empty_zeros _) Em1 D).
    + destruct (F2 O) as (c2 & p1 & -> & K1 & K2 & _ & _ & _ & R2 & _). destruct (G2 O) as (c2' & Ec & _ & Y1 & Y2). injection Ec as <-. exists [c1; c2].
      assert (A2 : asks (wd_handle d) com c2).
      { split; [exact K1|]. right. split; [now right|]. exists t. eexists. destruct Tr as (T1 & T2 & T3 & T4). repeat (split; [eassumption|]). exact R2. }
      split; [exact Hk2|]. split; [constructor; [exact A1|]; constructor; [exact A2|constructor]|].
      assert (E4 : empty_packet (skipn 48 (wa_out (s_io S k2)))).
      { pose proof (Q (cs ++ [c1]) c2 ltac:(apply Forall_app; split; [exact Hcs|]; constructor; [now right|constructor]) A2) as W. unfold data_of in W. rewrite K2 in W.
        change ((0x4d02c =? 0x4d014) || (0x4d02c =? 0x4d030)) with false in W. change (0x4d02c =? 0x4d004) with false in W. cbv iota in W.
        rewrite <- app_assoc, map_app, app_assoc, <- Eh in W. cbn [map app] in W. rewrite Hk2. exact W. }
      destruct (N.eq_dec (wa_err (s_io S k2)) 0) as [O2|O2].
      * exact (empty_delivered _ _ _ Em E4 (Y1 O2)).
      * rewrite (Y2 O2). exact Em.
Qed.
Lemma ok_typed com t : com < 2 ^ 16 -> ok_hist com t -> Forall typed (commands t).
Proof.
  intros Hc F. induction F as [|e t H _ IH]; [constructor|]. destruct e as [| |rw dma pr c b s]; cbn [commands]; auto. constructor; [|exact IH].
  unfold typed. cbn [x_protocol x_comid x_data].
  assert (X : pr = 1 /\ c = com /\ (block b \/ b = zeros 2048)).
  { destruct H as (-> & -> & _ & _ & H). destruct rw; auto. }
  destruct X as (-> & -> & [(L & W)| ->]); (split; [reflexivity|]); (split; [exact Hc|]).
  - split; [exact W|]. unfold blen. rewrite L. reflexivity.
  - split; [apply wf_zeros|]. reflexivity.
Qed.
Lemma replay_mute S A d h0 p g com t :
  let V := win_drv S A d h0 in
  wd_kind d <> KNvmeWin -> over_win d p -> addr_ok A -> com < 2 ^ 16 -> answers_only_packets S (wd_handle d) com (win_replay S A d h0 g) -> ok_hist com t ->
  exists cs, win_replay S A d h0 (driver_calls V p g t) = win_replay S A d h0 g ++ map WIo cs /\ Forall (fun x => gives_zeros x \/ asks (wd_handle d) com x) cs.
Proof.
  intros V Hk Hp HA Hc Q. induction t as [|e t IH] using rev_ind; intros F.
  { exists []. rewrite app_nil_r. split; [reflexivity|constructor]. }
  apply Forall_app in F as [F Fe]. inversion Fe as [|? ? He _]; subst. destruct (IH F) as (cs & Eh & Hcs). rewrite driver_calls_app.
  destruct e as [| |rw dma pr c b s]; try (exists cs; split; assumption).
  change (driver_calls V p (driver_calls V p g t) [EvSec rw dma pr c b s]) with (fst (security_command V p (driver_calls V p g t) rw dma pr c b s)).
  destruct He as (-> & -> & -> & -> & X).
  destruct (security_command V p (driver_calls V p g t) rw false 1 com b 5) as [g' [e out]] eqn:Es. cbn [fst]. destruct rw.
  - destruct X as (L & W). assert (Ne : b <> []) by (intros ->; discriminate L).
    destruct (C98_sends_zeros_refuted S A d h0 p _ false 1 com b 5 g' e out Hk Hp HA eq_refl Hc ltac:(unfold blen; rewrite L; reflexivity) Ne Es) as ((cs' & R & _ & Fz) & _).
    fold V in R. exists (cs ++ cs'). rewrite R, Eh, map_app, app_assoc. split; [reflexivity|]. apply Forall_app. split; [exact Hcs|].
    eapply Forall_impl; [|exact Fz]. cbn beta. intros x Hx. left. eexists. exact Hx.
  - subst b. destruct (receive_mute S A d h0 p _ _ cs com g' e out Hk Hp HA Hc Q Eh Hcs Es) as (cs' & R & Fz & _).
    fold V in R. exists (cs ++ cs'). rewrite R, Eh, map_app, app_assoc. split; [reflexivity|]. apply Forall_app. split; [exact Hcs|].
    eapply Forall_impl; [|exact Fz]. cbn beta. auto.
Qed.
Lemma win_mute S A d h0 p g clock kdf heap fuel com :
  wd_kind d <> KNvmeWin -> over_win d p -> addr_ok A -> com < 2 ^ 16 -> answers_only_packets S (wd_handle d) com (win_replay S A d h0 g) ->
  mute com (drive_env (win_drv S A d h0) p g clock kdf heap fuel).
Proof.
  intros Hk Hp HA Hc Q t b F H.
  assert (F2 : ok_hist com (t ++ [EvSec false false 1 com (zeros 2048) 5])) by (apply Forall_app; split; [exact F|]; constructor; [cbn; auto|constructor]).
  rewrite (drive_env_sec _ p g clock kdf heap fuel t false false 1 com (zeros 2048) 5 (ok_typed com _ Hc F2)) in H.
  destruct (replay_mute S A d h0 p g com t Hk Hp HA Hc Q F) as (cs & Eh & Hcs).
  destruct (security_command (win_drv S A d h0) p (driver_calls (win_drv S A d h0) p g t) false false 1 com (zeros 2048) 5) as [g' [e out]] eqn:Es. cbn [snd] in H. injection H as -> ->.
  destruct (receive_mute S A d h0 p _ _ cs com g' None b Hk Hp HA Hc Q Eh Hcs Es) as (_ & _ & _ & X). exact X.
Qed.
