(** C185: reading table cells - OpalGetTable, any number of calls on one session - from a drive that answers by the book. Also on a Linux NVMe and a Linux SATA drive. *)
From Coq Require Import Lia.
From Verif Require Import Base Spec_Tcg M_TcgToken M_Buffer M_TcgCommand M_TcgDevice M_TcgSession Spec_TcgCommand Spec_TcgClient Spec_TcgSession
  P_TcgToken P_TcgProps P_TcgDevice P_TcgSession Prop_Tcg Prop_TcgSession Spec_Conform P_Conform Spec_Challenge P_Challenge Prop_Challenge Prop_Conform Spec_TableConform.

Lemma cells_nth (cs : list cell) : forall i c rest, nth_error cs i = Some c ->
  nth_error (map encode (concat (map cell_atoms cs) ++ rest)) (1 + 4 * i) = Some (encode (c_name c))
  /\ nth_error (map encode (concat (map cell_atoms cs) ++ rest)) (2 + 4 * i) = Some (encode (c_value c)).
Proof.
  induction cs as [|c0 cs IH]; intros i c rest H; [destruct i; discriminate H|]. destruct i as [|i].
  - injection H as ->. split; reflexivity.
  - destruct (IH i c rest H) as [A B]. replace (1 + 4 * Datatypes.S i)%nat with (4 + (1 + 4 * i))%nat by lia. replace (2 + 4 * Datatypes.S i)%nat with (4 + (2 + 4 * i))%nat by lia.
    split; [exact A|exact B].
Qed.
Lemma cells_length (cs : list cell) : List.length (concat (map cell_atoms cs)) = (4 * List.length cs)%nat.
Proof. induction cs as [|c cs IH]; [reflexivity|]. cbn [map concat cell_atoms List.length app]. rewrite IH. lia. Qed.
Lemma encode_not_nil a : encode a <> [].
Proof. destruct a; discriminate. Qed.
Lemma unsigned_small a v : unsigned_atom a v ->
  (v < 2 ^ 64 -> get_uint64 (encode a) = Ok v) /\ (v < 2 ^ 32 -> get_uint32 (encode a) = Ok v) /\ (v < 2 ^ 8 -> get_uint8 (encode a) = Ok v).
Proof.
  intros U. pose proof (unsigned_value_atom a v U) as V. pose proof (wf_encode a (proj1 U)) as W. pose proof (encode_not_nil a) as Nn.
  split; [|split]; intros L.
  - rewrite (get_uint64_unsigned _ Nn W), V, N.mod_small by exact L. reflexivity.
  - rewrite (get_uint32_unsigned _ Nn W), V, N.mod_small by exact L. reflexivity.
  - rewrite (get_uint8_unsigned _ Nn W), V. change 256 with (2 ^ 8). rewrite N.mod_small by exact L. reflexivity.
Qed.
Lemma bytes_string a text : bytes_of a text -> get_string (encode a) = Ok text.
Proof. intros (Ok_ & Kb & Dt). rewrite (C09_string_of_atom a Ok_), <- Dt. destruct a; try reflexivity. cbn in Kb. destruct signed; discriminate Kb. Qed.

(** One read. *)
Theorem C185_one_read : forall E d s com hv tv h q r,
  env_ok E -> is_any_ssc d = true -> get_base_com_id d = Ok com -> com < 2 ^ 16 -> numbers s hv tv -> query_ok q -> reply_ok r ->
  replies E com (query_packet com hv tv q) h (reply_atoms r) ->
  exists k x, dev_opal_get_table E d s (uid8 (q_table q)) (q_first q) (q_last q) h = (h ++ exchange com (query_packet com hv tv q) k, x) /\ shows x r.
Proof.
  intros E d s com hv tv h q r HE Hs Hc Hc16 Hn (Wq & Lq & Bf & Bl) Hr R.
  assert (D : dev_opal_get_table E d s (uid8 (q_table q)) (q_first q) (q_last q) h = send_command E d s (get_table_command (uid8 (q_table q)) (q_first q) (q_last q)) h)
    by (unfold dev_opal_get_table; destruct (opal_kind d Hs) as [-> | ->]; reflexivity).
  rewrite D. destruct (uid8_ok _ Wq Lq) as [Wu Lu]. set (c := get_table_command _ _ _) in *.
  assert (F : cmd_slice (stamp s com c) = query_packet com hv tv q) by (apply get_framed; assumption). rewrite <- F in R.
  destruct (exec_replies E d _ com h _ HE Hs Hc R) as (t & resp & X & Tk & Pay).
  destruct (exec_cases E d _ com h _ _ HE Hs Hc X) as (k & t' & Et & Ht & _). apply app_inv_head in Et. subst t'. exists k.
  assert (Ek : h ++ exchange com (query_packet com hv tv q) k = h ++ t) by (unfold exchange; rewrite <- F, Ht; reflexivity). rewrite Ek.
  destruct r as [cs|st]; cbn [reply_ok reply_atoms shows] in *.
  - assert (Acc : accepted resp).
    { unfold row in Tk. replace ([Ctl 0xF0; Ctl 0xF0] ++ concat (map cell_atoms cs) ++ [Ctl 0xF1; Ctl 0xF1] ++ status_list 0)
        with (([Ctl 0xF0; Ctl 0xF0] ++ concat (map cell_atoms cs) ++ [Ctl 0xF1; Ctl 0xF1]) ++ status_list 0) in Tk by (rewrite <- !app_assoc; reflexivity).
      refine (accepted_tokens _ _ _ resp Tk Pay); [discriminate|intros d0 r0 Q; discriminate Q]. }
    exists (Ok (Some resp, None)). split. { apply (C22_success_means_accepted E d s _ com h (h ++ t) (Some resp) HE Hc). exists resp. auto. }
    exists resp. split; [reflexivity|]. split.
    { unfold get_token_count. rewrite Tk, map_length. unfold row. rewrite !app_length, cells_length. cbn [List.length status_list]. lia. }
    intros i ce Hi. destruct (cells_nth cs i ce ([Ctl 0xF1; Ctl 0xF1] ++ status_list 0) Hi) as [A B]. rewrite Forall_forall in Hr. destruct (Hr _ (nth_error_In _ _ Hi)) as [U1 _].
    exists (encode (c_name ce)), (encode (c_value ce)).
    split. { replace (3 + 4 * Z.of_nat i)%Z with (Z.of_nat (2 + (1 + 4 * i))) by lia. rewrite get_token_nat, Tk. f_equal. exact A. }
    split. { replace (4 + 4 * Z.of_nat i)%Z with (Z.of_nat (2 + (2 + 4 * i))) by lia. rewrite get_token_nat, Tk. f_equal. exact B. }
    split; [apply (unsigned_small _ _ U1)|]. split; [intros text; apply bytes_string|intros v; apply unsigned_small].
  - destruct Hr as [L1 L2]. destruct (tokens_status [Ctl 0xF0; Ctl 0xF1] st ltac:(discriminate) L2 ltac:(discriminate) resp Tk Pay) as (E1 & E2 & E3).
    destruct (C24_status_reported E d s c com h (h ++ t) resp [st] st HE Hc X Pay E2 E1 E3 ltac:(lia)) as [Sn _].
    eexists. split; [exact Sn|]. exists resp. reflexivity.
Qed.
Print Assumptions C185_one_read.

(** Any number of reads, refused ones among them: every call shows what the drive answered to it. *)
Theorem C185_reads : forall E d s com hv tv qs rs h,
  env_ok E -> is_any_ssc d = true -> get_base_com_id d = Ok com -> com < 2 ^ 16 -> numbers s hv tv -> Forall query_ok qs -> Forall reply_ok rs ->
  answers_reads E com hv tv h qs rs -> Forall2 shows (read_all E d s h qs) rs.
Proof.
  intros E d s com hv tv qs rs h HE Hs Hc Hc16 Hn Hq Hr A. induction A as [h|h q r qs rs R _ IH]; [constructor|].
  inversion Hq as [|? ? Q1 Q2]; subst. inversion Hr as [|? ? R1 R2]; subst.
  destruct (C185_one_read E d s com hv tv h q r HE Hs Hc Hc16 Hn Q1 R1 R) as (k & x & X & Sh). cbn [read_all]. rewrite X. constructor; [exact Sh|]. apply IH; assumption.
Qed.
Print Assumptions C185_reads.

(** From the beginning: a session opened as any authority, and then the reads. *)
Theorem C185_open_and_read : forall E d s sp ch who com h hv tv ah hv' at_ tv' more qs rs,
  env_ok E -> is_any_ssc d = true -> get_base_com_id d = Ok com -> com < 2 ^ 16 -> numbers s hv tv ->
  wf sp -> List.length sp = 8%nat -> wf ch -> wf who -> List.length who = 8%nat -> Forall query_ok qs -> Forall reply_ok rs ->
  let start := frame hv tv com (start_payload sp (credential_of (e_pbkdf2 E) (get_serial d) (s_nohash s) ch) (uid8 who)) in
  replies E com start h (sync_session ah at_ more) -> unsigned_atom ah hv' -> unsigned_atom at_ tv' ->
  (forall k, answers_reads E com hv' tv' (h ++ exchange com start k) qs rs) ->
  exists s' h', session_start E d s sp ch (AUid who) h = (s', h', Ok tt) /\ Forall2 shows (read_all E d s' h' qs) rs.
Proof.
  intros E d s sp ch who com h hv tv ah hv' at_ tv' more qs rs HE Hs Hc Hc16 Hn Wsp Lsp Wch Ww Lw Hq Hr start R Uh Ut A. destruct (uid8_ok who Ww Lw) as [Wu Lu].
  destruct (C179_start E d s sp ch (AUid who) com h hv tv ah hv' at_ tv' more HE Hs Hc Hc16 Hn Wsp Lsp Wch Wu Lu R Uh Ut) as (s' & t & St & Hn' & _ & k & Ek).
  exists s', (h ++ t). split; [exact St|]. apply (C185_reads E d s' com hv' tv' qs rs _ HE Hs Hc Hc16 Hn' Hq Hr). cbv zeta in Ek. rewrite Ek. apply A.
Qed.
Print Assumptions C185_open_and_read.
