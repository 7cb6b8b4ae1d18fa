(** Lemmas about tcg/command.go Complete, GetCmdSize, header setters, and the encode/decode loop-back. *)
From Verif Require Import Base Spec_Tcg Spec_Buffer M_TcgToken M_Buffer M_TcgCommand Spec_TcgCommand Spec_TcgClient P_TcgToken P_Buffer P_TcgCommand.

Lemma land3 n : N.land n 3 = n mod 4.
Proof. change 3 with (N.ones 2). now rewrite N.land_ones. Qed.

Lemma mod4_56 n : (56 + n) mod 4 = n mod 4.
Proof. replace (56 + n) with (n + 14 * 4) by lia. apply N.mod_add. lia. Qed.
Lemma pad4_done n : n mod 4 = 0 -> pad4 n - n = 0.
Proof. unfold pad4. intros H. lia. Qed.
Lemma pad4_step n : n mod 4 <> 0 -> pad4 n - n = 1 + (pad4 (n + 1) - (n + 1)).
Proof. unfold pad4. intros H. lia. Qed.
Lemma need_0 n : pad4 n - n = 0 -> n mod 4 = 0.
Proof. unfold pad4. intros H. lia. Qed.
Lemma need_3 n : pad4 n - n <= 3.
Proof. unfold pad4. lia. Qed.
Lemma pad4_le n : n <= pad4 n /\ pad4 n <= n + 3.
Proof. unfold pad4. lia. Qed.

Lemma PCAP4 : (N.of_nat PCAP) mod 4 = 0.
Proof. rewrite PCAP_val, N2Nat.id; reflexivity. Qed.
Lemma of_nat_56 n : N.of_nat (56 + n) = 56 + N.of_nat n.
Proof. lia. Qed.

Lemma pad_loop_holds : forall fuel c hdr pl, holds c hdr pl ->
  (N.to_nat (pad4 (blen pl) - blen pl) <= fuel)%nat ->
  exists c', pad_loop fuel c = (c', Ok tt)
    /\ holds c' hdr (pl ++ zeros (N.to_nat (pad4 (blen pl) - blen pl))) /\ a_rpos c' = a_rpos c.
Proof.
  induction fuel as [|f IH]; intros c hdr pl H Hf; cbn [pad_loop]; rewrite land3;
    assert (Hw : a_wpos c = (56 + List.length pl)%nat) by apply H; rewrite Hw;
    rewrite of_nat_56; fold (blen pl); rewrite mod4_56.
  - assert (E : pad4 (blen pl) - blen pl = 0) by (clear - Hf; lia).
    pose proof (need_0 _ E) as E'. rewrite E'. rewrite N.eqb_refl.
    exists c. split; [reflexivity|]. rewrite E.
    change (zeros (N.to_nat 0)) with (@nil N). rewrite app_nil_r. auto.
  - destruct (N.eqb_spec (blen pl mod 4) 0) as [E|E].
    + exists c. split; [reflexivity|]. rewrite (pad4_done _ E).
      change (zeros (N.to_nat 0)) with (@nil N). rewrite app_nil_r. auto.
    + destruct (write_byte_holds c hdr pl 0 H) as (A & B & C & _).
      pose proof (holds_le _ _ _ H) as Hle.
      assert (Hlt : (List.length pl < PCAP)%nat).
      { destruct (Nat.eq_dec (List.length pl) PCAP) as [X|X]; [|clear - X Hle; lia].
        exfalso. apply E. unfold blen. rewrite X. exact PCAP4. }
      specialize (C Hlt). destruct (write_byte c 0) as [c1 r1]. cbn [fst snd] in *. subst r1.
      rewrite firstn_all2 in A by (rewrite app_length; cbn [List.length]; clear - Hlt; lia).
      assert (EL : blen (pl ++ [0]) = blen pl + 1) by (rewrite blen_app; reflexivity).
      pose proof (pad4_step _ E) as ES.
      destruct (IH c1 hdr (pl ++ [0]) A) as (c2 & E2 & H2 & R2).
      { rewrite EL. clear - ES Hf. lia. }
      exists c2. split; [exact E2|]. split; [|congruence].
      rewrite <- app_assoc in H2. rewrite EL in H2. rewrite ES.
      rewrite N2Nat.inj_add. change (N.to_nat 1) with 1%nat. exact H2.
Qed.

Lemma sub32_small a b : b <= a -> a < 2 ^ 32 -> sub32 a b = a - b.
Proof.
  intros H H2. unfold sub32. rewrite (N.mod_small b) by lia. change (2 ^ 32) with 4294967296 in *. lia.
Qed.

Definition header_with_lengths (n : N) (hdr : bytes) : bytes :=
  put 16 (be_bytes 4 (pad4 n + 36)) (put 40 (be_bytes 4 (pad4 n + 12)) (put 52 (be_bytes 4 n) hdr)).

Lemma header_with_lengths_length n hdr : List.length hdr = 56%nat -> List.length (header_with_lengths n hdr) = 56%nat.
Proof.
  intros H. unfold header_with_lengths.
  assert (P3 : List.length (put 52 (be_bytes 4 n) hdr) = 56%nat) by (rewrite put_length; rewrite ?be_bytes_length; lia).
  assert (P2 : List.length (put 40 (be_bytes 4 (pad4 n + 12)) (put 52 (be_bytes 4 n) hdr)) = 56%nat)
    by (rewrite put_length; rewrite ?be_bytes_length; lia).
  rewrite put_length; rewrite ?be_bytes_length; lia.
Qed.

Definition trailer_of (eod : option bool) : bytes :=
  match eod with Some false => [] | _ => status_trailer end.

Lemma complete_holds_gen c hdr pl eod : holds c hdr pl ->
  (eod = Some false \/ (List.length pl < PCAP)%nat) ->
  let pl2 := firstn PCAP (pl ++ trailer_of eod) in
  exists c', complete c eod = (c', Ok tt) /\ a_wpos c' = 56%nat
    /\ a_data c' = header_with_lengths (blen pl2) hdr ++ pl2 ++ zeros (PCAP - List.length pl2)
    /\ a_limit c' = N.to_nat 61440 /\ a_cap c' = N.to_nat 61440.
Proof.
  intros H Hf pl2. unfold complete.
  assert (S1 : exists c1, (if match eod with Some b => b | None => true end
            then drop_val (buf_write c [u8 ENDOFDATA; u8 STARTLIST; 0; 0; 0; u8 ENDLIST]) else (c, Ok tt)) = (c1, Ok tt)
            /\ holds c1 hdr pl2).
  { pose proof (holds_le _ _ _ H) as Hle.
    assert (T : (List.length pl < PCAP)%nat -> exists c1, drop_val (buf_write c status_trailer) = (c1, Ok tt)
        /\ holds c1 hdr (firstn PCAP (pl ++ status_trailer))).
    { intros L. destruct (write_holds c hdr pl status_trailer H) as (A & B & C & _).
      destruct (C L ltac:(discriminate)) as [k E]. exists (fst (buf_write c status_trailer)). split; [|exact A].
      unfold drop_val. rewrite E. reflexivity. }
    destruct eod as [[|]|]; unfold trailer_of, pl2 in *.
    - apply T. destruct Hf as [Hf|Hf]; [discriminate|exact Hf].
    - exists c. split; [reflexivity|]. rewrite app_nil_r, firstn_all2; [exact H|exact Hle].
    - apply T. destruct Hf as [Hf|Hf]; [discriminate|exact Hf]. }
  destruct S1 as (c1 & E1 & H1). rewrite E1. clear E1.
  assert (HL : a_limit (reset_read c1) = N.to_nat 61440) by apply H1. rewrite HL.
  destruct (Nat.eqb_spec (N.to_nat 61440) 0); [lia|]. destruct (Nat.ltb_spec (N.to_nat 61440) 56); [lia|].
  set (c3 := set_rpos (reset_read c1) 56).
  assert (H3 : holds c3 hdr pl2) by exact H1.
  assert (Hh : slice 0 56 (a_data (reset_read c1)) = hdr).
  { destruct H1 as (Hh & _ & Hd & _). cbn [reset_read set_rpos a_data]. rewrite Hd.
    rewrite slice_app_l by lia. unfold slice. cbn [skipn]. apply firstn_all2. lia. }
  rewrite Hh.
  destruct (pad_loop_holds 3 c3 hdr pl2 H3) as (c4 & E4 & H4 & R4); [pose proof (need_3 (blen pl2)) as NN; clear - NN; lia|]. rewrite E4.
  assert (W3 : a_wpos c3 = (56 + List.length pl2)%nat) by apply H3.
  assert (W4 : N.of_nat (a_wpos c4) = 56 + pad4 (blen pl2)).
  { destruct H4 as (_ & _ & _ & W & _). rewrite W, app_length, zeros_length. unfold pad4, blen. lia. }
  pose proof (holds_le _ _ _ H4) as L4. rewrite app_length, zeros_length, PCAP_val in L4.
  assert (B4 : pad4 (blen pl2) <= 61384) by (unfold pad4, blen in *; lia).
  rewrite W3, W4.
  rewrite (N.mod_small (N.of_nat (56 + List.length pl2))) by (change (2 ^ 32) with 4294967296; unfold pad4, blen in *; lia).
  rewrite (N.mod_small (56 + pad4 (blen pl2))) by (change (2 ^ 32) with 4294967296; lia).
  rewrite (sub32_small (N.of_nat (56 + List.length pl2)) 56) by (change (2 ^ 32) with 4294967296; unfold pad4, blen in *; lia).
  rewrite (sub32_small (56 + pad4 (blen pl2)) 20) by (change (2 ^ 32) with 4294967296; lia).
  rewrite (sub32_small (56 + pad4 (blen pl2) - 20) 24) by (change (2 ^ 32) with 4294967296; lia).
  replace (N.of_nat (56 + List.length pl2) - 56) with (blen pl2) by (unfold blen; lia).
  replace (56 + pad4 (blen pl2) - 20 - 24) with (pad4 (blen pl2) + 12) by lia.
  replace (56 + pad4 (blen pl2) - 20) with (pad4 (blen pl2) + 36) by lia.
  fold (header_with_lengths (blen pl2) hdr).
  assert (Hhl : List.length (header_with_lengths (blen pl2) hdr) = 56%nat) by (apply header_with_lengths_length; apply H3).
  destruct (buf_write_spec (reset_write c4) (header_with_lengths (blen pl2) hdr)) as (_ & _ & W1).
  cbn [reset_write set_wpos a_wpos a_limit a_data a_rpos a_cap] in W1.
  assert (Lim4 : a_limit c4 = N.to_nat 61440) by apply H4. rewrite Lim4, Hhl in W1.
  replace (Nat.min (N.to_nat 61440 - 0) 56) with 56%nat in W1 by lia.
  destruct W1 as (c5 & E5 & D5 & P5 & R5 & L5 & C5); [lia|lia|].
  exists c5. unfold drop_val. rewrite E5. cbn [fst snd]. split; [reflexivity|].
  split; [exact P5|]. rewrite <- Hhl in D5 at 1. rewrite firstn_all in D5.
  destruct H4 as (Hhdr & _ & Hd4 & _ & _ & Hc4).
  split; [|split; [exact L5 | congruence]].
  rewrite D5, Hd4. rewrite <- app_assoc.
  pose proof (put_app_mid [] hdr (pl2 ++ zeros (N.to_nat (pad4 (blen pl2) - blen pl2)) ++
       zeros (payload_capacity - List.length (pl2 ++ zeros (N.to_nat (pad4 (blen pl2) - blen pl2)))))
       (header_with_lengths (blen pl2) hdr)) as P. cbn [app List.length] in P. rewrite P by congruence.
  f_equal. f_equal. rewrite <- zeros_app. f_equal. rewrite app_length, zeros_length. fold PCAP. rewrite PCAP_val. unfold blen in *. lia.
Qed.

Lemma slice_put_same' o d l n : List.length d = n -> (o + n <= List.length l)%nat -> slice o n (put o d l) = d.
Proof. intros <- H. now apply slice_put_same. Qed.

Lemma complete_holds c hdr pl eod : holds c hdr pl ->
  (List.length pl + List.length (trailer_of eod) <= PCAP)%nat ->
  let pl2 := pl ++ trailer_of eod in
  exists c', complete c eod = (c', Ok tt) /\ a_wpos c' = 56%nat
    /\ a_data c' = header_with_lengths (blen pl2) hdr ++ pl2 ++ zeros (PCAP - List.length pl2)
    /\ a_limit c' = N.to_nat 61440 /\ a_cap c' = N.to_nat 61440.
Proof.
  intros H Hf pl2. destruct (complete_holds_gen c hdr pl eod H) as (c' & X).
  - destruct eod as [[|]|]; cbn [trailer_of status_trailer List.length] in Hf; [right; lia|left; reflexivity|right; lia].
  - exists c'. rewrite firstn_all2 in X; [exact X|]. rewrite app_length. exact Hf.
Qed.

(** Payload area already full: writing the trailer fails. *)
Lemma complete_full c hdr pl : holds c hdr pl -> List.length pl = PCAP ->
  forall eod, eod <> Some false -> complete c eod = (c, Err EEOF).
Proof.
  intros H Hf eod He. unfold complete.
  destruct (write_holds c hdr pl status_trailer H) as (A & B & _ & D).
  assert (X : buf_write c status_trailer = (c, Err EEOF)).
  { destruct (buf_write_spec c status_trailer) as (_ & W & _). apply W.
    - destruct H as (_ & _ & _ & Hw & Hl & _). rewrite Hw, Hl, Hf, PCAP_val. lia.
    - destruct H as (_ & _ & _ & Hw & Hl & _). rewrite Hw, Hl, Hf, PCAP_val. lia. }
  change [u8 ENDOFDATA; u8 STARTLIST; 0; 0; 0; u8 ENDLIST] with status_trailer.
  unfold drop_val. rewrite X. cbn [fst snd].
  destruct eod as [[|]|]; [reflexivity|congruence|reflexivity].
Qed.

(** Fields of the completed header. *)
Lemma header_fields n hdr : List.length hdr = 56%nat -> n < 2 ^ 31 ->
  let h := header_with_lengths n hdr in
  be32_at off_sub_len h = n /\ be32_at off_pkt_len h = pad4 n + 12 /\ be32_at off_cp_len h = pad4 n + 12 + 24
  /\ slice 0 16 h = slice 0 16 hdr /\ slice 20 20 h = slice 20 20 hdr /\ slice 44 8 h = slice 44 8 hdr.
Proof.
  intros H Hn h. unfold h, header_with_lengths, be32_at, off_sub_len, off_pkt_len, off_cp_len.
  change (2 ^ 31) with 2147483648 in Hn.
  assert (Hp : pad4 n < 2147483652) by (unfold pad4; lia).
  set (e1 := be_bytes 4 (pad4 n + 36)). set (e2 := be_bytes 4 (pad4 n + 12)). set (e3 := be_bytes 4 n).
  assert (L1 : List.length e1 = 4%nat) by apply be_bytes_length.
  assert (L2 : List.length e2 = 4%nat) by apply be_bytes_length.
  assert (L3 : List.length e3 = 4%nat) by apply be_bytes_length.
  assert (P3 : List.length (put 52 e3 hdr) = 56%nat) by (rewrite put_length; lia).
  assert (P2 : List.length (put 40 e2 (put 52 e3 hdr)) = 56%nat) by (rewrite put_length; lia).
  repeat split.
  - rewrite slice_put_other by lia. rewrite slice_put_other by lia.
    rewrite (slice_put_same' _ _ _ _ L3) by lia. apply be_val_bytes_small. change (256 ^ N.of_nat 4) with 4294967296. lia.
  - rewrite slice_put_other by lia. rewrite (slice_put_same' _ _ _ _ L2) by lia. apply be_val_bytes_small. change (256 ^ N.of_nat 4) with 4294967296. lia.
  - rewrite (slice_put_same' _ _ _ _ L1) by lia.
    replace (pad4 n + 12 + 24) with (pad4 n + 36) by lia. apply be_val_bytes_small. change (256 ^ N.of_nat 4) with 4294967296. lia.
  - rewrite !slice_put_other by lia. reflexivity.
  - rewrite !slice_put_other by lia. reflexivity.
  - rewrite !slice_put_other by lia. reflexivity.
Qed.

Lemma header_wf n hdr : wf hdr -> wf (header_with_lengths n hdr).
Proof.
  intros H. unfold header_with_lengths.
  assert (P : forall o d l, wf d -> wf l -> wf (put o d l)).
  { intros o d l Hd Hl. unfold put. rewrite !wf_app. auto using wf_firstn, wf_skipn. }
  auto using be_bytes_wf.
Qed.

Lemma get_cmd_size_56 c : a_wpos c = 56%nat -> get_cmd_size c = 512.
Proof. intros H. unfold get_cmd_size. rewrite H. reflexivity. Qed.

(** ---- loop-back ---- *)
Lemma number_atom_ok v : v < 2 ^ 64 -> atom_ok (number_atom v).
Proof.
  intros H. unfold number_atom. destruct (N.ltb_spec v 64); [exact H0|].
  destruct (v <? 2 ^ 8); [split; [apply be_bytes_wf | unfold blen; rewrite be_bytes_length; cbn; lia]|].
  destruct (v <? 2 ^ 16); [split; [apply be_bytes_wf | unfold blen; rewrite be_bytes_length; cbn; lia]|].
  destruct (v <? 2 ^ 32); (split; [apply be_bytes_wf | unfold blen; rewrite be_bytes_length; cbn; lia]).
Qed.

Lemma number_atom_value v : v < 2 ^ 64 -> get_uint64 (encode (number_atom v)) = Ok v.
Proof.
  intros H.
  assert (G : forall k, (0 < k < 9)%nat -> v < 256 ^ N.of_nat k ->
     get_uint64 (encode (Short false false (be_bytes k v))) = Ok v).
  { intros k Hk Hv. cbn [encode b2n]. unfold blen. rewrite be_bytes_length.
    rewrite get_uint64_spec by (try apply be_bytes_wf; lia).
    destruct (N.ltb_spec (128 + 32 * 0 + 16 * 0 + N.of_nat k) 0x80); [lia|].
    destruct (N.ltb_spec (128 + 32 * 0 + 16 * 0 + N.of_nat k) 0xC0); [|lia].
    assert (T : N.testbit (128 + 32 * 0 + 16 * 0 + N.of_nat k) 4 = false).
    { rewrite N.testbit_eqb. apply N.eqb_neq. change (2 ^ 4) with 16. lia. }
    rewrite T, be_val_bytes_small by assumption. f_equal. now apply N.mod_small. }
  unfold number_atom.
  destruct (N.ltb_spec v 64) as [V|V].
  { cbn [encode b2n]. rewrite get_uint64_spec by (try apply wf_nil; lia).
    replace (64 * 0 + v) with v by lia.
    destruct (N.ltb_spec v 0x80); [|lia].
    assert (T : N.testbit v 6 = false) by (rewrite N.testbit_eqb; apply N.eqb_neq; change (2 ^ 6) with 64; lia).
    rewrite T. f_equal. lia. }
  destruct (N.ltb_spec v (2 ^ 8)); [apply G; [lia|cbn; lia]|].
  destruct (N.ltb_spec v (2 ^ 16)); [apply G; [lia|exact H1]|].
  destruct (N.ltb_spec v (2 ^ 32)); [apply G; [lia|exact H2]|].
  apply G; [lia|exact H].
Qed.

Lemma string_atom_ok t : wf t -> 1 <= blen t < 2048 -> atom_ok (string_atom t).
Proof.
  intros Hw [H1 H2]. unfold string_atom. destruct (N.ltb_spec (blen t) 16); split; assumption.
Qed.

Lemma string_atom_value t : wf t -> 1 <= blen t < 2048 ->
  get_string (encode (string_atom t)) = Ok t /\ get_bytes (encode (string_atom t)) = Ok t
  /\ tok_type (encode (string_atom t)) = Ok 0xe0.
Proof.
  intros Hw [H1 H2]. change (get_bytes (encode (string_atom t))) with (get_string (encode (string_atom t))).
  pose proof (lead_kind_encode (string_atom t) [] (string_atom_ok t Hw (conj H1 H2))) as (b & tl & E & Hb & K).
  rewrite app_nil_r in E.
  assert (Kk : lead_kind b = KBytes) by (rewrite K; unfold string_atom; destruct (blen t <? 16); reflexivity).
  rewrite E. rewrite get_string_spec, tok_type_spec by assumption.
  assert (N128 : (b <? 0x80) = false).
  { destruct (b <? 0x80) eqn:X; [|reflexivity]. unfold lead_kind in Kk. rewrite X in Kk. destruct (N.testbit b 6); discriminate. }
  rewrite N128, Kk.
  unfold string_atom in E. destruct (N.ltb_spec (blen t) 16) as [L|L]; cbn [encode b2n] in E; injection E as Eb Et; subst.
  - destruct (N.ltb_spec (128 + 32 * 1 + 16 * 0 + blen tl) 0xC0); [auto|lia].
  - destruct (N.ltb_spec (192 + 16 * 1 + 8 * 0 + blen t / 256) 0xC0); [lia|].
    destruct (N.ltb_spec (192 + 16 * 1 + 8 * 0 + blen t / 256) 0xE0); [auto|lia].
Qed.

Lemma uid_value u : wf u -> List.length u = 8%nat ->
  encode (Short true false u) = 0xA8 :: u /\ get_bytes (0xA8 :: u) = Ok u.
Proof.
  intros Hw Hl. split.
  - cbn [encode b2n]. unfold blen. rewrite Hl. reflexivity.
  - change (get_bytes (0xA8 :: u)) with (get_string (0xA8 :: u)); rewrite get_string_spec by lia. reflexivity.
Qed.

Lemma item_atom_ok i : item_ok i -> atom_ok (item_atom i).
Proof.
  destruct i as [t|u|m|v|s]; cbn [item_ok item_atom]; intros H.
  - cbn [atom_ok]. lia.
  - destruct H as [Hw Hl]. split; [assumption|]. unfold blen. rewrite Hl. lia.
  - destruct H as [Hw Hl]. split; [assumption|]. unfold blen. rewrite Hl. lia.
  - now apply number_atom_ok.
  - destruct H. now apply string_atom_ok.
Qed.

Lemma item_bytes i : item_ok i -> call_bytes (item_call i) = encode (item_atom i) /\ call_ok (item_call i).
Proof.
  destruct i as [t|u|m|v|s]; cbn [item_ok item_atom item_call call_bytes call_ok]; intros H.
  - split; [|exact I]. cbn [encode]. f_equal. unfold byte_of. lia.
  - destruct H as [Hw Hl]. split; [|auto]. symmetry. now apply uid_value.
  - destruct H as [Hw Hl]. split; [|auto]. symmetry. now apply uid_value.
  - auto.
  - destruct H as [Hw [H1 H2]]. split; [|assumption]. unfold string_bytes, string_atom.
    destruct (N.eqb_spec (blen s) 0); [lia|]. destruct (N.ltb_spec (blen s) 2048); [|lia].
    unfold string_header. destruct (N.ltb_spec (blen s) 16); cbn [encode b2n app]; f_equal; lia.
Qed.

Lemma item_decodes_encode i : item_ok i -> item_decodes i (encode (item_atom i)).
Proof.
  destruct i as [t|u|m|v|s]; cbn [item_ok item_atom item_decodes]; intros H.
  - cbn [encode]. split; [|reflexivity]. rewrite tok_type_spec by lia.
    destruct (N.ltb_spec t 0x80); [lia|]. unfold lead_kind.
    destruct (N.ltb_spec t 0x80); [lia|]. destruct (N.ltb_spec t 0xC0); [lia|].
    destruct (N.ltb_spec t 0xE0); [lia|]. destruct (N.ltb_spec t 0xF0); [lia|]. reflexivity.
  - destruct H as [Hw Hl]. destruct (uid_value u Hw Hl) as [E V]. rewrite E. split; [exact V|]. reflexivity.
  - destruct H as [Hw Hl]. destruct (uid_value m Hw Hl) as [E V]. rewrite E. split; [exact V|]. reflexivity.
  - now apply number_atom_value.
  - destruct H. now apply string_atom_value.
Qed.

Lemma item_visible i : item_ok i -> is_empty_atom (item_atom i) = false.
Proof.
  destruct i as [t|u|m|v|s]; cbn [item_ok item_atom is_empty_atom]; intros H; try reflexivity.
  - destruct (N.eqb_spec t 0xFF); [lia|reflexivity].
  - unfold number_atom. destruct (v <? 64); [reflexivity|]. destruct (v <? 2 ^ 8); [reflexivity|].
    destruct (v <? 2 ^ 16); [reflexivity|]. destruct (v <? 2 ^ 32); reflexivity.
  - unfold string_atom. destruct (blen s <? 16); reflexivity.
Qed.

Lemma items_stream items : Forall item_ok items ->
  concat (map call_bytes (map item_call items)) = stream (map item_atom items).
Proof.
  induction 1 as [|i items Hi Hr IH]; [reflexivity|].
  cbn [map concat]. rewrite IH. destruct (item_bytes i Hi) as [E _]. rewrite E. reflexivity.
Qed.

Lemma stream_app a b : stream (a ++ b) = stream a ++ stream b.
Proof. unfold stream. rewrite map_app. apply concat_app. Qed.

Lemma visible_items items : Forall item_ok items -> visible (map item_atom items) = map item_atom items.
Proof.
  unfold visible. induction 1 as [|i items Hi Hr IH]; [reflexivity|].
  cbn [map filter]. rewrite item_visible by assumption. cbn [negb]. now rewrite IH.
Qed.

Lemma trailer_stream : stream trailer_atoms = status_trailer.
Proof. reflexivity. Qed.

(** From Init(uid, method) + typed calls + Complete, through a response buffer, back to the items. *)
Lemma loopback heap c0 uid meth items toks0 :
  cmd_wf c0 -> (forall j, heap j < 256) ->
  wf uid -> List.length uid = 8%nat -> wf meth -> List.length meth = 8%nat ->
  Forall item_ok items ->
  (List.length (stream (map item_atom items)) + 25 <= 1992)%nat ->
  let c := crun (fst (cmd_init c0 (IUid uid) (MMethod meth))) (map item_call items) in
  exists c', complete c None = (c', Ok tt) /\
  let r := {| r_buf := firstn 2048 (a_data c'); r_tokens := toks0 |} in
  exists hd its tr,
    commit heap r = ({| r_buf := r_buf r; r_tokens := hd ++ its ++ tr |}, Ok tt)
    /\ Forall2 item_decodes [ItCtl 0xF8; ItUid uid; ItMethod meth] hd
    /\ Forall2 item_decodes items its
    /\ tr = [[0xF9]; [0xF0]; [0]; [0]; [0]; [0xF1]].
Proof.
  intros Hc0 Hheap Wu Lu Wm Lm Hit Hlen c.
  destruct (init_holds c0 (IUid uid) (MMethod meth) Hc0) as (Hi & _ & _).
  set (pre := [ItCtl 0xF8; ItUid uid; ItMethod meth]).
  assert (Hpre : Forall item_ok pre).
  { unfold pre. repeat constructor; cbn [item_ok]; auto; lia. }
  assert (Ei : init_bytes (IUid uid) (MMethod meth) = stream (map item_atom pre)).
  { unfold pre, stream. cbn [map concat item_atom encode]. 
    destruct (uid_value uid Wu Lu) as [Eu _]. destruct (uid_value meth Wm Lm) as [Em _].
    cbn [encode] in Eu, Em. rewrite Eu, Em. rewrite app_nil_r. reflexivity. }
  rewrite Ei in Hi.
  assert (Hok : Forall call_ok (map item_call items)).
  { apply Forall_map. eapply Forall_impl; [|exact Hit]. intros i Hi'. now apply item_bytes. }
  destruct (crun_holds _ _ _ _ Hi Hok) as [Hr _]. fold c in Hr.
  rewrite items_stream in Hr by assumption. rewrite <- stream_app, <- map_app in Hr.
  set (all := pre ++ items) in *.
  assert (Lpre : List.length (stream (map item_atom pre)) = 19%nat).
  { rewrite <- Ei. cbn. rewrite app_length. cbn [List.length]. rewrite Lu, Lm. reflexivity. }
  assert (Lall : (List.length (stream (map item_atom all)) + 6 <= 1992)%nat).
  { unfold all. rewrite map_app, stream_app, app_length, Lpre. lia. }
  rewrite firstn_all2 in Hr by (rewrite PCAP_val; lia).
  destruct (complete_holds c (zeros 56) _ None Hr) as (c' & Ec & Wc & Dc & Lc & Cc).
  { cbn [trailer_of status_trailer List.length]. rewrite PCAP_val. lia. }
  exists c'. split; [exact Ec|].
  cbn [trailer_of] in Dc. rewrite <- trailer_stream, <- stream_app in Dc.
  set (atoms := map item_atom all ++ trailer_atoms) in *.
  assert (Lat : (List.length (stream atoms) <= 1992)%nat).
  { unfold atoms. rewrite stream_app, app_length, trailer_stream. cbn [status_trailer List.length]. lia. }
  set (hdr' := header_with_lengths (blen (stream atoms)) (zeros 56)) in *.
  assert (Lh : List.length hdr' = 56%nat) by (apply header_with_lengths_length, zeros_length).
  assert (Hall : Forall item_ok all) by (apply Forall_app; auto).
  assert (Hat : Forall atom_ok atoms).
  { apply Forall_app. split.
    - apply Forall_map. eapply Forall_impl; [|exact Hall]. intros i. apply item_atom_ok.
    - unfold trailer_atoms, T_EndOfData, T_StartList, T_EndList. repeat (apply Forall_cons; [cbn [atom_ok]; lia|]). apply Forall_nil. }
  assert (Buf : firstn 2048 (a_data c') = hdr' ++ stream atoms ++ zeros (1992 - List.length (stream atoms))).
  { rewrite Dc. rewrite firstn_app, Lh. rewrite firstn_all2 by lia. f_equal.
    change (2048 - 56)%nat with 1992%nat. rewrite firstn_app. rewrite firstn_all2 by lia. f_equal.
    replace (PCAP - List.length (stream atoms))%nat
      with ((1992 - List.length (stream atoms)) + (PCAP - 1992))%nat by (rewrite PCAP_val; lia).
    rewrite zeros_app, firstn_app, zeros_length, Nat.sub_diag. cbn [firstn]. rewrite app_nil_r.
    apply firstn_all2. rewrite zeros_length. lia. }
  cbn [r_buf]. rewrite Buf.
  destruct (header_fields (blen (stream atoms)) (zeros 56)) as (Fs & _).
  { apply zeros_length. }
  { change (2 ^ 31) with 2147483648. unfold blen. lia. }
  fold hdr' in Fs.
  pose proof (commit_stream heap hdr' atoms (zeros (1992 - List.length (stream atoms))) toks0 Lh
     (header_wf _ _ (wf_zeros _)) (wf_zeros _) Hheap Hat Fs) as C.
  exists (map encode (map item_atom pre)), (map encode (map item_atom items)), (map encode trailer_atoms).
  split.
  - rewrite C.
    + repeat f_equal. unfold atoms. unfold visible. rewrite filter_app. fold (visible (map item_atom all)).
      rewrite visible_items by assumption. unfold all. rewrite map_app, !map_app, <- app_assoc. reflexivity.
    + rewrite zeros_length, Lh. unfold resp_size. lia.
  - split; [|split; [|reflexivity]].
    + rewrite map_map. clear - Hpre. induction Hpre; cbn [map]; constructor; auto using item_decodes_encode.
    + rewrite map_map. clear - Hit. induction Hit; cbn [map]; constructor; auto using item_decodes_encode.
Qed.

(** ---- header setters ---- *)
Lemma put_put_comm o1 d1 o2 d2 l : (o1 + List.length d1 <= o2)%nat -> (o2 + List.length d2 <= List.length l)%nat ->
  put o1 d1 (put o2 d2 l) = put o2 d2 (put o1 d1 l).
Proof.
  intros H1 H2. apply list_eq_nth_error. intros i.
  rewrite nth_error_put by (rewrite put_length; lia). rewrite nth_error_put by lia.
  rewrite (nth_error_put o2) by (rewrite put_length; lia). rewrite nth_error_put by lia.
  destruct (Nat.ltb_spec i o1); destruct (Nat.leb_spec (o1 + List.length d1) i);
  destruct (Nat.ltb_spec i o2); destruct (Nat.leb_spec (o2 + List.length d2) i); cbn [orb]; try reflexivity; lia.
Qed.
