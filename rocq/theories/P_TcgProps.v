(** Property-level lemmas for tcg/token.go, tcg/response.go, tcg/command.go (used by Prop_Tcg.v). *)
From Verif Require Import Base Spec_Tcg Spec_Buffer M_TcgToken M_Buffer M_TcgCommand Spec_TcgCommand Spec_TcgClient
  P_TcgToken P_Buffer P_TcgCommand P_TcgComplete.

Lemma exposes_stream atoms : Forall atom_ok atoms -> exposes (stream atoms) (map encode (visible atoms)).
Proof.
  intros Hok heap buf old Hh (hdr & post & -> & Lh & Wh & Wp & HL & Hlen).
  rewrite (commit_stream heap hdr atoms post old Lh Wh Wp Hh Hok HL Hlen). split; reflexivity.
Qed.

Lemma exposes_one a : atom_ok a -> is_empty_atom a = false -> exposes (encode a) [encode a].
Proof.
  intros Ha He. assert (E : encode a = stream [a]) by (unfold stream; cbn [map concat]; now rewrite app_nil_r).
  rewrite E at 1. replace [encode a] with (map encode (visible [a])).
  - apply exposes_stream. now constructor.
  - unfold visible. cbn [filter]. rewrite He. reflexivity.
Qed.

Lemma exposes_nil : exposes [] [].
Proof. apply (exposes_stream []). constructor. Qed.

(** There is a response carrying any payload that fits. *)
Lemma carries_exists payload : (List.length payload <= 1992)%nat -> exists buf, carries buf payload.
Proof.
  intros H. exists (put 52 (be_bytes 4 (blen payload)) (zeros 56) ++ payload ++ zeros (1992 - List.length payload)).
  exists (put 52 (be_bytes 4 (blen payload)) (zeros 56)), (zeros (1992 - List.length payload)).
  assert (L : List.length (put 52 (be_bytes 4 (blen payload)) (zeros 56)) = 56%nat)
    by (rewrite put_length; rewrite ?be_bytes_length, zeros_length; [reflexivity|lia]).
  split; [reflexivity|]. split; [exact L|]. split.
  { unfold put. rewrite !wf_app. split; [apply wf_firstn, wf_zeros|]. split; [apply be_bytes_wf|apply wf_skipn, wf_zeros]. }
  split; [apply wf_zeros|]. split.
  - unfold be32_at, off_sub_len. rewrite (slice_put_same' _ _ _ 4); [|apply be_bytes_length|rewrite zeros_length; lia].
    apply be_val_bytes_small. change (256 ^ N.of_nat 4) with 4294967296. unfold blen. lia.
  - rewrite L, zeros_length. unfold resp_size. lia.
Qed.

Lemma exposes_det payload a b : (List.length payload <= 1992)%nat -> exposes payload a -> exposes payload b -> a = b.
Proof.
  intros H Ha Hb. destruct (carries_exists payload H) as [buf C].
  assert (Hz : forall j : N, (fun _ => 0) j < 256) by (intros; lia).
  destruct (Ha (fun _ => 0) buf [] Hz C) as [_ E1]. destruct (Hb (fun _ => 0) buf [] Hz C) as [_ E2]. congruence.
Qed.

Lemma append_ok c hdr pl enc c' r :
  holds c' hdr (firstn PCAP (pl ++ enc)) -> (List.length pl + List.length enc <= payload_capacity)%nat ->
  ((List.length pl + List.length enc <= PCAP)%nat -> r = Ok tt) ->
  r = Ok tt /\ holds c' hdr (pl ++ enc) /\ a_rpos c = a_rpos c.
Proof.
  intros H L R. split; [now apply R|]. split; [|reflexivity].
  rewrite firstn_all2 in H; [exact H|]. rewrite app_length. exact L.
Qed.

(** C01 *)
Lemma number_width v :
  List.length (encode (number_atom v)) =
    (if v <? 64 then 1%nat else if v <? 2 ^ 8 then 2%nat else if v <? 2 ^ 16 then 3%nat else if v <? 2 ^ 32 then 5%nat else 9%nat).
Proof.
  unfold number_atom. destruct (v <? 64); [reflexivity|]. destruct (v <? 2 ^ 8); [reflexivity|].
  destruct (v <? 2 ^ 16); [reflexivity|]. destruct (v <? 2 ^ 32); reflexivity.
Qed.

Lemma number_not_empty v : is_empty_atom (number_atom v) = false.
Proof.
  unfold number_atom. destruct (v <? 64); [reflexivity|]. destruct (v <? 2 ^ 8); [reflexivity|].
  destruct (v <? 2 ^ 16); [reflexivity|]. destruct (v <? 2 ^ 32); reflexivity.
Qed.

Lemma c01 c hdr pl v : holds c hdr pl -> v < 2 ^ 64 ->
  (List.length pl + 9 <= payload_capacity)%nat ->
  exists enc, snd (add_number_token c v) = Ok tt /\ holds (fst (add_number_token c v)) hdr (pl ++ enc)
   /\ enc = (if v <? 64 then [v]
             else if v <? 2 ^ 8 then 0x81 :: be_bytes 1 v
             else if v <? 2 ^ 16 then 0x82 :: be_bytes 2 v
             else if v <? 2 ^ 32 then 0x84 :: be_bytes 4 v
             else 0x88 :: be_bytes 8 v)
   /\ exposes enc [enc]
   /\ get_uint64 enc = Ok v /\ get_uint32 enc = Ok (v mod 2 ^ 32)
   /\ get_uint16 enc = Ok (v mod 2 ^ 16) /\ get_uint8 enc = Ok (v mod 2 ^ 8).
Proof.
  intros H Hv L. exists (encode (number_atom v)).
  destruct (number_holds c hdr pl v H Hv) as (A & B & C).
  assert (LE : (List.length (encode (number_atom v)) <= 9)%nat).
  { rewrite number_width. destruct (v <? 64); [lia|]. destruct (v <? 2 ^ 8); [lia|].
    destruct (v <? 2 ^ 16); [lia|]. destruct (v <? 2 ^ 32); lia. }
  destruct (append_ok c hdr pl (encode (number_atom v)) _ _ A ltac:(lia) C) as (E1 & E2 & _).
  pose proof (number_atom_value v Hv) as V.
  split; [exact E1|]. split; [exact E2|]. split.
  { unfold number_atom. destruct (N.ltb_spec v 64); [cbn [encode b2n]; f_equal; lia|].
    destruct (v <? 2 ^ 8); [reflexivity|]. destruct (v <? 2 ^ 16); [reflexivity|]. destruct (v <? 2 ^ 32); reflexivity. }
  split; [apply exposes_one; [now apply number_atom_ok|apply number_not_empty]|].
  unfold get_uint32, get_uint16, get_uint8, narrow. rewrite V. auto.
Qed.

(** C02 *)
Lemma string_bytes_atom t : 1 <= blen t < 2048 -> string_bytes t None = encode (string_atom t).
Proof.
  intros [H1 H2]. unfold string_bytes, string_atom.
  destruct (N.eqb_spec (blen t) 0); [lia|]. destruct (N.ltb_spec (blen t) 2048); [|lia].
  unfold string_header. destruct (N.ltb_spec (blen t) 16); cbn [encode b2n app]; f_equal; lia.
Qed.

Lemma c02 c hdr pl text : holds c hdr pl -> wf text -> 1 <= blen text <= 2047 ->
  (List.length pl + List.length text + 2 <= payload_capacity)%nat ->
  exists enc, snd (add_string_token c text None) = Ok tt
   /\ holds (fst (add_string_token c text None)) hdr (pl ++ enc)
   /\ enc = (if blen text <? 16 then [0xA0 + blen text] else [0xD0 + blen text / 256; blen text mod 256]) ++ text
   /\ exposes enc [enc]
   /\ tok_type enc = Ok 0xe0 /\ get_string enc = Ok text /\ get_bytes enc = Ok text.
Proof.
  intros H Hw [H1 H2] L. assert (R : 1 <= blen text < 2048) by lia. exists (encode (string_atom text)).
  destruct (string_holds c hdr pl text None H) as (A & B & C). rewrite string_bytes_atom in A, C by exact R.
  assert (Q : encode (string_atom text)
      = (if blen text <? 16 then [0xA0 + blen text] else [0xD0 + blen text / 256; blen text mod 256]) ++ text).
  { rewrite <- string_bytes_atom by exact R. unfold string_bytes.
    destruct (N.eqb_spec (blen text) 0); [lia|]. destruct (N.ltb_spec (blen text) 2048); [reflexivity|lia]. }
  assert (LE : (List.length (encode (string_atom text)) <= List.length text + 2)%nat).
  { rewrite Q, app_length. destruct (blen text <? 16); cbn [List.length]; lia. }
  destruct (append_ok c hdr pl _ _ _ A ltac:(lia) C) as (E1 & E2 & _).
  destruct (string_atom_value text Hw R) as (V1 & V2 & V3).
  split; [exact E1|]. split; [exact E2|]. split; [exact Q|].
  split; [apply exposes_one; [now apply string_atom_ok|unfold string_atom; destruct (blen text <? 16); reflexivity]|].
  auto.
Qed.

(** C03 *)
Lemma c03 c hdr pl text : holds c hdr pl -> wf text -> (List.length pl + 2049 <= payload_capacity)%nat ->
  snd (add_string_token c text None) = Ok tt /\
  exists enc, holds (fst (add_string_token c text None)) hdr (pl ++ enc)
   /\ (decodes_to enc text <-> 1 <= blen text <= 2047)
   /\ (blen text = 0 -> enc = [0xA1; 0] /\ decodes_to enc [0])
   /\ (2048 <= blen text -> enc = [] /\ fst (add_string_token c text None) = c).
Proof.
  intros H Hw L.
  assert (K : blen text = 0 \/ 1 <= blen text < 2048 \/ 2048 <= blen text) by lia.
  destruct K as [K|[K|K]].
  - assert (text = []) by (destruct text; [reflexivity|rewrite blen_cons in K; lia]). subst text.
    destruct (string_holds c hdr pl [] None H) as (A & B & C). change (string_bytes [] None) with [0xA1; 0] in *.
    assert (LL : (List.length pl + List.length [0xA1; 0] <= payload_capacity)%nat) by (cbn [List.length]; lia).
    destruct (append_ok c hdr pl _ _ _ A LL C) as (E1 & E2 & _).
    assert (X : exposes [0xA1; 0] [[0xA1; 0]]).
    { change [0xA1; 0] with (encode (Short true false [0])). apply exposes_one; [|reflexivity].
      split; [|reflexivity]. apply wf_cons. split; [lia|apply wf_nil]. }
    split; [exact E1|]. exists [0xA1; 0]. split; [exact E2|]. split; [|split].
    + split; [|rewrite blen_nil; lia]. intros (tok & D1 & D2).
      pose proof (exposes_det [0xA1; 0] _ _ ltac:(cbn [List.length]; lia) D1 X) as E. injection E as ->. discriminate D2.
    + intros _. split; [reflexivity|]. exists [0xA1; 0]. split; [exact X|reflexivity].
    + rewrite blen_nil. lia.
  - destruct (c02 c hdr pl text H Hw ltac:(lia)) as (enc & E1 & E2 & Q & X & _ & V & _).
    { unfold blen in K. lia. }
    split; [exact E1|]. exists enc. split; [exact E2|]. split; [|split; lia].
    split; [lia|]. intros _. exists enc. auto.
  - assert (E : add_string_token c text None = (c, Ok tt)).
    { rewrite string_call_bytes. cbv zeta. destruct (N.ltb_spec (blen text) 2048); [lia|reflexivity]. }
    rewrite E. cbn [fst snd]. split; [reflexivity|]. exists []. rewrite app_nil_r. split; [exact H|].
    split; [|split; [lia|auto]]. split; [|lia]. intros (tok & D & _).
    pose proof (exposes_det [] _ _ ltac:(cbn [List.length]; lia) D exposes_nil). discriminate.
Qed.

(** C04 in terms of the accessors *)
Lemma c04 atoms heap buf old : Forall atom_ok atoms -> (forall j, heap j < 256) -> carries buf (stream atoms) ->
  exists r', commit heap {| r_buf := buf; r_tokens := old |} = (r', Ok tt)
   /\ get_token_count r' = Z.of_nat (List.length (visible atoms))
   /\ (forall i, (0 <= i)%Z -> get_token r' i = Ok (option_map encode (nth_error (visible atoms) (Z.to_nat i)))).
Proof.
  intros Hok Hh C. destruct (exposes_stream atoms Hok heap buf old Hh C) as [E1 E2].
  destruct (commit heap {| r_buf := buf; r_tokens := old |}) as [r' o]. cbn [fst snd] in *. subst o.
  exists r'. split; [reflexivity|]. unfold get_token_count, get_token, get_token_count. rewrite E2, map_length.
  split; [reflexivity|]. intros i Hi. rewrite nth_error_map.
  destruct (Z.leb_spec (Z.of_nat (List.length (visible atoms))) i) as [L|L].
  - assert (N : nth_error (visible atoms) (Z.to_nat i) = None) by (apply nth_error_None; lia). rewrite N. reflexivity.
  - destruct (Z.ltb_spec i 0); [lia|]. reflexivity.
Qed.

Lemma mem_slice_nonempty m cur n : 1 <= n -> mem_slice m cur n <> [].
Proof. intros H E. apply (f_equal (@List.length N)) in E. rewrite mem_slice_length in E. cbn in E. lia. Qed.

Lemma tiled_nonempty m cur end_ all : tiled m cur end_ all -> Forall (fun t => t <> []) all.
Proof.
  induction 1; constructor; auto. apply mem_slice_nonempty, atom_extent_pos.
Qed.

Lemma filter_length_le' {A} (f : A -> bool) l : (List.length (filter f l) <= List.length l)%nat.
Proof. induction l as [|x l IH]; cbn [filter List.length]; [lia|]. destruct (f x); cbn [List.length]; lia. Qed.

Lemma c05 heap r :
  List.length (r_buf r) = 2048%nat -> wf (r_buf r) -> (forall j, heap j < 256) ->
  let L := be32_at 52 (r_buf r) in
  (1992 < L -> commit heap r = (r, Err (EMsg "illegal data"))) /\
  (L <= 1992 -> exists all,
      tiled (memory (r_buf r) heap) 56 (56 + L) all
      /\ commit heap r = ({| r_buf := r_buf r; r_tokens := filter not_empty_atom all |}, Ok tt)
      /\ Forall (fun t => t <> []) (filter not_empty_atom all)
      /\ N.of_nat (List.length (filter not_empty_atom all)) <= L).
Proof.
  intros Hl Hw Hh L. destruct (commit_arbitrary heap r Hl Hw Hh) as [A B]. split; [exact A|].
  intros HL. destruct (B HL) as (all & T & Lc & E). exists all. split; [exact T|]. split; [exact E|]. split.
  - pose proof (tiled_nonempty _ _ _ _ T) as F. rewrite Forall_forall in F |- *. intros x Hx. apply filter_In in Hx. now apply F.
  - pose proof (filter_length_le' not_empty_atom all). change (be32_at off_sub_len (r_buf r)) with L in Lc. lia.
Qed.

(** C07 on whole atoms *)
Lemma c07 b d : b < 256 -> wf d ->
  let refused := (b <? 0x80) && N.testbit b 6 || (0x80 <=? b) && (b <? 0xC0) && N.testbit b 4 || (0xC0 <=? b) in
  let value := if b <? 0x80 then b mod 64 else be_val d in
  get_uint64 (b :: d) = (if refused then Err (EMsg "illegal data") else Ok (value mod 2 ^ 64)) /\
  get_uint32 (b :: d) = (if refused then Err (EMsg "illegal data") else Ok (value mod 2 ^ 32)) /\
  get_uint16 (b :: d) = (if refused then Err (EMsg "illegal data") else Ok (value mod 2 ^ 16)) /\
  get_uint8 (b :: d) = (if refused then Err (EMsg "illegal data") else Ok (value mod 2 ^ 8)).
Proof.
  intros Hb Hd refused value.
  assert (E : get_uint64 (b :: d) = if refused then Err (EMsg "illegal data") else Ok (value mod 2 ^ 64)).
  { rewrite get_uint64_spec by assumption. unfold refused, value.
    destruct (N.ltb_spec b 0x80).
    - destruct (N.leb_spec 0xC0 b); [lia|]. destruct (N.leb_spec 0x80 b); [lia|]. cbn [andb orb].
      destruct (N.testbit b 6); cbn [orb]; [reflexivity|]. f_equal. symmetry. apply N.mod_small.
      pose proof (N.mod_lt b 64 ltac:(lia)). change (2 ^ 64) with 18446744073709551616. lia.
    - destruct (N.ltb_spec b 0xC0).
      + destruct (N.leb_spec 0xC0 b); [lia|]. destruct (N.leb_spec 0x80 b); [|lia]. cbn [andb orb].
        destruct (N.testbit b 4); reflexivity.
      + destruct (N.leb_spec 0xC0 b); [|lia]. rewrite andb_false_r. reflexivity. }
  split; [exact E|]. unfold get_uint32, get_uint16, get_uint8, narrow. rewrite E. destruct refused; [auto|].
  assert (M : forall k, k <= 64 -> value mod 2 ^ 64 mod 2 ^ k = value mod 2 ^ k).
  { intros k Hk. replace (2 ^ 64) with (2 ^ k * 2 ^ (64 - k)) by (rewrite <- N.pow_add_r; f_equal; lia).
    rewrite N.mod_mul_r by (apply N.pow_nonzero; lia).
    rewrite N.add_mod by (apply N.pow_nonzero; lia).
    rewrite (N.mul_comm (2 ^ k)), N.mod_mul by (apply N.pow_nonzero; lia).
    rewrite N.add_0_r, !N.mod_mod by (apply N.pow_nonzero; lia). reflexivity. }
  rewrite !M by lia. auto.
Qed.

(** C08 *)
Lemma c08 a : atom_ok a ->
  tok_type (encode a) =
    Ok match a with
       | Tiny signed _ => if signed then 0xe2 else 0xe1      (* unsigned / signed: inverted *)
       | Short bytestr signed _ | Medium bytestr signed _ | Long bytestr signed _ =>
           if bytestr then 0xe0 else if signed then 0xe1 else 0xe2
       | Ctl t => t
       end.
Proof.
  intros H. destruct (lead_kind_encode a [] H) as (b & tl & E & Hb & K). rewrite app_nil_r in E.
  rewrite E, tok_type_spec by exact Hb. f_equal.
  destruct a as [s v|bs s d|bs s d|bs s d|t]; cbn [encode] in E; injection E as E1 E2; cbn [atom_ok] in H.
  - assert (B : b < 128) by (destruct s; cbn [b2n] in *; lia). destruct (N.ltb_spec b 0x80); [|lia].
    unfold lead_kind in K. destruct (N.ltb_spec b 0x80); [|lia]. cbn [atom_kind] in K.
    destruct (N.testbit b 6), s; try discriminate; reflexivity.
  - destruct (N.ltb_spec b 0x80); [lia|]. rewrite K. cbn [atom_kind]. destruct bs, s; reflexivity.
  - destruct (N.ltb_spec b 0x80); [lia|]. rewrite K. cbn [atom_kind]. destruct bs, s; reflexivity.
  - destruct (N.ltb_spec b 0x80); [lia|]. rewrite K. cbn [atom_kind]. destruct bs, s; reflexivity.
  - destruct (N.ltb_spec b 0x80); [lia|]. rewrite K. reflexivity.
Qed.

Lemma c08_tiny_uint v s : v < 64 ->
  (tok_type (encode (Tiny s v)) = Ok 0xe2 <-> exists e, get_uint64 (encode (Tiny s v)) = Err e) /\
  (tok_type (encode (Tiny s v)) = Ok 0xe1 <-> get_uint64 (encode (Tiny s v)) = Ok v).
Proof.
  intros H. rewrite c08 by exact H. cbn [encode]. rewrite get_uint64_spec by (try apply wf_nil; destruct s; cbn [b2n]; lia).
  assert (T : N.testbit (64 * b2n s + v) 6 = s).
  { rewrite N.testbit_eqb. change (2 ^ 6) with 64.
    replace ((64 * b2n s + v) / 64) with (b2n s) by (destruct s; cbn [b2n]; lia). destruct s; reflexivity. }
  rewrite T. destruct (N.ltb_spec (64 * b2n s + v) 0x80) as [B|B]; [|destruct s; cbn [b2n] in B; lia].
  destruct s; cbn [b2n].
  - split; split; intros X; try discriminate; eauto.
  - replace ((64 * 0 + v) mod 64) with v by (rewrite N.mod_small; lia). split; split; intros X; try discriminate; auto.
    destruct X as [e X]. discriminate.
Qed.

(** C09 *)
Lemma c09 b d : b < 256 ->
  get_bytes (b :: d) = get_string (b :: d) /\
  get_string (b :: d) =
    if b <? 0x80 then Err (EMsg "illegal data")
    else if 0xF0 <=? b then Ok []
    else let h := if b <? 0xC0 then 1%nat else if b <? 0xE0 then 2%nat else 4%nat in
         if (List.length (b :: d) <? h)%nat then Panic else Ok (skipn h (b :: d)).
Proof.
  intros Hb. split; [reflexivity|]. rewrite get_string_spec by exact Hb.
  destruct (N.ltb_spec b 0x80); [reflexivity|]. destruct (N.leb_spec 0xF0 b).
  - destruct (N.ltb_spec b 0xC0); [lia|]. destruct (N.ltb_spec b 0xE0); [lia|]. destruct (N.ltb_spec b 0xF0); [lia|reflexivity].
  - destruct (N.ltb_spec b 0xC0); [reflexivity|]. destruct (N.ltb_spec b 0xE0).
    + destruct d; reflexivity.
    + destruct (N.ltb_spec b 0xF0); [|lia]. destruct d as [|? [|? [|? ?]]]; reflexivity.
Qed.

Lemma c09_atom a : atom_ok a ->
  get_string (encode a) = match a with Tiny _ _ => Err (EMsg "illegal data") | _ => Ok (atom_data a) end.
Proof.
  intros H. destruct (lead_kind_encode a [] H) as (b & tl & E & Hb & K). rewrite app_nil_r in E.
  destruct a as [s v|bs s d|bs s d|bs s d|t]; cbn [encode atom_ok] in *.
  - rewrite get_string_spec by (destruct s; cbn [b2n]; lia).
    destruct (N.ltb_spec (64 * b2n s + v) 0x80); [reflexivity|destruct s; cbn [b2n] in *; lia].
  - destruct H as [Hd Hl]. assert (X : 128 <= 128 + 32 * b2n bs + 16 * b2n s + blen d < 192) by (destruct bs, s; cbn [b2n]; lia).
    rewrite get_string_spec by lia. destruct (N.ltb_spec (128 + 32 * b2n bs + 16 * b2n s + blen d) 0x80); [lia|].
    destruct (N.ltb_spec (128 + 32 * b2n bs + 16 * b2n s + blen d) 0xC0); [reflexivity|lia].
  - destruct H as [Hd Hl]. assert (X : 192 <= 192 + 16 * b2n bs + 8 * b2n s + blen d / 256 < 224) by (destruct bs, s; cbn [b2n]; lia).
    rewrite get_string_spec by lia. destruct (N.ltb_spec (192 + 16 * b2n bs + 8 * b2n s + blen d / 256) 0x80); [lia|].
    destruct (N.ltb_spec (192 + 16 * b2n bs + 8 * b2n s + blen d / 256) 0xC0); [lia|].
    destruct (N.ltb_spec (192 + 16 * b2n bs + 8 * b2n s + blen d / 256) 0xE0); [reflexivity|lia].
  - assert (X : 224 <= 224 + 2 * b2n bs + b2n s < 240) by (destruct bs, s; cbn [b2n]; lia).
    rewrite get_string_spec by lia. destruct (N.ltb_spec (224 + 2 * b2n bs + b2n s) 0x80); [lia|].
    destruct (N.ltb_spec (224 + 2 * b2n bs + b2n s) 0xC0); [lia|].
    destruct (N.ltb_spec (224 + 2 * b2n bs + b2n s) 0xE0); [lia|].
    destruct (N.ltb_spec (224 + 2 * b2n bs + b2n s) 0xF0); [reflexivity|lia].
  - rewrite get_string_spec by lia. destruct (N.ltb_spec t 0x80); [lia|]. destruct (N.ltb_spec t 0xC0); [lia|].
    destruct (N.ltb_spec t 0xE0); [lia|]. destruct (N.ltb_spec t 0xF0); [lia|reflexivity].
Qed.

(** C10 *)
Lemma fresh_holds c pl : fresh c pl -> holds c (zeros 56) pl /\ firstn PCAP pl = pl.
Proof.
  destruct 1 as [c H|c i m H].
  - split; [now apply reset_holds|reflexivity].
  - split; [now apply init_holds|]. unfold PCAP. now rewrite firstn_firstn, Nat.min_id.
Qed.

Lemma c10 c0 pl0 ops : fresh c0 pl0 -> Forall call_ok ops ->
  let all := pl0 ++ concat (map call_bytes ops) in
  holds (crun c0 ops) (zeros 56) (firstn payload_capacity all)
  /\ ((List.length all <= payload_capacity)%nat -> holds (crun c0 ops) (zeros 56) all
      /\ forall pre o post, ops = pre ++ o :: post -> o <> CTok TNone -> o <> CRaw [] ->
           snd (cstep (crun c0 pre) o) = Ok tt).
Proof.
  intros Hf Hok all. destruct (fresh_holds _ _ Hf) as [H0 F0]. rewrite <- F0 in H0.
  destruct (crun_holds ops c0 _ _ H0 Hok) as [A _]. fold all in A. split; [exact A|].
  intros L. split; [rewrite firstn_all2 in A by exact L; exact A|].
  intros pre o post -> N1 N2. apply Forall_app in Hok as [Hpre Hrest]. inversion Hrest as [|? ? Ho Hpost]; subst.
  destruct (crun_holds pre c0 _ _ H0 Hpre) as [B _].
  unfold all in L. rewrite map_app in L. cbn [map] in L. rewrite concat_app in L. cbn [concat] in L.
  rewrite !app_length in L.
  rewrite firstn_all2 in B by (rewrite app_length; unfold PCAP; lia).
  destruct (cstep_holds _ _ _ o B Ho) as (_ & _ & C). apply C; auto. rewrite app_length. unfold PCAP. lia.
Qed.

(** C11/C12 *)
Lemma c11 c hdr pl eod : holds c hdr pl ->
  let pl2 := pl ++ match eod with Some false => [] | _ => status_trailer end in
  (List.length pl2 <= payload_capacity)%nat ->
  exists c' hdr', complete c eod = (c', Ok tt)
   /\ a_data c' = hdr' ++ pl2 ++ zeros (payload_capacity - List.length pl2)
   /\ List.length hdr' = 56%nat
   /\ be32_at off_sub_len hdr' = blen pl2
   /\ be32_at off_pkt_len hdr' = pad4 (blen pl2) + 12
   /\ be32_at off_cp_len hdr' = be32_at off_pkt_len hdr' + 24
   /\ slice 0 16 hdr' = slice 0 16 hdr /\ slice 20 20 hdr' = slice 20 20 hdr /\ slice 44 8 hdr' = slice 44 8 hdr.
Proof.
  intros H pl2 L. fold (trailer_of eod) in pl2.
  destruct (complete_holds c hdr pl eod H) as (c' & E & W & D & _ & _).
  { unfold pl2 in L. rewrite app_length in L. exact L. }
  fold pl2 in D. exists c', (header_with_lengths (blen pl2) hdr).
  assert (Hh : List.length hdr = 56%nat) by apply H.
  destruct (header_fields (blen pl2) hdr Hh) as (F1 & F2 & F3 & F4 & F5 & F6).
  { change (2 ^ 31) with 2147483648. unfold blen. unfold payload_capacity in L. lia. }
  split; [exact E|]. split; [exact D|]. split; [now apply header_with_lengths_length|].
  split; [exact F1|]. split; [exact F2|]. split; [|auto]. rewrite F3, F2. lia.
Qed.

Lemma c12 c hdr pl eod c' : holds c hdr pl -> complete c eod = (c', Ok tt) ->
  let pl2 := pl ++ match eod with Some false => [] | _ => status_trailer end in
  get_cmd_size c' = 512 /\ cmd_slice c' = firstn 512 (a_data c')
  /\ ((List.length pl2 <= payload_capacity)%nat ->
      let frame := firstn (N.to_nat (20 + be32_at off_cp_len (a_data c'))) (a_data c') in
      (exists rest, cmd_slice c' = frame ++ rest) <-> pad4 (blen pl2) <= 456).
Proof.
  intros H E pl2. fold (trailer_of eod) in pl2.
  assert (Hle := holds_le _ _ _ H).
  assert (K : eod = Some false \/ (List.length pl < PCAP)%nat).
  { destruct (Nat.eq_dec (List.length pl) PCAP) as [X|X]; [|right; lia].
    destruct eod as [[|]|]; auto; rewrite (complete_full c hdr pl H X) in E by discriminate; discriminate. }
  destruct (complete_holds_gen c hdr pl eod H K) as (c2 & E2 & W & _). rewrite E in E2. injection E2 as <-.
  assert (G : get_cmd_size c' = 512) by now apply get_cmd_size_56.
  assert (S : cmd_slice c' = firstn 512 (a_data c')).
  { unfold cmd_slice. rewrite G. reflexivity. }
  split; [exact G|]. split; [exact S|]. intros L frame.
  destruct (c11 c hdr pl eod H L) as (c3 & h & E3 & D & Lh & F1 & F2 & F3 & _). rewrite E in E3. injection E3 as <-.
  fold (trailer_of eod) in *. fold pl2 in D, F1, F2.
  assert (CP : be32_at off_cp_len (a_data c') = pad4 (blen pl2) + 36).
  { rewrite D. unfold be32_at in *. rewrite slice_app_l by (unfold off_cp_len; lia). rewrite F3, F2. lia. }
  assert (LD : List.length (a_data c') = N.to_nat 61440).
  { rewrite D, !app_length, zeros_length, Lh. unfold payload_capacity in *. lia. }
  pose proof (pad4_le (blen pl2)) as [P1 P2]. 
  assert (PB : blen pl2 <= 61384) by (unfold blen; unfold payload_capacity in L; lia).
  assert (LF : List.length frame = N.to_nat (56 + pad4 (blen pl2))).
  { unfold frame. rewrite firstn_length, LD, CP.
    assert (pad4 (blen pl2) <= 61384) by (unfold pad4; clear - PB; lia). lia. }
  assert (LS : List.length (cmd_slice c') = 512%nat) by (rewrite S, firstn_length, LD; lia).
  split.
  - intros [rest R]. apply (f_equal (@List.length N)) in R. rewrite app_length, LS, LF in R. lia.
  - intros Q. exists (skipn (N.to_nat (56 + pad4 (blen pl2))) (cmd_slice c')).
    assert (FR : frame = firstn (N.to_nat (56 + pad4 (blen pl2))) (cmd_slice c')).
    { unfold frame. rewrite CP, S, firstn_firstn. f_equal. lia. }
    rewrite FR. symmetry. apply firstn_skipn.
Qed.

(** C13 *)
Lemma setter_put off val : (off + List.length val <= 56)%nat ->
  header_setter (fun c => with_data c (put off val (a_data c))) off val.
Proof.
  intros H c Hc. cbn [with_data a_data a_wpos a_rpos a_limit a_cap].
  split; [apply slice_put_same; lia|]. split; [apply put_same_outside; lia|]. auto.
Qed.

Lemma comid_bytes v : v < 2 ^ 16 -> [N.shiftr v 8 mod 256; v mod 256; 0; 0] = be_bytes 2 v ++ [0; 0].
Proof.
  intros H. unfold be_bytes. cbn [le_bytes rev app]. rewrite N.shiftr_div_pow2. reflexivity.
Qed.

Lemma c13 :
  (forall v, v < 2 ^ 16 -> header_setter (fun c => set_com_id c v) 4 (be_bytes 2 v ++ [0; 0])) /\
  (forall v, v < 2 ^ 32 -> header_setter (fun c => set_tsn c v) 20 (le_bytes 4 v)) /\
  (forall v, v < 2 ^ 32 -> header_setter (fun c => set_hsn c v) 24 (le_bytes 4 v)) /\
  (forall c x y z, (56 <= List.length (a_data c))%nat ->
     set_com_id (set_tsn c y) x = set_tsn (set_com_id c x) y
     /\ set_com_id (set_hsn c z) x = set_hsn (set_com_id c x) z
     /\ set_tsn (set_hsn c z) y = set_hsn (set_tsn c y) z).
Proof.
  split; [|split; [|split]].
  - intros v Hv. unfold set_com_id. rewrite (comid_bytes v Hv). apply setter_put. rewrite app_length, be_bytes_length. cbn; lia.
  - intros v _. apply setter_put. rewrite le_bytes_length. lia.
  - intros v _. apply setter_put. rewrite le_bytes_length. lia.
  - intros c x y z H. unfold set_com_id, set_tsn, set_hsn, with_data. cbn [a_data a_cap a_limit a_wpos a_rpos].
    repeat split; f_equal; apply put_put_comm; rewrite ?le_bytes_length; cbn [List.length]; lia.
Qed.

(** C15 *)
Lemma firstn32 (p : bytes) : (if (32 <? List.length p)%nat then firstn 32 p else p) = firstn 32 p.
Proof. destruct (Nat.ltb_spec 32 (List.length p)); [reflexivity|]. now rewrite firstn_all2. Qed.

Lemma c15 pbkdf2 serial : (forall p s, List.length (pbkdf2 p s) = 32%nat) ->
  (forall pw, tcg_hash_password pbkdf2 serial true pw = [0xD0; blen (firstn 32 pw)] ++ firstn 32 pw) /\
  (forall pw, tcg_hash_password pbkdf2 serial false pw = [0xD0; 32] ++ pbkdf2 (firstn 32 pw) serial) /\
  (forall nohash p q, firstn 32 p = firstn 32 q ->
     tcg_hash_password pbkdf2 serial nohash p = tcg_hash_password pbkdf2 serial nohash q).
Proof.
  intros H32. unfold tcg_hash_password. repeat split.
  - intros pw. rewrite firstn32. cbn [app]. unfold blen. rewrite N.mod_small; [reflexivity|]. pose proof (firstn_le_length 32 pw). lia.
  - intros pw. rewrite firstn32. cbv zeta. rewrite H32. reflexivity.
  - intros n p q E. rewrite !firstn32, E. reflexivity.
Qed.

(** A response whose last byte is a short-atom header with 15 data bytes outside the buffer. *)
Definition leaky : response :=
  {| r_buf := put 52 (be_bytes 4 1992) (zeros 56) ++ zeros 1991 ++ [0xAF]; r_tokens := [] |}.

Definition last_token_byte (x : response * res unit) : N := nth 1 (last (r_tokens (fst x)) []) 0.
Lemma leak1 : last_token_byte (commit (fun _ => 1) leaky) = 1.
Proof. vm_compute. reflexivity. Qed.
Lemma leak2 : last_token_byte (commit (fun _ => 2) leaky) = 2.
Proof. vm_compute. reflexivity. Qed.

Lemma leak_witness : exists r h1 h2,
  List.length (r_buf r) = resp_size /\ wf (r_buf r) /\ be32_at off_sub_len (r_buf r) <= 1992 /\
  byte_heap h1 /\ byte_heap h2 /\ commit h1 r <> commit h2 r.
Proof.
  exists leaky, (fun _ => 1), (fun _ => 2).
  split; [vm_compute; reflexivity|]. split.
  { unfold leaky, put. cbn [r_buf]. rewrite !wf_app. repeat split.
    - apply wf_firstn, wf_zeros.
    - apply be_bytes_wf.
    - apply wf_skipn, wf_zeros.
    - apply wf_zeros.
    - apply wf_cons. split; [lia|apply wf_nil]. }
  split; [vm_compute; discriminate|].
  split; [intros j; lia|]. split; [intros j; lia|].
  intros E. apply (f_equal last_token_byte) in E. rewrite leak1, leak2 in E. discriminate E.
Qed.

Lemma c11_near_full c hdr pl : holds c hdr pl ->
  (List.length pl = payload_capacity -> snd (complete c None) = Err EEOF) /\
  ((List.length pl < payload_capacity)%nat ->
     exists c' h, complete c None = (c', Ok tt) /\ List.length h = 56%nat /\
       a_data c' = h ++ firstn payload_capacity (pl ++ status_trailer)
                     ++ zeros (payload_capacity - List.length (pl ++ status_trailer))).
Proof.
  intros H. split.
  - intros L. rewrite (complete_full c hdr pl H L) by discriminate. reflexivity.
  - intros L. destruct (complete_holds_gen c hdr pl None H (or_intror L)) as (c' & E & _ & D & _).
    cbn [trailer_of] in D. eexists c', _. split; [exact E|]. split.
    2:{ rewrite D. fold PCAP. f_equal. f_equal. rewrite firstn_length. f_equal.
        destruct (Nat.min_spec PCAP (List.length (pl ++ status_trailer))) as [[? ->]|[? ->]]; lia. }
    apply header_with_lengths_length. apply H.
Qed.
