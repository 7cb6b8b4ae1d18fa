(** Property theorems C01-C15 (tcg token stream, responses, command builder). *)
From Verif Require Import Base Spec_Tcg Spec_Buffer M_TcgToken M_Buffer M_TcgCommand Spec_TcgCommand Spec_TcgClient
  P_TcgToken P_TcgCommand P_TcgComplete P_TcgProps.

(** C01 *)
Theorem C01_number_roundtrip : forall c hdr pl v, holds c hdr pl -> v < 2 ^ 64 ->
  (List.length pl + 9 <= payload_capacity)%nat ->
  exists enc, snd (add_number_token c v) = Ok tt /\ holds (fst (add_number_token c v)) hdr (pl ++ enc)
   /\ enc = (if v <? 64 then [v]
             else if v <? 2 ^ 8 then 0x81 :: be_bytes 1 v
             else if v <? 2 ^ 16 then 0x82 :: be_bytes 2 v
             else if v <? 2 ^ 32 then 0x84 :: be_bytes 4 v
             else 0x88 :: be_bytes 8 v)
   /\ exposes enc [enc]
   /\ get_uint64 enc = Ok v /\ get_uint32 enc = Ok (v mod 2 ^ 32)
   /\ get_uint16 enc = Ok (v mod 2 ^ 16) /\ get_uint8 enc = Ok (v mod 2 ^ 8).
Proof. exact c01. Qed.
Print Assumptions C01_number_roundtrip.

(** C02 *)
Theorem C02_string_roundtrip : forall c hdr pl text, holds c hdr pl -> wf text -> 1 <= blen text <= 2047 ->
  (List.length pl + List.length text + 2 <= payload_capacity)%nat ->
  exists enc, snd (add_string_token c text None) = Ok tt
   /\ holds (fst (add_string_token c text None)) hdr (pl ++ enc)
   /\ enc = (if blen text <? 16 then [0xA0 + blen text] else [0xD0 + blen text / 256; blen text mod 256]) ++ text
   /\ exposes enc [enc]
   /\ tok_type enc = Ok 0xe0 /\ get_string enc = Ok text /\ get_bytes enc = Ok text.
Proof. exact c02. Qed.
Print Assumptions C02_string_roundtrip.

(** C03 *)
Theorem C03_string_faithful_iff : forall c hdr pl text,
  holds c hdr pl -> wf text -> (List.length pl + 2049 <= payload_capacity)%nat ->
  snd (add_string_token c text None) = Ok tt /\
  exists enc, holds (fst (add_string_token c text None)) hdr (pl ++ enc)
   /\ (decodes_to enc text <-> 1 <= blen text <= 2047)
   /\ (blen text = 0 -> enc = [0xA1; 0] /\ decodes_to enc [0])
   /\ (2048 <= blen text -> enc = [] /\ fst (add_string_token c text None) = c).
Proof. exact c03. Qed.
Print Assumptions C03_string_faithful_iff.

(** C04 *)
Theorem C04_commit_wellformed : forall atoms heap buf old,
  Forall atom_ok atoms -> byte_heap heap -> carries buf (stream atoms) ->
  exists r', commit heap {| r_buf := buf; r_tokens := old |} = (r', Ok tt)
   /\ get_token_count r' = Z.of_nat (List.length (visible atoms))
   /\ (forall i, (0 <= i)%Z -> get_token r' i = Ok (option_map encode (nth_error (visible atoms) (Z.to_nat i)))).
Proof. exact c04. Qed.
Print Assumptions C04_commit_wellformed.

(** C05 *)
Theorem C05_commit_arbitrary : forall heap r,
  List.length (r_buf r) = 2048%nat -> wf (r_buf r) -> byte_heap heap ->
  let L := be32_at 52 (r_buf r) in
  (1992 < L -> commit heap r = (r, Err (EMsg "illegal data"))) /\
  (L <= 1992 -> exists all,
      tiled (memory (r_buf r) heap) 56 (56 + L) all
      /\ commit heap r = ({| r_buf := r_buf r; r_tokens := filter not_empty_atom all |}, Ok tt)
      /\ Forall (fun t => t <> []) (filter not_empty_atom all)
      /\ N.of_nat (List.length (filter not_empty_atom all)) <= L).
Proof. exact c05. Qed.
Print Assumptions C05_commit_arbitrary.

(** C06 *)
Theorem C06_leak_iff_overrun : forall r,
  List.length (r_buf r) = resp_size -> wf (r_buf r) ->
  be32_at off_sub_len (r_buf r) <= 1992 ->
  (exists h1 h2, byte_heap h1 /\ byte_heap h2 /\ commit h1 r <> commit h2 r) <->
  (exists h, byte_heap h /\
     overruns (memory (r_buf r) h) 2048 56 (56 + be32_at off_sub_len (r_buf r))).
Proof. exact commit_leak_iff. Qed.
Print Assumptions C06_leak_iff_overrun.

(** The ideal "Commit never exposes memory outside the response buffer" is false. *)
Theorem C06_isolation_refuted : exists r h1 h2,
  List.length (r_buf r) = resp_size /\ wf (r_buf r) /\ be32_at off_sub_len (r_buf r) <= 1992 /\
  byte_heap h1 /\ byte_heap h2 /\ commit h1 r <> commit h2 r.
Proof. exact leak_witness. Qed.
Print Assumptions C06_isolation_refuted.

(** C07 *)
Theorem C07_integer_accessors : forall b d, b < 256 -> wf d ->
  let refused := (b <? 0x80) && N.testbit b 6 || (0x80 <=? b) && (b <? 0xC0) && N.testbit b 4 || (0xC0 <=? b) in
  let value := if b <? 0x80 then b mod 64 else be_val d in
  get_uint64 (b :: d) = (if refused then Err (EMsg "illegal data") else Ok (value mod 2 ^ 64)) /\
  get_uint32 (b :: d) = (if refused then Err (EMsg "illegal data") else Ok (value mod 2 ^ 32)) /\
  get_uint16 (b :: d) = (if refused then Err (EMsg "illegal data") else Ok (value mod 2 ^ 16)) /\
  get_uint8 (b :: d) = (if refused then Err (EMsg "illegal data") else Ok (value mod 2 ^ 8)).
Proof. exact c07. Qed.
Print Assumptions C07_integer_accessors.

(** C08 *)
Theorem C08_type_classification : forall a, atom_ok a ->
  tok_type (encode a) =
    Ok match a with
       | Tiny signed _ => if signed then 0xe2 else 0xe1      (* unsigned / signed: inverted *)
       | Short bytestr signed _ | Medium bytestr signed _ | Long bytestr signed _ =>
           if bytestr then 0xe0 else if signed then 0xe1 else 0xe2
       | Ctl t => t
       end.
Proof. exact c08. Qed.
Print Assumptions C08_type_classification.

Theorem C08_tiny_disagrees_with_GetUint64 : forall v s, v < 64 ->
  (tok_type (encode (Tiny s v)) = Ok 0xe2 <-> exists e, get_uint64 (encode (Tiny s v)) = Err e) /\
  (tok_type (encode (Tiny s v)) = Ok 0xe1 <-> get_uint64 (encode (Tiny s v)) = Ok v).
Proof. exact c08_tiny_uint. Qed.
Print Assumptions C08_tiny_disagrees_with_GetUint64.

(** C09 *)
Theorem C09_string_accessors : forall b d, b < 256 ->
  get_bytes (b :: d) = get_string (b :: d) /\
  get_string (b :: d) =
    if b <? 0x80 then Err (EMsg "illegal data")
    else if 0xF0 <=? b then Ok []
    else let h := if b <? 0xC0 then 1%nat else if b <? 0xE0 then 2%nat else 4%nat in
         if (List.length (b :: d) <? h)%nat then Panic else Ok (skipn h (b :: d)).
Proof. exact c09. Qed.
Print Assumptions C09_string_accessors.

Theorem C09_string_of_atom : forall a, atom_ok a ->
  get_string (encode a) = match a with Tiny _ _ => Err (EMsg "illegal data") | _ => Ok (atom_data a) end.
Proof. exact c09_atom. Qed.
Print Assumptions C09_string_of_atom.

(** C10 *)
Theorem C10_builder_appends : forall c0 pl0 ops, fresh c0 pl0 -> Forall call_ok ops ->
  let all := pl0 ++ concat (map call_bytes ops) in
  holds (crun c0 ops) (zeros 56) (firstn payload_capacity all)
  /\ ((List.length all <= payload_capacity)%nat -> holds (crun c0 ops) (zeros 56) all
      /\ forall pre o post, ops = pre ++ o :: post -> o <> CTok TNone -> o <> CRaw [] ->
           snd (cstep (crun c0 pre) o) = Ok tt).
Proof. exact c10. Qed.
Print Assumptions C10_builder_appends.

(** C11 *)
Theorem C11_complete_lengths : forall c hdr pl eod, holds c hdr pl ->
  let pl2 := pl ++ match eod with Some false => [] | _ => status_trailer end in
  (List.length pl2 <= payload_capacity)%nat ->
  exists c' hdr', complete c eod = (c', Ok tt)
   /\ a_data c' = hdr' ++ pl2 ++ zeros (payload_capacity - List.length pl2)
   /\ List.length hdr' = 56%nat
   /\ be32_at off_sub_len hdr' = blen pl2
   /\ be32_at off_pkt_len hdr' = pad4 (blen pl2) + 12
   /\ be32_at off_cp_len hdr' = be32_at off_pkt_len hdr' + 24
   /\ slice 0 16 hdr' = slice 0 16 hdr /\ slice 20 20 hdr' = slice 20 20 hdr /\ slice 44 8 hdr' = slice 44 8 hdr.
Proof. exact c11. Qed.
Print Assumptions C11_complete_lengths.

(** Complete at the end of the buffer: with 1..5 bytes left it reports success although the trailer is cut. *)
Theorem C11_complete_near_full : forall c hdr pl, holds c hdr pl ->
  (List.length pl = payload_capacity -> snd (complete c None) = Err EEOF) /\
  ((List.length pl < payload_capacity)%nat ->
     exists c' h, complete c None = (c', Ok tt) /\ List.length h = 56%nat /\
       a_data c' = h ++ firstn payload_capacity (pl ++ status_trailer)
                     ++ zeros (payload_capacity - List.length (pl ++ status_trailer))).
Proof. exact c11_near_full. Qed.
Print Assumptions C11_complete_near_full.

(** C12 *)
Theorem C12_transmitted_slice : forall c hdr pl eod c', holds c hdr pl -> complete c eod = (c', Ok tt) ->
  let pl2 := pl ++ match eod with Some false => [] | _ => status_trailer end in
  get_cmd_size c' = 512 /\ cmd_slice c' = firstn 512 (a_data c')
  /\ ((List.length pl2 <= payload_capacity)%nat ->
      let frame := firstn (N.to_nat (20 + be32_at off_cp_len (a_data c'))) (a_data c') in
      (exists rest, cmd_slice c' = frame ++ rest) <-> pad4 (blen pl2) <= 456).
Proof. exact c12. Qed.
Print Assumptions C12_transmitted_slice.

(** C13 *)
Theorem C13_header_setters :
  (forall v, v < 2 ^ 16 -> header_setter (fun c => set_com_id c v) 4 (be_bytes 2 v ++ [0; 0])) /\
  (forall v, v < 2 ^ 32 -> header_setter (fun c => set_tsn c v) 20 (le_bytes 4 v)) /\
  (forall v, v < 2 ^ 32 -> header_setter (fun c => set_hsn c v) 24 (le_bytes 4 v)) /\
  (forall c x y z, (56 <= List.length (a_data c))%nat ->
     set_com_id (set_tsn c y) x = set_tsn (set_com_id c x) y
     /\ set_com_id (set_hsn c z) x = set_hsn (set_com_id c x) z
     /\ set_tsn (set_hsn c z) y = set_hsn (set_tsn c y) z).
Proof. exact c13. Qed.
Print Assumptions C13_header_setters.

(** C14 *)
Theorem C14_loopback : forall heap c0 uid meth items toks0,
  cmd_wf c0 -> byte_heap heap ->
  wf uid -> List.length uid = 8%nat -> wf meth -> List.length meth = 8%nat ->
  Forall item_ok items ->
  (List.length (stream (map item_atom items)) + 25 <= 1992)%nat ->
  let c := crun (fst (cmd_init c0 (IUid uid) (MMethod meth))) (map item_call items) in
  exists c', complete c None = (c', Ok tt) /\
  let r := {| r_buf := firstn 2048 (a_data c'); r_tokens := toks0 |} in
  exists hd its tr,
    commit heap r = ({| r_buf := r_buf r; r_tokens := hd ++ its ++ tr |}, Ok tt)
    /\ Forall2 item_decodes [ItCtl 0xF8; ItUid uid; ItMethod meth] hd
    /\ Forall2 item_decodes items its
    /\ tr = [[0xF9]; [0xF0]; [0]; [0]; [0]; [0xF1]].
Proof. exact loopback. Qed.
Print Assumptions C14_loopback.

(** C15 *)
Theorem C15_hash_password : forall pbkdf2 serial, (forall p s, List.length (pbkdf2 p s) = 32%nat) ->
  (forall pw, tcg_hash_password pbkdf2 serial true pw = [0xD0; blen (firstn 32 pw)] ++ firstn 32 pw) /\
  (forall pw, tcg_hash_password pbkdf2 serial false pw = [0xD0; 32] ++ pbkdf2 (firstn 32 pw) serial) /\
  (forall nohash p q, firstn 32 p = firstn 32 q ->
     tcg_hash_password pbkdf2 serial nohash p = tcg_hash_password pbkdf2 serial nohash q).
Proof. exact c15. Qed.
Print Assumptions C15_hash_password.
