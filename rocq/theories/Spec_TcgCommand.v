(** Independent specification of what each builder call of tcg.TcgCommand contributes to the payload.
    From the model it uses only the type of API calls ([cop], [token], [invoking], [cmethod]). *)
From Verif Require Import Base Spec_Tcg M_TcgCommand.

(** Room for payload: 61440 - 56. *)
Definition payload_capacity : nat := N.to_nat 61384.

(** Byte-string atom header for a declared length 1..2047 (AddStringToken's explicit length). *)
Definition string_header (len : N) : bytes :=
  if len <? 16 then [0xA0 + len] else [0xD0 + len / 256; len mod 256].

Definition string_bytes (text : bytes) (declared : option Z) : bytes :=
  let len := match declared with
             | Some l => if (l <? 0)%Z then blen text else Z.to_N l
             | None => blen text
             end in
  if len =? 0 then [0xA1; 0x00]
  else if len <? 2048 then string_header len ++ text
  else [].

Definition byte_of (z : Z) : N := Z.to_N (z mod 256).

(** Bytes contributed by one call. *)
Definition call_bytes (o : cop) : bytes :=
  match o with
  | CTok (TOpalUID u) => 0xA8 :: u
  | CTok (TOpalMethod m) => 0xA8 :: m
  | CTok (TOpalToken z) | CTok (TTinyAtom z) | CTok (TShortAtom z) | CTok (TLockingState z) => [byte_of z]
  | CTok TNone => []
  | CRaw d => d
  | CStr t l => string_bytes t l
  | CNum v => encode (number_atom v)
  end.

(** Values the Go types admit. *)
Definition call_ok (o : cop) : Prop :=
  match o with
  | CTok (TOpalUID u) => wf u /\ List.length u = 8%nat
  | CTok (TOpalMethod m) => wf m /\ List.length m = 8%nat
  | CTok _ => True
  | CRaw d => wf d
  | CStr t _ => wf t
  | CNum v => v < 2 ^ 64
  end.

(** Payload after Init. *)
Definition init_bytes (i : invoking) (m : cmethod) : bytes :=
  [T_Call] ++
  match i with IUid u => 0xA8 :: u | IBuf d => d | IOther => [] end ++
  match i with
  | IOther => []
  | _ => match m with MMethod x => 0xA8 :: x | MBuf d => d | MOther => [] end
  end.

(** A command under construction: 56 header bytes, payload, zeros up to 61440; next write after the payload. *)
Definition holds (c : cmd) (hdr payload : bytes) : Prop :=
  List.length hdr = 56%nat /\ (List.length payload <= payload_capacity)%nat /\
  M_Buffer.a_data c = hdr ++ payload ++ zeros (payload_capacity - List.length payload) /\
  M_Buffer.a_wpos c = (56 + List.length payload)%nat /\
  M_Buffer.a_limit c = N.to_nat 61440 /\ M_Buffer.a_cap c = N.to_nat 61440.

(** Typed builder calls whose encodings are single atoms. *)
Inductive item : Type :=
| ItCtl (t : N) | ItUid (u : bytes) | ItMethod (m : bytes) | ItNum (v : N) | ItStr (s : bytes).
Definition item_ok (i : item) : Prop :=
  match i with
  | ItCtl t => 0xF0 <= t <= 0xFE
  | ItUid u | ItMethod u => wf u /\ List.length u = 8%nat
  | ItNum v => v < 2 ^ 64
  | ItStr s => wf s /\ 1 <= blen s < 2048
  end.
Definition item_call (i : item) : cop :=
  match i with
  | ItCtl t => CTok (TOpalToken (Z.of_N t))
  | ItUid u => CTok (TOpalUID u)
  | ItMethod m => CTok (TOpalMethod m)
  | ItNum v => CNum v
  | ItStr s => CStr s None
  end.
Definition item_atom (i : item) : atom :=
  match i with
  | ItCtl t => Ctl t
  | ItUid u => Short true false u
  | ItMethod m => Short true false m
  | ItNum v => number_atom v
  | ItStr s => string_atom s
  end.
Definition trailer_atoms : list atom :=
  [Ctl T_EndOfData; Ctl T_StartList; Tiny false 0; Tiny false 0; Tiny false 0; Ctl T_EndList].

(** A received 2048-byte buffer whose sub-packet is [payload]. *)
Definition carries (buf payload : bytes) : Prop :=
  exists hdr post, buf = hdr ++ payload ++ post /\ List.length hdr = header_size /\ wf hdr /\ wf post
    /\ be32_at off_sub_len hdr = blen payload
    /\ (List.length hdr + List.length payload + List.length post = resp_size)%nat.
