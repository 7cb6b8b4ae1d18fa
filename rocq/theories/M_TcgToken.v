(** Model of tcg/token.go and tcg/response.go. *)
From Verif Require Import Base.

(** tcg/types.go:457-459 *)
Definition DTA_TOKENID_BYTESTRING : N := 0xe0.
Definition DTA_TOKENID_SINT : N := 0xe1.
Definition DTA_TOKENID_UINT : N := 0xe2.
(** tcg/types.go:471 *)
Definition EMPTYATOM : N := 0xff.
(** tcg/types.go:11 *)
Definition MIN_BUFFER_LENGTH : N := 2048.
(** unsafe.Sizeof(OpalHeader{}): tcg/types.go:266-294 (20 + 24 + 12) *)
Definition OPAL_HEADER_SIZE : N := 56.

(** tcg/token.go:15-55 TcgTokenVO.Type; p.buf[0] of an empty slice panics. *)
Definition tok_type (t : bytes) : res N :=
  match t with
  | [] => Panic
  | typeVal :: _ =>
    Ok (if N.land typeVal 0x80 =? 0 then
          (if N.land typeVal 0x40 =? 0 then DTA_TOKENID_SINT else DTA_TOKENID_UINT)
        else if N.land typeVal 0x40 =? 0 then
          (if negb (N.land typeVal 0x20 =? 0) then DTA_TOKENID_BYTESTRING
           else if negb (N.land typeVal 0x10 =? 0) then DTA_TOKENID_SINT else DTA_TOKENID_UINT)
        else if N.land typeVal 0x20 =? 0 then
          (if negb (N.land typeVal 0x10 =? 0) then DTA_TOKENID_BYTESTRING
           else if negb (N.land typeVal 0x08 =? 0) then DTA_TOKENID_SINT else DTA_TOKENID_UINT)
        else if N.land typeVal 0x10 =? 0 then
          (if negb (N.land typeVal 0x02 =? 0) then DTA_TOKENID_BYTESTRING
           else if negb (N.land typeVal 0x01 =? 0) then DTA_TOKENID_SINT else DTA_TOKENID_UINT)
        else typeVal)
  end.

(** tcg/token.go:57-59 *)
Definition tok_length (t : bytes) : nat := List.length t.

(** tcg/token.go:81-84: for i := len-1 downto 1, b := 0,1,..: v |= uint64(buf[i]) << (8*b).
    The argument is the reversed tail of the token; Go shifts of 64 or more give 0. *)
Fixpoint or_shift (rdata : bytes) (b : N) (v : N) : N :=
  match rdata with
  | [] => v
  | x :: r => or_shift r (b + 1) (N.lor v (N.shiftl x (8 * b) mod 2 ^ 64))
  end.

(** tcg/token.go:61-93 GetUint64 *)
Definition get_uint64 (t : bytes) : res N :=
  match t with
  | [] => Panic
  | typeVal :: tail =>
    if N.land typeVal 0x80 =? 0 then
      (if negb (N.land typeVal 0x40 =? 0) then Err (EMsg "illegal data")
       else Ok (N.land typeVal 0x3f))
    else if N.land typeVal 0x40 =? 0 then
      (if negb (N.land typeVal 0x10 =? 0) then Err (EMsg "illegal data")
       else Ok (or_shift (rev tail) 0 0))
    else Err (EMsg "illegal data")
  end.

(** tcg/token.go:95-108: uint32(dres), err etc. (the value returned with a non-nil error is 0) *)
Definition narrow (m : N) (r : res N) : res N :=
  match r with Ok v => Ok (v mod m) | e => e end.
Definition get_uint32 (t : bytes) : res N := narrow (2 ^ 32) (get_uint64 t).
Definition get_uint16 (t : bytes) : res N := narrow (2 ^ 16) (get_uint64 t).
Definition get_uint8 (t : bytes) : res N := narrow (2 ^ 8) (get_uint64 t).

(** p.buf[offset:] — panics when offset > len *)
Definition slice_from (off : nat) (t : bytes) : res bytes :=
  if (List.length t <? off)%nat then Panic else Ok (skipn off t).

(** tcg/token.go:110-133 GetString *)
Definition get_string (t : bytes) : res bytes :=
  match t with
  | [] => Panic
  | typeVal :: _ =>
    if N.land typeVal 0x80 =? 0 then Err (EMsg "illegal data")
    else if N.land typeVal 0x40 =? 0 then slice_from 1 t
    else if N.land typeVal 0x20 =? 0 then slice_from 2 t
    else if N.land typeVal 0x10 =? 0 then slice_from 4 t
    else Ok []
  end.

(** tcg/token.go:135-158 GetBytes (nil and empty slices are identified) *)
Definition get_bytes (t : bytes) : res bytes :=
  match t with
  | [] => Panic
  | typeVal :: _ =>
    if N.land typeVal 0x80 =? 0 then Err (EMsg "illegal data")
    else if N.land typeVal 0x40 =? 0 then slice_from 1 t
    else if N.land typeVal 0x20 =? 0 then slice_from 2 t
    else if N.land typeVal 0x10 =? 0 then slice_from 4 t
    else Ok []
  end.

(** ---- tcg/response.go ---- *)

(** Memory as seen through unsafe pointers into the response buffer: the buffer itself followed by
    whatever the process has after it ([heap], indexed by the same offset).  A fault on unmapped
    memory is not modelled. *)
Definition rd (buf : bytes) (heap : N -> N) (i : N) : N :=
  match nth_error buf (N.to_nat i) with Some b => b | None => heap i end.

(** unsafe.Slice(cur, n) *)
Definition rd_slice (buf : bytes) (heap : N -> N) (cur n : N) : bytes :=
  map (fun k => rd buf heap (cur + N.of_nat k)) (seq 0 (N.to_nat n)).

(** tcg/response.go:60-76 length of the token starting at cur *)
Definition token_len (buf : bytes) (heap : N -> N) (cur : N) : N :=
  let c := rd buf heap cur in
  if N.land c 0x80 =? 0 then 1
  else if N.land c 0x40 =? 0 then N.land c 0x0f + 1
  else if N.land c 0x20 =? 0 then
    N.lor (N.shiftl (N.land c 0x07) 8) (rd buf heap (cur + 1)) + 2
  else if N.land c 0x10 =? 0 then
    N.lor (N.lor (N.shiftl (rd buf heap (cur + 1)) 16) (N.shiftl (rd buf heap (cur + 2)) 8))
          (rd buf heap (cur + 3)) + 4
  else 1.

(** tcg/response.go:59-86 the token loop; every step advances by at least one byte, so
    fuel = end - cur always suffices (proved). *)
Fixpoint commit_loop (fuel : nat) (buf : bytes) (heap : N -> N) (cur end_ : N) : res (list bytes) :=
  if cur <? end_ then
    match fuel with
    | O => Fuel
    | S f =>
      let curTokenLen := token_len buf heap cur in
      let tempTokenBuf := rd_slice buf heap cur curTokenLen in
      match commit_loop f buf heap (cur + curTokenLen) end_ with
      | Ok rest =>
        match tempTokenBuf with
        | [b] => if b =? EMPTYATOM then Ok rest else Ok (tempTokenBuf :: rest)
        | _ => Ok (tempTokenBuf :: rest)
        end
      | r => r
      end
    end
  else Ok [].

(** tcg/response.go:16-21; header/ptr are views of buf *)
Record response := { r_buf : bytes; r_tokens : list bytes }.

(** tcg/response.go:23-31 *)
Definition new_response : response :=
  {| r_buf := zeros (N.to_nat MIN_BUFFER_LENGTH); r_tokens := [] |}.

(** tcg/response.go:33-35 *)
Definition resp_reset (r : response) : response :=
  {| r_buf := zeros (List.length (r_buf r)); r_tokens := r_tokens r |}.

(** tcg/response.go:41-43 *)
Definition resp_buf_size : N := MIN_BUFFER_LENGTH.

(** tcg/response.go:45-91 Commit (returned response = the receiver after the call) *)
Definition commit (heap : N -> N) (r : response) : response * res unit :=
  let buf := r_buf r in
  let subpktLen := be32_at 52 buf in
  let cur := OPAL_HEADER_SIZE in
  let end_ := cur + subpktLen in
  if MIN_BUFFER_LENGTH <? end_ then (r, Err (EMsg "illegal data"))
  else match commit_loop (N.to_nat subpktLen) buf heap cur end_ with
       | Ok toks => ({| r_buf := buf; r_tokens := toks |}, Ok tt)
       | Err e => (r, Err e)
       | Panic => (r, Panic)
       | Fuel => (r, Fuel)
       end.

(** tcg/response.go:93-95 *)
Definition get_token_count (r : response) : Z := Z.of_nat (List.length (r_tokens r)).

(** tcg/response.go:97-102: nil when index >= len; a negative index panics *)
Definition get_token (r : response) (index : Z) : res (option bytes) :=
  if (get_token_count r <=? index)%Z then Ok None
  else if (index <? 0)%Z then Panic
  else Ok (nth_error (r_tokens r) (Z.to_nat index)).
