(** Model of internal/aligned_buffer.go, internal/wrapped_buffer.go and internal/utils.go. *)
From Verif Require Import Base.

(** internal/aligned_buffer.go:22-24; align = 0 divides by zero *)
Definition is_aligned_pointer (align pointer : N) : res bool :=
  if align =? 0 then Panic else Ok (pointer mod align =? 0).

(** internal/aligned_buffer.go:36-42: the pointer handed out, from the address [base] of the
    align+size byte allocation.  uintptr wrap-around is not modelled (the allocation exists, so
    base + align + size fits the address space). *)
Definition aligned_pointer (base align : N) : res N :=
  if align =? 0 then Panic
  else let tmp := base mod align in
       Ok (if 0 <? tmp then base + (align - tmp) else base).

(** internal/aligned_buffer.go:8-20; [a_data] are the [a_cap] bytes at the aligned pointer
    (refBuf is its prefix of length [a_limit]); positions are non-negative (no caller passes
    negative ones).  Also used for internal/wrapped_buffer.go:7-17, where [a_data] is the caller's slice. *)
Record abuf := { a_data : bytes; a_cap : nat; a_limit : nat; a_wpos : nat; a_rpos : nat }.

(** internal/aligned_buffer.go:26-46 *)
Definition new_aligned (size : nat) : abuf :=
  {| a_data := zeros size; a_cap := size; a_limit := size; a_wpos := 0; a_rpos := 0 |}.

(** internal/wrapped_buffer.go:19-30 *)
Definition new_wrapped (buffer : bytes) : abuf :=
  {| a_data := buffer; a_cap := List.length buffer; a_limit := List.length buffer; a_wpos := 0; a_rpos := 0 |}.

Definition with_data (b : abuf) (d : bytes) : abuf :=
  {| a_data := d; a_cap := a_cap b; a_limit := a_limit b; a_wpos := a_wpos b; a_rpos := a_rpos b |}.
(** internal/aligned_buffer.go:87-89 SetWritePos *)
Definition set_wpos (b : abuf) (n : nat) : abuf :=
  {| a_data := a_data b; a_cap := a_cap b; a_limit := a_limit b; a_wpos := n; a_rpos := a_rpos b |}.
(** internal/aligned_buffer.go:91-93 SetReadPos *)
Definition set_rpos (b : abuf) (n : nat) : abuf :=
  {| a_data := a_data b; a_cap := a_cap b; a_limit := a_limit b; a_wpos := a_wpos b; a_rpos := n |}.
(** internal/aligned_buffer.go:79-85, wrapped_buffer.go:41-47 *)
Definition reset_write (b : abuf) : abuf := set_wpos b 0.
Definition reset_read (b : abuf) : abuf := set_rpos b 0.

(** internal/aligned_buffer.go:64-67, wrapped_buffer.go:36-39.  Beyond the capacity the wrapped
    buffer panics and the aligned one would expose memory outside its region; both are [Panic] here. *)
Definition set_limit (b : abuf) (limit : nat) : abuf * res unit :=
  if (a_cap b <? limit)%nat then (b, Panic)
  else ({| a_data := a_data b; a_cap := a_cap b; a_limit := limit; a_wpos := a_wpos b; a_rpos := a_rpos b |}, Ok tt).

(** internal/aligned_buffer.go:69-77: positions to 0, bytes below the limit to 0 *)
Definition buf_reset (b : abuf) : abuf :=
  {| a_data := zeros (a_limit b) ++ skipn (a_limit b) (a_data b); a_cap := a_cap b; a_limit := a_limit b;
     a_wpos := 0; a_rpos := 0 |}.

(** internal/aligned_buffer.go:95-104 *)
Definition write_byte (b : abuf) (p : N) : abuf * res unit :=
  if (a_limit b <=? a_wpos b)%nat then (b, Err EEOF)
  else (set_wpos (with_data b (put (a_wpos b) [p] (a_data b))) (a_wpos b + 1), Ok tt).

(** internal/aligned_buffer.go:106-120 and wrapped_buffer.go:49-63: a position beyond the limit makes
    the slice expression panic; available = min(remaining, len p); 0 -> EOF. *)
Definition buf_write (b : abuf) (p : bytes) : abuf * res nat :=
  if (a_limit b <? a_wpos b)%nat then (b, Panic)
  else
    let available := Nat.min (a_limit b - a_wpos b) (List.length p) in
    if (available =? 0)%nat then (b, Err EEOF)
    else (set_wpos (with_data b (put (a_wpos b) (firstn available p) (a_data b))) (a_wpos b + available),
          Ok available).

(** internal/aligned_buffer.go:122-136 and wrapped_buffer.go:65-79; [n] = len(p), the result is p[:count] *)
Definition buf_read (b : abuf) (n : nat) : abuf * res bytes :=
  if (a_limit b <? a_rpos b)%nat then (b, Panic)
  else
    let available := Nat.min (a_limit b - a_rpos b) n in
    if (available =? 0)%nat then (b, Err EEOF)
    else (set_rpos b (a_rpos b + available), Ok (slice (a_rpos b) available (a_data b))).

(** Call histories of a buffer. *)
Inductive bop : Type :=
| OWrite (p : bytes) | OWriteByte (x : N) | ORead (n : nat) | OReset
| OResetRead | OResetWrite | OSetWritePos (n : nat) | OSetReadPos (n : nat) | OSetLimit (n : nat).

Inductive bout : Type := BCount (r : res nat) | BUnit (r : res unit) | BBytes (r : res bytes).

Definition bstep (b : abuf) (o : bop) : abuf * bout :=
  match o with
  | OWrite p => let (b', r) := buf_write b p in (b', BCount r)
  | OWriteByte x => let (b', r) := write_byte b x in (b', BUnit r)
  | ORead n => let (b', r) := buf_read b n in (b', BBytes r)
  | OReset => (buf_reset b, BUnit (Ok tt))
  | OResetRead => (reset_read b, BUnit (Ok tt))
  | OResetWrite => (reset_write b, BUnit (Ok tt))
  | OSetWritePos n => (set_wpos b n, BUnit (Ok tt))
  | OSetReadPos n => (set_rpos b n, BUnit (Ok tt))
  | OSetLimit n => let (b', r) := set_limit b n in (b', BUnit r)
  end.

Definition brun (b : abuf) (ops : list bop) : abuf := fold_left (fun s o => fst (bstep s o)) ops b.

(** ---- internal/utils.go ---- *)

(** internal/utils.go:31-37: pairs are swapped left to right; on an odd length input[i+1] panics
    (after the earlier pairs were swapped). *)
Fixpoint ata_swap_word_endian (l : bytes) : res bytes :=
  match l with
  | [] => Ok []
  | [_] => Panic
  | a :: b :: t => match ata_swap_word_endian t with Ok t' => Ok (b :: a :: t') | e => e end
  end.

(** internal/utils.go:39-41; x is a uint16 *)
Definition ata_swap16 (x : N) : N :=
  N.lor (N.shiftl (N.land x 0x00ff) 8 mod 2 ^ 16) (N.shiftr (N.land x 0xff00) 8).

(** internal/utils.go:43-45; x is a uint32 *)
Definition ata_swap32 (x : N) : N :=
  N.lor (N.lor (N.lor (N.shiftl (N.land x 0x000000ff) 24 mod 2 ^ 32) (N.shiftl (N.land x 0x0000ff00) 8 mod 2 ^ 32))
               (N.shiftr (N.land x 0x00ff0000) 8))
        (N.shiftr (N.land x 0xff000000) 24).

(** internal/utils.go:10-15 *)
Definition ternary {A} (statement : bool) (a b : A) : A := if statement then a else b.
