(** The part of Go's unicode/utf8, and strings.TrimSpace, that the code uses: plat_linux/drive_factory.go:167-177 (TrimSpace), plat_win/utils.go:31
    (through UTF16PtrFromString, see M_Utf16).  These are dependencies, modelled from their source. *)
From Verif Require Import Base.

Definition RUNE_ERROR : N := 0xFFFD.
(** unicode/utf8: is [b] a continuation byte within [lo]..[hi]? *)
Definition cont (lo hi b : N) : bool := (lo <=? b) && (b <=? hi).
Definition byte_at (i : nat) (s : bytes) : N := nth i s 0.
(** utf8.DecodeRuneInString: rune and size; (RuneError, 1) for anything not well-formed *)
Definition decode_rune (s : bytes) : N * nat :=
  let b0 := byte_at 0 s in let b1 := byte_at 1 s in let b2 := byte_at 2 s in let b3 := byte_at 3 s in
  let bad := (RUNE_ERROR, 1%nat) in
  if b0 <? 0x80 then (b0, 1%nat)
  else if b0 <? 0xC2 then bad
  else if b0 <? 0xE0 then
    if cont 0x80 0xBF b1 then (N.lor (N.shiftl (N.land b0 0x1F) 6) (N.land b1 0x3F), 2%nat) else bad
  else if b0 <? 0xF0 then
    if cont (if b0 =? 0xE0 then 0xA0 else 0x80) (if b0 =? 0xED then 0x9F else 0xBF) b1 && cont 0x80 0xBF b2
    then (N.lor (N.lor (N.shiftl (N.land b0 0x0F) 12) (N.shiftl (N.land b1 0x3F) 6)) (N.land b2 0x3F), 3%nat) else bad
  else if b0 <? 0xF5 then
    if cont (if b0 =? 0xF0 then 0x90 else 0x80) (if b0 =? 0xF4 then 0x8F else 0xBF) b1 && cont 0x80 0xBF b2 && cont 0x80 0xBF b3
    then (N.lor (N.lor (N.lor (N.shiftl (N.land b0 0x07) 18) (N.shiftl (N.land b1 0x3F) 12)) (N.shiftl (N.land b2 0x3F) 6)) (N.land b3 0x3F), 4%nat)
    else bad
  else bad.

(** utf8.RuneStart *)
Definition rune_start (b : N) : bool := negb (cont 0x80 0xBF b).
(** utf8.DecodeLastRuneInString of a string that is not empty: back from the last byte, at most three further, to a byte that starts a rune; if that
    rune does not end where the string does, the last byte alone counts, as (RuneError, 1) *)
Definition decode_last (s : bytes) : N * nat :=
  let n := List.length s in
  let b := last s 0 in
  if b <? 0x80 then (b, 1%nat)
  else match find (fun k => (k <=? n)%nat && rune_start (nth (n - k) s 0)) [2%nat; 3%nat; 4%nat] with
       | Some k => let '(r, m) := decode_rune (skipn (n - k) s) in if (m =? k)%nat then (r, m) else (RUNE_ERROR, 1%nat)
       | None => (RUNE_ERROR, 1%nat)
       end.
(** unicode.IsSpace *)
Definition is_space (r : N) : bool :=
  existsb (N.eqb r) [9; 10; 11; 12; 13; 32; 0x85; 0xA0; 0x1680; 0x2028; 0x2029; 0x202F; 0x205F; 0x3000] || (0x2000 <=? r) && (r <=? 0x200A).
(** strings.TrimLeftFunc, TrimRightFunc with unicode.IsSpace; [fuel]: the length suffices *)
Fixpoint trim_left (fuel : nat) (s : bytes) : bytes :=
  match fuel, s with
  | O, _ | _, [] => s
  | S f, _ => let '(r, n) := decode_rune s in if is_space r then trim_left f (skipn n s) else s
  end.
Fixpoint trim_right (fuel : nat) (s : bytes) : bytes :=
  match fuel, s with
  | O, _ | _, [] => s
  | S f, _ => let '(r, n) := decode_last s in if is_space r then trim_right f (firstn (List.length s - n) s) else s
  end.
(** strings.TrimSpace; Go's version handles ASCII ends without decoding, which makes no difference *)
Definition trim_space (s : bytes) : bytes := let t := trim_left (List.length s) s in trim_right (List.length t) t.
