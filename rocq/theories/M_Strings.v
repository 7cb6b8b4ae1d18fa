(** The Go string functions the Linux code uses, on byte strings.  Go's strings package is assumed from its documentation; these are
    executable readings of it. *)
From Verif Require Import Base.

(** byte string of a literal *)
Fixpoint str (s : string) : bytes :=
  match s with EmptyString => [] | String c r => N.of_nat (Ascii.nat_of_ascii c) :: str r end.
Definition beq (a b : bytes) : bool := if list_eq_dec N.eq_dec a b then true else false.

Fixpoint has_prefix (p s : bytes) : bool :=
  match p, s with [], _ => true | x :: p', y :: s' => (x =? y) && has_prefix p' s' | _, _ => false end.
(** strings.Contains *)
Fixpoint contains (p s : bytes) : bool :=
  has_prefix p s || match s with [] => false | _ :: t => contains p t end.
(** strings.Cut with a one-byte separator: before, after; without a separator: s, "" *)
Fixpoint cut (sep : N) (s : bytes) : bytes * bytes :=
  match s with
  | [] => ([], [])
  | b :: t => if b =? sep then ([], t) else let (x, y) := cut sep t in (b :: x, y)
  end.
(** s[:i], s[i+1:] for i = strings.LastIndex(s, sep) with a one-byte sep; None for -1 *)
Fixpoint cut_last (sep : N) (s : bytes) : option (bytes * bytes) :=
  match s with
  | [] => None
  | b :: t =>
    match cut_last sep t with
    | Some (x, y) => Some (b :: x, y)
    | None => if b =? sep then Some ([], t) else None
    end
  end.
(** strings.TrimSuffix(s, one byte) *)
Definition trim_suffix (c : N) (s : bytes) : bytes :=
  match rev s with x :: t => if x =? c then rev t else s | [] => s end.
(** strings.ToLower / ToUpper on ASCII; simplification: other letters are left alone (the code applies them to GUID texts) *)
Definition lower (b : N) : N := if (65 <=? b) && (b <=? 90) then b + 32 else b.
Definition upper (b : N) : N := if (97 <=? b) && (b <=? 122) then b - 32 else b.
(** regexp \d, \w *)
Definition is_digit (b : N) : bool := (48 <=? b) && (b <=? 57).
Definition is_word (b : N) : bool := is_digit b || (65 <=? b) && (b <=? 90) || (97 <=? b) && (b <=? 122) || (b =? 95).
