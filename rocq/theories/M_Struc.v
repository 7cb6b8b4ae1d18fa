(** Model of the library call struc.Unpack / struc.UnpackWithOptions as the repo uses it (fixed-size integers and arrays,
    no sizeof/sizefrom tags): fields are read in order with io.ReadFull and decoded in the byte order of the options
    (big-endian when none are given).  internal/utils.go:17-29 gives the two option values. *)
From Verif Require Import Base M_Buffer.

Inductive order : Type := Big | Little.

(** internal/utils.go:17-22, 24-29; struc's default without options is big-endian *)
Definition GetStrucOptions : order := Little.
Definition GetStrucOptionsWithBigEndian : order := Big.
Definition struc_default : order := Big.

(** One flattened field: Go path, bytes per element, number of elements. *)
Record fld := { f_name : string; f_size : nat; f_count : nat }.
Definition F (n : string) (s c : nat) : fld := {| f_name := n; f_size := s; f_count := c |}.

(** A decoded struct: the element values of each field, in order. *)
Definition struct_val := list (string * list N).

Definition decode_int (o : order) (b : bytes) : N := match o with Big => be_val b | Little => le_val b end.

(** The [n] elements of [sz] bytes at the start of [b]. *)
Fixpoint decode_elems (o : order) (sz n : nat) (b : bytes) : list N :=
  match n with
  | O => []
  | S k => decode_int o (firstn sz b) :: decode_elems o sz k (skipn sz b)
  end.

(** io.ReadFull of [n] bytes from a reader over the remaining bytes [b] (internal/wrapped_buffer.go:65-79):
    nothing left is io.EOF, too little is io.ErrUnexpectedEOF *)
Definition read_full (n : nat) (b : bytes) : res (bytes * bytes) :=
  if (n <=? List.length b)%nat then Ok (firstn n b, skipn n b)
  else match b with [] => Err EEOF | _ => Err EUnexpectedEOF end.

Fixpoint struc_unpack (o : order) (lay : list fld) (b : bytes) : res struct_val :=
  match lay with
  | [] => Ok []
  | f :: lay' =>
    match read_full (f_size f * f_count f) b with
    | Ok (d, rest) =>
      match struc_unpack o lay' rest with
      | Ok v => Ok ((f_name f, decode_elems o (f_size f) (f_count f) d) :: v)
      | Err e => Err e | Panic => Panic | Fuel => Fuel
      end
    | Err e => Err e | Panic => Panic | Fuel => Fuel
    end
  end.

(** struc.Sizeof *)
Fixpoint struc_sizeof (lay : list fld) : nat :=
  match lay with [] => 0 | f :: lay' => f_size f * f_count f + struc_sizeof lay' end.

(** Field access x.Name on a decoded struct (array value), and its first element. *)
Fixpoint field (n : string) (v : struct_val) : list N :=
  match v with [] => [] | (m, d) :: v' => if String.eqb n m then d else field n v' end.
Definition field1 (n : string) (v : struct_val) : N := nth 0 (field n v) 0.

(** Assignment to the array field [n]. *)
Fixpoint set_field (n : string) (d : list N) (v : struct_val) : struct_val :=
  match v with
  | [] => []
  | (m, x) :: v' => if String.eqb n m then (m, d) :: v' else (m, x) :: set_field n d v'
  end.
