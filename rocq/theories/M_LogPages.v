(** Model of what a caller does with the exported structures of nvme/types.go and tcg/types.go: struc.UnpackWithOptions of a log page or a raw
    descriptor into them, and unsafe.Sizeof of them.  The library itself uses unsafe.Sizeof of a log page in cmd/develop/main_linux.go:56. *)
From Verif Require Import Base M_Buffer M_Struc M_Layouts.

(** struc.UnpackWithOptions(buffer, &page, &struc.Options{Order: ...}), nvme/types.go:417-428 and 434-457; [Little] is what
    internal/utils.go:17-22 gives, the library's default is [Big] *)
Definition decode_sanitize (o : order) (b : bytes) : res struct_val := struc_unpack o lay_SanitizeLogPage b.
Definition decode_smart (o : order) (b : bytes) : res struct_val := struc_unpack o lay_SmartLogPage b.

(** struc.Unpack(buffer, &descriptor), tcg/types.go:50-187, on a buffer of any length (the union of tcg/types.go:189-280 always has 16) *)
Definition decode_descriptor (lay : list fld) (b : bytes) : res struct_val := struc_unpack struc_default lay b.

(** unsafe.Sizeof of a structure of integers and arrays of integers (the Go specification and the gc compiler on 64-bit machines): each
    field starts at the next multiple of its element size, the whole is rounded up to the largest element size. *)
Definition round_up (n a : nat) : nat := ((n + (a - 1)) / a * a)%nat.
Fixpoint go_fields_end (lay : list fld) (off : nat) : nat :=
  match lay with [] => off | f :: lay' => go_fields_end lay' (round_up off (f_size f) + f_size f * f_count f) end.
Definition go_align (lay : list fld) : nat := fold_right (fun f a => Nat.max (f_size f) a) 1%nat lay.
Definition go_sizeof (lay : list fld) : nat := round_up (go_fields_end lay 0) (go_align lay).
