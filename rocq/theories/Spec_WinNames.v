(** Vocabulary for C167, C168: the names the system hands out and gets back. *)
From Verif Require Import Base M_DriveHandle M_Strings M_WinPass M_WinNvme M_WinInfo M_WinFactory M_WinEnum M_Utf16 Spec_Utf16.

(** SetupAPI as documented, whatever else happens: the devices [ds], each with one interface whose path is given in UTF-16; a buffer too
    small for header (4 bytes), path and NUL is refused with ERROR_INSUFFICIENT_BUFFER (122) and the size needed. *)
Definition needs (us : list N) : N := 4 + 2 * (blen us + 1).
Fixpoint stored (us : list N) : bytes := match us with [] => [] | u :: t => [u mod 256; u / 256] ++ stored t end.
Definition path_answer (us : list N) (room : N) : N * (bytes * N) :=
  if room <? needs us then (122, ([], needs us)) else (0, ([8; 0; 0; 0] ++ stored us ++ [0; 0], needs us)).
Definition device_list (X : xsys) (ds : list (list N)) : Prop :=
  N.of_nat (List.length ds) < 2 ^ 32
  /\ (forall h d i, x_devinfo X (h ++ [XDevInfo d i]) = (i <? List.length ds)%nat)
  /\ (forall h d i us, nth_error ds i = Some us ->
        x_iface X (h ++ [XInterface d (N.of_nat i)]) = 0 /\ forall room, x_detail X (h ++ [XDetail d (N.of_nat i) room]) = path_answer us room)
  /\ Forall (fun us => name_units us /\ needs us <= 2 ^ 31) ds.
(** [us] survives the way through a Go string: well-formed UTF-16, or go 1.21 and later. *)
Definition survives (modern : bool) (us : list N) : Prop := modern = true \/ well_formed us.

(** From device [i] on, the devices [ds] are visited in order, each asked for its path once or twice and then opened with CreateFile under
    exactly that path before anything else; [xs]: the drives among them that could be opened. *)
Inductive visits (modern : bool) (d : N) : nat -> list (list N) -> xhist -> list whandle -> Prop :=
| visits_none i : visits modern d i [] [XDevInfo d i] []
| visits_one i us ds asks p w rest o xs :
    Forall (fun e => exists n, e = XDetail d (N.of_nat i) n) asks -> (1 <= List.length asks <= 2)%nat ->
    create_file_name modern p = Some us ->
    (forall x, o = Some x -> i_path (p_info (f_dh x)) = p) ->
    visits modern d (Datatypes.S i) ds rest xs ->
    visits modern d i (us :: ds) ([XDevInfo d i; XInterface d (N.of_nat i)] ++ asks ++ XSys (WOpen p) :: map XSys w ++ rest)
           (match o with Some x => x :: xs | None => xs end).

(** The names under which volumes were opened, in order. *)
Definition volume_opens (h : xhist) : list (list N) := flat_map (fun e => match e with XVolumeOpen v => [v] | _ => [] end) h.
