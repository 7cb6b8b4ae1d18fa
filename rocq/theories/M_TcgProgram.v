(** A program's calls on one TCG device: any number of sessions, their methods, the device's own operations, and other activity in between.
    Composition of tcg/session.go:23-188 and tcg/device.go:34-44 as modelled in M_TcgSession.v. *)
From Verif Require Import Base M_TcgToken M_Buffer M_TcgCommand M_TcgDevice M_TcgSession M_TcgTables.

Inductive tcall : Type :=
| TNew                                                       (* NewTcgSession, session.go:23-29 *)
| TSession (i : nat) (o : sop)                               (* a method of the i-th session, session.go:31-238 *)
| TTable (i : nat) (table : bytes) (startCol endCol : N)     (* device.OpalGetTable with the i-th session, device_opal.go:132-155 *)
| TPassword                                                  (* device.GetDefaultPassword, device_opal.go:157-178 *)
| TRevert (pw : bytes) (isPsid isAdminSp : bool)             (* device.RevertTPer, device_opal.go:105-130 *)
| TElse (t : hist).                                          (* what else the program does meanwhile *)

Definition result_of {A} (r : res A) : res unit := match r with Ok _ => Ok tt | Err e => Err e | Panic => Panic | Fuel => Fuel end.
Fixpoint replace_nth {A} (n : nat) (x : A) (l : list A) : list A :=
  match n, l with O, _ :: r => x :: r | S n, y :: r => y :: replace_nth n x r | _, [] => [] end.

(** Sessions are numbered in the order of their creation; a call on a session not created yet does nothing. *)
Definition tstep (E : env) (d : device) (ss : list session) (h : hist) (c : tcall) : list session * hist * res unit :=
  match c with
  | TNew => (ss ++ [new_session], h, Ok tt)
  | TSession i o =>
    match nth_error ss i with
    | Some s => let '(s', h', r) := sstep E d (s, h) o in (replace_nth i s' ss, h', r)
    | None => (ss, h, Err (EMsg "no such session"))
    end
  | TTable i table a b =>
    match nth_error ss i with
    | Some s => let (h', r) := device_get_table E d d s table a b h in (ss, h', only_err r)
    | None => (ss, h, Err (EMsg "no such session"))
    end
  | TPassword => let (h', r) := get_default_password E d h in (ss, h', result_of r)
  | TRevert pw isPsid isAdm => let (h', r) := revert_tper E d pw isPsid isAdm h in (ss, h', r)
  | TElse t => (ss, h ++ t, Ok tt)
  end.
Fixpoint trun (E : env) (d : device) (ss : list session) (h : hist) (p : list tcall) : list session * hist * list (res unit) :=
  match p with
  | [] => (ss, h, [])
  | c :: q =>
    let '(ss1, h1, r) := tstep E d ss h c in
    let '(ss2, h2, rs) := trun E d ss1 h1 q in (ss2, h2, r :: rs)
  end.
