(** Several goroutines using drive handles at the same time: common/drive_handle.go:95-173 (no method takes a lock) and
    plat_linux/drive_factory.go:38-86, over a kernel that hands out descriptors.  Interleaving of single accesses to p.Dh and system calls;
    an access to p.Dh is atomic (a Go interface value has two words; torn reads are left out). *)
From Verif Require Import Base.

(** A call made by a goroutine.  Handles are numbered in the order in which OpenByPath made them; a device is a number. *)
Inductive call_op :=
| OpOpen (dev : N)          (* OpenByPath *)
| OpClose (h : nat)         (* Close *)
| OpSecurity (h : nat)      (* SecurityCommand *)
| OpCommand (h : nat)       (* AtaDoTaskFileCmd, NvmeGetLogPage *)
| OpName (h : nat).         (* GetDrivingType, GetDriverName *)
Definition op_handle (o : call_op) : option nat :=
  match o with OpOpen _ => None | OpClose h | OpSecurity h | OpCommand h | OpName h => Some h end.

(** What can be observed, with the goroutine doing it.  [hit] is the device behind the descriptor when the kernel gets the call (None: the
    descriptor is not open). *)
Inductive label :=
| VBegin (t : nat) (o : call_op) | VEnd (t : nat) (o : call_op)
| VRead (t : nat) (o : call_op)                                     (* p.Dh is read, or a value is returned inside the call *)
| VOpen (t : nat) (o : call_op) (fd : N)                            (* open(2) *)
| VMade (t : nat) (dev : N) (fd : N) (h : nat)                      (* the new handle *)
| VIoctl (t : nat) (o : call_op) (fd : N) (hit : option N)
| VClose (t : nat) (o : call_op) (fd : N) (hit : option N)          (* close(2) *)
| VPanic (t : nat) (o : call_op).                                   (* nil pointer dereference: the program ends *)

(** Where a goroutine is *)
Inductive tstate :=
| TIdle
| TOpen (o : call_op) (dev : N)                    (* drive_factory.go:39: before open *)
| TProbe (o : call_op) (dev fd : N)                (* :43-50: the drivers try the descriptor *)
| TCheck (o : call_op) (h : nat)                   (* drive_handle.go:96, 135: before "p.Dh != nil" *)
| TCall (o : call_op) (h : nat)                    (* :97, 139, 107, 111: before p.Dh is read for the call *)
| TAssert (o : call_op) (h : nat) (n : nat)        (* :119, 127; 144, 163: before p.Dh.(AtaDriverHandle) or p.Dh.(NvmeDriverHandle); [n] more to come *)
| TDrv (o : call_op) (h : nat) (fd : N) (n : nat)  (* inside the driver, which owns [fd]; on an error [n] assertions follow *)
| TShut (o : call_op) (h : nat) (fd : N)           (* inside the driver's Close: nvme_driver.go:154-156, sg_driver.go:297-299 *)
| TClear (o : call_op) (h : nat)                   (* drive_handle.go:98: before p.Dh = nil *)
| TRet (o : call_op).                              (* before the return *)
Definition start_of (o : call_op) : tstate :=
  match o with
  | OpOpen dev => TOpen o dev
  | OpClose h | OpSecurity h => TCheck o h
  | OpCommand h => TAssert o h 0
  | OpName h => TCall o h
  end.

(** [c_cell h] is p.Dh of handle [h] (the descriptor of its driver), [c_table] the kernel's descriptor table, [c_next] the number of handles
    made, [c_dead] that the program has ended. *)
Record cstate := { c_cell : nat -> option N; c_table : N -> option N; c_thr : nat -> tstate; c_next : nat; c_dead : bool }.
Definition upd {A} (f : nat -> A) (k : nat) (v : A) : nat -> A := fun x => if Nat.eqb x k then v else f x.
Definition updN {A} (f : N -> A) (k : N) (v : A) : N -> A := fun x => if x =? k then v else f x.
Definition goto (s : cstate) (t : nat) (x : tstate) : cstate :=
  {| c_cell := c_cell s; c_table := c_table s; c_thr := upd (c_thr s) t x; c_next := c_next s; c_dead := c_dead s |}.
Definition with_cell (s : cstate) (h : nat) (v : option N) : cstate :=
  {| c_cell := upd (c_cell s) h v; c_table := c_table s; c_thr := c_thr s; c_next := c_next s; c_dead := c_dead s |}.
Definition with_table (s : cstate) (fd : N) (v : option N) : cstate :=
  {| c_cell := c_cell s; c_table := updN (c_table s) fd v; c_thr := c_thr s; c_next := c_next s; c_dead := c_dead s |}.
Definition add_handle (s : cstate) (fd : N) : cstate :=
  {| c_cell := upd (c_cell s) (c_next s) (Some fd); c_table := c_table s; c_thr := c_thr s; c_next := S (c_next s); c_dead := c_dead s |}.
Definition die (s : cstate) : cstate :=
  {| c_cell := c_cell s; c_table := c_table s; c_thr := c_thr s; c_next := c_next s; c_dead := true |}.

(** One step of goroutine [t].  Which driver accepts, whether a call fails, which interfaces a driver implements and how many ioctls it
    makes are left open: every choice is a step (C58-C74 say what the real drivers do). *)
Inductive tstep (s : cstate) (t : nat) : label -> cstate -> Prop :=
| s_begin o : c_thr s t = TIdle -> (forall h, op_handle o = Some h -> (h < c_next s)%nat) ->
    tstep s t (VBegin t o) (goto s t (start_of o))
| s_end o : c_thr s t = TRet o -> tstep s t (VEnd t o) (goto s t TIdle)
| s_open o dev fd : c_thr s t = TOpen o dev -> c_table s fd = None ->                     (* drive_factory.go:39, utils.go:31-34 *)
    tstep s t (VOpen t o fd) (goto (with_table s fd (Some dev)) t (TProbe o dev fd))
| s_open_fails o dev : c_thr s t = TOpen o dev -> tstep s t (VRead t o) (goto s t (TRet o))
| s_probe o dev fd : c_thr s t = TProbe o dev fd -> tstep s t (VIoctl t o fd (c_table s fd)) s
| s_made o dev fd : c_thr s t = TProbe o dev fd ->
    tstep s t (VMade t dev fd (c_next s)) (goto (add_handle s fd) t (TRet o))
| s_give_up o dev fd : c_thr s t = TProbe o dev fd ->                                     (* drive_factory.go:46-49 *)
    tstep s t (VClose t o fd (c_table s fd)) (goto (with_table s fd None) t (TRet o))
| s_check_nil o h : c_thr s t = TCheck o h -> c_cell s h = None -> tstep s t (VRead t o) (goto s t (TRet o))
| s_check o h fd : c_thr s t = TCheck o h -> c_cell s h = Some fd -> tstep s t (VRead t o) (goto s t (TCall o h))
| s_call_nil o h : c_thr s t = TCall o h -> c_cell s h = None -> tstep s t (VPanic t o) (die s)
| s_call o h fd : c_thr s t = TCall o h -> c_cell s h = Some fd ->
    tstep s t (VRead t o) (goto s t (match o with
                                     | OpClose _ => TShut o h fd
                                     | OpSecurity _ => TDrv o h fd 2
                                     | _ => TRet o
                                     end))
| s_assert_no o h n : c_thr s t = TAssert o h n ->                                        (* nil or another kind of driver *)
    tstep s t (VRead t o) (goto s t (match n with O => TRet o | S m => TAssert o h m end))
| s_assert o h n fd : c_thr s t = TAssert o h n -> c_cell s h = Some fd -> tstep s t (VRead t o) (goto s t (TDrv o h fd 0))
| s_ioctl o h fd n : c_thr s t = TDrv o h fd n -> tstep s t (VIoctl t o fd (c_table s fd)) s
| s_done o h fd n : c_thr s t = TDrv o h fd n -> tstep s t (VRead t o) (goto s t (TRet o))
| s_failed o h fd n : c_thr s t = TDrv o h fd (S n) -> tstep s t (VRead t o) (goto s t (TAssert o h n))
| s_shut o h fd : c_thr s t = TShut o h fd ->
    tstep s t (VClose t o fd (c_table s fd)) (goto (with_table s fd None) t (TClear o h))
| s_clear o h : c_thr s t = TClear o h -> tstep s t (VRead t o) (goto (with_cell s h None) t (TRet o)).

(** Executions: any goroutine may be next, until the program has ended. *)
Inductive crun : cstate -> list label -> cstate -> Prop :=
| run_nil s : crun s [] s
| run_snoc s tr s1 t l s2 : crun s tr s1 -> c_dead s1 = false -> tstep s1 t l s2 -> crun s (tr ++ [l]) s2.
(** At first no goroutine is inside the library and no handle exists; descriptors of other parts of the program may be open. *)
Definition fresh (s : cstate) : Prop := c_next s = O /\ c_dead s = false /\ forall t, c_thr s t = TIdle.
