(** Vocabulary of C157, C158: which calls and which actions of a program on a Windows machine belong to one handle, and what it means for
    a system to give the answers of a machine.  [reply], [reply_of] and [replies] are those of Spec_Alone. *)
From Verif Require Import Base M_TcgDevice M_Ata M_DriveHandle M_LinuxFactory M_LinuxMachine Spec_Alone M_WinPass M_WinNvme M_WinFactory M_WinEnum M_WinMachine.

(** The calls of a program on its [i]-th handle. *)
Definition mcall_on (i : nat) (o : mop) : list hop := match o with MOn j c => if (j =? i)%nat then [c] else [] | _ => [] end.
Definition mcalls_on (i : nat) (ops : list mop) : list hop := flat_map (mcall_on i) ops.
(** What those calls hand back when the program runs on machine [X] from state [s]. *)
Definition mdriver_now (X : xsys) (s : mstate) (x : mhandle) : drv :=
  match mh_dev x with Some d => win_drv (wsys_at X (ms_hist s)) (waddr_at X (ms_hist s)) d [] | None => mno_drv end.
Fixpoint mreplies_on (X : xsys) (s : mstate) (i : nat) (ops : list mop) : list reply :=
  match ops with
  | [] => []
  | o :: rest => match nth_error (ms_handles s) i with Some x => map (reply_of (mdriver_now X s x) (mh_dh x) []) (mcall_on i o) | None => [] end
                 ++ mreplies_on X (mstep X s o) i rest
  end.
(** The actions (DeviceIoControl, CloseHandle, ...) a step adds to the machine's history, and those that the calls on the [i]-th handle add. *)
Definition done_between (s s' : mstate) : xhist := skipn (List.length (ms_hist s)) (ms_hist s').
Fixpoint mdone_on (X : xsys) (s : mstate) (i : nat) (ops : list mop) : xhist :=
  match ops with
  | [] => []
  | o :: rest => match mcall_on i o with [] => [] | _ => done_between s (mstep X s o) end ++ mdone_on X (mstep X s o) i rest
  end.
(** A program from state [s] on. *)
Definition mrun_from (X : xsys) (s : mstate) (ops : list mop) : mstate := fold_left (mstep X) ops s.

(** The answers of system [S] are answers of machine [X], each to the same request; the buffers have addresses they had on [X]. *)
Definition wanswers_of (X : xsys) (S : wsys) (A : waddr) : Prop :=
  (forall w e, exists g, s_io S (w ++ [e]) = x_io X (g ++ [XSys e])) /\ (forall w e, exists g, s_open S (w ++ [e]) = x_open X (g ++ [XSys e]))
  /\ (forall w, exists g, ad_data A w = x_data X g) /\ (forall w, exists g, ad_bounce A w = x_bounce X g).
(** The answers of machine [Y] are those of machine [X], each to the same request. *)
Definition same_answers {R} (f f' : xhist -> R) : Prop := forall h e, exists g, f' (h ++ [e]) = f (g ++ [e]).
Definition machine_answers_of (X Y : xsys) : Prop :=
  same_answers (x_io X) (x_io Y) /\ same_answers (x_open X) (x_open Y) /\ same_answers (x_class X) (x_class Y) /\ same_answers (x_devinfo X) (x_devinfo Y)
  /\ same_answers (x_iface X) (x_iface Y) /\ same_answers (x_detail X) (x_detail Y) /\ same_answers (x_mode X) (x_mode Y) /\ same_answers (x_first X) (x_first Y)
  /\ same_answers (x_next X) (x_next Y) /\ same_answers (x_names X) (x_names Y) /\ same_answers (x_info X) (x_info Y) /\ same_answers (x_type X) (x_type Y)
  /\ same_answers (x_vopen X) (x_vopen Y) /\ (forall h, exists g, x_data Y h = x_data X g) /\ (forall h, exists g, x_bounce Y h = x_bounce X g)
  /\ (forall t, x_text Y t = x_text X t).
