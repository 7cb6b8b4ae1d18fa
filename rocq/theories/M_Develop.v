(** Model of the two development programs, cmd/develop/main_linux.go and cmd/develop/main.go, over the complete systems.  What a program
    prints is the list of things passed to log and spew; the text log and spew make of them is not modelled. *)
From Verif Require Import Base M_Buffer M_TcgDevice M_DriveHandle M_SgDriver M_SgHandle M_NvmeLinux M_Strings M_LinuxInfo M_LinuxFactory M_LinuxVolume M_LinuxSystem.

Inductive shown :=
| SError (e : err)                                    (* log.Println(err) *)
| SDrive (i : nat) (model serial fw vendor : bytes)   (* main_linux.go:30 *)
| SVolume (i : nat) (v : volume_info)                 (* main_linux.go:39-40 *)
| SInfo (x : handle)                                  (* main_linux.go:54: the drive information of the handle *)
| SPage (b : bytes).                                  (* main_linux.go:60 *)

(** "if err != nil { log } else { ok }"; None: the call panicked *)
Definition stage {A} (r : res A) (ok : A -> list shown) : option (list shown) :=
  match r with Ok a => Some (ok a) | Err e => Some [SError e] | Panic | Fuel => None end.
Definition numbered {A B} (f : nat -> A -> B) (l : list A) : list B := map (fun '(i, a) => f i a) (combine (seq 0 (List.length l)) l).
(** main_linux.go:29-31 *)
Definition drive_line (i : nat) (x : handle) : shown :=
  SDrive i (i_model (p_info (l_dh x))) (i_serial (p_info (l_dh x))) (i_fw (p_info (l_dh x))) (l_vendor x).

(** main_linux.go:56-60 on an open handle; a handle without driver refuses (common/drive_handle.go:126-132).  516 is
    unsafe.Sizeof(nvme.SmartLogPage{}) (nvme/types.go:434-457): the size of the structure in memory, where Go aligns the fields of 2 and 4
    bytes, not the 512 bytes of the page (M_LogPages.go_sizeof computes it from the fields). *)
Definition log_stage (x : handle) : dhist * list shown :=
  let '(cs, (page, e)) :=
    match l_drv x with
    | Some V => nvme_get_log_page V (l_dh x) (l_calls x) 0xffffffff 2 false 516
    | None => (l_calls x, ([], Some ENotSupportThisDriver))
    end in
  (cs, match e with Some e => [SError e; SPage page] | None => [SPage page] end).

(** What is left of a run: what was printed, and the handle of /dev/nvme0n1 with all calls made to its driver if main returned
    (None: the program crashed). *)
Record run := { rn_shown : list shown; rn_end : option handle }.

(** main_linux.go:16-61; [M] answers /proc/mounts, [order] is the order of Go's map iteration *)
Definition develop_linux (S : system) (M : lhist -> err + mounts) (order : volumes -> volumes) (h : lhist) : lhist * run :=
  let W := linux S in
  let '(h1, r1) := open_by_path W h (str "/dev/sda") in
  match stage r1 (fun _ => []) with
  | None => (h1, {| rn_shown := []; rn_end := None |})
  | Some o1 =>
    let '(h2, r2) := enum_drives W h1 in
    match stage r2 (numbered drive_line) with
    | None => (h2, {| rn_shown := o1; rn_end := None |})
    | Some o2 =>
      let '(h3, r3) := enum_volumes {| vw := W; vw_mounts := M |} h2 in
      match stage r3 (fun vs => numbered SVolume (get_list order vs)) with
      | None => (h3, {| rn_shown := o1 ++ o2; rn_end := None |})
      | Some o3 =>
        let '(h4, r4) := open_by_path W h3 (str "/dev/nvme0n1") in
        match r4 with
        | Ok x => let '(cs, o4) := log_stage x in (h4, {| rn_shown := o1 ++ o2 ++ o3 ++ SInfo x :: o4; rn_end := Some (with_calls x cs) |})
        | Err e => (h4, {| rn_shown := o1 ++ o2 ++ o3 ++ [SError e]; rn_end := None |})      (* line 53: method call on a nil interface *)
        | Panic | Fuel => (h4, {| rn_shown := o1 ++ o2 ++ o3; rn_end := None |})
        end
      end
    end
  end.
