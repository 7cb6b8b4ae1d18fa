(** Model of cmd/develop/main.go, over the complete Windows system. *)
From Verif Require Import Base M_Buffer M_TcgDevice M_DriveHandle M_Strings M_WinPass M_WinNvme M_WinInfo M_WinFactory M_WinEnum.

Inductive wshown :=
| WsError (e : err)
| WsDrive (i : nat) (x : whandle)                     (* main.go:26-27: the model and the whole information *)
| WsVolume (i : nat) (v : wvolume_info).              (* main.go:36-37 *)
Definition wstage {A} (r : res A) (ok : A -> list wshown) : option (list wshown) :=
  match r with Ok a => Some (ok a) | Err e => Some [WsError e] | Panic | Fuel => None end.
Definition wnumbered {A B} (f : nat -> A -> B) (l : list A) : list B := map (fun '(i, a) => f i a) (combine (seq 0 (List.length l)) l).
(** main.go:12-40; the boolean says whether main returned; [fuel] bounds the two enumeration loops *)
Definition develop_windows (X : xsys) (fuel : nat) (h : xhist) : xhist * (list wshown * bool) :=
  let '(h1, r1) := x_open_by_path X h (str "\\.\PhysicalDrive1") in
  match wstage r1 (fun _ => []) with
  | None => (h1, ([], false))
  | Some o1 =>
    let '(h2, r2) := win_enum_drives X fuel h1 in
    match wstage r2 (wnumbered WsDrive) with
    | None => (h2, (o1, false))
    | Some o2 =>
      let '(h3, r3) := win_enum_volumes X fuel h2 in
      match wstage r3 (fun vs => wnumbered WsVolume (win_get_list vs)) with
      | None => (h3, (o1 ++ o2, false))
      | Some o3 => (h3, (o1 ++ o2 ++ o3, true))
      end
    end
  end.
