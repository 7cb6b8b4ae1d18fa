(** The TCG client on a drive handle: tcg/drive_handle.go:19-22 is implemented by common/drive_handle.go:134-173, which calls the
    driver the handle was opened with. *)
From Verif Require Import Base M_Buffer M_TcgToken M_TcgCommand M_TcgDevice M_TcgSession M_DriveHandle.

(** Driver calls made by a history of the TCG client, after the earlier driver calls [h0] (opening, discovery, ...). *)
Definition driver_calls (V : drv) (p : dh) (h0 : dhist) (t : hist) : dhist :=
  fold_left (fun h e => match e with
                        | EvSec rw dma protocol comId b secs => fst (security_command V p h rw dma protocol comId b secs)
                        | _ => h
                        end) t h0.

(** Go types of the arguments of tcg/drive_handle.go:21: []byte, uint8, uint16, int; slices of 4 GiB and more are left out. *)
Definition typed_ev (e : ev) : bool :=
  match e with
  | EvSec _ _ protocol comId b _ => (protocol <? 256) && (comId <? 2 ^ 16) && (blen b <? 2 ^ 32) && forallb (fun x => x <? 256) b
  | _ => true
  end.

(** The outside world of the TCG client when it runs on the drive handle [p] over the driver [V]: SecurityCommand is the handle's
    (the answer for a history that Go's types exclude is irrelevant).  The clock is arbitrary; [kdf] is pbkdf2.Key, [heap] the memory behind
    a response buffer. *)
Definition drive_env (V : drv) (p : dh) (h0 : dhist) (clock : hist -> N) (kdf : bytes -> bytes -> bytes) (heap : N -> N) (fuel : nat) : env :=
  {| e_clock := clock;
     e_sec := fun t => match rev t with
                       | EvSec rw dma protocol comId b secs :: r =>
                           if forallb typed_ev t then snd (security_command V p (driver_calls V p h0 (rev r)) rw dma protocol comId b secs) else (None, [])
                       | _ => (None, [])
                       end;
     e_pbkdf2 := kdf; e_heap := heap; e_fuel := fuel |}.
