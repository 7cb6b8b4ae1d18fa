(** Specification vocabulary: what a run of calls on a drive handle learns from Level 0 discovery answers. *)
From Verif Require Import Base M_TcgDevice M_DriveHandle Spec_Drive.

(** Read from byte 32 on, the answer consists of the features [fs]: every one starts before the bound given by the length field, and after
    them the bound is reached. *)
Definition lists (buf : bytes) (fs : list feature) : Prop :=
  exists header rest, buf = header ++ descriptors fs ++ rest /\ List.length header = 32%nat /\ Forall feature_ok fs
  /\ be32_at 0 buf <= 32 + blen (descriptors fs)
  /\ (forall a f b, fs = a ++ f :: b -> 32 + blen (descriptors a) < be32_at 0 buf).

(** What one discovery answer contributes: nothing if the command failed or the length field exceeds the buffer, else what it lists. *)
Definition contributes (a : option err * bytes) (fs : list feature) : Prop :=
  match a with
  | (Some _, _) => fs = []
  | (None, buf) => if 2048 <? be32_at 0 buf then fs = [] else lists buf fs
  end.

(** The support value after a discovery answered [a]. *)
Definition support_of (a : option err * bytes) : Z :=
  match fst a with
  | None => 1
  | Some e => if String.eqb (err_text e) "not supported" then (-1)%Z else 0%Z
  end.
Definition last_support (old : Z) (answers : list (option err * bytes)) : Z := last (map support_of answers) old.

(** Calls of the DriveHandle interface (Init is not among them). *)
Definition interface_call (o : hop) : bool := match o with HInit => false | _ => true end.
(** No discovery of the run crashed. *)
Definition no_crash (outs : list hout) : Prop := ~ In (OutRes Panic) outs.
(** Buffers hold bytes. *)
Definition byte_driver (V : drv) : Prop := forall h, wf (snd (v_io V h)).
