(** Vocabulary for drives opened on a complete Windows system.  From the model: the call types, the records of the public API, ReadBasicInfo
    and each driver's OpenByHandle (what those do is C101 and C90, C92, C94). *)
From Verif Require Import Base M_DriveHandle M_LinuxFactory M_WinPass M_WinNvme M_WinInfo M_WinFactory Spec_Drive Spec_LinuxFactory Spec_WinFactory Spec_LinuxSystem.

(** When the open device [hd] is examined after [h], the drivers before [k] in the fixed order refuse it and [k] accepts it as [d]; [g] is
    the history up to there. *)
Definition accepted_by (S : wsys) (A : waddr) (h : whist) (hd : N) (k : wkind) (d : wdh) (g : whist) : Prop :=
  exists h1 b before after h2, win_basic_info S h hd = (h1, Ok b) /\ driver_order = before ++ k :: after
  /\ refused S A hd h1 before h2 /\ win_probe S A h2 hd k = (g, Ok d).
(** [r] is a handle driven by [d], installed after [g], with the texts of the identify data [d] read and TCG information satisfying [P]. *)
Definition opens (r : res whandle) (d : wdh) (g : whist) (P : info -> Prop) : Prop :=
  exists x cs, r = Ok x /\ driven x d g cs /\ identified x d /\ P (p_info (f_dh x)).
(** Level 0 discovery was answered with [ans]: recorded, or, if its descriptors run over the buffer (C34), a crash. *)
Definition answered (ans : bytes) (r : res whandle) (d : wdh) (g : whist) : Prop :=
  (malformed ans /\ r = Panic) \/ (~ malformed ans /\ opens r d g (discovery_recorded (Some ans))).
(** It was refused with the text "not supported": TCG is recorded as unsupported (-1) instead of unknown (0). *)
Definition recorded_unsupported (i : info) : Prop := i_support i = (-1)%Z /\ reports (i_tcg i) [].
