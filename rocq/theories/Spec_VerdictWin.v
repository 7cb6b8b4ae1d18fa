(** Specification for C183 on an NVMe drive behind a Windows miniport driver: as [nvme_judges] in Spec_Verdict, seen through the control requests. *)
From Verif Require Import Base Spec_Tcg M_TcgToken M_Buffer M_TcgCommand M_TcgDevice M_TcgSession M_WinPass Spec_Sg Spec_WinPass Prop_WinPass Spec_TcgCommand Spec_TcgClient Spec_TcgSession
  Spec_Conform Spec_NvmeConform Spec_WinConform Spec_Verdict.

Definition mp_judges (S : wsys) (hd com : N) (k : whist) (n : nat) (sp who pin : bytes) (hv tv : N) : Prop :=
  (exists ah at_ more, unsigned_atom ah hv /\ unsigned_atom at_ tv /\ mp_replies S hd com (open_packet com sp) k n (sync_session ah at_ more))
  /\ forall c rs ch, mp_send hd com (open_packet com sp) c -> Forall (mp_recv hd com) rs -> wf ch -> 1 <= blen ch <= 400 ->
       mp_replies S hd com (judge_packet com hv tv who ch) (k ++ c :: rs) n (boolean_result (same ch pin)).
