(** Specification for C183 on a SATA drive: as [nvme_judges] in Spec_Verdict, seen through the SG_IO requests. *)
From Verif Require Import Base Spec_Tcg M_TcgToken M_Buffer M_TcgCommand M_TcgDevice M_TcgSession M_SgDriver Spec_Sg Spec_TcgCommand Spec_TcgClient Spec_TcgSession Spec_Conform Spec_NvmeConform Spec_SataConform
  Spec_Verdict.

Definition sata_judges (K : kern) (com : N) (k : sg_hist) (n : nat) (sp who pin : bytes) (hv tv : N) : Prop :=
  (exists ah at_ more, unsigned_atom ah hv /\ unsigned_atom at_ tv /\ sata_replies K com (open_packet com sp) k n (sync_session ah at_ more))
  /\ forall c rs ch, sp_out com (open_packet com sp) c -> Forall (sp_in com) rs -> wf ch -> 1 <= blen ch <= 400 ->
       sata_replies K com (judge_packet com hv tv who ch) (k ++ c :: rs) n (boolean_result (same ch pin)).
