(** Specification for C185 on Windows: the queries seen as control requests on the SCSI port [hd]. *)
From Verif Require Import Base Spec_Tcg M_TcgToken M_Buffer M_TcgCommand M_TcgDevice M_TcgSession Spec_TcgCommand Spec_TcgClient Spec_TcgSession Spec_Conform
  M_NvmeLinux Spec_NvmeLinux Spec_NvmeConform M_SgDriver Spec_Sg Spec_SataConform M_WinPass Spec_WinPass Prop_WinPass Spec_WinConform Spec_TableConform.

Inductive mp_reads (S : wsys) (hd com hv tv : N) (n : nat) : whist -> list query -> list reply -> Prop :=
| mp_none k : mp_reads S hd com hv tv n k [] []
| mp_next k q r qs rs : mp_replies S hd com (query_packet com hv tv q) k n (reply_atoms r) ->
    (forall c ks, mp_send hd com (query_packet com hv tv q) c -> Forall (mp_recv hd com) ks -> mp_reads S hd com hv tv n (k ++ c :: ks) qs rs) ->
    mp_reads S hd com hv tv n k (q :: qs) (r :: rs).
Definition mp_lets_read (S : wsys) (hd com : N) (k : whist) (n : nat) (start : bytes) (hv tv : N) (qs : list query) (rs : list reply) : Prop :=
  (exists ah at_ more, unsigned_atom ah hv /\ unsigned_atom at_ tv /\ mp_replies S hd com start k n (sync_session ah at_ more))
  /\ forall c ks, mp_send hd com start c -> Forall (mp_recv hd com) ks -> mp_reads S hd com hv tv n (k ++ c :: ks) qs rs.
