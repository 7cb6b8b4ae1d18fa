(** Non-vacuity: concrete instances meeting the hypotheses of C01-C15, C44-C47. *)
From Verif Require Import Base Spec_Tcg Spec_Buffer M_TcgToken M_Buffer M_TcgCommand Spec_TcgCommand Spec_TcgClient
  P_TcgToken P_TcgCommand P_TcgComplete P_TcgProps P_BufferProps Prop_Tcg Prop_Buffer.

Definition ex_uid : bytes := [0; 0; 2; 5; 0; 0; 0; 1].
Definition ex_meth : bytes := [0; 0; 0; 6; 0; 0; 2; 2].
Definition ex_init : cmd := fst (cmd_init new_command (IUid ex_uid) (MMethod ex_meth)).

(** hypotheses of C01, C02, C03, C10, C11, C12: a command after Init, payload F8 A8 uid A8 method *)
Example ex_holds : holds ex_init (zeros 56) ([0xF8; 0xA8] ++ ex_uid ++ [0xA8] ++ ex_meth).
Proof.
  destruct (init_holds new_command (IUid ex_uid) (MMethod ex_meth) cmd_wf_new) as (A & _).
  rewrite firstn_all2 in A; [exact A|]. rewrite PCAP_val. cbn [init_bytes app List.length ex_uid ex_meth]. lia.
Qed.
Example ex_fresh : fresh ex_init (firstn payload_capacity (init_bytes (IUid ex_uid) (MMethod ex_meth))).
Proof. apply fresh_init. exact cmd_wf_new. Qed.

(** C01 at 2^40 + 7: an 8-byte atom that reads back. *)
Example ex_c01 : get_uint64 (0x88 :: be_bytes 8 (2 ^ 40 + 7)) = Ok (2 ^ 40 + 7)
  /\ get_uint32 (0x88 :: be_bytes 8 (2 ^ 40 + 7)) = Ok 7.
Proof. vm_compute. auto. Qed.

(** C02 / C03: texts on both sides of the bound *)
Example ex_c02 : wf (repeat 65 300) /\ 1 <= blen (repeat 65 300) <= 2047.
Proof. split; [apply Forall_forall; intros x H; apply repeat_spec in H; subst; reflexivity | vm_compute; split; discriminate]. Qed.
Example ex_c03 : blen (repeat 65 2048) = 2048.
Proof. vm_compute. reflexivity. Qed.

(** C04: all atom shapes, with an empty atom in the middle, in a buffer *)
Definition ex_atoms : list atom :=
  [Ctl 0xF0; Tiny false 5; Short true false [1; 2; 3]; Ctl 0xFF; Medium true false (repeat 9 20); Long false true [7]; Ctl 0xF1].
Example ex_c04 : Forall atom_ok ex_atoms /\ (exists buf, carries buf (stream ex_atoms)) /\ List.length (visible ex_atoms) = 6%nat.
Proof.
  split.
  - unfold ex_atoms. repeat (apply Forall_cons; [cbn [atom_ok]; try split; try (vm_compute; congruence); try (repeat (apply wf_cons; split; [lia|]); apply wf_nil)|]).
    apply Forall_nil.
  - split; [apply carries_exists; vm_compute; lia|reflexivity].
Qed.

(** C05 / C06: the leaking response meets the hypotheses *)
Example ex_c05 : List.length (r_buf leaky) = 2048%nat /\ be32_at 52 (r_buf leaky) = 1992.
Proof. vm_compute. auto. Qed.

(** C11 / C12: the RevertTPer command *)
Example ex_c11 :
  let x := complete (crun ex_init [CTok (TOpalToken STARTLIST); CTok (TOpalToken ENDLIST)]) None in
  (match snd x with Ok _ => true | _ => false end, be32_at 52 (a_data (fst x)), be32_at 40 (a_data (fst x)),
   be32_at 16 (a_data (fst x)), get_cmd_size (fst x)) = (true, 27, 40, 64, 512).
Proof. vm_compute. reflexivity. Qed.

(** C12: a command that is cut: 600 raw bytes *)
Example ex_c12_cut : exists pl, holds (crun ex_init [CRaw (repeat 7 600)]) (zeros 56) pl /\ 456 < pad4 (blen (pl ++ status_trailer)).
Proof.
  eexists. split.
  - apply (crun_holds [CRaw (repeat 7 600)] ex_init (zeros 56) (init_bytes (IUid ex_uid) (MMethod ex_meth))).
    + apply init_holds. exact cmd_wf_new.
    + apply Forall_cons; [|apply Forall_nil]. cbn [call_ok]. apply Forall_forall. intros x H. apply repeat_spec in H. subst. reflexivity.
  - rewrite firstn_all2; [vm_compute; reflexivity|]. apply Nat.leb_le. vm_compute. reflexivity.
Qed.

(** C14 *)
Example ex_c14 : Forall item_ok [ItCtl 0xF0; ItNum 105; ItUid ex_uid; ItStr [112; 119]; ItNum (2 ^ 63); ItCtl 0xF1].
Proof.
  repeat (apply Forall_cons; [cbn [item_ok]; try split; try (vm_compute; congruence); try lia;
     try (repeat (apply wf_cons; split; [lia|]); apply wf_nil)|]). 2: apply Forall_nil.
  split; [apply N.leb_le; reflexivity|]. apply N.ltb_lt. reflexivity.
Qed.

(** C44-C46 *)
Example ex_c44 : aligned_pointer 4100 4096 = Ok 8192.
Proof. reflexivity. Qed.
Example ex_c45 : reads (brun (new_aligned 6) (map OWrite [[1; 2]; [3]])) [2; 3; 9; 1]%nat
  = [Ok [1; 2]; Ok [3; 0; 0]; Ok [0]; Err EEOF].
Proof. reflexivity. Qed.
Example ex_c46_short : snd (buf_write (set_wpos (new_aligned 4) 3) [1; 2; 3]) = Ok 1%nat.
Proof. reflexivity. Qed.
