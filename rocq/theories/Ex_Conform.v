(** C179 on a concrete drive with a PSID: it checks the PSID, and answers by the book. *)
From Verif Require Import Base Spec_Tcg M_TcgToken M_Buffer M_TcgCommand M_TcgDevice M_TcgSession Spec_TcgCommand Spec_TcgClient
  Spec_TcgSession P_TcgToken P_TcgDevice P_TcgSession Prop_TcgSession Ex_TcgSession P_Exchange Prop_Exchange Ex_Exchange Spec_Challenge P_Challenge Prop_Challenge
  Ex_Challenge Spec_Conform P_Conform Prop_Conform Inst_Tcg.

Definition excf_psid : bytes := [80; 83; 73; 68].
Definition excf_right : bytes := frame 0 0 0x1004 (start_payload uid_AdminSP (Some excf_psid) (uid8 uid_PSID)).
Definition excf_open : bytes := frame 0 0 0x1004 (start_payload uid_AdminSP None []).
Definition excf_get : bytes := frame 105 0x12345678 0x1004 (get_payload (uid8 uid_C_PIN_MSID) 3 3).
(** StartSession: granted with the PSID or without credential; Get: the MSID; anything else succeeds. *)
Definition excf_answer (cmd : bytes) : bytes :=
  if nth 73 cmd 0 =? 0xFF then if list_eq_dec N.eq_dec cmd excf_right then ex_packet ex_sync else if list_eq_dec N.eq_dec cmd excf_open then ex_packet ex_sync else ex_packet (ex_plain 1)
  else if list_eq_dec N.eq_dec cmd excf_get then ex_packet ex_pin else ex_packet (ex_plain 0).
Definition excf_env : env :=
  {| e_clock := fun h => slept h; e_sec := fun h => (None, if last_is_send h then [] else excf_answer (exch_last (rev h)));
     e_pbkdf2 := fun _ _ => repeat 7 32; e_heap := fun _ => 0; e_fuel := 500 |}.
Lemma excf_packet_wf p : wf p -> wf (ex_packet p).
Proof. intros Hp. unfold ex_packet. rewrite !wf_app. repeat split; auto using wf_zeros, be_bytes_wf. Qed.
Lemma excf_answer_wf cmd : wf (excf_answer cmd).
Proof. unfold excf_answer. destruct (_ =? _); repeat destruct (list_eq_dec _ _ _); apply excf_packet_wf; wf_now. Qed.
Lemma excf_env_ok : env_ok excf_env.
Proof.
  split; [|split].
  - intros h. cbn [excf_env e_sec snd]. destruct (last_is_send h); [apply wf_nil|apply excf_answer_wf].
  - intros j. reflexivity.
  - intros p s. cbn [excf_env e_pbkdf2]. split; [reflexivity|]. apply Forall_forall. intros x Hx. apply repeat_spec in Hx. subst. reflexivity.
Qed.

Lemma excf_carries p atoms : wf p -> p = stream atoms -> (List.length p <= 100)%nat -> be32_at off_sub_len (firstn 56 (ex_packet p)) = blen p -> carries (received (ex_packet p)) (stream atoms).
Proof.
  intros W <- L B. assert (E : ex_packet p = firstn 56 (ex_packet p) ++ p).
  { unfold ex_packet at 1 2. rewrite !app_assoc. set (x := ((((zeros 16 ++ be_bytes 4 (blen p + 36)) ++ zeros 20) ++ be_bytes 4 (blen p + 12)) ++ zeros 8) ++ be_bytes 4 (blen p)).
    assert (Lx : List.length x = 56%nat) by (unfold x; rewrite !app_length, !be_bytes_length; reflexivity).
    rewrite firstn_app, Lx, Nat.sub_diag, firstn_O, app_nil_r. rewrite firstn_all2 by (rewrite Lx; apply Nat.leb_le; reflexivity). reflexivity. }
  assert (Lh : List.length (firstn 56 (ex_packet p)) = 56%nat).
  { apply firstn_length_le. unfold ex_packet. rewrite !app_length, !be_bytes_length. unfold zeros. rewrite !repeat_length. lia. }
  pose proof (excf_packet_wf p W) as Wp. assert (Lp : List.length (ex_packet p) = (56 + List.length p)%nat) by (rewrite E at 1; rewrite app_length, Lh; reflexivity).
  exists (firstn 56 (ex_packet p)), (zeros (2048 - List.length (ex_packet p))). split; [|split; [exact Lh|split; [|split; [apply wf_zeros|split; [exact B|]]]]].
  - unfold received. rewrite firstn_all2 by lia. rewrite E at 1. rewrite <- app_assoc. reflexivity.
  - rewrite E in Wp at 1. apply wf_app in Wp. apply Wp.
  - rewrite Lh. unfold zeros. rewrite repeat_length, Lp. unfold resp_size. lia.
Qed.
(** Everything delivered at the first receive *)
Lemma excf_replies packet p atoms h : excf_answer packet = ex_packet p -> wf p -> p = stream atoms -> (List.length p <= 100)%nat ->
  be32_at off_sub_len (firstn 56 (ex_packet p)) = blen p -> be32_at off_outstanding (received (ex_packet p)) = 0 -> has_payload (received (ex_packet p)) ->
  Forall atom_ok atoms -> visible atoms = atoms -> replies excf_env 0x1004 packet h atoms.
Proof.
  intros Ea W Es L B O Pay Ok_ V. split; [reflexivity|]. exists 0%nat, atoms. split; [apply Nat.ltb_lt; reflexivity|]. split; [intros i Hi; lia|]. split; [reflexivity|]. split.
  - unfold elapsed. cbn [excf_env e_clock rounds repeat concat app]. rewrite !slept_app. cbn [slept]. lia.
  - assert (Q : snd (answer excf_env 1 0x1004 (h ++ [EvNow; EvSec true false 1 0x1004 packet 5]) 0) = ex_packet p).
    { unfold answer. cbn [excf_env e_sec snd]. destruct (exch_last_rounds (h ++ [EvNow; EvSec true false 1 0x1004 packet 5]) 0x1004 1 ltac:(lia)) as [L1 L2].
      rewrite L1, L2. rewrite rev_app_distr. exact Ea. }
    cbv zeta. rewrite Q. split; [intros [Hw _]; exact (Hw O)|]. split; [exact Pay|]. split; [now apply excf_carries|]. auto.
Qed.
Definition excf_sync : list atom := sync_session (Short false false [105]) (Short false false [0x12; 0x34; 0x56; 0x78]) [].
Lemma excf_sync_reply packet h : excf_answer packet = ex_packet ex_sync -> replies excf_env 0x1004 packet h excf_sync.
Proof.
  intros Ea. apply (excf_replies packet ex_sync); [exact Ea|wf_now|reflexivity|apply Nat.leb_le; reflexivity|vm_compute; reflexivity|vm_compute; reflexivity|
    vm_compute; repeat split; discriminate| |reflexivity].
  unfold excf_sync, sync_session, status_list. cbn [app]. repeat (apply Forall_cons; [cbn; first [split; [wf_now|reflexivity]|split; discriminate|reflexivity]|]). apply Forall_nil.
Qed.
Lemma excf_ok_reply packet h : excf_answer packet = ex_packet (ex_plain 0) -> replies excf_env 0x1004 packet h (no_result 0).
Proof.
  intros Ea. apply (excf_replies packet (ex_plain 0)); [exact Ea|wf_now|reflexivity|apply Nat.leb_le; reflexivity|vm_compute; reflexivity|vm_compute; reflexivity|
    vm_compute; repeat split; discriminate| |reflexivity].
  unfold no_result, status_list. cbn [app]. repeat (apply Forall_cons; [cbn; first [split; discriminate|reflexivity]|]). apply Forall_nil.
Qed.
Lemma excf_pin_reply h : replies excf_env 0x1004 excf_get h (one_cell 3 (Short true false [77; 83; 73; 68])).
Proof.
  apply (excf_replies excf_get ex_pin); [vm_compute; reflexivity|wf_now|reflexivity|apply Nat.leb_le; reflexivity|vm_compute; reflexivity|vm_compute; reflexivity|
    vm_compute; repeat split; discriminate| |reflexivity].
  unfold one_cell, status_list. cbn [app]. repeat (apply Forall_cons; [cbn; first [split; [wf_now|reflexivity]|split; discriminate|reflexivity]|]). apply Forall_nil.
Qed.

Lemma excf_right_presents : presents excf_right uid_AdminSP excf_psid uid_PSID.
Proof. apply start_presents; [reflexivity|reflexivity|wf_now|split; discriminate]. Qed.
Theorem excf_guards : guards excf_env ex_dev uid_PSID (fun p => p = excf_psid).
Proof.
  intros c h t resp packet sp ch Hx St Acc P.
  destruct (exec_cases excf_env ex_dev c 0x1004 h _ _ excf_env_ok eq_refl inst_com Hx) as (k & t' & Et & Ht & _). apply app_inv_head in Et. subst t'.
  apply io_tail_sends in Ht. rewrite Ht in St. injection St as <-.
  destruct (c19 excf_env ex_dev c 1 0x1004 h _ _ excf_env_ok eq_refl inst_com Hx) as [A B]. cbv zeta in A, B. clear Ht k.
  set (h1 := h ++ [EvNow; EvSec true false 1 0x1004 (cmd_slice c) 5]) in *.
  destruct (B eq_refl) as [(F & _)|(k & K & _ & _ & R)]; [discriminate F|]. unfold answer in R.
  assert (Q : exch_last (rev h1) = cmd_slice c) by (unfold h1; rewrite rev_app_distr; reflexivity).
  cbn [excf_env e_sec] in R. destruct (exch_last_rounds h1 0x1004 (S (k - 1)) ltac:(lia)) as [L1 L2]. rewrite L1, L2, Q in R.
  destruct R as [(_ & F)|(_ & _ & R)]; [discriminate F|].
  assert (N73 : nth 73 (cmd_slice c) 0 = 0xFF /\ nth 88 (cmd_slice c) 0 = 0xF2).
  { destruct P as (hd & a & rest & Lh & Ls & _ & _ & ->). do 8 (destruct sp as [|? sp]; [discriminate Ls|]). destruct sp; [|discriminate Ls].
    split; (rewrite app_nth2 by (rewrite Lh; apply Nat.leb_le; reflexivity)); rewrite Lh; reflexivity. }
  destruct N73 as [N73 N89]. unfold excf_answer in R. rewrite N73, N.eqb_refl in R.
  destruct (list_eq_dec N.eq_dec (cmd_slice c) excf_right) as [X|_]; [|destruct (list_eq_dec N.eq_dec (cmd_slice c) excf_open) as [X|_]].
  - rewrite X in P. destruct (C177_one_reading _ _ _ _ _ _ _ excf_right_presents P) as (_ & E & _). symmetry. exact E.
  - exfalso. rewrite X in N89. vm_compute in N89. discriminate N89.
  - exfalso. exact (exch_refused resp R Acc).
Qed.
Print Assumptions excf_guards.

(** The PSID, and only the PSID, reverts this drive; its factory password can be read. *)
Theorem ex_C179_psid pw : wf pw -> 1 <= blen pw <= 400 -> (snd (revert_tper excf_env ex_dev pw true false []) = Ok tt <-> pw = excf_psid).
Proof.
  intros W L. apply (C179_psid_iff excf_env ex_dev 0x1004 excf_psid pw false [] (Short false false [105]) 105 (Short false false [0x12; 0x34; 0x56; 0x78]) 0x12345678 []
    excf_env_ok eq_refl inst_com eq_refl W L excf_guards).
  - apply excf_sync_reply. vm_compute. reflexivity.
  - split; [split; [wf_now|reflexivity]|right; exists [105]; auto].
  - split; [split; [wf_now|reflexivity]|right; exists [0x12; 0x34; 0x56; 0x78]; auto].
  - intros k. apply excf_ok_reply. vm_compute. reflexivity.
Qed.
Print Assumptions ex_C179_psid.
Example ex_C179_password : exists h', get_default_password excf_env ex_dev [] = (h', Ok [77; 83; 73; 68]).
Proof.
  apply (C179_password excf_env ex_dev 0x1004 [] (Short false false [105]) 105 (Short false false [0x12; 0x34; 0x56; 0x78]) 0x12345678 [] (Short true false [77; 83; 73; 68]) _
    excf_env_ok eq_refl inst_com eq_refl).
  - apply excf_sync_reply. vm_compute. reflexivity.
  - split; [split; [wf_now|reflexivity]|right; exists [105]; auto].
  - split; [split; [wf_now|reflexivity]|right; exists [0x12; 0x34; 0x56; 0x78]; auto].
  - intros k. apply excf_pin_reply.
  - split; [split; [wf_now|reflexivity]|auto].
Qed.
Example ex_C179_wrong : snd (revert_tper excf_env ex_dev [1; 2; 3] true false []) = Err (ETcg 1).
Proof. vm_compute. reflexivity. Qed.
