(** The theorems of C14 - C31, C127 and C173 applied to concrete devices, sessions and drives: every hypothesis is met at once. *)
From Verif Require Import Base Spec_Tcg M_TcgToken M_Buffer M_TcgCommand M_TcgDevice M_TcgSession M_TcgTables Spec_TcgCommand Spec_TcgClient
  Spec_TcgSession P_TcgCommand P_TcgDevice P_TcgSession Prop_Tcg Prop_TcgDevice Prop_TcgSession Prop_TcgTrust M_Sha1 Spec_Sha1 P_Sha1 Prop_Sha1 Ex_TcgSession.

Lemma pair3 {A B C} (x : A * B * C) : x = (fst (fst x), snd (fst x), snd x).
Proof. destruct x as [[a b] c]. reflexivity. Qed.
Ltac wf_now := repeat (apply wf_cons; split; [reflexivity|]); apply wf_nil.
Lemma inst_env b : wf b -> blen b < 1000 -> env_ok (ex_env b).
Proof. exact (ex_env_ok b). Qed.
Lemma inst_com : get_base_com_id ex_dev = Ok 0x1004.
Proof. reflexivity. Qed.
Lemma ex_plain_wf n : n < 256 -> wf (ex_plain n).
Proof. intros H. unfold ex_plain. do 4 (apply wf_cons; split; [reflexivity|]). apply wf_cons. split; [exact H|]. wf_now. Qed.

(** the session the drive grants in answer to a StartSession with a password: numbers 105 and 12345678h *)
Example inst_C27 := C27_one_determined_startsession (ex_env []) ex_dev new_session uid_AdminSP [112; 119] (AUid uid_SID) 0x1004 [] _ _ _ 0 0
  (inst_env [] (wf_nil) eq_refl) eq_refl inst_com eq_refl ltac:(split; reflexivity) ltac:(wf_now) eq_refl ltac:(wf_now) ltac:(wf_now) ltac:(vm_compute; discriminate) (pair3 _).

(** the numbers of that session are on the next command *)
Definition inst_started := session_start (ex_env []) ex_dev new_session uid_AdminSP [] ANil [].
Lemma inst_numbers : numbers ex_session 105 0x12345678.
Proof. split; vm_compute; reflexivity. Qed.
Example inst_C26 := C26_numbers_on_the_wire (ex_env (ex_plain 0)) ex_dev ex_session ex_start_hist [] _ _ revert_command 0x1004 _ _ 105 0x12345678
  (inst_env (ex_plain 0) (ex_plain_wf 0 eq_refl) eq_refl) eq_refl inst_com eq_refl inst_numbers (Forall_nil _) eq_refl
  ltac:(apply Nat.leb_le; vm_compute; reflexivity) ltac:(vm_compute; discriminate) (surjective_pairing _).

(** RevertTPer of a drive that accepts the Revert and of one that refuses it *)
Example inst_C29 status (H : status < 256) := C29_revert_only_after_start (ex_env (ex_plain status)) ex_dev 0x1004 [112; 119] false false [] _ _
  (inst_env (ex_plain status) (ex_plain_wf status H) eq_refl) eq_refl inst_com eq_refl ltac:(wf_now) (surjective_pairing _).

(** Authenticate answered by TRUE *)
Example inst_C30 := C30_boolean_backwards (ex_env ([0xF0; 1] ++ ok_tail)) ex_dev ex_session (uid8 uid_SID) [112] 0x1004 ex_start_hist _ _ 105 0x12345678
  (inst_env ([0xF0; 1] ++ ok_tail) ltac:(wf_now) eq_refl) eq_refl inst_com eq_refl inst_numbers ltac:(wf_now) ltac:(wf_now) ltac:(vm_compute; discriminate) (surjective_pairing _).

(** GetDefaultPassword of a drive that answers MSID *)
Example inst_C31 := C31_default_password (ex_env ex_pin) ex_dev 0x1004 [] _ _ (inst_env ex_pin ltac:(wf_now) eq_refl) eq_refl inst_com eq_refl (surjective_pairing _).

(** Exec against a drive that never answers *)
Lemma inst_busy : env_ok ex_busy.
Proof.
  split; [|split].
  - intros h. cbn [ex_busy e_sec snd]. destruct (last_is_send h); [apply wf_nil|]. apply wf_app. split; [apply wf_zeros|]. wf_now.
  - intros j. reflexivity.
  - intros p s. split; [reflexivity|]. apply Forall_forall. intros x Hx. apply repeat_spec in Hx. subst. reflexivity.
Qed.
Example inst_C20 := C20_exec_terminates ex_busy ex_dev revert_command 1 0x1004 [] _ _ inst_busy
  ltac:(intros h t; cbn [ex_busy e_clock]; rewrite slept_app; lia) ltac:(apply Nat.leb_le; vm_compute; reflexivity) (fun _ => inst_com) (surjective_pairing _).

(** the table readers in that session *)
Example inst_C127 := C127_get_table (ex_env ex_pin) ex_dev ex_dev ex_session (uid8 uid_C_PIN_MSID) 3 3 0x1004 ex_start_hist _ _ 105 0x12345678
  ltac:(cbn; auto) (inst_env ex_pin ltac:(wf_now) eq_refl) eq_refl inst_com eq_refl inst_numbers ltac:(wf_now) ltac:(vm_compute; discriminate) eq_refl eq_refl (surjective_pairing _).
Example inst_C127_by_name := C127_get_table_by_name (ex_env ex_pin) ex_dev ex_session (uid8 uid_C_PIN_MSID) [80; 73; 78] [80; 73; 78] 0x1004 ex_start_hist _ _ 105 0x12345678
  (inst_env ex_pin ltac:(wf_now) eq_refl) eq_refl inst_com eq_refl inst_numbers ltac:(wf_now) ltac:(vm_compute; discriminate) ltac:(wf_now) ltac:(wf_now) (surjective_pairing _).

(** the real key derivation *)
Definition inst_real (second : bytes) : env :=
  {| e_clock := e_clock (ex_env second); e_sec := e_sec (ex_env second); e_pbkdf2 := go_pbkdf2; e_heap := fun _ => 0; e_fuel := 500 |}.
Lemma inst_real_ok second : wf second -> blen second < 1000 -> real_env (inst_real second).
Proof. intros W L. split; [reflexivity|]. split; [exact (proj1 (inst_env second W L))|]. intros j. reflexivity. Qed.
Example inst_C173_start := C173_start_session (inst_real []) ex_dev new_session uid_AdminSP [112; 119] (AUid uid_SID) 0x1004 [] _ _ _ 0 0
  (inst_real_ok [] wf_nil eq_refl) eq_refl inst_com eq_refl ltac:(split; reflexivity) ltac:(wf_now) eq_refl ltac:(wf_now) ltac:(wf_now) ltac:(wf_now) ltac:(vm_compute; discriminate) (pair3 _).
Example inst_C173_authenticate := C173_authenticate (inst_real ([0xF0; 1] ++ ok_tail)) ex_dev ex_session (uid8 uid_SID) [112] 0x1004 ex_start_hist _ _ 105 0x12345678
  (inst_real_ok ([0xF0; 1] ++ ok_tail) ltac:(wf_now) eq_refl) eq_refl inst_com eq_refl inst_numbers ltac:(wf_now) ltac:(wf_now) ltac:(wf_now) ltac:(vm_compute; discriminate) (surjective_pairing _).

(** a method call with six parameters read back from its own packet *)
Definition inst_items : list item := [ItCtl 0xF0; ItNum 105; ItUid uid_SID; ItStr [112; 119]; ItNum (2 ^ 63); ItCtl 0xF1].
Lemma inst_items_ok : Forall item_ok inst_items.
Proof.
  unfold inst_items. repeat (apply Forall_cons; [cbn [item_ok]|]); [split; discriminate|reflexivity|split; [wf_now|reflexivity]|split; [wf_now|split; [discriminate|reflexivity]]|reflexivity|split; discriminate|apply Forall_nil].
Qed.
Example inst_C14 toks := C14_loopback (fun _ => 0) new_command uid_SID [0; 0; 0; 6; 0; 0; 0; 0x0C] inst_items toks
  cmd_wf_new (fun _ => eq_refl) ltac:(wf_now) eq_refl ltac:(wf_now) eq_refl
  inst_items_ok
  ltac:(apply Nat.leb_le; vm_compute; reflexivity).

(** a refused Revert: the status in the answer is the error SendCommand returns *)
Definition inst_stamped : cmd := set_com_id (set_tsn (set_hsn revert_command (s_hsn ex_session mod 2 ^ 32)) (s_tsn ex_session mod 2 ^ 32)) 0x1004.
Definition inst_refusal := exec (ex_env (ex_plain 1)) ex_dev inst_stamped 1 ex_start_hist.
Definition inst_response : response := match snd inst_refusal with Ok (Some r, None) => r | _ => {| r_buf := []; r_tokens := [] |} end.
Lemma inst_refused : snd inst_refusal = Ok (Some inst_response, None).
Proof. unfold inst_response. destruct (snd inst_refusal) as [[[r|] [e|]]| | |] eqn:E; try reflexivity; vm_compute in E; discriminate E. Qed.
Lemma inst_tokens : r_tokens inst_response = [[0xF0]; [0xF1]; [0xF9]; [0xF0]; [1]; [0]; [0]; [0xF1]].
Proof. vm_compute. reflexivity. Qed.
Example inst_C24 := C24_status_reported (ex_env (ex_plain 1)) ex_dev ex_session revert_command 0x1004 ex_start_hist (fst inst_refusal) inst_response [1] 1
  (inst_env (ex_plain 1) (ex_plain_wf 1 eq_refl) eq_refl) inst_com (eq_trans (surjective_pairing inst_refusal) (f_equal (pair _) inst_refused))
  ltac:(repeat split; vm_compute; discriminate)
  ltac:(rewrite inst_tokens; intros (t & rest & X & L); injection X as <- <-; destruct L as [w L]; discriminate L)
  ltac:(rewrite inst_tokens; exists [[0xF0]; [0xF1]; [0xF9]], [0xF0], [0], [0], [0xF1]; repeat split; vm_compute; eauto)
  eq_refl ltac:(lia).
