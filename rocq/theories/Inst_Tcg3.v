(** The theorems of C134, C177, C178 and C179 that Ex_Exchange, Ex_Challenge and Ex_OneSession do not apply themselves, on the drives of those files. *)
From Verif Require Import Base Spec_Tcg M_TcgToken M_Buffer M_TcgCommand M_TcgDevice M_TcgSession Spec_TcgCommand Spec_TcgClient Spec_TcgSession
  P_TcgToken P_TcgDevice P_TcgSession P_TcgOnDrive Prop_TcgSession Ex_TcgSession M_Exchange Spec_Exchange P_Exchange Prop_Exchange Ex_Exchange M_TcgTables M_TcgProgram Spec_Challenge Spec_OneSession P_Challenge Prop_Challenge P_OneSession
  Prop_OneSession Spec_Conform P_Conform Prop_Conform Inst_Tcg Ex_Challenge Ex_OneSession.

Lemma pair3_ok {A B C} (x : A * B * res C) v : snd x = Ok v -> x = (fst (fst x), snd (fst x), Ok v).
Proof. destruct x as [[a b] c]. cbn. now intros ->. Qed.
Lemma pair2_ok {A C} (x : A * res C) v : snd x = Ok v -> x = (fst x, Ok v).
Proof. destruct x as [a c]. cbn. now intros ->. Qed.

Example inst_C134_revert := C134_revert (exc_world 0) exc_env 0 ex_dev 0x1004 [112; 119] true false [] exc_G1 exc_G2 (exc_reply 0)
  (exc_world_ok 0 eq_refl) exc_env_ok eq_refl inst_com eq_refl ltac:(wf_now) (exc_mailbox 0) (proj1 ex_C134_alone) (proj1 ex_C134_revert).
Example inst_C134_default_password := C134_default_password (exc_world 1) exc_env 1 ex_dev 0x1004 [77; 83; 73; 68] exc_G1 exc_G2 [] (exc_reply 1)
  (exc_world_ok 1 eq_refl) exc_env_ok eq_refl inst_com eq_refl (exc_mailbox 1) ex_C134_alone2 ex_C134_msid.

Example inst_C177_hashed := C177_hashed_challenge exch_env ex_dev new_session uid_AdminSP exch_pin uid_SID 0x1004 [] _ _ _ 0 0 exch_env_ok eq_refl inst_com eq_refl
  ltac:(split; reflexivity) ltac:(wf_now) eq_refl ltac:(wf_now) eq_refl ltac:(wf_now) ltac:(discriminate) eq_refl (pair3 _).
Example inst_C177_plain := C177_plain_challenge exch_env ex_dev (set_no_hash_password new_session true) uid_AdminSP exch_pin uid_SID 0x1004 [] _ _ _ 0 0 exch_env_ok eq_refl inst_com eq_refl
  ltac:(split; reflexivity) ltac:(wf_now) eq_refl ltac:(wf_now) eq_refl ltac:(wf_now) ltac:(split; discriminate) eq_refl (pair3 _).
Example inst_C179_plain_session := C179_plain_session exch_env ex_dev (set_no_hash_password new_session true) uid_AdminSP exch_pin uid_SID 0x1004 [] _ _ 0 0 _ exch_env_ok eq_refl inst_com eq_refl
  ltac:(split; reflexivity) ltac:(wf_now) eq_refl ltac:(wf_now) eq_refl ltac:(wf_now) ltac:(split; discriminate) eq_refl (proj1 exch_guards) (pair3_ok _ tt ex_C177_plain).

Lemma inst_opens : snd (session_start (exos_env 0) ex_dev new_session uid_AdminSP [] ANil []) = Ok tt.
Proof. vm_compute. reflexivity. Qed.
Example inst_C178_start_opens := C178_start_opens (exos_env 0) ex_dev (exos_busy 0) 0x1004 new_session [] ANil [] _ _ (exos_env_ok 0 eq_refl) eq_refl inst_com eq_refl
  (exos_one_session 0 (or_introl eq_refl)) (ex_intro _ 0 (ex_intro _ 0 (conj eq_refl eq_refl))) wf_nil I (pair3_ok _ tt inst_opens).
Lemma inst_msid : snd (get_default_password (exos_env 0) ex_dev []) = Ok [77; 83; 73; 68].
Proof. vm_compute. reflexivity. Qed.
Example inst_C178_then_revert := C178_password_then_revert (exos_env 0) ex_dev (exos_busy 0) 0x1004 [] _ [77; 83; 73; 68] (tl exos_prog) [] _ _ _ [112] true false _ _
  (exos_env_ok 0 eq_refl) eq_refl inst_com eq_refl (exos_one_session 0 (or_introl eq_refl)) (Forall_nil _) exos_prog_ok ltac:(wf_now)
  (pair2_ok _ _ inst_msid) (pair3 _) (surjective_pairing _).
