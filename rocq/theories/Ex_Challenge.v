(** C177 on a concrete drive whose SID PIN is a four-byte string: the plain password opens a session, RevertTPer with the very PIN does not. *)
From Verif Require Import Base Spec_Tcg M_TcgToken M_Buffer M_TcgCommand M_TcgDevice M_TcgSession Spec_TcgCommand Spec_TcgClient
  Spec_TcgSession P_TcgToken P_TcgDevice P_TcgSession Prop_TcgSession Ex_TcgSession P_Exchange Prop_Exchange Ex_Exchange Spec_Challenge P_Challenge Prop_Challenge Inst_Tcg.

Definition exch_pin : bytes := [77; 83; 73; 68].
Definition exch_right : bytes := frame 0 0 0x1004 (start_payload uid_AdminSP (Some exch_pin) (uid8 uid_SID)).
Fixpoint exch_last (rh : hist) : bytes :=
  match rh with [] => [] | EvSec true _ _ _ b _ :: _ => b | _ :: r => exch_last r end.
(** A StartSession (byte 73 is FFh) is granted when it is the right one, refused with status 1 otherwise; any other command succeeds. *)
Definition exch_answer (cmd : bytes) : bytes :=
  if nth 73 cmd 0 =? 0xFF then if list_eq_dec N.eq_dec cmd exch_right then ex_packet ex_sync else ex_packet (ex_plain 1) else ex_packet (ex_plain 0).
Definition exch_env : env :=
  {| e_clock := fun h => slept h; e_sec := fun h => if last_is_send h then (None, []) else (None, exch_answer (exch_last (rev h)));
     e_pbkdf2 := fun _ _ => repeat 7 32; e_heap := fun _ => 0; e_fuel := 500 |}.
Lemma exch_env_ok : env_ok exch_env.
Proof.
  split; [|split].
  - intros h. cbn [exch_env e_sec]. destruct (last_is_send h); [apply wf_nil|]. cbn [snd].
    assert (G : forall p, wf p -> wf (ex_packet p)). { intros p Hp. unfold ex_packet. rewrite !wf_app. repeat split; auto using wf_zeros, be_bytes_wf. }
    unfold exch_answer. destruct (_ =? _); [destruct (list_eq_dec _ _ _)|]; apply G; wf_now.
  - intros j. reflexivity.
  - intros p s. cbn [exch_env e_pbkdf2]. split; [reflexivity|]. apply Forall_forall. intros x Hx. apply repeat_spec in Hx. subst. reflexivity.
Qed.

Lemma exch_last_rounds h c k : (1 <= k)%nat -> last_is_send (h ++ rounds 1 c k) = false /\ exch_last (rev (h ++ rounds 1 c k)) = exch_last (rev h).
Proof.
  intros K. destruct k as [|k]; [lia|]. split.
  - rewrite rounds_succ_r. unfold round. unfold last_is_send. rewrite !rev_app_distr. cbn [rev app]. reflexivity.
  - clear K. induction (S k) as [|j IH]; [cbn; now rewrite app_nil_r|].
    rewrite rounds_succ_r, app_assoc, rev_app_distr. unfold round. cbn [rev app exch_last]. exact IH.
Qed.
(** The refusal is no acceptance. *)
Lemma exch_refused resp : exec_result (fun _ => 0) (received (ex_packet (ex_plain 1))) (Ok (Some resp, None)) -> ~ accepted resp.
Proof.
  intros Xr. change (received (ex_packet (ex_plain 1))) with exc_no in Xr. unfold exec_result in Xr.
  assert (L8 : be32_at off_sub_len exc_no = 8) by (vm_compute; reflexivity). rewrite L8 in Xr.
  destruct Xr as [(_ & all & T & Er)|(X & _)]; [|exfalso; apply N.lt_nge in X; apply X; discriminate].
  rewrite (tiled_det _ _ _ _ _ T (exc_no_tiled _)) in Er. injection Er as ->. intros (_ & A). cbn [r_tokens] in A.
  destruct A as [(t0 & r0 & E0 & dd & Ld)|(st & v & (pre & sl & a & b & el & E0 & _) & U & V)].
  - subst t0. injection E0. discriminate.
  - assert (Lp : List.length pre = 3%nat). { apply (f_equal (@List.length bytes)) in E0. rewrite app_length in E0. cbn in E0. lia. }
    destruct pre as [|p0 [|p1 [|p2 [|]]]]; try discriminate Lp. cbn in E0. injection E0 as _ _ _ _ <- _ _ _. cbn in U. injection U as <-. discriminate.
Qed.

Lemma exch_right_presents : presents exch_right uid_AdminSP exch_pin uid_SID.
Proof. apply start_presents; [reflexivity|reflexivity|wf_now|split; discriminate]. Qed.
Theorem exch_guards : guards exch_env ex_dev uid_SID (fun p => p = exch_pin) /\ opal_pins (fun p => p = exch_pin).
Proof.
  split; [|intros p ->; vm_compute; discriminate].
  intros c h t resp packet sp ch Hx St Acc P.
  destruct (exec_cases exch_env ex_dev c 0x1004 h _ _ exch_env_ok eq_refl inst_com Hx) as (k & t' & Et & Ht & _). apply app_inv_head in Et. subst t'.
  apply io_tail_sends in Ht. rewrite Ht in St. injection St as <-.
  destruct (c19 exch_env ex_dev c 1 0x1004 h _ _ exch_env_ok eq_refl inst_com Hx) as [A B]. cbv zeta in A, B. clear Ht k.
  set (h1 := h ++ [EvNow; EvSec true false 1 0x1004 (cmd_slice c) 5]) in *.
  assert (E1 : fst (e_sec exch_env h1) = None). { cbn [exch_env e_sec]. destruct (last_is_send h1); reflexivity. }
  destruct (B E1) as [(F & _)|(k & K & _ & _ & R)]; [discriminate F|]. unfold answer in R.
  assert (Q : exch_last (rev h1) = cmd_slice c) by (unfold h1; rewrite rev_app_distr; reflexivity).
  cbn [exch_env e_sec] in R. destruct (exch_last_rounds h1 0x1004 (S (k - 1)) ltac:(lia)) as [L1 L2]. rewrite L1, L2, Q in R.
  destruct R as [(_ & F)|(_ & _ & R)]; [discriminate F|].
  assert (N73 : nth 73 (cmd_slice c) 0 = 0xFF).
  { destruct P as (hd & a & rest & Lh & _ & _ & _ & ->). rewrite app_nth2 by (rewrite Lh; apply Nat.leb_le; reflexivity). rewrite Lh. reflexivity. }
  unfold exch_answer in R. rewrite N73, N.eqb_refl in R.
  destruct (list_eq_dec N.eq_dec (cmd_slice c) exch_right) as [X|_].
  - rewrite X in P. destruct (C177_one_reading _ _ _ _ _ _ _ exch_right_presents P) as (_ & E & _). symmetry. exact E.
  - exfalso. exact (exch_refused resp R Acc).
Qed.
Print Assumptions exch_guards.

(** hashing off: granted; hashing on: refused, for any password by C177_no_session, for the PIN itself by computation *)
Example ex_C177_plain : snd (session_start exch_env ex_dev (set_no_hash_password new_session true) uid_AdminSP exch_pin (AUid uid_SID) []) = Ok tt.
Proof. vm_compute. reflexivity. Qed.
Example ex_C177_hashed : snd (session_start exch_env ex_dev new_session uid_AdminSP exch_pin (AUid uid_SID) []) = Err (ETcg 1).
Proof. vm_compute. reflexivity. Qed.
Example ex_C177_revert : snd (revert_tper exch_env ex_dev exch_pin false false []) = Err (ETcg 1).
Proof. vm_compute. reflexivity. Qed.
Example inst_C177_no_revert pw (W : wf pw) (Hn : pw <> []) := C177_no_revert exch_env ex_dev 0x1004 pw false [] _ _ _ exch_env_ok eq_refl inst_com eq_refl W Hn
  (proj1 exch_guards) (proj2 exch_guards) (surjective_pairing _).
Example inst_C177_no_session := C177_no_session exch_env ex_dev new_session uid_AdminSP exch_pin uid_SID 0x1004 [] _ _ _ 0 0 _ exch_env_ok eq_refl inst_com eq_refl
  ltac:(split; reflexivity) ltac:(wf_now) eq_refl ltac:(wf_now) eq_refl ltac:(wf_now) ltac:(discriminate) eq_refl (proj1 exch_guards) (proj2 exch_guards) (pair3 _).
Example inst_C177_psid := C177_psid_is_plain exch_env ex_dev 0x1004 exch_pin false [] _ _ exch_env_ok eq_refl inst_com eq_refl ltac:(wf_now) ltac:(split; discriminate) (surjective_pairing _).
Example inst_C177_authenticate := C177_authenticate (ex_env ([0xF0; 1] ++ ok_tail)) ex_dev ex_session uid_SID [112] 0x1004 ex_start_hist _ _ 105 0x12345678
  (inst_env ([0xF0; 1] ++ ok_tail) ltac:(wf_now) eq_refl) eq_refl inst_com eq_refl inst_numbers ltac:(wf_now) ltac:(wf_now) eq_refl ltac:(discriminate) eq_refl (surjective_pairing _).
