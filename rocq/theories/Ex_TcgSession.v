(** Non-vacuity for C16-C31: a simulated Opal 2 drive on which every operation runs to its end. *)
From Verif Require Import Base Spec_Tcg M_TcgToken M_Buffer M_TcgCommand M_TcgDevice M_TcgSession Spec_TcgCommand Spec_TcgClient
  Spec_TcgSession P_TcgDevice P_TcgSession.

Definition ex_descriptor : bytes := [2; 3; 16; 16; 0x10; 0x04; 0; 2; 0; 0; 0; 0; 0; 0; 0; 0; 0; 0; 0; 0].
Definition ex_locking : bytes := [0; 2; 16; 12; 0x0B; 0; 0; 0; 0; 0; 0; 0; 0; 0; 0; 0].
Definition ex_info (o1 o2 en : bool) : level0 :=
  {| l_tper := true; l_locking := true; l_geometry := false; l_opal1 := o1; l_opal2 := o2; l_enterprise := en;
     l_single_user := false; l_data_store := false;
     l_raw := [(0x0203, ex_descriptor); (0x0002, ex_locking); (0x0100, ex_descriptor)] |}.
Definition ex_dev : device := {| d_kind := KOpal2; d_info := ex_info false true false; d_serial := [83; 49]; d_beyond := fun _ _ => 0 |}.

(** C16-C18 *)
Example ex_selected : new_tcg_device (ex_info false true true) [83; 49] (fun _ _ => 0) =
  Ok {| d_kind := KOpal2; d_info := ex_info false true true; d_serial := [83; 49]; d_beyond := fun _ _ => 0 |}.
Proof. reflexivity. Qed.
Example ex_queries : is_locking_enabled ex_dev = Ok true /\ is_locked ex_dev = Ok false /\ is_media_encryption ex_dev = Ok true
  /\ is_mbr_enabled ex_dev = Ok false /\ get_base_com_id ex_dev = Ok 0x1004 /\ get_num_com_ids ex_dev = Ok 2.
Proof. vm_compute. auto 10. Qed.

(** A drive: the n-th command is answered by the n-th payload; the first receive after each command says "busy". *)
Definition ex_packet (payload : bytes) : bytes :=
  zeros 16 ++ be_bytes 4 (blen payload + 36) ++ zeros 20 ++ be_bytes 4 (blen payload + 12) ++ zeros 8 ++ be_bytes 4 (blen payload) ++ payload.
Definition ok_tail : bytes := [0xF1; 0xF9; 0xF0; 0; 0; 0; 0xF1].
Definition ex_sync : bytes :=
  [0xF8; 0xA8; 0; 0; 0; 0; 0; 0; 0; 0xFF; 0xA8; 0; 0; 0; 0; 0; 0; 0xFF; 3; 0xF0; 0x81; 105; 0x84; 0x12; 0x34; 0x56; 0x78] ++ ok_tail.
Definition ex_plain (status : N) : bytes := [0xF0; 0xF1; 0xF9; 0xF0; status; 0; 0; 0xF1].
Definition ex_pin : bytes := [0xF0; 0xF0; 0xF2; 3; 0xA4; 77; 83; 73; 68; 0xF3; 0xF1] ++ ok_tail.

Definition last_is_send (h : hist) : bool :=
  match rev h with EvSec true _ _ _ _ _ :: _ => true | _ => false end.
Fixpoint since_send (rh : hist) : nat :=   (* receives after the last send; reversed history *)
  match rh with
  | [] => 0
  | EvSec true _ _ _ _ _ :: _ => 0
  | EvSec false _ _ _ _ _ :: r => S (since_send r)
  | _ :: r => since_send r
  end.
Definition ex_env (second : bytes) : env :=
  {| e_clock := fun h => slept h;
     e_sec := fun h => if last_is_send h then (None, [])
                       else if (since_send (rev h) =? 1)%nat then (None, zeros 11 ++ [1])
                       else (None, ex_packet (if (List.length (sends h) =? 1)%nat then ex_sync else second));
     e_pbkdf2 := fun _ _ => repeat 7 32; e_heap := fun _ => 0; e_fuel := 500 |}.

Lemma ex_env_ok b : wf b -> blen b < 1000 -> env_ok (ex_env b).
Proof.
  intros Hb Hl. split; [|split].
  - intros h. cbn [ex_env e_sec]. destruct (last_is_send h); [apply wf_nil|]. destruct (since_send (rev h) =? 1)%nat; cbn [snd].
    + apply wf_app. split; [apply wf_zeros|]. apply wf_cons. split; [lia|apply wf_nil].
    + assert (G : forall p, wf p -> wf (ex_packet p)).
      { intros p Hp. unfold ex_packet. rewrite !wf_app. repeat split; auto using wf_zeros, be_bytes_wf. }
      apply G. destruct (List.length (sends h) =? 1)%nat; [|assumption].
      repeat (apply wf_cons; split; [reflexivity|]). apply wf_nil.
  - intros j. reflexivity.
  - intros p s. cbn [ex_env e_pbkdf2]. split; [reflexivity|]. apply Forall_forall. intros x Hx. apply repeat_spec in Hx. subst. reflexivity.
Qed.
Example ex_timely b : timely (ex_env b).
Proof. intros h t. cbn [ex_env e_clock]. rewrite slept_app. lia. Qed.

(** Operation outcomes: number of sends, number of receives, result. *)
Definition summary {A} (x : hist * res A) : nat * nat * res A := (List.length (sends (fst x)), receives (fst x), snd x).

(** C29: a Revert that succeeds, and one refused with status 1 (NOT_AUTHORIZED). *)
Example ex_revert_ok : summary (revert_tper (ex_env (ex_plain 0)) ex_dev [112; 119] false false []) = (2%nat, 4%nat, Ok tt).
Proof. vm_compute. reflexivity. Qed.
Example ex_revert_refused : summary (revert_tper (ex_env (ex_plain 1)) ex_dev [112; 119] true false []) = (2%nat, 4%nat, Err (ETcg 1)).
Proof. vm_compute. reflexivity. Qed.
(** C31: the MSID comes back. *)
Example ex_msid : summary (get_default_password (ex_env ex_pin) ex_dev []) = (2%nat, 4%nat, Ok [77; 83; 73; 68]).
Proof. vm_compute. reflexivity. Qed.
(** C26: the numbers the drive assigned reach the second command. *)
Example ex_numbers : map (fun b => (slice 20 8 b, slice 4 2 b)) (sends (fst (revert_tper (ex_env (ex_plain 0)) ex_dev [112] false false [])))
  = [([0; 0; 0; 0; 0; 0; 0; 0], [0x10; 0x04]); ([0x12; 0x34; 0x56; 0x78; 0; 0; 0; 105], [0x10; 0x04])].
Proof. vm_compute. reflexivity. Qed.
(** C23: a three-token answer panics. *)
Example ex_short : snd (revert_tper (ex_env [0xF0; 5; 0xF1]) ex_dev [112] false false []) = Panic.
Proof. vm_compute. reflexivity. Qed.
(** C30: TRUE is refused, FALSE accepted. *)
Definition ex_session : session :=
  fst (fst (session_start (ex_env []) ex_dev new_session uid_AdminSP [] ANil [])).
Definition ex_start_hist : hist :=
  snd (fst (session_start (ex_env []) ex_dev new_session uid_AdminSP [] ANil [])).
Example ex_auth_true : snd (authenticate (ex_env ([0xF0; 1] ++ ok_tail)) ex_dev ex_session (uid8 uid_SID) [112] ex_start_hist)
  = Err (EFmt "authentication failed: %d" 1).
Proof. vm_compute. reflexivity. Qed.
Example ex_auth_false : snd (authenticate (ex_env ([0xF0; 0] ++ ok_tail)) ex_dev ex_session (uid8 uid_SID) [112] ex_start_hist) = Ok tt.
Proof. vm_compute. reflexivity. Qed.
(** C21 *)
Example ex_enterprise : summary (revert_tper (ex_env (ex_plain 0))
   {| d_kind := KEnterprise; d_info := ex_info false false true; d_serial := []; d_beyond := fun _ _ => 0 |} [112] true true [])
  = (0%nat, 0%nat, Err (EMsg "not supported")).
Proof. vm_compute. reflexivity. Qed.
(** C20: a drive that is always busy is given up after 402 receives. *)
Definition ex_busy : env :=
  {| e_clock := fun h => slept h; e_sec := fun h => (None, if last_is_send h then [] else zeros 11 ++ [1]);
     e_pbkdf2 := fun _ _ => repeat 7 32; e_heap := fun _ => 0; e_fuel := 402 |}.
Example ex_timeout : let x := exec ex_busy ex_dev revert_command 1 [] in
  receives (fst x) = 402%nat /\ match snd x with Ok (_, Some e) => e = EMsg "timeout" | _ => False end.
Proof. vm_compute. auto. Qed.
