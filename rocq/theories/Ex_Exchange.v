(** C134: a non-vacuous case, and what happens when two goroutines use the drive at once. *)
From Verif Require Import Base Spec_Tcg M_TcgToken M_Buffer M_TcgCommand M_TcgDevice M_TcgSession Spec_TcgCommand Spec_TcgClient
  Spec_TcgSession P_TcgToken P_TcgDevice P_TcgSession P_TcgOnDrive Ex_TcgSession M_Exchange Spec_Exchange P_Exchange Prop_Exchange.

(** A drive that answers the last command sent on its ComID: Revert with status [st], Get with the MSID,
    StartSession by opening a session (byte 73 of a command is the seventh byte of the method's UID). *)
Definition exc_answer (st : N) (cmd : bytes) : bytes :=
  if nth 73 cmd 0 =? 2 then ex_packet (ex_plain st)
  else if nth 73 cmd 0 =? 0 then ex_packet ex_pin
  else ex_packet ex_sync.
Fixpoint last_sent (rG : gtrace) : bytes :=
  match rG with
  | [] => []
  | (_, EvSec true _ p c b _) :: r => if (p =? 1) && (c =? 0x1004) then b else last_sent r
  | _ :: r => last_sent r
  end.
Definition exc_world (st : N) : world :=
  {| w_clock := fun _ => 0;
     w_sec := fun G => match rev G with (_, EvSec false _ _ _ _ _) :: r => (None, exc_answer st (last_sent r)) | _ => (None, []) end |}.
Definition exc_reply (st : N) (P : gtrace) (n : nat) : option err * bytes := (None, exc_answer st (last_sent (rev P))).

Lemma last_sent_skip R : forall r, no_send 0x1004 R -> last_sent (rev R ++ r) = last_sent r.
Proof.
  induction R as [|[u e] R IH]; intros r H; [reflexivity|]. cbn [rev]. rewrite <- app_assoc.
  rewrite IH by (intros v x Hi; apply (H v); now right). cbn [app last_sent].
  destruct e as [| |[] dma p c b tmo]; try reflexivity. destruct (N.eqb_spec p 1) as [->|]; [|reflexivity].
  destruct (N.eqb_spec c 0x1004) as [->|]; [|reflexivity]. exfalso. apply (H u (EvSec true dma 1 0x1004 b tmo)); [now left|]. unfold sends_on. eauto.
Qed.
Lemma exc_mailbox st : mailbox (exc_world st) 0x1004 (exc_reply st).
Proof.
  intros P R u dma b tmo _ NR. unfold exc_world, exc_reply. cbn [w_sec].
  rewrite app_assoc, rev_unit, rev_app_distr, last_sent_skip by exact NR. reflexivity.
Qed.
Lemma exc_world_ok st : st < 256 -> world_ok (exc_world st).
Proof.
  intros Hs G. cbn [exc_world w_sec]. destruct (rev G) as [|[u e] r]; [apply wf_nil|].
  destruct e as [| |[] ? ? ? ? ?]; try apply wf_nil. cbn [snd].
  assert (Gp : forall p, wf p -> wf (ex_packet p)).
  { intros p Hp. unfold ex_packet. rewrite !wf_app. repeat split; auto using wf_zeros, be_bytes_wf. }
  unfold exc_answer. destruct (_ =? 2); [|destruct (_ =? 0)]; apply Gp; unfold ex_plain; repeat (apply wf_cons; split; [first [exact Hs|reflexivity]|]); apply wf_nil.
Qed.
Definition exc_env : env := ex_env [].
Lemma exc_env_ok : env_ok exc_env.
Proof. apply ex_env_ok; [apply wf_nil|reflexivity]. Qed.

(** The calls of one goroutine: a StartSession and its answer, a second command and its answer. *)
Definition exc_send (cmd : bytes) : ev := EvSec true false 1 0x1004 cmd 5.
Definition exc_receive : hist := [EvNow; EvSleep 25000000; EvSec false false 1 0x1004 (zeros 2048) 5].
Definition exc_open_psid : ev := exc_send (frame 0 0 0x1004 (start_payload uid_AdminSP (Some [112; 119]) (uid8 uid_PSID))).
Definition exc_open_msid : ev := exc_send (frame 0 0 0x1004 (start_payload uid_AdminSP None [])).
Definition exc_revert : ev := exc_send (frame 105 0x12345678 0x1004 revert_payload).
Definition exc_get : ev := exc_send (frame 105 0x12345678 0x1004 (get_payload (uid8 uid_C_PIN_MSID) 3 3)).
Definition by_ (t : nat) (h : hist) : gtrace := map (fun e => (t, e)) h.

(** One after the other (goroutine 1 uses another ComID meanwhile and starts on this one afterwards): everybody gets their own answer. *)
Definition exc_G1 : gtrace := by_ 0 ([EvNow; exc_open_psid] ++ exc_receive ++ [EvNow]) ++ by_ 1 [EvNow; EvSec true false 1 0x1005 [] 5]
  ++ by_ 0 [exc_revert] ++ by_ 1 [EvNow] ++ by_ 0 exc_receive.
Definition exc_G2 : gtrace := by_ 1 ([EvNow; exc_open_msid] ++ exc_receive ++ [EvNow; exc_get] ++ exc_receive).
Example ex_C134_alone : left_alone 0 0x1004 exc_G1 /\ undisturbed 0 0x1004 exc_G1.
Proof.
  split; intros u e; unfold exc_G1, by_, exc_receive, exc_open_psid, exc_revert, exc_send; cbn [map app In];
    intros H; repeat (destruct H as [H|H]; [injection H as <- <-|]); try contradiction; try reflexivity;
    try (intros (? & ? & ? & X); discriminate); intros X; discriminate.
Qed.
Example ex_C134_revert : revert_tper (view (exc_world 0) exc_env (exc_G1 ++ exc_G2) 0) ex_dev [112; 119] true false [] = (own 0 exc_G1, Ok tt)
  /\ revert_tper (view (exc_world 1) exc_env (exc_G1 ++ exc_G2) 0) ex_dev [112; 119] true false [] = (own 0 exc_G1, Err (ETcg 1)).
Proof. vm_compute. auto. Qed.
Example ex_C134_alone2 : left_alone 1 0x1004 exc_G2.
Proof. intros u e. unfold exc_G2, by_, exc_receive, exc_open_msid, exc_get, exc_send; cbn [map app In];
    intros H; repeat (destruct H as [H|H]; [injection H as <- <-|]); try contradiction; reflexivity.
Qed.
Example ex_C134_msid : get_default_password (view (exc_world 1) exc_env (exc_G1 ++ exc_G2 ++ []) 1) ex_dev (own 1 exc_G1) = (own 1 (exc_G1 ++ exc_G2), Ok [77; 83; 73; 68]).
Proof. vm_compute. reflexivity. Qed.

(** Status 1 (NOT_AUTHORIZED) is no acceptance. *)
Definition exc_no : bytes := Eval vm_compute in received (ex_packet (ex_plain 1)).
Lemma exc_no_tiled heap : tiled (memory exc_no heap) 56 64 [[0xF0]; [0xF1]; [0xF9]; [0xF0]; [1]; [0]; [0]; [0xF1]].
Proof.
  assert (St : forall m cur x rest, cur < 64 -> atom_extent m cur = 1 -> mem_slice m cur 1 = [x] -> tiled m (cur + 1) 64 rest -> tiled m cur 64 ([x] :: rest)).
  { intros m cur x rest L Ex Ms T. rewrite <- Ms. rewrite <- Ex. apply tiled_step; [exact L|]. now rewrite Ex. }
  repeat (apply St; [reflexivity|vm_compute; reflexivity|vm_compute; reflexivity|]). apply tiled_done. vm_compute. discriminate.
Qed.
Lemma refused t hv tv c P n resp :
  answers exc_env (exc_reply 1) (P ++ [own_send t 0x1004 (frame hv tv c revert_payload)]) n resp -> ~ accepted resp.
Proof.
  intros (x & Hx & Xr). unfold exc_reply in Hx. rewrite rev_unit in Hx. cbn [own_send last_sent] in Hx. rewrite !N.eqb_refl in Hx. cbn [andb] in Hx.
  assert (B : nth 73 (frame hv tv c revert_payload) 0 = 2).
  { apply nth_error_nth. unfold frame. assert (F : forall (l : bytes) k i, (i < k)%nat -> nth_error (firstn k l) i = nth_error l i).
    { induction l as [|y l IH]; intros [|k] [|i] H; try reflexivity; try lia. cbn. apply IH. lia. }
    rewrite F by (apply Nat.ltb_lt; reflexivity).
    rewrite nth_error_app2 by (rewrite frame_header_length; apply Nat.leb_le; reflexivity). rewrite frame_header_length. reflexivity. }
  unfold exc_answer in Hx. rewrite B, N.eqb_refl in Hx. injection Hx as <-.
  change (received (ex_packet (ex_plain 1))) with exc_no in Xr. unfold exec_result in Xr.
  assert (L8 : be32_at off_sub_len exc_no = 8) by (vm_compute; reflexivity). rewrite L8 in Xr.
  destruct Xr as [(_ & all & T & Er)|(X & _)]; [|exfalso; apply N.lt_nge in X; apply X; discriminate].
  rewrite (tiled_det _ _ _ _ _ T (exc_no_tiled _)) in Er. injection Er as ->. intros (_ & A). cbn [r_tokens] in A.
  destruct A as [(t0 & r0 & E0 & dd & Ld)|(st & v & (pre & sl & a & b & el & E0 & _) & U & V)].
  - subst t0. injection E0. discriminate.
  - assert (Lp : List.length pre = 3%nat). { apply (f_equal (@List.length bytes)) in E0. rewrite app_length in E0. cbn in E0. lia. }
    destruct pre as [|p0 [|p1 [|p2 [|]]]]; try discriminate Lp. cbn in E0. injection E0 as _ _ _ _ <- _ _ _. cbn in U. injection U as <-. discriminate.
Qed.

(** Two goroutines at once: the Revert of goroutine 0 is followed by the StartSession of goroutine 1, then goroutine 0 receives. *)
Definition exc_race : gtrace :=
  by_ 0 ([EvNow; exc_open_psid] ++ exc_receive ++ [EvNow; exc_revert]) ++ by_ 1 [EvNow; exc_open_msid] ++ by_ 0 exc_receive.
Example ex_race : revert_tper (view (exc_world 1) exc_env (exc_race ++ []) 0) ex_dev [112; 119] true false [] = (own 0 exc_race, Ok tt).
Proof. vm_compute. reflexivity. Qed.

(** ... so RevertTPer reports success although the drive refuses every Revert ever sent to it: the answer it took was the one to
    the other goroutine's StartSession. *)
Theorem C134_left_alone_needed_refuted : exists W E d com reply pw G1,
  world_ok W /\ env_ok E /\ is_any_ssc d = true /\ get_base_com_id d = Ok com /\ mailbox W com reply
  /\ revert_tper (view W E ([] ++ G1 ++ []) 0) d pw true false (own 0 []) = (own 0 ([] ++ G1), Ok tt)
  /\ forall hv tv P n resp, answers E reply (P ++ [own_send 0 com (frame hv tv com revert_payload)]) n resp -> ~ accepted resp.
Proof.
  exists (exc_world 1), exc_env, ex_dev, 0x1004, (exc_reply 1), [112; 119], exc_race.
  split; [apply exc_world_ok; reflexivity|]. split; [apply exc_env_ok|]. split; [reflexivity|]. split; [vm_compute; reflexivity|].
  split; [apply exc_mailbox|]. split; [exact ex_race|]. intros. eapply refused; eassumption.
Qed.
Print Assumptions C134_left_alone_needed_refuted.
