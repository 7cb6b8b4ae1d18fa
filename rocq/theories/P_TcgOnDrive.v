(** Lemmas about the TCG client on a drive handle. *)
From Verif Require Import Base M_Buffer M_Ata M_TcgToken M_TcgCommand M_TcgDevice M_TcgSession M_DriveHandle M_TcgOnDrive Spec_TcgCommand Spec_TcgClient
  Spec_TcgSession P_TcgDevice P_TcgSession M_NvmeLinux Spec_NvmeLinux Spec_Sg P_Discovery Spec_TcgOnDrive P_TcgToken Spec_Tcg.

Lemma driver_calls_app V p h0 a b : driver_calls V p h0 (a ++ b) = driver_calls V p (driver_calls V p h0 a) b.
Proof. unfold driver_calls. now rewrite fold_left_app. Qed.
Lemma commands_app a b : commands (a ++ b) = commands a ++ commands b.
Proof. induction a as [|[| |rw dm pr c bf s] a IH]; cbn [commands app]; congruence. Qed.
Lemma sends_commands t : sends t = map x_data (filter x_out (commands t)).
Proof. induction t as [|[| |[] dm pr c bf s] t IH]; cbn [sends commands filter map x_out x_data]; congruence. Qed.
Lemma forallb_wf b : forallb (fun x => x <? 256) b = true <-> wf b.
Proof.
  unfold wf, is_byte. rewrite forallb_forall, Forall_forall. split; intros H x Hx; specialize (H x Hx); [now apply N.ltb_lt|now apply N.ltb_lt].
Qed.
Lemma typed_ev_iff t : forallb typed_ev t = true <-> Forall typed (commands t).
Proof.
  induction t as [|[| |rw dm pr c bf s] t IH]; cbn [forallb typed_ev commands]; [split; [constructor|reflexivity]|exact IH|exact IH|].
  split.
  - intros H. apply andb_prop in H as [H Ht]. repeat (apply andb_prop in H as [H ?Ha]). constructor; [|now apply IH].
    unfold typed. cbn [x_protocol x_comid x_data]. rewrite <- forallb_wf. repeat split; try assumption; now apply N.ltb_lt.
  - intros H. inversion H as [|x l (A & B & W & C) T]; subst. cbn [x_protocol x_comid x_data] in A, B, C, W. apply IH in T. rewrite T, !andb_true_r.
    apply forallb_wf in W. rewrite W. apply N.ltb_lt in A, B, C. now rewrite A, B, C.
Qed.

Lemma drive_env_sec V p h0 clock kdf heap fuel t rw dma proto com b secs :
  Forall typed (commands (t ++ [EvSec rw dma proto com b secs])) ->
  e_sec (drive_env V p h0 clock kdf heap fuel) (t ++ [EvSec rw dma proto com b secs]) =
  snd (security_command V p (driver_calls V p h0 t) rw dma proto com b secs).
Proof.
  intros H. cbn [drive_env e_sec]. rewrite rev_app_distr. cbn [rev app]. apply typed_ev_iff in H. rewrite H. now rewrite rev_involutive.
Qed.

(** A driver that returns bytes when it is given bytes makes the client's world well-formed. *)
Definition bytes_out (V : drv) (p : dh) : Prop := forall h rw dma proto com b secs,
  proto < 256 -> com < 2 ^ 16 -> wf b -> blen b < 2 ^ 32 -> wf (snd (snd (security_command V p h rw dma proto com b secs))).
Lemma drive_env_ok V p h0 clock kdf heap fuel : bytes_out V p -> (forall j, heap j < 256) ->
  (forall x s, List.length (kdf x s) = 32%nat /\ wf (kdf x s)) -> env_ok (drive_env V p h0 clock kdf heap fuel).
Proof.
  intros HV Hh Hk. split; [|split; [exact Hh|exact Hk]]. intros t. cbn [drive_env e_sec].
  destruct (rev t) as [|[| |rw dm pr c bf s] r] eqn:E; try apply wf_nil.
  destruct (forallb typed_ev t) eqn:T; [|apply wf_nil]. apply typed_ev_iff in T. rewrite <- (rev_involutive t), E in T. cbn [rev] in T.
  rewrite commands_app in T. cbn [commands] in T. apply Forall_app in T as [_ T]. inversion T as [|x l (A & B & W & C) _]; subst.
  now apply HV.
Qed.

Lemma wf_fill a b : wf a -> wf b -> wf (fill a b).
Proof. intros Ha Hb. unfold fill. apply wf_app. split; [now apply wf_firstn|now apply wf_skipn]. Qed.
Lemma wf_delivered a b c : delivered a b c -> wf a -> wf b -> wf c.
Proof.
  intros (L & G1 & G2) Wa Wb. apply Forall_forall. intros x Hx. apply In_nth_error in Hx as (i & Hi).
  assert (Hl : (i < List.length c)%nat) by (apply nth_error_Some; congruence).
  destruct (Nat.lt_ge_cases i (List.length b)) as [Hb|Hb].
  - rewrite (G1 i Hb) in Hi by lia. apply nth_error_In in Hi. unfold wf in Wb. rewrite Forall_forall in Wb. now apply Wb.
  - rewrite (G2 i Hb) in Hi. apply nth_error_In in Hi. unfold wf in Wa. rewrite Forall_forall in Wa. now apply Wa.
Qed.

(** ---- what a TCG operation hands to SecurityCommand: one 512-byte send, then receives of 2048 zero bytes, and so on ---- *)
Definition tcg_io (com : N) (x : security) : Prop :=
  x_protocol x = 1 /\ x_comid x = com
  /\ (x_out x = true /\ List.length (x_data x) = 512%nat /\ wf (x_data x) \/ x_out x = false /\ x_data x = zeros 2048).
Lemma tcg_io_typed com x : com < 2 ^ 16 -> tcg_io com x -> typed x.
Proof.
  intros Hc (P & C & D). unfold typed. rewrite P, C. split; [reflexivity|]. split; [exact Hc|].
  destruct D as [(_ & L & W)|(_ & ->)]; [|split; [apply wf_zeros|reflexivity]]. split; [exact W|]. unfold blen. rewrite L. reflexivity.
Qed.
Lemma commands_rounds com k : commands (rounds 1 com k) = repeat {| x_out := false; x_protocol := 1; x_comid := com; x_data := zeros 2048 |} k.
Proof. induction k as [|k IH]; [reflexivity|]. rewrite rounds_succ. unfold round. cbn [app commands repeat]. now rewrite IH. Qed.
Lemma io_tail_commands com t sent k : List.length sent = 512%nat -> wf sent -> io_tail com t sent k -> Forall (tcg_io com) (commands t).
Proof.
  intros L W ->. cbn [app commands]. rewrite commands_rounds. constructor; [unfold tcg_io; cbn; auto 6|].
  apply Forall_forall. intros x Hx. apply repeat_spec in Hx. subst x. unfold tcg_io. cbn [x_protocol x_comid x_out x_data]. auto.
Qed.

(** Every I/O of an operation has protocol 1 and the device's ComID; receives start from 2048 zero bytes. *)
Definition shaped (com : N) (x : security) : Prop := x_protocol x = 1 /\ x_comid x = com /\ (x_out x = true \/ x_data x = zeros 2048).
Lemma io_tail_shaped com t sent k : io_tail com t sent k -> Forall (shaped com) (commands t).
Proof.
  intros ->. cbn [app commands]. rewrite commands_rounds. constructor; [unfold shaped; cbn; auto|].
  apply Forall_forall. intros x Hx. apply repeat_spec in Hx. subst x. unfold shaped. cbn [x_protocol x_comid x_out x_data]. auto.
Qed.
Lemma send_shaped E d s c com h h' r : env_ok E -> is_any_ssc d = true -> get_base_com_id d = Ok com ->
  send_command E d s c h = (h', r) -> exists t, h' = h ++ t /\ Forall (shaped com) (commands t).
Proof.
  intros HE Hs Hc H. rewrite (send_unfold E d s c com h Hc) in H.
  destruct (exec E d (stamp s com c) 1 h) as [h1 r1] eqn:Ex.
  destruct (exec_cases E d _ com h h1 r1 HE Hs Hc Ex) as (k & t & -> & T & _).
  exists t. split; [|now apply io_tail_shaped in T].
  destruct r1 as [[[resp|] [e|]]|e| |]; inversion H; reflexivity.
Qed.
Lemma start_shaped E d s sp ch a com h s' h' r : env_ok E -> is_any_ssc d = true -> get_base_com_id d = Ok com ->
  session_start E d s sp ch a h = (s', h', r) -> exists t, h' = h ++ t /\ Forall (shaped com) (commands t).
Proof.
  intros HE Hs Hc H. pose proof (start_hist E d s sp ch a h Hs) as X. rewrite H in X. cbn [fst snd] in X.
  destruct (send_command E d s (start_command E d s sp ch (authority_bytes a)) h) as [h1 r1] eqn:Es. cbn [fst] in X. subst h1.
  exact (send_shaped E d s (start_command E d s sp ch (authority_bytes a)) com h h' r1 HE Hs Hc Es).
Qed.
Lemma revert_shaped E d pw ps adm com h h' r : env_ok E -> is_any_ssc d = true -> get_base_com_id d = Ok com ->
  revert_tper E d pw ps adm h = (h', r) -> exists t, h' = h ++ t /\ Forall (shaped com) (commands t).
Proof.
  intros HE Hs Hc H.
  assert (Hd : revert_tper E d pw ps adm h = opal_revert_tper E d pw ps h) by (unfold revert_tper; destruct (opal_kind d Hs) as [-> | ->]; reflexivity).
  rewrite Hd in H. unfold opal_revert_tper in H.
  destruct (session_start E d _ ADMINSP_UID pw _ h) as [[s1 h1] r1] eqn:Est.
  destruct (start_shaped E d _ _ _ _ com _ _ _ _ HE Hs Hc Est) as (t1 & -> & F1).
  destruct r1 as [[]|e| |]; try (inversion H; eauto; fail).
  destruct (send_command E d s1 revert_command (h ++ t1)) as [h2 r2] eqn:Es.
  destruct (send_shaped E d _ _ com _ _ _ HE Hs Hc Es) as (t2 & -> & F2). inversion H; subst.
  exists (t1 ++ t2). rewrite app_assoc. split; [reflexivity|]. rewrite commands_app. now apply Forall_app.
Qed.
Lemma default_shaped E d com h h' r : env_ok E -> is_any_ssc d = true -> get_base_com_id d = Ok com ->
  get_default_password E d h = (h', r) -> exists t, h' = h ++ t /\ Forall (shaped com) (commands t).
Proof.
  intros HE Hs Hc H.
  assert (Hd : get_default_password E d h = opal_get_default_password E d h) by (unfold get_default_password; destruct (opal_kind d Hs) as [-> | ->]; reflexivity).
  rewrite Hd in H. unfold opal_get_default_password in H.
  destruct (session_start E d _ ADMINSP_UID [] _ h) as [[s1 h1] r1] eqn:Est.
  destruct (start_shaped E d _ _ _ _ com _ _ _ _ HE Hs Hc Est) as (t1 & -> & F1).
  destruct r1 as [[]|e| |]; try (inversion H; eauto; fail).
  unfold opal_get_table in H. destruct (send_command E d s1 _ (h ++ t1)) as [h2 r2] eqn:Es.
  destruct (send_shaped E d _ _ com _ _ _ HE Hs Hc Es) as (t2 & -> & F2).
  assert (h' = (h ++ t1) ++ t2) by (unfold finish_password in H; destruct r2 as [[[x|] [e|]]|e| |]; inversion H; reflexivity). subst h'.
  exists (t1 ++ t2). rewrite app_assoc. split; [reflexivity|]. rewrite commands_app. now apply Forall_app.
Qed.

(** frames are 512 bytes *)
Lemma frame_length h t c p : List.length (frame h t c p) = 512%nat.
Proof.
  unfold frame. rewrite firstn_length, !app_length. pose proof (frame_header_length h t c p). assert (List.length (zeros 512) = 512%nat) by apply repeat_length. lia.
Qed.
Lemma frame_wf h t c p : wf p -> wf (frame h t c p).
Proof.
  intros Hp. unfold frame. apply wf_firstn. apply wf_app. split; [|apply wf_app; split; [exact Hp|apply wf_zeros]].
  unfold frame_header. rewrite !wf_app. repeat split; try apply wf_zeros; try apply be_bytes_wf; repeat (apply wf_cons; split; [reflexivity|]); apply wf_nil.
Qed.
Ltac wf_lit := repeat (apply wf_cons; split; [reflexivity|]); apply wf_nil.
Lemma method_call_wf o m args : wf o -> wf m -> wf args -> wf (method_call o m args).
Proof. intros A B C. unfold method_call. rewrite ?wf_app. repeat split; try assumption; try (unfold uid8; apply wf_cons; split; [reflexivity|assumption]); wf_lit. Qed.
Lemma credential_atom_wf t : wf t -> wf (credential_atom t).
Proof.
  intros H. unfold credential_atom. destruct (N.eqb_spec (blen t) 0) as [E|E]; [wf_lit|]. destruct (N.ltb_spec (blen t) 2048) as [L|L]; [|apply wf_nil].
  apply wf_encode. unfold string_atom. destruct (N.ltb_spec (blen t) 16) as [S|S]; cbn [atom_ok]; repeat split; try assumption; lia.
Qed.
Lemma credential_of_wf kdf serial nh pw c : (forall x s, List.length (kdf x s) = 32%nat /\ wf (kdf x s)) -> wf pw ->
  credential_of kdf serial nh pw = Some c -> wf c.
Proof.
  intros K W. unfold credential_of. destruct pw as [|x l]; [discriminate|]. intros [= <-]. destruct nh; [exact W|].
  do 2 (apply wf_cons; split; [reflexivity|]). apply K.
Qed.
Lemma start_payload_wf kdf serial nh pw sp auth : (forall x s, List.length (kdf x s) = 32%nat /\ wf (kdf x s)) -> wf pw -> wf sp -> wf auth ->
  wf (start_payload sp (credential_of kdf serial nh pw) auth).
Proof.
  intros K W S A. unfold start_payload. apply method_call_wf; [unfold uid8; wf_lit|wf_lit|].
  apply wf_app. split; [wf_lit|]. apply wf_app. split; [apply wf_cons; split; [reflexivity|exact S]|].
  apply wf_app. split; [wf_lit|]. destruct (credential_of kdf serial nh pw) as [c|] eqn:E; [|apply wf_nil].
  rewrite !wf_app. repeat split; try exact A; try exact (credential_atom_wf c (credential_of_wf kdf serial nh pw c K W E)); wf_lit.
Qed.
Lemma revert_payload_wf : wf revert_payload.
Proof. wf_lit. Qed.
Lemma get_payload_pin_wf : wf (get_payload (uid8 uid_C_PIN_MSID) 3 3).
Proof. wf_lit. Qed.

(** a shaped history whose sends are frames is typed *)
Lemma shaped_typed com t : com < 2 ^ 16 -> Forall (shaped com) (commands t) -> Forall (fun b => List.length b = 512%nat /\ wf b) (sends t) ->
  Forall typed (commands t).
Proof.
  intros Hc F S. rewrite sends_commands in S. rewrite Forall_forall in *. intros x Hx. destruct (F x Hx) as (P & C & D).
  apply (tcg_io_typed com); [exact Hc|]. split; [exact P|]. split; [exact C|]. destruct (x_out x) eqn:O.
  - left. split; [reflexivity|]. apply S. apply in_map. apply filter_In. auto.
  - right. split; [reflexivity|]. destruct D as [D|D]; [discriminate|exact D].
Qed.

(** A successful Exec parsed the bytes of its last receive. *)
Lemma exec_answer E d c com h h' resp : env_ok E -> is_any_ssc d = true -> get_base_com_id d = Ok com ->
  exec E d c 1 h = (h', Ok (Some resp, None)) ->
  exists t, h' = t ++ [EvSec false false 1 com (zeros 2048) 5] /\ fst (e_sec E h') = None /\ r_buf resp = received (snd (e_sec E h')).
Proof.
  intros HE Hs Hc H. destruct (c19 E d c 1 com h h' _ HE Hs Hc H) as [A B]. cbv zeta in A, B.
  set (h1 := h ++ [EvNow; EvSec true false 1 com (cmd_slice c) 5]) in *.
  destruct (fst (e_sec E h1)) as [e|] eqn:Ee; [destruct (A e eq_refl) as [_ X]; discriminate|].
  destruct (B eq_refl) as [(X & _)|(k & K & -> & _ & R)]; [discriminate|].
  destruct k as [|k]; [lia|]. replace (S k - 1)%nat with k in R by lia. unfold answer in R.
  exists (h1 ++ rounds 1 com k ++ [EvNow; EvSleep 25000000]). split.
  { rewrite rounds_succ_r. unfold round. rewrite <- !app_assoc. reflexivity. }
  destruct (e_sec E (h1 ++ rounds 1 com (S k))) as [[x|] b]; [discriminate|]. split; [reflexivity|]. cbn [snd].
  destruct R as [[_ R]|(_ & _ & [(_ & all & _ & R)|(_ & R)])]; [discriminate|injection R as ->; reflexivity|discriminate].
Qed.
