(** C178 on a concrete drive that keeps one session: it refuses a second StartSession with status 3 (SP_BUSY), and a Revert with status [st] unless that is 0. *)
From Verif Require Import Base Spec_Tcg M_TcgToken M_Buffer M_TcgCommand M_TcgDevice M_TcgSession Spec_TcgCommand Spec_TcgClient Spec_TcgSession
  P_TcgToken P_TcgDevice P_TcgSession Prop_TcgSession Ex_TcgSession P_Exchange Prop_Exchange Ex_Exchange M_TcgTables M_TcgProgram Spec_OneSession P_Challenge P_OneSession
  Prop_OneSession Inst_Tcg.

Definition exos_revert : bytes := [0xF8; 0xA8] ++ uid_AdminSP ++ [0xA8] ++ mth_Revert ++ [0xF0].
Definition exos_step (st : N) (x : bool * bytes) (e : ev) : bool * bytes :=
  match e with
  | EvSec true _ 1 _ b _ =>
    if nth 56 b 0 =? 0xFA then (false, [])
    else if list_eq_dec N.eq_dec (firstn 20 (skipn 56 b)) exos_revert then (if st =? 0 then false else fst x, ex_packet (ex_plain st))
    else if nth 73 b 0 =? 0xFF then (true, ex_packet (if fst x then ex_plain 3 else ex_sync))
    else (fst x, ex_packet ex_pin)
  | _ => x
  end.
Definition exos_state (st : N) (h : hist) : bool * bytes := fold_left (exos_step st) h (false, []).
Definition exos_env (st : N) : env :=
  {| e_clock := fun h => slept h; e_sec := fun h => (None, if last_is_send h then [] else snd (exos_state st h));
     e_pbkdf2 := fun _ _ => repeat 7 32; e_heap := fun _ => 0; e_fuel := 500 |}.
Definition exos_busy (st : N) (h : hist) : Prop := fst (exos_state st h) = true.

Lemma exos_packet_wf p : wf p -> wf (ex_packet p).
Proof. intros Hp. unfold ex_packet. rewrite !wf_app. repeat split; auto using wf_zeros, be_bytes_wf. Qed.
Lemma exos_step_wf st x e : st < 256 -> wf (snd x) -> wf (snd (exos_step st x e)).
Proof.
  intros Hs W. unfold exos_step. destruct e as [| |[] dma proto com b tmo]; try exact W.
  destruct proto as [|[| |]]; try exact W. destruct (_ =? 0xFA); [apply wf_nil|].
  destruct (list_eq_dec _ _ _); [apply exos_packet_wf; now apply ex_plain_wf|].
  destruct (_ =? 0xFF); cbn [snd]; apply exos_packet_wf; [destruct (fst x); wf_now|wf_now].
Qed.
Lemma exos_env_ok st : st < 256 -> env_ok (exos_env st).
Proof.
  intros Hs. split; [|split].
  - intros h. cbn [exos_env e_sec snd]. destruct (last_is_send h); [apply wf_nil|]. unfold exos_state.
    assert (G : forall h x, wf (snd x) -> wf (snd (fold_left (exos_step st) h x))).
    { clear h. induction h as [|e h IH]; intros x W; [exact W|]. cbn [fold_left]. apply IH. now apply exos_step_wf. }
    apply G. apply wf_nil.
  - intros j. reflexivity.
  - intros p s. cbn [exos_env e_pbkdf2]. split; [reflexivity|]. apply Forall_forall. intros x Hx. apply repeat_spec in Hx. subst. reflexivity.
Qed.
Lemma exos_app st h t : exos_state st (h ++ t) = fold_left (exos_step st) t (exos_state st h).
Proof. apply fold_left_app. Qed.
Lemma exos_rounds st com k : forall x, fold_left (exos_step st) (rounds 1 com k) x = x.
Proof. induction k as [|k IH]; intros x; [reflexivity|]. rewrite rounds_succ, fold_left_app, IH. reflexivity. Qed.
Lemma exos_last h c k : (1 <= k)%nat -> last_is_send (h ++ rounds 1 c k) = false.
Proof.
  intros K. destruct k as [|k]; [lia|]. rewrite rounds_succ_r. unfold round. unfold last_is_send. rewrite !rev_app_distr. cbn [rev app]. reflexivity.
Qed.

(** A plain status as the host reads it *)
Lemma exos_plain st heap resp : In st [0; 1; 3] -> exec_result heap (received (ex_packet (ex_plain st))) (Ok (Some resp, None)) ->
  r_tokens resp = [[0xF0]; [0xF1]; [0xF9]; [0xF0]; [st]; [0]; [0]; [0xF1]] /\ r_buf resp = received (ex_packet (ex_plain st)).
Proof.
  intros Hin Xr. unfold exec_result in Xr. assert (L8 : be32_at off_sub_len (received (ex_packet (ex_plain st))) = 8).
  { destruct Hin as [<-|[<-|[<-|[]]]]; vm_compute; reflexivity. }
  rewrite L8 in Xr. destruct Xr as [(_ & all & T & Er)|(X & _)]; [|exfalso; apply N.lt_nge in X; apply X; discriminate].
  assert (T2 : tiled (memory (received (ex_packet (ex_plain st))) heap) 56 64 [[0xF0]; [0xF1]; [0xF9]; [0xF0]; [st]; [0]; [0]; [0xF1]]).
  { assert (St : forall m cur x rest, cur < 64 -> atom_extent m cur = 1 -> mem_slice m cur 1 = [x] -> tiled m (cur + 1) 64 rest -> tiled m cur 64 ([x] :: rest)).
    { intros m cur x rest L Ex Ms Tr. rewrite <- Ms. rewrite <- Ex. apply tiled_step; [exact L|]. now rewrite Ex. }
    destruct Hin as [<-|[<-|[<-|[]]]]; repeat (apply St; [reflexivity|vm_compute; reflexivity|vm_compute; reflexivity|]); apply tiled_done; vm_compute; discriminate. }
  rewrite (tiled_det _ _ _ _ _ T T2) in Er. injection Er as ->. split; [destruct Hin as [<-|[<-|[<-|[]]]]; reflexivity|reflexivity].
Qed.
Lemma exos_refused st heap resp : In st [1; 3] -> exec_result heap (received (ex_packet (ex_plain st))) (Ok (Some resp, None)) -> ~ accepted resp.
Proof.
  intros Hin Xr (_ & A). destruct (exos_plain st heap resp (or_intror Hin) Xr) as [Tk _]. rewrite Tk in A.
  destruct A as [(t0 & r0 & E0 & dd & Ld)|(s0 & v & (pre & sl & a & b & el & E0 & _) & U & V)].
  - subst t0. injection E0. discriminate.
  - assert (Lp : List.length pre = 3%nat). { apply (f_equal (@List.length bytes)) in E0. rewrite app_length in E0. cbn in E0. lia. }
    destruct pre as [|p0 [|p1 [|p2 [|]]]]; try discriminate Lp. cbn in E0. injection E0 as _ _ _ _ <- _ _ _. destruct Hin as [<-|[<-|[]]]; cbn in U; injection U as <-; discriminate.
Qed.
Lemma exos_accepted heap resp : exec_result heap (received (ex_packet (ex_plain 0))) (Ok (Some resp, None)) -> accepted resp.
Proof.
  intros Xr. destruct (exos_plain 0 heap resp (or_introl eq_refl) Xr) as [Tk Bf]. split; [rewrite Bf; vm_compute; repeat split; discriminate|]. right. exists [0], 0. rewrite Tk.
  split; [|split; reflexivity]. exists [[0xF0]; [0xF1]; [0xF9]], [0xF0], [0], [0], [0xF1]. repeat split; try (vm_compute; eauto; fail); exists []; reflexivity.
Qed.

(** What one Exec does to the drive, and what it brings back *)
Lemma exos_exec st c h t r : st < 256 -> exec (exos_env st) ex_dev c 1 h = (h ++ t, r) ->
  sends t = [cmd_slice c] /\ (let x := exos_step st (exos_state st h) (EvSec true false 1 0x1004 (cmd_slice c) 5) in
  exos_state st (h ++ t) = x /\ forall resp, r = Ok (Some resp, None) -> exec_result (fun _ => 0) (received (snd x)) r).
Proof.
  intros Hs Hx. destruct (exec_cases (exos_env st) ex_dev c 0x1004 h _ _ (exos_env_ok st Hs) eq_refl inst_com Hx) as (k0 & t' & Et & Ht & _). apply app_inv_head in Et. subst t'.
  split; [exact (io_tail_sends _ _ _ _ Ht)|]. cbv zeta. unfold io_tail in Ht. split.
  - rewrite exos_app, Ht. cbn [app fold_left]. rewrite exos_rounds. reflexivity.
  - intros resp ->. destruct (c19 (exos_env st) ex_dev c 1 0x1004 h _ _ (exos_env_ok st Hs) eq_refl inst_com Hx) as [A B]. cbv zeta in A, B.
    destruct (B eq_refl) as [(F & _)|(k & K & _ & _ & R)]; [discriminate F|]. unfold answer in R.
    cbn [exos_env e_sec] in R. rewrite exos_last in R by lia. destruct R as [(_ & F)|(_ & _ & R)]; [discriminate F|].
    rewrite exos_app, exos_rounds, exos_app in R. exact R.
Qed.

Theorem exos_one_session st : In st [0; 1] -> one_session (exos_env st) ex_dev (exos_busy st).
Proof.
  intros Hst. assert (Hs : st < 256) by (destruct Hst as [<-|[<-|[]]]; reflexivity). split; [|split].
  - intros c h t resp packet Hx St Sp Acc. destruct (exos_exec st c h t _ Hs Hx) as (St2 & Hb & Hr). rewrite St in St2. injection St2 as ->. specialize (Hr resp eq_refl).
    assert (Q : exos_step st (exos_state st h) (EvSec true false 1 0x1004 (cmd_slice c) 5) = (true, ex_packet (if fst (exos_state st h) then ex_plain 3 else ex_sync))).
    { destruct Sp as (more & hd & Lh & _ & _ & E). unfold exos_step.
      assert (E56 : nth 56 (cmd_slice c) 0 = 0xF8) by (rewrite E, app_nth2 by (rewrite Lh; apply Nat.leb_le; reflexivity); rewrite Lh; reflexivity).
      assert (E73 : nth 73 (cmd_slice c) 0 = 0xFF) by (rewrite E, app_nth2 by (rewrite Lh; apply Nat.leb_le; reflexivity); rewrite Lh; reflexivity).
      rewrite E56, E73. cbn [N.eqb Pos.eqb]. destruct (list_eq_dec N.eq_dec _ _) as [X|_]; [|reflexivity].
      exfalso. rewrite E in X. rewrite skipn_app, Lh in X. rewrite skipn_all2 in X by (rewrite Lh; apply Nat.leb_le; reflexivity). cbn in X. discriminate X. }
    rewrite Q in Hb, Hr. split; [|unfold exos_busy; rewrite Hb; reflexivity]. unfold exos_busy. intros Bz. rewrite Bz in Hr. cbn [snd] in Hr.
    exact (exos_refused 3 _ resp (or_intror (or_introl eq_refl)) Hr Acc).
  - intros c h t r packet Bz Hx St. destruct (exos_exec st c h t r Hs Hx) as (St2 & Hb & Hr). rewrite St in St2. injection St2 as ->.
    unfold exos_busy in *. unfold exos_step in Hb, Hr.
    destruct (N.eqb_spec (nth 56 (cmd_slice c) 0) 0xFA) as [E56|_].
    { right. left. destruct (Nat.le_gt_cases (List.length (cmd_slice c)) 56) as [L|L]; [rewrite nth_overflow in E56 by exact L; discriminate E56|].
      destruct (nth_split (cmd_slice c) 0 L) as (l1 & l2 & E & L1). exists l1, l2. split; [exact L1|]. rewrite E at 1. rewrite E56. reflexivity. }
    destruct (list_eq_dec N.eq_dec (firstn 20 (skipn 56 (cmd_slice c))) exos_revert) as [X|_].
    + destruct Hst as [<-|[<-|[]]]; cbn [N.eqb] in Hb, Hr.
      * right. right. split.
        -- exists uid_AdminSP, mth_Revert, (skipn 20 (skipn 56 (cmd_slice c))). split; [|left; reflexivity]. exists (firstn 56 (cmd_slice c)). split; [|split; [reflexivity|split; [reflexivity|]]].
           ++ apply firstn_length_le. destruct (Nat.le_gt_cases 56 (List.length (cmd_slice c))) as [L|L]; [exact L|]. rewrite skipn_all2 in X by lia. discriminate X.
           ++ rewrite <- (firstn_skipn 56 (cmd_slice c)) at 1. f_equal. rewrite <- (firstn_skipn 20 (skipn 56 (cmd_slice c))) at 1. rewrite X. reflexivity.
        -- intros (resp & Er & Na). apply Na. specialize (Hr resp Er). subst r. exact (exos_accepted _ resp Hr).
      * left. rewrite Hb. exact Bz.
    + left. destruct (nth 73 (cmd_slice c) 0 =? 0xFF); rewrite Hb; [reflexivity|exact Bz].
  - intros h t Bz Q. unfold exos_busy in *. rewrite exos_app. revert Bz. generalize (exos_state st h). induction t as [|e t IH]; intros x Bz; [exact Bz|].
    cbn [fold_left]. apply IH; [intros s d p c b tm I; apply (Q s d p c b tm); now right|].
    unfold exos_step. destruct e as [| |[] dma proto com b tmo]; try exact Bz. destruct proto as [|[| |]]; try exact Bz.
    exfalso. destruct (Q _ _ _ _ _ _ (or_introl eq_refl)) as [Y _]. apply Y. reflexivity.
Qed.
Print Assumptions exos_one_session.

(** GetDefaultPassword works; then RevertTPer, PSID or not, is refused with SP_BUSY, with all sessions closed and whatever is waited. *)
Definition exos_prog : list tcall := [TPassword; TNew; TSession 0 SClose; TElse [EvSleep 60000000000]; TRevert [112] true false; TPassword; TSession 0 (SStart uid_AdminSP [] ANil); TNew; TSession 1 SClose].
Example ex_C178 : snd (trun (exos_env 0) ex_dev [] [] exos_prog) = [Ok tt; Ok tt; Ok tt; Ok tt; Err (ETcg 3); Err (ETcg 3); Err (ETcg 3); Ok tt; Ok tt].
Proof. vm_compute. reflexivity. Qed.
(** RevertTPer alone works and can be repeated; a refused one cannot. *)
Example ex_C178_revert : snd (trun (exos_env 0) ex_dev [] [] [TRevert [112] true false; TRevert [112] true false]) = [Ok tt; Ok tt].
Proof. vm_compute. reflexivity. Qed.
Example ex_C178_refused : snd (trun (exos_env 1) ex_dev [] [] [TRevert [112] true false; TRevert [112] true false]) = [Err (ETcg 1); Err (ETcg 3)].
Proof. vm_compute. reflexivity. Qed.
(** the theorems on this drive *)
Lemma exos_prog_ok : Forall library_call (tl exos_prog).
Proof.
  unfold exos_prog. cbn [tl]. apply Forall_forall. intros x Hx. cbn [In] in Hx. repeat (destruct Hx as [<-|Hx]; [try exact I|]); [..|destruct Hx].
  - intros ? ? ? ? ? ? [X|[]]. discriminate X.
  - cbn. wf_now.
  - split; [wf_now|]. split; [reflexivity|]. split; [apply wf_nil|exact I].
Qed.
Example inst_C178 := C178_no_second_session (exos_env 0) ex_dev (exos_busy 0) 0x1004 (tl exos_prog) [] (fst (get_default_password (exos_env 0) ex_dev [])) _ _ _
  (exos_env_ok 0 eq_refl) eq_refl inst_com eq_refl (exos_one_session 0 (or_introl eq_refl)) (Forall_nil _)
  exos_prog_ok
  ltac:(vm_compute; reflexivity) (pair3 _).
Example inst_C178_password : exos_busy 0 (fst (get_default_password (exos_env 0) ex_dev [])).
Proof.
  apply (C178_password_leaves_session (exos_env 0) ex_dev (exos_busy 0) 0x1004 [] _ (snd (get_default_password (exos_env 0) ex_dev [])) (exos_env_ok 0 eq_refl) eq_refl inst_com eq_refl
    (exos_one_session 0 (or_introl eq_refl)) (surjective_pairing _)). right. exists [77; 83; 73; 68]. vm_compute. reflexivity.
Qed.
Example inst_C178_refused : exos_busy 1 (fst (revert_tper (exos_env 1) ex_dev [112] true false [])).
Proof.
  apply (C178_refused_revert_leaves_session (exos_env 1) ex_dev (exos_busy 1) 0x1004 [112] true false [] _ 1 (exos_env_ok 1 eq_refl) eq_refl inst_com eq_refl
    (exos_one_session 1 (or_intror (or_introl eq_refl)))); [intros g n; discriminate|wf_now|vm_compute; reflexivity|].
  exists (fst (revert_tper (exos_env 1) ex_dev [112] true false [])), (frame 105 0x12345678 0x1004 revert_payload).
  split; [exact (eq_sym (app_nil_l _))|]. split; [|apply revert_reverts].
  apply (nth_error_In (sends (fst (revert_tper (exos_env 1) ex_dev [112] true false []))) 1). vm_compute. reflexivity.
Qed.
