(** Lemmas about M_Cdb and M_SgDriver. *)
From Verif Require Import Base M_Buffer M_Ata M_TcgDevice M_Cdb M_SgDriver Spec_Sg P_Discovery P_DriveHandle.

(** ---- buffers ---- *)
Lemma fill_nil old : fill old [] = old.
Proof. unfold fill. rewrite firstn_nil. reflexivity. Qed.

Lemma fill_delivered old new : delivered old new (fill old new).
Proof.
  split; [apply fill_length|]. split.
  - intros i Hn Ho. now apply nth_error_fill.
  - intros i Hi. unfold fill. destruct (Nat.ltb_spec i (List.length old)) as [Ho|Ho].
    + rewrite nth_error_app2 by (rewrite firstn_length; lia). rewrite firstn_length.
      transitivity (nth_error (firstn (List.length new) old ++ skipn (List.length new) old) i); [|now rewrite firstn_skipn].
      rewrite (nth_error_app2 (firstn (List.length new) old)) by (rewrite firstn_length; lia).
      rewrite firstn_length. f_equal. lia.
    + rewrite (proj2 (nth_error_None old i)) by lia. apply nth_error_None.
      rewrite app_length, firstn_length, skipn_length. lia.
Qed.

Lemma fill_same d : fill d d = d.
Proof. unfold fill. now rewrite firstn_all, skipn_all, app_nil_r. Qed.

Lemma fill_whole d x : List.length d = List.length x -> fill d x = x.
Proof. intros H. unfold fill. rewrite H, firstn_all, skipn_all2 by lia. apply app_nil_r. Qed.

Lemma bounce_write d : d <> [] -> a_data (fst (buf_write (reset_write (new_aligned (List.length d))) d)) = d.
Proof.
  intros H. unfold buf_write, new_aligned, reset_write, set_wpos. cbn [a_limit a_wpos a_data a_cap a_rpos].
  cbn [Nat.ltb Nat.leb]. rewrite Nat.sub_0_r, Nat.min_id.
  destruct d as [|x d]; [congruence|]. cbn [List.length]. cbn [Nat.eqb fst a_data with_data set_wpos].
  unfold put. change (S (List.length d)) with (List.length (x :: d)). rewrite (firstn_all (x :: d)).
  rewrite skipn_all2 by (unfold zeros; rewrite repeat_length; lia). rewrite app_nil_r. reflexivity.
Qed.

Lemma bounce_read mem n : List.length mem = n -> (0 < n)%nat ->
  snd (buf_read (reset_read (with_data (new_aligned n) mem)) n) = Ok mem.
Proof.
  intros H Hn. unfold buf_read, new_aligned, reset_read, with_data, set_rpos. cbn [a_limit a_wpos a_data a_cap a_rpos].
  cbn [Nat.ltb Nat.leb]. rewrite Nat.sub_0_r, Nat.min_id.
  destruct n as [|n]; [lia|]. cbn [Nat.eqb snd]. unfold slice. cbn [skipn]. rewrite firstn_all2 by lia. reflexivity.
Qed.

Definition ok_answer (a : sg_ans) : bool := (an_errno a =? 0) && (an_ret a =? 0).
Lemma ioctl_ok a : ok_answer a = true -> ioctl_result (an_errno a) (an_ret a) = None.
Proof. unfold ok_answer, ioctl_result. destruct (an_errno a =? 0), (an_ret a =? 0); cbn; congruence. Qed.
Lemma ioctl_fail a : ok_answer a = false ->
  ioctl_result (an_errno a) (an_ret a) = Some (errno (if an_errno a =? 0 then an_ret a else an_errno a)).
Proof. unfold ok_answer, ioctl_result. destruct (an_errno a =? 0), (an_ret a =? 0); cbn; congruence. Qed.

(** Header state after an answer. *)
Definition after (mx : N) (s : sg_state) (a : sg_ans) : sg_state :=
  {| s_sense := fill (s_sense s) (firstn (N.to_nat mx) (an_sense a));
     s_status := match an_status a with Some x => x | None => s_status s end |}.
Definition answer_errno (a : sg_ans) : N := if an_errno a =? 0 then an_ret a else an_errno a.

(** First request's memory, and what the caller's buffer holds afterwards. *)
Definition first_where (aligned : bool) : xfer := if aligned then XCaller else XBounce.
Definition first_mem (rw aligned : bool) (d : bytes) : bytes := if rw || aligned then d else zeros (List.length d).

Lemma tries_data_aux K h (mk : xfer -> bytes -> sg_call) (rw : bool) (d : bytes) addr mx al :
  (addr mod 512 =? 0) = al -> d <> [] -> (forall w m, sg_dir (mk w m) = if rw then SG_DXFER_TO_DEV else SG_DXFER_FROM_DEV) ->
  (forall w m, sg_mx_sb (mk w m) = mx) -> (forall w m, sg_mem (mk w m) = m) ->
  let c1 := mk (first_where al) (first_mem rw al d) in
  let a1 := K (h ++ [c1]) in
  let c2 := mk (XAddr 128) [] in
  let a2 := K (h ++ [c1] ++ [c2]) in
  let s1 := after mx sg_state0 a1 in
  let got := if rw then d else fill (first_mem rw al d) (an_in a1) in
  sg_tries K h mk rw (Some d) addr =
  if ok_answer a1 then (h ++ [c1], Ok (None, (Some got, s1)))
  else (h ++ [c1] ++ [c2],
        Ok (if ok_answer a2 then (None, (Some (if al then got else d), s1))
            else (Some (errno (answer_errno a2)), (Some (if al then got else d), after mx s1 a2)))).
Proof.
  intros Hal Hd Hdir Hmx Hmem.
  assert (Ev : forall h0 c s, sg_ioctl K h0 c s = (h0 ++ [c], (ioctl_result (an_errno (K (h0 ++ [c]))) (an_ret (K (h0 ++ [c]))),
      (if Z.eqb (sg_dir c) SG_DXFER_FROM_DEV then fill (sg_mem c) (an_in (K (h0 ++ [c]))) else sg_mem c, after (sg_mx_sb c) s (K (h0 ++ [c])))))) by reflexivity.
  assert (Nil : forall A (x y : A), match d with [] => x | _ :: _ => y end = y) by (intros; destruct d; congruence).
  assert (Dir : forall w m, Z.eqb (sg_dir (mk w m)) SG_DXFER_FROM_DEV = negb rw) by (intros w m; rewrite Hdir; destruct rw; reflexivity).
  assert (Mem : forall w m a, (if Z.eqb (sg_dir (mk w m)) SG_DXFER_FROM_DEV then fill (sg_mem (mk w m)) (an_in a) else sg_mem (mk w m))
                              = if rw then m else fill m (an_in a)).
  { intros w m a. rewrite Dir, Hmem. destruct rw; reflexivity. }
  unfold sg_tries. rewrite Nil. unfold is_aligned_pointer. change (512 =? 0) with false. cbv iota. rewrite Hal.
  destruct al; unfold first_where, first_mem; [rewrite orb_true_r|rewrite orb_false_r]; cbv zeta; rewrite !Ev, !Mem, !Hmx.
  - destruct (ok_answer (K (h ++ [mk XCaller d]))) eqn:E1; [rewrite (ioctl_ok _ E1); reflexivity|rewrite (ioctl_fail _ E1)].
    change sizeof_sg with 128. rewrite <- !app_assoc. cbn [app].
    match goal with |- context [K (h ++ [?a; ?b])] => destruct (ok_answer (K (h ++ [a; b]))) eqn:E2 end;
      [rewrite (ioctl_ok _ E2)|rewrite (ioctl_fail _ E2)]; reflexivity.
  - assert (B : a_data (if rw then fst (buf_write (reset_write (new_aligned (List.length d))) d) else new_aligned (List.length d))
                = if rw then d else zeros (List.length d)).
    { destruct rw; [now apply bounce_write|reflexivity]. }
    rewrite B. set (c1 := mk XBounce (if rw then d else zeros (List.length d))).
    destruct (ok_answer (K (h ++ [c1]))) eqn:E1; [rewrite (ioctl_ok _ E1)|rewrite (ioctl_fail _ E1)].
    + destruct rw; [reflexivity|].
      set (got := fill (zeros (List.length d)) (an_in (K (h ++ [c1])))).
      assert (L : List.length got = List.length d).
      { unfold got. rewrite fill_length. apply repeat_length. }
      rewrite bounce_read; [|exact L|destruct d; [congruence|cbn; lia]].
      rewrite (fill_whole d got) by congruence. reflexivity.
    + change sizeof_sg with 128. rewrite <- !app_assoc. cbn [app].
    match goal with |- context [K (h ++ [?a; ?b])] => destruct (ok_answer (K (h ++ [a; b]))) eqn:E2 end;
      [rewrite (ioctl_ok _ E2)|rewrite (ioctl_fail _ E2)]; reflexivity.
Qed.

Lemma tries_nodata K h (mk : xfer -> bytes -> sg_call) (rw : bool) addr mx :
  (forall w m, sg_mx_sb (mk w m) = mx) ->
  let c1 := mk XHeader [] in
  let a1 := K (h ++ [c1]) in
  let c2 := mk (XAddr 128) [] in
  let a2 := K (h ++ [c1] ++ [c2]) in
  let s1 := after mx sg_state0 a1 in
  sg_tries K h mk rw None addr =
  if ok_answer a1 then (h ++ [c1], Ok (None, (None, s1)))
  else (h ++ [c1] ++ [c2],
        Ok (if ok_answer a2 then (None, (None, s1)) else (Some (errno (answer_errno a2)), (None, after mx s1 a2)))).
Proof.
  intros Hmx.
  assert (Ev : forall h0 c s, sg_ioctl K h0 c s = (h0 ++ [c], (ioctl_result (an_errno (K (h0 ++ [c]))) (an_ret (K (h0 ++ [c]))),
      (if Z.eqb (sg_dir c) SG_DXFER_FROM_DEV then fill (sg_mem c) (an_in (K (h0 ++ [c]))) else sg_mem c, after (sg_mx_sb c) s (K (h0 ++ [c])))))) by reflexivity.
  unfold sg_tries. cbv zeta. rewrite !Ev, !Hmx. change sizeof_sg with 128.
  destruct (ok_answer (K (h ++ [mk XHeader []]))) eqn:E1; [rewrite (ioctl_ok _ E1); reflexivity|rewrite (ioctl_fail _ E1)].
  rewrite <- !app_assoc. cbn [app].
  match goal with |- context [K (h ++ [?a; ?b])] => destruct (ok_answer (K (h ++ [a; b]))) eqn:E2 end;
    [rewrite (ioctl_ok _ E2)|rewrite (ioctl_fail _ E2)]; reflexivity.
Qed.

(** ---- task file commands: closed form ---- *)
Definition aligned512 (addr : N) : bool := addr mod 512 =? 0.
(** What the code holds in the caller's buffer when the kernel is first called. *)
Definition prepared (rw : bool) (data : option bytes) : option bytes :=
  if rw then option_map (fun d => zeros (List.length d)) data else data.

Definition task_first (rw dma : bool) (t : tf) (data : option bytes) (addr : N) (secs : Z) : sg_call :=
  match data with
  | None => task_request rw dma t None secs XHeader []
  | Some d => task_request rw dma t data secs (first_where (aligned512 addr))
                (if rw then zeros (List.length d) else if aligned512 addr then d else zeros (List.length d))
  end.
Definition task_second (rw dma : bool) (t : tf) (data : option bytes) (secs : Z) : sg_call :=
  task_request rw dma t data secs (XAddr 128) [].
Definition task_got (rw : bool) (data : option bytes) (addr : N) (first_ok : bool) (a1 : sg_ans) : option bytes :=
  match data with
  | None => None
  | Some d => Some (if rw then zeros (List.length d)
                    else if aligned512 addr then fill d (an_in a1)
                    else if first_ok then fill (zeros (List.length d)) (an_in a1) else d)
  end.

Lemma task_closed K h rw dma t data addr secs : data <> Some [] ->
  let c1 := task_first rw dma t data addr secs in
  let a1 := K (h ++ [c1]) in
  let c2 := task_second rw dma t data secs in
  let a2 := K (h ++ [c1; c2]) in
  let s1 := after 32 sg_state0 a1 in
  let s2 := after 32 s1 a2 in
  let d := task_got rw data addr (ok_answer a1) a1 in
  let fin (s : sg_state) := match sense_error s with Some x => (Some x, (t, d)) | None => (None, (task_result s t, d)) end in
  sg_task_file K h rw dma t data addr secs =
  if ok_answer a1 then (h ++ [c1], Ok (fin s1))
  else (h ++ [c1; c2], Ok (if ok_answer a2 then fin s1 else (Some (errno (answer_errno a2)), (task_result s2 t, d)))).
Proof.
  intros Hd. cbv zeta. unfold sg_task_file. destruct data as [d|].
  - assert (Hn : (if rw then zeros (List.length d) else d) <> []).
    { destruct rw; [destruct d; cbn; congruence|congruence]. }
    assert (E : (if rw then option_map (fun d => zeros (List.length d)) (Some d) else Some d) = Some (if rw then zeros (List.length d) else d))
      by (destruct rw; reflexivity).
    rewrite E. rewrite (tries_data_aux K h _ rw _ addr 32 (aligned512 addr)); [|reflexivity|exact Hn|..].
    2:{ intros w m. unfold task_request. cbn [sg_dir]. unfold ternary. destruct rw; reflexivity. }
    2,3: reflexivity.
    cbv zeta. unfold task_first, task_second, task_got, first_mem. cbn [app].
    assert (Zl : List.length (zeros (List.length d)) = List.length d) by apply repeat_length.
    destruct rw, (aligned512 addr); cbn [orb first_where]; cbv iota;
      match goal with |- context [h ++ [?c; ?c']] => set (c1 := c); set (c2 := c') end;
      (destruct (ok_answer (K (h ++ [c1]))) eqn:E1; [|destruct (ok_answer (K (h ++ [c1; c2]))) eqn:E2];
       try (destruct (sense_error (after 32 sg_state0 (K (h ++ [c1]))))); reflexivity).
  - assert (E : forall b : bool, (if b then option_map (fun d : bytes => zeros (List.length d)) None else None) = None) by (intros []; reflexivity).
    rewrite E. rewrite (tries_nodata K h _ rw addr 32) by reflexivity. cbv zeta. unfold task_first, task_second, task_got. cbn [app].
    change (list N) with bytes. match goal with |- context [h ++ [?c; ?c']] => set (c1 := c); set (c2 := c') end.
    destruct (ok_answer (K (h ++ [c1]))) eqn:E1.
    + destruct (sense_error _); reflexivity.
    + destruct (ok_answer (K (h ++ [c1; c2]))) eqn:E2; [|reflexivity]. destruct (sense_error _); reflexivity.
Qed.

Lemma task_empty K h rw dma t addr secs : sg_task_file K h rw dma t (Some []) addr secs = (h, Panic).
Proof. unfold sg_task_file. destruct rw; reflexivity. Qed.

(** ---- security commands: closed form ---- *)
Definition sec_first (rw : bool) (protocol comId : N) (data : bytes) (addr : N) (secs : Z) : sg_call :=
  security_request rw protocol comId data secs (first_where (aligned512 addr)) (if rw then data else zeros (List.length data)).
Definition sec_second (rw : bool) (protocol comId : N) (data : bytes) (secs : Z) : sg_call :=
  security_request rw protocol comId data secs (XAddr 128) [].

Lemma no_sense s a : s_sense s = zeros 32 -> s_sense (after 0 s a) = zeros 32.
Proof. intros H. unfold after. cbn [s_sense]. change (N.to_nat 0) with 0%nat. cbn [firstn]. now rewrite fill_nil. Qed.
Lemma sense_error_zero s : s_sense s = zeros 32 -> sense_error s = None.
Proof. intros H. unfold sense_error. rewrite H. reflexivity. Qed.

Lemma security_closed K h rw dma protocol comId data addr secs : data <> [] ->
  let c1 := sec_first rw protocol comId data addr secs in
  let a1 := K (h ++ [c1]) in
  let c2 := sec_second rw protocol comId data secs in
  let a2 := K (h ++ [c1; c2]) in
  let got := fill (zeros (List.length data)) (an_in a1) in
  sg_security K h rw dma protocol comId data addr secs =
  if ok_answer a1 then (h ++ [c1], Ok (None, if rw then data else got))
  else (h ++ [c1; c2], Ok (if ok_answer a2 then None else Some (errno (answer_errno a2)),
                           if rw then data else if aligned512 addr then got else zeros (List.length data))).
Proof.
  intros Hd. cbv zeta. unfold sg_security.
  assert (Hn : (if rw then data else zeros (List.length data)) <> []) by (destruct rw, data; cbn; congruence).
  rewrite (tries_data_aux K h _ rw _ addr 0 (aligned512 addr)); [|reflexivity|exact Hn|..].
  2:{ intros w m. unfold security_request. cbn [sg_dir]. unfold ternary. destruct rw; reflexivity. }
  2,3: reflexivity.
  cbv zeta. unfold sec_first, sec_second, first_mem. cbn [app].
  assert (Zl : List.length (zeros (List.length data)) = List.length data) by apply repeat_length.
  destruct rw, (aligned512 addr); cbn [orb first_where]; cbv iota; rewrite ?Zl;
    match goal with |- context [h ++ [?c; ?c']] => set (c1 := c); set (c2 := c') end;
    assert (S1 : s_sense (after 0 sg_state0 (K (h ++ [c1]))) = zeros 32) by (now apply no_sense);
    (destruct (ok_answer (K (h ++ [c1]))) eqn:E1; [|destruct (ok_answer (K (h ++ [c1; c2]))) eqn:E2];
     rewrite ?(sense_error_zero _ S1); reflexivity).
Qed.

Lemma security_empty K h rw dma protocol comId addr secs : sg_security K h rw dma protocol comId [] addr secs = (h, Panic).
Proof. unfold sg_security. destruct rw; reflexivity. Qed.

(** ---- bit fields ---- *)
Lemma byte_sweep2 (P : N -> N -> bool) :
  forallb (fun b => forallb (P b) bytes256) bytes256 = true -> forall b v, b < 256 -> v < 256 -> P b v = true.
Proof.
  intros H b v Hb Hv. rewrite forallb_forall in H. specialize (H b (in_bytes256 b Hb)).
  rewrite forallb_forall in H. exact (H v (in_bytes256 v Hv)).
Qed.

Definition bits8 : list N := [0; 1; 2; 3; 4; 5; 6; 7].
Lemma in_bits8 i : i < 8 -> In i bits8.
Proof. intros H. unfold bits8. cbn. lia. Qed.

Definition check_num (get : N -> N) (set : N -> N -> N) (lo w b v : N) : bool :=
  let b' := set b v in
  (get b =? bit_range b lo w) && (get b' =? v mod 2 ^ w) && (b' <? 256)
  && forallb (fun i => ((lo <=? i) && (i <? lo + w)) || Bool.eqb (N.testbit b' i) (N.testbit b i)) bits8.
Lemma check_num_spec get set lo w :
  forallb (fun b => forallb (check_num get set lo w b) bytes256) bytes256 = true ->
  forall b v, b < 256 -> v < 256 ->
  get b = bit_range b lo w /\ get (set b v) = v mod 2 ^ w /\ set b v < 256
  /\ (forall i, i < 8 -> ~ (lo <= i < lo + w) -> N.testbit (set b v) i = N.testbit b i).
Proof.
  intros H b v Hb Hv. pose proof (byte_sweep2 _ H b v Hb Hv) as C. unfold check_num in C. cbv zeta in C.
  apply andb_prop in C as [C C4]. apply andb_prop in C as [C C3]. apply andb_prop in C as [C1 C2].
  apply N.eqb_eq in C1, C2. apply N.ltb_lt in C3. rewrite forallb_forall in C4.
  repeat split; try assumption. intros i Hi Hn. specialize (C4 i (in_bits8 i Hi)). apply orb_prop in C4 as [C4|C4].
  - apply andb_prop in C4 as [A B]. apply N.leb_le in A. apply N.ltb_lt in B. lia.
  - now apply Bool.eqb_prop in C4.
Qed.

Definition check_flag (get : N -> bool) (set : N -> bool -> N) (k b : N) : bool :=
  Bool.eqb (get b) (N.testbit b k)
  && forallb (fun v : bool => let b' := set b v in
       Bool.eqb (get b') v && (b' <? 256) && forallb (fun i => (i =? k) || Bool.eqb (N.testbit b' i) (N.testbit b i)) bits8) [true; false].
Lemma check_flag_spec get set k :
  forallb (check_flag get set k) bytes256 = true ->
  forall b v, b < 256 ->
  get b = N.testbit b k /\ get (set b v) = v /\ set b v < 256
  /\ (forall i, i < 8 -> i <> k -> N.testbit (set b v) i = N.testbit b i).
Proof.
  intros H b v Hb. pose proof (byte_sweep _ H b Hb) as C. unfold check_flag in C.
  apply andb_prop in C as [C1 C]. apply Bool.eqb_prop in C1. rewrite forallb_forall in C.
  specialize (C v ltac:(destruct v; cbn; auto)). cbv zeta in C.
  apply andb_prop in C as [C C4]. apply andb_prop in C as [C2 C3]. apply Bool.eqb_prop in C2. apply N.ltb_lt in C3.
  rewrite forallb_forall in C4. repeat split; try assumption. intros i Hi Hn. specialize (C4 i (in_bits8 i Hi)).
  apply orb_prop in C4 as [C4|C4]; [apply N.eqb_eq in C4; lia|now apply Bool.eqb_prop in C4].
Qed.

(** ---- CDBs ---- *)
Lemma decode_task rw dma hd t :
  sat_decode (task_cdb rw dma hd t) =
  Some {| sat_multiple := 0;
          sat_protocol := protocol_code (if hd then if dma then Dma else if rw then PioOut else PioIn else NonData);
          sat_extend := negb (t_lba48 t =? 0);
          sat_offline := 0; sat_ck_cond := negb hd; sat_t_type := false; sat_from_device := hd && negb rw;
          sat_byte_block := hd; sat_t_length := if hd then 2 else 0;
          sat_features := if t_lba48 t =? 0 then g_feat (t_lob t) else 256 * g_feat (t_hob t) + g_feat (t_lob t);
          sat_count := if t_lba48 t =? 0 then g_nsect (t_lob t) else 256 * g_nsect (t_hob t) + g_nsect (t_lob t);
          sat_lba := if t_lba48 t =? 0 then lba48 (g_lbal (t_lob t)) (g_lbam (t_lob t)) (g_lbah (t_lob t)) 0 0 0
                     else lba48 (g_lbal (t_lob t)) (g_lbam (t_lob t)) (g_lbah (t_lob t)) (g_lbal (t_hob t)) (g_lbam (t_hob t)) (g_lbah (t_hob t));
          sat_device := t_dev t; sat_command := t_command t mod 256 |}.
Proof.
  unfold task_cdb. destruct (t_lba48 t =? 0); cbn [negb]; destruct rw, dma, hd; reflexivity.
Qed.

Lemma be2 v : be_bytes 2 v = [(v / 256) mod 256; v mod 256].
Proof. reflexivity. Qed.
Lemma be4 v : be_bytes 4 v = [(v / 256 / 256 / 256) mod 256; (v / 256 / 256) mod 256; (v / 256) mod 256; v mod 256].
Proof. reflexivity. Qed.

Lemma decode_security (rw : bool) protocol comId len : comId < 2 ^ 16 -> len < 2 ^ 32 ->
  security_decode (pack_security (if rw then 0xB5 else 0xA2) protocol comId 0 0 len 0 0) =
  Some {| sc_out := rw; sc_protocol := protocol; sc_specific := comId; sc_inc512 := false; sc_length := len |}.
Proof.
  intros Hc Hl. unfold pack_security. rewrite be2, be4. unfold security_decode. cbn [app nth].
  assert (C : 256 * ((comId / 256) mod 256) + comId mod 256 = comId) by (change (2 ^ 16) with 65536 in Hc; lia).
  assert (L : 2 ^ 24 * ((len / 256 / 256 / 256) mod 256) + 2 ^ 16 * ((len / 256 / 256) mod 256) + 2 ^ 8 * ((len / 256) mod 256) + len mod 256 = len).
  { clear Hc C. pose proof (N.div_mod len 256 ltac:(lia)) as A. pose proof (N.div_mod (len / 256) 256 ltac:(lia)) as B.
    pose proof (N.div_mod (len / 256 / 256) 256 ltac:(lia)) as D.
    assert (len / 256 / 256 / 256 < 256) as S.
    { rewrite !N.div_div by lia. apply N.div_lt_upper_bound; [lia|]. exact Hl. }
    rewrite (N.mod_small _ _ S). change (2 ^ 24) with (256 * (256 * 256)). change (2 ^ 16) with (256 * 256). change (2 ^ 8) with 256.
    clear Hl S. remember (len mod 256) as r0 eqn:X0. remember (len / 256) as q1 eqn:X1.
    remember (q1 mod 256) as r1 eqn:Y0. remember (q1 / 256) as q2 eqn:Y1.
    remember (q2 mod 256) as r2 eqn:Z0. remember (q2 / 256) as q3 eqn:Z1.
    clear X0 X1 Y0 Y1 Z0 Z1. subst q2. subst q1. subst len. clear. ring. }
  destruct rw; cbn [blen]; unfold blen; cbn [List.length]; change (N.of_nat 12 =? 12) with true; cbn [andb];
    [change (0xB5 =? 0xA2) with false; change (0xB5 =? 0xB5) with true|change (0xA2 =? 0xA2) with true; change (0xA2 =? 0xB5) with false];
    cbn [orb]; rewrite C, L; reflexivity.
Qed.

(** ---- results ---- *)
Lemma testbit0_land x : negb (N.land x 1 =? 0) = N.testbit x 0.
Proof.
  change 1 with (N.ones 1). rewrite N.land_ones. change (2 ^ 1) with 2. rewrite N.bit0_odd.
  pose proof (N.bit0_mod x) as M. rewrite <- M. rewrite N.bit0_odd. destruct (N.odd x); reflexivity.
Qed.

Lemma lor3 l m h : l < 256 -> m < 256 -> N.lor (N.lor (N.shiftl h 16) (N.shiftl m 8)) l = l + 256 * m + 65536 * h.
Proof.
  intros Hl Hm. rewrite <- N.lor_assoc, (N.lor_comm (N.shiftl m 8) l), lor_add_disjoint by exact Hl.
  rewrite N.lor_comm, lor_add_disjoint; change (2 ^ 8) with 256; change (2 ^ 16) with 65536; lia.
Qed.
Lemma land15 x : N.land x 0x0f = x mod 16.
Proof. change 0x0f with (N.ones 4). now rewrite N.land_ones. Qed.

Lemma tf_to_lba_value t :
  g_lbal (t_lob t) < 256 -> g_lbam (t_lob t) < 256 -> g_lbah (t_lob t) < 256 -> g_lbal (t_hob t) < 256 -> g_lbam (t_hob t) < 256 ->
  tf_to_lba t = (g_lbal (t_lob t) + 256 * g_lbam (t_lob t) + 65536 * g_lbah (t_lob t))
    + 2 ^ 24 * (if t_lba48 t =? 0 then t_dev t mod 16
                else g_lbal (t_hob t) + 256 * g_lbam (t_hob t) + 65536 * g_lbah (t_hob t)).
Proof.
  intros A B C D E. unfold tf_to_lba. cbv zeta. rewrite (lor3 (g_lbal (t_lob t)) (g_lbam (t_lob t)) (g_lbah (t_lob t))) by assumption.
  assert (L : g_lbal (t_lob t) + 256 * g_lbam (t_lob t) + 65536 * g_lbah (t_lob t) < 2 ^ 24) by (change (2 ^ 24) with 16777216; lia).
  rewrite N.lor_comm, lor_add_disjoint by exact L. f_equal. rewrite N.mul_comm. f_equal.
  destruct (t_lba48 t =? 0); cbn [negb]; [apply land15|]. now apply lor3.
Qed.

Lemma to_int32_spec x : (- 2 ^ 31 <= to_int32 x < 2 ^ 31)%Z /\ (to_int32 x mod 2 ^ 32 = Z.of_N x mod 2 ^ 32)%Z.
Proof.
  unfold to_int32. rewrite N2Z.inj_mod. change (Z.of_N (2 ^ 32)) with (2 ^ 32)%Z.
  pose proof (Z.mod_pos_bound (Z.of_N x) (2 ^ 32) ltac:(lia)) as B.
  destruct (Z.ltb_spec (Z.of_N x mod 2 ^ 32) (2 ^ 31)) as [L|L].
  - split; [lia|]. now rewrite Z.mod_mod by lia.
  - split; [lia|]. rewrite <- (Z.mod_add _ 1) by lia. replace (Z.of_N x mod 2 ^ 32 - 2 ^ 32 + 1 * 2 ^ 32)%Z with (Z.of_N x mod 2 ^ 32)%Z by ring.
    now rewrite Z.mod_mod by lia.
Qed.
