(** Property theorems C67-C73 (Linux NVMe driver, alone and below a drive handle). *)
From Verif Require Import Base M_Buffer M_Ata M_TcgDevice M_DriveHandle M_SgDriver M_NvmeLinux Spec_Drive Spec_Sg Spec_NvmeLinux P_Discovery
  P_DriveHandle P_Sg P_NvmeLinux Prop_Drive.

(** ---- C67: request numbers ---- *)
Theorem C67_ioctl_numbers :
  (* include/uapi/linux/nvme_ioctl.h *)
  NVME_IOCTL_ID = 0x4E40 /\ NVME_IOCTL_ADMIN_CMD = 0xC0484E41 /\ NVME_IOCTL_SUBMIT_IO = 0x40304E42 /\ NVME_IOCTL_IO_CMD = 0xC0484E43
  /\ NVME_IOCTL_RESET = 0x4E44 /\ NVME_IOCTL_SUBSYS_RESET = 0x4E45 /\ NVME_RESCAN = 0x4E46
  /\ NVME_IOCTL_ADMIN64_CMD = 0xC0504E47 /\ NVME_IOCTL_IO64_CMD = 0xC0504E48
  (* the encoders, for every type, number and size *)
  /\ (forall t nr size, t < 256 -> nr < 256 -> size < 2 ^ 14 ->
        io t nr = uapi_ioc 0 t nr 0 /\ iow t nr size = uapi_ioc 1 t nr size /\ iowr t nr size = uapi_ioc 3 t nr size
        /\ ior t nr size = uapi_ioc 3 t nr size).
Proof.
  repeat (split; [reflexivity|]). intros t nr size Ht Hn Hs.
  unfold io, iow, iowr, ior. rewrite !ioc_value by (assumption || reflexivity). repeat split; reflexivity.
Qed.
Print Assumptions C67_ioctl_numbers.

(** IOR never produces the _IOR number the kernel expects. *)
Theorem C67_ior_refuted : forall t nr size, t < 256 -> nr < 256 -> size < 2 ^ 14 -> ior t nr size <> uapi_ioc 2 t nr size.
Proof.
  intros t nr size Ht Hn Hs. unfold ior. rewrite ioc_value by assumption. unfold uapi_ioc. change (N.lor 2 1) with 3.
  change (2 ^ 30) with 1073741824. lia.
Qed.
Print Assumptions C67_ior_refuted.

(** ---- vocabulary ---- *)
(** Every field fits its Go type. *)
Definition wf_cmd (c : admin_cmd) : Prop :=
  c_opcode c < 256 /\ c_flags c < 256 /\ c_rsvd1 c < 2 ^ 16 /\ c_nsid c < 2 ^ 32 /\ c_cdw2 c < 2 ^ 32 /\ c_cdw3 c < 2 ^ 32
  /\ c_metadata c < 2 ^ 64 /\ c_metadata_len c < 2 ^ 32 /\ c_data_len c < 2 ^ 32 /\ c_cdw10 c < 2 ^ 32 /\ c_cdw11 c < 2 ^ 32
  /\ c_cdw12 c < 2 ^ 32 /\ c_cdw13 c < 2 ^ 32 /\ c_cdw14 c < 2 ^ 32 /\ c_cdw15 c < 2 ^ 32 /\ c_timeout_ms c < 2 ^ 32
  /\ c_result c < 2 ^ 32 /\ c_data_addr c < 2 ^ 64.
Definition nv_succeeded (a : nv_ans) : Prop := na_errno a = 0 /\ na_ret a = 0.
Definition nv_error_number (a : nv_ans) : N := if na_errno a =? 0 then na_ret a else na_errno a.
(** The kernel structure a command corresponds to, with the address and length actually passed. *)
Definition kernel_view (c : admin_cmd) (addr len : N) : uapi_passthru :=
  {| up_opcode := c_opcode c; up_flags := c_flags c; up_rsvd1 := c_rsvd1 c; up_nsid := c_nsid c; up_cdw2 := c_cdw2 c; up_cdw3 := c_cdw3 c;
     up_metadata := c_metadata c; up_addr := addr; up_metadata_len := c_metadata_len c; up_data_len := len; up_cdw10 := c_cdw10 c;
     up_cdw11 := c_cdw11 c; up_cdw12 := c_cdw12 c; up_cdw13 := c_cdw13 c; up_cdw14 := c_cdw14 c; up_cdw15 := c_cdw15 c;
     up_timeout_ms := c_timeout_ms c; up_result := c_result c |}.
(** Two commands that differ at most in the contents of the data buffer. *)
Definition same_but_data (c c' : admin_cmd) : Prop :=
  kernel_view c 0 0 = kernel_view c' 0 0 /\ c_data_len c = c_data_len c' /\ c_data_addr c = c_data_addr c'.

Lemma nv_succeeded_ok a : nv_succeeded a <-> nv_ok a = true.
Proof. unfold nv_succeeded, nv_ok. rewrite andb_true_iff, !N.eqb_eq. tauto. Qed.
Lemma outcome a : ((if nv_ok a then None else Some (errno (nv_errno a))) = None <-> nv_succeeded a)
  /\ (~ nv_succeeded a -> (if nv_ok a then None else Some (errno (nv_errno a))) = Some (errno (nv_error_number a))).
Proof. rewrite nv_succeeded_ok. destruct (nv_ok a); split; try split; try reflexivity; try discriminate; congruence. Qed.

(** ---- C68: admin commands ---- *)
Theorem C68_admin_passthru : forall K h fd c addr h' e c', wf_cmd c -> addr < 2 ^ 64 ->
  nv_admin K h fd c addr = (h', (e, c')) ->
  exists call, h' = h ++ [call] /\ nc_fd call = fd /\ nc_req call = 0xC0484E41 /\ blen (nc_arg call) = 72
  /\ read_passthru (nc_arg call) =
       kernel_view c (if c_data_addr c =? 0 then match c_data c with [] => 0 | _ => addr end else c_data_addr c) (c_data_len c)
  /\ (c_data_addr c = 0 -> nc_buf call = c_data c)
  /\ (e = None <-> nv_succeeded (K h')) /\ (~ nv_succeeded (K h') -> e = Some (errno (nv_error_number (K h'))))
  /\ same_but_data c c'       (* in particular completion dword 0 is lost *)
  /\ (c_data_addr c <> 0 \/ N.odd (c_opcode c) = true -> c_data c' = c_data c)
  /\ (c_data_addr c = 0 -> N.odd (c_opcode c) = false ->
        delivered (c_data c) (firstn (N.to_nat (c_data_len c)) (na_in (K h'))) (c_data c')).
Proof.
  intros K h fd c addr h' e c' W Ha H.
  destruct W as (W1 & W2 & W3 & W4 & W5 & W6 & W7 & W8 & W9 & W10 & W11 & W12 & W13 & W14 & W15 & W16 & W17 & W18).
  rewrite nv_admin_closed in H by assumption. cbv zeta in H.
  exists (admin_call fd c addr). apply pair_equal_spec in H. destruct H as [H1 H2]. apply pair_equal_spec in H2. destruct H2 as [H2 H3].
  split; [auto|]. split; [reflexivity|]. split; [reflexivity|]. split; [reflexivity|].
  assert (AD : admin_data_addr c addr = (if c_data_addr c =? 0 then match c_data c with [] => 0 | _ => addr end else c_data_addr c)).
  { unfold admin_data_addr. destruct (c_data_addr c =? 0); [|reflexivity]. cbn [negb]. destruct (c_data c); reflexivity. }
  split. { unfold admin_call. cbn [nc_arg]. rewrite AD. rewrite read_passthru_mem; try assumption; [reflexivity|].
    destruct (c_data_addr c =? 0); [destruct (c_data c); [reflexivity|assumption]|assumption]. }
  split. { intros E. unfold admin_call, passed_buffer. cbn [nc_buf]. now rewrite E. }
  rewrite H1 in *. rewrite <- H2. destruct (outcome (K h')) as [O1 O2].
  split; [exact O1|]. split; [exact O2|]. rewrite <- H3.
  split. { destruct (negb (c_data_addr c =? 0) || N.odd (c_opcode c)); repeat split. }
  split.
  - intros [Hd|Ho].
    + apply N.eqb_neq in Hd. now rewrite Hd.
    + rewrite Ho, orb_true_r. reflexivity.
  - intros Hd Ho. rewrite Hd, Ho. cbn [negb N.eqb orb set_c_data c_data]. apply fill_delivered.
Qed.
Print Assumptions C68_admin_passthru.

(** ---- C69: I/O commands ---- *)
Theorem C69_io_passthru : forall K h fd c addr h' r, wf_cmd c -> addr < 2 ^ 64 ->
  nv_io_passthru K h fd c addr = (h', r) ->
  (c_data_addr c = 0 /\ c_data c = [] -> h' = h /\ r = Panic)
  /\ (~ (c_data_addr c = 0 /\ c_data c = []) ->
      exists call e, h' = h ++ [call] /\ r = Ok (e, c)       (* no data ever arrives, no result is returned *)
      /\ nc_fd call = fd /\ nc_req call = 0xC0484E43 /\ blen (nc_arg call) = 72
      /\ read_passthru (nc_arg call) = kernel_view c (if c_data_addr c =? 0 then addr else c_data_addr c) 0
      /\ (e = None <-> nv_succeeded (K h')) /\ (~ nv_succeeded (K h') -> e = Some (errno (nv_error_number (K h'))))).
Proof.
  intros K h fd c addr h' r W Ha H. unfold nv_io_passthru, passthru_data_addr in H.
  destruct W as (W1 & W2 & W3 & W4 & W5 & W6 & W7 & W8 & W9 & W10 & W11 & W12 & W13 & W14 & W15 & W16 & W17 & W18).
  split.
  - intros [E1 E2]. rewrite E1, E2 in H. cbn in H. now inversion H.
  - intros N0.
    set (av := if c_data_addr c =? 0 then addr else c_data_addr c).
    assert (AV : (if negb (c_data_addr c =? 0) then Ok (c_data_addr c) else match c_data c with [] => Panic | _ => Ok addr end) = Ok av).
    { unfold av. destruct (N.eqb_spec (c_data_addr c) 0) as [E|E]; cbn [negb]; [|reflexivity].
      destruct (c_data c) eqn:D; [exfalso; apply N0; auto|reflexivity]. }
    rewrite AV in H. unfold nv_ioctl in H. cbv zeta in H. cbn [nc_arg nc_buf] in H.
    match type of H with context [K (h ++ [?x])] => set (call := x) in * end.
    match type of H with context [slice 36 4 ?m] => change (slice 36 4 m) with (le_bytes 4 0) in H; set (arg := m) in * end.
    rewrite nv_result in H.
    assert (B : forall l : bytes, firstn (N.to_nat (le_val (le_bytes 4 0))) l = []) by reflexivity.
    rewrite B, fill_nil in H.
    assert (C : set_c_data c (c_data c) = c) by (destruct c; reflexivity).
    exists call. eexists.
    assert (H' : h' = h ++ [call] /\ r = Ok (if nv_ok (K (h ++ [call])) then None else Some (errno (nv_errno (K (h ++ [call])))), c)).
    { destruct (N.odd (le_val (slice 0 1 arg))); unfold passed_buffer in H; destruct (negb (c_data_addr c =? 0)); rewrite ?C in H;
        apply pair_equal_spec in H; destruct H as [H1 H2]; split; auto. }
    destruct H' as [-> ->]. split; [reflexivity|]. split; [reflexivity|]. split; [reflexivity|]. split; [reflexivity|]. split; [reflexivity|].
    split; [|apply outcome].
    unfold call. cbn [nc_arg]. unfold arg. rewrite read_passthru_mem; try assumption; [reflexivity| |reflexivity].
    unfold av. destruct (c_data_addr c =? 0); assumption.
Qed.
Print Assumptions C69_io_passthru.

(** A read whose device returns data, with DataLen and a buffer given: success is reported and the buffer still holds its old bytes. *)
Theorem C69_io_read_refuted : exists K fd c addr h' , wf_cmd c /\ c_opcode c = 0x02 /\ c_data_len c = 4 /\ c_data c = [0; 0; 0; 0]
  /\ nv_io_passthru K [] fd c addr = (h', Ok (None, c)) /\ nv_succeeded (K h') /\ na_in (K h') = [1; 2; 3; 4].
Proof.
  exists (fun _ => {| na_errno := 0; na_ret := 0; na_in := [1; 2; 3; 4]; na_result := 0 |}), 3,
    {| c_opcode := 0x02; c_flags := 0; c_rsvd1 := 0; c_nsid := 1; c_cdw2 := 0; c_cdw3 := 0; c_metadata := 0; c_metadata_len := 0;
       c_data_len := 4; c_cdw10 := 0; c_cdw11 := 0; c_cdw12 := 0; c_cdw13 := 0; c_cdw14 := 0; c_cdw15 := 0; c_timeout_ms := 0;
       c_result := 0; c_data_addr := 0; c_data := [0; 0; 0; 0] |}, 4096.
  eexists. split; [unfold wf_cmd; cbn; repeat split; reflexivity|]. do 3 (split; [reflexivity|]).
  split; [vm_compute; reflexivity|]. repeat split.
Qed.
Print Assumptions C69_io_read_refuted.

(** ---- C70: user I/O ---- *)
Definition wf_user_io (u : user_io) : Prop :=
  u_opcode u < 256 /\ u_flags u < 256 /\ u_control u < 2 ^ 16 /\ u_nblocks u < 2 ^ 16 /\ u_rsvd u < 2 ^ 16 /\ u_metadata u < 2 ^ 64
  /\ u_addr u < 2 ^ 64 /\ u_slba u < 2 ^ 64 /\ u_dsmgmt u < 2 ^ 32 /\ u_reftag u < 2 ^ 32 /\ u_apptag u < 2 ^ 16 /\ u_appmask u < 2 ^ 16.
Theorem C70_user_io : forall K h fd u h' e, wf_user_io u -> nv_io K h fd u = (h', e) ->
  exists call, h' = h ++ [call] /\ nc_fd call = fd /\ nc_req call = 0x40304E42 /\ blen (nc_arg call) = 48
  /\ read_user_io (nc_arg call) =
       {| ui_opcode := u_opcode u; ui_flags := u_flags u; ui_control := u_control u; ui_nblocks := u_nblocks u; ui_rsvd := u_rsvd u;
          ui_metadata := u_metadata u; ui_addr := u_addr u; ui_slba := u_slba u; ui_dsmgmt := u_dsmgmt u; ui_reftag := u_reftag u;
          ui_apptag := u_apptag u; ui_appmask := u_appmask u |}
  /\ (e = None <-> nv_succeeded (K h')) /\ (~ nv_succeeded (K h') -> e = Some (errno (nv_error_number (K h')))).
Proof.
  intros K h fd u h' e W H. destruct W as (W1 & W2 & W3 & W4 & W5 & W6 & W7 & W8 & W9 & W10 & W11 & W12).
  unfold nv_io in H. cbv zeta in H. match type of H with (h ++ [?x], _) = _ => set (call := x) in * end.
  rewrite nv_result in H. apply pair_equal_spec in H. destruct H as [<- <-]. exists call.
  split; [reflexivity|]. split; [reflexivity|]. split; [reflexivity|]. split; [reflexivity|].
  split; [|apply outcome]. unfold call. cbn [nc_arg]. now apply read_user_io_mem.
Qed.
Print Assumptions C70_user_io.

(** ---- C71: opening ---- *)
Definition identify_view (addr : N) : uapi_passthru :=
  {| up_opcode := 0x06; up_flags := 0; up_rsvd1 := 0; up_nsid := 0; up_cdw2 := 0; up_cdw3 := 0; up_metadata := 0; up_addr := addr;
     up_metadata_len := 0; up_data_len := 4096; up_cdw10 := 1; up_cdw11 := 0; up_cdw12 := 0; up_cdw13 := 0; up_cdw14 := 0; up_cdw15 := 0;
     up_timeout_ms := 0; up_result := 0 |}.
Theorem C71_open : forall K h fd addr h' r, addr < 2 ^ 64 -> nv_open K h fd addr = (h', r) ->
  exists call, h' = h ++ [call] /\ nc_fd call = fd /\ nc_req call = 0xC0484E41 /\ read_passthru (nc_arg call) = identify_view addr
  /\ nc_buf call = zeros 4096
  /\ match r with
     | Ok identity => nv_succeeded (K h') /\ delivered (zeros 4096) (firstn 4096 (na_in (K h'))) identity
     | Err e => ~ nv_succeeded (K h') /\ e = errno (nv_error_number (K h'))
     | Panic | Fuel => False
     end.
Proof.
  intros K h fd addr h' r Ha H. unfold nv_open in H.
  destruct (nv_admin K h fd identify_cmd addr) as [h1 [e c]] eqn:E.
  destruct (C68_admin_passthru K h fd identify_cmd addr h1 e c) as (call & H1 & H2 & H3 & H4 & H5 & H6 & H7 & H8 & H9 & H10 & H11); auto.
  { unfold wf_cmd, identify_cmd. cbn. repeat split; reflexivity. }
  exists call. specialize (H11 eq_refl eq_refl). specialize (H6 eq_refl).
  change (c_data identify_cmd) with (zeros 4096) in H11, H6. change (N.to_nat (c_data_len identify_cmd)) with 4096%nat in H11.
  assert (Hh : h' = h1) by (destruct e; [|destruct (negb _)]; inversion H; reflexivity). subst h'.
  do 3 (split; [assumption|]). split.
  { rewrite H5. reflexivity. }
  split; [exact H6|].
  destruct e as [x|].
  - apply (f_equal snd) in H; cbn [snd] in H; subst r. assert (F : ~ nv_succeeded (K h1)) by (intros F; apply H7 in F; discriminate).
    split; [exact F|]. apply H8 in F. congruence.
  - assert (L : blen (c_data c) = 4096).
    { unfold blen. rewrite (proj1 H11). unfold zeros. rewrite repeat_length. reflexivity. }
    rewrite L in H. cbn in H. apply (f_equal snd) in H; cbn [snd] in H; subst r. split; [apply H7; reflexivity|exact H11].
Qed.
Print Assumptions C71_open.

(** ---- C72: SecurityCommand of a drive handle over this driver ----
    [kh] is the kernel history when the driver was opened, [h] the calls the handle has made since; [A] gives buffer addresses. *)
Definition over_nvme (p : dh) : Prop := p_dh p = Some {| is_ata := false; is_nvme := true |}.
Theorem C72_security_over_nvme : forall K fd A kh identity p h rw dma proto comId buf secs h' e out,
  let V := nv_drv K fd A kh identity in
  let before := nv_replay K fd A kh h in
  over_nvme p -> proto < 256 -> comId < 2 ^ 16 -> blen buf < 2 ^ 32 -> (forall k, A k < 2 ^ 64) ->
  security_command V p h rw dma proto comId buf secs = (h', (e, out)) ->
  exists call, nv_replay K fd A kh h' = before ++ [call]
  /\ nc_fd call = fd /\ nc_req call = 0xC0484E41 /\ nc_buf call = buf
  /\ read_passthru (nc_arg call) =
       plain_view (if rw then 0x81 else 0x82) 0 (match buf with [] => 0 | _ => A before end) (blen buf) (2 ^ 24 * proto + 2 ^ 8 * comId) (blen buf)
  /\ (e = None <-> nv_succeeded (K (before ++ [call])))
  /\ (~ nv_succeeded (K (before ++ [call])) -> e = Some (errno (nv_error_number (K (before ++ [call])))))
  /\ (rw = true -> out = buf)
  /\ (rw = false -> delivered buf (na_in (K (before ++ [call]))) out).
Proof.
  intros K fd A kh identity p h rw dma proto comId buf secs h' e out V before Hp Hpr Hc Hb HA H.
  unfold security_command in H. unfold over_nvme in Hp. rewrite Hp in H. cbv zeta in H. cbn [is_ata is_nvme] in H.
  set (sec := CSec rw dma proto comId buf secs) in *.
  assert (E1 : v_io V (h ++ [sec]) = (Some (EMsg "not supported"), buf)) by (unfold V; rewrite nv_drv_io; reflexivity).
  rewrite E1, fill_same in H.
  set (c10 := N.lor (N.shiftl (N.land proto 255) 24 mod 2 ^ 32) (N.shiftl (N.land comId 65535) 8 mod 2 ^ 32)) in *.
  assert (C10 : c10 = 2 ^ 24 * proto + 2 ^ 8 * comId).
  { unfold c10. change 255 with (N.ones 8). change 65535 with (N.ones 16). rewrite !N.land_ones.
    rewrite (N.mod_small proto) by exact Hpr. rewrite (N.mod_small comId) by exact Hc.
    rewrite !N.shiftl_mul_pow2. rewrite !N.mod_small.
    - rewrite N.lor_comm, <- N.shiftl_mul_pow2. rewrite <- (N.shiftl_mul_pow2 proto 24).
      rewrite lor_add_disjoint.
      + rewrite N.shiftl_mul_pow2. lia.
      + rewrite N.shiftl_mul_pow2. change (2 ^ 8) with 256. change (2 ^ 24) with 16777216. change (2 ^ 16) with 65536 in Hc. lia.
    - change (2 ^ 8) with 256. change (2 ^ 32) with 4294967296. change (2 ^ 16) with 65536 in Hc. lia.
    - change (2 ^ 24) with 16777216. change (2 ^ 32) with 4294967296. lia. }
  rewrite (N.mod_small (blen buf)) in H by exact Hb.
  set (c := {| c_opcode := _ |}) in *.
  assert (R0 : nv_replay K fd A kh (h ++ [sec]) = before) by (rewrite nv_replay_app; reflexivity).
  assert (R1 : forall x, nv_exec K fd A (nv_replay K fd A kh (h ++ [sec])) (CAdmin x)
     = (let '(k1, (e, cmd')) := nv_admin K before fd x (A before) in (k1, (e, c_data cmd')))) by (intros x; rewrite R0; reflexivity).
  unfold V in H. rewrite nv_drv_io, R1 in H.
  destruct (nv_admin K before fd c (A before)) as [k1 [e1 c1]] eqn:E. cbn [snd] in H.
  destruct (C68_admin_passthru K before fd c (A before) k1 e1 c1) as (call & H1 & H2 & H3 & H4 & H5 & H6 & H7 & H8 & H9 & H10 & H11); auto.
  { unfold wf_cmd, c. cbn [c_opcode c_flags c_rsvd1 c_nsid c_cdw2 c_cdw3 c_metadata c_metadata_len c_data_len c_cdw10 c_cdw11 c_cdw12 c_cdw13 c_cdw14 c_cdw15 c_timeout_ms c_result c_data_addr].
    repeat split; try reflexivity; try exact Hb; [destruct rw; reflexivity|].
    rewrite C10. change (2 ^ 24) with 16777216. change (2 ^ 8) with 256. change (2 ^ 32) with 4294967296. change (2 ^ 16) with 65536 in Hc. lia. }
  inversion H; subst h' e out. exists call. rewrite <- H1.
  split. { rewrite nv_replay_app, R1, E. reflexivity. }
  split; [exact H2|]. split; [exact H3|]. split; [exact (H6 eq_refl)|].
  split. { rewrite H5. unfold kernel_view, plain_view, c. cbn [c_opcode c_flags c_rsvd1 c_nsid c_cdw2 c_cdw3 c_metadata c_metadata_len c_data_len c_cdw10 c_cdw11 c_cdw12 c_cdw13 c_cdw14 c_cdw15 c_timeout_ms c_result c_data_addr c_data].
    rewrite C10. destruct rw, buf; reflexivity. }
  split; [exact H7|]. split; [exact H8|].
  assert (LB : List.length (c_data c1) = List.length buf -> fill buf (c_data c1) = c_data c1) by (intros L; now apply fill_whole).
  split.
  - intros ->. rewrite H10 by (right; reflexivity). apply fill_same.
  - intros ->. specialize (H11 eq_refl eq_refl). rewrite LB by (exact (proj1 H11)).
    change (c_data c) with buf in H11. change (c_data_len c) with (blen buf) in H11.
    destruct H11 as (D1 & D2 & D3). split; [exact D1|]. unfold blen in D2, D3. rewrite Nat2N.id in D2, D3. split.
    + intros i I1 I2. rewrite D2; [|rewrite firstn_length; lia|exact I2]. apply nth_error_firstn_lt. exact I2.
    + intros i I1. destruct (Nat.lt_ge_cases i (List.length buf)) as [I2|I2].
      * apply D3. rewrite firstn_length. lia.
      * rewrite (proj2 (nth_error_None _ _)) by (rewrite D1; exact I2). symmetry. now apply nth_error_None.
Qed.
Print Assumptions C72_security_over_nvme.

(** ---- C73: log pages over this driver ---- *)
(** Specification: at most [k] ioctls, each wanted by [want] and working on the buffer the previous one left; the first success ends
    it; the error is the last one. *)
Inductive kernel_attempts (K : nv_kern) (want : nv_hist -> nv_call -> Prop) (len : nat)
  : nat -> nv_hist -> bytes -> nv_hist -> bytes -> option err -> Prop :=
| ka_ok : forall k h d c d', want h c -> nc_buf c = d -> nv_succeeded (K (h ++ [c])) -> delivered d (firstn len (na_in (K (h ++ [c])))) d' ->
    kernel_attempts K want len (S k) h d (h ++ [c]) d' None
| ka_last : forall h d c d', want h c -> nc_buf c = d -> ~ nv_succeeded (K (h ++ [c])) -> delivered d (firstn len (na_in (K (h ++ [c])))) d' ->
    kernel_attempts K want len 1 h d (h ++ [c]) d' (Some (errno (nv_error_number (K (h ++ [c])))))
| ka_again : forall k h d c d1 h' d' r, want h c -> nc_buf c = d -> ~ nv_succeeded (K (h ++ [c])) ->
    delivered d (firstn len (na_in (K (h ++ [c])))) d1 -> kernel_attempts K want len (S k) (h ++ [c]) d1 h' d' r ->
    kernel_attempts K want len (S (S k)) h d h' d' r.

Definition wants_log_page (fd nsid logId : N) (rae : bool) (n : N) (A : nv_hist -> N) (h : nv_hist) (c : nv_call) : Prop :=
  nc_fd c = fd /\ nc_req c = 0xC0484E41 /\
  exists cdw10 cdw11, read_passthru (nc_arg c) = plain_view 0x02 nsid (A h) n cdw10 cdw11
  /\ bits 7 0 cdw10 = logId /\ bits 14 8 cdw10 = 0 /\ bits 15 15 cdw10 = (if rae then 1 else 0)
  /\ bits 31 16 cdw10 + 2 ^ 16 * cdw11 = n / 4 - 1.

Theorem C73_log_page_over_nvme : forall K fd A kh nsid logId rae q kh' r,
  nsid < 2 ^ 32 -> logId < 256 -> 4 <= N.pos q < 2 ^ 32 -> (forall k, A k < 2 ^ 64) ->
  nv_log_page K fd A kh nsid logId rae (Zpos q) = (kh', r) ->
  exists d e, r = Ok (d, e) /\ blen d = N.pos q
  /\ kernel_attempts K (wants_log_page fd nsid logId rae (N.pos q) A) (Pos.to_nat q) (N.to_nat ((N.pos q + 4095) / 4096))
       kh (zeros (Pos.to_nat q)) kh' d e.
Proof.
  intros K fd A kh nsid logId rae q kh' r Hn Hl Hq HA H. unfold nv_log_page in H.
  pose proof (C42_log_page_retry (nv_admin_drv K fd A kh) [] nsid logId rae (Zpos q)) as R. cbv iota zeta in R.
  destruct R as (h' & d & e & E & L & At). rewrite E in H. apply pair_equal_spec in H. destruct H as [<- <-].
  exists d, e. split; [reflexivity|]. split; [exact L|].
  set (n := N.pos q) in *. change (N.to_nat n) with (Pos.to_nat q) in At.
  set (V := nv_admin_drv K fd A kh) in *.
  assert (Gen : forall k h0 d0 h1 d1 r1, attempts V (log_page_cmd nsid logId rae n) k h0 d0 h1 d1 r1 -> d0 <> [] ->
     kernel_attempts K (wants_log_page fd nsid logId rae n A) (Pos.to_nat q) k (fst (nv_admins K fd A kh h0)) d0 (fst (nv_admins K fd A kh h1)) d1 r1).
  { (* one attempt *)
    assert (One : forall h0 d0 x new, v_io V (h0 ++ [CAdmin (log_page_cmd nsid logId rae n d0)]) = (x, new) -> d0 <> [] ->
       let k0 := fst (nv_admins K fd A kh h0) in
       exists c, fst (nv_admins K fd A kh (h0 ++ [CAdmin (log_page_cmd nsid logId rae n d0)])) = k0 ++ [c]
       /\ wants_log_page fd nsid logId rae n A k0 c /\ nc_buf c = d0 /\ delivered d0 (firstn (Pos.to_nat q) (na_in (K (k0 ++ [c])))) (fill d0 new)
       /\ (x = None <-> nv_succeeded (K (k0 ++ [c]))) /\ (~ nv_succeeded (K (k0 ++ [c])) -> x = Some (errno (nv_error_number (K (k0 ++ [c])))))).
    { intros h0 d0 x new Hv Hd k0. cbn [V nv_admin_drv v_io] in Hv. rewrite nv_admins_app in *. cbn [admin_step] in *. fold k0 in Hv. fold k0.
      set (c := log_page_cmd nsid logId rae n d0) in *.
      destruct (C43_log_page_encoding nsid logId rae n d0 Hl (proj1 Hq)) as (B1 & B2 & B3 & B4 & B5 & B6 & B7 & B8 & B9 & B10 & B11 & B12 & B13 & B14 & B15 & B16 & B17 & B18 & B19).
      { apply N.div_le_upper_bound; [lia|]. lia. }
      fold c in B1, B2, B3, B4, B5, B6, B7, B8, B9, B10, B11, B12, B13, B14, B15, B16, B17, B18, B19.
      rewrite (N.mod_small n) in B4 by exact (proj2 Hq).
      assert (C11 : c_cdw11 c < 2 ^ 16 /\ bits 15 0 (c_cdw11 c) = c_cdw11 c).
      { assert (T : c_cdw11 c = N.land (N.shiftr (Z.to_N ((Z.shiftr (Z.of_N n) 2 - 1) mod 2 ^ 32)) 16) 0xffff)
          by (unfold c, log_page_cmd; cbn [c_cdw11]; apply N.lor_0_r).
        assert (T' : c_cdw11 c < 2 ^ 16).
        { rewrite T. change 65535 with (N.ones 16). rewrite N.land_ones. apply N.mod_lt. discriminate. }
        split; [exact T'|]. unfold bits. rewrite N.pow_0_r, N.div_1_r. apply N.mod_small. exact T'. }
      destruct C11 as [C11 C11']. rewrite C11' in B5.
      destruct (nv_admin K k0 fd c (A k0)) as [k1 [e1 c1]] eqn:Ead. cbn [fst snd] in Hv |- *. apply pair_equal_spec in Hv. destruct Hv as [<- <-].
      destruct (C68_admin_passthru K k0 fd c (A k0) k1 e1 c1) as (call & H1 & H2 & H3 & H4 & H5 & H6 & H7 & H8 & H9 & H10 & H11); auto.
      { unfold wf_cmd. rewrite B1, B2, B4, B12, B13, B14, B15, B16, B17, B18, B19. repeat split; try reflexivity; try assumption; try exact (proj2 Hq).
        eapply N.lt_trans; [exact C11|reflexivity]. }
      exists call. rewrite <- H1. split; [reflexivity|].
      split.
      { split; [exact H2|]. split; [exact H3|]. exists (c_cdw10 c), (c_cdw11 c). split.
        { rewrite H5. unfold kernel_view, plain_view. rewrite B1, B2, B3, B4, B12, B13, B14, B15, B16, B17, B18, B19.
          destruct d0 as [|b0 d0]; [congruence|]. reflexivity. }
        split; [exact B6|]. split; [|split; [exact B9|exact B5]].
        unfold bits in B7, B8 |- *. change (14 - 8 + 1) with 7. change (11 - 8 + 1) with 4 in B7. change (14 - 12 + 1) with 3 in B8.
        replace (2 ^ 12) with (2 ^ 8 * 2 ^ 4) in B8 by reflexivity. rewrite <- N.div_div in B8 by discriminate.
        set (y := c_cdw10 c / 2 ^ 8) in *. change (2 ^ 7) with (2 ^ 4 * 2 ^ 3). rewrite N.mod_mul_r by discriminate. rewrite B7, B8. reflexivity. }
      split; [rewrite (H6 eq_refl); exact B3|].
      split; [|split; [exact H7|exact H8]].
      specialize (H11 eq_refl eq_refl). rewrite B3, B4 in H11. change (N.to_nat n) with (Pos.to_nat q) in H11.
      rewrite fill_whole by (symmetry; exact (proj1 H11)). exact H11. }
    intros k h0 d0 h1 d1 r1 At0. induction At0 as [k h0 d0 new Hv|h0 d0 x new Hv|k h0 d0 x new h1 d1 r1 Hv At1 IH]; intros Hd;
      destruct (One h0 d0 _ _ Hv Hd) as (c & E1 & W & B & D & O1 & O2).
    - rewrite E1. eapply ka_ok; eauto. now apply O1.
    - rewrite E1. assert (F : ~ nv_succeeded (K (fst (nv_admins K fd A kh h0) ++ [c]))) by (intros F; apply O1 in F; discriminate).
      rewrite (O2 F). eapply ka_last; eauto.
    - assert (F : ~ nv_succeeded (K (fst (nv_admins K fd A kh h0) ++ [c]))) by (intros F; apply O1 in F; discriminate).
      rewrite E1 in IH. eapply ka_again; eauto. apply IH. intros Z. apply Hd. apply (f_equal (@List.length N)) in Z.
      rewrite fill_length in Z. apply length_zero_iff_nil. exact Z. }
  specialize (Gen _ _ _ _ _ _ At). apply Gen. intros Z. apply (f_equal (@List.length N)) in Z. unfold zeros in Z. rewrite repeat_length in Z. pose proof (Pos2Nat.is_pos q) as P. rewrite Z in P. inversion P.
Qed.
Print Assumptions C73_log_page_over_nvme.
