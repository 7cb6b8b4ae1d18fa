(** Lemmas about M_NvmeLinux. *)
From Verif Require Import Base M_Buffer M_Ata M_TcgDevice M_DriveHandle M_SgDriver M_NvmeLinux Spec_NvmeLinux P_Discovery P_DriveHandle P_Sg.

Lemma le_val_small n v : v < 256 ^ N.of_nat n -> le_val (le_bytes n v) = v.
Proof. intros H. rewrite le_val_bytes. now apply N.mod_small. Qed.

Lemma ioc_value dir t nr size : t < 256 -> nr < 256 -> size < 2 ^ 14 -> ioc dir t nr size = uapi_ioc dir t nr size.
Proof.
  intros Ht Hn Hs. unfold ioc, uapi_ioc. rewrite N.shiftl_0_r.
  rewrite <- !N.lor_assoc. rewrite (N.lor_comm (N.shiftl dir 30)). rewrite (N.lor_comm nr (N.shiftl size 16)).
  rewrite !N.lor_assoc, (N.lor_comm (N.lor (N.shiftl t 8) (N.shiftl size 16)) nr), !N.lor_assoc.
  rewrite (lor_add_disjoint nr t 8) by exact Hn.
  rewrite (lor_add_disjoint _ size 16) by (change (2 ^ 8) with 256; change (2 ^ 16) with 65536; lia).
  rewrite (lor_add_disjoint _ dir 30).
  - ring.
  - change (2 ^ 8) with 256. change (2 ^ 16) with 65536. change (2 ^ 30) with 1073741824. change (2 ^ 14) with 16384 in Hs. lia.
Qed.

Lemma passthru_length a1 a2 a3 a4 a5 a6 a7 a8 a9 a10 a11 a12 a13 a14 a15 a16 a17 a18 :
  blen (passthru_mem a1 a2 a3 a4 a5 a6 a7 a8 a9 a10 a11 a12 a13 a14 a15 a16 a17 a18) = 72.
Proof. reflexivity. Qed.

Lemma read_passthru_mem a1 a2 a3 a4 a5 a6 a7 a8 a9 a10 a11 a12 a13 a14 a15 a16 a17 a18 :
  a1 < 256 -> a2 < 256 -> a3 < 2 ^ 16 -> a4 < 2 ^ 32 -> a5 < 2 ^ 32 -> a6 < 2 ^ 32 -> a7 < 2 ^ 64 -> a8 < 2 ^ 64 -> a9 < 2 ^ 32 ->
  a10 < 2 ^ 32 -> a11 < 2 ^ 32 -> a12 < 2 ^ 32 -> a13 < 2 ^ 32 -> a14 < 2 ^ 32 -> a15 < 2 ^ 32 -> a16 < 2 ^ 32 -> a17 < 2 ^ 32 -> a18 < 2 ^ 32 ->
  read_passthru (passthru_mem a1 a2 a3 a4 a5 a6 a7 a8 a9 a10 a11 a12 a13 a14 a15 a16 a17 a18) =
  {| up_opcode := a1; up_flags := a2; up_rsvd1 := a3; up_nsid := a4; up_cdw2 := a5; up_cdw3 := a6; up_metadata := a7; up_addr := a8;
     up_metadata_len := a9; up_data_len := a10; up_cdw10 := a11; up_cdw11 := a12; up_cdw12 := a13; up_cdw13 := a14; up_cdw14 := a15;
     up_cdw15 := a16; up_timeout_ms := a17; up_result := a18 |}.
Proof.
  intros H1 H2 H3 H4 H5 H6 H7 H8 H9 H10 H11 H12 H13 H14 H15 H16 H17 H18. set (m := passthru_mem _ _ _ _ _ _ _ _ _ _ _ _ _ _ _ _ _ _).
  unfold read_passthru, le_at.
  change (slice 0 1 m) with (le_bytes 1 a1). change (slice 1 1 m) with (le_bytes 1 a2). change (slice 2 2 m) with (le_bytes 2 a3).
  change (slice 4 4 m) with (le_bytes 4 a4). change (slice 8 4 m) with (le_bytes 4 a5). change (slice 12 4 m) with (le_bytes 4 a6).
  change (slice 16 8 m) with (le_bytes 8 a7). change (slice 24 8 m) with (le_bytes 8 a8). change (slice 32 4 m) with (le_bytes 4 a9).
  change (slice 36 4 m) with (le_bytes 4 a10). change (slice 40 4 m) with (le_bytes 4 a11). change (slice 44 4 m) with (le_bytes 4 a12).
  change (slice 48 4 m) with (le_bytes 4 a13). change (slice 52 4 m) with (le_bytes 4 a14). change (slice 56 4 m) with (le_bytes 4 a15).
  change (slice 60 4 m) with (le_bytes 4 a16). change (slice 64 4 m) with (le_bytes 4 a17). change (slice 68 4 m) with (le_bytes 4 a18).
  rewrite !le_val_small by assumption. reflexivity.
Qed.

Lemma read_user_io_mem a1 a2 a3 a4 a5 a6 a7 a8 a9 a10 a11 a12 :
  a1 < 256 -> a2 < 256 -> a3 < 2 ^ 16 -> a4 < 2 ^ 16 -> a5 < 2 ^ 16 -> a6 < 2 ^ 64 -> a7 < 2 ^ 64 -> a8 < 2 ^ 64 -> a9 < 2 ^ 32 ->
  a10 < 2 ^ 32 -> a11 < 2 ^ 16 -> a12 < 2 ^ 16 ->
  read_user_io (user_io_mem a1 a2 a3 a4 a5 a6 a7 a8 a9 a10 a11 a12) =
  {| ui_opcode := a1; ui_flags := a2; ui_control := a3; ui_nblocks := a4; ui_rsvd := a5; ui_metadata := a6; ui_addr := a7; ui_slba := a8;
     ui_dsmgmt := a9; ui_reftag := a10; ui_apptag := a11; ui_appmask := a12 |}.
Proof.
  intros H1 H2 H3 H4 H5 H6 H7 H8 H9 H10 H11 H12. set (m := user_io_mem _ _ _ _ _ _ _ _ _ _ _ _). unfold read_user_io, le_at.
  change (slice 0 1 m) with (le_bytes 1 a1). change (slice 1 1 m) with (le_bytes 1 a2). change (slice 2 2 m) with (le_bytes 2 a3).
  change (slice 4 2 m) with (le_bytes 2 a4). change (slice 6 2 m) with (le_bytes 2 a5). change (slice 8 8 m) with (le_bytes 8 a6).
  change (slice 16 8 m) with (le_bytes 8 a7). change (slice 24 8 m) with (le_bytes 8 a8). change (slice 32 4 m) with (le_bytes 4 a9).
  change (slice 36 4 m) with (le_bytes 4 a10). change (slice 40 2 m) with (le_bytes 2 a11). change (slice 42 2 m) with (le_bytes 2 a12).
  rewrite !le_val_small by assumption. reflexivity.
Qed.

Definition nv_ok (a : nv_ans) : bool := (na_errno a =? 0) && (na_ret a =? 0).
Definition nv_errno (a : nv_ans) : N := if na_errno a =? 0 then na_ret a else na_errno a.
Lemma nv_result a : ioctl_result (na_errno a) (na_ret a) = if nv_ok a then None else Some (errno (nv_errno a)).
Proof. unfold ioctl_result, nv_ok, nv_errno. destruct (na_errno a =? 0), (na_ret a =? 0); reflexivity. Qed.

(** The request of an admin command. *)
Definition admin_call (fd : N) (c : admin_cmd) (buf_addr : N) : nv_call :=
  {| nc_fd := fd; nc_req := NVME_IOCTL_ADMIN_CMD;
     nc_arg := passthru_mem (c_opcode c) (c_flags c) (c_rsvd1 c) (c_nsid c) (c_cdw2 c) (c_cdw3 c) (c_metadata c)
               (admin_data_addr c buf_addr) (c_metadata_len c) (c_data_len c) (c_cdw10 c) (c_cdw11 c) (c_cdw12 c) (c_cdw13 c)
               (c_cdw14 c) (c_cdw15 c) (c_timeout_ms c) (c_result c);
     nc_buf := passed_buffer c |}.

Lemma nv_admin_closed K h fd c addr : c_opcode c < 256 -> c_data_len c < 2 ^ 32 ->
  let a := K (h ++ [admin_call fd c addr]) in
  nv_admin K h fd c addr =
  (h ++ [admin_call fd c addr],
   (if nv_ok a then None else Some (errno (nv_errno a)),
    if negb (c_data_addr c =? 0) || N.odd (c_opcode c) then c
    else set_c_data c (fill (c_data c) (firstn (N.to_nat (c_data_len c)) (na_in a))))).
Proof.
  intros Ho Hl. cbv zeta. unfold nv_admin, nv_ioctl. cbv zeta. cbn [nc_arg nc_buf].
  match goal with |- context [slice 36 4 ?m] => change (slice 36 4 m) with (le_bytes 4 (c_data_len c)); change (slice 0 1 m) with (le_bytes 1 (c_opcode c)) end.
  rewrite !le_val_small by assumption.
  match goal with |- context [K (h ++ [?x])] => change x with (admin_call fd c addr) end.
  rewrite nv_result. unfold passed_buffer. destruct c; destruct (negb _), (N.odd _); reflexivity.
Qed.

(** ---- the driver below a drive handle ---- *)
Lemma last_call_app cs c : last_call (cs ++ [c]) = Some (cs, c).
Proof. unfold last_call. rewrite rev_app_distr. cbn. now rewrite rev_involutive. Qed.
Lemma nv_replay_app K fd A kh cs c : nv_replay K fd A kh (cs ++ [c]) = fst (nv_exec K fd A (nv_replay K fd A kh cs) c).
Proof. unfold nv_replay. now rewrite fold_left_app. Qed.
Lemma nv_drv_io K fd A kh id cs c : v_io (nv_drv K fd A kh id) (cs ++ [c]) = snd (nv_exec K fd A (nv_replay K fd A kh cs) c).
Proof. cbn [nv_drv v_io]. now rewrite last_call_app. Qed.

Definition admin_step K fd (A : nv_hist -> N) kh (c : dcall) : nv_hist * (option err * bytes) :=
  match c with
  | CAdmin cmd => let '(k1, (e, cmd')) := nv_admin K kh fd cmd (A kh) in (k1, (e, c_data cmd'))
  | _ => (kh, (None, [])) end.
Lemma nv_admins_app K fd A cs c : forall kh, nv_admins K fd A kh (cs ++ [c]) = admin_step K fd A (fst (nv_admins K fd A kh cs)) c.
Proof.
  induction cs as [|c0 cs IH]; intros kh; [reflexivity|].
  cbn [app]. destruct cs as [|c1 cs].
  - cbn [app nv_admins]. reflexivity.
  - change ((c1 :: cs) ++ [c]) with (c1 :: (cs ++ [c])) in *.
    change (nv_admins K fd A kh (c0 :: c1 :: cs ++ [c])) with (nv_admins K fd A (fst (admin_step K fd A kh c0)) (c1 :: cs ++ [c])).
    change (nv_admins K fd A kh (c0 :: c1 :: cs)) with (nv_admins K fd A (fst (admin_step K fd A kh c0)) (c1 :: cs)).
    apply IH.
Qed.
Lemma nth_error_firstn_lt {A} (l : list A) : forall n i, (i < n)%nat -> nth_error (firstn n l) i = nth_error l i.
Proof. induction l as [|x l IH]; intros [|n] [|i] H; try reflexivity; try lia. cbn. apply IH. lia. Qed.
