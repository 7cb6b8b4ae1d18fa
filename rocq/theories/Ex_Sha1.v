(** Concrete cases for C173 and C174: the standards' own test vectors, and hypotheses met. *)
From Verif Require Import Base M_Strings Spec_Tcg M_TcgToken M_TcgDevice M_TcgSession M_TcgCommand Spec_TcgSession M_Sha1 Spec_Sha1 P_Sha1 Prop_Sha1 Ex_TcgSession.

(** FIPS 180 examples: one block, and a message whose padding needs a second block. *)
Example exsh_abc : SHA1 (str "abc") = be_bytes 20 0xa9993e364706816aba3e25717850c26c9cd0d89d.
Proof. vm_compute. reflexivity. Qed.
Example exsh_two : SHA1 (str "abcdbcdecdefdefgefghfghighijhijkijkljklmklmnlmnomnopnopq") = be_bytes 20 0x84983e441c3bd26ebaae4aa1f95129e5e54670f1.
Proof. vm_compute. reflexivity. Qed.
(** The program's digest of the same message written in three pieces. *)
Example exsh_pieces : dg_check_sum (fold_left dg_write [str "abcdbcdecdefdefgefghfghi"; []; str "ghijhijkijkljklmklmnlmnomnopnopq"] sha1_new)
  = Some (be_bytes 20 0x84983e441c3bd26ebaae4aa1f95129e5e54670f1).
Proof. vm_compute. reflexivity. Qed.

(** RFC 2202 cases 2 and 6 (a key longer than a block). *)
Example exsh_hmac : HMAC_SHA1 (str "Jefe") (str "what do ya want for nothing?") = be_bytes 20 0xeffcdf6ae5eb2fa2d27416d5f184df9c259a7c79.
Proof. vm_compute. reflexivity. Qed.
Example exsh_hmac_long : HMAC_SHA1 (repeat 0xaa 80) (str "Test Using Larger Than Block-Size Key - Hash Key First")
  = be_bytes 20 0xaa4ae5e15272d00e95705637ce8a3b55ed402112.
Proof. vm_compute. reflexivity. Qed.

(** RFC 6070: one iteration (two blocks of key: 32 bytes) and two iterations. *)
Example exsh_pbkdf2_1 : pbkdf2_key (str "password") (str "salt") 1 32
  = Some (be_bytes 32 0x0c60c80f961f0e71f3a9b524af6012062fe037a6e0f0eb94fe8fc46bdc637164).
Proof. vm_compute. reflexivity. Qed.
Example exsh_pbkdf2_2 : PBKDF2_HMAC_SHA1 (str "password") (str "salt") 2 20 = be_bytes 20 0xea6c014dc72d6f8ccd1ed92ace1d41f0d8de8957.
Proof. vm_compute. reflexivity. Qed.

(** The drive of [Ex_TcgSession] with the real key derivation. *)
Definition exsh_env (second : bytes) : env :=
  {| e_clock := e_clock (ex_env second); e_sec := e_sec (ex_env second); e_pbkdf2 := go_pbkdf2;
     e_heap := fun _ => 0; e_fuel := 500 |}.
Example exsh_real b : wf b -> blen b < 1000 -> real_env (exsh_env b).
Proof.
  intros W L. destruct (ex_env_ok b W L) as (A & B & _). split; [reflexivity|]. split; [exact A|exact B].
Qed.

Example exsh_plain_wf v : v < 256 -> wf (ex_plain v) /\ blen (ex_plain v) < 1000.
Proof. intros H. split; [|reflexivity]. repeat (apply wf_cons; split; [(reflexivity || exact H)|]). apply wf_nil. Qed.

(** A Revert with the password "pw" sends the standard credential. *)
Example exsh_revert : forall h' r, revert_tper (exsh_env (ex_plain 0)) ex_dev (str "pw") false false [] = (h', r) ->
  exists rest, sends h' = frame 0 0 0x1004 (start_payload uid_AdminSP
     (Some ([0xD0; 32] ++ PBKDF2_HMAC_SHA1 (str "pw") (get_serial ex_dev) 75000 32)) (uid8 uid_SID)) :: rest.
Proof.
  intros h' r H.
  assert (Wd : wf (get_serial ex_dev)).
  { unfold wf. apply Forall_forall. intros x Hx.
    assert (B : forallb (fun y => y <? 256) (get_serial ex_dev) = true) by (vm_compute; reflexivity).
    rewrite forallb_forall in B. apply B in Hx. apply N.ltb_lt. exact Hx. }
  assert (Wp : wf (str "pw")) by (repeat (apply wf_cons; split; [reflexivity|]); apply wf_nil).
  assert (Ec : get_base_com_id ex_dev = Ok 0x1004) by (vm_compute; reflexivity).
  assert (Es : is_any_ssc ex_dev = true) by (vm_compute; reflexivity).
  assert (Lc : 0x1004 < 2 ^ 16) by reflexivity.
  destruct (exsh_plain_wf 0) as (A & B); [reflexivity|].
  destruct (C173_revert (exsh_env (ex_plain 0)) ex_dev 0x1004 (str "pw") false false [] h' r (exsh_real _ A B) Es Ec Lc Wp Wd H)
    as (t & rest & E & S & _).
  rewrite E. exists rest. exact S.
Qed.

(** C174: "pw" and "pw" followed by two NULs; a NUL in front, or with hashing off, does count. *)
Example exsh_nul : hash_password (get_serial ex_dev) false (str "pw") = hash_password (get_serial ex_dev) false (str "pw" ++ [0; 0]).
Proof.
  destruct (exsh_plain_wf 0) as (A & B); [reflexivity|].
  apply (C174_trailing_nul (exsh_env (ex_plain 0)) ex_dev (str "pw") (str "pw" ++ [0; 0]) (exsh_real _ A B)); [discriminate|discriminate|reflexivity].
Qed.
Example C174_nohash_refuted : hash_password (str "S") true (str "pw") <> hash_password (str "S") true (str "pw" ++ [0]).
Proof. discriminate. Qed.
Example C174_leading_refuted : HMAC_SHA1 (str "p") (str "x") <> HMAC_SHA1 (0 :: str "p") (str "x").
Proof. vm_compute. discriminate. Qed.
