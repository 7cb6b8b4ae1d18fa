(** The published standards for password hashing, written from their text and without reference to any program:
    SHA-1 (FIPS 180-4, sections 4.1.1, 4.2.1, 5.1.1, 5.3.1, 6.1.2), HMAC (RFC 2104, section 2) and PBKDF2
    (RFC 8018, section 5.2).  Nothing from the model is used. *)
From Verif Require Import Base.

(** 32-bit words. *)
Definition add32 (x y : N) : N := (x + y) mod 2 ^ 32.
Definition rotl32 (n x : N) : N := N.lor (N.shiftl x n mod 2 ^ 32) (N.shiftr x (32 - n)).

(** FIPS 180-4, 4.1.1 and 4.2.1: f_t and K_t. *)
Definition ch (x y z : N) : N := N.lxor (N.land x y) (N.ldiff z x).
Definition parity (x y z : N) : N := N.lxor (N.lxor x y) z.
Definition maj (x y z : N) : N := N.lxor (N.lxor (N.land x y) (N.land x z)) (N.land y z).
Definition sha1_f (t : nat) (x y z : N) : N :=
  if (t <? 20)%nat then ch x y z else if (t <? 40)%nat then parity x y z
  else if (t <? 60)%nat then maj x y z else parity x y z.
Definition sha1_k (t : nat) : N :=
  if (t <? 20)%nat then 0x5a827999 else if (t <? 40)%nat then 0x6ed9eba1
  else if (t <? 60)%nat then 0x8f1bbcdc else 0xca62c1d6.

(** 5.1.1: a 1 bit, the least number of 0 bits that leaves 64 bits of the last block, and the length in bits
    (the standard is for messages below 2^64 bits). *)
Definition pad_zeros (len : nat) : nat := (119 - len mod 64) mod 64.
Definition sha1_pad (m : bytes) : bytes :=
  m ++ [0x80] ++ zeros (pad_zeros (List.length m)) ++ be_bytes 8 (8 * blen m).

(** 6.1.2 step 1: the message schedule W_0 .. W_79 of one block. *)
Definition next_word (w : list N) : N :=
  let t := List.length w in
  rotl32 1 (N.lxor (N.lxor (N.lxor (nth (t - 3) w 0) (nth (t - 8) w 0)) (nth (t - 14) w 0)) (nth (t - 16) w 0)).
Definition block_words (b : bytes) : list N := map (fun i => be_val (slice (4 * i) 4 b)) (seq 0 16).
Definition schedule (b : bytes) : list N := Nat.iter 64 (fun w => w ++ [next_word w]) (block_words b).

(** Steps 2 to 4. *)
Record words5 := W5 { wa : N; wb : N; wc : N; wd : N; we : N }.
Definition sha1_step (W : list N) (s : words5) (t : nat) : words5 :=
  W5 (add32 (add32 (add32 (add32 (rotl32 5 (wa s)) (sha1_f t (wb s) (wc s) (wd s))) (we s)) (sha1_k t)) (nth t W 0))
     (wa s) (rotl32 30 (wb s)) (wc s) (wd s).
Definition add5 (x y : words5) : words5 :=
  W5 (add32 (wa x) (wa y)) (add32 (wb x) (wb y)) (add32 (wc x) (wc y)) (add32 (wd x) (wd y)) (add32 (we x) (we y)).
Definition sha1_block (H : words5) (b : bytes) : words5 :=
  add5 (fold_left (sha1_step (schedule b)) (seq 0 80) H) H.

(** 5.3.1 *)
Definition sha1_iv : words5 := W5 0x67452301 0xefcdab89 0x98badcfe 0x10325476 0xc3d2e1f0.

(** The 512-bit blocks of a message. *)
Definition blocks64 (m : bytes) : list bytes := map (fun i => slice (64 * i) 64 m) (seq 0 (List.length m / 64)).

Definition words5_bytes (s : words5) : bytes :=
  be_bytes 4 (wa s) ++ be_bytes 4 (wb s) ++ be_bytes 4 (wc s) ++ be_bytes 4 (wd s) ++ be_bytes 4 (we s).
Definition SHA1 (m : bytes) : bytes := words5_bytes (fold_left sha1_block (blocks64 (sha1_pad m)) sha1_iv).

(** RFC 2104, section 2, with B = 64. *)
Definition xor_all (b : N) (l : bytes) : bytes := map (N.lxor b) l.
Definition hmac_key (K : bytes) : bytes :=
  let k := if (64 <? List.length K)%nat then SHA1 K else K in k ++ zeros (64 - List.length k).
Definition HMAC_SHA1 (K text : bytes) : bytes :=
  SHA1 (xor_all 0x5c (hmac_key K) ++ SHA1 (xor_all 0x36 (hmac_key K) ++ text)).

(** RFC 8018, section 5.2: U_1 = PRF (P, S || INT (i)), U_j = PRF (P, U_{j-1}); F is the exclusive-or of the first c of
    them; the key is the first dkLen octets of T_1 || T_2 || ... *)
Definition xor2 (x y : bytes) : bytes := map (fun p => N.lxor (fst p) (snd p)) (combine x y).
Fixpoint pb_u (prf : bytes -> bytes -> bytes) (P S : bytes) (i : N) (j : nat) : bytes :=
  match j with
  | O => prf P (S ++ be_bytes 4 i)
  | Datatypes.S j' => prf P (pb_u prf P S i j')
  end.
Fixpoint pb_f (prf : bytes -> bytes -> bytes) (P S : bytes) (i : N) (more : nat) : bytes :=
  match more with
  | O => pb_u prf P S i 0
  | Datatypes.S n => xor2 (pb_f prf P S i n) (pb_u prf P S i more)
  end.
Definition PBKDF2 (prf : bytes -> bytes -> bytes) (hLen : nat) (P S : bytes) (c : N) (dkLen : nat) : bytes :=
  firstn dkLen (flat_map (fun i => pb_f prf P S (N.of_nat i) (N.to_nat (c - 1)))
                         (seq 1 ((dkLen + hLen - 1) / hLen))).

Definition PBKDF2_HMAC_SHA1 : bytes -> bytes -> N -> nat -> bytes := PBKDF2 HMAC_SHA1 20.
