(** Model of the password hashing that tcg/utils.go:18 calls: pbkdf2.Key(password, serial, 75000, 32, sha1.New).
    The code called is not in /repo: it is golang.org/x/crypto v0.27.0 (go.mod:10), pbkdf2/pbkdf2.go [Key], and Go's
    standard library, crypto/hmac/hmac.go [New, Reset, Write, Sum] and crypto/sha1/sha1.go, sha1block.go
    [Write, Sum, checkSum, blockGeneric].  It is modelled here from those files' well-known text, statement by statement.
    Simplifications: blockGeneric stands for the assembly version some processors use; a hash object is a value, so the
    saving and restoring of a hash state inside hmac.Reset is the value itself. *)
From Verif Require Import Base M_TcgCommand.

(** uint32 arithmetic; bits.RotateLeft32 (math/bits) as called by tcg/utils.go:18 -> sha1block.go *)
Definition u32 (x : N) : N := x mod 4294967296.
Definition rotate_left32 (x k : N) : N := N.lor (u32 (N.shiftl x k)) (N.shiftr x (32 - k)).
(** ^x *)
Definition not32 (x : N) : N := N.lxor x 0xffffffff.

(** sha1.digest: h, x, nx, len (tcg/utils.go:18 -> sha1.New) *)
Record regs := R5 { ra : N; rb : N; rc : N; rd : N; re : N }.
Record digest := Dg { dg_h : regs; dg_x : bytes; dg_nx : nat; dg_len : N }.

(** sha1.New + Reset (tcg/utils.go:18) *)
Definition sha1_new : digest :=
  {| dg_h := R5 0x67452301 0xEFCDAB89 0x98BADCFE 0x10325476 0xC3D2E1F0; dg_x := repeat 0 64; dg_nx := 0; dg_len := 0 |}.

(** w[i] = v *)
Fixpoint w_set (i : nat) (v : N) (w : list N) : list N :=
  match w, i with
  | [], _ => []
  | _ :: t, O => v :: t
  | x :: t, S i' => x :: w_set i' v t
  end.

(** sha1block.go blockGeneric, one pass of a loop: [f] and [k] are those of the loop that round [i] belongs to
    (tcg/utils.go:18) *)
Definition go_f (i : nat) (b c d : N) : N :=
  if (i <? 20)%nat then N.lor (N.land b c) (N.land (not32 b) d)
  else if (i <? 40)%nat then N.lxor (N.lxor b c) d
  else if (i <? 60)%nat then N.lor (N.land (N.lor b c) d) (N.land b c)
  else N.lxor (N.lxor b c) d.
Definition go_k (i : nat) : N :=
  if (i <? 20)%nat then 0x5A827999 else if (i <? 40)%nat then 0x6ED9EBA1
  else if (i <? 60)%nat then 0x8F1BBCDC else 0xCA62C1D6.
(** w[i&0xf] updated in place from round 16 on *)
Definition go_w (i : nat) (w : list N) : list N :=
  if (i <? 16)%nat then w
  else w_set (i mod 16)
         (rotate_left32 (N.lxor (N.lxor (N.lxor (nth ((i - 3) mod 16) w 0) (nth ((i - 8) mod 16) w 0))
                                         (nth ((i - 14) mod 16) w 0)) (nth (i mod 16) w 0)) 1) w.
Definition go_round (st : list N * regs) (i : nat) : list N * regs :=
  let w := go_w i (fst st) in
  let r := snd st in
  let t := u32 (u32 (u32 (u32 (rotate_left32 (ra r) 5 + go_f i (rb r) (rc r) (rd r)) + re r) + nth (i mod 16) w 0) + go_k i) in
  (w, R5 t (ra r) (rotate_left32 (rb r) 30) (rc r) (rd r)).

(** one 64-byte chunk: w[i] = p[4i]<<24 | p[4i+1]<<16 | p[4i+2]<<8 | p[4i+3], the 80 rounds, h += ... (tcg/utils.go:18) *)
Definition go_load (p : bytes) : list N :=
  map (fun i => let j := (i * 4)%nat in
        N.lor (N.lor (N.lor (N.shiftl (nth j p 0) 24) (N.shiftl (nth (j + 1) p 0) 16)) (N.shiftl (nth (j + 2) p 0) 8))
              (nth (j + 3) p 0)) (seq 0 16).
Definition go_chunk (h : regs) (p : bytes) : regs :=
  let r := snd (fold_left go_round (seq 0 80) (go_load p, h)) in
  R5 (u32 (ra h + ra r)) (u32 (rb h + rb r)) (u32 (rc h + rc r)) (u32 (rd h + rd r)) (u32 (re h + re r)).

(** for len(p) >= chunk { ...; p = p[chunk:] }; [n] passes at most (tcg/utils.go:18) *)
Fixpoint go_block (n : nat) (h : regs) (p : bytes) : regs :=
  match n with
  | O => h
  | S n' => if (64 <=? List.length p)%nat then go_block n' (go_chunk h (firstn 64 p)) (skipn 64 p) else h
  end.

(** sha1.go (d *digest) Write (tcg/utils.go:18) *)
Definition dg_write (d : digest) (p : bytes) : digest :=
  let len := (dg_len d + blen p) mod 2 ^ 64 in
  let '(h, x, nx, p) :=
    if (0 <? dg_nx d)%nat then
      let n := Nat.min (64 - dg_nx d) (List.length p) in
      let x := firstn (dg_nx d) (dg_x d) ++ firstn n p ++ skipn (dg_nx d + n) (dg_x d) in
      let nx := (dg_nx d + n)%nat in
      if (nx =? 64)%nat then (go_block 1 (dg_h d) x, x, 0%nat, skipn n p) else (dg_h d, x, nx, skipn n p)
    else (dg_h d, dg_x d, dg_nx d, p) in
  let '(h, p) :=
    if (64 <=? List.length p)%nat then
      let n := (List.length p / 64 * 64)%nat in (go_block (List.length p / 64) h (firstn n p), skipn n p)
    else (h, p) in
  match p with
  | [] => Dg h x nx len
  | _ => Dg h (p ++ skipn (List.length p) x) (List.length p) len
  end.

(** sha1.go checkSum (on a copy) and Sum(nil) (tcg/utils.go:18); [None]: panic("d.nx != 0") *)
Definition dg_check_sum (d : digest) : option bytes :=
  let l := dg_len d mod 64 in
  let t := if l <? 56 then 56 - l else 64 + 56 - l in
  let bits := N.shiftl (dg_len d) 3 mod 2 ^ 64 in
  let d' := dg_write d (0x80 :: repeat 0 (N.to_nat t - 1) ++ be_bytes 8 bits) in
  match dg_nx d' with
  | O => let h := dg_h d' in
         Some (be_bytes 4 (ra h) ++ be_bytes 4 (rb h) ++ be_bytes 4 (rc h) ++ be_bytes 4 (rd h) ++ be_bytes 4 (re h))
  | _ => None
  end.

(** hmac.go: hmac{opad, ipad, outer, inner} (tcg/utils.go:18) *)
Record hmac := Hm { hm_opad : bytes; hm_ipad : bytes; hm_inner : digest }.

(** hmac.New(sha1.New, key) (tcg/utils.go:18) *)
Definition hmac_new (key : bytes) : option hmac :=
  let k := if (64 <? List.length key)%nat then dg_check_sum (dg_write sha1_new key) else Some key in
  match k with
  | None => None
  | Some key =>
      let pad := firstn 64 key ++ repeat 0 (64 - List.length key) in
      let ipad := map (fun b => N.lxor b 0x36) pad in
      let opad := map (fun b => N.lxor b 0x5c) pad in
      Some (Hm opad ipad (dg_write sha1_new ipad))
  end.
(** (h *hmac) Reset, Write, Sum(nil) (tcg/utils.go:18) *)
Definition hmac_reset (m : hmac) : hmac := Hm (hm_opad m) (hm_ipad m) (dg_write sha1_new (hm_ipad m)).
Definition hmac_write (m : hmac) (p : bytes) : hmac := Hm (hm_opad m) (hm_ipad m) (dg_write (hm_inner m) p).
Definition hmac_sum (m : hmac) : option bytes :=
  match dg_check_sum (hm_inner m) with
  | None => None
  | Some s => dg_check_sum (dg_write (dg_write sha1_new (hm_opad m)) s)
  end.

(** pbkdf2.go Key, the loop for n := 2; n <= iter; n++ after [k] passes: (prf, T, U) (tcg/utils.go:18) *)
Definition key_pass (st : option (hmac * bytes * bytes)) : option (hmac * bytes * bytes) :=
  match st with
  | None => None
  | Some (m, T, U) =>
      let m := hmac_write (hmac_reset m) U in
      match hmac_sum m with
      | None => None
      | Some U => Some (m, map (fun p => N.lxor (fst p) (snd p)) (combine T U), U)
      end
  end.
(** the loop for block := 1; block <= numBlocks; block++, [n] blocks to go (tcg/utils.go:18) *)
Fixpoint key_blocks (n : nat) (block : N) (iter : N) (salt : bytes) (m : hmac) (dk : bytes) : option bytes :=
  match n with
  | O => Some dk
  | S n' =>
      let m := hmac_write (hmac_write (hmac_reset m) salt)
                 [N.shiftr block 24 mod 256; N.shiftr block 16 mod 256; N.shiftr block 8 mod 256; block mod 256] in
      match hmac_sum m with
      | None => None
      | Some T =>
          match N.iter (iter - 1) key_pass (Some (m, T, T)) with
          | None => None
          | Some (m, T, _) => key_blocks n' (block + 1) iter salt m (dk ++ T)
          end
      end
  end.
(** pbkdf2.Key(password, salt, iter, keyLen, sha1.New) (tcg/utils.go:18) *)
Definition pbkdf2_key (password salt : bytes) (iter : N) (keyLen : nat) : option bytes :=
  match hmac_new password with
  | None => None
  | Some m =>
      match key_blocks ((keyLen + 20 - 1) / 20) 1 iter salt m [] with
      | None => None
      | Some dk => Some (firstn keyLen dk)
      end
  end.

(** tcg/utils.go:9-24 with its call of pbkdf2.Key; [Panic] where checkSum panics *)
Definition hash_password (serial : bytes) (noHashPassword : bool) (password : bytes) : res bytes :=
  let password := if (32 <? List.length password)%nat then firstn 32 password else password in
  if noHashPassword then Ok (0xd0 :: (N.of_nat (List.length password) mod 256) :: password)
  else match pbkdf2_key password serial 75000 32 with
       | None => Panic
       | Some derived => Ok (0xd0 :: (N.of_nat (List.length derived) mod 256) :: derived)
       end.

(** What the session code's parameter stands for (tcg/utils.go:18). *)
Definition go_pbkdf2 (password salt : bytes) : bytes :=
  match pbkdf2_key password salt 75000 32 with Some d => d | None => [] end.
