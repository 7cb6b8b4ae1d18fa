(** Lemmas about M_WinNvme. *)
From Verif Require Import Base M_Buffer M_Ata M_TcgDevice M_DriveHandle M_Cdb M_SgDriver M_NvmeLinux M_Strings M_WinPass M_WinNvme Spec_Sg Spec_WinPass
  Spec_WinNvme Spec_LinuxVolume P_Discovery P_DriveHandle P_Sg P_WinPass.

Definition same_call (hd code : N) (b : bytes) : wcall :=
  {| wc_handle := hd; wc_code := code; wc_in := b; wc_outlen := blen b; wc_target := TNone; wc_mem := [] |}.
Lemma win_same_closed S h hd code b :
  let a := s_io S (h ++ [WIo (same_call hd code b)]) in
  win_same S h hd code b = (h ++ [WIo (same_call hd code b)], (if wa_err a =? 0 then None else Some (errno (wa_err a)), fill b (wa_out a))).
Proof. reflexivity. Qed.

Lemma miniport_decode_mem o n c10 c11 c12 c13 c14 c15 d :
  o < 256 -> n < 2 ^ 32 -> c10 < 2 ^ 32 -> c11 < 2 ^ 32 -> c12 < 2 ^ 32 -> c13 < 2 ^ 32 -> c14 < 2 ^ 32 -> c15 < 2 ^ 32 ->
  miniport_decode (miniport_mem o n c10 c11 c12 c13 c14 c15 d) =
  {| mp_header_length := 28; mp_signature := [78; 118; 109; 101; 77; 105; 110; 105]; mp_timeout := 40; mp_control := 0xe0002000; mp_length := 4220;
     mp_opcode := o; mp_nsid := n; mp_cdw10 := c10; mp_cdw11 := c11; mp_cdw12 := c12; mp_cdw13 := c13; mp_cdw14 := c14; mp_cdw15 := c15;
     mp_direction := 2; mp_data_length := 4096; mp_return_length := 4248; mp_data := d; mp_rest := zeros 87 |}.
Proof.
  intros H1 H2 H3 H4 H5 H6 H7 H8. set (m := miniport_mem _ _ _ _ _ _ _ _ _). unfold miniport_decode, field, reg.
  change (slice 0 4 m) with (le_bytes 4 28). change (slice 4 8 m) with [78; 118; 109; 101; 77; 105; 110; 105].
  change (slice 12 4 m) with (le_bytes 4 40). change (slice 16 4 m) with (le_bytes 4 0xe0002000). change (slice 24 4 m) with (le_bytes 4 4220).
  change (nth 52 m 0) with (o mod 256). change (slice 56 4 m) with (le_bytes 4 n). change (slice 92 4 m) with (le_bytes 4 c10).
  change (slice 96 4 m) with (le_bytes 4 c11). change (slice 100 4 m) with (le_bytes 4 c12). change (slice 104 4 m) with (le_bytes 4 c13).
  change (slice 108 4 m) with (le_bytes 4 c14). change (slice 112 4 m) with (le_bytes 4 c15). change (slice 132 4 m) with (le_bytes 4 2).
  change (slice 140 4 m) with (le_bytes 4 4096). change (slice 148 4 m) with (le_bytes 4 4248). change (skipn 152 m) with d.
  change (slice 20 4 m ++ slice 28 24 m ++ slice 53 3 m ++ slice 60 32 m ++ slice 116 16 m ++ slice 136 4 m ++ slice 144 4 m) with (zeros 87).
  rewrite !le_val_bytes. change (256 ^ N.of_nat 4) with (2 ^ 32). rewrite !N.mod_small by (assumption || reflexivity). reflexivity.
Qed.
Lemma miniport_len o n c10 c11 c12 c13 c14 c15 d : List.length (miniport_mem o n c10 c11 c12 c13 c14 c15 d) = (152 + List.length d)%nat.
Proof. reflexivity. Qed.
Lemma slice_whole (b : bytes) n : List.length b = n -> slice 0 n b = b.
Proof. intros H. unfold slice. cbn [skipn]. apply firstn_all2. lia. Qed.
Lemma reply_data (hdr d out : bytes) k n : List.length hdr = k -> List.length d = n -> slice k n (fill (hdr ++ d) out) = fill d (skipn k out).
Proof.
  intros Hk Hd. rewrite fill_app, Hk. rewrite slice_app_r by (rewrite fill_length; lia). rewrite fill_length, Hk, Nat.sub_diag.
  apply slice_whole. now rewrite fill_length.
Qed.
Lemma miniport_split o n c10 c11 c12 c13 c14 c15 d :
  miniport_mem o n c10 c11 c12 c13 c14 c15 d = miniport_mem o n c10 c11 c12 c13 c14 c15 [] ++ d.
Proof. reflexivity. Qed.
Lemma miniport_reply o n c10 c11 c12 c13 c14 c15 d out : List.length d = page ->
  slice 152 page (fill (miniport_mem o n c10 c11 c12 c13 c14 c15 d) out) = fill d (skipn 152 out).
Proof. intros H. rewrite miniport_split. now apply reply_data. Qed.
Lemma len_zeros n : List.length (zeros n) = n. Proof. apply repeat_length. Qed.

(** decimal numerals of bytes *)
Lemma byte_dec_spec n : n < 256 -> numeral (byte_dec n) /\ decimal (byte_dec n) = n.
Proof.
  intros H.
  assert (X : forall m, In m bytes256 ->
     (forallb (fun d => (48 <=? d) && (d <=? 57)) (byte_dec m) && negb (beq (byte_dec m) []) && negb (match byte_dec m with 48 :: _ :: _ => true | _ => false end)
      && (decimal (byte_dec m) =? m)) = true).
  { apply forallb_forall. vm_compute. reflexivity. }
  specialize (X n (in_bytes256 n H)). rewrite !andb_true_iff in X. destruct X as [[[A B] C] D].
  apply N.eqb_eq in D. split; [|exact D]. split; [|split].
  - apply Forall_forall. intros d Hd. rewrite forallb_forall in A. specialize (A d Hd). rewrite andb_true_iff, !N.leb_le in A. exact A.
  - intros E. rewrite E in B. discriminate B.
  - intros r E. rewrite E in C. destruct r; [reflexivity|discriminate C].
Qed.
Lemma numeral_unique a b : numeral a -> numeral b -> decimal a = decimal b -> a = b.
Proof.
  assert (Up : forall ds, Forall (fun d => 48 <= d <= 57) ds -> decimal ds < 10 ^ N.of_nat (List.length ds)).
  { induction 1 as [|d ds Hd _ IH]; [reflexivity|]. cbn [decimal List.length]. rewrite Nat2N.inj_succ, N.pow_succ_r by lia.
    revert IH. generalize (10 ^ N.of_nat (List.length ds)) (decimal ds). intros p x ?. nia. }
  assert (Lo : forall d ds, 48 < d -> 10 ^ N.of_nat (List.length ds) <= decimal (d :: ds)).
  { intros d ds Hd. cbn [decimal]. generalize (10 ^ N.of_nat (List.length ds)) (decimal ds). intros p x. nia. }
  assert (Same : forall a b, Forall (fun d => 48 <= d <= 57) a -> Forall (fun d => 48 <= d <= 57) b -> List.length a = List.length b ->
      decimal a = decimal b -> a = b).
  { induction a0 as [|x a0 IH]; intros [|y b0] Ha Hb L D; try discriminate L; [reflexivity|].
    inversion Ha; inversion Hb; subst. injection L as L. cbn [decimal] in D. rewrite L in D.
    pose proof (Up a0 H2) as Ua. pose proof (Up b0 H6) as Ub. rewrite L in Ua.
    assert (x = y /\ decimal a0 = decimal b0) as [-> E].
    { revert D Ua Ub. generalize (10 ^ N.of_nat (List.length b0)) (decimal a0) (decimal b0). intros p u v D Ua Ub.
      assert (x - 48 = y - 48) by nia. nia. }
    f_equal. apply IH; assumption. }
  intros (Fa & Na & Za) (Fb & Nb & Zb) D.
  destruct (Nat.eq_dec (List.length a) (List.length b)) as [L|L]; [now apply Same|exfalso].
  assert (G : forall u v, Forall (fun d => 48 <= d <= 57) u -> Forall (fun d => 48 <= d <= 57) v -> u <> [] -> (forall r, v = 48 :: r -> r = []) ->
     (List.length u < List.length v)%nat -> decimal u <> decimal v).
  { intros u v Fu Fv Nu Zv Luv E. destruct v as [|y v]; [cbn in Luv; lia|]. inversion Fv; subst.
    assert (y <> 48) by (intros ->; assert (v = []) by (now apply Zv); subst; destruct u; [congruence|cbn in Luv; lia]).
    pose proof (Lo y v ltac:(lia)) as X. pose proof (Up u Fu) as Y.
    assert (10 ^ N.of_nat (List.length u) <= 10 ^ N.of_nat (List.length v)) by (apply N.pow_le_mono_r; [lia|cbn [List.length] in Luv; lia]). lia. }
  destruct (Nat.lt_total (List.length a) (List.length b)) as [Q|[Q|Q]]; [exact (G a b Fa Fb Na Zb Q D)|contradiction|exact (G b a Fb Fa Nb Za Q (eq_sym D))].
Qed.
