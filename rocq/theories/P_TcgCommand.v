(** Lemmas about tcg/command.go. *)
From Verif Require Import Base Spec_Tcg M_TcgToken M_Buffer M_TcgCommand Spec_TcgCommand Spec_TcgClient P_TcgToken P_Buffer.

Definition PCAP := payload_capacity.
Lemma PCAP_val : PCAP = N.to_nat 61384. Proof. reflexivity. Qed.

Lemma firstn_all_le {A} n (l : list A) : (List.length l <= n)%nat -> firstn n l = l.
Proof. apply firstn_all2. Qed.

Lemma firstn_app_cap (n : nat) (a b : bytes) : (List.length a <= n)%nat ->
  firstn n (a ++ b) = a ++ firstn (n - List.length a) b.
Proof. intros H. rewrite firstn_app. now rewrite firstn_all2 by assumption. Qed.

Lemma firstn_firstn_app n (x e : bytes) : firstn n (firstn n x ++ e) = firstn n (x ++ e).
Proof.
  destruct (Nat.le_gt_cases (List.length x) n) as [H|H].
  - now rewrite (firstn_all2 x) by assumption.
  - assert (L : List.length (firstn n x) = n) by (rewrite firstn_length; lia).
    rewrite firstn_app, L, Nat.sub_diag, firstn_firstn, Nat.min_id. cbn [firstn]. rewrite app_nil_r.
    rewrite firstn_app. replace (n - List.length x)%nat with 0%nat by lia. cbn [firstn]. now rewrite app_nil_r.
Qed.

Lemma zeros_length n : List.length (zeros n) = n.
Proof. apply repeat_length. Qed.
Lemma zeros_app a b : zeros (a + b) = zeros a ++ zeros b.
Proof. apply repeat_app. Qed.

(** The central lemma: one Write on a command under construction. *)
Lemma write_holds c hdr pl p : holds c hdr pl ->
  holds (fst (buf_write c p)) hdr (firstn PCAP (pl ++ p))
  /\ a_rpos (fst (buf_write c p)) = a_rpos c
  /\ ((List.length pl < PCAP)%nat -> p <> [] -> exists k, snd (buf_write c p) = Ok k)
  /\ ((List.length pl = PCAP)%nat \/ p = [] -> snd (buf_write c p) = Err EEOF).
Proof.
  intros (Hh & Hp & Hd & Hw & Hl & Hc). fold PCAP in *.
  assert (HC : N.to_nat 61440 = (56 + PCAP)%nat) by (rewrite PCAP_val; lia).
  destruct (buf_write_spec c p) as (_ & W0 & W1).
  set (k := Nat.min (a_limit c - a_wpos c) (List.length p)) in *.
  assert (Hk : k = Nat.min (PCAP - List.length pl) (List.length p)) by (unfold k; lia).
  destruct (Nat.eq_dec k 0) as [E|E].
  - rewrite (W0 ltac:(lia) E). cbn [fst snd].
    assert (F : firstn PCAP (pl ++ p) = pl).
    { rewrite firstn_app_cap by assumption.
      replace (firstn (PCAP - List.length pl) p) with (@nil N); [apply app_nil_r|].
      symmetry. apply length_zero_iff_nil. rewrite firstn_length. lia. }
    rewrite F. repeat split; auto.
    intros Hlt Hne. exfalso. destruct p; [congruence|]. cbn [List.length] in Hk. lia.
  - destruct (W1 ltac:(lia) E) as (b1 & Eb & D1 & P1 & R1 & L1 & C1). rewrite Eb. cbn [fst snd].
    assert (F : firstn PCAP (pl ++ p) = pl ++ firstn k p).
    { rewrite firstn_app_cap by assumption. f_equal. rewrite Hk.
      rewrite <- firstn_firstn. now rewrite firstn_all. }
    assert (Lk : List.length (firstn k p) = k) by (rewrite firstn_length; lia).
    rewrite F. split; [|split; [assumption|]].
    + unfold holds. fold PCAP. repeat split.
      * assumption.
      * rewrite app_length. lia.
      * rewrite D1, Hd, Hw. rewrite app_length, Lk.
        replace (PCAP - List.length pl)%nat with (k + (PCAP - (List.length pl + k)))%nat by lia.
        rewrite zeros_app.
        replace (hdr ++ pl ++ zeros k ++ zeros (PCAP - (List.length pl + k)))
          with ((hdr ++ pl) ++ zeros k ++ zeros (PCAP - (List.length pl + k))) by (now rewrite <- app_assoc).
        replace (56 + List.length pl)%nat with (List.length (hdr ++ pl)) by (rewrite app_length; lia).
        rewrite put_app_mid by (now rewrite zeros_length, Lk).
        now rewrite <- !app_assoc.
      * rewrite P1, Hw, app_length. lia.
      * congruence.
      * congruence.
    + split; [eauto|]. intros [H|H]; [lia|subst p; cbn in Hk; lia].
Qed.

Lemma holds_le c hdr pl : holds c hdr pl -> (List.length pl <= PCAP)%nat.
Proof. intros (_ & H & _). exact H. Qed.

Lemma write_byte_write c hdr pl x : holds c hdr pl ->
  write_byte c x = drop_val (buf_write c [x]).
Proof.
  intros (Hh & Hp & Hd & Hw & Hl & Hc). fold PCAP in *.
  assert (HC : N.to_nat 61440 = (56 + PCAP)%nat) by (rewrite PCAP_val; lia).
  unfold write_byte, buf_write.
  destruct (Nat.ltb_spec (a_limit c) (a_wpos c)); [lia|].
  destruct (Nat.leb_spec (a_limit c) (a_wpos c)) as [H1|H1].
  - replace (Nat.min (a_limit c - a_wpos c) (List.length [x])) with 0%nat by lia. reflexivity.
  - replace (Nat.min (a_limit c - a_wpos c) (List.length [x])) with 1%nat by (cbn [List.length]; lia). reflexivity.
Qed.

Definition res_ok_iff (P : Prop) (r : res unit) : Prop := (P -> r = Ok tt) /\ (~ P -> exists e, r = Err e).

Lemma drop_fst {A} (x : cmd * res A) : fst (drop_val x) = fst x.
Proof. reflexivity. Qed.

Lemma write_byte_holds c hdr pl x : holds c hdr pl ->
  holds (fst (write_byte c x)) hdr (firstn PCAP (pl ++ [x]))
  /\ a_rpos (fst (write_byte c x)) = a_rpos c
  /\ ((List.length pl < PCAP)%nat -> snd (write_byte c x) = Ok tt)
  /\ ((List.length pl = PCAP)%nat -> snd (write_byte c x) = Err EEOF).
Proof.
  intros H. rewrite (write_byte_write c hdr pl x H).
  destruct (write_holds c hdr pl [x] H) as (A & B & C & D).
  rewrite drop_fst. repeat split; try assumption; try apply A.
  - intros Hl. destruct (C Hl ltac:(discriminate)) as [k E]. unfold drop_val. cbn [snd]. rewrite E. reflexivity.
  - intros Hl. unfold drop_val. cbn [snd]. rewrite D by auto. reflexivity.
Qed.

Lemma raw_holds c hdr pl p : holds c hdr pl ->
  holds (fst (add_raw_token c p)) hdr (firstn PCAP (pl ++ p))
  /\ a_rpos (fst (add_raw_token c p)) = a_rpos c
  /\ ((List.length pl < PCAP)%nat -> p <> [] -> snd (add_raw_token c p) = Ok tt).
Proof.
  intros H. destruct (write_holds c hdr pl p H) as (A & B & C & D).
  unfold add_raw_token. rewrite drop_fst. repeat split; try assumption; try apply A.
  intros Hl Hp. destruct (C Hl Hp) as [k E]. unfold drop_val. cbn [snd]. rewrite E. reflexivity.
Qed.

(** WriteByte followed, on success, by Write. *)
Lemma byte_then_holds c hdr pl x p : holds c hdr pl ->
  let r := match write_byte c x with (c', Ok _) => drop_val (buf_write c' p) | (c', e) => (c', e) end in
  holds (fst r) hdr (firstn PCAP (pl ++ x :: p)) /\ a_rpos (fst r) = a_rpos c
  /\ ((List.length pl + 1 < PCAP)%nat -> p <> [] -> snd r = Ok tt).
Proof.
  intros H r. destruct (write_byte_holds c hdr pl x H) as (A & B & C & D).
  unfold r. destruct (Nat.eq_dec (List.length pl) PCAP) as [E|E].
  - specialize (D E). destruct (write_byte c x) as [c' rr]. cbn [fst snd] in *. subst rr. cbn [fst snd].
    assert (F : firstn PCAP (pl ++ x :: p) = firstn PCAP (pl ++ [x])).
    { rewrite !firstn_app_cap by lia. replace (PCAP - List.length pl)%nat with 0%nat by lia. reflexivity. }
    rewrite F. repeat split; try assumption; try apply A. intros Hl. lia.
  - pose proof (holds_le _ _ _ H) as Hp.
    specialize (C ltac:(lia)). destruct (write_byte c x) as [c' rr]. cbn [fst snd] in *. subst rr.
    destruct (write_holds c' hdr _ p A) as (A2 & B2 & C2 & D2).
    rewrite drop_fst. rewrite firstn_firstn_app in A2. rewrite <- app_assoc in A2. cbn [app] in A2.
    repeat split; try assumption; try apply A2; try congruence.
    intros Hl Hne. rewrite firstn_length, app_length in C2. cbn [List.length] in C2.
    destruct (C2 ltac:(lia) Hne) as [k Ek]. unfold drop_val. cbn [snd]. now rewrite Ek.
Qed.

(** number encoding *)
Lemma number_bytes_be n v : number_bytes n v = be_bytes (n + 1) v.
Proof.
  apply list_eq_nth_error. intros i. unfold number_bytes. rewrite nth_error_map.
  destruct (Nat.lt_ge_cases i (n + 1)) as [H|H].
  - rewrite (nth_error_nth' _ 0%nat) by (rewrite seq_length; lia). rewrite seq_nth by lia. cbn [option_map].
    assert (G : forall m w j, (j < m)%nat -> nth_error (le_bytes m w) j = Some (w / 2 ^ (N.of_nat j * 8) mod 256)).
    { induction m as [|m IH]; intros w j Hj; [lia|]. destruct j as [|j]; cbn [le_bytes nth_error].
      - change (N.of_nat 0 * 8) with 0. change (2 ^ 0) with 1. now rewrite N.div_1_r.
      - rewrite IH by lia. do 2 f_equal. rewrite N.div_div by (try apply N.pow_nonzero; lia). f_equal.
        replace (N.of_nat (S j) * 8) with (8 + N.of_nat j * 8) by lia. rewrite N.pow_add_r. reflexivity. }
    unfold be_bytes. 
    assert (R : nth_error (rev (le_bytes (n + 1) v)) i = nth_error (le_bytes (n + 1) v) (n - i)).
    { rewrite (nth_error_nth' _ 0) by (rewrite rev_length, le_bytes_length; lia).
      rewrite rev_nth by (rewrite le_bytes_length; lia). rewrite le_bytes_length.
      rewrite <- (nth_error_nth' (le_bytes (n + 1) v) 0) by (rewrite le_bytes_length; lia). f_equal. lia. }
    rewrite R, G by lia. f_equal. rewrite N.shiftr_div_pow2. now rewrite Nat.add_0_l.
  - rewrite (proj2 (nth_error_None _ _)) by (rewrite seq_length; lia).
    rewrite (proj2 (nth_error_None (be_bytes _ _) _)) by (rewrite be_bytes_length; lia). reflexivity.
Qed.

Lemma number_holds c hdr pl v : holds c hdr pl -> v < 2 ^ 64 ->
  holds (fst (add_number_token c v)) hdr (firstn PCAP (pl ++ encode (number_atom v)))
  /\ a_rpos (fst (add_number_token c v)) = a_rpos c
  /\ ((List.length pl + List.length (encode (number_atom v)) <= PCAP)%nat -> snd (add_number_token c v) = Ok tt).
Proof.
  intros H Hv. unfold add_number_token, number_atom.
  destruct (N.ltb_spec v 64) as [V1|V1].
  - assert (E : N.land v 0x3f = v) by (change 0x3f with (N.ones 6); rewrite N.land_ones; now apply N.mod_small).
    rewrite E. cbn [encode b2n]. replace (64 * 0 + v) with v by lia.
    destruct (write_byte_holds c hdr pl v H) as (A & B & C & _). repeat split; try assumption; try apply A.
    intros L. cbn [List.length] in L. apply C. lia.
  - assert (G : forall hb startat k, k = (startat + 1)%nat ->
       hb = 128 + N.of_nat k -> (k < 16)%nat ->
       let r := match write_byte c hb with (c', Ok _) => drop_val (buf_write c' (number_bytes startat v)) | (c', e) => (c', e) end in
       holds (fst r) hdr (firstn PCAP (pl ++ encode (Short false false (be_bytes k v))))
       /\ a_rpos (fst r) = a_rpos c
       /\ ((List.length pl + List.length (encode (Short false false (be_bytes k v))) <= PCAP)%nat -> snd r = Ok tt)).
    { intros hb startat k -> Ehb Hk. rewrite number_bytes_be.
      assert (Eh : encode (Short false false (be_bytes (startat + 1) v)) = hb :: be_bytes (startat + 1) v).
      { cbn [encode b2n]. f_equal. unfold blen. rewrite be_bytes_length. lia. }
      rewrite Eh. destruct (byte_then_holds c hdr pl hb (be_bytes (startat + 1) v) H) as (A & B & C).
      cbv zeta. repeat split; try assumption; try apply A. intros L. cbn [List.length] in L. rewrite be_bytes_length in L.
      apply C; [lia|]. intros E. apply (f_equal (@List.length N)) in E. rewrite be_bytes_length in E. cbn in E. lia. }
    destruct (N.ltb_spec v 0x100) as [V2|V2].
    { change (v <? 2 ^ 8) with (v <? 0x100). destruct (N.ltb_spec v 0x100); [|lia]. apply (G 0x81 0%nat 1%nat); auto; lia. }
    change (2 ^ 8) with 0x100. destruct (N.ltb_spec v 0x100); [lia|].
    destruct (N.ltb_spec v 0x10000) as [V3|V3].
    { change (2 ^ 16) with 0x10000. destruct (N.ltb_spec v 0x10000); [|lia]. apply (G 0x82 1%nat 2%nat); auto; lia. }
    change (2 ^ 16) with 0x10000. destruct (N.ltb_spec v 0x10000); [lia|].
    destruct (N.ltb_spec v 0x100000000) as [V4|V4].
    { change (2 ^ 32) with 0x100000000. destruct (N.ltb_spec v 0x100000000); [|lia]. apply (G 0x84 3%nat 4%nat); auto; lia. }
    change (2 ^ 32) with 0x100000000. destruct (N.ltb_spec v 0x100000000); [lia|].
    apply (G 0x88 7%nat 8%nat); auto; lia.
Qed.

(** string encoding *)
Lemma short_hdr n : 0 < n -> n < 16 -> u8 (Z.lor (Z.of_N n) 0xa0) = 0xA0 + n.
Proof.
  intros H0 H. apply N.eqb_eq. assert (Hb : n < 256) by lia. revert H.
  assert (G : (fun n => implb (n <? 16) (u8 (Z.lor (Z.of_N n) 0xa0) =? 0xA0 + n)) n = true).
  { clear H0. revert n Hb. apply byte_sweep. vm_compute. reflexivity. }
  intros H. apply N.ltb_lt in H. cbv beta in G. rewrite H in G. exact G.
Qed.

Lemma medium_hdr n : n < 2048 -> u8 (Z.lor 0xd0 (Z.land (Z.shiftr (Z.of_N n) 8) 0x07)) = 0xD0 + n / 256
  /\ u8 (Z.of_N n) = n mod 256.
Proof.
  intros H. split.
  - rewrite Z.shiftr_div_pow2 by lia. change (2 ^ 8)%Z with (Z.of_N 256). rewrite <- N2Z.inj_div.
    assert (Hq : n / 256 < 8) by lia. revert Hq. generalize (n / 256) as q. intros q Hq.
    assert (Hb : q < 256) by lia.
    assert (G : (fun q => implb (q <? 8) (u8 (Z.lor 0xd0 (Z.land (Z.of_N q) 0x07)) =? 0xD0 + q)) q = true).
    { clear Hq. revert q Hb. apply byte_sweep. vm_compute. reflexivity. }
    apply N.ltb_lt in Hq. cbv beta in G. rewrite Hq in G. now apply N.eqb_eq.
  - unfold u8. lia.
Qed.

Lemma string_call_bytes c text l :
  add_string_token c text l =
  let len := match l with
             | Some l => if (l <? 0)%Z then blen text else Z.to_N l
             | None => blen text
             end in
  if len <? 2048 then drop_val (buf_write c (string_bytes text l)) else (c, Ok tt).
Proof.
  unfold add_string_token, string_bytes. cbv zeta.
  set (len := match l with Some l => if (l <? 0)%Z then blen text else Z.to_N l | None => blen text end).
  assert (E : (if ((match l with Some l => l | None => Z.of_nat (List.length text) end) <? 0)%Z
               then Z.of_nat (List.length text)
               else match l with Some l => l | None => Z.of_nat (List.length text) end) = Z.of_N len).
  { unfold len, blen. destruct l as [l|].
    - destruct (Z.ltb_spec l 0); lia.
    - destruct (Z.ltb_spec (Z.of_nat (List.length text)) 0); lia. }
  rewrite E. clearbody len. clear E.
  destruct (Z.eqb_spec (Z.of_N len) 0) as [Z0|Z0].
  { assert (len = 0) by lia. subst len. reflexivity. }
  destruct (N.eqb_spec len 0); [lia|].
  destruct (Z.ltb_spec (Z.of_N len) 16) as [H1|H1].
  { destruct (N.ltb_spec len 2048); [|lia]. unfold string_header.
    destruct (N.ltb_spec len 16); [|lia]. rewrite short_hdr by lia. reflexivity. }
  destruct (Z.ltb_spec (Z.of_N len) 2048) as [H2|H2].
  { destruct (N.ltb_spec len 2048); [|lia]. unfold string_header.
    destruct (N.ltb_spec len 16); [lia|]. destruct (medium_hdr len) as [E1 E2]; [lia|]. rewrite E1, E2. reflexivity. }
  destruct (N.ltb_spec len 2048); [lia|reflexivity].
Qed.

Lemma string_holds c hdr pl text l : holds c hdr pl ->
  holds (fst (add_string_token c text l)) hdr (firstn PCAP (pl ++ string_bytes text l))
  /\ a_rpos (fst (add_string_token c text l)) = a_rpos c
  /\ ((List.length pl + List.length (string_bytes text l) <= PCAP)%nat -> snd (add_string_token c text l) = Ok tt).
Proof.
  intros H. rewrite string_call_bytes. cbv zeta.
  set (len := match l with Some l => if (l <? 0)%Z then blen text else Z.to_N l | None => blen text end).
  destruct (N.ltb_spec len 2048) as [L|L].
  - destruct (write_holds c hdr pl (string_bytes text l) H) as (A & B & C & D).
    rewrite drop_fst. repeat split; try assumption; try apply A. intros Hf.
    assert (Hne : string_bytes text l <> []).
    { unfold string_bytes. fold len. destruct (len =? 0); [discriminate|].
      destruct (N.ltb_spec len 2048); [|lia]. unfold string_header. destruct (len <? 16); discriminate. }
    assert (Hlt : (List.length pl < PCAP)%nat).
    { destruct (string_bytes text l); [congruence|]. cbn [List.length] in Hf. lia. }
    destruct (C Hlt Hne) as [k E]. unfold drop_val. cbn [snd]. rewrite E. reflexivity.
  - assert (E : string_bytes text l = []).
    { unfold string_bytes. fold len. destruct (N.eqb_spec len 0); [lia|]. destruct (N.ltb_spec len 2048); [lia|reflexivity]. }
    rewrite E, app_nil_r. cbn [fst snd]. rewrite firstn_all2 by (eapply holds_le; eauto). auto.
Qed.

Lemma token_holds c hdr pl t : holds c hdr pl -> call_ok (CTok t) ->
  holds (fst (add_token c t)) hdr (firstn PCAP (pl ++ call_bytes (CTok t)))
  /\ a_rpos (fst (add_token c t)) = a_rpos c
  /\ ((List.length pl + List.length (call_bytes (CTok t)) <= PCAP)%nat -> t <> TNone -> snd (add_token c t) = Ok tt).
Proof.
  intros H Hok. destruct t as [v|v|v|v|v|v|]; cbn [add_token call_bytes].
  1:{ unfold add_byte_token, add_raw_token. change (u8 BYTESTRING8) with 0xA8.
      destruct (byte_then_holds c hdr pl 0xA8 v H) as (A & B & C). destruct Hok as [_ Hl].
      cbv zeta in *. repeat split; try assumption; try apply A. intros L _. apply C.
      - cbn [List.length] in L. lia.
      - intros E. subst v. discriminate. }
  1:{ destruct Hok as [_ Hl].
      assert (E : string_bytes v (Some (Z.of_nat (List.length v))) = 0xA8 :: v).
      { unfold string_bytes. rewrite Hl. reflexivity. }
      destruct (string_holds c hdr pl v (Some (Z.of_nat (List.length v))) H) as (A & B & C).
      rewrite E in *. repeat split; try assumption; try apply A. intros L _. now apply C. }
  1-4: (unfold add_byte_token; change (byte_of v) with (u8 v);
        destruct (write_byte_holds c hdr pl (u8 v) H) as (A & B & C & _);
        repeat split; try assumption; try apply A;
        intros L _; cbn [List.length] in L; apply C; lia).
  rewrite app_nil_r. cbn [fst snd]. rewrite firstn_all2 by (eapply holds_le; eauto). repeat split; try apply H. congruence.
Qed.

Lemma cstep_holds c hdr pl o : holds c hdr pl -> call_ok o ->
  holds (fst (cstep c o)) hdr (firstn PCAP (pl ++ call_bytes o))
  /\ a_rpos (fst (cstep c o)) = a_rpos c
  /\ ((List.length pl + List.length (call_bytes o) <= PCAP)%nat -> o <> CTok TNone -> o <> CRaw [] -> snd (cstep c o) = Ok tt).
Proof.
  intros H Hok. destruct o as [t|d|t l|v]; cbn [cstep].
  - destruct (token_holds c hdr pl t H Hok) as (A & B & C). repeat split; try assumption; try apply A.
    intros L Hn _. apply C; [assumption|congruence].
  - destruct (raw_holds c hdr pl d H) as (A & B & C). repeat split; try assumption; try apply A.
    intros L _ Hd. cbn [call_bytes] in L. assert (d <> []) by congruence. apply C; [|assumption].
    destruct d; [congruence|]. cbn [List.length] in L. lia.
  - destruct (string_holds c hdr pl t l H) as (A & B & C). repeat split; try assumption; try apply A. intros L _ _. now apply C.
  - destruct (number_holds c hdr pl v H Hok) as (A & B & C). repeat split; try assumption; try apply A. intros L _ _. now apply C.
Qed.

Lemma crun_holds : forall ops c hdr x, holds c hdr (firstn PCAP x) -> Forall call_ok ops ->
  holds (crun c ops) hdr (firstn PCAP (x ++ concat (map call_bytes ops))) /\ a_rpos (crun c ops) = a_rpos c.
Proof.
  induction ops as [|o ops IH]; intros c hdr x H Hok; cbn [crun fold_left map concat].
  - rewrite app_nil_r. auto.
  - inversion Hok as [|? ? Ho Hr]; subst.
    destruct (cstep_holds c hdr _ o H Ho) as (A & B & _).
    rewrite firstn_firstn_app in A.
    destruct (IH _ _ _ A Hr) as [A2 B2]. rewrite <- app_assoc in A2. unfold crun in *. split; [exact A2|congruence].
Qed.

(** Reset and Init *)
Lemma cmd_wf_new : cmd_wf new_command.
Proof. unfold cmd_wf, new_command, new_aligned. cbn [a_data a_limit a_cap]. rewrite zeros_length. auto. Qed.

Lemma reset_holds c : cmd_wf c -> holds (cmd_reset c) (zeros 56) [] /\ a_rpos (cmd_reset c) = 0%nat.
Proof.
  intros (Hl & Hm & Hc). split; [|reflexivity]. unfold holds, cmd_reset, buf_reset, set_wpos. cbn [a_data a_wpos a_limit a_cap].
  rewrite zeros_length. fold PCAP. repeat split; try assumption.
  - cbn [List.length]. lia.
  - rewrite skipn_all2 by lia. rewrite app_nil_r. cbn [app List.length]. rewrite <- zeros_app, Hm. f_equal; rewrite PCAP_val; lia.
Qed.

Lemma holds_cmd_wf c hdr pl : holds c hdr pl -> cmd_wf c.
Proof.
  intros (Hh & Hp & Hd & Hw & Hl & Hc). fold PCAP in *. unfold cmd_wf. repeat split; auto.
  rewrite Hd, !app_length, zeros_length, Hh. rewrite PCAP_val in *. lia.
Qed.

Lemma init_holds c i m : cmd_wf c ->
  holds (fst (cmd_init c i m)) (zeros 56) (firstn PCAP (init_bytes i m))
  /\ a_rpos (fst (cmd_init c i m)) = 0%nat
  /\ snd (cmd_init c i m) = match i with IOther => Err EInvalidParamType | _ => Ok tt end.
Proof.
  intros Hc. unfold cmd_init. destruct (reset_holds c Hc) as [H0 R0].
  unfold add_byte_token. change (u8 CALL) with T_Call.
  destruct (write_byte_holds _ _ _ T_Call H0) as (A & B & C & _).
  specialize (C ltac:(rewrite PCAP_val; cbn [List.length]; lia)).
  destruct (write_byte (cmd_reset c) T_Call) as [c1 r1]. cbn [fst snd] in *. subst r1.
  rewrite R0 in B. cbn [app] in A.
  set (wm := fun c2 : cmd => match m with
      | MMethod m0 => (fst (buf_write (fst (write_byte c2 (u8 BYTESTRING8))) m0), Ok tt)
      | MBuf m0 => (fst (add_raw_token c2 m0), Ok tt)
      | MOther => (c2, Ok tt) end).
  assert (W : forall c2 x, holds c2 (zeros 56) (firstn PCAP x) -> a_rpos c2 = 0%nat ->
     holds (fst (wm c2)) (zeros 56)
       (firstn PCAP (x ++ match m with MMethod x => 0xA8 :: x | MBuf d => d | MOther => [] end))
     /\ a_rpos (fst (wm c2)) = 0%nat /\ snd (wm c2) = Ok tt).
  { intros c2 x H2 R2. unfold wm. destruct m as [mm|mm|]; cbn [fst snd].
    - change (u8 BYTESTRING8) with 0xA8.
      destruct (write_byte_holds _ _ _ 0xA8 H2) as (A1 & B1 & _).
      destruct (write_holds _ _ _ mm A1) as (A2 & B2 & _).
      rewrite firstn_firstn_app, <- app_assoc in A2. cbn [app] in A2.
      change (0xA8 :: mm) with ([0xA8] ++ mm).
      rewrite <- firstn_firstn_app, app_assoc, firstn_firstn_app, <- app_assoc in A2 || idtac.
      split; [|split; [congruence|reflexivity]].
      cbn [app]. rewrite <- (firstn_firstn_app PCAP x (0xA8 :: mm)). exact A2.
    - destruct (raw_holds _ _ _ mm H2) as (A1 & B1 & _). rewrite firstn_firstn_app in A1. split; [exact A1|]. split; [congruence|reflexivity].
    - rewrite app_nil_r. auto. }
  fold wm. destruct i as [uid|uid|].
  - cbn [add_token]. unfold add_byte_token, add_raw_token. change (u8 BYTESTRING8) with 0xA8.
    destruct (byte_then_holds _ _ _ 0xA8 uid A) as (A1 & B1 & _). cbv zeta in A1, B1. rewrite firstn_firstn_app in A1.
    destruct (W _ _ A1 ltac:(congruence)) as (A2 & B2 & C2). rewrite <- app_assoc in A2. auto.
  - destruct (raw_holds _ _ _ uid A) as (A1 & B1 & _). rewrite firstn_firstn_app in A1.
    destruct (W _ _ A1 ltac:(congruence)) as (A2 & B2 & C2). rewrite <- app_assoc in A2. auto.
  - cbn [fst snd]. unfold init_bytes. rewrite app_nil_r. auto.
Qed.
