(** Property-level lemmas for internal/ (used by Prop_Buffer.v). *)
From Verif Require Import Base Spec_Buffer M_TcgToken M_Buffer Spec_TcgClient P_TcgToken P_Buffer.

Lemma c44 align size base : 0 < align ->
  (exists p, aligned_pointer base align = Ok p /\ p mod align = 0 /\ base <= p
             /\ p + N.of_nat size <= base + (align + N.of_nat size)) /\
  (forall ops, let b := brun (new_aligned size) ops in
     List.length (a_data b) = size /\ a_cap b = size /\ (a_limit b <= size)%nat
     /\ forall o, let b' := fst (bstep b o) in
        match o with
        | OReset => a_data b' = zeros (a_limit b) ++ skipn (a_limit b) (a_data b)
        | OWrite _ | OWriteByte _ => same_outside (a_wpos b) (a_wpos b') (a_data b) (a_data b')
        | _ => a_data b' = a_data b
        end).
Proof.
  intros H. split; [now apply aligned_pointer_ok|]. intros ops b.
  pose proof (brun_inv size _ ops (binv_new size)) as I. fold b in I.
  destruct I as (I1 & I2 & I3). repeat (split; [assumption|]).
  intros o. pose proof (bstep_frame size b o (conj I1 (conj I2 I3))) as F. cbv zeta.
  destruct o; try exact F; apply F.
Qed.

Lemma chunks_concat : forall ns l,
  concat (map (fun c => match c with Some x => x | None => [] end) (chunks l ns)) = firstn (fold_right Nat.add 0%nat ns) l.
Proof.
  induction ns as [|n ns IH]; intros l; [reflexivity|]. cbn [chunks fold_right].
  destruct (firstn n l) as [|x t] eqn:E.
  - cbn [map concat app]. rewrite IH.
    assert (K : n = 0%nat \/ l = []) by (destruct n; [auto|]; destruct l; [auto|discriminate]).
    destruct K as [->| ->]; [reflexivity|]. now rewrite !firstn_nil.
  - cbn [map concat]. rewrite IH, <- E.
    rewrite <- (firstn_skipn n l) at 3. rewrite firstn_app.
    rewrite (firstn_all2 (n := n + fold_right Nat.add 0%nat ns)); [|pose proof (firstn_le_length n l); lia].
    f_equal. 
    destruct (Nat.le_gt_cases n (List.length l)) as [Q|Q].
    + f_equal. rewrite firstn_length. lia.
    + rewrite skipn_all2 by lia. now rewrite !firstn_nil.
Qed.

Lemma c45 size ps ns : (List.length (concat ps) <= size)%nat ->
  let b := brun (new_aligned size) (map OWrite ps) in
  a_wpos b = List.length (concat ps)
  /\ a_data b = concat ps ++ zeros (size - List.length (concat ps))
  /\ reads b ns = map chunk_res (chunks (a_data b) ns)
  /\ concat (map (fun c => match c with Some x => x | None => [] end) (chunks (a_data b) ns))
     = firstn (fold_right Nat.add 0%nat ns) (a_data b).
Proof.
  intros H b.
  destruct (writes_concat ps (new_aligned size) []) as (D & W & R & L).
  - cbn [new_aligned a_data a_limit List.length app]. now rewrite Nat.sub_0_r.
  - reflexivity.
  - exact H.
  - cbn [app] in *. fold b in D, W, R, L. cbn [new_aligned a_limit a_rpos] in *.
    split; [exact W|]. split; [exact D|]. split; [|apply chunks_concat].
    rewrite reads_chunks; [now rewrite R|lia|].
    rewrite D, app_length, L. unfold zeros. rewrite repeat_length. lia.
Qed.

(** the same for a wrapped caller slice read from the start *)
Lemma c45_wrapped buffer ns :
  reads (new_wrapped buffer) ns = map chunk_res (chunks buffer ns).
Proof. rewrite reads_chunks; [reflexivity|cbn; lia|reflexivity]. Qed.

Lemma c46 b p :
  let k := Nat.min (a_limit b - a_wpos b) (List.length p) in
  ((a_limit b < a_wpos b)%nat -> snd (buf_write b p) = Panic /\ fst (buf_write b p) = b) /\
  ((a_wpos b <= a_limit b)%nat ->
     (snd (buf_write b p) = Err EEOF <-> k = 0%nat)
     /\ (k = 0%nat -> fst (buf_write b p) = b)
     /\ (k <> 0%nat -> snd (buf_write b p) = Ok k
          /\ a_data (fst (buf_write b p)) = put (a_wpos b) (firstn k p) (a_data b)
          /\ a_wpos (fst (buf_write b p)) = (a_wpos b + k)%nat)).
Proof.
  intros k. destruct (buf_write_spec b p) as (A & B & C). fold k in B, C. split.
  - intros L. rewrite (A L). auto.
  - intros L. specialize (B L). specialize (C L). split; [|split].
    + split; [|intros K; now rewrite (B K)]. intros E. destruct (Nat.eq_dec k 0) as [K|K]; [exact K|].
      destruct (C K) as (b' & E' & _). rewrite E' in E. discriminate.
    + intros K. now rewrite (B K).
    + intros K. destruct (C K) as (b' & E' & D & W & _). rewrite E'. auto.
Qed.

Lemma c47 :
  (forall l, Nat.even (List.length l) = false -> ata_swap_word_endian l = Panic) /\
  (forall l, Nat.even (List.length l) = true ->
     exists o, ata_swap_word_endian l = Ok o /\ List.length o = List.length l
       /\ (forall i, (i < List.length l)%nat -> nth_error o i = nth_error l (partner i))
       /\ ata_swap_word_endian o = Ok l) /\
  (forall x, x < 2 ^ 16 -> ata_swap16 x = be_val (le_bytes 2 x) /\ ata_swap16 (ata_swap16 x) = x) /\
  (forall x, x < 2 ^ 32 -> ata_swap32 x = be_val (le_bytes 4 x) /\ ata_swap32 (ata_swap32 x) = x).
Proof.
  split; [exact swap_odd|]. split.
  { intros l H. destruct (swap_even l H) as (o & A & B & C & D & _). exists o. auto. }
  split; intros x H.
  - assert (E := swap16_spec x H). split; [exact E|]. rewrite swap16_spec.
    + rewrite E. now apply (be_le_involution 2).
    + rewrite E. pose proof (be_val_lt (le_bytes 2 x) (le_bytes_wf 2 x)) as Q. unfold blen in Q. rewrite le_bytes_length in Q. exact Q.
  - assert (E := swap32_spec x H). split; [exact E|]. rewrite swap32_spec.
    + rewrite E. now apply (be_le_involution 4).
    + rewrite E. pose proof (be_val_lt (le_bytes 4 x) (le_bytes_wf 4 x)) as Q. unfold blen in Q. rewrite le_bytes_length in Q. exact Q.
Qed.
