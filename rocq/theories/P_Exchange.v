(** Proofs for C134. *)
From Verif Require Import Base Spec_Tcg M_TcgToken M_Buffer M_TcgCommand M_TcgDevice M_TcgSession Spec_TcgCommand Spec_TcgClient
  Spec_TcgSession P_TcgDevice P_TcgSession P_TcgOnDrive M_Exchange Spec_Exchange.

Lemma own_app t A B : own t (A ++ B) = own t A ++ own t B.
Proof. unfold own. now rewrite filter_app, map_app. Qed.
Lemma own_cons_same t e G : own t ((t, e) :: G) = e :: own t G.
Proof. unfold own. cbn [filter fst]. now rewrite Nat.eqb_refl. Qed.
Lemma own_cons_other t u e G : u <> t -> own t ((u, e) :: G) = own t G.
Proof. intros H. unfold own. cbn [filter fst]. apply Nat.eqb_neq in H. now rewrite H. Qed.

Lemma own_split t G : forall a e b, own t G = a ++ e :: b -> exists P R, G = P ++ (t, e) :: R /\ own t P = a /\ own t R = b.
Proof.
  induction G as [|[u x] G IH]; intros a e b H; [destruct a; discriminate|].
  destruct (Nat.eq_dec u t) as [->|N0].
  - rewrite own_cons_same in H. destruct a as [|y a].
    + injection H as <- <-. exists [], G. repeat split; reflexivity.
    + injection H as <- H. destruct (IH a e b H) as (P & R & -> & A & B). exists ((t, x) :: P), R.
      split; [reflexivity|]. split; [rewrite own_cons_same; now f_equal|exact B].
  - rewrite own_cons_other in H by exact N0. destruct (IH a e b H) as (P & R & -> & A & B). exists ((u, x) :: P), R.
    split; [reflexivity|]. split; [now rewrite own_cons_other|exact B].
Qed.

Lemma upto_own t P : forall e R, upto t (S (List.length (own t P))) (P ++ (t, e) :: R) = P ++ [(t, e)].
Proof.
  induction P as [|[u x] P IH]; intros e R.
  - cbn. rewrite Nat.eqb_refl. destruct R as [|[? ?] R]; reflexivity.
  - cbn [app upto]. destruct (Nat.eqb_spec u t) as [->|N0].
    + rewrite own_cons_same. cbn [List.length]. now rewrite IH.
    + rewrite own_cons_other by exact N0. now rewrite IH.
Qed.

Lemma prefix_own t G0 G1 Q R : G0 ++ G1 = Q ++ R -> (List.length (own t G0) < List.length (own t Q))%nat -> exists M, Q = G0 ++ M /\ G1 = M ++ R.
Proof.
  revert Q. induction G0 as [|[u x] G0 IH]; intros Q H L; [exists Q; auto|].
  destruct Q as [|q Q]; [cbn in L; lia|]. injection H as <- H.
  destruct (Nat.eq_dec u t) as [->|N0].
  - rewrite !own_cons_same in L. cbn [List.length] in L. destruct (IH Q H) as (M & -> & ->); [lia|]. exists M. auto.
  - rewrite !own_cons_other in L by exact N0. destruct (IH Q H L) as (M & -> & ->). exists M. auto.
Qed.

Lemma view_ok W E G t : world_ok W -> env_ok E -> env_ok (view W E G t).
Proof. intros HW (_ & H2 & H3). split; [intros h; apply HW|]. split; [exact H2|exact H3]. Qed.

(** One Exec: its send [P] and its last receive, with what lies between. *)
Lemma exchange W E t d c com G0 G1 G2 resp reply :
  world_ok W -> env_ok E -> is_any_ssc d = true -> get_base_com_id d = Ok com -> mailbox W com reply ->
  left_alone t com G1 ->
  exec (view W E (G0 ++ G1 ++ G2) t) d c 1 (own t G0) = (own t (G0 ++ G1), Ok (Some resp, None)) ->
  exists M R b, G1 = M ++ (t, EvSec true false 1 com (cmd_slice c) 5) :: R
  /\ own t M = [EvNow] /\ no_send com R
  /\ exists R1 R2, R = R1 ++ (t, EvSec false false 1 com (zeros 2048) 5) :: R2 /\ own t R2 = []
  /\ reply (G0 ++ M ++ [(t, EvSec true false 1 com (cmd_slice c) 5)]) (receipts com R1) = (None, b)
  /\ r_buf resp = received b /\ exec_result (e_heap E) (received b) (Ok (Some resp, None))
  /\ exists k, own t R = rounds 1 com (S k).
Proof.
  intros HW HE Hs Hc HM HL H. set (G := G0 ++ G1 ++ G2) in *. set (V := view W E G t) in *.
  assert (HV : env_ok V) by now apply view_ok.
  destruct (exec_answer V d c com _ _ resp HV Hs Hc H) as (a & Ea & En & Er).
  destruct (c19 V d c 1 com _ _ _ HV Hs Hc H) as [A B]. cbv zeta in A, B.
  set (h1 := own t G0 ++ [EvNow; EvSec true false 1 com (cmd_slice c) 5]) in *.
  destruct (fst (e_sec V h1)) as [e|] eqn:Ee; [destruct (A e eq_refl) as [_ X]; discriminate|].
  destruct (B eq_refl) as [(X & _)|(k & K & Eh & _ & Rr)]; [discriminate|]. clear A B.
  destruct k as [|k]; [lia|].
  assert (Eo : own t (G0 ++ G1) = (own t G0 ++ [EvNow]) ++ EvSec true false 1 com (cmd_slice c) 5 :: rounds 1 com (S k)).
  { rewrite Eh. unfold h1. rewrite <- !app_assoc. reflexivity. }
  destruct (own_split _ _ _ _ _ Eo) as (Q & R & EQ & OQ & OR).
  destruct (prefix_own t G0 G1 Q _ EQ) as (M & -> & E1). { rewrite OQ, app_length. cbn. lia. }
  rewrite own_app in OQ. apply app_inv_head in OQ.
  assert (NS : no_send com R).
  { intros u x Hi Hx. assert (u = t) as ->. { apply (HL u x); [rewrite E1; apply in_or_app; right; now right|exact Hx]. }
    assert (Hx' : In x (own t R)). { unfold own. apply in_map_iff. exists (t, x). split; [reflexivity|]. apply filter_In. split; [exact Hi|]. cbn. apply Nat.eqb_refl. }
    rewrite OR in Hx'. destruct Hx as (dma & b & tmo & ->). clear - Hx'. unfold rounds in Hx'. apply in_concat in Hx'.
    destruct Hx' as (l & Hl & Hx). apply repeat_spec in Hl. subst l. unfold round in Hx. cbn in Hx. intuition discriminate. }
  assert (Eo2 : own t R = (rounds 1 com k ++ [EvNow; EvSleep 25000000]) ++ EvSec false false 1 com (zeros 2048) 5 :: []).
  { rewrite OR, rounds_succ_r. unfold round. rewrite <- app_assoc. reflexivity. }
  destruct (own_split _ _ _ _ _ Eo2) as (R1 & R2 & ER & OR1 & OR2).
  assert (Xr : exec_result (e_heap E) (received (snd (e_sec V (own t (G0 ++ G1))))) (Ok (Some resp, None))).
  { replace (S k - 1)%nat with k in Rr by lia. unfold answer in Rr. rewrite <- Eh in Rr.
    destruct (e_sec V (own t (G0 ++ G1))) as [[x|] b']; [discriminate|]. destruct Rr as [[_ Rr]|(_ & _ & Rr)]; [discriminate|exact Rr]. }
  exists M, R, (snd (e_sec V (own t (G0 ++ G1)))). repeat (split; [assumption|]).
  exists R1, R2. repeat (split; [assumption|]). split; [|split; [exact Er|split; [exact Xr|exists k; exact OR]]].
  set (snd_ev := EvSec true false 1 com (cmd_slice c) 5) in *. set (rcv := EvSec false false 1 com (zeros 2048) 5) in *.
  assert (Epre : upto t (List.length (own t (G0 ++ G1))) G = ((G0 ++ M ++ [(t, snd_ev)]) ++ R1 ++ [(t, rcv)])).
  { replace (List.length (own t (G0 ++ G1))) with (S (List.length (own t (G0 ++ M ++ (t, snd_ev) :: R1)))).
    2:{ rewrite E1, ER. rewrite !own_app, !own_cons_same, !own_app, !own_cons_same, OR2. rewrite !app_length. cbn [List.length]. rewrite !app_length. cbn [List.length]. lia. }
    unfold G. rewrite E1, ER. replace (G0 ++ (M ++ (t, snd_ev) :: R1 ++ (t, rcv) :: R2) ++ G2) with ((G0 ++ M ++ (t, snd_ev) :: R1) ++ (t, rcv) :: (R2 ++ G2)).
    2:{ rewrite <- !app_assoc. cbn [app]. rewrite <- !app_assoc. reflexivity. }
    rewrite upto_own. rewrite <- !app_assoc. cbn [app]. reflexivity. }
  assert (Esec : e_sec V (own t (G0 ++ G1)) = reply (G0 ++ M ++ [(t, snd_ev)]) (receipts com R1)).
  { unfold V, view. cbn [e_sec]. rewrite Epre. apply HM.
    - exists (G0 ++ M), t, snd_ev. split; [now rewrite app_assoc|]. unfold sends_on, snd_ev. eauto.
    - intros u x Hi. apply NS with u. rewrite ER. apply in_or_app. now left. }
  rewrite <- Esec. rewrite <- En. now destruct (e_sec V (own t (G0 ++ G1))).
Qed.

Lemma receipts_own t com R : undisturbed t com R -> receipts com R = List.length (filter (receives_on com) (own t R)).
Proof.
  intros H. unfold receipts, own. induction R as [|[u x] R IH]; [reflexivity|]. cbn [filter fst snd].
  destruct (Nat.eqb_spec u t) as [->|N0].
  - cbn [map filter snd]. destruct (receives_on com x); cbn [List.length]; rewrite IH; auto; intros v y Hi; apply (H v y); now right.
  - destruct (receives_on com x) eqn:Er; [exfalso; apply N0, (H u x); [now left|exact Er]|].
    apply IH. intros v y Hi. apply (H v y). now right.
Qed.
