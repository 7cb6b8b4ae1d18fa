(** Drive handles used by several goroutines at the same time (the library takes no locks). *)
From Verif Require Import Base M_Concurrent Spec_Concurrent P_Concurrent.
From Coq Require Import Lia.

Lemma run_at s0 tr s : crun s0 tr s -> forall p l q, tr = p ++ l :: q -> exists s1 s2 t, crun s0 p s1 /\ c_dead s1 = false /\ tstep s1 t l s2 /\ who l = t.
Proof.
  induction 1 as [s|s tr s1 t l s2 R IH D St]; intros p m q E; [destruct p; discriminate|].
  apply snoc_split in E as [(-> & -> & ->)|(b' & -> & ->)]; [exists s1, s2, t; repeat split; auto; eapply step_who; exact St|eauto].
Qed.
Lemma made_in tr l h d f : made tr h d f -> made (tr ++ l) h d f.
Proof. intros (t & H). exists t. apply in_app_iff. auto. Qed.

(** C132.  Any number of goroutines and handles, every schedule: if nobody else uses a handle while it is being closed, every ioctl and every
    close reaches the device of the handle (or the device being opened). *)
Theorem C132_isolation : forall s0 tr s, fresh s0 -> crun s0 tr s -> orderly tr ->
  (forall t o fd hit, In (VIoctl t o fd hit) tr \/ In (VClose t o fd hit) tr -> exists dev, hit = Some dev /\ meant tr o dev)
  /\ (forall o dev dev', meant tr o dev -> meant tr o dev' -> dev = dev').
Proof.
  intros s0 tr s F R O. split.
  - intros t o fd hit H.
    assert (E : exists l p q, (l = VIoctl t o fd hit \/ l = VClose t o fd hit) /\ tr = p ++ l :: q)
      by (destruct H as [H|H]; apply in_split in H as (p & q & ->); eauto 6).
    destruct E as (l & p & q & El & ->). destruct (run_at _ _ _ R _ _ _ eq_refl) as (s1 & s2 & x & R1 & D & St & Wh). assert (Et : x = t) by (rewrite <- Wh; destruct El as [->| ->]; reflexivity). clear Wh. subst x.
    assert (O1 := orderly_prefix _ _ O). pose proof (inv_run _ _ _ F R1) as I1. pose proof (inv2_run _ _ _ F R1) as I2. pose proof (inv3_run _ _ _ F R1 O1) as I3.
    pose proof (orderly_excl _ _ _ F R1 O1) as X. pose proof I1 as (W & _). pose proof I3 as (T1 & T2 & _). pose proof (W t) as Wt.
    assert (Hh : forall h o', c_thr s1 t = TShut o' h fd \/ (exists n, c_thr s1 t = TDrv o' h fd n) -> op_handle o' = Some h -> exists dev, c_table s1 fd = Some dev /\ meant (p ++ l :: q) o' dev).
    { intros h o' Hs Hop. destruct (owner_of _ _ _ _ _ _ I1 I2 I3 X Hs) as (dev & Ow). exists dev. split; [eapply T2; exact Ow|].
      destruct Ow as (_ & _ & _ & Mk). unfold meant. rewrite Hop. destruct (made_in _ (l :: q) _ _ _ Mk) as (y & Hy). eauto. }
    assert (Ht : forall d, c_thr s1 t = TProbe o d fd -> exists dev, c_table s1 fd = Some dev /\ meant (p ++ l :: q) o dev).
    { intros d Hs. exists d. rewrite Hs in Wt. cbn in Wt. split; [eapply T1; exists o; exact Hs|]. rewrite Wt. reflexivity. }
    destruct St; destruct El as [El|El]; try discriminate El; injection El as -> -> <-; try (eapply Ht; eassumption).
    + eapply Hh; [right; eauto|]. rewrite H0 in Wt. cbn in Wt. destruct Wt as [[->| ->] _]; reflexivity.
    + eapply Hh; [left; eauto|]. rewrite H0 in Wt. cbn in Wt. destruct Wt as [-> _]. reflexivity.
  - destruct (inv2_run _ _ _ F R) as (_ & M2 & _). intros o dev dev'. unfold meant. destruct (op_handle o) as [h|].
    + intros (t & fd & H) (t' & fd' & H'). apply (M2 h dev fd dev' fd'); [exists t; exact H|exists t'; exact H'].
    + intros -> E. now injection E.
Qed.
Print Assumptions C132_isolation.

(** ... no call crashes, except asking a handle already closed for its driver (C39) ... *)
Theorem C132_no_crash : forall s0 tr s t o, fresh s0 -> crun s0 tr s -> orderly tr -> In (VPanic t o) tr ->
  exists h x, o = OpName h /\ In (VBegin x (OpClose h)) tr.
Proof.
  intros s0 tr s t o F R O H. apply in_split in H as (p & q & ->). destruct (run_at _ _ _ R _ _ _ eq_refl) as (s1 & s2 & x & R1 & D & St & Wh). cbn in Wh. subst x.
  assert (O1 := orderly_prefix _ _ O). destruct (inv_run _ _ _ F R1) as (W & _). destruct (inv2_run _ _ _ F R1) as (_ & _ & _ & _ & _ & _ & _ & M8 & _).
  destruct (inv3_run _ _ _ F R1 O1) as (_ & _ & _ & _ & _ & _ & O7). inversion St; subst. pose proof (W t) as Wt. rewrite H0 in Wt. cbn in Wt. destruct Wt as [Wo Lt].
  assert (o = OpName h) as -> by (destruct Wo as [->|[->| ->]]; auto; exfalso; eapply O7; try eassumption; discriminate).
  destruct (M8 h Lt ltac:(assumption)) as (y & Hy). exists h, y. split; [reflexivity|]. apply in_app_iff. auto.
Qed.
Print Assumptions C132_no_crash.

(** ... and each descriptor is closed exactly once by the time a Close on its handle has returned, never more often. *)
Theorem C132_closed_once : forall s0 tr s h, fresh s0 -> crun s0 tr s -> orderly tr ->
  (count (closes h) tr <= 1)%nat /\ (forall t, In (VEnd t (OpClose h)) tr -> count (closes h) tr = 1%nat).
Proof.
  intros s0 tr s h F R O. assert (L : (count (closes h) tr <= 1)%nat) by (destruct (once_run _ _ _ h F R O) as [->|(-> & _)]; lia).
  split; [exact L|]. intros t H. destruct (inv2_run _ _ _ F R) as (_ & _ & _ & _ & _ & _ & M7 & _). destruct (M7 t h H) as [Lt Ec].
  pose proof (closed_run _ _ _ h F R (or_introl (conj Lt Ec))). lia.
Qed.
Print Assumptions C132_closed_once.

(** C133.  Without any discipline, in every schedule: a system call made for a handle after a Close on it has returned belongs to a call that
    was already running when that Close returned ... *)
Theorem C133_after_close : forall s0 p t h q l r s x o fd hit, fresh s0 -> crun s0 (p ++ VEnd t (OpClose h) :: q ++ l :: r) s ->
  l = VIoctl x o fd hit \/ l = VClose x o fd hit -> op_handle o = Some h -> inside p x o /\ ~ In (VEnd x o) q.
Proof.
  intros s0 p t h q l r s x o fd hit F R El Ho.
  destruct (run_at _ _ _ R (p ++ VEnd t (OpClose h) :: q) l r ltac:(rewrite <- app_assoc; reflexivity)) as (s1 & s2 & y & R1 & D & St & Wh).
  assert (Ey : y = x) by (rewrite <- Wh; destruct El as [->| ->]; reflexivity). clear Wh. subst y.
  destruct (inv_run _ _ _ F R1) as (W & _). pose proof (W x) as Wx.
  assert (S : exists f, c_thr s1 x = TShut o h f \/ (exists n, c_thr s1 x = TDrv o h f n)).
  { destruct St; destruct El as [El|El]; try discriminate El; injection El as -> -> <-; rewrite H in Wx; cbn in Wx.
    - subst o. discriminate Ho.
    - subst o. discriminate Ho.
    - exists fd. right. exists n. destruct Wx as [[->| ->] _]; injection Ho as ->; exact H.
    - exists fd. left. destruct Wx as [-> _]. injection Ho as ->. exact H. }
  destruct S as (f & S). exact (after_run s0 p t h q s1 F R1 x o f S).
Qed.
Print Assumptions C133_after_close.

(** ... the descriptor is closed at least once when a Close has returned, and at most as often as Close was called ... *)
Theorem C133_close_bounds : forall s0 tr s h, fresh s0 -> crun s0 tr s ->
  (count (closes h) tr <= count (close_calls h) tr)%nat /\ (forall t, In (VEnd t (OpClose h)) tr -> (1 <= count (closes h) tr)%nat).
Proof.
  intros s0 tr s h F R. split; [destruct (bound_run _ _ _ h F R) as (ts & _ & _ & L); lia|].
  intros t H. destruct (inv2_run _ _ _ F R) as (_ & _ & _ & _ & _ & _ & M7 & _). exact (closed_run _ _ _ h F R (or_introl (M7 t h H))).
Qed.
Print Assumptions C133_close_bounds.

(** ... and a call other than GetDrivingType and GetDriverName ends the program only if a Close of the same handle by another goroutine ran
    at the same time. *)
Theorem C133_crash_needs_close : forall s0 p t o q s, fresh s0 -> crun s0 (p ++ VPanic t o :: q) s ->
  exists h, op_handle o = Some h /\ (exists x, In (VBegin x (OpClose h)) p)
  /\ (o <> OpName h -> exists p1 p2 x, p = p1 ++ p2 /\ x <> t /\ inside p1 t o /\ inside p1 x (OpClose h)).
Proof.
  intros s0 p t o q s F R. destruct (run_at _ _ _ R p _ q eq_refl) as (s1 & s2 & x & R1 & D & St & Wh). cbn in Wh. subst x.
  destruct (inv_run _ _ _ F R1) as (W & _). destruct (inv2_run _ _ _ F R1) as (_ & _ & _ & _ & _ & _ & _ & M8 & M9). pose proof (W t) as Wt.
  inversion St as [| | | | | | | | |o' h Hc Hn| | | | | | | |]; subst. rewrite Hc in Wt. cbn in Wt. destruct Wt as [Wo Lt]. exists h.
  split; [destruct Wo as [->|[->| ->]]; reflexivity|]. split; [exact (M8 h Lt Hn)|]. intros Ne. exact (M9 t o h Hc Ne Hn).
Qed.
Print Assumptions C133_crash_needs_close.
