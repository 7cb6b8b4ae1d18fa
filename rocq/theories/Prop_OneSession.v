(** C178: the library never ends a session, so on a drive that keeps one session with the Admin SP at a time, everything after the first session fails. *)
From Verif Require Import Base Spec_Tcg M_TcgToken M_Buffer M_TcgCommand M_TcgDevice M_TcgSession Spec_TcgCommand Spec_TcgClient Spec_TcgSession
  P_TcgToken P_TcgDevice P_TcgSession P_TcgTrust Prop_TcgSession Prop_TcgTrust M_TcgTables M_TcgProgram Spec_OneSession P_Challenge P_OneSession.

Lemma admin_wf : wf uid_AdminSP.
Proof. repeat (apply wf_cons; split; [reflexivity|]); apply wf_nil. Qed.
Lemma new_some : some_numbers new_session.
Proof. exists 0, 0. split; reflexivity. Qed.
Lemma set_no_hash_some s b : some_numbers s -> some_numbers (set_no_hash_password s b).
Proof. intros (hv & tv & N1 & N2). exists hv, tv. split; assumption. Qed.
Lemma result_of_ok {A} (r : res A) : result_of r = Ok tt -> exists x, r = Ok x.
Proof. destruct r as [x| | |]; try discriminate. eauto. Qed.
Lemma psid_ok (b : bool) : wf (if b then uid_PSID else uid_SID) /\ blen (if b then uid_PSID else uid_SID) <= 8.
Proof. destruct b; (split; [repeat (apply wf_cons; split; [reflexivity|]); apply wf_nil|vm_compute; discriminate]). Qed.
Lemma hexff_ok : wf (repeat 255 8) /\ blen (repeat 255 8) <= 8.
Proof. split; [repeat (apply wf_cons; split; [reflexivity|]); apply wf_nil|vm_compute; discriminate]. Qed.
Lemma Forall_replace {A} (P : A -> Prop) i x : forall l, Forall P l -> P x -> Forall P (replace_nth i x l).
Proof. induction i as [|i IH]; intros [|y l] H Px; cbn [replace_nth]; auto; inversion H; subst; constructor; auto. Qed.
Lemma Forall_nth {A} (P : A -> Prop) l i x : Forall P l -> nth_error l i = Some x -> P x.
Proof. intros H E. rewrite Forall_forall in H. apply H. eapply nth_error_In; eassumption. Qed.
Lemma elsewhere_sends t : elsewhere t -> forall dma com b tmo, ~ In (EvSec true dma 1 com b tmo) t.
Proof. intros Q dma com b tmo I. destruct (Q _ _ _ _ _ _ I). contradiction. Qed.

(** Exec's own errors are no TcgErrors. *)
Lemma exec_error E d c com h h' o v : env_ok E -> is_any_ssc d = true -> get_base_com_id d = Ok com -> (forall g n, fst (e_sec E g) <> Some (ETcg n)) ->
  exec E d c 1 h = (h', Ok (o, Some (ETcg v))) -> False.
Proof.
  intros HE Hs Hc Hd0 H. destruct (c19 E d c 1 com h h' _ HE Hs Hc H) as [A B]. cbv zeta in *.
  destruct (fst (e_sec E (h ++ [EvNow; EvSec true false 1 com (cmd_slice c) 5]))) as [e|] eqn:Ee.
  - destruct (A e eq_refl) as [_ Q]. injection Q as _ Q. subst e. exact (Hd0 _ _ Ee).
  - destruct (B eq_refl) as [(Q & _)|(k & _ & _ & _ & R)]; [discriminate Q|].
    destruct (answer E 1 com (h ++ [EvNow; EvSec true false 1 com (cmd_slice c) 5]) (k - 1)) as [[x|] b] eqn:Ea.
    + injection R as _ R. subst x. unfold answer in Ea. exact (Hd0 _ _ (f_equal fst Ea)).
    + destruct R as [[_ R]|(_ & _ & R)]; [discriminate R|]. destruct R as [(_ & all & _ & Q)|(_ & Q)]; discriminate Q.
Qed.
Lemma exec_no_err E d c com h h' e : env_ok E -> is_any_ssc d = true -> get_base_com_id d = Ok com -> exec E d c 1 h = (h', Err e) -> False.
Proof.
  intros HE Hs Hc H. destruct (exec_cases E d c com h h' _ HE Hs Hc H) as (k & t & _ & _ & [(o & x & Q)|[Q|(resp & b & Q & _)]]); discriminate Q.
Qed.

(** What the drive received in a stretch of history by protocol 1. *)
Definition never_ended (t : hist) : Prop := forall dma com b tmo, In (EvSec true dma 1 com b tmo) t -> ~ ends_session b /\ ~ reverts b.
Lemma sent_in t : forall snd dma proto com b tmo, In (EvSec snd dma proto com b tmo) t -> snd = true -> In b (sends t).
Proof.
  induction t as [|e t IH]; intros snd dma proto com b tmo I ->; [destruct I|]. destruct I as [->|I].
  - left. reflexivity.
  - destruct e as [| |[] ? ? ? ? ?]; cbn [sends]; try (right; eapply IH; eauto; fail); eapply IH; eauto.
Qed.
Lemma never_ended_one t p : sends t = [p] -> mild p -> never_ended t.
Proof. intros St M dma com b tmo I. apply sent_in in I; [|reflexivity]. rewrite St in I. destruct I as [<-|[]]. exact M. Qed.
Lemma never_ended_app a b : never_ended a -> never_ended b -> never_ended (a ++ b).
Proof. intros A B dma com x tmo I. apply in_app_or in I as [I|I]; eauto. Qed.
Lemma never_ended_nil : never_ended [].
Proof. intros ? ? ? ? []. Qed.

(** One call *)
Lemma step_busy E d busy com ss h c ss' h' r : env_ok E -> is_any_ssc d = true -> get_base_com_id d = Ok com -> com < 2 ^ 16 -> one_session E d busy ->
  Forall some_numbers ss -> library_call c -> busy h -> tstep E d ss h c = (ss', h', r) ->
  busy h' /\ (exists t, h' = h ++ t /\ never_ended t) /\ (needs_session c -> r <> Ok tt) /\ Forall some_numbers ss'.
Proof.
  intros HE Hs Hc Hc16 O Hss L B H.
  assert (K0 : busy h /\ exists t, h = h ++ t /\ never_ended t) by (split; [exact B|exists []; rewrite app_nil_r; split; [reflexivity|apply never_ended_nil]]).
  destruct c as [|i o|i table a b| |pw isPsid isAdm|t]; cbn [tstep library_call needs_session] in *.
  - injection H as <- <- <-. destruct K0 as [K1 K2]. repeat split; auto. apply Forall_app. split; [exact Hss|]. constructor; [exact new_some|constructor].
  - destruct (nth_error ss i) as [s|] eqn:Ei.
    2: { injection H as <- <- <-. destruct K0 as [K1 K2]. repeat split; auto. discriminate. }
    pose proof (Forall_nth _ _ _ _ Hss Ei) as Hn. destruct (sstep E d (s, h) o) as [[s' h2] r2] eqn:Es. injection H as <- <- <-.
    destruct o as [sp ch a|au ch|x|b| |ms|]; cbn [sstep] in Es.
    + destruct L as (Wsp & Lsp & Wch & Wa).
      destruct (start_busy E d busy com s sp ch a h s' h2 r2 HE Hs Hc Hc16 O Hn Wsp Lsp Wch Wa B Es) as (B' & (t & p & Ht & St & M) & N1).
      split; [exact B'|]. split; [exists t; split; [exact Ht|]; eapply never_ended_one; eauto|]. split; [exact N1|]. apply Forall_replace; [exact Hss|].
      exact (start_some_numbers E d s sp ch a h s' h2 r2 HE Hs Hn Es).
    + destruct L as (Wau & Lau & Wch). destruct (authenticate E d s au ch h) as [h3 r3] eqn:Ea. injection Es as <- <- <-.
      destruct Hn as (hv & tv & Hn). pose proof (auth_framed E d s ch au hv tv com HE Hs Hn Hc16 Wch Wau Lau) as F.
      destruct (authenticate_history E d s au ch h h3 r3 Ea) as (x & X).
      assert (M : mild (cmd_slice (stamp s com (authenticate_command E d s au ch)))) by (rewrite F; apply mild_authenticate).
      destruct (send_busy E d busy s _ com h h3 x HE Hs Hc O B M X) as [B' (t & Ht & St)].
      split; [exact B'|]. split; [exists t; split; [exact Ht|]; eapply never_ended_one; eauto|]. split; [intros []|]. apply Forall_replace; [exact Hss|exists hv, tv; exact Hn].
    + contradiction.
    + injection Es as <- <- <-. destruct K0 as [K1 K2]. repeat split; auto; try contradiction. apply Forall_replace; [exact Hss|]. now apply set_no_hash_some.
    + injection Es as <- <- <-. destruct K0 as [K1 K2]. repeat split; auto; try contradiction. apply Forall_replace; [exact Hss|exact Hn].
    + injection Es as <- <- <-. destruct K0 as [K1 K2]. repeat split; auto; try contradiction. apply Forall_replace; [exact Hss|exact Hn].
    + destruct K0 as [K1 K2]. unfold session_close in Es. destruct (s_autoclose s && s_opened s); injection Es as <- <- <-; repeat split; auto; try contradiction;
        apply Forall_replace; assumption.
  - destruct (nth_error ss i) as [s|] eqn:Ei.
    2: { injection H as <- <- <-. destruct K0 as [K1 K2]. repeat split; auto. }
    destruct (Forall_nth _ _ _ _ Hss Ei) as (hv & tv & Hn). destruct L as ((u & -> & Wu & Lu) & La & Lb).
    destruct (device_get_table E d d s (uid8 u) a b h) as [h3 r3] eqn:Eg. injection H as <- <- <-.
    assert (X : device_get_table E d d s (uid8 u) a b h = send_command E d s (get_table_command (uid8 u) a b) h)
      by (unfold device_get_table; destruct (opal_kind d Hs) as [-> | ->]; reflexivity).
    rewrite X in Eg. assert (Wt : wf (uid8 u)) by (apply wf_cons; split; [reflexivity|exact Wu]).
    assert (Lt : blen (uid8 u) <= 50000) by (unfold blen, uid8; cbn [List.length]; rewrite Lu; vm_compute; discriminate).
    pose proof (get_framed s hv tv com (uid8 u) a b Hn Hc16 Wt Lt La Lb) as F.
    assert (M : mild (cmd_slice (stamp s com (get_table_command (uid8 u) a b)))) by (rewrite F; now apply mild_get).
    destruct (send_busy E d busy s _ com h h3 r3 HE Hs Hc O B M Eg) as [B' (t & Ht & St)].
    split; [exact B'|]. split; [exists t; split; [exact Ht|]; eapply never_ended_one; eauto|]. split; [intros []|exact Hss].
  - destruct (get_default_password E d h) as [h2 r2] eqn:Ep. injection H as <- <- <-.
    destruct (c31 E d com h h2 r2 HE Hs Hc Hc16 Ep) as (s1 & h1 & r1 & E1 & _ & C1 & C2 & C3 & _).
    destruct (start_busy E d busy com new_session uid_AdminSP [] (AUid (repeat 255 8)) h s1 h1 r1 HE Hs Hc Hc16 O new_some admin_wf eq_refl wf_nil hexff_ok B E1)
      as (B' & (t & p & Ht & St & M) & N1). specialize (N1 eq_refl).
    assert (Q : h2 = h1 /\ result_of r2 <> Ok tt).
    { destruct r1 as [[]|e| |]; [contradiction| | |]; [destruct (C1 e eq_refl) as [-> ->]|destruct (C2 eq_refl) as [-> ->]|destruct (C3 eq_refl) as [-> ->]]; split; reflexivity || discriminate. }
    destruct Q as [-> Q]. repeat split; auto. exists t. split; [exact Ht|]. eapply never_ended_one; eauto.
  - destruct (revert_tper E d pw isPsid isAdm h) as [h2 r2] eqn:Er. injection H as <- <- <-.
    destruct (C29_revert_only_after_start E d com pw isPsid isAdm h h2 r2 HE Hs Hc Hc16 L Er) as (s1 & h1 & r1 & E1 & _ & C1 & _).
    destruct (start_busy E d busy com _ uid_AdminSP pw (AUid (if isPsid then uid_PSID else uid_SID)) h s1 h1 r1 HE Hs Hc Hc16 O
                (set_no_hash_some new_session isPsid new_some) admin_wf eq_refl L (psid_ok isPsid) B E1) as (B' & (t & p & Ht & St & M) & N1). specialize (N1 eq_refl).
    destruct (C1 N1) as [-> ->]. repeat split; auto. exists t. split; [exact Ht|]. eapply never_ended_one; eauto.
  - injection H as <- <- <-. destruct O as (_ & _ & O3). split; [now apply O3|]. split; [|split; [intros []|exact Hss]].
    exists t. split; [reflexivity|]. intros dma com0 b tmo I. exfalso. exact (elsewhere_sends t L _ _ _ _ I).
Qed.

(** While a session is open: every later program of library calls leaves it open, sends nothing that could end it, and none of its calls that
    need a session succeeds - Close included among the calls. *)
Theorem C178_no_second_session : forall E d busy com prog ss h ss' h' rs, env_ok E -> is_any_ssc d = true -> get_base_com_id d = Ok com -> com < 2 ^ 16 ->
  one_session E d busy -> Forall (fun s => exists hv tv, numbers s hv tv) ss -> Forall library_call prog ->
  busy h -> trun E d ss h prog = (ss', h', rs) ->
  busy h' /\ (exists t, h' = h ++ t /\ forall dma c b tmo, In (EvSec true dma 1 c b tmo) t -> ~ ends_session b /\ ~ reverts b)
  /\ Forall2 (fun c r => needs_session c -> r <> Ok tt) prog rs.
Proof.
  intros E d busy com prog ss h ss' h' rs HE Hs Hc Hc16 O Hss L B H. revert ss h ss' h' rs Hss L B H.
  induction prog as [|c prog IH]; intros ss h ss' h' rs Hss L B H; cbn [trun] in H.
  - injection H as <- <- <-. split; [exact B|]. split; [exists []; split; [now rewrite app_nil_r|intros ? ? ? ? []]|constructor].
  - destruct (tstep E d ss h c) as [[ss1 h1] r] eqn:E1. destruct (trun E d ss1 h1 prog) as [[ss2 h2] rs2] eqn:E2. injection H as <- <- <-.
    inversion L as [|? ? Lc Lp]; subst.
    destruct (step_busy E d busy com ss h c ss1 h1 r HE Hs Hc Hc16 O Hss Lc B E1) as (B1 & (t1 & -> & T1) & N1 & S1).
    destruct (IH ss1 _ ss2 h2 rs2 S1 Lp B1 E2) as (B2 & (t2 & -> & T2) & F2).
    split; [exact B2|]. split; [|constructor; assumption]. exists (t1 ++ t2). rewrite app_assoc. split; [reflexivity|]. exact (never_ended_app t1 t2 T1 T2).
Qed.
Print Assumptions C178_no_second_session.

(** Start opens a session when it succeeds, ... *)
Theorem C178_start_opens : forall E d busy com s ch a h s' h', env_ok E -> is_any_ssc d = true -> get_base_com_id d = Ok com -> com < 2 ^ 16 ->
  one_session E d busy -> (exists hv tv, numbers s hv tv) -> wf ch ->
  match a with AUid u => wf u /\ blen u <= 8 | ABuf b => wf b /\ blen b <= 50000 | ANil => True end ->
  session_start E d s uid_AdminSP ch a h = (s', h', Ok tt) -> ~ busy h /\ busy h'.
Proof. intros. eapply start_opens; eassumption. Qed.
Print Assumptions C178_start_opens.

(** ... GetDefaultPassword leaves one open whenever it got as far as asking for the PIN, in particular when it succeeds, ... *)
Theorem C178_password_leaves_session : forall E d busy com h h' r, env_ok E -> is_any_ssc d = true -> get_base_com_id d = Ok com -> com < 2 ^ 16 ->
  one_session E d busy -> get_default_password E d h = (h', r) ->
  (exists t hv tv, h' = h ++ t /\ In (frame hv tv com (get_payload (uid8 uid_C_PIN_MSID) 3 3)) (sends t)) \/ (exists text, r = Ok text) -> busy h'.
Proof.
  intros E d busy com h h' r HE Hs Hc Hc16 O H Got.
  destruct (c31 E d com h h' r HE Hs Hc Hc16 H) as (s1 & h1 & r1 & E1 & (t1 & T1 & St1) & C1 & C2 & C3 & C4).
  assert (Q : r1 = Ok tt).
  { destruct Got as [(t & hv & tv & Ht & I)|(text & ->)].
    - assert (X : h' = h1 -> False).
      { intros ->. rewrite T1 in Ht. apply app_inv_head in Ht. subst t. rewrite St1 in I. destruct I as [I|[]].
        destruct (start_starts 0 0 com None []) as (more & I1). destruct (frame_invokes hv tv com uid_C_PIN_MSID mth_Get
          ([0xF0; 0xF2; 3] ++ encode (number_atom 3) ++ [0xF3; 0xF2; 4] ++ encode (number_atom 3) ++ [0xF3; 0xF1]) eq_refl eq_refl) as (more2 & I2).
        unfold get_payload in I. rewrite <- I in I2. destruct (invokes_unique _ _ _ _ _ _ _ I1 I2) as (Eq & _). discriminate Eq. }
      destruct r1 as [[]|e| |]; [reflexivity| | |]; exfalso; apply X; [apply (C1 e eq_refl)|apply (C2 eq_refl)|apply (C3 eq_refl)].
    - destruct r1 as [[]|e| |]; [reflexivity| | |]; [destruct (C1 e eq_refl) as [_ Y]|destruct (C2 eq_refl) as [_ Y]|destruct (C3 eq_refl) as [_ Y]]; discriminate Y. }
  subst r1. destruct (start_opens E d busy com new_session [] (AUid (repeat 255 8)) h s1 h1 HE Hs Hc Hc16 O new_some wf_nil hexff_ok E1) as [_ B1].
  assert (Hd : get_default_password E d h = opal_get_default_password E d h) by (unfold get_default_password; destruct (opal_kind d Hs) as [-> | ->]; reflexivity).
  rewrite Hd in H. unfold opal_get_default_password in H. change UID_HEXFF with (repeat 255 8) in H. change ADMINSP_UID with uid_AdminSP in H. rewrite E1 in H.
  destruct (opal_get_table E d s1 (u8 BYTESTRING8 :: C_PIN_MSID) CREDENTIAL_PIN CREDENTIAL_PIN h1) as [h2 r2] eqn:Eg.
  assert (h' = h2) as ->. { destruct r2 as [[[resp|] [e|]]|e| |]; cbn [finish_password] in H; injection H as <- _; reflexivity. }
  destruct (start_some_numbers E d new_session uid_AdminSP [] (AUid (repeat 255 8)) h s1 h1 (Ok tt) HE Hs new_some E1) as (hv & tv & Hn).
  unfold opal_get_table in Eg. change (u8 BYTESTRING8 :: C_PIN_MSID) with (uid8 uid_C_PIN_MSID) in Eg. change CREDENTIAL_PIN with 3 in Eg.
  assert (Wt : wf (uid8 uid_C_PIN_MSID)) by (repeat (apply wf_cons; split; [reflexivity|]); apply wf_nil).
  assert (F : cmd_slice (stamp s1 com (get_table_command (uid8 uid_C_PIN_MSID) 3 3)) = frame hv tv com (get_payload (uid8 uid_C_PIN_MSID) 3 3))
    by (apply get_framed; try assumption; try reflexivity; vm_compute; discriminate).
  assert (M : mild (cmd_slice (stamp s1 com (get_table_command (uid8 uid_C_PIN_MSID) 3 3)))) by (rewrite F; now apply mild_get).
  exact (proj1 (send_busy E d busy s1 _ com h1 h2 r2 HE Hs Hc O B1 M Eg)).
Qed.
Print Assumptions C178_password_leaves_session.

(** ... and so does a RevertTPer that failed with a method status after its Revert was sent (drivers return no TcgError of their own). *)
Theorem C178_refused_revert_leaves_session : forall E d busy com pw isPsid isAdm h h' v, env_ok E -> is_any_ssc d = true -> get_base_com_id d = Ok com -> com < 2 ^ 16 ->
  one_session E d busy -> (forall g n, fst (e_sec E g) <> Some (ETcg n)) -> wf pw -> revert_tper E d pw isPsid isAdm h = (h', Err (ETcg v)) ->
  (exists t p, h' = h ++ t /\ In p (sends t) /\ reverts p) -> busy h'.
Proof.
  intros E d busy com pw isPsid isAdm h h' v HE Hs Hc Hc16 O Hd0 Wp H (t & p & Ht & Ip & Rp).
  destruct (C29_revert_only_after_start E d com pw isPsid isAdm h h' _ HE Hs Hc Hc16 Wp H) as (s1 & h1 & r1 & E1 & (t1 & T1 & St1) & C1 & C2). cbv zeta in E1.
  assert (D : r1 = Ok tt \/ r1 <> Ok tt) by (destruct r1 as [[]| | |]; [left; reflexivity|right; discriminate..]). destruct D as [D|D].
  2: { exfalso. destruct (C1 D) as [-> _]. rewrite T1 in Ht. apply app_inv_head in Ht. subst t. rewrite St1 in Ip. destruct Ip as [<-|[]].
       apply (proj2 (mild_start 0 0 com uid_AdminSP _ _ eq_refl) Rp). }
  destruct (C2 D) as (hv & tv & t2 & c & _ & -> & St2 & _ & _). subst r1.
  destruct (start_opens E d busy com _ pw (AUid (if isPsid then uid_PSID else uid_SID)) h s1 h1 HE Hs Hc Hc16 O (set_no_hash_some new_session isPsid new_some) Wp (psid_ok isPsid) E1) as [_ B1].
  assert (Hd : revert_tper E d pw isPsid isAdm h = opal_revert_tper E d pw isPsid h) by (unfold revert_tper; destruct (opal_kind d Hs) as [-> | ->]; reflexivity).
  rewrite Hd in H. unfold opal_revert_tper in H. change ADMINSP_UID with uid_AdminSP in H.
  replace (if isPsid then set_no_hash_password new_session true else new_session) with (set_no_hash_password new_session isPsid) in H by (destruct isPsid; reflexivity).
  replace (if isPsid then PSID_UID else SID_UID) with (if isPsid then uid_PSID else uid_SID) in H by (destruct isPsid; reflexivity). rewrite E1 in H.
  destruct (send_command E d s1 revert_command h1) as [h2 r2] eqn:Es. injection H as Eh Er. subst h2.
  destruct (send_exec E d s1 revert_command com h1 _ r2 Hc Es) as (x & X). destruct O as (_ & O2 & _).
  destruct (O2 _ _ _ _ _ B1 X St2) as [K|[K|[_ K]]]; [exact K| |].
  - exfalso. destruct (revert_reverts hv tv com) as (o & m & args & I & _). exact (invokes_not_end _ _ _ _ I K).
  - exfalso. apply K. pose proof Es as Es2. rewrite (send_unfold E d s1 revert_command com h1 Hc), X in Es.
    destruct x as [[o [e|]]|e| |].
    + exfalso. destruct o as [resp|]; injection Es as <-; cbn [only_err] in Er; injection Er as ->; exact (exec_error E d _ com h1 _ _ v HE Hs Hc Hd0 X).
    + destruct o as [resp|]; [|injection Es as <-; discriminate Er]. exists resp. split; [reflexivity|]. intros Acc.
      assert (Y : send_command E d s1 revert_command h1 = (h1 ++ t2, Ok (Some resp, None))).
      { apply (C22_success_means_accepted E d s1 revert_command com h1 (h1 ++ t2) (Some resp) HE Hc). exists resp. auto. }
      rewrite Y in Es2. injection Es2 as <-. discriminate Er.
    + exfalso. exact (exec_no_err E d _ com h1 _ e HE Hs Hc X).
    + injection Es as <-. discriminate Er.
    + injection Es as <-. discriminate Er.
Qed.
Print Assumptions C178_refused_revert_leaves_session.

(** In particular: after a successful GetDefaultPassword every RevertTPer fails, PSID or not, with no Revert sent, however many sessions are closed in between. *)
Theorem C178_password_then_revert : forall E d busy com h h1 text prog ss ss2 h2 rs pw isPsid isAdm h3 r, env_ok E -> is_any_ssc d = true -> get_base_com_id d = Ok com -> com < 2 ^ 16 ->
  one_session E d busy -> Forall (fun s => exists hv tv, numbers s hv tv) ss -> Forall library_call prog -> wf pw ->
  get_default_password E d h = (h1, Ok text) -> trun E d ss h1 prog = (ss2, h2, rs) -> revert_tper E d pw isPsid isAdm h2 = (h3, r) ->
  r <> Ok tt /\ exists t, h3 = h1 ++ t /\ forall dma c b tmo, In (EvSec true dma 1 c b tmo) t -> ~ reverts b.
Proof.
  intros E d busy com h h1 text prog ss ss2 h2 rs pw isPsid isAdm h3 r HE Hs Hc Hc16 O Hss L Wp H1 H2 H3.
  pose proof (C178_password_leaves_session E d busy com h h1 _ HE Hs Hc Hc16 O H1 (or_intror (ex_intro _ text eq_refl))) as B1.
  assert (A : forall p ss h ss2 h2 rs, trun E d ss h p = (ss2, h2, rs) -> trun E d ss h (p ++ [TRevert pw isPsid isAdm])
     = let (h3, r) := revert_tper E d pw isPsid isAdm h2 in (ss2, h3, rs ++ [r])).
  { clear. induction p as [|c p IH]; intros ss h ss2 h2 rs H; cbn [trun app] in *.
    - injection H as <- <- <-. cbn [tstep]. destruct (revert_tper E d pw isPsid isAdm h). reflexivity.
    - destruct (tstep E d ss h c) as [[ss1 h1] r1]. destruct (trun E d ss1 h1 p) as [[ss3 h3] rs3] eqn:E3. injection H as <- <- <-.
      rewrite (IH _ _ _ _ _ E3). destruct (revert_tper E d pw isPsid isAdm h3). reflexivity. }
  specialize (A prog ss h1 ss2 h2 rs H2). rewrite H3 in A.
  assert (L2 : Forall library_call (prog ++ [TRevert pw isPsid isAdm])) by (apply Forall_app; split; [exact L|constructor; [exact Wp|constructor]]).
  destruct (C178_no_second_session E d busy com _ ss h1 _ _ _ HE Hs Hc Hc16 O Hss L2 B1 A) as (_ & (t & Ht & T) & F). split.
  - apply Forall2_app_inv_l in F as (l1 & l2 & F1 & F2 & Eq). inversion F2 as [|? ? ? ? X Y]; subst. inversion Y; subst.
    apply app_inj_tail in Eq as [_ ->]. apply X. exact I.
  - exists t. split; [exact Ht|]. intros dma c b tmo Ib. apply (T dma c b tmo Ib).
Qed.
Print Assumptions C178_password_then_revert.
