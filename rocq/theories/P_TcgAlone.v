(** Lemmas for C187. *)
From Verif Require Import Base M_TcgDevice M_DriveHandle M_TcgOnDrive M_LinuxMachine Spec_Alone M_TcgSession M_TcgProgram P_TcgLocal Spec_TcgAlone.

Definition hsec (e : ev) : list hop := match e with EvSec rw dma pr c b s => [HSec rw dma pr c b s] | _ => [] end.
Definition hsecs (t : hist) : list hop := flat_map hsec t.
Lemma hsecs_app a b : hsecs (a ++ b) = hsecs a ++ hsecs b.
Proof. apply flat_map_app. Qed.
Lemma program_of_app {O} on (mw : hist -> list O) t u : forall past, program_of on mw past (t ++ u) = program_of on mw past t ++ program_of on mw (past ++ t) u.
Proof.
  induction t as [|e t IH]; intros past; [cbn [app program_of]; now rewrite app_nil_r|].
  destruct e as [|n|rw dma pr c b s]; cbn [app program_of]; rewrite IH, <- ?app_assoc; reflexivity.
Qed.
Lemma program_of_calls {O} on (mw : hist -> list O) (f : O -> list hop) t :
  (forall o, f (on o) = [o]) -> (forall h, flat_map f (mw h) = []) -> forall past, flat_map f (program_of on mw past t) = hsecs t.
Proof.
  intros F G. induction t as [|e t IH]; intros past; [reflexivity|].
  destruct e as [|n|rw dma pr c b s]; cbn [program_of hsecs flat_map hsec]; try apply IH.
  rewrite flat_map_app, G. cbn [flat_map app]. rewrite F, IH. reflexivity.
Qed.

Lemma hsec_state V p h rw dma pr c b s : hstep V p h (HSec rw dma pr c b s) =
  (fst (security_command V p h rw dma pr c b s), (p, OutErr (fst (snd (security_command V p h rw dma pr c b s))))).
Proof. cbn [hstep]. destruct (security_command V p h rw dma pr c b s) as [h1 [e bf]]. reflexivity. Qed.
Lemma replies_hsecs_last V p t rw dma pr c b s : forall h,
  replies V p h (hsecs (t ++ [EvSec rw dma pr c b s])) = replies V p h (hsecs t) ++ [reply_of V p (driver_calls V p h t) (HSec rw dma pr c b s)].
Proof.
  induction t as [|e t IH]; intros h; [reflexivity|].
  destruct e as [|n|rw' dma' pr' c' b' s']; cbn [app hsecs flat_map hsec driver_calls fold_left]; [apply IH|apply IH|].
  cbn [app replies]. rewrite hsec_state. cbn [fst snd]. f_equal. apply IH.
Qed.
Lemma replies_len V os : forall p h, List.length (replies V p h os) = List.length os.
Proof. induction os as [|o os IH]; intros p h; cbn [replies List.length]; [reflexivity|now rewrite IH]. Qed.
Lemma replies_prefix V os os' : forall p h, replies V p h os = firstn (List.length os) (replies V p h (os ++ os')).
Proof. induction os as [|o os IH]; intros p h; cbn [app replies List.length firstn]; [reflexivity|now rewrite <- IH]. Qed.
Lemma answer_of_sec V p h rw dma pr c b s : answer_of (reply_of V p h (HSec rw dma pr c b s)) = snd (security_command V p h rw dma pr c b s).
Proof. unfold reply_of. rewrite hsec_state. cbn [snd answer_of]. symmetry. apply surjective_pairing. Qed.

(** A client on a handle alone and in a program get the same answers when the replies to the whole dialogue are the same. *)
Lemma same_answers {O} (R : list O -> list reply) on mw V p h0 clock kdf heap fuel h :
  (forall a b, exists c, R (a ++ b) = R a ++ c) -> (forall t, List.length (R (program_of on mw [] t)) = List.length (hsecs t)) ->
  replies V p h0 (hsecs h) = R (program_of on mw [] h) ->
  agree (program_env R on mw clock kdf heap fuel) (e_sec (drive_env V p h0 clock kdf heap fuel)) h.
Proof.
  intros RA RL Q t u ->. cbn [program_env drive_env e_sec].
  destruct (rev t) as [|e r] eqn:Er; [reflexivity|]. destruct e as [|n|rw dma pr c b s]; try reflexivity.
  destruct (forallb typed_ev t); [|reflexivity]. apply (f_equal (@rev ev)) in Er. rewrite rev_involutive in Er. cbn [rev] in Er. set (t0 := rev r) in *. clearbody t0. subst t.
  rewrite program_of_app, hsecs_app in Q. destruct (RA (program_of on mw [] (t0 ++ [EvSec rw dma pr c b s])) (program_of on mw ([] ++ t0 ++ [EvSec rw dma pr c b s]) u)) as (z & Z).
  assert (P : replies V p h0 (hsecs (t0 ++ [EvSec rw dma pr c b s])) = R (program_of on mw [] (t0 ++ [EvSec rw dma pr c b s]))).
  { rewrite (replies_prefix V _ (hsecs u)), Q, Z, <- RL, firstn_app, Nat.sub_diag, firstn_all, firstn_O, app_nil_r. reflexivity. }
  rewrite <- P, replies_hsecs_last, last_last. apply answer_of_sec.
Qed.
Lemma same_run {O} (R : list O -> list reply) on mw V p h0 clock kdf heap fuel dev prog :
  (forall a b, exists c, R (a ++ b) = R a ++ c) -> (forall t, List.length (R (program_of on mw [] t)) = List.length (hsecs t)) ->
  let E := program_env R on mw clock kdf heap fuel in let h := snd (fst (trun E dev [] [] prog)) in
  replies V p h0 (hsecs h) = R (program_of on mw [] h) ->
  trun (drive_env V p h0 clock kdf heap fuel) dev [] [] prog = trun E dev [] [] prog.
Proof.
  intros RA RL E h Q. destruct (run_follows E (e_sec (drive_env V p h0 clock kdf heap fuel)) dev prog [] []) as [_ F].
  exact (F (same_answers R on mw V p h0 clock kdf heap fuel h RA RL Q)).
Qed.
