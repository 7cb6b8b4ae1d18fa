(** GetDefaultPassword over any transport: what is sent and what is read. *)
From Verif Require Import Base M_TcgToken M_TcgCommand M_TcgDevice M_TcgSession M_DriveHandle M_TcgOnDrive Spec_Tcg Spec_TcgCommand Spec_TcgClient Spec_TcgSession P_TcgDevice P_TcgSession
  Spec_TcgOnDrive P_TcgOnDrive Prop_TcgOnDrive.

Definition pin_start (com : N) : bytes := frame 0 0 com (start_payload uid_AdminSP None []).
Definition pin_get (com hsn tsn : N) : bytes := frame hsn tsn com (get_payload (uid8 uid_C_PIN_MSID) 3 3).

Lemma password_cases E d com t r : env_ok E -> is_any_ssc d = true -> get_base_com_id d = Ok com -> com < 2 ^ 16 ->
  get_default_password E d [] = (t, r) ->
  Forall (fun x => x_protocol x = 1 /\ x_comid x = com /\ (x_out x = true \/ x_data x = zeros 2048)) (commands t)
  /\ Forall (fun b => List.length b = 512%nat /\ wf b) (sends t)
  /\ (sends t = [pin_start com] /\ (forall text, r <> Ok text) \/ exists hsn tsn, sends t = [pin_start com; pin_get com hsn tsn] /\
      (forall text, r = Ok text -> exists resp tok t2, accepted resp /\ nth_error (r_tokens resp) 4 = Some tok /\ get_string tok = Ok text
         /\ t = t2 ++ [EvSec false false 1 com (zeros 2048) 5] /\ fst (e_sec E t) = None /\ r_buf resp = received (snd (e_sec E t)))).
Proof.
  intros HE Hs Hc Hc16 H.
  destruct (default_shaped E d com [] t r HE Hs Hc H) as (t' & Et & Sh). cbn [app] in Et. subst t'.
  destruct (c31 E d com [] t r HE Hs Hc Hc16 H) as (s1 & h1 & r1 & St & (t1 & E1 & S1) & N1 & N2 & N3 & N4).
  cbn [app] in E1. subst h1. fold (pin_start com) in S1.
  assert (Wst : List.length (pin_start com) = 512%nat /\ wf (pin_start com)) by (split; [apply frame_length|apply frame_wf; wf_lit]).
  assert (Cases : sends t = [pin_start com] /\ (forall text, r <> Ok text) \/ exists hsn tsn, sends t = [pin_start com; pin_get com hsn tsn] /\
    (forall text, r = Ok text -> exists resp tok t2, accepted resp /\ nth_error (r_tokens resp) 4 = Some tok /\ get_string tok = Ok text
       /\ t = t2 ++ [EvSec false false 1 com (zeros 2048) 5] /\ fst (e_sec E t) = None /\ r_buf resp = received (snd (e_sec E t)))).
  { destruct r1 as [[]|e| |].
    - right. destruct (N4 eq_refl) as (hv & tv & t2 & c & Hn & Et & S2 & Hcs & R). exists hv, tv. split; [rewrite Et, sends_app, S1, S2; reflexivity|].
      intros text Hr. apply R in Hr as (resp & tok & Ex & Ac & T4 & Gs). destruct (exec_answer E d c com t1 t resp HE Hs Hc Ex) as (tt' & A1 & A2 & A3).
      exists resp, tok, tt'. auto 8.
    - left. destruct (N1 e eq_refl) as [-> ->]. split; [exact S1|discriminate].
    - left. destruct (N2 eq_refl) as [-> ->]. split; [exact S1|discriminate].
    - left. destruct (N3 eq_refl) as [-> ->]. split; [exact S1|discriminate]. }
  split; [exact Sh|]. split; [|exact Cases].
  destruct Cases as [[-> _]|(hs & ts & -> & _)]; (apply Forall_cons; [exact Wst|]); [apply Forall_nil|].
  apply Forall_cons; [|apply Forall_nil]. split; [apply frame_length|apply frame_wf, get_payload_pin_wf].
Qed.
