(** Lemmas for C178. *)
From Verif Require Import Base Spec_Tcg M_TcgToken M_Buffer M_TcgCommand M_TcgDevice M_TcgSession Spec_TcgCommand Spec_TcgClient Spec_TcgSession
  P_TcgToken P_TcgDevice P_TcgSession P_TcgTrust Prop_TcgSession Prop_TcgTrust M_TcgTables M_TcgProgram Spec_OneSession P_Challenge.

Lemma frame_prefix hv tv com pre rest : (List.length pre <= 456)%nat ->
  exists hd more, List.length hd = 56%nat /\ frame hv tv com (pre ++ rest) = hd ++ pre ++ more.
Proof.
  intros L. unfold frame. set (hd := frame_header hv tv com (pre ++ rest)). assert (Lh : List.length hd = 56%nat) by apply frame_header_length.
  exists hd. eexists. split; [exact Lh|]. rewrite <- !app_assoc. rewrite (app_assoc hd pre). rewrite firstn_app.
  rewrite firstn_all2 by (rewrite app_length; lia). rewrite <- app_assoc. reflexivity.
Qed.
Lemma frame_invokes hv tv com o m args : List.length o = 8%nat -> List.length m = 8%nat ->
  exists more, invokes (frame hv tv com (method_call (uid8 o) m args)) o m more.
Proof.
  intros Lo Lm. unfold method_call, uid8.
  replace ([0xF8] ++ (0xA8 :: o) ++ (0xA8 :: m) ++ [0xF0] ++ args ++ [0xF1] ++ status_trailer)
    with (([0xF8; 0xA8] ++ o ++ [0xA8] ++ m ++ [0xF0]) ++ args ++ [0xF1] ++ status_trailer) by (cbn [app]; rewrite <- !app_assoc; cbn [app]; rewrite <- !app_assoc; reflexivity).
  destruct (frame_prefix hv tv com ([0xF8; 0xA8] ++ o ++ [0xA8] ++ m ++ [0xF0]) (args ++ [0xF1] ++ status_trailer)) as (hd & more & Lh & E).
  { cbn [app List.length]. rewrite app_length. cbn [List.length]. rewrite app_length. cbn [List.length]. lia. }
  exists more, hd. rewrite E. repeat split; try assumption. cbn [app]. rewrite <- !app_assoc. cbn [app]. rewrite <- !app_assoc. reflexivity.
Qed.
Lemma invokes_unique p o o' m m' a a' : invokes p o m a -> invokes p o' m' a' -> o = o' /\ m = m' /\ a = a'.
Proof.
  intros (hd & Lh & Lo & Lm & ->) (hd' & Lh' & Lo' & Lm' & E).
  apply app_same_length in E as [_ E]; [|congruence]. cbn [app] in E. injection E as E.
  apply app_same_length in E as [-> E]; [|congruence]. injection E as E.
  apply app_same_length in E as [-> E]; [|congruence]. injection E as E. auto.
Qed.
Lemma invokes_not_end p o m a : invokes p o m a -> ~ ends_session p.
Proof.
  intros (hd & Lh & Lo & Lm & ->) (hd' & rest & Lh' & E). apply app_same_length in E as [_ E]; [|congruence]. discriminate E.
Qed.
Lemma invokes_not_revert p o m a : invokes p o m a -> m <> [0; 0; 0; 6; 0; 0; 2; 2] -> m <> [0; 0; 0; 6; 0; 0; 0; 0x11] -> ~ reverts p.
Proof. intros I N1 N2 (o' & m' & a' & I' & [-> | ->]); destruct (invokes_unique _ _ _ _ _ _ _ I I') as (_ & ? & _); contradiction. Qed.

Definition mild (p : bytes) : Prop := ~ ends_session p /\ ~ reverts p.
Lemma mild_start hv tv com sp cr auth : List.length sp = 8%nat -> mild (frame hv tv com (start_payload sp cr auth)).
Proof.
  intros L. destruct (frame_invokes hv tv com uid_SMUID mth_StartSession ([0x81; 105] ++ uid8 sp ++ [1] ++
     match cr with None => [] | Some c => [0xF2; 0] ++ credential_atom c ++ [0xF3; 0xF2; 3] ++ auth ++ [0xF3] end) eq_refl eq_refl) as (more & I).
  split; [exact (invokes_not_end _ _ _ _ I)|apply (invokes_not_revert _ _ _ _ I); discriminate].
Qed.
Lemma mild_authenticate hv tv com auth cr : mild (frame hv tv com (authenticate_payload auth cr)).
Proof.
  destruct (frame_invokes hv tv com uid_ThisSP mth_Authenticate (auth ++ match cr with None => [] | Some c => [0xF2; 0] ++ credential_atom c ++ [0xF3] end) eq_refl eq_refl) as (more & I).
  split; [exact (invokes_not_end _ _ _ _ I)|apply (invokes_not_revert _ _ _ _ I); discriminate].
Qed.
Lemma mild_get hv tv com u a b : List.length u = 8%nat -> mild (frame hv tv com (get_payload (uid8 u) a b)).
Proof.
  intros L. unfold get_payload. match goal with |- mild (frame _ _ _ (method_call _ _ ?args)) => destruct (frame_invokes hv tv com u mth_Get args L eq_refl) as (more & I) end.
  split; [exact (invokes_not_end _ _ _ _ I)|apply (invokes_not_revert _ _ _ _ I); discriminate].
Qed.
Lemma start_starts hv tv com cr auth : starts (frame hv tv com (start_payload uid_AdminSP cr auth)).
Proof.
  unfold start_payload, method_call, uid8, uid_SMUID, mth_StartSession, uid_AdminSP.
  match goal with |- starts (frame _ _ _ ([0xF8] ++ ?a ++ ?b ++ [0xF0] ++ ([129; 105] ++ ?c ++ [1] ++ ?x) ++ ?y)) =>
    destruct (frame_prefix hv tv com ([0xF8] ++ a ++ b ++ [0xF0] ++ [129; 105] ++ c ++ [1]) (x ++ y)) as (hd & more & Lh & E) end.
  { apply Nat.leb_le. reflexivity. }
  cbn [app] in E |- *. rewrite E. exists more, hd. repeat split. exact Lh.
Qed.
Lemma revert_reverts hv tv com : reverts (frame hv tv com revert_payload).
Proof.
  destruct (frame_invokes hv tv com uid_AdminSP mth_Revert [] eq_refl eq_refl) as (more & I). exists uid_AdminSP, mth_Revert, more. split; [exact I|left; reflexivity].
Qed.
Lemma starts_mild p : starts p -> mild p.
Proof. intros (more & I). split; [exact (invokes_not_end _ _ _ _ I)|apply (invokes_not_revert _ _ _ _ I); discriminate]. Qed.

(** One command *)
Lemma send_exec E d s c com h h' r : get_base_com_id d = Ok com -> send_command E d s c h = (h', r) -> exists x, exec E d (stamp s com c) 1 h = (h', x).
Proof.
  intros Hc H. rewrite (send_unfold E d s c com h Hc) in H. destruct (exec E d (stamp s com c) 1 h) as [h2 x]. exists x.
  assert (h2 = h'); [|subst; reflexivity]. destruct x as [[[?|] [?|]]|?| |]; injection H as <- _; reflexivity.
Qed.
Lemma send_busy E d busy s c com h h' r : env_ok E -> is_any_ssc d = true -> get_base_com_id d = Ok com -> one_session E d busy -> busy h ->
  mild (cmd_slice (stamp s com c)) -> send_command E d s c h = (h', r) ->
  busy h' /\ exists t, h' = h ++ t /\ sends t = [cmd_slice (stamp s com c)].
Proof.
  intros HE Hs Hc (_ & K & _) B [M1 M2] H. destruct (send_exec E d s c com h h' r Hc H) as (x & X).
  destruct (send_sends E d s c com h h' r HE Hs Hc H) as (t & -> & Ht). split; [|eauto].
  destruct (K _ _ _ _ _ B X Ht) as [K'|[K'|[K' _]]]; [exact K'|contradiction|contradiction].
Qed.

Definition some_numbers (s : session) : Prop := exists hv tv, numbers s hv tv.
Lemma authority_ok a : match a with AUid u => wf u /\ blen u <= 8 | ABuf b => wf b /\ blen b <= 50000 | ANil => True end ->
  wf (authority_bytes a) /\ blen (authority_bytes a) <= 50000.
Proof.
  destruct a as [u|b|]; cbn [authority_bytes].
  - intros [W L]. split; [apply wf_cons; split; [reflexivity|exact W]|]. unfold blen in *. cbn [List.length]. lia.
  - auto.
  - intros _. split; [apply wf_nil|vm_compute; discriminate].
Qed.

Lemma start_history E d s sp ch a h s' h' r : is_any_ssc d = true -> session_start E d s sp ch a h = (s', h', r) ->
  exists x, send_command E d s (start_command E d s sp ch (authority_bytes a)) h = (h', x).
Proof.
  intros Hs H. rewrite start_unfold in H by exact Hs.
  destruct (send_command E d s (start_command E d s sp ch (authority_bytes a)) h) as [h2 x]. exists x. f_equal.
  destruct x as [[[resp|] [e|]]|e| |]; try (injection H as _ <- _; reflexivity).
  destruct (get_token resp 4) as [[t4|]|e| |]; destruct (get_token resp 5) as [[t5|]|e'| |]; try (injection H as _ <- _; reflexivity).
  destruct (get_uint32 t4) as [v|e| |]; try (injection H as _ <- _; reflexivity).
  destruct (get_uint32 t5) as [v'|e| |]; injection H as _ <- _; reflexivity.
Qed.
Lemma start_some_numbers E d s sp ch a h s' h' r : env_ok E -> is_any_ssc d = true -> some_numbers s -> session_start E d s sp ch a h = (s', h', r) -> some_numbers s'.
Proof.
  intros HE Hs (hv & tv & N1 & N2) H. rewrite start_unfold in H by exact Hs. assert (S0 : some_numbers s) by (exists hv, tv; split; assumption).
  destruct (send_command E d s (start_command E d s sp ch (authority_bytes a)) h) as [h2 x].
  destruct x as [[[resp|] [e|]]|e| |]; try (injection H as <- _ _; exact S0).
  destruct (get_token resp 4) as [[t4|]|e| |]; destruct (get_token resp 5) as [[t5|]|e'| |]; try (injection H as <- _ _; exact S0).
  destruct (get_uint32 t4) as [v|e| |]; try (injection H as <- _ _; exact S0).
  destruct (get_uint32 t5) as [v'|e| |]; injection H as <- _ _; [exists v, v'|exists v, tv..]; split; cbn; try reflexivity; exact N2.
Qed.

(** Start while a session is open *)
Lemma start_busy E d busy com s sp ch a h s' h' r : env_ok E -> is_any_ssc d = true -> get_base_com_id d = Ok com -> com < 2 ^ 16 -> one_session E d busy -> some_numbers s ->
  wf sp -> List.length sp = 8%nat -> wf ch -> match a with AUid u => wf u /\ blen u <= 8 | ABuf b => wf b /\ blen b <= 50000 | ANil => True end ->
  busy h -> session_start E d s sp ch a h = (s', h', r) ->
  busy h' /\ (exists t p, h' = h ++ t /\ sends t = [p] /\ mild p) /\ (sp = uid_AdminSP -> r <> Ok tt).
Proof.
  intros HE Hs Hc Hc16 O (hv & tv & Hn) Wsp Lsp Wch Wa B H. destruct (authority_ok a Wa) as [Wau Lau].
  pose proof (start_framed E d s sp ch (authority_bytes a) hv tv com HE Hs Hn Hc16 Wsp Lsp Wch Wau Lau) as F.
  destruct (start_history E d s sp ch a h s' h' r Hs H) as (x & X).
  assert (M : mild (cmd_slice (stamp s com (start_command E d s sp ch (authority_bytes a))))) by (rewrite F; now apply mild_start).
  destruct (send_busy E d busy s _ com h h' x HE Hs Hc O B M X) as [B' (t & Ht & St)].
  split; [exact B'|]. split; [exists t; eexists; split; [exact Ht|]; split; [exact St|exact M]|].
  intros -> ->. apply (start_ok E d s uid_AdminSP ch a com h s' h' HE Hs Hc) in H as (resp & _ & _ & _ & _ & Hsend & _).
  apply (C22_success_means_accepted E d s _ com h h' (Some resp) HE Hc) in Hsend as (resp' & Er & Hx & Acc). injection Er as <-.
  destruct O as (O1 & _). rewrite Ht in Hx. refine (proj1 (O1 _ _ _ _ _ Hx St _ Acc) B). rewrite F. apply start_starts.
Qed.
(** Start that succeeds opens the session. *)
Lemma start_opens E d busy com s ch a h s' h' : env_ok E -> is_any_ssc d = true -> get_base_com_id d = Ok com -> com < 2 ^ 16 -> one_session E d busy -> some_numbers s ->
  wf ch -> match a with AUid u => wf u /\ blen u <= 8 | ABuf b => wf b /\ blen b <= 50000 | ANil => True end ->
  session_start E d s uid_AdminSP ch a h = (s', h', Ok tt) -> ~ busy h /\ busy h'.
Proof.
  intros HE Hs Hc Hc16 O (hv & tv & Hn) Wch Wa H. destruct (authority_ok a Wa) as [Wau Lau].
  assert (Wsp : wf uid_AdminSP) by (repeat (apply wf_cons; split; [reflexivity|]); apply wf_nil).
  pose proof (start_framed E d s uid_AdminSP ch (authority_bytes a) hv tv com HE Hs Hn Hc16 Wsp eq_refl Wch Wau Lau) as F.
  destruct (start_history E d s _ ch a h s' h' _ Hs H) as (x & X). destruct (send_sends E d s _ com h h' x HE Hs Hc X) as (t & Ht & St).
  apply (start_ok E d s uid_AdminSP ch a com h s' h' HE Hs Hc) in H as (resp & _ & _ & _ & _ & Hsend & _).
  apply (C22_success_means_accepted E d s _ com h h' (Some resp) HE Hc) in Hsend as (resp' & Er & Hx & Acc). injection Er as <-.
  destruct O as (O1 & _). subst h'. refine (O1 _ _ _ _ _ Hx St _ Acc). rewrite F. apply start_starts.
Qed.
Lemma authenticate_history E d s auth ch h h' r : authenticate E d s auth ch h = (h', r) ->
  exists x, send_command E d s (authenticate_command E d s auth ch) h = (h', x).
Proof.
  unfold authenticate. destruct (send_command E d s (authenticate_command E d s auth ch) h) as [h2 x]. intros H. exists x. f_equal.
  destruct x as [[[resp|] [e|]]|e| |]; injection H as <- _; reflexivity.
Qed.
