(** More lemmas for C154: the system handles in use, call by call. *)
From Verif Require Import Base M_Buffer M_Struc M_Layouts M_Ata M_TcgDevice M_DriveHandle M_Cdb M_SgDriver M_NvmeLinux M_Strings M_WinPass M_WinNvme M_WinInfo
  M_WinFactory M_WinEnum M_WinMachine Spec_Inspect Spec_InspectWin P_DriveHandle P_WinNvme Prop_WinNvme P_Inspect P_InspectWin Spec_WinMachine P_WinMachine.
From Coq Require Import Permutation.

(** ---- open handles along a history ---- *)
Lemma since_app X k h es hd o : open_since X k h hd o -> ~ In (XSys (WClose hd)) es -> open_since X k (h ++ es) hd o.
Proof.
  intros (h1 & e & h2 & -> & K & Y & C) N. exists h1, e, (h2 ++ es). rewrite <- app_assoc. cbn [app]. repeat split; try assumption.
  intros I. apply in_app_or in I. tauto.
Qed.
Lemma since_le X j k h hd o : (j <= k)%nat -> open_since X k h hd o -> open_since X j h hd o.
Proof. intros L (h1 & e & h2 & E & K & R). exists h1, e, h2. split; [exact E|]. split; [lia|exact R]. Qed.
Lemma since_new X k h e hd o : yields X (h ++ [e]) e hd o -> (k <= List.length h)%nat -> open_since X k (h ++ [e]) hd o.
Proof. intros H K. exists h, e, []. repeat split; [exact K|exact H|intros []]. Qed.
Lemma since_snoc X h e hd o : is_open_on X (h ++ [e]) hd o ->
  (is_open_on X h hd o /\ e <> XSys (WClose hd)) \/ yields X (h ++ [e]) e hd o.
Proof.
  intros (h1 & e0 & h2 & E & K & Y & C). destruct h2 as [|a h2] using rev_ind.
  - apply app_inj_tail in E as [-> ->]. right. exact Y.
  - clear IHh2. rewrite app_comm_cons, app_assoc in E. apply app_inj_tail in E as [-> ->]. left. split.
    + exists h1, e0, h2. repeat split; try assumption. intros I. apply C, in_or_app. auto.
    + intros ->. apply C, in_or_app. right. now left.
Qed.
Lemma yields_unique X h e hd hd' o o' : yields X h e hd o -> yields X h e hd' o' -> o = o'.
Proof. destruct e as [[]| | | | | | | | | | | | |]; cbn; try tauto; intros [_ ->] [_ ->]; reflexivity. Qed.
Lemma is_open_unique X h hd o o' : fresh_handles X -> is_open_on X h hd o -> is_open_on X h hd o' -> o = o'.
Proof.
  intros F. revert o o'. induction h as [|e h IH] using rev_ind; intros o o'.
  - intros (h1 & e & h2 & E & _). destruct h1; discriminate E.
  - intros P Q. apply since_snoc in P as [[P Pe]|P]; apply since_snoc in Q as [[Q Qe]|Q].
    + auto.
    + exfalso. exact (F _ _ _ _ _ Q P).
    + exfalso. exact (F _ _ _ _ _ P Q).
    + exact (yields_unique _ _ _ _ _ _ _ P Q).
Qed.

(** ---- accounting ---- *)
(** Handles in use: number, what it is open on, the step since which. *)
Definition entry : Type := N * (wobj * nat).
Definition owns (X : xsys) (h : xhist) (L : list entry) : Prop :=
  NoDup (map fst L) /\ forall hd o k, In (hd, (o, k)) L -> open_since X k h hd o.
(** What an action may be performed on, given the history before it. *)
Definition allowed : Type := xhist -> wobj -> nat -> Prop.
Definition touches (X : xsys) (Q : allowed) (h : xhist) (es : xhist) : Prop :=
  forall e1 e e2 hd, es = e1 ++ e :: e2 -> uses_handle e = Some hd -> exists o k, open_since X k (h ++ e1) hd o /\ Q (h ++ e1) o k.
Definition does (X : xsys) (Q : allowed) (h : xhist) (L : list entry) (h' : xhist) (L' : list entry) : Prop :=
  owns X h L -> exists es, h' = h ++ es /\ touches X Q h es /\ owns X h' L'.
Lemma touches_nil X Q h : touches X Q h [].
Proof. intros e1 ev e2 fd E. destruct e1; discriminate E. Qed.
Lemma touches_app X Q h a b : touches X Q h a -> touches X Q (h ++ a) b -> touches X Q h (a ++ b).
Proof.
  intros A B e1 ev e2 hd E Ac. symmetry in E. apply app_eq_app in E as (l & [[-> E]|[-> E]]).
  - destruct l as [|x l].
    + cbn [app] in E. subst b. rewrite app_nil_r in *. destruct (B [] ev e2 hd eq_refl Ac) as (o & k & O & H). rewrite app_nil_r in O, H. exists o, k. auto.
    + destruct (B (x :: l) ev e2 hd E Ac) as (o & k & O & H). exists o, k. rewrite <- app_assoc in O, H. auto.
  - destruct l as [|x l].
    + rewrite app_nil_r in *. cbn [app] in E. symmetry in E. destruct (B [] ev e2 hd E Ac) as (o & k & O & H). rewrite app_nil_r in O, H. exists o, k. auto.
    + cbn [app] in E. injection E as -> ->. exact (A e1 x l hd eq_refl Ac).
Qed.
Lemma touches_one X Q h e : (forall hd, uses_handle e = Some hd -> exists o k, open_since X k h hd o /\ Q h o k) -> touches X Q h [e].
Proof.
  intros H e1 ev e2 hd E A. destruct e1 as [|x e1]; [|destruct e1; discriminate E]. injection E as -> _. rewrite app_nil_r. auto.
Qed.
Lemma does_refl X Q h L : does X Q h L h L.
Proof. intros O. exists []. rewrite app_nil_r. split; [reflexivity|]. split; [apply touches_nil|exact O]. Qed.
Lemma does_trans X Q h1 h2 h3 L1 L2 L3 : does X Q h1 L1 h2 L2 -> does X Q h2 L2 h3 L3 -> does X Q h1 L1 h3 L3.
Proof.
  intros A B O. destruct (A O) as (a & -> & Ta & Oa). destruct (B Oa) as (b & -> & Tb & Ob). exists (a ++ b). rewrite app_assoc.
  split; [reflexivity|]. split; [now apply touches_app|exact Ob].
Qed.
Lemma does_weaken X (Q Q' : allowed) h L h' L' : (forall h o k, Q h o k -> Q' h o k) -> does X Q h L h' L' -> does X Q' h L h' L'.
Proof.
  intros W D O. destruct (D O) as (es & E & T & O'). exists es. split; [exact E|]. split; [|exact O'].
  intros e1 e e2 hd Ee U. destruct (T e1 e e2 hd Ee U) as (o & k & S & H). exists o, k. auto.
Qed.
(** Forgetting handles. *)
Definition sub (L' L : list entry) : Prop := exists R, Permutation L (L' ++ R).
Lemma owns_sub X h L L' : sub L' L -> owns X h L -> owns X h L'.
Proof.
  intros [R P] [D O]. split.
  - assert (D' : NoDup (map fst L' ++ map fst R)) by (rewrite <- map_app; eapply Permutation_NoDup; [apply Permutation_map; exact P|exact D]).
    clear -D'. induction (map fst L') as [|x l IH]; [constructor|]. inversion D'; subst. constructor; [|auto]. intros I. apply H1, in_or_app. now left.
  - intros hd o k I. apply O. eapply Permutation_in; [symmetry; exact P|]. apply in_or_app. now left.
Qed.
Lemma does_sub X Q h L L' : sub L' L -> does X Q h L h L'.
Proof. intros P O. exists []. rewrite app_nil_r. split; [reflexivity|]. split; [apply touches_nil|]. eapply owns_sub; eassumption. Qed.
Lemma sub_refl L : sub L L.
Proof. exists []. now rewrite app_nil_r. Qed.
Lemma sub_perm L L' : Permutation L L' -> sub L' L.
Proof. intros P. exists []. now rewrite app_nil_r. Qed.
Lemma sub_drop E L : sub L (E ++ L).
Proof. exists E. apply Permutation_app_comm. Qed.
(** One action. *)
Lemma owns_keep X h L e : owns X h L -> (forall hd, In hd (map fst L) -> e <> XSys (WClose hd)) -> owns X (h ++ [e]) L.
Proof.
  intros [D O] N. split; [exact D|]. intros hd o k I. apply since_app; [auto|]. intros [E|[]]. apply (N hd); [|exact E].
  change hd with (fst (hd, (o, k))). now apply in_map.
Qed.
Lemma does_silent X Q h L e : uses_handle e = None -> does X Q h L (h ++ [e]) L.
Proof.
  intros U O. exists [e]. split; [reflexivity|]. split; [apply touches_one; congruence|]. apply owns_keep; [exact O|]. intros hd _ ->. discriminate U.
Qed.
Lemma does_io X (Q : allowed) h L c o k : In (wc_handle c, (o, k)) L -> Q h o k -> does X Q h L (h ++ [XSys (WIo c)]) L.
Proof.
  intros I H O. exists [XSys (WIo c)]. split; [reflexivity|]. split.
  - apply touches_one. intros hd E. injection E as <-. exists o, k. split; [now apply O|exact H].
  - apply owns_keep; [exact O|]. intros hd _. discriminate.
Qed.
Lemma does_open X Q h L e hd o k : fresh_handles X -> uses_handle e = None -> yields X (h ++ [e]) e hd o -> (k <= List.length h)%nat ->
  does X Q h L (h ++ [e]) ((hd, (o, k)) :: L).
Proof.
  intros F U Y K O. destruct (does_silent X Q h L e U O) as (es & E & T & [D' O']). exists es. split; [exact E|]. split; [exact T|]. split.
  - cbn [map fst]. constructor; [|exact D']. intros I. apply in_map_iff in I as ([f [q j]] & Ef & I). cbn in Ef. subst f. apply O in I.
    apply (since_le X 0) in I; [|lia]. exact (F _ _ _ _ _ Y I).
  - intros f q j [Ef|I]; [|auto]. injection Ef as <- <- <-. now apply since_new.
Qed.
Lemma does_close X (Q : allowed) h a b hd o k : Q h o k -> does X Q h (a ++ (hd, (o, k)) :: b) (h ++ [XSys (WClose hd)]) (a ++ b).
Proof.
  intros H O. exists [XSys (WClose hd)]. split; [reflexivity|]. split.
  - apply touches_one. intros f E. injection E as <-. exists o, k. split; [apply O, in_or_app; right; now left|exact H].
  - pose proof O as [D _]. rewrite map_app in D. cbn [map fst] in D. pose proof (NoDup_remove _ _ _ D) as [D1 D2]. rewrite <- map_app in D1, D2.
    apply owns_keep.
    + split; [exact D1|]. intros f q j I. apply O. apply in_app_or in I as [I|I]; apply in_or_app; [now left|right; now right].
    + intros f I E. injection E as <-. contradiction.
Qed.
(** Requests on handles in use. *)
Definition lasting (Q : allowed) : Prop := forall h es o k, Q h o k -> Q (h ++ es) o k.
Lemma does_ios X Q h w w' L hds : lasting Q -> ios hds w w' ->
  (forall hd, In hd hds -> exists o k, In (hd, (o, k)) L /\ Q (h ++ map XSys w) o k) ->
  does X Q (h ++ map XSys w) L (h ++ map XSys w') L.
Proof.
  intros M (es & -> & F) H. rewrite map_app, app_assoc. revert H. generalize (h ++ map XSys w). clear h w. induction F as [|e es He F IH]; intros h H.
  - cbn [map]. rewrite app_nil_r. apply does_refl.
  - cbn [map]. change (h ++ XSys e :: map XSys es) with (h ++ [XSys e] ++ map XSys es). rewrite app_assoc.
    destruct e as [c|p|q]; cbn in He; try destruct He. destruct (H _ He) as (o & k & I & HQ).
    apply (does_trans _ _ _ (h ++ [XSys (WIo c)]) _ _ L); [exact (does_io _ _ _ _ _ _ _ I HQ)|].
    apply IH. intros hd Hd. destruct (H hd Hd) as (o' & k' & I' & Q'). exists o', k'. split; [exact I'|]. now apply M.
Qed.

(** ---- opening a device ---- *)
Lemma port_lasting X h es p port : names_port X h p port -> names_port X (h ++ es) p port.
Proof. intros (h1 & c & h2 & -> & R). exists h1, c, (h2 ++ es). rewrite <- app_assoc. split; [reflexivity|exact R]. Qed.
Lemma belongs_lasting X h es p o : belongs_to X h p o -> belongs_to X (h ++ es) p o.
Proof. intros [->|(port & -> & H)]; [now left|right]. exists port. split; [reflexivity|now apply port_lasting]. Qed.
(** Opening [p], begun at step [k]. *)
Definition about (X : xsys) (p : bytes) (k : nat) : allowed := fun h o j => j = k /\ belongs_to X h p o.
Lemma about_lasting X p k : lasting (about X p k).
Proof. intros h es o j [E B]. split; [exact E|now apply belongs_lasting]. Qed.
(** The entries of a driver handle for [p]. *)
Definition dev_entries (X : xsys) (h : xhist) (p : bytes) (k : nat) (d : wdh) (E : list entry) : Prop :=
  match wd_kind d with
  | KNvmeWin => exists port, names_port X h p port /\ E = [(wd_handle d, (OPath p, k)); (wd_scsi d, (OPath port, k))]
  | _ => E = [(wd_handle d, (OPath p, k))]
  end.
Lemma entries_lasting X h es p k d E : dev_entries X h p k d E -> dev_entries X (h ++ es) p k d E.
Proof. unfold dev_entries. destruct (wd_kind d); try tauto. intros (port & H & ->). exists port. split; [now apply port_lasting|reflexivity]. Qed.
Lemma entries_allow X h p k d E : dev_entries X h p k d E -> forall hd, In hd (dev_handles d) -> exists o j, In (hd, (o, j)) E /\ about X p k h o j.
Proof.
  unfold dev_entries, dev_handles. destruct (wd_kind d).
  - intros (port & H & ->) hd [<-|[<-|[]]].
    + exists (OPath p), k. split; [now left|]. split; [reflexivity|now left].
    + exists (OPath port), k. split; [right; now left|]. split; [reflexivity|right; eauto].
  - intros -> hd [<-|[]]. exists (OPath p), k. split; [now left|]. split; [reflexivity|now left].
  - intros -> hd [<-|[]]. exists (OPath p), k. split; [now left|]. split; [reflexivity|now left].
  - intros -> hd [<-|[]]. exists (OPath p), k. split; [now left|]. split; [reflexivity|now left].
Qed.
Lemma entries_head X h p k d E : dev_entries X h p k d E -> exists R, E = (wd_handle d, (OPath p, k)) :: R.
Proof. unfold dev_entries. destruct (wd_kind d); [intros (port & _ & ->)|intros ->..]; eauto. Qed.
Definition answers_bytes (X : xsys) : Prop := forall h, wf (wa_out (x_io X h)).

Lemma does_same X Q h w S L hd code b o k : lasting Q -> In (hd, (o, k)) L -> Q (h ++ map XSys w) o k ->
  does X Q (h ++ map XSys w) L (h ++ map XSys (fst (win_same S w hd code b))) L.
Proof.
  intros M I H. eapply does_ios; [exact M|apply same_ios|]. intros x [<-|[]]. eauto.
Qed.
Lemma nvmewin_does X h0 w p k L hd : fresh_handles X -> answers_bytes X -> (k <= List.length (h0 ++ map XSys w))%nat ->
  In (hd, (OPath p, k)) L -> owns X (h0 ++ map XSys w) L ->
  let r := nvmewin_open (wsys_at X h0) w hd in
  match snd r with
  | Ok (sh, _) => exists port, does X (about X p k) (h0 ++ map XSys w) L (h0 ++ map XSys (fst r)) ((sh, (OPath port, k)) :: L)
                    /\ names_port X (h0 ++ map XSys (fst r)) p port
  | _ => does X (about X p k) (h0 ++ map XSys w) L (h0 ++ map XSys (fst r)) L
  end.
Proof.
  intros F B K I O0. unfold nvmewin_open, get_scsi_path. set (S := wsys_at X h0).
  pose proof (does_same X (about X p k) h0 w S L hd IOCTL_SCSI_GET_ADDRESS (zeros 8) (OPath p) k (about_lasting X p k) I (conj eq_refl (or_introl eq_refl))) as D1.
  rewrite win_same_closed in *. cbv zeta in *. set (c1 := same_call hd IOCTL_SCSI_GET_ADDRESS (zeros 8)) in *. set (w1 := w ++ [WIo c1]) in *.
  assert (E1 : h0 ++ map XSys w1 = (h0 ++ map XSys w) ++ [XSys (WIo c1)]) by (unfold w1; now rewrite map_app, app_assoc).
  cbn [fst] in D1. set (a1 := s_io S w1) in *. destruct (wa_err a1 =? 0) eqn:E0; [|exact D1]. apply N.eqb_eq in E0.
  assert (P : nth 4 (fill (zeros 8) (wa_out a1)) 0 < 256) by (apply address_port, B).
  destruct (byte_dec_spec _ P) as [Pn Pd]. set (port := str "\\.\SCSI" ++ byte_dec (nth 4 (fill (zeros 8) (wa_out a1)) 0) ++ str ":") in *.
  assert (NP : names_port X (h0 ++ map XSys w1) p port).
  { exists (h0 ++ map XSys w), c1, []. split; [exact E1|]. split; [reflexivity|]. split; [|rewrite <- E1; split; [exact E0|]].
    - apply (since_le X 0 k); [lia|]. now apply O0.
    - exists (byte_dec (nth 4 (fill (zeros 8) (wa_out a1)) 0)). auto. }
  clearbody port. unfold open_device. cbv zeta. set (w2 := w1 ++ [WOpen port]).
  assert (E2 : h0 ++ map XSys w2 = (h0 ++ map XSys w1) ++ [XSys (WOpen port)]) by (unfold w2; now rewrite map_app, app_assoc).
  destruct (s_open S w2) as [x|sh] eqn:Eo.
  - cbn [fst snd]. apply (does_trans _ _ _ _ _ _ _ _ D1). rewrite E2. now apply does_silent.
  - assert (D2 : does X (about X p k) (h0 ++ map XSys w1) L (h0 ++ map XSys w2) ((sh, (OPath port, k)) :: L)).
    { rewrite E2. apply does_open; [exact F|reflexivity| |].
      - cbn [yields]. split; [|reflexivity]. unfold S, wsys_at in Eo. cbn [s_open] in Eo. rewrite E2 in Eo. exact Eo.
      - rewrite E1, app_length. lia. }
    assert (NP2 : names_port X (h0 ++ map XSys w2) p port) by (rewrite E2; now apply port_lasting).
    unfold miniport_identity. match goal with |- context [win_same S w2 sh ?code ?b] => 
      pose proof (does_same X (about X p k) h0 w2 S ((sh, (OPath port, k)) :: L) sh code b (OPath port) k (about_lasting X p k) (or_introl eq_refl)
         (conj eq_refl (or_intror (ex_intro _ port (conj eq_refl NP2))))) as D3; rewrite win_same_closed in *; cbv zeta in *; set (c2 := same_call sh code b) in * end.
    cbn [fst] in D3. set (w3 := w2 ++ [WIo c2]) in *.
    assert (E3 : h0 ++ map XSys w3 = (h0 ++ map XSys w2) ++ [XSys (WIo c2)]) by (unfold w3; now rewrite map_app, app_assoc).
    assert (NP3 : names_port X (h0 ++ map XSys w3) p port) by (rewrite E3; now apply port_lasting).
    pose proof (does_trans _ _ _ _ _ _ _ _ D1 (does_trans _ _ _ _ _ _ _ _ D2 D3)) as D.
    assert (C : does X (about X p k) (h0 ++ map XSys w) L (h0 ++ map XSys (close_handle w3 sh)) L).
    { apply (does_trans _ _ _ _ _ _ _ _ D). unfold close_handle. rewrite map_app, app_assoc. cbn [map].
      apply (does_close X (about X p k) (h0 ++ map XSys w3) [] L sh (OPath port) k). split; [reflexivity|]. right. eauto. }
    destruct (wa_err (s_io S w3) =? 0); [|exact C].
    destruct (negb _); [exact C|]. cbn [fst snd]. exists port. split; [exact D|exact NP3].
Qed.
(** The other probes make requests on the handle only. *)
Lemma simple_does X h0 w w' p k L hd : ios [hd] w w' -> In (hd, (OPath p, k)) L ->
  does X (about X p k) (h0 ++ map XSys w) L (h0 ++ map XSys w') L.
Proof. intros H I. eapply does_ios; [apply about_lasting|exact H|]. intros x [<-|[]]. exists (OPath p), k. split; [exact I|]. split; [reflexivity|now left]. Qed.
Lemma winnvme_ios S w hd : ios [hd] w (fst (winnvme_open S w hd)).
Proof.
  unfold winnvme_open, winnvme_identity. set (m := (protocol_query _ _ _ _ ++ _)%list). clearbody m. pose proof (same_ios S w hd IOCTL_STORAGE_QUERY_PROPERTY m) as X.
  destruct (win_same S w hd _ m) as [h1 [e out]]. cbn [fst] in X. destruct e; [exact X|]. destruct (negb _); exact X.
Qed.
Lemma probe_does X h0 A w p k L hd kd : fresh_handles X -> answers_bytes X -> (k <= List.length (h0 ++ map XSys w))%nat ->
  owns X (h0 ++ map XSys w) ((hd, (OPath p, k)) :: L) ->
  let r := win_probe (wsys_at X h0) A w hd kd in
  match snd r with
  | Ok d => exists E, dev_entries X (h0 ++ map XSys (fst r)) p k d E
              /\ does X (about X p k) (h0 ++ map XSys w) ((hd, (OPath p, k)) :: L) (h0 ++ map XSys (fst r)) (E ++ L)
  | _ => does X (about X p k) (h0 ++ map XSys w) ((hd, (OPath p, k)) :: L) (h0 ++ map XSys (fst r)) ((hd, (OPath p, k)) :: L)
  end.
Proof.
  intros F B K O. set (L1 := (hd, (OPath p, k)) :: L) in *. assert (I : In (hd, (OPath p, k)) L1) by now left.
  unfold win_probe. cbv zeta.
  destruct kd.
  - pose proof (nvmewin_does X h0 w p k L1 hd F B K I O) as D. cbv zeta in D. destruct (nvmewin_open (wsys_at X h0) w hd) as [w1 [[sh i]|e| |]]; cbn [fst snd] in *; try exact D.
    destruct D as (port & D & N). exists [(hd, (OPath p, k)); (sh, (OPath port, k))]. split; [exists port; auto|].
    apply (does_trans _ _ _ _ _ _ _ _ D), does_sub, sub_perm. cbn [app]. apply perm_swap.
  - pose proof (simple_does X h0 w _ p k L1 hd (winnvme_ios (wsys_at X h0) w hd) I) as D. destruct (winnvme_open _ w hd) as [w1 [i|e| |]]; cbn [fst snd] in *; try exact D.
    exists [(hd, (OPath p, k))]. split; [reflexivity|exact D].
  - assert (Y : ios [hd] w (fst (win_scsi_open (wsys_at X h0) w hd (ad_data A w) (ad_bounce A w)))) by (unfold win_scsi_open; rewrite finish_fst; apply scsi_ios).
    pose proof (simple_does X h0 w _ p k L1 hd Y I) as D. destruct (win_scsi_open _ w hd _ _) as [w1 [i|e| |]]; cbn [fst snd] in *; try exact D.
    exists [(hd, (OPath p, k))]. split; [reflexivity|exact D].
  - assert (Y : ios [hd] w (fst (win_ata_open (wsys_at X h0) w hd (ad_data A w) (ad_bounce A w)))) by (unfold win_ata_open; rewrite finish_fst; apply ata_ios).
    pose proof (simple_does X h0 w _ p k L1 hd Y I) as D. destruct (win_ata_open _ w hd _ _) as [w1 [i|e| |]]; cbn [fst snd] in *; try exact D.
    exists [(hd, (OPath p, k))]. split; [reflexivity|exact D].
Qed.
Lemma replay_does X h0 S A d w cs p k E L : Forall no_close cs -> dev_entries X (h0 ++ map XSys w) p k d E ->
  does X (about X p k) (h0 ++ map XSys w) (E ++ L) (h0 ++ map XSys (win_replay S A d w cs)) (E ++ L).
Proof.
  intros N D. eapply does_ios; [apply about_lasting|apply replay_ios; exact N|]. intros hd I.
  destruct (entries_allow _ _ _ _ _ _ D hd I) as (o & j & H & Q). exists o, j. split; [apply in_or_app; now left|exact Q].
Qed.
Lemma install_does X h0 S A w x d p k E L : dev_entries X (h0 ++ map XSys w) p k d E ->
  let r := win_install S A w x d in
  does X (about X p k) (h0 ++ map XSys w) (E ++ L) (h0 ++ map XSys (fst r)) (E ++ L)
  /\ dev_entries X (h0 ++ map XSys (fst r)) p k d E
  /\ (forall x', snd r = Ok x' -> exists g cs, f_drv x' = Some (d, g, cs)) /\ (forall e, snd r <> Err e).
Proof.
  intros D. unfold win_install. cbv zeta. set (pp := {| p_dh := _; p_info := _ |}).
  pose proof (init_no_close (win_drv S A d w) pp [CType; CName]) as N. destruct (init (win_drv S A d w) pp [CType; CName]) as [cs [p' r]]. cbn [fst] in N.
  assert (N' : Forall no_close cs).
  { destruct N as (c1 & -> & F). apply Forall_app. split; [repeat constructor; discriminate|exact F]. }
  pose proof (replay_does X h0 S A d w cs p k E L N' D) as Y.
  assert (Z : dev_entries X (h0 ++ map XSys (win_replay S A d w cs)) p k d E).
  { destruct (replay_ios S A d cs w N') as (es & -> & _). rewrite map_app, app_assoc. now apply entries_lasting. }
  destruct r; cbn [fst snd]; (split; [exact Y|]); (split; [exact Z|]); split; try discriminate; intros x' Ex; injection Ex as <-; cbn [f_drv]; eauto.
Qed.
Lemma probes_does X h0 A p k hd x ks : fresh_handles X -> answers_bytes X -> forall w L, (k <= List.length (h0 ++ map XSys w))%nat ->
  owns X (h0 ++ map XSys w) ((hd, (OPath p, k)) :: L) ->
  let r := win_probes (wsys_at X h0) A w hd x ks in
  match snd r with
  | Ok (Some x') => exists d g cs E, f_drv x' = Some (d, g, cs) /\ dev_entries X (h0 ++ map XSys (fst r)) p k d E
                      /\ does X (about X p k) (h0 ++ map XSys w) ((hd, (OPath p, k)) :: L) (h0 ++ map XSys (fst r)) (E ++ L)
  | Ok None => does X (about X p k) (h0 ++ map XSys w) ((hd, (OPath p, k)) :: L) (h0 ++ map XSys (fst r)) ((hd, (OPath p, k)) :: L)
  | Err _ => False
  | _ => does X (about X p k) (h0 ++ map XSys w) ((hd, (OPath p, k)) :: L) (h0 ++ map XSys (fst r)) L
  end.
Proof.
  intros F B. induction ks as [|kd ks IH]; intros w L K O; cbn [win_probes].
  - cbn [fst snd]. apply does_refl.
  - pose proof (probe_does X h0 A w p k L hd kd F B K O) as P. cbv zeta in P.
    assert (D0 : forall Q h L' R, does X Q h L' R ((hd, (OPath p, k)) :: L) -> does X Q h L' R L).
    { intros Q h L' R D. apply (does_trans _ _ _ _ _ _ _ _ D), does_sub. apply (sub_drop [_] L). }
    destruct (win_probe (wsys_at X h0) A w hd kd) as [w1 [d|e| |]]; cbn [fst snd] in P.
    + destruct P as (E & De & D1). destruct (install_does X h0 (wsys_at X h0) A w1 x d p k E L De) as (D2 & De2 & X2 & N2).
      destruct (win_install (wsys_at X h0) A w1 x d) as [w2 [x'|e| |]]; cbn [fst snd] in *.
      * destruct (X2 x' eq_refl) as (g & cs & Ed). exists d, g, cs, E. split; [exact Ed|]. split; [exact De2|]. exact (does_trans _ _ _ _ _ _ _ _ D1 D2).
      * exact (N2 e eq_refl).
      * apply (does_trans _ _ _ _ _ _ _ _ D1), (does_trans _ _ _ _ _ _ _ _ D2), does_sub, sub_drop.
      * apply (does_trans _ _ _ _ _ _ _ _ D1), (does_trans _ _ _ _ _ _ _ _ D2), does_sub, sub_drop.
    + destruct (P O) as (es & Ees & _ & O1).
      assert (K1 : (k <= List.length (h0 ++ map XSys w1))%nat) by (rewrite Ees, app_length; lia).
      specialize (IH w1 L K1 O1). cbv zeta in IH. destruct (win_probes (wsys_at X h0) A w1 hd x ks) as [w2 [[x'|]|e2| |]]; cbn [fst snd] in *.
      * destruct IH as (d & g & cs & E & Ed & De & D). exists d, g, cs, E. split; [exact Ed|]. split; [exact De|]. exact (does_trans _ _ _ _ _ _ _ _ P D).
      * exact (does_trans _ _ _ _ _ _ _ _ P IH).
      * exact IH.
      * exact (does_trans _ _ _ _ _ _ _ _ P IH).
      * exact (does_trans _ _ _ _ _ _ _ _ P IH).
    + exact (D0 _ _ _ _ P).
    + exact (D0 _ _ _ _ P).
Qed.
(** The handle's entries after opening: none if no driver took the device (its handle is then never used again). *)
Definition opened (X : xsys) (h : xhist) (p : bytes) (k : nat) (x : whandle) (E : list entry) : Prop :=
  match f_drv x with Some (d, _, _) => dev_entries X h p k d E | None => E = [] end.
Lemma open_path_does X h p L : fresh_handles X -> answers_bytes X -> owns X h L ->
  let r := x_open_by_path X h p in let k := List.length h in
  match snd r with
  | Ok x => exists E, opened X (fst r) p k x E /\ does X (about X p k) h L (fst r) (E ++ L)
  | _ => does X (about X p k) h L (fst r) L
  end.
Proof.
  intros F B O. cbv zeta. unfold x_open_by_path, win_open_by_path. set (S := wsys_at X h). set (A := waddr_at X h). set (k := List.length h).
  assert (H0 : h = h ++ map XSys []) by (cbn [map]; now rewrite app_nil_r).
  destruct (existsb _ p).
  { cbn [fst snd map]. rewrite app_nil_r. apply does_refl. }
  unfold open_device. cbv zeta. cbn [app]. destruct (s_open S [WOpen p]) as [e|hd] eqn:Eo.
  { cbn [fst snd map]. apply does_silent. reflexivity. }
  assert (D1 : does X (about X p k) h L (h ++ map XSys [WOpen p]) ((hd, (OPath p, k)) :: L)).
  { cbn [map]. apply does_open; [exact F|reflexivity|split; [exact Eo|reflexivity]|unfold k; lia]. }
  destruct (D1 O) as (es1 & Ees1 & _ & O1). set (w1 := [WOpen p]) in *. clearbody w1.
  assert (K1 : (k <= List.length (h ++ map XSys w1))%nat) by (rewrite app_length; unfold k; lia).
  assert (DROP : forall R, does X (about X p k) h L R ((hd, (OPath p, k)) :: L) -> does X (about X p k) h L R L).
  { intros R D. apply (does_trans _ _ _ _ _ _ _ _ D), does_sub. apply (sub_drop [_] L). }
  unfold win_open_by_handle.
  pose proof (simple_does X h w1 _ p k ((hd, (OPath p, k)) :: L) hd (basic_ios S w1 hd) (or_introl eq_refl)) as D2.
  destruct (win_basic_info S w1 hd) as [w2 b]. cbn [fst] in D2. pose proof (does_trans _ _ _ _ _ _ _ _ D1 D2) as D12.
  destruct (D12 O) as (es2 & Ees2 & _ & O2).
  assert (K2 : (k <= List.length (h ++ map XSys w2))%nat) by (rewrite app_length; unfold k; lia).
  assert (CLOSE : forall w e, does X (about X p k) h L (h ++ map XSys w) ((hd, (OPath p, k)) :: L) ->
    match snd (h ++ map XSys (close_handle w hd), @Err whandle e) with
    | Ok x => exists E, opened X (fst (h ++ map XSys (close_handle w hd), @Err whandle e)) p k x E /\ does X (about X p k) h L (fst (h ++ map XSys (close_handle w hd), @Err whandle e)) (E ++ L)
    | _ => does X (about X p k) h L (fst (h ++ map XSys (close_handle w hd), @Err whandle e)) L end).
  { intros w e D. cbn [fst snd]. apply (does_trans _ _ _ _ _ _ _ _ D). unfold close_handle. rewrite map_app, app_assoc. cbn [map].
    apply (does_close X (about X p k) (h ++ map XSys w) [] L hd (OPath p) k). split; [reflexivity|now left]. }
  destruct b as [basic|e| |]; [|exact (CLOSE w2 e D12)|exact (DROP _ D12)|exact (DROP _ D12)].
  cbv zeta. pose proof (probes_does X h A p k hd (whandle0 p basic) win_drivers F B w2 L K2 O2) as P. cbv zeta in P.
  fold S in P. destruct (win_probes S A w2 hd (whandle0 p basic) win_drivers) as [w3 [[x'|]|e| |]]; cbn [fst snd] in P.
  - destruct P as (d & g & cs & E & Ed & De & D). cbn [fst snd]. exists E. split; [unfold opened; now rewrite Ed|]. exact (does_trans _ _ _ _ _ _ _ _ D12 D).
  - pose proof (does_trans _ _ _ _ _ _ _ _ D12 P) as D3.
    pose proof (simple_does X h w3 _ p k ((hd, (OPath p, k)) :: L) hd (storage_ios S w3 hd) (or_introl eq_refl)) as D4.
    destruct (win_storage_query S w3 hd) as [w4 q]. cbn [fst] in D4. pose proof (DROP _ (does_trans _ _ _ _ _ _ _ _ D3 D4)) as D5.
    destruct q as [dd|e| |]; cbn [fst snd]; try exact D5; exists []; (split; [reflexivity|exact D5]).
  - destruct P.
  - exact (does_trans _ _ _ _ _ _ _ _ D12 P).
  - exact (does_trans _ _ _ _ _ _ _ _ D12 P).
Qed.
