(** Property theorems C75-C79: opening drives, enumerating them and reading their system information on Linux.  [W] is an arbitrary
    system: each answer is any function of the whole history. *)
From Verif Require Import Base M_Buffer M_Struc M_Ata M_TcgDevice M_DriveHandle M_Strings M_LinuxInfo M_LinuxFactory
  Spec_Drive P_DriveHandle Spec_LinuxFactory P_Strings P_LinuxFactory.
From Coq Require Import Permutation.

(** C75: OpenByFd never returns an error; both drivers are probed, NVMe first, and the last to accept is the one used.  The descriptor
    is never closed.  It panics only over a malformed discovery answer of an accepting driver. *)
Theorem C75_open_by_fd : forall W h fd path h' r, open_by_fd W h fd path = (h', r) ->
  let upto n := h ++ firstn n (probing fd path) in
  let nvme := w_probe W (upto 3%nat) in
  let sg := w_probe W (upto 4%nat) in
  (r = Panic /\ exists n o, (n = 3 \/ n = 4)%nat /\ h' = upto n /\ w_probe W (upto n) = inr o /\ malformed_discovery o) \/
  (exists x, r = Ok x /\ h' = h ++ probing fd path /\ l_fd x = fd /\ i_path (p_info (l_dh x)) = path /\ l_removable x = (-1)%Z /\
    match nvme, sg with
    | _, inr o => driven_by x o
    | inr o, inl _ => driven_by x o
    | inl _, inl _ => undriven x
    end).
Proof.
  intros W h fd path h' r H upto nvme sg.
  assert (E3 : upto 3%nat = ((h ++ [LBasic fd path]) ++ [LIds path]) ++ [LProbe 0 fd]) by (unfold upto, probing; cbn [firstn]; now rewrite <- !app_assoc).
  assert (E4 : upto 4%nat = (((h ++ [LBasic fd path]) ++ [LIds path]) ++ [LProbe 0 fd]) ++ [LProbe 1 fd]) by (unfold upto, probing; cbn [firstn]; now rewrite <- !app_assoc).
  unfold nvme, sg. apply open_fd_closed in H. cbv zeta in H. rewrite <- E4 in H. rewrite <- E3 in H.
  set (x1 := match read_basic_info path (w_basic W (h ++ [LBasic fd path])) with Ok b => _ | _ => _ end) in H.
  set (x2 := match get_id_info path _ with Ok _ => _ | _ => _ end) in H.
  assert (K : l_fd x2 = fd /\ i_path (p_info (l_dh x2)) = path /\ l_removable x2 = (-1)%Z /\ undriven x2).
  { assert (K1 : l_fd x1 = fd /\ i_path (p_info (l_dh x1)) = path /\ l_removable x1 = (-1)%Z /\ undriven x1).
    { unfold x1. destruct (read_basic_info _ _); repeat split. }
    unfold x2. destruct (get_id_info _ _) as [[[[m s] v] w]| | |]; exact K1. }
  clearbody x1 x2. destruct H as [[-> H]|(x3 & x & -> & -> & R & H3 & H4)].
  - left. split; [reflexivity|]. destruct H as [[-> (o & A & B)]|[-> (o & A & B)]]; [exists 3%nat, o|exists 4%nat, o]; auto.
  - right. exists x. destruct R as (R1 & R2 & _ & _ & _ & _ & _ & R8). destruct K as (K1 & K2 & K3 & K4).
    split; [reflexivity|]. split; [reflexivity|]. split; [congruence|]. split; [congruence|]. split; [congruence|].
    destruct (w_probe W (upto 4%nat)) as [e|o].
    + subst x. destruct (w_probe W (upto 3%nat)) as [e'|o']; [now subst x3|tauto].
    + destruct (w_probe W (upto 3%nat)); tauto.
Qed.
Print Assumptions C75_open_by_fd.

(** What the handle says about the drive.  [m, s, v, f]: the by-id model and serial and the sysfs vendor and revision (C78), blank when
    they could not be read.  Identify data of a driver replaces model, serial and revision when it is long enough. *)
Theorem C75_identification : forall W h fd path h' x, open_by_fd W h fd path = (h', Ok x) ->
  let upto n := h ++ firstn n (probing fd path) in
  let nvme := w_probe W (upto 3%nat) in
  let sg := w_probe W (upto 4%nat) in
  let identify o := v_identity (o_drv o) [CType; CName; CIdentity] in
  let silent (d : err + opened) := match d with
    | inl _ => True
    | inr o => o_type o = ata_type /\ blen (identify o) < 512 \/ o_type o = nvme_type /\ blen (identify o) < 4096 \/ o_type o = plain_type
    end in
  exists m s v f,
  (get_id_info path (w_ids W (upto 2%nat)) = Ok (m, s, v, f)
   \/ (forall y, get_id_info path (w_ids W (upto 2%nat)) <> Ok y) /\ m = [] /\ s = [] /\ v = [] /\ f = []) /\
  l_vendor x = v /\
  (silent nvme -> silent sg -> texts (p_info (l_dh x)) = (m, s, f)) /\
  (forall o, sg = inr o -> o_type o = ata_type -> 512 <= blen (identify o) -> ata_texts (identify o) (p_info (l_dh x))) /\
  (forall o, nvme = inr o -> o_type o = nvme_type -> 4096 <= blen (identify o) -> (exists e, sg = inl e) ->
     nvme_texts (identify o) (p_info (l_dh x))).
Proof.
  intros W h fd path h' x H upto nvme sg identify silent.
  assert (E2 : upto 2%nat = (h ++ [LBasic fd path]) ++ [LIds path]) by (unfold upto, probing; cbn [firstn]; now rewrite <- !app_assoc).
  assert (E3 : upto 3%nat = ((h ++ [LBasic fd path]) ++ [LIds path]) ++ [LProbe 0 fd]) by (unfold upto, probing; cbn [firstn]; now rewrite <- !app_assoc).
  assert (E4 : upto 4%nat = (((h ++ [LBasic fd path]) ++ [LIds path]) ++ [LProbe 0 fd]) ++ [LProbe 1 fd]) by (unfold upto, probing; cbn [firstn]; now rewrite <- !app_assoc).
  unfold nvme, sg. apply open_fd_closed in H. cbv zeta in H. rewrite <- E4, <- E3, <- E2 in H.
  set (x1 := match read_basic_info path (w_basic W (h ++ [LBasic fd path])) with Ok b => _ | _ => _ end) in H.
  set (ids := get_id_info path (w_ids W (upto 2%nat))) in *.
  destruct H as [[H _]|(x3 & x' & H & _ & R & H3 & H4)]; [discriminate|]. injection H as <-.
  set (q := match ids with Ok y => y | _ => ([], [], [], []) end).
  destruct q as [[[m s] v] f] eqn:Eq.
  assert (K : match ids with Ok (model, serial, vendor, rev) => with_ids x1 model serial vendor rev | _ => with_ids x1 [] [] [] [] end
              = with_ids x1 m s v f).
  { unfold q in Eq. destruct ids; [now rewrite Eq|injection Eq as <- <- <- <-; reflexivity..]. }
  rewrite K in *. set (x2 := with_ids x1 m s v f) in *.
  exists m, s, v, f. split.
  { unfold q in Eq. destruct ids; [left; now rewrite Eq| | |]; right; (split; [discriminate|]); injection Eq as <- <- <- <-; auto. }
  destruct R as (_ & _ & _ & _ & _ & _ & R7 & _). split; [exact R7|].
  assert (KS : forall d i i' z z', match d with inl _ => z = z' | inr o => driven_by z' o /\ text_rule o i i' end ->
                p_info (l_dh z) = i -> p_info (l_dh z') = i' -> silent d -> texts i' = texts i).
  { intros d i i' z z' Hd <- <- Hs. destruct d as [e|o]; [now subst z'|]. destruct Hd as [_ (_ & _ & T)]. apply T.
    unfold silent, identify, blen in Hs. destruct Hs as [[A B]|[[A B]|A]]; [left; split; [exact A|lia]|right; left; split; [exact A|exact B]|right; right; exact A]. }
  split.
  { intros S1 S2.
    assert (T1 : texts (p_info (l_dh x3)) = texts (p_info (l_dh x2))) by (apply (KS (w_probe W (upto 3%nat)) _ _ x2 x3); auto; destruct (w_probe W (upto 3%nat)); auto).
    assert (T2 : texts (p_info (l_dh x)) = texts (p_info (l_dh x3))) by (apply (KS (w_probe W (upto 4%nat)) _ _ x3 x); auto; destruct (w_probe W (upto 4%nat)); auto).
    rewrite T2, T1. reflexivity. }
  split.
  { intros o E A B. rewrite E in H4. destruct H4 as [_ (T & _)]. unfold blen in B.
    destruct (T A ltac:(unfold identify in B; lia)) as (F1 & F2 & F3 & F4 & _). unfold ata_texts. auto. }
  intros o E A B [e Es]. rewrite E in H3. rewrite Es in H4. subst x. destruct H3 as [_ (_ & T & _)].
  destruct (T A B) as (F1 & F2 & F3 & F4 & F5 & _). unfold nvme_texts. auto.
Qed.
Print Assumptions C75_identification.

(** C76: opening a path fails exactly when the system refuses to open it. *)
Theorem C76_open_path : forall W h path h' r, open_by_path W h path = (h', r) ->
  match w_open W (h ++ [LOpen path]) with
  | inl e => r = Err e /\ h' = h ++ [LOpen path]
  | inr fd =>
    let upto n := h ++ LOpen path :: firstn n (probing fd path) in
    (exists x, r = Ok x /\ l_fd x = fd /\ i_path (p_info (l_dh x)) = path /\ h' = h ++ LOpen path :: probing fd path)
    \/ (r = Panic /\ exists n o, (n = 3 \/ n = 4)%nat /\ h' = upto n /\ w_probe W (upto n) = inr o /\ malformed_discovery o)
  end.
Proof.
  intros W h path h' r H. unfold open_by_path in H. destruct (w_open W (h ++ [LOpen path])) as [e|fd]; [now injection H as <- <-|].
  destruct (open_by_fd W (h ++ [LOpen path]) fd path) as (h2, r2) eqn:E.
  assert (U : forall l, (h ++ [LOpen path]) ++ l = h ++ LOpen path :: l) by (intros l; now rewrite <- app_assoc).
  destruct (C75_open_by_fd _ _ _ _ _ _ E) as [[-> (n & o & Hn & -> & A & B)]|(x & -> & -> & Hf & Hp & _)]; injection H as <- <-.
  - right. split; [reflexivity|]. exists n, o. rewrite U in A |- *. auto.
  - left. exists x. rewrite U. auto.
Qed.
Print Assumptions C76_open_path.

(** Closing the handle closes the descriptor once if some driver accepted it, and not at all if none did; closing again does nothing. *)
Theorem C76_close : forall W h path h' x, open_by_path W h path = (h', Ok x) ->
  exists fd, w_open W (h ++ [LOpen path]) = inr fd /\ filter is_lclose h' = filter is_lclose h /\
  let upto n := h ++ LOpen path :: firstn n (probing fd path) in
  let '(h1, x1) := close_handle h' x in
  ((exists o, w_probe W (upto 3%nat) = inr o \/ w_probe W (upto 4%nat) = inr o) -> h1 = h' ++ [LClose fd]) /\
  ((exists e e', w_probe W (upto 3%nat) = inl e /\ w_probe W (upto 4%nat) = inl e') -> h1 = h') /\
  close_handle h1 x1 = (h1, x1).
Proof.
  intros W h path h' x H. pose proof (C76_open_path _ _ _ _ _ H) as P. unfold open_by_path in H.
  destruct (w_open W (h ++ [LOpen path])) as [e|fd]; [discriminate|]. destruct P as [(x' & P & Hf & _ & Hh)|[P _]]; [|discriminate]. injection P as <-.
  exists fd. split; [reflexivity|]. split. { rewrite Hh, filter_app. cbn. now rewrite app_nil_r. }
  intros upto. destruct (open_by_fd W (h ++ [LOpen path]) fd path) as (h2, r2) eqn:E.
  destruct (C75_open_by_fd _ _ _ _ _ _ E) as [[-> _]|(x' & -> & -> & _ & _ & _ & D)]; [discriminate|]. injection H as <- <-.
  assert (U : forall n, (h ++ [LOpen path]) ++ firstn n (probing fd path) = upto n) by (intros n; unfold upto; now rewrite <- app_assoc).
  rewrite !U in D. unfold close_handle. destruct (p_dh (l_dh x')) as [ty|] eqn:Ed.
  - split; [intros _; now rewrite Hf|]. split; [|reflexivity]. intros (e1 & e2 & A & B). rewrite A, B in D. destruct D as (D & _). congruence.
  - split.
    + intros [o [A|A]]; rewrite A in D.
      * destruct (w_probe W (upto 4%nat)); destruct D as (D & _); congruence.
      * destruct (w_probe W (upto 3%nat)); destruct D as (D & _); congruence.
    + split; [reflexivity|]. now rewrite Ed.
Qed.
Print Assumptions C76_close.

(** The guarantee a caller expects, "after OpenByPath and Close the descriptor is closed", is false. *)
Definition refusing : world :=
  {| w_open := fun _ => inr 3;
     w_basic := fun _ => {| da_open := Some (EMsg "x"); da_table := TOther; da_readat := fun _ => ([], (0, None)); da_ssz := None; da_size := None; da_geo := None |};
     w_ids := fun _ => {| ia_dir := None; ia_link := fun _ => None; ia_order := fun m => m; ia_file := fun _ => None |};
     w_probe := fun _ => inl (EMsg "no"); w_dir := fun _ => inr []; w_mode := fun _ => None |}.
Theorem C76_closed_refuted : ~ (forall W h path h' x fd, open_by_path W h path = (h', Ok x) -> w_open W (h ++ [LOpen path]) = inr fd ->
  In (LClose fd) (fst (close_handle h' x))).
Proof.
  intros H. specialize (H refusing [] (str "/dev/sda")). cbn in H.
  specialize (H _ _ 3 eq_refl eq_refl). cbn in H. intuition discriminate.
Qed.
Print Assumptions C76_closed_refuted.
