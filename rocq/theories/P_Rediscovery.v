From Verif Require Import Base Spec_Buffer M_Ata M_TcgDevice M_Struc M_DriveHandle Spec_Drive P_Discovery M_Rediscovery Spec_Rediscovery.

Lemma app_eq_len {A} (a b c d : list A) : a ++ b = c ++ d -> List.length a = List.length c -> a = c /\ b = d.
Proof.
  revert c. induction a as [|x a IH]; intros [|y c] E L; try discriminate L; [now split|]. cbn [app] in E. injection E as -> E.
  injection L as L. destruct (IH c E L) as [-> ->]. now split.
Qed.
Lemma skipn_add {A} (l : list A) : forall a b, skipn a (skipn b l) = skipn (b + a) l.
Proof. induction l as [|x l IH]; intros a [|b]; cbn [skipn Nat.add]; try reflexivity; [now rewrite !skipn_nil|apply IH]. Qed.

Lemma adds_app t1 t2 t3 a b : adds_features t1 t2 a -> adds_features t2 t3 b -> adds_features t1 t3 (a ++ b).
Proof.
  unfold adds_features. rewrite !(listed_app _ a b).
  intros (A1 & A2 & A3 & A4 & A5 & A6 & A7 & A8 & A9) (B1 & B2 & B3 & B4 & B5 & B6 & B7 & B8 & B9).
  rewrite B1, B2, B3, B4, B5, B6, B7, B8, A1, A2, A3, A4, A5, A6, A7, A8, <- !orb_assoc.
  repeat (split; [reflexivity|]). intros code. rewrite B9, A9, last_listed_app. destruct (last_listed code b); reflexivity.
Qed.
Lemma same_identity_refl i : same_identity i i.
Proof. unfold same_identity. repeat split. Qed.
Lemma same_identity_trans i j k : same_identity i j -> same_identity j k -> same_identity i k.
Proof. unfold same_identity. intros (A1 & A2 & A3 & A4 & A5 & A6 & A7 & A8 & A9 & A10 & A11 & A12) (B1 & B2 & B3 & B4 & B5 & B6 & B7 & B8 & B9 & B10 & B11 & B12).
  repeat split; congruence. Qed.

Lemma security_wf V p h rw dma pr c b t : byte_driver V -> wf b -> wf (snd (snd (security_command V p h rw dma pr c b t))).
Proof.
  intros HV Hb. assert (F : forall x h, wf x -> wf (fill x (snd (v_io V h)))).
  { intros x k Hx. unfold fill. apply wf_app. split; [apply wf_firstn, HV|now apply wf_skipn]. }
  unfold security_command. destruct (p_dh p) as [ty|]; [|exact Hb].
  pose proof (F b (h ++ [CSec rw dma pr c b t]) Hb) as W. destruct (v_io V (h ++ [CSec rw dma pr c b t])) as [[e|] n]; [|exact W].
  cbn [snd] in W. destruct (is_ata ty); [|destruct (is_nvme ty); [|exact W]].
  - cbv zeta. match goal with |- context [v_io V ?k] => pose proof (F _ k W) as W2; destruct (v_io V k) as [e2 n2]; exact W2 end.
  - cbv zeta. match goal with |- context [v_io V ?k] => pose proof (F _ k W) as W2; destruct (v_io V k) as [e2 n2]; exact W2 end.
Qed.

(** The descriptors a walk meets, when none runs over the buffer. *)
Lemma walk_exists buf L : wf buf -> forall k s, (L - s <= k)%nat -> (s <= List.length buf)%nat -> (L <= List.length buf)%nat ->
  (forall o, vis buf L s o -> ~ over buf o) ->
  exists fs rest, skipn s buf = descriptors fs ++ rest /\ Forall feature_ok fs /\ (L <= s + List.length (descriptors fs))%nat
  /\ (forall a f b, fs = a ++ f :: b -> (s + List.length (descriptors a) < L)%nat).
Proof.
  intros Hw. induction k as [|k IH]; intros s Hk Hs HL Hv.
  - exists [], (skipn s buf). split; [reflexivity|]. split; [constructor|]. split; [cbn; lia|]. intros [|? ?]; discriminate.
  - destruct (Nat.le_gt_cases L s) as [Hle|Hlt].
    { exists [], (skipn s buf). split; [reflexivity|]. split; [constructor|]. split; [cbn; lia|]. intros [|? ?]; discriminate. }
    pose proof (Hv s (vis_start _ _ _ Hlt)) as Hno. unfold over in Hno.
    destruct (nth_error buf (s + 3)) as [n|] eqn:En; [|tauto].
    destruct (IH (s + 4 + N.to_nat n)%nat) as (fs & rest & E & Hok & Hb & Hp); [lia|lia|exact HL| |].
    { intros o Ho. apply Hv. now apply (vis_unstep buf L s n). }
    set (body := slice (s + 4) (N.to_nat n) buf).
    assert (Hlb : List.length body = N.to_nat n) by (unfold body; rewrite slice_length; lia).
    assert (Hn : n < 256). { apply (proj1 (Forall_forall _ _) Hw). exact (nth_error_In _ _ En). }
    destruct (skipn s buf) as [|b0 [|b1 [|b2 [|b3 r]]]] eqn:Ek;
      try (apply (f_equal (@List.length N)) in Ek; rewrite skipn_length in Ek; cbn [List.length] in Ek; lia).
    assert (B3 : b3 = n). { replace s with (s + 0)%nat in Ek by lia. rewrite <- (Nat.add_0_r s) in En.
      assert (X : nth_error (skipn s buf) 3 = Some n) by (rewrite nth_error_skipn, <- En; f_equal; lia).
      rewrite Nat.add_0_r in Ek. rewrite Ek in X. cbn in X. congruence. }
    assert (Hr : r = body ++ descriptors fs ++ rest).
    { assert (X : r = skipn (s + 4) buf). { change r with (skipn 4 (b0 :: b1 :: b2 :: b3 :: r)). rewrite <- Ek. now rewrite skipn_add. }
      rewrite X. unfold body, slice. rewrite <- (firstn_skipn (N.to_nat n) (skipn (s + 4) buf)) at 1. f_equal.
      rewrite skipn_add. now rewrite <- E. }
    assert (W4 : b0 < 256 /\ b1 < 256).
    { pose proof (wf_skipn s buf Hw) as W. rewrite Ek in W. inversion W as [|? ? X0 W1]; subst. inversion W1; subst. auto. }
    set (f := {| ft_code := be_val [b0; b1]; ft_version := b2; ft_body := body |}).
    assert (D : descriptor f = [b0; b1; b2; b3] ++ body).
    { unfold descriptor, f. cbn [ft_code ft_version ft_body]. replace (blen body) with b3 by (unfold blen; rewrite Hlb; lia).
      change 2%nat with (List.length [b0; b1]). rewrite be_bytes_val; [reflexivity|].
      apply wf_cons. split; [apply W4|]. apply wf_cons. split; [apply W4|apply wf_nil]. }
    assert (Dl : List.length (descriptor f) = (4 + N.to_nat n)%nat) by (rewrite descriptor_length; cbn [f ft_body]; lia).
    exists (f :: fs), rest. unfold descriptors in *. cbn [map concat]. rewrite D, Hr, app_length. split; [|split; [|split]].
    + now rewrite <- !app_assoc.
    + constructor; [|exact Hok]. split; cbn [f ft_code ft_body].
      * pose proof (be_val_lt [b0; b1]) as X. cbn [List.length] in X. apply X.
        apply wf_cons. split; [apply W4|]. apply wf_cons. split; [apply W4|apply wf_nil].
      * unfold blen. rewrite Hlb. lia.
    + rewrite <- D, Dl. lia.
    + intros [|f' a] g b X; injection X as <- X; [cbn [map concat List.length]; lia|].
      specialize (Hp a g b X). cbn [map concat]. rewrite app_length, Dl. lia.
Qed.

Lemma lists_loop buf fs t : List.length buf = 2048%nat -> be32_at 0 buf <= 2048 -> lists buf fs ->
  exists t', discovery_loop 513 true buf (N.to_nat (be32_at 0 buf)) (zeros 16) 32 t = (t', Ok tt) /\ adds_features t t' fs.
Proof.
  intros Hl HL (header & rest & E & Hh & Hok & Hb & Hp).
  destruct (loop_descriptors fs 513 buf header rest (N.to_nat (be32_at 0 buf)) (zeros 16) t) as (t' & X & Y);
    [reflexivity|exact Hok|exact E| | | |exists t'; rewrite Hh in X; auto].
  - assert (4 * List.length fs <= List.length (descriptors fs))%nat.
    { clear. unfold descriptors. induction fs as [|f fs IH]; cbn [map concat List.length]; [lia|]. rewrite app_length, descriptor_length. lia. }
    apply (f_equal (@List.length N)) in E. rewrite !app_length, Hh, Hl in E. lia.
  - unfold blen in Hb. lia.
  - intros a f ->. specialize (Hp a f [] eq_refl). unfold blen in Hp. lia.
Qed.

Lemma lists_exists buf : wf buf -> List.length buf = 2048%nat -> be32_at 0 buf <= 2048 -> ~ runs_over buf (N.to_nat (be32_at 0 buf)) ->
  exists fs, lists buf fs.
Proof.
  intros Hw Hl HL Hno. destruct (walk_exists buf (N.to_nat (be32_at 0 buf)) Hw 2048 32) as (fs & rest & E & Hok & Hb & Hp); try lia.
  { intros o Ho Hov. apply Hno, runs_over_vis. eauto. }
  exists fs, (firstn 32 buf), rest. split; [rewrite <- E; symmetry; apply firstn_skipn|]. split; [rewrite firstn_length; lia|].
  split; [exact Hok|]. split; [unfold blen; lia|]. intros a f b X. specialize (Hp a f b X). unfold blen. lia.
Qed.

Lemma descriptor_inj f g r1 r2 : feature_ok f -> feature_ok g -> descriptor f ++ r1 = descriptor g ++ r2 -> f = g /\ r1 = r2.
Proof.
  destruct f as [c v b], g as [c' v' b']. unfold descriptor, feature_ok. cbn [ft_code ft_version ft_body]. intros [A1 A2] [B1 B2] E.
  rewrite <- !app_assoc in E. apply app_eq_len in E as [E1 E]; [|now rewrite !be_bytes_length].
  apply be_bytes_inj in E1; [|exact A1|exact B1]. cbn [app] in E. injection E as -> El E.
  apply app_eq_len in E as [-> ->]; [|unfold blen in El; lia]. now subst.
Qed.
Lemma lists_unique buf fs fs' : lists buf fs -> lists buf fs' -> fs = fs'.
Proof.
  intros (hd & rest & E & Hh & Hok & Hb & Hp) (hd' & rest' & E' & Hh' & Hok' & Hb' & Hp').
  rewrite E in E'. apply app_eq_len in E' as [<- E']; [|congruence]. clear E Hh Hh'.
  revert E' Hb Hp Hb' Hp'. generalize (be32_at 0 buf) as L. clear buf hd. intros L E Hb Hp Hb' Hp'.
  remember 32 as s eqn:Es. clear Es. revert s fs' Hok' rest rest' E Hb Hp Hb' Hp'.
  induction Hok as [|f fs Hf Hok IH]; intros s fs' Hok' rest rest' E Hb Hp Hb' Hp'.
  - destruct fs' as [|g fs']; [reflexivity|]. specialize (Hp' [] g fs' eq_refl). cbn in Hb, Hp'. lia.
  - destruct fs' as [|g fs']; [specialize (Hp [] f fs eq_refl); cbn in Hb', Hp; lia|].
    inversion Hok' as [|? ? Hg Hok2]; subst. unfold descriptors in *. cbn [map concat] in *. rewrite <- !app_assoc in E.
    apply descriptor_inj in E as [<- E]; [|assumption..]. f_equal.
    apply (IH (s + blen (descriptor f)) fs' Hok2 rest rest' E).
    + unfold blen in *. rewrite app_length in Hb. lia.
    + intros a g b ->. specialize (Hp (f :: a) g b eq_refl). cbn [map concat] in Hp. unfold blen in *. rewrite app_length in Hp. lia.
    + unfold blen in *. rewrite app_length in Hb'. lia.
    + intros a g b ->. specialize (Hp' (f :: a) g b eq_refl). cbn [map concat] in Hp'. unfold blen in *. rewrite app_length in Hp'. lia.
Qed.

(** One discovery that did not crash. *)
Lemma discovery_step V p h h' p' r : byte_driver V -> i_raw_made (p_info p) = true -> tcg_discovery0 V p h = (h', (p', r)) -> r <> Panic ->
  let a := snd (security_command V p h false false 1 1 (zeros 2048) 3) in
  exists fs, contributes a fs /\ adds_features (i_tcg (p_info p)) (i_tcg (p_info p')) fs
  /\ same_identity (p_info p) (p_info p') /\ i_raw_made (p_info p') = true /\ i_support (p_info p') = support_of a /\ wf (descriptors fs).
Proof.
  intros HV Hm H Hr. cbv zeta. pose proof (security_wf V p h false false 1 1 (zeros 2048) 3 HV (wf_zeros _)) as Hw.
  destruct (security_command V p h false false 1 1 (zeros 2048) 3) as [h1 [[e|] buf]] eqn:Es; cbn [snd fst] in *.
  - unfold tcg_discovery0 in H. rewrite Es in H. injection H as <- <- <-. exists []. split; [reflexivity|]. split; [apply adds_nil|].
    cbn [with_info p_info set_support i_raw_made i_support]. split; [unfold same_identity; repeat (split; [reflexivity|]); reflexivity|]. split; [exact Hm|]. split; [reflexivity|apply wf_nil].
  - destruct (discovery_unfold V p h h1 buf Es) as [Hl E]. cbv zeta in E. unfold contributes.
    pose proof (c34 V p h h1 buf Es) as [_ C]. cbv zeta in C. rewrite H in C. rewrite Hm in C.
    rewrite E in H. destruct (2048 <? be32_at 0 buf) eqn:EL.
    + injection H as <- <- <-. exists []. split; [reflexivity|]. split; [apply adds_nil|]. split; [unfold same_identity; repeat (split; [reflexivity|]); reflexivity|]. split; [exact Hm|]. split; [reflexivity|apply wf_nil].
    + apply N.ltb_ge in EL. destruct C as (_ & _ & [(_ & X)|[(X & _)|(-> & _ & C)]]); [lia|congruence|].
      destruct (lists_exists buf Hw Hl EL C) as (fs & Lf). rewrite Hm in H.
      destruct (lists_loop buf fs (i_tcg (p_info p)) Hl EL Lf) as (t' & El & Ha). rewrite El in H. injection H as <- <-.
      exists fs. split; [exact Lf|]. split; [exact Ha|]. split; [unfold same_identity; repeat (split; [reflexivity|]); reflexivity|]. split; [reflexivity|]. split; [reflexivity|].
      destruct Lf as (hd & rest & -> & _). rewrite !wf_app in Hw. tauto.
Qed.

Lemma contributes_unique a fs fs' : contributes a fs -> contributes a fs' -> fs = fs'.
Proof.
  destruct a as [[e|] buf]; cbn [contributes]; [congruence|]. destruct (_ <? _); [congruence|]. apply lists_unique.
Qed.
Lemma last_cons_default {A} (x d : A) l : last (x :: l) d = last l x.
Proof.
  revert x d. induction l as [|y l IH]; intros x d; [reflexivity|]. change (last (x :: y :: l) d) with (last (y :: l) d).
  now rewrite (IH y d), (IH y x).
Qed.

Lemma run_learns V : byte_driver V -> forall ops p h h' p' outs, i_raw_made (p_info p) = true -> forallb interface_call ops = true ->
  hrun V p h ops = (h', (p', outs)) -> no_crash outs ->
  exists fss, Forall2 contributes (discovery_answers V p h ops) fss
  /\ adds_features (i_tcg (p_info p)) (i_tcg (p_info p')) (concat fss)
  /\ same_identity (p_info p) (p_info p') /\ i_raw_made (p_info p') = true
  /\ i_support (p_info p') = last_support (i_support (p_info p)) (discovery_answers V p h ops)
  /\ wf (descriptors (concat fss)).
Proof.
  intros HV. induction ops as [|o ops IH]; intros p h h' p' outs Hm Hi H Hn; cbn [hrun discovery_answers] in *.
  - injection H as <- <- <-. exists []. split; [constructor|]. split; [apply adds_nil|]. split; [apply same_identity_refl|]. split; [exact Hm|]. split; [reflexivity|apply wf_nil].
  - apply andb_prop in Hi as [Ho Hi]. destruct (hstep V p h o) as [h1 [p1 r]] eqn:Es.
    destruct (hrun V p1 h1 ops) as [h2 [p2 rs]] eqn:Er. injection H as -> -> <-.
    assert (Hn2 : no_crash rs) by (intros X; apply Hn; now right). assert (Hr : r <> OutRes Panic) by (intros X; apply Hn; now left).
    destruct o; try discriminate Ho.
    (* HClose, HType, HName, HSec, HTask, HLog leave the information alone *)
    1,2,3,5,6,7: assert (Ep : p_info p1 = p_info p).
    1,3,5,7,9,11: revert Es; cbn [hstep].
    + unfold close. destruct (p_dh p); intros E; injection E as <- <- <-; reflexivity.
    + destruct (get_driving_type V p h); intros E; now injection E as <- <- <-.
    + destruct (get_driver_name V p h); intros E; now injection E as <- <- <-.
    + destruct (security_command V p h _ _ _ _ _ _) as [? [? ?]]; intros E; now injection E as <- <- <-.
    + destruct (ata_do_task_file_cmd V p h _ _ _ _ _) as [? [? ?]]; intros E; now injection E as <- <- <-.
    + destruct (nvme_get_log_page V p h _ _ _ _) as [? [? ?]]; intros E; now injection E as <- <- <-.
    + rewrite <- Ep in Hm |- *. exact (IH _ _ _ _ _ Hm Hi Er Hn2).
    + rewrite <- Ep in Hm |- *. exact (IH _ _ _ _ _ Hm Hi Er Hn2).
    + rewrite <- Ep in Hm |- *. exact (IH _ _ _ _ _ Hm Hi Er Hn2).
    + rewrite <- Ep in Hm |- *. exact (IH _ _ _ _ _ Hm Hi Er Hn2).
    + rewrite <- Ep in Hm |- *. exact (IH _ _ _ _ _ Hm Hi Er Hn2).
    + rewrite <- Ep in Hm |- *. exact (IH _ _ _ _ _ Hm Hi Er Hn2).
    + cbn [hstep] in Es. destruct (tcg_discovery0 V p h) as [h3 [p3 r3]] eqn:Ed. injection Es as <- <- <-.
      destruct (discovery_step V p h h3 p3 r3 HV Hm Ed) as (fs & C & A & S & M & U & W); [congruence|].
      destruct (IH _ _ _ _ _ M Hi Er Hn2) as (fss & F & A2 & S2 & M2 & U2 & W2).
      exists (fs :: fss). cbn [app]. split; [constructor; assumption|]. cbn [concat]. split; [exact (adds_app _ _ _ _ _ A A2)|].
      split; [exact (same_identity_trans _ _ _ S S2)|]. split; [exact M2|].
      split; [rewrite U2, U; unfold last_support; cbn [map]; now rewrite last_cons_default|]. rewrite descriptors_app, wf_app. auto.
Qed.
