(** The Go string functions against their specifications. *)
From Verif Require Import Base M_Strings M_DriveHandle M_LinuxInfo M_LinuxFactory Spec_LinuxFactory.

Lemma beq_iff a b : beq a b = true <-> a = b.
Proof. unfold beq. destruct (list_eq_dec N.eq_dec a b); intuition congruence. Qed.
Lemma beq_false a b : beq a b = false <-> a <> b.
Proof. unfold beq. destruct (list_eq_dec N.eq_dec a b); intuition congruence. Qed.
Lemma beq_refl a : beq a a = true.
Proof. now apply beq_iff. Qed.

Lemma has_prefix_iff p : forall s, has_prefix p s = true <-> exists b, s = p ++ b.
Proof.
  induction p as [|x p IH]; intros s; cbn [has_prefix app].
  - split; eauto.
  - destruct s as [|y s].
    + split; [discriminate|]. intros [b H]. discriminate.
    + rewrite Bool.andb_true_iff, N.eqb_eq, IH. split.
      * intros [-> [b ->]]. eauto.
      * intros [b H]. injection H as <- ->. eauto.
Qed.
Lemma contains_iff p s : contains p s = true <-> occurs p s.
Proof.
  induction s as [|y s IH].
  - cbn [contains]. rewrite Bool.orb_true_iff, has_prefix_iff. split.
    + intros [[b H]|H]; [|discriminate]. exists [], b. exact H.
    + intros (a & b & H). left. destruct a; [|discriminate]. exists b. exact H.
  - cbn [contains]. rewrite Bool.orb_true_iff, has_prefix_iff, IH. split.
    + intros [[b H]|(a & b & H)]; [exists [], b; exact H|]. exists (y :: a), b. cbn. now rewrite H.
    + intros (a & b & H). destruct a as [|z a]; [left; exists b; exact H|]. right. cbn in H. injection H as <- ->. exists a, b. reflexivity.
Qed.
Lemma contains_false p s : contains p s = false <-> ~ occurs p s.
Proof. rewrite <- contains_iff. destruct (contains p s); intuition congruence. Qed.

Lemma is_word_iff b : is_word b = true <-> word_char b.
Proof.
  unfold is_word, is_digit, word_char. rewrite !Bool.orb_true_iff, !Bool.andb_true_iff, !N.leb_le, N.eqb_eq. tauto.
Qed.
Lemma words_then_dot_iff s : words_then_dot s = true <-> exists w b, s = w ++ str "." ++ b /\ Forall word_char w.
Proof.
  induction s as [|x s IH]; cbn [words_then_dot].
  - split; [discriminate|]. intros ([|] & b & H & _); discriminate H.
  - rewrite Bool.orb_true_iff, Bool.andb_true_iff, N.eqb_eq, is_word_iff, IH. split.
    + intros [->|(Hx & w & b & -> & Hw)]; [exists [], s; split; [reflexivity|constructor]|].
      exists (x :: w), b. split; [reflexivity|now constructor].
    + intros ([|y w] & b & H & Hw).
      * left. now injection H.
      * right. injection H as -> ->. inversion Hw; subst. split; [assumption|]. now exists w, b.
Qed.
Lemma nvme_word_dot_iff s : nvme_word_dot s = true <-> exists a w b, s = a ++ str "nvme-" ++ w ++ str "." ++ b /\ Forall word_char w.
Proof.
  assert (H0 : forall s, has_prefix (str "nvme-") s && words_then_dot (skipn 5 s) = true
                <-> exists w b, s = str "nvme-" ++ w ++ str "." ++ b /\ Forall word_char w).
  { clear. intros s. rewrite Bool.andb_true_iff, has_prefix_iff. split.
    - intros [[b ->] H]. change (skipn 5 (str "nvme-" ++ b)) with b in H. apply words_then_dot_iff in H as (w & c & -> & Hw). eauto.
    - intros (w & b & -> & Hw). split; [eauto|]. change (skipn 5 (str "nvme-" ++ w ++ str "." ++ b)) with (w ++ str "." ++ b).
      apply words_then_dot_iff. eauto. }
  induction s as [|y s IH].
  - cbn [nvme_word_dot]. rewrite Bool.orb_true_iff, H0. split.
    + intros [(w & b & H & _)|H]; discriminate.
    + intros ([|] & w & b & H & _); discriminate.
  - cbn [nvme_word_dot]. rewrite Bool.orb_true_iff, H0, IH. split.
    + intros [(w & b & H & Hw)|(a & w & b & -> & Hw)]; [exists [], w, b; auto|]. exists (y :: a), w, b. auto.
    + intros ([|z a] & w & b & H & Hw); [left; exists w, b; auto|]. right. cbn [app] in H. injection H as <- ->. exists a, w, b. auto.
Qed.
Lemma skip_pat_iff n : skip_pat n = true <-> ignored_id n.
Proof. unfold skip_pat, ignored_id. rewrite !Bool.orb_true_iff, nvme_word_dot_iff, !contains_iff. tauto. Qed.
Lemma skip_pat_false n : skip_pat n = false <-> ~ ignored_id n.
Proof. rewrite <- skip_pat_iff. destruct (skip_pat n); intuition congruence. Qed.

Lemma cut_spec sep s : let (x, y) := cut sep s in ~ In sep x /\ (s = x ++ sep :: y \/ (x = s /\ y = [])).
Proof.
  induction s as [|b s IH]; cbn [cut]; [now split; [intros []|right]|].
  destruct (N.eqb_spec b sep) as [->|Hb]; [split; [intros []|now left]|].
  destruct (cut sep s) as [x y]. destruct IH as [A B]. split.
  - intros [H|H]; auto.
  - destruct B as [->|[-> ->]]; auto.
Qed.
Lemma in_split_last (a : N) l : In a l -> exists u v, l = u ++ a :: v /\ ~ In a v.
Proof.
  induction l as [|b l IH]; intros H; [destruct H|].
  destruct (in_dec N.eq_dec a l) as [Hi|Hi].
  - destruct (IH Hi) as (u & v & -> & Hv). now exists (b :: u), v.
  - destruct H as [->|H]; [|contradiction]. now exists [], l.
Qed.
Lemma cut_last_some sep s x y : cut_last sep s = Some (x, y) <-> s = x ++ sep :: y /\ ~ In sep y.
Proof.
  revert x y. induction s as [|b s IH]; intros x y; cbn [cut_last].
  - split; [discriminate|]. intros [H _]. destruct x; discriminate.
  - destruct (cut_last sep s) as [[u v]|] eqn:E.
    + destruct (proj1 (IH u v) eq_refl) as [-> Hv]. split.
      * intros H. injection H as <- <-. auto.
      * intros [H Hy]. destruct x as [|z x].
        -- exfalso. injection H as _ H. apply Hy. rewrite <- H. apply in_or_app. right. now left.
        -- injection H as -> H. assert (G : Some (u, v) = Some (x, y)) by (apply IH; auto). injection G as -> ->. reflexivity.
    + assert (Hn : ~ In sep s).
      { intros Hi. destruct (in_split_last sep s Hi) as (u & v & -> & Hv). assert (C : None = Some (u, v)) by (apply IH; auto). discriminate. }
      destruct (N.eqb_spec b sep) as [->|Hb].
      * split.
        -- intros H. injection H as <- <-. auto.
        -- intros [H Hy]. destruct x as [|z x]; [now injection H as ->|]. exfalso. injection H as -> H. apply Hn. rewrite H. apply in_or_app. right. now left.
      * split; [discriminate|]. intros [H Hy]. exfalso. destruct x as [|z x]; [injection H as -> _; congruence|]. injection H as -> H. apply Hn. rewrite H. apply in_or_app. right. now left.
Qed.
Lemma cut_last_none sep s : cut_last sep s = None <-> ~ In sep s.
Proof.
  destruct (cut_last sep s) as [[x y]|] eqn:E.
  - apply cut_last_some in E as [-> _]. split; [discriminate|]. intros H. exfalso. apply H, in_or_app. right. now left.
  - split; [|reflexivity]. intros _ Hi. destruct (in_split_last sep s Hi) as (u & v & Hs & Hv).
    assert (C : cut_last sep s = Some (u, v)) by (now apply cut_last_some). congruence.
Qed.
Lemma id_parts_of id front serial : cut_last 95 id = Some (front, serial) -> id_parts id (snd (cut 45 front)) serial.
Proof.
  intros H. apply cut_last_some in H as [-> Hs]. exists front. split; [reflexivity|]. split; [exact Hs|].
  pose proof (cut_spec 45 front) as C. destruct (cut 45 front) as [x y]. destruct C as [Hx [->|[-> ->]]]; [left|right]; cbn [snd]; eauto.
Qed.
Lemma id_parts_unique id m s m' s' : id_parts id m s -> id_parts id m' s' -> m = m' /\ s = s'.
Proof.
  intros (f & E & Hs & Hf) (f' & E' & Hs' & Hf').
  assert (A : cut_last 95 id = Some (f, s)) by (apply cut_last_some; auto).
  assert (B : cut_last 95 id = Some (f', s')) by (apply cut_last_some; auto).
  rewrite A in B. injection B as <- <-. split; [|reflexivity].
  assert (G : forall x, (exists bus, f = bus ++ str "-" ++ x /\ ~ In 45 bus) \/ (~ In 45 f /\ x = []) -> x = snd (cut 45 f)).
  { clear. intros x H. pose proof (cut_spec 45 f) as C. destruct (cut 45 f) as [u v]. cbn [snd]. destruct C as [Hu C].
    assert (K : forall u bus v x, ~ In 45 u -> ~ In 45 bus -> u ++ 45 :: v = bus ++ 45 :: x -> x = v).
    { clear. induction u as [|a u IH]; intros [|b bus] v x Hu Hb H; cbn [app] in H.
      - now injection H as ->.
      - exfalso. injection H as H _. apply Hb. left. now symmetry.
      - exfalso. injection H as H _. apply Hu. left. exact H.
      - injection H as _ H. apply IH with bus; [intros C; apply Hu; now right|intros C; apply Hb; now right|exact H]. }
    destruct H as [(bus & E & Hb)|[Hn ->]].
    - destruct C as [C|[-> ->]].
      + apply (K u bus); try assumption. rewrite <- C. exact E.
      + exfalso. apply Hu. rewrite E. apply in_or_app. right. now left.
    - destruct C as [->|[-> ->]]; [|reflexivity]. exfalso. apply Hn, in_or_app. right. now left. }
  rewrite (G m Hf). now rewrite (G m' Hf').
Qed.
Lemma id_parts_iff id : (exists m s, id_parts id m s) <-> In 95 id.
Proof.
  split.
  - intros (m & s & f & -> & _). apply in_or_app. right. now left.
  - intros H. destruct (cut_last 95 id) as [[f s]|] eqn:E; [|apply cut_last_none in E; contradiction].
    eexists. eexists. eapply id_parts_of. exact E.
Qed.

