(** Lemmas for C167, C168. *)
From Verif Require Import Base M_Buffer M_Struc M_Layouts M_Ata M_TcgDevice M_DriveHandle M_Cdb M_SgDriver M_NvmeLinux M_Strings M_LinuxFactory M_LinuxVolume M_LinuxMachine
  M_WinPass M_WinNvme M_WinInfo M_WinFactory M_WinEnum M_WinMachine Spec_WorkWin P_DriveHandle P_AloneWin P_AloneWin2 P_WorkWin P_WorkWin2 Spec_SteadyWin P_SteadyWin
  Spec_LinuxVolume P_Discovery P_WinNvme Spec_WinEnum Prop_WinEnum M_Utf16 Spec_Utf16 P_Utf16 Spec_WinNames.

Lemma stored_utf16 us : stored us = utf16 us.
Proof. induction us as [|u t IH]; [reflexivity|]. cbn [stored utf16]. now rewrite IH. Qed.
Lemma answer_detail us room : path_answer us room = detail_of us room.
Proof. unfold path_answer, detail_of. now rewrite stored_utf16. Qed.
Lemma path_listed X h d i us buf : (forall g room, x_detail X (g ++ [XDetail d (N.of_nat i) room]) = path_answer us room) -> name_units us -> needs us <= 2 ^ 31 ->
  (1024 <= List.length buf)%nat -> exists asks buf', device_path X h d (N.of_nat i) buf = (h ++ asks, (buf', Ok (Some (x_text X us)))) /\ (1024 <= List.length buf')%nat
    /\ Forall (fun e => exists n, e = XDetail d (N.of_nat i) n) asks /\ (1 <= List.length asks <= 2)%nat.
Proof.
  intros Dt Fu Sz Lb. change (needs us) with (detail_size us) in Sz. unfold device_path, get_detail. cbv zeta.
  rewrite Dt, answer_detail. unfold detail_of at 1. destruct (N.ltb_spec (blen buf) (detail_size us)) as [R|R].
  - change (122 =? 122) with true. cbv iota. assert (D0 : 0 < detail_size us <= 2 ^ 31) by (split; [unfold detail_size; lia|exact Sz]).
    destruct (round_1024_room _ D0) as [R1 R0]. destruct (N.eqb_spec (round_1024 (detail_size us)) 0) as [Q|_]; [contradiction|].
    rewrite Dt, answer_detail. unfold detail_of. set (n := round_1024 (detail_size us)) in *.
    assert (Lz : blen (zeros (N.to_nat n)) = n) by (unfold blen; rewrite len_zeros; lia). rewrite Lz. destruct (N.ltb_spec n (detail_size us)) as [Q|_]; [lia|].
    change (0 =? 0) with true. cbv iota.
    assert (Lp : List.length (put 0 (le_bytes 4 8) (zeros (N.to_nat n))) = N.to_nat n).
    { rewrite put_length_le; [apply len_zeros|]. rewrite len_zeros. change (List.length (le_bytes 4 8)) with 4%nat. unfold detail_size in R1. lia. }
    rewrite (path_of_detail X (put 0 (le_bytes 4 8) (zeros (N.to_nat n))) us Fu Sz) by (rewrite Lp; lia). rewrite <- app_assoc.
    eexists [_; _], _. split; [reflexivity|]. split; [rewrite fill_length, Lp; unfold blen in R; lia|]. split; [|cbn; lia]. repeat constructor; eexists; reflexivity.
  - change (0 =? 122) with false. change (0 =? 0) with true. cbv iota.
    assert (Lp : List.length (put 0 (le_bytes 4 8) buf) = List.length buf) by (apply put_length_le; change (List.length (le_bytes 4 8)) with 4%nat; lia).
    rewrite (path_of_detail X (put 0 (le_bytes 4 8) buf) us Fu Sz) by (rewrite Lp; unfold blen in R; lia).
    eexists [_], _. split; [reflexivity|]. split; [rewrite fill_length, Lp; exact Lb|]. split; [|cbn; lia]. repeat constructor; eexists; reflexivity.
Qed.
Lemma handle_grows S A h hd path : exists t, fst (win_open_by_handle S A h hd path) = h ++ t.
Proof.
  unfold win_open_by_handle. destruct (basic_goes S h hd) as (t1 & E1 & _). destruct (win_basic_info S h hd) as [h2 b]. cbn [fst] in E1. subst h2. destruct b as [basic|e| |].
  - match goal with |- context [win_probes S A ?g hd ?y win_drivers] => pose proof (probes_goes S A hd y 2 win_drivers g) as P; destruct (win_probes S A g hd y win_drivers) as [h3 r] end. cbn [fst snd] in P.
    destruct r as [[x1|]|e| |].
    + destruct P as (_ & t & E & _). cbn [fst]. subst h3. rewrite <- app_assoc. eauto.
    + destruct P as (c & n & (t & E & _) & _). subst h3. destruct (storage_goes S ((h ++ t1) ++ t) hd) as (t2 & E2 & _). destruct (win_storage_query S ((h ++ t1) ++ t) hd) as [h4 q]. cbn [fst] in E2. subst h4.
      rewrite <- !app_assoc. destruct q; cbn [fst]; eauto.
    + destruct P.
    + destruct P as (t & E & _). cbn [fst]. subst h3. rewrite <- app_assoc. eauto.
    + destruct P as (t & E & _). cbn [fst]. subst h3. rewrite <- app_assoc. eauto.
  - cbn [fst]. unfold close_handle. eauto.
  - cbn [fst]. eauto.
  - cbn [fst]. eauto.
Qed.
Lemma open_starts S A path : existsb (N.eqb 0) path = false -> exists w, fst (win_open_by_path S A [] path) = WOpen path :: w.
Proof.
  intros E. unfold win_open_by_path. rewrite E. unfold open_device. cbv zeta. cbn [app]. destruct (s_open S [WOpen path]) as [e|hd]; [cbn [fst]; eauto|].
  destruct (handle_grows S A [WOpen path] hd path) as (t & Et). destruct (win_open_by_handle S A [WOpen path] hd path) as [h2 q]. cbn [fst] in Et. subst h2.
  destruct q; cbn [fst]; unfold close_handle; cbn [app]; eauto.
Qed.
Lemma text_survives m us : name_units us -> survives m us -> string_to_utf16 m (utf16_to_string m us) = Some us.
Proof.
  intros W Sv. pose proof (name_nul_free us W) as Z. unfold utf16_to_string. rewrite nul_free by exact Z. destruct Sv as [->|(s & cs & Sc & Eu & _)].
  - destruct (modern_runes _ us (le_n _) W) as [K E]. rewrite (bytes_of_runes true _ K), to_utf16; [now rewrite E|exact K|now rewrite E].
  - subst us. rewrite scalar_runes by exact Sc. assert (K : Forall (kept m) cs) by (eapply Forall_impl; [|exact Sc]; intros c Hc; now left).
    rewrite (bytes_of_runes m _ K). now apply to_utf16.
Qed.
Lemma no_nul_name m p us : create_file_name m p = Some us -> existsb (N.eqb 0) p = false.
Proof. unfold create_file_name, string_to_utf16. now destruct (existsb (N.eqb 0) p). Qed.
Lemma skipn_nth {A} (l : list A) i x : nth_error l i = Some x -> skipn i l = x :: skipn (S i) l.
Proof. revert l. induction i as [|i IH]; intros [|y l] E; try discriminate; [now injection E as ->|]. cbn. now apply IH. Qed.
Lemma devices_visited m X d ds : sane X -> (forall us, x_text X us = utf16_to_string m us) -> device_list X ds -> Forall (survives m) ds ->
  forall k fuel h i buf xs0 h' xs, (List.length ds = i + k)%nat -> (1024 <= List.length buf)%nat -> enum_devices X fuel h d i buf xs0 = (h', (xs, Ok tt)) ->
  exists rest ys, visits m d i (skipn i ds) rest ys /\ h' = h ++ rest /\ xs = xs0 ++ ys.
Proof.
  intros Sa Tx (Cn & Dv & Ld & Nm) Sv. induction k as [|k IH]; intros fuel h i buf xs0 h' xs Li Lb E; (destruct fuel as [|f]; [discriminate|]); cbn [enum_devices] in E; rewrite Dv in E.
  - destruct (Nat.ltb_spec i (List.length ds)) as [Q|_]; [lia|]. injection E as <- <-. rewrite skipn_all2 by lia. exists [XDevInfo d i], []. split; [constructor|]. now rewrite app_nil_r.
  - destruct (Nat.ltb_spec i (List.length ds)) as [_|Q]; [|lia]. cbn [negb] in E.
    destruct (nth_error ds i) as [us|] eqn:Ni; [|apply nth_error_None in Ni; lia].
    assert (Ej : N.of_nat i mod 2 ^ 32 = N.of_nat i) by (apply N.mod_small; lia). rewrite Ej in E.
    assert (If : x_iface X ((h ++ [XDevInfo d i]) ++ [XInterface d (N.of_nat i)]) = 0) by (apply (Ld _ d i us Ni)). rewrite If in E.
    change (0 =? 259) with false in E. change (negb (0 =? 0)) with false in E. cbv iota in E.
    rewrite Forall_forall in Nm. destruct (Nm us (nth_error_In _ _ Ni)) as [Wu Su].
    destruct (path_listed X ((h ++ [XDevInfo d i]) ++ [XInterface d (N.of_nat i)]) d i us buf (fun g => proj2 (Ld g d i us Ni)) Wu Su Lb) as (asks & b1 & Dp & Lb1 & As & An).
    rewrite Dp in E. clear Dp. set (h3 := (((h ++ [XDevInfo d i]) ++ [XInterface d (N.of_nat i)]) ++ asks)) in *. set (p := x_text X us) in *.
    assert (Cp : create_file_name m p = Some us).
    { unfold p, create_file_name. rewrite Tx. apply text_survives; [exact Wu|]. rewrite Forall_forall in Sv. exact (Sv us (nth_error_In _ _ Ni)). }
    assert (Go : forall o q h4 rest ys, x_open_by_path X h3 p = (h4, q) -> (forall x, o = Some x -> q = Ok x) -> visits m d (S i) (skipn (S i) ds) rest ys ->
       exists t, visits m d i (skipn i ds) t (match o with Some x => x :: ys | None => ys end) /\ h4 ++ rest = h ++ t).
    { intros o q h4 rest ys Eo Q V. unfold x_open_by_path in Eo.
      destruct (open_starts (wsys_at X h3) (waddr_at X h3) p (no_nul_name _ _ _ Cp)) as (w & Ew).
      destruct (win_open_by_path (wsys_at X h3) (waddr_at X h3) [] p) as [w0 q0] eqn:E0. cbn [fst] in Ew. subst w0. injection Eo as <- <-.
      exists ([XDevInfo d i; XInterface d (N.of_nat i)] ++ asks ++ XSys (WOpen p) :: map XSys w ++ rest). split.
      - rewrite (skipn_nth _ _ _ Ni). apply visits_one; try assumption. intros x Ex. specialize (Q x Ex). subst q0.
        eapply (opened_drive X h3 p _ x Sa). unfold x_open_by_path. rewrite E0. reflexivity.
      - unfold h3. cbn [map app]. rewrite <- !app_assoc. cbn [app]. rewrite <- ?app_assoc. reflexivity. }
    destruct (x_open_by_path X h3 p) as [h4 [y|e| |]] eqn:Eo; try discriminate.
    + apply IH in E; [|lia|exact Lb1]. destruct E as (rest & ys & V & -> & ->). destruct (Go (Some y) (Ok y) h4 rest ys eq_refl ltac:(congruence) V) as (t & V1 & E1).
      exists t, (y :: ys). split; [exact V1|]. split; [exact E1|]. now rewrite <- app_assoc.
    + apply IH in E; [|lia|exact Lb1]. destruct E as (rest & ys & V & -> & ->). destruct (Go None (Err e) h4 rest ys eq_refl ltac:(congruence) V) as (t & V1 & E1).
      exists t, ys. now split.
Qed.

(** ---- volumes ---- *)
Lemma runes_of m us : name_units us -> survives m us -> exists cs, Forall (kept m) cs /\ us = flat_map utf16_of cs /\ utf16_to_string m us = flat_map utf8_of cs.
Proof.
  intros W Sv. pose proof (name_nul_free us W) as Z. unfold utf16_to_string. rewrite nul_free by exact Z. destruct Sv as [->|(s & cs & Sc & Eu & _)].
  - destruct (modern_runes _ us (le_n _) W) as [K E]. exists (units_runes true us). split; [exact K|]. split; [now rewrite E|now apply (bytes_of_runes true)].
  - subst us. assert (K : Forall (kept m) cs) by (eapply Forall_impl; [|exact Sc]; intros c Hc; now left).
    exists cs. rewrite scalar_runes by exact Sc. split; [exact K|]. split; [reflexivity|now apply (bytes_of_runes m)].
Qed.
Lemma last_utf8 c r : c < 0x110000 -> utf8_of c = r ++ [92] -> c = 92.
Proof.
  intros L. destruct (shaped c L) as [c G|a b A B|a b d A B D G|a b d e A B D F G]; intros E.
  - destruct r as [|? [|? ?]]; try discriminate. now injection E.
  - destruct r as [|? [|? [|? ?]]]; try discriminate. injection E as _ E. lia.
  - destruct r as [|? [|? [|? [|? ?]]]]; try discriminate. injection E as _ _ E. lia.
  - destruct r as [|? [|? [|? [|? [|? ?]]]]]; try discriminate. injection E as _ _ _ E. lia.
Qed.
Lemma ends_in_slash m us : name_units us -> survives m us -> (forall r, us <> r ++ [92]) -> forall r, utf16_to_string m us <> r ++ [92].
Proof.
  intros W Sv Ns r E. destruct (runes_of m us W Sv) as (cs & K & Eu & Et). rewrite Et in E. clear Et.
  destruct cs as [|c0 cs0]; [destruct r; discriminate|]. assert (X : exists l c, c0 :: cs0 = l ++ [c]) by (exists (removelast (c0 :: cs0)), (last (c0 :: cs0) 0); now apply app_removelast_last).
  destruct X as (l & c & X). rewrite X in *. clear X c0 cs0. rewrite flat_map_app in E, Eu. cbn [flat_map] in E, Eu. rewrite app_nil_r in E, Eu.
  apply Forall_app in K as [_ K]. inversion K as [|? ? Kc _]; subst. pose proof (kept_lt _ _ Kc) as L. destruct (utf8_some c L) as (b0 & t0 & E0).
  assert (Y : exists q, utf8_of c = q ++ [92]).
  { exists (removelast (utf8_of c)). assert (Ne : utf8_of c <> []) by (rewrite E0; discriminate). rewrite (app_removelast_last 0 Ne) at 1. f_equal.
    rewrite (app_removelast_last 0 Ne), app_assoc in E. apply app_inj_tail in E as [_ E]. now rewrite E. }
  destruct Y as (q & Y). apply last_utf8 in Y; [|exact L]. subst c. apply (Ns (flat_map utf16_of l)). reflexivity.
Qed.
Lemma trim_none (s : bytes) : (forall r, s <> r ++ [92]) -> trim_suffix 92 s = s.
Proof.
  intros H. unfold trim_suffix. destruct (rev s) as [|x t] eqn:E; [reflexivity|]. destruct (x =? 92) eqn:Ex; [|reflexivity].
  apply N.eqb_eq in Ex. subst x. exfalso. apply (H (rev t)). rewrite <- (rev_involutive s), E. reflexivity.
Qed.
Lemma opens_app a b : volume_opens (a ++ b) = volume_opens a ++ volume_opens b.
Proof. apply flat_map_app. Qed.
Lemma volume_named X h name fs0 data0 h' hs it fs1 data1 : volume X h name fs0 data0 h' hs it fs1 data1 ->
  exists t v, h' = h ++ t /\ volume_opens t = [v] /\ wv_path it = x_text X v /\ ~ In 0 v /\ forall r, v <> r ++ [92].
Proof.
  intros [(v & v1 & (Z & _) & (k & Ev & Ns) & A)]. cbv zeta in A. destruct A as (P & _ & _ & _ & A). 
  assert (Z1 : ~ In 0 v1) by (intros I; apply Z; rewrite Ev; apply in_app_iff; now left).
  assert (Go : forall u, volume_opens u = [] -> exists t v0, ((((h ++ [XPathNames v]) ++ [XVolumeInfo v]) ++ [XDriveType v]) ++ [XVolumeOpen v1]) ++ u = h ++ t /\ volume_opens t = [v0] /\
     wv_path it = x_text X v0 /\ ~ In 0 v0 /\ (forall r, v0 <> r ++ [92])).
  { intros u Hu. exists ([XPathNames v; XVolumeInfo v; XDriveType v; XVolumeOpen v1] ++ u), v1. split; [now rewrite <- !app_assoc|]. rewrite opens_app, Hu. cbn. auto. }
  destruct (x_vopen X _) as [e|hd].
  - destruct A as (-> & _). rewrite <- (app_nil_r (_ ++ [XVolumeOpen v1])). now apply Go.
  - destruct A as (_ & _ & A1 & A2). match type of A1 with wa_err ?q <> 0 -> _ => destruct (N.eq_dec (wa_err q) 0) as [O|O] end.
    + destruct (A2 O) as (_ & B). destruct (wv_extents it) as [|e es]; destruct B as (-> & _); [now apply Go|]. rewrite <- app_assoc. now apply Go.
    + destruct (A1 O) as (-> & _). now apply Go.
Qed.
Lemma volumes_named X f h name fs0 data0 h' hs its : volumes X f h name fs0 data0 h' hs its ->
  exists t, h' = h ++ t /\ map wv_path its = map (x_text X) (volume_opens t) /\ Forall (fun v => ~ In 0 v /\ forall r, v <> r ++ [92]) (volume_opens t).
Proof.
  induction 1 as [h name fs0 data0 h1 hs it fs1 data1 e V Ne|h name fs0 data0 h1 hs it fs1 data1 us name1 h2 hs2 its V Ne Nb Vs (t2 & E2 & M2 & F2)];
    destruct (volume_named _ _ _ _ _ _ _ _ _ _ V) as (t & v & -> & Ev & P & Z & Ns).
  - exists (t ++ [XFindNext f]). rewrite app_assoc, opens_app, Ev. cbn. rewrite P. auto.
  - exists (t ++ [XFindNext f] ++ t2). rewrite E2, !opens_app, Ev. cbn [volume_opens flat_map app map]. split; [now rewrite <- !app_assoc|]. split; [now rewrite P, M2|]. constructor; auto.
Qed.
Lemma closings_no_open hs : volume_opens (volume_closings hs) = [].
Proof. unfold volume_closings. induction (rev hs) as [|x l IH]; [reflexivity|exact IH]. Qed.
