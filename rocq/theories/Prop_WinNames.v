(** Property theorems C166-C168: names on Windows (UTF-16) and in Go (UTF-8). *)
From Verif Require Import Base M_Buffer M_Struc M_Layouts M_Ata M_TcgDevice M_DriveHandle M_Cdb M_SgDriver M_NvmeLinux M_Strings M_LinuxFactory M_LinuxVolume M_LinuxMachine
  M_WinPass M_WinNvme M_WinInfo M_WinFactory M_WinEnum Spec_LinuxVolume P_WinNvme Spec_WinEnum P_WinEnum Prop_WinEnum M_Utf16 Spec_Utf16 P_Utf16 P_Utf16Ascii Spec_WinNames P_WinNames.

(** ---- C166 ---- *)
(** Text survives both conversions: reading gives the UTF-8 spelling, passing that back gives the very units. *)
Theorem C166_read : forall m us s, same_text us s -> ~ In 0 us -> utf16_to_string m us = s.
Proof.
  intros m us s (cs & Sc & -> & ->) Z. unfold utf16_to_string. rewrite nul_free, scalar_runes by assumption. apply (bytes_of_runes m).
  eapply Forall_impl; [|exact Sc]. intros c Hc. now left.
Qed.
Print Assumptions C166_read.
Theorem C166_read_to_nul : forall m us rest, ~ In 0 us -> utf16_to_string m (us ++ 0 :: rest) = utf16_to_string m us.
Proof.
  intros m us rest Z. unfold utf16_to_string. rewrite (nul_free us Z). replace (until_nul (us ++ 0 :: rest)) with (Some us); [reflexivity|]. symmetry.
  induction us as [|u t IH]; [reflexivity|]. cbn [app until_nul]. replace (u =? 0) with false by (symmetry; apply N.eqb_neq; intros ->; apply Z; now left).
  rewrite IH; [reflexivity|]. intros I. apply Z. now right.
Qed.
Print Assumptions C166_read_to_nul.
Theorem C166_pass : forall m us s, same_text us s -> ~ In 0 us -> create_file_name m s = Some us.
Proof. intros m us s (cs & Sc & -> & ->) Z. apply to_utf16; [|exact Z]. eapply Forall_impl; [|exact Sc]. intros c Hc. now left. Qed.
Print Assumptions C166_pass.
(** Every name of the system comes back unchanged if it is well-formed or the toolchain is go 1.21 or later; so different names stay different. *)
Theorem C166_round_trip : forall m us, name_units us -> survives m us -> create_file_name m (utf16_to_string m us) = Some us.
Proof. exact text_survives. Qed.
Print Assumptions C166_round_trip.
Theorem C166_distinct : forall m us vs, name_units us -> name_units vs -> survives m us -> survives m vs ->
  utf16_to_string m us = utf16_to_string m vs -> us = vs.
Proof. intros m us vs W1 W2 S1 S2 E. pose proof (C166_round_trip m us W1 S1) as A. rewrite E, (C166_round_trip m vs W2 S2) in A. now injection A. Qed.
Print Assumptions C166_distinct.
(** A path with a NUL never reaches the system; a plain ASCII path reaches it as it is. *)
Theorem C166_nul : forall m s, In 0 s -> create_file_name m s = None.
Proof. intros m s I. unfold create_file_name, string_to_utf16. now rewrite (proj2 (has_nul s) I). Qed.
Print Assumptions C166_nul.
Theorem C166_ascii : forall m s, Forall (fun b => 0 < b < 128) s -> create_file_name m s = Some s /\ utf16_to_string m s = s.
Proof.
  intros m s W. assert (T : same_text s s).
  { exists s. split; [eapply Forall_impl; [|exact W]; intros c Hc; cbv beta in Hc; split; lia|]. unfold utf16_of, utf8_of.
    assert (X : forall f : N -> list N, (forall c, c < 128 -> f c = [c]) -> s = flat_map f s).
    { intros f Hf. induction W as [|b s Hb W IH]; [reflexivity|]. cbn [flat_map]. rewrite Hf by lia. cbn [app]. now rewrite <- IH. }
    split; apply X; intros c Hc; [replace (c <? 0x10000) with true by (symmetry; apply N.ltb_lt; lia)|replace (c <? 0x80) with true by (symmetry; apply N.ltb_lt; lia)]; reflexivity. }
  assert (Z : ~ In 0 s) by (intros I; rewrite Forall_forall in W; specialize (W 0 I); lia). split; [now apply C166_pass|now apply C166_read].
Qed.
Print Assumptions C166_ascii.
(** No conversion makes or loses an ASCII character: the ASCII units handed to CreateFile are exactly the ASCII bytes of the path, in order -
    malformed and overlong UTF-8 included, so no backslash, colon or dot can be smuggled in - and the same for names read. *)
Theorem C166_ascii_parts : forall m, let ascii := filter (fun u => u <? 128) in
  (forall s us, wf s -> create_file_name m s = Some us -> ascii us = ascii s) /\
  (forall us, ~ In 0 us -> ascii (utf16_to_string m us) = ascii us).
Proof.
  intros m. cbv zeta. split.
  - intros s us W E. unfold create_file_name, string_to_utf16 in E. destruct (existsb (N.eqb 0) s); [discriminate|]. injection E as <-. exact (units_asc m _ s (le_n _) W).
  - intros us Z. unfold utf16_to_string. rewrite (nul_free us Z). etransitivity; [exact (flat_asc _)|]. exact (runes_asc m _ us (le_n _)).
Qed.
Print Assumptions C166_ascii_parts.

(** ---- C167 ---- *)
(** EnumDrives opens exactly the devices listed, in order, each under exactly its path, whatever the drives do; drives report that path. *)
Theorem C167_exact_paths : forall m X fuel h h' xs ds, sane X -> (forall us, x_text X us = utf16_to_string m us) -> device_list X ds -> Forall (survives m) ds ->
  win_enum_drives X fuel h = (h', Ok xs) ->
  exists d steps, x_class X (h ++ [XClassDevs]) = inr d /\ visits m d 0 ds steps xs /\ h' = h ++ [XClassDevs] ++ steps ++ closings xs ++ [XDestroy d].
Proof.
  intros m X fuel h h' xs ds Sa Tx Dl Sv H. unfold win_enum_drives in H. destruct (x_class X (h ++ [XClassDevs])) as [e|d]; [discriminate|].
  destruct (enum_devices X fuel (h ++ [XClassDevs]) d 0 (zeros 1024) []) as (h2, (ys, q)) eqn:E. rewrite close_all in H.
  destruct q as [[]|e| |]; try discriminate. injection H as <- <-.
  destruct (devices_visited m X d ds Sa Tx Dl Sv (List.length ds) _ _ 0%nat (zeros 1024) _ _ _ eq_refl ltac:(rewrite zeros_length; lia) E) as (rest & zs & V & -> & ->).
  exists d, rest. split; [reflexivity|]. split; [exact V|]. cbn [app]. rewrite <- !app_assoc. reflexivity.
Qed.
Print Assumptions C167_exact_paths.

(** ---- C168 ---- *)
(** The Path of a volume is its name as the system got it for opening, in UTF-8, in the order of the enumeration. *)
Theorem C168_volume_paths : forall m X fuel h h' its, sane X -> (forall us, x_text X us = utf16_to_string m us) -> win_enum_volumes X fuel h = (h', Ok its) ->
  exists t, h' = h ++ t /\ map wv_path its = map (utf16_to_string m) (volume_opens t) /\ Forall (fun v => ~ In 0 v /\ forall r, v <> r ++ [92]) (volume_opens t).
Proof.
  intros m X fuel h h' its Sa Tx H. pose proof (C111_enum_volumes _ _ _ _ _ Sa H ltac:(discriminate)) as T. cbv zeta in T.
  destruct (x_first X _) as [e|(f, us)]; [now destruct T|]. destruct T as (name & h3 & hs & _ & -> & [(its' & V & [= <-])|(_ & ?)]); [|discriminate].
  destruct (volumes_named _ _ _ _ _ _ _ _ _ V) as (t & -> & M & F).
  exists ([XErrorMode 1; XFindFirst] ++ t ++ volume_closings hs ++ [XFindClose f; XErrorMode (x_mode X (h ++ [XErrorMode 1]))]). split; [now rewrite <- !app_assoc|].
  rewrite !opens_app, closings_no_open. cbn [volume_opens flat_map app]. rewrite app_nil_r. split; [|exact F]. rewrite M. apply map_ext. exact Tx.
Qed.
Print Assumptions C168_volume_paths.
(** ... so opening the drive of a reported Path leads to the disk of that very volume. *)
Theorem C168_open_by_reported_path : forall m X fuel h0 h0' t its S A h it e es h' r, sane X -> (forall us, x_text X us = utf16_to_string m us) ->
  win_enum_volumes X fuel h0 = (h0', Ok its) -> h0' = h0 ++ t -> NoDup (volume_opens t) -> Forall name_units (volume_opens t) -> Forall (survives m) (volume_opens t) ->
  In it its -> wv_extents it = e :: es -> win_open_by_volume_path S A h its (wv_path it) = (h', r) ->
  exists path q, device_of_disk (ex_disk e) path /\ win_open_by_path S A h path = (h', q) /\ r = Some q.
Proof.
  intros m X fuel h0 h0' t its S A h it e es h' r Sa Tx H Et Nd Wn Sv Hi Ee O. destruct (C168_volume_paths m X fuel h0 h0' its Sa Tx H) as (t' & Et' & M & F).
  rewrite Et in Et'. apply app_inv_head in Et'. subst t'. refine (C115_round_trip X fuel h0 h0' its S A h it e es h' r Sa H _ Hi Ee (wv_path it) _ O).
  - rewrite <- (map_map wv_path (trim_suffix 92)), M, map_map. clear M Et. induction (volume_opens t) as [|v vs IH]; [constructor|]. cbn [map].
    inversion Nd; inversion Wn; inversion Sv; inversion F as [|? ? [_ Ns] F']; subst. constructor; [|now apply IH]. intros I. apply in_map_iff in I as (w & Ew & Iw).
    rewrite Forall_forall in *. rewrite !trim_none in Ew by (apply ends_in_slash; try assumption; try (now apply F'); auto).
    assert (v = w) by (eapply (C166_distinct m); eauto). subst w. contradiction.
  - unfold same_volume, without_slash. destruct (rev (wv_path it)) as [|x u] eqn:E.
    + exists (wv_path it). assert (wv_path it = []) by (rewrite <- (rev_involutive (wv_path it)), E; reflexivity). split; right; (split; [reflexivity|]); intros r0; rewrite H0; destruct r0; discriminate.
    + assert (W : wv_path it = rev u ++ [x]) by (rewrite <- (rev_involutive (wv_path it)), E; reflexivity).
      destruct (N.eq_dec x 92) as [->|Nx]; [exists (rev u); split; left; exact W|]. exists (wv_path it). split; right; (split; [reflexivity|]); intros r0 Er; rewrite W in Er;
        apply app_inj_tail in Er; destruct Er; congruence.
Qed.
Print Assumptions C168_open_by_reported_path.
