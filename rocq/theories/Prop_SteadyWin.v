(** Property theorems C146: on an unchanged Windows machine the reports are the same each time and do not depend on the other drives. *)
From Verif Require Import Base M_Buffer M_TcgDevice M_DriveHandle M_SgDriver M_Strings M_WinPass M_WinNvme M_WinInfo M_WinFactory M_WinEnum P_Discovery P_DriveHandle P_Sg P_WinPass P_WinNvme Prop_WinNvme Spec_Steady Spec_SteadyWin P_SteadyWin.

(** Opening one path, at any two moments (and even on two machines on which that drive is the same), gives the same outcome. *)
Theorem C146_open_again : forall X X' M M' h h' path, wsteady X M -> wsteady X' M' -> same_drive M M' path ->
  seen wreport (snd (x_open_by_path X h path)) = seen wreport (snd (x_open_by_path X' h' path)).
Proof. intros X X' M M' h h' path St St' E. exact (win_open_like X X' M M' h h' path St St' (reach_of _ _ _ E)). Qed.
Print Assumptions C146_open_again.
(** ... in particular on one machine. *)
Theorem C146_open_same : forall X M h h' path, wsteady X M -> seen wreport (snd (x_open_by_path X h path)) = seen wreport (snd (x_open_by_path X h' path)).
Proof. intros X M h h' path St. exact (win_open_like X X M M h h' path St St (reach_refl M path)). Qed.
Print Assumptions C146_open_same.

(** Enumerating again gives the same list of reports, or the same failure, whatever the device list looks like. *)
Theorem C146_enum_again : forall X M fuel h h', wsteady X M ->
  seen (map wreport) (snd (win_enum_drives X fuel h)) = seen (map wreport) (snd (win_enum_drives X fuel h')).
Proof.
  intros X M fuel h h' St. unfold win_enum_drives. cbv zeta. pose proof (st_class _ _ St h) as C. pose proof (st_class _ _ St h') as C'.
  destruct (wm_class M) as [e|]; [now rewrite C, C'|]. destruct C as (d & C). destruct C' as (d' & C'). rewrite C, C'.
  pose proof (devices_like X X M d d' St St (fun _ => eq_refl) fuel (h ++ [XClassDevs]) (h' ++ [XClassDevs]) 0 (zeros 1024) [] [] (listing_new _ _ _ C) (listing_new _ _ _ C') eq_refl) as G.
  destruct (enum_devices X fuel (h ++ _) d 0 _ []) as [h2 [xs r]], (enum_devices X fuel (h' ++ _) d' 0 _ []) as [h2' [xs' r']]. unfold devices_seen in G. cbn [fst snd] in G.
  apply pair_equal_spec in G as [G1 <-]. destruct r; cbn [snd seen]; try reflexivity. now rewrite G1.
Qed.
Print Assumptions C146_enum_again.

(** Where SetupAPI lists the devices [ds] as documented, EnumDrives reports, in their order, what OpenByPath reports for each of their paths at
    any other moment; a device that cannot be opened is left out, and a panic for one of them is a panic of the whole. *)
Theorem C146_enum_is_open : forall X M ds fuel h g, wsteady X M -> lists M ds -> (List.length ds < fuel)%nat ->
  seen (map wreport) (snd (win_enum_drives X fuel h)) = collect (map (fun us => seen wreport (snd (x_open_by_path X g (x_text X us)))) ds).
Proof.
  intros X M ds fuel h g St Ls Lf. unfold win_enum_drives. cbv zeta. pose proof (st_class _ _ St h) as C. pose proof Ls as (Cn & _). rewrite Cn in C. destruct C as (d & C). rewrite C.
  assert (Lz : (1024 <= List.length (zeros 1024))%nat) by (rewrite len_zeros; apply le_n).
  pose proof (devices_listed X M d ds g St Ls (List.length ds) fuel (h ++ [XClassDevs]) 0 (zeros 1024) [] eq_refl Lf (listing_new _ _ _ C) Lz) as G. cbv zeta in G. clear Lz.
  change (skipn 0 ds) with ds in G. change (map (opened_elsewhere X g) ds) with (map (fun us => seen wreport (snd (x_open_by_path X g (x_text X us)))) ds) in G.
  destruct (enum_devices X fuel (h ++ _) d 0 _ []) as [h2 [xs r]]. cbn [fst snd] in G. destruct (collect _) as [rs|e| |]; [|contradiction|subst r; reflexivity|subst r; reflexivity].
  destruct G as [G1 ->]. cbn [snd seen]. now rewrite G1.
Qed.
Print Assumptions C146_enum_is_open.

(** Plugging in one more drive adds at most its own report and changes no other; and if EnumDrives works with it, it works without it. *)
Theorem C146_other_drives : forall X X' M M' fuel fuel' h h' a b us rs', wsteady X M -> wsteady X' M' -> (forall u, x_text X u = x_text X' u) ->
  lists M (a ++ b) -> lists M' (a ++ us :: b) -> (forall v, In v (a ++ b) -> same_drive M M' (x_text X v)) ->
  (List.length (a ++ b) < fuel)%nat -> (List.length (a ++ us :: b) < fuel')%nat ->
  seen (map wreport) (snd (win_enum_drives X' fuel' h')) = Ok rs' ->
  exists before added after, seen (map wreport) (snd (win_enum_drives X fuel h)) = Ok (before ++ after) /\ rs' = before ++ added ++ after
    /\ (added = [] \/ exists x, added = [x] /\ seen wreport (snd (x_open_by_path X' h' (x_text X' us))) = Ok x).
Proof.
  intros X X' M M' fuel fuel' h h' a b us rs' St St' Tx Ls Ls' Sd Lf Lf' E.
  rewrite (C146_enum_is_open X M (a ++ b) fuel h h St Ls Lf). rewrite (C146_enum_is_open X' M' (a ++ us :: b) fuel' h' h' St' Ls' Lf') in E.
  set (f := fun us => seen wreport (snd (x_open_by_path X h (x_text X us)))). set (f' := fun us => seen wreport (snd (x_open_by_path X' h' (x_text X' us)))) in E.
  assert (Ef : forall v, In v (a ++ b) -> f v = f' v) by (intros v Hv; unfold f, f'; rewrite <- Tx; apply (C146_open_again X X' M M'); auto).
  assert (Ea : map f a = map f' a) by (apply map_ext_in; intros v Hv; apply Ef, in_or_app; now left).
  assert (Eb : map f b = map f' b) by (apply map_ext_in; intros v Hv; apply Ef, in_or_app; now right).
  rewrite map_app, collect_app, Ea, Eb. rewrite map_app, collect_app in E. cbn [map] in E.
  destruct (collect (map f' a)) as [xa|e| |]; try discriminate E.
  cbn [collect] in E. change (seen wreport (snd (x_open_by_path X' h' (x_text X' us)))) with (f' us).
  destruct (f' us) as [x|e| |]; try discriminate E; destruct (collect (map f' b)) as [xb|e'| |]; try discriminate E;
    pose proof (f_equal (fun r => match r with Ok v => v | _ => [] end) E) as E1; cbv beta iota in E1; subst rs'.
  - exists xa, [x], xb. split; [reflexivity|]. split; [reflexivity|]. right. eauto.
  - exists xa, [], xb. split; [reflexivity|]. split; [reflexivity|]. now left.
Qed.
Print Assumptions C146_other_drives.

(** EnumVolumes gives the same volumes each time, or the same failure. *)
Theorem C146_volumes_again : forall X M fuel h h', wsteady X M -> snd (win_enum_volumes X fuel h) = snd (win_enum_volumes X fuel h').
Proof.
  intros X M fuel h h' St. unfold win_enum_volumes. cbv zeta. pose proof (st_first _ _ St (h ++ [XErrorMode 1])) as F. pose proof (st_first _ _ St (h' ++ [XErrorMode 1])) as F'.
  destruct (wm_first M) as [e|us]; [now rewrite F, F'|]. destruct F as (f & F). destruct F' as (f' & F'). rewrite F, F'.
  pose proof (volumes_like X X M f f' St St (fun _ => eq_refl) fuel ((h ++ [XErrorMode 1]) ++ [XFindFirst]) ((h' ++ [XErrorMode 1]) ++ [XFindFirst]) (fill (zeros 320) us)
    {| vb_fs := zeros 128; vb_data := zeros page |} [] [] [] 0 (finding_new _ _ _ _ F) (finding_new _ _ _ _ F')) as G.
  destruct (volume_loop X fuel _ f _ _ _ _) as [h3 [hs r]], (volume_loop X fuel _ f' _ _ _ _) as [h3' [hs' r']]. cbn [snd] in G. subst r'. destruct r; reflexivity.
Qed.
Print Assumptions C146_volumes_again.
