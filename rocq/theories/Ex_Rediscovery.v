(** Non-vacuity and refutations for C137 and C138: a drive whose discovery answers change. *)
From Verif Require Import Base M_Ata M_TcgDevice M_DriveHandle Spec_Drive P_Discovery M_Rediscovery Spec_Rediscovery P_Rediscovery Prop_Drive Prop_Rediscovery.

Definition exr_opal : feature := {| ft_code := 0x0203; ft_version := 0x10; ft_body := [7; 0xFE; 0; 1] |}.
Definition exr_locking (b : N) : feature := {| ft_code := 0x0002; ft_version := 0x10; ft_body := [b; 0; 0; 0] |}.
(** Answers of a drive with a 32-byte header; the rest of the buffer stays zero. *)
Definition exr_answer (fs : list feature) : bytes := be_bytes 4 (32 + blen (descriptors fs)) ++ zeros 28 ++ descriptors fs.
(** The first request is answered with [a], later ones with [b]; task files and others too. *)
Definition exr_drive (a b : list feature) : drv :=
  {| v_io := fun h => (None, exr_answer (if (List.length h <=? 1)%nat then a else b)); v_tf := fun _ => tf0; v_identity := fun _ => [];
     v_log := fun _ => ([], None); v_type := fun _ => 0; v_name := fun _ => [] |}.
Definition exr_run (a b : list feature) := hrun (exr_drive a b) fresh_handle [] [HDiscovery; HSec true false 1 0x7FE [1; 2] 5; HDiscovery].
Definition exr_end (a b : list feature) : dh := fst (snd (exr_run a b)).

(** First locked Opal v2, then only Locking, unlocked. *)
Definition exr_a : list feature := [exr_opal; exr_locking 0x07].
Definition exr_b : list feature := [exr_locking 0x03].
Lemma exr_bytes a b : wf (descriptors a) -> wf (descriptors b) -> byte_driver (exr_drive a b).
Proof.
  intros Ha Hb h. cbn [exr_drive v_io snd]. unfold exr_answer. rewrite !wf_app. split; [apply be_bytes_wf|]. split; [apply wf_zeros|].
  now destruct (_ <=? _)%nat.
Qed.
Example exr_setting : byte_driver (exr_drive exr_a exr_b) /\ i_raw_made (p_info fresh_handle) = true
  /\ no_crash (snd (snd (exr_run exr_a exr_b))) /\ List.length (discovery_answers (exr_drive exr_a exr_b) fresh_handle [] [HDiscovery; HSec true false 1 0x7FE [1; 2] 5; HDiscovery]) = 2%nat.
Proof.
  split; [apply exr_bytes; repeat (apply wf_cons; split; [reflexivity|]); apply wf_nil|]. split; [reflexivity|]. split; [|reflexivity].
  unfold no_crash. replace (snd (snd (exr_run exr_a exr_b))) with [OutRes (Ok tt); OutErr None; OutRes (Ok tt)] by (vm_compute; reflexivity).
  cbn [In]. intros [X|[X|[X|[]]]]; discriminate X.
Qed.

(** C137: "the handle reports what the last discovery listed" is refuted - Opal v2 is still reported. *)
Theorem C137_forgets_refuted : ~ (forall V p h h' p' h1 header fs rest, byte_driver V -> i_raw_made (p_info p) = true -> Forall feature_ok fs ->
  level0_read V p h h1 None (header ++ descriptors fs ++ rest) -> List.length header = 32%nat -> be32_at 0 header = 32 + blen (descriptors fs) ->
  tcg_discovery0 V p h = (h', (p', Ok tt)) -> l_opal2 (i_tcg (p_info p')) = listed 0x0203 fs).
Proof.
  intros F. set (V := exr_drive exr_a exr_b).
  set (x := hrun V fresh_handle [] [HDiscovery]).
  assert (B : byte_driver V) by (apply exr_bytes; repeat (apply wf_cons; split; [reflexivity|]); apply wf_nil).
  destruct (tcg_discovery0 V (fst (snd x)) (fst x)) as [h' [p' r]] eqn:E.
  assert (Er : r = Ok tt). { change r with (snd (snd (h', (p', r)))). rewrite <- E. vm_compute. reflexivity. }
  subst r. specialize (F V (fst (snd x)) (fst x) h' p' (fst x ++ [CSec false false 1 1 (zeros 2048) 3])
    (be_bytes 4 (32 + blen (descriptors exr_b)) ++ zeros 28) exr_b (zeros (2048 - 40)) B).
  assert (X : l_opal2 (i_tcg (p_info p')) = true). { change p' with (fst (snd (h', (p', Ok tt)))). rewrite <- E. vm_compute. reflexivity. }
  rewrite X in F. specialize (F ltac:(vm_compute; reflexivity) ltac:(constructor; [split; reflexivity|constructor]) ltac:(unfold level0_read; vm_compute; reflexivity)
    eq_refl eq_refl E). discriminate F.
Qed.
Print Assumptions C137_forgets_refuted.

(** C138: the device made before the second discovery says "not locked" after it, and is still an Opal v2 device with its ComID. *)
Definition exr_device (p : dh) : res device := new_tcg_device (i_tcg (p_info p)) (i_serial (p_info p)) (fun _ _ => 0).
Definition exr_first : dh := fst (snd (hrun (exr_drive exr_a exr_b) fresh_handle [] [HDiscovery])).
Example exr_unlocked : match exr_device exr_first with
  | Ok d => (is_locked d, is_locked (device_now d (exr_end exr_a exr_b) (fun _ _ => 0)), get_device_type (device_now d (exr_end exr_a exr_b) (fun _ _ => 0)),
             get_base_com_id (device_now d (exr_end exr_a exr_b) (fun _ _ => 0)))
            = (Ok true, Ok false, 3, Ok 0x07FE)
  | _ => False
  end.
Proof. vm_compute. reflexivity. Qed.
(** "A device made before and one made after a discovery agree" is refuted: a generic device stays generic when Opal v2 appears. *)
Definition exr_generic : dh := fst (snd (hrun (exr_drive [] exr_a) fresh_handle [] [HDiscovery])).
Theorem C138_types_follow_refuted : exists d d2, exr_device exr_generic = Ok d /\ exr_device (exr_end [] exr_a) = Ok d2
  /\ get_device_type (device_now d (exr_end [] exr_a) (fun _ _ => 0)) = 1 /\ get_device_type d2 = 3
  /\ is_locked (device_now d (exr_end [] exr_a) (fun _ _ => 0)) = Ok false /\ is_locked d2 = Ok true.
Proof. do 2 eexists. split; [vm_compute; reflexivity|]. split; [vm_compute; reflexivity|]. vm_compute. auto. Qed.
Print Assumptions C138_types_follow_refuted.
