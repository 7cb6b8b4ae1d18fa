(** Property theorems C16-C20 (device selection, status queries, Exec).
    [raw_lookup m code] is the Go map lookup in TcgRawFeatures. *)
From Verif Require Import Base Spec_Tcg M_TcgToken M_Buffer M_TcgCommand M_TcgDevice Spec_TcgCommand Spec_TcgClient Spec_TcgSession
  P_TcgToken P_TcgCommand P_TcgDevice.

(** C16.  Type codes: 1 generic, 2 Opal v1, 3 Opal v2, 4 Enterprise (tcg/device.go:11-17). *)
Theorem C16_device_selection : forall info serial mem,
  exists d, new_tcg_device info serial mem = Ok d
  /\ d_info d = info /\ get_serial d = serial
  /\ (l_opal1 info = true -> get_device_type d = 2)
  /\ (l_opal1 info = false -> l_opal2 info = true -> get_device_type d = 3)
  /\ (l_opal1 info = false -> l_opal2 info = false -> l_enterprise info = true -> get_device_type d = 4)
  /\ (l_opal1 info = false -> l_opal2 info = false -> l_enterprise info = false -> get_device_type d = 1)
  /\ (is_any_ssc d = true <-> l_opal1 info = true \/ l_opal2 info = true).
Proof.
  intros info serial mem. unfold new_tcg_device.
  destruct (l_opal1 info), (l_opal2 info), (l_enterprise info); eexists; (split; [reflexivity|]);
    cbn; repeat split; intros; try discriminate; auto; intuition discriminate.
Qed.
Print Assumptions C16_device_selection.

(** C17 *)
Definition locking_query (q : device -> res bool) (k : N) : Prop := forall d,
  (l_locking (d_info d) = false -> q d = Ok false) /\
  (raw_lookup (l_raw (d_info d)) 0x0002 = None -> q d = Ok false) /\
  (forall data b, l_locking (d_info d) = true -> raw_lookup (l_raw (d_info d)) 0x0002 = Some data ->
     nth_error data 4 = Some b -> b < 256 -> q d = Ok (N.testbit b k)) /\
  (q d = Panic <-> l_locking (d_info d) = true /\ raw_lookup (l_raw (d_info d)) 0x0002 = Some []).
Theorem C17_locking_status :
  locking_query is_locking_enabled 1 /\ locking_query is_locked 2 /\ locking_query is_media_encryption 3 /\
  locking_query is_mbr_enabled 4 /\ locking_query is_mbr_done 5 /\
  forall d, is_locking_supported d = l_locking (d_info d).
Proof. repeat (split; [intros d; apply locking_bit_spec|]). reflexivity. Qed.
Print Assumptions C17_locking_status.

(** C18 *)
Theorem C18_com_ids : forall info serial mem d, new_tcg_device info serial mem = Ok d ->
  (get_device_type d = 1 -> get_base_com_id d = Ok 0 /\ get_num_com_ids d = Ok 0) /\
  forall ty code, In (ty, code) [(2, 0x0200); (3, 0x0203); (4, 0x0100)] -> get_device_type d = ty ->
  (raw_lookup (l_raw info) code = None -> get_base_com_id d = Ok 0 /\ get_num_com_ids d = Ok 0) /\
  (forall data, raw_lookup (l_raw info) code = Some data -> wf data -> (8 <= List.length data)%nat ->
     get_base_com_id d = Ok (be16_at 4 data) /\ get_num_com_ids d = Ok (be16_at 6 data)) /\
  (get_base_com_id d = Panic <-> raw_lookup (l_raw info) code = Some []).
Proof.
  intros info serial mem d Hd.
  assert (Hi : d_info d = info).
  { unfold new_tcg_device in Hd. destruct (l_opal1 info), (l_opal2 info), (l_enterprise info); now inversion Hd. }
  split.
  - unfold get_device_type, get_base_com_id, get_num_com_ids, feature_be16. destruct (d_kind d); try discriminate. auto.
  - intros ty code HI Ht. assert (Hs : ssc_code (d_kind d) = Some code).
    { unfold get_device_type in Ht. cbn [In] in HI.
      destruct HI as [[= <- <-]|[[= <- <-]|[[= <- <-]|[]]]]; destruct (d_kind d); try discriminate; reflexivity. }
    destruct (feature_be16_spec d 4 code Hs) as (A & B & C).
    destruct (feature_be16_spec d 6 code Hs) as (A6 & B6 & _). rewrite Hi in *.
    split; [auto|]. split; [|exact C]. intros data H1 H2 H3. split; [apply B|apply B6]; auto; lia.
Qed.
Print Assumptions C18_com_ids.

(** C19 *)
Theorem C19_exec_without_ssc : forall E d c proto h, is_any_ssc d = false ->
  exec E d c proto h = (h ++ [EvNow], Ok (None, Some (EMsg "not supported"))).
Proof. exact c19_none. Qed.
Print Assumptions C19_exec_without_ssc.

Theorem C19_exec_protocol : forall E d c proto com h h' r, env_ok E -> is_any_ssc d = true -> get_base_com_id d = Ok com ->
  exec E d c proto h = (h', r) ->
  let sent := firstn (N.to_nat (get_cmd_size c)) (a_data c) in
  let h1 := h ++ [EvNow; EvSec true false proto com sent 5] in
  let start := e_clock E (h ++ [EvNow]) in
  (forall e, fst (e_sec E h1) = Some e -> h' = h1 /\ r = Ok (None, Some e)) /\
  (fst (e_sec E h1) = None ->
   (* the drive kept asking for polls for as many rounds as the model runs *)
   (r = Fuel /\ h' = h1 ++ rounds proto com (e_fuel E) /\ (forall i, (i < e_fuel E)%nat -> poll_again E proto com start h1 i))
   \/ exists k, (1 <= k <= e_fuel E)%nat /\ h' = h1 ++ rounds proto com k
     /\ (forall i, (S i < k)%nat -> poll_again E proto com start h1 i)
     /\ let '(e, b) := answer E proto com h1 (k - 1) in
        match e with
        | Some x => r = Ok (Some {| r_buf := received b; r_tokens := [] |}, Some x)
        | None =>
          (10000000000 < elapsed E proto com start h1 (k - 1) /\
           r = Ok (Some {| r_buf := received b; r_tokens := [] |}, Some (EMsg "timeout")))
          \/ (elapsed E proto com start h1 (k - 1) <= 10000000000 /\ ~ wants_poll (received b)
              /\ exec_result (e_heap E) (received b) r)
        end).
Proof. exact c19. Qed.
Print Assumptions C19_exec_protocol.

(** C20 *)
Theorem C20_exec_terminates : forall E d c proto com h h' r, env_ok E -> timely E -> (402 <= e_fuel E)%nat ->
  (is_any_ssc d = true -> get_base_com_id d = Ok com) ->
  exec E d c proto h = (h', r) ->
  r <> Fuel /\ r <> Panic /\ exists t, h' = h ++ t /\ (receives t <= 402)%nat /\ (List.length (sends t) <= 1)%nat.
Proof. exact c20. Qed.
Print Assumptions C20_exec_terminates.

(** A drive that is always busy under a clock that stands still: no number of rounds is enough. *)
Theorem C20_needs_a_clock : exists E : nat -> env,
  (forall n, env_ok (E n) /\ e_fuel (E n) = n) /\
  forall n d c proto com h, is_any_ssc d = true -> get_base_com_id d = Ok com -> snd (exec (E n) d c proto h) = Fuel.
Proof.
  exists frozen_env. split.
  - intros n. split; [|reflexivity]. split; [|split].
    + intros h. cbn. repeat (apply wf_cons; split; [lia|]). apply wf_nil.
    + intros j. cbn. lia.
    + intros p s. cbn [frozen_env e_pbkdf2]. split; [reflexivity|apply wf_zeros].
  - exact frozen_exec.
Qed.
Print Assumptions C20_needs_a_clock.
