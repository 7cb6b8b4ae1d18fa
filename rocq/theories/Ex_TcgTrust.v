(** Non-vacuity for C126-C128. *)
From Verif Require Import Base Spec_Tcg M_TcgToken M_Buffer M_TcgCommand M_TcgDevice M_TcgSession M_TcgTables Spec_TcgCommand Spec_TcgClient
  Spec_TcgSession P_TcgDevice P_TcgSession Spec_TcgTrust P_TcgTrust Ex_TcgSession.

Definition ex_generic : device := {| d_kind := KGeneric; d_info := ex_info false false false; d_serial := []; d_beyond := fun _ _ => 0 |}.
Example ex_C126 : get_device_type ex_generic = 1 /\ summary (revert_tper (ex_env (ex_plain 0)) ex_generic [112] true true []) = (0%nat, 0%nat, Err (EMsg "not supported")).
Proof. vm_compute. auto. Qed.

(** C127: the PIN column of C_PIN_MSID read over an open session, by number and by name. *)
Example ex_C127 :
  let x := device_get_table (ex_env ex_pin) ex_dev ex_dev ex_session (uid8 uid_C_PIN_MSID) 3 3 ex_start_hist in
  match snd x with Ok (Some r, None) => nth_error (r_tokens r) 4 = Some [0xA4; 77; 83; 73; 68] | _ => False end
  /\ List.length (sends (fst x)) = 2%nat.
Proof. vm_compute. auto. Qed.
Example ex_C127_by_name :
  let x := ent_get_table (ex_env ex_pin) ex_dev ex_session (uid8 uid_C_PIN_MSID) [80; 73; 78] [80; 73; 78] ex_start_hist in
  match snd x with Ok (Some r, None) => nth_error (r_tokens r) 4 = Some [0xA4; 77; 83; 73; 68] | _ => False end
  /\ slice 56 52 (nth 1 (sends (fst x)) []) =
     [0xF8; 0xA8; 0; 0; 0; 11; 0; 0; 0x84; 2; 0xA8; 0; 0; 0; 6; 0; 0; 0; 0x16; 0xF0; 0xF0; 0xF2; 0xAB; 115; 116; 97; 114; 116; 67; 111; 108; 117; 109; 110;
      0xA3; 80; 73; 78; 0xF3; 0xF2; 0xA9; 101; 110; 100; 67; 111; 108; 117; 109; 110; 0xA3; 80].
Proof. vm_compute. auto. Qed.

(** C128: the same drive, answering with ComID ABAB, session numbers ABABABAB and so on; the Revert still succeeds. *)
Definition foreign (b : bytes) : bytes :=
  map (fun i => if (i <? 8)%nat || ((20 <=? i)%nat && (i <? 40)%nat) || ((44 <=? i)%nat && (i <? 52)%nat) then 0xAB else nth i b 0) (seq 0 (List.length b)).
Lemma foreign_contents b : same_contents b (foreign b).
Proof.
  split; [unfold foreign; now rewrite map_length, seq_length|]. intros i Hi. unfold foreign.
  destruct (Nat.lt_ge_cases i (List.length b)) as [L|L].
  - rewrite (nth_error_nth' b 0 L). symmetry.
    erewrite map_nth_error; [|rewrite (nth_error_nth' _ 0%nat) by (now rewrite seq_length); rewrite seq_nth by exact L; reflexivity].
    cbn [Nat.add]. unfold addressing in Hi.
    destruct (Nat.ltb_spec i 8), (Nat.leb_spec 20 i), (Nat.ltb_spec i 40), (Nat.leb_spec 44 i), (Nat.ltb_spec i 52); cbn [orb andb]; auto; lia.
  - transitivity (@None N); [now apply nth_error_None|symmetry; apply nth_error_None; rewrite map_length, seq_length; lia].
Qed.
Definition ex_foreign (b : bytes) : env :=
  {| e_clock := e_clock (ex_env b); e_sec := fun h => let (e, x) := e_sec (ex_env b) h in (e, foreign x);
     e_pbkdf2 := e_pbkdf2 (ex_env b); e_heap := e_heap (ex_env b); e_fuel := e_fuel (ex_env b) |}.
Example ex_C128 b : readdressed (ex_env b) (ex_foreign b).
Proof.
  repeat (split; [reflexivity|]). intros h. unfold ex_foreign. cbn [e_sec]. destruct (e_sec (ex_env b) h) as [e x]. split; [reflexivity|apply foreign_contents].
Qed.
Example ex_C128_revert : summary (revert_tper (ex_foreign (ex_plain 0)) ex_dev [112; 119] false false []) = (2%nat, 4%nat, Ok tt)
  /\ slice 4 2 (foreign (ex_packet (ex_plain 0))) = [0xAB; 0xAB] /\ slice 20 8 (foreign (ex_packet (ex_plain 0))) = repeat 0xAB 8.
Proof. vm_compute. auto. Qed.
