(** Observational vocabulary for clients of the tcg package: what "the committed response exposes these tokens",
    "this setter writes this field" etc. mean in terms of the API calls.  No proofs. *)
From Verif Require Import Base Spec_Tcg Spec_Buffer M_TcgToken M_Buffer M_TcgCommand Spec_TcgCommand.

(** Memory contents are bytes. *)
Definition byte_heap (h : N -> N) : Prop := forall j, h j < 256.

(** What a client sees after committing any response whose sub-packet is [payload]: success and these tokens. *)
Definition exposes (payload : bytes) (tokens : list bytes) : Prop :=
  forall heap buf old, byte_heap heap -> carries buf payload ->
  let r := commit heap {| r_buf := buf; r_tokens := old |} in
  snd r = Ok tt /\ r_tokens (fst r) = tokens.

(** The bytes [enc] in a response are exposed as a single token whose GetString is [text]. *)
Definition decodes_to (enc text : bytes) : Prop := exists tok, exposes enc [tok] /\ get_string tok = Ok text.

(** Any command object of the package: a 61440-byte buffer. *)
Definition cmd_wf (c : cmd) : Prop :=
  List.length (a_data c) = N.to_nat 61440 /\ a_limit c = N.to_nat 61440 /\ a_cap c = N.to_nat 61440.

(** Starting points of a builder history with their payload: after Reset, or after Init(uid, method). *)
Inductive fresh : cmd -> bytes -> Prop :=
| fresh_reset c : cmd_wf c -> fresh (cmd_reset c) []
| fresh_init c i m : cmd_wf c -> fresh (fst (cmd_init c i m)) (firstn payload_capacity (init_bytes i m)).

(** [s] stores [val] at [off] and does nothing else. *)
Definition header_setter (s : cmd -> cmd) (off : nat) (val : bytes) : Prop :=
  forall c, (56 <= List.length (a_data c))%nat ->
  slice off (List.length val) (a_data (s c)) = val
  /\ same_outside off (off + List.length val) (a_data c) (a_data (s c))
  /\ a_wpos (s c) = a_wpos c /\ a_rpos (s c) = a_rpos c /\ a_limit (s c) = a_limit c /\ a_cap (s c) = a_cap c.

(** Token [tok] read back through the accessors gives item [i]. *)
Definition item_decodes (i : item) (tok : bytes) : Prop :=
  match i with
  | ItCtl t => tok_type tok = Ok t /\ tok = [t]
  | ItUid u | ItMethod u => get_bytes tok = Ok u /\ tok_type tok = Ok 0xe0
  | ItNum v => get_uint64 tok = Ok v
  | ItStr s => get_string tok = Ok s /\ get_bytes tok = Ok s /\ tok_type tok = Ok 0xe0
  end.

(** Successive reads of a buffer. *)
Fixpoint reads (b : abuf) (ns : list nat) : list (res bytes) :=
  match ns with [] => [] | n :: ns' => snd (buf_read b n) :: reads (fst (buf_read b n)) ns' end.
Definition chunk_res (c : option bytes) : res bytes := match c with Some l => Ok l | None => Err EEOF end.
