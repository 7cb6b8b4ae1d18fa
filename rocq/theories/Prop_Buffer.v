(** Property theorems C44-C47 (internal package). *)
From Verif Require Import Base Spec_Buffer M_Buffer Spec_TcgClient P_BufferProps.

(** C44 *)
Theorem C44_aligned_buffer : forall align size base, 0 < align ->
  (exists p, aligned_pointer base align = Ok p /\ p mod align = 0 /\ base <= p
             /\ p + N.of_nat size <= base + (align + N.of_nat size)) /\
  (forall ops, let b := brun (new_aligned size) ops in
     List.length (a_data b) = size /\ a_cap b = size /\ (a_limit b <= size)%nat
     /\ forall o, let b' := fst (bstep b o) in
        match o with
        | OReset => a_data b' = zeros (a_limit b) ++ skipn (a_limit b) (a_data b)
        | OWrite _ | OWriteByte _ => same_outside (a_wpos b) (a_wpos b') (a_data b) (a_data b')
        | _ => a_data b' = a_data b
        end).
Proof. exact c44. Qed.
Print Assumptions C44_aligned_buffer.

(** C45 *)
Theorem C45_fifo : forall size ps ns, (List.length (concat ps) <= size)%nat ->
  let b := brun (new_aligned size) (map OWrite ps) in
  a_wpos b = List.length (concat ps)
  /\ a_data b = concat ps ++ zeros (size - List.length (concat ps))
  /\ reads b ns = map chunk_res (chunks (a_data b) ns)
  /\ concat (map (fun c => match c with Some x => x | None => [] end) (chunks (a_data b) ns))
     = firstn (fold_right Nat.add 0%nat ns) (a_data b).
Proof. exact c45. Qed.
Print Assumptions C45_fifo.

Theorem C45_fifo_wrapped : forall buffer ns,
  reads (new_wrapped buffer) ns = map chunk_res (chunks buffer ns).
Proof. exact c45_wrapped. Qed.
Print Assumptions C45_fifo_wrapped.

(** C46 *)
Theorem C46_write_boundary : forall b p,
  let k := Nat.min (a_limit b - a_wpos b) (List.length p) in
  ((a_limit b < a_wpos b)%nat -> snd (buf_write b p) = Panic /\ fst (buf_write b p) = b) /\
  ((a_wpos b <= a_limit b)%nat ->
     (snd (buf_write b p) = Err EEOF <-> k = 0%nat)
     /\ (k = 0%nat -> fst (buf_write b p) = b)
     /\ (k <> 0%nat -> snd (buf_write b p) = Ok k
          /\ a_data (fst (buf_write b p)) = put (a_wpos b) (firstn k p) (a_data b)
          /\ a_wpos (fst (buf_write b p)) = (a_wpos b + k)%nat)).
Proof. exact c46. Qed.
Print Assumptions C46_write_boundary.

(** C47 *)
Theorem C47_byte_order_helpers :
  (forall l, Nat.even (List.length l) = false -> ata_swap_word_endian l = Panic) /\
  (forall l, Nat.even (List.length l) = true ->
     exists o, ata_swap_word_endian l = Ok o /\ List.length o = List.length l
       /\ (forall i, (i < List.length l)%nat -> nth_error o i = nth_error l (partner i))
       /\ ata_swap_word_endian o = Ok l) /\
  (forall x, x < 2 ^ 16 -> ata_swap16 x = be_val (le_bytes 2 x) /\ ata_swap16 (ata_swap16 x) = x) /\
  (forall x, x < 2 ^ 32 -> ata_swap32 x = be_val (le_bytes 4 x) /\ ata_swap32 (ata_swap32 x) = x).
Proof. exact c47. Qed.
Print Assumptions C47_byte_order_helpers.
