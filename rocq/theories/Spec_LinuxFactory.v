(** Specification vocabulary for the Linux drive factory: traces of what it does to the system, and the texts it parses.  From the
    model it uses the event type, the world (the system's answers) and the records of the public API. *)
From Verif Require Import Base M_DriveHandle M_Strings M_LinuxInfo M_LinuxFactory Spec_Drive Prop_Drive Spec_Utf16.

(** [p] occurs in [s] *)
Definition occurs (p s : bytes) : Prop := exists a b, s = a ++ p ++ b.
(** the names the factory ignores in /dev/disk/by-id: the language of nvme-\w*\.|-part|scsi|wwn *)
Definition word_char (b : N) : Prop :=
  48 <= b <= 57 (* 0-9 *) \/ 65 <= b <= 90 (* A-Z *) \/ 97 <= b <= 122 (* a-z *) \/ b = 95 (* _ *).
Definition ignored_id (name : bytes) : Prop :=
  (exists a w b, name = a ++ str "nvme-" ++ w ++ str "." ++ b /\ Forall word_char w)
  \/ occurs (str "-part") name \/ occurs (str "scsi") name \/ occurs (str "wwn") name.
(** [id] = bus "-" model "_" serial: the serial is what follows the last underscore, the model what follows the first dash before it *)
Definition id_parts (id model serial : bytes) : Prop :=
  exists front, id = front ++ str "_" ++ serial /\ ~ In 95 serial /\
    ((exists bus, front = bus ++ str "-" ++ model /\ ~ In 45 bus) \/ (~ In 45 front /\ model = [])).
(** [t] is [s] without white space at the ends.  White space: the code points with the Unicode property White_Space, spelled in UTF-8. *)
Definition white (c : N) : Prop :=
  In c [9; 10; 11; 12; 13; 32; 0x85; 0xA0; 0x1680; 0x2000; 0x2001; 0x2002; 0x2003; 0x2004; 0x2005; 0x2006; 0x2007; 0x2008; 0x2009; 0x200A;
        0x2028; 0x2029; 0x202F; 0x205F; 0x3000].
Definition stripped (s t : bytes) : Prop :=
  exists a b, s = flat_map utf8_of a ++ t ++ flat_map utf8_of b /\ Forall white a /\ Forall white b
  /\ (forall c t', white c -> t <> utf8_of c ++ t') /\ (forall c t', white c -> t <> t' ++ utf8_of c).

(** the four steps by which a descriptor is turned into a handle *)
Definition probing (fd : N) (path : bytes) : lhist := [LBasic fd path; LIds path; LProbe 0 fd; LProbe 1 fd].
(** [x] is driven by [o]: commands go to [o]; so far it was asked for type, name and what Init needs, and never closed *)
Definition driven_by (x : handle) (o : opened) : Prop :=
  p_dh (l_dh x) = Some (o_type o) /\ l_drv x = Some (o_drv o)
  /\ l_driving x = v_type (o_drv o) [CType] /\ l_driver_name x = v_name (o_drv o) [CType; CName]
  /\ exists cs, l_calls x = [CType; CName] ++ cs /\ ~ In CClose cs.
Definition undriven (x : handle) : Prop :=
  p_dh (l_dh x) = None /\ l_drv x = None /\ l_driving x = 0 /\ l_driver_name x = [].
Definition has_driver (x : handle) : bool := match p_dh (l_dh x) with Some _ => true | None => false end.

(** Some Level 0 answer of the drive behind [o] has descriptors running over the buffer (cf. C34). *)
Definition malformed_discovery (o : opened) : Prop :=
  exists i cs cs' buf, level0_read (o_drv o) {| p_dh := Some (o_type o); p_info := i |} cs cs' None buf
  /\ be32_at 0 buf <= 2048 /\ runs_over buf (N.to_nat (be32_at 0 buf)).
(** identification texts kept, and identification texts taken from the identify data (as in C36 and C38) *)
Definition texts (i : info) : bytes * bytes * bytes := (i_model i, i_serial i, i_fw i).
Definition ata_texts (raw : bytes) (i : info) : Prop :=
  i_ata_raw i = Some raw
  /\ (exists m, word_swapped (slice (2 * 27) 40 raw) m /\ trimmed m (i_model i))
  /\ (exists s, word_swapped (slice (2 * 10) 20 raw) s /\ trimmed s (i_serial i) /\ i_raw_serial i = s)
  /\ (exists f, word_swapped (slice (2 * 23) 8 raw) f /\ trimmed f (i_fw i)).
Definition nvme_texts (raw : bytes) (i : info) : Prop :=
  i_nvme_raw i = Some raw /\ trimmed (slice 4 20 raw) (i_serial i) /\ trimmed (slice 24 40 raw) (i_model i)
  /\ trimmed (slice 64 8 raw) (i_fw i) /\ i_raw_serial i = slice 4 20 raw.

Definition is_lclose (e : lev) : bool := match e with LClose _ => true | _ => false end.
(** the successful opens in a trace: path and descriptor *)
Fixpoint opened_in (W : world) (h : lhist) (es : lhist) : list (bytes * N) :=
  match es with
  | [] => []
  | e :: t => (match e with LOpen p => match w_open W (h ++ [e]) with inr fd => [(p, fd)] | inl _ => [] end | _ => [] end)
              ++ opened_in W (h ++ [e]) t
  end.
(** the paths stat'ed in a trace *)
Definition statted (es : lhist) : list bytes := flat_map (fun e => match e with LStat p => [p] | _ => [] end) es.
(** S_IFMT and S_IFBLK of stat(2): bits 12 to 15 of st_mode are 0110 *)
Definition block_mode (mode : N) : Prop :=
  N.testbit mode 12 = false /\ N.testbit mode 13 = true /\ N.testbit mode 14 = true /\ N.testbit mode 15 = false.
(** the elements of a list with property [P], in order *)
Inductive kept {A} (P : A -> Prop) : list A -> list A -> Prop :=
| kept_nil : kept P [] []
| kept_take : forall a l k, P a -> kept P l k -> kept P (a :: l) (a :: k)
| kept_drop : forall a l k, ~ P a -> kept P l k -> kept P (a :: l) k.
