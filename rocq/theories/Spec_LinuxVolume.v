(** Specification vocabulary for Linux volumes. *)
From Verif Require Import Base M_DriveHandle M_Strings M_LinuxInfo M_LinuxFactory M_LinuxVolume Spec_LinuxFactory.
From Coq Require Import Permutation.

(** the text [t] consists of the lines [ls], each ended by a newline, and the unterminated [rest] *)
Definition text_lines (t : bytes) (ls : list bytes) (rest : bytes) : Prop :=
  t = concat (map (fun l => l ++ [10]) ls) ++ rest /\ Forall (fun l => ~ In 10 l) ls /\ ~ In 10 rest.
(** [l'] is [l] without a carriage return at its end *)
Definition without_cr (l l' : bytes) : Prop := l = l' ++ [13] \/ (l' = l /\ forall x, l <> x ++ [13]).
(** [seen] are the lines of the text up to the first one of 64 KiB or more *)
Definition short (l : bytes) : Prop := blen l < 65536.
Definition delivered (t : bytes) (seen : list bytes) : Prop :=
  exists ls rest raw tl, text_lines t ls rest /\ ls ++ (match rest with [] => [] | _ => [rest] end) = raw ++ tl
  /\ Forall short raw /\ (forall l tl', tl = l :: tl' -> ~ short l) /\ Forall2 without_cr raw seen.

(** [x] and [y]: [s] before and after the first [sep] *)
Definition cut_at (sep : N) (s x y : bytes) : Prop := (s = x ++ sep :: y /\ ~ In sep x) \/ (~ In sep s /\ x = s /\ y = []).
(** device, mount point and file system of a line of /proc/mounts *)
Definition mount_line (l : bytes) (rec : bytes * bytes * bytes) : Prop :=
  let '(d, m, f) := rec in exists r1 r2 r3, cut_at 32 l d r1 /\ cut_at 32 r1 m r2 /\ cut_at 32 r2 f r3.
Definition rec_dev (r : bytes * bytes * bytes) : bytes := fst (fst r).
Definition rec_mount (r : bytes * bytes * bytes) : bytes := snd (fst r).
Definition rec_fs (r : bytes * bytes * bytes) : bytes := snd r.
(** the lines about device [d], in order *)
Definition about (d : bytes) (recs : list (bytes * bytes * bytes)) : list (bytes * bytes * bytes) :=
  filter (fun r => if list_eq_dec N.eq_dec (rec_dev r) d then true else false) recs.

(** the language of ^(/dev/.+\d)p(\d+)$ with its two groups *)
Definition digit (b : N) : Prop := 48 <= b <= 57.
Definition partition_name (s parent ds : bytes) : Prop :=
  s = parent ++ str "p" ++ ds /\ ds <> [] /\ Forall digit ds /\
  exists m d, parent = str "/dev/" ++ m ++ [d] /\ m <> [] /\ ~ In 10 m /\ digit d.
Fixpoint decimal (ds : bytes) : N := match ds with [] => 0 | d :: t => (d - 48) * 10 ^ N.of_nat (List.length t) + decimal t end.
(** the number as a Go int: the largest one if it does not fit *)
Definition part_number (ds : bytes) : N := N.min (decimal ds) (2 ^ 63 - 1).

(** the entries of a partition table *)
Definition entries (t : table) : option (list part) := match t with TGpt _ ps | TMbr ps => Some ps | TOther => None end.
Definition uppercased (s t : bytes) : Prop := Forall2 (fun x y => y = if (97 <=? x) && (x <=? 122) then x - 32 else x) s t.
(** what is reported for entry [e] *)
Definition describes (q : pinfo) (device parent : bytes) (b : basic) (e : part) : Prop :=
  pi_device q = device /\ pi_parent q = parent /\ Z.of_N (pi_start q) = (pt_start e mod 2 ^ 64)%Z /\ pi_size q = pi_start q /\ pi_style q = ba_style b /\
  match ba_table b with
  | TGpt _ _ => pi_mbr q = None /\ exists t g, pi_gpt q = Some (t, g) /\ uppercased (str "{" ++ pt_type e ++ str "}") t /\ uppercased (str "{" ++ pt_guid e ++ str "}") g
  | _ => pi_gpt q = None /\ pi_mbr q = Some (pt_mbr_type e, pt_bootable e)
  end.

(** What a line about [device] does to the system and the partition it finds. *)
Inductive line_effect (W : world) (h : lhist) (device : bytes) : lhist -> option pinfo -> Prop :=
| le_plain : (forall parent ds, ~ partition_name device parent ds) -> line_effect W h device [] None
| le_unopened : forall parent ds e, partition_name device parent ds -> w_open W (h ++ [LOpen parent]) = inl e ->
    line_effect W h device [LOpen parent] None
| le_unread : forall parent ds fd, partition_name device parent ds -> w_open W (h ++ [LOpen parent]) = inr fd ->
    (forall b, read_basic_info parent (w_basic W (h ++ [LOpen parent; LBasic fd parent])) = Ok b -> entries (ba_table b) = None) ->
    line_effect W h device [LOpen parent; LBasic fd parent] None
| le_read : forall parent ds fd b ps q, partition_name device parent ds -> w_open W (h ++ [LOpen parent]) = inr fd ->
    read_basic_info parent (w_basic W (h ++ [LOpen parent; LBasic fd parent])) = Ok b -> entries (ba_table b) = Some ps ->
    1 <= part_number ds ->
    (forall e, nth_error ps (N.to_nat (part_number ds - 1)) = Some e -> exists x, q = Some x /\ describes x device parent b e) ->
    (nth_error ps (N.to_nat (part_number ds - 1)) = None -> q = None) ->
    line_effect W h device [LOpen parent; LBasic fd parent] q.
Inductive volume_trace (W : world) : lhist -> list (bytes * bytes * bytes) -> lhist -> list (option pinfo) -> Prop :=
| vt_nil : forall h, volume_trace W h [] [] []
| vt_cons : forall h r recs seg q es qs, line_effect W h (rec_dev r) seg q -> volume_trace W (h ++ seg) recs es qs ->
    volume_trace W h (r :: recs) (seg ++ es) (q :: qs).
(** the last partition found by a line about [d] *)
Fixpoint last_found (d : bytes) (recs : list (bytes * bytes * bytes)) (qs : list (option pinfo)) (sofar : option pinfo) : option pinfo :=
  match recs, qs with
  | r :: recs', q :: qs' =>
    last_found d recs' qs' (if list_eq_dec N.eq_dec (rec_dev r) d then match q with Some _ => q | None => sofar end else sofar)
  | _, _ => sofar
  end.
(** a line that names partition 0 of a readable table *)
Definition names_zero (W : world) (h : lhist) (device : bytes) (seg : lhist) : Prop :=
  exists parent ds fd b ps, partition_name device parent ds /\ decimal ds = 0 /\ w_open W (h ++ [LOpen parent]) = inr fd
  /\ seg = [LOpen parent; LBasic fd parent]
  /\ read_basic_info parent (w_basic W (h ++ [LOpen parent; LBasic fd parent])) = Ok b /\ entries (ba_table b) = Some ps.
(** [q] is [p] without a slash at its end *)
Definition slash_trimmed (p q : bytes) : Prop := p = q ++ str "/" \/ (q = p /\ forall x, p <> x ++ str "/").
(** the paths opened, and the parents of the partitions named, in order *)
Fixpoint opens (es : lhist) : list bytes := match es with [] => [] | LOpen p :: t => p :: opens t | _ :: t => opens t end.
Inductive parents : list (bytes * bytes * bytes) -> list bytes -> Prop :=
| pa_nil : parents [] []
| pa_plain : forall r recs ps, (forall parent ds, ~ partition_name (rec_dev r) parent ds) -> parents recs ps -> parents (r :: recs) ps
| pa_part : forall r recs ps parent ds, partition_name (rec_dev r) parent ds -> parents recs ps -> parents (r :: recs) (parent :: ps).
