(** SupermonTableSpec.v -- independent vocabulary for symbol tables and the NakedOS operator.
    From the model only the record types [Symbol] and [Operator] are used. *)
From Verif Require Import GoBase TypesModel SupermonModel SupermonSpec.

(** ** Well-formed tables *)

(** A table entry that can be written: 16-bit address, encodable name and, for entries in
    use (address not 0), a link that is -1 or an index. *)
Definition s_ok (s : Symbol) : Prop :=
  is_u16 (s_addr s) /\ valid_name (s_name s) /\ (s_addr s <> 0 -> -1 <= s_link s < 819).
(** Entry [i], when in use and linked, is linked to another entry with the same address hash. *)
Definition link_ok (t : list Symbol) (i : Z) : Prop :=
  s_addr (znth sym0 t i) <> 0 -> s_link (znth sym0 t i) <> -1 ->
  s_link (znth sym0 t i) <> i /\ 0 <= s_link (znth sym0 t i) < zlen t /\
  hash7 (s_addr (znth sym0 t i)) = hash7 (s_addr (znth sym0 t (s_link (znth sym0 t i)))).
Definition links_ok (t : list Symbol) : Prop := forall i, 0 <= i < zlen t -> link_ok t i.
Definition table_ok (t : list Symbol) : Prop := zlen t = 819 /\ Forall s_ok t /\ links_ok t.
(** What a table looks like after a trip to the disk: names in upper case, unused entries
    blank. *)
Definition canon (s : Symbol) : Symbol :=
  if s_addr s =? 0 then sym0 else Sym (s_addr s) (upcase (s_name s)) (s_link s).

(** ** Tables as case-insensitive maps from names to addresses *)
Definition nm (t : list Symbol) (i : Z) : bytes := s_name (znth sym0 t i).
Definition ad (t : list Symbol) (i : Z) : Z := s_addr (znth sym0 t i).
(** No two entries have the same non-empty name (up to case). *)
Definition names_unique (t : list Symbol) : Prop :=
  forall i j, 0 <= i < zlen t -> 0 <= j < zlen t -> nm t i <> [] ->
    equal_fold (nm t i) (nm t j) = true -> i = j.
(** The link of entry [i] (-1 if none). *)
Definition lk (t : list Symbol) (i : Z) : Z := s_link (znth sym0 t i).
(** No entry in use links to an unused entry. *)
Definition live_links (t : list Symbol) : Prop :=
  forall i, 0 <= i < zlen t -> ad t i <> 0 -> lk t i <> -1 -> ad t (lk t i) <> 0.
(** Only entries in use are linked to from entries in use, at most one each, and never both ways;
    unused entries are blank. *)
Definition chained (t : list Symbol) : Prop :=
  live_links t /\
  (forall j, 0 <= j < zlen t -> ad t j = 0 -> lk t j = 0) /\
  (forall j k, 0 <= j < zlen t -> 0 <= k < zlen t -> ad t j <> 0 -> ad t k <> 0 -> lk t j <> -1 -> lk t j = lk t k -> j = k) /\
  (forall j k, 0 <= j < zlen t -> 0 <= k < zlen t -> ad t j <> 0 -> ad t k <> 0 -> lk t j = k -> lk t k <> j).
(** Entry [j], linked to the deleted first entry, comes after an unused entry. *)
Definition skipped (t : list Symbol) (i j : Z) : Prop := i = 0 /\ exists k, 0 < k < j /\ ad t k = 0.
(** The deletions that damage a table: the first entry, linked to from an entry that comes after an
    unused one, with an address whose hash is not 0. *)
Definition damaging (t : list Symbol) (i : Z) : Prop :=
  hash7 (ad t i) <> 0 /\ exists j, 0 <= j < zlen t /\ ad t j <> 0 /\ lk t j = i /\ skipped t i j.
(** Unused entries (address 0) have no name. *)
Definition blanks_unnamed (t : list Symbol) : Prop :=
  forall i, 0 <= i < zlen t -> ad t i = 0 -> nm t i = [].
Definition map_table (t : list Symbol) : Prop := names_unique t /\ blanks_unnamed t.
(** Number of unused entries. *)
Definition unused (t : list Symbol) : Z := zlen (filter (fun s => s_addr s =? 0) t).

(** The abstract map: addresses by name (0 = absent) and a number of free places. *)
Record amap := AM { am_addr : bytes -> Z; am_free : Z }.
Definition am_set (f : bytes -> Z) (n : bytes) (a : Z) : bytes -> Z :=
  fun m => if equal_fold m n then a else f m.
Inductive sym_op := SAdd (n : bytes) (a : Z) | SDel (n : bytes).
Inductive sym_out := OAdded | ORefused | ODeleted (found : bool).
Definition am_step (op : sym_op) (m : amap) : amap * sym_out :=
  match op with
  | SAdd n a =>
      if a =? 0 then (m, ORefused)
      else if negb (am_addr m n =? 0) then (AM (am_set (am_addr m) n a) (am_free m), OAdded)
      else if am_free m =? 0 then (m, ORefused)
      else (AM (am_set (am_addr m) n a) (am_free m - 1), OAdded)
  | SDel n =>
      if am_addr m n =? 0 then (m, ODeleted false)
      else (AM (am_set (am_addr m) n 0) (am_free m + 1), ODeleted true)
  end.
Fixpoint am_run (ops : list sym_op) (m : amap) : amap * list sym_out :=
  match ops with
  | [] => (m, [])
  | op :: rest => let '(m1, o) := am_step op m in let '(m2, os) := am_run rest m1 in (m2, o :: os)
  end.
Definition op_name (op : sym_op) : bytes := match op with SAdd n _ => n | SDel n => n end.

(** ** Resolving names *)
(** The first entry named [s] (up to case) has the address of file [f]. *)
Definition first_named (t : list Symbol) (s : bytes) (i : Z) : Prop :=
  0 <= i < zlen t /\ equal_fold (nm t i) s = true /\
  forall j, 0 <= j < i -> equal_fold (nm t j) s = false.
Definition symbol_file (t : list Symbol) (s : bytes) (f : Z) : Prop :=
  legal f /\ exists i, first_named t s i /\ ad t i = 0xDF00 + f.
(** File [f] is what [s] means on a disk with table [t]: a number, else a symbol. *)
Definition resolves (t : list Symbol) (s : bytes) (f : Z) : Prop :=
  numeric s f \/ ((forall g, ~ numeric s g) /\ symbol_file t s f).
