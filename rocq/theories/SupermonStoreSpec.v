(** SupermonStoreSpec.v -- the abstract file store that the NakedOS operator implements:
    numbered files holding sector-padded contents, and a number of free sectors. *)
From Verif Require Import GoBase TypesModel SupermonModel SupermonSpec SupermonTableSpec.

Record store := St { st_file : Z -> bytes; st_free : Z }.
Definition st_set (s : store) (f : Z) (c : bytes) (free : Z) : store :=
  St (fun g => if g =? f then c else st_file s g) free.
(** Sectors used by file [f]. *)
Definition st_used (s : store) (f : Z) : Z := zlen (st_file s f) / 256.

(** Names shown for file [f]: the first symbol for its address, else DFxx. *)
Definition symbol_for (t : list Symbol) (f : Z) : option bytes :=
  match find (fun s => s_addr s =? 0xDF00 + f) t with
  | Some s => Some (s_name s)
  | None => None
  end.
Definition shown (t : list Symbol) (f : Z) : bytes :=
  match symbol_for t f with Some n => n | None => printed f end.
Definition shown_full (t : list Symbol) (f : Z) : bytes :=
  match symbol_for t f with Some n => printed f ++ [58] ++ n | None => printed f end.

Definition st_write (f : Z) (c : bytes) (overwrite : bool) (s : store) : store * res bool :=
  if st_free s + st_used s f <? nsec c then (s, Err EOutOfSpace)
  else if negb (beq (st_file s f) []) && negb overwrite then (s, Err EFileExists)
  else (st_set s f (padded c) (st_free s + st_used s f - nsec c), Ok (negb (beq (st_file s f) []))).
Definition st_delete (f : Z) (s : store) : store * res bool :=
  (st_set s f [] (st_free s + st_used s f), Ok (negb (beq (st_file s f) []))).
Definition st_get (t : list Symbol) (f : Z) (s : store) : res FileInfo :=
  if beq (st_file s f) [] then Err (EOther "")
  else Ok (FI (Desc (shown t f) [] (st_used s f) 0 (zlen (st_file s f)) false FiletypeBinary)
              (st_file s f) (if f =? 1 then 0x1800 else 0)).
Definition st_catalog (t : list Symbol) (s : store) : list Descriptor :=
  map (fun f => Desc (shown t f) (shown_full t f) (st_used s f) 0 (zlen (st_file s f)) false FiletypeBinary)
      (filter (fun f => negb (beq (st_file s f) [])) (map (fun k => k + 1) (zrange 253))).

(** Errors up to their text: which predicate recognises them. *)
Definition err_class {A} (r : res A) : res A :=
  match r with Err (EOther _) => Err (EOther "") | r => r end.

(** Requests with numeric names, and their outcomes. *)
Inductive request :=
| RPut (info : FileInfo) (overwrite : bool)
| RDelete (name : bytes)
| RGet (name : bytes)
| RCatalog.
Inductive reply :=
| PBool (r : res bool)
| PFile (r : res FileInfo)
| PList (r : res (list Descriptor)).
(** A well-formed request about file [f]. *)
Inductive about : request -> Z -> Prop :=
| ab_put i ow f : numeric (d_name (fi_desc_ i)) f -> fi_data i <> [] ->
    d_type (fi_desc_ i) = FiletypeBinary -> d_length (fi_desc_ i) = zlen (fi_data i) -> about (RPut i ow) f
| ab_del n f : numeric n f -> about (RDelete n) f
| ab_get n f : numeric n f -> about (RGet n) f
| ab_cat f : about RCatalog f.
Definition st_step (t : list Symbol) (r : request) (f : Z) (s : store) : store * reply :=
  match r with
  | RPut i ow => let '(s', o) := st_write f (fi_data i) ow s in (s', PBool o)
  | RDelete _ => let '(s', o) := st_delete f s in (s', PBool o)
  | RGet _ => (s, PFile (st_get t f s))
  | RCatalog => (s, PList (Ok (st_catalog t s)))
  end.
Fixpoint st_run (t : list Symbol) (h : list (request * Z)) (s : store) : store * list reply :=
  match h with
  | [] => (s, [])
  | (r, f) :: rest =>
      let '(s1, p) := st_step t r f s in let '(s2, ps) := st_run t rest s1 in (s2, p :: ps)
  end.

(** The store a floppy holds. *)
Definition store_of (d sm : bytes) : store := St (content d sm) (zlen (owned sm FREE)).
(** Same files and same free space. *)
Definition same_store (s s' : store) : Prop :=
  (forall f, legal f -> st_file s f = st_file s' f) /\ st_free s = st_free s'.
