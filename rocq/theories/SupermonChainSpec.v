(** SupermonChainSpec.v -- the chains of a Super-Mon symbol table and edits of the table on a
    disk.  From the model only ReadSymbolTable, AddSymbol, DeleteSymbol and WriteSymbolTable,
    the operations under test, are used (in [disk_edit]). *)
From Verif Require Import GoBase TypesModel SupermonModel SupermonSpec SupermonTableSpec.

(** ** Chains *)
(** Each of these entries links to the next, the last to none. *)
Fixpoint linked (t : list Symbol) (c : list Z) : Prop :=
  match c with [] => True | j :: rest => lk t j = hd (-1) rest /\ linked t rest end.
(** [c] is the chain for hash key [h]: the entries in use whose address has that hash, each once,
    linked in this order. *)
Definition key_chain (t : list Symbol) (h : Z) (c : list Z) : Prop :=
  NoDup c /\ (forall j, In j c <-> 0 <= j < zlen t /\ ad t j <> 0 /\ hash7 (ad t j) = h) /\ linked t c.
(** Every hash key has one chain. *)
Definition one_chain (t : list Symbol) (c : Z -> list Z) : Prop := forall h, key_chain t h (c h).
Definition without (i : Z) (c : list Z) : list Z := filter (fun j => negb (j =? i)) c.
(** Unused entries have link 0, as those read from a disk do. *)
Definition blank_links (t : list Symbol) : Prop := forall j, 0 <= j < zlen t -> ad t j = 0 -> lk t j = 0.
(** Deleting entry [i] leaves an entry that links to it (see [damaging]). *)
Definition orphans (t : list Symbol) (i : Z) : Prop :=
  exists j, 0 <= j < zlen t /\ ad t j <> 0 /\ lk t j = i /\ skipped t i j.

(** The chains [c'] after an addition or a deletion: an entry whose address keeps its hash stays in
    its place, one that is deleted leaves its chain, one that is added or moved goes to the end of
    the chain of its hash. *)
Definition chains_after (op : sym_op) (t t' : list Symbol) (c c' : Z -> list Z) : Prop :=
  match op with
  | SDel n => exists i, 0 <= i < zlen t /\ equal_fold n (nm t i) = true /\ (forall h, c' h = without i (c h))
  | SAdd n a =>
      (exists i, 0 <= i < zlen t /\ equal_fold n (nm t i) = true /\ hash7 (ad t i) = hash7 a /\ (forall h, c' h = c h)) \/
      (exists i, 0 <= i < zlen t /\ equal_fold n (nm t i) = true /\ hash7 (ad t i) <> hash7 a /\
         (forall h, c' h = if h =? hash7 a then without i (c h) ++ [i] else without i (c h))) \/
      (exists p, 0 <= p < zlen t /\ (forall i, 0 <= i < zlen t -> equal_fold n (nm t i) = false) /\ ad t p = 0 /\ ad t' p = a /\
         (forall h, c' h = if h =? hash7 a then c h ++ [p] else c h))
  end.
(** ** Editing the table of a disk: read, change, write *)
Definition disk : Type := bytes * bytes.
Definition disk_table (s : disk) : res (list Symbol) := ReadSymbolTable (snd s) (fst s).
(** A well-formed floppy with symbol table [t] in two files of 16 sectors. *)
Definition plain_disk (s : disk) (t : list Symbol) : Prop :=
  floppy (fst s) (snd s) /\ zlen (owned (snd s) 3) = 16 /\ zlen (owned (snd s) 4) = 16 /\ disk_table s = Ok t.
Definition disk_edit (op : sym_op) (s : disk) : res (disk * sym_out) :=
  t <- disk_table s ;;
  match op with
  | SAdd n a =>
      match AddSymbol t n a with
      | (t', Ok _) => let '(s', r) := WriteSymbolTable t' s in _ <- r ;; Ok (s', OAdded)
      | (_, Err _) => Ok (s, ORefused)
      | (_, Panic) => Panic
      end
  | SDel n =>
      let '(t', found) := DeleteSymbol t n in
      if (found : bool) then let '(s', r) := WriteSymbolTable t' s in _ <- r ;; Ok (s', ODeleted true)
      else Ok (s, ODeleted false)
  end.
Fixpoint disk_edits (ops : list sym_op) (s : disk) : res (disk * list sym_out) :=
  match ops with
  | [] => Ok (s, [])
  | op :: rest =>
      x <- disk_edit op s ;;
      y <- disk_edits rest (fst x) ;;
      Ok (fst y, snd x :: snd y)
  end.
(** A name and an address that can be written. *)
Definition edit_ok (op : sym_op) : Prop :=
  op_name op <> [] /\ match op with SAdd n a => valid_name n /\ is_u16 a | SDel _ => True end.
(** The edit does not delete or move an entry that leaves another linked to it, nor move an entry
    to an address with hash 0. *)
Definition careful (op : sym_op) (t : list Symbol) : Prop :=
  forall i, 0 <= i < zlen t -> equal_fold (op_name op) (nm t i) = true ->
  match op with
  | SDel _ => ~ orphans t i
  | SAdd _ a => hash7 (ad t i) = hash7 a \/ (hash7 a <> 0 /\ ~ orphans t i)
  end.
Fixpoint all_careful (ops : list sym_op) (s : disk) : Prop :=
  match ops with
  | [] => True
  | op :: rest =>
      (forall t, disk_table s = Ok t -> careful op t) /\
      (forall s' o, disk_edit op s = Ok (s', o) -> all_careful rest s')
  end.
(** The edits leave the symbol of the first entry alone, and set no address with hash 0. *)
Definition spares_first (t : list Symbol) (ops : list sym_op) : Prop :=
  nm t 0 <> [] /\
  Forall (fun op => equal_fold (op_name op) (nm t 0) = false /\
                    match op with SAdd _ a => hash7 a <> 0 | SDel _ => True end) ops.
(** All files but the two of the table are as before. *)
Definition others_same (s s' : disk) : Prop :=
  forall g, g <> 3 -> g <> 4 -> legal g -> owned (snd s') g = owned (snd s) g /\ ReadFile (snd s') (fst s') g = ReadFile (snd s) (fst s) g.
