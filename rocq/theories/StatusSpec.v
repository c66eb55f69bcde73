(** StatusSpec.v -- which puts and removals on a NakedOS disk succeed. *)
From Verif Require Import GoBase TypesModel SupermonModel SupermonSpec SupermonTableSpec NakedCmdSpec SessionSpec.

(** ** What the name given to put stands for *)
(** A file, a symbol (empty: none), and whether the symbol has yet to be given to the file. *)
Inductive put_meaning (d : bytes) (t : list Symbol) : bytes -> Z -> bytes -> bool -> Prop :=
| pm_number n f : numeric n f -> put_meaning d t n f [] false
| pm_symbol n f : no_colon n -> (forall g, ~ numeric n g) -> symbol_file t n f -> put_meaning d t n f n false
| pm_new n f : no_colon n -> (forall g, ~ resolves t n g) ->
    legal f -> file_on d f = [] -> (forall g, 1 <= g < f -> file_on d g <> []) -> put_meaning d t n f n true
| pm_both p q f : numeric p f -> no_colon q -> (forall g, ~ numeric q g) -> symbol_file t q f -> put_meaning d t (p ++ 58 :: q) f q false
| pm_at p q f : numeric p f -> no_colon q -> (forall g, ~ numeric q g) -> ~ symbol_file t q f -> put_meaning d t (p ++ 58 :: q) f q true.
(** Symbols that can be written on a disk (C34). *)
Definition accepted (q : bytes) : Prop := q = [] \/ (3 <= zlen q <= 9 /\ name_bits (filter is_alnum q) <= 48).
(** There is an entry for the symbol, or an unused one. *)
Definition room_for (t : list Symbol) (q : bytes) : Prop :=
  exists i, 0 <= i < zlen t /\ (equal_fold q (nm t i) = true \/ ad t i = 0).
Definition all_valid (t : list Symbol) : Prop := forall i, 0 <= i < zlen t -> valid_name (nm t i).

(** ** put *)
(** The type, the name, the space and the flag --overwrite are all right for file [f] and symbol [q]
    ([t] is empty on a disk without a symbol table). *)
Definition admitted (d : bytes) (t : list Symbol) (ft : bytes) (ow : bool) (n s : bytes) (f : Z) (q : bytes) (e : bool) : Prop :=
  binary ft = true /\ put_meaning d t n f q e /\ (q = [] \/ (t <> [] /\ accepted q)) /\
  nsec s <= free_on d + sectors_on d f /\ (file_on d f <> [] -> ow = true).
(** The file is stored; a symbol that has to be given needs an entry, and then the names of all
    other symbols must be such as can be written.  (Nothing at all can be stored on a full disk.) *)
Definition put_succeeds (d : bytes) (t : list Symbol) (ft : bytes) (ow : bool) (n s : bytes) : Prop :=
  exists f q e, admitted d t ft ow n s f q e /\ (s = [] -> free_on d + sectors_on d f = 0) /\
    (e = true -> q <> [] -> room_for t q /\ all_valid t).
(** Empty contents where there is room. *)
Definition put_crashes (d : bytes) (t : list Symbol) (ft : bytes) (ow : bool) (n s : bytes) : Prop :=
  exists f q e, admitted d t ft ow n s f q e /\ s = [] /\ 0 < free_on d + sectors_on d f.

(** ** rm *)
(** The name means a file, which exists (or -f is given); and if the name is in the symbol table, all
    other names there can be written. *)
Definition rm_succeeds (d : bytes) (t : list Symbol) (force : bool) (n : bytes) : Prop :=
  exists f, resolves t n f /\ (file_on d f <> [] \/ force = true) /\
    forall i, first_named t n i -> forall j, 0 <= j < zlen t -> j <> i -> valid_name (nm t j).

(** ** mkhello *)
(** The file to be loaded: by its number, by its symbol, or as number:symbol. *)
Inductive hello_target (t : list Symbol) : bytes -> Z -> Prop :=
| ht_one n f : no_colon n -> resolves t n f -> hello_target t n f
| ht_both p q f : numeric p f -> no_colon q -> (forall g, ~ numeric q g) -> hello_target t (p ++ 58 :: q) f.
(** The program goes to file 1, one sector, with the symbol FHELLO. *)
Definition mkhello_succeeds (d : bytes) (t : list Symbol) (n : bytes) (address start : Z) : Prop :=
  address mod 256 = 0 /\ (start <> 65535 -> address <= start) /\ (exists f, hello_target t n f) /\
  t <> [] /\ (0 < free_on d \/ file_on d 1 <> []) /\
  (symbol_file t (s2b "FHELLO") 1 \/ (room_for t (s2b "FHELLO") /\ all_valid t)).

(** [exits p w n]: the command ends with status [n]; no file has changed unless [n] is 0. *)
Definition exits (p : CmdModel.prog unit) (w : CmdModel.world) (n : Z) : Prop :=
  exists w', MainModel.main_run p w = (w', n) /\ (n <> 0 -> CmdSpec.same_files w w').
(** Status 0 if [ok], 2 if [crash], else 1. *)
Definition exits_by (ok crash : Prop) (p : CmdModel.prog unit) (w : CmdModel.world) : Prop :=
  (ok /\ exits p w 0) \/ (crash /\ exits p w 2) \/ (~ ok /\ ~ crash /\ exits p w 1).
