(** TreeSpec.v -- two ProDOS volumes with the same folders and names, wherever these are on them. *)
From Verif Require Import GoBase DiskSpec ProdosModel ProdosSpec CmdModel DetectSpec.

(** The names in a directory, in order. *)
Definition names_in (d : bytes) (k : Z) (l : list Z) : list bytes := map prodos_name_of (filter is_live (dir_entries d k l)).
(** The directories have the same names in them, and so on for their subdirectories, one by one.  In which
    blocks they are, where deleted entries are between the others, and where the files are may differ. *)
Inductive same_tree (d d' : bytes) : tree -> tree -> Prop :=
| same_node k l subs k' l' subs' : names_in d k l = names_in d' k' l' -> length subs = length subs' ->
    (forall s s', In (s, s') (combine subs subs') -> header_name d (root s) = header_name d' (root s')) ->
    (forall s s', In (s, s') (combine subs subs') -> same_tree d d' s s') ->
    same_tree d d' (Node k l subs) (Node k' l' subs').
(** No two directories of the volume have the same path. *)
Definition distinct_paths (d : bytes) (t : tree) : Prop := NoDup (map fst (paths d [] t)).
(** Both commands succeed and print the same text, or both report an error and print nothing; no file is changed. *)
Definition show_alike (p : prog unit) (w : world) (p' : prog unit) (w' : world) : Prop :=
  (exists text, prints p w text /\ prints p' w' text) \/ (fails_cleanly p w /\ fails_cleanly p' w').
(** The volume has the folder [p] with the names [ns] in it. *)
Definition has_folder (d : bytes) (t : tree) (p : bytes) (ns : list bytes) : Prop := exists k l, In (p, (k, l)) (paths d [] t) /\ names_in d k l = ns.
(** No name has a line end in it. *)
Definition plain_names (d : bytes) (t : tree) : Prop := forall p ns n, has_folder d t p ns -> In n ns -> ~ In 10 n.
