(** NamedBatchSpec.v -- a batch of edits of different files under different names (C118). *)
From Coq Require Import Permutation.
From Verif Require Import GoBase TypesModel SupermonModel SupermonSpec SupermonTableSpec SupermonStoreSpec CmdModel MainModel NakedCmdSpec SessionSpec NamesSpec BatchSpec.

(** The file an edit is of, and the symbol it gives or takes. *)
Definition file_of (p : plan) : option Z := match p with PlFile f | PlAt f _ => Some f | _ => None end.
Definition symbol_of (p : plan) : bytes := match p with PlAt _ n => n | _ => [] end.
(** Every action is an edit of a file with a number; no two are of the same file, and no two have the
    same symbol, in whatever letters. *)
Definition named_batch (h : list (action * plan)) : Prop :=
  Forall (fun ap => an_edit (fst ap) /\ file_of (snd ap) <> None) h /\ NoDup (map (fun ap => file_of (snd ap)) h) /\
  NoDup (filter (fun n => negb (beq n [])) (map (fun ap => fold_case (symbol_of (snd ap))) h)).
(** The address that a name has in a row of cards. *)
Definition address_of (l : list card) (n : bytes) : option Z := option_map fst (find (is_named n) l).
(** What the disk holds after the batch [h] on the disk [d] with the cards [l]. *)
Record named_done (files : bytes -> node) (d : bytes) (l : list card) (h : list (action * plan)) (d' : bytes) (l' : list card) : Prop := {
  nd_put : forall ft ow addr n src p f s r q, In (APut ft ow addr n src, p) h -> file_of p = Some f -> files src = NFile s r q -> file_on d' f = padded s;
  nd_rm : forall force n p f, In (ARm force n, p) h -> file_of p = Some f -> file_on d' f = [];
  nd_other : forall f, legal f -> f <> 3 -> f <> 4 -> ~ In (Some f) (map (fun ap => file_of (snd ap)) h) -> file_on d' f = file_on d f;
  nd_given : forall ft ow addr n src f q, In (APut ft ow addr n src, PlAt f q) h -> q <> [] -> address_of l' q = Some (0xDF00 + f);
  nd_taken : forall force n f q, In (ARm force n, PlAt f q) h -> q <> [] -> address_of l' q = None;
  nd_names : forall n, n <> [] -> (forall a p, In (a, p) h -> equal_fold n (symbol_of p) = false) -> address_of l' n = address_of l n
}.
