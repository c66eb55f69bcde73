(** BatchSpec.v -- a batch: puts and removals of different files in one session (C115). *)
From Coq Require Import Permutation.
From Verif Require Import GoBase TypesModel SupermonModel SupermonSpec SupermonStoreSpec CmdModel MainModel NakedCmdSpec SessionSpec.

Definition an_edit (a : action) : Prop := match a with APut _ _ _ _ _ | ARm _ _ => True | _ => False end.
(** Every action is an edit of a file, and no two are of the same file. *)
Definition batch (h : list (action * option Z)) : Prop :=
  Forall (fun af => an_edit (fst af) /\ snd af <> None) h /\ NoDup (map snd h).
(** Every command exits with status 0. *)
Definition all_well (l : list (Z * bytes)) : Prop := Forall (fun x => fst x = 0) l.
(** What the files hold after the batch [h] on the disk [d], the other files being [files]. *)
Record done (files : bytes -> node) (d : bytes) (h : list (action * option Z)) (d' : bytes) : Prop := {
  dn_put : forall ft ow addr n src f s r q, In (APut ft ow addr n src, Some f) h -> files src = NFile s r q -> file_on d' f = padded s;
  dn_rm : forall force n f, In (ARm force n, Some f) h -> file_on d' f = [];
  dn_other : forall f, legal f -> ~ In (Some f) (map snd h) -> file_on d' f = file_on d f
}.
(** Only puts of contents, each of at least as many sectors as the file has on [d]. *)
Definition growing (files : bytes -> node) (d : bytes) (h : list (action * option Z)) : Prop :=
  forall a f, In (a, Some f) h -> exists ft ow addr n src s r q, a = APut ft ow addr n src /\ files src = NFile s r q /\ s <> [] /\ sectors_on d f <= nsec s.
