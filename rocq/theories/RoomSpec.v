(** RoomSpec.v -- whether there is room for a batch of edits (C119). *)
From Verif Require Import GoBase TypesModel SupermonModel SupermonSpec SupermonStoreSpec CmdModel MainModel NakedCmdSpec SessionSpec BatchSpec.

(** How many sectors more an edit needs than the file has on the disk [d]: less than none if it frees some. *)
Definition needed (files : bytes -> node) (d : bytes) (af : action * option Z) : Z :=
  match af with
  | (APut _ _ _ _ src, Some f) => match files src with NFile s _ _ => nsec s - sectors_on d f | _ => 0 end
  | (ARm _ _, Some f) => - sectors_on d f
  | _ => 0
  end.
Definition needed_in_all (files : bytes -> node) (d : bytes) (h : list (action * option Z)) : Z :=
  fold_right Z.add 0 (map (needed files d) h).
(** Apart from the room for it, the edit can be made: a put is of type B, its source can be read, and
    the file is not there unless --overwrite is given; a removal is of a file that is there, or forced. *)
Definition possible (files : bytes -> node) (d : bytes) (af : action * option Z) : Prop :=
  match af with
  | (APut ft ow _ _ src, Some f) => binary ft = true /\ (exists s q, files src = NFile s true q) /\ (file_on d f <> [] -> ow = true)
  | (ARm force _, Some f) => file_on d f = [] -> force = true
  | _ => False
  end.
(** No source is empty (put of an empty file crashes, C108). *)
Definition with_contents (files : bytes -> node) (h : list (action * option Z)) : Prop :=
  forall ft ow addr n src f s r q, In (APut ft ow addr n src, f) h -> files src = NFile s r q -> s <> [].
(** Edits that free sectors, or need none, come before those that need some. *)
Definition freeing_first (files : bytes -> node) (d : bytes) (h : list (action * option Z)) : Prop :=
  exists h1 h2, h = h1 ++ h2 /\ Forall (fun af => needed files d af <= 0) h1 /\ Forall (fun af => 0 <= needed files d af) h2.
