(** PropertiesRoom.v -- property C119: exactly when there is room for a batch of edits of a NakedOS image
    (cmd/put.go, cmd/delete.go, supermon/supermon.go). *)
From Coq Require Import Permutation.
From Verif Require Import GoBase TypesModel DiskSpec SupermonModel SupermonSpec SupermonTableSpec SupermonStoreSpec SupermonOpProofs.
From Verif Require Import ProdosModel CmdModel CmdSpec MainModel NakedCmdSpec NakedExProofs SessionSpec BatchSpec BatchExProofs RoomSpec RoomProofs RoomExProofs.

(** ** C119 *)
(** Puts and removals of different files, one after the other: all of them succeed exactly if each can
    be made apart from the room for it, and at no point more sectors are needed than were free at
    first.  Hypotheses as in C115. *)
Theorem C119_exactly : forall (iter : list (Z * Subdirectory) -> list (Z * Subdirectory)) fuel order img o t h w c d w1 l1,
  img <> s2b "-" -> first_order img order o -> no_numeric_symbols t ->
  w_fs w img = NFile c true true -> naked_image c o d -> names_on d t -> w_room w = None -> w_outroom w = None ->
  batch h -> Forall (fun af => meant t img (fst af) (snd af)) h -> with_contents (w_fs w) h ->
  throughout (unmarked img) (map (fun af => command iter fuel order img (fst af)) h) w ->
  session (map (fun af => command iter fuel order img (fst af)) h) w = (w1, l1) ->
  (all_well l1 <-> Forall (possible (w_fs w) d) h /\ forall h1 h2, h = h1 ++ h2 -> needed_in_all (w_fs w) d h1 <= free_on d).
Proof. exact room_exactly. Qed.
Print Assumptions C119_exactly.
(** If those that free sectors come first, only the total matters. *)
Theorem C119_freeing_first : forall (iter : list (Z * Subdirectory) -> list (Z * Subdirectory)) fuel order img o t h w c d w1 l1,
  img <> s2b "-" -> first_order img order o -> no_numeric_symbols t ->
  w_fs w img = NFile c true true -> naked_image c o d -> names_on d t -> w_room w = None -> w_outroom w = None ->
  batch h -> Forall (fun af => meant t img (fst af) (snd af)) h -> with_contents (w_fs w) h -> freeing_first (w_fs w) d h ->
  throughout (unmarked img) (map (fun af => command iter fuel order img (fst af)) h) w ->
  session (map (fun af => command iter fuel order img (fst af)) h) w = (w1, l1) ->
  (all_well l1 <-> Forall (possible (w_fs w) d) h /\ needed_in_all (w_fs w) d h <= free_on d).
Proof. exact room_freeing. Qed.
Print Assumptions C119_freeing_first.
(** So if the edits succeed in any order, they do with those that free sectors first. *)
Theorem C119_best : forall (iter : list (Z * Subdirectory) -> list (Z * Subdirectory)) fuel order img o t h h2 w c d w1 l1 w2 l2,
  img <> s2b "-" -> first_order img order o -> no_numeric_symbols t ->
  w_fs w img = NFile c true true -> naked_image c o d -> names_on d t -> w_room w = None -> w_outroom w = None ->
  batch h -> Permutation h h2 -> Forall (fun af => meant t img (fst af) (snd af)) h -> with_contents (w_fs w) h -> freeing_first (w_fs w) d h2 ->
  throughout (unmarked img) (map (fun af => command iter fuel order img (fst af)) h) w ->
  throughout (unmarked img) (map (fun af => command iter fuel order img (fst af)) h2) w ->
  session (map (fun af => command iter fuel order img (fst af)) h) w = (w1, l1) -> all_well l1 ->
  session (map (fun af => command iter fuel order img (fst af)) h2) w = (w2, l2) -> all_well l2.
Proof. exact room_best. Qed.
Print Assumptions C119_best.
(** The sectors that are free afterwards. *)
Theorem C119_left : forall (iter : list (Z * Subdirectory) -> list (Z * Subdirectory)) fuel order img o t h w c d w1 l1,
  img <> s2b "-" -> first_order img order o -> no_numeric_symbols t ->
  w_fs w img = NFile c true true -> naked_image c o d -> names_on d t -> w_room w = None -> w_outroom w = None ->
  batch h -> Forall (fun af => meant t img (fst af) (snd af)) h ->
  throughout (unmarked img) (map (fun af => command iter fuel order img (fst af)) h) w ->
  session (map (fun af => command iter fuel order img (fst af)) h) w = (w1, l1) -> all_well l1 ->
  exists c1 d1, w_fs w1 img = NFile c1 true true /\ naked_image c1 o d1 /\ free_on d1 = free_on d - needed_in_all (w_fs w) d h.
Proof. exact room_left. Qed.
Print Assumptions C119_left.
(** A full disk with one file of 548 sectors: it is removed and another file put, in this order with
    546 sectors to spare; in the other order 2 sectors are missing at the first step (C115_full_example
    has the exit statuses). *)
Example C119_example : forall iter fuel, exists w c,
  w_fs w (s2b "x.do") = NFile c true true /\ naked_image c (s2b "do") (map_disk full_map) /\ names_on (map_disk full_map) [] /\ w_room w = None /\ w_outroom w = None /\
  free_on (map_disk full_map) = 0 /\ batch swap_files /\ with_contents (w_fs w) swap_files /\ freeing_first (w_fs w) (map_disk full_map) swap_files /\
  Forall (possible (w_fs w) (map_disk full_map)) swap_files /\ needed_in_all (w_fs w) (map_disk full_map) swap_files = -546 /\
  map (needed (w_fs w) (map_disk full_map)) (rev swap_files) = [2; -548] /\
  forall h, In h [swap_files; rev swap_files] ->
    Forall (fun af => meant [] (s2b "x.do") (fst af) (snd af)) h /\
    throughout (unmarked (s2b "x.do")) (map (fun af => command iter fuel (s2b "auto") (s2b "x.do") (fst af)) h) w.
Proof. exact full_example_room. Qed.
