(** PropertiesBatch.v -- property C115: puts and removals of different files on a NakedOS image, in any order
    (cmd/put.go, cmd/delete.go, supermon/supermon.go). *)
From Coq Require Import Permutation.
From Verif Require Import GoBase TypesModel DiskSpec SupermonModel SupermonSpec SupermonTableSpec SupermonStoreSpec SupermonOpProofs.
From Verif Require Import ProdosModel CmdModel CmdSpec MainModel NakedCmdSpec NakedExProofs SessionSpec BatchSpec BatchProofs BatchExProofs.

(** ** C115 *)
(** Two sessions that consist of the same puts and removals, of different files each, in different
    orders, and in which every command succeeds: the two images hold the same files and names and
    have the same number of free sectors ([done] says which files).  The files may lie in different
    sectors.  [meant] and [unmarked] are as in C95: files are given by number or, for put, by a symbol
    on the disk, and no command may find the mark of DOS 3.3. *)
Theorem C115_any_order : forall (iter : list (Z * Subdirectory) -> list (Z * Subdirectory)) fuel order img o t h h2 w c d w1 l1 w2 l2,
  img <> s2b "-" -> first_order img order o -> no_numeric_symbols t ->
  w_fs w img = NFile c true true -> naked_image c o d -> names_on d t -> w_room w = None -> w_outroom w = None ->
  batch h -> Permutation h h2 -> Forall (fun af => meant t img (fst af) (snd af)) h ->
  throughout (unmarked img) (map (fun af => command iter fuel order img (fst af)) h) w ->
  throughout (unmarked img) (map (fun af => command iter fuel order img (fst af)) h2) w ->
  session (map (fun af => command iter fuel order img (fst af)) h) w = (w1, l1) -> all_well l1 ->
  session (map (fun af => command iter fuel order img (fst af)) h2) w = (w2, l2) -> all_well l2 ->
  exists c1 d1 c2 d2, w_fs w1 img = NFile c1 true true /\ naked_image c1 o d1 /\ w_fs w2 img = NFile c2 true true /\ naked_image c2 o d2 /\
    names_on d1 t /\ names_on d2 t /\ done (w_fs w) d h d1 /\
    (forall f, legal f -> file_on d1 f = file_on d2 f) /\ free_on d1 = free_on d2 /\ (forall n, n <> img -> w_fs w1 n = w_fs w2 n).
Proof. exact batch_any_order. Qed.
Print Assumptions C115_any_order.
(** Puts none of which makes a file smaller: if they all succeed in one order, they do in any. *)
Theorem C115_growing : forall (iter : list (Z * Subdirectory) -> list (Z * Subdirectory)) fuel order img o t h h2 w c d w1 l1 w2 l2,
  img <> s2b "-" -> first_order img order o -> no_numeric_symbols t ->
  w_fs w img = NFile c true true -> naked_image c o d -> names_on d t -> w_room w = None -> w_outroom w = None ->
  batch h -> Permutation h h2 -> Forall (fun af => meant t img (fst af) (snd af)) h ->
  throughout (unmarked img) (map (fun af => command iter fuel order img (fst af)) h) w ->
  throughout (unmarked img) (map (fun af => command iter fuel order img (fst af)) h2) w ->
  growing (w_fs w) d h ->
  session (map (fun af => command iter fuel order img (fst af)) h) w = (w1, l1) -> all_well l1 ->
  session (map (fun af => command iter fuel order img (fst af)) h2) w = (w2, l2) -> all_well l2.
Proof. exact batch_growing. Qed.
Print Assumptions C115_growing.
(** Two puts and a removal, forwards and backwards. *)
Example C115_example : forall iter fuel, exists w c,
  w_fs w (s2b "x.do") = NFile c true true /\ naked_image c (s2b "do") (map_disk five_map) /\ names_on (map_disk five_map) [] /\ w_room w = None /\ w_outroom w = None /\
  batch three /\ Forall (fun af => meant [] (s2b "x.do") (fst af) (snd af)) three /\
  forall h, In h [three; rev three] ->
    throughout (unmarked (s2b "x.do")) (map (fun af => command iter fuel (s2b "auto") (s2b "x.do") (fst af)) h) w /\
    all_well (snd (session (map (fun af => command iter fuel (s2b "auto") (s2b "x.do") (fst af)) h) w)).
Proof. exact batch_example. Qed.
Example C115_growing_example : forall iter fuel, exists w c,
  w_fs w (s2b "x.do") = NFile c true true /\ naked_image c (s2b "do") (map_disk five_map) /\ names_on (map_disk five_map) [] /\ w_room w = None /\ w_outroom w = None /\
  batch two /\ Forall (fun af => meant [] (s2b "x.do") (fst af) (snd af)) two /\ growing (w_fs w) (map_disk five_map) two /\
  throughout (unmarked (s2b "x.do")) (map (fun af => command iter fuel (s2b "auto") (s2b "x.do") (fst af)) two) w /\
  throughout (unmarked (s2b "x.do")) (map (fun af => command iter fuel (s2b "auto") (s2b "x.do") (fst af)) (rev two)) w /\
  all_well (snd (session (map (fun af => command iter fuel (s2b "auto") (s2b "x.do") (fst af)) two) w)).
Proof. exact growing_example. Qed.
(** With removals success does depend on the order: on a full disk the file has to be removed first. *)
Example C115_full_example : forall iter fuel, exists w,
  snd (session (map (fun af => command iter fuel (s2b "auto") (s2b "x.do") (fst af)) swap_files) w) = [(0, []); (0, [])] /\
  snd (session (map (fun af => command iter fuel (s2b "auto") (s2b "x.do") (fst af)) (rev swap_files)) w) = [(1, []); (0, [])].
Proof. exact full_example. Qed.
