(** PropertiesUndo.v -- property C127: changes to the files of a NakedOS disk can be taken back with what dump
    printed before (cmd/put.go, cmd/delete.go, cmd/dump.go, supermon/supermon.go). *)
From Verif Require Import GoBase DiskSpec SupermonModel SupermonSpec SupermonTableSpec SupermonStoreSpec SupermonOpProofs ProdosModel CmdModel CmdSpec MainModel NakedCmdSpec NakedExProofs SessionSpec BatchExProofs ShelfSpec.
From Verif Require DetectProofs.
From Verif Require Import TwinSpec BackupSpec HoldSpec UndoSpec UndoProofs UndoExProofs.

(** ** C127 *)
(** A session of which the puts and removals are of files of [F] only, whatever they do, whether they succeed
    or fail.  Of the files of [F] those of the list [l] were on the disk before, and those of [G] were not.
    Then all files of [F] are removed with rm -f, and those of [l] put again from what dump printed of them
    before (C124_dump): each of these commands succeeds and prints nothing; the image then holds what it held
    at first, and every later session goes as it would have on the first image (C126). *)
Theorem C127_undone : forall (iter : list (Z * Subdirectory) -> list (Z * Subdirectory)) fuel order img o t h F G l ow addr w c d,
  img <> s2b "-" -> first_order img order o -> no_numeric_symbols t ->
  w_fs w img = NFile c true true -> naked_image c o d -> names_on d t -> w_room w = None -> w_outroom w = None ->
  Forall (fun af => meant t img (fst af) (snd af)) h -> Forall (fun af => kept_to F (fst af) (snd af)) h ->
  F = map it_file l ++ G -> NoDup F -> ~ In 3 F -> ~ In 4 F -> Forall (good_item img w) l ->
  (forall i, In i l -> file_on d (it_file i) <> []) -> (forall g, In g G -> legal g /\ file_on d g = []) ->
  throughout (unmarked img) (map (command iter fuel order img) (map fst h ++ undo ow addr d F l)) w ->
  exists v c1 d1 l1, session (map (command iter fuel order img) (map fst h ++ undo ow addr d F l)) w = (v, l1 ++ map (fun _ => (0, [])) (undo ow addr d F l)) /\
    length l1 = length h /\ w_fs v img = NFile c1 true true /\ same_holding c c1 o d d1 /\
    forall h2 u, Forall (work_of order img) h2 -> beside img u v -> w_fs u img = NFile c true true -> no_empty_source h2 u ->
      throughout (unmarked img) (map (deed_command iter fuel) h2) u -> throughout (unmarked img) (map (deed_command iter fuel) h2) v ->
      snd (session (map (deed_command iter fuel) h2) v) = snd (session (map (deed_command iter fuel) h2) u).
Proof. exact undone_later. Qed.
Print Assumptions C127_undone.
(** A disk with file 5, which is overwritten; file 6 is put. *)
Example C127_order : first_order (s2b "x.do") (s2b "auto") (s2b "do").
Proof. exact (ex_intro _ _ DetectProofs.auto_do). Qed.
Example C127_example : forall iter fuel, exists w c v,
  w_fs w (s2b "x.do") = NFile c true true /\ naked_image c (s2b "do") (map_disk five_map) /\ names_on (map_disk five_map) [] /\ w_room w = None /\ w_outroom w = None /\
  Forall (fun af => meant [] (s2b "x.do") (fst af) (snd af)) undo_acts /\ Forall (fun af => kept_to [5; 6] (fst af) (snd af)) undo_acts /\
  [5; 6] = map it_file undo_items ++ [6] /\ NoDup [5; 6] /\ Forall (good_item (s2b "x.do") w) undo_items /\
  (forall i, In i undo_items -> file_on (map_disk five_map) (it_file i) <> []) /\ (forall g, In g [6] -> legal g /\ file_on (map_disk five_map) g = []) /\
  throughout (unmarked (s2b "x.do")) (map (command iter fuel (s2b "auto") (s2b "x.do")) (map fst undo_acts ++ undo false 0 (map_disk five_map) [5; 6] undo_items)) w /\
  session (map (command iter fuel (s2b "auto") (s2b "x.do")) (map fst undo_acts ++ undo false 0 (map_disk five_map) [5; 6] undo_items)) w =
    (v, [(0, []); (0, []); (0, padded filler)] ++ [(0, []); (0, []); (0, []); (0, [])]).
Proof. exact undo_example. Qed.
