(** PropertiesTwin.v -- property C123: edits of a NakedOS disk do not depend on what its files hold
    (cmd/put.go, cmd/delete.go, cmd/nakedos.go, cmd/catalog.go, supermon/supermon.go). *)
From Verif Require Import GoBase DiskSpec SupermonSpec SupermonTableSpec ProdosModel CmdModel CmdSpec MainModel NakedCmdSpec NakedExProofs SessionSpec ShelfSpec LocalSpec LocalExProofs.
From Verif Require DetectProofs.
From Verif Require Import TwinSpec TwinCmdProofs TwinExProofs.

(** ** C123 *)
(** Two NakedOS images with the same sector map and symbol table, whatever else is on them, on two
    computers that are otherwise the same.  The same session of puts, removals, mkhellos and listings
    gives the same exit statuses and prints the same on both; afterwards the two images have the same
    sector map and symbol table again, and each byte is the same on both or is on both as it was before
    the session. *)
Theorem C123_twins : forall (iter : list (Z * Subdirectory) -> list (Z * Subdirectory)) fuel order img o h w w' c c' q d d',
  img <> s2b "-" -> first_order img order o -> Forall (edit_of order img) h -> beside img w w' ->
  w_fs w img = NFile c true q -> w_fs w' img = NFile c' true q -> twins c c' o d d' ->
  no_empty_source h w -> throughout (unmarked img) (map (deed_command iter fuel) h) w ->
  exists v v' l c1 c1' q1 d1 d1',
    session (map (deed_command iter fuel) h) w = (v, l) /\ session (map (deed_command iter fuel) h) w' = (v', l) /\ beside img v v' /\
    w_fs v img = NFile c1 true q1 /\ w_fs v' img = NFile c1' true q1 /\ twins c1 c1' o d1 d1' /\ in_step d d' d1 d1'.
Proof. exact twin_session. Qed.
Print Assumptions C123_twins.
(** A disk with one file, and the same with a free sector overwritten; two files are put, the one that
    was there is removed, and the rest is listed. *)
Example C123_order : first_order (s2b "x.do") (s2b "auto") (s2b "do").
Proof. exact (ex_intro _ _ DetectProofs.auto_do). Qed.
Example C123_edits : Forall (edit_of (s2b "auto") (s2b "x.do")) twin_deeds.
Proof. exact twin_edits. Qed.
Example C123_example : forall iter fuel, exists w w' c c' v,
  beside (s2b "x.do") w w' /\ w_fs w (s2b "x.do") = NFile c true true /\ w_fs w' (s2b "x.do") = NFile c' true true /\
  twins c c' (s2b "do") (map_disk five_map) hurt_naked /\ sec (map_disk five_map) 100 <> sec hurt_naked 100 /\
  no_empty_source twin_deeds w /\ throughout (unmarked (s2b "x.do")) (map (deed_command iter fuel) twin_deeds) w /\
  session (map (deed_command iter fuel) twin_deeds) w = (v, [(0, []); (0, []); (0, []); (0, s2b "DF06" ++ [10] ++ s2b "DF1A" ++ [10])]).
Proof. exact twin_example. Qed.
