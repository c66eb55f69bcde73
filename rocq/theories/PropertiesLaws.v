(** PropertiesLaws.v -- properties C101 to C105: laws that relate several runs of diskii
    (cmd/put.go, cmd/delete.go, cmd/dump.go, cmd/nakedos.go, disk/open.go, supermon/supermon.go). *)
From Verif Require Import GoBase TypesModel DiskSpec SupermonModel SupermonSpec SupermonTableSpec SupermonStoreSpec NakedCmdSpec ProdosModel CmdModel CmdSpec DetectSpec ListSpec NakedExProofs MainModel SessionSpec SessionExProofs LawsSpec LawsProofs LawsExProofs.
From Verif Require ProdosSpec.

(** ** C101 *)
(** A put that has succeeded may be repeated with --overwrite, on the same image or on a copy with
    the same bytes, from a file or the standard input, told the system or not, with any address:
    it succeeds and the image has the same bytes as after the first. *)
Theorem C101_put_again : forall (iter : list (Z * Subdirectory) -> list (Z * Subdirectory)) fuel order system ft ow addr img tgt src w w' s,
  run (PutCmd_Run iter fuel order system ft ow addr img tgt src) w = (w', Ok tt) ->
  input w src s -> s <> [] ->
  exists c o d t d' new,
    input w img c /\ naked_image c o d /\ (ProdosSpec.an_order iter -> only_seen img order system c o d) /\ names_on d t /\ output w w' img new /\ naked_image new o d' /\
    forall f, no_colon tgt -> resolves t tgt f -> numeric tgt f \/ (f <> 3 /\ f <> 4) ->
    forall order2 system2 addr2 img2 src2 w2, (system2 = s2b "auto" \/ system2 = s2b "nakedos") -> ProdosSpec.an_order iter ->
      seen_as img2 order2 new (s2b "nakedos") d' o -> input w2 img2 new -> img2 <> s2b "-" -> input w2 src2 s ->
      w_room w2 = None -> w_outroom w2 = None -> can_output w2 img2 true ->
      eventually (fun k => exists w3, run (PutCmd_Run iter k order2 system2 ft true addr2 img2 tgt src2) w2 = (w3, Ok tt) /\ output w2 w3 img2 new).
Proof. exact put_again. Qed.
Print Assumptions C101_put_again.
(** put DF06 changes the image; put again, it does not. *)
Example C101_example : forall (iter : list (Z * Subdirectory) -> list (Z * Subdirectory)) fuel, ProdosSpec.an_order iter -> exists w w' new,
  run (PutCmd_Run iter fuel (s2b "auto") (s2b "auto") (s2b "B") false 0 (s2b "x.do") (s2b "DF06") (s2b "f")) w = (w', Ok tt) /\
  holds w' (s2b "x.do") new /\ ~ holds w (s2b "x.do") new /\
  eventually (fun k => exists w3, run (PutCmd_Run iter k (s2b "auto") (s2b "auto") (s2b "B") true 0 (s2b "x.do") (s2b "DF06") (s2b "f")) w' = (w3, Ok tt) /\
    holds w3 (s2b "x.do") new).
Proof. exact put_again_example. Qed.

(** ** C102 *)
(** Looking changes nothing: ls, dump, decode or filetypes may be put anywhere into a session, or
    left out of it.  All other commands have the same exit statuses and outputs, and the files are
    the same at the end. *)
Theorem C102_looking : forall (iter : list (Z * Subdirectory) -> list (Z * Subdirectory)) fuel p before after w v l1 w1 v2 l2, peeks iter fuel p ->
  session before w = (w1, l1) -> session after w1 = (v2, l2) -> main_run p (quiet w1) = v ->
  session (before ++ after) w = (v2, l1 ++ l2) /\
  exists v', session (before ++ p :: after) w = (v', l1 ++ (snd v, w_stdout (fst v)) :: l2) /\ same_files v2 v'.
Proof. exact peek_inserted. Qed.
Print Assumptions C102_looking.
(** The session of C95 with its sixth command, a listing, left out. *)
Example C102_example : forall (iter : list (Z * Subdirectory) -> list (Z * Subdirectory)) fuel, exists w w' v,
  let cmd := fun af : action * option Z => command iter fuel (s2b "auto") (s2b "x.do") (fst af) in
  session (map cmd day) w = (w', day_outcomes) /\
  session (map cmd (firstn 5 day) ++ map cmd (skipn 6 day)) w = (v, firstn 5 day_outcomes ++ skipn 6 day_outcomes) /\ same_files v w'.
Proof. exact peek_example. Qed.

(** ** C103 *)
(** The same disk in two image files, each in its own order (say x.do and y.po): put, rm and
    mkhello have the same result on both; if they succeed the new images are again the same disk
    in the two orders, if they fail no file is changed.  So reordering an image and then changing
    it gives the bytes of changing it and then reordering it. *)
Theorem C103_any_order : forall (iter : list (Z * Subdirectory) -> list (Z * Subdirectory)) e img1 order1 system1 c1 o1 w1 img2 order2 system2 c2 o2 w2 d, ProdosSpec.an_order iter ->
  seen_as img1 order1 c1 (s2b "nakedos") d o1 -> seen_as img2 order2 c2 (s2b "nakedos") d o2 ->
  (system1 = s2b "auto" \/ system1 = s2b "nakedos") -> (system2 = s2b "auto" \/ system2 = s2b "nakedos") ->
  input w1 img1 c1 -> input w2 img2 c2 -> img1 <> s2b "-" -> img2 <> s2b "-" -> same_source e w1 w2 ->
  w_room w1 = None -> w_outroom w1 = None -> can_output w1 img1 true -> w_room w2 = None -> w_outroom w2 = None -> can_output w2 img2 true ->
  eventually (fun k => exists w1' w2' r,
    run (edit_command iter k order1 system1 img1 e) w1 = (w1', r) /\ run (edit_command iter k order2 system2 img2 e) w2 = (w2', r) /\
    ((r = Ok tt /\ exists new1 new2, output w1 w1' img1 new1 /\ output w2 w2' img2 new2 /\ reordered new1 o1 o2 new2) \/
     (r <> Ok tt /\ same_files w1 w1' /\ same_files w2 w2'))).
Proof. exact edits_reorder. Qed.
Print Assumptions C103_any_order.
(** rm DF05 on a disk in x.do and on the same disk in y.po. *)
Example C103_example : forall (iter : list (Z * Subdirectory) -> list (Z * Subdirectory)), ProdosSpec.an_order iter -> exists w1 w2,
  eventually (fun k => exists w1' w2' new1 new2,
    run (edit_command iter k (s2b "auto") (s2b "auto") (s2b "x.do") (ERm false (s2b "DF05"))) w1 = (w1', Ok tt) /\
    run (edit_command iter k (s2b "auto") (s2b "auto") (s2b "y.po") (ERm false (s2b "DF05"))) w2 = (w2', Ok tt) /\
    holds w1' (s2b "x.do") new1 /\ holds w2' (s2b "y.po") new2 /\ reordered new1 (s2b "do") (s2b "po") new2).
Proof. exact edits_reorder_example. Qed.

(** ** C104 *)
(** A put of a new file, by its number, and an rm of that number (in any spelling) give back the
    disk: the same sector map, the same names, and the same bytes in every sector that was in use. *)
Theorem C104_put_rm : forall (iter : list (Z * Subdirectory) -> list (Z * Subdirectory)) fuel order system ft ow addr img tgt src w w' s f,
  run (PutCmd_Run iter fuel order system ft ow addr img tgt src) w = (w', Ok tt) ->
  input w src s -> s <> [] -> numeric tgt f ->
  exists c o d t d' new,
    input w img c /\ naked_image c o d /\ (ProdosSpec.an_order iter -> only_seen img order system c o d) /\ names_on d t /\ output w w' img new /\ naked_image new o d' /\
    (f <> 3 -> f <> 4 -> file_on d f = [] ->
     forall order2 system2 force img2 name w2, (system2 = s2b "auto" \/ system2 = s2b "nakedos") -> ProdosSpec.an_order iter ->
       numeric name f -> (forall i, 0 <= i < zlen t -> equal_fold name (nm t i) = false) ->
       seen_as img2 order2 new (s2b "nakedos") d' o -> input w2 img2 new -> img2 <> s2b "-" ->
       w_room w2 = None -> w_outroom w2 = None -> can_output w2 img2 true ->
       eventually (fun k => exists w3 new2 d2, run (DeleteCmd_Run iter k order2 system2 force img2 name) w2 = (w3, Ok tt) /\
         output w2 w3 img2 new2 /\ naked_image new2 o d2 /\ names_on d2 t /\ stored_map d2 = stored_map d /\
         forall j, 0 <= j < 560 -> znth 0 (stored_map d) j <> FREE -> sec d2 j = sec d j)).
Proof. exact put_rm. Qed.
Print Assumptions C104_put_rm.
(** put DF06, rm 06. *)
Example C104_example : forall (iter : list (Z * Subdirectory) -> list (Z * Subdirectory)) fuel, ProdosSpec.an_order iter -> exists w w',
  run (PutCmd_Run iter fuel (s2b "auto") (s2b "auto") (s2b "B") false 0 (s2b "x.do") (s2b "DF06") (s2b "f")) w = (w', Ok tt) /\
  eventually (fun k => exists w3 new2 d2, run (DeleteCmd_Run iter k (s2b "auto") (s2b "auto") false (s2b "x.do") (s2b "06")) w' = (w3, Ok tt) /\
    holds w3 (s2b "x.do") new2 /\ naked_image new2 (s2b "do") d2 /\ stored_map d2 = five_map).
Proof. exact put_rm_example. Qed.

(** ** C105 *)
(** A file dumped from one NakedOS disk and put on another is there what it was: dump prints the
    same bytes from both disks, though put pads a file to whole sectors. *)
Theorem C105_copied : forall (iter : list (Z * Subdirectory) -> list (Z * Subdirectory)) orderA systemA imgA cA dA oA tA n f wA fuel order system ft ow addr img tgt src w w', ProdosSpec.an_order iter ->
  seen_as imgA orderA cA (s2b "nakedos") dA oA -> (systemA = s2b "auto" \/ systemA = s2b "nakedos") -> names_on dA tA -> input wA imgA cA -> w_outroom wA = None ->
  resolves tA n f -> file_on dA f <> [] ->
  run (PutCmd_Run iter fuel order system ft ow addr img tgt src) w = (w', Ok tt) -> input w src (file_on dA f) ->
  eventually (fun k => prints (DumpCmd_Run iter k orderA systemA imgA n) wA (file_on dA f)) /\
  exists c o d t d' new,
    input w img c /\ naked_image c o d /\ (only_seen img order system c o d) /\ names_on d t /\ output w w' img new /\ naked_image new o d' /\
    forall g, no_colon tgt -> resolves t tgt g -> g <> 3 -> g <> 4 ->
    file_on d' g = file_on dA f /\
    forall system2 w2, (system2 = s2b "auto" \/ system2 = s2b "nakedos") -> seen_as img order new (s2b "nakedos") d' o -> input w2 img new -> w_outroom w2 = None ->
      eventually (fun k => prints (DumpCmd_Run iter k order system2 img tgt) w2 (file_on dA f)).
Proof. exact copied. Qed.
Print Assumptions C105_copied.
(** File 6 dumped from one disk, saved as f and put on another. *)
Example C105_example : forall (iter : list (Z * Subdirectory) -> list (Z * Subdirectory)) fuel, ProdosSpec.an_order iter -> exists wA w w' data,
  eventually (fun k => prints (DumpCmd_Run iter k (s2b "auto") (s2b "auto") (s2b "x.do") (s2b "06")) wA data) /\
  holds w (s2b "f") data /\
  run (PutCmd_Run iter fuel (s2b "auto") (s2b "auto") (s2b "B") false 0 (s2b "x.do") (s2b "DF06") (s2b "f")) w = (w', Ok tt) /\
  eventually (fun k => prints (DumpCmd_Run iter k (s2b "auto") (s2b "auto") (s2b "x.do") (s2b "DF06")) w' data).
Proof. exact copied_example. Qed.
