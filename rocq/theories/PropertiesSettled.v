(** PropertiesSettled.v -- property C114: a NakedOS put or mkhello repeated on its own result changes no byte of the image
    (cmd/put.go, cmd/nakedos.go, supermon/supermon.go). *)
From Verif Require Import GoBase TypesModel SupermonModel SupermonSpec SupermonTableSpec SupermonBreakSpec NakedCmdSpec NakedExProofs DetectSpec.
From Verif Require ProdosSpec.
From Verif Require Import ProdosModel CmdModel CmdSpec ListSpec StatusSpec ChangesSpec SettledProofs SettledExProofs.

(** ** C114 *)
(** put again, with --overwrite, of the same contents under the same target: succeeds and writes the
    image it was given.  The image may have another name the second time, the flags another value, and
    the contents come from another file.  Left out are targets that have no name at all
    (see [C114_unnamed]); a symbol for files 3 or 4, which hold the table itself; and, where a symbol
    has yet to be given, a change that damages the table (C38, C94), a symbol that cannot be written
    as it is spelled, and images that are not of bytes. *)
Theorem C114_put : forall (iter : list (Z * Subdirectory) -> list (Z * Subdirectory)) fuel order system ft ow addr img tgt src w w' s,
  run (PutCmd_Run iter fuel order system ft ow addr img tgt src) w = (w', Ok tt) ->
  input w src s -> s <> [] -> is_ascii tgt ->
  exists c o d t d' new,
    input w img c /\ naked_image c o d /\ (ProdosSpec.an_order iter -> only_seen img order system c o d) /\ names_on d t /\
    output w w' img new /\ naked_image new o d' /\
    forall f q e, put_meaning d t tgt f q e -> (q = [] -> tgt <> []) ->
      (q <> [] -> f <> 3 /\ f <> 4 /\ (e = true -> bytes_ok c /\ valid_name q /\ ~ add_breaks t q (0xDF00 + f))) ->
    forall order2 system2 addr2 img2 src2 w2, (system2 = s2b "auto" \/ system2 = s2b "nakedos") -> ProdosSpec.an_order iter ->
      seen_as img2 order2 new (s2b "nakedos") d' o -> input w2 img2 new -> input w2 src2 s -> ~ (img2 = s2b "-" /\ src2 = s2b "-") ->
      w_room w2 = None -> w_outroom w2 = None -> can_output w2 img2 true ->
      eventually (fun k => exists w3, run (PutCmd_Run iter k order2 system2 ft true addr2 img2 tgt src2) w2 = (w3, Ok tt) /\ output w2 w3 img2 new).
Proof. exact put_settled. Qed.
Print Assumptions C114_put.
(** mkhello again, for the same file however it is named. *)
Theorem C114_mkhello : forall (iter : list (Z * Subdirectory) -> list (Z * Subdirectory)) fuel order img name address start0 w w',
  run (MkHelloCmd_Run iter fuel order img name address start0) w = (w', Ok tt) ->
  0 <= address < 65536 -> 0 <= start0 < 65536 ->
  exists c o d t d' new f,
    input w img c /\ naked_image c o d /\ (ProdosSpec.an_order iter -> only_seen img order (s2b "auto") c o d) /\ names_on d t /\ target t name f /\
    output w w' img new /\ naked_image new o d' /\
    (symbol_file t (s2b "FHELLO") 1 \/ (bytes_ok c /\ ~ add_breaks t (s2b "FHELLO") 0xDF01) ->
     forall order2 img2 name2 w2 t2, ProdosSpec.an_order iter -> names_on d' t2 -> target t2 name2 f ->
       seen_as img2 order2 new (s2b "nakedos") d' o -> input w2 img2 new -> w_room w2 = None -> w_outroom w2 = None -> can_output w2 img2 true ->
       eventually (fun k => exists w3, run (MkHelloCmd_Run iter k order2 img2 name2 address start0) w2 = (w3, Ok tt) /\ output w2 w3 img2 new)).
Proof. exact mkhello_settled. Qed.
Print Assumptions C114_mkhello.
(** With the target "" every put takes another file: the second leaves the file of the first as it is. *)
Theorem C114_unnamed : forall (iter : list (Z * Subdirectory) -> list (Z * Subdirectory)) fuel order system ft ow addr img src w w' s,
  run (PutCmd_Run iter fuel order system ft ow addr img [] src) w = (w', Ok tt) ->
  input w src s -> s <> [] ->
  exists c o d t d' new,
    input w img c /\ naked_image c o d /\ (ProdosSpec.an_order iter -> only_seen img order system c o d) /\ names_on d t /\
    output w w' img new /\ naked_image new o d' /\
    forall f, put_meaning d t [] f [] true -> f <> 3 -> f <> 4 ->
    forall k order2 system2 ft2 ow2 addr2 img2 src2 s2 w2 w3, (system2 = s2b "auto" \/ system2 = s2b "nakedos") -> ProdosSpec.an_order iter ->
      seen_as img2 order2 new (s2b "nakedos") d' o -> input w2 img2 new -> input w2 src2 s2 -> s2 <> [] ->
      run (PutCmd_Run iter k order2 system2 ft2 ow2 addr2 img2 [] src2) w2 = (w3, Ok tt) -> exists new2 d2, output w2 w3 img2 new2 /\ naked_image new2 o d2 /\
        file_on d2 f = padded s /\ exists g, g <> f /\ legal g /\ file_on d' g = [] /\ file_on d2 g = padded s2.
Proof. exact put_unnamed. Qed.
Print Assumptions C114_unnamed.
(** Two puts of NEWFILE, which is new the first time. *)
Example C114_put_example : forall (iter : list (Z * Subdirectory) -> list (Z * Subdirectory)) fuel, ProdosSpec.an_order iter -> exists w w' new,
  run (PutCmd_Run iter fuel (s2b "auto") (s2b "auto") (s2b "B") false 0 (s2b "x.do") (s2b "NEWFILE") (s2b "f")) w = (w', Ok tt) /\
  output w w' (s2b "x.do") new /\
  eventually (fun k => exists w3, run (PutCmd_Run iter k (s2b "auto") (s2b "auto") (s2b "B") true 0 (s2b "x.do") (s2b "NEWFILE") (s2b "f")) (two_files (s2b "x.do") new (s2b "f") (repeat 7 300)) = (w3, Ok tt) /\
    holds w3 (s2b "x.do") new).
Proof. exact put_twice. Qed.
(** Two runs of mkhello, for DF05 and for 5. *)
Example C114_mkhello_example : forall (iter : list (Z * Subdirectory) -> list (Z * Subdirectory)), ProdosSpec.an_order iter -> eventually (fun fuel => exists w w' new,
  run (MkHelloCmd_Run iter fuel (s2b "auto") (s2b "x.do") (s2b "DF05") 0x2000 0xFFFF) w = (w', Ok tt) /\
  output w w' (s2b "x.do") new /\
  eventually (fun k => exists w3, run (MkHelloCmd_Run iter k (s2b "auto") (s2b "x.do") (s2b "5") 0x2000 0xFFFF) (two_files (s2b "x.do") new (s2b "f") []) = (w3, Ok tt) /\
    holds w3 (s2b "x.do") new)).
Proof. exact mkhello_twice. Qed.
(** Two puts without a name, both of which succeed. *)
Example C114_unnamed_example : forall (iter : list (Z * Subdirectory) -> list (Z * Subdirectory)), ProdosSpec.an_order iter -> eventually (fun fuel => exists w w' c d t d' new,
  run (PutCmd_Run iter fuel (s2b "auto") (s2b "auto") (s2b "B") false 0 (s2b "x.do") [] (s2b "f")) w = (w', Ok tt) /\
  input w (s2b "f") (repeat 7 300) /\ input w (s2b "x.do") c /\ seen_as (s2b "x.do") (s2b "auto") c (s2b "nakedos") d (s2b "do") /\ names_on d t /\ put_meaning d t [] 1 [] true /\
  output w w' (s2b "x.do") new /\ seen_as (s2b "x.do") (s2b "auto") new (s2b "nakedos") d' (s2b "do") /\
  eventually (fun k => exists w3,
    run (PutCmd_Run iter k (s2b "auto") (s2b "auto") (s2b "B") false 0 (s2b "x.do") [] (s2b "f")) (two_files (s2b "x.do") new (s2b "f") (repeat 7 300)) = (w3, Ok tt))).
Proof. exact unnamed_twice. Qed.
