(** PropertiesSdSeen.v -- property C125: Standard Delivery disks and the other commands
    (cmd/sd.go, cmd/reorder.go, disk/open.go, cmd/put.go, cmd/delete.go, cmd/nakedos.go, cmd/catalog.go). *)
From Verif Require Import GoBase DiskSpec SupermonSpec ProdosModel CmdModel CmdSpec MainModel NakedCmdSpec SessionSpec SdSpec.
From Verif Require ProdosSpec ImageSpec.
From Verif Require Import DetectSpec SdSeenSpec SdSeenProofs SdSeenExProofs SdMapSpec SdMapProofs.

(** ** C125 *)
(** In ProDOS order the image that mksd writes is the boot sector, the binary as it is, and zeros. *)
Theorem C125_po : forall order name c address start0 raw,
  order_flag order -> sd_image_order order name (s2b "po") -> 0 <= address < 65536 -> 0 <= start0 < 65536 ->
  sd_image order name c address start0 = Ok raw ->
  raw = sd_line c address (sd_start address start0) /\ zlen (sd_first c address (sd_start address start0)) = 256.
Proof. exact sd_po_lemma. Qed.
Print Assumptions C125_po.
(** Whatever the orders, the images of one binary are those that reorder makes of each other. *)
Theorem C125_reorder : forall order1 name1 o1 raw1 order2 name2 o2 raw2 c address start0,
  order_flag order1 -> sd_image_order order1 name1 o1 -> order_flag order2 -> sd_image_order order2 name2 o2 ->
  0 <= address < 65536 -> 0 <= start0 < 65536 ->
  sd_image order1 name1 c address start0 = Ok raw1 -> sd_image order2 name2 c address start0 = Ok raw2 ->
  reordered raw1 o1 o2 raw2.
Proof. exact sd_reorder_lemma. Qed.
Print Assumptions C125_reorder.
(** A Standard Delivery disk is never taken for a DOS 3.3 disk, whatever the binary. *)
Theorem C125_never_dos3 : forall order name c address start0 raw,
  order_flag order -> 0 <= address < 65536 -> 0 <= start0 < 65536 -> sd_image order name c address start0 = Ok raw ->
  forall img flag sys d o, ImageSpec.opening img flag (s2b "auto") raw (ImageSpec.Opened sys d o) -> sys <> s2b "dos3".
Proof. exact sd_never_dos. Qed.
Print Assumptions C125_never_dos3.
(** put, rm and mkhello leave the disk alone if the binary has at most nine pages.
    Missing for the full claim: larger binaries, for which it is false (C125_larger_refuted). *)
Theorem C125_edits_partial : forall (iter : list (Z * Subdirectory) -> list (Z * Subdirectory)) fuel order name c address start0 raw,
  order_flag order -> 0 <= address < 65536 -> 0 <= start0 < 65536 -> sd_image order name c address start0 = Ok raw -> zlen c <= 2304 ->
  forall img flag system w ft ow addr tgt src force n a s, input w img raw ->
  leaves_alone (DeleteCmd_Run iter fuel flag system force img n) w /\
  leaves_alone (PutCmd_Run iter fuel flag system ft ow addr img tgt src) w /\
  leaves_alone (MkHelloCmd_Run iter fuel flag img n a s) w.
Proof. exact sd_edits_lemma. Qed.
Print Assumptions C125_edits_partial.
(** Whatever the size: they leave the disk alone if no part of the binary that comes to lie where NakedOS
    keeps its sector map, in the order of the image or the other one, is a well-formed map.
    Missing for the full claim: binaries with such a part, for which it is false (C125_taken,
    C125_larger_refuted). *)
Theorem C125_edits_unlike_partial : forall (iter : list (Z * Subdirectory) -> list (Z * Subdirectory)) fuel order name c address start0 raw,
  order_flag order -> 0 <= address < 65536 -> 0 <= start0 < 65536 -> sd_image order name c address start0 = Ok raw ->
  ~ verified (sd_own_map c) -> ~ verified (sd_other_map c) ->
  forall img flag system w ft ow addr tgt src force n a s, input w img raw ->
  leaves_alone (DeleteCmd_Run iter fuel flag system force img n) w /\
  leaves_alone (PutCmd_Run iter fuel flag system ft ow addr img tgt src) w /\
  leaves_alone (MkHelloCmd_Run iter fuel flag img n a s) w.
Proof. exact sd_edits_exact. Qed.
Print Assumptions C125_edits_unlike_partial.
(** With such a part the disk is taken for a NakedOS disk that has this part as its map. *)
Theorem C125_taken : forall order name o c address start0 raw,
  order_flag order -> sd_image_order order name o -> bytes_ok c -> 0 <= address < 65536 -> 0 <= start0 < 65536 ->
  sd_image order name c address start0 = Ok raw ->
  forall img flag o', first_order img flag o' ->
  (o' = o -> verified (sd_own_map c)) -> (o' <> o -> verified (sd_other_map c)) ->
  exists d, seen_as img flag raw (s2b "nakedos") d o' /\
    (o' = o -> stored_map d = sd_own_map c) /\ (o' <> o -> stored_map d = sd_other_map c).
Proof. exact sd_naked_seen. Qed.
Print Assumptions C125_taken.
(** Thirteen pages of sevens are unlike a map; the binary of C125_larger_refuted is not. *)
Example C125_unlike_example : ~ verified (sd_own_map (repeat 7 3328)) /\ ~ verified (sd_other_map (repeat 7 3328)) /\
  (exists raw, sd_image (s2b "auto") (s2b "x.do") (repeat 7 3328) 0x2000 0xFFFF = Ok raw) /\
  verified (sd_own_map lure) /\ bytes_ok lure /\ sd_image_order (s2b "auto") (s2b "x.do") (s2b "do").
Proof. exact map_examples. Qed.
(** The binary can be such that the disk is taken for a NakedOS disk without files: then put succeeds and
    writes over the disk. *)
Theorem C125_larger_refuted : forall (iter : list (Z * Subdirectory) -> list (Z * Subdirectory)) fuel, exists raw raw' w w',
  sd_image (s2b "auto") (s2b "x.do") lure 0x2000 0xFFFF = Ok raw /\ w_fs w (s2b "x.do") = NFile raw true true /\
  session (map (command iter fuel (s2b "auto") (s2b "x.do")) [ASave (s2b "f") (repeat 1 256); APut (s2b "B") false 0 (s2b "DF06") (s2b "f")]) w = (w', [(0, []); (0, [])]) /\
  w_fs w' (s2b "x.do") = NFile raw' true true /\ raw' <> raw.
Proof. exact lure_changed. Qed.
Print Assumptions C125_larger_refuted.
(** With a binary of at most three pages the disk is taken for an empty ProDOS volume: ls prints nothing
    and reports success; dump fails. *)
Theorem C125_empty : forall (iter : list (Z * Subdirectory) -> list (Z * Subdirectory)) order name c address start0 raw,
  ProdosSpec.an_order iter -> order_flag order -> bytes_ok c -> 0 <= address < 65536 -> 0 <= start0 < 65536 ->
  sd_image order name c address start0 = Ok raw -> zlen c <= 768 ->
  forall img flag o' w, first_order img flag o' -> input w img raw -> w_outroom w = None ->
  (forall short, eventually (fun fuel => prints (LsCmd_Run iter fuel flag (s2b "auto") short img []) w [])) /\
  (forall n, eventually (fun fuel => fails_cleanly (DumpCmd_Run iter fuel flag (s2b "auto") img n) w)).
Proof. exact sd_empty_lemma. Qed.
Print Assumptions C125_empty.

(** A binary of 600 bytes at 2000, started at 2100. *)
Example C125_example : exists raw w, sd_image (s2b "auto") (s2b "x.dsk") (repeat 7 600) 0x2000 0x2100 = Ok raw /\ input w (s2b "x.dsk") raw /\ w_outroom w = None /\
  first_order (s2b "x.dsk") (s2b "auto") (s2b "do") /\ bytes_ok (repeat 7 600) /\ zlen (repeat 7 600) = 600.
Proof. exact short_example. Qed.
Example C125_po_example : sd_image_order (s2b "auto") (s2b "x.po") (s2b "po") /\ exists raw, sd_image (s2b "auto") (s2b "x.po") (repeat 7 600) 0x2000 0x2100 = Ok raw.
Proof. exact po_example. Qed.
Example C125_opened : exists raw d, sd_image (s2b "auto") (s2b "x.do") lure 0x2000 0xFFFF = Ok raw /\ ImageSpec.opening (s2b "x.do") (s2b "auto") (s2b "auto") raw (ImageSpec.Opened (s2b "nakedos") d (s2b "do")).
Proof. exact opened_example. Qed.
