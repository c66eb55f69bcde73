(** PropertiesDetect.v -- properties C79-C83 and C84: which system a disk image is taken for, and
    what ls, dump, decode, put, rm and mkhello do with it.  Vocabulary: DetectSpec, KeywordSpec.
    [eventually P]: [P] holds for all large enough bounds on the loops. *)
From Verif Require Import GoBase DiskModel DiskSpec SupermonModel SupermonSpec SupermonStoreSpec SupermonTableSpec ProdosModel CmdModel CmdSpec NakedCmdSpec
  DetectSpec DetectProofs PrintProofs KeywordSpec KeywordProofs.
From Verif Require Dos3Spec Dos3StmtProofs ProdosSpec ProdosStmtProofs BasicModel BasicSpec BasicStmtProofs.

(** ** C79 *)
Theorem C79_ls_dos3 : forall (iter : list (Z * Subdirectory) -> list (Z * Subdirectory)) img order system c d o l short w,
  ProdosSpec.an_order iter -> seen_as img order c (s2b "dos3") d o -> (system = s2b "auto" \/ system = s2b "dos3") ->
  bytes_ok d -> Dos3Spec.catalog d l -> input w img c -> w_outroom w = None ->
  eventually (fun fuel => exists names text,
    Forall2 Dos3Spec.entry_name (filter Dos3Spec.is_live (Dos3Spec.entries d l)) names /\ all_lines names text /\
    prints (LsCmd_Run iter fuel order system short img []) w text).
Proof. exact ls_dos. Qed.
Print Assumptions C79_ls_dos3.
Theorem C79_ls_prodos : forall (iter : list (Z * Subdirectory) -> list (Z * Subdirectory)) img order system c d o t dir k l short w,
  ProdosSpec.an_order iter -> seen_as img order c (s2b "prodos") d o -> (system = s2b "auto" \/ system = s2b "prodos") ->
  input w img c -> w_outroom w = None ->
  ProdosSpec.well_formed d t -> In (dir, (k, l)) (ProdosSpec.paths d [] t) ->
  (forall x, In (dir, x) (ProdosSpec.paths d [] t) -> x = (k, l)) ->
  eventually (fun fuel => exists text,
    all_lines (map prodos_name_of (filter ProdosSpec.is_live (ProdosSpec.dir_entries d k l))) text /\
    prints (LsCmd_Run iter fuel order system short img dir) w text).
Proof. exact ls_prodos. Qed.
Print Assumptions C79_ls_prodos.
(** Of several directories with one path one is listed (which one, C53_exact). *)
Theorem C79_ls_prodos_several : forall (iter : list (Z * Subdirectory) -> list (Z * Subdirectory)) img order system c d o t dir short w,
  ProdosSpec.an_order iter -> seen_as img order c (s2b "prodos") d o -> (system = s2b "auto" \/ system = s2b "prodos") ->
  input w img c -> w_outroom w = None ->
  ProdosSpec.well_formed d t -> dir <> [] -> In dir (map fst (ProdosSpec.paths d [] t)) ->
  exists k l, In (dir, (k, l)) (ProdosSpec.paths d [] t) /\
  eventually (fun fuel => exists text,
    all_lines (map prodos_name_of (filter ProdosSpec.is_live (ProdosSpec.dir_entries d k l))) text /\
    prints (LsCmd_Run iter fuel order system short img dir) w text).
Proof. exact ls_prodos_several. Qed.
Print Assumptions C79_ls_prodos_several.
Theorem C79_ls_prodos_unknown_path : forall (iter : list (Z * Subdirectory) -> list (Z * Subdirectory)) img order system c d o t dir short w,
  ProdosSpec.an_order iter -> seen_as img order c (s2b "prodos") d o -> (system = s2b "auto" \/ system = s2b "prodos") ->
  input w img c -> ProdosSpec.well_formed d t -> ~ In dir (map fst (ProdosSpec.paths d [] t)) ->
  eventually (fun fuel => fails_cleanly (LsCmd_Run iter fuel order system short img dir) w).
Proof. exact ls_prodos_none. Qed.
Print Assumptions C79_ls_prodos_unknown_path.
Theorem C79_ls_nakedos : forall (iter : list (Z * Subdirectory) -> list (Z * Subdirectory)) img order system c d o t (short : bool) w,
  ProdosSpec.an_order iter -> seen_as img order c (s2b "nakedos") d o -> (system = s2b "auto" \/ system = s2b "nakedos") ->
  names_on d t -> input w img c -> w_outroom w = None ->
  eventually (fun fuel => exists fs text, files_on d fs /\
    all_lines (map (if short then shown t else shown_full t) fs) text /\
    prints (LsCmd_Run iter fuel order system short img []) w text).
Proof. exact ls_naked. Qed.
Print Assumptions C79_ls_nakedos.
Theorem C79_ls_no_subdirectories : forall (iter : list (Z * Subdirectory) -> list (Z * Subdirectory)) img order system c sys d o dir short w,
  ProdosSpec.an_order iter -> seen_as img order c sys d o -> sys <> s2b "prodos" -> dir <> [] ->
  (system = s2b "auto" \/ system = sys) -> input w img c ->
  eventually (fun fuel => fails_cleanly (LsCmd_Run iter fuel order system short img dir) w).
Proof. exact ls_subdir. Qed.
Print Assumptions C79_ls_no_subdirectories.
Example C79_example :
  (seen_as (s2b "x.dsk") (s2b "auto") Dos3StmtProofs.ex_dos_disk (s2b "dos3") Dos3StmtProofs.ex_dos_disk (s2b "do") /\
   bytes_ok Dos3StmtProofs.ex_dos_disk /\ Dos3Spec.catalog Dos3StmtProofs.ex_dos_disk [(17, 15); (17, 14)]) /\
  (seen_as (s2b "x.po") (s2b "auto") ProdosStmtProofs.ex_vol (s2b "prodos") ProdosStmtProofs.ex_vol (s2b "po") /\
   ProdosSpec.well_formed ProdosStmtProofs.ex_vol ProdosStmtProofs.ex_tree /\
   NoDup (map fst (ProdosSpec.paths ProdosStmtProofs.ex_vol [] ProdosStmtProofs.ex_tree)) /\
   map fst (ProdosSpec.paths ProdosStmtProofs.ex_vol [] ProdosStmtProofs.ex_tree) = [[]; s2b "SUB"; s2b "SUB/INNER"]) /\
  (exists c d, seen_as (s2b "x.do") (s2b "auto") c (s2b "nakedos") d (s2b "do") /\ names_on d [] /\ file_on d 5 = zeros 256 /\ numeric (s2b "DF05") 5).
Proof. exact (conj (conj ex_seen_dos (conj Dos3StmtProofs.ex_dos_disk_ok Dos3StmtProofs.ex_catalog)) (conj (conj ex_seen_prodos (conj ProdosStmtProofs.ex_vol_ok (conj (proj2 ProdosStmtProofs.ex_vol_paths) (proj1 ProdosStmtProofs.ex_vol_paths)))) naked_example)). Qed.

(** ** C80 *)
(** In full: decode prints the listing of every stored program.  False, as for C55: a program
    without a header whose first line has a certain size is rejected. *)
Theorem C80_header_guess_refuted : exists ls, Forall BasicSpec.line_ok ls /\ ls <> [] /\ 0x801 + zlen (BasicSpec.program 0x801 ls) <= 65536 /\
  forall file (raw : bool) w, input w file (BasicSpec.program 0x801 ls) ->
    eventually (fun fuel => fails_cleanly (DecodeCmd_Run fuel file 0x801 raw) w).
Proof. exact decode_guess_refuted. Qed.
Print Assumptions C80_header_guess_refuted.
(** As for C55, missing for the full claim: files without a header that seem to have one. *)
Theorem C80_decode_prints_partial : forall ls loc t f file (raw : bool) w,
  0 < loc -> loc + zlen (BasicSpec.program loc ls) <= 65536 -> Forall BasicSpec.line_ok ls -> bytes_ok t ->
  (f = BasicSpec.program loc ls ++ t /\ ~ BasicSpec.has_header f) \/
  (f = put16 (zlen (BasicSpec.program loc ls)) ++ BasicSpec.program loc ls ++ t /\ zlen t <= 1) ->
  input w file f -> w_outroom w = None ->
  exists ts out,
    Forall2 (fun l t => exists s, BasicSpec.decimal (BasicModel.l_Num l) s /\
      t = s ++ [32] ++ concat (map BasicSpec.applesoft_text (BasicModel.l_Bytes l)) ++ [10]) ls ts /\
    (if raw then out = concat ts else BasicSpec.escaped (concat ts) out) /\
    eventually (fun fuel => prints (DecodeCmd_Run fuel file loc raw) w out).
Proof. exact decode_prints. Qed.
Print Assumptions C80_decode_prints_partial.
Example C80_example : Forall BasicSpec.line_ok BasicStmtProofs.ex_small /\ ~ BasicSpec.has_header (BasicSpec.program 0x801 BasicStmtProofs.ex_small) /\
  0x801 + zlen (BasicSpec.program 0x801 BasicStmtProofs.ex_small) <= 65536 /\
  exists w', run (DecodeCmd_Run 5 (s2b "p") 0x801 false) (one_file (s2b "p") (BasicSpec.program 0x801 BasicStmtProofs.ex_small) None) = (w', Ok tt) /\
    w_stdout w' = s2b "10  PRINT ""HI""" ++ [10] ++ s2b "20  GOTO 10" ++ [10].
Proof. exact decode_example. Qed.

(** ** C81 *)
Theorem C81_dump_dos3 : forall (iter : list (Z * Subdirectory) -> list (Z * Subdirectory)) img order system c d o l n e ls data start out w,
  ProdosSpec.an_order iter -> seen_as img order c (s2b "dos3") d o -> (system = s2b "auto" \/ system = s2b "dos3") ->
  bytes_ok d -> Dos3Spec.catalog d l -> input w img c -> w_outroom w = None ->
  Dos3Spec.lookup (Dos3Spec.entries d l) n e -> Dos3Spec.body d (znth 0 e 0, znth 0 e 1) ls data ->
  Dos3Spec.decoded (znth 0 e 2 mod 128) (zlen ls) data start out ->
  eventually (fun fuel => prints (DumpCmd_Run iter fuel order system img n) w out).
Proof. exact dump_dos. Qed.
Print Assumptions C81_dump_dos3.
Theorem C81_dump_dos3_missing : forall (iter : list (Z * Subdirectory) -> list (Z * Subdirectory)) img order system c d o l n w,
  ProdosSpec.an_order iter -> seen_as img order c (s2b "dos3") d o -> (system = s2b "auto" \/ system = s2b "dos3") ->
  bytes_ok d -> Dos3Spec.catalog d l -> input w img c ->
  (forall e, In e (Dos3Spec.entries d l) -> Dos3Spec.is_live e = true -> ~ Dos3Spec.entry_name e n) ->
  eventually (fun fuel => fails_cleanly (DumpCmd_Run iter fuel order system img n) w).
Proof. exact dump_dos_none. Qed.
Print Assumptions C81_dump_dos3_missing.
Theorem C81_dump_nakedos : forall (iter : list (Z * Subdirectory) -> list (Z * Subdirectory)) img order system c d o t n f w,
  ProdosSpec.an_order iter -> seen_as img order c (s2b "nakedos") d o -> (system = s2b "auto" \/ system = s2b "nakedos") ->
  names_on d t -> input w img c ->
  (resolves t n f -> file_on d f <> [] -> w_outroom w = None ->
     eventually (fun fuel => prints (DumpCmd_Run iter fuel order system img n) w (file_on d f))) /\
  (((forall g, ~ resolves t n g) \/ (resolves t n f /\ file_on d f = [])) ->
     eventually (fun fuel => fails_cleanly (DumpCmd_Run iter fuel order system img n) w)).
Proof. exact dump_nakedos. Qed.
Print Assumptions C81_dump_nakedos.
Theorem C81_dump_prodos : forall (iter : list (Z * Subdirectory) -> list (Z * Subdirectory)) img order system c d o n w,
  ProdosSpec.an_order iter -> seen_as img order c (s2b "prodos") d o -> (system = s2b "auto" \/ system = s2b "prodos") ->
  input w img c -> eventually (fun fuel => fails_cleanly (DumpCmd_Run iter fuel order system img n) w).
Proof. exact dump_prodos. Qed.
Print Assumptions C81_dump_prodos.
(** C79_example shows disks that meet the hypotheses; here is a file. *)
Example C81_example : exists e ls data, Dos3Spec.lookup (Dos3Spec.entries Dos3StmtProofs.ex_dos_disk [(17, 15); (17, 14)]) (s2b "HELLO") e /\
  Dos3Spec.body Dos3StmtProofs.ex_dos_disk (znth 0 e 0, znth 0 e 1) ls data /\
  Dos3Spec.decoded (znth 0 e 2 mod 128) (zlen ls) data 0x801 [1; 2; 3; 4; 5].
Proof. exact dump_example. Qed.

(** ** C82 *)
Theorem C82_unsupported_changes_fail : forall (iter : list (Z * Subdirectory) -> list (Z * Subdirectory))
    img order system c sys d o ft ow addr tgt src force name address start w,
  ProdosSpec.an_order iter -> seen_as img order c sys d o -> sys <> s2b "nakedos" ->
  (system = s2b "auto" \/ system = sys) -> input w img c ->
  eventually (fun fuel =>
    fails_cleanly (DeleteCmd_Run iter fuel order system force img name) w /\
    fails_cleanly (PutCmd_Run iter fuel order system ft ow addr img tgt src) w /\
    fails_cleanly (MkHelloCmd_Run iter fuel order img name address start) w).
Proof. exact change_fails. Qed.
Print Assumptions C82_unsupported_changes_fail.
Example C82_example : seen_as (s2b "x.dsk") (s2b "auto") Dos3StmtProofs.ex_dos_disk (s2b "dos3") Dos3StmtProofs.ex_dos_disk (s2b "do") /\
  seen_as (s2b "x.po") (s2b "auto") ProdosStmtProofs.ex_vol (s2b "prodos") ProdosStmtProofs.ex_vol (s2b "po").
Proof. exact (conj ex_seen_dos ex_seen_prodos). Qed.

(** ** C83 *)
(** The claim is that every floppy image is opened as a disk of its system, or refused if it is
    none.  Two kinds of images break it. *)
(** An image of zeros is taken for a ProDOS disk. *)
Theorem C83_blank_image_refuted : forall (iter : list (Z * Subdirectory) -> list (Z * Subdirectory)), ProdosSpec.an_order iter ->
  eventually (fun fuel => exists op,
    OpenImage (zeros 143360) (s2b "x.dsk") (s2b "auto") (s2b "auto") (DiskOperatorFactories iter fuel) = Ok (op, s2b "do") /\ Op_Name op = s2b "prodos").
Proof. exact blank_opens. Qed.
Print Assumptions C83_blank_image_refuted.
(** The catalog chain of a DOS 3.3 disk comes back to a sector: opening does not return ([Panic]
    stands for that) whatever the bound on the loops. *)
Theorem C83_cyclic_catalog_refuted : forall (iter : list (Z * Subdirectory) -> list (Z * Subdirectory)) img order c pre o rest d,
  zlen c = 143360 -> bytes_ok c -> candidates (image_name img) order (pre ++ o :: rest) -> Forall (unreadable c) pre ->
  reordered c o (s2b "do") d -> dos_cyclic d ->
  eventually (fun fuel => OpenImage c (image_name img) order (s2b "auto") (DiskOperatorFactories iter fuel) = Panic).
Proof. exact opens_hangs. Qed.
Print Assumptions C83_cyclic_catalog_refuted.
Theorem C83_detected_partial : forall (iter : list (Z * Subdirectory) -> list (Z * Subdirectory)) img order system c sys d o,
  ProdosSpec.an_order iter -> seen_as img order c sys d o -> (system = s2b "auto" \/ system = sys) ->
  eventually (fun fuel => exists op,
    OpenImage c (image_name img) order system (DiskOperatorFactories iter fuel) = Ok (op, o) /\ Op_Name op = sys /\ Op_GetBytes op = d).
Proof. exact detected. Qed.
Print Assumptions C83_detected_partial.
Theorem C83_unreadable_partial : forall (iter : list (Z * Subdirectory) -> list (Z * Subdirectory)) img order c orders,
  zlen c = 143360 -> bytes_ok c -> candidates (image_name img) order orders -> Forall (unreadable c) orders ->
  eventually (fun fuel => exists e, OpenImage c (image_name img) order (s2b "auto") (DiskOperatorFactories iter fuel) = Err e).
Proof. exact opens_none. Qed.
Print Assumptions C83_unreadable_partial.
Example C83_example :
  seen_as (s2b "x.dsk") (s2b "auto") Dos3StmtProofs.ex_dos_disk (s2b "dos3") Dos3StmtProofs.ex_dos_disk (s2b "do") /\
  seen_as (s2b "x.po") (s2b "auto") ProdosStmtProofs.ex_vol (s2b "prodos") ProdosStmtProofs.ex_vol (s2b "po") /\
  (bytes_ok ex_noise /\ zlen ex_noise = 143360 /\ candidates (image_name (s2b "x.dsk")) (s2b "auto") [s2b "do"; s2b "po"] /\
   Forall (unreadable ex_noise) [s2b "do"; s2b "po"]).
Proof. exact (conj ex_seen_dos (conj ex_seen_prodos noise_example)). Qed.
Example C83_cyclic_example : forall (iter : list (Z * Subdirectory) -> list (Z * Subdirectory)) fuel,
  zlen Dos3StmtProofs.ex_cyclic_disk = 143360 /\
  OpenImage Dos3StmtProofs.ex_cyclic_disk (s2b "x.dsk") (s2b "auto") (s2b "auto") (DiskOperatorFactories iter fuel) = Panic.
Proof. exact cyclic_example. Qed.

(** ** C84 *)
(** The claim is that listings show the keywords of Applesoft.  The power operator is shown as a
    semicolon. *)
Theorem C84_power_refuted : exists l, BasicSpec.line_ok l /\ shows l = s2b "PRINT2^3" /\
  BasicModel.applesoft_String [l] = s2b "10  PRINT 2 ; 3" ++ [10].
Proof. exact (ex_intro _ ex_power C84_power). Qed.
Print Assumptions C84_power_refuted.
(** Missing: the tokens DEF (shown as DEF FN), TAB( (shown as TAB) and ^. *)
Theorem C84_keywords_partial : forall ls, Forall BasicSpec.line_ok ls ->
  Forall (fun l => Forall (fun c => c <> 0xB8 /\ c <> 0xC0 /\ c <> 0xCC) (BasicModel.l_Bytes l)) ls ->
  exists ts, Forall2 (fun l t => exists s x, BasicSpec.decimal (BasicModel.l_Num l) s /\ t = s ++ 32 :: x ++ [10] /\ no_blanks x = shows l) ls ts /\
    BasicModel.applesoft_String ls = concat ts.
Proof. exact C84_lemma. Qed.
Print Assumptions C84_keywords_partial.
Theorem C84_integer_keywords : forall n c w, 0 <= n -> In (c, w) integer_words ->
  exists s b, BasicSpec.decimal5 n s /\ BasicModel.integer_line (BasicModel.mkLine n [c]) = s ++ [32] ++ s2b w ++ b /\ (b = [] \/ b = [32]).
Proof. exact C84_integer. Qed.
Print Assumptions C84_integer_keywords.
Example C84_example : shows (BasicModel.mkLine 10 [0x8A; 51; 58; 0x97]) = s2b "PR#3:HOME" /\
  BasicModel.applesoft_String [BasicModel.mkLine 10 [0x8A; 51; 58; 0x97]] = s2b "10  PR # 3: HOME " ++ [10].
Proof. split; vm_compute; reflexivity. Qed.
