(** PropertiesSupermon.v -- properties C24-C46 and C70 (package supermon, NakedOS disks).
    Vocabulary: SupermonSpec, SupermonTableSpec, SupermonStoreSpec.  [reached o]
    (SupermonFinalProofs) says that operator [o] came from opening a 143360-byte image and
    applying any number of PutFile (of non-empty contents), Delete, GetFile, Catalog calls. *)
From Verif Require Import TableRmProofs TableRmExProofs EmptyPutProofs GoBase GoLemmas DiskModel TypesModel
  SupermonModel SupermonSpec SupermonTableSpec SupermonStoreSpec SupermonProofs SupermonSymProofs
  SupermonTabProofs SupermonLinkProofs SupermonNameProofs SupermonOpProofs SupermonNamedProofs
  SupermonFinalProofs SupermonStmtProofs SupermonRewriteProofs SupermonReadableProofs
  SupermonBreakSpec SupermonBreakProofs BoundSpec AfterPutAnyProofs.
From Coq Require Import ZifyBool ZifyNat Sorted.
Local Opaque zrange.

(** ** C24 *)
Theorem C24_sector_map_persists : forall sm d, zlen sm = 560 ->
  (3072 <= zlen d ->
     exists d', Persist sm d = (d', Ok tt) /\ zlen d' = zlen d /\
       (forall i, 0 <= i < 560 -> znth 0 d' (9 * 256 + 0xD0 + i) = znth 0 sm i) /\
       (forall i, 0 <= i -> ~ (9 * 256 + 0xD0 <= i < 12 * 256) -> znth 0 d' i = znth 0 d i) /\
       LoadSectorMap d' = Ok sm) /\
  (3072 <= zlen d -> exists sm', LoadSectorMap d = Ok sm' /\ zlen sm' = 560) /\
  (zlen d < 3072 -> (exists d' e, Persist sm d = (d', Err e)) /\ (exists e, LoadSectorMap d = Err e)).
Proof. exact Persist_load. Qed.
Print Assumptions C24_sector_map_persists.
Example C24_example : zlen ex_map = 560 /\ LoadSectorMap ex_blank = Ok ex_map.
Proof. split; vm_compute; reflexivity. Qed.

(** ** C25 *)
Theorem C25_Verify : forall sm, zlen sm = 560 ->
  (Verify sm = Ok tt <->
     (forall s, 0 <= s <= 11 -> znth 0 sm s = 0xFE) /\ (forall k, 0 <= k < 560 -> znth 0 sm k <> 0)) /\
  (Verify sm <> Ok tt -> exists e, Verify sm = Err e).
Proof. exact Verify_iff. Qed.
Print Assumptions C25_Verify.
Example C25_example : Verify ex_map = Ok tt /\ is_err (Verify (zset ex_map 11 255)) = true /\
  is_err (Verify (zset ex_map 559 0)) = true.
Proof. repeat split; vm_compute; reflexivity. Qed.

(** ** C26 *)
Theorem C26_write_then_read : forall f c ow (d sm : bytes) d' sm' ex, floppy d sm -> legal f -> c <> [] ->
  WriteFile f c ow (d, sm) = ((d', sm'), Ok ex) ->
  ReadFile sm' d' f = Ok (c ++ zeros ((- zlen c) mod 256)) /\
  (ex = true <-> exists k, 0 <= k < 560 /\ znth 0 sm k = f).
Proof. exact C26_lemma. Qed.
Print Assumptions C26_write_then_read.

(** ** C27 *)
Theorem C27_write_frame : forall f c ow (d sm : bytes) d' sm' ex, floppy d sm -> legal f -> c <> [] ->
  WriteFile f c ow (d, sm) = ((d', sm'), Ok ex) ->
  floppy d' sm' /\
  (forall g, g <> f -> legal g -> owned sm' g = owned sm g /\ ReadFile sm' d' g = ReadFile sm d g) /\
  owned sm' RESERVED = owned sm RESERVED /\
  (forall k, 0 <= k < 560 -> znth 0 sm k = RESERVED -> ~ (9 <= k <= 11) -> sec d' k = sec d k) /\
  sub d' (9 * 256) (9 * 256 + 0xD0) = sub d (9 * 256) (9 * 256 + 0xD0).
Proof. exact C27_lemma. Qed.
Print Assumptions C27_write_frame.

(** ** C28 *)
Theorem C28_write_errors : forall f c ow (d sm : bytes) d' sm' r, floppy d sm -> legal f -> c <> [] ->
  WriteFile f c ow (d, sm) = ((d', sm'), r) ->
  (r = Err EOutOfSpace <-> zlen (owned sm FREE) + zlen (owned sm f) < nsec c) /\
  (r = Err EFileExists <-> nsec c <= zlen (owned sm FREE) + zlen (owned sm f) /\ owned sm f <> [] /\ ow = false) /\
  ((exists ex, r = Ok ex) <->
     nsec c <= zlen (owned sm FREE) + zlen (owned sm f) /\ (owned sm f <> [] -> ow = true)) /\
  ((exists e, r = Err e) -> d' = d /\ sm' = sm) /\ r <> Panic.
Proof. exact WriteFile_full. Qed.
Print Assumptions C28_write_errors.

(** ** C29 *)
Theorem C29_space : 
  (forall f c ow (d sm : bytes) d' sm' ex, floppy d sm -> legal f -> c <> [] ->
     WriteFile f c ow (d, sm) = ((d', sm'), Ok ex) ->
     zlen (owned sm' f) = nsec c /\
     zlen (owned sm' FREE) = zlen (owned sm FREE) + zlen (owned sm f) - nsec c) /\
  (forall f sm, verified sm -> legal f ->
     zlen (owned (SMDelete sm f) f) = 0 /\
     zlen (owned (SMDelete sm f) FREE) = zlen (owned sm FREE) + zlen (owned sm f)).
Proof. exact C29_lemma. Qed.
Print Assumptions C29_space.

(** The hypotheses of C26-C29 are met: a 300-byte file on a blank floppy, written successfully;
    overwriting it without the flag, and writing 548 * 256 + 1 bytes, fail. *)
Example C26_C29_example : floppy ex_blank ex_map /\ legal 5 /\
  (exists d' sm', WriteFile 5 (repeat 7 300) false (ex_blank, ex_map) = ((d', sm'), Ok false) /\
     ReadFile sm' d' 5 = Ok (repeat 7 300 ++ zeros 212) /\ zlen (owned sm' FREE) = 546 /\
     exists s, WriteFile 5 (repeat 8 3) false (d', sm') = (s, Err EFileExists)) /\
  (forall c, zlen c = 548 * 256 + 1 -> exists s, WriteFile 5 c true (ex_blank, ex_map) = (s, Err EOutOfSpace)).
Proof. exact C26_C29_example_lemma. Qed.

(** ** C30 *)
Theorem C30_Delete : forall sm f, verified sm -> legal f ->
  verified (SMDelete sm f) /\ owned (SMDelete sm f) f = [] /\
  (forall g, g <> f -> g <> FREE -> owned (SMDelete sm f) g = owned sm g) /\
  (forall k, In k (owned (SMDelete sm f) FREE) <-> In k (owned sm FREE) \/ In k (owned sm f)) /\
  zlen (owned (SMDelete sm f) FREE) = zlen (owned sm FREE) + zlen (owned sm f).
Proof. exact SMDelete_full. Qed.
Print Assumptions C30_Delete.
Example C30_example : verified ex_map /\ verified (zset ex_map 20 5) /\ owned (zset ex_map 20 5) 5 = [20].
Proof. exact C30_example_lemma. Qed.

(** ** C31: refuted for empty contents *)
(** PutFile of an empty file under the number of an unused file panics on every disk with a
    free sector. *)
Theorem C31_empty_put_panics_refuted :
  (forall o i f ow, reached o -> numeric (d_name (fi_desc_ i)) f -> fi_data i = [] ->
     d_type (fi_desc_ i) = FiletypeBinary -> d_length (fi_desc_ i) = 0 ->
     owned (op_SM o) FREE <> [] -> owned (op_SM o) f = [] -> exists o', PutFile i ow o = (o', Panic)) /\
  exists o i o', reached o /\ PutFile i false o = (o', Panic).
Proof. exact C31_refuted_lemma. Qed.
Print Assumptions C31_empty_put_panics_refuted.
(** Missing from the full statement: puts of empty contents. *)
Theorem C31_no_panic_partial : forall o r, reached o -> (forall i ow, r = RPut i ow -> fi_data i <> []) ->
  match snd (op_step r o) with PBool x => x <> Panic | PFile x => x <> Panic | PList x => x <> Panic end.
Proof. exact reached_nopanic. Qed.
Print Assumptions C31_no_panic_partial.
(** The puts that are missing: whatever would be stored with some contents panics with none, and on a
    disk that is not full every other put of empty contents is refused. *)
Theorem C31_empty_put_panics : forall o name loc sl sa lk ft s addr ow o' ex, reached o -> s <> [] ->
  PutFile (FI (Desc name loc sl sa (zlen s) lk ft) s addr) ow o = (o', Ok ex) ->
  exists o2, PutFile (FI (Desc name loc sl sa 0 lk ft) [] addr) ow o = (o2, Panic).
Proof. exact put_empty_reached. Qed.
Print Assumptions C31_empty_put_panics.
Theorem C31_empty_put_refused : forall o i ow o' r, reached o -> fi_data i = [] -> owned (op_SM o) FREE <> [] -> PutFile i ow o = (o', r) ->
  r = Panic \/ exists e, r = Err e /\ o' = o.
Proof. exact put_empty_else_reached. Qed.
Print Assumptions C31_empty_put_refused.
Example C31_empty_example : exists o o', reached o /\
  PutFile (FI (Desc (s2b "NEWFILE") [] 0 0 (zlen (repeat 7 300)) false FiletypeBinary) (repeat 7 300) 0) false o = (o', Ok false).
Proof. exact put_empty_reached_example. Qed.

(** ** C32 *)
Theorem C32_FirstFreeFile : forall sm,
  (1 <= FirstFreeFile sm <= 0xFD /\ owned sm (FirstFreeFile sm) = [] /\
     forall f, 1 <= f < FirstFreeFile sm -> owned sm f <> []) \/
  (FirstFreeFile sm = 0 /\ forall f, legal f -> owned sm f <> []).
Proof. exact FirstFreeFile_spec. Qed.
Print Assumptions C32_FirstFreeFile.
Example C32_example : FirstFreeFile (zset (zset (zset ex_map 20 1) 100 2) 30 4) = 3.
Proof. vm_compute. reflexivity. Qed.

(** ** C33 *)
Theorem C33_encode_decode : forall n, Forall alnum n ->
  (valid_name n -> exists six, encodeSymbol n = Ok six /\ zlen six = 6 /\
     decodeSymbol (sub six 0 5) (znth 0 six 5) = upcase n) /\
  (~ valid_name n -> exists e, encodeSymbol n = Err e).
Proof. exact C33_lemma. Qed.
Print Assumptions C33_encode_decode.
Example C33_example : valid_name (s2b "Hello5") /\ valid_name (s2b "abcdefghi") /\ ~ valid_name (s2b "123456789").
Proof. exact C33_example_lemma. Qed.

(** ** C34: refuted for names with other characters *)
(** Every accepted name decodes to its letters and digits only; so "A.BC" comes back as "ABC". *)
Theorem C34_lossy_names_refuted :
  exists n six, encodeSymbol n = Ok six /\ decodeSymbol (sub six 0 5) (znth 0 six 5) <> upcase n.
Proof. exact C34_refuted_lemma. Qed.
Print Assumptions C34_lossy_names_refuted.
(** A name comes back, in upper case, exactly if it consists of letters and digits; of an
    ASCII name the letters and digits come back.  Which ASCII names are accepted. *)
Theorem C34_accepted_names_partial : forall n six, encodeSymbol n = Ok six ->
  (decodeSymbol (sub six 0 5) (znth 0 six 5) = upcase n <-> Forall alnum n) /\
  (is_ascii n -> decodeSymbol (sub six 0 5) (znth 0 six 5) = upcase (filter is_alnum n)).
Proof. exact C34_partial_lemma. Qed.
Print Assumptions C34_accepted_names_partial.
Theorem C34_accepted : forall n, is_ascii n ->
  ((exists six, encodeSymbol n = Ok six) <->
     n = [] \/ (3 <= zlen n <= 9 /\ name_bits (filter is_alnum n) <= 48)).
Proof. exact C34_accepted_lemma. Qed.
Print Assumptions C34_accepted.
Example C34_example : exists six, encodeSymbol (s2b "A.BC") = Ok six /\ filter is_alnum (s2b "A.BC") = s2b "ABC".
Proof. eexists. split; vm_compute; reflexivity. Qed.

(** ** C35 *)
Theorem C35_symbol_table_roundtrip : forall t (d sm : bytes), floppy d sm -> table_ok t ->
  zlen (owned sm 3) = 16 -> zlen (owned sm 4) = 16 ->
  exists d' sm', WriteSymbolTable t (d, sm) = ((d', sm'), Ok tt) /\ floppy d' sm' /\
    ReadSymbolTable sm' d' = Ok (map canon t) /\
    (forall g, g <> 3 -> g <> 4 -> legal g -> owned sm' g = owned sm g /\ ReadFile sm' d' g = ReadFile sm d g) /\
    zlen (owned sm' 3) = 16 /\ zlen (owned sm' 4) = 16 /\ zlen (owned sm' FREE) = zlen (owned sm FREE).
Proof. exact C35_lemma. Qed.
Print Assumptions C35_symbol_table_roundtrip.
Example C35_example : table_ok ex_table /\
  exists d sm, floppy d sm /\ zlen (owned sm 3) = 16 /\ zlen (owned sm 4) = 16.
Proof. exact C35_example_lemma. Qed.

(** ** C36, C37 *)
Theorem C36_AddSymbol_map : forall t n a, map_table t -> n <> [] ->
  exists t' r, AddSymbol t n a = (t', r) /\ map_table t' /\ zlen t' = zlen t /\
   ((r = Ok tt /\ a <> 0 /\ (ByName t n <> 0 \/ unused t <> 0) /\ ByName t' n = a /\
     (forall m, m <> [] -> equal_fold m n = false -> ByName t' m = ByName t m)) \/
    (t' = t /\ (exists e, r = Err e) /\ (a = 0 \/ (ByName t n = 0 /\ unused t = 0)))).
Proof. exact C36_lemma. Qed.
Print Assumptions C36_AddSymbol_map.
Theorem C37_DeleteSymbol_map : forall t n, map_table t -> n <> [] ->
  exists t', DeleteSymbol t n = (t', negb (ByName t n =? 0)) /\ map_table t' /\ zlen t' = zlen t /\
    ByName t' n = 0 /\ (forall m, m <> [] -> equal_fold m n = false -> ByName t' m = ByName t m).
Proof. exact C37_lemma. Qed.
Print Assumptions C37_DeleteSymbol_map.
(** Histories: any sequence of additions and deletions answers like the abstract map, and
    ByName of the final table is the abstract map's lookup. *)
Theorem C36_C37_histories : forall ops t m, Forall (fun op => op_name op <> []) ops ->
  map_table t -> (forall n, n <> [] -> am_addr m n = ByName t n) -> am_free m = unused t ->
  snd (sym_run ops t) = snd (am_run ops m) /\
  (forall n, n <> [] -> ByName (fst (sym_run ops t)) n = am_addr (fst (am_run ops m)) n) /\
  unused (fst (sym_run ops t)) = am_free (fst (am_run ops m)).
Proof. exact C36_C37_lemma. Qed.
Print Assumptions C36_C37_histories.
Example C36_C37_example : map_table ex_table /\ unused ex_table = 816 /\
  ByName (fst (AddSymbol ex_table (s2b "fhello") 0xDF09)) (s2b "FHELLO") = 0xDF09 /\
  ByName (fst (DeleteSymbol ex_table (s2b "fhello"))) (s2b "FHELLO") = 0.
Proof. exact C36_example_lemma. Qed.

(** ** C38: refuted *)
(** One deletion makes a readable table unreadable; so does a history of seven additions and
    deletions starting from a blank table. *)
Theorem C38_unreadable_after_delete_refuted :
  (exists t n, table_ok t /\ map_table t /\ live_links t /\ map canon t = t /\
     snd (DeleteSymbol t n) = true /\
     forall (d sm : bytes), floppy d sm -> zlen (owned sm 3) = 16 -> zlen (owned sm 4) = 16 ->
       exists d' sm' e, WriteSymbolTable (fst (DeleteSymbol t n)) (d, sm) = ((d', sm'), Ok tt) /\
         ReadSymbolTable sm' d' = Err e) /\
  (exists ops, forall (d sm : bytes), floppy d sm -> zlen (owned sm 3) = 16 -> zlen (owned sm 4) = 16 ->
       exists d' sm' e, WriteSymbolTable (fst (sym_run ops (repeat sym0 819))) (d, sm) = ((d', sm'), Ok tt) /\
         ReadSymbolTable sm' d' = Err e).
Proof. exact C38_refuted_lemma. Qed.
Print Assumptions C38_unreadable_after_delete_refuted.
(** Adding a new name to a readable table whose links lead to entries in use keeps it readable.
    Moving an existing name to an address with another hash: C38_add_exact. *)
Theorem C38_add_partial : forall t n a t', table_ok t -> map_table t -> live_links t ->
  n <> [] -> valid_name n -> is_u16 a -> ByName t n = 0 -> AddSymbol t n a = (t', Ok tt) ->
  table_ok t' /\ map_table t' /\ live_links t' /\
  forall (d sm : bytes), floppy d sm -> zlen (owned sm 3) = 16 -> zlen (owned sm 4) = 16 ->
    exists d' sm', WriteSymbolTable t' (d, sm) = ((d', sm'), Ok tt) /\ ReadSymbolTable sm' d' = Ok (map canon t').
Proof. exact C38_add_lemma. Qed.
Print Assumptions C38_add_partial.
(** Deleting any but the first entry of a properly chained table keeps it readable.
    All other cases: C38_delete_exact. *)
Theorem C38_delete_partial : forall t n i, table_ok t -> map_table t -> chained t -> n <> [] ->
  0 < i < 819 -> equal_fold n (nm t i) = true ->
  table_ok (fst (DeleteSymbol t n)) /\ live_links (fst (DeleteSymbol t n)) /\
  forall (d sm : bytes), floppy d sm -> zlen (owned sm 3) = 16 -> zlen (owned sm 4) = 16 ->
    exists d' sm', WriteSymbolTable (fst (DeleteSymbol t n)) (d, sm) = ((d', sm'), Ok tt) /\
      ReadSymbolTable sm' d' = Ok (map canon (fst (DeleteSymbol t n))).
Proof. exact C38_delete_lemma. Qed.
Print Assumptions C38_delete_partial.
(** Exactly which tables of writable entries are read back. *)
Theorem C38_write_read : forall t (d sm : bytes), floppy d sm -> zlen t = 819 -> Forall s_ok t ->
  zlen (owned sm 3) = 16 -> zlen (owned sm 4) = 16 ->
  exists d' sm', WriteSymbolTable t (d, sm) = ((d', sm'), Ok tt) /\
    (links_ok t -> ReadSymbolTable sm' d' = Ok (map canon t)) /\
    (~ links_ok t -> exists e, ReadSymbolTable sm' d' = Err e).
Proof. exact write_read_exact. Qed.
Print Assumptions C38_write_read.
(** Exactly which deletions and which additions and moves damage a readable table: an entry in use still
    has a link to the entry that was cleared or taken over, or was linked in a circle with it. *)
Theorem C38_delete_exact : forall t n i, table_ok t -> first_named t n i -> ad t i <> 0 ->
  forall (d sm : bytes), floppy d sm -> zlen (owned sm 3) = 16 -> zlen (owned sm 4) = 16 ->
    exists d' sm', WriteSymbolTable (fst (DeleteSymbol t n)) (d, sm) = ((d', sm'), Ok tt) /\
      (~ delete_breaks t i -> ReadSymbolTable sm' d' = Ok (map canon (fst (DeleteSymbol t n)))) /\
      (delete_breaks t i -> exists e, ReadSymbolTable sm' d' = Err e).
Proof. exact C38_delete_any_lemma. Qed.
Print Assumptions C38_delete_exact.
Theorem C38_add_exact : forall t n a t', table_ok t -> blanks_unnamed t -> n <> [] -> valid_name n -> is_u16 a -> AddSymbol t n a = (t', Ok tt) ->
  forall (d sm : bytes), floppy d sm -> zlen (owned sm 3) = 16 -> zlen (owned sm 4) = 16 ->
    exists d' sm', WriteSymbolTable t' (d, sm) = ((d', sm'), Ok tt) /\
      (~ add_breaks t n a -> ReadSymbolTable sm' d' = Ok (map canon t')) /\
      (add_breaks t n a -> exists e, ReadSymbolTable sm' d' = Err e).
Proof. exact C38_add_any_lemma. Qed.
Print Assumptions C38_add_exact.
(** Two entries linked to the first one; two entries linked to each other. *)
Example C38_breaks_example :
  table_ok merging /\ blanks_unnamed merging /\ ~ chained merging /\ first_named merging (s2b "bbb") 0 /\ ad merging 0 <> 0 /\ delete_breaks merging 0 /\
  add_breaks merging (s2b "bbb") 0xDF06 /\ first_named merging (s2b "ppp") 1 /\ ~ delete_breaks merging 1 /\ ~ add_breaks merging (s2b "new") 0xDF06 /\
  table_ok looping /\ first_named looping (s2b "bbb") 0 /\ loops looping 0.
Proof. exact breaks_example. Qed.
(** What this comes to for properly chained tables. *)
Theorem C38_delete_chained : forall t n i, table_ok t -> map_table t -> chained t -> n <> [] ->
  0 <= i < 819 -> equal_fold n (nm t i) = true ->
  forall (d sm : bytes), floppy d sm -> zlen (owned sm 3) = 16 -> zlen (owned sm 4) = 16 ->
    exists d' sm', WriteSymbolTable (fst (DeleteSymbol t n)) (d, sm) = ((d', sm'), Ok tt) /\
      (~ damaging t i -> ReadSymbolTable sm' d' = Ok (map canon (fst (DeleteSymbol t n)))) /\
      (damaging t i -> exists e, ReadSymbolTable sm' d' = Err e).
Proof. exact C38_exact_lemma. Qed.
Print Assumptions C38_delete_chained.
Theorem C38_move_chained : forall t n a i, table_ok t -> map_table t -> chained t -> n <> [] -> valid_name n -> is_u16 a -> a <> 0 ->
  0 <= i < 819 -> equal_fold n (nm t i) = true -> hash7 (ad t i) <> hash7 a ->
  exists t', AddSymbol t n a = (t', Ok tt) /\
  forall (d sm : bytes), floppy d sm -> zlen (owned sm 3) = 16 -> zlen (owned sm 4) = 16 ->
    exists d' sm', WriteSymbolTable t' (d, sm) = ((d', sm'), Ok tt) /\
      (~ (exists j, 0 <= j < zlen t /\ ad t j <> 0 /\ lk t j = i /\ skipped t i j) -> ReadSymbolTable sm' d' = Ok (map canon t')) /\
      ((exists j, 0 <= j < zlen t /\ ad t j <> 0 /\ lk t j = i /\ skipped t i j) -> exists e, ReadSymbolTable sm' d' = Err e).
Proof. exact C38_move_lemma. Qed.
Print Assumptions C38_move_chained.
Example C38_example : table_ok ex_table /\ map_table ex_table /\ chained ex_table /\
  equal_fold (s2b "fsymtbl2") (nm ex_table 2) = true.
Proof. exact C38_example_lemma. Qed.
Example C38_damaging_example : table_ok bad_chain /\ map_table bad_chain /\ chained bad_chain /\ damaging bad_chain 0 /\
  equal_fold (s2b "bbb") (nm bad_chain 0) = true /\ ~ damaging ex_table 0.
Proof. exact damaging_example. Qed.

(** ** C39 *)
Theorem C39_FileForName : forall t s,
  (forall f, numeric s f -> FileForName t s = Ok f) /\
  (forall f, (forall g, ~ numeric s g) -> (FileForName t s = Ok f <-> symbol_file t s f)) /\
  ((forall f, ~ numeric s f /\ ~ symbol_file t s f) -> FileForName t s = Err EFileNotFound) /\
  (forall f, legal f -> symbol_for t f = None -> FileForName t (shown t f) = Ok f).
Proof. exact C39_lemma. Qed.
Print Assumptions C39_FileForName.
(** The symbol under which Catalog shows a file resolves to it too. *)
Theorem C39_shown_symbols : forall t f n, legal f -> symbol_for t f = Some n -> n <> [] ->
  (forall g, ~ numeric n g) -> names_unique t -> FileForName t n = Ok f.
Proof. exact C39_shown_lemma. Qed.
Print Assumptions C39_shown_symbols.
Example C39_example : numeric (s2b "DF1a") 26 /\ FileForName ex_table (s2b "1A") = Ok 26 /\
  symbol_file ex_table (s2b "Fhello") 5 /\ FileForName ex_table (s2b "FE") = Err EFileNotFound /\
  symbol_for ex_table 5 = Some (s2b "FHELLO") /\ shown ex_table 26 = s2b "DF1A".
Proof. exact C39_example_lemma. Qed.

(** ** C40 *)
Theorem C40_compound_names : forall t p q, no_colon p -> no_colon q ->
  (forall f, numeric p f -> FilesForCompoundName t p = Ok (f, 0, [])) /\
  (forall f, (forall g, ~ numeric p g) -> symbol_file t p f -> FilesForCompoundName t p = Ok (f, f, p)) /\
  ((forall f, ~ resolves t p f) -> FilesForCompoundName t p = Ok (0, 0, p)) /\
  (forall f, numeric p f -> (forall g, ~ numeric q g) ->
     (forall g, symbol_file t q g -> FilesForCompoundName t (p ++ 58 :: q) = Ok (f, g, q)) /\
     ((forall g, ~ symbol_file t q g) -> FilesForCompoundName t (p ++ 58 :: q) = Ok (f, 0, q))) /\
  ((forall f, ~ numeric p f) \/ (exists g, numeric q g) -> exists e, FilesForCompoundName t (p ++ 58 :: q) = Err e) /\
  (forall x y z, exists e, FilesForCompoundName t (x ++ 58 :: y ++ 58 :: z) = Err e).
Proof. exact C40_lemma. Qed.
Print Assumptions C40_compound_names.
Example C40_example : FilesForCompoundName ex_table (s2b "DF07:fhello") = Ok (7, 5, s2b "fhello") /\
  FilesForCompoundName ex_table (s2b "7:NEW") = Ok (7, 0, s2b "NEW") /\
  is_err (FilesForCompoundName ex_table (s2b "NEW:7")) = true.
Proof. repeat split; vm_compute; reflexivity. Qed.

(** ** C41 *)
Theorem C41_refines_store : forall d o h, zlen d = 143360 -> NewOperator d = Ok o ->
  no_numeric_symbols (st_of o) ->
  Forall (fun rf => about (fst rf) (snd rf) /\ legal (snd rf)) h ->
  snd (op_run (map fst h) o) = snd (st_run (st_of o) h (store_of d (stored_map d))) /\
  same_store (store_of (op_data (fst (op_run (map fst h) o))) (op_SM (fst (op_run (map fst h) o))))
             (fst (st_run (st_of o) h (store_of d (stored_map d)))).
Proof. exact C41_lemma. Qed.
Print Assumptions C41_refines_store.
Example C41_example : exists d o, zlen d = 143360 /\ NewOperator d = Ok o /\ no_numeric_symbols (st_of o) /\
  Forall (fun rf => about (fst rf) (snd rf) /\ legal (snd rf)) ex_requests.
Proof. exact C41_example_lemma. Qed.

(** ** C42 *)
Theorem C42_survives_reopen : forall o, reached o ->
  exists o2, NewOperator (op_data o) = Ok o2 /\ op_data o2 = op_data o /\ op_SM o2 = op_SM o /\
    forall f, ReadFile (op_SM o2) (op_data o2) f = ReadFile (op_SM o) (op_data o) f.
Proof. exact C42_lemma. Qed.
Print Assumptions C42_survives_reopen.
(** After numeric requests about other files than those of the symbol table, the re-opened
    operator is the same, table included. *)
Theorem C42_table_survives : forall d o h, zlen d = 143360 -> NewOperator d = Ok o -> no_numeric_symbols (st_of o) ->
  Forall (fun rf => about (fst rf) (snd rf) /\ legal (snd rf) /\ snd rf <> 3 /\ snd rf <> 4) h ->
  NewOperator (op_data (fst (op_run (map fst h) o))) = Ok (fst (op_run (map fst h) o)).
Proof. exact reopen_same. Qed.
Print Assumptions C42_table_survives.
Example C42_example : exists o, reached o /\ op_ST o = Some ex_table.
Proof. exact C42_example_lemma. Qed.

(** ** C43 *)
Theorem C43_Catalog : forall o, reached o -> exists fs,
  Catalog o = Ok (map (fun f => Desc (shown (st_of o) f) (shown_full (st_of o) f)
      (zlen (owned (op_SM o) f)) 0 (256 * zlen (owned (op_SM o) f)) false FiletypeBinary) fs) /\
  (forall f, In f fs <-> 1 <= f <= 0xFD /\ exists k, 0 <= k < 560 /\ znth 0 (op_SM o) k = f) /\
  Sorted.StronglySorted Z.lt fs.
Proof. exact C43_lemma. Qed.
Print Assumptions C43_Catalog.
Example C43_example : exists o, reached o /\
  Catalog o = Ok [Desc (s2b "FSYMTBL1") (s2b "DF03:FSYMTBL1") 16 0 4096 false FiletypeBinary;
                  Desc (s2b "FSYMTBL2") (s2b "DF04:FSYMTBL2") 16 0 4096 false FiletypeBinary].
Proof. exact C43_example_lemma. Qed.

(** ** C44 *)
(** On the opened disk; a file put under a plain name is fetched under it, and all files but it
    and the two table files are unchanged. *)
Theorem C44_put_get_by_name : forall d o t i ow o' ex, zlen d = 143360 -> NewOperator d = Ok o ->
  op_ST o = Some t ->
  fi_data i <> [] -> d_name (fi_desc_ i) <> [] -> no_colon (d_name (fi_desc_ i)) ->
  (forall g, ~ numeric (d_name (fi_desc_ i)) g) ->
  PutFile i ow o = (o', Ok ex) ->
  (exists i', GetFile o' (d_name (fi_desc_ i)) = Ok i' /\ fi_data i' = padded (fi_data i)) /\
  exists f, resolves (st_of o') (d_name (fi_desc_ i)) f /\
    forall g, legal g -> g <> f -> g <> 3 -> g <> 4 -> ReadFile (op_SM o') (op_data o') g = ReadFile (op_SM o) d g.
Proof. exact C44_lemma. Qed.
Print Assumptions C44_put_get_by_name.
(** Also after re-opening, for valid names not naming the table's own files (nor an address
    outside DF01-DFFD) on a table with unique names whose links lead to entries in use. *)
Theorem C44_put_reopen_get_partial : forall d o t i ow o' ex, zlen d = 143360 -> bytes_ok d -> NewOperator d = Ok o ->
  op_ST o = Some t -> names_unique t -> live_links t ->
  fi_data i <> [] -> d_name (fi_desc_ i) <> [] -> valid_name (d_name (fi_desc_ i)) ->
  (forall g, ~ numeric (d_name (fi_desc_ i)) g) ->
  ~ symbol_file t (d_name (fi_desc_ i)) 3 -> ~ symbol_file t (d_name (fi_desc_ i)) 4 ->
  (ByName t (d_name (fi_desc_ i)) = 0 \/ exists g, symbol_file t (d_name (fi_desc_ i)) g) ->
  PutFile i ow o = (o', Ok ex) ->
  exists o2 i2, NewOperator (op_data o') = Ok o2 /\ GetFile o2 (d_name (fi_desc_ i)) = Ok i2 /\
    fi_data i2 = padded (fi_data i).
Proof. exact C44_reopen_lemma. Qed.
Print Assumptions C44_put_reopen_get_partial.
(** For every symbol table, and also for a name given with a number: the file is fetched after
    re-opening exactly when the edit of the table leaves a readable one ([add_breaks] says when
    not, C38_add_exact).  [f] is the file that the call writes; the two files that hold the
    table itself are excepted. *)
Theorem C44_put_reopen_exact : forall d o t i ow o' ex q, zlen d = 143360 -> bytes_ok d -> NewOperator d = Ok o ->
  op_ST o = Some t ->
  fi_data i <> [] -> names_symbol (d_name (fi_desc_ i)) q -> q <> [] -> valid_name q -> (forall g, ~ numeric q g) ->
  PutFile i ow o = (o', Ok ex) ->
  exists f o2, meant d t (d_name (fi_desc_ i)) q f /\ NewOperator (op_data o') = Ok o2 /\
    (f <> 3 -> f <> 4 ->
     (~ add_breaks t q (0xDF00 + f) -> exists i2, GetFile o2 q = Ok i2 /\ fi_data i2 = padded (fi_data i)) /\
     (add_breaks t q (0xDF00 + f) -> GetFile o2 q = Err EFileNotFound)).
Proof. exact reopen_any. Qed.
Print Assumptions C44_put_reopen_exact.
(** The sentence is false when the name is the symbol of one of the symbol-table files: writing
    one byte to FSYMTBL1 succeeds, and after re-opening the name is unknown. *)
Theorem C44_table_file_refuted : exists d o i o' o2, zlen d = 143360 /\ bytes_ok d /\ NewOperator d = Ok o /\ op_ST o = Some ex_table /\
  (forall g, ~ numeric (d_name (fi_desc_ i)) g) /\ valid_name (d_name (fi_desc_ i)) /\
  PutFile i true o = (o', Ok true) /\ NewOperator (op_data o') = Ok o2 /\
  GetFile o2 (d_name (fi_desc_ i)) = Err EFileNotFound.
Proof. exact C44_refuted_lemma. Qed.
Print Assumptions C44_table_file_refuted.

(** And the put succeeds whenever there is room. *)
Theorem C44_put_succeeds : forall d o t i ow, zlen d = 143360 -> NewOperator d = Ok o -> op_ST o = Some t ->
  map_table t -> (forall j, 0 <= j < zlen t -> valid_name (nm t j)) ->
  d_type (fi_desc_ i) = FiletypeBinary -> d_length (fi_desc_ i) = zlen (fi_data i) -> fi_data i <> [] ->
  d_name (fi_desc_ i) <> [] -> valid_name (d_name (fi_desc_ i)) -> (forall g, ~ numeric (d_name (fi_desc_ i)) g) ->
  ByName t (d_name (fi_desc_ i)) = 0 -> unused t <> 0 ->
  nsec (fi_data i) <= zlen (owned (op_SM o) FREE) -> (exists f, legal f /\ owned (op_SM o) f = []) ->
  exists o', PutFile i ow o = (o', Ok false).
Proof. exact C44_succeeds_lemma. Qed.
Print Assumptions C44_put_succeeds.
Example C44_example : exists d o o', zlen d = 143360 /\ bytes_ok d /\ NewOperator d = Ok o /\ op_ST o = Some ex_table /\
  names_unique ex_table /\ live_links ex_table /\ valid_name (s2b "NEWFILE") /\ (forall g, ~ numeric (s2b "NEWFILE") g) /\
  ByName ex_table (s2b "NEWFILE") = 0 /\
  PutFile (FI (Desc (s2b "NEWFILE") [] 0 0 300 false FiletypeBinary) (repeat 7 300) 0) false o = (o', Ok false).
Proof. exact C44_example_lemma. Qed.

(** ** C45 *)
(** Refuted: deleting a table file by its symbol re-creates it. *)
Theorem C45_table_files_refuted :
  (forall o n o' ex f t, reached o -> op_ST o = Some t -> (forall g, ~ numeric n g) ->
     symbol_file t n f -> f = 3 \/ f = 4 -> Delete n o = (o', Ok ex) -> owned (op_SM o') f <> []) /\
  exists o o', reached o /\ symbol_file (st_of o) (s2b "FSYMTBL1") 3 /\
    Delete (s2b "FSYMTBL1") o = (o', Ok true) /\ zlen (owned (op_SM o') 3) = 16.
Proof. exact C45_refuted_lemma. Qed.
Print Assumptions C45_table_files_refuted.
(** Missing from the full statement: files 3 and 4 (removed by a number, they are in C45_delete_number;
    by a symbol, the statement is false). *)
Theorem C45_delete_partial : forall o n o' ex, reached o -> Delete n o = (o', Ok ex) ->
  exists f, legal f /\ FileForName (st_of o) n = Ok f /\ (ex = true <-> owned (op_SM o) f <> []) /\
    (f <> 3 -> f <> 4 -> owned (op_SM o') f = []) /\
    (forall g, legal g -> g <> f -> g <> 3 -> g <> 4 ->
       ReadFile (op_SM o') (op_data o') g = ReadFile (op_SM o) (op_data o) g) /\
    (op_ST o = None ->
       owned (op_SM o') f = [] /\
       forall g, legal g -> g <> f -> ReadFile (op_SM o') (op_data o') g = ReadFile (op_SM o) (op_data o) g).
Proof. exact C45_partial_lemma. Qed.
Print Assumptions C45_delete_partial.
(** By a number that is not also the spelling of a symbol, every file can be deleted, and no other changes. *)
Theorem C45_delete_number : forall o n o' ex, reached o -> Delete n o = (o', Ok ex) ->
  (forall i, 0 <= i < zlen (st_of o) -> equal_fold n (nm (st_of o) i) = false) ->
  exists f, numeric n f /\ owned (op_SM o') f = [] /\
    forall g, legal g -> g <> f -> ReadFile (op_SM o') (op_data o') g = ReadFile (op_SM o) (op_data o) g.
Proof. exact Delete_number. Qed.
Print Assumptions C45_delete_number.
Example C45_number_example : exists o o', reached o /\ Delete (s2b "DF03") o = (o', Ok true) /\ forall i, 0 <= i < zlen (st_of o) -> equal_fold (s2b "DF03") (nm (st_of o) i) = false.
Proof. exact Delete_number_example. Qed.

(** ** C46: refuted *)
(** Every valid new name is rejected, every invalid one accepted: the test is inverted. *)
Theorem C46_inverted_check_refuted :
  (forall t n, Forall alnum n -> n <> [] -> ByName t n = 0 -> (forall v, hex_number n v -> 65536 <= v) ->
     (valid_name n -> exists e, ParseCompoundSymbol t n = Err e) /\
     (~ valid_name n -> ParseCompoundSymbol t n = Ok (0, 0, n))) /\
  (valid_name (s2b "NEWSYM") /\ exists e, ParseCompoundSymbol [] (s2b "NEWSYM") = Err e) /\
  (~ valid_name (s2b "ZZ") /\ ParseCompoundSymbol [] (s2b "ZZ") = Ok (0, 0, s2b "ZZ")).
Proof. exact C46_refuted_lemma. Qed.
Print Assumptions C46_inverted_check_refuted.
(** The other forms. Missing: single names that are neither known nor numbers. *)
Theorem C46_ParseCompoundSymbol_partial : forall t p q, no_colon p -> no_colon q -> p <> [] ->
  (ByName t p <> 0 -> ParseCompoundSymbol t p = Ok (0, ByName t p, p)) /\
  (ByName t p = 0 -> forall v, hex_number p v -> v < 65536 -> ParseCompoundSymbol t p = Ok (v, 0, [])) /\
  (forall v, hex_number p v -> v < 65536 -> q <> [] -> valid_name q ->
     ParseCompoundSymbol t (p ++ 58 :: q) = Ok (v, ByName t q, q)) /\
  ((forall v, hex_number p v -> 65536 <= v) \/ q = [] \/ (Forall alnum q /\ ~ valid_name q) ->
     exists e, ParseCompoundSymbol t (p ++ 58 :: q) = Err e) /\
  (exists e, ParseCompoundSymbol t [] = Err e) /\
  (forall x y z, exists e, ParseCompoundSymbol t (x ++ 58 :: y ++ 58 :: z) = Err e).
Proof. exact C46_partial_lemma. Qed.
Print Assumptions C46_ParseCompoundSymbol_partial.
Example C46_example : ParseCompoundSymbol ex_table (s2b "fhello") = Ok (0, 0xDF05, s2b "fhello") /\
  ParseCompoundSymbol ex_table (s2b "1234:fhello") = Ok (0x1234, 0xDF05, s2b "fhello") /\
  ParseCompoundSymbol ex_table (s2b "1234") = Ok (0x1234, 0, []).
Proof. repeat split; vm_compute; reflexivity. Qed.

(** ** C70: refuted *)
(** The claim is that a table that was read can be written back.  Reading accepts names of one or
    two letters, or more than nine, which cannot be written. *)
Theorem C70_unwritable_table_refuted :
  exists (d sm : bytes) t, floppy d sm /\ ReadSymbolTable sm d = Ok t /\ ByName t (s2b "A") = 0xDF05 /\ exists e, WriteSymbolTable t (d, sm) = ((d, sm), Err e).
Proof. exact C70_refuted_lemma. Qed.
Print Assumptions C70_unwritable_table_refuted.
(** What holds: a table is written back, and read again, exactly if all its names are valid;
    otherwise nothing is changed. *)
Theorem C70_rewrite_partial : forall (d sm : bytes) t, floppy d sm -> bytes_ok d -> ReadSymbolTable sm d = Ok t ->
  (Forall (fun s => valid_name (s_name s)) t -> exists d' sm', WriteSymbolTable t (d, sm) = ((d', sm'), Ok tt) /\ floppy d' sm' /\ ReadSymbolTable sm' d' = Ok t /\
     forall g, g <> 3 -> g <> 4 -> legal g -> owned sm' g = owned sm g /\ content d' sm' g = content d sm g) /\
  (~ Forall (fun s => valid_name (s_name s)) t -> exists e, WriteSymbolTable t (d, sm) = ((d, sm), Err e)).
Proof. exact C70_partial_lemma. Qed.
Print Assumptions C70_rewrite_partial.
Example C70_example : exists d sm, floppy d sm /\ bytes_ok d /\ ReadSymbolTable sm d = Ok ex_table /\ Forall (fun s => valid_name (s_name s)) ex_table.
Proof. exact C70_example_lemma. Qed.
