(** PropertiesFlags.v -- property C99: the flag --system (cmd/*.go, disk/open.go).
    Vocabulary: DetectSpec, FlagsSpec; [order_enum] and [system_enum] are the values that the command line
    admits for --order and for --system of put, rm and dump. *)
From Verif Require Import GoBase DiskModel DiskSpec SupermonModel SupermonSpec SupermonStoreSpec SupermonTableSpec ProdosModel CmdModel CmdSpec NakedCmdSpec
  MainModel DetectSpec FlagsSpec NakedExProofs FlagsProofs.
From Verif Require Dos3Spec ProdosSpec.

(** ** C99 *)
(** In full: every command can be told the system of a disk and then uses it.  False for all
    commands but ls: there is a NakedOS disk whose files ls lists when told so, while dump, rm,
    put and mkhello fail on it, whatever the flags they admit. *)
Theorem C99_cannot_be_told_refuted : forall (iter : list (Z * Subdirectory) -> list (Z * Subdirectory)), ProdosSpec.an_order iter ->
  exists img c d t, naked_image c (s2b "do") d /\ bytes_ok c /\ names_on d t /\
    numeric (s2b "DF06") 6 /\ file_on d 6 <> [] /\
    forall w, input w img c -> w_outroom w = None ->
      (forall short : bool, eventually (fun fuel => exists fs text, files_on d fs /\ In 6 fs /\
         all_lines (map (if short then shown t else shown_full t) fs) text /\
         prints (LsCmd_Run iter fuel (s2b "do") (s2b "nakedos") short img []) w text)) /\
      forall order system ft ow addr tgt src force name address start, In order order_enum -> In system system_enum ->
        eventually (fun fuel =>
          fails_cleanly (DumpCmd_Run iter fuel order system img name) w /\
          fails_cleanly (DeleteCmd_Run iter fuel order system force img name) w /\
          fails_cleanly (PutCmd_Run iter fuel order system ft ow addr img tgt src) w /\
          fails_cleanly (MkHelloCmd_Run iter fuel order img name address start) w).
Proof. exact flags_refuted. Qed.
Print Assumptions C99_cannot_be_told_refuted.
(** The one system that put and rm can be told makes them fail, on every image. *)
Theorem C99_put_rm_dos3_refuted : forall (iter : list (Z * Subdirectory) -> list (Z * Subdirectory)) fuel order ft ow addr force img tgt src name w,
  (forall w' r, run (PutCmd_Run iter fuel order (s2b "dos3") ft ow addr img tgt src) w = (w', r) ->
     r <> Ok tt /\ same_files w w' /\ w_stdout w' = w_stdout w) /\
  (forall w' r, run (DeleteCmd_Run iter fuel order (s2b "dos3") force img name) w = (w', r) ->
     r <> Ok tt /\ same_files w w' /\ w_stdout w' = w_stdout w).
Proof. exact dos3_edit_fails. Qed.
Print Assumptions C99_put_rm_dos3_refuted.
(** A system that is told is used, whichever other systems recognise the disk as theirs, in the
    first order in which the image is a disk of that system.
    Missing for the full claim: commands other than ls, which cannot be told (see above). *)
Theorem C99_told_partial : forall (iter : list (Z * Subdirectory) -> list (Z * Subdirectory)) img order c sys d o,
  ProdosSpec.an_order iter -> told_as img order c sys d o ->
  eventually (fun fuel => exists op,
    OpenImage c (image_name img) order sys (DiskOperatorFactories iter fuel) = Ok (op, o) /\ Op_Name op = sys /\ Op_GetBytes op = d).
Proof. exact selected_lemma. Qed.
Print Assumptions C99_told_partial.
Theorem C99_ls_told_nakedos_partial : forall (iter : list (Z * Subdirectory) -> list (Z * Subdirectory)) img order c d o t (short : bool) w,
  ProdosSpec.an_order iter -> told_as img order c (s2b "nakedos") d o -> names_on d t -> input w img c -> w_outroom w = None ->
  eventually (fun fuel => exists fs text, files_on d fs /\ all_lines (map (if short then shown t else shown_full t) fs) text /\
    prints (LsCmd_Run iter fuel order (s2b "nakedos") short img []) w text).
Proof. exact ls_told_naked. Qed.
Print Assumptions C99_ls_told_nakedos_partial.
(** One image that is a disk of two systems. *)
Example C99_example : exists c d1 d2, told_as (s2b "x.do") (s2b "auto") c (s2b "dos3") d1 (s2b "do") /\
  told_as (s2b "x.do") (s2b "auto") c (s2b "nakedos") d2 (s2b "do") /\ names_on d2 [] /\ file_on d2 6 = vtoc_file.
Proof. exact selected_example. Qed.
