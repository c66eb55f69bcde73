(** PropertiesListing.v -- listing a program that is stored on a disk (C107). *)
From Verif Require Import GoBase DiskSpec CmdModel CmdSpec MainModel DetectSpec ListingSpec ListingProofs.
From Verif Require Dos3Spec BasicSpec ProdosSpec.

(** C107: [diskii dump DISK HELLO | diskii applesoft decode -], the example of the help text, prints
    the LISTing of the program HELLO, for every program. *)
(** False: there is a program of 2057 bytes that decode takes to start
    with its length.  dump succeeds, decode fails and prints nothing. *)
Theorem C107_header_guess_refuted : exists d ls, holds_program d ls /\ ls <> [] /\ Forall BasicSpec.line_ok ls /\ 0x801 + zlen (BasicSpec.program 0x801 ls) <= 65536 /\
  forall iter raw w, ProdosSpec.an_order iter -> input w (s2b "x.dsk") d -> w_outroom w = None ->
    eventually (fun k => exists w2, piped (DumpCmd_Run iter k (s2b "auto") (s2b "auto") (s2b "x.dsk") (s2b "HELLO")) (DecodeCmd_Run k (s2b "-") 0x801 raw) w = (w2, 0, 1) /\
      same_files w w2 /\ w_stdout w2 = w_stdout w).
Proof. exact C107_refuted_lemma. Qed.
Print Assumptions C107_header_guess_refuted.
(** The same happens to the program without lines, as NEW and SAVE store it. *)
Theorem C107_no_lines_refuted : exists d, holds_program d [] /\
  forall iter raw w, ProdosSpec.an_order iter -> input w (s2b "x.dsk") d -> w_outroom w = None ->
    eventually (fun k => exists w2, piped (DumpCmd_Run iter k (s2b "auto") (s2b "auto") (s2b "x.dsk") (s2b "HELLO")) (DecodeCmd_Run k (s2b "-") 0x801 raw) w = (w2, 0, 1) /\
      same_files w w2 /\ w_stdout w2 = w_stdout w).
Proof. exact C107_new_lemma. Qed.
Print Assumptions C107_no_lines_refuted.

(** True for every program that does not seem to start with its length.  [t] is what DOS saves
    behind the program. *)
(** Missing: the programs that seem to, false above. *)
Theorem C107_listing_partial : forall iter img order system c d o l n ls t raw w,
  ProdosSpec.an_order iter -> seen_as img order c (s2b "dos3") d o -> (system = s2b "auto" \/ system = s2b "dos3") ->
  bytes_ok d -> Dos3Spec.catalog d l -> input w img c -> w_outroom w = None ->
  stored d l n (BasicSpec.program 0x801 ls ++ t) -> Forall BasicSpec.line_ok ls -> 0x801 + zlen (BasicSpec.program 0x801 ls) <= 65536 ->
  ~ BasicSpec.has_header (BasicSpec.program 0x801 ls ++ t) ->
  exists out, listing ls raw out /\
    eventually (fun k => exists w2, piped (DumpCmd_Run iter k order system img n) (DecodeCmd_Run k (s2b "-") 0x801 raw) w = (w2, 0, 0) /\
      same_files w w2 /\ w_stdout w2 = w_stdout w ++ out).
Proof. exact C107_lemma. Qed.
Print Assumptions C107_listing_partial.
(** In particular for every program of at least one line and less than 2056 bytes. *)
Theorem C107_short_programs : forall iter img order system c d o l n x ls t raw w,
  ProdosSpec.an_order iter -> seen_as img order c (s2b "dos3") d o -> (system = s2b "auto" \/ system = s2b "dos3") ->
  bytes_ok d -> Dos3Spec.catalog d l -> input w img c -> w_outroom w = None ->
  stored d l n (BasicSpec.program 0x801 (x :: ls) ++ t) -> Forall BasicSpec.line_ok (x :: ls) -> zlen (BasicSpec.program 0x801 (x :: ls) ++ t) < 2056 ->
  exists out, listing (x :: ls) raw out /\
    eventually (fun k => exists w2, piped (DumpCmd_Run iter k order system img n) (DecodeCmd_Run k (s2b "-") 0x801 raw) w = (w2, 0, 0) /\
      same_files w w2 /\ w_stdout w2 = w_stdout w ++ out).
Proof. exact C107_short_lemma. Qed.
Print Assumptions C107_short_programs.
Example C107_example : exists d ls, holds_program d ls /\ seen_as (s2b "x.dsk") (s2b "auto") d (s2b "dos3") d (s2b "do") /\ Forall BasicSpec.line_ok ls /\ ls <> [] /\
  zlen (BasicSpec.program 0x801 ls) < 2056 /\ ~ BasicSpec.has_header (BasicSpec.program 0x801 ls) /\
  listing ls false (s2b "10  PRINT ""HI""" ++ [10] ++ s2b "20  GOTO 10" ++ [10]).
Proof. exact C107_example_lemma. Qed.
