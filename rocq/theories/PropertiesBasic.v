(** PropertiesBasic.v -- properties C55-C60 and C72 (package basic).  Vocabulary: BasicSpec.
    [returns f P]: with all large enough fuel [f] gives one result, which satisfies [P];
    [diverges f]: no fuel is enough. *)
From Verif Require Import GoBase GoLemmas DiskSpec BasicModel BasicSpec BasicProofs BasicStmtProofs.
From Verif Require Dos3StmtProofs.

(** ** C55: refuted for files without a header *)
(** The claim is that every stored program is decoded.  One without a header is not if its first
    two bytes, the address of its second line, happen to be its size less 2 or 3: the decoder
    takes them for a header. *)
Theorem C55_header_guess_refuted : exists ls, Forall line_ok ls /\ ls <> [] /\ 0x801 + zlen (program 0x801 ls) <= 65536 /\
  exists e, returns (fun k => applesoft_Decode k (program 0x801 ls) 0x801) (fun r => r = Err e).
Proof. exact C55_refuted_lemma. Qed.
Print Assumptions C55_header_guess_refuted.
(** Missing for the full claim: files without a header that seem to have one. *)
Theorem C55_programs_partial : forall ls loc t f,
  0 < loc -> loc + zlen (program loc ls) <= 65536 -> Forall line_ok ls -> bytes_ok t ->
  (f = program loc ls ++ t /\ ~ has_header f) \/ (f = put16 (zlen (program loc ls)) ++ program loc ls ++ t /\ zlen t <= 1) ->
  returns (fun k => applesoft_Decode k f loc) (fun r => r = Ok ls).
Proof. exact C55_decodes_stored_programs. Qed.
Print Assumptions C55_programs_partial.
Example C55_example : Forall line_ok ex_small /\ ~ has_header (program 0x801 ex_small) /\
  applesoft_Decode 3 (program 0x801 ex_small) 0x801 = Some (Ok ex_small) /\ applesoft_Decode 3 (put16 (zlen (program 0x801 ex_small)) ++ program 0x801 ex_small ++ [99]) 0x801 = Some (Ok ex_small).
Proof. split; [apply ex_small_ok|]. split; [apply ex_small_ok|]. split; vm_compute; reflexivity. Qed.

(** ** C56: refuted *)
(** The claim is that Decode returns a listing or an error.  It crashes when a line leads to the
    byte before the program and does not return when a line leads to itself. *)
Theorem C56_panic_refuted : returns (fun k => applesoft_Decode k ex_before 0x801) (fun r => r = Panic).
Proof. exact C56_panic_lemma. Qed.
Print Assumptions C56_panic_refuted.
Theorem C56_loop_refuted : diverges (fun k => applesoft_Decode k ex_loop 0x801).
Proof. exact C56_loop_lemma. Qed.
Print Assumptions C56_loop_refuted.
(** What holds, for every file [f] with body [p]: Decode does not return exactly if following the
    lines gets into a cycle, crashes exactly if it gets to the byte before the program, and
    returns exactly the lines followed if they lead to an end; otherwise it returns an error. *)
Theorem C56_outcomes_partial : forall f p loc,
  bytes_ok f -> is_u16 loc -> body f p ->
  (diverges (fun k => applesoft_Decode k f loc) <-> exists ls a ls', follows p loc loc ls a /\ ls' <> [] /\ follows p loc a ls' a) /\
  ((exists k, applesoft_Decode k f loc = Some Panic) <-> exists ls, follows p loc loc ls (loc - 1) /\ loc - 1 <> 0 /\ p <> []) /\
  (forall ls, (exists k, applesoft_Decode k f loc = Some (Ok ls)) <-> exists a, follows p loc loc ls a /\ ends_at p loc a) /\
  (diverges (fun k => applesoft_Decode k f loc) \/ returns (fun k => applesoft_Decode k f loc) (fun _ => True)).
Proof. exact C56_four_outcomes. Qed.
Print Assumptions C56_outcomes_partial.
Example C56_example : bytes_ok ex_loop /\ applesoft_Decode 1000 ex_loop 0x801 = None /\ applesoft_Decode 1000 (program 0x801 ex_big) 0x800 <> None.
Proof. split; [apply Dos3StmtProofs.bytes_ok_forallb; vm_compute; reflexivity|]. split; [vm_compute; reflexivity | vm_compute; discriminate]. Qed.

(** ** C57: refuted for files without a header *)
(** The claim is that every stored program is decoded; one whose first bytes look like a header
    crashes the decoder. *)
Theorem C57_header_guess_refuted : exists ls, Forall iline_ok ls /\ ls <> [] /\ returns (fun k => integer_Decode k (iprogram ls)) (fun r => r = Panic).
Proof. exact C57_refuted_lemma. Qed.
Print Assumptions C57_header_guess_refuted.
(** Missing for the full claim: files without a header that seem to have one. *)
Theorem C57_programs_partial : forall ls t f,
  Forall iline_ok ls -> bytes_ok t -> zlen t <= 3 -> 
  (f = iprogram ls ++ t /\ ~ has_header f) \/ (f = put16 (zlen (iprogram ls)) ++ iprogram ls ++ t /\ zlen t <= 1 /\ zlen (iprogram ls) < 65536) ->
  returns (fun k => integer_Decode k f) (fun r => r = Ok ls).
Proof. exact C57_decodes_stored_programs. Qed.
Print Assumptions C57_programs_partial.
Example C57_example : Forall iline_ok ex_ismall /\ ~ has_header (iprogram ex_ismall) /\
  integer_Decode 3 (iprogram ex_ismall) = Some (Ok ex_ismall) /\ integer_Decode 3 (put16 (zlen (iprogram ex_ismall)) ++ iprogram ex_ismall ++ [99]) = Some (Ok ex_ismall).
Proof. split; [apply ex_ismall_ok|]. split; [apply ex_ismall_ok|]. split; vm_compute; reflexivity. Qed.

(** ** C58: refuted *)
(** The claim is that Decode returns a listing or an error; it crashes on a line of size 0, and on
    one of size 1 to 3 that seems to be terminated. *)
Theorem C58_panic_refuted : returns (fun k => integer_Decode k [0; 10; 0; 1]) (fun r => r = Panic) /\ returns (fun k => integer_Decode k [3; 10; 1; 1]) (fun r => r = Panic).
Proof. exact C58_refuted_lemma. Qed.
Print Assumptions C58_panic_refuted.
(** What holds: it always returns; it crashes exactly if, after any number of good lines, what is
    left is [stuck]; it returns exactly the lines if all but at most three bytes are good lines. *)
Theorem C58_outcomes_partial : forall f p,
  bytes_ok f -> body f p -> exists r, returns (fun k => integer_Decode k f) (fun r' => r' = r) /\
  (r = Panic <-> exists ls t, p = iprogram ls ++ t /\ Forall iline_ok ls /\ stuck t) /\
  (forall ls, r = Ok ls <-> exists t, p = iprogram ls ++ t /\ Forall iline_ok ls /\ zlen t <= 3).
Proof. exact C58_outcomes. Qed.
Print Assumptions C58_outcomes_partial.
Example C58_example : integer_Decode 3 (iprogram ex_ismall ++ [2; 1; 1; 1]) = Some Panic /\ stuck [2; 1; 1; 1] /\ exists e, integer_Decode 3 (iprogram ex_ismall ++ [9; 1; 1; 1]) = Some (Err e).
Proof. split; [vm_compute; reflexivity|]. split; [|eexists; vm_compute; reflexivity]. split; [reflexivity|]. right. split; [vm_compute; split; discriminate | reflexivity]. Qed.

(** ** C59 *)
Theorem C59_applesoft_listing : forall ls,
  Forall (fun l => 0 <= l_Num l) ls -> exists ts, Forall2 (fun l t => exists s, decimal (l_Num l) s /\ t = s ++ [32] ++ concat (map applesoft_text (l_Bytes l)) ++ [10]) ls ts /\ applesoft_String ls = concat ts.
Proof. exact C59_text. Qed.
Print Assumptions C59_applesoft_listing.
Example C59_example : applesoft_String ex_small = s2b "10  PRINT ""HI""" ++ [10] ++ s2b "20  GOTO 10" ++ [10].
Proof. vm_compute. reflexivity. Qed.

(** ** C60 *)
Theorem C60_control_codes : forall s,
  bytes_ok s -> escaped s (ChevronControlCodes s) /\ Forall (fun c => ~ control c) (ChevronControlCodes s) /\ ChevronControlCodes (ChevronControlCodes s) = ChevronControlCodes s.
Proof. exact C60_lemma. Qed.
Print Assumptions C60_control_codes.
Example C60_example : bytes_ok [65; 4; 10; 27; 66] /\ ChevronControlCodes [65; 4; 10; 27; 66] = [65; 0xC2; 0xAB] ++ s2b "ctrl-D" ++ [0xC2; 0xBB; 10; 0xC2; 0xAB] ++ s2b "?" ++ [0xC2; 0xBB; 66].
Proof. split; [apply Dos3StmtProofs.bytes_ok_forallb; reflexivity | vm_compute; reflexivity]. Qed.

(** ** C72 *)
Theorem C72_integer_listing : forall l is r,
  0 <= l_Num l -> items_ok false is -> remark_ok r -> l_Bytes l = concat (map item_bytes is) ++ remark_bytes r ->
  exists s ts, decimal5 (l_Num l) s /\ Forall2 item_text is ts /\ integer_line l = s ++ [32] ++ concat ts ++ remark_text r.
Proof. exact C72_integer_line_text. Qed.
Print Assumptions C72_integer_listing.
Example C72_example : items_ok false ex_items /\ remark_ok (Some (s2b "HI")) /\ integer_line ex_iline = s2b "   10 PRINT A1:5:REM HI".
Proof. split; [apply ex_items_ok|]. split; [apply ex_items_ok | exact ex_iline_text]. Qed.
