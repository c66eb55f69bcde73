(** TableRmExProofs.v -- concrete disks for rm of a file that holds the symbol table (C91). *)
From Coq Require Import ZifyBool ZifyNat.
From Verif Require Import GoBase GoLemmas TypesModel DiskModel DiskSpec DiskProofs DiskOpenProofs.
From Verif Require Import SupermonModel SupermonSpec SupermonTableSpec SupermonStoreSpec SupermonProofs SupermonSymProofs SupermonTabProofs SupermonLinkProofs SupermonOpProofs SupermonNameProofs SupermonFinalProofs SupermonNamedProofs SupermonStmtProofs SupermonRewriteProofs SupermonReadableProofs.
From Verif Require ProdosSpec.
From Verif Require Import ProdosModel CmdModel CmdSpec CmdProofs CmdStmtProofs NakedCmdSpec NakedCmdProofs NakedOpenProofs NakedNameProofs NakedExProofs DetectSpec DetectProofs PrintProofs ListSpec ListProofs OpenFuelProofs AfterProofs AfterRmProofs ReorderProofs AfterExProofs SessionExProofs TableRmProofs.
Ltac Zify.zify_post_hook ::= Z.div_mod_to_equations.
Local Opaque zrange zeros sub.

Section TableRmEx.
  Context (iter : list (Z * Subdirectory) -> list (Z * Subdirectory)).

  Lemma rm_six fuel t n f d sm op d2 sm2 t2 : floppy d sm -> bytes_ok d -> owned sm 5 = [272] -> content d sm 5 = zeros 256 ->
    op = Op d sm (Some t) -> ReadSymbolTable sm d = Ok t -> resolves t n f ->
    Delete n op = (Op d2 sm2 t2, Ok true) -> owned sm2 5 = [272] -> content d2 sm2 5 = zeros 256 ->
    exists w w' c new,
      input w (s2b "x.do") c /\ w_outroom w = None /\ seen_as (s2b "x.do") (s2b "auto") c (s2b "nakedos") d (s2b "do") /\ names_on d t /\
      run (DeleteCmd_Run iter fuel (s2b "auto") (s2b "auto") false (s2b "x.do") n) w = (w', Ok tt) /\
      output w w' (s2b "x.do") new /\ naked_image new (s2b "do") d2 /\ seen_as (s2b "x.do") (s2b "auto") new (s2b "nakedos") d2 (s2b "do").
  Proof.
    intros Hf Hbd O5 C5 Hop HR Hres HD P5 Q5. destruct (do_image _ _ Hf) as [c Hc].
    assert (Hbc : bytes_ok c) by (apply (DetectProofs.reordered_bytes _ _ _ _ (reordered_back _ _ _ _ (proj1 Hc)) Hbd)).
    assert (Hrel : release_byte c <> 3).
    { rewrite <- (release_same _ _ _ _ (proj1 Hc)). rewrite (five_release d sm O5 C5). lia. }
    destruct (open_naked iter fuel c (s2b "do") _ (s2b "x.do") (s2b "auto") first_do Hc Hrel) as (op' & Eo & En).
    pose proof En as En'. rewrite (NewOperator_floppy _ _ Hf) in En'. unfold opened_table in En'. rewrite HR in En'. rewrite <- Hop in En'. injection En' as <-.
    destruct (NewOperator_ok d op (fl_len _ _ Hf) En) as (Hok & _).
    remember (one_file (s2b "x.do") c None) as w eqn:Ew.
    assert (Hi : input w (s2b "x.do") c) by (rewrite Ew; apply one_input).
    destruct (rm_ok_run iter fuel (s2b "auto") (s2b "auto") false (s2b "x.do") n w c op (s2b "do") _ true Hi ltac:(discriminate) Eo HD eq_refl) as (w' & new & Er & Hout & Hnew).
    { rewrite Ew; reflexivity. } { rewrite Ew; reflexivity. } { rewrite Ew. apply one_output. reflexivity. }
    cbn [op_data] in Hnew.
    assert (Hbd2 : bytes_ok d2).
    { apply (Delete_bytes n op _ true Hok) in HD; [exact HD|rewrite Hop; exact Hbd|apply (opened_addrs d op (fl_len _ _ Hf) Hbd En)]. }
    assert (Hbn : bytes_ok new) by (apply (DetectProofs.reordered_bytes _ _ _ _ (reordered_back _ _ _ _ (proj1 Hnew)) Hbd2)).
    assert (Hrel2 : release_byte new <> 3).
    { rewrite <- (release_same _ _ _ _ (proj1 Hnew)). rewrite (five_release _ _ P5 Q5). lia. }
    exists w, w', c, new. split; [exact Hi|]. split; [rewrite Ew; reflexivity|].
    split; [apply (still_seen _ _ _ _ _ first_do Hc Hrel Hbc)|].
    split; [exists op; split; [exact En|rewrite Hop; reflexivity]|]. split; [exact Er|]. split; [exact Hout|].
    split; [exact Hnew|]. apply (still_seen _ _ _ _ _ first_do Hnew Hrel2 Hbn).
  Qed.

  Lemma keep_six : exists d sm, floppy d sm /\ bytes_ok d /\ ReadSymbolTable sm d = Ok keep_table /\ owned sm 5 = [272] /\ content d sm 5 = zeros 256 /\
    owned sm 6 = [273] /\ zlen (owned sm 3) = 16 /\ zlen (owned sm 4) = 16 /\ zlen (owned sm FREE) = 514.
  Proof.
    destruct keep_ok as (T1 & T4 & _). destruct (six_disk _ T1 T4) as (d & sm & Hf & HR & Hbd & O5 & C5 & O6 & _ & O3 & O4 & OF).
    exists d, sm. split; [exact Hf|]. split; [exact Hbd|]. split; [exact HR|]. split; [exact O5|]. split; [exact C5|]. split; [exact O6|]. split; [exact O3|]. split; [exact O4|exact OF].
  Qed.

  (** rm FSYMTBL1. *)
  Lemma keep_delete_symbol d sm : floppy d sm -> owned sm 5 = [272] -> content d sm 5 = zeros 256 ->
    zlen (owned sm 3) = 16 -> zlen (owned sm 4) = 16 ->
    exists d2 sm2 t2, Delete (s2b "FSYMTBL1") (Op d sm (Some keep_table)) = (Op d2 sm2 t2, Ok true) /\ owned sm2 5 = [272] /\ content d2 sm2 5 = zeros 256.
  Proof.
    intros Hf O5 C5 O3 O4. destruct keep_ok as (T1 & _ & T2 & T3 & _).
    destruct (Delete_disk d sm 3 Hf ltac:(unfold legal; lia)) as (EP & Fl1 & _ & N3 & Oth1 & NF).
    assert (E3 : equal_fold (s2b "FSYMTBL1") (nm keep_table 3) = true) by (vm_compute; reflexivity).
    destruct (delete_readable keep_table (s2b "FSYMTBL1") 3 T1 T2 T3 ltac:(discriminate) ltac:(lia) E3) as [K1 _].
    pose proof (zlen_nonneg (owned sm FREE)) as PF.
    destruct (Oth1 4 ltac:(lia) ltac:(unfold legal; lia)) as [Q4 _]. destruct (Oth1 5 ltac:(lia) ltac:(unfold legal; lia)) as [Q5 R5].
    destruct (WriteSymbolTable_ok _ _ _ Fl1 K1) as (d2 & sm2 & EW & _ & _ & Oth2 & _).
    { rewrite N3, (@zlen_nil Z), NF, O3. lia. }
    { rewrite N3, Q4, (@zlen_nil Z), NF, O3, O4. lia. }
    destruct (Oth2 5 ltac:(lia) ltac:(lia) ltac:(unfold legal; lia)) as [P5 S5].
    exists d2, sm2, (Some (fst (DeleteSymbol keep_table (s2b "FSYMTBL1")))). split; [|split; [rewrite P5, Q5; exact O5|rewrite S5, R5; exact C5]].
    unfold Delete, st_of. cbn [op_ST op_SM op_data]. assert (FileForName keep_table (s2b "FSYMTBL1") = Ok 3) as -> by (vm_compute; reflexivity). cbv zeta.
    rewrite EP. destruct (delete_entry keep_table (s2b "FSYMTBL1") 3 T2 ltac:(discriminate) ltac:(rewrite (proj1 T1); lia) E3) as (_ & _ & ES).
    destruct (DeleteSymbol keep_table (s2b "FSYMTBL1")) as [t1 b1]. cbn [fst snd] in *. subst b1. unfold sbind, on_disk. cbn [op_data op_SM op_ST]. rewrite EW.
    unfold sret. rewrite SectorsForFile_owned, zlen_map, O3. reflexivity.
  Qed.
  (** rm DF03. *)
  Lemma keep_delete_number d sm : floppy d sm -> owned sm 5 = [272] -> content d sm 5 = zeros 256 -> zlen (owned sm 3) = 16 ->
    exists d2 sm2 t2, Delete (s2b "DF03") (Op d sm (Some keep_table)) = (Op d2 sm2 t2, Ok true) /\ owned sm2 5 = [272] /\ content d2 sm2 5 = zeros 256.
  Proof.
    intros Hf O5 C5 O3. destruct (Delete_disk d sm 3 Hf ltac:(unfold legal; lia)) as (EP & _ & _ & _ & Oth1 & _).
    destruct (Oth1 5 ltac:(lia) ltac:(unfold legal; lia)) as [Q5 R5].
    eexists _, _, (Some (fst (DeleteSymbol keep_table (s2b "DF03")))). split; [|split; [rewrite Q5; exact O5|rewrite R5; exact C5]].
    unfold Delete, st_of. cbn [op_ST op_SM op_data]. assert (FileForName keep_table (s2b "DF03") = Ok 3) as -> by (vm_compute; reflexivity). cbv zeta.
    rewrite EP. assert (snd (DeleteSymbol keep_table (s2b "DF03")) = false) as ES by (vm_compute; reflexivity).
    destruct (DeleteSymbol keep_table (s2b "DF03")) as [t1 b1]. cbn [fst snd] in *. subst b1. unfold sbind, on_disk. cbn [op_data op_SM op_ST].
    unfold sret. rewrite SectorsForFile_owned, zlen_map, O3. reflexivity.
  Qed.

  Lemma symbol_three : (forall g, ~ numeric (s2b "FSYMTBL1") g) /\ resolves keep_table (s2b "FSYMTBL1") 3 /\
    exists i, 0 <= i < zlen keep_table /\ equal_fold (s2b "FSYMTBL1") (nm keep_table i) = true.
  Proof.
    assert (Hnn : forall g, ~ numeric (s2b "FSYMTBL1") g) by (apply not_numeric; vm_compute; reflexivity). split; [exact Hnn|].
    split; [apply FileForName_resolves; vm_compute; reflexivity|]. exists 3. split; [unfold keep_table; rewrite four_len; lia|vm_compute; reflexivity].
  Qed.
  Lemma number_three : resolves keep_table (s2b "DF03") 3 /\ forall i, 0 <= i < zlen keep_table -> equal_fold (s2b "DF03") (nm keep_table i) = false.
  Proof.
    split; [apply FileForName_resolves; vm_compute; reflexivity|]. intros i Hi. unfold nm, keep_table in *. rewrite four_len in Hi. rewrite four_nth by lia.
    cases4 i; vm_compute; reflexivity.
  Qed.

  Lemma rm_table_symbol fuel : ProdosSpec.an_order iter ->
    exists w w' new, w_outroom w = None /\
      run (DeleteCmd_Run iter fuel (s2b "auto") (s2b "auto") false (s2b "x.do") (s2b "FSYMTBL1")) w = (w', Ok tt) /\
      output w w' (s2b "x.do") new /\
      forall w2, input w2 (s2b "x.do") new -> w_outroom w2 = None ->
        eventually (fun k => exists text, text <> [] /\ prints (DumpCmd_Run iter k (s2b "auto") (s2b "auto") (s2b "x.do") (s2b "DF03")) w2 text).
  Proof.
    intros Hi. destruct keep_six as (d & sm & Hf & Hbd & HR & O5 & C5 & O6 & O3 & O4 & _). destruct symbol_three as (_ & Hres & Hsym).
    destruct (keep_delete_symbol d sm Hf O5 C5 O3 O4) as (d2 & sm2 & t2 & HD & P5 & Q5).
    destruct (rm_six fuel keep_table _ 3 d sm _ d2 sm2 t2 Hf Hbd O5 C5 eq_refl HR Hres HD P5 Q5) as (w & w' & c & new & Hin & Hw & Hseen & Hnm & Hrun & Hout & Hnew & Hseen2).
    destruct (rm_table iter fuel _ _ _ _ _ _ _ Hrun) as (c' & o & d' & t0 & d'' & new' & f & fs & fs' & Hc' & Hn' & Honly & Hnm' & Hout' & Hnew' & Hres' & Hfs & Hfs' & Hx).
    assert (N : s2b "x.do" <> s2b "-") by discriminate.
    pose proof (input_fun _ _ _ _ N Hin Hc') as <-. pose proof (output_fun _ _ _ _ _ N Hout Hout') as <-.
    destruct (Honly Hi _ _ _ Hseen (or_introl eq_refl)) as (_ & <- & <-).
    pose proof (names_det _ _ _ Hnm Hnm') as <-. pose proof (resolves_det _ _ _ _ Hres Hres') as <-.
    pose proof (reordered_fun _ _ _ _ _ (proj1 Hnew) (proj1 Hnew')) as <-.
    destruct (proj2 (Hx (or_introl eq_refl)) Hsym) as (Hin' & _ & Hls).
    assert (I3 : file_on d2 3 <> []) by (apply (proj1 Hfs'); apply Hin'; right; reflexivity).
    exists w, w', new. split; [exact Hw|]. split; [exact Hrun|]. split; [exact Hout|]. intros w2 Hi2 Hw2.
    eapply eventually_impl; [|exact (proj1 (Hls (s2b "auto") w2 (or_introl eq_refl) Hi Hseen2 Hi2 Hw2))].
    intros k Hp. exists (file_on d2 3). split; [exact I3|exact Hp].
  Qed.
  Lemma rm_table_number fuel : ProdosSpec.an_order iter ->
    exists w w' new, w_outroom w = None /\
      eventually (fun k => shows_line (LsCmd_Run iter k (s2b "auto") (s2b "auto") true (s2b "x.do") []) w (s2b "GAME")) /\
      run (DeleteCmd_Run iter fuel (s2b "auto") (s2b "auto") false (s2b "x.do") (s2b "DF03")) w = (w', Ok tt) /\
      output w w' (s2b "x.do") new /\
      forall w2, input w2 (s2b "x.do") new -> w_outroom w2 = None ->
        eventually (fun k => (exists fs text, all_lines (map printed fs) text /\ In 6 fs /\ ~ In 3 fs /\
            prints (LsCmd_Run iter k (s2b "auto") (s2b "auto") true (s2b "x.do") []) w2 text) /\
          fails_cleanly (DumpCmd_Run iter k (s2b "auto") (s2b "auto") (s2b "x.do") (s2b "DF03")) w2).
  Proof.
    intros Hi. destruct keep_six as (d & sm & Hf & Hbd & HR & O5 & C5 & O6 & O3 & O4 & _). destruct number_three as (Hres & Hnum).
    destruct (keep_delete_number d sm Hf O5 C5 O3) as (d2 & sm2 & t2 & HD & P5 & Q5).
    destruct (rm_six fuel keep_table _ 3 d sm _ d2 sm2 t2 Hf Hbd O5 C5 eq_refl HR Hres HD P5 Q5) as (w & w' & c & new & Hin & Hw & Hseen & Hnm & Hrun & Hout & Hnew & Hseen2).
    destruct (rm_table iter fuel _ _ _ _ _ _ _ Hrun) as (c' & o & d' & t0 & d'' & new' & f & fs & fs' & Hc' & Hn' & Honly & Hnm' & Hout' & Hnew' & Hres' & Hfs & Hfs' & Hx).
    assert (N : s2b "x.do" <> s2b "-") by discriminate.
    pose proof (input_fun _ _ _ _ N Hin Hc') as <-. pose proof (output_fun _ _ _ _ _ N Hout Hout') as <-.
    destruct (Honly Hi _ _ _ Hseen (or_introl eq_refl)) as (_ & <- & <-).
    pose proof (names_det _ _ _ Hnm Hnm') as <-. pose proof (resolves_det _ _ _ _ Hres Hres') as <-.
    pose proof (reordered_fun _ _ _ _ _ (proj1 Hnew) (proj1 Hnew')) as <-.
    destruct (proj1 (Hx (or_introl eq_refl)) Hnum) as (Hin' & _ & Hls).
    assert (I6 : In 6 fs).
    { apply (proj1 Hfs). split; [clear; unfold legal; lia|]. intros E. unfold file_on in E. rewrite (fl_map _ _ Hf) in E.
      apply (content_nil_iff d sm 6 (fl_len _ _ Hf)) in E. congruence. }
    exists w, w', new. split; [exact Hw|]. split.
    { eapply eventually_impl; [|exact (ls_known iter _ _ (s2b "auto") c d _ keep_table fs true w Hi Hseen (or_introl eq_refl) Hnm Hfs Hin Hw)].
      intros k (text & Hl & Hp). exists (map (shown keep_table) fs), text. split; [exact Hl|]. split; [|exact Hp].
      apply in_map_iff. exists 6. split; [vm_compute; reflexivity|exact I6]. }
    split; [exact Hrun|]. split; [exact Hout|]. intros w2 Hi2 Hw2.
    eapply eventually_impl; [|exact (Hls (s2b "auto") true w2 (or_introl eq_refl) Hi Hseen2 Hi2 Hw2)].
    intros k [(text & Hl & Hp) Hd]. split; [|exact Hd]. exists fs', text. split; [exact Hl|].
    split; [apply Hin'; split; [exact I6|clear; lia]|]. split; [|exact Hp]. intros I3. apply Hin' in I3. destruct I3 as [_ I3]. contradiction (I3 eq_refl).
  Qed.
End TableRmEx.

Lemma Delete_number_example : exists o o', reached o /\ Delete (s2b "DF03") o = (o', Ok true) /\
  forall i, 0 <= i < zlen (st_of o) -> equal_fold (s2b "DF03") (nm (st_of o) i) = false.
Proof.
  destruct keep_six as (d & sm & Hf & Hbd & HR & O5 & C5 & O6 & O3 & O4 & _). destruct number_three as (_ & Hnum).
  destruct (keep_delete_number d sm Hf O5 C5 O3) as (d2 & sm2 & t2 & HD & _).
  exists (Op d sm (Some keep_table)), (Op d2 sm2 t2). split; [|split; [exact HD|exact Hnum]].
  apply (reached_open d); [apply (fl_len _ _ Hf)|]. rewrite (NewOperator_floppy _ _ Hf). unfold opened_table. rewrite HR. reflexivity.
Qed.
