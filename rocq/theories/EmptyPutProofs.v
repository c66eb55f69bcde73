(** EmptyPutProofs.v -- put of an empty file (C31, C93). *)
From Coq Require Import ZifyBool ZifyNat.
From Verif Require Import GoBase GoLemmas TypesModel DiskModel DiskSpec DiskProofs.
From Verif Require Import SupermonModel SupermonSpec SupermonTableSpec SupermonStoreSpec SupermonProofs SupermonSymProofs SupermonTabProofs SupermonLinkProofs SupermonOpProofs SupermonNameProofs SupermonFinalProofs SupermonNamedProofs SupermonStmtProofs.
From Verif Require ProdosSpec.
From Verif Require Import ProdosModel CmdModel CmdSpec CmdProofs CmdStmtProofs NakedCmdSpec NakedCmdProofs NakedNameProofs NakedExProofs.
Ltac Zify.zify_post_hook ::= Z.div_mod_to_equations.
Local Opaque zrange zeros sub.

Lemma compound_legal t s nf mf sy : FilesForCompoundName t s = Ok (nf, mf, sy) -> nf = 0 \/ legal nf.
Proof.
  unfold FilesForCompoundName. destruct (split_colon s) as [|p0 [|p1 [|p2 l]]]; intros H; try discriminate H.
  - destruct (parseAddress_cases s) as [(f & Hn & E)|[Hn E]]; rewrite E in H.
    + destruct Hn as [Hf _]. pose proof Hf as Hf'. unfold legal in Hf. replace (f =? 0) with false in H by lia. cbn [negb] in H. injection H as <- _ _. right; exact Hf'.
    + cbn [Z.eqb negb] in H. destruct (FileForName_spec t s) as [(f & E2 & _ & Hl)|[E2 _]]; rewrite E2 in H; injection H as <- _ _; [right; exact Hl|left; reflexivity].
  - destruct (parseAddress_cases p0) as [(f & Hn & E)|[Hn E]]; rewrite E in H.
    + destruct Hn as [Hf _]. pose proof Hf as Hf'. unfold legal in Hf. replace (f =? 0) with false in H by lia.
      destruct (negb (parseAddressFilename p1 =? 0)); [discriminate H|].
      destruct (FileForName_spec t p1) as [(g & E2 & _ & Hl)|[E2 _]]; rewrite E2 in H; injection H as <- _ _; right; exact Hf'.
    + cbn [Z.eqb] in H. discriminate H.
Qed.
Lemma compound_total t s : FilesForCompoundName t s <> Panic.
Proof.
  unfold FilesForCompoundName. destruct (split_colon s) as [|p0 [|p1 [|p2 l]]]; try discriminate.
  - destruct (negb (parseAddressFilename s =? 0)); [discriminate|]. destruct (FileForName_spec t s) as [(f & E2 & _ & Hl)|[E2 _]]; rewrite E2; discriminate.
  - destruct (parseAddressFilename p0 =? 0); [discriminate|]. destruct (negb (parseAddressFilename p1 =? 0)); [discriminate|].
    destruct (FileForName_spec t p1) as [(f & E2 & _ & Hl)|[E2 _]]; rewrite E2; discriminate.
Qed.

(** A put that would succeed with some contents panics with none. *)
Lemma put_empty o name loc sl sa lk ft s addr ow o' ex : op_ok o -> s <> [] ->
  PutFile (FI (Desc name loc sl sa (zlen s) lk ft) s addr) ow o = (o', Ok ex) ->
  exists o2, PutFile (FI (Desc name loc sl sa 0 lk ft) [] addr) ow o = (o2, Panic).
Proof.
  intros Hok Hne. unfold PutFile. cbn [fi_desc_ fi_data d_type d_length d_name]. cbv zeta.
  destruct (negb (ft =? FiletypeBinary)); [intros E; discriminate E|]. rewrite Z.eqb_refl, (@zlen_nil Z). cbn [negb Z.eqb].
  destruct (FilesForCompoundName (st_of o) name) as [[[nf mf] sy]|e|] eqn:EF; [|intros E; discriminate E|intros E; discriminate E].
  pose proof (compound_legal _ _ _ _ _ EF) as Hlegal.
  destruct (if beq sy [] then Ok tt else match op_ST o with
             | None => Err (EOther "cannot use symbolic names on disks without valid symbol tables")
             | Some _ => _ <- encodeSymbol sy ;; Ok tt end) as [u|e|]; [|intros E; discriminate E|intros E; discriminate E].
  remember (if nf =? 0 then FirstFreeFile (op_SM o) else nf) as num eqn:Enum.
  destruct (Z.eqb_spec num 0) as [En|En]; [intros E; discriminate E|].
  assert (legal num) as Hln.
  { rewrite Enum in *. destruct (Z.eqb_spec nf 0); [|destruct Hlegal; [contradiction | assumption]].
    destruct (FirstFreeFile_spec (op_SM o)) as [(H & _)|(H & _)]; [exact H|contradiction]. }
  unfold sbind, on_disk. intros E.
  destruct (WriteFile_cases num s ow (op_data o) (op_SM o) (ok_fl _ Hok) Hln Hne) as [(_ & EW)|[(_ & _ & _ & EW)|(Hsp & How & _)]].
  - rewrite EW in E. discriminate E.
  - rewrite EW in E. discriminate E.
  - destruct (WriteFile_empty num ow (op_data o) (op_SM o) (fl_ver _ _ (ok_fl _ Hok)) Hln How) as [[d1 sm1] E1].
    { assert (1 <= nsec s); [|lia]. unfold nsec. pose proof (zlen_nonneg s). destruct (Z.eq_dec (zlen s) 0) as [Z0|]; [apply zlen_zero_nil in Z0; contradiction|].
      clear - H n. lia. }
    rewrite E1. eexists. reflexivity.
Qed.
(** Otherwise it is refused, unless the disk is full. *)
Lemma put_empty_else o i ow o' r : op_ok o -> fi_data i = [] -> owned (op_SM o) FREE <> [] -> PutFile i ow o = (o', r) ->
  r = Panic \/ exists e, r = Err e /\ o' = o.
Proof.
  intros Hok Hd Hfree. unfold PutFile. rewrite Hd. cbv zeta.
  destruct (negb (d_type (fi_desc_ i) =? FiletypeBinary)); [intros E; injection E as <- <-; right; eexists; split; reflexivity|].
  destruct (negb (d_length (fi_desc_ i) =? zlen [])); [intros E; injection E as <- <-; right; eexists; split; reflexivity|].
  destruct (FilesForCompoundName (st_of o) (d_name (fi_desc_ i))) as [[[nf mf] sy]|e|] eqn:EF;
    [|intros E; injection E as <- <-; right; eexists; split; reflexivity|contradiction (compound_total _ _ EF)].
  pose proof (compound_legal _ _ _ _ _ EF) as Hlegal.
  destruct (if beq sy [] then Ok tt else match op_ST o with
             | None => Err (EOther "cannot use symbolic names on disks without valid symbol tables")
             | Some _ => _ <- encodeSymbol sy ;; Ok tt end) as [u|e|]; [|intros E; injection E as <- <-; right; eexists; split; reflexivity|intros E; injection E as <- <-; left; reflexivity].
  remember (if nf =? 0 then FirstFreeFile (op_SM o) else nf) as num eqn:Enum.
  destruct (Z.eqb_spec num 0) as [En|En]; [intros E; injection E as <- <-; right; eexists; split; reflexivity|].
  assert (legal num) as Hln.
  { rewrite Enum in *. destruct (Z.eqb_spec nf 0); [|destruct Hlegal; [contradiction | assumption]].
    destruct (FirstFreeFile_spec (op_SM o)) as [(H & _)|(H & _)]; [exact H|contradiction]. }
  pose proof (ok_fl _ Hok) as Hfl. pose proof (zlen_nonneg (owned (op_SM o) num)) as P1. pose proof (zlen_nonneg (owned (op_SM o) FREE)) as P2.
  assert (Hz : zlen (owned (op_SM o) FREE) <> 0) by (intros Z0; apply zlen_zero_nil in Z0; contradiction).
  unfold sbind, on_disk. destruct (Z.eq_dec (zlen (owned (op_SM o) num)) 0) as [Z0|Z0].
  - destruct (WriteFile_empty num ow (op_data o) (op_SM o) (fl_ver _ _ Hfl) Hln) as [[d1 sm1] E1]; [intros H; apply zlen_zero_nil in Z0; contradiction|lia|].
    rewrite E1. intros E. injection E as <- <-. left. reflexivity.
  - destruct ow.
    + destruct (WriteFile_empty num true (op_data o) (op_SM o) (fl_ver _ _ Hfl) Hln) as [[d1 sm1] E1]; [intros H; reflexivity|lia|].
      rewrite E1. intros E. injection E as <- <-. left. reflexivity.
    + rewrite (WriteFile_exists num [] (op_data o) (op_SM o)).
      * intros E. injection E as <- <-. right. eexists. split; [reflexivity|]. destruct o; reflexivity.
      * apply (v_len _ (fl_ver _ _ Hfl)).
      * change (nsec []) with 0. lia.
      * intros H. rewrite H in Z0. contradiction (Z0 eq_refl).
Qed.

Lemma put_empty_reached o name loc sl sa lk ft s addr ow o' ex : reached o -> s <> [] ->
  PutFile (FI (Desc name loc sl sa (zlen s) lk ft) s addr) ow o = (o', Ok ex) ->
  exists o2, PutFile (FI (Desc name loc sl sa 0 lk ft) [] addr) ow o = (o2, Panic).
Proof. intros H. apply put_empty. apply reached_ok. exact H. Qed.
Lemma put_empty_else_reached o i ow o' r : reached o -> fi_data i = [] -> owned (op_SM o) FREE <> [] -> PutFile i ow o = (o', r) ->
  r = Panic \/ exists e, r = Err e /\ o' = o.
Proof. intros H. apply put_empty_else. apply reached_ok. exact H. Qed.
Lemma put_empty_reached_example : exists o o', reached o /\
  PutFile (FI (Desc (s2b "NEWFILE") [] 0 0 (zlen (repeat 7 300)) false FiletypeBinary) (repeat 7 300) 0) false o = (o', Ok false).
Proof. destruct C44_example_lemma as (d & o & o' & Hd & _ & En & _ & _ & _ & _ & _ & _ & HP). exists o, o'. split; [apply (reached_open d); assumption|exact HP]. Qed.

Section EmptyPut.
  Context (iter : list (Z * Subdirectory) -> list (Z * Subdirectory)) (fuel : nat).

  (** The same for the command: whatever put accepts, it crashes on when the file is empty. *)
  Lemma put_empty_cmd order system ft ow addr img tgt src w w' s : img <> s2b "-" ->
    run (PutCmd_Run iter fuel order system ft ow addr img tgt src) w = (w', Ok tt) -> input w src s -> s <> [] ->
    forall w2 src2, (forall c, input w img c -> input w2 img c) -> input w2 src2 [] ->
    exists w3, run (PutCmd_Run iter fuel order system ft ow addr img tgt src2) w2 = (w3, Panic) /\ same_files w2 w3.
  Proof.
    intros Hid H Hs Hne w2 src2 Hsame Hs2.
    destruct (put_parts iter fuel order system ft ow addr img tgt src w w' s H Hs Hne) as (c & o & op & op2 & ftv & ex & new & Hc & Ho & Eft & EP & _).
    destruct (naked_opened iter fuel _ _ _ _ _ _ Ho) as (_ & _ & _ & _ & Hre & _).
    destruct (put_empty op tgt [] 0 0 false ftv s addr ow op2 ex (reached_ok _ Hre) Hne EP) as [op3 E3].
    destruct (open_run_ok iter fuel _ _ _ _ _ _ _ (Hsame c Hc) Ho) as (w3 & Er & Hsf & _ & _ & _ & Hw3). rewrite (Hw3 Hid) in Er.
    destruct (run_contents_ok w2 src2 [] Hs2) as (w4 & Er2 & Hsf4 & _).
    exists w4. split; [|exact Hsf4]. unfold PutCmd_Run. change dash with (s2b "-"). rewrite (beq_false _ _ Hid). cbn [andb].
    rewrite run_pbind, Er. cbn beta iota. rewrite run_pbind, Er2. rewrite run_pbind, Eft. unfold plift at 1. cbn [run].
    rewrite (@zlen_nil Z). cbn [Op_PutFile]. rewrite E3. cbn [lift_op]. rewrite run_pbind. reflexivity.
  Qed.

  Lemma put_empty_example : exists w w' w2,
    input w (s2b "f") (repeat 7 300) /\ run (PutCmd_Run iter fuel (s2b "auto") (s2b "auto") (s2b "B") false 0 (s2b "x.do") (s2b "DF06") (s2b "f")) w = (w', Ok tt) /\
    (forall c, input w (s2b "x.do") c -> input w2 (s2b "x.do") c) /\ input w2 (s2b "e") [].
  Proof.
    destruct (put_dump_example iter fuel) as (w & w' & new & Hf & _ & Hr & _).
    exists w, w', (World (fun n => if beq n (s2b "e") then NFile [] true true else w_fs w n) (w_stdin w) (w_stdout w) (w_room w) (w_outroom w)).
    split; [exact Hf|]. split; [exact Hr|]. split.
    - intros c [[E _]|[N [wr H]]]; [discriminate E|]. right. split; [exact N|]. exists wr. cbn [w_fs]. exact H.
    - right. split; [discriminate|]. exists true. reflexivity.
  Qed.
End EmptyPut.
