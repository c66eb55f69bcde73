(** NakedOpenProofs.v -- when an image opens as a NakedOS disk, and what put followed by dump gives. *)
From Verif Require Import GoBase GoLemmas TypesModel DiskModel DiskSpec DiskProofs DiskOpenProofs.
From Verif Require Import SupermonModel SupermonSpec SupermonTableSpec SupermonStoreSpec SupermonProofs SupermonSymProofs SupermonTabProofs SupermonLinkProofs SupermonNameProofs
  SupermonOpProofs SupermonNamedProofs SupermonFinalProofs SupermonStmtProofs.
From Verif Require Import Dos3Model ProdosModel CmdModel CmdSpec CmdProofs CmdStmtProofs NakedCmdSpec NakedCmdProofs.
From Coq Require Import ZifyBool ZifyNat.
Ltac Zify.zify_post_hook ::= Z.div_mod_to_equations.
Local Opaque zrange zeros sub.

Lemma interleave_zero o l : interleave o l -> znth 0 l 0 = 0.
Proof. intros [| |]; reflexivity. Qed.
Lemma sector_zero c a b d t : reordered c a b d -> 0 <= t < 35 -> sector d t 0 = sector c t 0.
Proof.
  intros (_ & _ & lf & lt & If & It & H) Ht. apply H; try lia.
  rewrite (interleave_zero _ _ If), (interleave_zero _ _ It). reflexivity.
Qed.
Lemma release_same c a b d : reordered c a b d -> release_byte d = release_byte c.
Proof. intros H. unfold release_byte. rewrite (sector_zero c a b d 17 H) by lia. reflexivity. Qed.

Lemma dos3_rejects fuel d : zlen d = 143360 -> release_byte d <> 3 -> dos3_SeemsToMatch fuel d = Some false.
Proof.
  intros Hd Hr. unfold dos3_SeemsToMatch, ReadCatalog, readCatalogSectors, UnmarshalLogicalSector, VTOCTrack, VTOCSector.
  assert (Hs : ReadSector d 17 0 = Ok (sector d 17 0)).
  { rewrite ReadSector_spec. rewrite Hd. reflexivity. }
  rewrite Hs. cbn [rbind]. unfold VTOC_FromSector.
  assert (HL : zlen (sector d 17 0) = 256) by (unfold sector, offset; rewrite zlen_sub; lia).
  rewrite HL. cbn [Z.eqb Pos.eqb negb rbind]. unfold Validate. cbn [VTOC_setTS v_Volume v_DOSRelease].
  unfold release_byte in Hr.
  destruct (znth 0 (sector d 17 0) 6 =? 255); [reflexivity|].
  destruct (Z.eqb_spec (znth 0 (sector d 17 0) 3) 3) as [E|E]; [contradiction|]. reflexivity.
Qed.

Lemma seems_floppy d sm : floppy d sm -> SeemsToMatch d = true.
Proof.
  intros [Hd Hv Hm]. unfold SeemsToMatch. rewrite LoadSectorMap_ok by lia. rewrite Hm.
  assert (Verify sm = Ok tt) as -> by (apply (proj1 (Verify_spec sm (v_len _ Hv))); exact Hv). reflexivity.
Qed.

Lemma target_numeric t n f g : target t n f -> numeric n g -> f = g.
Proof.
  intros Ht Hn. inversion Ht as [n' g' Hc Hr E1 E2|p q g' Hp Hq Hpn Hnn E1 E2].
  - destruct Hr as [Hr|[Hr _]]; [apply (numeric_det _ _ _ Hr Hn)|contradiction (Hr g Hn)].
  - exfalso. apply numeric_no_colon in Hn. apply Hn. rewrite <- E1. apply in_or_app. right. left. reflexivity.
Qed.

Section Open.
  Context (iter : list (Z * Subdirectory) -> list (Z * Subdirectory)) (fuel : nat).

  Lemma open_naked c o d img order :
    first_order img order o -> naked_image c o d -> release_byte c <> 3 ->
    exists op, OpenImage c (image_name img) order (s2b "auto") (DiskOperatorFactories iter fuel) = Ok (ONaked op, o) /\
      NewOperator d = Ok op.
  Proof.
    intros [rest Hc] [Hr Hfl] Hrel. pose proof (NewOperator_floppy _ _ Hfl) as En.
    remember (Op d (stored_map d) (opened_table d (stored_map d))) as op eqn:Eop. exists op. split; [|exact En].
    assert (Hcl : zlen c = 143360) by apply Hr.
    assert (Hko : exists l, interleave o l) by (destruct Hr as (_ & _ & lf & lt & If & _); exists lf; exact If).
    apply (open_scan c (image_name img) order (s2b "auto") (DiskOperatorFactories iter fuel) (DiskOperatorFactories iter fuel) (o :: rest) (ONaked op) o Hcl).
    - intros f Hf. apply (facs_order iter fuel f Hf).
    - left. split; reflexivity.
    - exact Hc.
    - right. reflexivity.
    - cbn [list_prod map DiskOperatorFactories app].
      eexists [(o, dos3_factory fuel)], (nakedos_factory), _. split; [reflexivity|]. split.
      + constructor; [|constructor].
        destruct (reordered_ex c o (s2b "do") Hcl Hko) as [d1 Hd1]; [eexists; constructor|].
        exists d1. split; [exact Hd1|]. left. cbn [snd f_seems dos3_factory]. apply dos3_rejects; [apply Hd1|].
        rewrite (release_same _ _ _ _ Hd1). exact Hrel.
      + exists d. split; [exact Hr|]. cbn [snd f_seems f_operator nakedos_factory supermon_factory].
        split; [f_equal; apply (seems_floppy _ _ Hfl)|]. rewrite En. reflexivity.
  Qed.

  Lemma dump_naked c o d img order n f w op :
    first_order img order o -> naked_image c o d -> release_byte c <> 3 -> NewOperator d = Ok op ->
    resolves (st_of op) n f -> file_on d f <> [] -> input w img c -> w_outroom w = None ->
    exists w', run (DumpCmd_Run iter fuel order (s2b "auto") img n) w = (w', Ok tt) /\ same_files w w' /\
      w_stdout w' = w_stdout w ++ file_on d f.
  Proof.
    intros Ho Hn Hrel En Hres Hf Hi Hroom. destruct (open_naked c o d img order Ho Hn Hrel) as (op' & Eo & En').
    assert (op' = op) as -> by congruence.
    destruct (open_run_ok iter fuel _ _ _ _ _ _ _ Hi Eo) as (w1 & Er & Hsf & Hso & _ & Hor & _).
    destruct (NewOperator_ok d op (fl_len _ _ (proj2 Hn)) En) as (Hok & Ed & Em & _).
    assert (Hc : content (op_data op) (op_SM op) f = file_on d f) by (rewrite Ed, Em; reflexivity).
    destruct (GetFile_content op n f Hok Hres) as (i & Eg & Ei); [rewrite Hc; exact Hf|].
    unfold DumpCmd_Run. rewrite run_pbind, Er. rewrite run_pbind. unfold plift. cbn [run Op_GetFile]. rewrite Eg.
    cbn [run]. unfold sys_stdout. rewrite Hor, Hroom. cbn [fits]. eexists. split; [reflexivity|].
    split; [intros m; exact (Hsf m)|]. cbn [add_out w_stdout]. rewrite Hso, Ei, Hc. reflexivity.
  Qed.

  (** *** put and mkhello succeed when the operator does *)
  Lemma finish_ok c o op op' img w w1 i ow ex :
    reordered c o (s2b "raw") (op_data op) -> op_ok op -> fi_data i <> [] ->
    same_files w w1 -> w_stdout w1 = w_stdout w -> w_room w1 = None -> w_outroom w1 = None -> can_output w img true ->
    PutFile i ow op = (op', Ok ex) ->
    exists w' new, run (WriteBack img (ONaked op') o true) w1 = (w', Ok tt) /\
      output w w' img new /\ naked_image new o (op_data op').
  Proof.
    intros Hr Hok Hne Hsf Hso Hrm Hor Hco HP. destruct (PutFile_inv _ _ _ _ _ Hok Hne HP) as [Hok' _].
    destruct (writeback_run c o (op_data op) op' img Hr (fl_len _ _ (ok_fl _ Hok'))) as (new & Hn & Hrun).
    destruct (run_output_ok w1 img new true Hrm Hor) as [w' Ew].
    { destruct Hco as [Ht|(Ht & Hw & Hx)]; [left; exact Ht|]. right. split; [exact Ht|]. split; [|left; reflexivity].
      unfold writable in *. rewrite Hsf. exact Hw. }
    exists w', new. split; [rewrite Hrun; exact Ew|].
    split; [apply (output_files w w1); [exact Hsf|exact Hso|apply run_output in Ew; exact Ew]|].
    apply (new_image new o op' Hok' Hn).
  Qed.

  Lemma put_ok_run order system ft ow addr img tgt src w s c op o op' ex :
    input w img c -> img <> s2b "-" -> input w src s -> s <> [] ->
    OpenImage c (image_name img) order system (DiskOperatorFactories iter fuel) = Ok (ONaked op, o) ->
    FiletypeForName ft = Ok FiletypeBinary ->
    PutFile (FI (Desc tgt [] 0 0 (zlen s) false FiletypeBinary) s addr) ow op = (op', Ok ex) ->
    w_room w = None -> w_outroom w = None -> can_output w img true ->
    exists w' new, run (PutCmd_Run iter fuel order system ft ow addr img tgt src) w = (w', Ok tt) /\
      output w w' img new /\ naked_image new o (op_data op').
  Proof.
    intros Hi Hid Hs Hne Ho Hft HP Hrm Hor Hco.
    destruct (open_run_ok iter fuel _ _ _ _ _ _ _ Hi Ho) as (w1 & Er & _ & _ & _ & _ & Hw1). rewrite (Hw1 Hid) in Er.
    destruct (run_contents_ok _ _ _ Hs) as (w2 & Es & Hsf & Hso & Hr2 & Ho2).
    destruct (naked_opened iter fuel _ _ _ _ _ _ Ho) as (_ & Hr & En & Hd & Hre & Hni & Em & Hnm).
    pose proof (reached_ok _ Hre) as Hok.
    match type of HP with PutFile ?i _ _ = _ =>
    destruct (finish_ok c o op op' img w w2 i ow ex Hr Hok Hne Hsf Hso ltac:(congruence) ltac:(congruence) Hco HP) as (w' & new & Ew & Hout & Hni') end.
    exists w', new. split; [|split; [exact Hout|exact Hni']].
    unfold PutCmd_Run. change dash with (s2b "-"). rewrite (beq_false _ _ Hid). cbn [andb].
    rewrite run_pbind, Er, run_pbind, Es, run_pbind. unfold plift at 1. cbn [run]. rewrite Hft.
    cbn [Op_PutFile]. rewrite HP. cbn [lift_op]. exact Ew.
  Qed.

  Lemma mkhello_ok_run order img name address start0 w c op o op' ex f mf sy :
    input w img c -> address mod 256 = 0 -> address <= (if start0 =? 0xFFFF then address else start0) ->
    OpenImage c (image_name img) order (s2b "auto") (DiskOperatorFactories iter fuel) = Ok (ONaked op, o) ->
    FilesForCompoundName (st_of op) name = Ok (f, mf, sy) -> f <> 0 ->
    PutFile (FI (Desc (s2b "DF01:" ++ helloName) [] 0 0 16 false FiletypeBinary)
        (hello_program f address (if start0 =? 0xFFFF then address else start0)) 0) true op = (op', Ok ex) ->
    w_room w = None -> w_outroom w = None -> can_output w img true ->
    exists w' new, run (MkHelloCmd_Run iter fuel order img name address start0) w = (w', Ok tt) /\
      output w w' img new /\ naked_image new o (op_data op').
  Proof.
    intros Hi Ha Hst Ho HF Hf HP Hrm Hor Hco.
    destruct (open_run_ok iter fuel _ _ _ _ _ _ _ Hi Ho) as (w1 & Er & Hsf & Hso & Hr1 & Ho1 & _).
    destruct (naked_opened iter fuel _ _ _ _ _ _ Ho) as (_ & Hr & En & Hd & Hre & Hni & Em & Hnm).
    pose proof (reached_ok _ Hre) as Hok.
    unfold MkHelloCmd_Run. cbv zeta. remember (if start0 =? 0xFFFF then address else start0) as start eqn:Est.
    match type of HP with PutFile ?i _ _ = _ =>
    destruct (finish_ok c o op op' img w w1 i true ex Hr Hok ltac:(discriminate) Hsf Hso ltac:(congruence) ltac:(congruence) Hco HP) as (w' & new & Ew & Hout & Hni') end.
    exists w', new. split; [|split; [exact Hout|exact Hni']].
    rewrite Ha. cbn [Z.eqb negb]. replace (start <? address) with false by lia.
    rewrite run_pbind, Er, run_pbind. unfold plift at 1. cbn [run]. rewrite HF. replace (f =? 0) with false by lia. cbn [andb].
    cbn [Op_PutFile]. change (zlen (hello_program f address start)) with 16. rewrite HP. cbn [lift_op]. exact Ew.
  Qed.

  (** ** put, then dump *)
  Lemma put_dump order ft ow addr img tgt src w w' s f :
    run (PutCmd_Run iter fuel order (s2b "auto") ft ow addr img tgt src) w = (w', Ok tt) ->
    input w src s -> s <> [] -> numeric tgt f ->
    exists o new, opened_order img order o /\ output w w' img new /\
      (first_order img order o -> release_byte new <> 3 ->
       forall w2, input w2 img new -> w_outroom w2 = None ->
       exists w3, run (DumpCmd_Run iter fuel order (s2b "auto") img tgt) w2 = (w3, Ok tt) /\ same_files w2 w3 /\
         w_stdout w3 = w_stdout w2 ++ padded s).
  Proof.
    intros H Hs Hne Hn.
    destruct (put_run iter fuel _ _ _ _ _ _ _ _ _ _ _ H Hs Hne) as (c & o & d & t & d' & new & f' & _ & Hoo & _ & _ & Hout & Hnew & _ & _ & Ht & _ & _ & _ & Hfull).
    assert (f' = f) as ->.
    { destruct Ht as [Ht|(_ & Hnr & _)]; [|contradiction (Hnr f); left; exact Hn].
      apply (target_numeric _ _ _ _ Ht Hn). }
    destruct (Hfull (numeric_no_colon _ _ Hn) (or_introl Hn)) as [Hf _].
    exists o, new. split; [exact Hoo|]. split; [exact Hout|]. intros Hfo Hrel w2 Hi2 Hor2.
    pose proof (NewOperator_floppy _ _ (proj2 Hnew)) as En.
    rewrite <- Hf. eapply (dump_naked new o d' img order tgt f w2 _ Hfo Hnew Hrel En); [left; exact Hn| |exact Hi2|exact Hor2].
    rewrite Hf. apply padded_nonempty. exact Hne.
  Qed.
End Open.
