(** HelloExProofs.v -- a concrete case for property C120. *)
From Coq Require Import ZifyBool ZifyNat.
From Verif Require Import GoBase GoLemmas TypesModel DiskModel DiskSpec DiskProofs DiskOpenProofs.
From Verif Require Import SupermonModel SupermonSpec SupermonTableSpec SupermonStoreSpec SupermonProofs SupermonSymProofs SupermonTabProofs SupermonLinkProofs SupermonNameProofs
  SupermonOpProofs SupermonNamedProofs SupermonFinalProofs SupermonStmtProofs.
From Verif Require Import Dos3Model ProdosModel CmdModel CmdSpec CmdProofs CmdStmtProofs NakedCmdSpec NakedCmdProofs NakedOpenProofs NakedExProofs BootSpec HelloSpec HelloProofs.
Ltac Zify.zify_post_hook ::= Z.div_mod_to_equations.
Local Opaque zrange zeros sub.

Section Ex.
  Context (iter : list (Z * Subdirectory) -> list (Z * Subdirectory)).
  Lemma hello_example fuel : exists w w' c d,
    run (MkHelloCmd_Run iter fuel (s2b "auto") (s2b "x.do") (s2b "DF05") 0x2000 0xFFFF) w = (w', Ok tt) /\
    input w (s2b "x.do") c /\ naked_image c (s2b "do") d /\ file_on d 5 = zeros 256.
  Proof.
    destruct five_free as (F0 & F1 & F3 & F4). destruct five_content as [F5 F6].
    destruct (WriteSymbolTable_ok hello_table _ five_map five_floppy (proj1 hello_table_ok)) as (d & sm & _ & Hf & HR & Hoth & _ & _ & H5).
    { rewrite F0, F3, (@zlen_nil Z). lia. }
    { rewrite F0, F3, F4, (@zlen_nil Z). lia. }
    rewrite F0, F3, F4, (@zlen_nil Z) in H5.
    destruct (Hoth 5 ltac:(lia) ltac:(lia) ltac:(unfold legal; lia)) as [O5 C5].
    destruct (Hoth 1 ltac:(lia) ltac:(lia) ltac:(unfold legal; lia)) as [O1 _].
    rewrite F5 in O5. rewrite F6 in C5. rewrite F1 in O1. rewrite (proj2 hello_table_ok) in HR.
    destruct (do_image _ _ Hf) as [c Hc].
    assert (Hrel : release_byte c <> 3).
    { rewrite <- (release_same _ _ _ _ (proj1 Hc)). rewrite (five_release d sm O5 C5). lia. }
    destruct (open_naked iter fuel c (s2b "do") _ (s2b "x.do") (s2b "auto") first_do Hc Hrel) as (op & Eo & En).
    rewrite (NewOperator_floppy _ _ Hf) in En. injection En as En.
    assert (Et : op_ST op = Some hello_table) by (rewrite <- En; cbn [op_ST]; unfold opened_table; rewrite HR; reflexivity).
    assert (Hok : op_ok op).
    { destruct (NewOperator_ok d op (fl_len _ _ Hf)) as (Hok & _); [rewrite (NewOperator_floppy _ _ Hf), En; reflexivity|exact Hok]. }
    assert (Hst : st_of op = hello_table) by (unfold st_of; rewrite Et; reflexivity).
    remember (hello_program 5 0x2000 0x2000) as prog eqn:Epr.
    assert (Hne : prog <> []) by (rewrite Epr; discriminate).
    assert (HP : exists op' ex, PutFile (FI (Desc (s2b "DF01:" ++ helloName) [] 0 0 16 false FiletypeBinary) prog 0) true op = (op', Ok ex)).
    { unfold PutFile. cbn [fi_desc_ fi_data d_type d_length d_name]. change (negb (FiletypeBinary =? FiletypeBinary)) with false. cbv iota.
      assert (zlen prog = 16) as -> by (rewrite Epr; reflexivity). cbn [Z.eqb Pos.eqb negb].
      rewrite Hst. assert (FilesForCompoundName hello_table (s2b "DF01:" ++ helloName) = Ok (1, 1, helloName)) as -> by (vm_compute; reflexivity).
      rewrite Et. assert (encodeSymbol helloName <> Panic /\ exists b, encodeSymbol helloName = Ok b) as (_ & b & ->).
      { split; [vm_compute; discriminate|eexists; vm_compute; reflexivity]. }
      change (beq helloName []) with false. cbn [rbind Z.eqb]. cbv iota. unfold sbind, on_disk.
      assert (Hl1 : legal 1) by (unfold legal; lia).
      assert (Hfr : owned (op_SM op) FREE = owned sm FREE) by (rewrite <- En; reflexivity).
      assert (H1r : owned (op_SM op) 1 = []) by (rewrite <- En; exact O1).
      destruct (WriteFile_cases 1 prog true (op_data op) (op_SM op) (ok_fl _ Hok) Hl1 Hne) as [(H & _)|[(_ & H & _)|(_ & _ & d' & sm' & E & _)]].
      - exfalso. rewrite Hfr, H1r, (@zlen_nil Z), H5 in H. assert (nsec prog = 1) by (rewrite Epr; reflexivity). lia.
      - contradiction.
      - rewrite E. eexists _, _. reflexivity. }
    destruct HP as (op' & ex & EP). rewrite Epr in EP.
    remember (one_file (s2b "x.do") c None) as w eqn:Ew.
    assert (Hi : input w (s2b "x.do") c) by (rewrite Ew; apply one_input).
    assert (HF : FilesForCompoundName (st_of op) (s2b "DF05") = Ok (5, 0, [])) by (rewrite Hst; vm_compute; reflexivity).
    destruct (mkhello_ok_run iter fuel (s2b "auto") (s2b "x.do") (s2b "DF05") 0x2000 0xFFFF w c op (s2b "do") op' ex 5 0 []
      Hi eq_refl ltac:(cbn; lia) Eo HF ltac:(lia) EP) as (w' & new & Er & _).
    { rewrite Ew; reflexivity. } { rewrite Ew; reflexivity. } { rewrite Ew. apply one_output. reflexivity. }
    exists w, w', c, d. split; [exact Er|]. split; [exact Hi|]. split; [exact Hc|]. unfold file_on. rewrite (fl_map _ _ Hf). exact C5.
  Qed.
End Ex.
(** A machine that starts the loader at 800. *)
Lemma hello_machine d : exists s, rPC s = 0x800 /\ 0 <= rS s < 256 /\ forall i, 0 <= i < 16 -> mem s (0x800 + i) = znth 0 (file_on d 1) i.
Proof.
  exists (Mach 0 0 0 255 false false 0x800 (fun x => znth 0 (file_on d 1) (x - 0x800)) 0 (fun _ => false)). split; [reflexivity|]. split; [cbn [rS]; lia|].
  intros i Hi. cbn [mem]. f_equal. lia.
Qed.
