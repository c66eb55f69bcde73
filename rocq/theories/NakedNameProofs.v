(** NakedNameProofs.v -- put under a symbolic name, then dump by that name (C77). *)
From Verif Require Import GoBase GoLemmas TypesModel DiskModel DiskSpec DiskProofs DiskOpenProofs.
From Verif Require Import SupermonModel SupermonSpec SupermonTableSpec SupermonStoreSpec SupermonProofs SupermonSymProofs SupermonTabProofs SupermonLinkProofs SupermonNameProofs
  SupermonOpProofs SupermonNamedProofs SupermonFinalProofs SupermonStmtProofs.
From Verif Require Import Dos3Model ProdosModel CmdModel CmdSpec CmdProofs CmdStmtProofs NakedCmdSpec NakedCmdProofs NakedOpenProofs NakedExProofs.
From Verif Require DetectProofs.
From Coq Require Import ZifyBool ZifyNat.
Ltac Zify.zify_post_hook ::= Z.div_mod_to_equations.
Local Opaque zrange zeros sub.

(** What a successful GetFile says about the name and the file. *)
Lemma GetFile_inv o n i : SupermonModel.GetFile o n = Ok i -> op_ok o ->
  exists f, resolves (st_of o) n f /\ fi_data i = content (op_data o) (op_SM o) f.
Proof.
  intros H Hok. unfold SupermonModel.GetFile in H. destruct (FileForName (st_of o) n) as [f|e|] eqn:Ef; cbn [rbind] in H; [|discriminate|discriminate].
  exists f. split; [apply FileForName_resolves; exact Ef|]. rewrite ReadFile_spec in H by (apply (fl_len _ _ (ok_fl _ Hok))).
  destruct (zlen (content (op_data o) (op_SM o) f) =? 0); [discriminate|]. injection H as <-. reflexivity.
Qed.

(** A successful put leaves the sectors of all files alone but the target and the table. *)
Lemma put_owned i ow o o' ex : op_ok o -> fi_data i <> [] -> PutFile i ow o = (o', Ok ex) ->
  exists f, (owned (op_SM o) f <> [] -> ow = true) /\
    forall g, legal g -> g <> f -> g <> 3 -> g <> 4 ->
      owned (op_SM o') g = owned (op_SM o) g /\ content (op_data o') (op_SM o') g = content (op_data o) (op_SM o) g.
Proof.
  intros Hok Hne HP.
  destruct (PutFile_success i ow o o' ex Hok Hne HP) as (nf & mf & sy & num & d1 & sm1 & _ & _ & _ & _ & Hfl & _ & Hoth & _ & How & Hcase).
  exists num. split; [exact How|]. intros g Hg Hgf N3 N4.
  destruct Hcase as [[_ ->]|(_ & _ & t & t1 & d2 & sm2 & Et & Ea & Ew & ->)]; cbn [op_data op_SM]; [exact (Hoth g Hgf Hg)|].
  assert (Hlt : zlen t1 <= 819).
  { destruct (AddSymbol_changed _ _ _ _ Ea) as (_ & p & n' & (HL & _) & _). rewrite HL. rewrite (ok_st _ Hok t Et). lia. }
  destruct (WriteSymbolTable_any t1 d1 sm1 Hfl Hlt) as (d2' & sm2' & r & Ew' & _ & _ & Ho & _).
  rewrite Ew in Ew'. injection Ew' as <- <- <-. destruct (Ho g N3 N4 Hg) as [-> ->]. exact (Hoth g Hgf Hg).
Qed.

Section Name.
  Context (iter : list (Z * Subdirectory) -> list (Z * Subdirectory)) (fuel : nat).

  Lemma put_dump_symbolic order ft ow addr img tgt src w w' s :
    run (PutCmd_Run iter fuel order (s2b "auto") ft ow addr img tgt src) w = (w', Ok tt) ->
    input w src s -> s <> [] -> tgt <> [] -> valid_name tgt -> (forall g, ~ numeric tgt g) ->
    exists c o d d' new,
      input w img c /\ opened_order img order o /\ naked_image c o d /\ output w w' img new /\ naked_image new o d' /\
      forall t, bytes_ok c -> table_on d t -> names_unique t -> live_links t ->
        ~ symbol_file t tgt 3 -> ~ symbol_file t tgt 4 -> (ByName t tgt = 0 \/ exists g, symbol_file t tgt g) ->
        exists t' f, names_on d' t' /\ resolves t' tgt f /\ file_on d' f = padded s /\
          (first_order img order o -> release_byte new <> 3 ->
           forall w2, input w2 img new -> w_outroom w2 = None ->
           exists w3, run (DumpCmd_Run iter fuel order (s2b "auto") img tgt) w2 = (w3, Ok tt) /\ same_files w2 w3 /\
             w_stdout w3 = w_stdout w2 ++ padded s).
  Proof.
    intros H Hs Hne Hn0 Hv Hnn.
    destruct (put_parts iter fuel _ _ _ _ _ _ _ _ _ _ _ H Hs Hne) as (c & o & op & op2 & ftv & ex & new & Hc & Hopen & Ef & EP & Hout & Hnew).
    destruct (naked_opened iter fuel _ _ _ _ _ _ Hopen) as (_ & Hr & En & Hd & Hre & Hni & Em & Hnm).
    exists c, o, (op_data op), (op_data op2), new. split; [exact Hc|].
    split; [exact (open_order iter fuel _ _ _ _ _ _ Hopen)|]. split; [exact Hni|]. split; [exact Hout|]. split; [exact Hnew|].
    intros t Hb (op' & En' & Ht) Hu Hlive N3 N4 Hcase.
    assert (op' = op) as -> by congruence.
    destruct (C44_reopen_lemma (op_data op) op t (FI (Desc tgt [] 0 0 (zlen s) false ftv) s addr) ow op2 ex Hd (DetectProofs.reordered_bytes _ _ _ _ Hr Hb) En Ht Hu Hlive Hne Hn0 Hv Hnn N3 N4 Hcase EP)
      as (o2 & i2 & En2 & Eg & Ei). cbn [fi_data fi_desc_ d_name] in Eg, Ei.
    destruct (NewOperator_ok _ _ (fl_len _ _ (proj2 Hnew)) En2) as (Hok2 & Ed2 & Em2 & _).
    destruct (GetFile_inv _ _ _ Eg Hok2) as (f & Hres & Hcont).
    assert (Hf : file_on (op_data op2) f = padded s) by (unfold file_on; rewrite <- Em2, <- Ed2, <- Hcont; exact Ei).
    exists (st_of o2), f. split; [exists o2; split; [exact En2|reflexivity]|]. split; [exact Hres|]. split; [exact Hf|].
    intros Hfo Hrel w2 Hi2 Hor2. rewrite <- Hf.
    apply (dump_naked iter fuel new o (op_data op2) img order tgt f w2 o2 Hfo Hnew Hrel En2 Hres); [|exact Hi2|exact Hor2].
    rewrite Hf. apply padded_nonempty. exact Hne.
  Qed.

  (** A disk with a symbol table, a file FHELLO in track 17 sector 0, and room for NEWFILE. *)
  Lemma put_dump_symbolic_example : exists w w' c d new,
    input w (s2b "f") (repeat 7 300) /\ valid_name (s2b "NEWFILE") /\ (forall g, ~ numeric (s2b "NEWFILE") g) /\
    input w (s2b "x.do") c /\ bytes_ok c /\ naked_image c (s2b "do") d /\ table_on d ex_table /\
    names_unique ex_table /\ live_links ex_table /\ ByName ex_table (s2b "NEWFILE") = 0 /\
    run (PutCmd_Run iter fuel (s2b "auto") (s2b "auto") (s2b "B") false 0 (s2b "x.do") (s2b "NEWFILE") (s2b "f")) w = (w', Ok tt) /\
    output w w' (s2b "x.do") new /\ first_order (s2b "x.do") (s2b "auto") (s2b "do") /\ release_byte new <> 3.
  Proof.
    destruct five_free as (F0 & F1 & F3 & F4). destruct five_content as [F5 F6]. destruct ex_table_ok as (T1 & T2 & T3 & T4).
    destruct (WriteSymbolTable_ok ex_table _ five_map five_floppy T1) as (d & sm & EW & Hf & HR & Hoth & _ & _ & H5).
    { rewrite F0, F3, (@zlen_nil Z). lia. }
    { rewrite F0, F3, F4, (@zlen_nil Z). lia. }
    rewrite F0, F3, F4, (@zlen_nil Z) in H5.
    destruct (Hoth 5 ltac:(lia) ltac:(lia) ltac:(unfold legal; lia)) as [O5 C5].
    destruct (Hoth 1 ltac:(lia) ltac:(lia) ltac:(unfold legal; lia)) as [O1 _].
    rewrite F5 in O5. rewrite F6 in C5. rewrite F1 in O1. rewrite T4 in HR.
    assert (Hbd : bytes_ok d).
    { apply (WriteSymbolTable_bytes ex_table _ five_map d sm five_floppy (proj1 T1)); [| |exact EW].
      - destruct T1 as (_ & Hs & _). eapply Forall_impl; [|exact Hs]. intros s (H & _). exact H.
      - unfold map_disk. apply bytes_ok_upd; [apply bytes_ok_zeros|]. 
        assert (E : forallb (fun x => (0 <=? x) && (x <? 256)) five_map = true) by (vm_compute; reflexivity).
        apply Forall_forall. intros x Hx. rewrite forallb_forall in E. specialize (E x Hx). unfold is_byte. lia. }
    destruct (do_image _ _ Hf) as [c Hc].
    assert (Hbc : bytes_ok c) by (apply (DetectProofs.reordered_bytes _ _ _ _ (reordered_back _ _ _ _ (proj1 Hc)) Hbd)).
    assert (Hrel : release_byte c <> 3).
    { rewrite <- (release_same _ _ _ _ (proj1 Hc)). rewrite (five_release d sm O5 C5). lia. }
    destruct (open_naked iter fuel c (s2b "do") _ (s2b "x.do") (s2b "auto") first_do Hc Hrel) as (op & Eo & En).
    pose proof En as En0.
    rewrite (NewOperator_floppy _ _ Hf) in En. injection En as En.
    assert (Et : op_ST op = Some ex_table) by (rewrite <- En; cbn [op_ST]; unfold opened_table; rewrite HR; reflexivity).
    destruct (NewOperator_ok d op (fl_len _ _ Hf) En0) as (Hok & Ed & Em & _).
    assert (Hv : valid_name (s2b "NEWFILE")) by (apply valid_check; reflexivity).
    assert (Hnn : forall g, ~ numeric (s2b "NEWFILE") g) by (apply not_numeric; vm_compute; reflexivity).
    assert (HB : ByName ex_table (s2b "NEWFILE") = 0) by (vm_compute; reflexivity).
    assert (Esm : op_SM op = sm) by (rewrite <- En; reflexivity).
    remember (repeat 7 300) as s eqn:Es.
    assert (Hne : s <> []) by (rewrite Es; discriminate).
    assert (Hns : nsec s = 2) by (rewrite Es; vm_compute; reflexivity).
    destruct (C44_succeeds_lemma d op ex_table (FI (Desc (s2b "NEWFILE") [] 0 0 (zlen s) false FiletypeBinary) s 0) false (fl_len _ _ Hf) En0 Et T2) as [op' EP].
    { intros j Hj. apply ex_names; try lia; first [left; reflexivity | apply valid_check; reflexivity]. }
    { reflexivity. } { reflexivity. } { exact Hne. } { discriminate. } { exact Hv. } { exact Hnn. } { exact HB. }
    { vm_compute. discriminate. }
    { cbn [fi_data]. rewrite Hns, Esm. lia. }
    { exists 1. split; [unfold legal; lia|]. rewrite Esm. exact O1. }
    remember (FI (Desc (s2b "NEWFILE") [] 0 0 (zlen s) false FiletypeBinary) s 0) as i eqn:Ei.
    assert (Hnei : fi_data i <> []) by (rewrite Ei; exact Hne).
    destruct (put_owned i false op op' false Hok Hnei EP) as (f & How & Hother).
    rewrite Ei in EP.
    assert (Hf5 : f <> 5).
    { intros ->. assert (owned (op_SM op) 5 <> []) as X by (rewrite Esm, O5; discriminate). discriminate (How X). }
    remember (two_files (s2b "x.do") c (s2b "f") s) as w eqn:Ew.
    assert (Hi : input w (s2b "x.do") c) by (right; split; [discriminate|]; exists true; rewrite Ew; reflexivity).
    assert (Hif : input w (s2b "f") s) by (right; split; [discriminate|]; exists true; rewrite Ew; reflexivity).
    destruct (put_ok_run iter fuel (s2b "auto") (s2b "auto") (s2b "B") false 0 (s2b "x.do") (s2b "NEWFILE") (s2b "f") w s c op (s2b "do") op' false
      Hi ltac:(discriminate) Hif Hne Eo ltac:(vm_compute; reflexivity) EP) as (w' & new & Er & Hout & Hnew).
    { rewrite Ew; reflexivity. } { rewrite Ew; reflexivity. }
    { right. split; [discriminate|]. split; [|left; reflexivity]. right. eexists _, _. rewrite Ew. reflexivity. }
    exists w, w', c, d, new. split; [exact Hif|]. split; [exact Hv|]. split; [exact Hnn|]. split; [exact Hi|]. split; [exact Hbc|].
    split; [exact Hc|]. split; [exists op; split; [exact En0|exact Et]|]. split; [apply T2|]. split; [exact T3|]. split; [exact HB|].
    split; [exact Er|]. split; [exact Hout|]. split; [exact first_do|].
    rewrite <- (release_same _ _ _ _ (proj1 Hnew)).
    destruct (Hother 5 ltac:(unfold legal; lia) ltac:(congruence) ltac:(lia) ltac:(lia)) as [G1 G2].
    rewrite Esm, O5 in G1. rewrite Ed, Esm, C5 in G2. rewrite (five_release _ _ G1 G2). lia.
  Qed.
End Name.
