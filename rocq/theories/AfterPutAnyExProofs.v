(** AfterPutAnyExProofs.v -- a put that moves a symbol and loses all names (C90). *)
From Coq Require Import ZifyBool ZifyNat.
From Verif Require Import GoBase GoLemmas TypesModel DiskModel DiskSpec DiskProofs DiskOpenProofs.
From Verif Require Import SupermonModel SupermonSpec SupermonTableSpec SupermonBreakSpec SupermonStoreSpec SupermonProofs SupermonSymProofs SupermonTabProofs SupermonLinkProofs SupermonOpProofs SupermonNameProofs SupermonFinalProofs SupermonNamedProofs SupermonStmtProofs SupermonReadableProofs SupermonBreakProofs.
From Verif Require ProdosSpec.
From Verif Require Import ProdosModel CmdModel CmdSpec CmdProofs CmdStmtProofs NakedCmdSpec NakedCmdProofs NakedOpenProofs NakedNameProofs NakedExProofs DetectSpec DetectProofs PrintProofs ListSpec ListProofs OpenFuelProofs AfterProofs AfterRmProofs AfterExProofs BoundSpec SessionExProofs AfterRmAnyProofs AfterPutAnyProofs.
Ltac Zify.zify_post_hook ::= Z.div_mod_to_equations.
Local Opaque zrange zeros sub.

(** GAME, the first entry, is given file 1. *)
Lemma loss_breaks : first_named loss_table (s2b "GAME") 0 /\ add_breaks loss_table (s2b "GAME") 0xDF01.
Proof.
  assert (first_named loss_table (s2b "GAME") 0) as Hf.
  { split; [unfold loss_table; rewrite four_len; lia|]. split; [vm_compute; reflexivity|intros j Hj; lia]. }
  split; [exact Hf|]. left. exists 0. split; [exact Hf|]. split; [vm_compute; discriminate|]. left. exists 2.
  split; [unfold loss_table; rewrite four_len; lia|]. split; [vm_compute; discriminate|]. split; [vm_compute; reflexivity|].
  intros (_ & _ & _ & H). apply (H 1); [lia|lia|vm_compute; reflexivity].
Qed.
Lemma game_name : names_symbol (s2b "1:GAME") (s2b "GAME") /\ numeric (s2b "1") 1 /\ valid_name (s2b "GAME") /\ (forall g, ~ numeric (s2b "GAME") g).
Proof.
  assert (numeric (s2b "1") 1) as H by (apply numeric_parse; [vm_compute; reflexivity|discriminate]).
  split; [right; exists (s2b "1"), 1; split; [exact H|reflexivity]|]. split; [exact H|]. split; [apply valid_check; reflexivity|].
  apply not_numeric. vm_compute. reflexivity.
Qed.

Section PutLoses.
  Context (iter : list (Z * Subdirectory) -> list (Z * Subdirectory)).
  Lemma put_game fuel :
    exists w w' c d new d',
      input w (s2b "f") (repeat 7 300) /\ input w (s2b "x.do") c /\ bytes_ok c /\ w_outroom w = None /\
      seen_as (s2b "x.do") (s2b "auto") c (s2b "nakedos") d (s2b "do") /\ table_on d loss_table /\ names_on d loss_table /\ file_on d 3 <> [] /\
      run (PutCmd_Run iter fuel (s2b "auto") (s2b "auto") (s2b "B") false 0 (s2b "x.do") (s2b "1:GAME") (s2b "f")) w = (w', Ok tt) /\
      output w w' (s2b "x.do") new /\ naked_image new (s2b "do") d' /\ seen_as (s2b "x.do") (s2b "auto") new (s2b "nakedos") d' (s2b "do").
  Proof.
    destruct loss_ok as (T1 & T4 & T2 & T3 & _). remember loss_table as t eqn:Etab.
    destruct (six_disk t T1 T4) as (d & sm & Hf & HR & Hbd & O5 & C5 & O6 & O1 & O3 & O4 & HF).
    destruct (do_image _ _ Hf) as [c Hc].
    assert (Hbc : bytes_ok c) by (apply (DetectProofs.reordered_bytes _ _ _ _ (reordered_back _ _ _ _ (proj1 Hc)) Hbd)).
    assert (Hrel : release_byte c <> 3).
    { rewrite <- (release_same _ _ _ _ (proj1 Hc)). rewrite (five_release d sm O5 C5). lia. }
    destruct (open_naked iter fuel c (s2b "do") _ (s2b "x.do") (s2b "auto") first_do Hc Hrel) as (op & Eo & En).
    pose proof En as En'. rewrite (NewOperator_floppy _ _ Hf) in En'. injection En' as En'.
    assert (Et : op_ST op = Some t) by (rewrite <- En'; cbn [op_ST]; unfold opened_table; rewrite HR; reflexivity).
    assert (Em : op_SM op = sm) by (rewrite <- En'; reflexivity). assert (Ed : op_data op = d) by (rewrite <- En'; reflexivity).
    destruct (NewOperator_ok d op (fl_len _ _ Hf) En) as (Hok & _).
    destruct game_name as (Htgt & Hnum & Hv & Hnn).
    assert (Hst : st_of op = t) by (unfold st_of; rewrite Et; reflexivity).
    remember (repeat 7 300) as s eqn:Es.
    assert (Hne : s <> []) by (rewrite Es; discriminate).
    assert (Hns : nsec s = 2) by (rewrite Es; vm_compute; reflexivity).
    destruct (WriteFile_ok 1 s false d sm (fl_len _ _ Hf) (fl_ver _ _ Hf) ltac:(unfold legal; lia) Hne ltac:(rewrite Hns, HF, O1, (@zlen_nil Z); lia) ltac:(rewrite O1; intros X; contradiction))
      as (d1 & sm1 & E1 & Fl1 & _ & _ & _ & Oth1 & _).
    assert (exists t1, AddSymbol t (s2b "GAME") 0xDF01 = (t1, Ok tt)) as [t1 EA].
    { exists (fst (AddSymbol t (s2b "GAME") 0xDF01)). rewrite Etab. vm_compute. reflexivity. }
    assert (L1 : zlen t1 = 819). { pose proof (zlen_AddSymbol t (s2b "GAME") 0xDF01) as H. rewrite EA in H. cbn [fst] in H. rewrite H. apply T1. }
    pose proof (add_sok t (s2b "GAME") 0xDF01 t1 (proj1 T1) (proj1 (proj2 T1)) (proj2 T2) ltac:(discriminate) ltac:(unfold is_u16; lia) Hv EA) as Hs1.
    destruct (write_read_exact t1 d1 sm1 Fl1 L1 Hs1 ltac:(rewrite (Oth1 3) by (unfold FREE; lia); exact O3) ltac:(rewrite (Oth1 4) by (unfold FREE; lia); exact O4)) as (d2 & sm2 & EW & _).
    remember (FI (Desc (s2b "1:GAME") [] 0 0 (zlen s) false FiletypeBinary) s 0) as i eqn:Ei.
    assert (EP : PutFile i false op = (Op d2 sm2 (Some t1), Ok false)).
    { rewrite Ei. unfold PutFile. cbn [fi_desc_ fi_data d_type d_length d_name]. rewrite Z.eqb_refl. cbn [negb]. rewrite Z.eqb_refl. cbn [negb]. rewrite Hst.
      destruct (FilesForCompoundName_compound t (s2b "1") (s2b "GAME") (numeric_no_colon _ _ Hnum) (valid_no_colon _ Hv)) as [HE _]. destruct (HE 1 Hnum Hnn) as [HE1 _].
      assert (symbol_file t (s2b "GAME") 6) as Hsf.
      { split; [unfold legal; lia|]. exists 0. rewrite Etab. split; [apply loss_breaks|vm_compute; reflexivity]. }
      change (s2b "1:GAME") with (s2b "1" ++ 58 :: s2b "GAME"). rewrite (HE1 6 Hsf). cbv zeta. change (beq (s2b "GAME") []) with false. cbv iota. rewrite Et.
      destruct (encode_valid (s2b "GAME") Hv) as (six & Esix & _). rewrite Esix. cbn [rbind]. change (1 =? 0) with false. cbv iota.
      unfold sbind, on_disk. rewrite Ed, Em, E1, O1, Et. change (0 <? zlen (@nil Z)) with false. change (negb (6 =? 1) && negb (beq (s2b "GAME") [])) with true. cbv iota.
      unfold st_of. cbn [op_ST]. change (u16 (0xDF00 + 1)) with 0xDF01. change (1 =? 0) with false. change (negb (6 =? 1) && negb false) with true. cbv iota beta. cbn [op_ST]. rewrite EA. cbn [op_data op_SM op_ST]. rewrite EW. reflexivity. }
    assert (Hnei : fi_data i <> []) by (rewrite Ei; exact Hne).
    assert (Hbi : bytes_ok (fi_data i)).
    { rewrite Ei. cbn [fi_data]. rewrite Es. apply Forall_forall. intros x Hx. apply repeat_spec in Hx. subst x. unfold is_byte. lia. }
    remember (Op d2 sm2 (Some t1)) as op' eqn:Eop.
    destruct (put_owned i false op op' false Hok Hnei EP) as (f & How & Hother).
    assert (Hbd2 : bytes_ok (op_data op')).
    { apply (PutFile_bytes i false op op' false Hok); [rewrite Ed; exact Hbd|apply (opened_addrs d op (fl_len _ _ Hf) Hbd En)|exact Hnei|exact Hbi|exact EP]. }
    assert (Hf5 : f <> 5).
    { intros ->. assert (owned (op_SM op) 5 <> []) as X by (rewrite Em, O5; discriminate). discriminate (How X). }
    rewrite Ei in EP.
    remember (two_files (s2b "x.do") c (s2b "f") s) as w eqn:Ew.
    assert (Hi : input w (s2b "x.do") c) by (right; split; [discriminate|]; exists true; rewrite Ew; reflexivity).
    assert (Hif : input w (s2b "f") s) by (right; split; [discriminate|]; exists true; rewrite Ew; reflexivity).
    destruct (put_ok_run iter fuel (s2b "auto") (s2b "auto") (s2b "B") false 0 (s2b "x.do") (s2b "1:GAME") (s2b "f") w s c op (s2b "do") op' false
      Hi ltac:(discriminate) Hif Hne Eo ltac:(vm_compute; reflexivity) EP) as (w' & new & Er & Hout & Hnew).
    { rewrite Ew; reflexivity. } { rewrite Ew; reflexivity. }
    { right. split; [discriminate|]. split; [|left; reflexivity]. right. eexists _, _. rewrite Ew. reflexivity. }
    assert (Hbn : bytes_ok new) by (apply (DetectProofs.reordered_bytes _ _ _ _ (reordered_back _ _ _ _ (proj1 Hnew)) Hbd2)).
    assert (Hrel2 : release_byte new <> 3).
    { rewrite <- (release_same _ _ _ _ (proj1 Hnew)).
      destruct (Hother 5 ltac:(unfold legal; lia) ltac:(congruence) ltac:(lia) ltac:(lia)) as [G1 G2].
      rewrite Em, O5 in G1. rewrite Ed, Em, C5 in G2. rewrite (five_release _ _ G1 G2). lia. }
    exists w, w', c, d, new, (op_data op'). split; [exact Hif|]. split; [exact Hi|]. split; [exact Hbc|]. split; [rewrite Ew; reflexivity|].
    split; [apply (still_seen _ _ _ _ _ first_do Hc Hrel Hbc)|]. split; [exists op; split; assumption|]. split; [exists op; split; assumption|].
    split; [unfold file_on; rewrite (fl_map _ _ Hf); intros X; apply (content_nil_iff d sm 3 (fl_len _ _ Hf)) in X; rewrite X in O3; discriminate O3|].
    split; [exact Er|]. split; [exact Hout|]. split; [exact Hnew|]. apply (still_seen _ _ _ _ _ first_do Hnew Hrel2 Hbn).
  Qed.

  Lemma put_loses fuel : ProdosSpec.an_order iter ->
    exists w w' new, w_outroom w = None /\ input w (s2b "f") (repeat 7 300) /\
      run (PutCmd_Run iter fuel (s2b "auto") (s2b "auto") (s2b "B") false 0 (s2b "x.do") (s2b "1:GAME") (s2b "f")) w = (w', Ok tt) /\
      output w w' (s2b "x.do") new /\
      eventually (fun k => shows_line (LsCmd_Run iter k (s2b "auto") (s2b "auto") true (s2b "x.do") []) w (s2b "FSYMTBL1")) /\
      forall w2, input w2 (s2b "x.do") new -> w_outroom w2 = None ->
        eventually (fun k => (exists names text, all_lines names text /\ In (s2b "DF03") names /\ ~ In (s2b "FSYMTBL1") names /\
            prints (LsCmd_Run iter k (s2b "auto") (s2b "auto") true (s2b "x.do") []) w2 text) /\
          fails_cleanly (DumpCmd_Run iter k (s2b "auto") (s2b "auto") (s2b "x.do") (s2b "GAME")) w2).
  Proof.
    intros Hi. destruct (put_game fuel) as (w & w' & c & d & new & d2 & Hif & Hin & Hbc & Hw & Hseen & Htb & Hnm & H3 & Hrun & Hout & Hnew & Hseen2).
    destruct (put_any iter fuel _ _ _ _ _ _ _ _ _ _ _ Hrun Hif ltac:(discriminate)) as (c' & o & d' & d'' & new' & fs & fs' & Hc' & Hn' & Honly & Hout' & Hnew' & Hfs & Hfs' & Hx).
    assert (N : s2b "x.do" <> s2b "-") by discriminate.
    pose proof (input_fun _ _ _ _ N Hin Hc') as <-. pose proof (output_fun _ _ _ _ _ N Hout Hout') as <-.
    destruct (Honly Hi _ _ _ Hseen (or_introl eq_refl)) as (_ & <- & <-).
    pose proof (reordered_fun _ _ _ _ _ (proj1 Hnew) (proj1 Hnew')) as <-.
    destruct game_name as (Htgt & Hnum & Hv & Hnn).
    destruct (Hx loss_table (s2b "GAME") Hbc Htb Htgt ltac:(discriminate) Hv Hnn) as (f & Hf & Hm & _ & Hset & _ & _ & Hshow).
    assert (f = 1) as ->.
    { destruct Hm as [(p & Hp & Ep)|[(Ep & _)|(Ep & _)]]; [|discriminate Ep|discriminate Ep].
      assert (p = s2b "1") as ->.
      { change (s2b "1:GAME") with (s2b "1" ++ 58 :: s2b "GAME") in Ep. destruct p as [|a [|b p]]; [discriminate Ep|injection Ep as <-; reflexivity|].
        exfalso. apply (f_equal (@length Z)) in Ep. rewrite !app_length in Ep. cbn in Ep. lia. }
      symmetry. apply (numeric_det _ _ _ Hnum Hp). }
    destruct (Hshow ltac:(right; lia) [] (or_introl (conj (proj2 loss_breaks) eq_refl))) as [_ Hs].
    assert (I3 : In 3 fs) by (apply (proj1 Hfs); split; [unfold legal; lia|exact H3]).
    exists w, w', new. split; [exact Hw|]. split; [exact Hif|]. split; [exact Hrun|]. split; [exact Hout|]. split.
    { eapply eventually_impl; [|exact (ls_known iter _ _ (s2b "auto") c d _ loss_table fs true w Hi Hseen (or_introl eq_refl) Hnm Hfs Hin Hw)].
      intros k (text & Hl & Hp). exists (map (shown loss_table) fs), text. split; [exact Hl|]. split; [|exact Hp].
      apply in_map_iff. exists 3. split; [|exact I3]. vm_compute. reflexivity. }
    intros w2 Hi2 Hw2. destruct (Hs (s2b "auto") w2 (or_introl eq_refl) Hi Hseen2 Hi2 Hw2) as (L1 & _ & L3). apply eventually_and.
    - eapply eventually_impl; [|exact (L1 true)]. intros k (text & Hl & Hp). exists (map (shown []) fs'), text.
      split; [exact Hl|]. split; [apply in_map_iff; exists 3; split; [reflexivity|apply Hset; right; exact I3]|]. split; [|exact Hp].
      intros Hn. apply in_map_iff in Hn as (g & Eg & _). apply (f_equal (@zlen Z)) in Eg. change (shown [] g) with (printed g) in Eg.
      rewrite printed_len in Eg. discriminate Eg.
    - apply L3. intros g [Hg|(_ & _ & k & (Hk & _) & _)] _; [apply (Hnn g Hg)|]. rewrite (@zlen_nil Symbol) in Hk. lia.
  Qed.
End PutLoses.
