(** BoundExProofs.v -- a put that moves a symbol to a file (C90). *)
From Coq Require Import ZifyBool ZifyNat.
From Verif Require Import GoBase GoLemmas TypesModel DiskModel DiskSpec DiskProofs DiskOpenProofs.
From Verif Require Import SupermonModel SupermonSpec SupermonTableSpec SupermonStoreSpec SupermonProofs SupermonSymProofs SupermonTabProofs SupermonLinkProofs SupermonOpProofs SupermonNameProofs SupermonFinalProofs SupermonNamedProofs SupermonStmtProofs SupermonChainSpec SupermonChainProofs SupermonChainExProofs.
From Verif Require ProdosSpec.
From Verif Require Import ProdosModel CmdModel CmdSpec CmdProofs CmdStmtProofs MainModel NakedCmdSpec NakedCmdProofs NakedOpenProofs NakedExProofs DetectSpec DetectProofs AfterProofs AfterExProofs SessionSpec SessionProofs SessionExProofs NamesSpec NamesProofs NamesExProofs LawsExProofs BoundSpec.
Ltac Zify.zify_post_hook ::= Z.div_mod_to_equations.

(** The disk of [real_disk], made of bytes. *)
Lemma real_image : exists c d, naked_image c (s2b "do") d /\ bytes_ok c /\ release_byte c <> 3 /\
  plain_disk (d, stored_map d) real_table /\ owned (stored_map d) 5 = [272] /\ content d (stored_map d) 5 = zeros 256 /\
  (forall g, legal g -> g <> 3 -> g <> 4 -> g <> 5 -> owned (stored_map d) g = []) /\ zlen (owned (stored_map d) FREE) = 515.
Proof.
  destruct real_table_ok as (A & _ & C & _). destruct five_free as (F0 & _ & F3 & F4). destruct five_content as [F5 F6].
  destruct (WriteSymbolTable_ok real_table _ five_map five_floppy A) as (d & sm & EW & Hf & HR & Ho & K3 & K4 & KF).
  - rewrite F0, F3. vm_compute. discriminate.
  - rewrite F0, F3, F4. vm_compute. discriminate.
  - assert (legal 5) as L5 by (unfold legal; lia). destruct (Ho 5 ltac:(lia) ltac:(lia) L5) as [O5 C5].
    assert (Hb : bytes_ok d).
    { apply (WriteSymbolTable_bytes real_table _ five_map d sm five_floppy); [apply A| |exact five_bytes|exact EW].
      eapply Forall_impl; [|apply A]. intros s Hs. apply Hs. }
    destruct (do_image _ _ Hf) as [c Hc]. pose proof (fl_map _ _ Hf) as Em.
    exists c, d. split; [exact Hc|]. split; [exact (DetectProofs.reordered_bytes _ _ _ _ (reordered_back _ _ _ _ (proj1 Hc)) Hb)|].
    split; [rewrite <- (release_same _ _ _ _ (proj1 Hc)), (five_release d sm); [discriminate|congruence|congruence]|].
    rewrite Em. split; [|split; [|split; [|split]]].
    + split; [exact Hf|]. split; [exact K3|]. split; [exact K4|]. unfold disk_table. cbn [fst snd]. rewrite HR, C. reflexivity.
    + rewrite O5. exact F5.
    + congruence.
    + intros g Hg H3 H4 H5. rewrite (proj1 (Ho g H3 H4 Hg)). apply five_others; assumption.
    + rewrite KF, F0, F3, F4. reflexivity.
Qed.
Definition f_node (data : bytes) (n : bytes) : node := if beq n (s2b "f") then NFile data true true else NMissing.
Lemma real_session iter fuel data h c d sm outs : stored_map d = sm -> naked_image c (s2b "do") d -> release_byte c <> 3 ->
  plain_disk (d, sm) real_table -> owned sm 5 = [272] -> content d sm 5 = zeros 256 ->
  (forall g, legal g -> g <> 3 -> g <> 4 -> g <> 5 -> owned sm g = []) -> zlen (owned sm FREE) = 515 ->
  (forall nd, let k := day3_board (fun n => if beq n (s2b "x.do") then nd else f_node data n) in
     sensible_b (s2b "x.do") h k = true /\ spares_b 5 h k = true /\ snd (acts2 h k) = outs) ->
  exists w', session (map (fun ap => command iter fuel (s2b "auto") (s2b "x.do") (fst ap)) h) (two_files (s2b "x.do") c (s2b "f") data) = (w', outs).
Proof.
  intros Em Hc Hrel Hp O5 C5 Ho HF Hruns. pose proof Hp as (Hf & K3 & K4 & _). cbn [fst snd] in Hf, K3, K4.
  destruct real_table_ok as (A & B & C & D & _).
  pose proof (Hruns (NFile c true true)) as HD. cbv zeta in HD.
  remember (day3_board (fun n => if beq n (s2b "x.do") then NFile c true true else f_node data n)) as k eqn:Ek.
  destruct HD as (HD1 & HD3 & HD2).
  remember (two_files (s2b "x.do") c (s2b "f") data) as w eqn:Ew.
  pose proof (C98_lemma iter fuel (s2b "auto") (s2b "x.do") (s2b "do") h w c d real_table (chain_of real_chains) k) as HL.
  pose proof (C98_spared_lemma iter fuel (s2b "auto") (s2b "x.do") (s2b "do") h w c d real_table (chain_of real_chains) k) as HH.
  repeat match type of HL with ?P -> _ => match type of HH with P -> _ => let X := fresh "Hyp" in assert (X : P); [clear HL HH|specialize (HL X); specialize (HH X)] end end.
  - discriminate.
  - apply first_do.
  - rewrite Ew. reflexivity.
  - exact Hc.
  - rewrite Ew. reflexivity.
  - rewrite Ew. reflexivity.
  - rewrite Em. exact Hp.
  - exact A.
  - apply B.
  - exact D.
  - exact real_no_numeric.
  - vm_compute. discriminate.
  - intros n Hn. rewrite Ek, Ew. cbn [w_fs two_files b_files day3_board]. unfold f_node. rewrite (beq_false _ _ Hn). reflexivity.
  - rewrite Ek, Em. split; [|exact HF]. intros f Hlf. unfold in_use. cbn [store_of st_file b_store day3_board].
    destruct (Z.eqb_spec f 3) as [->|N3].
    + split; [|intros X; contradiction]. rewrite content_beq by exact (fl_len _ _ Hf). rewrite K3. reflexivity.
    + destruct (Z.eqb_spec f 4) as [->|N4].
      * split; [|intros _ X; contradiction]. rewrite content_beq by exact (fl_len _ _ Hf). rewrite K4. reflexivity.
      * cbn [orb]. destruct (Z.eqb_spec f 5) as [->|N5]; [rewrite C5; split; [reflexivity|intros _ _; reflexivity]|].
        assert (content d sm f = []) as -> by (apply (content_nil_iff d sm f (fl_len _ _ Hf)); apply Ho; assumption).
        split; [reflexivity|intros _ _; reflexivity].
  - rewrite Ek. reflexivity.
  - apply sensible_b_ok. exact HD1.
  - assert (In 272 (owned sm 5)) as H5 by (rewrite O5; left; reflexivity). apply filter_In in H5 as [_ H5]. apply Z.eqb_eq in H5.
    assert (mark_owner d = 5) as E5 by (unfold mark_owner; rewrite Em; exact H5). rewrite E5 in HH.
    destruct (HL (HH Hrel ltac:(discriminate) ltac:(discriminate) ltac:(discriminate)
      ltac:(apply spares_b_ok; exact HD3))) as (w' & k' & l & _ & _ & _ & _ & Es & Ea & _).
    exists w'. rewrite Es. apply f_equal2; [reflexivity|]. rewrite Ea in HD2. exact HD2.
Qed.

(** put x.do 40:cout f, on a disk whose table has COUT for a routine in ROM. *)
Lemma bound_runs data nd : data = repeat 7 300 -> let k := day3_board (fun n => if beq n (s2b "x.do") then nd else f_node data n) in
  let h := [(APut (s2b "B") false 0 (s2b "40:cout") (s2b "f"), PlAt 64 (s2b "cout")); (ALs false, PlNone)] in
  sensible_b (s2b "x.do") h k = true /\ spares_b 5 h k = true /\
  snd (acts2 h k) = [(0, []); (0, lines [s2b "DF03:FSYMTBL1"; s2b "DF04:FSYMTBL2"; s2b "DF05:FMONHELP"; s2b "DF40:COUT"])].
Proof. intros ->. split; [|split]; vm_compute; reflexivity. Qed.
Lemma session_ok p ps w w' outs x : session (p :: ps) w = (w', (0, x) :: outs) -> exists w1, run p (quiet w) = (w1, Ok tt).
Proof.
  cbn [session]. unfold main_run. destruct (run p (quiet w)) as [w1 [[]|e|]]; cbn [main_status].
  - intros _. exists w1. reflexivity.
  - destruct (session ps w1) as [w2 l]. discriminate.
  - destruct (session ps w1) as [w2 l]. discriminate.
Qed.
Lemma bound_put iter fuel w w' outs x : session (map (fun ap => command iter fuel (s2b "auto") (s2b "x.do") (fst ap))
    [(APut (s2b "B") false 0 (s2b "40:cout") (s2b "f"), PlAt 64 (s2b "cout")); (ALs false, PlNone)]) w = (w', (0, x) :: outs) ->
  exists w1, run (PutCmd_Run iter fuel (s2b "auto") (s2b "auto") (s2b "B") false 0 (s2b "x.do") (s2b "40:cout") (s2b "f")) (quiet w) = (w1, Ok tt).
Proof. intros H. apply session_ok in H. exact H. Qed.
Lemma bound_name : names_symbol (s2b "40:cout") (s2b "cout") /\ s2b "cout" <> [] /\ valid_name (s2b "cout") /\ (forall g, ~ numeric (s2b "cout") g) /\
  equal_fold (s2b "cout") (nm real_table 0) = false /\ ByName real_table (s2b "cout") = 0xFDED.
Proof.
  split.
  { right. exists (s2b "40"), 64. split; [apply numeric_parse; [vm_compute; reflexivity|discriminate]|reflexivity]. }
  split; [discriminate|]. split; [apply valid_check; reflexivity|]. split; [apply not_numeric; vm_compute; reflexivity|].
  split; vm_compute; reflexivity.
Qed.
Lemma plain_table d sm t : stored_map d = sm -> plain_disk (d, sm) t -> table_on d t.
Proof.
  intros Em (Hf & _ & _ & HR). eexists. split; [apply (NewOperator_floppy _ sm); exact Hf|]. cbn [op_ST]. unfold opened_table.
  unfold disk_table in HR. cbn [fst snd] in HR. rewrite HR. reflexivity.
Qed.
Lemma bound_inputs c s : let w := quiet (two_files (s2b "x.do") c (s2b "f") s) in input w (s2b "f") s /\ input w (s2b "x.do") c.
Proof. split; (right; split; [discriminate|]; exists true; reflexivity). Qed.
Lemma bound_example iter fuel : exists w w' c d,
  input w (s2b "f") (repeat 7 300) /\ input w (s2b "x.do") c /\ naked_image c (s2b "do") d /\ bytes_ok c /\ release_byte c <> 3 /\
  table_on d real_table /\ names_unique real_table /\ chained real_table /\
  names_symbol (s2b "40:cout") (s2b "cout") /\ s2b "cout" <> [] /\ valid_name (s2b "cout") /\ (forall g, ~ numeric (s2b "cout") g) /\
  equal_fold (s2b "cout") (nm real_table 0) = false /\ ByName real_table (s2b "cout") = 0xFDED /\
  run (PutCmd_Run iter fuel (s2b "auto") (s2b "auto") (s2b "B") false 0 (s2b "x.do") (s2b "40:cout") (s2b "f")) w = (w', Ok tt).
Proof.
  destruct real_image as (c & d & Hc & Hb & Hrel & Hp & O5 & C5 & Ho & HF).
  destruct (real_session iter fuel (repeat 7 300) _ c d _ _ eq_refl Hc Hrel Hp O5 C5 Ho HF (fun nd => bound_runs (repeat 7 300) nd eq_refl)) as (w' & Es).
  apply bound_put in Es as (w1 & Er).
  destruct (bound_inputs c (repeat 7 300)) as [I1 I2].
  exists (quiet (two_files (s2b "x.do") c (s2b "f") (repeat 7 300))), w1, c, d. destruct real_table_ok as (A & B & C & D & E).
  split; [exact I1|]. split; [exact I2|].
  split; [exact Hc|]. split; [exact Hb|]. split; [exact Hrel|]. split; [exact (plain_table d _ real_table eq_refl Hp)|].
  split; [apply B|]. split; [exact E|]. destruct bound_name as (N1 & N2 & N3 & N4 & N5 & N6).
  split; [exact N1|]. split; [exact N2|]. split; [exact N3|]. split; [exact N4|]. split; [exact N5|]. split; [exact N6|]. exact Er.
Qed.
