(** NamedBatchExProofs.v -- an example for property C118. *)
From Coq Require Import ZifyBool ZifyNat Permutation.
From Verif Require Import GoBase GoLemmas TypesModel DiskModel DiskSpec DiskProofs.
From Verif Require Import SupermonModel SupermonSpec SupermonTableSpec SupermonStoreSpec SupermonProofs SupermonSymProofs SupermonOpProofs SupermonNameProofs SupermonFinalProofs SupermonNamedProofs SupermonChainSpec SupermonChainProofs SupermonChainExProofs.
From Verif Require Import ProdosModel CmdModel CmdSpec CmdProofs MainModel NakedCmdSpec NakedCmdProofs NakedOpenProofs NakedExProofs AfterProofs AfterExProofs SessionSpec SessionProofs SessionExProofs NamesSpec NamesProofs NamesExProofs BatchSpec NamedBatchSpec NamedBatchProofs.
Ltac Zify.zify_post_hook ::= Z.div_mod_to_equations.

(** A new name, a file that has its name already, the name of a ROM routine, a name taken away. *)
Definition four : list (action * plan) :=
  [ (APut (s2b "B") false 0 (s2b "40:Game") (s2b "f"), PlAt 64 (s2b "Game"));
    (APut (s2b "B") false 0 (s2b "FHELLO") (s2b "f"), PlFile 1);
    (APut (s2b "B") false 0 (s2b "41:COUT") (s2b "f"), PlAt 65 (s2b "COUT"));
    (ARm true (s2b "FSUPERMON"), PlAt 2 (s2b "FSUPERMON")) ].
Definition four_world (c : bytes) : world := NakedExProofs.two_files (s2b "x.do") c (s2b "f") (repeat 7 300).
Definition four_board (c : bytes) : board :=
  Board (w_fs (four_world c)) (St (fun g => if (g =? 3) || (g =? 4) then [0] else if g =? 5 then zeros 256 else []) 515) (cards_of real_table).
Lemma four_batch : named_batch four.
Proof.
  split; [|split].
  - unfold four. repeat constructor; discriminate.
  - unfold four. cbn [map snd file_of]. repeat (constructor; [cbn [In]; intros X; repeat destruct X as [X|X]; try discriminate X; exact X|]). constructor.
  - assert (X : filter (fun n => negb (beq n [])) (map (fun ap => fold_case (symbol_of (snd ap))) four) = [fold_case (s2b "Game"); fold_case (s2b "COUT"); fold_case (s2b "FSUPERMON")]) by (vm_compute; reflexivity).
    rewrite X. vm_compute. repeat (constructor; [cbn [In]; intros Y; repeat destruct Y as [Y|Y]; try discriminate Y; exact Y|]). constructor.
Qed.
Lemma four_runs c : (let k := four_board c in sensible_b (s2b "x.do") four k = true /\ spares_b 5 four k = true /\ snd (acts2 four k) = repeat (0, []) 4) /\
  (let k := four_board c in sensible_b (s2b "x.do") (rev four) k = true /\ spares_b 5 (rev four) k = true /\ snd (acts2 (rev four) k) = repeat (0, []) 4).
Proof. split; (split; [|split]); vm_compute; reflexivity. Qed.
(** The two orders leave the cards in a different sequence. *)
Lemma four_cards : b_cards (fst (acts2 four (four_board []))) = b_cards (fst (acts2 (rev four) (four_board []))) -> False.
Proof. vm_compute. discriminate. Qed.
Lemma named_batch_example iter fuel : exists w c d ch k,
  w_fs w (s2b "x.do") = NFile c true true /\ naked_image c (s2b "do") d /\ w_room w = None /\ w_outroom w = None /\
  plain_disk (d, stored_map d) real_table /\ table_ok real_table /\ names_unique real_table /\ one_chain real_table ch /\ no_numeric_symbols real_table /\ nm real_table 0 <> [] /\
  (forall n, n <> s2b "x.do" -> w_fs w n = b_files k n) /\ same_but_symbols (store_of d (stored_map d)) (b_store k) /\ cards_of real_table = b_cards k /\
  named_batch four /\
  forall h, In h [four; rev four] ->
    sensible (s2b "x.do") h k /\ throughout (unmarked (s2b "x.do")) (map (fun ap => command iter fuel (s2b "auto") (s2b "x.do") (fst ap)) h) w /\
    all_well (snd (session (map (fun ap => command iter fuel (s2b "auto") (s2b "x.do") (fst ap)) h) w)).
Proof.
  destruct real_disk as (d & sm & Hp & O5 & C5 & Ho & HF). pose proof Hp as (Hf & K3 & K4 & _). cbn [fst snd] in Hf, K3, K4.
  destruct (do_image _ _ Hf) as [c Hc]. pose proof (fl_map _ _ Hf) as Em.
  destruct real_table_ok as (A & B & C & D & _).
  pose proof (four_runs c) as HD. remember (four_board c) as k eqn:Ek. cbv zeta in HD.
  assert (Hfs : forall n, n <> s2b "x.do" -> w_fs (four_world c) n = b_files k n) by (intros n _; rewrite Ek; reflexivity).
  assert (Hk : cards_of real_table = b_cards k) by (rewrite Ek; reflexivity).
  assert (H0 : nm real_table 0 <> []) by (vm_compute; discriminate).
  assert (HS : same_but_symbols (store_of d (stored_map d)) (b_store k)).
  { rewrite Ek, Em. split; [|exact HF]. intros f Hlf. unfold in_use. cbn [store_of st_file b_store four_board].
    destruct (Z.eqb_spec f 3) as [->|N3].
    + split; [|intros X; contradiction (X eq_refl)]. rewrite content_beq by exact (fl_len _ _ Hf). rewrite K3. reflexivity.
    + destruct (Z.eqb_spec f 4) as [->|N4].
      * split; [|intros _ X; contradiction (X eq_refl)]. rewrite content_beq by exact (fl_len _ _ Hf). rewrite K4. reflexivity.
      * cbn [orb]. destruct (Z.eqb_spec f 5) as [->|N5]; [rewrite C5; split; [reflexivity|intros _ _; reflexivity]|].
        assert (content d sm f = []) as -> by (apply (content_nil_iff d sm f (fl_len _ _ Hf)); apply Ho; assumption).
        split; [reflexivity|intros _ _; reflexivity]. }
  assert (H5 : mark_owner d = 5).
  { assert (In 272 (owned sm 5)) as X by (rewrite O5; left; reflexivity). apply filter_In in X as [_ X]. apply Z.eqb_eq in X. unfold mark_owner. rewrite Em. exact X. }
  assert (Hrel : release_byte c <> 3) by (rewrite <- (release_same _ _ _ _ (proj1 Hc)), (five_release _ _ O5 C5); discriminate).
  assert (Hpd : plain_disk (d, stored_map d) real_table) by (rewrite Em; exact Hp).
  exists (four_world c), c, d, (chain_of real_chains), k.
  split; [reflexivity|]. split; [exact Hc|]. split; [reflexivity|]. split; [reflexivity|]. split; [exact Hpd|]. split; [exact A|]. split; [apply B|]. split; [exact D|]. split; [exact real_no_numeric|].
  split; [exact H0|]. split; [exact Hfs|]. split; [exact HS|]. split; [exact Hk|]. split; [exact four_batch|].
  intros h Hh. assert (HDh : sensible_b (s2b "x.do") h k = true /\ spares_b 5 h k = true /\ snd (acts2 h k) = repeat (0, []) 4) by (destruct Hh as [<-|[<-|[]]]; apply HD). clear HD Hh.
  destruct HDh as (HD1 & HD3 & HD2). apply sensible_b_ok in HD1. apply spares_b_ok in HD3.
  assert (HT : throughout (unmarked (s2b "x.do")) (map (fun ap => command iter fuel (s2b "auto") (s2b "x.do") (fst ap)) h) (four_world c)).
  { apply (C98_spared_lemma iter fuel (s2b "auto") (s2b "x.do") (s2b "do") h (four_world c) c d real_table (chain_of real_chains) k); try assumption; try reflexivity; try (rewrite H5; discriminate).
    - discriminate.
    - apply first_do.
    - apply B.
    - exact real_no_numeric.
    - rewrite H5. exact HD3. }
  split; [exact HD1|]. split; [exact HT|].
  destruct (C98_lemma iter fuel (s2b "auto") (s2b "x.do") (s2b "do") h (four_world c) c d real_table (chain_of real_chains) k) as (w' & k' & l & c' & d' & t' & ch' & Es & Ea & _); try assumption; try reflexivity.
  - discriminate.
  - apply first_do.
  - apply B.
  - exact real_no_numeric.
  - rewrite Es. cbn [snd]. rewrite Ea in HD2. cbn [snd] in HD2. rewrite HD2. repeat constructor.
Qed.
