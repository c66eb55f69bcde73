(** UndoExProofs.v -- example for property C127. *)
From Coq Require Import ZifyBool ZifyNat.
From Verif Require Import GoBase GoLemmas TypesModel DiskModel DiskSpec DiskProofs.
From Verif Require Import SupermonModel SupermonSpec SupermonTableSpec SupermonStoreSpec SupermonProofs SupermonOpProofs SupermonNameProofs SupermonFinalProofs.
From Verif Require Import ProdosModel CmdModel CmdSpec MainModel NakedCmdSpec NakedCmdProofs NakedOpenProofs NakedExProofs SessionSpec SessionProofs SessionExProofs BatchSpec BatchProofs BatchExProofs LocalExProofs BackupSpec UndoSpec UndoProofs.
Ltac Zify.zify_post_hook ::= Z.div_mod_to_equations.

(** File 5 is overwritten and file 6 put; then 5 is dumped. *)
Definition undo_acts : list (action * option Z) :=
  [(APut (s2b "B") true 0 (s2b "5") (s2b "f"), Some 5); (APut (s2b "B") false 0 (s2b "DF06") (s2b "f"), Some 6); (ADump (s2b "5"), Some 5)].
Definition undo_items : list item := [Item 5 (s2b "5") (s2b "g")].
Definition undo_all : list (action * option Z) :=
  undo_acts ++ rms [5; 6] ++ [(ASave (s2b "g") (zeros 256), None); (APut (s2b "B") false 0 (s2b "5") (s2b "g"), Some 5)].
Lemma undo_outputs c : snd (acts [] undo_all (Desk (w_fs (NakedExProofs.two_files (s2b "x.do") c (s2b "f") filler)) (one_store 5 (zeros 256) 547))) =
  [(0, []); (0, []); (0, padded filler)] ++ [(0, []); (0, []); (0, []); (0, [])].
Proof. vm_compute. reflexivity. Qed.
Lemma zeros_calm : no_mark (zeros 256).
Proof. intros j Hj. destruct (Z_lt_ge_dec (256 * j + 3) 256) as [Hlt|Hge]; [rewrite znth_zeros by lia; lia|rewrite znth_overflow; [lia|rewrite zlen_zeros by lia; lia]]. Qed.
Local Opaque zrange zeros sub.
Lemma undo_meant : Forall (fun af => meant [] (s2b "x.do") (fst af) (snd af)) undo_all.
Proof.
  destruct names_three as (N6 & _ & N5). unfold undo_all, undo_acts, rms. cbn [app map].
  repeat (apply Forall_cons; [cbn [fst snd]|]); [| | | | | | |apply Forall_nil].
  - apply meant_put; [exact N5|lia|lia].
  - apply meant_put; [exact N6|lia|lia].
  - constructor. left. exact N5.
  - constructor; [apply printed_numeric; unfold legal; lia|lia|lia].
  - constructor; [apply printed_numeric; unfold legal; lia|lia|lia].
  - constructor. discriminate.
  - constructor; [left; exact N5|left; exact N5|lia|lia|discriminate|discriminate].
Qed.
Lemma undo_other : Forall (fun af : action * option Z => match fst af with ASave _ c => no_mark c | APut _ _ _ _ src => src <> s2b "x.do" | _ => True end) undo_all.
Proof.
  unfold undo_all, undo_acts, rms. cbn [app map]. repeat (apply Forall_cons; [cbn [fst]|]); [| | | | | | |apply Forall_nil]; try exact Logic.I; try discriminate. exact zeros_calm.
Qed.
Lemma undo_five : file_on (map_disk five_map) 5 = zeros 256.
Proof. unfold file_on. rewrite (fl_map _ _ five_floppy). exact (proj2 five_content). Qed.
Lemma undo_commands iter fuel : map (command iter fuel (s2b "auto") (s2b "x.do")) (map fst undo_acts ++ undo false 0 (map_disk five_map) [5; 6] undo_items) =
  map (fun af => command iter fuel (s2b "auto") (s2b "x.do") (fst af)) undo_all.
Proof. unfold undo, restore, undo_items. cbn [flat_map it_file it_name it_way app]. rewrite undo_five. reflexivity. Qed.
Lemma undo_example iter fuel : exists w c v,
  w_fs w (s2b "x.do") = NFile c true true /\ naked_image c (s2b "do") (map_disk five_map) /\ names_on (map_disk five_map) [] /\ w_room w = None /\ w_outroom w = None /\
  Forall (fun af => meant [] (s2b "x.do") (fst af) (snd af)) undo_acts /\ Forall (fun af => kept_to [5; 6] (fst af) (snd af)) undo_acts /\
  [5; 6] = map it_file undo_items ++ [6] /\ NoDup [5; 6] /\ Forall (good_item (s2b "x.do") w) undo_items /\
  (forall i, In i undo_items -> file_on (map_disk five_map) (it_file i) <> []) /\ (forall g, In g [6] -> legal g /\ file_on (map_disk five_map) g = []) /\
  throughout (unmarked (s2b "x.do")) (map (command iter fuel (s2b "auto") (s2b "x.do")) (map fst undo_acts ++ undo false 0 (map_disk five_map) [5; 6] undo_items)) w /\
  session (map (command iter fuel (s2b "auto") (s2b "x.do")) (map fst undo_acts ++ undo false 0 (map_disk five_map) [5; 6] undo_items)) w =
    (v, [(0, []); (0, []); (0, padded filler)] ++ [(0, []); (0, []); (0, []); (0, [])]).
Proof.
  destruct (do_image _ _ five_floppy) as [c Hc].
  destruct (batch_session iter fuel five_map c undo_all _ five_store eq_refl five_floppy (proj1 naked_free) Hc undo_meant undo_other) as (T1 & v & E1).
  exists (NakedExProofs.two_files (s2b "x.do") c (s2b "f") filler), c, v. rewrite undo_commands.
  split; [reflexivity|]. split; [exact Hc|]. split; [exact (no_names _ five_floppy (proj1 naked_free))|]. split; [reflexivity|]. split; [reflexivity|].
  split; [|split; [|split; [reflexivity|split; [|split; [|split; [|split; [|split; [exact T1|]]]]]]]].
  - pose proof undo_meant as X. unfold undo_all in X. apply Forall_app in X. exact (proj1 X).
  - unfold undo_acts. repeat (apply Forall_cons; [cbn [fst snd kept_to]|]); [| | |apply Forall_nil]; [left; reflexivity|right; left; reflexivity|exact Logic.I].
  - apply NoDup_cons; [intros [H|[]]; discriminate H|apply NoDup_cons; [intros []|apply NoDup_nil]].
  - apply Forall_cons; [|apply Forall_nil]. split; cbn [it_name it_file it_way]; [exact (proj2 (proj2 names_three))|discriminate|discriminate|left; reflexivity].
  - intros i [<-|[]]. cbn [it_file]. rewrite undo_five. intros X. apply (f_equal zlen) in X. rewrite zlen_zeros, zlen_nil in X by lia. lia.
  - intros g [<-|[]]. assert (L : legal 6) by (unfold legal; lia). split; [exact L|]. destruct five_store as [X _]. specialize (X 6 L). cbn [store_of st_file one_store] in X. unfold file_on. rewrite (fl_map _ _ five_floppy). exact X.
  - rewrite E1. apply f_equal. apply undo_outputs.
Qed.
