(** TreeExProofs.v -- a ProDOS floppy and a smaller .hdv volume with the same folders. *)
From Coq Require Import ZifyBool ZifyNat.
From Verif Require Import GoBase GoLemmas DiskModel DiskSpec DiskOpenProofs ProdosModel ProdosSpec ProdosStmtProofs CmdModel CmdSpec NakedCmdSpec DetectSpec DetectProofs TreeSpec.
From Verif Require RelocExProofs.
Local Opaque zrange zeros sub.

(** The names of [ex_vol] on 20 blocks: the volume directory is in block 2 alone, SUB in block 5 with both its
    entries, INNER in block 12; types and sizes differ. *)
Definition small_vol : bytes :=
  let d := zeros 10240 in
  let d := putb d 2 (ex_kb 0 0 0xF5 (s2b "OTHER") 0 6
    [ex_pd 0x15 (s2b "HELLO") 6 14 1 [5; 0; 0]; ex_pd 0xD3 (s2b "SUB") 0x0F 5 1 [0; 2; 0]; ex_pd 0x14 (s2b "DATA") 4 15 1 [7; 0; 0]]) in
  let d := putb d 5 (ex_kb 0 0 0xE3 (s2b "SUB") 0x75 2 [ex_pd 0x15 (s2b "NOTES") 4 16 1 [9; 0; 0]; ex_pd 0 (s2b "OLD") 4 17 1 [9; 0; 0]; ex_pd 0xD5 (s2b "INNER") 0x0F 12 1 [0; 2; 0]]) in
  putb d 12 (ex_kb 0 0 0xE5 (s2b "INNER") 0x75 5 [ex_pd 0x11 (s2b "X") 4 18 1 [1; 0; 0]]).
Definition small_tree : tree := Node 2 [] [Node 5 [] [Node 12 [] []]].
Lemma small_len : zlen small_vol = 10240.
Proof. vm_compute. reflexivity. Qed.
Lemma small_ok : well_formed small_vol small_tree.
Proof.
  assert (next_block small_vol 2 = 0) as N2 by (vm_compute; reflexivity). assert (next_block small_vol 5 = 0) as N5 by (vm_compute; reflexivity).
  assert (next_block small_vol 12 = 0) as N9 by (vm_compute; reflexivity).
  split; [byt | apply Z.leb_le; vm_compute; reflexivity | intros H; exfalso; revert H; apply Z.lt_nge; apply Z.ltb_lt; vm_compute; reflexivity | reflexivity | |].
  - apply tree_node; [split; [dev|]; rewrite N2; apply bchain_end | vm_compute; reflexivity | |].
    + intros s [<-|[]]. left. vm_compute. reflexivity.
    + intros s [<-|[]]. apply tree_node; [split; [dev|]; rewrite N5; apply bchain_end | vm_compute; reflexivity | |].
      * intros s [<-|[]]. left. vm_compute. reflexivity.
      * intros s [<-|[]]. apply tree_node; [split; [dev|]; rewrite N9; apply bchain_end | vm_compute; reflexivity | intros s [] | intros s []].
  - vm_compute. repeat constructor; cbn [In]; lia.
Qed.
Lemma small_same : same_tree ex_vol small_vol ex_tree small_tree.
Proof.
  apply same_node; [vm_compute; reflexivity|reflexivity|intros s s' [E|[]]; injection E as <- <-; vm_compute; reflexivity|].
  intros s s' [E|[]]; injection E as <- <-. apply same_node; [vm_compute; reflexivity|reflexivity|intros s s' [E|[]]; injection E as <- <-; vm_compute; reflexivity|].
  intros s s' [E|[]]; injection E as <- <-. apply same_node; [vm_compute; reflexivity|reflexivity|intros s s' []|intros s s' []].
Qed.
Lemma small_seen : seen_as (s2b "y.hdv") (s2b "auto") small_vol (s2b "prodos") small_vol (s2b "po").
Proof.
  apply sa_hdv; [rewrite small_len; lia|rewrite small_len; lia|apply ext_hdv; vm_compute; reflexivity|rewrite small_len; reflexivity|rewrite small_len; lia|left; reflexivity].
Qed.
Lemma small_names : map (fun x => (fst x, names_in small_vol (fst (snd x)) (snd (snd x)))) (paths small_vol [] small_tree) =
  [([], [s2b "HELLO"; s2b "SUB"; s2b "DATA"]); (s2b "SUB", [s2b "NOTES"; s2b "INNER"]); (s2b "SUB/INNER", [s2b "X"])].
Proof. vm_compute. reflexivity. Qed.
Lemma small_example : exists w w',
  seen_as (s2b "x.po") (s2b "auto") ex_vol (s2b "prodos") ex_vol (s2b "po") /\
  seen_as (s2b "y.hdv") (s2b "auto") small_vol (s2b "prodos") small_vol (s2b "po") /\
  well_formed ex_vol ex_tree /\ well_formed small_vol small_tree /\ same_tree ex_vol small_vol ex_tree small_tree /\ distinct_paths ex_vol ex_tree /\
  input w (s2b "x.po") ex_vol /\ input w' (s2b "y.hdv") small_vol /\ w_outroom w = None /\ w_outroom w' = None.
Proof.
  exists (one_file (s2b "x.po") ex_vol None), (one_file (s2b "y.hdv") small_vol None).
  split; [exact ex_seen_prodos|]. split; [exact small_seen|]. split; [exact ex_vol_ok|]. split; [exact small_ok|]. split; [exact small_same|].
  split; [exact (proj2 ex_vol_paths)|]. split; [apply RelocExProofs.one_file_input; discriminate|]. split; [apply RelocExProofs.one_file_input; discriminate|].
  split; unfold one_file; cbn [w_outroom]; reflexivity.
Qed.
Lemma plain_check d t : forallb (fun x => forallb (fun n => forallb (fun b => negb (b =? 10)) n) (names_in d (fst (snd x)) (snd (snd x)))) (paths d [] t) = true -> plain_names d t.
Proof.
  intros H p ns n (k & l & Hin & <-) Hn X. rewrite forallb_forall in H. specialize (H _ Hin). cbn [fst snd] in H. rewrite forallb_forall in H. specialize (H _ Hn).
  rewrite forallb_forall in H. specialize (H _ X). discriminate H.
Qed.
Lemma small_plain : distinct_paths small_vol small_tree /\ plain_names ex_vol ex_tree /\ plain_names small_vol small_tree.
Proof.
  split; [|split; apply plain_check; vm_compute; reflexivity]. unfold distinct_paths.
  assert (map fst (paths small_vol [] small_tree) = [[]; s2b "SUB"; s2b "SUB/INNER"]) as -> by (vm_compute; reflexivity).
  repeat constructor; cbn [In]; intros H; repeat destruct H as [H|H]; try contradiction; vm_compute in H; discriminate.
Qed.
