(** PipeExProofs.v -- a concrete put (C96, C97). *)
From Coq Require Import ZifyBool ZifyNat.
From Verif Require Import GoBase GoLemmas TypesModel DiskModel DiskSpec DiskProofs DiskOpenProofs.
From Verif Require Import SupermonModel SupermonSpec SupermonTableSpec SupermonStoreSpec SupermonProofs SupermonOpProofs SupermonNameProofs SupermonFinalProofs SupermonStmtProofs.
From Verif Require Import ProdosModel CmdModel CmdSpec CmdProofs MainModel NakedCmdSpec NakedCmdProofs NakedOpenProofs NakedExProofs SessionProofs SessionExProofs SdSpec SdProofs SdStmtProofs PipeSpec PipeProofs.
Ltac Zify.zify_post_hook ::= Z.div_mod_to_equations.
Local Opaque zrange zeros sub.

Definition piped (c : bytes) : world :=
  World (fun n => if beq n (s2b "x.dsk") then NFile c true true else if beq n (s2b "f") then NFile (repeat 7 300) true true else NMissing)
    (Some c) [] None None.
Definition put_f iter fuel (img : bytes) : prog unit :=
  PutCmd_Run iter fuel (s2b "do") (s2b "auto") (s2b "B") false 0 img (s2b "DF06") (s2b "f").

Lemma dsk_plain : plain_image (s2b "x.dsk").
Proof. split; [discriminate|]. left. apply ext_is_dec_true; [ascii|reflexivity]. Qed.
Lemma put_f_runs iter fuel : exists c w' new, run (put_f iter fuel (s2b "x.dsk")) (piped c) = (w', Ok tt) /\ output (piped c) w' (s2b "x.dsk") new /\ zlen new = 143360.
Proof.
  destruct (do_image _ _ ex_floppy) as [c Hc]. exists c.
  assert (first_order (s2b "x.dsk") (s2b "do") (s2b "do")) as Hf by (exists []; constructor).
  destruct (open_naked iter fuel c (s2b "do") _ (s2b "x.dsk") (s2b "do") Hf Hc (blank_release c Hc)) as (op & Eo & En).
  destruct (NewOperator_ok _ _ (fl_len _ _ ex_floppy) En) as (Hok & Ed & Em & _). rewrite (fl_map _ _ ex_floppy) in Em.
  pose proof (numeric_parse (s2b "DF06") 6 ltac:(vm_compute; reflexivity) ltac:(lia)) as Hn.
  remember (repeat 7 300) as s eqn:Es.
  assert (Hne : s <> []) by (rewrite Es; discriminate).
  assert (Hns : nsec s = 2) by (rewrite Es; vm_compute; reflexivity).
  assert (HP : exists op' ex, PutFile (FI (Desc (s2b "DF06") [] 0 0 (zlen s) false FiletypeBinary) s 0) false op = (op', Ok ex)).
  { match goal with |- exists op' ex, PutFile ?i _ _ = _ => pose proof (PutFile_numeric i false op 6 Hok Hn Hne eq_refl eq_refl) as HP end.
    cbn [fi_data] in HP. rewrite HP. clear HP. unfold on_disk.
    assert (Hl6 : legal 6) by (unfold legal; lia).
    destruct (WriteFile_cases 6 s false (op_data op) (op_SM op) (ok_fl _ Hok) Hl6 Hne) as [(H & _)|[(_ & H & _)|(_ & _ & d' & sm' & E & _)]].
    - exfalso. rewrite Em, Hns in H. vm_compute in H. discriminate H.
    - exfalso. apply H. rewrite Em. vm_compute. reflexivity.
    - rewrite E. eexists _, _. reflexivity. }
  destruct HP as (op' & ex & EP).
  remember (piped c) as w eqn:Ew.
  assert (Hi : input w (s2b "x.dsk") c) by (right; split; [discriminate|]; exists true; rewrite Ew; reflexivity).
  assert (Hs : input w (s2b "f") s) by (right; split; [discriminate|]; exists true; rewrite Ew, Es; reflexivity).
  destruct (put_ok_run iter fuel (s2b "do") (s2b "auto") (s2b "B") false 0 (s2b "x.dsk") (s2b "DF06") (s2b "f") w s c op (s2b "do") op' ex
    Hi ltac:(discriminate) Hs Hne Eo ltac:(vm_compute; reflexivity) EP) as (w' & new & Er & Hout & Hnew).
  { rewrite Ew; reflexivity. } { rewrite Ew; reflexivity. }
  { right. split; [discriminate|]. split; [right; exists c, true; rewrite Ew; reflexivity|left; reflexivity]. }
  exists w', new. split; [exact Er|]. split; [exact Hout|]. destruct Hnew as [Hr _]. apply Hr.
Qed.

Lemma C96_ex iter fuel : exists c new w1 w2, let w := piped c in
  edits iter fuel (put_f iter fuel) (s2b "x.dsk") /\ w_stdin w = Some c /\ w_fs w (s2b "x.dsk") = NFile c true true /\
  main_run (put_f iter fuel (s2b "-")) w = (w1, 0) /\ main_run (put_f iter fuel (s2b "x.dsk")) w = (w2, 0) /\
  w_stdout w1 = new /\ holds w2 (s2b "x.dsk") new /\ zlen new = 143360.
Proof.
  destruct (put_f_runs iter fuel) as (c & w2 & new & E & Ho & Hl).
  assert (edits iter fuel (put_f iter fuel) (s2b "x.dsk")) as He by (apply ed_put; [apply dsk_plain|discriminate]).
  destruct (main_run (put_f iter fuel (s2b "-")) (piped c)) as [w1 s1] eqn:E1.
  assert (main_run (put_f iter fuel (s2b "x.dsk")) (piped c) = (w2, 0)) as E2 by (unfold main_run; rewrite E; reflexivity).
  destruct (C96_in_place_lemma iter fuel (put_f iter fuel) (s2b "x.dsk") (piped c) c w1 s1 w2 0 He eq_refl eq_refl eq_refl eq_refl E1 E2) as (-> & H & _).
  destruct (H eq_refl) as (c' & [(_ & _ & O1)|(X & _)] & [(X2 & _)|(_ & _ & O2 & _)]); [discriminate X2| |exfalso; apply X; reflexivity..].
  exists c, new, w1, w2. cbv zeta. split; [exact He|]. split; [reflexivity|]. split; [reflexivity|]. split; [exact E1|]. split; [exact E2|].
  destruct Ho as [(X & _)|(_ & _ & O3 & _)]; [discriminate X|]. split; [|split; [exact O3|exact Hl]].
  destruct O2 as (r & x & O2), O3 as (r' & x' & O3). rewrite O2 in O3. inversion O3. subst new. rewrite O1. reflexivity.
Qed.

Lemma C97_ex iter fuel : exists c w w' v',
  told iter fuel (put_f iter fuel (s2b "x.dsk")) [s2b "x.dsk"; s2b "f"] /\
  (forall n, In n [s2b "x.dsk"; s2b "f"] -> w_fs w n = w_fs (piped c) n) /\
  w_fs w (s2b "f2") <> w_fs (piped c) (s2b "f2") /\ w_stdin w <> w_stdin (piped c) /\
  main_run (put_f iter fuel (s2b "x.dsk")) w = (w', 0) /\ main_run (put_f iter fuel (s2b "x.dsk")) (piped c) = (v', 0).
Proof.
  destruct (put_f_runs iter fuel) as (c & w2 & new & E & Ho & Hl). exists c.
  remember (World (fun n => if beq n (s2b "f2") then NOther else w_fs (piped c) n) None [] None None) as w eqn:Ew. exists w.
  assert (told iter fuel (put_f iter fuel (s2b "x.dsk")) [s2b "x.dsk"; s2b "f"]) as Ht by apply to_put.
  assert (forall n, In n [s2b "x.dsk"; s2b "f"] -> w_fs w n = w_fs (piped c) n) as Hn.
  { rewrite Ew. intros n [<-|[<-|[]]]; reflexivity. }
  assert (main_run (put_f iter fuel (s2b "x.dsk")) (piped c) = (w2, 0)) as E2 by (unfold main_run; rewrite E; reflexivity).
  destruct (main_run (put_f iter fuel (s2b "x.dsk")) w) as [w' s'] eqn:E1. exists w', w2.
  destruct (C97_lemma iter fuel _ _ w (piped c) w' s' w2 0 Ht Hn) as (-> & _).
  { intros [X|[X|[]]]; discriminate X. } { rewrite Ew; reflexivity. } { rewrite Ew; reflexivity. } { exact E1. } { exact E2. }
  split; [exact Ht|]. split; [exact Hn|]. split; [rewrite Ew; cbn; discriminate|]. split; [rewrite Ew; discriminate|]. split; [reflexivity|exact E2].
Qed.

(** The file to put comes from a pipe. *)
Definition put_g iter fuel (src : bytes) : prog unit :=
  PutCmd_Run iter fuel (s2b "do") (s2b "auto") (s2b "B") false 0 (s2b "x.dsk") (s2b "DF06") src.
Lemma C96_input_ex iter fuel : exists w w1 w2, takes iter fuel (put_g iter fuel) (s2b "f") /\
  w_stdin w = Some (repeat 7 300) /\ readable w (s2b "f") (repeat 7 300) /\
  main_run (put_g iter fuel (s2b "-")) w = (w1, 0) /\ main_run (put_g iter fuel (s2b "f")) w = (w2, 0).
Proof.
  destruct (put_f_runs iter fuel) as (c & w2 & new & E & Ho & Hl).
  remember (World (w_fs (piped c)) (Some (repeat 7 300)) [] None None) as w eqn:Ew.
  assert (takes iter fuel (put_g iter fuel) (s2b "f")) as Ht by (apply tk_put; discriminate).
  assert (w_stdin w = Some (repeat 7 300)) as Hs by (rewrite Ew; reflexivity).
  assert (readable w (s2b "f") (repeat 7 300)) as Hr by (exists true; rewrite Ew; reflexivity).
  destruct (main_run (put_g iter fuel (s2b "f")) w) as [w3 s3] eqn:E3. destruct (main_run (put_g iter fuel (s2b "-")) w) as [w1 s1] eqn:E1.
  destruct (C97_lemma iter fuel (put_f iter fuel (s2b "x.dsk")) _ w (piped c) w3 s3 w2 0 ltac:(apply to_put)) as (-> & _).
  { intros n _. rewrite Ew. reflexivity. } { intros [X|[X|[]]]; discriminate X. } { rewrite Ew; reflexivity. } { rewrite Ew; reflexivity. }
  { exact E3. } { unfold main_run. rewrite E. reflexivity. }
  destruct (C96_input_lemma iter fuel _ _ w _ w1 s1 w3 0 Ht Hs Hr E1 E3) as (-> & _).
  exists w, w1, w3. split; [exact Ht|]. split; [exact Hs|]. split; [exact Hr|]. split; [exact E1|exact E3].
Qed.

(** A Standard Delivery disk goes to a pipe. *)
Definition mksd_f (img : bytes) : prog unit := SDCmd_Run (s2b "auto") img (s2b "f") 0x2000 0xFFFF.
Lemma C96_output_ex iter fuel : exists c w1 w2, let w := piped c in gives iter fuel mksd_f (s2b "x.dsk") true /\ can_output w (s2b "x.dsk") true /\
  main_run (mksd_f (s2b "-")) w = (w1, 0) /\ main_run (mksd_f (s2b "x.dsk")) w = (w2, 0).
Proof.
  destruct (C75_partial_lemma (s2b "auto") (s2b "x.dsk") (repeat 7 300) 0x2000 0xFFFF of_auto ltac:(lia) ltac:(lia)) as (_ & H & _).
  destruct H as [raw Hraw]; [lia|repeat split; vm_compute; discriminate|]. exists [].
  remember (piped []) as w eqn:Ew.
  assert (gives iter fuel mksd_f (s2b "x.dsk") true) as Hg.
  { apply gv_mksd; [discriminate|]. right. intro H. apply ext_po in H. vm_compute in H. discriminate H. }
  assert (can_output w (s2b "x.dsk") true) as Hc.
  { right. split; [discriminate|]. split; [right; exists [], true; rewrite Ew; reflexivity|left; reflexivity]. }
  destruct (main_run (mksd_f (s2b "-")) w) as [w1 s1] eqn:E1. destruct (main_run (mksd_f (s2b "x.dsk")) w) as [w2 s2] eqn:E2.
  destruct (C96_output_lemma iter fuel mksd_f (s2b "x.dsk") true w w1 s1 w2 s2 Hg) as (-> & _); [rewrite Ew; reflexivity|rewrite Ew; reflexivity|exact Hc|exact E1|exact E2|].
  assert (s2 = 0) as ->.
  { unfold main_run, mksd_f, SDCmd_Run in E2. rewrite run_pbind in E2.
    rewrite (contents_file w (s2b "f") (repeat 7 300)) in E2; [|exists true; rewrite Ew; reflexivity|discriminate].
    rewrite run_pbind, Hraw in E2. cbn [run plift] in E2. unfold WriteOutput in E2. rewrite (beq_dash (s2b "x.dsk")) in E2 by discriminate. cbn [run] in E2.
    unfold sys_write in E2. rewrite Ew in E2. cbn [piped w_fs w_room] in E2. rewrite beq_refl in E2. cbn [can_write fits run main_status] in E2. inversion E2. reflexivity. }
  exists w1, w2. split; [exact Hg|]. split; [exact Hc|]. split; [exact E1|exact E2].
Qed.
