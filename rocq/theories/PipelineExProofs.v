(** PipelineExProofs.v -- a put and a reorder in a pipe (C130). *)
From Coq Require Import ZifyBool ZifyNat.
From Verif Require Import GoBase GoLemmas TypesModel DiskModel DiskSpec DiskProofs DiskOpenProofs.
From Verif Require Import ProdosModel CmdModel CmdSpec CmdProofs MainModel SessionSpec PipeSpec PipeProofs PipeExProofs PipelineSpec PipelineProofs.
Ltac Zify.zify_post_hook ::= Z.div_mod_to_equations.
Local Opaque zrange zeros sub.

Definition turn (img : bytes) : prog unit := ReorderCmd_Run (s2b "do") (s2b "po") false img [].
Lemma turn_runs fs c : zlen c = 143360 -> exists v out, main_run (turn (s2b "-")) (World fs (Some c) [] None None) = (v, 0) /\ w_stdout v = out /\ zlen out = 143360 /\ w_room v = None /\ w_outroom v = None.
Proof.
  intros L. destruct (Swizzle_ok c (orNil (LogicalToPhysicalByName (s2b "do"))) L) as (r & E & Lr & _).
  { apply validateOrder_ok. vm_compute. reflexivity. }
  destruct (Swizzle_ok r (orNil (PhysicalToLogicalByName (s2b "po"))) Lr) as (r2 & E2 & Lr2 & _).
  { apply validateOrder_ok. vm_compute. reflexivity. }
  exists (World fs (Some []) ([] ++ r2) None None), r2. split; [|split; [reflexivity|split; [exact Lr2|split; reflexivity]]].
  unfold main_run, turn, ReorderCmd_Run. rewrite run_pbind. unfold plift at 1. cbn [run].
  assert (getOrders (s2b "-") (s2b "do") [] (s2b "po") = Ok (s2b "do", s2b "po")) as -> by reflexivity.
  rewrite run_pbind. assert (run (FileContentsOrStdIn (s2b "-")) (World fs (Some c) [] None None) = (World fs (Some []) [] None None, Ok c)) as F by reflexivity. 
  match goal with |- context [run (FileContentsOrStdIn ?n) ?W] => change (run (FileContentsOrStdIn n) W) with (run (FileContentsOrStdIn (s2b "-")) (World fs (Some c) [] None None)) end. rewrite F.
  unfold orNil in E, E2. destruct (LogicalToPhysicalByName (s2b "do")) as [a|] eqn:Ea; [|discriminate Ea]. destruct (PhysicalToLogicalByName (s2b "po")) as [b|] eqn:Eb; [|discriminate Eb].
  rewrite run_pbind. unfold plift at 1. cbn [run]. rewrite E. rewrite run_pbind. unfold plift at 1. cbn [run]. rewrite E2. reflexivity.
Qed.
Lemma turn_edits iter fuel : edits iter fuel turn (s2b "x.dsk").
Proof. apply ed_reorder; [discriminate|]. left. discriminate. Qed.
Lemma pipeline_example iter fuel : exists c w2 out, let w := piped c in let Ps := [put_f iter fuel; turn] in
  Forall (fun P => edits iter fuel P (s2b "x.dsk") /\ exists l, told iter fuel (P (s2b "-")) l /\ ~ In (s2b "x.dsk") l) Ps /\
  w_room w = None /\ w_outroom w = None /\ w_fs w (s2b "x.dsk") = NFile c true true /\
  pipeline Ps w c = (w2, [0; 0], out) /\ zlen out = 143360.
Proof.
  destruct (C96_ex iter fuel) as (c & new & v1 & w2' & H). cbv zeta in H. destruct H as (He & _ & _ & E1 & _ & Hn & _ & Hl).
  assert (Q : w_room v1 = None /\ w_outroom v1 = None) by (rewrite (main_fst _ _ _ _ E1); apply run_room; reflexivity). destruct Q as [Q1 Q2].
  destruct (turn_runs (w_fs v1) new Hl) as (v2 & out & E2 & Ho & Hlo & _).
  exists c, v2, out. cbv zeta. split; [|split; [reflexivity|split; [reflexivity|split; [reflexivity|split; [|exact Hlo]]]]].
  - constructor; [|constructor; [|constructor]].
    + split; [exact He|]. exists [s2b "-"; s2b "f"]. split; [constructor|]. intros [X|[X|[]]]; discriminate X.
    + split; [apply turn_edits|]. exists [s2b "-"]. split; [constructor|]. intros [X|[]]; discriminate X.
  - cbn [pipeline]. unfold stage at 1. change (World (w_fs (piped c)) (Some c) [] (w_room (piped c)) (w_outroom (piped c))) with (piped c). rewrite E1. unfold stage. rewrite Q1, Q2, Hn.
    match type of E2 with ?X = _ => match goal with |- context [main_run ?p ?W] => change (main_run p W) with X end end. rewrite E2, Ho. reflexivity.
Qed.
