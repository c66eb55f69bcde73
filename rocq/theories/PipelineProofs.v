(** PipelineProofs.v -- edits of an image in a pipe. *)
From Coq Require Import ZifyBool ZifyNat.
From Verif Require Import GoBase GoLemmas TypesModel DiskModel DiskSpec ProdosModel CmdModel CmdSpec CmdProofs MainModel SessionSpec PipeSpec PipeProofs PipelineSpec.
Ltac Zify.zify_post_hook ::= Z.div_mod_to_equations.
Local Opaque zrange zeros sub.

(** Programs keep the mode of a file and the space left. *)
Lemma run_keeps {A} (p : prog A) n : forall w c, w_fs w n = NFile c true true -> w_room w = None -> w_outroom w = None ->
  (exists c', w_fs (fst (run p w)) n = NFile c' true true) /\ w_room (fst (run p w)) = None /\ w_outroom (fst (run p w)) = None.
Proof.
  induction p as [r|m k IH|k IH|m k IH|m x k IH|x k IH]; intros w c H Hr Ho; cbn [run].
  - cbn [fst]. split; [exists c; exact H|]. split; assumption.
  - apply (IH _ w c H Hr Ho).
  - unfold sys_stdin. destruct (w_stdin w) as [s|]; [apply (IH _ (no_stdin w) c H Hr Ho)|apply (IH _ w c H Hr Ho)].
  - apply (IH _ w c H Hr Ho).
  - unfold sys_write. rewrite Hr. cbn [fits]. destruct (can_write (w_fs w m)); [|apply (IH _ w c H Hr Ho)].
    destruct (beq n m) eqn:E.
    + apply (IH _ (set_fs w m (written (w_fs w m) x)) x); [|exact Hr|exact Ho]. cbn [w_fs set_fs]. rewrite E. apply beq_eq in E. subst m. rewrite H. reflexivity.
    + apply (IH _ (set_fs w m (written (w_fs w m) x)) c); [|exact Hr|exact Ho]. cbn [w_fs set_fs]. rewrite E. exact H.
  - unfold sys_stdout. rewrite Ho. cbn [fits]. apply (IH _ (add_out w x) c H Hr Ho).
Qed.
Lemma run_room {A} (p : prog A) : forall w, w_room w = None -> w_outroom w = None -> w_room (fst (run p w)) = None /\ w_outroom (fst (run p w)) = None.
Proof.
  induction p as [r|m k IH|k IH|m k IH|m x k IH|x k IH]; intros w Hr Ho; cbn [run].
  - split; assumption.
  - apply (IH _ w Hr Ho).
  - unfold sys_stdin. destruct (w_stdin w) as [s|]; [apply (IH _ (no_stdin w) Hr Ho)|apply (IH _ w Hr Ho)].
  - apply (IH _ w Hr Ho).
  - unfold sys_write. rewrite Hr. cbn [fits]. destruct (can_write (w_fs w m)); [apply (IH _ (set_fs w m (written (w_fs w m) x)) Hr Ho)|apply (IH _ w Hr Ho)].
  - unfold sys_stdout. rewrite Ho. cbn [fits]. apply (IH _ (add_out w x) Hr Ho).
Qed.
Lemma main_fst p w w' s : main_run p w = (w', s) -> w' = fst (run p w).
Proof. unfold main_run. destruct (run p w) as [v [[]|e|]]; intros H; injection H as <- _; reflexivity. Qed.

Section Pipes.
  Context (iter : list (Z * Subdirectory) -> list (Z * Subdirectory)) (fuel : nat) (n : bytes).
  (** An edit whose other file, if it has one, is not [n]. *)
  Definition good (P : bytes -> prog unit) : Prop := edits iter fuel P n /\ exists l, told iter fuel (P (s2b "-")) l /\ ~ In n l.
  Lemma edits_told P : edits iter fuel P n -> n <> s2b "-" /\ exists l, told iter fuel (P n) l /\ ~ In (s2b "-") l.
  Proof.
    intros H. destruct H as [order system force name n' [Hn _]|order system ft ow addr target source n' [Hn _] Hs|order name addr start n' [Hn _]|a b ow n' Hn _]; split; try exact Hn.
    - exists [n']. split; [constructor|]. intros [X|[]]. exact (Hn X).
    - exists [n'; source]. split; [constructor|]. intros [X|[X|[]]]; [exact (Hn X)|exact (Hs X)].
    - exists [n']. split; [constructor|]. intros [X|[]]. exact (Hn X).
    - exists [n']. split; [constructor|]. intros [X|[]]. exact (Hn X).
  Qed.
  (** One command in place and the same in a pipe. *)
  Lemma stage_step P w v c w1 s1 v1 s2 : good P -> w_room w = None -> w_outroom w = None -> w_room v = None -> w_outroom v = None ->
    w_fs w n = NFile c true true -> (forall m, m <> n -> w_fs v m = w_fs w m) ->
    main_run (P n) (quiet w) = (w1, s1) -> stage P v c = (v1, s2) ->
    s1 = s2 /\ w_stdout w1 = [] /\ (forall m, m <> n -> w_fs w1 m = w_fs w m) /\ same_files v v1 /\
    (s1 = 0 -> w_fs w1 n = NFile (w_stdout v1) true true) /\ (s1 <> 0 -> w_fs w1 n = NFile c true true /\ w_stdout v1 = []) /\
    w_room w1 = None /\ w_outroom w1 = None /\ w_room v1 = None /\ w_outroom v1 = None.
  Proof.
    intros [He (l & Ht & Hl)] Hr Ho Hr' Ho' Hf Hv E1 E2. unfold stage in E2. rewrite Hr', Ho' in E2.
    destruct (edits_told P He) as (Hn & l' & Ht' & Hl').
    remember (World (w_fs w) (Some c) [] None None) as u eqn:Eu.
    destruct (main_run (P (s2b "-")) u) as [u1 t1] eqn:F1. destruct (main_run (P n) u) as [u2 t2] eqn:F2.
    destruct (C96_in_place_lemma iter fuel P n u c u1 t1 u2 t2 He) as (-> & G0 & G1); try (rewrite Eu; reflexivity); try assumption.
    { rewrite Eu. exact Hf. }
    assert (Ku : forall m, w_fs u m = w_fs w m) by (rewrite Eu; reflexivity). assert (Su : w_stdout u = []) by (rewrite Eu; reflexivity).
    assert (Iu : w_stdin u = Some c) by (rewrite Eu; reflexivity). assert (Ru : w_room u = None) by (rewrite Eu; reflexivity). assert (Ou : w_outroom u = None) by (rewrite Eu; reflexivity).
    destruct (C97_lemma iter fuel (P n) l' u (quiet w) u2 t2 w1 s1 Ht' (fun m _ => Ku m) (fun X => False_ind _ (Hl' X)) (eq_trans Ru (eq_sym Hr)) (eq_trans Ou (eq_sym Ho)) F2 E1) as (A1 & (o1 & A2 & A2') & A3 & A4).
    assert (Kv : forall m, In m l -> w_fs u m = w_fs (World (w_fs v) (Some c) [] None None) m).
    { intros m Hm. rewrite Ku. cbn [w_fs]. symmetry. apply Hv. intros ->. exact (Hl Hm). }
    destruct (C97_lemma iter fuel (P (s2b "-")) l u (World (w_fs v) (Some c) [] None None) u1 t2 v1 s2 Ht Kv (fun _ => Iu) Ru Ou F1 E2) as (B1 & (o2 & B2 & B2') & B3 & B4).
    cbn [w_fs quiet w_stdout] in *. subst t2 s2.
    rewrite Su in A2, B2. cbn [app] in A2, A2', B2, B2'.
    assert (Q1 : w_room w1 = None /\ w_outroom w1 = None) by (rewrite (main_fst _ _ _ _ E1); apply run_room; assumption).
    assert (Q2 : w_room v1 = None /\ w_outroom v1 = None) by (rewrite (main_fst _ _ _ _ E2); apply run_room; reflexivity).
    destruct (run_keeps (P n) n (quiet w) c Hf Hr Ho) as ((c1 & K) & _). rewrite <- (main_fst _ _ _ _ E1) in K.
    assert (In_dec : forall m (L : list bytes), In m L \/ ~ In m L).
    { intros m L. destruct (existsb (beq m) L) eqn:X; [left; apply existsb_exists in X as (y & Hy & Ey); apply beq_eq in Ey; subst y; exact Hy|right; intros Hy]. 
      assert (existsb (beq m) L = true) as Z0 by (apply existsb_exists; exists m; split; [exact Hy|apply beq_eq; reflexivity]). congruence. }
    assert (Wu : forall m, w_fs w1 m = w_fs u2 m).
    { intros m. destruct (In_dec m l') as [X|X]; [symmetry; exact (A3 m X)|]. destruct (A4 m X) as [Y1 Y2]. rewrite Y1, Y2, Ku. reflexivity. }
    assert (SV : same_files v v1).
    { intros m. destruct (In_dec m l) as [X|X]; [|exact (proj2 (B4 m X))]. rewrite <- (B3 m X).
      assert (m <> n) as Hm by (intros ->; exact (Hl X)). rewrite (Hv m Hm), <- (Ku m).
      destruct (Z.eq_dec s1 0) as [Es|Es]; [destruct (G0 Es) as (c' & [(_ & S & _)|(Y & _)] & _); [apply S|contradiction Y; reflexivity]|destruct (G1 Es) as (S & _); apply S]. }
    split; [reflexivity|]. destruct (Z.eq_dec s1 0) as [Es|Es].
    - destruct (G0 Es) as (c' & [(_ & S & O1)|(Y & _)] & [(Y2 & _)|(_ & S2 & (r & x & O2) & O3)]); [contradiction (Hn Y2)| |contradiction Y; reflexivity..].
      rewrite Su in O1, O3. cbn [app] in O1. split; [congruence|]. split; [intros m Hm; rewrite Wu, (S2 m Hm), Ku; reflexivity|]. split; [exact SV|]. split; [|split; [intros X; contradiction|tauto]].
      intros _. rewrite (Wu n) in K |- *. rewrite O2 in K |- *. injection K as -> -> ->. congruence.
    - destruct (G1 Es) as (S & O1 & S2 & O2). rewrite Su in O1, O2. split; [congruence|]. split; [intros m Hm; rewrite Wu, (S2 m), Ku; reflexivity|]. split; [exact SV|]. split; [intros X; contradiction|].
      split; [|tauto]. intros _. split; [rewrite Wu, (S2 n), Ku; exact Hf|congruence].
  Qed.
  Lemma open_empty fs order system : exists w1 e, run (OpenFilename iter fuel (s2b "-") order system) (World fs (Some []) [] None None) = (w1, Err e).
  Proof. eexists _, _. reflexivity. Qed.
  (** Nothing is no image. *)
  Lemma stage_empty P v : edits iter fuel P n -> w_room v = None -> w_outroom v = None -> snd (stage P v []) <> 0.
  Proof.
    intros H Hr Ho. unfold stage. rewrite Hr, Ho.
    destruct H as [order system force name n' _|order system ft ow addr target source n' _ Hs|order name addr start n' _|a b ow n' _ _]; cbv beta; unfold main_run.
    - unfold DeleteCmd_Run. rewrite run_pbind. destruct (open_empty (w_fs v) order system) as (w1 & e & E). match goal with |- context [run (OpenFilename ?a ?b ?c ?d ?f) ?W] => change (run (OpenFilename a b c d f) W) with (run (OpenFilename iter fuel (s2b "-") order system) (World (w_fs v) (Some []) [] None None)) end. rewrite E. discriminate.
    - unfold PutCmd_Run. destruct (beq (s2b "-") dash && beq source dash); [discriminate|]. rewrite run_pbind. destruct (open_empty (w_fs v) order system) as (w1 & e & E). match goal with |- context [run (OpenFilename ?a ?b ?c ?d ?f) ?W] => change (run (OpenFilename a b c d f) W) with (run (OpenFilename iter fuel (s2b "-") order system) (World (w_fs v) (Some []) [] None None)) end. rewrite E. discriminate.
    - unfold MkHelloCmd_Run. cbv zeta. destruct (negb _); [discriminate|]. destruct (_ <? addr); [discriminate|]. rewrite run_pbind. destruct (open_empty (w_fs v) order (s2b "auto")) as (w1 & e & E). match goal with |- context [run (OpenFilename ?a ?b ?c ?d ?f) ?W] => change (run (OpenFilename a b c d f) W) with (run (OpenFilename iter fuel (s2b "-") order (s2b "auto")) (World (w_fs v) (Some []) [] None None)) end. rewrite E. discriminate.
    - unfold ReorderCmd_Run. rewrite run_pbind. unfold plift at 1. cbn [run]. destruct (getOrders (s2b "-") a [] b) as [[x y]|e|]; [|discriminate|discriminate].
      rewrite run_pbind. assert (exists w1, run (FileContentsOrStdIn (s2b "-")) (World (w_fs v) (Some []) [] None None) = (w1, Ok [])) as [w1 E] by (eexists; reflexivity).
      match goal with |- context [run (FileContentsOrStdIn ?c) ?W] => change (run (FileContentsOrStdIn c) W) with (run (FileContentsOrStdIn (s2b "-")) (World (w_fs v) (Some []) [] None None)) end. rewrite E.
      destruct (LogicalToPhysicalByName x) as [t|]; [|discriminate]. destruct (PhysicalToLogicalByName y) as [t'|]; [|discriminate]. rewrite run_pbind. unfold plift at 1. cbn [run]. cbn. discriminate.
  Qed.
  (** A stage by itself. *)
  Lemma stage_alone P v c v1 s : good P -> w_room v = None -> w_outroom v = None -> stage P v c = (v1, s) ->
    same_files v v1 /\ (s <> 0 -> w_stdout v1 = []) /\ w_room v1 = None /\ w_outroom v1 = None.
  Proof.
    intros G Hr Ho E. remember (World (fun m => if beq m n then NFile c true true else w_fs v m) None [] None None) as w eqn:Ew.
    assert (Rw : w_room w = None) by (rewrite Ew; reflexivity). assert (Ow : w_outroom w = None) by (rewrite Ew; reflexivity).
    assert (Fw : w_fs w n = NFile c true true). { rewrite Ew. cbn [w_fs]. assert (beq n n = true) as -> by (apply beq_eq; reflexivity). reflexivity. }
    assert (Vw : forall m, m <> n -> w_fs v m = w_fs w m). { intros m Hm. rewrite Ew. cbn [w_fs]. apply beq_neq in Hm. rewrite Hm. reflexivity. }
    destruct (main_run (P n) (quiet w)) as [w1 s1] eqn:E1.
    destruct (stage_step P w v c w1 s1 v1 s G Rw Ow Hr Ho Fw Vw E1 E) as (<- & _ & _ & S & _ & X & _ & _ & Q1 & Q2).
    split; [exact S|]. split; [intros Hs; exact (proj2 (X Hs))|]. split; assumption.
  Qed.
  Lemma pipe_alone Ps : Forall good Ps -> forall v c v' l out, w_room v = None -> w_outroom v = None -> pipeline Ps v c = (v', l, out) ->
    same_files v v' /\ (c = [] -> out = []).
  Proof.
    induction 1 as [|P rest G _ IH]; intros v c v' l out Hr Ho E; cbn [pipeline] in E.
    - injection E as <- _ <-. split; [intros m; reflexivity|intros X; exact X].
    - destruct (stage P v c) as [v1 s] eqn:Es. destruct (pipeline rest v1 (w_stdout v1)) as [[v2 l2] out2] eqn:Ep. injection E as <- _ <-.
      destruct (stage_alone P v c v1 s G Hr Ho Es) as (S & X & Q1 & Q2). destruct (IH v1 (w_stdout v1) v2 l2 out2 Q1 Q2 Ep) as [S2 N]. split.
      + intros m. rewrite (S2 m). apply S.
      + intros ->. apply N, X. pose proof (stage_empty P v (proj1 G) Hr Ho) as Y. rewrite Es in Y. exact Y.
  Qed.
  Lemma session_alone Ps : Forall good Ps -> forall w c w' l, w_room w = None -> w_outroom w = None -> w_fs w n = NFile c true true ->
    session (map (fun P => P n) Ps) w = (w', l) -> forall m, m <> n -> w_fs w' m = w_fs w m.
  Proof.
    induction 1 as [|P rest G _ IH]; intros w c w' l Hr Ho Hf E m Hm; cbn [map session] in E.
    - injection E as <- _. reflexivity.
    - destruct (main_run (P n) (quiet w)) as [w1 s1] eqn:E1. destruct (session (map (fun P => P n) rest) w1) as [w2 l2] eqn:E2. injection E as <- _.
      destruct (stage P w c) as [v1 s2] eqn:Es. destruct (stage_step P w w c w1 s1 v1 s2 G Hr Ho Hr Ho Hf (fun _ _ => eq_refl) E1 Es) as (_ & _ & F & _ & _ & _ & Q1 & Q2 & _).
      destruct (run_keeps (P n) n (quiet w) c Hf Hr Ho) as ((c1 & K) & _). rewrite <- (main_fst _ _ _ _ E1) in K.
      rewrite (IH w1 c1 w2 l2 Q1 Q2 K E2 m Hm). apply F, Hm.
  Qed.
  Lemma pipeline_gen Ps : Forall good Ps -> forall w v c w' l v' sts out, w_room w = None -> w_outroom w = None -> w_room v = None -> w_outroom v = None ->
    w_fs w n = NFile c true true -> (forall m, m <> n -> w_fs v m = w_fs w m) ->
    session (map (fun P => P n) Ps) w = (w', l) -> pipeline Ps v c = (v', sts, out) ->
    alike_to_failure sts l /\ (Forall (eq 0) sts -> w_fs w' n = NFile out true true) /\ (~ Forall (eq 0) sts -> out = []).
  Proof.
    induction 1 as [|P rest G GR IH]; intros w v c w' l v' sts out Hr Ho Hr' Ho' Hf Hv E E'; cbn [map session pipeline] in E, E'.
    - injection E as <- <-. injection E' as _ <- <-. split; [constructor|]. split; [intros _; exact Hf|intros X; contradiction X; constructor].
    - destruct (main_run (P n) (quiet w)) as [w1 s1] eqn:E1. destruct (session (map (fun P => P n) rest) w1) as [w2 l2] eqn:E2. injection E as <- <-.
      destruct (stage P v c) as [v1 s2] eqn:Es. destruct (pipeline rest v1 (w_stdout v1)) as [[v2 sts2] out2] eqn:Ep. injection E' as _ <- <-.
      destruct (stage_step P w v c w1 s1 v1 s2 G Hr Ho Hr' Ho' Hf Hv E1 Es) as (<- & Hout & F & S & Y0 & Y1 & Q1 & Q2 & Q3 & Q4). rewrite Hout.
      destruct (Z.eq_dec s1 0) as [->|Hs].
      + assert (Hv1 : forall m, m <> n -> w_fs v1 m = w_fs w1 m) by (intros m Hm; rewrite (S m), (F m Hm); apply Hv, Hm).
        destruct (IH w1 v1 (w_stdout v1) w2 l2 v2 sts2 out2 Q1 Q2 Q3 Q4 (Y0 eq_refl) Hv1 E2 Ep) as (A & B & C). split; [constructor; exact A|]. split.
        * intros X. inversion X; subst. apply B. assumption.
        * intros X. apply C. intros Y. apply X. constructor; [reflexivity|exact Y].
      + split; [constructor; exact Hs|]. split; [intros X; inversion X; subst; contradiction Hs; reflexivity|]. intros _.
        apply (proj2 (pipe_alone rest GR v1 _ v2 sts2 out2 Q3 Q4 Ep)). exact (proj2 (Y1 Hs)).
  Qed.
End Pipes.
Lemma pipeline_lemma iter fuel n Ps w c w1 outcomes w2 sts out :
  Forall (fun P => edits iter fuel P n /\ exists l, told iter fuel (P (s2b "-")) l /\ ~ In n l) Ps ->
  w_room w = None -> w_outroom w = None -> w_fs w n = NFile c true true ->
  session (map (fun P => P n) Ps) w = (w1, outcomes) -> pipeline Ps w c = (w2, sts, out) ->
  alike_to_failure sts outcomes /\ same_files w w2 /\ same_files_but w w1 n /\
  (Forall (eq 0) sts -> w_fs w1 n = NFile out true true) /\ (~ Forall (eq 0) sts -> out = []).
Proof.
  intros G Hr Ho Hf E E'. destruct (pipeline_gen iter fuel n Ps G w w c w1 outcomes w2 sts out Hr Ho Hr Ho Hf (fun _ _ => eq_refl) E E') as (A & B & C).
  split; [exact A|]. split; [exact (proj1 (pipe_alone iter fuel n Ps G w c w2 sts out Hr Ho E'))|]. split; [|split; assumption].
  intros m Hm. exact (session_alone iter fuel n Ps G w c w1 outcomes Hr Ho Hf E m Hm).
Qed.
