(** CmdProofs.v -- lemmas about the command layer. *)
From Verif Require Import GoBase GoLemmas TypesModel DiskModel DiskSpec DiskProofs DiskOpenProofs.
From Verif Require Import SupermonModel Dos3Model ProdosModel BasicModel CmdModel CmdSpec.
From Coq Require Import ZifyBool ZifyNat.
Ltac Zify.zify_post_hook ::= Z.div_mod_to_equations.
Local Opaque zrange zeros sub.

(** ** Programs *)
Lemma run_pbind {A B} (p : prog A) (f : A -> prog B) w :
  run (pbind p f) w = match run p w with
                      | (w1, Ok a) => run (f a) w1
                      | (w1, Err e) => (w1, Err e)
                      | (w1, Panic) => (w1, Panic)
                      end.
Proof.
  revert w. induction p as [r|n k IH|k IH|n k IH|n c k IH|c k IH]; intros w; cbn [pbind run].
  - destruct r; reflexivity.
  - apply IH.
  - destruct (sys_stdin w) as [w1 r]. apply IH.
  - apply IH.
  - destruct (sys_write w n c) as [w1 r]. apply IH.
  - destruct (sys_stdout w c) as [w1 r]. apply IH.
Qed.

(** A program that makes at most one write, to [t], as its last action, and returns its result. *)
Fixpoint final_write (t : bytes) (p : prog unit) : Prop :=
  match p with
  | PRet r => match r with Ok _ => False | _ => True end
  | PRead _ k => forall r, final_write t (k r)
  | PStdin k => forall r, final_write t (k r)
  | PStat _ k => forall r, final_write t (k r)
  | PWrite n _ k => n = t /\ t <> dash /\ forall r, k r = PRet r
  | PStdout _ k => t = dash /\ forall r, k r = PRet r
  end.
(** A program that writes nothing. *)
Fixpoint silent {A} (p : prog A) : Prop :=
  match p with
  | PRet _ => True
  | PRead _ k => forall r, silent (k r)
  | PStdin k => forall r, silent (k r)
  | PStat _ k => forall r, silent (k r)
  | _ => False
  end.
(** A program that writes to no file. *)
Fixpoint no_write {A} (p : prog A) : Prop :=
  match p with
  | PRet _ => True
  | PRead _ k => forall r, no_write (k r)
  | PStdin k => forall r, no_write (k r)
  | PStat _ k => forall r, no_write (k r)
  | PWrite _ _ _ => False
  | PStdout _ k => forall r, no_write (k r)
  end.

Lemma final_pbind {A} t (p : prog A) f : silent p -> (forall a, final_write t (f a)) -> final_write t (pbind p f).
Proof.
  intros Hp Hf. induction p as [r|n k IH|k IH|n k IH|n c k IH|c k IH]; cbn [pbind silent final_write] in *; try contradiction.
  - destruct r; [apply Hf|exact I|exact I].
  - intros r. apply IH, Hp.
  - intros r. apply IH, Hp.
  - intros r. apply IH, Hp.
Qed.
Lemma no_write_pbind {A B} (p : prog A) (f : A -> prog B) : silent p -> (forall a, no_write (f a)) -> no_write (pbind p f).
Proof.
  intros Hp Hf. induction p as [r|n k IH|k IH|n k IH|n c k IH|c k IH]; cbn [pbind silent no_write] in *; try contradiction.
  - destruct r; [apply Hf|exact I|exact I].
  - intros r. apply IH, Hp.
  - intros r. apply IH, Hp.
  - intros r. apply IH, Hp.
Qed.
Lemma silent_pbind {A B} (p : prog A) (f : A -> prog B) : silent p -> (forall a, silent (f a)) -> silent (pbind p f).
Proof.
  intros Hp Hf. induction p as [r|n k IH|k IH|n k IH|n c k IH|c k IH]; cbn [pbind silent] in *; try contradiction.
  - destruct r; [apply Hf|exact I|exact I].
  - intros r. apply IH, Hp.
  - intros r. apply IH, Hp.
  - intros r. apply IH, Hp.
Qed.

Lemma same_files_refl w : same_files w w. Proof. intros n. reflexivity. Qed.
Lemma set_fs_same w n x : w_fs (set_fs w n x) n = x.
Proof. cbn. rewrite beq_refl. reflexivity. Qed.
Lemma set_fs_other w n x m : m <> n -> w_fs (set_fs w n x) m = w_fs w m.
Proof. intros H. cbn. destruct (beq m n) eqn:E; [apply beq_eq in E; contradiction|reflexivity]. Qed.
Lemma written_holds old c : exists r wr, written old c = NFile c r wr.
Proof. destruct old; eexists; eexists; reflexivity. Qed.
Lemma prefix_sub c m : 0 <= m -> prefix (sub c 0 m) c.
Proof.
  intros H. exists (sub c m (zlen c)). destruct (Z.le_gt_cases m (zlen c)).
  - rewrite <- (sub_app_split c 0 m (zlen c)) by lia. symmetry. apply sub_full.
  - Local Transparent sub. unfold sub. cbn [Z.to_nat skipn].
    rewrite (firstn_all2 c) by (unfold zlen in *; lia).
    replace (Z.to_nat (zlen c - m)) with 0%nat by lia. cbn [firstn]. rewrite app_nil_r. reflexivity.
    Local Opaque sub.
Qed.
Lemma prefix_cut room c : prefix (cut room c) c.
Proof.
  destruct room as [n|]; cbn [cut]; [apply prefix_sub; lia|].
  exists []. rewrite app_nil_r. reflexivity.
Qed.

Lemma sys_stdin_files w : same_files w (fst (sys_stdin w)) /\ w_stdout (fst (sys_stdin w)) = w_stdout w /\
  w_room (fst (sys_stdin w)) = w_room w.
Proof. unfold sys_stdin. destruct (w_stdin w); (split; [intros n; reflexivity|split; reflexivity]). Qed.

(** The outcome of a command with one final write. *)
Lemma final_run t (p : prog unit) : final_write t p -> forall w w' r, run p w = (w', r) ->
  (r = Ok tt -> exists c, output w w' t c) /\
  (forall e, r = Err e -> same_files w w' \/
     (t <> dash /\ same_files_but w w' t /\ exists c q, runs_full w c /\ prefix q c /\ holds w' t q)) /\
  (r = Panic -> same_files w w').
Proof.
  induction p as [r0|n k IH|k IH|n k IH|n c k IH|c k IH]; cbn [final_write]; intros Hf w w' r H; cbn [run] in H.
  - injection H as <- <-. split; [intros ->; contradiction|].
    split; [left; apply same_files_refl|]. intros _. apply same_files_refl.
  - exact (IH _ (Hf _) w w' r H).
  - destruct (sys_stdin_files w) as (Hs & Ho & Hr). destruct (sys_stdin w) as [w1 r1]. cbn [fst] in Hs, Ho, Hr.
    destruct (IH _ (Hf _) w1 w' r H) as (H1 & H2 & H3).
    assert (T : forall x, same_files w1 x -> same_files w x) by (intros x Hx m; rewrite Hx; apply Hs).
    assert (U : forall x, same_files_but w1 x t -> same_files_but w x t) by (intros x Hx m Hm; rewrite Hx by exact Hm; apply Hs).
    split; [|split].
    + intros E. destruct (H1 E) as [c [(G1 & G2 & G3)|(G1 & G2 & G3 & G4)]]; exists c.
      * left. split; [exact G1|]. split; [apply T; exact G2|congruence].
      * right. split; [exact G1|]. split; [apply U; exact G2|]. split; [exact G3|congruence].
    + intros e E. destruct (H2 e E) as [G|(G1 & G2 & c & q & (m & G3 & G3') & G4)]; [left; apply T; exact G|].
      right. split; [exact G1|]. split; [apply U; exact G2|]. exists c, q.
      split; [exists m; split; [congruence|exact G3']|exact G4].
    + intros E. apply T, H3, E.
  - exact (IH _ (Hf _) w w' r H).
  - destruct Hf as (-> & Ht & Hk). unfold sys_write in H.
    destruct (can_write (w_fs w t)) eqn:Ec; [destruct (fits (w_room w) c) eqn:Ef|]; rewrite Hk in H; cbn [run] in H;
      injection H as <- <-.
    + split; [|split; [intros e E; discriminate|intros E; discriminate]].
      intros _. exists c. right. split; [exact Ht|]. split; [intros m Hm; apply set_fs_other; exact Hm|].
      split; [|reflexivity]. destruct (written_holds (w_fs w t) c) as (x & y & E). exists x, y. rewrite set_fs_same. exact E.
    + split; [intros E; discriminate|]. split; [|intros E; discriminate].
      intros e _. right. split; [exact Ht|]. split; [intros m Hm; apply set_fs_other; exact Hm|].
      exists c, (cut (w_room w) c). split; [|split; [apply prefix_cut|]].
      * destruct (w_room w) as [m|] eqn:Er; cbn [fits] in Ef; [|discriminate]. exists m. split; [exact Er|lia].
      * destruct (written_holds (w_fs w t) (cut (w_room w) c)) as (x & y & E). exists x, y. rewrite set_fs_same. exact E.
    + split; [intros E; discriminate|]. split; [|intros E; discriminate]. intros e _. left. apply same_files_refl.
  - destruct Hf as (-> & Hk). unfold sys_stdout in H.
    destruct (fits (w_outroom w) c); rewrite Hk in H; cbn [run] in H; injection H as <- <-.
    + split; [|split; [intros e E; discriminate|intros E; discriminate]].
      intros _. exists c. left. split; [reflexivity|]. split; [intros n; reflexivity|reflexivity].
    + split; [intros E; discriminate|]. split; [|intros E; discriminate]. intros e _. left. intros n. reflexivity.
Qed.

(** The worlds in which such a command can be killed. *)
Lemma final_crash t (p : prog unit) : final_write t p -> forall w w', crash p w w' ->
  same_files w w' \/
  (t <> dash /\ same_files_but w w' t /\
   exists c q w2, run p (unlimited w) = (w2, Ok tt) /\ holds w2 t c /\ prefix q c /\ holds w' t q).
Proof.
  induction p as [r0|n k IH|k IH|n k IH|n c k IH|c k IH]; cbn [final_write]; intros Hf w w' H; cbn [crash] in H;
    destruct H as [->|H]; try (left; apply same_files_refl).
  - contradiction.
  - destruct (IH _ (Hf _) w w' H) as [G|G]; [left; exact G|right; exact G].
  - assert (Es : sys_stdin (unlimited w) = (unlimited (fst (sys_stdin w)), snd (sys_stdin w))).
    { unfold sys_stdin, unlimited, no_stdin. cbn [w_stdin]. destruct (w_stdin w) eqn:Ew; cbn [fst snd w_fs w_stdout w_stdin]; rewrite ?Ew; reflexivity. }
    destruct (sys_stdin_files w) as (Hs & _ & Hr). destruct (sys_stdin w) as [w1 r1]. cbn [fst snd] in Hs, Hr, Es.
    destruct (IH _ (Hf _) w1 w' H) as [G|(G1 & G2 & c & q & w2 & G3 & G4 & G5 & G6)].
    + left. intros m. rewrite G. apply Hs.
    + right. split; [exact G1|]. split; [intros m Hm; rewrite G2 by exact Hm; apply Hs|].
      exists c, q, w2. cbn [run]. rewrite Es. split; [exact G3|]. split; [exact G4|]. split; [exact G5|exact G6].
  - destruct (IH _ (Hf _) w w' H) as [G|G]; [left; exact G|right; exact G].
  - destruct Hf as (-> & Ht & Hk).
    assert (F : can_write (w_fs w t) = true -> exists w2, run (PWrite t c k) (unlimited w) = (w2, Ok tt) /\ holds w2 t c).
    { intros Ec. cbn [run]. unfold sys_write. cbn [unlimited w_fs w_room fits]. rewrite Ec, Hk. eexists. split; [reflexivity|].
      destruct (written_holds (w_fs w t) c) as (x & y & E). exists x, y. rewrite set_fs_same. exact E. }
    destruct H as [(Ec & m & Hm & ->)|H].
    + right. split; [exact Ht|]. split; [intros n Hn; apply set_fs_other; exact Hn|].
      destruct (F Ec) as (w2 & F1 & F2). exists c, (sub c 0 m), w2. split; [exact F1|]. split; [exact F2|].
      split; [apply prefix_sub; lia|].
      destruct (written_holds (w_fs w t) (sub c 0 m)) as (x & y & E). exists x, y. rewrite set_fs_same. exact E.
    + unfold sys_write in H.
      destruct (can_write (w_fs w t)) eqn:Ec; [destruct (F eq_refl) as (w2 & F1 & F2); destruct (fits (w_room w) c) eqn:Ef|];
        rewrite Hk in H; cbn [crash] in H; (destruct H as [->|[]]).
      * right. split; [exact Ht|]. split; [intros n Hn; apply set_fs_other; exact Hn|].
        exists c, c, w2. split; [exact F1|]. split; [exact F2|].
        split; [exists []; rewrite app_nil_r; reflexivity|].
        destruct (written_holds (w_fs w t) c) as (x & y & E). exists x, y. rewrite set_fs_same. exact E.
      * right. split; [exact Ht|]. split; [intros n Hn; apply set_fs_other; exact Hn|].
        exists c, (cut (w_room w) c), w2. split; [exact F1|]. split; [exact F2|]. split; [apply prefix_cut|].
        destruct (written_holds (w_fs w t) (cut (w_room w) c)) as (x & y & E). exists x, y. rewrite set_fs_same. exact E.
      * left. apply same_files_refl.
  - destruct Hf as (-> & Hk). left. destruct H as [(m & _ & ->)|H]; [intros n; reflexivity|].
    unfold sys_stdout in H. destruct (fits (w_outroom w) c); rewrite Hk in H; cbn [crash] in H; (destruct H as [->|[]]); intros n; reflexivity.
Qed.

Lemma no_write_run {A} (p : prog A) : no_write p -> forall w w' r, run p w = (w', r) -> same_files w w'.
Proof.
  induction p as [r0|n k IH|k IH|n k IH|n c k IH|c k IH]; cbn [no_write]; intros Hf w w' r H; cbn [run] in H.
  - injection H as <- <-. apply same_files_refl.
  - exact (IH _ (Hf _) w w' r H).
  - destruct (sys_stdin_files w) as (Hs & _). destruct (sys_stdin w) as [w1 r1]. cbn [fst] in Hs.
    intros m. rewrite (IH _ (Hf _) w1 w' r H). apply Hs.
  - exact (IH _ (Hf _) w w' r H).
  - contradiction.
  - assert (Hs : same_files w (fst (sys_stdout w c))) by (unfold sys_stdout; destruct (fits _ _); intros m; reflexivity).
    destruct (sys_stdout w c) as [w1 r1]. cbn [fst] in Hs. intros m. rewrite (IH _ (Hf _) w1 w' r H). apply Hs.
Qed.
Lemma no_write_crash {A} (p : prog A) : no_write p -> forall w w', crash p w w' -> same_files w w'.
Proof.
  induction p as [r0|n k IH|k IH|n k IH|n c k IH|c k IH]; cbn [no_write]; intros Hf w w' H; cbn [crash] in H;
    destruct H as [->|H]; try apply same_files_refl.
  - contradiction.
  - exact (IH _ (Hf _) w w' H).
  - destruct (sys_stdin_files w) as (Hs & _). destruct (sys_stdin w) as [w1 r1]. cbn [fst] in Hs.
    intros m. rewrite (IH _ (Hf _) w1 w' H). apply Hs.
  - exact (IH _ (Hf _) w w' H).
  - contradiction.
  - destruct H as [(m & _ & ->)|H]; [intros n; reflexivity|].
    assert (Hs : same_files w (fst (sys_stdout w c))) by (unfold sys_stdout; destruct (fits _ _); intros m; reflexivity).
    destruct (sys_stdout w c) as [w1 r1]. cbn [fst] in Hs. intros m. rewrite (IH _ (Hf _) w1 w' H). apply Hs.
Qed.

(** ** The commands have these shapes *)
Lemma silent_ret {A} (r : res A) : silent (plift r). Proof. exact I. Qed.
Lemma silent_contents s : silent (FileContentsOrStdIn s).
Proof. unfold FileContentsOrStdIn. destruct (beq s dash); intros r; exact I. Qed.
Lemma silent_open iter fuel f o s : silent (OpenFilename iter fuel f o s).
Proof.
  unfold OpenFilename. destruct (beq f dash); (apply silent_pbind; [intros r; exact I|intros a; exact I]).
Qed.
Lemma final_output t c force : final_write t (WriteOutput t c force).
Proof.
  unfold WriteOutput. destruct (beq t dash) eqn:E.
  - apply beq_eq in E. subst. split; [reflexivity|]. intros r. reflexivity.
  - assert (t <> dash) by (intros ->; rewrite beq_refl in E; discriminate).
    destruct force; cbn [final_write]; [split; [reflexivity|split; [exact H|intros r; reflexivity]]|].
    intros [|]; cbn [negb]; [|exact I]. split; [reflexivity|split; [exact H|intros r; reflexivity]].
Qed.
Lemma final_writeback t op o ow : final_write t (WriteBack t op o ow).
Proof. unfold WriteBack. apply final_pbind; [exact I|]. intros c. apply final_output. Qed.

Lemma modifies_final iter fuel p t : modifies iter fuel p t -> final_write t p.
Proof.
  intros H. destruct H.
  - unfold DeleteCmd_Run. apply final_pbind; [apply silent_open|]. intros [op o].
    destruct (Op_Delete op name) as [op' r]. apply final_pbind; [exact I|]. intros b.
    destruct (negb b && negb f); [exact I|apply final_writeback].
  - unfold PutCmd_Run. destruct (beq img dash && beq source dash); [exact I|].
    apply final_pbind; [apply silent_open|]. intros [op o]. apply final_pbind; [apply silent_contents|]. intros c.
    apply final_pbind; [exact I|]. intros ty. cbv zeta. destruct (Op_PutFile _ _ _) as [op' r].
    apply final_pbind; [exact I|]. intros b. apply final_writeback.
  - unfold MkHelloCmd_Run. cbv zeta. destruct (negb _); [exact I|]. destruct (_ <? addr); [exact I|].
    apply final_pbind; [apply silent_open|]. intros [op o]. destruct op as [d|no|d]; try exact I.
    apply final_pbind; [exact I|]. intros [[a b] s]. destruct ((a =? 0) && (b =? 0)); [exact I|]. cbv zeta.
    destruct (Op_PutFile _ _ _) as [op' r]. apply final_pbind; [exact I|]. intros x. apply final_writeback.
  - unfold ReorderCmd_Run. apply final_pbind; [exact I|]. intros [f t]. apply final_pbind; [apply silent_contents|]. intros c.
    destruct (LogicalToPhysicalByName f); [|exact I]. destruct (PhysicalToLogicalByName t); [|exact I].
    apply final_pbind; [exact I|]. intros x. apply final_pbind; [exact I|]. intros y.
    unfold reorder_target. destruct newImg as [|z n]; cbn [beq]; apply final_output.
  - unfold SDCmd_Run. apply final_pbind; [apply silent_contents|]. intros c. apply final_pbind; [exact I|].
    intros x. apply final_output.
Qed.
Lemma reads_no_write iter fuel p : reads iter fuel p -> no_write p.
Proof.
  intros H. destruct H.
  - unfold LsCmd_Run. apply no_write_pbind; [apply silent_open|]. intros [op o]. destruct (_ && _); [exact I|].
    apply no_write_pbind; [exact I|]. intros l. induction l as [|a l IH]; [exact I|]. intros r. exact IH.
  - unfold DumpCmd_Run. apply no_write_pbind; [apply silent_open|]. intros [op o].
    apply no_write_pbind; [exact I|]. intros a r. exact I.
  - unfold DecodeCmd_Run. apply no_write_pbind; [apply silent_contents|]. intros c.
    apply no_write_pbind; [exact I|]. intros a r. exact I.
Qed.
