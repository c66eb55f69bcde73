(** ConcEndProofs.v -- proofs for C100: every execution comes to an end. *)
From Verif Require Import GoBase GoLemmas CmdModel CmdSpec MainModel ConcModel ConcSpec ConcProofs.
From Coq Require Import ZifyBool ZifyNat.
Local Opaque zrange zeros sub.

(** What is left to do, apart from the pieces that are still to be read. *)
Inductive left := LRun (p : prog unit) | LRead (k : res bytes -> prog unit) | LWrite (n : nat) (p : prog unit).
Inductive less : left -> left -> Prop :=
| le_read n k : less (LRead k) (LRun (PRead n k))
| le_read_fails n k r : less (LRun (k r)) (LRun (PRead n k))
| le_read_end k r : less (LRun (k r)) (LRead k)
| le_stdin k r : less (LRun (k r)) (LRun (PStdin k))
| le_stat n k r : less (LRun (k r)) (LRun (PStat n k))
| le_write_fails n c k r : less (LRun (k r)) (LRun (PWrite n c k))
| le_write n c k r m : less (LWrite m (k r)) (LRun (PWrite n c k))
| le_piece m m' p : (m' < m)%nat -> less (LWrite m' p) (LWrite m p)
| le_write_end m p : less (LRun p) (LWrite m p)
| le_stdout c k r : less (LRun (k r)) (LRun (PStdout c k)).
Lemma less_write p : Acc less (LRun p) -> forall m, Acc less (LWrite m p).
Proof. intros Hp m. induction m as [m IH] using (well_founded_induction Wf_nat.lt_wf). constructor. intros y Hy. inversion Hy; subst; [apply IH; assumption|exact Hp]. Qed.
Lemma less_run p : Acc less (LRun p).
Proof.
  induction p as [r|n k IH|k IH|n k IH|n c k IH|c k IH]; constructor; intros y Hy; inversion Hy; subst; try apply IH.
  - constructor. intros z Hz. inversion Hz; subst. apply IH.
  - apply less_write. apply IH.
Qed.
Lemma less_wf x : Acc less x.
Proof. destruct x as [p|k|n p]; [apply less_run| |apply less_write; apply less_run]. constructor. intros y Hy. inversion Hy; subst. apply less_run. Qed.

(** The same for a list in which one becomes less. *)
Inductive one_less : list left -> list left -> Prop :=
| ol_here x y l : less y x -> one_less (y :: l) (x :: l)
| ol_there x l l' : one_less l' l -> one_less (x :: l') (x :: l).
Lemma one_less_cons x : Acc less x -> forall l, Acc one_less l -> Acc one_less (x :: l).
Proof.
  intros Hx. induction Hx as [x _ IHx]. intros l Hl. induction Hl as [l Hl IHl]. constructor. intros y Hy. inversion Hy; subst.
  - apply IHx; [assumption|]. constructor. exact Hl.
  - apply IHl. assumption.
Qed.
Lemma one_less_wf l : Acc one_less l.
Proof. induction l as [|x l IH]; [constructor; intros y Hy; inversion Hy|apply one_less_cons; [apply less_wf|exact IH]]. Qed.
Lemma one_less_app l1 x y l2 : less y x -> one_less (l1 ++ y :: l2) (l1 ++ x :: l2).
Proof. intros H. induction l1 as [|z l1 IH]; [constructor; exact H|constructor; exact IH]. Qed.

Definition left_of (q : process) : left :=
  match q_state q with Running p => LRun p | Reading _ _ k => LRead k | Writing _ _ rest p => LWrite (length rest) p end.
(** The pieces that are still to be read. *)
Definition unread (fs : fsystem) (q : process) : nat :=
  match q_state q with
  | Reading n acc _ => match fs n with NFile c _ _ => Z.to_nat (zlen c - zlen acc) | _ => 0 end
  | _ => 0
  end%nat.
Definition all_unread (fs : fsystem) (qs : list process) : nat := fold_right (fun q s => (unread fs q + s)%nat) 0%nat qs.
Lemma all_unread_app fs l1 q l2 : all_unread fs (l1 ++ q :: l2) = (all_unread fs l1 + unread fs q + all_unread fs l2)%nat.
Proof. induction l1 as [|x l1 IH]; [reflexivity|]. cbn [app all_unread fold_right] in *. fold (all_unread fs (l1 ++ q :: l2)) (all_unread fs l1). rewrite IH. lia. Qed.

Section Room.
  Context (room : option Z).
  Lemma step_less fs q fs1 q1 : pstep room fs q fs1 q1 -> less (left_of q1) (left_of q) \/ fs1 = fs /\ left_of q1 = left_of q /\ (unread fs q1 < unread fs q)%nat.
  Proof.
    intros H. destruct H as [fs n k i o m c wr Hf|fs n k i o m e Hf|fs n acc k i o m c rd wr j Hf Hj Hc|fs n acc k i o m c rd wr Hf Hc|fs k i o m|fs n k i o m|fs n c k i o m Hf|fs n c k i o m Hf
      |fs n pos rest p i o m c rd wr j Hf Hj|fs n pos p i o m|fs c k i o m]; unfold left_of; cbn [q_state]; try (left; constructor).
    - right. split; [reflexivity|]. split; [reflexivity|]. unfold unread. cbn [q_state]. rewrite Hf, zlen_app. pose proof (zlen_nonneg acc). rewrite zlen_sub by lia. lia.
    - destruct i; left; constructor.
    - assert (zlen (sub rest j (zlen rest)) = zlen rest - j) as E by (rewrite zlen_sub; lia). unfold zlen in *. lia.
  Qed.
  Lemma moves_acc : forall l, Acc one_less l -> forall n fs qs, map left_of qs = l -> all_unread fs qs = n -> Acc (fun b a => moves room a b) (fs, qs).
  Proof.
    intros l Hl. induction Hl as [l _ IHl]. intros n. induction n as [n IHn] using (well_founded_induction Wf_nat.lt_wf). intros fs qs El En.
    constructor. intros b (l1 & q & l2 & fs1 & q1 & E & Hs & ->). cbn [fst snd] in E, Hs. subst qs.
    destruct (step_less _ _ _ _ Hs) as [H|(-> & H & Hu)].
    - eapply IHl; [|reflexivity|reflexivity]. rewrite <- El, !map_app. cbn [map]. apply one_less_app. exact H.
    - eapply IHn; [|rewrite <- El, !map_app; cbn [map]; rewrite H; reflexivity|reflexivity]. rewrite <- En, !all_unread_app. lia.
  Qed.
  Lemma moves_wf a : Acc (fun b a => moves room a b) a.
  Proof. destruct a as [fs qs]. eapply moves_acc; [apply one_less_wf|reflexivity|reflexivity]. Qed.

  (** A file that has been opened stays a file, so a process that has not ended can go on. *)
  Definition opened (fs : fsystem) (q : process) : Prop :=
    match q_state q with Running _ => True | Reading n _ _ | Writing n _ _ _ => exists c rd wr, fs n = NFile c rd wr end.
  Lemma stays fs fs1 q0 q1 n : pstep room fs q0 fs1 q1 -> (exists c rd wr, fs n = NFile c rd wr) -> exists c rd wr, fs1 n = NFile c rd wr.
  Proof.
    intros H (c0 & rd0 & wr0 & E). destruct H as [fs m k i o r c wr Hf|fs m k i o r e Hf|fs m acc k i o r c rd wr j Hf Hj Hc|fs m acc k i o r c rd wr Hf Hc|fs k i o r|fs m k i o r|fs m c k i o r Hf|fs m c k i o r Hf
      |fs m pos rest p i o r c rd wr j Hf Hj|fs m pos p i o r|fs c k i o r]; try (eexists _, _, _; exact E); unfold put_fs; destruct (beq n m) eqn:En; try (eexists _, _, _; exact E).
    - apply beq_eq in En. subst m. rewrite E. cbn [written]. eexists _, _, _. reflexivity.
    - eexists _, _, _. reflexivity.
  Qed.
  Lemma step_opened fs q fs1 q1 : pstep room fs q fs1 q1 -> opened fs q -> opened fs1 q1.
  Proof.
    intros H. destruct H as [fs m k i o r c wr Hf|fs m k i o r e Hf|fs m acc k i o r c rd wr j Hf Hj Hc|fs m acc k i o r c rd wr Hf Hc|fs k i o r|fs m k i o r|fs m c k i o r Hf|fs m c k i o r Hf
      |fs m pos rest p i o r c rd wr j Hf Hj|fs m pos p i o r|fs c k i o r]; unfold opened; cbn [q_state]; intros Ho; try exact I; try exact Ho.
    - eexists _, _, _. exact Hf.
    - destruct i; exact I.
    - unfold put_fs. rewrite beq_refl. destruct (fs m); cbn [written]; eexists _, _, _; reflexivity.
    - unfold put_fs. rewrite beq_refl. eexists _, _, _. reflexivity.
  Qed.
  Lemma execution_opened fs qs fs1 qs1 : execution room fs qs fs1 qs1 -> Forall (opened fs) qs -> Forall (opened fs1) qs1.
  Proof.
    intros H. induction H as [fs qs|fs l1 q l2 fs1 q1 fs2 qs Hs He IH]; intros Ho; [exact Ho|]. apply IH. apply Forall_app in Ho as [H1 H2]. inversion H2 as [|? ? Hq H3]; subst.
    assert (forall l, Forall (opened fs) l -> Forall (opened fs1) l) as X.
    { intros l. apply Forall_impl. intros x Hx. unfold opened in *. destruct (q_state x) as [p|n a k|n a b p]; [exact I| |]; (eapply stays; [exact Hs|exact Hx]). }
    apply Forall_app. split; [apply X; exact H1|]. constructor; [eapply step_opened; eassumption|apply X; exact H3].
  Qed.
  Lemma can_step fs q : opened fs q -> (exists s, ended q s) \/ exists fs1 q1, pstep room fs q fs1 q1.
  Proof.
    intros Ho. destruct q as [[p|n acc k|n pos rest p] i o m]; unfold opened in Ho; cbn [q_state] in Ho.
    - destruct p as [r|n k|k|n k|n c k|c k].
      + left. exists (main_status r). constructor.
      + right. destruct (fs n) as [| |c [|] wr|] eqn:E; [| |eexists _, _; eapply st_read_open; exact E|..]; (eexists _, _; apply st_read_fails; rewrite E; reflexivity).
      + right. eexists _, _. apply st_stdin.
      + right. eexists _, _. apply st_stat.
      + right. destruct (can_write (fs n)) eqn:E; eexists _, _; [apply st_write_open|apply st_write_fails]; exact E.
      + right. eexists _, _. apply st_stdout.
    - right. destruct Ho as (c & rd & wr & E). destruct (Z_le_dec (zlen c) (zlen acc)).
      + eexists _, _. eapply st_read_end; [exact E|assumption].
      + eexists _, _. eapply (st_read room fs n acc k _ _ _ c rd wr 1 E); lia.
    - right. destruct Ho as (c & rd & wr & E). destruct rest as [|b rest].
      + eexists _, _. apply st_write_end.
      + eexists _, _. eapply (st_write room fs n pos (b :: rest) p _ _ _ c rd wr 1 E). rewrite zlen_cons. pose proof (zlen_nonneg rest). lia.
  Qed.
  Lemma can_move fs qs : Forall (opened fs) qs -> all_ended qs \/ exists b, moves room (fs, qs) b.
  Proof.
    intros H. assert (forall l2 l1, Forall (opened fs) l2 -> all_ended l1 -> all_ended (l1 ++ l2) \/ exists b, moves room (fs, l1 ++ l2) b) as X.
    { induction l2 as [|q l2 IH]; intros l1 Ho He; [left; rewrite app_nil_r; exact He|]. inversion Ho as [|? ? Hq Hr]; subst. destruct (can_step fs q Hq) as [E|(fs1 & q1 & S)].
      - destruct (IH (l1 ++ [q]) Hr) as [Y|Y].
        + apply Forall_app. split; [exact He|]. constructor; [exact E|constructor].
        + left. rewrite <- app_assoc in Y. exact Y.
        + right. rewrite <- app_assoc in Y. exact Y.
      - right. eexists _, l1, q, l2, fs1, q1. split; [reflexivity|]. split; [exact S|reflexivity]. }
    apply (X qs [] H). constructor.
  Qed.

  Lemma C100_finite_lemma (f : nat -> fsystem * list process) : ~ forall n, moves room (f n) (f (S n)).
  Proof.
    intros H. assert (forall a, Acc (fun b a => moves room a b) a -> forall n, f n <> a) as X.
    { intros a Ha. induction Ha as [a _ IH]. intros n E. apply (IH (f (S n))) with (n := S n); [rewrite <- E; apply H|reflexivity]. }
    apply (X (f 0%nat) (moves_wf _) 0%nat). reflexivity.
  Qed.
  Lemma C100_progress_lemma fs0 js fs1 qs : execution room fs0 (map launch js) fs1 qs -> all_ended qs \/ exists b, moves room (fs1, qs) b.
  Proof. intros He. apply can_move. eapply execution_opened; [exact He|]. apply Forall_forall. intros q Hq. apply in_map_iff in Hq as (j & <- & _). exact I. Qed.
End Room.

Lemma C100_ending_lemma : forall room, (forall f : nat -> fsystem * list process, ~ forall n, moves room (f n) (f (S n))) /\
  forall fs0 js fs1 qs, execution room fs0 (map launch js) fs1 qs -> all_ended qs \/ exists b, moves room (fs1, qs) b.
Proof. intros room. split; [apply C100_finite_lemma|apply C100_progress_lemma]. Qed.
