(** PipeProofs.v -- proofs about "-" (C96) and about what a command depends on (C97). *)
From Coq Require Import ZifyBool ZifyNat.
From Verif Require Import GoBase GoLemmas TypesModel DiskModel DiskSpec DiskProofs DiskOpenProofs.
From Verif Require Import ProdosModel CmdModel CmdSpec CmdProofs MainModel PipeSpec.
Ltac Zify.zify_post_hook ::= Z.div_mod_to_equations.
Local Opaque zrange zeros sub.

Lemma beq_dash n : n <> s2b "-" -> beq n dash = false.
Proof. intro H. apply beq_neq. exact H. Qed.
Lemma dash_dash : beq (s2b "-") dash = true.
Proof. reflexivity. Qed.

(** ** What the name of an image matters *)
Lemma open_plain iter fuel c n order system : plain_image n ->
  OpenImage c (s2b "/dev/stdin") order system (DiskOperatorFactories iter fuel) = OpenImage c n order system (DiskOperatorFactories iter fuel).
Proof.
  intros [_ H]. assert (to_lower (path_Ext (s2b "/dev/stdin")) = []) as E0 by reflexivity.
  unfold OpenImage. rewrite E0. destruct H as [H|H].
  - apply ext_dsk in H. apply beq_eq in H. rewrite H.
    destruct (zlen c =? FloppyDiskBytes); [|reflexivity]. unfold openDoOrPo, candidate_orders. reflexivity.
  - apply ext_lower_none in H. rewrite H. reflexivity.
Qed.

Lemma guess_none n d : name_order n None -> OrderFromFilename n d = d.
Proof.
  intro H. inversion H as [| |A B C]; subst. unfold OrderFromFilename.
  destruct (beq (to_lower (path_Ext n)) (s2b ".dsk")) eqn:E1; [apply ext_dsk in E1; contradiction|].
  destruct (beq (to_lower (path_Ext n)) (s2b ".do")) eqn:E2; [apply ext_do in E2; contradiction|].
  destruct (beq (to_lower (path_Ext n)) (s2b ".po")) eqn:E3; [apply ext_po in E3; contradiction|]. reflexivity.
Qed.
Lemma guess_dash d : OrderFromFilename (s2b "-") d = d.
Proof. reflexivity. Qed.

Lemma getOrders_in a b n m : orders_without a b n -> getOrders (s2b "-") a m b = getOrders n a m b.
Proof.
  intro H. unfold getOrders.
  destruct (beq a DiskOrderAuto) eqn:Ea, (beq b DiskOrderAuto) eqn:Eb; cbn [negb andb]; try reflexivity.
  apply beq_eq in Ea, Eb. subst a b. destruct H as [H|[H|H]]; [exfalso; apply H; reflexivity|exfalso; apply H; reflexivity|].
  rewrite guess_dash, (guess_none n _ H). reflexivity.
Qed.
Lemma getOrders_out a b n m : orders_without a b n -> getOrders m a (s2b "-") b = getOrders m a n b.
Proof.
  intro H. unfold getOrders.
  destruct (beq a DiskOrderAuto) eqn:Ea, (beq b DiskOrderAuto) eqn:Eb; cbn [negb andb]; try reflexivity.
  apply beq_eq in Ea, Eb. subst a b. destruct H as [H|[H|H]]; [exfalso; apply H; reflexivity|exfalso; apply H; reflexivity|].
  rewrite guess_dash, (guess_none n _ H). reflexivity.
Qed.

(** ** Reading *)
Lemma open_dash iter fuel w c n order system : w_stdin w = Some c -> plain_image n ->
  run (OpenFilename iter fuel (s2b "-") order system) w = (no_stdin w, OpenImage c n order system (DiskOperatorFactories iter fuel)).
Proof.
  intros Hs Hn. unfold OpenFilename. rewrite dash_dash, run_pbind. cbn [run]. unfold sys_stdin. rewrite Hs.
  cbn [run plift]. rewrite (open_plain iter fuel c n order system Hn). reflexivity.
Qed.
Lemma open_file iter fuel w c n order system : readable w n c -> n <> s2b "-" ->
  run (OpenFilename iter fuel n order system) w = (w, OpenImage c n order system (DiskOperatorFactories iter fuel)).
Proof.
  intros [wr Hw] Hn. unfold OpenFilename. rewrite (beq_dash n Hn), run_pbind. cbn [run]. rewrite Hw. reflexivity.
Qed.
Lemma contents_dash w c : w_stdin w = Some c -> run (FileContentsOrStdIn (s2b "-")) w = (no_stdin w, Ok c).
Proof. intro Hs. unfold FileContentsOrStdIn. rewrite dash_dash. cbn [run]. unfold sys_stdin. rewrite Hs. reflexivity. Qed.
Lemma contents_file w n c : readable w n c -> n <> s2b "-" -> run (FileContentsOrStdIn n) w = (w, Ok c).
Proof. intros [wr Hw] Hn. unfold FileContentsOrStdIn. rewrite (beq_dash n Hn). cbn [run]. rewrite Hw. reflexivity. Qed.

(** ** Worlds that differ in what is left on standard input, and programs that do not ask *)
Definition alike (w1 w2 : world) : Prop :=
  (forall x, w_fs w1 x = w_fs w2 x) /\ w_stdout w1 = w_stdout w2 /\ w_room w1 = w_room w2 /\ w_outroom w1 = w_outroom w2.
Fixpoint no_ask {A} (p : prog A) : Prop :=
  match p with
  | PRet _ => True
  | PRead _ k => forall r, no_ask (k r)
  | PStdin _ => False
  | PStat _ k => forall r, no_ask (k r)
  | PWrite _ _ k => forall r, no_ask (k r)
  | PStdout _ k => forall r, no_ask (k r)
  end.
Lemma no_ask_bind {A B} (p : prog A) (f : A -> prog B) : no_ask p -> (forall a, no_ask (f a)) -> no_ask (pbind p f).
Proof.
  intros Hp Hf. induction p as [r|n k IH|k IH|n k IH|n c k IH|c k IH]; cbn in *; try contradiction; try (intro r; apply IH; apply Hp).
  destruct r; [apply Hf|exact I|exact I].
Qed.
Lemma alike_run {A} (p : prog A) : forall w1 w2, no_ask p -> alike w1 w2 ->
  alike (fst (run p w1)) (fst (run p w2)) /\ snd (run p w1) = snd (run p w2).
Proof.
  induction p as [r|n k IH|k IH|n k IH|n c k IH|c k IH]; intros w1 w2 Hp Hw; cbn [run no_ask] in *.
  - split; [exact Hw|reflexivity].
  - destruct Hw as [Hf Hw]. rewrite (Hf n). apply IH; [apply Hp|split; [exact Hf|exact Hw]].
  - contradiction.
  - destruct Hw as [Hf Hw]. rewrite (Hf n). apply IH; [apply Hp|split; [exact Hf|exact Hw]].
  - destruct Hw as (Hf & Ho & Hr & Hor). unfold sys_write. rewrite (Hf n), Hr.
    destruct (can_write (w_fs w2 n)); [destruct (fits (w_room w2) c)|]; (apply IH; [apply Hp|]); (split; [|split; [|split]]; try assumption).
    + intro x. cbn. destruct (beq x n); [reflexivity|apply Hf].
    + intro x. cbn. destruct (beq x n); [reflexivity|apply Hf].
  - destruct Hw as (Hf & Ho & Hr & Hor). unfold sys_stdout. rewrite Hor.
    destruct (fits (w_outroom w2) c); (apply IH; [apply Hp|]); (split; [|split; [|split]]; try assumption; cbn; rewrite Ho; reflexivity).
Qed.
Lemma alike_no_stdin w : alike (no_stdin w) w.
Proof. repeat split. Qed.
Lemma no_ask_out n c ow : no_ask (WriteOutput n c ow).
Proof. unfold WriteOutput. destruct (beq n dash); [cbn; exact (fun _ => I)|]. destruct ow; cbn; [exact (fun _ => I)|]. intros []; cbn; exact (fun _ => I) || exact I. Qed.
Lemma no_ask_back n op o ow : no_ask (WriteBack n op o ow).
Proof. apply no_ask_bind; [exact I|]. intro. apply no_ask_out. Qed.
Lemma no_ask_contents n : n <> s2b "-" -> no_ask (FileContentsOrStdIn n).
Proof. intro H. unfold FileContentsOrStdIn. rewrite (beq_dash n H). intro. exact I. Qed.
Lemma no_ask_open iter fuel n order system : n <> s2b "-" -> no_ask (OpenFilename iter fuel n order system).
Proof. intro H. unfold OpenFilename. rewrite (beq_dash n H). apply no_ask_bind; [intro; exact I|]. intro. exact I. Qed.
Lemma no_ask_lines short fds : no_ask (ls_lines short fds).
Proof. induction fds as [|fd rest IH]; cbn; [exact I|]. intro. exact IH. Qed.

(** After reading [c] from either place, the rest of the program is the same. *)
Definition same_effect (x1 x2 : world * res unit) : Prop := alike (fst x1) (fst x2) /\ snd x1 = snd x2.
Lemma rest_same {A} (r : res A) (k : A -> prog unit) w w1 w2 p1 p2 : alike w1 w -> alike w2 w ->
  (forall a, no_ask (k a)) -> run p1 w = (w1, r) -> run p2 w = (w2, r) ->
  same_effect (run (pbind p1 k) w) (run (pbind p2 k) w).
Proof.
  intros A1 A2 Hk E1 E2. rewrite !run_pbind, E1, E2. destruct r as [a|e|]; [|split; [|reflexivity]..].
  - apply alike_run; [apply Hk|]. destruct A1 as (F1 & O1 & R1 & T1), A2 as (F2 & O2 & R2 & T2).
    split; [|split; [|split]]; try congruence; intro x; rewrite F1, F2; reflexivity.
  - destruct A1 as (F1 & O1 & R1 & T1), A2 as (F2 & O2 & R2 & T2).
    split; [|split; [|split]]; cbn [fst]; try congruence; intro x; rewrite F1, F2; reflexivity.
  - destruct A1 as (F1 & O1 & R1 & T1), A2 as (F2 & O2 & R2 & T2).
    split; [|split; [|split]]; cbn [fst]; try congruence; intro x; rewrite F1, F2; reflexivity.
Qed.
Lemma alike_refl w : alike w w.
Proof. repeat split. Qed.

Lemma takes_same iter fuel P n w c : takes iter fuel P n -> w_stdin w = Some c -> readable w n c ->
  same_effect (run (P (s2b "-")) w) (run (P n) w).
Proof.
  intros H Hs Hr. pose proof (alike_no_stdin w) as A1. pose proof (alike_refl w) as A2. inversion H; subst; cbv beta.
  - destruct (H0) as [Hn _]. unfold LsCmd_Run. eapply rest_same; [exact A1|exact A2| |eapply open_dash; eassumption|apply open_file; assumption].
    intros [op o]. destruct (negb (beq dir []) && negb (Op_HasSubdirs op)); [exact I|].
    apply no_ask_bind; [exact I|]. intro. apply no_ask_lines.
  - destruct (H0) as [Hn _]. unfold DumpCmd_Run. eapply rest_same; [exact A1|exact A2| |eapply open_dash; eassumption|apply open_file; assumption].
    intros [op o]. apply no_ask_bind; [exact I|]. intros a r. exact I.
  - unfold DecodeCmd_Run. eapply rest_same; [exact A1|exact A2| |apply contents_dash; eassumption|apply contents_file; assumption].
    intro a. apply no_ask_bind; [exact I|]. intros b r. exact I.
  - unfold PutCmd_Run. rewrite (beq_dash img H1). cbn [andb]. rewrite !run_pbind.
    destruct (run (OpenFilename iter fuel img order system) w) as [w0 r0] eqn:E0.
    assert (w0 = w) as ->.
    { unfold OpenFilename in E0. rewrite (beq_dash img H1), run_pbind in E0. cbn [run] in E0.
      destruct (sys_read (w_fs w img)); cbn [run plift] in E0; congruence. }
    destruct r0 as [[op o]|e|]; [|split; [exact A2|reflexivity]..].
    eapply rest_same; [exact A1|exact A2| |apply contents_dash; eassumption|apply contents_file; assumption].
    intro data. apply no_ask_bind; [exact I|]. intro t. destruct (Op_PutFile op _ ow) as [op' r']. apply no_ask_bind; [exact I|].
    intro. apply no_ask_back.
  - unfold SDCmd_Run. eapply rest_same; [exact A1|exact A2| |apply contents_dash; eassumption|apply contents_file; assumption].
    intro a. apply no_ask_bind; [exact I|]. intro. apply no_ask_out.
  - unfold ReorderCmd_Run. rewrite (getOrders_in a b n newImg H2). rewrite !run_pbind.
    destruct (getOrders n a newImg b) as [[x y]|e|]; cbn [run plift]; [|split; [exact A2|reflexivity]..].
    replace (beq newImg []) with false by (symmetry; apply beq_neq; exact H1).
    eapply rest_same; [exact A1|exact A2| |apply contents_dash; eassumption|apply contents_file; assumption].
    intro data. destruct (LogicalToPhysicalByName x); [|exact I]. destruct (PhysicalToLogicalByName y); [|exact I].
    apply no_ask_bind; [exact I|]. intro. apply no_ask_bind; [exact I|]. intro. apply no_ask_out.
Qed.

Lemma C96_input_lemma iter fuel P n w c w1 s1 w2 s2 : takes iter fuel P n -> w_stdin w = Some c -> readable w n c ->
  main_run (P (s2b "-")) w = (w1, s1) -> main_run (P n) w = (w2, s2) ->
  s1 = s2 /\ w_stdout w1 = w_stdout w2 /\ forall x, w_fs w1 x = w_fs w2 x.
Proof.
  intros H Hs Hr E1 E2. destruct (takes_same iter fuel P n w c H Hs Hr) as [(F & O & _ & _) R]. unfold main_run in E1, E2.
  destruct (run (P (s2b "-")) w) as [v1 r1], (run (P n) w) as [v2 r2]. cbn [fst snd] in *. inversion E1. inversion E2. subst.
  split; [reflexivity|]. split; assumption.
Qed.

(** ** Writing *)
Definition same_result (w : world) (n : bytes) (x1 x2 : world * res unit) : Prop :=
  main_status (snd x1) = main_status (snd x2) /\
  ((snd x1 = Ok tt /\ exists c', output w (fst x1) (s2b "-") c' /\ output w (fst x2) n c') \/
   (snd x1 <> Ok tt /\ same_files w (fst x1) /\ w_stdout (fst x1) = w_stdout w /\ same_files w (fst x2) /\ w_stdout (fst x2) = w_stdout w)).
Definition calm (w v : world) : Prop := same_files w v /\ w_stdout v = w_stdout w /\ w_room v = None /\ w_outroom v = None.
Lemma same_stop w n v1 v2 (r : res unit) : calm w v1 -> calm w v2 -> r <> Ok tt -> same_result w n (v1, r) (v2, r).
Proof. intros (A1 & B1 & _) (A2 & B2 & _) H. split; [reflexivity|]. right. repeat split; assumption. Qed.
Lemma same_write w n v1 v2 c' ow : calm w v1 -> calm w v2 -> n <> s2b "-" -> can_output w n ow ->
  same_result w n (run (WriteOutput (s2b "-") c' ow) v1) (run (WriteOutput n c' ow) v2).
Proof.
  intros (A1 & B1 & C1 & D1) (A2 & B2 & C2 & D2) Hn [Hd|(_ & Hw & How)]; [contradiction|].
  unfold WriteOutput. rewrite dash_dash, (beq_dash n Hn). cbn [run]. unfold sys_stdout. rewrite D1. cbn [fits run].
  assert (can_write (w_fs v2 n) = true) as Hc by (rewrite A2; destruct Hw as [->|(z & r & ->)]; reflexivity).
  assert (run (PWrite n c' PRet) v2 = (set_fs v2 n (written (w_fs v2 n) c'), Ok tt)) as E.
  { cbn [run]. unfold sys_write. rewrite Hc, C2. reflexivity. }
  assert (same_result w n (add_out v1 c', Ok tt) (set_fs v2 n (written (w_fs v2 n) c'), Ok tt)) as R.
  { split; [reflexivity|]. left. split; [reflexivity|]. exists c'. split; [left|right]; cbn [fst].
    - split; [reflexivity|]. split; [exact A1|]. cbn. rewrite B1. reflexivity.
    - split; [exact Hn|]. split.
      + intros x Hx. cbn. rewrite (proj2 (beq_neq x n) Hx). apply A2.
      + split; [|exact B2]. unfold holds. cbn. rewrite beq_refl. unfold written. destruct (w_fs v2 n); eexists; eexists; reflexivity. }
  destruct ow; [rewrite E; exact R|]. cbn [run]. destruct How as [How|How]; [discriminate How|].
  assert (sys_notexist (w_fs v2 n) = true) as Hne.
  { rewrite A2. unfold file_exists in How. destruct Hw as [->|(z & r & Hw)]; [reflexivity|]. exfalso. apply How. rewrite Hw. split; intro HH; discriminate HH. }
  rewrite Hne. cbn [negb]. rewrite E. exact R.
Qed.
Lemma same_bind {A} w n (r : res A) v1 v2 (k1 k2 : A -> prog unit) : calm w v1 -> calm w v2 ->
  (forall a, r = Ok a -> same_result w n (run (k1 a) v1) (run (k2 a) v2)) ->
  same_result w n (run (pbind (plift r) k1) v1) (run (pbind (plift r) k2) v2).
Proof.
  intros H1 H2 H. rewrite !run_pbind. cbn [run plift]. destruct r as [a|e|]; [apply H; reflexivity|apply same_stop; [assumption..|discriminate]|apply same_stop; [assumption..|discriminate]].
Qed.
Lemma same_read {A} w n (r : res A) v1 v2 p1 p2 (k1 k2 : A -> prog unit) : calm w v1 -> calm w v2 ->
  run p1 w = (v1, r) -> run p2 w = (v2, r) ->
  (forall a, r = Ok a -> same_result w n (run (k1 a) v1) (run (k2 a) v2)) ->
  same_result w n (run (pbind p1 k1) w) (run (pbind p2 k2) w).
Proof.
  intros H1 H2 E1 E2 H. rewrite !run_pbind, E1, E2. destruct r as [a|e|]; [apply H; reflexivity|apply same_stop; [assumption..|discriminate]|apply same_stop; [assumption..|discriminate]].
Qed.
Lemma contents_calm w src : w_room w = None -> w_outroom w = None -> calm w (fst (run (FileContentsOrStdIn src) w)).
Proof.
  intros H1 H2. unfold FileContentsOrStdIn. destruct (beq src dash); cbn [run].
  - unfold sys_stdin. destruct (w_stdin w); cbn; repeat split; assumption.
  - repeat split; assumption.
Qed.

Lemma C96_output_result iter fuel P n ow w : gives iter fuel P n ow -> w_room w = None -> w_outroom w = None -> can_output w n ow ->
  same_result w n (run (P (s2b "-")) w) (run (P n) w).
Proof.
  intros H Hr Ho Hc. inversion H; subst; cbv beta.
  - unfold SDCmd_Run. pose proof (contents_calm w bin Hr Ho) as Hcalm.
    destruct (run (FileContentsOrStdIn bin) w) as [v r] eqn:E. cbn [fst] in Hcalm.
    eapply same_read; [exact Hcalm|exact Hcalm|exact E|exact E|]. intros data _.
    assert (sd_image order (s2b "-") data addr start = sd_image order n data addr start) as E2.
    { unfold sd_image. destruct (beq order DiskOrderAuto) eqn:Eo; [|reflexivity].
      apply beq_eq in Eo. subst order. destruct H1 as [H1|H1]; [exfalso; apply H1; reflexivity|].
      assert (OrderFromFilename n DiskOrderDO = DiskOrderDO) as ->; [|reflexivity].
      unfold OrderFromFilename. destruct (_ || _); [reflexivity|]. destruct (beq (to_lower (path_Ext n)) (s2b ".po")) eqn:Ep; [|reflexivity].
      apply ext_po in Ep. contradiction. }
    rewrite E2. apply same_bind; [exact Hcalm|exact Hcalm|]. intros raw _. apply same_write; assumption.
  - unfold ReorderCmd_Run. rewrite (getOrders_out a b n img H2).
    assert (calm w w) as Hw by (repeat split; assumption).
    apply same_bind; [exact Hw|exact Hw|]. intros [x y] _.
    pose proof (contents_calm w img Hr Ho) as Hcalm. destruct (run (FileContentsOrStdIn img) w) as [v r] eqn:E. cbn [fst] in Hcalm.
    eapply same_read; [exact Hcalm|exact Hcalm|exact E|exact E|]. intros data _.
    destruct (LogicalToPhysicalByName x); [|apply same_stop; [exact Hcalm|exact Hcalm|discriminate]].
    destruct (PhysicalToLogicalByName y); [|apply same_stop; [exact Hcalm|exact Hcalm|discriminate]].
    apply same_bind; [exact Hcalm|exact Hcalm|]. intros raw _. apply same_bind; [exact Hcalm|exact Hcalm|]. intros to _.
    replace (beq n []) with false by (symmetry; apply beq_neq; exact H1).
    replace (beq (s2b "-") []) with false by reflexivity. apply same_write; assumption.
Qed.

Lemma C96_edit_result iter fuel P n w c : edits iter fuel P n -> w_room w = None -> w_outroom w = None ->
  w_stdin w = Some c -> w_fs w n = NFile c true true -> same_result w n (run (P (s2b "-")) w) (run (P n) w).
Proof.
  intros H Hr Ho Hs Hf.
  assert (readable w n c) as Hrd by (exists true; exact Hf).
  assert (calm w w) as C2 by (repeat split; assumption).
  assert (calm w (no_stdin w)) as C1 by (repeat split; assumption).
  assert (n <> s2b "-" -> can_output w n true) as Hc.
  { intro Hn. right. split; [exact Hn|]. split; [right; exists c, true; exact Hf|left; reflexivity]. }
  assert (forall op o, n <> s2b "-" -> same_result w n (run (WriteBack (s2b "-") op o true) (no_stdin w)) (run (WriteBack n op o true) w)) as Hback.
  { intros op o Hn. unfold WriteBack. apply same_bind; [exact C1|exact C2|]. intros bb _. apply same_write; [exact C1|exact C2|exact Hn|apply Hc; exact Hn]. }
  inversion H; subst; cbv beta.
  - destruct (H0) as [Hn _]. unfold DeleteCmd_Run.
    eapply same_read; [exact C1|exact C2|eapply open_dash; eassumption|apply open_file; assumption|].
    intros [op o] _. destruct (Op_Delete op name) as [op' r']. apply same_bind; [exact C1|exact C2|]. intros deleted _.
    destruct (negb deleted && negb force); [apply same_stop; [exact C1|exact C2|discriminate]|]. apply Hback. exact Hn.
  - destruct (H0) as [Hn _]. unfold PutCmd_Run. rewrite dash_dash, (beq_dash n Hn), (beq_dash source H1). cbn [andb].
    eapply same_read; [exact C1|exact C2|eapply open_dash; eassumption|apply open_file; assumption|].
    intros [op o] _. rewrite !run_pbind. unfold FileContentsOrStdIn. rewrite (beq_dash source H1). cbn [run].
    change (w_fs (no_stdin w) source) with (w_fs w source).
    destruct (sys_read (w_fs w source)) as [data|e|]; [|apply same_stop; [exact C1|exact C2|discriminate]..].
    apply same_bind; [exact C1|exact C2|]. intros t _. destruct (Op_PutFile op _ ow) as [op' r'].
    apply same_bind; [exact C1|exact C2|]. intros _ _. apply Hback. exact Hn.
  - destruct (H0) as [Hn _]. unfold MkHelloCmd_Run.
    destruct (negb (addr mod 256 =? 0)); [apply same_stop; [exact C2|exact C2|discriminate]|].
    destruct ((if start =? 65535 then addr else start) <? addr); [apply same_stop; [exact C2|exact C2|discriminate]|].
    eapply same_read; [exact C1|exact C2|eapply open_dash; eassumption|apply open_file; assumption|].
    intros [op o] _. destruct op as [d|nak|d]; [apply same_stop; [exact C1|exact C2|discriminate]| |apply same_stop; [exact C1|exact C2|discriminate]].
    apply same_bind; [exact C1|exact C2|]. intros [[a s] z] _.
    destruct ((a =? 0) && (s =? 0)); [apply same_stop; [exact C1|exact C2|discriminate]|].
    destruct (Op_PutFile _ _ true) as [op' r'].
    apply same_bind; [exact C1|exact C2|]. intros _ _. apply Hback. exact Hn.
  - unfold ReorderCmd_Run. rewrite (getOrders_in a b n [] H1).
    apply same_bind; [exact C2|exact C2|]. intros [x y] _.
    eapply same_read; [exact C1|exact C2|apply contents_dash; eassumption|apply contents_file; assumption|].
    intros data _. destruct (LogicalToPhysicalByName x); [|apply same_stop; [exact C1|exact C2|discriminate]].
    destruct (PhysicalToLogicalByName y); [|apply same_stop; [exact C1|exact C2|discriminate]].
    apply same_bind; [exact C1|exact C2|]. intros raw _. apply same_bind; [exact C1|exact C2|]. intros to _.
    change (beq [] []) with true. cbv iota. apply same_write; [exact C1|exact C2|assumption|apply Hc; assumption].
Qed.

Lemma result_statuses w n x1 x2 : same_result w n x1 x2 ->
  main_status (snd x1) = main_status (snd x2) /\
  (main_status (snd x1) = 0 -> exists c', output w (fst x1) (s2b "-") c' /\ output w (fst x2) n c') /\
  (main_status (snd x1) <> 0 -> same_files w (fst x1) /\ w_stdout (fst x1) = w_stdout w /\ same_files w (fst x2) /\ w_stdout (fst x2) = w_stdout w).
Proof.
  intros [Hs [[H0 H1]|[H0 H1]]]; (split; [exact Hs|]); split; intro H2.
  - exact H1.
  - rewrite H0 in H2. exfalso. apply H2. reflexivity.
  - exfalso. apply H0. destruct (snd x1) as [[]|e|]; [reflexivity|discriminate H2|discriminate H2].
  - exact H1.
Qed.

Lemma C96_output_lemma iter fuel P n ow w w1 s1 w2 s2 : gives iter fuel P n ow -> w_room w = None -> w_outroom w = None -> can_output w n ow ->
  main_run (P (s2b "-")) w = (w1, s1) -> main_run (P n) w = (w2, s2) ->
  s1 = s2 /\ (s1 = 0 -> exists c', output w w1 (s2b "-") c' /\ output w w2 n c') /\
  (s1 <> 0 -> same_files w w1 /\ w_stdout w1 = w_stdout w /\ same_files w w2 /\ w_stdout w2 = w_stdout w).
Proof.
  intros H Hr Ho Hc E1 E2. pose proof (result_statuses _ _ _ _ (C96_output_result iter fuel P n ow w H Hr Ho Hc)) as R. unfold main_run in E1, E2.
  destruct (run (P (s2b "-")) w) as [v1 r1], (run (P n) w) as [v2 r2]. cbn [fst snd] in *. inversion E1. inversion E2. subst. exact R.
Qed.
Lemma C96_in_place_lemma iter fuel P n w c w1 s1 w2 s2 : edits iter fuel P n -> w_room w = None -> w_outroom w = None ->
  w_stdin w = Some c -> w_fs w n = NFile c true true ->
  main_run (P (s2b "-")) w = (w1, s1) -> main_run (P n) w = (w2, s2) ->
  s1 = s2 /\ (s1 = 0 -> exists c', output w w1 (s2b "-") c' /\ output w w2 n c') /\
  (s1 <> 0 -> same_files w w1 /\ w_stdout w1 = w_stdout w /\ same_files w w2 /\ w_stdout w2 = w_stdout w).
Proof.
  intros H Hr Ho Hs Hf E1 E2. pose proof (result_statuses _ _ _ _ (C96_edit_result iter fuel P n w c H Hr Ho Hs Hf)) as R. unfold main_run in E1, E2.
  destruct (run (P (s2b "-")) w) as [v1 r1], (run (P n) w) as [v2 r2]. cbn [fst snd] in *. inversion E1. inversion E2. subst. exact R.
Qed.

(** ** C97: which files a program touches *)
Fixpoint touches {A} (l : list bytes) (p : prog A) : Prop :=
  match p with
  | PRet _ => True
  | PRead n k => In n l /\ forall r, touches l (k r)
  | PStdin k => In (s2b "-") l /\ forall r, touches l (k r)
  | PStat n k => In n l /\ forall r, touches l (k r)
  | PWrite n _ k => In n l /\ forall r, touches l (k r)
  | PStdout _ k => forall r, touches l (k r)
  end.
Lemma touches_bind {A B} l (p : prog A) (f : A -> prog B) : touches l p -> (forall a, touches l (f a)) -> touches l (pbind p f).
Proof.
  intros Hp Hf. induction p as [r|n k IH|k IH|n k IH|n c k IH|c k IH]; cbn in *.
  - destruct r; [apply Hf|exact I|exact I].
  - destruct Hp as [H1 H2]. split; [exact H1|]. intro r. apply IH. apply H2.
  - destruct Hp as [H1 H2]. split; [exact H1|]. intro r. apply IH. apply H2.
  - destruct Hp as [H1 H2]. split; [exact H1|]. intro r. apply IH. apply H2.
  - destruct Hp as [H1 H2]. split; [exact H1|]. intro r. apply IH. apply H2.
  - intro r. apply IH. apply Hp.
Qed.
Lemma touches_open iter fuel l n order system : In n l -> touches l (OpenFilename iter fuel n order system).
Proof.
  intro H. unfold OpenFilename. destruct (beq n dash) eqn:E.
  - apply beq_eq in E. subst n. split; [exact H|]. intros []; exact I.
  - split; [exact H|]. intros []; exact I.
Qed.
Lemma touches_contents l n : In n l -> touches l (FileContentsOrStdIn n).
Proof.
  intro H. unfold FileContentsOrStdIn. destruct (beq n dash) eqn:E.
  - apply beq_eq in E. subst n. split; [exact H|]. intro. exact I.
  - split; [exact H|]. intro. exact I.
Qed.
Lemma touches_out l n c ow : In n l -> touches l (WriteOutput n c ow).
Proof.
  intro H. unfold WriteOutput. destruct (beq n dash); [intro; exact I|]. destruct ow; cbn.
  - split; [exact H|]. intro. exact I.
  - split; [exact H|]. intros [|]; cbn; [|exact I]. split; [exact H|]. intro. exact I.
Qed.
Lemma touches_back l n op o ow : In n l -> touches l (WriteBack n op o ow).
Proof. intro H. apply touches_bind; [exact I|]. intro. apply touches_out. exact H. Qed.
Lemma told_touches iter fuel p l : told iter fuel p l -> touches l p.
Proof.
  intro H. inversion H; subst.
  - apply touches_bind; [apply touches_open; left; reflexivity|]. intros [op o]. destruct (_ && _); [exact I|].
    apply touches_bind; [exact I|]. intro fds. induction fds as [|fd rest IH]; [exact I|]. intro. exact IH.
  - apply touches_bind; [apply touches_open; left; reflexivity|]. intros [op o]. apply touches_bind; [exact I|]. intros a r. exact I.
  - apply touches_bind; [apply touches_open; left; reflexivity|]. intros [op o]. destruct (Op_Delete op name) as [op' r'].
    apply touches_bind; [exact I|]. intro deleted. destruct (_ && _); [exact I|]. apply touches_back. left. reflexivity.
  - unfold PutCmd_Run. destruct (_ && _); [exact I|].
    apply touches_bind; [apply touches_open; left; reflexivity|]. intros [op o].
    apply touches_bind; [apply touches_contents; right; left; reflexivity|]. intro data. apply touches_bind; [exact I|]. intro t.
    destruct (Op_PutFile op _ ow) as [op' r']. apply touches_bind; [exact I|]. intros _. apply touches_back. left. reflexivity.
  - unfold MkHelloCmd_Run. destruct (negb _); [exact I|]. destruct (_ <? addr); [exact I|].
    apply touches_bind; [apply touches_open; left; reflexivity|]. intros [[d|nak|d] o]; [exact I| |exact I].
    apply touches_bind; [exact I|]. intros [[a s] z]. destruct (_ && _); [exact I|].
    destruct (Op_PutFile _ _ true) as [op' r']. apply touches_bind; [exact I|]. intros _. apply touches_back. left. reflexivity.
  - apply touches_bind; [exact I|]. intros [x y]. apply touches_bind; [apply touches_contents; left; reflexivity|]. intro data.
    destruct (LogicalToPhysicalByName x); [|exact I]. destruct (PhysicalToLogicalByName y); [|exact I].
    apply touches_bind; [exact I|]. intro. apply touches_bind; [exact I|]. intro.
    destruct (beq newImg []); apply touches_out; [left|right; left]; reflexivity.
  - apply touches_bind; [exact I|]. intros [x y]. apply touches_bind; [apply touches_contents; left; reflexivity|]. intro data.
    destruct (LogicalToPhysicalByName x); [|exact I]. destruct (PhysicalToLogicalByName y); [|exact I].
    apply touches_bind; [exact I|]. intro. apply touches_bind; [exact I|]. intro.
    change (beq [] []) with true. cbv iota. apply touches_out. left. reflexivity.
  - apply touches_bind; [apply touches_contents; right; left; reflexivity|]. intro data. apply touches_bind; [exact I|]. intro. apply touches_out. left. reflexivity.
  - apply touches_bind; [apply touches_contents; left; reflexivity|]. intro data. apply touches_bind; [exact I|]. intros a r. exact I.
  - intro. exact I.
Qed.

(** The part of two worlds that a program with the file arguments [l] can see is the same. *)
Definition agree (l : list bytes) (w v : world) : Prop :=
  (forall n, In n l -> w_fs w n = w_fs v n) /\ (In (s2b "-") l -> w_stdin w = w_stdin v) /\
  w_room w = w_room v /\ w_outroom w = w_outroom v.
Lemma touches_run {A} l (p : prog A) : forall w v, touches l p -> agree l w v ->
  exists o, snd (run p w) = snd (run p v) /\ agree l (fst (run p w)) (fst (run p v)) /\
    w_stdout (fst (run p w)) = w_stdout w ++ o /\ w_stdout (fst (run p v)) = w_stdout v ++ o /\
    (forall n, ~ In n l -> w_fs (fst (run p w)) n = w_fs w n).
Proof.
  induction p as [r|n k IH|k IH|n k IH|n c k IH|c k IH]; intros w v Hp Ha; cbn [run touches] in *.
  - exists []. rewrite !app_nil_r. split; [reflexivity|]. split; [exact Ha|]. repeat split; reflexivity.
  - destruct Hp as [H1 H2]. destruct (Ha) as (F & _). rewrite (F n H1). apply IH; [apply H2|exact Ha].
  - destruct Hp as [H1 H2]. destruct (Ha) as (F & S & R & O). unfold sys_stdin. rewrite (S H1).
    destruct (w_stdin v) as [s|].
    + destruct (IH (Ok s) (no_stdin w) (no_stdin v) (H2 _)) as (o & X); [split; [exact F|]; split; [reflexivity|]; split; assumption|].
      exists o. exact X.
    + apply IH; [apply H2|exact Ha].
  - destruct Hp as [H1 H2]. destruct (Ha) as (F & _). rewrite (F n H1). apply IH; [apply H2|exact Ha].
  - destruct Hp as [H1 H2]. destruct (Ha) as (F & S & R & O). unfold sys_write. rewrite (F n H1), R.
    assert (forall x r, exists o, snd (run (k r) (set_fs w n x)) = snd (run (k r) (set_fs v n x)) /\
        agree l (fst (run (k r) (set_fs w n x))) (fst (run (k r) (set_fs v n x))) /\
        w_stdout (fst (run (k r) (set_fs w n x))) = w_stdout w ++ o /\ w_stdout (fst (run (k r) (set_fs v n x))) = w_stdout v ++ o /\
        (forall m, ~ In m l -> w_fs (fst (run (k r) (set_fs w n x))) m = w_fs w m)) as HW.
    { intros x r. destruct (IH r (set_fs w n x) (set_fs v n x) (H2 _)) as (o & X1 & X2 & X3 & X4 & X5).
      - split; [|split; [exact S|split; assumption]]. intros m Hm. cbn. destruct (beq m n); [reflexivity|apply F; exact Hm].
      - exists o. split; [exact X1|]. split; [exact X2|]. split; [exact X3|]. split; [exact X4|].
        intros m Hm. rewrite (X5 m Hm). cbn. destruct (beq m n) eqn:E; [|reflexivity]. apply beq_eq in E. subst m. contradiction. }
    destruct (can_write (w_fs v n)); [destruct (fits (w_room v) c); apply HW|]. apply IH; [apply H2|exact Ha].
  - destruct (Ha) as (F & S & R & O). unfold sys_stdout. rewrite O.
    assert (forall x r, exists o, snd (run (k r) (add_out w x)) = snd (run (k r) (add_out v x)) /\
        agree l (fst (run (k r) (add_out w x))) (fst (run (k r) (add_out v x))) /\
        w_stdout (fst (run (k r) (add_out w x))) = w_stdout w ++ o /\ w_stdout (fst (run (k r) (add_out v x))) = w_stdout v ++ o /\
        (forall m, ~ In m l -> w_fs (fst (run (k r) (add_out w x))) m = w_fs w m)) as HW.
    { intros x r. destruct (IH r (add_out w x) (add_out v x) (Hp _)) as (o & X1 & X2 & X3 & X4 & X5); [exact Ha|].
      exists (x ++ o). rewrite !app_assoc. split; [exact X1|]. split; [exact X2|]. split; [exact X3|]. split; [exact X4|exact X5]. }
    destruct (fits (w_outroom v) c); apply HW.
Qed.
Lemma agree_sym l w v : agree l w v -> agree l v w.
Proof. intros (A & B & C & D). split; [intros n Hn; symmetry; apply A; exact Hn|]. split; [intro H; symmetry; apply B; exact H|]. split; congruence. Qed.

Lemma C97_lemma iter fuel p l w v w' s v' s' : told iter fuel p l ->
  (forall n, In n l -> w_fs w n = w_fs v n) -> (In (s2b "-") l -> w_stdin w = w_stdin v) ->
  w_room w = w_room v -> w_outroom w = w_outroom v ->
  main_run p w = (w', s) -> main_run p v = (v', s') ->
  s = s' /\ (exists o, w_stdout w' = w_stdout w ++ o /\ w_stdout v' = w_stdout v ++ o) /\
  (forall n, In n l -> w_fs w' n = w_fs v' n) /\
  (forall n, ~ In n l -> w_fs w' n = w_fs w n /\ w_fs v' n = w_fs v n).
Proof.
  intros H F S R O E1 E2. apply told_touches in H.
  assert (agree l w v) as Ha by (split; [exact F|split; [exact S|split; assumption]]).
  destruct (touches_run l p w v H Ha) as (o & X1 & X2 & X3 & X4 & X5).
  destruct (touches_run l p v w H (agree_sym _ _ _ Ha)) as (_ & _ & _ & _ & _ & Y5).
  unfold main_run in E1, E2. destruct (run p w) as [a ra], (run p v) as [b rb]. cbn [fst snd] in *. inversion E1. inversion E2. subst.
  split; [reflexivity|]. split; [exists o; split; assumption|]. split; [apply X2|].
  intros n Hn. split; [apply X5; exact Hn|apply Y5; exact Hn].
Qed.
