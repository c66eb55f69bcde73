(** ConcProofs.v -- proofs for C100: processes that keep out of each other's way. *)
From Verif Require Import GoBase GoLemmas TypesModel DiskModel SupermonModel CmdModel CmdSpec MainModel ConcModel ConcSpec DiskProofs CmdProofs CmdStmtProofs.
From Coq Require Import ZifyBool ZifyNat.
Ltac Zify.zify_post_hook ::= Z.div_mod_to_equations.
Local Opaque zrange zeros sub.

(** ** Which files a program looks at and writes *)
Fixpoint touches2 {A} (R W : list bytes) (p : prog A) : Prop :=
  match p with
  | PRet _ => True
  | PRead n k => In n R /\ forall r, touches2 R W (k r)
  | PStdin k => forall r, touches2 R W (k r)
  | PStat n k => In n R /\ forall r, touches2 R W (k r)
  | PWrite n _ k => In n W /\ forall r, touches2 R W (k r)
  | PStdout _ k => forall r, touches2 R W (k r)
  end.
Lemma t2_bind {A B} R W (p : prog A) (f : A -> prog B) : touches2 R W p -> (forall a, touches2 R W (f a)) -> touches2 R W (pbind p f).
Proof.
  intros Hp Hf. induction p as [r|n k IH|k IH|n k IH|n c k IH|c k IH]; cbn in *.
  - destruct r; [apply Hf|exact I|exact I].
  - destruct Hp as [H1 H2]. split; [exact H1|]. intro r. apply IH. apply H2.
  - intro r. apply IH. apply Hp.
  - destruct Hp as [H1 H2]. split; [exact H1|]. intro r. apply IH. apply H2.
  - destruct Hp as [H1 H2]. split; [exact H1|]. intro r. apply IH. apply H2.
  - intro r. apply IH. apply Hp.
Qed.
Lemma files_In n l : n <> s2b "-" -> In n l -> In n (files l).
Proof. intros H H1. unfold files. apply filter_In. split; [exact H1|]. rewrite (beq_false _ _ H). reflexivity. Qed.
Lemma t2_open iter fuel R W n l order system : R = files l -> In n l -> touches2 R W (OpenFilename iter fuel n order system).
Proof.
  intros -> H. unfold OpenFilename. destruct (beq n dash) eqn:E; [intros []; exact I|]. apply beq_neq in E.
  split; [apply files_In; assumption|]. intros []; exact I.
Qed.
Lemma t2_contents R W n l : R = files l -> In n l -> touches2 R W (FileContentsOrStdIn n).
Proof.
  intros -> H. unfold FileContentsOrStdIn. destruct (beq n dash) eqn:E; [intro; exact I|]. apply beq_neq in E.
  split; [apply files_In; assumption|]. intro. exact I.
Qed.
Lemma t2_out R W n l c ow : W = files l -> In n l -> (ow = false -> n <> s2b "-" -> In n R) -> touches2 R W (WriteOutput n c ow).
Proof.
  intros -> H HR. unfold WriteOutput. destruct (beq n dash) eqn:E; [intro; exact I|]. apply beq_neq in E. pose proof (files_In _ _ E H) as H1. destruct ow; cbn.
  - split; [exact H1|]. intro. exact I.
  - split; [apply HR; [reflexivity|exact E]|]. intros [|]; cbn; [|exact I]. split; [exact H1|]. intro. exact I.
Qed.
Lemma t2_back R W n l op o : W = files l -> In n l -> touches2 R W (WriteBack n op o true).
Proof. intros HW H. apply t2_bind; [exact I|]. intro. apply (t2_out R W n l _ true HW H). discriminate. Qed.
Lemma uses_touches iter fuel p R W : uses iter fuel p R W -> touches2 R W p.
Proof.
  intro H. inversion H; subst.
  - apply t2_bind; [eapply t2_open; [reflexivity|left; reflexivity]|]. intros [op o]. destruct (_ && _); [exact I|].
    apply t2_bind; [exact I|]. intro fds. induction fds as [|fd rest IH]; [exact I|]. intro. exact IH.
  - apply t2_bind; [eapply t2_open; [reflexivity|left; reflexivity]|]. intros [op o]. apply t2_bind; [exact I|]. intros a r. exact I.
  - apply t2_bind; [eapply t2_open; [reflexivity|left; reflexivity]|]. intros [op o]. destruct (Op_Delete op name) as [op' r'].
    apply t2_bind; [exact I|]. intro deleted. destruct (_ && _); [exact I|]. eapply t2_back; [reflexivity|left; reflexivity].
  - unfold PutCmd_Run. destruct (_ && _); [exact I|].
    apply t2_bind; [eapply t2_open; [reflexivity|left; reflexivity]|]. intros [op o].
    apply t2_bind; [eapply t2_contents; [reflexivity|right; left; reflexivity]|]. intro data. apply t2_bind; [exact I|]. intro t.
    destruct (Op_PutFile op _ ow) as [op' r']. apply t2_bind; [exact I|]. intros _. eapply t2_back; [reflexivity|left; reflexivity].
  - unfold MkHelloCmd_Run. destruct (negb _); [exact I|]. destruct (_ <? addr); [exact I|].
    apply t2_bind; [eapply t2_open; [reflexivity|left; reflexivity]|]. intros [[d|nak|d] o]; [exact I| |exact I].
    apply t2_bind; [exact I|]. intros [[a s] z]. destruct (_ && _); [exact I|].
    destruct (Op_PutFile _ _ true) as [op' r']. apply t2_bind; [exact I|]. intros _. eapply t2_back; [reflexivity|left; reflexivity].
  - apply t2_bind; [exact I|]. intros [x y]. apply t2_bind; [eapply t2_contents; [reflexivity|left; reflexivity]|]. intro data.
    destruct (LogicalToPhysicalByName x); [|exact I]. destruct (PhysicalToLogicalByName y); [|exact I].
    apply t2_bind; [exact I|]. intro. apply t2_bind; [exact I|]. intro.
    rewrite (beq_false newImg []) by assumption. eapply t2_out; [reflexivity|left; reflexivity|]. intros _ Hn. apply files_In; [exact Hn|]. right. left. reflexivity.
  - apply t2_bind; [exact I|]. intros [x y]. apply t2_bind; [eapply t2_contents; [reflexivity|left; reflexivity]|]. intro data.
    destruct (LogicalToPhysicalByName x); [|exact I]. destruct (PhysicalToLogicalByName y); [|exact I].
    apply t2_bind; [exact I|]. intro. apply t2_bind; [exact I|]. intro.
    change (beq [] []) with true. cbv iota. eapply t2_out; [reflexivity|left; reflexivity|]. intros _ Hn. apply files_In; [exact Hn|]. left. reflexivity.
  - apply t2_bind; [eapply t2_contents; [reflexivity|left; reflexivity]|]. intro data. apply t2_bind; [exact I|]. intro.
    eapply t2_out; [reflexivity|left; reflexivity|discriminate].
  - apply t2_bind; [eapply t2_contents; [reflexivity|left; reflexivity]|]. intro data. apply t2_bind; [exact I|]. intros a r. exact I.
  - intro. exact I.
Qed.

(** What a program that uses the files [l] can see of two worlds is the same. *)
Definition sees (l : list bytes) (w v : world) : Prop :=
  (forall n, In n l -> w_fs w n = w_fs v n) /\ w_stdin w = w_stdin v /\ w_stdout w = w_stdout v /\
  w_room w = w_room v /\ w_outroom w = w_outroom v.
Lemma sees_refl l w : sees l w w.
Proof. split; [intros; reflexivity|]. split; [reflexivity|]. split; [reflexivity|]. split; reflexivity. Qed.
Lemma sees_trans l u v w : sees l u v -> sees l v w -> sees l u w.
Proof. intros (A & B & C & D & E) (A' & B' & C' & D' & E'). split; [intros n Hn; rewrite (A n Hn); apply A'; exact Hn|]. split; [congruence|]. split; [congruence|]. split; congruence. Qed.
Lemma sees_set l w v n x : sees l w v -> sees l (set_fs w n x) (set_fs v n x).
Proof. intros (A & B). split; [|exact B]. intros m Hm. cbn. destruct (beq m n); [reflexivity|apply A; exact Hm]. Qed.
Lemma t2_run {A} R W (p : prog A) : forall w v, touches2 R W p -> sees (R ++ W) w v ->
  snd (run p w) = snd (run p v) /\ sees (R ++ W) (fst (run p w)) (fst (run p v)).
Proof.
  induction p as [r|n k IH|k IH|n k IH|n c k IH|c k IH]; intros w v Hp Ha; cbn [run touches2] in *.
  - split; [reflexivity|exact Ha].
  - destruct Hp as [H1 H2]. destruct (Ha) as (F & _). rewrite (F n) by (apply in_or_app; left; exact H1). apply IH; [apply H2|exact Ha].
  - destruct (Ha) as (F & S & O & R1 & R2). unfold sys_stdin. rewrite S. destruct (w_stdin v) as [s|].
    + apply IH; [apply Hp|]. split; [exact F|]. split; [reflexivity|]. split; [exact O|]. split; assumption.
    + apply IH; [apply Hp|exact Ha].
  - destruct Hp as [H1 H2]. destruct (Ha) as (F & _). rewrite (F n) by (apply in_or_app; left; exact H1). apply IH; [apply H2|exact Ha].
  - destruct Hp as [H1 H2]. destruct (Ha) as (F & S & O & R1 & R2). unfold sys_write. rewrite (F n) by (apply in_or_app; right; exact H1). rewrite R1.
    destruct (can_write (w_fs v n)); [destruct (fits (w_room v) c)|]; (apply IH; [apply H2|]); [apply sees_set; exact Ha|apply sees_set; exact Ha|exact Ha].
  - destruct (Ha) as (F & S & O & R1 & R2). unfold sys_stdout. rewrite R2.
    assert (forall x, sees (R ++ W) (add_out w x) (add_out v x)) as HA.
    { intros x. split; [exact F|]. split; [exact S|]. split; [cbn; rewrite O; reflexivity|]. split; assumption. }
    destruct (fits (w_outroom v) c); (apply IH; [apply Hp|apply HA]).
Qed.
Lemma set_set l w n x y : sees l (set_fs (set_fs w n x) n y) (set_fs w n y).
Proof. split; [|split; [reflexivity|split; [reflexivity|split; reflexivity]]]. intros m _. cbn. destruct (beq m n); reflexivity. Qed.

(** ** Writing piece by piece *)
Lemma zeros_none n : n <= 0 -> zeros n = [].
Proof. Local Transparent zeros. intros H. unfold zeros. Local Opaque zeros. replace (Z.to_nat n) with 0%nat by lia. reflexivity. Qed.
Lemma pwrite_nil c pos : 0 <= pos <= zlen c -> pwrite c pos [] = c.
Proof.
  intros H. unfold pwrite. change (zlen (@nil Z)) with 0. rewrite Z.add_0_r.
  rewrite zeros_none by lia.
  cbn [app]. rewrite <- sub_app_split by lia. apply sub_full.
Qed.
Lemma zlen_head (c : bytes) pos : 0 <= pos -> zlen (sub c 0 pos ++ zeros (pos - zlen c)) = pos.
Proof.
  intros H. rewrite zlen_app. destruct (Z_le_dec pos (zlen c)).
  - rewrite zlen_sub by lia. rewrite zeros_none by lia. change (zlen (@nil Z)) with 0. lia.
  - rewrite zlen_zeros by lia. replace (sub c 0 pos) with c; [lia|]. Local Transparent sub. unfold sub. Local Opaque sub. cbn [skipn]. symmetry. apply firstn_all2. unfold zlen in *. lia.
Qed.
Lemma sub_over (l : bytes) a b : zlen l <= a -> sub l a b = [].
Proof. Local Transparent sub. intros H. unfold sub. Local Opaque sub. rewrite skipn_all2 by (unfold zlen in H; lia). apply firstn_nil. Qed.
Lemma pwrite_pwrite c pos a b : 0 <= pos -> pwrite (pwrite c pos a) (pos + zlen a) b = pwrite c pos (a ++ b).
Proof.
  intros H. pose proof (zlen_nonneg a) as Ha. pose proof (zlen_nonneg b) as Hb. pose proof (zlen_head c pos H) as HP.
  unfold pwrite. rewrite !(app_assoc (sub c 0 pos)). remember (sub c 0 pos ++ zeros (pos - zlen c)) as P eqn:EP.
  remember (sub c (pos + zlen a) (zlen c)) as T eqn:ET. pose proof (zlen_nonneg T) as HT.
  rewrite !(app_assoc P a). assert (zlen (P ++ a) = pos + zlen a) as HPa by (rewrite zlen_app; lia).
  rewrite (zlen_app (P ++ a) T), HPa.
  rewrite (zeros_none (pos + zlen a - (pos + zlen a + zlen T))) by lia.
  rewrite sub_app_l by lia. replace (sub (P ++ a) 0 (pos + zlen a)) with (P ++ a) by (rewrite <- HPa; symmetry; apply sub_full).
  cbn [app]. rewrite sub_app_r by lia. rewrite HPa.
  replace (pos + zlen a + zlen b - (pos + zlen a)) with (zlen b) by lia. replace (pos + zlen a + zlen T - (pos + zlen a)) with (zlen T) by lia.
  rewrite zlen_app. rewrite <- !app_assoc. do 3 f_equal.
  destruct (Z_le_dec (pos + zlen a) (zlen c)) as [L|L].
  - rewrite ET. rewrite zlen_sub by lia. rewrite sub_sub by lia. f_equal; lia.
  - rewrite (sub_over c) in ET by lia. rewrite ET. rewrite !sub_over; [reflexivity|lia|cbn; lia].
Qed.
Lemma pwrite_empty x : pwrite [] 0 x = x.
Proof.
  pose proof (zlen_nonneg x). unfold pwrite. rewrite (sub_over [] 0 0) by (cbn; lia). rewrite (sub_over [] (0 + zlen x)) by (change (zlen (@nil Z)) with 0; lia). change (zlen (@nil Z)) with 0. change (zeros (0 - 0)) with (@nil Z). cbn [app]. apply app_nil_r.
Qed.

(** ** One process among others *)
Section Room.
  Context (room : option Z).
  Definition wof (fs : fsystem) (q : process) : world := World fs (q_stdin q) (q_stdout q) room (q_outroom q).
  (** What happens if the process goes on alone. *)
  Definition finish (fs : fsystem) (q : process) : world * res unit :=
    match q_state q with
    | Running p => run p (wof fs q)
    | Reading n acc k =>
        match fs n with
        | NFile c _ _ => run (k (Ok (acc ++ sub c (zlen acc) (zlen c)))) (wof fs q)
        | _ => run (k (Ok acc)) (wof fs q)
        end
    | Writing n pos rest p =>
        match fs n with
        | NFile c rd wr => run p (set_fs (wof fs q) n (NFile (pwrite c pos rest) rd wr))
        | _ => run p (wof fs q)
        end
    end.
  Definition is_file (x : node) : Prop := exists c rd wr, x = NFile c rd wr.
  Definition within (R W : list bytes) (fs : fsystem) (q : process) : Prop :=
    match q_state q with
    | Running p => touches2 R W p
    | Reading n _ k => In n R /\ is_file (fs n) /\ forall r, touches2 R W (k r)
    | Writing n pos rest p => In n W /\ (exists c rd wr, fs n = NFile c rd wr /\ 0 <= pos <= zlen c) /\ touches2 R W p
    end.

  (** Its own steps. *)
  Lemma own_step R W fs q fs1 q1 : within R W fs q -> pstep room fs q fs1 q1 ->
    within R W fs1 q1 /\ (forall n, ~ In n W -> fs1 n = fs n) /\
    snd (finish fs1 q1) = snd (finish fs q) /\ sees (R ++ W) (fst (finish fs1 q1)) (fst (finish fs q)).
  Proof.
    intros Hw Hs. destruct Hs as [fs n k i o m c wr E|fs n k i o m e E|fs n acc k i o m c rd wr j E Hj Hl|fs n acc k i o m c rd wr E Hl
      |fs k i o m|fs n k i o m|fs n c k i o m E|fs n c k i o m E|fs n pos rest p i o m c rd wr j E Hj|fs n pos p i o m|fs c k i o m];
      unfold within, finish, wof in *; cbn [q_state q_stdin q_stdout q_outroom touches2 run w_fs] in *.
    - destruct Hw as [H1 H2]. rewrite E. cbn [sys_read app]. rewrite sub_full.
      split; [split; [exact H1|]; split; [eexists _, _, _; reflexivity|exact H2]|]. split; [reflexivity|]. split; [reflexivity|apply sees_refl].
    - destruct Hw as [H1 H2]. rewrite E. split; [apply H2|]. split; [reflexivity|]. split; [reflexivity|apply sees_refl].
    - destruct Hw as (H1 & H2 & H3). rewrite E. pose proof (zlen_nonneg acc). rewrite zlen_app, zlen_sub by lia. rewrite <- app_assoc.
      replace (zlen acc + (zlen acc + j - zlen acc)) with (zlen acc + j) by lia. rewrite <- sub_app_split by lia.
      split; [split; [exact H1|]; split; [eexists _, _, _; reflexivity|exact H3]|]. split; [reflexivity|]. split; [reflexivity|apply sees_refl].
    - destruct Hw as (H1 & H2 & H3). rewrite E. rewrite sub_nil by lia. rewrite app_nil_r.
      split; [apply H3|]. split; [reflexivity|]. split; [reflexivity|apply sees_refl].
    - unfold sys_stdin. cbn [w_stdin]. destruct i as [s|]; cbn [q_state q_stdin q_stdout q_outroom];
        (split; [apply Hw|]; split; [reflexivity|]; split; [reflexivity|apply sees_refl]).
    - destruct Hw as [H1 H2]. split; [apply H2|]. split; [reflexivity|]. split; [reflexivity|apply sees_refl].
    - destruct Hw as [H1 H2]. unfold sys_write. cbn [w_fs]. rewrite E. split; [apply H2|]. split; [reflexivity|]. split; [reflexivity|apply sees_refl].
    - destruct Hw as [H1 H2]. unfold sys_write. cbn [w_fs w_room]. rewrite E.
      assert (put_fs fs n (written (fs n) []) n = written (fs n) []) as Ep by (unfold put_fs; rewrite beq_refl; reflexivity). rewrite Ep.
      assert (exists rd wr, forall x, written (fs n) x = NFile x rd wr) as (rd & wr & Ew) by (destruct (fs n); cbn [written]; eexists _, _; intros; reflexivity).
      rewrite !Ew. rewrite pwrite_empty. split.
      { split; [exact H1|]. split; [eexists [], rd, wr; split; [reflexivity|cbn; lia]|apply H2]. }
      split; [intros x Hx; unfold put_fs; destruct (beq x n) eqn:Ex; [apply beq_eq in Ex; subst x; contradiction|reflexivity]|].
      assert (forall r x, snd (run (k r) (set_fs (World (put_fs fs n (NFile [] rd wr)) i o room m) n (NFile x rd wr))) = snd (run (k r) (set_fs (World fs i o room m) n (NFile x rd wr))) /\
        sees (R ++ W) (fst (run (k r) (set_fs (World (put_fs fs n (NFile [] rd wr)) i o room m) n (NFile x rd wr)))) (fst (run (k r) (set_fs (World fs i o room m) n (NFile x rd wr))))) as HR.
      { intros r x. apply t2_run; [apply H2|]. apply (set_set (R ++ W) (World fs i o room m) n (NFile [] rd wr) (NFile x rd wr)). }
      destruct (fits room c) eqn:Ef; [|apply HR]. replace (cut room c) with c; [apply HR|].
      unfold fits, cut in *. destruct room as [z|]; [|reflexivity]. pose proof (zlen_nonneg c). 
      rewrite Z.max_r by lia. symmetry. transitivity (sub c 0 (zlen c)); [|apply sub_full].
      rewrite (sub_app_split c 0 (zlen c) z) by lia. rewrite (sub_over c (zlen c) z) by lia. apply app_nil_r.
    - destruct Hw as (H1 & (c' & rd' & wr' & E' & Hp) & H2). rewrite E in E'. injection E' as <- <- <-. rewrite E.
      assert (put_fs fs n (NFile (pwrite c pos (sub rest 0 j)) rd wr) n = NFile (pwrite c pos (sub rest 0 j)) rd wr) as Ep by (unfold put_fs; rewrite beq_refl; reflexivity). rewrite Ep.
      assert (zlen (sub rest 0 j) = j) as Hlj by (rewrite zlen_sub; lia).
      split.
      { split; [exact H1|]. split; [|exact H2]. eexists _, _, _. split; [reflexivity|]. unfold pwrite. rewrite !zlen_app. pose proof (zlen_nonneg (zeros (pos - zlen c))).
        pose proof (zlen_nonneg (sub c (pos + zlen (sub rest 0 j)) (zlen c))). rewrite (zlen_sub c) by lia. lia. }
      split; [intros x Hx; unfold put_fs; destruct (beq x n) eqn:Ex; [apply beq_eq in Ex; subst x; contradiction|reflexivity]|].
      replace (pwrite (pwrite c pos (sub rest 0 j)) (pos + j) (sub rest j (zlen rest))) with (pwrite c pos rest).
      2: { rewrite <- Hlj at 2. rewrite pwrite_pwrite by lia. rewrite <- sub_app_split by lia. rewrite sub_full. reflexivity. }
      apply t2_run; [exact H2|]. apply (set_set (R ++ W) (World fs i o room m) n _ _).
    - destruct Hw as (H1 & (c' & rd' & wr' & E' & Hp) & H2). rewrite E'. rewrite pwrite_nil by lia.
      split; [exact H2|]. split; [reflexivity|]. apply t2_run; [exact H2|].
      split; [|split; [reflexivity|split; [reflexivity|split; reflexivity]]]. intros x _. cbn. destruct (beq x n) eqn:Ex; [apply beq_eq in Ex; subst x; exact E'|reflexivity].
    - unfold sys_stdout. cbn [w_outroom]. split; [apply Hw|]. split; [reflexivity|]. destruct (fits m c) eqn:Ef; [|split; [reflexivity|apply sees_refl]].
      replace (cut m c) with c; [split; [reflexivity|apply sees_refl]|].
      unfold fits, cut in *. destruct m as [z|]; [|reflexivity]. pose proof (zlen_nonneg c).
      rewrite Z.max_r by lia. symmetry. transitivity (sub c 0 (zlen c)); [|apply sub_full].
      rewrite (sub_app_split c 0 (zlen c) z) by lia. rewrite (sub_over c (zlen c) z) by lia. apply app_nil_r.
  Qed.

  (** The steps of others. *)
  Lemma other_step R W fs fs1 q : within R W fs q -> (forall n, In n R \/ In n W -> fs1 n = fs n) ->
    within R W fs1 q /\ snd (finish fs1 q) = snd (finish fs q) /\ sees (R ++ W) (fst (finish fs1 q)) (fst (finish fs q)).
  Proof.
    intros Hw Hf.
    assert (sees (R ++ W) (wof fs1 q) (wof fs q)) as HS.
    { split; [|split; [reflexivity|split; [reflexivity|split; reflexivity]]]. intros n Hn. apply in_app_or in Hn. apply Hf. exact Hn. }
    unfold within, finish in *. destruct (q_state q) as [p|n acc k|n pos rest p].
    - split; [exact Hw|]. apply t2_run; assumption.
    - destruct Hw as (H1 & H2 & H3). rewrite (Hf n (or_introl H1)). split; [split; [exact H1|split; [exact H2|exact H3]]|].
      destruct (fs n); apply t2_run; first [apply H3|exact HS].
    - destruct Hw as (H1 & H2 & H3). rewrite (Hf n (or_intror H1)). split; [split; [exact H1|split; [exact H2|exact H3]]|].
      destruct (fs n); apply t2_run; first [exact H3|exact HS|apply sees_set; exact HS].
  Qed.

  (** ** All of them *)
  Context (fs0 : fsystem).
  Definition inv (fs : fsystem) (a : job) (q : process) : Prop :=
    within (j_reads a) (j_writes a) fs q /\
    snd (finish fs q) = snd (finish fs0 (launch a)) /\
    sees (j_reads a ++ j_writes a) (fst (finish fs q)) (fst (finish fs0 (launch a))).
  Definition all_inv (js : list job) (fs : fsystem) (qs : list process) : Prop :=
    Forall2 (inv fs) js qs /\ forall n, (forall a, In a js -> ~ In n (j_writes a)) -> fs n = fs0 n.

  Lemma apart_other js1 a js2 b n : apart (js1 ++ a :: js2) -> In b js1 \/ In b js2 -> In n (j_reads b) \/ In n (j_writes b) -> ~ In n (j_writes a).
  Proof.
    intros Ha Hb Hn Hw.
    assert (exists i, nth_error (js1 ++ a :: js2) i = Some b /\ length js1 <> i) as (i & Hi & Hne).
    { destruct Hb as [Hb|Hb]; apply In_nth_error in Hb as [i Hi].
      - assert (i < length js1)%nat as L by (apply nth_error_Some; rewrite Hi; discriminate). exists i. split; [rewrite nth_error_app1 by exact L; exact Hi|lia].
      - exists (length js1 + S i)%nat. split; [|lia]. rewrite nth_error_app2 by lia. replace (length js1 + S i - length js1)%nat with (S i) by lia. exact Hi. }
    destruct (Ha (length js1) i a b) with (n := n) as [H1 H2]; [rewrite nth_error_app2, Nat.sub_diag by lia; reflexivity|exact Hi|exact Hne|exact Hw|].
    destruct Hn as [Hn|Hn]; contradiction.
  Qed.
  Lemma step_inv js fs l1 q l2 fs1 q1 : apart js -> all_inv js fs (l1 ++ q :: l2) -> pstep room fs q fs1 q1 -> all_inv js fs1 (l1 ++ q1 :: l2).
  Proof.
    intros Ha [HF Hn] Hs. apply Forall2_app_inv_r in HF as (js1 & js2' & F1 & F2 & ->). inversion F2 as [|a q' js2 l2' Ia F3]; subst.
    destruct Ia as (Hw & H1 & H2). destruct (own_step _ _ _ _ _ _ Hw Hs) as (Hw1 & Hout & E1 & E2).
    assert (forall b x, In b js1 \/ In b js2 -> inv fs b x -> inv fs1 b x) as HO.
    { intros b x Hb (Xw & X1 & X2). destruct (other_step _ _ fs fs1 x Xw) as (Y1 & Y2 & Y3).
      - intros n Hr. apply Hout. eapply apart_other; eassumption.
      - split; [exact Y1|]. split; [congruence|]. eapply sees_trans; eassumption. }
    split.
    - apply Forall2_app; [|constructor].
      + clear - F1 HO. assert (forall b x, In b js1 -> inv fs b x -> inv fs1 b x) as H by (intros; apply HO; [left|]; assumption). clear HO.
        induction F1 as [|b x r l Hb _ IH]; [constructor|]. constructor; [apply H; [left; reflexivity|exact Hb]|]. apply IH. intros. apply H; [right|]; assumption.
      + split; [exact Hw1|]. split; [congruence|]. eapply sees_trans; eassumption.
      + clear - F3 HO. assert (forall b x, In b js2 -> inv fs b x -> inv fs1 b x) as H by (intros; apply HO; [right|]; assumption). clear HO.
        induction F3 as [|b x r l Hb _ IH]; [constructor|]. constructor; [apply H; [left; reflexivity|exact Hb]|]. apply IH. intros. apply H; [right|]; assumption.
    - intros n Hall. rewrite Hout by (apply Hall; apply in_elt). apply Hn. exact Hall.
  Qed.
  Lemma execution_inv js fs qs fs1 qs1 : apart js -> execution room fs qs fs1 qs1 -> all_inv js fs qs -> all_inv js fs1 qs1.
  Proof. intros Ha He. induction He as [fs qs|fs l1 q l2 fs1 q1 fs2 qs Hs He IH]; intros Hi; [exact Hi|]. apply IH. eapply step_inv; eassumption. Qed.
  Lemma start_inv iter fuel js : Forall (fun j => uses iter fuel (j_prog j) (j_reads j) (j_writes j)) js -> all_inv js fs0 (map launch js).
  Proof.
    intros H. split; [|reflexivity]. induction H as [|a l Ha _ IH]; cbn [map]; constructor; [|exact IH].
    split; [apply (uses_touches _ _ _ _ _ Ha)|]. split; [reflexivity|apply sees_refl].
  Qed.

  Lemma C100_lemma iter fuel js fs1 qs : Forall (fun j => uses iter fuel (j_prog j) (j_reads j) (j_writes j)) js -> apart js ->
    execution room fs0 (map launch js) fs1 qs ->
    length qs = length js /\
    (forall i j q s w t, nth_error js i = Some j -> nth_error qs i = Some q -> ended q s -> alone j fs0 room = (w, t) ->
       s = t /\ q_stdout q = w_stdout w /\ forall n, In n (j_writes j) -> fs1 n = w_fs w n) /\
    (forall n, (forall j, In j js -> ~ In n (j_writes j)) -> fs1 n = fs0 n).
  Proof.
    intros Hu Ha He. destruct (execution_inv js _ _ _ _ Ha He (start_inv _ _ _ Hu)) as [HF Hn].
    split; [clear - HF; induction HF as [|a x r l _ _ IH]; cbn [length]; [reflexivity|rewrite IH; reflexivity]|]. split; [|exact Hn].
    intros i j q s w t Hj Hq Hend Hal.
    assert (inv fs1 j q) as (Hw & H1 & H2).
    { clear - HF Hj Hq. revert i Hj Hq. induction HF as [|a x r l Hx _ IH]; intros [|i] Hj Hq; cbn [nth_error] in *; [discriminate|discriminate| |apply (IH i); assumption].
      injection Hj as <-. injection Hq as <-. exact Hx. }
    destruct Hend as [r i' o m]. unfold finish, launch, started, wof, alone, main_run in *. cbn [q_state q_stdin q_stdout q_outroom run snd fst] in *.
    destruct (run (j_prog j) _) as [w' r']. cbn [fst snd] in *. injection Hal as <- <-. destruct H2 as (F & _ & O & _). cbn [w_fs w_stdout] in *.
    split; [congruence|]. split; [exact O|]. intros n Hin. apply F. apply in_or_app. right. exact Hin.
  Qed.

  (** ** They can go on *)
  Lemma exec_trans fs qs fs1 qs1 fs2 qs2 : execution room fs qs fs1 qs1 -> execution room fs1 qs1 fs2 qs2 -> execution room fs qs fs2 qs2.
  Proof. intros H. induction H as [|fs l1 q l2 fs1 q1 fs2' qs Hs He IH]; intros H2; [exact H2|]. eapply ex_step; [exact Hs|]. apply IH. exact H2. Qed.
  Lemma exec_one fs l1 q l2 fs1 q1 : pstep room fs q fs1 q1 -> execution room fs (l1 ++ q :: l2) fs1 (l1 ++ q1 :: l2).
  Proof. intros H. eapply ex_step; [exact H|constructor]. Qed.
  Lemma run_ends l1 l2 p : forall fs i o m, exists fs1 q s, execution room fs (l1 ++ Process (Running p) i o m :: l2) fs1 (l1 ++ q :: l2) /\ ended q s.
  Proof.
    induction p as [r|n k IH|k IH|n k IH|n c k IH|c k IH]; intros fs i o m.
    - eexists fs, _, _. split; [constructor|constructor].
    - destruct (fs n) as [| |c [|] wr|] eqn:E;
        try (destruct (IH (Err (EOther "os.ReadFile")) fs i o m) as (fs1 & q & s & H1 & H2); exists fs1, q, s; split; [|exact H2];
             eapply ex_step; [apply st_read_fails; rewrite E; reflexivity|exact H1]).
      destruct (IH (Ok c) fs i o m) as (fs1 & q & s & H1 & H2). exists fs1, q, s. split; [|exact H2].
      eapply ex_step; [eapply st_read_open; exact E|].
      destruct (Z.eq_dec (zlen c) 0) as [Ez|Ez].
      + apply zlen_zero_nil in Ez. subst c. eapply ex_step; [eapply st_read_end; [exact E|cbn; lia]|exact H1].
      + pose proof (zlen_nonneg c). eapply ex_step; [eapply (st_read room fs n [] k i o m c true wr (zlen c) E); cbn; lia|].
        cbn [app]. change (zlen (@nil Z)) with 0. rewrite Z.add_0_l, sub_full. eapply ex_step; [eapply st_read_end; [exact E|lia]|exact H1].
    - destruct i as [s0|].
      + destruct (IH (Ok s0) fs (Some []) o m) as (fs1 & q & s & H1 & H2). exists fs1, q, s. split; [|exact H2]. eapply ex_step; [apply st_stdin|exact H1].
      + destruct (IH (Err (EOther "os.Stdin")) fs None o m) as (fs1 & q & s & H1 & H2). exists fs1, q, s. split; [|exact H2]. eapply ex_step; [apply st_stdin|exact H1].
    - destruct (IH (sys_notexist (fs n)) fs i o m) as (fs1 & q & s & H1 & H2). exists fs1, q, s. split; [|exact H2]. eapply ex_step; [apply st_stat|exact H1].
    - destruct (can_write (fs n)) eqn:E.
      2: { destruct (IH (Err (EOther "os.WriteFile")) fs i o m) as (fs1 & q & s & H1 & H2). exists fs1, q, s. split; [|exact H2]. eapply ex_step; [apply st_write_fails; exact E|exact H1]. }
      remember (if fits room c then Ok tt else Err (EOther "os.WriteFile")) as r eqn:Er.
      assert (exists rd wr, forall x, written (fs n) x = NFile x rd wr) as (rd & wr & Ew) by (destruct (fs n); cbn [written]; eexists _, _; intros; reflexivity).
      remember (put_fs fs n (NFile [] rd wr)) as fsa eqn:Ea. assert (fsa n = NFile [] rd wr) as Ea' by (subst fsa; unfold put_fs; rewrite beq_refl; reflexivity).
      destruct (Z.eq_dec (zlen (cut room c)) 0) as [Ez|Ez].
      + apply zlen_zero_nil in Ez. destruct (IH r fsa i o m) as (fs1 & q & s & H1 & H2). exists fs1, q, s. split; [|exact H2].
        eapply ex_step; [apply st_write_open; exact E|]. rewrite <- Er, Ez, Ew, <- Ea. eapply ex_step; [apply st_write_end|exact H1].
      + pose proof (zlen_nonneg (cut room c)).
        destruct (IH r (put_fs fsa n (NFile (cut room c) rd wr)) i o m) as (fs1 & q & s & H1 & H2). exists fs1, q, s. split; [|exact H2].
        eapply ex_step; [apply st_write_open; exact E|]. rewrite <- Er, Ew, <- Ea.
        eapply ex_step; [eapply (st_write room fsa n 0 (cut room c) (k r) i o m [] rd wr (zlen (cut room c)) Ea'); lia|].
        rewrite sub_full, pwrite_empty. rewrite (sub_nil (cut room c)) by lia. eapply ex_step; [apply st_write_end|exact H1].
    - remember (if fits m c then Ok tt else Err (EOther "os.Stdout.Write")) as r eqn:Er.
      destruct (IH r fs i (o ++ cut m c) m) as (fs1 & q & s & H1 & H2). exists fs1, q, s. split; [|exact H2]. eapply ex_step; [apply st_stdout|]. rewrite <- Er. exact H1.
  Qed.
  Lemma process_ends R W l1 l2 fs q : within R W fs q -> exists fs1 q1 s, execution room fs (l1 ++ q :: l2) fs1 (l1 ++ q1 :: l2) /\ ended q1 s.
  Proof.
    intros Hw. destruct q as [[p|n acc k|n pos rest p] i o m]; unfold within in Hw; cbn [q_state] in Hw.
    - apply run_ends.
    - destruct Hw as (_ & (c & rd & wr & E) & _). pose proof (zlen_nonneg acc). destruct (Z_le_dec (zlen c) (zlen acc)) as [L|L].
      + destruct (run_ends l1 l2 (k (Ok acc)) fs i o m) as (fs1 & q & s & H1 & H2). exists fs1, q, s. split; [|exact H2].
        eapply ex_step; [eapply st_read_end; [exact E|exact L]|exact H1].
      + remember (acc ++ sub c (zlen acc) (zlen acc + (zlen c - zlen acc))) as acc' eqn:Ea.
        assert (zlen acc' = zlen c) as El by (subst acc'; rewrite zlen_app, zlen_sub by lia; lia).
        destruct (run_ends l1 l2 (k (Ok acc')) fs i o m) as (fs1 & q & s & H1 & H2). exists fs1, q, s. split; [|exact H2].
        eapply ex_step; [eapply (st_read room fs n acc k i o m c rd wr (zlen c - zlen acc) E); lia|]. rewrite <- Ea.
        eapply ex_step; [eapply st_read_end; [exact E|lia]|exact H1].
    - destruct Hw as (_ & (c & rd & wr & E & Hp) & _). pose proof (zlen_nonneg rest). destruct (Z.eq_dec (zlen rest) 0) as [Ez|Ez].
      + apply zlen_zero_nil in Ez. subst rest. destruct (run_ends l1 l2 p fs i o m) as (fs1 & q & s & H1 & H2). exists fs1, q, s. split; [|exact H2].
        eapply ex_step; [apply st_write_end|exact H1].
      + destruct (run_ends l1 l2 p (put_fs fs n (NFile (pwrite c pos (sub rest 0 (zlen rest))) rd wr)) i o m) as (fs1 & q & s & H1 & H2). exists fs1, q, s. split; [|exact H2].
        eapply ex_step; [eapply (st_write room fs n pos rest p i o m c rd wr (zlen rest) E); lia|]. rewrite (sub_nil rest (zlen rest)) by lia. eapply ex_step; [apply st_write_end|exact H1].
  Qed.
  Lemma C100_ends_lemma iter fuel js fs1 qs : Forall (fun j => uses iter fuel (j_prog j) (j_reads j) (j_writes j)) js -> apart js ->
    execution room fs0 (map launch js) fs1 qs ->
    exists fs2 qs2, execution room fs1 qs fs2 qs2 /\ Forall (fun q => exists s, ended q s) qs2.
  Proof.
    intros Hu Ha He. pose proof (execution_inv js _ _ _ _ Ha He (start_inv _ _ _ Hu)) as Hi. clear He.
    assert (forall l2 l1 fs, all_inv js fs (l1 ++ l2) -> Forall (fun q => exists s, ended q s) l1 ->
      exists fs2 qs2, execution room fs (l1 ++ l2) fs2 qs2 /\ Forall (fun q => exists s, ended q s) qs2) as H.
    { intros l2. induction l2 as [|q l2 IH]; intros l1 fs Hv He.
      - rewrite app_nil_r in *. exists fs, l1. split; [constructor|exact He].
      - assert (exists R W, within R W fs q) as (R & W & Hw).
        { destruct Hv as [HF _]. apply Forall2_app_inv_r in HF as (js1 & js2 & _ & F2 & _). inversion F2 as [|a q' r l (Hw & _) _]; subst. eexists _, _. exact Hw. }
        destruct (process_ends R W l1 l2 fs q Hw) as (fs1' & q1 & s & E1 & E2).
        destruct (IH (l1 ++ [q1]) fs1') as (fs2 & qs2 & E3 & E4).
        + rewrite <- app_assoc. cbn [app]. apply (execution_inv js _ _ _ _ Ha E1 Hv).
        + apply Forall_app. split; [exact He|]. constructor; [exists s; exact E2|constructor].
        + exists fs2, qs2. split; [|exact E4]. eapply exec_trans; [exact E1|]. rewrite <- app_assoc in E3. exact E3. }
    apply (H qs [] fs1 Hi). constructor.
  Qed.
End Room.
