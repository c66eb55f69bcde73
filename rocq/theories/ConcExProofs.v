(** ConcExProofs.v -- proofs for C100: processes that use the same image. *)
From Verif Require Import GoBase GoLemmas TypesModel DiskModel DiskSpec DiskProofs DiskOpenProofs.
From Verif Require Import SupermonModel SupermonSpec SupermonTableSpec SupermonStoreSpec SupermonProofs SupermonOpProofs SupermonNameProofs SupermonFinalProofs SupermonStmtProofs.
From Verif Require Import ProdosModel CmdModel CmdSpec CmdProofs CmdStmtProofs MainModel SdSpec SdProofs SdStmtProofs PipeSpec PipeProofs PipeExProofs NakedCmdSpec NakedCmdProofs NakedOpenProofs NakedExProofs SessionSpec SessionProofs SessionExProofs
  ConcModel ConcSpec ConcProofs.
From Coq Require Import ZifyBool ZifyNat.
Ltac Zify.zify_post_hook ::= Z.div_mod_to_equations.
Local Opaque zrange zeros sub.

(** ** A process alone, in steps *)
Section Steps.
  Context (room : option Z).
  Lemma run_steps l1 l2 p : forall fs v w r, (forall n, fs n = w_fs v n) -> w_room v = room -> run p v = (w, r) ->
    exists fs1, execution room fs (l1 ++ Process (Running p) (w_stdin v) (w_stdout v) (w_outroom v) :: l2) fs1
      (l1 ++ Process (Running (PRet r)) (w_stdin w) (w_stdout w) (w_outroom w) :: l2) /\ (forall n, fs1 n = w_fs w n) /\ w_room w = room.
  Proof.
    induction p as [r0|n k IH|k IH|n k IH|n c k IH|c k IH]; intros fs v w r Hv Hr E; cbn [run] in E.
    - injection E as <- <-. exists fs. split; [constructor|]. split; [exact Hv|exact Hr].
    - destruct (fs n) as [| |c [|] wr|] eqn:Ef; pose proof Ef as Ef'; rewrite Hv in Ef'; rewrite Ef' in E; cbn [sys_read] in E;
        try (destruct (IH _ fs v w r Hv Hr E) as (fs1 & H1 & H2 & H3); exists fs1; split; [|split; [exact H2|exact H3]];
             eapply ex_step; [apply st_read_fails; rewrite Ef; reflexivity|exact H1]).
      destruct (IH _ fs v w r Hv Hr E) as (fs1 & H1 & H2 & H3). exists fs1. split; [|split; [exact H2|exact H3]].
      eapply ex_step; [eapply st_read_open; exact Ef|].
      destruct (Z.eq_dec (zlen c) 0) as [Ez|Ez].
      + apply zlen_zero_nil in Ez. subst c. eapply ex_step; [eapply st_read_end; [exact Ef|cbn; lia]|exact H1].
      + pose proof (zlen_nonneg c). eapply ex_step; [eapply (st_read room fs n [] k _ _ _ c true wr (zlen c) Ef); cbn; lia|].
        cbn [app]. change (zlen (@nil Z)) with 0. rewrite Z.add_0_l, sub_full. eapply ex_step; [eapply st_read_end; [exact Ef|lia]|exact H1].
    - unfold sys_stdin in E. destruct (w_stdin v) as [s0|] eqn:Es.
      + destruct (IH _ fs (no_stdin v) w r Hv Hr E) as (fs1 & H1 & H2). exists fs1. split; [|exact H2]. eapply ex_step; [apply st_stdin|exact H1].
      + destruct (IH _ fs v w r Hv Hr E) as (fs1 & H1 & H2). exists fs1. split; [|exact H2]. eapply ex_step; [apply st_stdin|]. rewrite Es in H1. exact H1.
    - rewrite <- Hv in E. destruct (IH _ fs v w r Hv Hr E) as (fs1 & H1 & H2). exists fs1. split; [|exact H2]. eapply ex_step; [apply st_stat|exact H1].
    - unfold sys_write in E. rewrite <- Hv, Hr in E. destruct (can_write (fs n)) eqn:Ec.
      2: { destruct (IH _ fs v w r Hv Hr E) as (fs1 & H1 & H2). exists fs1. split; [|exact H2]. eapply ex_step; [apply st_write_fails; exact Ec|exact H1]. }
      assert (exists rd wr, forall x, written (fs n) x = NFile x rd wr) as (rd & wr & Ew) by (destruct (fs n); cbn [written]; eexists _, _; intros; reflexivity).
      remember (if fits room c then Ok tt else Err (EOther "os.WriteFile")) as r1 eqn:Er.
      assert (run (k r1) (set_fs v n (NFile (cut room c) rd wr)) = (w, r)) as E1.
      { rewrite !Ew in E. destruct (fits room c) eqn:Ef; subst r1; [|exact E]. replace (cut room c) with c; [exact E|]. symmetry.
        unfold fits, cut in *. destruct room as [z|]; [|reflexivity]. pose proof (zlen_nonneg c). rewrite Z.max_r by lia.
        transitivity (sub c 0 (zlen c)); [|apply sub_full]. rewrite (sub_app_split c 0 (zlen c) z) by lia. rewrite (sub_over c (zlen c) z) by lia. apply app_nil_r. }
      remember (put_fs fs n (NFile [] rd wr)) as fsa eqn:Ea. assert (fsa n = NFile [] rd wr) as Ea' by (subst fsa; unfold put_fs; rewrite beq_refl; reflexivity).
      destruct (Z.eq_dec (zlen (cut room c)) 0) as [Ez|Ez].
      + apply zlen_zero_nil in Ez. destruct (IH r1 fsa (set_fs v n (NFile (cut room c) rd wr)) w r) as (fs1 & H1 & H2); [|exact Hr|exact E1|].
        { intros x. subst fsa. unfold put_fs. cbn [set_fs w_fs]. rewrite Ez. destruct (beq x n); [reflexivity|apply Hv]. }
        exists fs1. split; [|exact H2]. eapply ex_step; [apply st_write_open; exact Ec|]. rewrite <- Er, Ez, Ew, <- Ea. eapply ex_step; [apply st_write_end|exact H1].
      + pose proof (zlen_nonneg (cut room c)).
        destruct (IH r1 (put_fs fsa n (NFile (cut room c) rd wr)) (set_fs v n (NFile (cut room c) rd wr)) w r) as (fs1 & H1 & H2); [|exact Hr|exact E1|].
        { intros x. subst fsa. unfold put_fs. cbn [set_fs w_fs]. destruct (beq x n); [reflexivity|apply Hv]. }
        exists fs1. split; [|exact H2]. eapply ex_step; [apply st_write_open; exact Ec|]. rewrite <- Er, Ew, <- Ea.
        eapply ex_step; [eapply (st_write room fsa n 0 (cut room c) (k r1) _ _ _ [] rd wr (zlen (cut room c)) Ea'); lia|].
        rewrite sub_full, pwrite_empty. rewrite (sub_nil (cut room c)) by lia. eapply ex_step; [apply st_write_end|exact H1].
    - unfold sys_stdout in E. remember (if fits (w_outroom v) c then Ok tt else Err (EOther "os.Stdout.Write")) as r1 eqn:Er.
      assert (run (k r1) (add_out v (cut (w_outroom v) c)) = (w, r)) as E1.
      { destruct (fits (w_outroom v) c) eqn:Ef; subst r1; [|exact E]. replace (cut (w_outroom v) c) with c; [exact E|]. symmetry.
        unfold fits, cut in *. destruct (w_outroom v) as [z|]; [|reflexivity]. pose proof (zlen_nonneg c). rewrite Z.max_r by lia.
        transitivity (sub c 0 (zlen c)); [|apply sub_full]. rewrite (sub_app_split c 0 (zlen c) z) by lia. rewrite (sub_over c (zlen c) z) by lia. apply app_nil_r. }
      destruct (IH r1 fs (add_out v (cut (w_outroom v) c)) w r) as (fs1 & H1 & H2); [exact Hv|exact Hr|exact E1|].
      exists fs1. split; [|exact H2]. eapply ex_step; [apply st_stdout|]. rewrite <- Er. exact H1.
  Qed.

  (** ** Programs that, once they have read the image, do not look at it again before they write it *)
  Fixpoint still {A} (img : bytes) (p : prog A) : Prop :=
    match p with
    | PRet _ => True
    | PRead n k => n <> img /\ forall r, still img (k r)
    | PStdin k => forall r, still img (k r)
    | _ => False
    end.
  Fixpoint blind (img : bytes) (p : prog unit) : Prop :=
    match p with
    | PRet r => r <> Ok tt
    | PRead n k => n <> img /\ forall r, blind img (k r)
    | PStdin k => forall r, blind img (k r)
    | PWrite n _ k => n = img /\ forall r, k r = PRet r
    | _ => False
    end.
  Lemma blind_bind {A} img (p : prog A) (f : A -> prog unit) : still img p -> (forall a, blind img (f a)) -> blind img (pbind p f).
  Proof.
    intros Hp Hf. induction p as [r|n k IH|k IH|n k IH|n c k IH|c k IH]; cbn in *.
    - destruct r; [apply Hf|discriminate|discriminate].
    - destruct Hp as [H1 H2]. split; [exact H1|]. intro r. apply IH. apply H2.
    - intro r. apply IH. apply Hp.
    - contradiction.
    - contradiction.
    - contradiction.
  Qed.
  Lemma blind_out img new : img <> s2b "-" -> blind img (WriteOutput img new true).
  Proof. intros H. unfold WriteOutput. change dash with (s2b "-"). rewrite (beq_false _ _ H). cbn. split; [reflexivity|]. intros r. reflexivity. Qed.
  Lemma blind_back img op o : img <> s2b "-" -> blind img (WriteBack img op o true).
  Proof. intros H. apply blind_bind; [exact I|]. intros a. apply blind_out. exact H. Qed.
  Lemma in_place_shape iter fuel p img : in_place iter fuel p img ->
    (exists r, p = PRet r /\ r <> Ok tt) \/ exists k, p = PRead img k /\ (forall r, blind img (k r)) /\ forall e, k (Err e) = PRet (Err e).
  Proof.
    intros H. destruct H as [order system force img name Hi|order system ft ow addr img target source Hi Hs|order img name addr start Hi|a b ow img Hi].
    - right. unfold DeleteCmd_Run, OpenFilename. change dash with (s2b "-"). rewrite (beq_false _ _ Hi). cbn [pbind]. eexists. split; [reflexivity|]. split; [|intros e; reflexivity].
      intros r. destruct r as [bb|e|]; [|discriminate|discriminate]. apply blind_bind; [exact I|]. intros [op o]. destruct (Op_Delete op name) as [op' r'].
      apply blind_bind; [exact I|]. intros d. destruct (_ && _); [discriminate|]. apply blind_back. exact Hi.
    - right. unfold PutCmd_Run, OpenFilename. change dash with (s2b "-"). rewrite (beq_false _ _ Hi). cbn [pbind andb]. eexists. split; [reflexivity|]. split; [|intros e; reflexivity].
      intros r. destruct r as [bb|e|]; [|discriminate|discriminate]. apply blind_bind; [exact I|]. intros [op o].
      apply blind_bind. { unfold FileContentsOrStdIn. destruct (beq source dash); [intro; exact I|]. split; [exact Hs|]. intro. exact I. }
      intros data. apply blind_bind; [exact I|]. intros t. destruct (Op_PutFile op _ ow) as [op' r']. apply blind_bind; [exact I|]. intros _. apply blind_back. exact Hi.
    - unfold MkHelloCmd_Run. cbv zeta. destruct (negb _); [left; eexists; split; [reflexivity|discriminate]|]. destruct (_ <? addr); [left; eexists; split; [reflexivity|discriminate]|].
      right. unfold OpenFilename. change dash with (s2b "-"). rewrite (beq_false _ _ Hi). cbn [pbind]. eexists. split; [reflexivity|]. split; [|intros e; reflexivity].
      intros r. destruct r as [bb|e|]; [|discriminate|discriminate]. apply blind_bind; [exact I|]. intros [[d|nak|d] o]; [discriminate| |discriminate].
      apply blind_bind; [exact I|]. intros [[x s] z]. destruct (_ && _); [discriminate|].
      destruct (Op_PutFile _ _ true) as [op' r']. apply blind_bind; [exact I|]. intros _. apply blind_back. exact Hi.
    - unfold ReorderCmd_Run. destruct (getOrders img a [] b) as [[x y]|e|]; [|left; eexists; split; [reflexivity|discriminate]..].
      right. unfold plift at 1. cbn [pbind]. unfold FileContentsOrStdIn. change dash with (s2b "-"). rewrite (beq_false _ _ Hi). cbn [pbind]. eexists. split; [reflexivity|]. split; [|intros e; reflexivity].
      intros r. destruct r as [bb|e|]; [|discriminate|discriminate]. cbn [pbind].
      destruct (LogicalToPhysicalByName x); [|discriminate]. destruct (PhysicalToLogicalByName y); [|discriminate].
      apply blind_bind; [exact I|]. intros raw. apply blind_bind; [exact I|]. intros to. change (beq [] []) with true. cbv iota. apply blind_out. exact Hi.
  Qed.

  (** Such a program does the same after the image has changed under it. *)
  Definition but (img : bytes) (w v : world) : Prop :=
    (forall n, n <> img -> w_fs w n = w_fs v n) /\ w_stdin w = w_stdin v /\ w_stdout w = w_stdout v /\ w_room w = w_room v /\ w_outroom w = w_outroom v /\
    exists a b rd wr, w_fs w img = NFile a rd wr /\ w_fs v img = NFile b rd wr.
  Lemma blind_run img p : forall w v w1, blind img p -> but img w v -> run p w = (w1, Ok tt) ->
    exists v1, run p v = (v1, Ok tt) /\ w_fs v1 img = w_fs w1 img /\ w_stdout v1 = w_stdout w1.
  Proof.
    induction p as [r|n k IH|k IH|n k IH|n c k IH|c k IH]; intros w v w1 Hb Ha E; cbn [run blind] in *.
    - injection E as _ E. contradiction.
    - destruct Hb as [H1 H2]. destruct (Ha) as (F & _). rewrite <- (F n H1). apply (IH _ w v); [apply H2|exact Ha|exact E].
    - destruct (Ha) as (F & S & O & R1 & R2 & X). unfold sys_stdin in *. rewrite <- S. destruct (w_stdin w) as [s|].
      + apply (IH (Ok s) (no_stdin w) (no_stdin v)); [apply Hb| |exact E]. split; [exact F|]. split; [reflexivity|]. split; [exact O|]. split; [exact R1|]. split; [exact R2|exact X].
      + apply (IH _ w v); [apply Hb|exact Ha|exact E].
    - contradiction.
    - destruct Hb as [-> H2]. destruct (Ha) as (F & S & O & R1 & R2 & (a & b & rd & wr & X1 & X2)). unfold sys_write in *. rewrite X1 in E. rewrite X2, <- R1.
      cbn [can_write written] in *. destruct wr; [destruct (fits (w_room w) c)|]; rewrite H2 in E; cbn [run] in E; [|discriminate E|discriminate E].
      injection E as <-. rewrite H2. cbn [run]. eexists. split; [reflexivity|]. cbn [set_fs w_fs w_stdout]. rewrite beq_refl. split; [reflexivity|symmetry; exact O].
    - contradiction.
  Qed.
  Lemma in_place_file iter fuel p img w w1 : in_place iter fuel p img -> run p w = (w1, Ok tt) ->
    exists c c', w_fs w img = NFile c true true /\ w_fs w1 img = NFile c' true true /\ forall n, n <> img -> w_fs w1 n = w_fs w n.
  Proof.
    intros Hp E. destruct (in_place_shape _ _ _ _ Hp) as [(r & -> & Hr)|(k & -> & Hk & He)]; [injection E as _ E; contradiction|]. cbn [run] in E.
    assert (forall q v, blind img q -> run q v = (w1, Ok tt) -> exists c', can_write (w_fs v img) = true /\ w_fs w1 img = written (w_fs v img) c' /\ (forall n, n <> img -> w_fs w1 n = w_fs v n)) as H.
    { clear. induction q as [r|n k IH|k IH|n k IH|n c k IH|c k IH]; intros v Hb E; cbn [run blind] in *.
      - injection E as _ E. contradiction.
      - destruct Hb as [_ H2]. apply (IH _ v (H2 _) E).
      - unfold sys_stdin in E. destruct (w_stdin v); [apply (IH _ _ (Hb _) E)|apply (IH _ _ (Hb _) E)].
      - contradiction.
      - destruct Hb as [-> H2]. unfold sys_write in E. destruct (can_write (w_fs v img)) eqn:Ec; [|rewrite H2 in E; discriminate E].
        destruct (fits (w_room v) c); rewrite H2 in E; cbn [run] in E; [|discriminate E]. injection E as <-. exists c. split; [reflexivity|]. cbn [set_fs w_fs]. rewrite beq_refl.
        split; [reflexivity|]. intros n Hn. rewrite (beq_false _ _ Hn). reflexivity.
      - contradiction. }
    assert (exists c wr, w_fs w img = NFile c true wr) as (c & wr & Ef).
    { destruct (w_fs w img) as [| |c [|] wr|]; cbn [sys_read] in E; [| |eexists _, _; reflexivity|..]; exfalso; rewrite He in E; discriminate E. }
    rewrite Ef in E. destruct (H _ w (Hk _) E) as (c' & Ec & Ew & Eo). rewrite Ef in Ec, Ew. cbn [can_write written] in Ec, Ew. destruct wr; [|discriminate Ec].
    exists c, c'. split; [exact Ef|]. split; [exact Ew|exact Eo].
  Qed.

  (** ** Two changes at the same time: one is lost *)
  Lemma status_ok r : main_status r = 0 -> r = Ok tt.
  Proof. destruct r as [[]|e|]; intros H; [reflexivity|discriminate H|discriminate H]. Qed.
  Lemma alone_run j fs w : alone j fs room = (w, 0) -> run (j_prog j) (World fs (j_stdin j) [] room (j_outroom j)) = (w, Ok tt).
  Proof. unfold alone, main_run. destruct (run _ _) as [v r]. intros E. injection E as -> E. rewrite (status_ok _ E). reflexivity. Qed.
  Lemma read_whole l1 l2 fs n k i o m c wr : fs n = NFile c true wr ->
    execution room fs (l1 ++ Process (Running (PRead n k)) i o m :: l2) fs (l1 ++ Process (Running (k (Ok c))) i o m :: l2).
  Proof.
    intros Ef. eapply ex_step; [eapply st_read_open; exact Ef|]. pose proof (zlen_nonneg c). destruct (Z.eq_dec (zlen c) 0) as [Ez|Ez].
    - apply zlen_zero_nil in Ez. subst c. eapply ex_step; [eapply st_read_end; [exact Ef|cbn; lia]|constructor].
    - eapply ex_step; [eapply (st_read room fs n [] k _ _ _ c true wr (zlen c) Ef); cbn; lia|].
      cbn [app]. change (zlen (@nil Z)) with 0. rewrite Z.add_0_l, sub_full. eapply ex_step; [eapply st_read_end; [exact Ef|lia]|constructor].
  Qed.
  Lemma C100_lost_lemma iter fuel fs0 x y img w1 w2 : in_place iter fuel (j_prog x) img -> in_place iter fuel (j_prog y) img ->
    alone x fs0 room = (w1, 0) -> alone y fs0 room = (w2, 0) ->
    exists fs1 a b, execution room fs0 [launch x; launch y] fs1 [a; b] /\ ended a 0 /\ ended b 0 /\ fs1 img = w_fs w2 img.
  Proof.
    intros Hx Hy E1 E2. apply alone_run in E1, E2.
    destruct (in_place_file _ _ _ _ _ _ Hx E1) as (c & c' & Ef & Ef1 & Eo). cbn [w_fs] in Ef, Eo.
    destruct (in_place_shape _ _ _ _ Hy) as [(r & Ey & Hr)|(k & Ey & Hk & _)]; [rewrite Ey in E2; injection E2 as _ E2; contradiction|].
    rewrite Ey in E2. cbn [run w_fs] in E2. rewrite Ef in E2. cbn [sys_read] in E2.
    destruct (run_steps [] [Process (Running (k (Ok c))) (j_stdin y) [] (j_outroom y)] _ fs0 (World fs0 (j_stdin x) [] room (j_outroom x)) w1 _ (fun n => eq_refl) eq_refl E1) as (fs1 & X1 & Xf & Xr).
    destruct (blind_run img (k (Ok c)) (World fs0 (j_stdin y) [] room (j_outroom y)) (World (w_fs w1) (j_stdin y) [] room (j_outroom y)) w2 (Hk _)) as (v1 & E3 & Ev & _).
    { split; [intros n Hn; cbn [w_fs]; symmetry; apply Eo; exact Hn|]. split; [reflexivity|]. split; [reflexivity|]. split; [reflexivity|]. split; [reflexivity|].
      exists c, c', true, true. split; [exact Ef|exact Ef1]. } { exact E2. }
    destruct (run_steps [Process (Running (PRet (Ok tt))) (w_stdin w1) (w_stdout w1) (w_outroom w1)] [] _ fs1 (World (w_fs w1) (j_stdin y) [] room (j_outroom y)) v1 _ Xf eq_refl E3) as (fs2 & Y1 & Yf & _).
    eexists fs2, _, _. split; [|split; [|split]].
    - unfold launch, started. rewrite Ey. eapply exec_trans; [apply (read_whole [Process (Running (j_prog x)) (j_stdin x) [] (j_outroom x)] [] fs0 img k _ _ _ _ _ Ef)|].
      eapply exec_trans; [exact X1|exact Y1].
    - apply (ended_ret (Ok tt)).
    - apply (ended_ret (Ok tt)).
    - rewrite Yf. exact Ev.
  Qed.

  (** ** Looking at an image that is being written *)
  Fixpoint prints (p : prog unit) : Prop := match p with PRet _ => True | PStdout _ k => forall r, prints (k r) | _ => False end.
  Lemma prints_bind {A} (a : res A) f : (forall x, prints (f x)) -> prints (pbind (plift a) f).
  Proof. intros H. destruct a; [apply H|exact I|exact I]. Qed.
  Lemma prints_ls short fds : prints (ls_lines short fds).
  Proof. induction fds as [|fd fds IH]; [exact I|]. cbn. intros r. exact IH. Qed.
  Lemma looks_shape iter fuel p img : looks iter fuel p img -> exists k, p = PRead img k /\ (forall r, prints (k r)) /\
    (~ ext_is img (s2b "hdv") -> exists e, k (Ok []) = PRet (Err e)).
  Proof.
    intros H. destruct H as [order system short img dir Hi|order system img name Hi].
    - unfold LsCmd_Run, OpenFilename. change dash with (s2b "-"). rewrite (beq_false _ _ Hi). cbn [pbind]. eexists. split; [reflexivity|]. split.
      + intros [bb|e|]; [|exact I|exact I]. apply prints_bind. intros [op o]. destruct (_ && _); [exact I|]. apply prints_bind. intros fds. apply prints_ls.
      + intros He. rewrite <- ext_hdv in He. unfold OpenImage. change (zlen (@nil Z) =? FloppyDiskBytes) with false. change (zlen (@nil Z) =? FloppyDiskBytes13Sector) with false.
        cbv iota. destruct (beq _ _); [contradiction He; reflexivity|]. eexists. reflexivity.
    - unfold DumpCmd_Run, OpenFilename. change dash with (s2b "-"). rewrite (beq_false _ _ Hi). cbn [pbind]. eexists. split; [reflexivity|]. split.
      + intros [bb|e|]; [|exact I|exact I]. apply prints_bind. intros [op o]. apply prints_bind. intros fi. cbn. intros r. exact I.
      + intros He. rewrite <- ext_hdv in He. unfold OpenImage. change (zlen (@nil Z) =? FloppyDiskBytes) with false. change (zlen (@nil Z) =? FloppyDiskBytes13Sector) with false.
        cbv iota. destruct (beq _ _); [contradiction He; reflexivity|]. eexists. reflexivity.
  Qed.
  Lemma prints_run p : prints p -> forall w v w1 r, w_stdout w = w_stdout v -> w_outroom w = w_outroom v -> run p w = (w1, r) ->
    exists v1, run p v = (v1, r) /\ w_stdout v1 = w_stdout w1 /\ w_fs v1 = w_fs v.
  Proof.
    induction p as [r0|n k IH|k IH|n k IH|n c k IH|c k IH]; intros Hp w v w1 r Ho Hm E; cbn [run prints] in *; try contradiction.
    - injection E as <- <-. exists v. split; [reflexivity|]. split; [symmetry; exact Ho|reflexivity].
    - unfold sys_stdout in *. rewrite <- Hm. destruct (fits (w_outroom w) c).
      + apply (IH _ (Hp _) (add_out w c) (add_out v c)); [cbn; rewrite Ho; reflexivity|exact Hm|exact E].
      + apply (IH _ (Hp _) (add_out w (cut (w_outroom w) c)) (add_out v (cut (w_outroom w) c))); [cbn; rewrite Ho; reflexivity|exact Hm|exact E].
  Qed.

  (** A command that looks at an image between the opening and the writing finds it empty. *)
  Lemma blind_stop img l1 l2 p : forall fs v w, blind img p -> (forall n, fs n = w_fs v n) -> w_room v = room -> run p v = (w, Ok tt) ->
    exists c k v', (forall n, w_fs v' n = w_fs v n) /\ w_room v' = room /\ run (PWrite img c k) v' = (w, Ok tt) /\
      execution room fs (l1 ++ Process (Running p) (w_stdin v) (w_stdout v) (w_outroom v) :: l2) fs
        (l1 ++ Process (Running (PWrite img c k)) (w_stdin v') (w_stdout v') (w_outroom v') :: l2) /\ forall r, k r = PRet r.
  Proof.
    induction p as [r0|n k IH|k IH|n k IH|n c k IH|c k IH]; intros fs v w Hb Hv Hr E; cbn [blind] in Hb; try contradiction.
    - injection E as _ E. contradiction.
    - cbn [run] in E. destruct Hb as [_ Hb]. destruct (IH _ fs v w (Hb _) Hv Hr E) as (c & k' & v' & H1 & H2 & H3 & H4 & H5).
      exists c, k', v'. split; [exact H1|]. split; [exact H2|]. split; [exact H3|]. split; [|exact H5]. eapply exec_trans; [|exact H4].
      rewrite <- Hv. destruct (fs n) as [| |x [|] wr|] eqn:Ef; cbn [sys_read]; [| |eapply read_whole; exact Ef|..];
        (eapply exec_one; apply st_read_fails; rewrite Ef; reflexivity).
    - cbn [run] in E. unfold sys_stdin in E. destruct (w_stdin v) as [s0|] eqn:Es.
      + destruct (IH _ fs (no_stdin v) w (Hb _) Hv Hr E) as (c & k' & v' & H1 & H2 & H3 & H4 & H5).
        exists c, k', v'. split; [exact H1|]. split; [exact H2|]. split; [exact H3|]. split; [|exact H5]. eapply ex_step; [apply st_stdin|exact H4].
      + destruct (IH _ fs v w (Hb _) Hv Hr E) as (c & k' & v' & H1 & H2 & H3 & H4 & H5). rewrite Es in H4.
        exists c, k', v'. split; [exact H1|]. split; [exact H2|]. split; [exact H3|]. split; [|exact H5]. eapply ex_step; [apply st_stdin|exact H4].
    - destruct Hb as [-> Hb]. exists c, k, v. split; [reflexivity|]. split; [exact Hr|]. split; [exact E|]. split; [constructor|exact Hb].
  Qed.
  Lemma cut_fits m c : fits m c = true -> cut m c = c.
  Proof.
    unfold fits, cut. intros Ef. destruct m as [z|]; [|reflexivity]. pose proof (zlen_nonneg c). rewrite Z.max_r by lia.
    transitivity (sub c 0 (zlen c)); [|apply sub_full]. rewrite (sub_app_split c 0 (zlen c) z) by lia. rewrite (sub_over c (zlen c) z) by lia. apply app_nil_r.
  Qed.
  Lemma C100_torn_lemma iter fuel fs0 x y img w1 : in_place iter fuel (j_prog x) img -> looks iter fuel (j_prog y) img -> ~ ext_is img (s2b "hdv") ->
    alone x fs0 room = (w1, 0) ->
    exists fs1 a b, execution room fs0 [launch x; launch y] fs1 [a; b] /\ ended a 0 /\ ended b 1 /\ q_stdout b = [] /\ fs1 img = w_fs w1 img.
  Proof.
    intros Hx Hy He E1. apply alone_run in E1.
    destruct (in_place_file _ _ _ _ _ _ Hx E1) as (c & c' & Ef & Ef1 & Eo). cbn [w_fs] in Ef, Eo.
    destruct (in_place_shape _ _ _ _ Hx) as [(r & Ex & Hr)|(kx & Ex & Hk & _)]; [rewrite Ex in E1; injection E1 as _ E1; contradiction|].
    destruct (looks_shape _ _ _ _ Hy) as (ky & Ey & _ & Hh). destruct (Hh He) as [e Eye]. clear Hh.
    rewrite Ex in E1. cbn [run w_fs] in E1. rewrite Ef in E1. cbn [sys_read] in E1.
    destruct (blind_stop img [] [launch y] _ fs0 (World fs0 (j_stdin x) [] room (j_outroom x)) w1 (Hk _) (fun n => eq_refl) eq_refl E1) as (new & k & v & Hv & Hr & Er & X1 & Kr). cbn [w_fs w_stdin w_stdout w_outroom] in *.
    cbn [run] in Er. unfold sys_write in Er. rewrite Hv, Ef, Hr in Er. cbn [can_write written] in Er.
    destruct (fits room new) eqn:Efit; [|rewrite Kr in Er; discriminate Er]. rewrite Kr in Er. cbn [run] in Er. injection Er as Er.
    remember (put_fs fs0 img (NFile [] true true)) as fsa eqn:Ea. assert (fsa img = NFile [] true true) as Ea' by (subst fsa; unfold put_fs; rewrite beq_refl; reflexivity).
    assert (exists fs2, execution room fsa [Process (Writing img 0 new (PRet (Ok tt))) (w_stdin v) (w_stdout v) (w_outroom v); Process (Running (PRet (Err e))) (j_stdin y) [] (j_outroom y)]
        fs2 [Process (Running (PRet (Ok tt))) (w_stdin v) (w_stdout v) (w_outroom v); Process (Running (PRet (Err e))) (j_stdin y) [] (j_outroom y)] /\ fs2 img = NFile new true true) as (fs2 & X2 & E2).
    { remember (Process (Running (PRet (Err e))) (j_stdin y) [] (j_outroom y)) as b eqn:Eb. clear Eb. pose proof (zlen_nonneg new). destruct (Z.eq_dec (zlen new) 0) as [Ez|Ez].
      - apply zlen_zero_nil in Ez. subst new. exists fsa. split; [|exact Ea']. eapply (ex_step room fsa [] _ [b]); [apply st_write_end|constructor].
      - exists (put_fs fsa img (NFile new true true)). split; [|unfold put_fs; rewrite beq_refl; reflexivity].
        eapply (ex_step room fsa [] _ [b]); [eapply (st_write room fsa img 0 new (PRet (Ok tt)) _ _ _ [] true true (zlen new) Ea'); lia|].
        rewrite sub_full, pwrite_empty. rewrite (sub_nil new) by lia. eapply (ex_step room _ [] _ [b]); [apply st_write_end|constructor]. }
    eexists fs2, _, _. split; [|split; [|split; [|split]]].
    - unfold launch at 1, started. rewrite Ex.
      eapply exec_trans; [apply (read_whole [] [launch y] fs0 img kx _ _ _ _ _ Ef)|]. eapply exec_trans; [exact X1|].
      eapply (ex_step room fs0 [] _ [launch y]); [apply st_write_open; rewrite Ef; reflexivity|]. rewrite Ef. cbn [written]. rewrite <- Ea, Efit, (cut_fits _ _ Efit), Kr.
      eapply exec_trans; [|exact X2]. unfold launch, started. rewrite Ey, <- Eye.
      apply (read_whole [Process (Writing img 0 new (PRet (Ok tt))) (w_stdin v) (w_stdout v) (w_outroom v)] [] fsa img ky _ _ _ _ _ Ea').
    - apply (ended_ret (Ok tt)).
    - apply (ended_ret (Err e)).
    - reflexivity.
    - rewrite E2, <- Er. cbn [set_fs w_fs]. rewrite beq_refl. reflexivity.
  Qed.

  (** A command that has read part of the image when the other one runs goes on with the rest of the new one. *)
  Lemma C100_mixed_lemma iter fuel fs0 x y img w1 c c' j w2 s2 : in_place iter fuel (j_prog x) img -> looks iter fuel (j_prog y) img ->
    alone x fs0 room = (w1, 0) -> fs0 img = NFile c true true -> w_fs w1 img = NFile c' true true -> 0 <= j <= zlen c -> zlen c <= zlen c' ->
    alone y (put_fs fs0 img (NFile (sub c 0 j ++ sub c' j (zlen c')) true true)) room = (w2, s2) ->
    exists fs1 a b, execution room fs0 [launch x; launch y] fs1 [a; b] /\ ended a 0 /\ ended b s2 /\ q_stdout b = w_stdout w2 /\ fs1 img = NFile c' true true.
  Proof.
    intros Hx Hy E1 Ef Ef1 Hj Hl E2. apply alone_run in E1.
    destruct (looks_shape _ _ _ _ Hy) as (ky & Ey & Hp & _). remember (sub c 0 j ++ sub c' j (zlen c')) as mix eqn:Em.
    unfold alone, main_run in E2. rewrite Ey in E2. cbn [run w_fs] in E2. unfold put_fs at 1 in E2. rewrite beq_refl in E2. cbn [sys_read] in E2.
    match type of E2 with context [run _ ?v] => remember v as v0 eqn:Ev0 end. match type of E2 with context [run ?p v0] => destruct (run p v0) as [w2' r2] eqn:E3 end. cbv iota in E2. injection E2 as <- <-.
    destruct (run_steps [] [Process (Reading img (sub c 0 j) ky) (j_stdin y) [] (j_outroom y)] _ fs0 (World fs0 (j_stdin x) [] room (j_outroom x)) w1 _ (fun n => eq_refl) eq_refl E1) as (fs1 & X1 & Xf & Xr).
    destruct (prints_run _ (Hp (Ok mix)) v0 (World (w_fs w1) (j_stdin y) [] room (j_outroom y)) _ _ ltac:(rewrite Ev0; reflexivity) ltac:(rewrite Ev0; reflexivity) E3) as (v1 & E4 & Ev & Evf).
    remember (Process (Running (PRet (Ok tt))) (w_stdin w1) (w_stdout w1) (w_outroom w1)) as a eqn:Ea.
    destruct (run_steps [a] [] _ fs1 (World (w_fs w1) (j_stdin y) [] room (j_outroom y)) v1 _ Xf eq_refl E4) as (fs2 & Y1 & Yf & _).
    assert (zlen (sub c 0 j) = j) as Lj by (rewrite zlen_sub; lia).
    assert (fs1 img = NFile c' true true) as Ef1' by (rewrite Xf; exact Ef1).
    eexists fs2, a, _. split; [|split; [|split; [|split]]].
    - unfold launch, started. rewrite Ey. remember (Process (Running (j_prog x)) (j_stdin x) [] (j_outroom x)) as a0 eqn:Ea0.
      eapply exec_trans. { eapply (ex_step room fs0 [a0] _ []); [eapply st_read_open; exact Ef|constructor]. }
      eapply exec_trans.
      { instantiate (1 := [a0; Process (Reading img (sub c 0 j) ky) (j_stdin y) [] (j_outroom y)]). instantiate (1 := fs0).
        destruct (Z.eq_dec j 0) as [->|Hj0]; [rewrite (sub_nil c) by lia; constructor|].
        eapply (ex_step room fs0 [a0] _ []); [eapply (st_read room fs0 img [] ky _ _ _ c true true j Ef); cbn; lia|].
        cbn [app]. change (zlen (@nil Z)) with 0. rewrite Z.add_0_l. constructor. }
      eapply exec_trans; [rewrite Ea0; exact X1|]. eapply exec_trans; [|exact Y1].
      assert (zlen mix = zlen c') as Lm by (rewrite Em, zlen_app, Lj, zlen_sub; lia).
      destruct (Z.eq_dec j (zlen c')) as [Hj1|Hj1].
      + assert (mix = sub c 0 j) as -> by (rewrite Em, (sub_nil c') by lia; apply app_nil_r).
        eapply (ex_step room fs1 [a] _ []); [eapply st_read_end; [exact Ef1'|lia]|constructor].
      + eapply (ex_step room fs1 [a] _ []); [eapply (st_read room fs1 img _ ky _ _ _ c' true true (zlen c' - j) Ef1'); lia|].
        rewrite Lj. replace (j + (zlen c' - j)) with (zlen c') by lia. rewrite <- Em.
        eapply (ex_step room fs1 [a] _ []); [eapply st_read_end; [exact Ef1'|lia]|constructor].
    - rewrite Ea. apply (ended_ret (Ok tt)).
    - apply ended_ret.
    - exact Ev.
    - rewrite Yf, Evf. exact Ef1.
  Qed.
End Steps.

(** ** Concrete cases *)
Definition put_at iter fuel (name : bytes) : prog unit :=
  PutCmd_Run iter fuel (s2b "do") (s2b "auto") (s2b "B") false 0 (s2b "x.dsk") name (s2b "f").
Definition dump_of iter fuel (name : bytes) : prog unit := DumpCmd_Run iter fuel (s2b "do") (s2b "auto") (s2b "x.dsk") name.
Definition put_job iter fuel (name : bytes) : job :=
  Job (put_at iter fuel name) [s2b "x.dsk"; s2b "f"] [s2b "x.dsk"] None None.
Definition two_files (c : bytes) : fsystem :=
  fun n => if beq n (s2b "x.dsk") then NFile c true true else if beq n (s2b "f") then NFile (repeat 7 300) true true else NMissing.
Definition filler : bytes := repeat 7 300 ++ repeat 0 212.
Lemma sessions_two iter fuel c h : naked_image c (s2b "do") ex_blank ->
  Forall (fun af => meant [] (s2b "x.dsk") (fst af) (snd af)) h ->
  Forall (fun af : action * option Z => match fst af with ASave _ c => no_mark c | APut _ _ _ _ src => src <> s2b "x.dsk" | _ => True end) h ->
  exists w' c', session (map (fun af => command iter fuel (s2b "do") (s2b "x.dsk") (fst af)) h) (World (two_files c) None [] None None)
    = (w', snd (acts [] h (Desk (fun n => if beq n (s2b "f") then NFile (repeat 7 300) true true else NMissing) (St (fun _ => []) 548)))) /\
    w_fs w' (s2b "x.dsk") = NFile c' true true /\ zlen c' = 143360.
Proof.
  intros Hc Hm Hs. destruct ex_free as [F1 F2]. pose proof (fl_map _ _ ex_floppy) as Em.
  remember (World (two_files c) None [] None None) as w eqn:Ew.
  remember (Desk (fun n => if beq n (s2b "f") then NFile (repeat 7 300) true true else NMissing) (St (fun _ => []) 548)) as k eqn:Ek.
  pose proof (C95_lemma iter fuel (s2b "do") (s2b "x.dsk") (s2b "do") [] h w c ex_blank k) as HL.
  pose proof (C95_harmless_lemma iter fuel (s2b "do") (s2b "x.dsk") (s2b "do") [] h w c ex_blank k) as HH.
  repeat match type of HL with ?P -> _ => match type of HH with P -> _ => let X := fresh "X" in assert (X : P); [clear HL HH|specialize (HL X); specialize (HH X)] end end.
  - discriminate.
  - exists []. constructor.
  - intros i f Hi. rewrite (@zlen_nil Symbol) in Hi. lia.
  - rewrite Ew. reflexivity.
  - exact Hc.
  - eexists. split; [apply (NewOperator_floppy _ _ ex_floppy)|]. unfold st_of. cbn [op_ST]. rewrite ex_blank_table. reflexivity.
  - rewrite Ew. reflexivity.
  - rewrite Ew. reflexivity.
  - intros n Hn. rewrite Ek, Ew. cbn [w_fs k_files]. unfold two_files. rewrite (beq_false _ _ Hn). reflexivity.
  - rewrite Ek, Em. split; [|exact F1]. intros f Hf. cbn [store_of st_file k_store]. unfold content. rewrite (F2 f Hf). reflexivity.
  - exact Hm.
  - destruct HL as (w' & k' & l & c' & d' & Es & Ea & G1 & ((G2 & _) & _) & _).
    { apply HH; [apply blank_release; exact Hc|]. apply (harmless_saved _ (s2b "x.dsk")); [|exact Hs]. intros n data r q _ E. rewrite Ek in E. cbn [k_files] in E.
      destruct (beq n (s2b "f")); [|discriminate E]. assert (data = repeat 7 300) as -> by congruence. apply no_mark_repeat. lia. }
    exists w', c'. rewrite Es, Ea. split; [reflexivity|]. split; [exact G1|exact G2].
Qed.

Lemma run_rooms (p : prog unit) : forall w w' r, run p w = (w', r) -> w_room w' = w_room w /\ w_outroom w' = w_outroom w.
Proof.
  induction p as [r0|n k IH|k IH|n k IH|n c k IH|c k IH]; intros w w' r E; cbn [run] in E.
  - injection E as <- _. split; reflexivity.
  - apply (IH _ _ _ _ E).
  - unfold sys_stdin in E. destruct (w_stdin w); apply (IH _ _ _ _ E).
  - apply (IH _ _ _ _ E).
  - unfold sys_write in E. destruct (can_write _); [destruct (fits _ _)|]; apply (IH _ _ _ _ E).
  - unfold sys_stdout in E. destruct (fits _ _); apply (IH _ _ _ _ E).
Qed.
Lemma alone_rooms j fs w s : alone j fs None = (w, s) -> w_room w = None /\ w_outroom w = j_outroom j.
Proof. unfold alone, main_run. destruct (run _ _) as [v r] eqn:E. intros X. injection X as <- _. apply run_rooms in E. exact E. Qed.
Lemma names67 : numeric (s2b "DF06") 6 /\ numeric (s2b "DF07") 7.
Proof. split; apply numeric_parse; [vm_compute; reflexivity|lia|vm_compute; reflexivity|lia]. Qed.
Lemma put_meant name f : numeric name f -> f <> 3 -> f <> 4 -> meant [] (s2b "x.dsk") (APut (s2b "B") false 0 name (s2b "f")) (Some f).
Proof. intros H H3 H4. constructor; [left; exact H|left; exact H|exact H3|exact H4|discriminate|discriminate]. Qed.

Lemma put_first : exists k1, act [] (APut (s2b "B") false 0 (s2b "DF07") (s2b "f")) (Some 7)
  (Desk (fun n => if beq n (s2b "f") then NFile (repeat 7 300) true true else NMissing) (St (fun _ => []) 548)) = (k1, (0, [])).
Proof. eexists. vm_compute. reflexivity. Qed.
(** One after the other both files arrive; at the same time one may be lost, without a word. *)
Lemma C100_lost_ex iter fuel : exists fs0,
  (exists w, session [put_at iter fuel (s2b "DF06"); put_at iter fuel (s2b "DF07"); dump_of iter fuel (s2b "DF06"); dump_of iter fuel (s2b "DF07")] (World fs0 None [] None None)
    = (w, [(0, []); (0, []); (0, filler); (0, filler)])) /\
  exists fs1 a b, execution None fs0 [launch (put_job iter fuel (s2b "DF06")); launch (put_job iter fuel (s2b "DF07"))] fs1 [a; b] /\ ended a 0 /\ ended b 0 /\
    (exists w, main_run (dump_of iter fuel (s2b "DF06")) (World fs1 None [] None None) = (w, 1) /\ w_stdout w = []) /\
    exists w, main_run (dump_of iter fuel (s2b "DF07")) (World fs1 None [] None None) = (w, 0) /\ w_stdout w = filler.
Proof.
  destruct (do_image _ _ ex_floppy) as [c Hc]. destruct names67 as [N6 N7]. exists (two_files c). split.
  - destruct (sessions_two iter fuel c [(APut (s2b "B") false 0 (s2b "DF06") (s2b "f"), Some 6); (APut (s2b "B") false 0 (s2b "DF07") (s2b "f"), Some 7); (ADump (s2b "DF06"), Some 6); (ADump (s2b "DF07"), Some 7)] Hc) as (w & cw & E & _).
    + repeat (apply Forall_cons || apply Forall_nil); cbn [fst snd].
      * apply put_meant; [exact N6|lia|lia].
      * apply put_meant; [exact N7|lia|lia].
      * constructor. left. exact N6.
      * constructor. left. exact N7.
    + repeat (apply Forall_cons || apply Forall_nil); cbn [fst]; try exact I; discriminate.
    + exists w. etransitivity; [exact E|]. vm_compute. reflexivity.
  - destruct (sessions_two iter fuel c [(APut (s2b "B") false 0 (s2b "DF06") (s2b "f"), Some 6)] Hc) as (w6 & c6 & E6 & F6 & L6).
    { repeat (apply Forall_cons || apply Forall_nil); cbn [fst snd]. apply put_meant; [exact N6|lia|lia]. }
    { repeat (apply Forall_cons || apply Forall_nil); cbn [fst]; discriminate. }
    assert (exists v, alone (put_job iter fuel (s2b "DF06")) (two_files c) None = (v, 0)) as [v6 A6].
    { cbn [map fst command session quiet w_fs w_stdin w_room w_outroom] in E6. unfold alone, put_job, put_at. cbn [j_prog j_stdin j_outroom].
      destruct (main_run _ _) as [v s]. exists v. f_equal. assert (s = fst (nth 0 [(s, w_stdout v)] (0, []))) as -> by reflexivity.
      injection E6 as _ E6. rewrite E6. vm_compute. reflexivity. }
    assert (forall name f, numeric name f -> exists v w s o, alone (put_job iter fuel (s2b "DF07")) (two_files c) None = (v, 0) /\
      main_run (dump_of iter fuel name) (quiet v) = (w, s) /\ w_stdout w = o /\
      [(0, []); (s, o)] = snd (acts [] [(APut (s2b "B") false 0 (s2b "DF07") (s2b "f"), Some 7); (ADump name, Some f)]
        (Desk (fun n => if beq n (s2b "f") then NFile (repeat 7 300) true true else NMissing) (St (fun _ => []) 548)))) as D7.
    { intros name f Hf. destruct (sessions_two iter fuel c [(APut (s2b "B") false 0 (s2b "DF07") (s2b "f"), Some 7); (ADump name, Some f)] Hc) as (w & cw & E & _).
      { repeat (apply Forall_cons || apply Forall_nil); cbn [fst snd]; [apply put_meant; [exact N7|lia|lia]|]. constructor. left. exact Hf. }
      { repeat (apply Forall_cons || apply Forall_nil); cbn [fst]; try exact I; discriminate. }
      cbn [map fst command session quiet w_fs w_stdin w_room w_outroom] in E. unfold alone, put_job, put_at. cbn [j_prog j_stdin j_outroom].
      destruct (main_run (PutCmd_Run _ _ _ _ _ _ _ _ _ _) _) as [v s]. change (World (w_fs v) (w_stdin v) [] (w_room v) (w_outroom v)) with (quiet v) in E.
      unfold dump_of. destruct (main_run (DumpCmd_Run _ _ _ _ _ _) (quiet v)) as [w' s'] eqn:R. exists v, w', s', (w_stdout w').
      match type of E with (_, ?x) = (_, ?y) => assert (x = y) as E1 by exact (f_equal snd E); remember y as l eqn:El end.
      assert (nth 0 l (0, []) = (0, [])) as Z0.
      { rewrite El. cbn [acts]. destruct put_first as [k1 ->]. destruct (act [] (ADump name) (Some f) k1) as [k2 x2]. reflexivity. }
      rewrite <- E1 in Z0 |- *. cbn [nth] in Z0. injection Z0 as -> ->. split; [reflexivity|]. split; [exact R|]. split; reflexivity. }
    destruct (D7 _ _ N6) as (v7 & w8 & s8 & o8 & A7 & R8 & O8 & L8). destruct (D7 _ _ N7) as (v7' & w9 & s9 & o9 & A7' & R9 & O9 & L9). clear D7.
    rewrite A7 in A7'. injection A7' as <-. match type of L8 with _ = ?y => assert (y = [(0, []); (1, [])]) as Y by (vm_compute; reflexivity) end. rewrite Y in L8. clear Y. injection L8 as -> ->.
    match type of L9 with _ = ?y => assert (y = [(0, []); (0, filler)]) as Y by (vm_compute; reflexivity) end. rewrite Y in L9. clear Y. injection L9 as -> ->.
    destruct (C100_lost_lemma None iter fuel (two_files c) (put_job iter fuel (s2b "DF06")) (put_job iter fuel (s2b "DF07")) (s2b "x.dsk") v6 v7) as (fs1 & a & b & X & Ha & Hb & Ef).
    { apply ip_put; discriminate. } { apply ip_put; discriminate. } { exact A6. } { exact A7. }
    exists fs1, a, b. split; [exact X|]. split; [exact Ha|]. split; [exact Hb|].
    destruct (alone_rooms _ _ _ _ A7) as [RM OM].
    assert (forall name w s, main_run (dump_of iter fuel name) (quiet v7) = (w, s) -> exists w', main_run (dump_of iter fuel name) (World fs1 None [] None None) = (w', s) /\ w_stdout w' = w_stdout w) as HD.
    { intros name w s E. destruct (main_run (dump_of iter fuel name) (World fs1 None [] None None)) as [w' s'] eqn:E'. exists w'.
      destruct (C97_lemma iter fuel (dump_of iter fuel name) [s2b "x.dsk"] (World fs1 None [] None None) (quiet v7) w' s' w s) as (-> & (o & O1 & O2) & _).
      - apply to_dump.
      - intros n [<-|[]]. exact Ef.
      - intros [X'|[]]; discriminate X'.
      - symmetry. exact RM.
      - symmetry. exact OM.
      - exact E'.
      - exact E.
      - split; [reflexivity|]. rewrite O1, O2. reflexivity. }
    split.
    + destruct (HD _ _ _ R8) as (w & E & O). exists w. split; [exact E|]. rewrite O. exact O8.
    + destruct (HD _ _ _ R9) as (w & E & O). exists w. split; [exact E|]. rewrite O. exact O9.
Qed.

(** A put and a mksd that use the same source. *)
Definition mksd_job : job := Job (SDCmd_Run (s2b "auto") (s2b "y.dsk") (s2b "f") 0x2000 0xFFFF) [s2b "f"] [s2b "y.dsk"] None None.
Lemma mksd_alone fs0 : fs0 (s2b "f") = NFile (repeat 7 300) true true -> fs0 (s2b "y.dsk") = NMissing -> exists w, alone mksd_job fs0 None = (w, 0).
Proof.
  intros Hf Hy. destruct (C75_partial_lemma (s2b "auto") (s2b "y.dsk") (repeat 7 300) 0x2000 0xFFFF of_auto ltac:(lia) ltac:(lia)) as (_ & H & _).
  destruct H as [raw Hraw]; [lia|repeat split; vm_compute; discriminate|].
  remember (World fs0 None [] None None) as w eqn:Ew. unfold alone, mksd_job. cbn [j_prog j_stdin j_outroom]. rewrite <- Ew. unfold main_run, SDCmd_Run.
  rewrite run_pbind, (contents_file w (s2b "f") (repeat 7 300)); [|exists true; rewrite Ew; exact Hf|discriminate].
  rewrite run_pbind, Hraw. cbn [run plift]. unfold WriteOutput. change dash with (s2b "-"). rewrite (beq_false (s2b "y.dsk") (s2b "-")) by discriminate. cbn [run].
  unfold sys_write. rewrite Ew. cbn [w_fs w_room]. rewrite Hy. cbn [can_write fits run main_status]. eexists. reflexivity.
Qed.
Lemma apart_two x y : (forall n, In n (j_writes x) -> ~ In n (j_reads y) /\ ~ In n (j_writes y)) ->
  (forall n, In n (j_writes y) -> ~ In n (j_reads x) /\ ~ In n (j_writes x)) -> apart [x; y].
Proof.
  intros H1 H2 [|[|a]] [|[|b]] u v Hu Hv Hab n; cbn [nth_error] in Hu, Hv; try (destruct a; discriminate Hu); try (destruct b; discriminate Hv); try (exfalso; apply Hab; reflexivity).
  - injection Hu as <-. injection Hv as <-. apply H1.
  - injection Hu as <-. injection Hv as <-. apply H2.
Qed.
Lemma C100_apart_ex iter fuel : exists fs0 fs1 a b, let js := [put_job iter fuel (s2b "DF06"); mksd_job] in
  Forall (fun j => uses iter fuel (j_prog j) (j_reads j) (j_writes j)) js /\ apart js /\
  execution None fs0 (map launch js) fs1 [a; b] /\ ended a 0 /\ ended b 0.
Proof.
  destruct (do_image _ _ ex_floppy) as [c Hc]. destruct names67 as [N6 _].
  destruct (sessions_two iter fuel c [(APut (s2b "B") false 0 (s2b "DF06") (s2b "f"), Some 6)] Hc) as (w6 & c6 & E6 & F6 & L6).
  { repeat (apply Forall_cons || apply Forall_nil); cbn [fst snd]. apply put_meant; [exact N6|lia|lia]. }
  { repeat (apply Forall_cons || apply Forall_nil); cbn [fst]; discriminate. }
  assert (exists v, alone (put_job iter fuel (s2b "DF06")) (two_files c) None = (v, 0)) as [v6 A6].
  { cbn [map fst command session quiet w_fs w_stdin w_room w_outroom] in E6. unfold alone, put_job, put_at. cbn [j_prog j_stdin j_outroom].
    destruct (main_run _ _) as [v s]. exists v. f_equal. assert (s = fst (nth 0 [(s, w_stdout v)] (0, []))) as -> by reflexivity.
    injection E6 as _ E6. rewrite E6. vm_compute. reflexivity. }
  destruct (mksd_alone (two_files c) eq_refl eq_refl) as [v7 A7]. clear E6 F6 w6.
  exists (two_files c). cbv zeta. remember [put_job iter fuel (s2b "DF06"); mksd_job] as js eqn:Ej.
  assert (Forall (fun j => uses iter fuel (j_prog j) (j_reads j) (j_writes j)) js) as Hu.
  { rewrite Ej. apply Forall_cons; [|apply Forall_cons; [|apply Forall_nil]].
    - apply (us_put iter fuel (s2b "do") (s2b "auto") (s2b "B") false 0 (s2b "x.dsk") (s2b "DF06") (s2b "f")).
    - apply (us_mksd iter fuel (s2b "auto") (s2b "y.dsk") (s2b "f") 0x2000 0xFFFF). }
  assert (apart js) as Ha.
  { rewrite Ej. apply apart_two; cbn [put_job mksd_job j_reads j_writes]; intros n [<-|[]]; (split; [intros Hn|intros [Hn|[]]; discriminate Hn]).
    - destruct Hn as [Hn|[]]; discriminate Hn.
    - destruct Hn as [Hn|[Hn|[]]]; discriminate Hn. }
  destruct (C100_ends_lemma None (two_files c) iter fuel js (two_files c) (map launch js) Hu Ha ltac:(constructor)) as (fs1 & qs & X & He).
  destruct (C100_lemma None (two_files c) iter fuel js fs1 qs Hu Ha X) as (Hl & Hs & _). rewrite Ej in Hl.
  destruct qs as [|a [|b [|? ?]]]; try discriminate Hl. exists fs1, a, b. split; [exact Hu|]. split; [exact Ha|]. split; [exact X|].
  apply Forall_inv_tail in He as He2. apply Forall_inv in He, He2. destruct He as [s1 He], He2 as [s2 He2].
  destruct (Hs 0%nat (put_job iter fuel (s2b "DF06")) a s1 v6 0) as (-> & _); [rewrite Ej; reflexivity|reflexivity|exact He|exact A6|].
  destruct (Hs 1%nat mksd_job b s2 v7 0) as (-> & _); [rewrite Ej; reflexivity|reflexivity|exact He2|exact A7|]. split; [exact He|exact He2].
Qed.
(** A put that ends well, for the cases with a reader. *)
Lemma C100_put_ex iter fuel : exists fs0 c c' w, fs0 (s2b "x.dsk") = NFile c true true /\ alone (put_job iter fuel (s2b "DF06")) fs0 None = (w, 0) /\
  w_fs w (s2b "x.dsk") = NFile c' true true /\ zlen c = 143360 /\ zlen c' = 143360 /\ in_place iter fuel (j_prog (put_job iter fuel (s2b "DF06"))) (s2b "x.dsk") /\
  looks iter fuel (dump_of iter fuel (s2b "DF06")) (s2b "x.dsk") /\ ~ ext_is (s2b "x.dsk") (s2b "hdv").
Proof.
  destruct (do_image _ _ ex_floppy) as [c Hc]. destruct names67 as [N6 _].
  destruct (sessions_two iter fuel c [(APut (s2b "B") false 0 (s2b "DF06") (s2b "f"), Some 6)] Hc) as (w6 & c6 & E6 & F6 & L6).
  { repeat (apply Forall_cons || apply Forall_nil); cbn [fst snd]. apply put_meant; [exact N6|lia|lia]. }
  { repeat (apply Forall_cons || apply Forall_nil); cbn [fst]; discriminate. }
  assert (alone (put_job iter fuel (s2b "DF06")) (two_files c) None = (w6, 0)) as A6.
  { cbn [map fst command session quiet w_fs w_stdin w_room w_outroom] in E6. unfold alone, put_job, put_at. cbn [j_prog j_stdin j_outroom].
    destruct (main_run _ _) as [v s]. injection E6 as -> E6. f_equal. assert (s = fst (nth 0 [(s, w_stdout w6)] (0, []))) as -> by reflexivity.
    rewrite E6. vm_compute. reflexivity. }
  clear E6. exists (two_files c), c, c6, w6. split; [reflexivity|]. split; [exact A6|]. split; [exact F6|]. split; [apply Hc|]. split; [exact L6|].
  split; [apply ip_put; discriminate|]. split; [apply lk_dump; discriminate|]. apply ext_is_dec_false; [ascii|reflexivity].
Qed.
