(** HoldCmdProofs.v -- the commands on two disks that hold the same files. *)
From Coq Require Import ZifyBool ZifyNat.
From Verif Require Import GoBase GoLemmas TypesModel DiskModel DiskSpec DiskProofs.
From Verif Require Import SupermonModel SupermonSpec SupermonTableSpec SupermonProofs SupermonOpProofs SupermonNamedProofs.
From Verif Require Import ProdosModel CmdModel CmdSpec CmdProofs CmdStmtProofs MainModel NakedCmdSpec NakedCmdProofs NakedOpenProofs SessionSpec ShelfSpec LocalSpec LocalProofs TwinSpec TwinProofs TwinCmdProofs BackupSpec BackupProofs HoldSpec HoldProofs.
Ltac Zify.zify_post_hook ::= Z.div_mod_to_equations.
Local Opaque zrange zeros sub.

Lemma holding_near c c' o d d' op : same_holding c c' o d d' -> NewOperator d = Ok op ->
  exists op', NewOperator d' = Ok op' /\ op_near op op'.
Proof.
  intros [N N' S R] En. pose proof (proj2 N) as F. pose proof (proj2 N') as F'.
  rewrite (NewOperator_floppy _ _ F) in En. injection En as <-. exists (Op d' (stored_map d') (opened_table d' (stored_map d'))).
  split; [exact (NewOperator_floppy _ _ F')|]. split; [|split].
  - cbn [op_ST]. unfold opened_table. rewrite (ReadSymbolTable_same d (stored_map d) d' (stored_map d') (fl_len _ _ F) (fl_len _ _ F')); [reflexivity|apply S; unfold legal; lia|apply S; unfold legal; lia].
  - split; unfold pair_of; cbn [fst snd op_data op_SM]; [exact F|exact F'|exact S|exact R].
  - intros t. cbn [op_ST]. apply opened_table_len.
Qed.
Lemma near_holding u u' o n n' : op_near u u' -> reordered n o (s2b "raw") (op_data u) -> reordered n' o (s2b "raw") (op_data u') ->
  same_holding n n' o (op_data u) (op_data u').
Proof.
  intros K H H'. destruct (op_near_ok _ _ K) as [Hu Hu']. destruct (new_image n o u Hu H) as [I1 E1]. destruct (new_image n' o u' Hu' H') as [I2 E2].
  destruct K as (_ & [_ _ C R] & _). unfold pair_of in *. cbn [fst snd] in *. split; [exact I1|exact I2| |].
  - intros f Hf. unfold file_on. rewrite <- E1, <- E2. exact (C f Hf).
  - unfold free_on. rewrite <- E1, <- E2. exact R.
Qed.

Record pair_held (img o : bytes) (w w' : world) : Prop := {
  ph_beside : beside img w w';
  ph_held : exists c c' q d d', w_fs w img = NFile c true q /\ w_fs w' img = NFile c' true q /\ same_holding c c' o d d'
}.
Definition agreed (img o : bytes) (p : prog unit) (w w' : world) : Prop :=
  exists v v' r, run p w = (v, r) /\ run p w' = (v', r) /\ w_stdout v' = w_stdout v /\ pair_held img o v v'.

Section Deeds.
  Context (iter : list (Z * Subdirectory) -> list (Z * Subdirectory)) (fuel : nat) (order img o : bytes).
  Context (Himg : img <> s2b "-") (Hord : first_order img order o).

  Lemma both_opened w w' : pair_held img o w w' -> unmarked img w -> unmarked img w' ->
    exists op op' c c' q, w_fs w img = NFile c true q /\ w_fs w' img = NFile c' true q /\
      run (OpenFilename iter fuel img order (s2b "auto")) w = (w, Ok (ONaked op, o)) /\
      run (OpenFilename iter fuel img order (s2b "auto")) w' = (w', Ok (ONaked op', o)) /\
      op_near op op' /\ reordered c o (s2b "raw") (op_data op) /\ reordered c' o (s2b "raw") (op_data op').
  Proof.
    intros [_ (c & c' & q & d & d' & F & F' & T)] U U'. assert (Hrel : release_byte c <> 3) by exact (U _ _ _ F). assert (Hrel' : release_byte c' <> 3) by exact (U' _ _ _ F').
    destruct (open_naked iter fuel c o d img order Hord (sh_first _ _ _ _ _ T) Hrel) as (op & Eo & En).
    destruct (holding_near _ _ _ _ _ _ T En) as (op' & En' & HR).
    destruct (open_naked iter fuel c' o d' img order Hord (sh_second _ _ _ _ _ T) Hrel') as (op2 & Eo' & En2). assert (op2 = op') as -> by congruence.
    assert (Hi : input w img c) by (right; split; [exact Himg|exists q; exact F]).
    assert (Hi' : input w' img c') by (right; split; [exact Himg|exists q; exact F']).
    destruct (open_run_ok iter fuel _ _ _ _ _ _ _ Hi Eo) as (w1 & Er & _ & _ & _ & _ & W1). rewrite (W1 Himg) in Er.
    destruct (open_run_ok iter fuel _ _ _ _ _ _ _ Hi' Eo') as (w2 & Er' & _ & _ & _ & _ & W2). rewrite (W2 Himg) in Er'.
    destruct (NewOperator_ok d op (fl_len _ _ (proj2 (sh_first _ _ _ _ _ T))) En) as (_ & Ed & _). destruct (NewOperator_ok d' op' (fl_len _ _ (proj2 (sh_second _ _ _ _ _ T))) En') as (_ & Ed' & _).
    exists op, op', c, c', q. rewrite Ed, Ed'. split; [exact F|]. split; [exact F'|]. split; [exact Er|]. split; [exact Er'|]. split; [exact HR|].
    split; [exact (proj1 (sh_first _ _ _ _ _ T))|exact (proj1 (sh_second _ _ _ _ _ T))].
  Qed.

  Lemma back_agreed w w' u u' c c' q d d' : pair_held img o w w' -> w_stdout w' = w_stdout w -> w_fs w img = NFile c true q -> w_fs w' img = NFile c' true q ->
    reordered c o (s2b "raw") d -> reordered c' o (s2b "raw") d' -> op_near u u' ->
    exists v v' r, run (WriteBack img (ONaked u) o true) w = (v, r) /\ run (WriteBack img (ONaked u') o true) w' = (v', r) /\ w_stdout v' = w_stdout v /\ pair_held img o v v'.
  Proof.
    intros P S F F' Rc Rc' K. destruct (op_near_ok _ _ K) as [Hu Hu'].
    destruct (writeback_run c o d u img Rc (fl_len _ _ (ok_fl _ Hu))) as (n & Hn & Rn).
    destruct (writeback_run c' o d' u' img Rc' (fl_len _ _ (ok_fl _ Hu'))) as (n' & Hn' & Rn').
    pose proof (near_holding _ _ _ _ _ K Hn Hn') as T2.
    rewrite Rn, Rn'. unfold WriteOutput. change dash with (s2b "-"). rewrite (beq_false _ _ Himg). cbn [run]. unfold sys_write. rewrite F, F'.
    pose proof P as [[B1 B2 [B3 B3'] B4] _]. cbn [can_write written]. destruct q.
    - rewrite B3, B3'. cbn [fits]. do 3 eexists. split; [reflexivity|]. split; [reflexivity|]. split; [exact S|].
      split.
      + split; cbn [set_fs w_fs w_stdin w_room w_outroom]; [|exact B2|auto|exact B4]. intros m Hm. rewrite (beq_false _ _ Hm). exact (B1 m Hm).
      + exists n, n', true, (op_data u), (op_data u'). cbn [set_fs w_fs]. rewrite beq_refl. auto.
    - do 3 eexists. split; [reflexivity|]. split; [reflexivity|]. split; [exact S|exact P].
  Qed.

  Lemma put_info_agreed w w' op op' c c' q i ow : pair_held img o w w' -> w_stdout w' = w_stdout w -> w_fs w img = NFile c true q -> w_fs w' img = NFile c' true q ->
    reordered c o (s2b "raw") (op_data op) -> reordered c' o (s2b "raw") (op_data op') -> op_near op op' -> fi_data i <> [] ->
    exists v v' r,
      run (let '(x, r) := Op_PutFile (ONaked op) i ow in _ <<- plift r ;; WriteBack img x o true) w = (v, r) /\
      run (let '(x, r) := Op_PutFile (ONaked op') i ow in _ <<- plift r ;; WriteBack img x o true) w' = (v', r) /\ w_stdout v' = w_stdout v /\ pair_held img o v v'.
  Proof.
    intros P S F F' Rc Rc' HR Hne. cbn [Op_PutFile].
    destruct (put_nears i ow Hne op op' HR) as (u & u' & r & E & E' & K). rewrite E, E'. cbn [lift_op].
    rewrite !run_pbind. unfold plift. cbn [run]. destruct r as [b|er|].
    - exact (back_agreed _ _ _ _ _ _ _ _ _ P S F F' Rc Rc' K).
    - do 3 eexists. split; [reflexivity|]. split; [reflexivity|]. split; [exact S|exact P].
    - do 3 eexists. split; [reflexivity|]. split; [reflexivity|]. split; [exact S|exact P].
  Qed.

  Lemma pair_out w w' v v' : pair_held img o w w' -> w_outroom v' = w_outroom v -> (w_fs v = w_fs w /\ w_stdin v = w_stdin w /\ w_room v = w_room w) ->
    (w_fs v' = w_fs w' /\ w_stdin v' = w_stdin w' /\ w_room v' = w_room w') -> pair_held img o v v'.
  Proof.
    intros [[B1 B2 B3 B4] Q] Ho (V1 & V2 & V3) (V1' & V2' & V3'). split.
    - split; [intros m Hm; rewrite V1, V1'; exact (B1 m Hm)|congruence|rewrite V3, V3'; exact B3|exact Ho].
    - rewrite V1, V1'. exact Q.
  Qed.

  Lemma deed_agreed x w w' : work_of order img x -> pair_held img o w w' -> w_stdout w' = w_stdout w -> unmarked img w -> unmarked img w' ->
    no_empty_source [x] w -> agreed img o (deed_command iter fuel x) w w'.
  Proof.
    intros Hx P S U U' NE. destruct (both_opened _ _ P U U') as (op & op' & c & c' & q & F & F' & R & R' & HR & Rc & Rc').
    destruct Hx as [x [ft ow addr n src Hs1 Hs2|force n|short|n a s|file y Hf Hy]|n]; cbn [deed_command command]; unfold agreed.
    - unfold PutCmd_Run. change dash with (s2b "-"). rewrite (beq_false _ _ Himg). cbn [andb]. rewrite !run_pbind, R, R'.
      rewrite !run_pbind. unfold FileContentsOrStdIn. change dash with (s2b "-"). rewrite (beq_false _ _ Hs1). cbn [run].
      rewrite (bs_files _ _ _ (ph_beside _ _ _ _ P) src Hs2).
      destruct (sys_read (w_fs w src)) as [s|er|] eqn:Er.
      2,3: do 3 eexists; (split; [reflexivity|]; split; [reflexivity|]; split; [exact S|exact P]).
      rewrite !run_pbind. unfold plift at 1 3. cbn [run]. destruct (FiletypeForName ft) as [t|er|].
      2,3: do 3 eexists; (split; [reflexivity|]; split; [reflexivity|]; split; [exact S|exact P]).
      cbv zeta. apply (put_info_agreed w w' op op' c c' q); try assumption. cbn [fi_data].
      destruct (w_fs w src) as [| |s0 [|] wr|] eqn:Es; cbn [sys_read] in Er; [discriminate Er|discriminate Er| |discriminate Er|discriminate Er].
      injection Er as <-. exact (NE order img ft ow addr n src s0 true wr (or_introl eq_refl) Es).
    - unfold DeleteCmd_Run. rewrite !run_pbind, R, R'. cbn [Op_Delete].
      destruct (rm_nears n op op' HR) as (u & u' & r & E & E' & K). rewrite E, E'. cbn [lift_op].
      rewrite !run_pbind. unfold plift. cbn [run]. destruct r as [b|er|].
      2,3: do 3 eexists; (split; [reflexivity|]; split; [reflexivity|]; split; [exact S|exact P]).
      destruct (negb b && negb force).
      + do 3 eexists; (split; [reflexivity|]; split; [reflexivity|]; split; [exact S|exact P]).
      + exact (back_agreed _ _ _ _ _ _ _ _ _ P S F F' Rc Rc' K).
    - unfold LsCmd_Run. rewrite !run_pbind, R, R'. cbn [beq negb andb]. rewrite !run_pbind. unfold plift. cbn [run Op_Catalog].
      rewrite (near_catalog _ _ HR). destruct (SupermonModel.Catalog op) as [fds|er|].
      2,3: do 3 eexists; (split; [reflexivity|]; split; [reflexivity|]; split; [exact S|exact P]).
      destruct (ls_lines_beside short fds w w' (bs_outroom _ _ _ (ph_beside _ _ _ _ P)) S) as (v & v' & r & E & E' & Hs & Ho & V & V').
      exists v, v', r. split; [exact E|]. split; [exact E'|]. split; [exact Hs|exact (pair_out w w' v v' P Ho V V')].
    - unfold MkHelloCmd_Run. cbv zeta. destruct (negb _).
      { do 3 eexists; (split; [reflexivity|]; split; [reflexivity|]; split; [exact S|exact P]). }
      destruct (_ <? a).
      { do 3 eexists; (split; [reflexivity|]; split; [reflexivity|]; split; [exact S|exact P]). }
      rewrite !run_pbind, R, R'. rewrite !run_pbind. unfold plift at 1 3. cbn [run]. rewrite (near_st _ _ HR).
      destruct (FilesForCompoundName (st_of op) n) as [[[f g] y]|er|].
      2,3: do 3 eexists; (split; [reflexivity|]; split; [reflexivity|]; split; [exact S|exact P]).
      destruct ((f =? 0) && (g =? 0)).
      { do 3 eexists; (split; [reflexivity|]; split; [reflexivity|]; split; [exact S|exact P]). }
      apply (put_info_agreed w w' op op' c c' q); try assumption. cbn [fi_data]. discriminate.
    - cbn [run]. unfold sys_write. destruct P as [[B1 B2 [B3 B3'] B4] Q]. rewrite (B1 file Hf). destruct (can_write (w_fs w file)).
      + rewrite B3, B3'. cbn [fits]. exists (set_fs w file (written (w_fs w file) y)), (set_fs w' file (written (w_fs w file) y)), (Ok tt).
        split; [reflexivity|]. split; [reflexivity|]. split; [exact S|]. split.
        * split; cbn [set_fs w_fs w_stdin w_room w_outroom]; [|exact B2|auto|exact B4]. intros m Hm. destruct (beq m file); [reflexivity|exact (B1 m Hm)].
        * cbn [set_fs w_fs]. rewrite (beq_false _ _ (not_eq_sym Hf)). exact Q.
      + exists w, w', (Err (EOther "os.WriteFile")). split; [reflexivity|]. split; [reflexivity|]. split; [exact S|]. split; [split; auto|exact Q].
    - unfold DumpCmd_Run. rewrite !run_pbind, R, R'. rewrite !run_pbind. unfold plift. cbn [run Op_GetFile]. rewrite (near_get _ _ n HR).
      destruct (GetFile op n) as [i|er|].
      2,3: do 3 eexists; (split; [reflexivity|]; split; [reflexivity|]; split; [exact S|exact P]).
      cbn [run]. unfold sys_stdout. rewrite (bs_outroom _ _ _ (ph_beside _ _ _ _ P)). destruct (fits (w_outroom w) (fi_data i)); cbn [run].
      all: do 3 eexists; split; [reflexivity|]; split; [reflexivity|]; split; [cbn [add_out w_stdout]; rewrite S; reflexivity|].
      all: apply (pair_out w w' _ _ P); [cbn [add_out w_outroom]; rewrite (bs_outroom _ _ _ (ph_beside _ _ _ _ P)); reflexivity|repeat split..].
  Qed.

  Lemma sources_kept x h w : work_of order img x -> Forall (work_of order img) h -> w_room w = None -> no_empty_source (x :: h) w ->
    no_empty_source h (fst (main_run (deed_command iter fuel x) w)).
  Proof.
    intros Hx Hh Hroom NE order' img' ft ow addr n src s r q Hin Hs.
    assert (Hsrc : src <> img) by (rewrite Forall_forall in Hh; specialize (Hh _ Hin); remember (On order' img' (APut ft ow addr n src)) as y eqn:Ey; destruct Hh as [y Hh|]; [destruct Hh; congruence|congruence]).
    destruct (run (deed_command iter fuel x) w) as [w1 r1] eqn:E. unfold main_run in Hs. rewrite E in Hs. cbn [fst] in Hs.
    assert (G : w_fs w1 src = w_fs w src \/ exists y, y <> [] /\ w_fs w1 src = written (w_fs w src) y).
    { destruct Hx as [x [ft' ow' addr' n' src' Hs1 Hs2|force n'|short|n' a s'|file y Hf Hy]|n']; cbn [deed_command command] in E.
      - left. refine (final_others img Himg _ _ _ _ _ E src Hsrc). apply (modifies_final iter fuel). constructor.
      - left. refine (final_others img Himg _ _ _ _ _ E src Hsrc). apply (modifies_final iter fuel). constructor.
      - left. refine (no_write_run _ _ _ _ _ E src). apply (reads_no_write iter fuel). constructor.
      - left. refine (final_others img Himg _ _ _ _ _ E src Hsrc). apply (modifies_final iter fuel). constructor.
      - cbn [run] in E. unfold sys_write in E. destruct (can_write (w_fs w file)).
        + rewrite Hroom in E. cbn [fits run] in E. injection E as <- _. cbn [set_fs w_fs]. destruct (beq src file) eqn:Eb; [|left; reflexivity].
          apply beq_eq in Eb. subst file. right. exists y. auto.
        + cbn [run] in E. injection E as <- _. left. reflexivity.
      - left. refine (no_write_run _ _ _ _ _ E src). apply (reads_no_write iter fuel). constructor. }
    destruct G as [G|(y & Hy & G)].
    - rewrite G in Hs. exact (NE order' img' ft ow addr n src s r q (or_intror Hin) Hs).
    - rewrite G in Hs. unfold written in Hs. destruct (w_fs w src); injection Hs as <- _ _; exact Hy.
  Qed.

  Lemma session_agreed : forall h w w', Forall (work_of order img) h -> pair_held img o w w' -> no_empty_source h w ->
    throughout (unmarked img) (map (deed_command iter fuel) h) w -> throughout (unmarked img) (map (deed_command iter fuel) h) w' ->
    exists v v' l, session (map (deed_command iter fuel) h) w = (v, l) /\ session (map (deed_command iter fuel) h) w' = (v', l) /\ pair_held img o v v'.
  Proof.
    induction h as [|x h IH]; intros w w' Hh P NE U U'.
    - exists w, w', []. split; [reflexivity|]. split; [reflexivity|exact P].
    - apply Forall_cons_iff in Hh as [Hx Hh]. cbn [map throughout] in U, U'. destruct U as [U0 U]. destruct U' as [U0' U'].
      assert (Pq : pair_held img o (quiet w) (quiet w')).
      { destruct P as [[B1 B2 B3 B4] Q]. split; [split; assumption|exact Q]. }
      assert (NEq : no_empty_source (x :: h) (quiet w)) by exact NE.
      assert (NE1 : no_empty_source [x] (quiet w)).
      { intros a b c0 d0 e0 f0 g0 h0 i0 j0 [->|[]] Hj. exact (NE a b c0 d0 e0 f0 g0 h0 i0 j0 (or_introl eq_refl) Hj). }
      destruct (deed_agreed x (quiet w) (quiet w') Hx Pq eq_refl U0 U0' NE1) as (v & v' & r & E & E' & S & P1).
      assert (Hroom : w_room (quiet w) = None) by exact (proj1 (bs_room _ _ _ (ph_beside _ _ _ _ P))).
      pose proof (sources_kept x h (quiet w) Hx Hh Hroom NEq) as NE2. unfold main_run in NE2, U, U'. rewrite E in NE2, U. rewrite E' in U'. cbn [fst] in NE2, U, U'.
      destruct (IH v v' Hh P1 NE2 U U') as (v2 & v2' & l & F & F' & P2).
      exists v2, v2', ((main_status r, w_stdout v) :: l). cbn [map session]. unfold main_run. rewrite E, E', F, F', S.
      split; [reflexivity|]. split; [reflexivity|exact P2].
  Qed.
End Deeds.

Lemma place_session : forall (iter : list (Z * Subdirectory) -> list (Z * Subdirectory)) fuel order img o h w w' c c' q d d',
  img <> s2b "-" -> first_order img order o -> Forall (work_of order img) h -> beside img w w' ->
  w_fs w img = NFile c true q -> w_fs w' img = NFile c' true q -> same_holding c c' o d d' -> no_empty_source h w ->
  throughout (unmarked img) (map (deed_command iter fuel) h) w -> throughout (unmarked img) (map (deed_command iter fuel) h) w' ->
  exists v v' l c1 c1' q1 d1 d1',
    session (map (deed_command iter fuel) h) w = (v, l) /\ session (map (deed_command iter fuel) h) w' = (v', l) /\ beside img v v' /\
    w_fs v img = NFile c1 true q1 /\ w_fs v' img = NFile c1' true q1 /\ same_holding c1 c1' o d1 d1'.
Proof.
  intros iter fuel order img o h w w' c c' q d d' Hi Ho Hh HB F F' T NE U U'.
  assert (P : pair_held img o w w') by (split; [exact HB|exists c, c', q, d, d'; auto]).
  destruct (session_agreed iter fuel order img o Hi Ho h w w' Hh P NE U U') as (v & v' & l & E & E' & [B1 (c1 & c1' & q1 & d1 & d1' & F1 & F1' & T1)]).
  exists v, v', l, c1, c1', q1, d1, d1'. auto 12.
Qed.
