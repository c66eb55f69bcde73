(** TwinCmdProofs.v -- the commands on two disks. *)
From Verif Require Import GoBase GoLemmas TypesModel DiskModel DiskSpec DiskProofs.
From Verif Require Import SupermonModel SupermonSpec SupermonTableSpec SupermonProofs SupermonOpProofs.
From Verif Require Import ProdosModel CmdModel CmdSpec CmdProofs CmdStmtProofs MainModel NakedCmdSpec NakedCmdProofs NakedOpenProofs SessionSpec ShelfSpec LocalSpec LocalProofs TwinSpec TwinProofs.
From Coq Require Import ZifyBool ZifyNat.
Ltac Zify.zify_post_hook ::= Z.div_mod_to_equations.
Local Opaque zrange zeros sub.

(** ** From operators to twins and back *)
Lemma twins_ready c c' o d d' op : twins c c' o d d' -> NewOperator d = Ok op ->
  exists op', NewOperator d' = Ok op' /\ op_ready op op' /\ op_ok op /\ op_ok op' /\ op_data op = d /\ op_data op' = d'.
Proof.
  intros [N N' M T _] En. pose proof (fl_len _ _ (proj2 N)) as Zd. pose proof (fl_len _ _ (proj2 N')) as Zd'.
  destruct (naked_op_same d d' Zd Zd' M T op En) as (op' & En' & HM & HS). exists op'. split; [exact En'|].
  destruct (NewOperator_ok d op Zd En) as (Hok & Ed & Em & _). destruct (NewOperator_ok d' op' Zd' En') as (Hok' & Ed' & Em' & _).
  split; [|split; [exact Hok|split; [exact Hok'|split; [exact Ed|exact Ed']]]].
  split; [exact HS|]. split; unfold pair_of; cbn [fst snd]; [exact HM|]. rewrite Ed, Ed'.
  split; [exact Zd|]. split; [exact Zd'|]. exact (v_len _ (fl_ver _ _ (ok_fl _ Hok))).
Qed.
Lemma release_at d : zlen d = 143360 -> release_byte d = znth 0 d 69635.
Proof. intros H. unfold release_byte, sector, offset. rewrite znth_sub by lia. reflexivity. Qed.
Lemma owned_in sm f k : zlen sm = 560 -> In k (owned sm f) -> 0 <= k < 560 /\ znth 0 sm k = f.
Proof. intros L H. apply In_owned in H. exact H. Qed.
Lemma lock_twins c c' o d d' op op' u u' n n' : twins c c' o d d' -> op_data op = d -> op_data op' = d' -> op_ready op op' -> op_ok op -> op_ok u -> op_ok u' ->
  op_lock op op' u u' -> reordered n o (s2b "raw") (op_data u) -> reordered n' o (s2b "raw") (op_data u') ->
  twins n n' o (op_data u) (op_data u') /\ in_step d d' (op_data u) (op_data u').
Proof.
  intros W Ed Ed' [_ [_ (R1 & R2 & R3)]] Hop Hu Hu' [_ [KM (K1 & K2 & K3) KS KO]] Hr Hr'. unfold pair_of in *. cbn [fst snd] in *.
  destruct W as [N N' M T Mk].
  assert (Em : op_SM op = stored_map d) by (rewrite <- Ed; symmetry; exact (fl_map _ _ (ok_fl _ Hop))). rewrite Ed, Ed' in *.
  destruct (new_image n o u Hu Hr) as [I1 E1]. destruct (new_image n' o u' Hu' Hr') as [I2 E2].
  split; [|exact KS]. split; [exact I1|exact I2|congruence| |].
  - intros k Hk. unfold naked_part in Hk. rewrite <- E1 in Hk.
    assert (0 <= k < 560 /\ (znth 0 (op_SM u) k = 3 \/ znth 0 (op_SM u) k = 4)) as [Hb Hf].
    { destruct Hk as [Hk|Hk]; apply (owned_in _ _ _ K3) in Hk as [Hb E]; auto. }
    destruct (KO k Hb) as [E|[E|E]]; [|unfold FREE in E; lia|exact E].
    apply (in_step_sec d d'); [assumption..|]. apply T. unfold naked_part. rewrite <- Em.
    destruct Hf as [Hf|Hf]; [left|right]; apply In_owned; (split; [exact Hb|congruence]).
  - pose proof (release_same _ _ _ _ Hr) as Q1. pose proof (release_same _ _ _ _ Hr') as Q2.
    pose proof (release_same _ _ _ _ (proj1 N)) as Q3. pose proof (release_same _ _ _ _ (proj1 N')) as Q4.
    rewrite <- Q1, <- Q2. rewrite <- Q3, <- Q4 in Mk. rewrite !release_at in * by assumption.
    destruct (KS 69635 ltac:(lia)) as [E|[E E']]; [exact E|]. rewrite E, E'. exact Mk.
Qed.

(** ** Worlds *)
Record pair_up (img o : bytes) (w w' : world) (d d' : bytes) : Prop := {
  pu_beside : beside img w w';
  pu_twins : exists c c' q, w_fs w img = NFile c true q /\ w_fs w' img = NFile c' true q /\ twins c c' o d d'
}.
(** One command in both worlds: the same status and output, and a pair again. *)
Definition matched (img o : bytes) (p : prog unit) (w w' : world) (d d' : bytes) : Prop :=
  exists v v' r e e', run p w = (v, r) /\ run p w' = (v', r) /\ w_stdout v' = w_stdout v /\
    pair_up img o v v' e e' /\ in_step d d' e e'.
Lemma matched_stay img o p w w' d d' r : pair_up img o w w' d d' -> w_stdout w' = w_stdout w -> run p w = (w, r) -> run p w' = (w', r) -> matched img o p w w' d d'.
Proof. intros P S H H'. exists w, w', r, d, d'. split; [exact H|]. split; [exact H'|]. split; [exact S|]. split; [exact P|apply in_step_refl]. Qed.

Lemma ls_lines_beside short fds : forall w w', w_outroom w' = w_outroom w -> w_stdout w' = w_stdout w -> exists v v' r,
  run (ls_lines short fds) w = (v, r) /\ run (ls_lines short fds) w' = (v', r) /\ w_stdout v' = w_stdout v /\ w_outroom v' = w_outroom v /\
  (w_fs v = w_fs w /\ w_stdin v = w_stdin w /\ w_room v = w_room w) /\ (w_fs v' = w_fs w' /\ w_stdin v' = w_stdin w' /\ w_room v' = w_room w').
Proof.
  induction fds as [|fd fds IH]; intros w w' Ho Hs.
  - exists w, w', (Ok tt). repeat split; assumption.
  - cbn [ls_lines run]. unfold sys_stdout. rewrite Ho.
    remember (if fits (w_outroom w) (ls_line short fd) then ls_line short fd else cut (w_outroom w) (ls_line short fd)) as x eqn:Ex.
    assert (w_outroom (add_out w' x) = w_outroom (add_out w x)) as Hx by (cbn [add_out w_outroom]; rewrite Ho; reflexivity).
    assert (w_stdout (add_out w' x) = w_stdout (add_out w x)) as Hy by (cbn [add_out w_stdout]; rewrite Hs; reflexivity).
    destruct (IH _ _ Hx Hy) as (v & v' & r & H). exists v, v', r. rewrite Ex in H. destruct (fits (w_outroom w) (ls_line short fd)); exact H.
Qed.

Section Deeds.
  Context (iter : list (Z * Subdirectory) -> list (Z * Subdirectory)) (fuel : nat) (order img o : bytes).
  Context (Himg : img <> s2b "-") (Hord : first_order img order o).

  Lemma both_open w w' d d' : pair_up img o w w' d d' -> unmarked img w ->
    exists op op' c c' q, w_fs w img = NFile c true q /\ w_fs w' img = NFile c' true q /\ twins c c' o d d' /\
      run (OpenFilename iter fuel img order (s2b "auto")) w = (w, Ok (ONaked op, o)) /\
      run (OpenFilename iter fuel img order (s2b "auto")) w' = (w', Ok (ONaked op', o)) /\
      op_ready op op' /\ op_ok op /\ op_ok op' /\ op_data op = d /\ op_data op' = d'.
  Proof.
    intros [_ (c & c' & q & F & F' & T)] U. assert (Hrel : release_byte c <> 3) by exact (U _ _ _ F).
    destruct (open_naked iter fuel c o d img order Hord (tw_first _ _ _ _ _ T) Hrel) as (op & Eo & En).
    destruct (twins_ready _ _ _ _ _ _ T En) as (op' & En' & HR & Hok & Hok' & Ed & Ed').
    assert (Hrel' : release_byte c' <> 3) by (rewrite <- (tw_mark _ _ _ _ _ T); exact Hrel).
    destruct (open_naked iter fuel c' o d' img order Hord (tw_second _ _ _ _ _ T) Hrel') as (op2 & Eo' & En2). assert (op2 = op') as -> by congruence.
    assert (Hi : input w img c) by (right; split; [exact Himg|exists q; exact F]).
    assert (Hi' : input w' img c') by (right; split; [exact Himg|exists q; exact F']).
    destruct (open_run_ok iter fuel _ _ _ _ _ _ _ Hi Eo) as (w1 & Er & _ & _ & _ & _ & W1). rewrite (W1 Himg) in Er.
    destruct (open_run_ok iter fuel _ _ _ _ _ _ _ Hi' Eo') as (w2 & Er' & _ & _ & _ & _ & W2). rewrite (W2 Himg) in Er'.
    exists op, op', c, c', q. auto 12.
  Qed.

  Lemma write_matched w w' d d' op op' u u' c c' q : pair_up img o w w' d d' -> w_stdout w' = w_stdout w -> w_fs w img = NFile c true q -> w_fs w' img = NFile c' true q ->
    twins c c' o d d' -> op_ready op op' -> op_ok op -> op_data op = d -> op_data op' = d' -> op_ok u -> op_ok u' -> op_lock op op' u u' ->
    exists v v' r e e', run (WriteBack img (ONaked u) o true) w = (v, r) /\ run (WriteBack img (ONaked u') o true) w' = (v', r) /\ w_stdout v' = w_stdout v /\
      pair_up img o v v' e e' /\ in_step d d' e e'.
  Proof.
    intros P S F F' T HR Hop Ed Ed' Hu Hu' K.
    destruct (writeback_run c o d u img (proj1 (tw_first _ _ _ _ _ T)) (fl_len _ _ (ok_fl _ Hu))) as (n & Hn & Rn).
    destruct (writeback_run c' o d' u' img (proj1 (tw_second _ _ _ _ _ T)) (fl_len _ _ (ok_fl _ Hu'))) as (n' & Hn' & Rn').
    destruct (lock_twins _ _ _ _ _ _ _ _ _ _ _ T Ed Ed' HR Hop Hu Hu' K Hn Hn') as [T2 KS].
    rewrite Rn, Rn'. unfold WriteOutput. change dash with (s2b "-"). rewrite (beq_false _ _ Himg). cbn [run]. unfold sys_write. rewrite F, F'.
    destruct P as [[B1 B2 [B3 B3'] B4] _]. cbn [can_write written]. destruct q.
    - rewrite B3, B3'. cbn [fits]. do 5 eexists. split; [reflexivity|]. split; [reflexivity|]. split; [exact S|]. split; [|exact KS].
      split.
      + split; cbn [set_fs w_fs w_stdin w_room w_outroom]; [|exact B2|auto|exact B4]. intros m Hm. rewrite (beq_false _ _ Hm). exact (B1 m Hm).
      + exists n, n', true. cbn [set_fs w_fs]. rewrite beq_refl. auto.
    - do 5 eexists. split; [reflexivity|]. split; [reflexivity|]. split; [exact S|]. split; [|apply in_step_refl].
      split; [split; auto|]. exists c, c', false. auto.
  Qed.

  Lemma put_info_matched w w' d d' op op' c c' q i ow : pair_up img o w w' d d' -> w_stdout w' = w_stdout w -> w_fs w img = NFile c true q -> w_fs w' img = NFile c' true q ->
    twins c c' o d d' -> op_ready op op' -> op_ok op -> op_ok op' -> op_data op = d -> op_data op' = d' -> fi_data i <> [] ->
    exists v v' r e e',
      run (let '(x, r) := Op_PutFile (ONaked op) i ow in _ <<- plift r ;; WriteBack img x o true) w = (v, r) /\
      run (let '(x, r) := Op_PutFile (ONaked op') i ow in _ <<- plift r ;; WriteBack img x o true) w' = (v', r) /\ w_stdout v' = w_stdout v /\
      pair_up img o v v' e e' /\ in_step d d' e e'.
  Proof.
    intros P S F F' T HR Hop Hop' Ed Ed' Hne. cbn [Op_PutFile].
    destruct (put_goes i ow op op' HR) as (u & u' & r & E & E' & K). rewrite E, E'. cbn [lift_op].
    destruct (PutFile_inv _ _ _ _ _ Hop Hne E) as [Hu _]. destruct (PutFile_inv _ _ _ _ _ Hop' Hne E') as [Hu' _].
    rewrite !run_pbind. unfold plift. cbn [run]. destruct r as [b|er|].
    - exact (write_matched _ _ _ _ _ _ _ _ _ _ _ P S F F' T HR Hop Ed Ed' Hu Hu' K).
    - do 5 eexists. split; [reflexivity|]. split; [reflexivity|]. split; [exact S|]. split; [exact P|apply in_step_refl].
    - do 5 eexists. split; [reflexivity|]. split; [reflexivity|]. split; [exact S|]. split; [exact P|apply in_step_refl].
  Qed.

  Lemma deed_matched x w w' d d' : edit_of order img x -> pair_up img o w w' d d' -> w_stdout w' = w_stdout w -> unmarked img w ->
    no_empty_source [x] w -> matched img o (deed_command iter fuel x) w w' d d'.
  Proof.
    intros Hx P S U NE. destruct (both_open _ _ _ _ P U) as (op & op' & c & c' & q & F & F' & T & R & R' & HR & Hok & Hok' & Ed & Ed').
    destruct Hx as [ft ow addr n src Hs1 Hs2|force n|short|n a s|file y Hf Hy]; cbn [deed_command command].
    - unfold matched, PutCmd_Run. change dash with (s2b "-"). rewrite (beq_false _ _ Himg). cbn [andb]. rewrite !run_pbind, R, R'.
      rewrite !run_pbind. unfold FileContentsOrStdIn. change dash with (s2b "-"). rewrite (beq_false _ _ Hs1). cbn [run].
      rewrite (bs_files _ _ _ (pu_beside _ _ _ _ _ _ P) src Hs2).
      destruct (sys_read (w_fs w src)) as [s|er|] eqn:Er.
      2,3: do 5 eexists; (split; [reflexivity|]; split; [reflexivity|]; split; [exact S|]; split; [exact P|apply in_step_refl]).
      rewrite !run_pbind. unfold plift at 1 3. cbn [run]. destruct (FiletypeForName ft) as [t|er|].
      2,3: do 5 eexists; (split; [reflexivity|]; split; [reflexivity|]; split; [exact S|]; split; [exact P|apply in_step_refl]).
      cbv zeta. apply (put_info_matched w w' d d' op op' c c' q); try assumption. cbn [fi_data].
      destruct (w_fs w src) as [| |s0 [|] wr|] eqn:Es; cbn [sys_read] in Er; [discriminate Er|discriminate Er| |discriminate Er|discriminate Er].
      injection Er as <-. exact (NE order img ft ow addr n src s0 true wr (or_introl eq_refl) Es).
    - unfold matched, DeleteCmd_Run. rewrite !run_pbind, R, R'. cbn [Op_Delete].
      destruct (rm_goes n op op' HR) as (u & u' & r & E & E' & K). rewrite E, E'. cbn [lift_op].
      destruct (Delete_inv _ _ _ _ Hok E) as [Hu _]. destruct (Delete_inv _ _ _ _ Hok' E') as [Hu' _].
      rewrite !run_pbind. unfold plift. cbn [run]. destruct r as [b|er|].
      2,3: do 5 eexists; (split; [reflexivity|]; split; [reflexivity|]; split; [exact S|]; split; [exact P|apply in_step_refl]).
      destruct (negb b && negb force).
      + do 5 eexists; (split; [reflexivity|]; split; [reflexivity|]; split; [exact S|]; split; [exact P|apply in_step_refl]).
      + exact (write_matched _ _ _ _ _ _ _ _ _ _ _ P S F F' T HR Hok Ed Ed' Hu Hu' K).
    - unfold matched, LsCmd_Run. rewrite !run_pbind, R, R'. cbn [beq negb andb]. rewrite !run_pbind. unfold plift. cbn [run Op_Catalog].
      destruct (ready_st _ _ HR) as [ES EM]. unfold SupermonModel.Catalog. rewrite ES, EM.
      destruct P as [B Q].
      match goal with |- context [run (ls_lines short ?x) w] => remember x as fds eqn:Ef end.
      destruct (ls_lines_beside short fds w w' (bs_outroom _ _ _ B) S) as (v & v' & r & E & E' & Hs & Ho & (V1 & V2 & V3) & V1' & V2' & V3').
      exists v, v', r, d, d'. split; [exact E|]. split; [exact E'|]. split; [exact Hs|]. split; [|apply in_step_refl].
      destruct B as [B1 B2 B3 B4]. split.
      + split; [intros m Hm; rewrite V1, V1'; exact (B1 m Hm)|congruence|rewrite V3, V3'; exact B3|exact Ho].
      + rewrite V1, V1'. exact Q.
    - unfold matched, MkHelloCmd_Run. cbv zeta. destruct (negb _).
      { do 5 eexists; (split; [reflexivity|]; split; [reflexivity|]; split; [exact S|]; split; [exact P|apply in_step_refl]). }
      destruct (_ <? a).
      { do 5 eexists; (split; [reflexivity|]; split; [reflexivity|]; split; [exact S|]; split; [exact P|apply in_step_refl]). }
      rewrite !run_pbind, R, R'. rewrite !run_pbind. unfold plift at 1 3. cbn [run]. rewrite (proj1 (ready_st _ _ HR)).
      destruct (FilesForCompoundName (st_of op) n) as [[[f g] y]|er|].
      2,3: do 5 eexists; (split; [reflexivity|]; split; [reflexivity|]; split; [exact S|]; split; [exact P|apply in_step_refl]).
      destruct ((f =? 0) && (g =? 0)).
      { do 5 eexists; (split; [reflexivity|]; split; [reflexivity|]; split; [exact S|]; split; [exact P|apply in_step_refl]). }
      apply (put_info_matched w w' d d' op op' c c' q); try assumption. cbn [fi_data]. discriminate.
    - unfold matched. cbn [run]. unfold sys_write. destruct P as [[B1 B2 [B3 B3'] B4] Q]. rewrite (B1 file Hf). destruct (can_write (w_fs w file)).
      + rewrite B3, B3'. cbn [fits]. exists (set_fs w file (written (w_fs w file) y)), (set_fs w' file (written (w_fs w file) y)), (Ok tt), d, d'.
        split; [reflexivity|]. split; [reflexivity|]. split; [exact S|]. split; [|apply in_step_refl]. split.
        * split; cbn [set_fs w_fs w_stdin w_room w_outroom]; [|exact B2|auto|exact B4]. intros m Hm. destruct (beq m file); [reflexivity|exact (B1 m Hm)].
        * cbn [set_fs w_fs]. rewrite (beq_false _ _ (not_eq_sym Hf)). exact Q.
      + exists w, w', (Err (EOther "os.WriteFile")), d, d'. split; [reflexivity|]. split; [reflexivity|]. split; [exact S|]. split; [|apply in_step_refl]. split; [split; auto|exact Q].
  Qed.

  Lemma final_others (p : prog unit) w w1 r : final_write img p -> run p w = (w1, r) -> same_files_but w w1 img.
  Proof.
    intros Hp E. destruct (final_run img p Hp w w1 r E) as (H1 & H2 & H3). destruct r as [[]|er|].
    - destruct (H1 eq_refl) as [y Hy]. destruct Hy as [(X & _)|(_ & X & _)]; [contradiction (Himg X)|exact X].
    - destruct (H2 er eq_refl) as [X|(_ & X & _)]; [intros m _; exact (X m)|exact X].
    - intros m _. exact (H3 eq_refl m).
  Qed.
  (** The sources stay as they are, but for what is saved. *)
  Lemma sources_stay x h w : edit_of order img x -> Forall (edit_of order img) h -> w_room w = None -> no_empty_source (x :: h) w ->
    no_empty_source h (fst (main_run (deed_command iter fuel x) w)).
  Proof.
    intros Hx Hh Hroom NE order' img' ft ow addr n src s r q Hin Hs.
    assert (Hsrc : src <> img) by (rewrite Forall_forall in Hh; specialize (Hh _ Hin); remember (On order' img' (APut ft ow addr n src)) as y eqn:Ey; destruct Hh; congruence).
    destruct (run (deed_command iter fuel x) w) as [w1 r1] eqn:E. unfold main_run in Hs. rewrite E in Hs. cbn [fst] in Hs.
    assert (G : w_fs w1 src = w_fs w src \/ exists y, y <> [] /\ w_fs w1 src = written (w_fs w src) y).
    { destruct Hx as [ft' ow' addr' n' src' Hs1 Hs2|force n'|short|n' a s'|file y Hf Hy]; cbn [deed_command command] in E.
      - left. refine (final_others _ _ _ _ _ E src Hsrc). apply (modifies_final iter fuel). constructor.
      - left. refine (final_others _ _ _ _ _ E src Hsrc). apply (modifies_final iter fuel). constructor.
      - left. refine (no_write_run _ _ _ _ _ E src). apply (reads_no_write iter fuel). constructor.
      - left. refine (final_others _ _ _ _ _ E src Hsrc). apply (modifies_final iter fuel). constructor.
      - cbn [run] in E. unfold sys_write in E. destruct (can_write (w_fs w file)).
        + rewrite Hroom in E. cbn [fits run] in E. injection E as <- _. cbn [set_fs w_fs]. destruct (beq src file) eqn:Eb; [|left; reflexivity].
          apply beq_eq in Eb. subst file. right. exists y. auto.
        + cbn [run] in E. injection E as <- _. left. reflexivity. }
    destruct G as [G|(y & Hy & G)].
    - rewrite G in Hs. exact (NE order' img' ft ow addr n src s r q (or_intror Hin) Hs).
    - rewrite G in Hs. unfold written in Hs. destruct (w_fs w src); injection Hs as <- _ _; exact Hy.
  Qed.

  Lemma session_matched : forall h w w' d d', Forall (edit_of order img) h -> pair_up img o w w' d d' -> no_empty_source h w ->
    throughout (unmarked img) (map (deed_command iter fuel) h) w ->
    exists v v' l e e', session (map (deed_command iter fuel) h) w = (v, l) /\ session (map (deed_command iter fuel) h) w' = (v', l) /\
      pair_up img o v v' e e' /\ in_step d d' e e'.
  Proof.
    induction h as [|x h IH]; intros w w' d d' Hh P NE U.
    - exists w, w', [], d, d'. split; [reflexivity|]. split; [reflexivity|]. split; [exact P|apply in_step_refl].
    - apply Forall_cons_iff in Hh as [Hx Hh]. cbn [map throughout] in U. destruct U as [U0 U].
      assert (Pq : pair_up img o (quiet w) (quiet w') d d').
      { destruct P as [[B1 B2 B3 B4] Q]. split; [split; assumption|exact Q]. }
      assert (NEq : no_empty_source (x :: h) (quiet w)) by exact NE.
      assert (NE1 : no_empty_source [x] (quiet w)).
      { intros a b c0 d0 e0 f0 g0 h0 i0 j0 [->|[]] Hj. exact (NE a b c0 d0 e0 f0 g0 h0 i0 j0 (or_introl eq_refl) Hj). }
      destruct (deed_matched x (quiet w) (quiet w') d d' Hx Pq eq_refl U0 NE1) as (v & v' & r & e & e' & E & E' & S & P1 & K1).
      assert (Hroom : w_room (quiet w) = None) by exact (proj1 (bs_room _ _ _ (pu_beside _ _ _ _ _ _ P))).
      pose proof (sources_stay x h (quiet w) Hx Hh Hroom NEq) as NE2. unfold main_run in NE2, U. rewrite E in NE2, U. cbn [fst] in NE2, U.
      destruct (IH v v' e e' Hh P1 NE2 U) as (v2 & v2' & l & e2 & e2' & F & F' & P2 & K2).
      exists v2, v2', ((main_status r, w_stdout v) :: l), e2, e2'. cbn [map session]. unfold main_run. rewrite E, E', F, F', S.
      split; [reflexivity|]. split; [reflexivity|]. split; [exact P2|exact (in_step_trans _ _ _ _ _ _ K1 K2)].
  Qed.
End Deeds.

Lemma twin_session : forall (iter : list (Z * Subdirectory) -> list (Z * Subdirectory)) fuel order img o h w w' c c' q d d',
  img <> s2b "-" -> first_order img order o -> Forall (edit_of order img) h -> beside img w w' ->
  w_fs w img = NFile c true q -> w_fs w' img = NFile c' true q -> twins c c' o d d' ->
  no_empty_source h w -> throughout (unmarked img) (map (deed_command iter fuel) h) w ->
  exists v v' l c1 c1' q1 d1 d1',
    session (map (deed_command iter fuel) h) w = (v, l) /\ session (map (deed_command iter fuel) h) w' = (v', l) /\ beside img v v' /\
    w_fs v img = NFile c1 true q1 /\ w_fs v' img = NFile c1' true q1 /\ twins c1 c1' o d1 d1' /\ in_step d d' d1 d1'.
Proof.
  intros iter fuel order img o h w w' c c' q d d' Hi Ho Hh HB F F' T NE U.
  assert (P : pair_up img o w w' d d') by (split; [exact HB|exists c, c', q; auto]).
  destruct (session_matched iter fuel order img o Hi Ho h w w' d d' Hh P NE U) as (v & v' & l & e & e' & E & E' & [B1 (c1 & c1' & q1 & F1 & F1' & T1)] & K).
  exists v, v', l, c1, c1', q1, e, e'. auto 12.
Qed.
