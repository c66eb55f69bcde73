(** BackupProofs.v -- restoring files, and disks that hold the same files. *)
From Coq Require Import ZifyBool ZifyNat.
From Verif Require Import GoBase GoLemmas TypesModel DiskModel DiskSpec DiskProofs.
From Verif Require Import SupermonModel SupermonSpec SupermonTableSpec SupermonStoreSpec SupermonProofs SupermonOpProofs SupermonNameProofs SupermonNamedProofs SupermonFinalProofs SupermonStmtProofs.
From Verif Require Import ProdosModel CmdModel CmdSpec CmdProofs CmdStmtProofs MainModel NakedCmdSpec NakedCmdProofs NakedOpenProofs AfterProofs SessionSpec SessionProofs MarkProofs LawsProofs LocalProofs BackupSpec.
Ltac Zify.zify_post_hook ::= Z.div_mod_to_equations.
Local Opaque zrange zeros sub.

(** ** Disks that hold the same files *)
Section Same.
  Context (d d' : bytes) (Hf : floppy d (stored_map d)) (Hf' : floppy d' (stored_map d')) (HC : same_contents d d').
  Lemma same_used f : legal f -> sectors_on d' f = sectors_on d f.
  Proof.
    intros Hl. pose proof (f_equal zlen (HC f Hl)) as E. unfold file_on in E.
    rewrite !zlen_content in E by (apply (fl_len _ _ Hf) || apply (fl_len _ _ Hf')). unfold sectors_on. lia.
  Qed.
  Lemma same_operators op op' : NewOperator d = Ok op -> NewOperator d' = Ok op' ->
    SupermonModel.Catalog op' = SupermonModel.Catalog op /\ (forall n, GetFile op' n = GetFile op n) /\ st_of op' = st_of op.
  Proof.
    intros E E'. destruct (NewOperator_ok d op (fl_len _ _ Hf) E) as (Hok & Ed & Em & _). destruct (NewOperator_ok d' op' (fl_len _ _ Hf') E') as (Hok' & Ed' & Em' & _).
    assert (Et : st_of op' = st_of op).
    { apply (names_det d'); [exists op'; auto|]. apply (names_same d d' _ Hf Hf'); [apply HC; unfold legal; lia|apply HC; unfold legal; lia|exists op; auto]. }
    split; [|split; [|exact Et]].
    - unfold SupermonModel.Catalog. rewrite Et, Em, Em'. apply (f_equal Ok).
      assert (HI : forall f, In f file_numbers -> legal f).
      { intros f H. rewrite file_numbers_eq in H. apply in_map_iff in H as (k & <- & Hk). apply In_zrange in Hk. unfold legal. lia. }
      remember file_numbers as nums eqn:En. clear En. induction nums as [|f l IH]; cbn [flat_map]; [reflexivity|]. rewrite IH by (intros g Hg; apply HI; right; exact Hg).
      assert (Hl : legal f) by (apply HI; left; reflexivity).
      assert (zlen (SectorsByFile (stored_map d') f) = zlen (SectorsByFile (stored_map d) f)) as ->; [|reflexivity].
      pose proof (same_used f Hl) as X. unfold sectors_on in X. rewrite !SectorsByFile_owned by exact Hl. exact X.
    - intros n. unfold GetFile. rewrite Et. destruct (FileForName (st_of op) n) as [f|e|] eqn:EF; [|reflexivity..]. cbn [rbind].
      apply FileForName_resolves, resolves_legal in EF. rewrite !ReadFile_spec by (apply (fl_len _ _ (ok_fl _ Hok)) || apply (fl_len _ _ (ok_fl _ Hok'))).
      rewrite Ed, Em, Ed', Em'. pose proof (HC f EF) as X. unfold file_on in X. rewrite X. reflexivity.
  Qed.
End Same.

Section Show.
  Context (iter : list (Z * Subdirectory) -> list (Z * Subdirectory)) (fuel : nat).
  Lemma show_same img img' order order' c c' o o' d d' w w' :
    first_order img order o -> first_order img' order' o' -> naked_image c o d -> naked_image c' o' d' -> same_contents d d' ->
    release_byte c <> 3 -> release_byte c' <> 3 -> input w img c -> input w' img' c' -> w_outroom w = w_outroom w' ->
    (forall short, both_show (LsCmd_Run iter fuel order (s2b "auto") short img []) w (LsCmd_Run iter fuel order' (s2b "auto") short img' []) w') /\
    (forall n, both_show (DumpCmd_Run iter fuel order (s2b "auto") img n) w (DumpCmd_Run iter fuel order' (s2b "auto") img' n) w').
  Proof.
    intros Ho Ho' N N' HC R R' Hi Hi' Hw.
    destruct (open_naked iter fuel c o d img order Ho N R) as (op & Eo & En). destruct (open_naked iter fuel c' o' d' img' order' Ho' N' R') as (op' & Eo' & En').
    destruct (same_operators d d' (proj2 N) (proj2 N') HC op op' En En') as (EC & EG & _).
    destruct (open_run_ok iter fuel _ _ _ _ _ _ _ Hi Eo) as (w1 & Er & _ & Hso & _ & Hor & _).
    destruct (open_run_ok iter fuel _ _ _ _ _ _ _ Hi' Eo') as (w1' & Er' & _ & Hso' & _ & Hor' & _).
    assert (w_outroom w1 = w_outroom w1') as Hw1 by congruence. split.
    - intros short. unfold both_show, main_run, LsCmd_Run. rewrite !run_pbind, Er, Er'. cbn [beq negb andb]. rewrite !run_pbind. unfold plift. cbn [run Op_Catalog].
      rewrite EC. destruct (SupermonModel.Catalog op) as [fds|e|].
      + destruct (ls_lines_same short fds w1 w1' Hw1) as (w2 & w2' & r & text & -> & -> & T & T').
        exists w2, w2', (main_status r), text. rewrite T, T', Hso, Hso'. repeat split.
      + exists w1, w1', 1, []. rewrite !app_nil_r. repeat split; assumption.
      + exists w1, w1', 2, []. rewrite !app_nil_r. repeat split; assumption.
    - intros n. unfold both_show, main_run, DumpCmd_Run. rewrite !run_pbind, Er, Er'. rewrite !run_pbind. unfold plift. cbn [run Op_GetFile].
      rewrite EG. destruct (GetFile op n) as [i|e|].
      + cbn [run]. unfold sys_stdout. rewrite <- Hw1. destruct (fits (w_outroom w1) (fi_data i)).
        * exists (add_out w1 (fi_data i)), (add_out w1' (fi_data i)), 0, (fi_data i). cbn [add_out w_stdout]. rewrite Hso, Hso'. repeat split.
        * exists (add_out w1 (cut (w_outroom w1) (fi_data i))), (add_out w1' (cut (w_outroom w1) (fi_data i))), 1, (cut (w_outroom w1) (fi_data i)).
          cbn [add_out w_stdout]. rewrite Hso, Hso'. repeat split.
      + exists w1, w1', 1, []. rewrite !app_nil_r. repeat split; assumption.
      + exists w1, w1', 2, []. rewrite !app_nil_r. repeat split; assumption.
  Qed.
End Show.

(** ** Restoring *)
Lemma file_number l f : { exists i, In i l /\ it_file i = f } + { forall i, In i l -> it_file i <> f }.
Proof.
  induction l as [|i l IH]; [right; intros i []|]. destruct (Z.eq_dec (it_file i) f) as [E|E]; [left; exists i; split; [left; reflexivity|exact E]|].
  destruct IH as [H|H]; [left; destruct H as (j & Hj & Ej); exists j; split; [right; exact Hj|exact Ej]|right].
  intros j [<-|Hj]; [exact E|exact (H j Hj)].
Qed.
(** The disk [e] with the files of [l] from [d] added is [e']. *)
Record restored (d e e' : bytes) (l : list item) : Prop := {
  rs_new : forall i, In i l -> file_on e' (it_file i) = file_on d (it_file i);
  rs_old : forall f, legal f -> (forall i, In i l -> it_file i <> f) -> file_on e' f = file_on e f;
  rs_free : free_on e' = free_on e - total d l
}.
Section Restore.
  Context (iter : list (Z * Subdirectory) -> list (Z * Subdirectory)) (fuel : nat) (order img o : bytes).
  Context (Himg : img <> s2b "-") (Hord : first_order img order o) (ow : bool) (addr : Z) (d : bytes) (Hd : zlen d = 143360) (B : Prop).

  Record holding (w : world) (e : bytes) : Prop := {
    hd_image : exists c, w_fs w img = NFile c true true /\ naked_image c o e;
    hd_room : w_room w = None /\ w_outroom w = None;
    hd_mark : B -> release_byte e <> 3
  }.
  Definition calm_item (i : item) : Prop := B -> no_mark (file_on d (it_file i)).
  Notation cmd := (command iter fuel order img).

  Lemma save_step w e i : holding w e -> good_item img w i ->
    exists w1, main_run (cmd (ASave (it_way i) (file_on d (it_file i)))) (quiet w) = (w1, 0) /\ w_stdout w1 = [] /\ holding w1 e /\
      w_fs w1 (it_way i) = NFile (file_on d (it_file i)) true true /\ same_files_but w w1 (it_way i).
  Proof.
    intros [(c & Hc & Hn) [R1 R2] HB] G. destruct (gi_way _ _ _ G) as [W|[x W]]; pose proof (not_eq_sym (gi_other _ _ _ G)) as No.
    all: eexists; cbn [command]; unfold main_run; cbn [run]; unfold sys_write; cbn [quiet w_fs w_room]; rewrite W, R1; cbn [can_write fits written run];
      (split; [reflexivity|]); (split; [reflexivity|]); split;
      [split; cbn [set_fs w_fs w_room w_outroom]; [exists c; rewrite (beq_false _ _ No); auto|auto|exact HB]|];
      cbn [set_fs w_fs]; rewrite beq_refl; (split; [reflexivity|]); intros m Hm; cbn [set_fs w_fs]; rewrite (beq_false _ _ Hm); reflexivity.
  Qed.

  Lemma put_step w e i : holding w e -> numeric (it_name i) (it_file i) -> it_way i <> s2b "-" -> it_way i <> img ->
    w_fs w (it_way i) = NFile (file_on d (it_file i)) true true -> unmarked img w -> calm_item i ->
    file_on d (it_file i) <> [] -> file_on e (it_file i) = [] -> sectors_on d (it_file i) <= free_on e ->
    exists w1 e1, main_run (cmd (APut (s2b "B") ow addr (it_name i) (it_way i))) (quiet w) = (w1, 0) /\ w_stdout w1 = [] /\ holding w1 e1 /\
      same_files_but w w1 img /\ restored d e e1 [i].
  Proof.
    intros [(c & Hc & Hn) [R1 R2] HB] Hnum Hd1 Hd2 Hw Hu Hcalm Hne He Hroom.
    destruct (open_naked iter fuel c o e img order Hord Hn (Hu _ _ _ Hc)) as (op & Eo & En).
    destruct (NewOperator_ok e op (fl_len _ _ (proj2 Hn)) En) as (Hok & Ed & Em & _).
    assert (Hi : input (quiet w) img c) by (right; split; [exact Himg|exists true; exact Hc]).
    destruct (open_run_ok iter fuel _ _ _ _ _ _ _ Hi Eo) as (w0 & Er & _ & _ & _ & _ & W0). rewrite (W0 Himg) in Er. clear W0 w0.
    pose proof (ok_fl _ Hok) as Hfl. assert (Hf : legal (it_file i)) by apply Hnum.
    remember (file_on d (it_file i)) as data eqn:Edata.
    assert (Epad : padded data = data) by (rewrite Edata; apply padded_content; exact Hd).
    assert (Ens : nsec data = sectors_on d (it_file i)).
    { rewrite Edata. unfold file_on, nsec, sectors_on. rewrite zlen_content by exact Hd. lia. }
    pose proof (write_step (op_data op) (op_SM op) (store_of (op_data op) (op_SM op)) Hfl (conj (fun f _ => eq_refl) eq_refl) (it_file i) data ow Hf) as Hst.
    assert (Hold : content (op_data op) (op_SM op) (it_file i) = []) by (rewrite Ed, Em; exact He).
    assert (Eps : put_status (store_of (op_data op) (op_SM op)) (it_file i) data ow = 0).
    { unfold put_status, in_use, st_used. cbn [store_of st_file st_free]. rewrite Hold. cbn [beq negb andb]. rewrite (@zlen_nil Z).
      rewrite (beq_false _ _ Hne). cbn [andb]. unfold free_on in Hroom. rewrite Em. replace (_ <? nsec data) with false by (rewrite Ens; lia). reflexivity. }
    rewrite Eps in Hst.
    destruct (WriteFile (it_file i) data ow (op_data op, op_SM op)) as [[d1 sm1] [b|er|]] eqn:EW; [|discriminate Hst|discriminate Hst].
    destruct Hst as (_ & Fl & HS). remember (Op d1 sm1 (op_ST op)) as op1 eqn:Eop.
    assert (Hok1 : op_ok op1) by (rewrite Eop; exact (Build_op_ok (Op _ _ _) Fl (ok_st _ Hok))).
    destruct (writeback_run c o e op1 img (proj1 Hn) (fl_len _ _ (ok_fl _ Hok1))) as (new & Hnew & Hrun).
    destruct (new_image new o op1 Hok1 Hnew) as [Hni Em1].
    assert (EP : PutFile (FI (Desc (it_name i) [] 0 0 (zlen data) false FiletypeBinary) data addr) ow op = (op1, Ok b)).
    { rewrite (PutFile_known _ ow op (it_file i)); [|left; exact Hnum|left; exact Hnum|reflexivity|reflexivity]. cbn [fi_data]. unfold on_disk. rewrite EW, Eop. reflexivity. }
    exists (set_fs (quiet w) img (NFile new true true)), (op_data op1). split; [|split; [reflexivity|split; [|split]]].
    - cbn [command]. unfold main_run, PutCmd_Run. change dash with (s2b "-"). rewrite (beq_false _ _ Himg). cbn [andb].
      rewrite run_pbind, Er, run_pbind. unfold FileContentsOrStdIn. change dash with (s2b "-"). rewrite (beq_false _ _ Hd1). cbn [run quiet w_fs].
      rewrite Hw. cbn [sys_read]. rewrite run_pbind. unfold plift at 1. cbn [run].
      assert (FiletypeForName (s2b "B") = Ok FiletypeBinary) as -> by (vm_compute; reflexivity).
      cbn [Op_PutFile]. rewrite EP. cbn [lift_op]. rewrite run_pbind. unfold plift. cbn [run]. rewrite Hrun.
      unfold WriteOutput. change dash with (s2b "-"). rewrite (beq_false _ _ Himg). cbn [run]. unfold sys_write. cbn [quiet w_fs w_room].
      rewrite Hc, R1. reflexivity.
    - split; cbn [set_fs w_fs w_room w_outroom quiet]; [|auto|].
      + exists new. rewrite beq_refl. split; [reflexivity|exact Hni].
      + intros b0. specialize (HB b0). rewrite Eop. cbn [op_data]. rewrite <- Ed in HB.
        destruct (WriteFile_mark (it_file i) data ow (op_data op) (op_SM op) d1 sm1 b Hfl Hf Fl) as [->|(j & Hj & ->)]; [|exact EW|exact HB|].
        * pose proof (proj1 HS (it_file i) Hf) as X. cbn [store_of st_set st_file] in X. rewrite Z.eqb_refl in X. exact X.
        * specialize (Hcalm b0). rewrite <- Edata in Hcalm. exact (Hcalm j Hj).
    - intros m Hm. cbn [set_fs w_fs quiet]. rewrite (beq_false _ _ Hm). reflexivity.
    - assert (HF : forall f, legal f -> file_on (op_data op1) f = if f =? it_file i then data else file_on e f).
      { intros f Hlf. unfold file_on. rewrite <- Em1, Eop. cbn [op_data op_SM]. pose proof (proj1 HS f Hlf) as X. cbn [store_of st_set st_file] in X. rewrite X.
        rewrite Epad, Ed, Em. reflexivity. }
      split.
      + intros j [<-|[]]. rewrite HF by exact Hf. rewrite Z.eqb_refl. exact Edata.
      + intros f Hlf Hnot. rewrite HF by exact Hlf. pose proof (Hnot i (or_introl eq_refl)). replace (f =? it_file i) with false by lia. reflexivity.
      + unfold free_on. rewrite <- Em1, Eop. cbn [op_SM total fold_right]. pose proof (proj2 HS) as X. cbn [store_of st_set st_free] in X. rewrite X.
        unfold st_used. cbn [store_of st_file]. rewrite Hold, (@zlen_nil Z), Ens, Em. unfold sectors_on. lia.
  Qed.

  Lemma total_nonneg l : 0 <= total d l.
  Proof. induction l as [|i l IH]; cbn [total fold_right]; [lia|]. fold (total d l). unfold sectors_on. pose proof (zlen_nonneg (owned (stored_map d) (it_file i))). lia. Qed.
  Lemma good_item_files w w1 i n : same_files_but w w1 n -> good_item img w i -> n = img \/ w_fs w1 n = w_fs w n \/ (exists x, w_fs w1 n = NFile x true true) -> good_item img w1 i.
  Proof.
    intros HS [G1 G2 G3 G4] Hn. split; try assumption. destruct (list_eq_dec Z.eq_dec (it_way i) n) as [E|E]; [|rewrite (HS _ E); exact G4].
    rewrite E. destruct Hn as [->|[->|H]]; [contradiction|rewrite <- E; exact G4|right; exact H].
  Qed.

  Lemma restore_run : forall l w e, holding w e -> Forall (good_item img w) l -> NoDup (map it_file l) ->
    (forall i, In i l -> file_on d (it_file i) <> [] /\ file_on e (it_file i) = []) -> total d l <= free_on e ->
    (B \/ throughout (unmarked img) (map cmd (restore ow addr d l)) w) -> Forall calm_item l ->
    throughout (unmarked img) (map cmd (restore ow addr d l)) w /\
    exists w1 e1, session (map cmd (restore ow addr d l)) w = (w1, map (fun _ => (0, [])) (restore ow addr d l)) /\ holding w1 e1 /\ restored d e e1 l /\
      (forall n, n <> img -> (forall i, In i l -> it_way i <> n) -> w_fs w1 n = w_fs w n).
  Proof.
    assert (UB : forall w e, holding w e -> B -> unmarked img w).
    { intros w e [(c & Hc & Hn) _ HB] b c0 r q E. rewrite Hc in E. injection E as <- _ _. rewrite <- (release_same _ _ _ _ (proj1 Hn)). exact (HB b). }
    induction l as [|i l IH]; intros w e HH HG HN HF HT HU HC.
    - split; [exact Logic.I|]. exists w, e. split; [reflexivity|]. split; [exact HH|]. split; [|intros n _ _; reflexivity].
      split; [intros i []|intros f _ _; reflexivity|cbn [total fold_right]; lia].
    - apply Forall_cons_iff in HG as [G HG]. apply Forall_cons_iff in HC as [Hci HC]. cbn [map] in HN. apply NoDup_cons_iff in HN as [Hni HN].
      destruct (save_step w e i HH G) as (w1 & E1 & O1 & H1 & F1 & S1).
      cbn [restore flat_map app map throughout session] in HU |- *. rewrite E1 in HU |- *. cbn [fst] in HU |- *.
      fold (restore ow addr d l) in HU |- *.
      assert (U0 : unmarked img w) by (destruct HU as [b|[U _]]; [exact (UB _ _ HH b)|exact U]).
      assert (U1 : unmarked img w1) by (destruct HU as [b|[_ [U _]]]; [exact (UB _ _ H1 b)|exact U]).
      destruct (HF i (or_introl eq_refl)) as [Fi Ei]. cbn [total fold_right] in HT. fold (total d l) in HT. pose proof (total_nonneg l) as TN.
      destruct (put_step w1 e i H1 (gi_name _ _ _ G) (gi_dash _ _ _ G) (gi_other _ _ _ G) F1 U1 Hci Fi Ei ltac:(lia)) as (w2 & e2 & E2 & O2 & H2 & S2 & R2).
      rewrite E2 in HU |- *. cbn [fst] in HU |- *.
      assert (HG2 : Forall (good_item img w2) l).
      { apply Forall_forall. intros j Hj. rewrite Forall_forall in HG. apply (good_item_files w1 w2 j img S2); [|left; reflexivity].
        apply (good_item_files w w1 j (it_way i) S1 (HG j Hj)). right. right. exists (file_on d (it_file i)). exact F1. }
      assert (HF2 : forall j, In j l -> file_on d (it_file j) <> [] /\ file_on e2 (it_file j) = []).
      { intros j Hj. destruct (HF j (or_intror Hj)) as [X Y]. split; [exact X|]. rewrite <- Y. apply (rs_old _ _ _ _ R2).
        - rewrite Forall_forall in HG. apply (gi_name _ _ _ (HG j Hj)).
        - intros k [<-|[]] E. apply Hni. rewrite E. apply in_map. exact Hj. }
      assert (HT2 : total d l <= free_on e2).
      { rewrite (rs_free _ _ _ _ R2). cbn [total fold_right]. lia. }
      assert (HU2 : B \/ throughout (unmarked img) (map cmd (restore ow addr d l)) w2) by (destruct HU as [b|(_ & _ & U)]; [left; exact b|right; exact U]).
      destruct (IH w2 e2 H2 HG2 HN HF2 HT2 HU2 HC) as (TH & w3 & e3 & E3 & H3 & R3 & K3).
      split; [split; [exact U0|split; [exact U1|exact TH]]|].
      exists w3, e3. rewrite E3, O1, O2. split; [reflexivity|]. split; [exact H3|]. split.
      + split.
        * intros j [<-|Hj]; [|exact (rs_new _ _ _ _ R3 j Hj)].
          rewrite (rs_old _ _ _ _ R3); [exact (rs_new _ _ _ _ R2 i (or_introl eq_refl))|apply (gi_name _ _ _ G)|].
          intros k Hk E. apply Hni. rewrite <- E. apply in_map. exact Hk.
        * intros f Hf Hnot. rewrite (rs_old _ _ _ _ R3) by (exact Hf || (intros k Hk; apply Hnot; right; exact Hk)).
          apply (rs_old _ _ _ _ R2 f Hf). intros k [<-|[]]. apply Hnot. left. reflexivity.
        * rewrite (rs_free _ _ _ _ R3), (rs_free _ _ _ _ R2). cbn [total fold_right]. fold (total d l). lia.
      + intros n Hn Hw. rewrite (K3 n Hn) by (intros j Hj; apply Hw; right; exact Hj). rewrite (S2 n Hn). apply S1.
        intros E. apply (Hw i (or_introl eq_refl)). symmetry. exact E.
  Qed.
End Restore.

(** ** The statements *)
Lemma numeric_dump : forall (iter : list (Z * Subdirectory) -> list (Z * Subdirectory)) fuel order img o c d n f w,
  first_order img order o -> naked_image c o d -> release_byte c <> 3 -> input w img c -> w_outroom w = None ->
  numeric n f -> file_on d f <> [] ->
  exists w', main_run (DumpCmd_Run iter fuel order (s2b "auto") img n) w = (w', 0) /\ same_files w w' /\ w_stdout w' = w_stdout w ++ file_on d f.
Proof.
  intros iter fuel order img o c d n f w Ho Hn Hr Hin Hout Hnum Hne.
  pose proof (NewOperator_floppy _ _ (proj2 Hn)) as En.
  destruct (dump_naked iter fuel c o d img order n f w _ Ho Hn Hr En (or_introl Hnum) Hne Hin Hout) as (w' & E & S1 & S2).
  exists w'. unfold main_run. rewrite E. auto.
Qed.
Lemma restore_lemma : forall (iter : list (Z * Subdirectory) -> list (Z * Subdirectory)) fuel order img o ow addr d l w c e,
  img <> s2b "-" -> first_order img order o -> zlen d = 143360 ->
  w_fs w img = NFile c true true -> naked_image c o e -> w_room w = None -> w_outroom w = None ->
  Forall (good_item img w) l -> NoDup (map it_file l) ->
  (forall i, In i l -> file_on d (it_file i) <> [] /\ file_on e (it_file i) = []) -> total d l <= free_on e ->
  throughout (unmarked img) (map (command iter fuel order img) (restore ow addr d l)) w ->
  exists w' c' e', session (map (command iter fuel order img) (restore ow addr d l)) w = (w', map (fun _ => (0, [])) (restore ow addr d l)) /\
    w_fs w' img = NFile c' true true /\ naked_image c' o e' /\
    (forall i, In i l -> file_on e' (it_file i) = file_on d (it_file i)) /\
    (forall f, legal f -> (forall i, In i l -> it_file i <> f) -> file_on e' f = file_on e f) /\
    free_on e' = free_on e - total d l /\
    (forall n, n <> img -> (forall i, In i l -> it_way i <> n) -> w_fs w' n = w_fs w n).
Proof.
  intros iter fuel order img o ow addr d l w c e Hi Ho Hd Hc Hn Hr1 Hr2 HG HN HF HT HU.
  assert (HH : holding img o False w e) by (split; [exists c; auto|auto|intros []]).
  assert (HC : Forall (calm_item d False) l) by (apply Forall_forall; intros i _ []).
  destruct (restore_run iter fuel order img o Hi Ho ow addr d Hd False l w e HH HG HN HF HT (or_intror HU) HC)
    as (_ & w' & e' & E & [(c' & Hc' & Hn') _ _] & [R1 R2 R3] & K).
  exists w', c', e'. auto 10.
Qed.
Lemma restore_unmarked : forall (iter : list (Z * Subdirectory) -> list (Z * Subdirectory)) fuel order img o ow addr d l w c e,
  img <> s2b "-" -> first_order img order o -> zlen d = 143360 ->
  w_fs w img = NFile c true true -> naked_image c o e -> w_room w = None -> w_outroom w = None ->
  Forall (good_item img w) l -> NoDup (map it_file l) ->
  (forall i, In i l -> file_on d (it_file i) <> [] /\ file_on e (it_file i) = []) -> total d l <= free_on e ->
  release_byte c <> 3 -> (forall i, In i l -> no_mark (file_on d (it_file i))) ->
  throughout (unmarked img) (map (command iter fuel order img) (restore ow addr d l)) w /\
  unmarked img (fst (session (map (command iter fuel order img) (restore ow addr d l)) w)).
Proof.
  intros iter fuel order img o ow addr d l w c e Hi Ho Hd Hc Hn Hr1 Hr2 HG HN HF HT HR HM.
  assert (HH : holding img o True w e) by (split; [exists c; auto|auto|intros _; rewrite (release_same _ _ _ _ (proj1 Hn)); exact HR]).
  assert (HC : Forall (calm_item d True) l) by (apply Forall_forall; intros i Hi0 _; exact (HM i Hi0)).
  destruct (restore_run iter fuel order img o Hi Ho ow addr d Hd True l w e HH HG HN HF HT (or_introl Logic.I) HC)
    as (T & w' & e' & E & [(c' & Hc' & Hn') _ HB] & _).
  split; [exact T|]. rewrite E. cbn [fst]. intros x r q Hx. rewrite Hc' in Hx.
  assert (c' = x) as <- by congruence. rewrite <- (release_same _ _ _ _ (proj1 Hn')). exact (HB Logic.I).
Qed.
Lemma whole_same d e e' l : zlen d = 143360 -> (forall f, legal f -> file_on e f = []) -> (forall f, legal f -> file_on d f <> [] -> exists i, In i l /\ it_file i = f) ->
  (forall i, In i l -> file_on e' (it_file i) = file_on d (it_file i)) ->
  (forall f, legal f -> (forall i, In i l -> it_file i <> f) -> file_on e' f = file_on e f) -> same_contents d e'.
Proof.
  intros Hd HE HL HN HO f Hf. destruct (file_number l f) as [H|H].
  - destruct H as (i & Hin & <-). exact (HN i Hin).
  - rewrite (HO f Hf H), (HE f Hf). destruct (list_eq_dec Z.eq_dec (file_on d f) []) as [E|E]; [symmetry; exact E|].
    destruct (HL f Hf E) as (i & Hin & Ei). contradiction (H i Hin Ei).
Qed.

Lemma NoDup_app_disj (A : Type) (x y : list A) : NoDup x -> NoDup y -> (forall a, In a x -> ~ In a y) -> NoDup (x ++ y).
Proof.
  induction x as [|a x IH]; intros Hx Hy H; cbn [app]; [exact Hy|]. apply NoDup_cons_iff in Hx. destruct Hx as [Ha Hx]. constructor.
  - intros Hin. apply in_app_or in Hin. destruct Hin as [Hin|Hin]; [exact (Ha Hin)|exact (H a (or_introl eq_refl) Hin)].
  - apply IH; [exact Hx|exact Hy|]. intros b Hb. apply H. right. exact Hb.
Qed.
Lemma NoDup_owned sm f : NoDup (owned sm f).
Proof. unfold owned. apply NoDup_filter. apply NoDup_zrange. Qed.
Lemma total_fits d l : floppy d (stored_map d) -> NoDup (map it_file l) -> (forall i, In i l -> legal (it_file i)) -> total d l + free_on d <= 548.
Proof.
  intros Hf HN HL. remember (stored_map d) as sm eqn:Esm.
  assert (HD : NoDup (flat_map (fun i => owned sm (it_file i)) l) /\ zlen (flat_map (fun i => owned sm (it_file i)) l) = total d l /\
               forall k, In k (flat_map (fun i => owned sm (it_file i)) l) -> exists i, In i l /\ In k (owned sm (it_file i))).
  { clear Hf HL. induction l as [|i l IH]; cbn [flat_map map total fold_right] in *; [split; [constructor|split; [reflexivity|intros k []]]|].
    apply NoDup_cons_iff in HN. destruct HN as [Hi HN]. destruct (IH HN) as (I1 & I2 & I3). split; [|split].
    - apply NoDup_app_disj; [apply NoDup_owned|exact I1|]. intros k Hk Hk'. destruct (I3 k Hk') as (j & Hj & Hkj).
      apply In_owned in Hk. apply In_owned in Hkj. apply Hi. rewrite <- (proj2 Hk), (proj2 Hkj). apply in_map. exact Hj.
    - assert (Es : sectors_on d (it_file i) = zlen (owned sm (it_file i))) by (unfold sectors_on; rewrite <- Esm; reflexivity).
      rewrite zlen_app, I2, Es. exact eq_refl.
    - intros k Hk. apply in_app_or in Hk. destruct Hk as [Hk|Hk]; [exists i; split; [left; reflexivity|exact Hk]|]. destruct (I3 k Hk) as (j & Hj & Hkj). exists j. split; [right; exact Hj|exact Hkj]. }
  pose proof (v_res _ (fl_ver _ _ Hf)) as VL.
  destruct HD as (D1 & D2 & D3). remember (flat_map (fun i => owned sm (it_file i)) l) as L eqn:EL. clear EL.
  assert (ND : NoDup (L ++ owned sm FREE)).
  { apply NoDup_app_disj; [exact D1|apply NoDup_owned|]. intros k Hk Hk'. destruct (D3 k Hk) as (j & Hj & Hkj). apply In_owned in Hk'. apply In_owned in Hkj.
    specialize (HL j Hj). unfold legal in HL. unfold FREE in Hk'. lia. }
  assert (HI : incl (L ++ owned sm FREE) (map (Z.add 12) (zrange 548))).
  { intros k Hk. assert (0 <= k < 560 /\ znth 0 sm k <> RESERVED) as [Hk1 Hk2].
    { apply in_app_or in Hk. destruct Hk as [Hk|Hk].
      - destruct (D3 k Hk) as (j & Hj & Hkj). apply In_owned in Hkj. specialize (HL j Hj). unfold legal in HL. unfold RESERVED. lia.
      - apply In_owned in Hk. unfold FREE in Hk. unfold RESERVED. lia. }
    apply in_map_iff. exists (k - 12). split; [lia|]. apply In_zrange. 
    assert (12 <= k) as Hk3 by (destruct (Z_lt_le_dec k 12) as [H|H]; [contradiction Hk2; apply VL; lia|exact H]). lia. }
  pose proof (NoDup_incl_length ND HI) as E. rewrite app_length, map_length in E.
  assert (length (zrange 548) = 548%nat) as E2 by (apply Nat2Z.inj; exact (zlen_zrange 548 ltac:(lia))).
  rewrite E2 in E. unfold free_on. rewrite <- Esm. unfold zlen in *. lia.
Qed.
Lemma names_both d d' t : floppy d (stored_map d) -> floppy d' (stored_map d') -> same_contents d d' -> names_on d t -> names_on d' t.
Proof. intros Hf Hf' HC. apply (names_same d d' t Hf Hf'); apply HC; unfold legal; lia. Qed.
Lemma backup_lemma : forall (iter : list (Z * Subdirectory) -> list (Z * Subdirectory)) fuel img0 order0 o0 w0 c0 d order img o ow addr l w c e,
  first_order img0 order0 o0 -> naked_image c0 o0 d -> release_byte c0 <> 3 -> input w0 img0 c0 -> w_outroom w0 = None ->
  img <> s2b "-" -> first_order img order o ->
  w_fs w img = NFile c true true -> naked_image c o e -> w_room w = None -> w_outroom w = None ->
  (forall f, legal f -> file_on e f = []) -> total d l <= free_on e ->
  Forall (good_item img w) l -> NoDup (map it_file l) ->
  (forall f, legal f -> (file_on d f <> [] <-> exists i, In i l /\ it_file i = f)) ->
  throughout (unmarked img) (map (command iter fuel order img) (restore ow addr d l)) w ->
  exists w' c' e', session (map (command iter fuel order img) (restore ow addr d l)) w = (w', map (fun _ => (0, [])) (restore ow addr d l)) /\
    w_fs w' img = NFile c' true true /\ naked_image c' o e' /\ same_contents d e' /\
    (release_byte c' <> 3 ->
      (forall short, both_show (LsCmd_Run iter fuel order0 (s2b "auto") short img0 []) w0 (LsCmd_Run iter fuel order (s2b "auto") short img []) w') /\
      (forall n, both_show (DumpCmd_Run iter fuel order0 (s2b "auto") img0 n) w0 (DumpCmd_Run iter fuel order (s2b "auto") img n) w')).
Proof.
  intros iter fuel img0 order0 o0 w0 c0 d order img o ow addr l w c e Ho0 Hn0 R0 Hin0 Hw0 Hi Ho Hc Hn Hr1 Hr2 HE HT HG HN HL HU.
  pose proof (fl_len _ _ (proj2 Hn0)) as Hd.
  assert (HF : forall i, In i l -> file_on d (it_file i) <> [] /\ file_on e (it_file i) = []).
  { intros i Hin. rewrite Forall_forall in HG. pose proof (proj1 (gi_name _ _ _ (HG i Hin))) as Hl. split; [|exact (HE _ Hl)]. apply (HL _ Hl). exists i. split; [exact Hin|reflexivity]. }
  assert (HH : holding img o False w e) by (split; [exists c; auto|auto|intros []]).
  assert (HC : Forall (calm_item d False) l) by (apply Forall_forall; intros i _ []).
  destruct (restore_run iter fuel order img o Hi Ho ow addr d Hd False l w e HH HG HN HF HT (or_intror HU) HC)
    as (_ & w' & e' & E & [(c' & Hc' & Hn') [_ Hout] _] & [R1 R2 _] & _).
  assert (HS : same_contents d e') by (apply (whole_same d e e' l Hd HE (fun f Hf => proj1 (HL f Hf)) R1 R2)).
  exists w', c', e'. split; [exact E|]. split; [exact Hc'|]. split; [exact Hn'|]. split; [exact HS|]. intros R'.
  apply (show_same iter fuel img0 img order0 order c0 c' o0 o d e' w0 w' Ho0 Ho Hn0 Hn' HS R0 R' Hin0); [|congruence].
  right. split; [exact Hi|]. exists true. exact Hc'.
Qed.
