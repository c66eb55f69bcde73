(** SessionProofs.v -- sessions of commands on a NakedOS image refine a store of files (C95). *)
From Coq Require Import ZifyBool ZifyNat.
From Verif Require Import GoBase GoLemmas TypesModel DiskModel DiskSpec DiskProofs DiskOpenProofs.
From Verif Require Import SupermonModel SupermonSpec SupermonTableSpec SupermonStoreSpec SupermonProofs SupermonSymProofs SupermonTabProofs SupermonLinkProofs SupermonOpProofs SupermonNameProofs SupermonFinalProofs SupermonNamedProofs SupermonStmtProofs.
From Verif Require Import ProdosModel CmdModel CmdSpec CmdProofs CmdStmtProofs MainModel NakedCmdSpec NakedCmdProofs NakedOpenProofs DetectSpec DetectProofs PrintProofs AfterProofs SessionSpec MarkProofs.
Ltac Zify.zify_post_hook ::= Z.div_mod_to_equations.
Local Opaque zrange zeros sub.

(** ** PutFile by a number or a name in use *)
Lemma PutFile_known i ow o f : resolves (st_of o) (d_name (fi_desc_ i)) f ->
  numeric (d_name (fi_desc_ i)) f \/ valid_name (d_name (fi_desc_ i)) ->
  d_type (fi_desc_ i) = FiletypeBinary -> d_length (fi_desc_ i) = zlen (fi_data i) ->
  PutFile i ow o = on_disk (WriteFile f (fi_data i) ow) o.
Proof.
  intros Hr Hv Ht Hl. unfold PutFile. rewrite Ht, Hl, !Z.eqb_refl. cbn [negb].
  pose proof (resolves_legal _ _ _ Hr) as Hf. unfold legal in Hf.
  destruct Hr as [Hn|[Hnn Hs]].
  - destruct (FilesForCompoundName_simple (st_of o) (d_name (fi_desc_ i)) (numeric_no_colon _ _ Hn)) as (H & _ & _).
    rewrite (H f Hn). cbn [beq]. cbv zeta. replace (f =? 0) with false by lia.
    replace (f =? 0) with false by lia. unfold sbind.
    destruct (on_disk (WriteFile f (fi_data i) ow) o) as [o1 [b|e|]]; [|reflexivity|reflexivity].
    rewrite andb_false_r. reflexivity.
  - destruct Hv as [Hv|Hv]; [contradiction (Hnn f Hv)|].
    destruct (FilesForCompoundName_simple (st_of o) (d_name (fi_desc_ i)) (valid_no_colon _ Hv)) as (_ & H & _).
    rewrite (H f Hnn Hs). cbv zeta.
    assert ((if beq (d_name (fi_desc_ i)) [] then Ok tt
             else match op_ST o with
                  | None => Err (EOther "cannot use symbolic names on disks without valid symbol tables")
                  | Some _ => _ <- encodeSymbol (d_name (fi_desc_ i)) ;; Ok tt
                  end) = Ok tt) as ->.
    { destruct (beq (d_name (fi_desc_ i)) []); [reflexivity|].
      destruct (op_ST o) as [t|] eqn:Et.
      - destruct (encode_valid (d_name (fi_desc_ i)) Hv) as (six & -> & _). reflexivity.
      - exfalso. destruct Hs as (_ & k & (Hk & _) & _). unfold st_of in Hk. rewrite Et in Hk.
        rewrite (@zlen_nil Symbol) in Hk. lia. }
    replace (f =? 0) with false by lia. replace (f =? 0) with false by lia. unfold sbind.
    destruct (on_disk (WriteFile f (fi_data i) ow) o) as [o1 [b|e|]]; [|reflexivity|reflexivity].
    rewrite Z.eqb_refl. reflexivity.
Qed.

(** ** Writing and deleting, against a store *)
Section Store.
  Context (d sm : bytes) (s : store) (Hfl : floppy d sm) (HS : same_store (store_of d sm) s).
  Lemma s_file f : legal f -> st_file s f = content d sm f.
  Proof. intros Hf. symmetry. apply (proj1 HS). exact Hf. Qed.
  Lemma s_free : st_free s = zlen (owned sm FREE).
  Proof. symmetry. apply (proj2 HS). Qed.
  Lemma s_used f : legal f -> st_used s f = zlen (owned sm f).
  Proof. intros Hf. unfold st_used. rewrite s_file by exact Hf. apply used_owned. apply (fl_len _ _ Hfl). Qed.
  Lemma s_in_use f : legal f -> in_use s f = negb (zlen (owned sm f) =? 0).
  Proof. intros Hf. unfold in_use. rewrite s_file by exact Hf. f_equal. apply content_beq. apply (fl_len _ _ Hfl). Qed.

  Lemma write_step f data (ow : bool) : legal f ->
    match WriteFile f data ow (d, sm) with
    | ((d', sm'), Ok _) => put_status s f data ow = 0 /\ floppy d' sm' /\
        same_store (store_of d' sm') (st_set s f (padded data) (st_free s + st_used s f - nsec data))
    | (_, Err _) => put_status s f data ow = 1
    | (_, Panic) => put_status s f data ow = 2
    end.
  Proof.
    intros Hf. unfold put_status. rewrite s_free, s_used, s_in_use by exact Hf.
    pose proof (zlen_nonneg (owned sm f)) as N1. pose proof (zlen_nonneg (owned sm FREE)) as N2.
    destruct (list_eq_dec Z.eq_dec data []) as [->|Hne].
    - change (nsec []) with 0. change (beq [] []) with true. replace (_ <? 0) with false by lia. cbn [andb].
      destruct (Z.eqb_spec (zlen (owned sm f)) 0) as [Ez|Ez]; cbn [negb andb].
      + destruct (Z.eqb_spec (zlen (owned sm FREE)) 0) as [Ef|Ef].
        * replace (0 <? zlen (owned sm FREE) + zlen (owned sm f)) with false by lia.
          rewrite (WriteFile_empty_full f ow d sm (fl_len _ _ Hfl) (v_len _ (fl_ver _ _ Hfl)) (zlen_zero_nil _ Ef) (zlen_zero_nil _ Ez));
            [|unfold legal, FREE in *; lia].
          assert (upd d 2512 sm = d) as ->.
          { pose proof (fl_map _ _ Hfl) as Em. unfold stored_map in Em. rewrite <- Em at 1.
            apply upd_sub_id; rewrite ?(fl_len _ _ Hfl); lia. }
          split; [reflexivity|]. split; [exact Hfl|]. split; [|cbn [store_of st_set st_free]; lia].
          intros g Hg. cbn [store_of st_set st_file]. destruct (Z.eqb_spec g f) as [->|_]; [|symmetry; apply s_file; exact Hg].
          apply (content_nil_iff d sm f (fl_len _ _ Hfl)), zlen_zero_nil, Ez.
        * replace (0 <? zlen (owned sm FREE) + zlen (owned sm f)) with true by lia.
          destruct (WriteFile_empty f ow d sm (fl_ver _ _ Hfl) Hf) as [[d' sm'] E]; [rewrite (zlen_zero_nil _ Ez); intros H; contradiction H; reflexivity|lia|].
          rewrite E. reflexivity.
      + assert (0 < zlen (owned sm FREE) + zlen (owned sm f)) as Hp by lia.
        destruct ow; cbn [negb].
        * replace (0 <? _) with true by lia.
          destruct (WriteFile_empty f true d sm (fl_ver _ _ Hfl) Hf (fun _ => eq_refl) Hp) as [[d' sm'] E]. rewrite E. reflexivity.
        * rewrite (WriteFile_exists f [] d sm (v_len _ (fl_ver _ _ Hfl))); [reflexivity|change (nsec []) with 0; lia|].
          intros E. rewrite E in Ez. apply Ez. reflexivity.
    - assert (beq data [] = false) as -> by (apply beq_false; exact Hne). rewrite !andb_false_l.
      destruct (WriteFile_cases f data ow d sm Hfl Hf Hne)
        as [(H & E)|[(H & H2 & H3 & E)|(H & H2 & d' & sm' & E & Fl & C & O & Fr & Oth)]]; rewrite E.
      + replace (_ <? nsec data) with true by lia. reflexivity.
      + replace (_ <? nsec data) with false by lia. rewrite H3.
        destruct (Z.eqb_spec (zlen (owned sm f)) 0) as [Ez|Ez]; [contradiction (H2 (zlen_zero_nil _ Ez))|]. reflexivity.
      + replace (_ <? nsec data) with false by lia.
        replace (negb (zlen (owned sm f) =? 0) && negb ow) with false.
        2:{ destruct (Z.eqb_spec (zlen (owned sm f)) 0) as [Ez|Ez]; [reflexivity|]. rewrite H2; [reflexivity|].
            intros Hz. rewrite Hz in Ez. apply Ez. reflexivity. }
        split; [reflexivity|]. split; [exact Fl|]. split; [|cbn [store_of st_set st_free]; lia].
        intros g Hg. cbn [store_of st_set st_file]. destruct (Z.eqb_spec g f) as [->|Hgf]; [exact C|].
        destruct (Oth g Hgf Hg) as [_ ->]. symmetry. apply s_file. exact Hg.
  Qed.
  Lemma delete_step f : legal f ->
    floppy (upd d 2512 (SMDelete sm f)) (SMDelete sm f) /\
    same_store (store_of (upd d 2512 (SMDelete sm f)) (SMDelete sm f)) (st_set s f [] (st_free s + st_used s f)).
  Proof.
    intros Hf. destruct (Delete_disk d sm f Hfl Hf) as (EP & Fl & C & O & Oth & Fr). split; [exact Fl|].
    split; [|cbn [store_of st_set st_free]; rewrite s_free, s_used by exact Hf; exact Fr].
    intros g Hg. cbn [store_of st_set st_file]. destruct (Z.eqb_spec g f) as [->|Hgf]; [exact C|].
    destruct (Oth g Hgf Hg) as [_ ->]. symmetry. apply s_file. exact Hg.
  Qed.
End Store.

(** ** Text of ls *)
Lemma ls_run short fds w : w_outroom w = None ->
  run (ls_lines short fds) w = (add_out w (lines (map (ls_name short) fds)), Ok tt).
Proof.
  revert w. induction fds as [|fd fds IH]; intros w Hw.
  - cbn [ls_lines run map]. unfold lines, add_out. cbn [map concat]. rewrite app_nil_r. destruct w. reflexivity.
  - cbn [ls_lines run]. unfold sys_stdout. rewrite Hw. cbn [fits]. rewrite IH by exact Hw.
    f_equal. unfold add_out. cbn [w_stdout w_fs w_stdin w_room w_outroom]. f_equal.
    unfold lines. cbn [map concat]. unfold ls_line, ls_name. rewrite <- !app_assoc. reflexivity.
Qed.

(** ** One command *)
Section Session.
  Context (iter : list (Z * Subdirectory) -> list (Z * Subdirectory)) (fuel : nat).

  Context (order img o : bytes) (Hio : first_order img order o) (Himg : img <> s2b "-").
  Context (t : list Symbol) (Htn : no_numeric_symbols t).
  (** Whether track 17 sector 0 is watched. *)
  Context (B : Prop).

  (** The computer and the desk agree. *)
  Record agrees (w : world) (k : desk) : Prop := {
    ag_disk : exists c d, w_fs w img = NFile c true true /\ naked_image c o d /\ names_on d t /\
      same_store (store_of d (stored_map d)) (k_store k) /\ (B -> release_byte d <> 3);
    ag_files : forall n, n <> img -> w_fs w n = k_files k n;
    ag_room : w_room w = None;
    ag_out : w_outroom w = None
  }.

  Lemma agrees_out w k text : agrees w k -> agrees (add_out w text) k.
  Proof. intros [H1 H2 H3 H4]. split; assumption. Qed.
  Lemma agrees_quiet w k : agrees w k -> agrees (quiet w) k.
  Proof. intros [H1 H2 H3 H4]. split; assumption. Qed.

  (** Opening the image. *)
  Lemma agrees_open w k : agrees w k -> unmarked img w -> exists c op,
    w_fs w img = NFile c true true /\ naked_image c o (op_data op) /\ op_ok op /\ st_of op = t /\ names_on (op_data op) t /\
    op_SM op = stored_map (op_data op) /\
    same_store (store_of (op_data op) (op_SM op)) (k_store k) /\ (B -> release_byte (op_data op) <> 3) /\
    run (OpenFilename iter fuel img order (s2b "auto")) w = (w, Ok (ONaked op, o)).
  Proof.
    intros [(c & d & Hc & Hn & Ht & HS & HB) _ _ _] Hu. destruct (open_naked iter fuel c o d img order Hio Hn (Hu c _ _ Hc)) as (op & Eo & En).
    destruct (NewOperator_ok d op (fl_len _ _ (proj2 Hn)) En) as (Hok & Ed & Em & _).
    exists c, op. split; [exact Hc|]. split; [rewrite Ed; exact Hn|]. split; [exact Hok|].
    split; [destruct Ht as (op' & En' & <-); congruence|]. split; [rewrite Ed; exact Ht|]. split; [rewrite Ed; exact Em|].
    split; [rewrite Ed, Em; exact HS|]. split; [rewrite Ed; exact HB|].
    destruct (open_run_ok iter fuel img order (s2b "auto") w c (ONaked op) o) as (w1 & Er & _ & _ & _ & _ & Hw);
      [right; split; [exact Himg|exists true; exact Hc]|exact Eo|]. rewrite (Hw Himg) in Er. exact Er.
  Qed.

  (** Writing the image back. *)
  Lemma agrees_write w k c op op' s : agrees w k -> w_fs w img = NFile c true true -> naked_image c o (op_data op) ->
    op_ok op -> st_of op = t -> names_on (op_data op) t -> op_ok op' ->
    content (op_data op') (op_SM op') 3 = content (op_data op) (op_SM op) 3 ->
    content (op_data op') (op_SM op') 4 = content (op_data op) (op_SM op) 4 ->
    same_store (store_of (op_data op') (op_SM op')) s -> (B -> release_byte (op_data op') <> 3) ->
    exists w', run (WriteBack img (ONaked op') o true) w = (w', Ok tt) /\ agrees w' (Desk (k_files k) s) /\ w_stdout w' = w_stdout w.
  Proof.
    intros [_ Hfs Hr Ho] Hc Hn Hok Et Hnm Hok' H3 H4 HS HB.
    destruct (writeback_run c o (op_data op) op' img (proj1 Hn) (fl_len _ _ (ok_fl _ Hok'))) as (new & Hnew & Hrun).
    destruct (new_image new o op' Hok' Hnew) as [Hni Em].
    exists (set_fs w img (NFile new true true)). split; [|split].
    - rewrite Hrun. unfold WriteOutput. change dash with (s2b "-"). rewrite (beq_false _ _ Himg). cbn [run]. unfold sys_write.
      rewrite Hc, Hr. reflexivity.
    - split; [|intros n Hne; cbn [set_fs w_fs k_files]; rewrite (beq_false _ _ Hne); apply Hfs; exact Hne|exact Hr|exact Ho].
      exists new, (op_data op'). cbn [set_fs w_fs]. rewrite beq_refl. split; [reflexivity|]. split; [exact Hni|].
      split; [|split; [rewrite <- Em; exact HS|exact HB]].
      apply (names_same (op_data op) (op_data op') t (proj2 Hn) (proj2 Hni)); [| |exact Hnm];
        rewrite <- (content_file_on op'), <- (content_file_on op) by assumption; assumption.
    - reflexivity.
  Qed.

  Lemma store_content op s f : op_ok op -> legal f -> same_store (store_of (op_data op) (op_SM op)) s -> content (op_data op) (op_SM op) f = st_file s f.
  Proof. intros _ Hf HS. apply (proj1 HS). exact Hf. Qed.

  Lemma command_refines a f w k : agrees w k -> unmarked img w -> w_stdout w = [] -> meant t img a f -> (B -> calm (k_files k) a) ->
    exists w', main_run (command iter fuel order img a) w = (w', fst (snd (act t a f k))) /\
      w_stdout w' = snd (snd (act t a f k)) /\ agrees w' (fst (act t a f k)).
  Proof.
    intros HA Hu Hw0 Hm Hcalm. destruct (agrees_open w k HA Hu) as (c & op & Hc & Hn & Hok & Et & Hnm & Em & HS & HB & Er).
    pose proof (ok_fl _ Hok) as Hfl. pose proof (fl_len _ _ Hfl) as Hd.
    assert (legal 3 /\ legal 4) as [L3 L4] by (unfold legal; lia).
    unfold main_run.
    destruct Hm as [ft ow addr n src f Hr Hv N3 N4 Hs1 Hs2|force n f Hnum N3 N4|force n Hnr|n f Hr|n Hnr|short|file c' Hfile];
      cbn [command act].
    - (* put *)
      pose proof (resolves_legal _ _ _ Hr) as Hf.
      unfold PutCmd_Run. change dash with (s2b "-"). rewrite (beq_false _ _ Himg). cbn [andb].
      rewrite run_pbind, Er, run_pbind. unfold FileContentsOrStdIn. change dash with (s2b "-"). rewrite (beq_false _ _ Hs1). cbn [run].
      rewrite (ag_files _ _ HA src Hs2).
      destruct (k_files k src) as [| |data [|] wr|] eqn:Efile; cbn [sys_read]; try (exists w; split; [reflexivity|split; [exact Hw0|exact HA]]).
      rewrite run_pbind. unfold plift at 1. cbn [run]. unfold binary.
      destruct (FiletypeForName ft) as [ftv|e|] eqn:Ef;
        [|exists w; split; [reflexivity|split; [exact Hw0|exact HA]]|].
      2:{ exfalso. clear - Ef. unfold FiletypeForName in Ef. induction filetypeInfos as [|x l IH]; cbn [FiletypeForName_loop] in Ef; [discriminate Ef|].
          destruct (beq _ _ || beq _ _ || beq _ _); [discriminate Ef|]. exact (IH Ef). }
      cbn [Op_PutFile].
      destruct (Z.eqb_spec ftv FiletypeBinary) as [->|Hft].
      2:{ unfold PutFile. cbn [fi_desc_ d_type]. replace (ftv =? FiletypeBinary) with false by lia. cbn [negb lift_op].
          exists w. split; [reflexivity|split; [exact Hw0|exact HA]]. }
      rewrite (PutFile_known _ ow op f); [|rewrite Et; exact Hr|exact Hv|reflexivity|reflexivity].
      cbn [fi_data]. unfold on_disk.
      pose proof (write_step (op_data op) (op_SM op) (k_store k) Hfl HS f data ow Hf) as Hst.
      destruct (WriteFile f data ow (op_data op, op_SM op)) as [[d' sm'] [b|e|]] eqn:EW; cbn [lift_op].
      + destruct Hst as (-> & Fl & HS'). cbn [Z.eqb].
        remember (Op d' sm' (op_ST op)) as op' eqn:Eop.
        assert (op_ok op') as Hok' by (rewrite Eop; exact (Build_op_ok (Op _ _ _) Fl (ok_st _ Hok))).
        remember (st_set (k_store k) f (padded data) (st_free (k_store k) + st_used (k_store k) f - nsec data)) as s' eqn:Es'.
        assert (same_store (store_of (op_data op') (op_SM op')) s') as HS2 by (rewrite Eop; exact HS').
        destruct (agrees_write w k c op op' s' HA Hc Hn Hok Et Hnm Hok') as (w' & Ew & HA' & Ho); [| |exact HS2| |].
        { rewrite (store_content op' s' 3 Hok' L3 HS2), Es'.
          cbn [st_set st_file]. replace (3 =? f) with false by lia. symmetry. apply store_content; assumption. }
        { rewrite (store_content op' s' 4 Hok' L4 HS2), Es'.
          cbn [st_set st_file]. replace (4 =? f) with false by lia. symmetry. apply store_content; assumption. }
        { intros b0. rewrite Eop. cbn [op_data]. specialize (HB b0).
          destruct (WriteFile_mark f data ow (op_data op) (op_SM op) d' sm' b Hfl Hf Fl) as [->|(j & Hj & ->)]; [|exact EW|exact HB|].
          - pose proof (proj1 HS' f Hf) as X. rewrite Es' in X. cbn [store_of st_set st_file] in X. rewrite Z.eqb_refl in X. exact X.
          - exact (Hcalm b0 data _ _ Efile j Hj). }
        exists w'. rewrite run_pbind. unfold plift. cbn [run]. rewrite Ew. cbn [fst snd main_status].
        split; [reflexivity|]. split; [congruence|exact HA'].
      + rewrite Hst. cbn [Z.eqb Pos.eqb]. rewrite run_pbind. unfold plift. cbn [run fst snd].
        exists w. split; [reflexivity|split; [exact Hw0|exact HA]].
      + rewrite Hst. cbn [Z.eqb Pos.eqb]. rewrite run_pbind. unfold plift. cbn [run fst snd].
        exists w. split; [reflexivity|split; [exact Hw0|exact HA]].
    - (* rm of a number *)
      assert (legal f) as Hf by apply Hnum.
      unfold DeleteCmd_Run. rewrite run_pbind, Er. cbn [Op_Delete].
      destruct (delete_step (op_data op) (op_SM op) (k_store k) Hfl HS f Hf) as [Fl HS'].
      destruct (Delete_disk (op_data op) (op_SM op) f Hfl Hf) as (EP & _).
      assert (SupermonModel.Delete n op = (Op (upd (op_data op) 2512 (SMDelete (op_SM op) f)) (SMDelete (op_SM op) f) (op_ST op),
                       Ok (0 <? zlen (owned (op_SM op) f)))) as E3.
      { unfold SupermonModel.Delete. assert (FileForName (st_of op) n = Ok f) as -> by (apply FileForName_resolves; left; exact Hnum).
        cbv zeta. rewrite EP, SectorsForFile_owned, zlen_map. destruct (op_ST op) as [t'|] eqn:Et'; [|reflexivity].
        assert (t' = t) as -> by (rewrite <- Et; unfold st_of; rewrite Et'; reflexivity).
        rewrite (DeleteSymbol_numeric t n f Hnum Htn). reflexivity. }
      rewrite E3. cbn [lift_op]. rewrite run_pbind. unfold plift at 1. cbn [run].
      rewrite (s_in_use _ _ _ Hfl HS f Hf).
      pose proof (zlen_nonneg (owned (op_SM op) f)) as N.
      replace (negb (zlen (owned (op_SM op) f) =? 0)) with (0 <? zlen (owned (op_SM op) f)) by lia.
      replace ((0 <? zlen (owned (op_SM op) f)) || force) with (negb (negb (0 <? zlen (owned (op_SM op) f)) && negb force))
        by (destruct (0 <? _), force; reflexivity).
      destruct (negb (0 <? zlen (owned (op_SM op) f)) && negb force); cbn [negb].
      + exists w. split; [reflexivity|split; [exact Hw0|exact HA]].
      + remember (Op (upd (op_data op) 2512 (SMDelete (op_SM op) f)) (SMDelete (op_SM op) f) (op_ST op)) as op' eqn:Eop.
        assert (op_ok op') as Hok' by (rewrite Eop; exact (Build_op_ok (Op _ _ _) Fl (ok_st _ Hok))).
        remember (st_set (k_store k) f [] (st_free (k_store k) + st_used (k_store k) f)) as s' eqn:Es'.
        assert (same_store (store_of (op_data op') (op_SM op')) s') as HS2 by (rewrite Eop; exact HS').
        destruct (agrees_write w k c op op' s' HA Hc Hn Hok Et Hnm Hok') as (w' & Ew & HA' & Ho); [| |exact HS2| |].
        { rewrite (store_content op' s' 3 Hok' L3 HS2), Es'.
          cbn [st_set st_file]. replace (3 =? f) with false by lia. symmetry. apply store_content; assumption. }
        { rewrite (store_content op' s' 4 Hok' L4 HS2), Es'.
          cbn [st_set st_file]. replace (4 =? f) with false by lia. symmetry. apply store_content; assumption. }
        { intros b0. rewrite Eop. cbn [op_data]. rewrite release_persist; [exact (HB b0)|exact Hd|apply (v_len _ (fl_ver _ _ Fl))]. }
        exists w'. rewrite Ew. split; [reflexivity|]. split; [cbn [fst snd]; congruence|exact HA'].
    - (* rm of an unknown name *)
      unfold DeleteCmd_Run. rewrite run_pbind, Er. cbn [Op_Delete].
      destruct (FileForName_spec t n) as [(f & _ & Hr & _)|[EF _]]; [contradiction (Hnr f Hr)|].
      unfold SupermonModel.Delete. rewrite Et, EF. cbn [lift_op]. rewrite run_pbind. unfold plift. cbn [run fst snd].
      exists w. split; [reflexivity|split; [exact Hw0|exact HA]].
    - (* dump *)
      pose proof (resolves_legal _ _ _ Hr) as Hf.
      unfold DumpCmd_Run. rewrite run_pbind, Er, run_pbind. unfold plift. cbn [run Op_GetFile].
      assert (st_file (k_store k) f = content (op_data op) (op_SM op) f) as Ec by (symmetry; apply store_content; assumption).
      unfold in_use. rewrite Ec.
      destruct (beq (content (op_data op) (op_SM op) f) []) eqn:Eb; cbn [negb].
      + apply beq_eq in Eb. assert (exists e, GetFile op n = Err e) as [e ->].
        { unfold GetFile. assert (FileForName (st_of op) n = Ok f) as -> by (apply FileForName_resolves; rewrite Et; exact Hr).
          cbn [rbind]. rewrite (ReadFile_spec (op_data op) (op_SM op) f Hd), Eb. eexists. reflexivity. }
        exists w. split; [reflexivity|split; [exact Hw0|exact HA]].
      + apply beq_neq in Eb. destruct (GetFile_content op n f Hok ltac:(rewrite Et; exact Hr) Eb) as (i & -> & Ei).
        cbn [run]. unfold sys_stdout. rewrite (ag_out _ _ HA). cbn [fits].
        exists (add_out w (fi_data i)). split; [reflexivity|]. split; [cbn [add_out w_stdout snd]; rewrite Hw0, Ei; reflexivity|].
        apply agrees_out. exact HA.
    - (* dump of an unknown name *)
      unfold DumpCmd_Run. rewrite run_pbind, Er, run_pbind. unfold plift. cbn [run Op_GetFile].
      destruct (FileForName_spec t n) as [(f & _ & Hr & _)|[EF _]]; [contradiction (Hnr f Hr)|].
      unfold GetFile. rewrite Et, EF. cbn [rbind]. exists w. split; [reflexivity|split; [exact Hw0|exact HA]].
    - (* ls *)
      unfold LsCmd_Run. rewrite run_pbind, Er. cbn [beq negb andb]. rewrite run_pbind. unfold plift at 1. cbn [run Op_Catalog].
      rewrite (Catalog_spec op). rewrite ls_run by apply (ag_out _ _ HA).
      eexists. split; [reflexivity|]. split; [|apply agrees_out; exact HA].
      cbn [add_out w_stdout fst snd]. rewrite Hw0. cbn [app]. f_equal. rewrite map_map, Et. unfold all_files.
      assert (filter (fun f => negb (zlen (owned (op_SM op) f) =? 0)) (map (fun k0 => k0 + 1) (zrange 253)) =
              filter (in_use (k_store k)) (map (fun k0 => k0 + 1) (zrange 253))) as ->.
      { apply filter_ext_in. intros g Hg. symmetry. apply (s_in_use (op_data op)); [exact Hfl|exact HS|].
        apply in_map_iff in Hg as (j & <- & Hj). apply In_zrange in Hj. unfold legal. lia. }
      apply map_ext. intros f. unfold ls_name. cbn [d_name d_fullname]. destruct short; [reflexivity|]. cbn [negb andb].
      assert (shown_full t f <> []) as Hne by (unfold shown_full, printed; destruct (symbol_for _ _); discriminate).
      destruct (beq (shown_full t f) []) eqn:E; [apply beq_eq in E; contradiction|reflexivity].
    - (* save *)
      cbn [run]. unfold sys_write. rewrite (ag_files _ _ HA file Hfile), (ag_room _ _ HA).
      destruct (can_write (k_files k file)); cbn [fits fst snd].
      + eexists. split; [reflexivity|]. split; [exact Hw0|].
        destruct HA as [(c0 & d0 & H1 & H2 & H3 & H4 & H5) Hfs Hr Ho]. split; [|intros n Hne; cbn [set_fs w_fs k_files]|exact Hr|exact Ho].
        * exists c0, d0. cbn [set_fs w_fs k_store]. rewrite (beq_false img file) by congruence. split; [exact H1|]. split; [exact H2|]. split; [exact H3|]. split; [exact H4|exact H5].
        * destruct (beq n file) eqn:Eb; [reflexivity|]. apply Hfs. exact Hne.
      + exists w. split; [reflexivity|split; [exact Hw0|exact HA]].
  Qed.

  Lemma session_refines h : forall w k, agrees w k -> Forall (fun af => meant t img (fst af) (snd af)) h ->
    throughout (unmarked img) (map (command iter fuel order img) (map fst h)) w -> (B -> harmless t h k) ->
    snd (session (map (command iter fuel order img) (map fst h)) w) = snd (acts t h k) /\
    agrees (fst (session (map (command iter fuel order img) (map fst h)) w)) (fst (acts t h k)).
  Proof.
    induction h as [|[a f] h IH]; intros w k HA Hm Hth Hh; [split; [reflexivity|exact HA]|].
    inversion Hm as [|? ? Ha Hm']; subst. cbn [fst snd] in Ha. cbn [map fst session acts]. cbn [map fst throughout] in Hth. destruct Hth as [Hu Hth].
    destruct (command_refines a f (quiet w) k (agrees_quiet _ _ HA) Hu eq_refl Ha (fun b => proj1 (Hh b))) as (w1 & Er & Hout & HA1). rewrite Er. rewrite Er in Hth.
    assert (B -> harmless t h (fst (act t a f k))) as Hh1 by (intros b; exact (proj2 (Hh b))).
    destruct (act t a f k) as [k1 [s out]]. cbn [fst snd] in *.
    specialize (IH w1 k1 HA1 Hm' Hth Hh1).
    destruct (session (map (command iter fuel order img) (map fst h)) w1) as [w2 l]. destruct (acts t h k1) as [k2 l2]. cbn [fst snd] in *.
    destruct IH as [-> HA2]. split; [rewrite Hout; reflexivity|exact HA2].
  Qed.

  Lemma agrees_unmarked w k : agrees w k -> B -> unmarked img w.
  Proof.
    intros [(c & d & Hc & Hn & _ & _ & HB) _ _ _] b c' r q E. rewrite Hc in E. injection E as <- _ _.
    rewrite <- (release_same _ _ _ _ (proj1 Hn)). exact (HB b).
  Qed.
  Lemma session_unmarked h : B -> forall w k, agrees w k -> Forall (fun af => meant t img (fst af) (snd af)) h -> harmless t h k ->
    throughout (unmarked img) (map (command iter fuel order img) (map fst h)) w.
  Proof.
    intros b. induction h as [|[a f] h IH]; intros w k HA Hm Hh; [exact I|].
    inversion Hm as [|? ? Ha Hm']; subst. cbn [fst snd] in Ha. cbn [map fst throughout]. cbn [harmless] in Hh. destruct Hh as [Hc Hh].
    pose proof (agrees_unmarked w k HA b) as Hu. split; [exact Hu|].
    destruct (command_refines a f (quiet w) k (agrees_quiet _ _ HA) Hu eq_refl Ha (fun _ => Hc)) as (w1 & Er & _ & HA1). rewrite Er. cbn [fst].
    exact (IH w1 _ HA1 Hm' Hh).
  Qed.
End Session.

(** ** The statements *)
Lemma C95_lemma : forall (iter : list (Z * Subdirectory) -> list (Z * Subdirectory)) fuel order img o t h w c d k,
  img <> s2b "-" -> first_order img order o -> no_numeric_symbols t ->
  w_fs w img = NFile c true true -> naked_image c o d -> names_on d t -> w_room w = None -> w_outroom w = None ->
  (forall n, n <> img -> w_fs w n = k_files k n) -> same_store (store_of d (stored_map d)) (k_store k) ->
  Forall (fun af => meant t img (fst af) (snd af)) h ->
  throughout (unmarked img) (map (fun af => command iter fuel order img (fst af)) h) w ->
  exists w' k' outcomes c' d',
    session (map (fun af => command iter fuel order img (fst af)) h) w = (w', outcomes) /\
    acts t h k = (k', outcomes) /\
    w_fs w' img = NFile c' true true /\ naked_image c' o d' /\ names_on d' t /\
    same_store (store_of d' (stored_map d')) (k_store k') /\
    (forall n, n <> img -> w_fs w' n = k_files k' n).
Proof.
  intros iter fuel order img o t h w c d k Hi Ho Hn Hc Hd Ht Hr Hu Hf HS Hm Hth.
  assert (agrees img o t False w k) as HA.
  { constructor; [exists c, d|..]; try assumption. split; [exact Hc|]. split; [exact Hd|]. split; [exact Ht|]. split; [exact HS|intros []]. }
  destruct (session_refines iter fuel order img o Ho Hi t Hn False h w k HA Hm) as [H1 H2]; [rewrite map_map; exact Hth|intros []|].
  rewrite map_map in H1, H2. remember (map (fun x => command iter fuel order img (fst x)) h) as ps eqn:Eps.
  destruct (session ps w) as [w' l] eqn:Es. destruct (acts t h k) as [k' l'] eqn:Ea. cbn [fst snd] in H1, H2. subst l'.
  destruct H2 as [(c' & d' & G1 & G2 & G3 & G4 & _) Hfs _ _].
  exists w', k', l, c', d'. split; [reflexivity|]. split; [reflexivity|]. repeat (split; [assumption|]). assumption.
Qed.
Lemma C95_harmless_lemma : forall (iter : list (Z * Subdirectory) -> list (Z * Subdirectory)) fuel order img o t h w c d k,
  img <> s2b "-" -> first_order img order o -> no_numeric_symbols t ->
  w_fs w img = NFile c true true -> naked_image c o d -> names_on d t -> w_room w = None -> w_outroom w = None ->
  (forall n, n <> img -> w_fs w n = k_files k n) -> same_store (store_of d (stored_map d)) (k_store k) ->
  Forall (fun af => meant t img (fst af) (snd af)) h ->
  release_byte c <> 3 -> harmless t h k ->
  throughout (unmarked img) (map (fun af => command iter fuel order img (fst af)) h) w.
Proof.
  intros iter fuel order img o t h w c d k Hi Ho Hn Hc Hd Ht Hr Hu Hf HS Hm Hrel Hh.
  assert (agrees img o t True w k) as HA.
  { constructor; [exists c, d|..]; try assumption. split; [exact Hc|]. split; [exact Hd|]. split; [exact Ht|]. split; [exact HS|].
    intros _. rewrite (release_same _ _ _ _ (proj1 Hd)). exact Hrel. }
  pose proof (session_unmarked iter fuel order img o Ho Hi t Hn True h I w k HA Hm Hh) as X. rewrite map_map in X. exact X.
Qed.
