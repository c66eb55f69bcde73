(** TableRmProofs.v -- what ls and dump show after rm of a file that holds the symbol table (C91). *)
From Coq Require Import ZifyBool ZifyNat.
From Verif Require Import GoBase GoLemmas TypesModel DiskModel DiskSpec DiskProofs DiskOpenProofs.
From Verif Require Import SupermonModel SupermonSpec SupermonTableSpec SupermonStoreSpec SupermonProofs SupermonSymProofs SupermonTabProofs SupermonLinkProofs SupermonOpProofs SupermonNameProofs SupermonFinalProofs SupermonNamedProofs SupermonStmtProofs SupermonRewriteProofs SupermonReadableProofs.
From Verif Require ProdosSpec.
From Verif Require Import ProdosModel CmdModel CmdSpec CmdProofs CmdStmtProofs NakedCmdSpec NakedCmdProofs NakedOpenProofs NakedNameProofs NakedExProofs DetectSpec DetectProofs PrintProofs ListSpec ListProofs OpenFuelProofs AfterProofs AfterRmProofs ReorderProofs AfterExProofs.
Ltac Zify.zify_post_hook ::= Z.div_mod_to_equations.
Local Opaque zrange zeros sub.

(** Without file 3 or 4 there is no symbol table. *)
Lemma no_names d sm f : floppy d sm -> stored_map d = sm -> f = 3 \/ f = 4 -> owned sm f = [] -> names_on d [].
Proof.
  intros Hf Em Hf34 Ho. eexists. split; [apply (NewOperator_floppy _ sm); exact Hf|]. unfold st_of. cbn [op_ST]. unfold opened_table.
  destruct (ReadSymbolTable sm d) as [t|e|] eqn:ER; [|reflexivity|reflexivity]. exfalso.
  destruct (table_files _ _ _ (fl_len _ _ Hf) ER) as [T3 T4]. destruct Hf34 as [->| ->]; rewrite Ho, (@zlen_nil Z) in *; lia.
Qed.

(** rm by a name that no entry of the table is spelled like. *)
Lemma Delete_number o n o' ex : reached o -> Delete n o = (o', Ok ex) ->
  (forall i, 0 <= i < zlen (st_of o) -> equal_fold n (nm (st_of o) i) = false) ->
  exists f, numeric n f /\ owned (op_SM o') f = [] /\
    forall g, legal g -> g <> f -> ReadFile (op_SM o') (op_data o') g = ReadFile (op_SM o) (op_data o) g.
Proof.
  intros Hre HD Hno. pose proof (reached_ok _ Hre) as Hok. destruct (Delete_inv _ _ _ _ Hok HD) as [Hok2 _].
  destruct (Delete_parts n o o' ex Hok HD) as (f & d1 & sm1 & Hf & Hres & _ & _ & O1 & Oth1 & Hcase). exists f.
  assert (Hnum : numeric n f).
  { destruct Hres as [Hnum|(_ & _ & i & (Hi0 & Ei & _) & _)]; [exact Hnum|]. rewrite equal_fold_sym, (Hno i Hi0) in Ei. discriminate Ei. }
  destruct Hcase as [(_ & D1 & D2)|(t & Et & (i & Hi & Ei) & _)].
  2:{ exfalso. assert (Est : st_of o = t) by (unfold st_of; rewrite Et; reflexivity). rewrite Est in Hno. rewrite (Hno i Hi) in Ei. discriminate Ei. }
  split; [exact Hnum|]. split; [rewrite D2; exact O1|]. intros g Hg Hgf. destruct (Oth1 g Hg Hgf) as [_ E].
  rewrite !ReadFile_spec by first [apply (fl_len _ _ (ok_fl _ Hok2))|apply (fl_len _ _ (ok_fl _ Hok))]. rewrite D1, D2, E. reflexivity.
Qed.

Section TableRm.
  Context (iter : list (Z * Subdirectory) -> list (Z * Subdirectory)).

  Lemma rm_table fuel order system missingOk img name w w' :
    run (DeleteCmd_Run iter fuel order system missingOk img name) w = (w', Ok tt) ->
    exists c o d t d' new f fs fs',
      input w img c /\ naked_image c o d /\ (ProdosSpec.an_order iter -> only_seen img order system c o d) /\ names_on d t /\ output w w' img new /\ naked_image new o d' /\
      resolves t name f /\ files_on d fs /\ files_on d' fs' /\
      (f = 3 \/ f = 4 ->
       ((forall i, 0 <= i < zlen t -> equal_fold name (nm t i) = false) ->
        (forall g, In g fs' <-> In g fs /\ g <> f) /\ (forall g, legal g -> g <> f -> file_on d' g = file_on d g) /\
        forall system2 (short : bool) w2, (system2 = s2b "auto" \/ system2 = s2b "nakedos") -> ProdosSpec.an_order iter ->
          seen_as img order new (s2b "nakedos") d' o -> input w2 img new -> w_outroom w2 = None ->
          eventually (fun k =>
            (exists text, all_lines (map printed fs') text /\ prints (LsCmd_Run iter k order system2 short img []) w2 text) /\
            fails_cleanly (DumpCmd_Run iter k order system2 img name) w2)) /\
       ((exists i, 0 <= i < zlen t /\ equal_fold name (nm t i) = true) ->
        (forall g, In g fs' <-> In g fs \/ g = f) /\ (forall g, legal g -> g <> 3 -> g <> 4 -> file_on d' g = file_on d g) /\
        forall system2 w2, (system2 = s2b "auto" \/ system2 = s2b "nakedos") -> ProdosSpec.an_order iter ->
          seen_as img order new (s2b "nakedos") d' o -> input w2 img new -> w_outroom w2 = None ->
          eventually (fun k => prints (DumpCmd_Run iter k order system2 img (printed f)) w2 (file_on d' f)) /\
          forall t' (short : bool), names_on d' t' -> eventually (fun k =>
            exists text, all_lines (map (if short then shown t' else shown_full t') fs') text /\ prints (LsCmd_Run iter k order system2 short img []) w2 text))).
  Proof.
    intros H. destruct (rm_parts iter fuel _ _ _ _ _ _ _ H) as (c & o & op & op2 & ex & new & Hc & Hopen & EP & Hout & Hnew).
    destruct (naked_opened iter fuel _ _ _ _ _ _ Hopen) as (_ & Hr & En & Hd & Hre & Hni & Em & Hnm).
    pose proof (reached_ok _ Hre) as Hok. destruct (Delete_inv _ _ _ _ Hok EP) as [Hok2 _].
    destruct (Delete_parts name op op2 ex Hok EP) as (f & d1 & sm1 & Hf & Hres & _ & Fl1 & O1 & Oth1 & Hcase).
    destruct (NewOperator_ok _ _ Hd En) as (_ & _ & _ & H3).
    destruct (files_ex _ Hd) as [fs Hfs]. destruct (files_ex _ (fl_len _ _ (proj2 Hnew))) as [fs' Hfs'].
    exists c, o, (op_data op), (st_of op), (op_data op2), new, f, fs, fs'.
    split; [exact Hc|]. split; [exact Hni|]. split; [apply (opened_seen iter fuel); exact Hopen|].
    split; [exact Hnm|]. split; [exact Hout|]. split; [exact Hnew|]. split; [exact Hres|]. split; [exact Hfs|]. split; [exact Hfs'|].
    intros F34.
    assert (HR : forall t, op_ST op = Some t -> ReadSymbolTable (op_SM op) (op_data op) = Ok t).
    { intros t Ht. rewrite Em. rewrite Ht in H3. unfold opened_table in H3. destruct (ReadSymbolTable (stored_map (op_data op)) (op_data op)); congruence. }
    split.
    - intros Hno. destruct Hcase as [(_ & D1 & D2)|(t & Et & (i & Hi & Ei) & _)].
      2:{ exfalso. assert (Est : st_of op = t) by (unfold st_of; rewrite Et; reflexivity). rewrite Est in Hno. rewrite (Hno i Hi) in Ei. discriminate Ei. }
      assert (Hgone : file_on (op_data op2) f = []) by (apply owned_file_on; [exact Hok2|rewrite D2; exact O1]).
      assert (Hsame : forall g, legal g -> g <> f -> file_on (op_data op2) g = file_on (op_data op) g).
      { intros g Hg Hgf. rewrite <- (content_file_on op2), <- (content_file_on op) by assumption. rewrite D1, D2. apply Oth1; assumption. }
      split.
      { intros g. rewrite (proj1 Hfs' g), (proj1 Hfs g). split.
        - intros [Lg E]. assert (g <> f) as Hgf by (intros ->; contradiction). split; [split; [exact Lg|rewrite <- (Hsame g Lg Hgf); exact E]|exact Hgf].
        - intros [[Lg E] Hgf]. split; [exact Lg|rewrite (Hsame g Lg Hgf); exact E]. }
      split; [exact Hsame|]. intros system2 short w2 Hsys Hi Hseen Hin Hw.
      assert (Hnm' : names_on (op_data op2) []).
      { apply (no_names _ (op_SM op2) f); [apply (ok_fl _ Hok2)|apply (fl_map _ _ (ok_fl _ Hok2))|exact F34|rewrite D2; exact O1]. }
      apply eventually_and.
      + pose proof (ls_known iter img order system2 new (op_data op2) o [] fs' short w2 Hi Hseen Hsys Hnm' Hfs' Hin Hw) as HL1.
        assert (Emap : map (if short then shown [] else shown_full []) fs' = map printed fs') by (destruct short; reflexivity).
        rewrite Emap in HL1. exact HL1.
      + apply (proj2 (dump_nakedos iter img order system2 new (op_data op2) o [] name f w2 Hi Hseen Hsys Hnm' Hin)).
        destruct Hres as [Hnum|(_ & _ & i & (Hi0 & Ei & _) & _)]; [right; split; [left; exact Hnum|exact Hgone]|].
        rewrite equal_fold_sym, (Hno i Hi0) in Ei. discriminate Ei.
    - intros (i & Hi0 & Ei). destruct Hcase as [(Hnone & _)|(t & Et & _ & EW)].
      { exfalso. unfold st_of in Hi0, Ei. destruct Hnone as [Es|(t & Es & Hn)]; rewrite Es in Hi0, Ei; [rewrite (@zlen_nil Symbol) in Hi0; lia|].
        rewrite (Hn i Hi0) in Ei. discriminate Ei. }
      assert (L1 : zlen (fst (DeleteSymbol t name)) <= 819) by (rewrite zlen_DeleteSymbol, (ok_st _ Hok t Et); lia).
      destruct (WriteSymbolTable_any _ _ _ Fl1 L1) as (d2 & sm2 & r2 & E2 & _ & Fl2 & Oth2 & HO). rewrite EW in E2. injection E2 as <- <- <-.
      destruct (HO eq_refl) as (b1 & b2 & _ & _ & _ & _ & _ & _ & _ & _ & O3 & O4 & _).
      destruct (table_files _ _ _ Hd (HR t Et)) as [T3 T4].
      assert (Hnon : forall q g, op_ok q -> zlen (owned (op_SM q) g) = 16 -> file_on (op_data q) g <> []).
      { intros q g Hq0 Hz E. apply owned_file_on in E; [|exact Hq0]. rewrite E in Hz. discriminate Hz. }
      assert (Hsame : forall g, legal g -> g <> 3 -> g <> 4 -> file_on (op_data op2) g = file_on (op_data op) g).
      { intros g Hg G3 G4. rewrite <- (content_file_on op2), <- (content_file_on op) by assumption. destruct (Oth2 g G3 G4 Hg) as [_ ->]. apply Oth1; [exact Hg|destruct F34 as [->| ->]; assumption]. }
      split.
      { intros g. rewrite (proj1 Hfs' g), (proj1 Hfs g).
        destruct (Z.eq_dec g 3) as [->|G3]; [split; intros _; [left; split; [clear; unfold legal; lia|apply Hnon; assumption]|split; [clear; unfold legal; lia|apply Hnon; assumption]]|].
        destruct (Z.eq_dec g 4) as [->|G4]; [split; intros _; [left; split; [clear; unfold legal; lia|apply Hnon; assumption]|split; [clear; unfold legal; lia|apply Hnon; assumption]]|].
        split; [intros [Lg E]; left; split; [exact Lg|rewrite <- (Hsame g Lg G3 G4); exact E]|].
        intros [[Lg E]|E]; [split; [exact Lg|rewrite (Hsame g Lg G3 G4); exact E]|destruct F34 as [F|F]; rewrite F in E; contradiction]. }
      split; [exact Hsame|]. intros system2 w2 Hsys Hi Hseen Hin Hw.
      pose proof (names_opened _ (proj2 Hnew)) as Hx.
      split; [|intros t' short Ht'; exact (ls_known iter img order system2 new (op_data op2) o t' fs' short w2 Hi Hseen Hsys Ht' Hfs' Hin Hw)].
      apply (proj1 (dump_nakedos iter img order system2 new (op_data op2) o _ (printed f) f w2 Hi Hseen Hsys Hx Hin)); [left; apply printed_numeric; exact Hf| |exact Hw].
      destruct F34 as [->| ->]; apply Hnon; assumption.
  Qed.
End TableRm.
