(** AfterRmProofs.v -- what ls and dump show after rm (C91). *)
From Coq Require Import ZifyBool ZifyNat.
From Verif Require Import GoBase GoLemmas TypesModel DiskModel DiskSpec DiskProofs DiskOpenProofs.
From Verif Require Import SupermonModel SupermonSpec SupermonTableSpec SupermonStoreSpec SupermonProofs SupermonSymProofs SupermonTabProofs SupermonLinkProofs SupermonOpProofs SupermonNameProofs SupermonFinalProofs SupermonNamedProofs SupermonStmtProofs SupermonRewriteProofs SupermonReadableProofs.
From Verif Require ProdosSpec.
From Verif Require Import ProdosModel CmdModel CmdSpec CmdProofs CmdStmtProofs NakedCmdSpec NakedCmdProofs NakedOpenProofs NakedNameProofs NakedExProofs DetectSpec DetectProofs PrintProofs ListSpec ListProofs OpenFuelProofs AfterProofs.
Ltac Zify.zify_post_hook ::= Z.div_mod_to_equations.
Local Opaque zrange zeros sub.

(** ** Delete, at the operator *)
Lemma Delete_parts n o o' ex : op_ok o -> Delete n o = (o', Ok ex) ->
  exists f d1 sm1, legal f /\ resolves (st_of o) n f /\ ex = negb (beq (content (op_data o) (op_SM o) f) []) /\ floppy d1 sm1 /\
    owned sm1 f = [] /\ (forall g, legal g -> g <> f -> owned sm1 g = owned (op_SM o) g /\ content d1 sm1 g = content (op_data o) (op_SM o) g) /\
    (((op_ST o = None \/ (exists t, op_ST o = Some t /\ forall i, 0 <= i < zlen t -> equal_fold n (nm t i) = false)) /\
      op_data o' = d1 /\ op_SM o' = sm1) \/
     (exists t, op_ST o = Some t /\ (exists i, 0 <= i < zlen t /\ equal_fold n (nm t i) = true) /\
      WriteSymbolTable (fst (DeleteSymbol t n)) (d1, sm1) = ((op_data o', op_SM o'), Ok tt))).
Proof.
  intros Hok E. unfold Delete in E.
  destruct (FileForName_spec (st_of o) n) as [(f & EF & Hr & Hf)|[EF _]]; rewrite EF in E; [|discriminate].
  cbv zeta in E. pose proof (ok_fl _ Hok) as Hfl.
  destruct (Delete_disk (op_data o) (op_SM o) f Hfl Hf) as (EP & Fl & C & O & Oth & Fr). rewrite EP in E.
  rewrite SectorsForFile_owned, zlen_map in E. pose proof (zlen_nonneg (owned (op_SM o) f)).
  assert (0 <? zlen (owned (op_SM o) f) = negb (beq (content (op_data o) (op_SM o) f) [])) as Eex.
  { rewrite content_beq by apply (fl_len _ _ Hfl). lia. }
  eexists f, _, _. split; [exact Hf|]. split; [exact Hr|].
  assert (G : ex = negb (beq (content (op_data o) (op_SM o) f) []) -> forall P : Prop, P -> ex = negb (beq (content (op_data o) (op_SM o) f) []) /\ P)
    by (intros; split; assumption).
  assert (Hown : forall g, legal g -> g <> f -> owned (SMDelete (op_SM o) f) g = owned (op_SM o) g).
  { intros g Hg Hgf. apply (SMDelete_full (op_SM o) f (fl_ver _ _ Hfl) Hf); [exact Hgf|]. unfold legal, FREE in *. lia. }
  destruct (op_ST o) as [t|] eqn:Et.
  - pose proof (DeleteSymbol_spec t n) as DS. pose proof (find_name_spec t n 0) as Hfn.
    destruct (find_name t n 0) as [k|].
    + destruct DS as (t1 & ED & Hch & _). rewrite ED in *. rewrite Z.sub_0_r in Hfn. destruct Hfn as (K1 & K2 & _).
      unfold sbind, on_disk in E. cbn [op_data op_SM op_ST] in E.
      destruct (WriteSymbolTable t1 _) as [[d2 sm2] r2] eqn:E2. destruct r2 as [[]|e|]; [|discriminate|discriminate].
      cbn [sret] in E. injection E as <- <-. cbn [op_data op_SM].
      apply G; [exact Eex|]. split; [exact Fl|]. split; [exact O|]. split; [intros g Hg Hgf; split; [apply Hown; assumption|apply Oth; assumption]|].
      right. exists t. split; [reflexivity|]. split; [exists k; split; [lia|exact K2]|]. rewrite ED. exact E2.
    + rewrite DS in E. injection E as <- <-. cbn [op_data op_SM].
      apply G; [exact Eex|]. split; [exact Fl|]. split; [exact O|]. split; [intros g Hg Hgf; split; [apply Hown; assumption|apply Oth; assumption]|].
      left. split; [|split; reflexivity]. right. exists t. split; [reflexivity|exact Hfn].
  - injection E as <- <-. cbn [op_data op_SM].
    apply G; [exact Eex|]. split; [exact Fl|]. split; [exact O|]. split; [intros g Hg Hgf; split; [apply Hown; assumption|apply Oth; assumption]|].
    left. split; [left; reflexivity|split; reflexivity].
Qed.

(** ** Symbols after a deletion *)
Lemma symbol_for_gone t t' i f : zlen t' = zlen t -> 0 <= i < zlen t -> ad t i = 0xDF00 + f -> ad t' i = 0 ->
  (forall q, 0 <= q < zlen t -> q <> i -> ad t' q = ad t q /\ nm t' q = nm t q) ->
  forall g, legal g -> g <> f -> symbol_for t' g = symbol_for t g.
Proof.
  intros HL Hi Ha Ha' Hq g Hg Hgf. unfold legal in Hg.
  destruct (symbol_for_cases t g) as [[E Hno]|(k & Hk & Ek & Hb & E)]; rewrite E.
  - destruct (symbol_for_cases t' g) as [[E' _]|(k & Hk & Ek & _)]; [exact E'|]. exfalso.
    destruct (Z.eq_dec k i) as [->|Hki]; [lia|]. apply (Hno k ltac:(lia)). rewrite <- (proj1 (Hq k ltac:(lia) Hki)). exact Ek.
  - assert (k <> i) as Hki by (intros ->; lia). destruct (Hq k ltac:(lia) Hki) as [Qa Qn]. rewrite <- Qn. apply symbol_for_first; [lia|lia|].
    intros j Hj. destruct (Z.eq_dec j i) as [->|Hji]; [lia|]. rewrite (proj1 (Hq j ltac:(lia) Hji)). apply Hb. exact Hj.
Qed.

Lemma delete_link_range t n i : zlen t = 819 -> Forall read_ok t -> map_table t -> n <> [] -> 0 <= i < zlen t -> equal_fold n (nm t i) = true ->
  forall j, 0 <= j < zlen t -> s_addr (znth sym0 (fst (DeleteSymbol t n)) j) <> 0 -> -1 <= s_link (znth sym0 (fst (DeleteSymbol t n)) j) < 819.
Proof.
  intros HL Hrd Hmap Hn Hi En j Hj. destruct (delete_entry t n i Hmap Hn Hi En) as (Ai & ED & _). rewrite ED. clear ED.
  destruct (unlink_spec t (lk t i) 0 i) as [Lu HC]. rewrite znth_zset by (clear - Lu Hi Hj; lia).
  destruct (Z.eqb_spec j i) as [->|Hji]; [intros H; contradiction H; reflexivity|].
  pose proof (Forall_znth read_ok sym0 t j Hrd Hj) as (_ & _ & Rj & _). pose proof (Forall_znth read_ok sym0 t i Hrd Hi) as (_ & _ & Ri & _).
  destruct HC as [[_ ->]|(p & P1 & P2 & P3 & P4 & P5)]; [exact Rj|].
  destruct (Z.eq_dec j p) as [->|Hjp]; [|rewrite P5 by (clear - Hj Hjp; lia); exact Rj].
  rewrite P4. cbn [set_link s_link s_addr]. intros _. apply Ri. exact Ai.
Qed.

Section AfterRm.
  Context (iter : list (Z * Subdirectory) -> list (Z * Subdirectory)).

  Lemma rm_parts fuel order system missingOk img name w w' :
    run (DeleteCmd_Run iter fuel order system missingOk img name) w = (w', Ok tt) ->
    exists c o op op2 ex new, input w img c /\
      OpenImage c (image_name img) order system (DiskOperatorFactories iter fuel) = Ok (ONaked op, o) /\
      Delete name op = (op2, Ok ex) /\ output w w' img new /\ naked_image new o (op_data op2).
  Proof.
    intros H. unfold DeleteCmd_Run in H.
    rewrite run_pbind in H. destruct (run (OpenFilename iter fuel img order system) w) as [w1 [[op o]|e|]] eqn:Eo; [|discriminate|discriminate].
    destruct (open_run _ _ _ _ _ _ _ _ _ Eo) as (c & Hc & Hopen & Hsf & Hso & _ & _ & Hw1).
    destruct (Op_Delete op name) as [op' r] eqn:EP. rewrite run_pbind in H. unfold plift in H. cbn [run] in H.
    destruct r as [ex|e|]; [|discriminate|discriminate].
    destruct op as [d0|op|d0]; cbn [Op_Delete] in EP.
    { cbn in EP. injection EP as _ EP. discriminate EP. }
    2:{ cbn in EP. injection EP as _ EP. discriminate EP. }
    destruct (Delete name op) as [op2 r2] eqn:EP2. cbn [lift_op] in EP. injection EP as <- ->.
    destruct (naked_opened iter fuel _ _ _ _ _ _ Hopen) as (_ & Hr & En & Hd & Hre & Hni & Em & Hnm).
    pose proof (reached_ok _ Hre) as Hok.
    destruct (negb ex && negb missingOk) eqn:Ee; [discriminate|].
    destruct (Delete_inv _ _ _ _ Hok EP2) as [Hok2 _].
    destruct (writeback_run c o (op_data op) op2 img Hr (fl_len _ _ (ok_fl _ Hok2))) as (new & Hn & Hrun).
    rewrite Hrun in H. apply run_output in H. apply (output_files w w1 w' img new Hsf Hso) in H.
    destruct (new_image new o op2 Hok2 Hn) as [Hnew _].
    exists c, o, op, op2, ex, new. split; [exact Hc|]. split; [exact Hopen|]. split; [exact EP2|]. split; [exact H|exact Hnew].
  Qed.

  (** The symbol named is deleted, if there is one; the others stay, or all are lost. *)
  Lemma rm_ls fuel order system missingOk img name w w' :
    run (DeleteCmd_Run iter fuel order system missingOk img name) w = (w', Ok tt) ->
    exists c o d t d' new f,
      input w img c /\ naked_image c o d /\ (ProdosSpec.an_order iter -> only_seen img order system c o d) /\ names_on d t /\ output w w' img new /\ naked_image new o d' /\
      legal f /\ resolves t name f /\
      (f <> 3 -> f <> 4 ->
       exists fs fs', files_on d fs /\ files_on d' fs' /\ (forall g, In g fs' <-> In g fs /\ g <> f) /\
         (forall t', ((t' = t /\ (forall i, 0 <= i < zlen t -> equal_fold name (nm t i) = false)) \/
                      (bytes_ok c /\ (forall g, ~ numeric name g) /\ name <> [] /\ names_unique t /\ chained t /\
                       exists i, 0 <= i < zlen t /\ equal_fold name (nm t i) = true /\
                         ((~ damaging t i /\ t' = t) \/ (damaging t i /\ t' = [])))) ->
          forall system2 (short : bool) w2, (system2 = s2b "auto" \/ system2 = s2b "nakedos") -> ProdosSpec.an_order iter ->
            seen_as img order new (s2b "nakedos") d' o -> input w2 img new -> w_outroom w2 = None ->
            eventually (fun k =>
              (exists text, all_lines (map (if short then shown t' else shown_full t') fs') text /\
                 prints (LsCmd_Run iter k order system2 short img []) w2 text) /\
              fails_cleanly (DumpCmd_Run iter k order system2 img name) w2))).
  Proof.
    intros H. destruct (rm_parts fuel _ _ _ _ _ _ _ H) as (c & o & op & op2 & ex & new & Hc & Hopen & EP & Hout & Hnew).
    destruct (naked_opened iter fuel _ _ _ _ _ _ Hopen) as (_ & Hr & En & Hd & Hre & Hni & Em & Hnm).
    pose proof (reached_ok _ Hre) as Hok. destruct (Delete_inv _ _ _ _ Hok EP) as [Hok2 _].
    destruct (Delete_parts name op op2 ex Hok EP) as (f & d1 & sm1 & Hf & Hres & _ & Fl1 & O1 & Oth1 & Hcase).
    destruct (NewOperator_ok _ _ Hd En) as (_ & _ & _ & H3).
    exists c, o, (op_data op), (st_of op), (op_data op2), new, f.
    split; [exact Hc|]. split; [exact Hni|]. split; [apply (opened_seen iter fuel); exact Hopen|].
    split; [exact Hnm|]. split; [exact Hout|]. split; [exact Hnew|]. split; [exact Hf|]. split; [exact Hres|].
    intros N3 N4. destruct (files_ex _ Hd) as [fs Hfs]. destruct (files_ex _ (fl_len _ _ (proj2 Hnew))) as [fs' Hfs'].
    assert (HR : forall t, op_ST op = Some t -> ReadSymbolTable (op_SM op) (op_data op) = Ok t).
    { intros t Ht. rewrite Em. rewrite Ht in H3. unfold opened_table in H3. destruct (ReadSymbolTable (stored_map (op_data op)) (op_data op)); congruence. }
    (* the other files *)
    assert (Hfiles : file_on (op_data op2) f = [] /\
      forall g, legal g -> g <> f -> (file_on (op_data op2) g <> [] <-> file_on (op_data op) g <> [])).
    { destruct Hcase as [(_ & D1 & D2)|(t & Et & _ & EW)].
      - split; [apply owned_file_on; [exact Hok2|rewrite D2; exact O1]|]. intros g Hg Hgf.
        rewrite <- (content_file_on op2), <- (content_file_on op) by assumption. rewrite D1, D2. destruct (Oth1 g Hg Hgf) as [_ ->]. reflexivity.
      - assert (L1 : zlen (fst (DeleteSymbol t name)) <= 819) by (rewrite zlen_DeleteSymbol, (ok_st _ Hok t Et); lia).
        destruct (WriteSymbolTable_any _ _ _ Fl1 L1) as (d2 & sm2 & r2 & E2 & _ & Fl2 & Oth2 & HO). rewrite EW in E2. injection E2 as <- <- <-.
        destruct (HO eq_refl) as (b1 & b2 & _ & _ & _ & _ & _ & _ & _ & _ & O3 & O4 & _).
        destruct (table_files _ _ _ Hd (HR t Et)) as [T3 T4].
        assert (Hnon : forall q g, op_ok q -> zlen (owned (op_SM q) g) = 16 -> file_on (op_data q) g <> []).
        { intros q g Hq0 Hz E. apply owned_file_on in E; [|exact Hq0]. rewrite E in Hz. discriminate Hz. }
        split; [apply owned_file_on; [exact Hok2|]; destruct (Oth2 f N3 N4 Hf) as [-> _]; exact O1|]. intros g Hg Hgf.
        destruct (Z.eq_dec g 3) as [->|G3]; [split; intros _; apply Hnon; assumption|].
        destruct (Z.eq_dec g 4) as [->|G4]; [split; intros _; apply Hnon; assumption|].
        rewrite <- (content_file_on op2), <- (content_file_on op) by assumption. destruct (Oth2 g G3 G4 Hg) as [_ ->]. destruct (Oth1 g Hg Hgf) as [_ ->]. reflexivity. }
    destruct Hfiles as [Hgone Hother].
    exists fs, fs'. split; [exact Hfs|]. split; [exact Hfs'|]. split.
    { intros g. rewrite (proj1 Hfs' g), (proj1 Hfs g). split.
      - intros [Lg E]. assert (g <> f) by (intros ->; contradiction). split; [split; [exact Lg|apply Hother; assumption]|assumption].
      - intros [[Lg E] Hgf]. split; [exact Lg|apply Hother; assumption]. }
    intros t' Ht' system2 short w2 Hsys Hi Hseen Hin Hw.
    (* the names on the new disk *)
    assert (Hnames : exists t2, names_on (op_data op2) t2 /\ (forall g, In g fs' -> symbol_for t2 g = symbol_for t' g) /\
      ((forall g, ~ resolves t2 name g) \/ resolves t2 name f)).
    { pose proof (names_opened _ (proj2 Hnew)) as Hx. rewrite (fl_map _ _ (ok_fl _ Hok2)) in Hx.
      destruct Hcase as [(Hnone & D1 & D2)|(t & Et & (i0 & Hi0 & Ei0) & EW)].
      - assert (Hno : forall i, 0 <= i < zlen (st_of op) -> equal_fold name (nm (st_of op) i) = false).
        { unfold st_of. destruct Hnone as [Es|(t & Es & Hn)]; rewrite Es; [intros i Hi0; rewrite (@zlen_nil Symbol) in Hi0; lia|exact Hn]. }
        assert (t' = st_of op) as ->.
        { destruct Ht' as [[-> _]|(_ & _ & _ & _ & _ & i & Hi0 & Ei & _)]; [reflexivity|]. rewrite (Hno i Hi0) in Ei. discriminate Ei. }
        exists (st_of op). split; [|split; [reflexivity|right; exact Hres]].
        apply (names_same (op_data op)); [exact (proj2 Hni)|exact (proj2 Hnew)| | |exact Hnm];
          (rewrite <- (content_file_on op2), <- (content_file_on op) by assumption; rewrite D1, D2; apply Oth1; [unfold legal; lia|congruence]).
      - assert (Est : st_of op = t) by (unfold st_of; rewrite Et; reflexivity). rewrite Est in *.
        destruct Ht' as [[_ Hno]|(Hb & Hnn & Hn0 & Hu & Hch & i & Hir & Ei & Ht')]; [rewrite (Hno i0 Hi0) in Ei0; discriminate Ei0|].
        pose proof (DetectProofs.reordered_bytes _ _ _ _ Hr Hb) as Hbd.
        destruct (ReadSymbolTable_read_ok _ _ _ (fl_len _ _ (ok_fl _ Hok)) Hbd (HR t Et)) as (HL & Hl & Hrd).
        assert (map_table t) as Hmap by (split; [exact Hu | apply read_ok_blanks; exact Hrd]).
        destruct (table_files _ _ _ Hd (HR t Et)) as [T3 T4].
        destruct (Oth1 3 ltac:(unfold legal; lia) ltac:(congruence)) as [Q3 _]. destruct (Oth1 4 ltac:(unfold legal; lia) ltac:(congruence)) as [Q4 _].
        destruct (delete_entry t name i Hmap Hn0 Hir Ei) as (Ai & _).
        pose proof (DeleteSymbol_spec t name) as DS. pose proof (find_name_spec t name 0) as Hfn.
        destruct (find_name t name 0) as [k|]; [|rewrite (Hfn i ltac:(clear - Hir; lia)) in Ei; discriminate Ei].
        destruct DS as (t1 & EDS & (HL1 & Hk & K0 & K1 & K2) & _). rewrite Z.sub_0_r in Hfn. destruct Hfn as (F1 & F2 & F3).
        assert (k = i) as ->.
        { apply Hu; [exact Hk|exact Hir|apply (equal_fold_nonnil name); assumption|]. apply (equal_fold_join _ _ name); rewrite equal_fold_sym; assumption. }
        assert (Hir' : 0 <= i < 819) by (clear - Hir HL; lia).
        pose proof (delete_links_exact t name i HL Hl Hmap Hch Hn0 Hir' Ei) as Hex.
        rewrite EDS in EW, Hex. cbn [fst] in EW, Hex.
        pose proof (WriteSymbolTable_names t1 d1 sm1 _ _ Fl1 ltac:(clear - HL1 HL; lia) EW) as Hnames.
        (* the names that were read encode *)
        assert (Hs1 : Forall s_ok t1).
        { pose proof (delete_link_range t name i HL Hrd Hmap Hn0 Hir Ei) as Hlr. rewrite EDS in Hlr. cbn [fst] in Hlr.
          apply (s_ok_pointwise t1); [reflexivity|]. intros j Hj. rewrite HL1 in Hj. destruct (Z.eq_dec j i) as [->|Hji].
          - unfold ad, nm in K0, K1. split; [rewrite K0; unfold is_u16; clear; lia|]. split; [rewrite K1; left; reflexivity|]. rewrite K0. intros X; contradiction.
          - destruct (K2 j (proj1 Hj) Hji) as [Qa Qn]. pose proof (Forall_znth read_ok sym0 t j Hrd Hj) as (R1 & R2 & R3 & R4).
            pose proof (Forall_znth _ sym0 t1 j Hnames ltac:(clear - Hj HL1; lia)) as (six & Esix). cbv beta in Esix.
            unfold ad, nm in Qa, Qn. unfold s_ok. rewrite Qa. split; [exact R1|]. split; [rewrite Qn in *; eapply encodes_valid; eassumption|].
            intros Aj. refine (Hlr j Hj _). change (ad t1 j <> 0). unfold ad. rewrite <- Qa in Aj. exact Aj. }
        destruct (write_read_exact t1 d1 sm1 Fl1 ltac:(clear - HL1 HL; lia) Hs1 ltac:(rewrite Q3; exact T3) ltac:(rewrite Q4; exact T4)) as (d2 & sm2 & EW2 & R1 & R2).
        rewrite EW in EW2. injection EW2 as <- <-.
        assert (Hfi : ad t i = 0xDF00 + f).
        { destruct Hres as [Hnu|(_ & _ & k & (K1' & K2' & _) & Ek)]; [contradiction (Hnn f Hnu)|].
          assert (k = i) as ->; [|exact Ek].
          symmetry. apply Hu; [exact Hir|exact K1'|apply (equal_fold_nonnil name); assumption|]. apply (equal_fold_join _ _ name); [rewrite equal_fold_sym; exact Ei|exact K2']. }
        destruct Ht' as [[Hnd ->]|[Hda ->]].
        + rewrite (R1 (proj2 Hex Hnd)) in Hx. exists (map canon t1). split; [exact Hx|].
          pose proof (ReadSymbolTable_canon _ _ _ (HR t Et)) as Hcan.
          assert (Hci : ad (map canon t1) i = 0 /\ nm (map canon t1) i = []).
          { unfold ad, nm. rewrite (znth_map canon sym0 sym0) by (clear - Hir HL1; lia). unfold canon. unfold ad in K0. rewrite K0. split; reflexivity. }
          assert (Hcq : forall q, 0 <= q < zlen t -> q <> i -> ad (map canon t1) q = ad t q /\ nm (map canon t1) q = nm t q).
          { intros q Hq Hqi. destruct (K2 q (proj1 Hq) Hqi) as [Qa Qn]. unfold ad, nm in *.
            assert (Hc1 : znth sym0 (map canon t) q = znth sym0 t q) by (rewrite Hcan; reflexivity).
            rewrite (znth_map canon sym0 sym0) in Hc1 by exact Hq. rewrite (znth_map canon sym0 sym0) by (clear - Hq HL1; lia). revert Hc1.
            unfold canon. rewrite Qa, Qn. destruct (s_addr (znth sym0 t q) =? 0) eqn:E0.
            - intros Hc1. rewrite <- Hc1. split; reflexivity.
            - intros Hc1. cbn [s_addr s_name]. split; [reflexivity|]. rewrite <- Hc1 at 2. reflexivity. }
          split.
          * intros g Hg. assert (legal g /\ g <> f) as [Lg Hgf].
            { apply (proj1 Hfs') in Hg as [Lg Eg]. split; [exact Lg|]. intros ->. contradiction. }
            apply (symbol_for_gone t (map canon t1) i f); [rewrite zlen_map; exact HL1|exact Hir|exact Hfi|exact (proj1 Hci)|exact Hcq|exact Lg|exact Hgf].
          * left. intros g [Hg|(_ & _ & k & (Hk1 & Hk2 & _) & _)]; [exact (Hnn g Hg)|]. rewrite zlen_map, HL1 in Hk1.
            destruct (Z.eq_dec k i) as [->|Hki].
            { rewrite (proj2 Hci), equal_fold_sym in Hk2. apply equal_fold_nil in Hk2. contradiction. }
            rewrite (proj2 (Hcq k Hk1 Hki)) in Hk2. apply Hki. symmetry.
            apply Hu; [exact Hir|exact Hk1|apply (equal_fold_nonnil name); assumption|]. apply (equal_fold_join _ _ name); [rewrite equal_fold_sym; exact Ei|exact Hk2].
        + destruct R2 as [e Re]; [intros Hlk; apply (proj1 Hex Hlk); exact Hda|]. rewrite Re in Hx. exists []. split; [exact Hx|]. split; [reflexivity|].
          left. intros g [Hg|(_ & _ & k & (Hk1 & _) & _)]; [exact (Hnn g Hg)|]. rewrite (@zlen_nil Symbol) in Hk1. clear - Hk1. lia. }
    destruct Hnames as (t2 & Hn2 & Hsym & Hrn).
    apply eventually_and.
    - pose proof (ls_known iter img order system2 new (op_data op2) o t2 fs' short w2 Hi Hseen Hsys Hn2 Hfs' Hin Hw) as HL1.
      assert (Emap : map (if short then shown t2 else shown_full t2) fs' = map (if short then shown t' else shown_full t') fs').
      { apply map_ext_in. intros g Hg. destruct short; unfold shown, shown_full; rewrite (Hsym g Hg); reflexivity. }
      rewrite Emap in HL1. exact HL1.
    - apply (dump_nakedos iter img order system2 new (op_data op2) o t2 name f w2 Hi Hseen Hsys Hn2 Hin).
      destruct Hrn as [Hrn|Hrn]; [left; exact Hrn|right; split; [exact Hrn|exact Hgone]].
  Qed.
End AfterRm.
