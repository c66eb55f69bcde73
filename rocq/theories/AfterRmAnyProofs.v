(** AfterRmAnyProofs.v -- what ls and dump show after rm, for every symbol table (C91). *)
From Coq Require Import ZifyBool ZifyNat.
From Verif Require Import GoBase GoLemmas TypesModel DiskModel DiskSpec DiskProofs DiskOpenProofs.
From Verif Require Import SupermonModel SupermonSpec SupermonTableSpec SupermonBreakSpec SupermonStoreSpec SupermonProofs SupermonSymProofs SupermonTabProofs SupermonLinkProofs SupermonOpProofs SupermonNameProofs SupermonFinalProofs SupermonNamedProofs SupermonStmtProofs SupermonRewriteProofs SupermonReadableProofs SupermonBreakProofs.
From Verif Require ProdosSpec.
From Verif Require Import ProdosModel CmdModel CmdSpec CmdProofs CmdStmtProofs NakedCmdSpec NakedCmdProofs NakedOpenProofs NakedNameProofs NakedExProofs DetectSpec DetectProofs PrintProofs ListSpec ListProofs OpenFuelProofs AfterProofs AfterRmProofs.
Ltac Zify.zify_post_hook ::= Z.div_mod_to_equations.
Local Opaque zrange zeros sub.

(** ** Tables with the same names and addresses *)
Definition like (t t' : list Symbol) : Prop := zlen t' = zlen t /\ forall q, 0 <= q < zlen t -> ad t' q = ad t q /\ nm t' q = nm t q.
Lemma like_symbol t t' g : like t t' -> symbol_for t' g = symbol_for t g.
Proof.
  intros [HL Hq]. destruct (symbol_for_cases t g) as [[E Hno]|(k & Hk & Ek & Hb & E)]; rewrite E.
  - destruct (symbol_for_cases t' g) as [[E' _]|(k & Hk & Ek & _)]; [exact E'|]. exfalso.
    apply (Hno k ltac:(lia)). rewrite <- (proj1 (Hq k ltac:(lia))). exact Ek.
  - destruct (Hq k ltac:(lia)) as [Qa Qn]. rewrite <- Qn. apply symbol_for_first; [lia|lia|].
    intros j Hj. rewrite (proj1 (Hq j ltac:(lia))). apply Hb. exact Hj.
Qed.
Lemma like_resolves t t' n g : like t t' -> (resolves t' n g <-> resolves t n g).
Proof.
  assert (forall a b, like a b -> resolves b n g -> resolves a n g) as H.
  { intros a b [HL Hq] [Hn|(Hn & Lg & i & (I1 & I2 & I3) & Ai)]; [left; exact Hn|right]. split; [exact Hn|]. split; [exact Lg|]. rewrite HL in I1.
    destruct (Hq i I1) as [Qa Qn]. exists i. rewrite <- Qa, Ai. split; [|reflexivity]. split; [exact I1|]. rewrite <- Qn. split; [exact I2|].
    intros j Hj. rewrite <- (proj2 (Hq j ltac:(lia))). apply I3, Hj. }
  intros Hl. split; apply H; [exact Hl|]. destruct Hl as [HL Hq]. split; [lia|]. intros q Hq0. rewrite HL in Hq0. destruct (Hq q Hq0). split; symmetry; assumption.
Qed.
(** The table that is read back after a deletion. *)
Lemma canon_delete t n i : map canon t = t -> first_named t n i -> like (zset t i sym0) (map canon (fst (DeleteSymbol t n))).
Proof.
  intros Hcan Hn. destruct (delete_each t n i Hn) as (L & E & E1 & E2). pose proof (proj1 Hn) as Hi.
  split; [rewrite zlen_map, zlen_zset by lia; exact L|]. intros q Hq. rewrite zlen_zset in Hq by lia. unfold ad, nm.
  rewrite (znth_map canon sym0 sym0) by lia. rewrite znth_zset by lia. destruct (Z.eqb_spec q i) as [->|Hqi]; [rewrite E; split; reflexivity|].
  assert (Hc1 : canon (znth sym0 t q) = znth sym0 t q) by (rewrite <- (znth_map canon sym0 sym0) by lia; rewrite Hcan; reflexivity).
  destruct (first_to_dec t i q) as [Hf|Hf]; [rewrite (E1 q Hq Hqi Hf)|rewrite (E2 q Hq Hqi Hf); rewrite Hc1; split; reflexivity].
  unfold canon in *. cbn [set_link s_addr s_name s_link]. destruct (s_addr (znth sym0 t q) =? 0).
  - rewrite <- Hc1. split; reflexivity.
  - split; [reflexivity|]. cbn [s_name]. rewrite <- Hc1 at 2. reflexivity.
Qed.

Section AfterRm.
  Context (iter : list (Z * Subdirectory) -> list (Z * Subdirectory)).
  Lemma rm_any fuel order system missingOk img name w w' :
    run (DeleteCmd_Run iter fuel order system missingOk img name) w = (w', Ok tt) ->
    exists c o d t d' new f,
      input w img c /\ naked_image c o d /\ (ProdosSpec.an_order iter -> only_seen img order system c o d) /\ names_on d t /\ output w w' img new /\ naked_image new o d' /\
      legal f /\ resolves t name f /\
      (f <> 3 -> f <> 4 ->
       exists fs fs', files_on d fs /\ files_on d' fs' /\ (forall g, In g fs' <-> In g fs /\ g <> f) /\
         (forall g, legal g -> g <> f -> g <> 3 -> g <> 4 -> file_on d' g = file_on d g) /\
         (forall t', bytes_ok c -> left_after t name t' ->
          forall system2 w2, (system2 = s2b "auto" \/ system2 = s2b "nakedos") -> ProdosSpec.an_order iter ->
            seen_as img order new (s2b "nakedos") d' o -> input w2 img new -> w_outroom w2 = None ->
            (forall short : bool, eventually (fun k =>
              exists text, all_lines (map (if short then shown t' else shown_full t') fs') text /\
                 prints (LsCmd_Run iter k order system2 short img []) w2 text)) /\
            (forall n g, resolves t' n g -> In g fs' -> eventually (fun k => prints (DumpCmd_Run iter k order system2 img n) w2 (file_on d' g))) /\
            (forall n, (forall g, resolves t' n g -> ~ In g fs') -> eventually (fun k => fails_cleanly (DumpCmd_Run iter k order system2 img n) w2)))).
  Proof.
    intros H. destruct (rm_parts iter fuel _ _ _ _ _ _ _ H) as (c & o & op & op2 & ex & new & Hc & Hopen & EP & Hout & Hnew).
    destruct (naked_opened iter fuel _ _ _ _ _ _ Hopen) as (_ & Hr & En & Hd & Hre & Hni & Em & Hnm).
    pose proof (reached_ok _ Hre) as Hok. destruct (Delete_inv _ _ _ _ Hok EP) as [Hok2 _].
    destruct (Delete_parts name op op2 ex Hok EP) as (f & d1 & sm1 & Hf & Hres & _ & Fl1 & O1 & Oth1 & Hcase).
    destruct (NewOperator_ok _ _ Hd En) as (_ & _ & _ & H3).
    exists c, o, (op_data op), (st_of op), (op_data op2), new, f.
    split; [exact Hc|]. split; [exact Hni|]. split; [apply (opened_seen iter fuel); exact Hopen|].
    split; [exact Hnm|]. split; [exact Hout|]. split; [exact Hnew|]. split; [exact Hf|]. split; [exact Hres|].
    intros N3 N4. destruct (files_ex _ Hd) as [fs Hfs]. destruct (files_ex _ (fl_len _ _ (proj2 Hnew))) as [fs' Hfs'].
    assert (HR : forall t, op_ST op = Some t -> ReadSymbolTable (op_SM op) (op_data op) = Ok t).
    { intros t Ht. rewrite Em. rewrite Ht in H3. unfold opened_table in H3. destruct (ReadSymbolTable (stored_map (op_data op)) (op_data op)); congruence. }
    (* the other files *)
    assert (Hfiles : file_on (op_data op2) f = [] /\
      (forall g, legal g -> g <> f -> (file_on (op_data op2) g <> [] <-> file_on (op_data op) g <> [])) /\
      forall g, legal g -> g <> f -> g <> 3 -> g <> 4 -> file_on (op_data op2) g = file_on (op_data op) g).
    { destruct Hcase as [(_ & D1 & D2)|(t & Et & _ & EW)].
      - split; [apply owned_file_on; [exact Hok2|rewrite D2; exact O1]|].
        assert (forall g, legal g -> g <> f -> file_on (op_data op2) g = file_on (op_data op) g) as Hs.
        { intros g Hg Hgf. rewrite <- (content_file_on op2), <- (content_file_on op) by assumption. rewrite D1, D2. destruct (Oth1 g Hg Hgf) as [_ ->]. reflexivity. }
        split; [intros g Hg Hgf; rewrite (Hs g Hg Hgf); reflexivity|intros g Hg Hgf _ _; apply (Hs g Hg Hgf)].
      - assert (L1 : zlen (fst (DeleteSymbol t name)) <= 819) by (rewrite zlen_DeleteSymbol, (ok_st _ Hok t Et); lia).
        destruct (WriteSymbolTable_any _ _ _ Fl1 L1) as (d2 & sm2 & r2 & E2 & _ & Fl2 & Oth2 & HO). rewrite EW in E2. injection E2 as <- <- <-.
        destruct (HO eq_refl) as (b1 & b2 & _ & _ & _ & _ & _ & _ & _ & _ & O3 & O4 & _).
        destruct (table_files _ _ _ Hd (HR t Et)) as [T3 T4].
        assert (Hnon : forall q g, op_ok q -> zlen (owned (op_SM q) g) = 16 -> file_on (op_data q) g <> []).
        { intros q g Hq0 Hz E. apply owned_file_on in E; [|exact Hq0]. rewrite E in Hz. discriminate Hz. }
        split; [apply owned_file_on; [exact Hok2|]; destruct (Oth2 f N3 N4 Hf) as [-> _]; exact O1|].
        assert (forall g, legal g -> g <> f -> g <> 3 -> g <> 4 -> file_on (op_data op2) g = file_on (op_data op) g) as Hs.
        { intros g Hg Hgf G3 G4. rewrite <- (content_file_on op2), <- (content_file_on op) by assumption. destruct (Oth2 g G3 G4 Hg) as [_ ->]. destruct (Oth1 g Hg Hgf) as [_ ->]. reflexivity. }
        split; [|exact Hs]. intros g Hg Hgf.
        destruct (Z.eq_dec g 3) as [->|G3]; [split; intros _; apply Hnon; assumption|].
        destruct (Z.eq_dec g 4) as [->|G4]; [split; intros _; apply Hnon; assumption|].
        rewrite (Hs g Hg Hgf G3 G4). reflexivity. }
    destruct Hfiles as (Hgone & Hother & Hrest).
    exists fs, fs'. split; [exact Hfs|]. split; [exact Hfs'|]. split.
    { intros g. rewrite (proj1 Hfs' g), (proj1 Hfs g). split.
      - intros [Lg E]. assert (g <> f) by (intros ->; contradiction). split; [split; [exact Lg|apply Hother; assumption]|assumption].
      - intros [[Lg E] Hgf]. split; [exact Lg|apply Hother; assumption]. }
    split; [exact Hrest|].
    intros t' Hb Ht' system2 w2 Hsys Hi Hseen Hin Hw.
    (* the names on the new disk *)
    assert (Hnames : exists t2, names_on (op_data op2) t2 /\ like t' t2).
    { pose proof (names_opened _ (proj2 Hnew)) as Hx. rewrite (fl_map _ _ (ok_fl _ Hok2)) in Hx.
      destruct Hcase as [(Hnone & D1 & D2)|(t & Et & (i0 & Hi0 & Ei0) & EW)].
      - assert (Hno : forall i, 0 <= i < zlen (st_of op) -> equal_fold name (nm (st_of op) i) = false).
        { unfold st_of. destruct Hnone as [Es|(t & Es & Hn)]; rewrite Es; [intros i Hi0; rewrite (@zlen_nil Symbol) in Hi0; lia|exact Hn]. }
        assert (t' = st_of op) as ->.
        { destruct Ht' as [[-> _]|(i & (Hi0 & Ei & _) & _)]; [reflexivity|]. rewrite equal_fold_sym, (Hno i Hi0) in Ei. discriminate Ei. }
        exists (st_of op). split; [|split; [reflexivity|split; reflexivity]].
        apply (names_same (op_data op)); [exact (proj2 Hni)|exact (proj2 Hnew)| | |exact Hnm];
          (rewrite <- (content_file_on op2), <- (content_file_on op) by assumption; rewrite D1, D2; apply Oth1; [unfold legal; lia|congruence]).
      - assert (Est : st_of op = t) by (unfold st_of; rewrite Et; reflexivity). rewrite Est in *.
        destruct Ht' as [[_ Hno]|(i & Hfn & Ht')]; [rewrite (Hno i0 Hi0) in Ei0; discriminate Ei0|]. pose proof (proj1 Hfn) as Hir.
        pose proof (DetectProofs.reordered_bytes _ _ _ _ Hr Hb) as Hbd.
        destruct (ReadSymbolTable_read_ok _ _ _ (fl_len _ _ (ok_fl _ Hok)) Hbd (HR t Et)) as (HL & Hl & Hrd).
        pose proof (read_ok_blanks _ Hrd) as Hbl.
        destruct (table_files _ _ _ Hd (HR t Et)) as [T3 T4].
        destruct (Oth1 3 ltac:(unfold legal; lia) ltac:(congruence)) as [Q3 _]. destruct (Oth1 4 ltac:(unfold legal; lia) ltac:(congruence)) as [Q4 _].
        assert (ad t i <> 0) as Ai.
        { destruct Hres as [Hnu|(_ & Lf & k & Hk & Ek)].
          - intros H0. apply (Hbl i Hir) in H0. destruct Hfn as (_ & E2 & _). rewrite H0, equal_fold_sym in E2. apply equal_fold_nil in E2. rewrite E2 in Hnu.
            apply numeric_nonempty in Hnu. apply Hnu. reflexivity.
          - assert (k = i) as ->; [|rewrite Ek; unfold legal in Lf; lia]. apply first_named_find in Hk. apply first_named_find in Hfn. congruence. }
        pose proof (WriteSymbolTable_names (fst (DeleteSymbol t name)) d1 sm1 _ _ Fl1 ltac:(rewrite zlen_DeleteSymbol; lia) EW) as Hnames.
        destruct (delete_each t name i Hfn) as (L1 & E0 & E1 & E2).
        (* the names that were read encode *)
        assert (Hs1 : Forall s_ok (fst (DeleteSymbol t name))).
        { apply (s_ok_pointwise t _ L1). intros j Hj. destruct (Z.eq_dec j i) as [->|Hji]; [rewrite E0; split; [unfold is_u16; cbn; lia|]; split; [left; reflexivity|cbn; lia]|].
          pose proof (Forall_znth read_ok sym0 t j Hrd Hj) as (R1 & R2 & R3 & R4). pose proof (Forall_znth read_ok sym0 t i Hrd Hir) as (_ & _ & R5 & _).
          pose proof (Forall_znth _ sym0 _ j Hnames ltac:(lia)) as (six & Esix). cbv beta in Esix.
          assert (exists l, znth sym0 (fst (DeleteSymbol t name)) j = set_link (znth sym0 t j) l /\ (ad t j <> 0 -> -1 <= l < 819)) as (l & El & Hll).
          { destruct (first_to_dec t i j) as [Hf1|Hf1]; [exists (lk t i); split; [apply (E1 j Hj Hji Hf1)|intros _; apply (R5 Ai)]|].
            exists (lk t j). split; [rewrite (E2 j Hj Hji Hf1); unfold lk; destruct (znth sym0 t j); reflexivity|exact R3]. }
          rewrite El in *. cbn [set_link s_name] in Esix. split; [exact R1|]. split; [eapply encodes_valid; eassumption|exact Hll]. }
        destruct (write_read_exact _ d1 sm1 Fl1 ltac:(rewrite L1; exact HL) Hs1 ltac:(rewrite Q3; exact T3) ltac:(rewrite Q4; exact T4)) as (d2 & sm2 & EW2 & R1 & R2).
        rewrite EW in EW2. injection EW2 as <- <-.
        destruct (delete_break t name i Hl Hfn Ai) as [B1 B2].
        destruct Ht' as [[Hnd ->]|[Hda ->]].
        + rewrite (R1 (B2 Hnd)) in Hx. exists (map canon (fst (DeleteSymbol t name))). split; [exact Hx|].
          apply canon_delete; [apply (ReadSymbolTable_canon _ _ _ (HR t Et))|exact Hfn].
        + destruct (R2 (B1 Hda)) as [e Re]. rewrite Re in Hx. exists []. split; [exact Hx|]. split; [reflexivity|split; reflexivity]. }
    destruct Hnames as (t2 & Hn2 & Hlike).
    split; [|split].
    - intros short. pose proof (ls_known iter img order system2 new (op_data op2) o t2 fs' short w2 Hi Hseen Hsys Hn2 Hfs' Hin Hw) as HL1.
      assert (Emap : map (if short then shown t2 else shown_full t2) fs' = map (if short then shown t' else shown_full t') fs').
      { apply map_ext_in. intros g Hg. destruct short; unfold shown, shown_full; rewrite (like_symbol _ _ g Hlike); reflexivity. }
      rewrite Emap in HL1. exact HL1.
    - intros n g Hg Hgf. apply (proj1 Hfs') in Hgf as [_ Hgf]. apply (dump_nakedos iter img order system2 new (op_data op2) o t2 n g w2 Hi Hseen Hsys Hn2 Hin); [apply (like_resolves _ _ n g Hlike); exact Hg|exact Hgf|exact Hw].
    - intros n Hno. destruct (FileForName_spec t2 n) as [(g & _ & Hg & Lg)|[_ Hg]].
      + apply (dump_nakedos iter img order system2 new (op_data op2) o t2 n g w2 Hi Hseen Hsys Hn2 Hin). right. split; [exact Hg|].
        destruct (file_on (op_data op2) g) as [|b l] eqn:Ef; [reflexivity|]. exfalso. apply (Hno g); [apply (like_resolves _ _ n g Hlike); exact Hg|].
        apply (proj1 Hfs'). split; [exact Lg|]. rewrite Ef. discriminate.
      + apply (dump_nakedos iter img order system2 new (op_data op2) o t2 n 0 w2 Hi Hseen Hsys Hn2 Hin). left. exact Hg.
  Qed.
End AfterRm.
