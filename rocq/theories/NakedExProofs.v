(** NakedExProofs.v -- concrete NakedOS disks: examples and counterexamples for the commands. *)
From Verif Require Import GoBase GoLemmas TypesModel DiskModel DiskSpec DiskProofs DiskOpenProofs.
From Verif Require Import SupermonModel SupermonSpec SupermonTableSpec SupermonStoreSpec SupermonProofs SupermonSymProofs SupermonTabProofs SupermonLinkProofs SupermonNameProofs
  SupermonOpProofs SupermonNamedProofs SupermonFinalProofs SupermonStmtProofs.
From Verif Require Import Dos3Model ProdosModel CmdModel CmdSpec CmdProofs CmdStmtProofs NakedCmdSpec NakedCmdProofs NakedOpenProofs.
From Coq Require Import ZifyBool ZifyNat.
Ltac Zify.zify_post_hook ::= Z.div_mod_to_equations.
Local Opaque zrange zeros sub.

(** A disk that is zero apart from its map. *)
Definition map_disk (sm : bytes) : bytes := upd (zeros 143360) 2512 sm.
Lemma map_disk_floppy sm : zlen sm = 560 -> Verify sm = Ok tt -> floppy (map_disk sm) sm.
Proof.
  intros HL HV. assert (HZ : zlen (zeros 143360) = 143360) by (apply zlen_zeros; lia). constructor.
  - unfold map_disk. rewrite zlen_upd by lia. exact HZ.
  - apply (proj1 (Verify_spec sm HL)). exact HV.
  - unfold stored_map, map_disk. apply sub_upd_same; lia.
Qed.
Lemma map_disk_sector sm : zlen sm = 560 -> sector (map_disk sm) 17 0 = zeros 256.
Proof.
  intros HL. assert (HZ : zlen (zeros 143360) = 143360) by (apply zlen_zeros; lia).
  apply (znth_ext 0); unfold sector, offset.
  - rewrite zlen_sub; unfold map_disk; rewrite ?zlen_upd by lia; rewrite ?HZ, ?zlen_zeros; lia.
  - intros i Hi. rewrite zlen_sub in Hi by (unfold map_disk; rewrite ?zlen_upd by lia; rewrite ?HZ; lia).
    rewrite znth_sub by lia. unfold map_disk. rewrite znth_upd by lia.
    replace ((2512 <=? 4096 * 17 + 256 * 0 + i) && (4096 * 17 + 256 * 0 + i <? 2512 + zlen sm)) with false by lia.
    rewrite !znth_zeros by lia. reflexivity.
Qed.
Lemma sector_sec d : sector d 17 0 = sec d 272.
Proof. reflexivity. Qed.

(** The image of a disk in DOS order, as the only file. *)
Lemma do_image d sm : floppy d sm -> exists c, naked_image c (s2b "do") d.
Proof.
  intros Hf. destruct (reordered_ex d (s2b "raw") (s2b "do") (fl_len _ _ Hf)) as [c Hc]; [eexists; constructor|eexists; constructor|].
  exists c. split; [apply reordered_back; exact Hc|]. rewrite (fl_map _ _ Hf). exact Hf.
Qed.
Lemma first_do : first_order (s2b "x.do") (s2b "auto") (s2b "do").
Proof. exists []. apply cand_auto_do. apply ext_is_dec_true; [ascii | reflexivity]. Qed.
Lemma one_input c room : input (one_file (s2b "x.do") c room) (s2b "x.do") c.
Proof. right. split; [discriminate|]. exists true. reflexivity. Qed.
Lemma one_output c room ow : ow = true -> can_output (one_file (s2b "x.do") c room) (s2b "x.do") ow.
Proof. intros ->. right. split; [discriminate|]. split; [right; eexists _, _; reflexivity|left; reflexivity]. Qed.

Section Ex.
  Context (iter : list (Z * Subdirectory) -> list (Z * Subdirectory)).

  (** ** rm -f *)
  Lemma ex_blank_table : opened_table ex_blank ex_map = None.
  Proof.
    unfold opened_table, ReadSymbolTable. rewrite ReadFile_spec by apply (fl_len _ _ ex_floppy).
    cbn [rbind]. destruct ex_free as [_ F]. unfold content. rewrite (F 3) by (unfold legal; lia). reflexivity.
  Qed.
  Lemma rm_f_refuted fuel : exists w img name c o d t,
    input w img c /\ naked_image c o d /\ names_on d t /\ (forall f, ~ resolves t name f) /\
    w_room w = None /\ w_outroom w = None /\ can_output w img true /\
    exists w', run (DeleteCmd_Run iter fuel (s2b "auto") (s2b "auto") true img name) w = (w', Err EFileNotFound) /\ same_files w w'.
  Proof.
    destruct (do_image _ _ ex_floppy) as [c Hc].
    assert (Hrel : release_byte c <> 3).
    { rewrite <- (release_same _ _ _ _ (proj1 Hc)). unfold release_byte. change ex_blank with (map_disk ex_map).
      rewrite map_disk_sector by reflexivity. rewrite znth_zeros; lia. }
    destruct (open_naked iter fuel c (s2b "do") ex_blank (s2b "x.do") (s2b "auto") first_do Hc Hrel) as (op & Eo & En).
    assert (Est : st_of op = []).
    { destruct (NewOperator_ok _ _ (fl_len _ _ ex_floppy) En) as (_ & _ & _ & E). unfold st_of.
      assert (Em : stored_map ex_blank = ex_map) by apply (fl_map _ _ ex_floppy). rewrite Em, ex_blank_table in E. rewrite E. reflexivity. }
    exists (one_file (s2b "x.do") c None), (s2b "x.do"), (s2b "NOSUCH"), c, (s2b "do"), ex_blank, (st_of op).
    assert (Hnr : forall f, ~ resolves (st_of op) (s2b "NOSUCH") f).
    { intros f Hf. rewrite Est in Hf. apply FileForName_resolves in Hf. vm_compute in Hf. discriminate Hf. }
    split; [apply one_input|]. split; [exact Hc|]. split; [exists op; split; [exact En|reflexivity]|]. split; [exact Hnr|].
    split; [reflexivity|]. split; [reflexivity|]. split; [apply one_output; reflexivity|].
    apply (rm_unknown iter fuel _ _ _ _ _ _ c op (s2b "do") (one_input c None) Eo Hnr).
  Qed.
  Lemma rm_f_example fuel : exists c op,
    OpenImage c (image_name (s2b "x.do")) (s2b "auto") (s2b "auto") (DiskOperatorFactories iter fuel) = Ok (ONaked op, s2b "do") /\
    numeric (s2b "DF20") 32 /\ file_on (op_data op) 32 = [] /\ st_of op = [].
  Proof.
    destruct (do_image _ _ ex_floppy) as [c Hc].
    assert (Hrel : release_byte c <> 3).
    { rewrite <- (release_same _ _ _ _ (proj1 Hc)). unfold release_byte. change ex_blank with (map_disk ex_map).
      rewrite map_disk_sector by reflexivity. rewrite znth_zeros; lia. }
    destruct (open_naked iter fuel c (s2b "do") ex_blank (s2b "x.do") (s2b "auto") first_do Hc Hrel) as (op & Eo & En).
    destruct (NewOperator_ok _ _ (fl_len _ _ ex_floppy) En) as (_ & Ed & _ & E).
    assert (Em : stored_map ex_blank = ex_map) by apply (fl_map _ _ ex_floppy).
    exists c, op. split; [exact Eo|]. split.
    { destruct (parseAddress_cases (s2b "DF20")) as [(g & Hg & Eg)|[_ Hno]]; [|vm_compute in Hno; discriminate Hno].
      change (parseAddressFilename (s2b "DF20")) with 32 in Eg. subst g. exact Hg. }
    split.
    - rewrite Ed. unfold file_on, content. rewrite Em. destruct ex_free as [_ F]. rewrite (F 32) by (unfold legal; lia). reflexivity.
    - unfold st_of. rewrite E, Em, ex_blank_table. reflexivity.
  Qed.

  (** ** put of a file that makes the disk look like DOS 3.3 *)
  (** All sectors belong to file 5, but for track 17 sector 0, which is free. *)
  Definition full_map : bytes := repeat 254 12 ++ repeat 5 260 ++ [255] ++ repeat 5 287.
  (** A file that looks like a DOS 3.3 VTOC of an empty disk. *)
  Definition vtoc_file : bytes :=
    [0; 0; 0; 3; 0; 0; 254] ++ zeros 32 ++ [122] ++ zeros 8 ++ [0; 1; 0; 0; 35; 16; 0; 1] ++ zeros 200.
  Lemma vtoc_dos3 fuel d : zlen d = 143360 -> sector d 17 0 = vtoc_file -> ReadCatalog (S fuel) d = Some (Ok ([], [])).
  Proof.
    intros Hd Hs. unfold ReadCatalog, readCatalogSectors, UnmarshalLogicalSector, VTOCTrack, VTOCSector.
    assert (Hr : ReadSector d 17 0 = Ok vtoc_file).
    { rewrite ReadSector_spec. rewrite Hd, Hs. reflexivity. }
    rewrite Hr. reflexivity.
  Qed.
  Lemma put_vtoc op : op_ok op -> op_SM op = full_map -> forall addr, exists op' ex,
    PutFile (FI (Desc (s2b "DF06") [] 0 0 (zlen vtoc_file) false FiletypeBinary) vtoc_file addr) false op = (op', Ok ex) /\
    sector (op_data op') 17 0 = vtoc_file.
  Proof.
    intros Hok Em addr.
    assert (Hn : numeric (s2b "DF06") 6).
    { destruct (parseAddress_cases (s2b "DF06")) as [(g & Hg & Eg)|[_ Hno]]; [|vm_compute in Hno; discriminate Hno].
      change (parseAddressFilename (s2b "DF06")) with 6 in Eg. subst g. exact Hg. }
    match goal with |- exists op' ex, PutFile ?i _ _ = _ /\ _ => pose proof (PutFile_numeric i false op 6 Hok Hn ltac:(discriminate) eq_refl eq_refl) as HP end.
    cbn [fi_data] in HP. rewrite HP. clear HP. unfold on_disk.
    assert (Hl6 : legal 6) by (unfold legal; lia).
    assert (Hne : vtoc_file <> []) by discriminate.
    destruct (WriteFile_cases 6 vtoc_file false (op_data op) (op_SM op) (ok_fl _ Hok) Hl6 Hne) as [(H & _)|[(_ & H & _)|(_ & _ & d' & sm' & E & Hfl & Hc & Ho & Hfr & Hoth)]].
    - exfalso. rewrite Em in H. vm_compute in H. discriminate H.
    - exfalso. apply H. rewrite Em. vm_compute. reflexivity.
    - rewrite E. eexists _, _. split; [reflexivity|]. cbn [op_data].
      assert (owned sm' 6 = [272]) as E6.
      { destruct (owned sm' 6) as [|k [|k2 l]] eqn:E6.
        - vm_compute in Ho. discriminate Ho.
        - f_equal. assert (Hk : In k (owned sm' 6)) by (rewrite E6; left; reflexivity). apply In_owned in Hk as [Hk1 Hk2].
          destruct (Z_lt_le_dec k 12) as [H12|H12].
          { pose proof (v_res _ (fl_ver _ _ Hfl) k ltac:(lia)) as Hr. unfold RESERVED in Hr. lia. }
          destruct (Z.eq_dec k 272) as [Hk|Hk]; [exact Hk|]. exfalso.
          assert (In k (owned sm' 5)) as H5.
          { destruct (Hoth 5 ltac:(lia) ltac:(unfold legal; lia)) as [-> _]. rewrite Em. apply In_owned. split; [exact Hk1|].
            unfold full_map. rewrite znth_app by lia. replace (k <? zlen (repeat 254 12)) with false by (change (zlen (repeat 254 12)) with 12; lia).
            change (zlen (repeat 254 12)) with 12. rewrite znth_app by lia. change (zlen (repeat 5 260)) with 260.
            destruct (Z.ltb_spec (k - 12) 260) as [H1|H1]; [apply GoLemmas.znth_repeat; lia|].
            rewrite znth_app by lia. change (zlen [255]) with 1. replace (k - 12 - 260 <? 1) with false by lia.
            apply GoLemmas.znth_repeat; lia. }
          apply In_owned in H5. lia.
        - exfalso. change (nsec vtoc_file) with 1 in Ho. rewrite !zlen_cons in Ho. pose proof (zlen_nonneg l). lia. }
      unfold content in Hc. rewrite E6 in Hc. cbn [flat_map] in Hc. rewrite app_nil_r in Hc. rewrite sector_sec, Hc.
      vm_compute. reflexivity.
  Qed.

  Definition two_files (a ca b cb : bytes) : world :=
    World (fun n => if beq n a then NFile ca true true else if beq n b then NFile cb true true else NMissing) (Some []) [] None None.

  Lemma put_dump_refuted fuel : exists w img tgt src s w' new,
    input w src s /\ s <> [] /\ numeric tgt 6 /\
    run (PutCmd_Run iter (S fuel) (s2b "do") (s2b "auto") (s2b "B") false 0 img tgt src) w = (w', Ok tt) /\
    output w w' img new /\ exists o d', naked_image new o d' /\ file_on d' 6 = s /\
    forall w2, input w2 img new ->
      exists w3, run (DumpCmd_Run iter (S fuel) (s2b "do") (s2b "auto") img tgt) w2 = (w3, Err (EOther "filename not found")).
  Proof.
    assert (Hfl : floppy (map_disk full_map) full_map) by (apply map_disk_floppy; [reflexivity|vm_compute; reflexivity]).
    destruct (do_image _ _ Hfl) as [c Hc].
    assert (Hrel : release_byte c <> 3).
    { rewrite <- (release_same _ _ _ _ (proj1 Hc)). unfold release_byte. rewrite map_disk_sector by reflexivity. rewrite znth_zeros; lia. }
    assert (Hfo : first_order (s2b "x.do") (s2b "do") (s2b "do")) by (exists []; constructor).
    destruct (open_naked iter (S fuel) c (s2b "do") _ (s2b "x.do") (s2b "do") Hfo Hc Hrel) as (op & Eo & En).
    destruct (NewOperator_ok _ _ (fl_len _ _ Hfl) En) as (Hok & Ed & Em & _). rewrite (fl_map _ _ Hfl) in Em.
    destruct (put_vtoc op Hok Em 0) as (op' & ex & EP & Hs).
    remember (two_files (s2b "x.do") c (s2b "f") vtoc_file) as w eqn:Ew.
    assert (Hi : input w (s2b "x.do") c) by (right; split; [discriminate|]; exists true; rewrite Ew; reflexivity).
    assert (Hf : input w (s2b "f") vtoc_file) by (right; split; [discriminate|]; exists true; rewrite Ew; reflexivity).
    destruct (put_ok_run iter (S fuel) (s2b "do") (s2b "auto") (s2b "B") false 0 (s2b "x.do") (s2b "DF06") (s2b "f") w vtoc_file c op (s2b "do") op' ex
      Hi ltac:(discriminate) Hf ltac:(discriminate) Eo ltac:(vm_compute; reflexivity) EP) as (w' & new & Er & Hout & Hnew).
    { rewrite Ew; reflexivity. } { rewrite Ew; reflexivity. }
    { right. split; [discriminate|]. split; [|left; reflexivity]. right. eexists _, _. rewrite Ew. reflexivity. }
    exists w, (s2b "x.do"), (s2b "DF06"), (s2b "f"), vtoc_file, w', new.
    split; [exact Hf|]. split; [discriminate|]. split.
    { destruct (parseAddress_cases (s2b "DF06")) as [(g & Hg & Eg)|[_ Hno]]; [|vm_compute in Hno; discriminate Hno].
      change (parseAddressFilename (s2b "DF06")) with 6 in Eg. subst g. exact Hg. }
    split; [exact Er|]. split; [exact Hout|]. exists (s2b "do"), (op_data op'). split; [exact Hnew|]. split.
    { assert (Hvn : vtoc_file <> []) by discriminate.
      match type of EP with PutFile ?i _ _ = _ =>
      destruct (put_effect i _ _ _ _ Hok Hvn EP) as (Hok2 & _ & f1 & _ & Ht & _ & _ & _ & H6) end.
      assert (Hn : numeric (s2b "DF06") 6).
      { destruct (parseAddress_cases (s2b "DF06")) as [(g & Hg & Eg)|[_ Hno]]; [|vm_compute in Hno; discriminate Hno].
        change (parseAddressFilename (s2b "DF06")) with 6 in Eg. subst g. exact Hg. }
      cbn [fi_desc_ d_name fi_data] in *.
      assert (f1 = 6) as ->.
      { destruct Ht as [Ht|(_ & Hnr & _)]; [|contradiction (Hnr 6); left; exact Hn].
        apply (target_numeric _ _ _ _ Ht Hn). }
      destruct (H6 (numeric_no_colon _ _ Hn) (or_introl Hn)) as [H7 _]. rewrite <- (content_file_on op') by exact Hok2. rewrite H7. vm_compute. reflexivity. }
    intros w2 Hi2.
    assert (Hcl : zlen new = 143360) by apply Hnew.
    assert (Hko : exists l, interleave (s2b "do") l) by (eexists; constructor).
    destruct (reordered_ex new (s2b "do") (s2b "do") Hcl Hko Hko) as [d2 Hd2].
    assert (Hs2 : sector d2 17 0 = vtoc_file).
    { rewrite (sector_zero _ _ _ _ 17 Hd2) by lia. rewrite <- (sector_zero _ _ _ _ 17 (proj1 Hnew)) by lia. exact Hs. }
    assert (Hd2l : zlen d2 = 143360) by apply Hd2.
    assert (Eo2 : OpenImage new (image_name (s2b "x.do")) (s2b "do") (s2b "auto") (DiskOperatorFactories iter (S fuel)) = Ok (ODos3 d2, s2b "do")).
    { apply (open_scan new (image_name (s2b "x.do")) (s2b "do") (s2b "auto") (DiskOperatorFactories iter (S fuel)) (DiskOperatorFactories iter (S fuel)) [s2b "do"]).
      - exact Hcl.
      - intros f Hin. apply (facs_order iter (S fuel) f Hin).
      - left. split; reflexivity.
      - constructor.
      - right. reflexivity.
      - cbn [list_prod map DiskOperatorFactories app]. eexists [], _, _. split; [reflexivity|]. split; [constructor|].
        exists d2. split; [exact Hd2|]. split; [|reflexivity]. cbn [snd f_seems dos3_factory]. unfold dos3_SeemsToMatch.
        rewrite (vtoc_dos3 fuel d2 Hd2l Hs2). reflexivity. }
    destruct (open_run_ok iter (S fuel) _ _ _ _ _ _ _ Hi2 Eo2) as (w3 & Er3 & _).
    exists w3. unfold DumpCmd_Run. rewrite run_pbind, Er3, run_pbind. unfold plift. cbn [run Op_GetFile].
    unfold Dos3Model.GetFile, fileForFilename. rewrite (vtoc_dos3 fuel d2 Hd2l Hs2). reflexivity.
  Qed.

  (** ** Examples of successful commands *)
  (** Track 17 sector 0 belongs to file 5 and is zero; the other sectors are free. *)
  Definition five_map : bytes := zset ex_map 272 5.
  Lemma five_floppy : floppy (map_disk five_map) five_map.
  Proof. apply map_disk_floppy; [reflexivity|vm_compute; reflexivity]. Qed.
  Lemma five_release d sm : owned sm 5 = [272] -> content d sm 5 = zeros 256 -> release_byte d = 0.
  Proof.
    intros Ho Hc. unfold content in Hc. rewrite Ho in Hc. cbn [flat_map] in Hc. rewrite app_nil_r in Hc.
    unfold release_byte. rewrite sector_sec, Hc. apply znth_zeros. lia.
  Qed.
  Lemma five_content : owned five_map 5 = [272] /\ content (map_disk five_map) five_map 5 = zeros 256.
  Proof.
    assert (E : owned five_map 5 = [272]) by (vm_compute; reflexivity). split; [exact E|].
    unfold content. rewrite E. cbn [flat_map]. rewrite app_nil_r, <- sector_sec. apply map_disk_sector. reflexivity.
  Qed.

  Lemma put_dump_example fuel : exists w w' new,
    input w (s2b "f") (repeat 7 300) /\ numeric (s2b "DF06") 6 /\
    run (PutCmd_Run iter fuel (s2b "auto") (s2b "auto") (s2b "B") false 0 (s2b "x.do") (s2b "DF06") (s2b "f")) w = (w', Ok tt) /\
    output w w' (s2b "x.do") new /\ first_order (s2b "x.do") (s2b "auto") (s2b "do") /\ release_byte new <> 3.
  Proof.
    destruct (do_image _ _ five_floppy) as [c Hc].
    assert (Hrel : release_byte c <> 3).
    { rewrite <- (release_same _ _ _ _ (proj1 Hc)). unfold release_byte. rewrite map_disk_sector by reflexivity. rewrite znth_zeros; lia. }
    destruct (open_naked iter fuel c (s2b "do") _ (s2b "x.do") (s2b "auto") first_do Hc Hrel) as (op & Eo & En).
    destruct (NewOperator_ok _ _ (fl_len _ _ five_floppy) En) as (Hok & Ed & Em & _). rewrite (fl_map _ _ five_floppy) in Em.
    assert (Hn : numeric (s2b "DF06") 6).
    { destruct (parseAddress_cases (s2b "DF06")) as [(g & Hg & Eg)|[_ Hno]]; [|vm_compute in Hno; discriminate Hno].
      change (parseAddressFilename (s2b "DF06")) with 6 in Eg. subst g. exact Hg. }
    remember (repeat 7 300) as s eqn:Es.
    assert (Hne : s <> []) by (rewrite Es; discriminate).
    assert (Hns : nsec s = 2) by (rewrite Es; vm_compute; reflexivity).
    assert (HP : exists op' ex, PutFile (FI (Desc (s2b "DF06") [] 0 0 (zlen s) false FiletypeBinary) s 0) false op = (op', Ok ex) /\ release_byte (op_data op') = 0).
    { match goal with |- exists op' ex, PutFile ?i _ _ = _ /\ _ => pose proof (PutFile_numeric i false op 6 Hok Hn Hne eq_refl eq_refl) as HP end.
      cbn [fi_data] in HP. rewrite HP. clear HP. unfold on_disk.
      assert (Hl6 : legal 6) by (unfold legal; lia).
      destruct (WriteFile_cases 6 s false (op_data op) (op_SM op) (ok_fl _ Hok) Hl6 Hne) as [(H & _)|[(_ & H & _)|(_ & _ & d' & sm' & E & Hfl & Hcc & Ho & Hfr & Hoth)]].
      - exfalso. rewrite Em, Hns in H. vm_compute in H. discriminate H.
      - exfalso. apply H. rewrite Em. vm_compute. reflexivity.
      - rewrite E. eexists _, _. split; [reflexivity|]. cbn [op_data].
        destruct (Hoth 5 ltac:(lia) ltac:(unfold legal; lia)) as [H5 H6]. destruct five_content as [F1 F2].
        apply (five_release d' sm'); [rewrite H5, Em; exact F1|rewrite H6, Em, Ed; exact F2]. }
    destruct HP as (op' & ex & EP & Hr').
    remember (two_files (s2b "x.do") c (s2b "f") s) as w eqn:Ew.
    assert (Hi : input w (s2b "x.do") c) by (right; split; [discriminate|]; exists true; rewrite Ew; reflexivity).
    assert (Hf : input w (s2b "f") s) by (right; split; [discriminate|]; exists true; rewrite Ew; reflexivity).
    destruct (put_ok_run iter fuel (s2b "auto") (s2b "auto") (s2b "B") false 0 (s2b "x.do") (s2b "DF06") (s2b "f") w s c op (s2b "do") op' ex
      Hi ltac:(discriminate) Hf Hne Eo ltac:(vm_compute; reflexivity) EP) as (w' & new & Er & Hout & Hnew).
    { rewrite Ew; reflexivity. } { rewrite Ew; reflexivity. }
    { right. split; [discriminate|]. split; [|left; reflexivity]. right. eexists _, _. rewrite Ew. reflexivity. }
    exists w, w', new. split; [exact Hf|]. split; [exact Hn|]. split; [exact Er|]. split; [exact Hout|]. split; [exact first_do|].
    rewrite <- (release_same _ _ _ _ (proj1 Hnew)), Hr'. lia.
  Qed.

  Definition hello_table : list Symbol :=
    Sym 0xDF01 (s2b "FHELLO") (-1) :: Sym 0xDF03 (s2b "FSYMTBL1") (-1) :: Sym 0xDF04 (s2b "FSYMTBL2") (-1) :: repeat sym0 816.
  Lemma hello_table_ok : table_ok hello_table /\ map canon hello_table = hello_table.
  Proof.
    unfold hello_table. split; [|vm_compute; reflexivity]. split; [apply three_len|]. split.
    + do 3 (constructor; [split; [unfold is_u16; cbn; lia|]; split; [apply valid_check; reflexivity | cbn; lia]|]). apply repeat_ok.
    + intros i Hi. rewrite three_len in Hi. unfold link_ok. rewrite three_len, three_nth by lia.
      destruct (Z.eqb_spec i 0); [cbn; lia|]. destruct (Z.eqb_spec i 1); [cbn; lia|].
      destruct (Z.eqb_spec i 2); cbn; lia.
  Qed.
  Lemma five_free : zlen (owned five_map FREE) = 547 /\ owned five_map 1 = [] /\ owned five_map 3 = [] /\ owned five_map 4 = [].
  Proof. split; [vm_compute; reflexivity|]. split; [vm_compute; reflexivity|]. split; vm_compute; reflexivity. Qed.

  Lemma mkhello_example fuel : exists w w',
    run (MkHelloCmd_Run iter fuel (s2b "auto") (s2b "x.do") (s2b "DF05") 0x2000 0xFFFF) w = (w', Ok tt).
  Proof.
    destruct five_free as (F0 & F1 & F3 & F4). destruct five_content as [F5 F6].
    destruct (WriteSymbolTable_ok hello_table _ five_map five_floppy (proj1 hello_table_ok)) as (d & sm & _ & Hf & HR & Hoth & _ & _ & H5).
    { rewrite F0, F3, (@zlen_nil Z). lia. }
    { rewrite F0, F3, F4, (@zlen_nil Z). lia. }
    rewrite F0, F3, F4, (@zlen_nil Z) in H5.
    destruct (Hoth 5 ltac:(lia) ltac:(lia) ltac:(unfold legal; lia)) as [O5 C5].
    destruct (Hoth 1 ltac:(lia) ltac:(lia) ltac:(unfold legal; lia)) as [O1 _].
    rewrite F5 in O5. rewrite F6 in C5. rewrite F1 in O1. rewrite (proj2 hello_table_ok) in HR.
    destruct (do_image _ _ Hf) as [c Hc].
    assert (Hrel : release_byte c <> 3).
    { rewrite <- (release_same _ _ _ _ (proj1 Hc)). rewrite (five_release d sm O5 C5). lia. }
    destruct (open_naked iter fuel c (s2b "do") _ (s2b "x.do") (s2b "auto") first_do Hc Hrel) as (op & Eo & En).
    rewrite (NewOperator_floppy _ _ Hf) in En. injection En as En.
    assert (Et : op_ST op = Some hello_table) by (rewrite <- En; cbn [op_ST]; unfold opened_table; rewrite HR; reflexivity).
    assert (Hok : op_ok op).
    { destruct (NewOperator_ok d op (fl_len _ _ Hf)) as (Hok & _); [rewrite (NewOperator_floppy _ _ Hf), En; reflexivity|exact Hok]. }
    assert (Hst : st_of op = hello_table) by (unfold st_of; rewrite Et; reflexivity).
    remember (hello_program 5 0x2000 0x2000) as prog eqn:Epr.
    assert (Hne : prog <> []) by (rewrite Epr; discriminate).
    assert (HP : exists op' ex, PutFile (FI (Desc (s2b "DF01:" ++ helloName) [] 0 0 16 false FiletypeBinary) prog 0) true op = (op', Ok ex)).
    { unfold PutFile. cbn [fi_desc_ fi_data d_type d_length d_name]. change (negb (FiletypeBinary =? FiletypeBinary)) with false. cbv iota.
      assert (zlen prog = 16) as -> by (rewrite Epr; reflexivity). cbn [Z.eqb Pos.eqb negb].
      rewrite Hst. assert (FilesForCompoundName hello_table (s2b "DF01:" ++ helloName) = Ok (1, 1, helloName)) as -> by (vm_compute; reflexivity).
      rewrite Et. assert (encodeSymbol helloName <> Panic /\ exists b, encodeSymbol helloName = Ok b) as (_ & b & ->).
      { split; [vm_compute; discriminate|eexists; vm_compute; reflexivity]. }
      change (beq helloName []) with false. cbn [rbind Z.eqb]. cbv iota. unfold sbind, on_disk.
      assert (Hl1 : legal 1) by (unfold legal; lia).
      assert (Hfr : owned (op_SM op) FREE = owned sm FREE) by (rewrite <- En; reflexivity).
      assert (H1r : owned (op_SM op) 1 = []) by (rewrite <- En; exact O1).
      destruct (WriteFile_cases 1 prog true (op_data op) (op_SM op) (ok_fl _ Hok) Hl1 Hne) as [(H & _)|[(_ & H & _)|(_ & _ & d' & sm' & E & _)]].
      - exfalso. rewrite Hfr, H1r, (@zlen_nil Z), H5 in H. assert (nsec prog = 1) by (rewrite Epr; reflexivity). lia.
      - contradiction.
      - rewrite E. eexists _, _. reflexivity. }
    destruct HP as (op' & ex & EP). rewrite Epr in EP.
    remember (one_file (s2b "x.do") c None) as w eqn:Ew.
    assert (Hi : input w (s2b "x.do") c) by (rewrite Ew; apply one_input).
    assert (HF : FilesForCompoundName (st_of op) (s2b "DF05") = Ok (5, 0, [])) by (rewrite Hst; vm_compute; reflexivity).
    destruct (mkhello_ok_run iter fuel (s2b "auto") (s2b "x.do") (s2b "DF05") 0x2000 0xFFFF w c op (s2b "do") op' ex 5 0 []
      Hi eq_refl ltac:(cbn; lia) Eo HF ltac:(lia) EP) as (w' & new & Er & _).
    { rewrite Ew; reflexivity. } { rewrite Ew; reflexivity. } { rewrite Ew. apply one_output. reflexivity. }
    exists w, w'. exact Er.
  Qed.

  (** rm of an existing file. *)
  Lemma rm_example fuel : exists w w',
    run (DeleteCmd_Run iter fuel (s2b "auto") (s2b "auto") false (s2b "x.do") (s2b "DF05")) w = (w', Ok tt).
  Proof.
    destruct (do_image _ _ five_floppy) as [c Hc].
    assert (Hrel : release_byte c <> 3).
    { rewrite <- (release_same _ _ _ _ (proj1 Hc)). unfold release_byte. rewrite map_disk_sector by reflexivity. rewrite znth_zeros; lia. }
    destruct (open_naked iter fuel c (s2b "do") _ (s2b "x.do") (s2b "auto") first_do Hc Hrel) as (op & Eo & En).
    destruct (NewOperator_ok _ _ (fl_len _ _ five_floppy) En) as (Hok & Ed & Em & Et). rewrite (fl_map _ _ five_floppy) in Em, Et.
    assert (Et2 : op_ST op = None).
    { rewrite Et. unfold opened_table, ReadSymbolTable. rewrite ReadFile_spec by apply (fl_len _ _ five_floppy).
      cbn [rbind]. destruct five_free as (_ & _ & F3 & _). unfold content. rewrite F3. reflexivity. }
    assert (HD : exists op', Delete (s2b "DF05") op = (op', Ok true)).
    { unfold Delete. assert (FileForName (st_of op) (s2b "DF05") = Ok 5) as -> by (unfold st_of; rewrite Et2; vm_compute; reflexivity).
      cbv zeta. rewrite SectorsForFile_owned, Em, (proj1 five_content).
      assert (HL : zlen (SMDelete five_map 5) = 560) by (rewrite zlen_SMDelete; reflexivity).
      rewrite Persist_ok by (rewrite ?HL, ?(fl_len _ _ (ok_fl _ Hok)); lia). cbn [op_ST]. rewrite ?Et2. eexists. reflexivity. }
    destruct HD as [op' HD].
    destruct (Delete_inv _ _ _ _ Hok HD) as [Hok2 _].
    destruct (open_run_ok iter fuel _ _ _ _ _ _ _ (one_input c None) Eo) as (w1 & Er & Hsf & _ & Hrm & Hor & Hw1).
    destruct (naked_opened iter fuel _ _ _ _ _ _ Eo) as (_ & Hr & _).
    destruct (writeback_run c _ (op_data op) op' (s2b "x.do") Hr (fl_len _ _ (ok_fl _ Hok2))) as (new & _ & Hrun).
    destruct (run_output_ok (one_file (s2b "x.do") c None) (s2b "x.do") new true eq_refl eq_refl (one_output c None true eq_refl)) as [w' Ew].
    exists (one_file (s2b "x.do") c None), w'. unfold DeleteCmd_Run. rewrite run_pbind, Er. rewrite (Hw1 ltac:(discriminate)).
    cbn [Op_Delete]. rewrite HD. cbn [lift_op]. rewrite run_pbind. unfold plift. cbn [run negb andb]. rewrite Hrun. exact Ew.
  Qed.
End Ex.
