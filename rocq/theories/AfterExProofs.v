(** AfterExProofs.v -- concrete disks for C90 and C91. *)
From Coq Require Import ZifyBool ZifyNat.
From Verif Require Import GoBase GoLemmas TypesModel DiskModel DiskSpec DiskProofs DiskOpenProofs.
From Verif Require Import SupermonModel SupermonSpec SupermonTableSpec SupermonStoreSpec SupermonProofs SupermonSymProofs SupermonTabProofs SupermonLinkProofs SupermonOpProofs SupermonNameProofs SupermonFinalProofs SupermonNamedProofs SupermonStmtProofs SupermonRewriteProofs SupermonReadableProofs.
From Verif Require ProdosSpec.
From Verif Require Import ProdosModel CmdModel CmdSpec CmdProofs CmdStmtProofs NakedCmdSpec NakedCmdProofs NakedOpenProofs NakedNameProofs NakedExProofs DetectSpec DetectProofs PrintProofs ListSpec ListProofs OpenFuelProofs AfterProofs AfterRmProofs ReorderProofs.
Ltac Zify.zify_post_hook ::= Z.div_mod_to_equations.
Local Opaque zrange zeros sub.

(** ** Disks stay made of bytes *)
Definition addrs_ok (t : list Symbol) : Prop := Forall (fun s => is_u16 (s_addr s)) t.
Lemma addrs_pointwise (t t' : list Symbol) : zlen t' = zlen t -> (forall j, 0 <= j < zlen t -> is_u16 (ad t' j)) -> addrs_ok t'.
Proof.
  intros HL H. apply Forall_forall. intros s Hs. apply (In_znth sym0) in Hs as (j & Hj & <-). apply (H j). lia.
Qed.
Lemma changed_addrs t t' p a n : changed_at t t' p a n -> is_u16 a -> addrs_ok t -> addrs_ok t'.
Proof.
  intros (HL & Hp & Pa & _ & Hq) Ha Ht. apply (addrs_pointwise t t' HL). intros j Hj. destruct (Z.eq_dec j p) as [->|Hne]; [rewrite Pa; exact Ha|].
  rewrite (proj1 (Hq j ltac:(lia) Hne)). apply (Forall_znth _ sym0 t j Ht Hj).
Qed.
Lemma PutFile_bytes i ow o o' ex : op_ok o -> bytes_ok (op_data o) -> (forall t, op_ST o = Some t -> addrs_ok t) ->
  fi_data i <> [] -> bytes_ok (fi_data i) -> PutFile i ow o = (o', Ok ex) -> bytes_ok (op_data o').
Proof.
  intros Hok Hb Ht Hne Hbi HP. destruct (PutFile_success i ow o o' ex Hok Hne HP) as (nf & mf & sy & num & d1 & sm1 & EF & Enum & Hln & Hsy & _).
  unfold PutFile in HP.
  destruct (negb (d_type (fi_desc_ i) =? FiletypeBinary)); [discriminate|].
  destruct (negb (d_length (fi_desc_ i) =? zlen (fi_data i))); [discriminate|].
  rewrite EF in HP.
  destruct (if beq sy [] then Ok tt else match op_ST o with
             | None => Err (EOther "cannot use symbolic names on disks without valid symbol tables")
             | Some _ => _ <- encodeSymbol sy ;; Ok tt end) as [u|e|] eqn:EC; [|discriminate|discriminate].
  cbv zeta in HP. rewrite <- Enum in HP. destruct (num =? 0); [discriminate|].
  unfold sbind in HP. unfold on_disk at 1 in HP.
  destruct (WriteFile num (fi_data i) ow (op_data o, op_SM o)) as [[d2 sm2] r2] eqn:EW. destruct r2 as [x2|e|]; [|discriminate|discriminate].
  destruct (WriteFile_bytes _ _ _ _ _ _ _ _ (ok_fl _ Hok) Hln Hne Hb Hbi EW) as [Fl2 B2].
  destruct (negb (mf =? num) && negb (beq sy [])) eqn:Es.
  - assert (sy <> []) as Hsn by (apply beq_neq; destruct (beq sy []); [rewrite andb_false_r in Es; discriminate | reflexivity]).
    destruct (Hsy Hsn) as (t & six & Et & _). rewrite Et in HP. change (st_of (Op d2 sm2 (Some t))) with t in HP.
    destruct (AddSymbol t sy (u16 (0xDF00 + num))) as [t1 r1] eqn:EA. destruct r1 as [[]|e|]; [|discriminate|discriminate].
    unfold on_disk in HP. cbn [op_data op_SM op_ST] in HP.
    destruct (WriteSymbolTable t1 (d2, sm2)) as [[d3 sm3] r3] eqn:E3. destruct r3 as [[]|e|]; [|discriminate|discriminate].
    cbn [sret] in HP. injection HP as <- <-. cbn [op_data].
    assert (L1 : zlen t1 = 819).
    { pose proof (zlen_AddSymbol t sy (u16 (0xDF00 + num))) as HL. rewrite EA in HL. cbn [fst] in HL. rewrite HL. apply (ok_st _ Hok t Et). }
    apply (WriteSymbolTable_bytes t1 d2 sm2 d3 sm3 Fl2 L1); [|exact B2|exact E3].
    destruct (AddSymbol_changed _ _ _ _ EA) as (_ & p & n' & Hch & _). apply (changed_addrs t t1 p _ n' Hch); [|apply (Ht t Et)].
    unfold is_u16, u16. lia.
  - cbn [sret] in HP. injection HP as <- <-. exact B2.
Qed.
Lemma Delete_bytes n o o' ex : op_ok o -> bytes_ok (op_data o) -> (forall t, op_ST o = Some t -> addrs_ok t) ->
  Delete n o = (o', Ok ex) -> bytes_ok (op_data o').
Proof.
  intros Hok Hb Ht E.
  assert (Hbm : bytes_ok (op_SM o)) by (rewrite <- (fl_map _ _ (ok_fl _ Hok)); apply bytes_ok_sub; exact Hb). unfold Delete in E.
  destruct (FileForName_spec (st_of o) n) as [(f & EF & Hr & Hf)|[EF _]]; rewrite EF in E; [|discriminate].
  cbv zeta in E. pose proof (ok_fl _ Hok) as Hfl. destruct (Delete_disk (op_data o) (op_SM o) f Hfl Hf) as (EP & Fl & _). rewrite EP in E.
  assert (Hb1 : bytes_ok (upd (op_data o) 2512 (SMDelete (op_SM o) f))).
  { apply bytes_ok_upd; [exact Hb|]. unfold SMDelete. apply Forall_forall. intros x Hx. apply in_map_iff in Hx as (y & Ey & Hy).
    unfold bytes_ok in Hbm. rewrite Forall_forall in Hbm. specialize (Hbm y Hy). subst x. destruct (y =? f); [unfold is_byte, FileFree; lia|exact Hbm]. }
  destruct (op_ST o) as [t|] eqn:Et; [|injection E as <- <-; exact Hb1].
  pose proof (DeleteSymbol_spec t n) as DS. destruct (find_name t n 0) as [k|].
  - destruct DS as (t1 & ED & Hch & _). rewrite ED in E. unfold sbind, on_disk in E. cbn [op_data op_SM op_ST] in E.
    destruct (WriteSymbolTable t1 _) as [[d2 sm2] r2] eqn:E2. destruct r2 as [[]|e|]; [|discriminate|discriminate].
    cbn [sret] in E. injection E as <- <-. cbn [op_data].
    refine (WriteSymbolTable_bytes t1 _ _ d2 sm2 Fl _ _ Hb1 E2); [rewrite (proj1 Hch); apply (ok_st _ Hok t Et)|].
    apply (changed_addrs t t1 k _ _ Hch); [unfold is_u16; lia|apply (Ht t eq_refl)].
  - rewrite DS in E. injection E as <- <-. exact Hb1.
Qed.

Lemma read_addrs (d sm : bytes) t : zlen d = 143360 -> bytes_ok d -> ReadSymbolTable sm d = Ok t -> addrs_ok t.
Proof.
  intros Hd Hb E. destruct (ReadSymbolTable_read_ok _ _ _ Hd Hb E) as (_ & _ & H). eapply Forall_impl; [|exact H]. intros s (Hs & _). exact Hs.
Qed.
Lemma opened_addrs (d : bytes) op : zlen d = 143360 -> bytes_ok d -> NewOperator d = Ok op -> forall t, op_ST op = Some t -> addrs_ok t.
Proof.
  intros Hd Hb E t Ht. destruct (NewOperator_ok _ _ Hd E) as (_ & _ & _ & H3). rewrite Ht in H3. unfold opened_table in H3.
  destruct (ReadSymbolTable (stored_map d) d) as [t'|e|] eqn:ER; [|discriminate|discriminate]. injection H3 as <-.
  apply (read_addrs _ _ _ Hd Hb ER).
Qed.

(** ** Disks with a table and the files 5 and 6 *)
(** File 5 is track 17 sector 0, file 6 the sector after it; the other sectors are free. *)
Definition six_map : bytes := zset five_map 273 6.
Lemma six_floppy : floppy (map_disk six_map) six_map.
Proof. apply map_disk_floppy; [reflexivity|vm_compute; reflexivity]. Qed.
Lemma six_owned : owned six_map 5 = [272] /\ owned six_map 6 = [273] /\ owned six_map 1 = [] /\ owned six_map 3 = [] /\ owned six_map 4 = [] /\ zlen (owned six_map FREE) = 546.
Proof. repeat split; vm_compute; reflexivity. Qed.
Lemma six_bytes : bytes_ok (map_disk six_map).
Proof.
  unfold map_disk. apply bytes_ok_upd; [apply bytes_ok_zeros|].
  assert (E : forallb (fun x => (0 <=? x) && (x <? 256)) six_map = true) by (vm_compute; reflexivity).
  apply Forall_forall. intros x Hx. rewrite forallb_forall in E. specialize (E x Hx). unfold is_byte. lia.
Qed.
Lemma six_content : content (map_disk six_map) six_map 5 = zeros 256.
Proof.
  destruct six_owned as [E _]. unfold content. rewrite E. cbn [flat_map]. rewrite app_nil_r, <- sector_sec. apply map_disk_sector. reflexivity.
Qed.
Lemma six_disk t : table_ok t -> map canon t = t -> exists d sm,
  floppy d sm /\ ReadSymbolTable sm d = Ok t /\ bytes_ok d /\ owned sm 5 = [272] /\ content d sm 5 = zeros 256 /\ owned sm 6 = [273] /\ owned sm 1 = [] /\
  zlen (owned sm 3) = 16 /\ zlen (owned sm 4) = 16 /\ zlen (owned sm FREE) = 514.
Proof.
  intros T1 T4. destruct six_owned as (F5 & F6 & F1 & F3 & F4 & F0).
  destruct (WriteSymbolTable_ok t _ six_map six_floppy T1) as (d & sm & EW & Hf & HR & Hoth & Ho3 & Ho4 & H5).
  { rewrite F0, F3, (@zlen_nil Z). lia. }
  { rewrite F0, F3, F4, (@zlen_nil Z). lia. }
  rewrite F0, F3, F4, (@zlen_nil Z) in H5.
  destruct (Hoth 5 ltac:(lia) ltac:(lia) ltac:(unfold legal; lia)) as [O5 C5]. destruct (Hoth 6 ltac:(lia) ltac:(lia) ltac:(unfold legal; lia)) as [O6 _].
  destruct (Hoth 1 ltac:(lia) ltac:(lia) ltac:(unfold legal; lia)) as [O1 _].
  rewrite F5 in O5. rewrite F6 in O6. rewrite F1 in O1. rewrite six_content in C5. rewrite T4 in HR.
  assert (Hbd : bytes_ok d).
  { apply (WriteSymbolTable_bytes t _ six_map d sm six_floppy (proj1 T1)); [|exact six_bytes|exact EW].
    destruct T1 as (_ & Hs & _). eapply Forall_impl; [|exact Hs]. intros s (H & _). exact H. }
  exists d, sm. split; [exact Hf|]. split; [exact HR|]. split; [exact Hbd|]. split; [exact O5|]. split; [exact C5|]. split; [exact O6|].
  split; [exact O1|]. split; [exact Ho3|]. split; [exact Ho4|]. lia.
Qed.

(** ** Tables *)
Definition four (a b c e : Symbol) : list Symbol := a :: b :: c :: e :: repeat sym0 815.
Lemma four_len a b c e : zlen (four a b c e) = 819.
Proof. reflexivity. Qed.
Lemma four_nth a b c e i : 0 <= i -> znth sym0 (four a b c e) i =
  if i =? 0 then a else if i =? 1 then b else if i =? 2 then c else if i =? 3 then e else sym0.
Proof.
  intros Hi. unfold four. destruct (Z.eqb_spec i 0) as [->|]; [reflexivity|]. destruct (Z.eqb_spec i 1) as [->|]; [reflexivity|].
  destruct (Z.eqb_spec i 2) as [->|]; [reflexivity|]. destruct (Z.eqb_spec i 3) as [->|]; [reflexivity|].
  replace i with ((i - 4) + 1 + 1 + 1 + 1) by lia. rewrite !znth_cons_S by lia. apply znth_repeat.
Qed.
(** GAME is the first entry; EXTRA, linked to it, comes after an unused entry, or right after it. *)
Definition loss_table : list Symbol :=
  four (Sym 0xDF06 (s2b "GAME") (-1)) sym0 (Sym 0xDF86 (s2b "EXTRA") 0) (Sym 0xDF03 (s2b "FSYMTBL1") (-1)).
Definition keep_table : list Symbol :=
  four (Sym 0xDF06 (s2b "GAME") (-1)) (Sym 0xDF86 (s2b "EXTRA") 0) sym0 (Sym 0xDF03 (s2b "FSYMTBL1") (-1)).
Ltac cases4 i := destruct (Z.eqb_spec i 0); [|destruct (Z.eqb_spec i 1); [|destruct (Z.eqb_spec i 2); [|destruct (Z.eqb_spec i 3)]]].
Lemma loss_ok : table_ok loss_table /\ map canon loss_table = loss_table /\ map_table loss_table /\ chained loss_table /\ damaging loss_table 0.
Proof.
  unfold loss_table. split; [|split; [vm_compute; reflexivity|split; [|split]]].
  - split; [apply four_len|]. split.
    + unfold four. do 4 (constructor; [split; [unfold is_u16; cbn; lia|]; split; [apply valid_check; reflexivity | cbn; lia]|]). apply repeat_ok.
    + intros i Hi. rewrite four_len in Hi. unfold link_ok. rewrite four_len, four_nth by lia. cases4 i; cbn [s_link s_addr sym0]; try lia.
      intros _ _. rewrite four_nth by lia. cbn [Z.eqb s_addr]. split; [lia|]. split; [lia|reflexivity].
  - split.
    + intros i j Hi Hj. rewrite four_len in Hi, Hj. unfold nm. rewrite !four_nth by lia.
      cases4 i; (cases4 j); cbn [s_name sym0]; intros H1 H2; first [congruence | contradiction (H1 eq_refl) | vm_compute in H2; discriminate].
    + intros i Hi. rewrite four_len in Hi. unfold ad, nm. rewrite !four_nth by lia. cases4 i; cbn [s_name s_addr sym0]; first [lia|reflexivity].
  - split; [|split; [|split]].
    + intros i Hi. rewrite four_len in Hi. unfold ad, lk. rewrite !four_nth with (i := i) by lia. cases4 i; cbn [s_link s_addr sym0]; try lia.
      intros _ _. rewrite four_nth by lia. cbn. lia.
    + intros j Hj. rewrite four_len in Hj. unfold ad, lk. rewrite !four_nth by lia. cases4 j; cbn [s_link s_addr sym0]; lia.
    + intros j k Hj Hk. rewrite four_len in Hj, Hk. unfold ad, lk. rewrite !four_nth by lia. cases4 j; (cases4 k); cbn [s_link s_addr sym0]; lia.
    + intros j k Hj Hk. rewrite four_len in Hj, Hk. unfold ad, lk. rewrite !four_nth by lia. cases4 j; (cases4 k); cbn [s_link s_addr sym0]; lia.
  - split; [vm_compute; discriminate|]. exists 2. rewrite four_len. split; [lia|]. split; [vm_compute; discriminate|]. split; [reflexivity|].
    split; [reflexivity|]. exists 1. split; [lia|reflexivity].
Qed.
Lemma keep_ok : table_ok keep_table /\ map canon keep_table = keep_table /\ map_table keep_table /\ chained keep_table /\ ~ damaging keep_table 0.
Proof.
  unfold keep_table. split; [|split; [vm_compute; reflexivity|split; [|split]]].
  - split; [apply four_len|]. split.
    + unfold four. do 4 (constructor; [split; [unfold is_u16; cbn; lia|]; split; [apply valid_check; reflexivity | cbn; lia]|]). apply repeat_ok.
    + intros i Hi. rewrite four_len in Hi. unfold link_ok. rewrite four_len, four_nth by lia. cases4 i; cbn [s_link s_addr sym0]; try lia.
      intros _ _. rewrite four_nth by lia. cbn [Z.eqb s_addr]. split; [lia|]. split; [lia|reflexivity].
  - split.
    + intros i j Hi Hj. rewrite four_len in Hi, Hj. unfold nm. rewrite !four_nth by lia.
      cases4 i; (cases4 j); cbn [s_name sym0]; intros H1 H2; first [congruence | contradiction (H1 eq_refl) | vm_compute in H2; discriminate].
    + intros i Hi. rewrite four_len in Hi. unfold ad, nm. rewrite !four_nth by lia. cases4 i; cbn [s_name s_addr sym0]; first [lia|reflexivity].
  - split; [|split; [|split]].
    + intros i Hi. rewrite four_len in Hi. unfold ad, lk. rewrite !four_nth with (i := i) by lia. cases4 i; cbn [s_link s_addr sym0]; try lia.
      intros _ _. rewrite four_nth by lia. cbn. lia.
    + intros j Hj. rewrite four_len in Hj. unfold ad, lk. rewrite !four_nth by lia. cases4 j; cbn [s_link s_addr sym0]; lia.
    + intros j k Hj Hk. rewrite four_len in Hj, Hk. unfold ad, lk. rewrite !four_nth by lia. cases4 j; (cases4 k); cbn [s_link s_addr sym0]; lia.
    + intros j k Hj Hk. rewrite four_len in Hj, Hk. unfold ad, lk. rewrite !four_nth by lia. cases4 j; (cases4 k); cbn [s_link s_addr sym0]; lia.
  - intros (_ & j & Hj & Aj & Ej & _ & k & Hk & Ak). rewrite four_len in Hj. unfold ad, lk in *. rewrite !four_nth in * by lia.
    revert Aj Ej Ak Hk. cases4 j; (cases4 k); cbn [s_link s_addr sym0]; lia.
Qed.

Section AfterEx.
  Context (iter : list (Z * Subdirectory) -> list (Z * Subdirectory)).

  Lemma rm_ok_run fuel order system force img name w c op o op' ex :
    input w img c -> img <> s2b "-" ->
    OpenImage c (image_name img) order system (DiskOperatorFactories iter fuel) = Ok (ONaked op, o) ->
    Delete name op = (op', Ok ex) -> ex || force = true -> w_room w = None -> w_outroom w = None -> can_output w img true ->
    exists w' new, run (DeleteCmd_Run iter fuel order system force img name) w = (w', Ok tt) /\
      output w w' img new /\ naked_image new o (op_data op').
  Proof.
    intros Hi Hid Ho HD Hex Hrm Hor Hco.
    destruct (naked_opened iter fuel _ _ _ _ _ _ Ho) as (_ & Hr & _ & Hd & Hre & _).
    destruct (Delete_inv _ _ _ _ (reached_ok _ Hre) HD) as [Hok2 _].
    destruct (open_run_ok iter fuel _ _ _ _ _ _ _ Hi Ho) as (w1 & Er & Hsf & Hso & _ & _ & Hw1). rewrite (Hw1 Hid) in Er.
    destruct (writeback_run c _ (op_data op) op' img Hr (fl_len _ _ (ok_fl _ Hok2))) as (new & Hn & Hrun).
    destruct (run_output_ok w img new true Hrm Hor Hco) as [w' Ew].
    assert (ER : run (DeleteCmd_Run iter fuel order system force img name) w = (w', Ok tt)).
    { unfold DeleteCmd_Run. rewrite run_pbind, Er. cbn [Op_Delete]. rewrite HD. cbn [lift_op]. rewrite run_pbind. unfold plift. cbn [run].
      replace (negb ex && negb force) with false by (destruct ex, force; first [reflexivity|discriminate Hex]). rewrite Hrun. exact Ew. }
    exists w', new. split; [exact ER|]. split; [apply run_output in Ew; exact Ew|]. apply (new_image new o op' Hok2 Hn).
  Qed.

  (** rm GAME on a disk with such a table. *)
  Lemma rm_game fuel t : table_ok t -> map canon t = t -> map_table t -> chained t -> nm t 0 = s2b "GAME" -> ad t 0 = 0xDF06 ->
    exists w w' c d new d',
      input w (s2b "x.do") c /\ bytes_ok c /\ w_outroom w = None /\ seen_as (s2b "x.do") (s2b "auto") c (s2b "nakedos") d (s2b "do") /\
      table_on d t /\ names_on d t /\ resolves t (s2b "GAME") 6 /\ file_on d 3 <> [] /\ file_on d 6 <> [] /\ (forall g, ~ numeric (s2b "GAME") g) /\
      run (DeleteCmd_Run iter fuel (s2b "auto") (s2b "auto") false (s2b "x.do") (s2b "GAME")) w = (w', Ok tt) /\
      output w w' (s2b "x.do") new /\ naked_image new (s2b "do") d' /\ seen_as (s2b "x.do") (s2b "auto") new (s2b "nakedos") d' (s2b "do").
  Proof.
    intros T1 T4 T2 T3 En0 Ea0. destruct (six_disk t T1 T4) as (d & sm & Hf & HR & Hbd & O5 & C5 & O6 & _ & O3 & O4 & _).
    destruct (do_image _ _ Hf) as [c Hc].
    assert (Hbc : bytes_ok c) by (apply (DetectProofs.reordered_bytes _ _ _ _ (reordered_back _ _ _ _ (proj1 Hc)) Hbd)).
    assert (Hrel : release_byte c <> 3).
    { rewrite <- (release_same _ _ _ _ (proj1 Hc)). rewrite (five_release d sm O5 C5). lia. }
    destruct (open_naked iter fuel c (s2b "do") _ (s2b "x.do") (s2b "auto") first_do Hc Hrel) as (op & Eo & En).
    pose proof En as En'. rewrite (NewOperator_floppy _ _ Hf) in En'. injection En' as En'.
    assert (Et : op_ST op = Some t) by (rewrite <- En'; cbn [op_ST]; unfold opened_table; rewrite HR; reflexivity).
    assert (Em : op_SM op = sm) by (rewrite <- En'; reflexivity). assert (Ed : op_data op = d) by (rewrite <- En'; reflexivity).
    destruct (NewOperator_ok d op (fl_len _ _ Hf) En) as (Hok & _).
    assert (Hnn : forall g, ~ numeric (s2b "GAME") g) by (apply not_numeric; vm_compute; reflexivity).
    assert (Hst : st_of op = t) by (unfold st_of; rewrite Et; reflexivity).
    assert (HL : zlen t = 819) by apply T1.
    assert (Hres : resolves t (s2b "GAME") 6).
    { right. split; [exact Hnn|]. split; [unfold legal; lia|]. exists 0. split; [|rewrite Ea0; reflexivity].
      split; [lia|]. split; [rewrite En0; apply equal_fold_refl|intros; lia]. }
    destruct (Delete_disk d sm 6 Hf ltac:(unfold legal; lia)) as (EP & Fl1 & _ & _ & Oth1 & _).
    destruct (C38_exact_lemma t (s2b "GAME") 0 T1 T2 T3 ltac:(discriminate) ltac:(lia) ltac:(rewrite En0; apply equal_fold_refl) _ _ Fl1) as (d2 & sm2 & EW & _).
    { destruct (Oth1 3 ltac:(lia) ltac:(unfold legal; lia)) as [-> _]. exact O3. }
    { destruct (Oth1 4 ltac:(lia) ltac:(unfold legal; lia)) as [-> _]. exact O4. }
    assert (HD : Delete (s2b "GAME") op = (Op d2 sm2 (Some (fst (DeleteSymbol t (s2b "GAME")))), Ok true)).
    { unfold Delete. rewrite Hst. assert (FileForName t (s2b "GAME") = Ok 6) as -> by (apply FileForName_resolves; exact Hres). cbv zeta.
      rewrite Ed, Em, EP, Et. destruct (delete_entry t (s2b "GAME") 0 T2 ltac:(discriminate) ltac:(lia) ltac:(rewrite En0; apply equal_fold_refl)) as (_ & _ & ES).
      destruct (DeleteSymbol t (s2b "GAME")) as [t1 b1]. cbn [fst snd] in *. subst b1. unfold sbind, on_disk. cbn [op_data op_SM op_ST]. rewrite EW.
      unfold sret. rewrite SectorsForFile_owned, zlen_map, O6. reflexivity. }
    remember (one_file (s2b "x.do") c None) as w eqn:Ew.
    assert (Hi : input w (s2b "x.do") c) by (rewrite Ew; apply one_input).
    destruct (rm_ok_run fuel (s2b "auto") (s2b "auto") false (s2b "x.do") (s2b "GAME") w c op (s2b "do") _ true Hi ltac:(discriminate) Eo HD eq_refl) as (w' & new & Er & Hout & Hnew).
    { rewrite Ew; reflexivity. } { rewrite Ew; reflexivity. } { rewrite Ew. apply one_output. reflexivity. }
    cbn [op_data] in Hnew.
    assert (Hbd2 : bytes_ok d2).
    { apply (Delete_bytes (s2b "GAME") op _ true Hok) in HD; [exact HD|rewrite Ed; exact Hbd|apply (opened_addrs d op (fl_len _ _ Hf) Hbd En)]. }
    assert (Hbn : bytes_ok new) by (apply (DetectProofs.reordered_bytes _ _ _ _ (reordered_back _ _ _ _ (proj1 Hnew)) Hbd2)).
    assert (Hrel2 : release_byte new <> 3).
    { rewrite <- (release_same _ _ _ _ (proj1 Hnew)).
      destruct (WriteSymbolTable_any (fst (DeleteSymbol t (s2b "GAME"))) _ _ Fl1 ltac:(rewrite zlen_DeleteSymbol; lia)) as (d3 & sm3 & r3 & E3 & _ & _ & Oth2 & _).
      rewrite EW in E3. injection E3 as <- <- <-.
      destruct (Oth2 5 ltac:(lia) ltac:(lia) ltac:(unfold legal; lia)) as [P5 Q5]. destruct (Oth1 5 ltac:(lia) ltac:(unfold legal; lia)) as [P6 Q6].
      rewrite P6, O5 in P5. rewrite Q6, C5 in Q5. rewrite (five_release _ _ P5 Q5). lia. }
    assert (Hno : forall g l, owned sm g = l -> l <> [] -> file_on d g <> []).
    { intros g l Hg Hl E. unfold file_on in E. rewrite (fl_map _ _ Hf) in E. apply (content_nil_iff d sm g (fl_len _ _ Hf)) in E. congruence. }
    exists w, w', c, d, new, d2. split; [exact Hi|]. split; [exact Hbc|]. split; [rewrite Ew; reflexivity|].
    split; [apply (still_seen _ _ _ _ _ first_do Hc Hrel Hbc)|]. split; [exists op; split; assumption|]. split; [exists op; split; assumption|].
    split; [exact Hres|]. split; [apply (Hno 3 _ eq_refl); intros E; rewrite E in O3; discriminate O3|]. split; [apply (Hno 6 [273]); [exact O6|discriminate]|].
    split; [exact Hnn|]. split; [exact Er|]. split; [exact Hout|].
    split; [exact Hnew|]. apply (still_seen _ _ _ _ _ first_do Hnew Hrel2 Hbn).
  Qed.

  Lemma input_fun w img c c' : img <> s2b "-" -> input w img c -> input w img c' -> c = c'.
  Proof. intros N [[E _]|[_ [wr H]]] [[E' _]|[_ [wr' H']]]; try contradiction. congruence. Qed.
  Lemma output_fun w w' img c c' : img <> s2b "-" -> output w w' img c -> output w w' img c' -> c = c'.
  Proof. intros N [[E _]|(_ & _ & (r & wr & H) & _)] [[E' _]|(_ & _ & (r' & wr' & H') & _)]; try contradiction. congruence. Qed.
  Lemma printed_len f : zlen (printed f) = 4.
  Proof. reflexivity. Qed.

  (** rm GAME keeps the other names, or loses all of them. *)
  Lemma rm_game_ls fuel t t' : ProdosSpec.an_order iter -> table_ok t -> map canon t = t -> map_table t -> chained t -> nm t 0 = s2b "GAME" -> ad t 0 = 0xDF06 ->
    symbol_for t 3 = Some (s2b "FSYMTBL1") -> ((~ damaging t 0 /\ t' = t) \/ (damaging t 0 /\ t' = [])) ->
    exists w w' new, w_outroom w = None /\
      run (DeleteCmd_Run iter fuel (s2b "auto") (s2b "auto") false (s2b "x.do") (s2b "GAME")) w = (w', Ok tt) /\
      output w w' (s2b "x.do") new /\
      eventually (fun k => shows_line (LsCmd_Run iter k (s2b "auto") (s2b "auto") true (s2b "x.do") []) w (s2b "FSYMTBL1")) /\
      forall w2, input w2 (s2b "x.do") new -> w_outroom w2 = None ->
        eventually (fun k => exists fs text, all_lines (map (shown t') fs) text /\ In 3 fs /\
          prints (LsCmd_Run iter k (s2b "auto") (s2b "auto") true (s2b "x.do") []) w2 text).
  Proof.
    intros Hi T1 T4 T2 T3 En0 Ea0 S3 Ht'.
    destruct (rm_game fuel t T1 T4 T2 T3 En0 Ea0) as (w & w' & c & d & new & d2 & Hin & Hbc & Hw & Hseen & _ & Hnm & Hres & H3 & H6 & Hnn & Hrun & Hout & Hnew & Hseen2).
    destruct (rm_ls iter fuel _ _ _ _ _ _ _ Hrun) as (c' & o & d' & t0 & d'' & new' & f & Hc' & Hn' & Honly & Hnm' & Hout' & Hnew' & Hf & Hres' & Hx).
    assert (N : s2b "x.do" <> s2b "-") by discriminate.
    pose proof (input_fun _ _ _ _ N Hin Hc') as <-. pose proof (output_fun _ _ _ _ _ N Hout Hout') as <-.
    destruct (Honly Hi _ _ _ Hseen (or_introl eq_refl)) as (_ & <- & <-).
    pose proof (names_det _ _ _ Hnm Hnm') as <-. pose proof (resolves_det _ _ _ _ Hres Hres') as <-.
    pose proof (reordered_fun _ _ _ _ _ (proj1 Hnew) (proj1 Hnew')) as <-.
    destruct (Hx ltac:(lia) ltac:(lia)) as (fs & fs' & Hfs & Hfs' & Hin' & Hls).
    assert (I3 : In 3 fs) by (apply (proj1 Hfs); split; [unfold legal; lia|exact H3]).
    exists w, w', new. split; [exact Hw|]. split; [exact Hrun|]. split; [exact Hout|]. split.
    { eapply eventually_impl; [|exact (ls_known iter _ _ (s2b "auto") c d _ t fs true w Hi Hseen (or_introl eq_refl) Hnm Hfs Hin Hw)].
      intros k (text & Hl & Hp). exists (map (shown t) fs), text. split; [exact Hl|]. split; [|exact Hp].
      apply in_map_iff. exists 3. split; [|exact I3]. unfold shown. rewrite S3. reflexivity. }
    intros w2 Hi2 Hw2.
    assert (Hcond : bytes_ok c /\ (forall g, ~ numeric (s2b "GAME") g) /\ s2b "GAME" <> [] /\ names_unique t /\ chained t /\
                       exists i, 0 <= i < zlen t /\ equal_fold (s2b "GAME") (nm t i) = true /\
                         ((~ damaging t i /\ t' = t) \/ (damaging t i /\ t' = []))).
    { split; [exact Hbc|]. split; [exact Hnn|]. split; [discriminate|]. split; [apply T2|]. split; [exact T3|].
      exists 0. split; [rewrite (proj1 T1); lia|]. split; [rewrite En0; apply equal_fold_refl|exact Ht']. }
    eapply eventually_impl; [|exact (Hls t' (or_intror Hcond) (s2b "auto") true w2 (or_introl eq_refl) Hi Hseen2 Hi2 Hw2)].
    intros k [(text & Hl & Hp) _]. exists fs', text. split; [exact Hl|]. split; [|exact Hp]. apply Hin'. split; [exact I3|lia].
  Qed.

  Lemma rm_loses fuel : ProdosSpec.an_order iter ->
    exists w w' new, w_outroom w = None /\
      run (DeleteCmd_Run iter fuel (s2b "auto") (s2b "auto") false (s2b "x.do") (s2b "GAME")) w = (w', Ok tt) /\
      output w w' (s2b "x.do") new /\
      eventually (fun k => shows_line (LsCmd_Run iter k (s2b "auto") (s2b "auto") true (s2b "x.do") []) w (s2b "FSYMTBL1")) /\
      forall w2, input w2 (s2b "x.do") new -> w_outroom w2 = None ->
        eventually (fun k => exists names text, all_lines names text /\ In (s2b "DF03") names /\ ~ In (s2b "FSYMTBL1") names /\
          prints (LsCmd_Run iter k (s2b "auto") (s2b "auto") true (s2b "x.do") []) w2 text).
  Proof.
    intros Hi. destruct loss_ok as (T1 & T4 & T2 & T3 & TD).
    destruct (rm_game_ls fuel loss_table [] Hi T1 T4 T2 T3 eq_refl eq_refl ltac:(vm_compute; reflexivity) (or_intror (conj TD eq_refl)))
      as (w & w' & new & H1 & H2 & H3 & H4 & H5).
    exists w, w', new. split; [exact H1|]. split; [exact H2|]. split; [exact H3|]. split; [exact H4|]. intros w2 Hi2 Hw2.
    eapply eventually_impl; [|exact (H5 w2 Hi2 Hw2)]. intros k (fs & text & Hl & I3 & Hp). exists (map (shown []) fs), text.
    split; [exact Hl|]. split; [apply in_map_iff; exists 3; split; [reflexivity|exact I3]|]. split; [|exact Hp].
    intros Hin. apply in_map_iff in Hin as (g & Eg & _). apply (f_equal (@zlen Z)) in Eg. change (shown [] g) with (printed g) in Eg.
    rewrite printed_len in Eg. discriminate Eg.
  Qed.
  Lemma rm_keeps fuel : ProdosSpec.an_order iter ->
    exists w w' new, w_outroom w = None /\
      run (DeleteCmd_Run iter fuel (s2b "auto") (s2b "auto") false (s2b "x.do") (s2b "GAME")) w = (w', Ok tt) /\
      output w w' (s2b "x.do") new /\
      forall w2, input w2 (s2b "x.do") new -> w_outroom w2 = None ->
        eventually (fun k => shows_line (LsCmd_Run iter k (s2b "auto") (s2b "auto") true (s2b "x.do") []) w2 (s2b "FSYMTBL1")).
  Proof.
    intros Hi. destruct keep_ok as (T1 & T4 & T2 & T3 & TD).
    destruct (rm_game_ls fuel keep_table keep_table Hi T1 T4 T2 T3 eq_refl eq_refl ltac:(vm_compute; reflexivity) (or_introl (conj TD eq_refl)))
      as (w & w' & new & H1 & H2 & H3 & H4 & H5).
    exists w, w', new. split; [exact H1|]. split; [exact H2|]. split; [exact H3|]. intros w2 Hi2 Hw2.
    eapply eventually_impl; [|exact (H5 w2 Hi2 Hw2)]. intros k (fs & text & Hl & I3 & Hp). exists (map (shown keep_table) fs), text.
    split; [exact Hl|]. split; [apply in_map_iff; exists 3; split; [vm_compute; reflexivity|exact I3]|exact Hp].
  Qed.

  (** put NEWFILE on a disk with such a table. *)
  Lemma put_new fuel t : table_ok t -> map canon t = t -> map_table t -> live_links t -> ByName t (s2b "NEWFILE") = 0 -> unused t <> 0 ->
    exists w w' c d new d',
      input w (s2b "f") (repeat 7 300) /\ input w (s2b "x.do") c /\ bytes_ok c /\ w_outroom w = None /\
      seen_as (s2b "x.do") (s2b "auto") c (s2b "nakedos") d (s2b "do") /\ table_on d t /\ names_on d t /\ file_on d 1 = [] /\
      run (PutCmd_Run iter fuel (s2b "auto") (s2b "auto") (s2b "B") false 0 (s2b "x.do") (s2b "NEWFILE") (s2b "f")) w = (w', Ok tt) /\
      output w w' (s2b "x.do") new /\ naked_image new (s2b "do") d' /\ seen_as (s2b "x.do") (s2b "auto") new (s2b "nakedos") d' (s2b "do").
  Proof.
    intros T1 T4 T2 T3 HB HU. destruct (six_disk t T1 T4) as (d & sm & Hf & HR & Hbd & O5 & C5 & O6 & O1 & O3 & O4 & HF).
    destruct (do_image _ _ Hf) as [c Hc].
    assert (Hbc : bytes_ok c) by (apply (DetectProofs.reordered_bytes _ _ _ _ (reordered_back _ _ _ _ (proj1 Hc)) Hbd)).
    assert (Hrel : release_byte c <> 3).
    { rewrite <- (release_same _ _ _ _ (proj1 Hc)). rewrite (five_release d sm O5 C5). lia. }
    destruct (open_naked iter fuel c (s2b "do") _ (s2b "x.do") (s2b "auto") first_do Hc Hrel) as (op & Eo & En).
    pose proof En as En'. rewrite (NewOperator_floppy _ _ Hf) in En'. injection En' as En'.
    assert (Et : op_ST op = Some t) by (rewrite <- En'; cbn [op_ST]; unfold opened_table; rewrite HR; reflexivity).
    assert (Em : op_SM op = sm) by (rewrite <- En'; reflexivity). assert (Ed : op_data op = d) by (rewrite <- En'; reflexivity).
    destruct (NewOperator_ok d op (fl_len _ _ Hf) En) as (Hok & _).
    assert (Hv : valid_name (s2b "NEWFILE")) by (apply valid_check; reflexivity).
    assert (Hnn : forall g, ~ numeric (s2b "NEWFILE") g) by (apply not_numeric; vm_compute; reflexivity).
    assert (Hst : st_of op = t) by (unfold st_of; rewrite Et; reflexivity).
    remember (repeat 7 300) as s eqn:Es.
    assert (Hne : s <> []) by (rewrite Es; discriminate).
    assert (Hns : nsec s = 2) by (rewrite Es; vm_compute; reflexivity).
    destruct (C44_succeeds_lemma d op t (FI (Desc (s2b "NEWFILE") [] 0 0 (zlen s) false FiletypeBinary) s 0) false (fl_len _ _ Hf) En Et T2) as [op' EP].
    { intros j Hj. destruct T1 as (_ & Hs & _). apply (Forall_znth _ sym0 t j Hs Hj). }
    { reflexivity. } { reflexivity. } { exact Hne. } { discriminate. } { exact Hv. } { exact Hnn. } { exact HB. } { exact HU. }
    { cbn [fi_data]. rewrite Hns, Em. lia. }
    { exists 1. split; [unfold legal; lia|]. rewrite Em. exact O1. }
    remember (FI (Desc (s2b "NEWFILE") [] 0 0 (zlen s) false FiletypeBinary) s 0) as i eqn:Ei.
    assert (Hnei : fi_data i <> []) by (rewrite Ei; exact Hne).
    assert (Hbi : bytes_ok (fi_data i)).
    { rewrite Ei. cbn [fi_data]. rewrite Es. apply Forall_forall. intros x Hx. apply repeat_spec in Hx. subst x. unfold is_byte. lia. }
    destruct (put_owned i false op op' false Hok Hnei EP) as (f & How & Hother).
    assert (Hbd2 : bytes_ok (op_data op')).
    { apply (PutFile_bytes i false op op' false Hok); [rewrite Ed; exact Hbd|apply (opened_addrs d op (fl_len _ _ Hf) Hbd En)|exact Hnei|exact Hbi|exact EP]. }
    assert (Hf5 : f <> 5).
    { intros ->. assert (owned (op_SM op) 5 <> []) as X by (rewrite Em, O5; discriminate). discriminate (How X). }
    rewrite Ei in EP.
    remember (two_files (s2b "x.do") c (s2b "f") s) as w eqn:Ew.
    assert (Hi : input w (s2b "x.do") c) by (right; split; [discriminate|]; exists true; rewrite Ew; reflexivity).
    assert (Hif : input w (s2b "f") s) by (right; split; [discriminate|]; exists true; rewrite Ew; reflexivity).
    destruct (put_ok_run iter fuel (s2b "auto") (s2b "auto") (s2b "B") false 0 (s2b "x.do") (s2b "NEWFILE") (s2b "f") w s c op (s2b "do") op' false
      Hi ltac:(discriminate) Hif Hne Eo ltac:(vm_compute; reflexivity) EP) as (w' & new & Er & Hout & Hnew).
    { rewrite Ew; reflexivity. } { rewrite Ew; reflexivity. }
    { right. split; [discriminate|]. split; [|left; reflexivity]. right. eexists _, _. rewrite Ew. reflexivity. }
    assert (Hbn : bytes_ok new) by (apply (DetectProofs.reordered_bytes _ _ _ _ (reordered_back _ _ _ _ (proj1 Hnew)) Hbd2)).
    assert (Hrel2 : release_byte new <> 3).
    { rewrite <- (release_same _ _ _ _ (proj1 Hnew)).
      destruct (Hother 5 ltac:(unfold legal; lia) ltac:(congruence) ltac:(lia) ltac:(lia)) as [G1 G2].
      rewrite Em, O5 in G1. rewrite Ed, Em, C5 in G2. rewrite (five_release _ _ G1 G2). lia. }
    exists w, w', c, d, new, (op_data op'). split; [exact Hif|]. split; [exact Hi|]. split; [exact Hbc|]. split; [rewrite Ew; reflexivity|].
    split; [apply (still_seen _ _ _ _ _ first_do Hc Hrel Hbc)|]. split; [exists op; split; assumption|]. split; [exists op; split; assumption|].
    split; [unfold file_on; rewrite (fl_map _ _ Hf); apply (content_nil_iff d sm 1 (fl_len _ _ Hf)); exact O1|].
    split; [exact Er|]. split; [exact Hout|]. split; [exact Hnew|]. apply (still_seen _ _ _ _ _ first_do Hnew Hrel2 Hbn).
  Qed.

  Lemma put_new_ls fuel t name : ProdosSpec.an_order iter ->
    table_ok t -> map canon t = t -> map_table t -> live_links t -> ByName t (s2b "NEWFILE") = 0 -> unused t <> 0 ->
    (((forall k, 0 <= k < zlen t -> ad t k = 0xDF00 + 1 -> exists j, 0 <= j < k /\ ad t j = 0) /\ name = s2b "NEWFILE") \/
              (exists k, 0 <= k < zlen t /\ ad t k = 0xDF00 + 1 /\ (forall j, 0 <= j < k -> ad t j <> 0xDF00 + 1 /\ ad t j <> 0) /\ name = nm t k)) ->
    exists w w' c d new,
      input w (s2b "f") (repeat 7 300) /\ input w (s2b "x.do") c /\ w_outroom w = None /\
      seen_as (s2b "x.do") (s2b "auto") c (s2b "nakedos") d (s2b "do") /\ names_on d t /\ file_on d 1 = [] /\
      run (PutCmd_Run iter fuel (s2b "auto") (s2b "auto") (s2b "B") false 0 (s2b "x.do") (s2b "NEWFILE") (s2b "f")) w = (w', Ok tt) /\
      output w w' (s2b "x.do") new /\
      forall w2, input w2 (s2b "x.do") new -> w_outroom w2 = None ->
        eventually (fun k => (exists fs text, In 1 fs /\ (forall g, In g fs -> legal g) /\ all_lines (map (fun g => if g =? 1 then name else shown t g) fs) text /\
            prints (LsCmd_Run iter k (s2b "auto") (s2b "auto") true (s2b "x.do") []) w2 text) /\
          prints (DumpCmd_Run iter k (s2b "auto") (s2b "auto") (s2b "x.do") (s2b "NEWFILE")) w2 (padded (repeat 7 300))).
  Proof.
    intros Hi T1 T4 T2 T3 HB HU Hname.
    destruct (put_new fuel t T1 T4 T2 T3 HB HU) as (w & w' & c & d & new & d2 & Hif & Hin & Hbc & Hw & Hseen & Htb & Hnm & H1 & Hrun & Hout & Hnew & Hseen2).
    destruct (put_symbol_ls iter fuel _ _ _ _ _ _ _ _ _ _ _ Hrun Hif ltac:(discriminate) ltac:(discriminate) ltac:(apply valid_check; reflexivity)
      ltac:(apply not_numeric; vm_compute; reflexivity)) as (c' & o & d' & d'' & new' & Hc' & Hn' & Honly & Hout' & Hnew' & Hx).
    assert (N : s2b "x.do" <> s2b "-") by discriminate.
    pose proof (input_fun _ _ _ _ N Hin Hc') as <-. pose proof (output_fun _ _ _ _ _ N Hout Hout') as <-.
    destruct (Honly Hi _ _ _ Hseen (or_introl eq_refl)) as (_ & <- & <-).
    pose proof (reordered_fun _ _ _ _ _ (proj1 Hnew) (proj1 Hnew')) as <-.
    destruct (Hx t Hbc Htb (proj1 T2) T3 HB) as (f & fs & fs' & Hf & Hfs & Hfs' & Hnot & Hin' & Hleast & HC & Hls).
    assert (f = 1) as ->.
    { destruct (Z.eq_dec f 1) as [E|E]; [exact E|]. exfalso. assert (In 1 fs) as I1 by (apply Hleast; clear - Hf E; unfold legal in Hf; lia).
      apply (proj1 Hfs) in I1 as [_ I1]. exact (I1 H1). }
    exists w, w', c, d, new. split; [exact Hif|]. split; [exact Hin|]. split; [exact Hw|]. split; [exact Hseen|]. split; [exact Hnm|].
    split; [exact H1|]. split; [exact Hrun|]. split; [exact Hout|]. intros w2 Hi2 Hw2.
    eapply eventually_impl; [|exact (Hls name Hname (s2b "auto") true w2 (or_introl eq_refl) Hi Hseen2 Hi2 Hw2)].
    intros k [(text & Hl & Hp) Hd]. split; [|exact Hd]. exists fs', text. split; [apply Hin'; left; reflexivity|].
    split; [intros g Hg; apply (proj1 Hfs') in Hg; apply Hg|]. split; [exact Hl|exact Hp].
  Qed.

  Lemma hello_nth i : 0 <= i -> znth sym0 hello_table i =
    if i =? 0 then Sym 0xDF01 (s2b "FHELLO") (-1) else if i =? 1 then Sym 0xDF03 (s2b "FSYMTBL1") (-1)
    else if i =? 2 then Sym 0xDF04 (s2b "FSYMTBL2") (-1) else sym0.
  Proof. intros Hi. unfold hello_table. rewrite three_nth by lia. reflexivity. Qed.
  Lemma hello_map : map_table hello_table /\ live_links hello_table.
  Proof.
    assert (HL : zlen hello_table = 819) by reflexivity. split; [split|].
    - intros i j Hi Hj. rewrite HL in Hi, Hj. unfold nm. rewrite !hello_nth by lia.
      destruct (Z.eqb_spec i 0); [|destruct (Z.eqb_spec i 1); [|destruct (Z.eqb_spec i 2)]];
      (destruct (Z.eqb_spec j 0); [|destruct (Z.eqb_spec j 1); [|destruct (Z.eqb_spec j 2)]]); cbn [s_name sym0]; intros H1 H2;
      first [congruence | contradiction (H1 eq_refl) | vm_compute in H2; discriminate].
    - intros i Hi. rewrite HL in Hi. unfold ad, nm. rewrite !hello_nth by lia.
      destruct (Z.eqb_spec i 0); [|destruct (Z.eqb_spec i 1); [|destruct (Z.eqb_spec i 2)]]; cbn [s_name s_addr sym0]; first [lia|reflexivity].
    - intros i Hi. rewrite HL in Hi. unfold ad, lk. rewrite !hello_nth with (i := i) by lia.
      destruct (Z.eqb_spec i 0); [|destruct (Z.eqb_spec i 1); [|destruct (Z.eqb_spec i 2)]]; cbn [s_link s_addr sym0]; lia.
  Qed.
  Lemma hello_shown g : legal g -> g <> 1 -> shown hello_table g <> s2b "NEWFILE".
  Proof.
    intros Lg Hg E. unfold shown in E. destruct (symbol_for_cases hello_table g) as [[S _]|(i & Hi & Ea & _ & S)]; rewrite S in E.
    - apply (f_equal (@zlen Z)) in E. rewrite printed_len in E. discriminate E.
    - unfold nm in E. unfold ad in Ea. change (zlen hello_table) with 819 in Hi. rewrite hello_nth in * by lia.
      destruct (Z.eqb_spec i 0); [discriminate E|]. destruct (Z.eqb_spec i 1); [discriminate E|]. destruct (Z.eqb_spec i 2); [discriminate E|].
      discriminate E.
  Qed.
  Lemma put_stale fuel : ProdosSpec.an_order iter ->
    exists w w' new, w_outroom w = None /\
      run (PutCmd_Run iter fuel (s2b "auto") (s2b "auto") (s2b "B") false 0 (s2b "x.do") (s2b "NEWFILE") (s2b "f")) w = (w', Ok tt) /\
      output w w' (s2b "x.do") new /\
      eventually (fun k => fails_cleanly (DumpCmd_Run iter k (s2b "auto") (s2b "auto") (s2b "x.do") (s2b "FHELLO")) w) /\
      forall w2, input w2 (s2b "x.do") new -> w_outroom w2 = None ->
        eventually (fun k => (exists names text, all_lines names text /\ In (s2b "FHELLO") names /\ ~ In (s2b "NEWFILE") names /\
            prints (LsCmd_Run iter k (s2b "auto") (s2b "auto") true (s2b "x.do") []) w2 text) /\
          prints (DumpCmd_Run iter k (s2b "auto") (s2b "auto") (s2b "x.do") (s2b "NEWFILE")) w2 (padded (repeat 7 300))).
  Proof.
    intros Hi. destruct hello_table_ok as [T1 T4]. destruct hello_map as [T2 T3].
    destruct (put_new_ls fuel hello_table (s2b "FHELLO") Hi T1 T4 T2 T3 ltac:(vm_compute; reflexivity) ltac:(vm_compute; discriminate))
      as (w & w' & c & d & new & Hif & Hin & Hw & Hseen & Hnm & H1 & Hrun & Hout & Hx).
    { right. exists 0. split; [change (zlen hello_table) with 819; lia|]. split; [reflexivity|]. split; [intros; lia|reflexivity]. }
    exists w, w', new. split; [exact Hw|]. split; [exact Hrun|]. split; [exact Hout|]. split.
    { assert (Hres : resolves hello_table (s2b "FHELLO") 1) by (apply FileForName_resolves; vm_compute; reflexivity).
      apply (proj2 (dump_nakedos iter _ _ (s2b "auto") c d _ hello_table _ 1 w Hi Hseen (or_introl eq_refl) Hnm Hin)). right. split; assumption. }
    intros w2 Hi2 Hw2. eapply eventually_impl; [|exact (Hx w2 Hi2 Hw2)].
    intros k [(fs & text & I1 & Hleg & Hl & Hp) Hd]. split; [|exact Hd].
    exists (map (fun g => if g =? 1 then s2b "FHELLO" else shown hello_table g) fs), text. split; [exact Hl|].
    split; [apply in_map_iff; exists 1; split; [reflexivity|exact I1]|]. split; [|exact Hp].
    intros Hm. apply in_map_iff in Hm as (g & Eg & Ig). destruct (Z.eqb_spec g 1) as [E|E]; [discriminate Eg|].
    apply (hello_shown g (Hleg g Ig) E Eg).
  Qed.
  (** On a disk without such a symbol. *)
  Lemma put_fresh fuel : ProdosSpec.an_order iter ->
    exists w w' new, 
      run (PutCmd_Run iter fuel (s2b "auto") (s2b "auto") (s2b "B") false 0 (s2b "x.do") (s2b "NEWFILE") (s2b "f")) w = (w', Ok tt) /\
      output w w' (s2b "x.do") new /\
      forall w2, input w2 (s2b "x.do") new -> w_outroom w2 = None ->
        eventually (fun k => shows_line (LsCmd_Run iter k (s2b "auto") (s2b "auto") true (s2b "x.do") []) w2 (s2b "NEWFILE") /\
          prints (DumpCmd_Run iter k (s2b "auto") (s2b "auto") (s2b "x.do") (s2b "NEWFILE")) w2 (padded (repeat 7 300))).
  Proof.
    intros Hi. destruct ex_table_ok as (T1 & T2 & T3 & T4).
    destruct (put_new_ls fuel ex_table (s2b "NEWFILE") Hi T1 T4 T2 T3 ltac:(vm_compute; reflexivity) ltac:(vm_compute; discriminate))
      as (w & w' & c & d & new & Hif & Hin & Hw & Hseen & Hnm & H1 & Hrun & Hout & Hx).
    { left. split; [|reflexivity]. intros k Hk. change (zlen ex_table) with 819 in Hk. unfold ad, ex_table. rewrite three_nth by lia.
      destruct (Z.eqb_spec k 0); [cbn; discriminate|]. destruct (Z.eqb_spec k 1); [cbn; discriminate|]. destruct (Z.eqb_spec k 2); cbn; discriminate. }
    exists w, w', new. split; [exact Hrun|]. split; [exact Hout|].
    intros w2 Hi2 Hw2. eapply eventually_impl; [|exact (Hx w2 Hi2 Hw2)].
    intros k [(fs & text & I1 & Hleg & Hl & Hp) Hd]. split; [|exact Hd].
    exists (map (fun g => if g =? 1 then s2b "NEWFILE" else shown ex_table g) fs), text. split; [exact Hl|].
    split; [apply in_map_iff; exists 1; split; [reflexivity|exact I1]|exact Hp].
  Qed.
End AfterEx.

(** ** reorder *)
Lemma reorder_example : exists w w' c d,
  run (ReorderCmd_Run (s2b "do") (s2b "po") false (s2b "x.do") (s2b "y.po")) w = (w', Ok tt) /\ input w (s2b "x.do") c /\
  known (s2b "x.do") (s2b "do") (s2b "y.po") (s2b "po") (Some (s2b "do")) (Some (s2b "po")) /\
  chosen (Some (s2b "do")) (Some (s2b "po")) (s2b "do") (s2b "po") /\
  seen_as (s2b "x.do") (s2b "auto") c (s2b "nakedos") d (s2b "do") /\ names_on d ex_table /\
  first_order (s2b "y.po") (s2b "auto") (s2b "po").
Proof.
  destruct ex_table_ok as (T1 & _ & _ & T4). destruct (table_disk ex_table T1 T4) as (c & d & Hs & _ & Hn & _ & _ & _ & Hni & _).
  remember (one_file (s2b "x.do") c None) as w eqn:Ew.
  assert (Hi : input w (s2b "x.do") c) by (rewrite Ew; apply one_input).
  assert (Hk : other_order (s2b "do") (s2b "po")) by constructor.
  destruct (C06_lemma (s2b "do") (s2b "po") w (s2b "x.do") (s2b "y.po") false c Hk Hi) as (_ & H2 & _).
  destruct H2 as [w' Hr].
  { apply (proj1 Hni). } { rewrite Ew; reflexivity. } { rewrite Ew; reflexivity. }
  { right. split; [discriminate|]. split; [left; rewrite Ew; reflexivity|]. right. rewrite Ew. intros [H _]. apply H. reflexivity. }
  exists w, w', c, d. split; [exact Hr|]. split; [exact Hi|]. split; [apply k_flags; try (intros E; discriminate E); try (left; discriminate); intros _; reflexivity|].
  split; [constructor; exact Hk|]. split; [exact Hs|]. split; [exact Hn|].
  exists []. apply cand_auto_po. apply ext_is_dec_true; [ascii | reflexivity].
Qed.
