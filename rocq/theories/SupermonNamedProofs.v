(** SupermonNamedProofs.v -- files put, fetched and deleted under symbolic names. *)
From Verif Require Import GoBase GoLemmas DiskModel TypesModel
  SupermonModel SupermonSpec SupermonTableSpec SupermonStoreSpec SupermonProofs SupermonSymProofs
  SupermonTabProofs SupermonLinkProofs SupermonNameProofs SupermonOpProofs.
From Coq Require Import ZifyBool ZifyNat Permutation.
Ltac Zify.zify_post_hook ::= Z.div_mod_to_equations.
Local Opaque zrange.

(** ** What a successful PutFile did *)
Lemma PutFile_success i ow o o' ex : op_ok o -> fi_data i <> [] -> PutFile i ow o = (o', Ok ex) ->
  exists nf mf sy num d1 sm1,
    FilesForCompoundName (st_of o) (d_name (fi_desc_ i)) = Ok (nf, mf, sy) /\
    num = (if nf =? 0 then FirstFreeFile (op_SM o) else nf) /\ legal num /\
    (sy <> [] -> exists t six, op_ST o = Some t /\ encodeSymbol sy = Ok six) /\
    floppy d1 sm1 /\ content d1 sm1 num = padded (fi_data i) /\
    (forall g, g <> num -> legal g -> owned sm1 g = owned (op_SM o) g /\ content d1 sm1 g = content (op_data o) (op_SM o) g) /\
    ex = (0 <? zlen (owned (op_SM o) num)) /\ (owned (op_SM o) num <> [] -> ow = true) /\
    (((mf = num \/ sy = []) /\ o' = Op d1 sm1 (op_ST o)) \/
     (mf <> num /\ sy <> [] /\ exists t t1 d2 sm2, op_ST o = Some t /\
        AddSymbol t sy (0xDF00 + num) = (t1, Ok tt) /\
        WriteSymbolTable t1 (d1, sm1) = ((d2, sm2), Ok tt) /\ o' = Op d2 sm2 (Some t1))).
Proof.
  intros Hok Hne HP. unfold PutFile in HP.
  destruct (negb (d_type (fi_desc_ i) =? FiletypeBinary)); [discriminate|].
  destruct (negb (d_length (fi_desc_ i) =? zlen (fi_data i))); [discriminate|].
  destruct (FilesForCompoundName (st_of o) (d_name (fi_desc_ i))) as [[[nf mf] sy]|e|] eqn:EF; [|discriminate|discriminate].
  destruct (if beq sy [] then Ok tt else match op_ST o with
             | None => Err (EOther "cannot use symbolic names on disks without valid symbol tables")
             | Some _ => _ <- encodeSymbol sy ;; Ok tt end) as [u|e|] eqn:EC; [|discriminate|discriminate].
  cbv zeta in HP. set (num := if nf =? 0 then FirstFreeFile (op_SM o) else nf) in *.
  destruct (Z.eqb_spec num 0) as [En|En]; [discriminate|].
  assert (legal num) as Hln.
  { assert (nf = 0 \/ legal nf) as Hlegal.
    { clear -EF. revert EF. generalize (d_name (fi_desc_ i)) as s. generalize (st_of o) as t. intros t s. unfold FilesForCompoundName.
      destruct (split_colon s) as [|p0 [|p1 [|p2 l]]]; [discriminate| | |discriminate].
      - destruct (parseAddress_cases s) as [(f & Hn & E)|[Hn E]]; rewrite E.
        + destruct Hn as [Hf _]. pose proof Hf as Hf'. unfold legal in Hf. replace (f =? 0) with false by lia. cbn [negb].
          intros H; inversion H; subst. right; exact Hf'.
        + cbn [Z.eqb negb]. destruct (FileForName_spec t s) as [(f & E2 & _ & Hl)|[E2 _]]; rewrite E2;
            intros H; inversion H; subst; [right; exact Hl | left; reflexivity].
      - destruct (parseAddress_cases p0) as [(f & Hn & E)|[Hn E]]; rewrite E; [|discriminate].
        destruct Hn as [Hf _]. pose proof Hf as Hf'. unfold legal in Hf. replace (f =? 0) with false by lia.
        destruct (negb (parseAddressFilename p1 =? 0)); [discriminate|].
        destruct (FileForName_spec t p1) as [(g & E2 & _ & Hl)|[E2 _]]; rewrite E2;
          intros H; inversion H; subst; right; exact Hf'. }
    unfold num in *. destruct (Z.eqb_spec nf 0); [|destruct Hlegal; [contradiction | assumption]].
    destruct (FirstFreeFile_spec (op_SM o)) as [[H _]|[H _]]; [exact H | contradiction]. }
  assert (sy <> [] -> exists t six, op_ST o = Some t /\ encodeSymbol sy = Ok six) as Hsy.
  { intros Hs. destruct (beq sy []) eqn:B; [apply beq_eq in B; contradiction|]. destruct (op_ST o) as [t|]; [|discriminate].
    destruct (encodeSymbol_total sy) as [(six & Es & _)|(e & Es)]; rewrite Es in EC; [|discriminate].
    exists t, six. auto. }
  unfold sbind in HP. unfold on_disk at 1 in HP. destruct Hok as [Hfl Hst].
  destruct (WriteFile_cases num (fi_data i) ow (op_data o) (op_SM o) Hfl Hln Hne)
    as [(_ & E)|[(_ & _ & _ & E)|(_ & How & d1 & sm1 & E & Fl & C & _ & _ & Oth)]]; rewrite E in HP; [discriminate | discriminate|].
  exists nf, mf, sy, num, d1, sm1. split; [reflexivity|]. split; [reflexivity|]. split; [exact Hln|]. split; [exact Hsy|].
  split; [exact Fl|]. split; [exact C|]. split; [exact Oth|].
  destruct (negb (mf =? num) && negb (beq sy [])) eqn:Es.
  - assert (sy <> []) as Hsn by (apply beq_neq; destruct (beq sy []); [rewrite andb_false_r in Es; discriminate | reflexivity]).
    destruct (Hsy Hsn) as (t & six & Et & _). rewrite Et in HP.
    change (st_of (Op d1 sm1 (Some t))) with t in HP.
    assert (u16 (0xDF00 + num) = 0xDF00 + num) as Eu by (unfold u16, legal in *; lia). rewrite Eu in HP.
    destruct (AddSymbol t sy (0xDF00 + num)) as [t1 r1] eqn:EA. cbv zeta in HP. cbn [op_data op_SM] in HP.
    destruct r1 as [[]|e|]; [|discriminate|discriminate]. unfold on_disk in HP. cbn [op_data op_SM op_ST] in HP.
    destruct (WriteSymbolTable t1 (d1, sm1)) as [[d2 sm2] r2] eqn:EW. destruct r2 as [[]|e|]; [|discriminate|discriminate].
    cbn [sret] in HP. inversion HP; subst. split; [reflexivity|]. split; [exact How|]. right.
    split; [lia|]. split; [exact Hsn|]. exists t, t1, d2, sm2. auto.
  - inversion HP; subst. split; [reflexivity|]. split; [exact How|]. left. split; [|reflexivity].
    destruct (Z.eqb_spec mf num); [left; assumption|]. right. cbn [negb andb] in Es. destruct (beq sy []) eqn:B; [|discriminate].
    apply beq_eq in B. exact B.
Qed.

(** After AddSymbol the name denotes the new address. *)
Lemma AddSymbol_first t n a t1 : AddSymbol t n a = (t1, Ok tt) ->
  exists p, first_named t1 n p /\ ad t1 p = a.
Proof.
  intros E. destruct (AddSymbol_changed _ _ _ _ E) as (Ha & p & n' & (Hl & Hp & Hap & Hnp & Hq) & En & Hc).
  exists p. split; [|exact Hap]. split; [lia|]. split; [rewrite Hnp, equal_fold_sym; exact En|].
  intros j Hj. destruct (Hq j) as [_ ->]; [lia | lia|]. rewrite equal_fold_sym.
  destruct Hc as [(_ & H & _)|(_ & H & _)]; apply H; lia.
Qed.

(** ** GetFile *)
Lemma GetFile_content o n f : op_ok o -> resolves (st_of o) n f -> content (op_data o) (op_SM o) f <> [] ->
  exists i, GetFile o n = Ok i /\ fi_data i = content (op_data o) (op_SM o) f.
Proof.
  intros Hok Hr Hc. unfold GetFile. assert (FileForName (st_of o) n = Ok f) as -> by (apply FileForName_resolves; exact Hr).
  cbn [rbind]. rewrite ReadFile_spec by apply (fl_len _ _ (ok_fl _ Hok)).
  destruct (Z.eqb_spec (zlen (content (op_data o) (op_SM o) f)) 0) as [E|E]; [apply zlen_zero_nil in E; contradiction|].
  eexists. split; reflexivity.
Qed.
Lemma padded_nonempty c : c <> [] -> padded c <> [].
Proof. intros Hc H. apply app_eq_nil in H as [H _]. contradiction. Qed.

(** Files of the symbol table exist when the table was read. *)
Lemma table_files (d sm : bytes) t : zlen d = 143360 -> ReadSymbolTable sm d = Ok t ->
  zlen (owned sm 3) = 16 /\ zlen (owned sm 4) = 16.
Proof.
  intros Hd. unfold ReadSymbolTable. rewrite !ReadFile_spec by exact Hd. cbn [rbind].
  pose proof (zlen_content d sm 3 Hd) as H3. pose proof (zlen_content d sm 4 Hd) as H4. rewrite H3, H4.
  destruct (Z.eqb_spec (256 * zlen (owned sm 3)) 0x1000); cbn [negb]; [|discriminate].
  destruct (Z.eqb_spec (256 * zlen (owned sm 4)) 0x1000); cbn [negb]; [|discriminate]. intros _. lia.
Qed.
Lemma FirstFree_not sm f : legal f -> owned sm f <> [] -> FirstFreeFile sm <> f.
Proof.
  intros Hf Ho E. destruct (FirstFreeFile_spec sm) as [(_ & H & _)|[H _]]; [congruence|]. unfold legal in Hf. lia.
Qed.

(** A file put under a plain symbolic name is fetched under that name. *)
Lemma Put_then_get i ow o o' ex n t : op_ok o -> op_ST o = Some t ->
  ReadSymbolTable (op_SM o) (op_data o) = Ok t ->
  fi_data i <> [] -> d_name (fi_desc_ i) = n -> n <> [] -> no_colon n -> (forall g, ~ numeric n g) ->
  PutFile i ow o = (o', Ok ex) ->
  exists f, legal f /\ resolves (st_of o') n f /\ content (op_data o') (op_SM o') f = padded (fi_data i) /\
    (forall g, legal g -> g <> f -> g <> 3 -> g <> 4 ->
       content (op_data o') (op_SM o') g = content (op_data o) (op_SM o) g) /\
    ((resolves t n f /\ op_ST o' = Some t /\
        (forall g, legal g -> g <> f -> content (op_data o') (op_SM o') g = content (op_data o) (op_SM o) g)) \/
     ((forall g, ~ resolves t n g) /\ owned (op_SM o) f = [] /\ f <> 3 /\ f <> 4 /\
      exists t1 d1 sm1, AddSymbol t n (0xDF00 + f) = (t1, Ok tt) /\ floppy d1 sm1 /\
        WriteSymbolTable t1 (d1, sm1) = ((op_data o', op_SM o'), Ok tt) /\ op_ST o' = Some t1 /\
        forall g, 1 <= g < f -> owned (op_SM o) g <> [])).
Proof.
  intros Hok Est HR Hne En Hn0 Hnc Hnn HP. subst n.
  pose proof (PutFile_inv _ _ _ _ _ Hok Hne HP) as [Hok' _].
  destruct (PutFile_success i ow o o' ex Hok Hne HP) as (nf & mf & sy & num & d1 & sm1 & EF & Enum & Hln & Hsy & Fl & C & Oth & _ & _ & Hcase).
  assert (st_of o = t) as Es by (unfold st_of; rewrite Est; reflexivity). rewrite Es in EF.
  destruct (FilesForCompoundName_simple t (d_name (fi_desc_ i)) Hnc) as (_ & F2 & F3).
  destruct (FileForName_spec t (d_name (fi_desc_ i))) as [(f & _ & Hr & Hf)|[_ Hno]].
  - destruct Hr as [Hr|[_ Hr]]; [exfalso; exact (Hnn f Hr)|]. rewrite (F2 f Hnn Hr) in EF. inversion EF; subst nf mf sy.
    unfold legal in Hf. replace (f =? 0) with false in Enum by lia. subst num.
    destruct Hcase as [[_ ->]|[Hx _]]; [|contradiction (Hx eq_refl)]. cbn [op_data op_SM op_ST st_of].
    exists f. split; [exact Hln|]. unfold st_of. cbn [op_ST]. rewrite Est. split; [right; auto|]. split; [exact C|].
    split; [intros g Hg Hgf _ _; apply Oth; assumption|]. left. split; [right; auto|]. split; [reflexivity|].
    intros g Hg Hgf. apply Oth; assumption.
  - rewrite (F3 Hno) in EF. inversion EF; subst nf mf sy. rewrite Z.eqb_refl in Enum.
    destruct (table_files _ _ _ (fl_len _ _ (ok_fl _ Hok)) HR) as [T3 T4].
    assert (num <> 3 /\ num <> 4) as [N3 N4].
    { split; rewrite Enum; apply FirstFree_not; try (unfold legal; lia); intros H0; rewrite H0, (@zlen_nil Z) in *; lia. }
    destruct Hcase as [[[Hx|Hx] _]|(_ & _ & t' & t1 & d2 & sm2 & Et' & EA & EW & ->)].
    + unfold legal in Hln. lia.
    + contradiction.
    + rewrite Est in Et'. inversion Et'; subst t'. cbn [op_data op_SM op_ST]. unfold st_of. cbn [op_ST].
      destruct (AddSymbol_first _ _ _ _ EA) as (p & Hp & Hap).
      assert (zlen t1 <= 819) as L1.
      { pose proof (zlen_AddSymbol t (d_name (fi_desc_ i)) (0xDF00 + num)) as HL. rewrite EA in HL. cbn [fst] in HL.
        rewrite HL, (ok_st _ Hok t Est). lia. }
      destruct (WriteSymbolTable_any t1 d1 sm1 Fl L1) as (d2' & sm2' & r2 & E2 & _ & Fl2 & Oth2 & _).
      rewrite EW in E2. inversion E2; subst d2' sm2' r2.
      exists num. split; [exact Hln|]. split; [right; split; [exact Hnn|]; split; [exact Hln|]; exists p; auto|].
      split; [destruct (Oth2 num N3 N4 Hln) as [_ ->]; exact C|]. split.
      * intros g Hg Hgf H3 H4. destruct (Oth2 g H3 H4 Hg) as [_ ->]. apply Oth; assumption.
      * right. split; [exact Hno|]. split.
        { destruct (FirstFreeFile_spec (op_SM o)) as [(_ & H & _)|[H _]]; [congruence|]. unfold legal in Hln. lia. }
        split; [exact N3|]. split; [exact N4|]. exists t1, d1, sm1. split; [exact EA|]. split; [exact Fl|]. split; [exact EW|]. split; [reflexivity|].
        intros g Hg. destruct (FirstFreeFile_spec (op_SM o)) as [(_ & _ & H)|[H _]]; [|unfold legal in Hln; lia].
        apply H. rewrite <- Enum. exact Hg.
Qed.

(** ** Re-opening *)
Lemma fold_upcase n : is_ascii n -> fold_case (upcase n) = fold_case n.
Proof.
  intros H. assert (is_ascii (upcase n)) as H2.
  { unfold is_ascii, upcase in *. rewrite Forall_map. eapply Forall_impl; [|exact H]. intros c Hc. cbv beta in Hc |- *.
    destruct (Z.leb_spec 97 c), (Z.leb_spec c 122); cbn [andb]; lia. }
  rewrite !fold_case_ascii by assumption. unfold upcase. rewrite map_map. apply map_ext_in. intros c Hc.
  unfold low, is_upper. destruct ((97 <=? c) && (c <=? 122)) eqn:E.
  - replace ((65 <=? c - 32) && (c - 32 <=? 90)) with true by lia. replace ((65 <=? c) && (c <=? 90)) with false by lia. lia.
  - reflexivity.
Qed.
Lemma valid_ascii n : valid_name n -> is_ascii n.
Proof. intros [->|(_ & H & _)]; [constructor | apply alnum_ascii; exact H]. Qed.
Lemma canon_first t n p : Forall s_ok t -> n <> [] -> first_named t n p -> ad t p <> 0 ->
  first_named (map canon t) n p /\ ad (map canon t) p = ad t p.
Proof.
  intros Hs Hn (Hp & E & Hb) H0.
  assert (forall j, 0 <= j < zlen t -> nm (map canon t) j = [] \/ (ad t j <> 0 /\ nm (map canon t) j = upcase (nm t j))) as Hnm.
  { intros j Hj. unfold nm, ad. rewrite (znth_map canon sym0) by lia. unfold canon.
    destruct (Z.eqb_spec (s_addr (znth sym0 t j)) 0); [left; reflexivity | right; auto]. }
  assert (forall j, 0 <= j < zlen t -> equal_fold (upcase (nm t j)) n = equal_fold (nm t j) n) as Hup.
  { intros j Hj. unfold equal_fold. rewrite fold_upcase; [reflexivity|]. apply valid_ascii.
    pose proof (Forall_znth s_ok sym0 t j Hs Hj) as (_ & H & _). exact H. }
  split.
  - split; [rewrite zlen_map; exact Hp|]. split.
    + assert (nm (map canon t) p = upcase (nm t p)) as ->.
      { unfold nm. rewrite (znth_map canon sym0) by lia. unfold canon. unfold ad in H0.
        replace (s_addr (znth sym0 t p) =? 0) with false by lia. reflexivity. }
      rewrite Hup by lia. exact E.
    + intros j Hj. destruct (Hnm j) as [->|[_ ->]]; [lia| |].
      * destruct (equal_fold [] n) eqn:B; [|reflexivity]. rewrite equal_fold_sym in B. apply equal_fold_nil in B. contradiction.
      * rewrite Hup by lia. apply Hb. exact Hj.
  - unfold ad. rewrite (znth_map canon sym0) by lia. apply canon_addr.
Qed.

Lemma s_ok_pointwise (t t' : list Symbol) : zlen t' = zlen t -> (forall j, 0 <= j < zlen t -> s_ok (znth sym0 t' j)) -> Forall s_ok t'.
Proof.
  intros HL H. apply Forall_forall. intros s Hs. apply (In_znth sym0) in Hs as (j & Hj & <-). apply H. lia.
Qed.
Lemma add_at_sok t p n a h : zlen t <= 819 -> Forall s_ok t -> 0 <= p < zlen t -> is_u16 a -> valid_name n ->
  Forall s_ok (fst (add_at t p n a h)).
Proof.
  intros HL Hs Hp Ha Hn. unfold add_at. replace (p =? -1) with false by lia. cbn [fst].
  destruct (link_end_spec t h p) as [HLu HC].
  apply Forall_zset; [lia| |split; [exact Ha|]; split; [exact Hn | cbn; lia]].
  apply (s_ok_pointwise t); [exact HLu|]. intros j Hj. pose proof (Forall_znth s_ok sym0 t j Hs Hj) as Hsj.
  destruct HC as [[_ ->]|(q & Q1 & Q2 & Q3 & Q4 & Q5)]; [exact Hsj|].
  destruct (Z.eq_dec j q) as [->|]; [|rewrite Q5 by lia; exact Hsj].
  rewrite Q4. destruct Hsj as (S1 & S2 & S3). split; [exact S1|]. split; [exact S2|]. cbn [set_link s_link s_addr]. lia.
Qed.
Lemma DeleteSymbol_sok t n : zlen t <= 819 -> map_table t -> n <> [] -> Forall s_ok t -> Forall s_ok (fst (DeleteSymbol t n)).
Proof.
  intros HL Ht Hn Hs. unfold DeleteSymbol. pose proof (find_name_spec t n 0) as Hf. destruct (find_name t n 0) as [i|]; [|exact Hs].
  rewrite Z.sub_0_r in Hf. destruct Hf as (H1 & H2 & _). cbn [fst].
  assert (ad t i <> 0) as Hi0.
  { intros H0. destruct Ht as [_ Hb]. apply Hb in H0; [|lia]. rewrite H0 in H2. apply equal_fold_nil in H2. contradiction. }
  fold (lk t i). destruct (unlink_spec t (lk t i) 0 i) as [HLu HC].
  assert (0 <= i < zlen t) as Hi by lia.
  apply Forall_zset; [lia| |split; [unfold is_u16; cbn; lia|]; split; [left; reflexivity | cbn; lia]].
  apply (s_ok_pointwise t); [exact HLu|]. intros j Hj. pose proof (Forall_znth s_ok sym0 t j Hs Hj) as Hsj.
  destruct HC as [[_ ->]|(q & Q1 & Q2 & Q3 & Q4 & Q5)]; [exact Hsj|].
  destruct (Z.eq_dec j q) as [->|]; [|rewrite Q5 by lia; exact Hsj].
  rewrite Q4. destruct Hsj as (S1 & S2 & S3). split; [exact S1|]. split; [exact S2|]. cbn [set_link s_link s_addr].
  intros _. pose proof (Forall_znth s_ok sym0 t i Hs Hi) as (_ & _ & S4). apply S4. exact Hi0.
Qed.
Lemma AddSymbol_sok t n a t' : zlen t <= 819 -> map_table t -> n <> [] -> Forall s_ok t -> is_u16 a -> valid_name n ->
  AddSymbol t n a = (t', Ok tt) -> Forall s_ok t'.
Proof.
  intros HL Ht Hn Hs Ha Hv E. unfold AddSymbol in E. destruct (Z.eqb_spec a 0) as [|Ha0]; [discriminate|].
  pose proof (add_scan_spec t n (addrHash a) 0 (-1) ltac:(lia)) as Hsc.
  pose proof (find_name_spec t n 0) as Hf.
  pose proof (zlen_DeleteSymbol t n) as DL.
  destruct (find_name t n 0) as [i|].
  - rewrite Z.sub_0_r in *. destruct Hf as (H1 & H2 & H3). rewrite Hsc in E.
    destruct (addrHash (ad t i) =? addrHash a).
    + inversion E; subst. apply Forall_zset; [lia | exact Hs|].
      pose proof (Forall_znth s_ok sym0 t i Hs ltac:(lia)) as (S1 & S2 & S3). split; [exact Ha|]. split; [exact S2|].
      cbn [set_addr s_addr s_link]. intros _. apply S3. intros H0. destruct Ht as [_ Hb].
      assert (nm t i = []) as Hz by (apply Hb; [lia | exact H0]). rewrite Hz in H2. apply equal_fold_nil in H2. contradiction.
    + pose proof (add_at_sok (fst (DeleteSymbol t n)) i n a (addrHash a)) as H. rewrite E in H. apply H; try lia; auto.
      apply DeleteSymbol_sok; assumption.
  - destruct Hsc as (p & Es & Hp). rewrite Es in E.
    destruct Hp as [(H & _)|[(_ & Hp & H0)|(_ & -> & _)]]; [contradiction (H eq_refl)| |discriminate].
    pose proof (add_at_sok t p n a (addrHash a)) as H. rewrite E in H. apply H; auto; lia.
Qed.

Lemma open_after (d1 sm1 : bytes) t1 d2 sm2 : floppy d1 sm1 -> table_ok t1 ->
  WriteSymbolTable t1 (d1, sm1) = ((d2, sm2), Ok tt) -> ReadSymbolTable sm2 d2 = Ok (map canon t1).
Proof.
  intros Fl Ht E.
  destruct (WriteSymbolTable_any t1 d1 sm1 Fl) as (d' & sm' & r & E' & _ & _ & _ & H); [destruct Ht as [-> _]; lia|].
  rewrite E in E'. inversion E'; subst d' sm' r. destruct (H eq_refl) as (b1 & b2 & Ef & L1 & L2 & _ & _ & _ & S1 & S2 & _).
  destruct (WriteSymbolTable_ok t1 d1 sm1 Fl Ht S1 S2) as (d' & sm' & E2 & _ & HR & _). rewrite E in E2.
  inversion E2; subst. exact HR.
Qed.
Lemma ReadSymbolTable_same (d sm d' sm' : bytes) : zlen d = 143360 -> zlen d' = 143360 ->
  content d' sm' 3 = content d sm 3 -> content d' sm' 4 = content d sm 4 -> ReadSymbolTable sm' d' = ReadSymbolTable sm d.
Proof. intros H1 H2 E3 E4. unfold ReadSymbolTable. rewrite !ReadFile_spec by assumption. rewrite E3, E4. reflexivity. Qed.

(** ** Tables read from a disk *)
Lemma decode_loop_alnum fuel : forall v r, 0 <= v -> Forall alnum r -> Forall alnum (decode_loop fuel v r).
Proof.
  induction fuel as [|fuel IH]; intros v r Hv Hr; cbn [decode_loop]; [exact Hr|]. cbv zeta.
  destruct (Z.ltb_spec 0 (v mod 32)); [|exact Hr].
  destruct (Z.ltb_spec (v mod 32) 27).
  - apply IH; [lia|]. apply Forall_app. split; [exact Hr|]. constructor; [unfold alnum, letter; lia | constructor].
  - destruct (_ =? 0); (apply IH; [lia|]; apply Forall_app; split; [exact Hr|];
      constructor; [unfold alnum, digit; lia | constructor]).
Qed.
Lemma decodeSymbol_alnum five extra : Forall alnum (decodeSymbol five extra).
Proof. unfold decodeSymbol. cbv zeta. apply decode_loop_alnum; [unfold u64; apply Z.mod_pos_bound; reflexivity | constructor]. Qed.
(** What is known of an entry read from a disk. *)
Definition read_ok (s : Symbol) : Prop :=
  is_u16 (s_addr s) /\ Forall alnum (s_name s) /\ (s_addr s <> 0 -> -1 <= s_link s < 819) /\ (s_addr s = 0 -> s_name s = []).
Lemma read_entry_ok b1 b2 k s : bytes_ok b1 -> read_entry b1 b2 k = Ok s -> read_ok s.
Proof.
  intros Hb E. pose proof (read_entry_link b1 b2 k s E) as Hl. revert E Hl. unfold read_entry.
  pose proof (bytes_ok_znth b1 k Hb) as B1. pose proof (bytes_ok_znth b1 (k + 1) Hb) as B2.
  assert (is_u16 (le16 (znth 0 b1 k) (znth 0 b1 (k + 1)))) as Hu by (unfold is_u16, is_byte, le16 in *; lia).
  revert Hu. generalize (le16 (znth 0 b1 k) (znth 0 b1 (k + 1))) as a. clear B1 B2. intros a Hu.
  destruct (Z.eqb_spec a 0) as [|Ha].
  { intros E _. inversion E; subst. split; [unfold is_u16; cbn; lia|]. split; [constructor|]. split; [cbn; lia | reflexivity]. }
  match goal with |- context[rbind ?x _] => destruct x as [l|e|] end; cbn [rbind]; [|discriminate|discriminate].
  intros E Hl. inversion E; subst. cbn [s_addr s_name s_link] in *. split; [exact Hu|]. split; [apply decodeSymbol_alnum|].
  split; [exact Hl|]. intros H; contradiction.
Qed.
Lemma read_entries_ok b1 b2 ks : bytes_ok b1 -> forall t, read_entries b1 b2 ks = Ok t -> Forall read_ok t.
Proof.
  intros Hb. induction ks as [|k ks IH]; intros t; cbn [read_entries]; [intros E; inversion E; constructor|].
  destruct (read_entry b1 b2 (5 * k)) as [s|e|] eqn:E1; cbn [rbind]; [|discriminate|discriminate].
  destruct (read_entries b1 b2 ks) as [t'|e|]; cbn [rbind]; [|discriminate|discriminate].
  intros E; inversion E; subst. constructor; [eapply read_entry_ok; eassumption | apply IH; reflexivity].
Qed.
Lemma ReadSymbolTable_read_ok (d sm : bytes) t : zlen d = 143360 -> bytes_ok d -> ReadSymbolTable sm d = Ok t ->
  zlen t = 819 /\ links_ok t /\ Forall read_ok t.
Proof.
  intros Hd Hb E. destruct (ReadSymbolTable_parse _ _ _ E) as (c1 & c2 & Ep).
  split; [eapply parse_len; eassumption|]. split; [eapply parse_links; eassumption|]. clear c1 c2 Ep.
  unfold ReadSymbolTable in E. rewrite !ReadFile_spec in E by exact Hd. cbn [rbind] in E.
  assert (bytes_ok (content d sm 3)) as Hc.
  { unfold bytes_ok. apply Forall_forall. intros x Hx. unfold content in Hx. apply in_flat_map in Hx as (k & _ & Hx).
    unfold sec in Hx. pose proof (bytes_ok_sub d (256 * k) (256 * k + 256) Hb) as H. unfold bytes_ok in H.
    rewrite Forall_forall in H. apply H. exact Hx. }
  revert E Hc. generalize (content d sm 3) (content d sm 4). intros b1 b2 E Hc.
  destruct (zlen b1 =? 0x1000); cbn [negb] in E; [|discriminate]. destruct (zlen b2 =? 0x1000); cbn [negb] in E; [|discriminate].
  unfold parseSymbolTable in E. destruct (read_entries b1 b2 (zrange 819)) as [t'|e|] eqn:Er; cbn [rbind] in E; [|discriminate|discriminate].
  destruct (check_links t' 0 t') as [[]|e|]; cbn [rbind] in E; [|discriminate|discriminate]. inversion E; subst.
  eapply read_entries_ok; eassumption.
Qed.
Lemma fill_names syms : forall i b1 b2 c, fill_tables syms i b1 b2 = Ok c ->
  Forall (fun s => exists six, encodeSymbol (s_name s) = Ok six) syms.
Proof.
  induction syms as [|s syms IH]; intros i b1 b2 c; cbn [fill_tables]; [constructor|].
  destruct (encodeSymbol (s_name s)) as [six|e|] eqn:E; cbn [rbind]; [|discriminate|discriminate].
  destruct (4096 <? i * 5 + 5); [discriminate|]. intros H. constructor; [exists six; exact E|]. eapply IH. exact H.
Qed.
Lemma WriteSymbolTable_names t (d sm : bytes) d' sm' : floppy d sm -> zlen t <= 819 ->
  WriteSymbolTable t (d, sm) = ((d', sm'), Ok tt) ->
  Forall (fun s => exists six, encodeSymbol (s_name s) = Ok six) t.
Proof.
  intros Hf HL E. destruct (WriteSymbolTable_any t d sm Hf HL) as (d2 & sm2 & r & E2 & _ & _ & _ & H).
  rewrite E in E2. inversion E2; subst. destruct (H eq_refl) as (b1 & b2 & Ef & _). eapply fill_names. exact Ef.
Qed.
Lemma encodes_valid n six : Forall alnum n -> encodeSymbol n = Ok six -> valid_name n.
Proof.
  intros Ha E. destruct (alnum_bits n Ha) as [Eb _]. pose proof (to_upper_ascii n (alnum_ascii n Ha)) as Eu.
  destruct (encodeSymbol_cases n) as [(-> & _)|[(Hl & Hb & _)|(_ & _ & e & E')]].
  - left; reflexivity.
  - right. rewrite Eu, Eb in Hb. auto.
  - congruence.
Qed.
Lemma read_ok_blanks t : Forall read_ok t -> blanks_unnamed t.
Proof. intros H i Hi. apply (Forall_znth read_ok sym0 t i H Hi). Qed.

(** A file put under a symbolic name is found under it after the disk has been re-opened. *)
Lemma Put_reopen_get i ow o o' ex n t : op_ok o -> bytes_ok (op_data o) -> op_ST o = Some t ->
  ReadSymbolTable (op_SM o) (op_data o) = Ok t -> names_unique t -> live_links t ->
  fi_data i <> [] -> d_name (fi_desc_ i) = n -> n <> [] -> valid_name n -> (forall g, ~ numeric n g) ->
  ~ symbol_file t n 3 -> ~ symbol_file t n 4 ->
  (ByName t n = 0 \/ exists g, symbol_file t n g) ->
  PutFile i ow o = (o', Ok ex) ->
  exists o2 i2, NewOperator (op_data o') = Ok o2 /\ GetFile o2 n = Ok i2 /\ fi_data i2 = padded (fi_data i).
Proof.
  intros Hok Hby Est HR Huniq Hlive Hne En Hn0 Hv Hnn Hx3 Hx4 Hcase HP.
  destruct (ReadSymbolTable_read_ok _ _ _ (fl_len _ _ (ok_fl _ Hok)) Hby HR) as (HL & Hl & Hrd).
  assert (map_table t) as Hmap by (split; [exact Huniq | apply read_ok_blanks; exact Hrd]).
  assert (no_colon n) as Hnc.
  { destruct Hv as [->|(_ & Ha & _)]; [intros []|]. intros Hin. rewrite Forall_forall in Ha. specialize (Ha 58 Hin).
    unfold alnum, letter, digit in Ha. lia. }
  pose proof (PutFile_inv _ _ _ _ _ Hok Hne HP) as [Hok' _].
  destruct (Put_then_get i ow o o' ex n t Hok Est HR Hne En Hn0 Hnc Hnn HP) as (f & Hf & Hr & HC & _ & Hc).
  pose proof (NewOperator_floppy _ _ (ok_fl _ Hok')) as EN. eexists.
  set (o2 := Op (op_data o') (op_SM o') (opened_table (op_data o') (op_SM o'))) in *.
  assert (op_ok o2) as Hok2 by (constructor; [exact (ok_fl _ Hok') | intros t0; apply opened_table_len]).
  assert (resolves (st_of o2) n f) as Hr2.
  { destruct Hc as [(Hrt & _ & Hoth)|(Hno & _ & N3 & N4 & t1 & d1 & sm1 & EA & Fl1 & EW & ET)].
    - assert (f <> 3 /\ f <> 4) as [N3 N4].
      { destruct Hrt as [Hx|[_ Hx]]; [exfalso; exact (Hnn f Hx)|]. split; intros ->; contradiction. }
      assert (ReadSymbolTable (op_SM o') (op_data o') = Ok t) as HR2.
      { rewrite <- HR. apply ReadSymbolTable_same; [apply (fl_len _ _ (ok_fl _ Hok)) | apply (fl_len _ _ (ok_fl _ Hok'))| |];
          apply Hoth; try (unfold legal; lia); lia. }
      unfold o2, st_of. cbn [op_ST]. unfold opened_table. rewrite HR2. exact Hrt.
    - assert (zlen t1 = 819) as HL1.
      { pose proof (zlen_AddSymbol t n (0xDF00 + f)) as H. rewrite EA in H. cbn [fst] in H. lia. }
      assert (ByName t n = 0) as HB0.
      { destruct Hcase as [H0|[g Hg]]; [exact H0|]. exfalso. apply (Hno g). right; auto. }
      pose proof (proj1 (ByName_0 t n Hmap Hn0) HB0) as Habs.
      assert (Forall s_ok t) as Hs.
      { pose proof (WriteSymbolTable_names t1 d1 sm1 _ _ Fl1 ltac:(lia) EW) as Hnames.
        destruct (AddSymbol_changed _ _ _ _ EA) as (_ & p & n' & (_ & Hp & _ & _ & Hq) & _ & Hp2).
        apply (s_ok_pointwise t); [reflexivity|]. intros j Hj.
        pose proof (Forall_znth read_ok sym0 t j Hrd Hj) as (R1 & R2 & R3 & R4). split; [exact R1|]. split; [|exact R3].
        destruct (Z.eq_dec j p) as [->|Hjp].
        - destruct Hp2 as [(K & _)|(K & _)]; [rewrite Habs in K by exact Hp; discriminate|].
          left. apply R4. exact K.
        - destruct (Hq j) as [_ Enm]; [lia | exact Hjp|].
          pose proof (Forall_znth _ sym0 t1 j Hnames ltac:(lia)) as (six & Esix). cbv beta in Esix.
          unfold nm in Enm. rewrite Enm in Esix. eapply encodes_valid; eassumption. }
      assert (table_ok t1) as Ht1.
      { split; [exact HL1|]. split.
        - apply (AddSymbol_sok t n (0xDF00 + f) t1); auto; [lia|]. unfold is_u16, legal in *. lia.
        - apply (AddSymbol_links t n (0xDF00 + f) t1); auto.
          intros k Hk Ek _. exfalso. rewrite (Habs k Hk) in Ek. discriminate. }
      unfold o2, st_of. cbn [op_ST]. unfold opened_table. rewrite (open_after d1 sm1 t1 _ _ Fl1 Ht1 EW).
      right. split; [exact Hnn|]. split; [exact Hf|]. destruct (AddSymbol_first _ _ _ _ EA) as (p & Hp & Hap).
      exists p. destruct Ht1 as (_ & Hs1 & _). destruct (canon_first t1 n p Hs1 Hn0 Hp) as [H1 H2]; [unfold legal in Hf; lia|].
      split; [exact H1 | congruence]. }
  destruct (GetFile_content o2 n f Hok2 Hr2) as (i2 & E2 & D2).
  { unfold o2. cbn [op_data op_SM]. rewrite HC. apply padded_nonempty. exact Hne. }
  exists i2. split; [exact EN|]. split; [exact E2|]. rewrite D2. exact HC.
Qed.

(** ** Delete *)
Lemma Delete_success n o o' ex : op_ok o -> Delete n o = (o', Ok ex) ->
  exists f, legal f /\ resolves (st_of o) n f /\ ex = negb (beq (content (op_data o) (op_SM o) f) []) /\
    (forall g, legal g -> g <> f -> g <> 3 -> g <> 4 -> content (op_data o') (op_SM o') g = content (op_data o) (op_SM o) g) /\
    (f <> 3 -> f <> 4 -> owned (op_SM o') f = []) /\
    ((op_ST o = None \/ ByName (st_of o) n = 0 /\ n <> [] /\ map_table (st_of o)) ->
       owned (op_SM o') f = [] /\ op_ST o' = op_ST o /\
       forall g, legal g -> g <> f -> content (op_data o') (op_SM o') g = content (op_data o) (op_SM o) g) /\
    (forall t, op_ST o = Some t -> (exists i, 0 <= i < zlen t /\ equal_fold n (nm t i) = true) ->
       zlen (owned (op_SM o') 3) = 16 /\ zlen (owned (op_SM o') 4) = 16).
Proof.
  intros Hok E. unfold Delete in E.
  destruct (FileForName_spec (st_of o) n) as [(f & EF & Hr & Hf)|[EF _]]; rewrite EF in E; [|discriminate].
  cbv zeta in E. pose proof (ok_fl _ Hok) as Hfl.
  destruct (Delete_disk (op_data o) (op_SM o) f Hfl Hf) as (EP & Fl & C & O & Oth & Fr). rewrite EP in E.
  rewrite SectorsForFile_owned, zlen_map in E. pose proof (zlen_nonneg (owned (op_SM o) f)).
  assert (0 <? zlen (owned (op_SM o) f) = negb (beq (content (op_data o) (op_SM o) f) [])) as Eex.
  { rewrite content_beq by apply (fl_len _ _ Hfl). lia. }
  exists f. split; [exact Hf|]. split; [exact Hr|].
  destruct (op_ST o) as [t|] eqn:Et.
  2:{ inversion E; subst. cbn [op_data op_SM op_ST]. split; [exact Eex|].
      split; [intros g Hg Hgf _ _; apply Oth; assumption|]. split; [intros; exact O|].
      split; [intros _; split; [exact O|]; split; [reflexivity | intros g Hg Hgf; apply Oth; assumption]|].
      intros t Ht. discriminate Ht. }
  assert (st_of o = t) as Es by (unfold st_of; rewrite Et; reflexivity). rewrite Es in *.
  pose proof (zlen_DeleteSymbol t n) as HL. rewrite (ok_st _ Hok t Et) in HL.
  pose proof (DeleteSymbol_spec t n) as DS. pose proof (find_name_spec t n 0) as Hfn.
  destruct (find_name t n 0) as [k|].
  - destruct DS as (t1 & ED & Hch & _). rewrite ED in *. cbn [fst] in HL.
    rewrite Z.sub_0_r in Hfn. destruct Hfn as (K1 & K2 & _).
    unfold sbind, on_disk in E. cbn [op_data op_SM op_ST] in E.
    destruct (WriteSymbolTable_any t1 _ _ Fl ltac:(lia)) as (d2 & sm2 & r2 & E2 & Hr2 & Fl2 & Oth2 & HO). rewrite E2 in E.
    destruct r2 as [[]|e|]; [|discriminate|discriminate]. cbn [sret] in E. inversion E; subst. cbn [op_data op_SM op_ST].
    split; [exact Eex|]. split.
    { intros g Hg Hgf H3 H4. destruct (Oth2 g H3 H4 Hg) as [_ ->]. apply Oth; assumption. }
    split; [intros H3 H4; destruct (Oth2 f H3 H4 Hf) as [-> _]; exact O|]. split.
    { intros [Hx|(B0 & Hn0 & Hmap)]; [discriminate|]. exfalso.
      rewrite (proj1 (ByName_0 _ n Hmap Hn0) B0 k ltac:(lia)) in K2. discriminate. }
    intros t Ht _. destruct (HO eq_refl) as (b1 & b2 & _ & _ & _ & _ & _ & _ & _ & _ & O3 & O4 & _). auto.
  - rewrite DS in E. inversion E; subst. cbn [op_data op_SM op_ST]. split; [exact Eex|].
    split; [intros g Hg Hgf _ _; apply Oth; assumption|]. split; [intros; exact O|].
    split; [intros _; split; [exact O|]; split; [reflexivity | intros g Hg Hgf; apply Oth; assumption]|].
    intros t0 Ht0 (j & Hj & Ej). inversion Ht0; subst t0. rewrite Hfn in Ej by exact Hj. discriminate.
Qed.
