(** SupermonFinalProofs.v -- the statements of C24-C46 in their final form, from the lemmas of
    the other Supermon*Proofs files, and the concrete disk used by the examples. *)
From Verif Require Import GoBase GoLemmas DiskModel TypesModel
  SupermonModel SupermonSpec SupermonTableSpec SupermonStoreSpec SupermonProofs SupermonSymProofs
  SupermonTabProofs SupermonLinkProofs SupermonNameProofs SupermonOpProofs SupermonNamedProofs.
From Coq Require Import ZifyBool ZifyNat Permutation.
Ltac Zify.zify_post_hook ::= Z.div_mod_to_equations.
Local Opaque zrange.

(** ** C24-C32 *)
Lemma Persist_load sm d : zlen sm = 560 ->
  (3072 <= zlen d ->
     exists d', Persist sm d = (d', Ok tt) /\ zlen d' = zlen d /\
       (forall i, 0 <= i < 560 -> znth 0 d' (9 * 256 + 0xD0 + i) = znth 0 sm i) /\
       (forall i, 0 <= i -> ~ (9 * 256 + 0xD0 <= i < 12 * 256) -> znth 0 d' i = znth 0 d i) /\
       LoadSectorMap d' = Ok sm) /\
  (3072 <= zlen d -> exists sm', LoadSectorMap d = Ok sm' /\ zlen sm' = 560) /\
  (zlen d < 3072 -> (exists d' e, Persist sm d = (d', Err e)) /\ (exists e, LoadSectorMap d = Err e)).
Proof.
  intros Hs. split; [|split].
  - intros Hd. rewrite Persist_ok by lia. exists (upd d 2512 sm). split; [reflexivity|].
    split; [rewrite zlen_upd; lia|]. split; [|split].
    + intros i Hi. rewrite znth_upd by lia. replace ((2512 <=? 9 * 256 + 0xD0 + i) && (9 * 256 + 0xD0 + i <? 2512 + zlen sm)) with true by lia.
      f_equal. lia.
    + intros i Hi Hn. rewrite znth_upd by lia. replace ((2512 <=? i) && (i <? 2512 + zlen sm)) with false by lia. reflexivity.
    + rewrite LoadSectorMap_ok by (rewrite zlen_upd; lia). f_equal. unfold stored_map.
      replace 3072 with (2512 + zlen sm) by lia. apply sub_upd_same; lia.
  - intros Hd. exists (stored_map d). split; [apply LoadSectorMap_ok; lia | apply zlen_stored_map; lia].
  - intros Hd. split; [apply Persist_err; lia | apply LoadSectorMap_err; lia].
Qed.
Lemma Verify_iff sm : zlen sm = 560 ->
  (Verify sm = Ok tt <->
     (forall s, 0 <= s <= 11 -> znth 0 sm s = 0xFE) /\ (forall k, 0 <= k < 560 -> znth 0 sm k <> 0)) /\
  (Verify sm <> Ok tt -> exists e, Verify sm = Err e).
Proof.
  intros Hs. destruct (Verify_spec sm Hs) as [H1 H2]. split.
  - rewrite H1. split.
    + intros [_ Hr Hl]. split; [intros s H; apply Hr; lia | exact Hl].
    + intros [Hr Hl]. constructor; [exact Hs | intros k Hk; apply Hr; lia | exact Hl].
  - intros Hn. destruct (Verify sm) as [[]|e|]; [contradiction | exists e; reflexivity | contradiction].
Qed.
Lemma WriteFile_full f c ow (d sm : bytes) d' sm' r : floppy d sm -> legal f -> c <> [] ->
  WriteFile f c ow (d, sm) = ((d', sm'), r) ->
  (r = Err EOutOfSpace <-> zlen (owned sm FREE) + zlen (owned sm f) < nsec c) /\
  (r = Err EFileExists <-> nsec c <= zlen (owned sm FREE) + zlen (owned sm f) /\ owned sm f <> [] /\ ow = false) /\
  ((exists ex, r = Ok ex) <->
     nsec c <= zlen (owned sm FREE) + zlen (owned sm f) /\ (owned sm f <> [] -> ow = true)) /\
  ((exists e, r = Err e) -> d' = d /\ sm' = sm) /\ r <> Panic.
Proof.
  intros Hfl Hf Hc E.
  destruct (WriteFile_cases f c ow d sm Hfl Hf Hc) as [(H & E')|[(H & Ho & How & E')|(H & How & d2 & sm2 & E' & _)]];
    rewrite E in E'; inversion E'; subst.
  - repeat split; intros; try lia; try congruence; try (destruct H0; congruence); lia.
  - split; [split; [discriminate | lia]|]. split; [split; auto|]. split; [|split; [auto | discriminate]].
    split; [intros [ex Hx]; discriminate|]. intros [_ Hx]. specialize (Hx Ho). discriminate.
  - split; [split; [discriminate | lia]|]. split; [split; [discriminate|]|].
    + intros (_ & Ho & ->). specialize (How Ho). discriminate.
    + split; [|split; [intros [e He]; discriminate | discriminate]]. split; [auto|]. intros _. eexists; reflexivity.
Qed.
Lemma WriteFile_success f c ow (d sm : bytes) d' sm' ex : floppy d sm -> legal f -> c <> [] ->
  WriteFile f c ow (d, sm) = ((d', sm'), Ok ex) ->
  floppy d' sm' /\ ReadFile sm' d' f = Ok (padded c) /\ (ex = true <-> owned sm f <> []) /\
  zlen (owned sm' f) = nsec c /\
  zlen (owned sm' FREE) = zlen (owned sm FREE) + zlen (owned sm f) - nsec c /\
  (forall g, g <> f -> g <> FREE -> owned sm' g = owned sm g) /\
  (forall g, g <> f -> legal g -> ReadFile sm' d' g = ReadFile sm d g) /\
  (forall k, 0 <= k < 560 -> znth 0 sm k = RESERVED -> ~ (9 <= k <= 11) -> sec d' k = sec d k) /\
  sub d' (9 * 256) (9 * 256 + 0xD0) = sub d (9 * 256) (9 * 256 + 0xD0).
Proof.
  intros Hfl Hf Hc E. pose proof Hfl as [Hd Hv Hm].
  destruct (WriteFile_cases f c ow d sm Hfl Hf Hc) as [(H & E')|[(H & Ho & How & E')|(H & How & _)]].
  1, 2: rewrite E in E'; inversion E'.
  destruct (WriteFile_ok f c ow d sm Hd Hv Hf Hc H How) as (d2 & sm2 & E2 & F2 & C2 & O2 & O3 & O4 & S1 & S2 & _).
  destruct (WriteFile_step f c ow d sm Hfl Hf Hc H How) as (d3 & sm3 & E3 & _ & _ & _ & _ & Oth).
  rewrite E in E2, E3. inversion E2; subst d2 sm2. inversion E3; subst d3 sm3.
  split; [exact F2|]. split; [rewrite ReadFile_spec by apply (fl_len _ _ F2); f_equal; exact C2|]. split.
  { pose proof (zlen_nonneg (owned sm f)). split.
    - intros Hx. rewrite Hx in *. intros Hn. rewrite Hn, (@zlen_nil Z) in *. discriminate.
    - intros Hn. destruct (Z.ltb_spec 0 (zlen (owned sm f))); [congruence|]. exfalso. apply Hn, zlen_zero_nil. lia. }
  split; [exact O2|]. split; [exact O3|]. split; [exact O4|]. split.
  { intros g Hg Hl. rewrite !ReadFile_spec by (first [exact Hd | apply (fl_len _ _ F2)]). f_equal. apply Oth; assumption. }
  split; [|exact S2]. intros k Hk Hr Hn. apply S1; [exact Hk| | |exact Hn]; unfold FREE, RESERVED, legal in *; lia.
Qed.
Lemma SMDelete_full sm f : verified sm -> legal f ->
  verified (SMDelete sm f) /\ owned (SMDelete sm f) f = [] /\
  (forall g, g <> f -> g <> FREE -> owned (SMDelete sm f) g = owned sm g) /\
  (forall k, In k (owned (SMDelete sm f) FREE) <-> In k (owned sm FREE) \/ In k (owned sm f)) /\
  zlen (owned (SMDelete sm f) FREE) = zlen (owned sm FREE) + zlen (owned sm f).
Proof.
  intros Hv Hf. pose proof (v_len _ Hv) as Hl. assert (f <> FREE) as Hn by (unfold FREE, legal in *; lia).
  split; [apply verified_SMDelete; assumption|]. split; [apply owned_SMDelete_same; assumption|].
  split; [intros; apply owned_SMDelete_other; assumption|]. split; [|apply owned_SMDelete_free; assumption].
  intros k. rewrite !In_owned. split.
  - intros [Hk E]. rewrite znth_SMDelete in E by assumption.
    destruct (Z.eqb_spec (znth 0 sm k) f); [right | left]; auto.
  - intros [[Hk E]|[Hk E]]; (split; [exact Hk|]); rewrite znth_SMDelete by assumption.
    + destruct (znth 0 sm k =? f); [reflexivity | exact E].
    + replace (znth 0 sm k =? f) with true by lia. reflexivity.
Qed.

(** ** Operators reached from an opened disk *)
Inductive reached : Operator -> Prop :=
| reached_open d o : zlen d = 143360 -> NewOperator d = Ok o -> reached o
| reached_step r o : reached o -> (forall i ow, r = RPut i ow -> fi_data i <> []) -> reached (fst (op_step r o)).
Lemma reached_ok o : reached o -> op_ok o.
Proof.
  induction 1 as [d o Hd E|r o _ IH Hr].
  - apply (NewOperator_ok d o Hd E).
  - apply op_step_inv; assumption.
Qed.
Lemma reached_nopanic o r : reached o -> (forall i ow, r = RPut i ow -> fi_data i <> []) ->
  match snd (op_step r o) with PBool x => x <> Panic | PFile x => x <> Panic | PList x => x <> Panic end.
Proof.
  intros Ho Hr. pose proof (reached_ok o Ho) as Hok. destruct (op_step_inv r o Hok Hr) as [_ H].
  destruct r as [i ow|n|n|].
  - cbn [op_step] in *. destruct (PutFile i ow o) as [o' x]. exact H.
  - cbn [op_step] in *. destruct (Delete n o) as [o' x]. exact H.
  - cbn [op_step snd]. unfold GetFile. destruct (FileForName_spec (st_of o) n) as [(f & E & _)|[E _]]; rewrite E; cbn [rbind]; [|discriminate].
    rewrite ReadFile_spec by apply (fl_len _ _ (ok_fl _ Hok)). destruct (_ =? 0); discriminate.
  - cbn [op_step snd]. unfold Catalog. discriminate.
Qed.
Lemma put_empty_panics o i f ow : op_ok o -> numeric (d_name (fi_desc_ i)) f -> fi_data i = [] ->
  d_type (fi_desc_ i) = FiletypeBinary -> d_length (fi_desc_ i) = 0 ->
  owned (op_SM o) FREE <> [] -> owned (op_SM o) f = [] -> exists o', PutFile i ow o = (o', Panic).
Proof.
  intros Hok Hn Hd Ht Hl Hfree Hf. unfold PutFile. rewrite Ht, Hl, Hd. cbn [negb Z.eqb]. rewrite Z.eqb_refl. cbn [negb].
  change (zlen (@nil Z)) with 0. cbn [Z.eqb negb].
  destruct (FilesForCompoundName_simple (st_of o) (d_name (fi_desc_ i)) (numeric_no_colon _ _ Hn)) as (H & _ & _).
  rewrite (H f Hn). cbn [beq]. cbv zeta. pose proof Hn as [Hlf _]. pose proof Hlf as Hlf'. unfold legal in Hlf.
  replace (f =? 0) with false by lia. replace (f =? 0) with false by lia.
  unfold sbind, on_disk.
  destruct (WriteFile_empty f ow (op_data o) (op_SM o) (fl_ver _ _ (ok_fl _ Hok)) Hlf') as [[d' sm'] E].
  - intros Hx. contradiction.
  - pose proof (zlen_nonneg (owned (op_SM o) f)). pose proof (zlen_nonneg (owned (op_SM o) FREE)).
    destruct (Z.eq_dec (zlen (owned (op_SM o) FREE)) 0) as [E|E]; [apply zlen_zero_nil in E; contradiction|]. lia.
  - rewrite E. eexists. reflexivity.
Qed.

(** ** C38 *)
Lemma add_readable t n a t' : table_ok t -> map_table t -> live_links t -> n <> [] -> valid_name n -> is_u16 a ->
  ByName t n = 0 -> AddSymbol t n a = (t', Ok tt) ->
  table_ok t' /\ map_table t' /\ live_links t'.
Proof.
  intros (HL & Hs & Hl) Hmap Hlive Hn Hv Ha Habs E.
  pose proof (zlen_AddSymbol t n a) as HL'. rewrite E in HL'. cbn [fst] in HL'.
  destruct (AddSymbol_map t n a Hmap Hn) as (t2 & r2 & E2 & Hm2 & _). rewrite E in E2. inversion E2; subst t2 r2.
  pose proof (proj1 (ByName_0 t n Hmap Hn) Habs) as Hab.
  destruct (AddSymbol_links t n a t' Hmap Hl Hlive Hn E) as [K1 K2].
  { intros k Hk Ek. exfalso. rewrite (Hab k Hk) in Ek. discriminate. }
  split; [|split; [exact Hm2 | exact K2]]. split; [lia|]. split; [|exact K1].
  apply (AddSymbol_sok t n a t'); auto. lia.
Qed.
Lemma delete_readable t n i : table_ok t -> map_table t -> chained t -> n <> [] ->
  0 < i < 819 -> equal_fold n (nm t i) = true ->
  table_ok (fst (DeleteSymbol t n)) /\ live_links (fst (DeleteSymbol t n)).
Proof.
  intros (HL & Hs & Hl) Hmap (Hlive & Hbl & Hinj & Hcyc) Hn Hi En.
  destruct (DeleteSymbol_links t n i Hmap Hl Hlive Hn ltac:(lia) En) as (K1 & K2 & _).
  - intros j k Hj Hk Hji Hki Ej Ek.
    assert (ad t j <> 0) as Aj by (intros H0; rewrite (Hbl j Hj H0) in Ej; lia).
    assert (ad t k <> 0) as Ak by (intros H0; rewrite (Hbl k Hk H0) in Ek; lia).
    apply Hinj; auto; lia.
  - intros j Hj Ej.
    assert (ad t j <> 0) as Aj by (intros H0; rewrite (Hbl j Hj H0) in Ej; lia).
    assert (ad t i <> 0) as Ai.
    { intros H0. destruct Hmap as [_ Hb]. apply Hb in H0; [|lia]. rewrite H0 in En. apply equal_fold_nil in En. contradiction. }
    apply Hcyc; auto; lia.
  - split; [|exact K2]. split; [rewrite zlen_DeleteSymbol; lia|]. split; [|exact K1].
    apply DeleteSymbol_sok; auto. lia.
Qed.
Lemma readable_on_disk t (d sm : bytes) : table_ok t -> floppy d sm ->
  16 <= zlen (owned sm FREE) + zlen (owned sm 3) ->
  32 <= zlen (owned sm FREE) + zlen (owned sm 3) + zlen (owned sm 4) ->
  exists d' sm', WriteSymbolTable t (d, sm) = ((d', sm'), Ok tt) /\ ReadSymbolTable sm' d' = Ok (map canon t).
Proof.
  intros Ht Hf H1 H2. destruct (WriteSymbolTable_ok t d sm Hf Ht H1 H2) as (d' & sm' & E & _ & R & _).
  exists d', sm'. auto.
Qed.
(** Entry 0 is the target of a link from entry 2; entry 1 is blank (and so has link 0). *)
Definition bad_chain : list Symbol :=
  Sym 0x0001 (s2b "BBB") (-1) :: sym0 :: Sym 0x0100 (s2b "PPP") 0 :: repeat sym0 816.
Lemma s_ok_check s : (is_u16 (s_addr s) /\ valid_name (s_name s) /\ (s_addr s <> 0 -> -1 <= s_link s < 819)) -> s_ok s.
Proof. exact (fun H => H). Qed.
Lemma sym0_ok : s_ok sym0.
Proof. split; [unfold is_u16; cbn; lia|]. split; [left; reflexivity | cbn; lia]. Qed.
Lemma repeat_ok n : Forall s_ok (repeat sym0 n).
Proof. apply Forall_forall. intros s H. apply repeat_spec in H. subst. apply sym0_ok. Qed.
Lemma znth_repeat (s : Symbol) n i : znth s (repeat s n) i = s.
Proof.
  unfold znth. revert n. induction (Z.to_nat i) as [|k IH]; intros [|n]; try reflexivity. cbn [repeat nth]. apply IH.
Qed.
(** Entries of a table that is blank from place 3 on. *)
Lemma three_nth a b c i : 0 <= i -> znth sym0 (a :: b :: c :: repeat sym0 816) i =
  if i =? 0 then a else if i =? 1 then b else if i =? 2 then c else sym0.
Proof.
  intros Hi. destruct (Z.eqb_spec i 0) as [->|]; [reflexivity|]. destruct (Z.eqb_spec i 1) as [->|]; [reflexivity|].
  destruct (Z.eqb_spec i 2) as [->|]; [reflexivity|].
  replace i with ((i - 3) + 1 + 1 + 1) by lia. rewrite !znth_cons_S by lia. apply znth_repeat.
Qed.
Lemma three_len a b c : zlen (a :: b :: c :: repeat sym0 816) = 819.
Proof. reflexivity. Qed.
Lemma alnum_s n : forallb (fun c => ((65 <=? c) && (c <=? 90)) || ((97 <=? c) && (c <=? 122)) || ((48 <=? c) && (c <=? 57))) n = true ->
  Forall alnum n.
Proof.
  intros H. rewrite forallb_forall in H. apply Forall_forall. intros c Hc. specialize (H c Hc). unfold alnum, letter, digit. lia.
Qed.
Lemma valid_check n : ((zlen n =? 0) || ((3 <=? zlen n) && (zlen n <=? 9) &&
    forallb (fun c => ((65 <=? c) && (c <=? 90)) || ((97 <=? c) && (c <=? 122)) || ((48 <=? c) && (c <=? 57))) n &&
    (name_bits n <=? 48))) = true -> valid_name n.
Proof.
  intros H. apply orb_prop in H as [H|H]; [left; apply zlen_zero_nil; lia|]. right.
  repeat (apply andb_prop in H as [H ?]). split; [lia|]. split; [apply alnum_s; assumption | lia].
Qed.
Lemma bad_chain_ok : table_ok bad_chain /\ map_table bad_chain /\ live_links bad_chain.
Proof.
  unfold bad_chain. split; [|split].
  - split; [apply three_len|]. split.
    + constructor; [|constructor; [apply sym0_ok|constructor; [|apply repeat_ok]]].
      * split; [unfold is_u16; cbn; lia|]. split; [apply valid_check; reflexivity | cbn; lia].
      * split; [unfold is_u16; cbn; lia|]. split; [apply valid_check; reflexivity | cbn; lia].
    + intros i Hi. rewrite three_len in Hi. unfold link_ok. rewrite three_len, three_nth by lia.
      destruct (Z.eqb_spec i 0); [cbn; lia|]. destruct (Z.eqb_spec i 1); [cbn; lia|].
      destruct (Z.eqb_spec i 2); [|cbn; lia]. intros _ _. cbn [s_link s_addr]. rewrite three_nth by lia. cbn [Z.eqb s_addr].
      split; [lia|]. split; [lia | reflexivity].
  - split.
    + intros i j Hi Hj. rewrite three_len in Hi, Hj. unfold nm. rewrite !three_nth by lia.
      destruct (Z.eqb_spec i 0); [|destruct (Z.eqb_spec i 1); [|destruct (Z.eqb_spec i 2)]];
      (destruct (Z.eqb_spec j 0); [|destruct (Z.eqb_spec j 1); [|destruct (Z.eqb_spec j 2)]]); cbn [s_name sym0];
      intros H1 H2; first [congruence | contradiction (H1 eq_refl) | vm_compute in H2; discriminate].
    + intros i Hi. rewrite three_len in Hi. unfold ad, nm. rewrite !three_nth by lia.
      destruct (Z.eqb_spec i 0); [cbn; lia|]. destruct (Z.eqb_spec i 1); [reflexivity|].
      destruct (Z.eqb_spec i 2); [cbn; lia | reflexivity].
  - intros i Hi. rewrite three_len in Hi. unfold ad, lk. rewrite !three_nth with (i := i) by lia.
    destruct (Z.eqb_spec i 0); [cbn; lia|]. destruct (Z.eqb_spec i 1); [cbn; lia|].
    destruct (Z.eqb_spec i 2); [|cbn; lia]. intros _ _. cbn [s_link]. rewrite three_nth by lia. cbn. lia.
Qed.
Definition is_err {A} (r : res A) : bool := match r with Err _ => true | _ => false end.
Lemma is_err_spec {A} (r : res A) : is_err r = true -> exists e, r = Err e.
Proof. destruct r; [discriminate | eexists; reflexivity | discriminate]. Qed.
(** The bytes written for [t] exist and do not parse. *)
Definition unreadable (t : list Symbol) : bool :=
  match fill_tables t 0 (zeros 0x1000) (zeros 0x1000) with
  | Ok (b1, b2) => (zlen b1 =? 4096) && (zlen b2 =? 4096) && is_err (parseSymbolTable b1 b2)
  | _ => false
  end.
Lemma unreadable_on_disk t (d sm : bytes) : unreadable t = true -> floppy d sm ->
  16 <= zlen (owned sm FREE) + zlen (owned sm 3) ->
  32 <= zlen (owned sm FREE) + zlen (owned sm 3) + zlen (owned sm 4) ->
  exists d' sm' e, WriteSymbolTable t (d, sm) = ((d', sm'), Ok tt) /\ ReadSymbolTable sm' d' = Err e.
Proof.
  unfold unreadable. intros H Hf H1 H2.
  destruct (fill_tables t 0 (zeros 0x1000) (zeros 0x1000)) as [[b1 b2]|e|] eqn:E; [|discriminate|discriminate].
  apply andb_prop in H as [H H3]. apply andb_prop in H as [L1 L2].
  apply is_err_spec in H3 as [e He].
  destruct (WriteSymbolTable_gen t b1 b2 d sm Hf E ltac:(lia) ltac:(lia) H1 H2) as (d' & sm' & EW & _ & _ & _ & ER & _).
  exists d', sm', e. split; [exact EW | congruence].
Qed.
Lemma bad_chain_unreadable : unreadable (fst (DeleteSymbol bad_chain (s2b "BBB"))) = true.
Proof. vm_compute. reflexivity. Qed.
(** From a blank table, by additions and deletions of distinct names. *)
Definition bad_history : list sym_op :=
  [SAdd (s2b "DUMMY") 0x0002; SAdd (s2b "PPP") 0x0100; SDel (s2b "DUMMY"); SAdd (s2b "BBB") 0x0001;
   SAdd (s2b "XXX") 0x0203; SDel (s2b "BBB"); SDel (s2b "XXX")].
Lemma bad_history_unreadable : unreadable (fst (sym_run bad_history (repeat sym0 819))) = true /\
  snd (sym_run bad_history (repeat sym0 819)) =
    [OAdded; OAdded; ODeleted true; OAdded; OAdded; ODeleted true; ODeleted true].
Proof. split; vm_compute; reflexivity. Qed.
Lemma blank_table_ok : table_ok (repeat sym0 819) /\ map_table (repeat sym0 819) /\ live_links (repeat sym0 819).
Proof.
  assert (zlen (repeat sym0 819) = 819) as HL by reflexivity.
  split; [split; [exact HL|]; split; [apply repeat_ok|]; intros i Hi; unfold link_ok; rewrite znth_repeat; cbn; lia|].
  split; [split|].
  - intros i j _ _ H. unfold nm in H. rewrite znth_repeat in H. contradiction (H eq_refl).
  - intros i _ _. unfold nm. rewrite znth_repeat. reflexivity.
  - intros i _ H. unfold ad in H. rewrite znth_repeat in H. contradiction (H eq_refl).
Qed.

(** ** C42 *)
Lemma reopen o : op_ok o -> exists o2, NewOperator (op_data o) = Ok o2 /\
  op_data o2 = op_data o /\ op_SM o2 = op_SM o /\
  (forall f, ReadFile (op_SM o2) (op_data o2) f = ReadFile (op_SM o) (op_data o) f) /\
  (ReadSymbolTable (op_SM o) (op_data o) = Ok (st_of o) -> op_ST o <> None -> o2 = o).
Proof.
  intros Hok. eexists. split; [apply NewOperator_floppy; apply (ok_fl _ Hok)|]. cbn [op_data op_SM].
  split; [reflexivity|]. split; [reflexivity|]. split; [reflexivity|].
  unfold opened_table. intros E Hn. rewrite E. destruct o as [d sm [t|]]; [reflexivity | contradiction (Hn eq_refl)].
Qed.
(** Numeric requests about files other than 3 and 4 keep the table on the disk in step with the one
    in memory. *)
Lemma st_step_other t r f s g : about r f -> g <> f -> st_file (fst (st_step t r f s)) g = st_file s g.
Proof.
  intros Ha Hg. destruct r as [i ow|n|n|]; cbn [st_step].
  - unfold st_write. destruct (_ <? _); [reflexivity|]. destruct (_ && _); [reflexivity|]. cbn [fst st_set st_file].
    destruct (Z.eqb_spec g f); [contradiction | reflexivity].
  - unfold st_delete. cbn [fst st_set st_file]. destruct (Z.eqb_spec g f); [contradiction | reflexivity].
  - reflexivity.
  - reflexivity.
Qed.
Lemma st_run_other t g h : forall s, Forall (fun rf => about (fst rf) (snd rf) /\ snd rf <> g) h ->
  st_file (fst (st_run t h s)) g = st_file s g.
Proof.
  induction h as [|[r f] h IH]; intros s Hh; cbn [st_run]; [reflexivity|].
  inversion Hh as [|? ? [Ha Hg] Hh']; subst. cbn [fst snd] in *.
  pose proof (st_step_other t r f s g Ha (not_eq_sym Hg)) as H1. destruct (st_step t r f s) as [s1 p]. cbn [fst] in H1.
  specialize (IH s1 Hh'). destruct (st_run t h s1) as [s2 ps]. cbn [fst] in *. congruence.
Qed.
Lemma reopen_same d o h : zlen d = 143360 -> NewOperator d = Ok o -> no_numeric_symbols (st_of o) ->
  Forall (fun rf => about (fst rf) (snd rf) /\ legal (snd rf) /\ snd rf <> 3 /\ snd rf <> 4) h ->
  NewOperator (op_data (fst (op_run (map fst h) o))) = Ok (fst (op_run (map fst h) o)).
Proof.
  intros Hd E Hnn Hh. destruct (NewOperator_ok d o Hd E) as (Hok & H1 & H2 & H3).
  assert (same_store (store_of (op_data o) (op_SM o)) (store_of (op_data o) (op_SM o))) as HS by (split; [auto | reflexivity]).
  assert (Forall (fun rf => about (fst rf) (snd rf) /\ legal (snd rf)) h) as Hh1.
  { eapply Forall_impl; [|exact Hh]. intros a (A1 & A2 & _). auto. }
  destruct (op_run_refines h o _ Hok Hnn Hh1 HS) as (_ & Hok' & HST & [HC _]).
  set (o' := fst (op_run (map fst h) o)) in *.
  assert (forall g, g = 3 \/ g = 4 -> content (op_data o') (op_SM o') g = content (op_data o) (op_SM o) g) as Hg.
  { intros g Hg. pose proof (HC g ltac:(unfold legal; lia)) as H. cbn [store_of st_file] in H. rewrite H.
    rewrite st_run_other; [reflexivity|]. eapply Forall_impl; [|exact Hh]. intros a (A1 & _ & A3 & A4). split; [exact A1 | lia]. }
  rewrite (NewOperator_floppy _ _ (ok_fl _ Hok')). f_equal.
  assert (opened_table (op_data o') (op_SM o') = op_ST o') as ET.
  { rewrite HST, H3. unfold opened_table. rewrite <- H1. rewrite <- H1 in H2. rewrite <- H2.
    rewrite (ReadSymbolTable_same (op_data o) (op_SM o) (op_data o') (op_SM o')); auto.
    - apply (fl_len _ _ (ok_fl _ Hok)).
    - apply (fl_len _ _ (ok_fl _ Hok')). }
  rewrite ET. destruct o' as [a b c]; reflexivity.
Qed.

(** ** C43 *)
Lemma SectorsByFile_owned sm g : legal g -> zlen (SectorsByFile sm g) = zlen (owned sm g).
Proof.
  intros Hg. unfold SectorsByFile.
  assert (existsb (Z.eqb g) file_numbers = true) as ->; [|rewrite SectorsForFile_owned, zlen_map; reflexivity].
  apply existsb_exists. exists g. split; [|apply Z.eqb_refl]. rewrite file_numbers_eq. apply in_map_iff. exists (g - 1).
  unfold legal in Hg. split; [lia|]. apply In_zrange. lia.
Qed.
Lemma Catalog_spec o : Catalog o = Ok (map (fun f => Desc (shown (st_of o) f) (shown_full (st_of o) f)
    (zlen (owned (op_SM o) f)) 0 (256 * zlen (owned (op_SM o) f)) false FiletypeBinary)
  (filter (fun f => negb (zlen (owned (op_SM o) f) =? 0)) (map (fun k => k + 1) (zrange 253)))).
Proof.
  unfold Catalog. f_equal.
  rewrite (flat_map_filter (fun file => zlen (SectorsByFile (op_SM o) file) =? 0)
               (fun file => Desc (NameForFile file (st_of o)) (FullnameForFile file (st_of o)) (zlen (SectorsByFile (op_SM o) file)) 0
                             (zlen (SectorsByFile (op_SM o) file) * 256) false FiletypeBinary)).
  rewrite file_numbers_eq.
  assert (forall g, In g (map (fun k => k + 1) (zrange 253)) -> legal g) as Hleg.
  { intros g Hg. apply in_map_iff in Hg as (k & <- & Hk). apply In_zrange in Hk. unfold legal. lia. }
  assert (filter (fun x => negb (zlen (SectorsByFile (op_SM o) x) =? 0)) (map (fun k => k + 1) (zrange 253)) =
          filter (fun f0 => negb (zlen (owned (op_SM o) f0) =? 0)) (map (fun k => k + 1) (zrange 253))) as ->.
  { apply filter_ext_in. intros g Hg. apply Hleg in Hg. rewrite SectorsByFile_owned by exact Hg. reflexivity. }
  apply map_ext_in. intros g Hg. apply filter_In in Hg as [Hg _]. apply Hleg in Hg.
  destruct (NameForFile_shown g (st_of o) Hg) as [-> ->]. rewrite SectorsByFile_owned by exact Hg.
  f_equal. lia.
Qed.

(** ** C39: names shown in the catalog *)
Lemma shown_resolves t f : legal f ->
  (symbol_for t f = None -> FileForName t (shown t f) = Ok f) /\
  (forall n, symbol_for t f = Some n -> n <> [] -> (forall g, ~ numeric n g) -> names_unique t ->
     FileForName t (shown t f) = Ok f).
Proof.
  intros Hf. split.
  - intros E. unfold shown. rewrite E. apply FileForName_resolves. left. apply printed_numeric. exact Hf.
  - intros n E Hn Hnn Hu. unfold shown. rewrite E. apply FileForName_resolves. right. split; [exact Hnn|]. split; [exact Hf|].
    unfold symbol_for in E. destruct (find (fun s => s_addr s =? 0xDF00 + f) t) as [s|] eqn:Ef; [|discriminate].
    inversion E; subst n. apply find_some in Ef as [Hin Ha]. apply (In_znth sym0) in Hin as (i & Hi & Ei).
    exists i. split; [|unfold ad; rewrite Ei; lia]. split; [exact Hi|]. unfold nm at 1. rewrite Ei.
    split; [apply equal_fold_refl|]. intros j Hj. destruct (equal_fold (nm t j) (s_name s)) eqn:B; [|reflexivity].
    exfalso. assert (i = j); [|lia]. apply Hu; [lia | lia| |].
    + unfold nm. rewrite Ei. exact Hn.
    + unfold nm at 1. rewrite Ei, equal_fold_sym. exact B.
Qed.

(** ** C46 *)
Lemma valid_no_colon n : Forall alnum n -> no_colon n.
Proof. intros Ha Hin. rewrite Forall_forall in Ha. specialize (Ha 58 Hin). unfold alnum, letter, digit in Ha. lia. Qed.
Lemma beq_nil_false {n : bytes} : n <> [] -> beq n [] = false.
Proof. intros H. destruct (beq n []) eqn:B; [apply beq_eq in B; contradiction | reflexivity]. Qed.
Lemma PCS_new t n : Forall alnum n -> n <> [] -> ByName t n = 0 -> (forall v, hex_number n v -> 65536 <= v) ->
  (valid_name n -> exists e, ParseCompoundSymbol t n = Err e) /\
  (~ valid_name n -> ParseCompoundSymbol t n = Ok (0, 0, n)).
Proof.
  intros Ha Hn Hb Hh. unfold ParseCompoundSymbol. rewrite (beq_nil_false Hn), (split_none n (valid_no_colon n Ha)), Hb.
  cbn [Z.eqb negb]. rewrite (proj2 (parse_uint16_none n) Hh). split.
  - intros Hv. destruct (encode_valid n Hv) as (six & E & _). rewrite E. eexists; reflexivity.
  - intros Hv. destruct (encode_invalid n Ha Hv) as (e & E). rewrite E. reflexivity.
Qed.
Lemma PCS_simple t n : no_colon n -> n <> [] ->
  (ByName t n <> 0 -> ParseCompoundSymbol t n = Ok (0, ByName t n, n)) /\
  (ByName t n = 0 -> forall v, hex_number n v -> v < 65536 -> ParseCompoundSymbol t n = Ok (v, 0, [])).
Proof.
  intros Hc Hn. unfold ParseCompoundSymbol. rewrite (beq_nil_false Hn), (split_none n Hc). split.
  - intros Hb. cbv zeta. replace (ByName t n =? 0) with false by lia. reflexivity.
  - intros Hb v Hv Hl. rewrite Hb. cbn [Z.eqb negb]. rewrite (proj2 (parse_uint16_some n v) (conj Hv Hl)). reflexivity.
Qed.
Lemma PCS_compound t p q : no_colon p -> no_colon q ->
  (forall v, hex_number p v -> v < 65536 -> q <> [] -> valid_name q ->
     ParseCompoundSymbol t (p ++ 58 :: q) = Ok (v, ByName t q, q)) /\
  ((forall v, hex_number p v -> 65536 <= v) \/ q = [] \/ (Forall alnum q /\ ~ valid_name q) ->
     exists e, ParseCompoundSymbol t (p ++ 58 :: q) = Err e).
Proof.
  intros Hp Hq. unfold ParseCompoundSymbol. assert (beq (p ++ 58 :: q) [] = false) as ->.
  { apply beq_nil_false. intros E. apply app_eq_nil in E as [_ E]. discriminate. }
  rewrite (split_app p q Hp), (split_none q Hq). split.
  - intros v Hv Hl Hne Hval. assert (p <> []) as Hpn by (apply hex_number_iff in Hv; tauto).
    rewrite (beq_nil_false Hpn), (beq_nil_false Hne), (proj2 (parse_uint16_some p v) (conj Hv Hl)).
    destruct (encode_valid q Hval) as (six & E & _). rewrite E. reflexivity.
  - intros H. destruct (beq p []); [eexists; reflexivity|]. destruct (beq q []) eqn:Bq; [eexists; reflexivity|].
    destruct H as [H|[->|[Ha Hv]]]; [|discriminate|].
    + rewrite (proj2 (parse_uint16_none p) H). eexists; reflexivity.
    + destruct (parse_uint16_hex p) as [v|]; [|eexists; reflexivity].
      destruct (encode_invalid q Ha Hv) as (e & E). rewrite E. eexists; reflexivity.
Qed.
Lemma PCS_errors t : (exists e, ParseCompoundSymbol t [] = Err e) /\
  forall p q r, exists e, ParseCompoundSymbol t (p ++ 58 :: q ++ 58 :: r) = Err e.
Proof.
  split; [eexists; reflexivity|]. intros p q r. unfold ParseCompoundSymbol.
  destruct (beq (p ++ 58 :: q ++ 58 :: r) []); [eexists; reflexivity|].
  assert (forall x (a : bytes), exists p0 l, split_colon (x ++ 58 :: a) = p0 :: l /\ l <> []) as Hone.
  { clear. intros x. induction x as [|c x IH] using (fun P Hn Hc => list_ind P Hn Hc).
    - intros a. rewrite (split_app [] a) by (intros []). exists [], (split_colon a). split; [reflexivity | apply split_nonempty].
    - intros a. destruct (colon_cases (c :: x)) as [Hnc|(u & w & E & Hu)].
      + rewrite (split_app _ a Hnc). eexists _, _. split; [reflexivity | apply split_nonempty].
      + rewrite E. rewrite <- app_assoc. cbn [app]. rewrite (split_app u _ Hu). eexists _, _. split; [reflexivity | apply split_nonempty]. }
  assert (exists p0 p1 p2 l, split_colon (p ++ 58 :: q ++ 58 :: r) = p0 :: p1 :: p2 :: l) as (p0 & p1 & p2 & l & ->); [|eexists; reflexivity].
  destruct (colon_cases p) as [Hnc|(u & w & E & Hu)].
  - rewrite (split_app p _ Hnc). destruct (Hone q r) as (p1 & l & E & Hl). rewrite E.
    destruct l as [|p2 l]; [contradiction (Hl eq_refl)|]. eexists _, _, _, _. reflexivity.
  - rewrite E. rewrite <- app_assoc. cbn [app]. rewrite (split_app u _ Hu).
    destruct (Hone w (q ++ 58 :: r)) as (p1 & l & E1 & Hl). rewrite E1.
    destruct l as [|p2 l]; [contradiction (Hl eq_refl)|]. eexists _, _, _, _. reflexivity.
Qed.

(** ** The disk of the examples *)
Definition ex_map : bytes := repeat 254 12 ++ repeat 255 548.
Definition ex_blank : bytes := upd (zeros 143360) 2512 ex_map.
Lemma ex_floppy : floppy ex_blank ex_map.
Proof.
  constructor.
  - vm_compute. reflexivity.
  - assert (zlen ex_map = 560) as HL by reflexivity. apply (proj1 (Verify_spec ex_map HL)). vm_compute. reflexivity.
  - unfold stored_map, ex_blank. replace 3072 with (2512 + zlen ex_map) by reflexivity. apply sub_upd_same; vm_compute; try discriminate; reflexivity.
Qed.
(** A table naming files 5, 3 and 4 (the last two hold the table itself), and a disk with it. *)
Definition ex_table : list Symbol :=
  Sym 0xDF05 (s2b "FHELLO") (-1) :: Sym 0xDF03 (s2b "FSYMTBL1") (-1) :: Sym 0xDF04 (s2b "FSYMTBL2") (-1) :: repeat sym0 816.
Lemma ex_table_ok : table_ok ex_table /\ map_table ex_table /\ live_links ex_table /\ map canon ex_table = ex_table.
Proof.
  unfold ex_table. split; [|split; [|split]].
  - split; [apply three_len|]. split.
    + do 3 (constructor; [split; [unfold is_u16; cbn; lia|]; split; [apply valid_check; reflexivity | cbn; lia]|]). apply repeat_ok.
    + intros i Hi. rewrite three_len in Hi. unfold link_ok. rewrite three_len, three_nth by lia.
      destruct (Z.eqb_spec i 0); [cbn; lia|]. destruct (Z.eqb_spec i 1); [cbn; lia|].
      destruct (Z.eqb_spec i 2); cbn; lia.
  - split.
    + intros i j Hi Hj. rewrite three_len in Hi, Hj. unfold nm. rewrite !three_nth by lia.
      destruct (Z.eqb_spec i 0); [|destruct (Z.eqb_spec i 1); [|destruct (Z.eqb_spec i 2)]];
      (destruct (Z.eqb_spec j 0); [|destruct (Z.eqb_spec j 1); [|destruct (Z.eqb_spec j 2)]]); cbn [s_name sym0];
      intros H1 H2; first [congruence | contradiction (H1 eq_refl) | vm_compute in H2; discriminate].
    + intros i Hi. rewrite three_len in Hi. unfold ad, nm. rewrite !three_nth by lia.
      destruct (Z.eqb_spec i 0); [cbn; lia|]. destruct (Z.eqb_spec i 1); [cbn; lia|].
      destruct (Z.eqb_spec i 2); [cbn; lia | reflexivity].
  - intros i Hi. rewrite three_len in Hi. unfold ad, lk. rewrite !three_nth with (i := i) by lia.
    destruct (Z.eqb_spec i 0); [cbn; lia|]. destruct (Z.eqb_spec i 1); [cbn; lia|].
    destruct (Z.eqb_spec i 2); cbn; lia.
  - vm_compute. reflexivity.
Qed.
Lemma ex_free : zlen (owned ex_map FREE) = 548 /\ (forall f, legal f -> owned ex_map f = []).
Proof.
  split; [vm_compute; reflexivity|]. intros f Hf. apply zlen_zero_nil.
  assert (forall l, (forall k, In k l -> znth 0 ex_map k <> f) -> filter (fun k => znth 0 ex_map k =? f) l = []) as H.
  { induction l as [|k l IH]; intros H; [reflexivity|]. cbn [filter]. pose proof (H k (or_introl eq_refl)).
    replace (znth 0 ex_map k =? f) with false by lia. apply IH. intros k' Hk'. apply H. right; exact Hk'. }
  unfold owned. rewrite H; [reflexivity|]. intros k Hk E. apply In_zrange in Hk.
  assert (In (znth 0 ex_map k) ex_map) as Hin by (apply znth_In; exact Hk).
  unfold ex_map in Hin. apply in_app_or in Hin. unfold legal in Hf. destruct Hin as [Hin|Hin]; apply repeat_spec in Hin; unfold ex_map in E; lia.
Qed.
Lemma ex_opened : exists d o, zlen d = 143360 /\ NewOperator d = Ok o /\ op_ST o = Some ex_table /\
  zlen (owned (op_SM o) FREE) = 516 /\
  (forall f, legal f -> f <> 3 -> f <> 4 -> owned (op_SM o) f = []) /\
  zlen (owned (op_SM o) 3) = 16 /\ zlen (owned (op_SM o) 4) = 16.
Proof.
  destruct ex_free as [F1 F2]. destruct ex_table_ok as (T1 & T2 & T3 & T4).
  destruct (WriteSymbolTable_ok ex_table ex_blank ex_map ex_floppy T1) as (d & sm & _ & Hf & HR & Hoth & H3 & H4 & H5).
  { rewrite F1, !F2, (@zlen_nil Z) by (unfold legal; lia). lia. }
  { rewrite F1, !F2, (@zlen_nil Z) by (unfold legal; lia). lia. }
  rewrite F1, !F2, (@zlen_nil Z) in H5 by (unfold legal; lia).
  exists d. eexists. split; [apply (fl_len _ _ Hf)|]. split; [apply NewOperator_floppy; exact Hf|]. cbn [op_ST op_SM].
  split; [unfold opened_table; rewrite HR; f_equal; exact T4|]. split; [lia|]. split; [|split; assumption].
  intros f Hl N3 N4. destruct (Hoth f N3 N4 Hl) as [-> _]. apply F2. exact Hl.
Qed.

(** Names after adding an absent name. *)
Lemma AddSymbol_absent_names t n a t1 : (forall j, 0 <= j < zlen t -> equal_fold n (nm t j) = false) ->
  AddSymbol t n a = (t1, Ok tt) -> forall j, 0 <= j < zlen t -> nm t1 j = n \/ nm t1 j = nm t j.
Proof.
  intros Habs E j Hj. unfold AddSymbol in E. destruct (Z.eqb_spec a 0) as [|Ha0]; [discriminate|].
  pose proof (add_scan_spec t n (addrHash a) 0 (-1) ltac:(lia)) as Hsc.
  pose proof (find_name_spec t n 0) as Hfn. destruct (find_name t n 0) as [k|].
  { rewrite Z.sub_0_r in Hfn. destruct Hfn as (K1 & K2 & _). rewrite Habs in K2 by lia. discriminate. }
  destruct Hsc as (q & Eq & Hq). rewrite Eq in E.
  destruct Hq as [(Hx & _)|[(_ & Hq & _)|(_ & -> & _)]]; [contradiction (Hx eq_refl)| |discriminate].
  unfold add_at in E. replace (q =? -1) with false in E by lia. apply (f_equal fst) in E. cbn [fst] in E. subst t1.
  pose proof (proj1 (link_end_spec t (addrHash a) q)) as HL.
  destruct (keys_nth _ _ (link_end_keys t (addrHash a) q)) as [_ Hk].
  destruct (Hk j) as [Hn _]. unfold nm in *. rewrite znth_zset by lia. destruct (j =? q); [left; reflexivity | right; exact Hn].
Qed.

(** ** When a new named file is accepted *)
Lemma PutFile_new_ok i ow o n t : op_ok o -> op_ST o = Some t ->
  ReadSymbolTable (op_SM o) (op_data o) = Ok t -> map_table t ->
  (forall j, 0 <= j < zlen t -> valid_name (nm t j)) ->
  d_name (fi_desc_ i) = n -> d_type (fi_desc_ i) = FiletypeBinary -> d_length (fi_desc_ i) = zlen (fi_data i) ->
  fi_data i <> [] -> n <> [] -> valid_name n -> (forall g, ~ numeric n g) -> ByName t n = 0 -> unused t <> 0 ->
  nsec (fi_data i) <= zlen (owned (op_SM o) FREE) -> FirstFreeFile (op_SM o) <> 0 ->
  exists o', PutFile i ow o = (o', Ok false).
Proof.
  intros Hok Est HR Hmap Hnames En Ht Hl Hne Hn0 Hv Hnn Hb Hun Hfree Hff. subst n.
  set (n := d_name (fi_desc_ i)) in *.
  assert (no_colon n) as Hnc.
  { destruct Hv as [Hx|(_ & Ha & _)]; [contradiction | apply valid_no_colon; exact Ha]. }
  assert (st_of o = t) as Es by (unfold st_of; rewrite Est; reflexivity).
  pose proof (proj1 (ByName_0 t n Hmap Hn0) Hb) as Habs.
  assert (forall f, ~ resolves t n f) as Hno.
  { intros f [Hx|[_ (_ & k & (Hk & Ek & _) & _)]]; [exact (Hnn f Hx)|]. rewrite equal_fold_sym, Habs in Ek by exact Hk. discriminate. }
  unfold PutFile. rewrite Ht, Hl, !Z.eqb_refl. cbn [negb]. fold n. rewrite Es.
  destruct (FilesForCompoundName_simple t n Hnc) as (_ & _ & F3). rewrite (F3 Hno), Est.
  rewrite (beq_nil_false Hn0). destruct (encode_valid n Hv) as (six & Esix & _). rewrite Esix. cbn [rbind]. cbv zeta.
  rewrite Z.eqb_refl.
  destruct (FirstFreeFile_spec (op_SM o)) as [(Hlf & Hof & _)|[H0 _]]; [|contradiction].
  set (num := FirstFreeFile (op_SM o)) in *. clearbody num. replace (num =? 0) with false by lia.
  destruct (table_files _ _ _ (fl_len _ _ (ok_fl _ Hok)) HR) as [T3 T4].
  assert (num <> 3 /\ num <> 4) as [N3 N4].
  { split; intros ->; rewrite Hof, (@zlen_nil Z) in *; lia. }
  unfold sbind. unfold on_disk at 1.
  destruct (WriteFile_ok num (fi_data i) ow (op_data o) (op_SM o) (fl_len _ _ (ok_fl _ Hok)) (fl_ver _ _ (ok_fl _ Hok)) Hlf Hne)
    as (d1 & sm1 & E1 & Fl1 & _ & _ & Fr1 & O1 & _).
  { rewrite Hof, (@zlen_nil Z). lia. }
  { intros Hx. contradiction. }
  rewrite E1, Hof. cbn [op_ST]. change (0 <? zlen (@nil Z)) with false. replace (0 =? num) with false by (unfold legal in Hlf; lia). cbn [negb andb].
  assert (u16 (0xDF00 + num) = 0xDF00 + num) as Eu by (unfold u16, legal in *; lia). rewrite Eu.
  rewrite ?Est. change (st_of (Op d1 sm1 (Some t))) with t. cbn [op_data op_SM].
  destruct (AddSymbol_map t n (0xDF00 + num) Hmap Hn0) as (t1 & r1 & EA & _ & L1 & HA).
  destruct HA as [(Er & _)|(_ & _ & [H0|[_ H0]])]; [|unfold legal in Hlf; lia | contradiction]. subst r1. rewrite EA.
  unfold on_disk. cbn [op_data op_SM op_ST].
  assert (Forall (fun s => valid_name (s_name s)) t1) as Hv1.
  { apply Forall_forall. intros s Hs. apply (In_znth sym0) in Hs as (j & Hj & <-).
    destruct (AddSymbol_absent_names t n _ t1 Habs EA j ltac:(lia)) as [En|En]; unfold nm in En; rewrite En; [exact Hv|].
    apply Hnames. lia. }
  rewrite (ok_st _ Hok t Est) in L1.
  destruct (fill_tables_spec t1 0 (zeros 0x1000) (zeros 0x1000) Hv1 ltac:(lia) ltac:(lia) eq_refl eq_refl)
    as (b1 & b2 & Ef & Lb1 & Lb2 & _).
  destruct (WriteSymbolTable_gen t1 b1 b2 d1 sm1 Fl1 Ef Lb1 Lb2) as (d2 & sm2 & E2 & _).
  { rewrite (O1 3) by (unfold FREE; lia). pose proof (zlen_nonneg (owned sm1 FREE)). lia. }
  { rewrite (O1 3), (O1 4) by (unfold FREE; lia). pose proof (zlen_nonneg (owned sm1 FREE)). lia. }
  rewrite E2. eexists. reflexivity.
Qed.
