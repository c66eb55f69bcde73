(** SupermonOpProofs.v -- the NakedOS operator implements the abstract store. *)
From Verif Require Import GoBase GoLemmas DiskModel TypesModel
  SupermonModel SupermonSpec SupermonTableSpec SupermonStoreSpec SupermonProofs SupermonSymProofs
  SupermonTabProofs SupermonLinkProofs SupermonNameProofs.
From Coq Require Import ZifyBool ZifyNat Permutation.
Ltac Zify.zify_post_hook ::= Z.div_mod_to_equations.
Local Opaque zrange.

(** ** Deleting from the map and persisting *)
Lemma Persist_floppy (d sm : bytes) : zlen d = 143360 -> verified sm ->
  Persist sm d = (upd d 2512 sm, Ok tt) /\ floppy (upd d 2512 sm) sm /\
  (forall g, legal g -> content (upd d 2512 sm) sm g = content d sm g).
Proof.
  intros Hd Hv. pose proof (v_len _ Hv) as Hl. split; [apply Persist_ok; lia|]. split.
  - constructor; [rewrite zlen_upd; lia | exact Hv|]. unfold stored_map.
    replace 3072 with (2512 + zlen sm) by lia. apply sub_upd_same; lia.
  - intros g Hg. apply content_same; [reflexivity|]. intros k Hk. apply In_owned in Hk as [Hk1 Hk2].
    unfold legal in Hg. assert (~ (0 <= k < 12)) as Hk3.
    { intros Hk3. rewrite (v_res _ Hv k Hk3) in Hk2. unfold RESERVED in Hk2. lia. }
    unfold sec. apply sub_upd_after; lia.
Qed.
Lemma Delete_disk (d sm : bytes) f : floppy d sm -> legal f ->
  Persist (SMDelete sm f) d = (upd d 2512 (SMDelete sm f), Ok tt) /\
  floppy (upd d 2512 (SMDelete sm f)) (SMDelete sm f) /\
  content (upd d 2512 (SMDelete sm f)) (SMDelete sm f) f = [] /\
  owned (SMDelete sm f) f = [] /\
  (forall g, g <> f -> legal g -> owned (SMDelete sm f) g = owned sm g /\
     content (upd d 2512 (SMDelete sm f)) (SMDelete sm f) g = content d sm g) /\
  zlen (owned (SMDelete sm f) FREE) = zlen (owned sm FREE) + zlen (owned sm f).
Proof.
  intros [Hd Hv Hm] Hf. pose proof (v_len _ Hv) as Hl.
  assert (f <> FREE) as HfF by (unfold legal, FREE in *; lia).
  pose proof (verified_SMDelete sm f Hv Hf) as Hv'.
  destruct (Persist_floppy d (SMDelete sm f) Hd Hv') as (E & Fl & C).
  split; [exact E|]. split; [exact Fl|].
  pose proof (owned_SMDelete_same sm f Hl HfF) as O0.
  split; [unfold content; rewrite O0; reflexivity|]. split; [exact O0|]. split; [|apply owned_SMDelete_free; assumption].
  intros g Hg Hlg. assert (owned (SMDelete sm f) g = owned sm g) as Og by (apply owned_SMDelete_other; [exact Hl | exact Hg | unfold legal, FREE in *; lia]).
  split; [exact Og|]. rewrite C by exact Hlg. unfold content. rewrite Og. reflexivity.
Qed.

(** ** The invariant of an open operator *)
Record op_ok (o : Operator) : Prop := {
  ok_fl : floppy (op_data o) (op_SM o);
  ok_st : forall t, op_ST o = Some t -> zlen t = 819
}.

Lemma content_nil_iff (d sm : bytes) f : zlen d = 143360 -> (content d sm f = [] <-> owned sm f = []).
Proof.
  intros Hd. pose proof (zlen_content d sm f Hd) as H. split; intros E.
  - rewrite E, (@zlen_nil Z) in H. apply zlen_zero_nil. lia.
  - unfold content. rewrite E. reflexivity.
Qed.

(** ** PutFile: what happens for each meaning of the name *)
Definition put_ok (i : FileInfo) : Prop :=
  fi_data i <> [] /\ d_type (fi_desc_ i) = FiletypeBinary /\ d_length (fi_desc_ i) = zlen (fi_data i).

Lemma WriteFile_cases f c ow (d sm : bytes) : floppy d sm -> legal f -> c <> [] ->
  (zlen (owned sm FREE) + zlen (owned sm f) < nsec c /\ WriteFile f c ow (d, sm) = ((d, sm), Err EOutOfSpace)) \/
  (nsec c <= zlen (owned sm FREE) + zlen (owned sm f) /\ owned sm f <> [] /\ ow = false /\
     WriteFile f c ow (d, sm) = ((d, sm), Err EFileExists)) \/
  (nsec c <= zlen (owned sm FREE) + zlen (owned sm f) /\ (owned sm f <> [] -> ow = true) /\
   exists d' sm', WriteFile f c ow (d, sm) = ((d', sm'), Ok (0 <? zlen (owned sm f))) /\
    floppy d' sm' /\
    content d' sm' f = padded c /\
    zlen (owned sm' f) = nsec c /\
    zlen (owned sm' FREE) = zlen (owned sm FREE) + zlen (owned sm f) - nsec c /\
    (forall g, g <> f -> legal g -> owned sm' g = owned sm g /\ content d' sm' g = content d sm g)).
Proof.
  intros Hfl Hf Hc. pose proof (v_len _ (fl_ver _ _ Hfl)) as Hl.
  destruct (Z_lt_le_dec (zlen (owned sm FREE) + zlen (owned sm f)) (nsec c)) as [H|H].
  { left. split; [exact H|]. apply WriteFile_space; assumption. }
  right. assert (owned sm f = [] \/ owned sm f <> []) as [Eo|Eo] by (destruct (owned sm f); [left; reflexivity | right; discriminate]).
  - right. split; [exact H|]. split; [congruence|]. apply WriteFile_step; auto; congruence.
  - destruct ow.
    + right. split; [exact H|]. split; [reflexivity|]. apply WriteFile_step; auto.
    + left. split; [exact H|]. split; [exact Eo|]. split; [reflexivity|]. apply WriteFile_exists; auto.
Qed.

(** PutFile on an open disk never panics (non-empty contents) and keeps the invariant. *)
Lemma PutFile_inv i ow o o' r : op_ok o -> fi_data i <> [] -> PutFile i ow o = (o', r) ->
  op_ok o' /\ r <> Panic.
Proof.
  intros Hok Hne. unfold PutFile.
  destruct (negb (d_type (fi_desc_ i) =? FiletypeBinary)).
  { intros E; inversion E; subst. split; [assumption | discriminate]. }
  destruct (negb (d_length (fi_desc_ i) =? zlen (fi_data i))).
  { intros E; inversion E; subst. split; [assumption | discriminate]. }
  assert (Hnp : FilesForCompoundName (st_of o) (d_name (fi_desc_ i)) <> Panic /\
    forall nf mf sy, FilesForCompoundName (st_of o) (d_name (fi_desc_ i)) = Ok (nf, mf, sy) -> nf = 0 \/ legal nf).
  { generalize (d_name (fi_desc_ i)) as s. generalize (st_of o) as t. intros t s. unfold FilesForCompoundName.
    destruct (split_colon s) as [|p0 [|p1 [|p2 l]]].
    - split; [discriminate | intros; discriminate].
    - destruct (parseAddress_cases s) as [(f & Hn & E)|[Hn E]]; rewrite E.
      + destruct Hn as [Hf _]. unfold legal in *. replace (f =? 0) with false by lia. cbn [negb].
        split; [discriminate|]. intros nf mf sy H; inversion H; subst. right; lia.
      + cbn [Z.eqb negb]. destruct (FileForName_spec t s) as [(f & E2 & _ & Hl)|[E2 _]]; rewrite E2.
        * split; [discriminate|]. intros nf mf sy H; inversion H; subst. right; exact Hl.
        * split; [discriminate|]. intros nf mf sy H; inversion H; subst. left; reflexivity.
    - destruct (parseAddress_cases p0) as [(f & Hn & E)|[Hn E]]; rewrite E.
      + destruct Hn as [Hf _]. pose proof Hf as Hf'. unfold legal in Hf. replace (f =? 0) with false by lia.
        destruct (negb (parseAddressFilename p1 =? 0)); [split; [discriminate | intros; discriminate]|].
        destruct (FileForName_spec t p1) as [(g & E2 & _ & Hl)|[E2 _]]; rewrite E2;
          (split; [discriminate|]; intros nf mf sy H; inversion H; subst; right; exact Hf').
      + cbn [Z.eqb]. split; [discriminate | intros; discriminate].
    - split; [discriminate | intros; discriminate]. }
  destruct Hnp as [Hnp Hlegal].
  destruct (FilesForCompoundName (st_of o) (d_name (fi_desc_ i))) as [[[nf mf] sy]|e|] eqn:EF.
  2:{ intros E; inversion E; subst. split; [assumption | discriminate]. }
  2:{ contradiction. }
  specialize (Hlegal nf mf sy eq_refl).
  destruct (if beq sy [] then Ok tt else match op_ST o with
             | None => Err (EOther "cannot use symbolic names on disks without valid symbol tables")
             | Some _ => _ <- encodeSymbol sy ;; Ok tt end) as [u|e|] eqn:EC.
  2:{ intros E; inversion E; subst. split; [assumption | discriminate]. }
  2:{ exfalso. destruct (beq sy []); [discriminate|]. destruct (op_ST o); [|discriminate].
      destruct (encodeSymbol_total sy) as [(six & Es & _)|(e & Es)]; rewrite Es in EC; discriminate. }
  cbv zeta. set (num := if nf =? 0 then FirstFreeFile (op_SM o) else nf).
  destruct (Z.eqb_spec num 0) as [En|En]; [intros E; inversion E; subst; split; [assumption | discriminate]|].
  assert (legal num) as Hln.
  { unfold num in *. destruct (Z.eqb_spec nf 0); [|destruct Hlegal; [contradiction | assumption]].
    destruct (FirstFreeFile_spec (op_SM o)) as [[H _]|[H _]]; [exact H | contradiction]. }
  unfold sbind. unfold on_disk at 1.
  destruct Hok as [Hfl Hst].
  destruct (WriteFile_cases num (fi_data i) ow (op_data o) (op_SM o) Hfl Hln Hne)
    as [(_ & E)|[(_ & _ & _ & E)|(_ & _ & d' & sm' & E & Fl & _ & _ & _ & _)]]; rewrite E.
  { intros H; inversion H; subst. split; [constructor; assumption | discriminate]. }
  { intros H; inversion H; subst. split; [constructor; assumption | discriminate]. }
  destruct (negb (mf =? num) && negb (beq sy [])) eqn:Es.
  2:{ intros H; inversion H; subst. split; [constructor; assumption | discriminate]. }
  destruct (op_ST o) as [t|] eqn:Et.
  2:{ destruct (beq sy []); [rewrite andb_false_r in Es; discriminate | discriminate]. }
  assert (Hu : st_of (Op d' sm' (Some t)) = t) by reflexivity. rewrite Hu.
  destruct (AddSymbol t sy (u16 (0xDF00 + num))) as [t1 r1] eqn:EA. cbv zeta. cbn [op_data op_SM].
  assert (zlen t1 = 819) as L1.
  { pose proof (zlen_AddSymbol t sy (u16 (0xDF00 + num))) as HL. rewrite EA in HL. cbn [fst] in HL. rewrite HL. apply Hst. reflexivity. }
  assert (forall t0, Some t1 = Some t0 -> zlen t0 = 819) as Hst1 by (intros t0 H; inversion H; subst; exact L1).
  destruct r1 as [[]|e|].
  - unfold on_disk. cbn [op_data op_SM op_ST].
    destruct (WriteSymbolTable_any t1 d' sm' Fl ltac:(lia)) as (d2 & sm2 & r2 & E2 & Hr2 & Fl2 & _). rewrite E2.
    destruct r2 as [[]|e|]; intros H; inversion H; subst; (split; [constructor; assumption|]); try discriminate; contradiction.
  - intros H; inversion H; subst. split; [constructor; assumption | discriminate].
  - assert (Ok tt <> @Panic unit) as Hx by discriminate.
    destruct (AddSymbol_fail _ _ _ _ _ EA) as (_ & (e & He) & _); [discriminate | discriminate].
Qed.

Lemma Delete_inv n o o' r : op_ok o -> Delete n o = (o', r) -> op_ok o' /\ r <> Panic.
Proof.
  intros [Hfl Hst]. unfold Delete.
  destruct (FileForName_spec (st_of o) n) as [(f & E & _ & Hf)|[E _]]; rewrite E.
  2:{ intros H; inversion H; subst. split; [constructor; assumption | discriminate]. }
  cbv zeta. destruct (Delete_disk (op_data o) (op_SM o) f Hfl Hf) as (EP & Fl & _). rewrite EP.
  destruct (op_ST o) as [t|] eqn:Et.
  2:{ intros H; inversion H; subst. split; [constructor; [exact Fl | intros; discriminate] | discriminate]. }
  pose proof (zlen_DeleteSymbol t n) as HL. rewrite (Hst t eq_refl) in HL.
  destruct (DeleteSymbol t n) as [t1 b]. cbn [fst] in HL.
  assert (forall t0, Some t1 = Some t0 -> zlen t0 = 819) as Hst1 by (intros t0 H; inversion H; subst; exact HL).
  destruct b.
  - unfold sbind, on_disk. cbn [op_data op_SM op_ST].
    destruct (WriteSymbolTable_any t1 _ _ Fl ltac:(lia)) as (d2 & sm2 & r2 & E2 & Hr2 & Fl2 & _). rewrite E2.
    destruct r2 as [[]|e|]; intros H; inversion H; subst; (split; [constructor; assumption|]); try discriminate; contradiction.
  - intros H; inversion H; subst. split; [constructor; assumption | discriminate].
Qed.

(** ** Opening *)
Lemma read_entry_link b1 b2 k s : read_entry b1 b2 k = Ok s -> s_addr s <> 0 -> -1 <= s_link s < 819.
Proof.
  unfold read_entry. destruct (_ =? 0); [intros H; inversion H; subst; cbn; lia|].
  set (la := le16 _ _). clearbody la.
  destruct (Z.eqb_spec la 0) as [|Hz]; cbn [rbind]; [intros H; inversion H; subst; cbn [s_link]; lia|].
  destruct ((la <? 0xD000) || (0xDFFF <=? la)) eqn:E1; cbn [rbind]; [discriminate|].
  destruct (negb ((la - 0xD000) mod 5 =? 0)) eqn:E2; cbn [rbind]; [discriminate|].
  intros H; inversion H; subst; cbn [s_link]. lia.
Qed.
Lemma read_entries_nopanic b1 b2 ks : read_entries b1 b2 ks <> Panic /\
  forall t, read_entries b1 b2 ks = Ok t -> Forall (fun s => s_addr s <> 0 -> -1 <= s_link s < 819) t.
Proof.
  induction ks as [|k ks [IH1 IH2]]; cbn [read_entries].
  - split; [discriminate|]. intros t H; inversion H; constructor.
  - destruct (read_entry b1 b2 (5 * k)) as [s|e|] eqn:E; cbn [rbind].
    + destruct (read_entries b1 b2 ks) as [t|e|]; cbn [rbind].
      * split; [discriminate|]. intros t' H; inversion H; subst. constructor; [|apply IH2; reflexivity].
        intros H0. eapply read_entry_link; eassumption.
      * split; [discriminate | intros; discriminate].
      * contradiction.
    + split; [discriminate | intros; discriminate].
    + exfalso. revert E. unfold read_entry. destruct (_ =? 0); [discriminate|]. set (la := le16 _ _). clearbody la.
      destruct (la =? 0); cbn [rbind]; [discriminate|].
      destruct ((la <? 0xD000) || (0xDFFF <=? la)); cbn [rbind]; [discriminate|].
      destruct (negb ((la - 0xD000) mod 5 =? 0)); cbn [rbind]; discriminate.
Qed.
Lemma check_links_nopanic table : forall rest i, zlen table = 819 ->
  Forall (fun s => s_addr s <> 0 -> -1 <= s_link s < 819) rest -> check_links table i rest <> Panic.
Proof.
  induction rest as [|s rest IH]; intros i Hl Hf; cbn [check_links]; [discriminate|].
  inversion Hf as [|? ? Hs Hf']; subst.
  destruct (negb (s_addr s =? 0) && negb (s_link s =? -1)) eqn:E; [|apply IH; assumption].
  destruct (s_link s =? i); [discriminate|].
  replace ((s_link s <? 0) || (zlen table <=? s_link s)) with false by lia.
  destruct (negb (addrHash (s_addr s) =? _)); [discriminate | apply IH; assumption].
Qed.
Lemma parse_nopanic b1 b2 : parseSymbolTable b1 b2 <> Panic.
Proof.
  unfold parseSymbolTable. destruct (read_entries_nopanic b1 b2 (zrange 819)) as [H1 H2].
  destruct (read_entries b1 b2 (zrange 819)) as [t|e|] eqn:E; cbn [rbind]; [|discriminate|contradiction].
  pose proof (read_entries_len _ _ _ _ E) as HL. rewrite zlen_zrange819 in HL.
  pose proof (check_links_nopanic t t 0 HL (H2 t eq_refl)) as H3.
  destruct (check_links t 0 t) as [[]|e|]; cbn [rbind]; [discriminate | discriminate | contradiction].
Qed.
Lemma ReadSymbolTable_nopanic (d sm : bytes) : zlen d = 143360 -> ReadSymbolTable sm d <> Panic.
Proof.
  intros Hd. unfold ReadSymbolTable. rewrite !ReadFile_spec by exact Hd. cbn [rbind].
  generalize (content d sm 3) (content d sm 4). clear. intros b1 b2.
  destruct (zlen b1 =? 0x1000); cbn [negb]; [|discriminate]. destruct (zlen b2 =? 0x1000); cbn [negb]; [|discriminate].
  apply parse_nopanic.
Qed.
Definition opened_table (d sm : bytes) : option (list Symbol) :=
  match ReadSymbolTable sm d with Ok t => Some t | _ => None end.
Lemma NewOperator_floppy (d sm : bytes) : floppy d sm -> NewOperator d = Ok (Op d sm (opened_table d sm)).
Proof.
  intros [Hd Hv Hm]. unfold NewOperator. rewrite LoadSectorMap_ok by lia. rewrite Hm. cbn [rbind].
  assert (Verify sm = Ok tt) as -> by (apply (proj1 (Verify_spec sm (v_len _ Hv))); exact Hv). cbn [rbind].
  pose proof (ReadSymbolTable_nopanic d sm Hd) as Hnp. unfold opened_table.
  destruct (ReadSymbolTable sm d); [reflexivity | reflexivity | contradiction].
Qed.
Lemma opened_table_len (d sm : bytes) t : opened_table d sm = Some t -> zlen t = 819.
Proof.
  unfold opened_table. destruct (ReadSymbolTable sm d) as [t'| |] eqn:E; try discriminate.
  intros H; inversion H; subst. destruct (ReadSymbolTable_parse _ _ _ E) as (b1 & b2 & Ep). eapply parse_len; eassumption.
Qed.
Lemma NewOperator_ok d o : zlen d = 143360 -> NewOperator d = Ok o ->
  op_ok o /\ op_data o = d /\ op_SM o = stored_map d /\ op_ST o = opened_table d (stored_map d).
Proof.
  intros Hd E. unfold NewOperator in E. rewrite LoadSectorMap_ok in E by lia. cbn [rbind] in E.
  destruct (Verify (stored_map d)) as [[]|e|] eqn:EV; cbn [rbind] in E; try discriminate.
  assert (verified (stored_map d)) as Hv by (apply (proj1 (Verify_spec _ (zlen_stored_map d ltac:(lia)))); exact EV).
  assert (floppy d (stored_map d)) as Hfl by (constructor; [exact Hd | exact Hv | reflexivity]).
  assert (o = Op d (stored_map d) (opened_table d (stored_map d))) as ->.
  { unfold opened_table. destruct (ReadSymbolTable (stored_map d) d); inversion E; reflexivity. }
  split; [|auto]. constructor; [exact Hfl|]. cbn [op_ST]. intros t. apply opened_table_len.
Qed.

(** ** Shown names *)
Lemma filter_find {A} (p : A -> bool) l : find p l = match filter p l with x :: _ => Some x | [] => None end.
Proof. induction l as [|x l IH]; [reflexivity|]. cbn [find filter]. destruct (p x); [reflexivity | exact IH]. Qed.
Lemma NameForFile_shown f t : legal f -> NameForFile f t = shown t f /\ FullnameForFile f t = shown_full t f.
Proof.
  intros Hf. unfold legal in Hf. unfold NameForFile, FullnameForFile, shown, shown_full, symbol_for, SymbolsForAddress.
  rewrite filter_find. rewrite printed_hex by lia.
  destruct (filter (fun s => s_addr s =? 0xDF00 + f) t) as [|x l]; [split; reflexivity|].
  split; [reflexivity|]. rewrite <- app_assoc. reflexivity.
Qed.
Lemma file_numbers_eq : file_numbers = map (fun k => k + 1) (zrange 253).
Proof. vm_compute. reflexivity. Qed.
Lemma flat_map_filter {A B} (p : A -> bool) (g : A -> B) l :
  flat_map (fun x => if p x then [] else [g x]) l = map g (filter (fun x => negb (p x)) l).
Proof. induction l as [|x l IH]; [reflexivity|]. cbn [flat_map filter]. destruct (p x); cbn [negb app map]; rewrite IH; reflexivity. Qed.

(** ** Steps *)
Definition op_step (r : request) (o : Operator) : Operator * reply :=
  match r with
  | RPut i ow => let '(o', x) := PutFile i ow o in (o', PBool (err_class x))
  | RDelete n => let '(o', x) := Delete n o in (o', PBool (err_class x))
  | RGet n => (o, PFile (err_class (GetFile o n)))
  | RCatalog => (o, PList (err_class (Catalog o)))
  end.
Fixpoint op_run (h : list request) (o : Operator) : Operator * list reply :=
  match h with
  | [] => (o, [])
  | r :: rest => let '(o1, p) := op_step r o in let '(o2, ps) := op_run rest o1 in (o2, p :: ps)
  end.
(** No symbol of the table reads as a file number. *)
Definition no_numeric_symbols (t : list Symbol) : Prop :=
  forall i f, 0 <= i < zlen t -> ~ numeric (nm t i) f.

Lemma used_owned (d sm : bytes) f : zlen d = 143360 -> zlen (content d sm f) / 256 = zlen (owned sm f).
Proof. intros Hd. rewrite zlen_content by exact Hd. lia. Qed.
Lemma content_beq (d sm : bytes) f : zlen d = 143360 -> beq (content d sm f) [] = (zlen (owned sm f) =? 0).
Proof.
  intros Hd. destruct (Z.eqb_spec (zlen (owned sm f)) 0) as [E|E].
  - apply zlen_zero_nil in E. apply content_nil_iff with (d := d) in E; [|exact Hd]. rewrite E. reflexivity.
  - destruct (beq (content d sm f) []) eqn:B; [|reflexivity]. apply beq_eq in B. apply content_nil_iff in B; [|exact Hd].
    rewrite B in E. exfalso. apply E. reflexivity.
Qed.

Lemma PutFile_numeric i ow o f : op_ok o -> numeric (d_name (fi_desc_ i)) f -> fi_data i <> [] ->
  d_type (fi_desc_ i) = FiletypeBinary -> d_length (fi_desc_ i) = zlen (fi_data i) ->
  PutFile i ow o = on_disk (WriteFile f (fi_data i) ow) o.
Proof.
  intros Hok Hn Hne Ht Hl. unfold PutFile. rewrite Ht, Hl, !Z.eqb_refl. cbn [negb].
  destruct (FilesForCompoundName_simple (st_of o) (d_name (fi_desc_ i)) (numeric_no_colon _ _ Hn)) as (H & _ & _).
  rewrite (H f Hn). cbn [beq]. cbv zeta. destruct Hn as [Hf _]. unfold legal in Hf. replace (f =? 0) with false by lia.
  replace (f =? 0) with false by lia. unfold sbind.
  destruct (on_disk (WriteFile f (fi_data i) ow) o) as [o1 [b|e|]]; [|reflexivity|reflexivity].
  rewrite andb_false_r. reflexivity.
Qed.
Lemma DeleteSymbol_numeric t n f : numeric n f -> no_numeric_symbols t -> DeleteSymbol t n = (t, false).
Proof.
  intros Hn Hnn. unfold DeleteSymbol. pose proof (find_name_spec t n 0) as H. destruct (find_name t n 0) as [i|]; [|reflexivity].
  rewrite Z.sub_0_r in H. destruct H as (H1 & H2 & _). exfalso. apply (Hnn i f); [lia|]. eapply numeric_fold; eassumption.
Qed.

Lemma same_store_set s s' f c fr fr' : same_store s s' -> fr = fr' -> same_store (st_set s f c fr) (st_set s' f c fr').
Proof.
  intros [H1 H2] ->. split; [|reflexivity]. intros g Hg. cbn [st_set st_file]. destruct (g =? f); [reflexivity | apply H1; exact Hg].
Qed.

Lemma op_step_refines r f o s o' p s' p' : op_ok o -> no_numeric_symbols (st_of o) -> about r f ->
  legal f ->
  same_store (store_of (op_data o) (op_SM o)) s ->
  op_step r o = (o', p) -> st_step (st_of o) r f s = (s', p') ->
  p = p' /\ op_ok o' /\ op_ST o' = op_ST o /\ same_store (store_of (op_data o') (op_SM o')) s'.
Proof.
  intros Hok Hnn Hab Hlf HS E1 E2. pose proof (ok_fl _ Hok) as Hfl. pose proof (fl_len _ _ Hfl) as Hd.
  destruct HS as [HF HR]. cbn [store_of st_file st_free] in HF, HR.
  assert (forall g, legal g -> st_used s g = zlen (owned (op_SM o) g)) as Hused.
  { intros g Hg. unfold st_used. rewrite <- HF by exact Hg. apply used_owned. exact Hd. }
  assert (forall g, legal g -> beq (st_file s g) [] = (zlen (owned (op_SM o) g) =? 0)) as Hbeq.
  { intros g Hg. rewrite <- HF by exact Hg. apply content_beq. exact Hd. }
  destruct Hab as [i ow f Hn Hne Ht Hl|n f Hn|n f Hn|f].
  - cbn [op_step] in E1. rewrite (PutFile_numeric i ow o f Hok Hn Hne Ht Hl) in E1.
    cbn [st_step] in E2. unfold st_write in E2. rewrite <- HR, (Hused f Hlf), (Hbeq f Hlf) in E2.
    pose proof (zlen_nonneg (owned (op_SM o) f)) as Hnn0.
    unfold on_disk in E1.
    destruct (WriteFile_cases f (fi_data i) ow (op_data o) (op_SM o) Hfl Hlf Hne)
      as [(H & E)|[(H & H2 & H3 & E)|(H & H2 & d' & sm' & E & Fl & C & O & Fr & Oth)]]; rewrite E in E1.
    + replace (_ <? nsec (fi_data i)) with true in E2 by lia. inversion E1; subst; inversion E2; subst.
      split; [reflexivity|]. split; [exact (Build_op_ok (Op _ _ _) Hfl (ok_st _ Hok))|]. split; [reflexivity|].
      split; [exact HF | exact HR].
    + replace (_ <? nsec (fi_data i)) with false in E2 by lia. subst ow.
      assert (zlen (owned (op_SM o) f) <> 0) by (intros Hz; apply H2, zlen_zero_nil, Hz).
      replace (zlen (owned (op_SM o) f) =? 0) with false in E2 by lia. cbn [negb andb] in E2.
      inversion E1; subst; inversion E2; subst.
      split; [reflexivity|]. split; [exact (Build_op_ok (Op _ _ _) Hfl (ok_st _ Hok))|]. split; [reflexivity|].
      split; [exact HF | exact HR].
    + replace (_ <? nsec (fi_data i)) with false in E2 by lia.
      replace (negb (zlen (owned (op_SM o) f) =? 0) && negb ow) with false in E2.
      2:{ destruct (Z.eqb_spec (zlen (owned (op_SM o) f)) 0); [reflexivity|]. rewrite H2; [reflexivity|].
          intros Hz. rewrite Hz, (@zlen_nil Z) in n. lia. }
      inversion E1; subst; inversion E2; subst.
      split; [cbn [err_class]; do 2 f_equal; lia|]. split; [exact (Build_op_ok (Op d' sm' _) Fl (ok_st _ Hok))|]. split; [reflexivity|].
      cbn [op_data op_SM]. split; [|cbn [store_of st_set st_free]; lia].
      intros g Hg. cbn [store_of st_set st_file]. destruct (Z.eqb_spec g f) as [->|Hgf]; [exact C|].
      destruct (Oth g Hgf Hg) as [_ ->]. apply HF. exact Hg.
  - cbn [op_step] in E1. unfold Delete in E1.
    assert (FileForName (st_of o) n = Ok f) as EF by (apply FileForName_resolves; left; exact Hn). rewrite EF in E1. cbv zeta in E1.
    destruct (Delete_disk (op_data o) (op_SM o) f Hfl Hlf) as (EP & Fl & C & O & Oth & Fr). rewrite EP in E1.
    cbn [st_step] in E2. unfold st_delete in E2. rewrite <- HR, (Hused f Hlf), (Hbeq f Hlf) in E2.
    rewrite SectorsForFile_owned, zlen_map in E1. pose proof (zlen_nonneg (owned (op_SM o) f)) as Hnn0.
    assert ((o', p) = (Op (upd (op_data o) 2512 (SMDelete (op_SM o) f)) (SMDelete (op_SM o) f) (op_ST o),
                       PBool (Ok (0 <? zlen (owned (op_SM o) f))))) as E3.
    { rewrite <- E1. destruct (op_ST o) as [t|] eqn:Et; [|reflexivity].
      assert (st_of o = t) as Es by (unfold st_of; rewrite Et; reflexivity). rewrite Es in Hnn.
      rewrite (DeleteSymbol_numeric t n f Hn Hnn). reflexivity. }
    inversion E3; subst; inversion E2; subst.
    split; [do 2 f_equal; lia|]. split; [exact (Build_op_ok (Op _ _ _) Fl (ok_st _ Hok))|]. split; [reflexivity|].
    cbn [op_data op_SM]. split; [|cbn [store_of st_set st_free]; lia].
    intros g Hg. cbn [store_of st_set st_file]. destruct (Z.eqb_spec g f) as [->|Hgf]; [exact C|].
    destruct (Oth g Hgf Hg) as [_ ->]. apply HF. exact Hg.
  - cbn [op_step st_step] in E1, E2. inversion E1; subst; inversion E2; subst.
    split; [|split; [exact Hok|]; split; [reflexivity | split; [exact HF | exact HR]]].
    f_equal. unfold GetFile.
    assert (FileForName (st_of o') n = Ok f) as EF by (apply FileForName_resolves; left; exact Hn). rewrite EF. cbn [rbind].
    rewrite ReadFile_spec by exact Hd. unfold st_get. rewrite (Hbeq f Hlf), (Hused f Hlf), <- (HF f Hlf).
    rewrite used_owned, zlen_content by exact Hd.
    destruct (Z.eqb_spec (zlen (owned (op_SM o') f)) 0) as [Ez|Ez].
    + replace (256 * zlen (owned (op_SM o') f) =? 0) with true by lia. reflexivity.
    + replace (256 * zlen (owned (op_SM o') f) =? 0) with false by lia. cbn [err_class].
      destruct (NameForFile_shown f (st_of o') Hlf) as [-> _]. reflexivity.
  - cbn [op_step st_step] in E1, E2. inversion E1; subst; inversion E2; subst.
    split; [|split; [exact Hok|]; split; [reflexivity | split; [exact HF | exact HR]]].
    f_equal. unfold Catalog. cbn [err_class]. f_equal. unfold st_catalog.
    rewrite (flat_map_filter (fun file => zlen (SectorsByFile (op_SM o') file) =? 0)
               (fun file => Desc (NameForFile file (st_of o')) (FullnameForFile file (st_of o')) (zlen (SectorsByFile (op_SM o') file)) 0
                             (zlen (SectorsByFile (op_SM o') file) * 256) false FiletypeBinary)).
    rewrite file_numbers_eq.
    assert (forall g, In g (map (fun k => k + 1) (zrange 253)) -> legal g) as Hleg.
    { intros g Hg. apply in_map_iff in Hg as (k & <- & Hk). apply In_zrange in Hk. unfold legal. lia. }
    assert (forall g, legal g -> zlen (SectorsByFile (op_SM o') g) = zlen (owned (op_SM o') g)) as Hsb.
    { intros g Hg. unfold SectorsByFile.
      assert (existsb (Z.eqb g) file_numbers = true) as ->; [|rewrite SectorsForFile_owned, zlen_map; reflexivity].
      apply existsb_exists. exists g. split; [|apply Z.eqb_refl]. rewrite file_numbers_eq. apply in_map_iff. exists (g - 1).
      unfold legal in Hg. split; [lia|]. apply In_zrange. lia. }
    assert (filter (fun x => negb (zlen (SectorsByFile (op_SM o') x) =? 0)) (map (fun k => k + 1) (zrange 253)) =
            filter (fun f0 => negb (beq (st_file s' f0) [])) (map (fun k => k + 1) (zrange 253))) as ->.
    { apply filter_ext_in. intros g Hg. apply Hleg in Hg. rewrite Hbeq, Hsb by exact Hg. reflexivity. }
    apply map_ext_in. intros g Hg. apply filter_In in Hg as [Hg _]. apply Hleg in Hg.
    destruct (NameForFile_shown g (st_of o') Hg) as [-> ->]. rewrite Hsb, Hused by exact Hg. rewrite <- (HF g Hg), zlen_content by exact Hd.
    f_equal. lia.
Qed.

Lemma op_run_refines h : forall o s, op_ok o -> no_numeric_symbols (st_of o) ->
  Forall (fun rf => about (fst rf) (snd rf) /\ legal (snd rf)) h ->
  same_store (store_of (op_data o) (op_SM o)) s ->
  snd (op_run (map fst h) o) = snd (st_run (st_of o) h s) /\
  op_ok (fst (op_run (map fst h) o)) /\ op_ST (fst (op_run (map fst h) o)) = op_ST o /\
  same_store (store_of (op_data (fst (op_run (map fst h) o))) (op_SM (fst (op_run (map fst h) o)))) (fst (st_run (st_of o) h s)).
Proof.
  induction h as [|[r f] h IH]; intros o s Hok Hnn Hab HS; [auto|].
  inversion Hab as [|? ? [Ha Hl] Hab']; subst. cbn [fst snd] in Ha, Hl. cbn [map op_run st_run fst].
  destruct (op_step r o) as [o1 p] eqn:E1. destruct (st_step (st_of o) r f s) as [s1 p'] eqn:E2.
  destruct (op_step_refines r f o s o1 p s1 p' Hok Hnn Ha Hl HS E1 E2) as (-> & Hok1 & Est & HS1).
  assert (st_of o1 = st_of o) as Eso by (unfold st_of; rewrite Est; reflexivity).
  rewrite <- Eso in Hnn. specialize (IH o1 s1 Hok1 Hnn Hab' HS1). rewrite Eso in IH.
  destruct (op_run (map fst h) o1) as [o2 ps]. destruct (st_run (st_of o) h s1) as [s2 ps']. cbn [fst snd] in *.
  destruct IH as (-> & H1 & H2 & H3). split; [reflexivity|]. split; [exact H1|]. split; [congruence | exact H3].
Qed.

(** ** Re-opening after any history *)
Fixpoint op_run_any (h : list request) (o : Operator) : Operator :=
  match h with [] => o | r :: rest => op_run_any rest (fst (op_step r o)) end.
Lemma op_step_inv r o : op_ok o -> (forall i ow, r = RPut i ow -> fi_data i <> []) ->
  op_ok (fst (op_step r o)) /\
  match snd (op_step r o) with PBool x => x <> Panic | _ => True end.
Proof.
  intros Hok Hne. destruct r as [i ow|n|n|]; cbn [op_step].
  - destruct (PutFile i ow o) as [o' x] eqn:E. destruct (PutFile_inv i ow o o' x Hok (Hne i ow eq_refl) E) as [H1 H2].
    cbn [fst snd]. split; [exact H1|]. destruct x as [b|[]|]; cbn [err_class]; try discriminate; contradiction.
  - destruct (Delete n o) as [o' x] eqn:E. destruct (Delete_inv n o o' x Hok E) as [H1 H2].
    cbn [fst snd]. split; [exact H1|]. destruct x as [b|[]|]; cbn [err_class]; try discriminate; contradiction.
  - split; [exact Hok | exact I].
  - split; [exact Hok | exact I].
Qed.
Lemma op_run_inv h : forall o, op_ok o -> Forall (fun r => forall i ow, r = RPut i ow -> fi_data i <> []) h ->
  op_ok (fst (op_run h o)) /\ Forall (fun p => match p with PBool x => x <> Panic | _ => True end) (snd (op_run h o)).
Proof.
  induction h as [|r h IH]; intros o Hok Hh; cbn [op_run]; [split; [exact Hok | constructor]|].
  inversion Hh as [|? ? Hr Hh']; subst. destruct (op_step_inv r o Hok Hr) as [H1 H2].
  destruct (op_step r o) as [o1 p]. cbn [fst snd] in H1, H2. specialize (IH o1 H1 Hh').
  destruct (op_run h o1) as [o2 ps]. cbn [fst snd] in *. destruct IH as [I1 I2]. split; [exact I1 | constructor; assumption].
Qed.
