(** SupermonLinkProofs.v -- writing arbitrary symbol tables; hash-chain links under AddSymbol
    and DeleteSymbol. *)
From Verif Require Import GoBase GoLemmas DiskModel TypesModel
  SupermonModel SupermonSpec SupermonTableSpec SupermonProofs SupermonSymProofs SupermonTabProofs.
From Coq Require Import ZifyBool ZifyNat Permutation.
Ltac Zify.zify_post_hook ::= Z.div_mod_to_equations.
Local Opaque zrange.

(** ** Writing any table *)
Lemma encodeSymbol_total n : (exists six, encodeSymbol n = Ok six /\ zlen six = 6) \/ (exists e, encodeSymbol n = Err e).
Proof.
  destruct (encodeSymbol_cases n) as [(_ & E)|[(_ & _ & E)|(_ & _ & e & E)]].
  - left. eexists. split; [exact E | reflexivity].
  - left. eexists. split; [exact E | reflexivity].
  - right. exists e. exact E.
Qed.
Lemma fill_tables_any syms : forall i b1 b2,
  0 <= i -> 5 * (i + zlen syms) <= 4096 -> zlen b1 = 4096 -> zlen b2 = 4096 ->
  (exists e, fill_tables syms i b1 b2 = Err e) \/
  (exists c1 c2, fill_tables syms i b1 b2 = Ok (c1, c2) /\ zlen c1 = 4096 /\ zlen c2 = 4096).
Proof.
  induction syms as [|s syms IH]; intros i b1 b2 Hi Hlen L1 L2.
  - right. exists b1, b2. auto.
  - rewrite zlen_cons in Hlen. pose proof (zlen_nonneg syms). cbn [fill_tables].
    destruct (encodeSymbol_total (s_name s)) as [(six & E & L)|(e & E)]; rewrite E; cbn [rbind]; [|left; eexists; reflexivity].
    replace (4096 <? i * 5 + 5) with false by lia.
    apply IH; try lia; rewrite zlen_upd; try lia; rewrite ?zlen_sub by lia; try lia.
    + cbn; lia.
Qed.

(** The effect of writing a table whose bytes are [b1], [b2]. *)
Lemma WriteSymbolTable_gen t b1 b2 (d sm : bytes) : floppy d sm ->
  fill_tables t 0 (zeros 0x1000) (zeros 0x1000) = Ok (b1, b2) -> zlen b1 = 4096 -> zlen b2 = 4096 ->
  16 <= zlen (owned sm FREE) + zlen (owned sm 3) ->
  32 <= zlen (owned sm FREE) + zlen (owned sm 3) + zlen (owned sm 4) ->
  exists d' sm', WriteSymbolTable t (d, sm) = ((d', sm'), Ok tt) /\ floppy d' sm' /\
    content d' sm' 3 = b1 /\ content d' sm' 4 = b2 /\
    ReadSymbolTable sm' d' = parseSymbolTable b1 b2 /\
    (forall g, g <> 3 -> g <> 4 -> legal g -> owned sm' g = owned sm g /\ content d' sm' g = content d sm g) /\
    zlen (owned sm' 3) = 16 /\ zlen (owned sm' 4) = 16 /\
    zlen (owned sm' FREE) = zlen (owned sm FREE) + zlen (owned sm 3) + zlen (owned sm 4) - 32.
Proof.
  intros Hfl E L1 L2 Hs1 Hs2.
  unfold WriteSymbolTable. rewrite E.
  assert (nsec b1 = 16) as N1 by (unfold nsec; rewrite L1; reflexivity).
  assert (nsec b2 = 16) as N2 by (unfold nsec; rewrite L2; reflexivity).
  assert (b1 <> []) as Hb1 by (intros ->; rewrite (@zlen_nil Z) in L1; lia).
  assert (b2 <> []) as Hb2 by (intros ->; rewrite (@zlen_nil Z) in L2; lia).
  assert (padded b1 = b1) as P1 by (unfold padded; rewrite N1, L1; cbn; apply app_nil_r).
  assert (padded b2 = b2) as P2 by (unfold padded; rewrite N2, L2; cbn; apply app_nil_r).
  destruct (WriteFile_step 3 b1 true d sm Hfl) as (d1 & sm1 & E1 & F1 & C1 & O1 & Fr1 & Oth1);
    [unfold legal; lia | exact Hb1 | lia | reflexivity|].
  destruct (WriteFile_step 4 b2 true d1 sm1 F1) as (d2 & sm2 & E2 & F2 & C2 & O2 & Fr2 & Oth2);
    [unfold legal; lia | exact Hb2 | destruct (Oth1 4) as [-> _]; unfold legal; lia | reflexivity|].
  exists d2, sm2. unfold sbind. rewrite E1. cbn [untag]. rewrite E2. cbn [untag sret].
  split; [reflexivity|]. split; [exact F2|].
  destruct (Oth2 3) as [O3 C3]; [lia | unfold legal; lia|].
  destruct (Oth1 4) as [O4 C4]; [lia | unfold legal; lia|].
  split; [rewrite C3, C1; exact P1|]. split; [rewrite C2; exact P2|].
  split; [|split; [|split; [|split]]].
  - unfold ReadSymbolTable. rewrite !ReadFile_spec by apply (fl_len _ _ F2). cbn [rbind].
    rewrite C3, C1, C2, P1, P2, L1, L2. cbn [negb Z.eqb Pos.eqb rbind]. reflexivity.
  - intros g H3 H4 Hg. destruct (Oth1 g H3 Hg) as [<- <-]. apply Oth2; assumption.
  - rewrite O3, O1. exact N1.
  - rewrite O2. exact N2.
  - rewrite Fr2, Fr1, N1, N2, O4. lia.
Qed.

(** Whatever happens: no panic, a floppy results, and only files 3 and 4 are touched. *)
Lemma WriteSymbolTable_any t (d sm : bytes) : floppy d sm -> zlen t <= 819 ->
  exists d' sm' r, WriteSymbolTable t (d, sm) = ((d', sm'), r) /\ r <> Panic /\ floppy d' sm' /\
    (forall g, g <> 3 -> g <> 4 -> legal g -> owned sm' g = owned sm g /\ content d' sm' g = content d sm g) /\
    (r = Ok tt -> exists b1 b2, fill_tables t 0 (zeros 0x1000) (zeros 0x1000) = Ok (b1, b2) /\
       zlen b1 = 4096 /\ zlen b2 = 4096 /\ content d' sm' 3 = b1 /\ content d' sm' 4 = b2 /\
       ReadSymbolTable sm' d' = parseSymbolTable b1 b2 /\
       16 <= zlen (owned sm FREE) + zlen (owned sm 3) /\
       32 <= zlen (owned sm FREE) + zlen (owned sm 3) + zlen (owned sm 4) /\
       zlen (owned sm' 3) = 16 /\ zlen (owned sm' 4) = 16 /\
       zlen (owned sm' FREE) = zlen (owned sm FREE) + zlen (owned sm 3) + zlen (owned sm 4) - 32).
Proof.
  intros Hfl Hlen.
  destruct (fill_tables_any t 0 (zeros 0x1000) (zeros 0x1000)) as [(e & E)|(b1 & b2 & E & L1 & L2)];
    [lia | lia | reflexivity | reflexivity | |].
  { exists d, sm, (Err e). unfold WriteSymbolTable. rewrite E. split; [reflexivity|]. split; [discriminate|].
    split; [exact Hfl|]. split; [auto | discriminate]. }
  destruct (Z_le_gt_dec 16 (zlen (owned sm FREE) + zlen (owned sm 3))) as [H1|H1].
  2:{ exists d, sm, (Err (EOther "unable to write half of symbol table")). unfold WriteSymbolTable. rewrite E. unfold sbind.
      rewrite WriteFile_space; [|apply (v_len _ (fl_ver _ _ Hfl))|unfold nsec; rewrite L1; change ((4096 + 255) / 256) with 16; lia].
      cbn [untag]. split; [reflexivity|]. split; [discriminate|]. split; [exact Hfl|]. split; [auto | discriminate]. }
  destruct (Z_le_gt_dec 32 (zlen (owned sm FREE) + zlen (owned sm 3) + zlen (owned sm 4))) as [H2|H2].
  - destruct (WriteSymbolTable_gen t b1 b2 d sm Hfl E L1 L2 H1 H2) as (d' & sm' & E' & F' & C3 & C4 & R & Oth & O3 & O4 & Fr).
    exists d', sm', (Ok tt). split; [exact E'|]. split; [discriminate|]. split; [exact F'|]. split; [exact Oth|].
    intros _. exists b1, b2. repeat (split; [assumption|]). assumption.
  - unfold WriteSymbolTable. rewrite E. unfold sbind.
    assert (nsec b1 = 16) as N1 by (unfold nsec; rewrite L1; reflexivity).
    assert (b1 <> []) as Hb1 by (intros ->; rewrite (@zlen_nil Z) in L1; lia).
    destruct (WriteFile_step 3 b1 true d sm Hfl) as (d1 & sm1 & E1 & F1 & C1 & O1 & Fr1 & Oth1);
      [unfold legal; lia | exact Hb1 | lia | reflexivity|].
    rewrite E1. cbn [untag].
    rewrite (WriteFile_space 4 b2 true d1 sm1); [|apply (v_len _ (fl_ver _ _ F1))|].
    2:{ unfold nsec. rewrite L2. change ((4096 + 255) / 256) with 16. destruct (Oth1 4) as [-> _]; unfold legal; lia. }
    cbn [untag]. exists d1, sm1. eexists. split; [reflexivity|]. split; [discriminate|]. split; [exact F1|].
    split; [|discriminate]. intros g H3 _ Hg. apply Oth1; assumption.
Qed.

(** ** Tables that come from a disk *)
Lemma read_entries_len b1 b2 ks : forall t, read_entries b1 b2 ks = Ok t -> zlen t = zlen ks.
Proof.
  induction ks as [|k ks IH]; intros t; cbn [read_entries].
  - intros E; inversion E; reflexivity.
  - destruct (read_entry b1 b2 (5 * k)); cbn [rbind]; try discriminate.
    destruct (read_entries b1 b2 ks) as [t'| |]; cbn [rbind]; try discriminate.
    intros E; inversion E; subst. rewrite !zlen_cons. f_equal. apply IH. reflexivity.
Qed.
Lemma parse_len b1 b2 t : parseSymbolTable b1 b2 = Ok t -> zlen t = 819.
Proof.
  unfold parseSymbolTable. destruct (read_entries b1 b2 (zrange 819)) as [t'| |] eqn:E; cbn [rbind]; try discriminate.
  destruct (check_links t' 0 t') as [[]| |]; cbn [rbind]; try discriminate. intros H; inversion H; subst.
  rewrite (read_entries_len _ _ _ _ E). apply zlen_zrange819.
Qed.
Lemma parse_links b1 b2 t : parseSymbolTable b1 b2 = Ok t -> links_ok t.
Proof.
  intros H i Hi. unfold parseSymbolTable in H. destruct (read_entries b1 b2 (zrange 819)) as [t'| |] eqn:E; cbn [rbind] in H; try discriminate.
  destruct (check_links t' 0 t') as [[]| |] eqn:Ec; cbn [rbind] in H; try discriminate. inversion H; subst.
  apply (check_links_complete t t 0); auto; lia.
Qed.
Lemma ReadSymbolTable_parse sm d t : ReadSymbolTable sm d = Ok t -> exists b1 b2, parseSymbolTable b1 b2 = Ok t.
Proof.
  unfold ReadSymbolTable. destruct (ReadFile sm d 3) as [b1| |]; cbn [rbind]; try discriminate.
  destruct (negb _); [discriminate|]. destruct (ReadFile sm d 4) as [b2| |]; cbn [rbind]; try discriminate.
  destruct (negb _); [discriminate|]. intros H. exists b1, b2. exact H.
Qed.

(** ** Links under the two updates *)
Lemma unlink_spec t l : forall j0 i,
  zlen (unlink t j0 i l) = zlen t /\
  ((forall k, 0 <= k < zlen t -> j0 + k <> i -> lk t k <> i) /\ unlink t j0 i l = t \/
   exists p, 0 <= p < zlen t /\ j0 + p <> i /\ lk t p = i /\
     znth sym0 (unlink t j0 i l) p = set_link (znth sym0 t p) l /\
     forall k, 0 <= k -> k <> p -> znth sym0 (unlink t j0 i l) k = znth sym0 t k).
Proof.
  induction t as [|s t IH]; intros j0 i; cbn [unlink].
  - split; [reflexivity|]. left. split; [|reflexivity]. intros k Hk. rewrite (@zlen_nil Symbol) in Hk. lia.
  - pose proof (zlen_nonneg t).
    assert (G : (j0 = i \/ s_link s <> i) ->
      zlen (s :: unlink t (j0 + 1) i l) = zlen (s :: t) /\
      ((forall k, 0 <= k < zlen (s :: t) -> j0 + k <> i -> lk (s :: t) k <> i) /\ s :: unlink t (j0 + 1) i l = s :: t \/
       exists p, 0 <= p < zlen (s :: t) /\ j0 + p <> i /\ lk (s :: t) p = i /\
         znth sym0 (s :: unlink t (j0 + 1) i l) p = set_link (znth sym0 (s :: t) p) l /\
         forall k, 0 <= k -> k <> p -> znth sym0 (s :: unlink t (j0 + 1) i l) k = znth sym0 (s :: t) k)).
    { intros Hs. specialize (IH (j0 + 1) i) as [HL HC]. rewrite !zlen_cons, HL. split; [reflexivity|].
      destruct HC as [[H1 H2]|(p & P1 & P2 & P3 & P4 & P5)]; [left|right].
      - rewrite H2. split; [|reflexivity]. intros k Hk Hne. unfold lk in *.
        destruct (Z.eq_dec k 0) as [->|]; [rewrite znth_cons_0; destruct Hs; [lia | assumption]|].
        rewrite znth_cons_S by lia. apply H1; lia.
      - exists (p + 1). split; [lia|]. split; [lia|]. unfold lk in *. rewrite !znth_cons_S by lia.
        replace (p + 1 - 1) with p by lia. split; [exact P3|]. split; [exact P4|].
        intros k Hk Hne. destruct (Z.eq_dec k 0) as [->|]; [reflexivity|]. rewrite !znth_cons_S by lia. apply P5; lia. }
    destruct (Z.eqb_spec i j0) as [->|Hij]; [apply G; left; reflexivity|].
    destruct (Z.eqb_spec (s_link s) i) as [El|El]; [|apply G; right; exact El].
    rewrite !zlen_cons. split; [reflexivity|]. right. exists 0. split; [lia|]. split; [lia|].
    unfold lk. rewrite !znth_cons_0. split; [exact El|]. split; [reflexivity|].
    intros k Hk Hne. rewrite !znth_cons_S by lia. reflexivity.
Qed.
Lemma link_end_spec t h l :
  zlen (link_end t h l) = zlen t /\
  ((forall k, 0 <= k < zlen t -> addrHash (ad t k) = h -> lk t k <> -1) /\ link_end t h l = t \/
   exists p, 0 <= p < zlen t /\ addrHash (ad t p) = h /\ lk t p = -1 /\
     znth sym0 (link_end t h l) p = set_link (znth sym0 t p) l /\
     forall k, 0 <= k -> k <> p -> znth sym0 (link_end t h l) k = znth sym0 t k).
Proof.
  induction t as [|s t [HL HC]]; cbn [link_end].
  - split; [reflexivity|]. left. split; [|reflexivity]. intros k Hk. rewrite (@zlen_nil Symbol) in Hk. lia.
  - pose proof (zlen_nonneg t). destruct ((addrHash (s_addr s) =? h) && (s_link s =? -1)) eqn:E.
    + rewrite !zlen_cons. split; [reflexivity|]. right. exists 0. split; [lia|]. unfold ad, lk. rewrite !znth_cons_0.
      split; [lia|]. split; [lia|]. split; [reflexivity|]. intros k Hk Hne. rewrite !znth_cons_S by lia. reflexivity.
    + rewrite !zlen_cons, HL. split; [reflexivity|]. destruct HC as [[H1 H2]|(p & P1 & P2 & P3 & P4 & P5)]; [left|right].
      * rewrite H2. split; [|reflexivity]. intros k Hk Hh. unfold ad, lk in *.
        destruct (Z.eq_dec k 0) as [->|]; [rewrite !znth_cons_0 in *; lia|].
        rewrite !znth_cons_S in * by lia. apply H1; [lia | exact Hh].
      * exists (p + 1). split; [lia|]. unfold ad, lk in *. rewrite !znth_cons_S by lia.
        replace (p + 1 - 1) with p by lia. split; [exact P2|]. split; [exact P3|]. split; [exact P4|].
        intros k Hk Hne. destruct (Z.eq_dec k 0) as [->|]; [reflexivity|]. rewrite !znth_cons_S by lia. apply P5; lia.
Qed.

Lemma link_ok_lk t i : link_ok t i <->
  (ad t i <> 0 -> lk t i <> -1 -> lk t i <> i /\ 0 <= lk t i < zlen t /\ hash7 (ad t i) = hash7 (ad t (lk t i))).
Proof. reflexivity. Qed.

(** Deleting an entry keeps the links good if at most one entry pointed to it and it did not
    point back to that one. *)
Lemma DeleteSymbol_links t n i : map_table t -> links_ok t -> live_links t ->
  n <> [] -> 0 <= i < zlen t -> equal_fold n (nm t i) = true ->
  (forall j k, 0 <= j < zlen t -> 0 <= k < zlen t -> j <> i -> k <> i -> lk t j = i -> lk t k = i -> j = k) ->
  (forall j, 0 <= j < zlen t -> lk t j = i -> lk t i <> j) ->
  links_ok (fst (DeleteSymbol t n)) /\ live_links (fst (DeleteSymbol t n)) /\
  (forall j, 0 <= j < zlen t -> ad (fst (DeleteSymbol t n)) j <> 0 -> lk (fst (DeleteSymbol t n)) j <> i).
Proof.
  intros Ht Hl Hlive Hn Hi En Huniq Hback.
  pose proof (find_name_spec t n 0) as Hf. unfold DeleteSymbol.
  destruct (find_name t n 0) as [i'|]; [|rewrite Hf in En by lia; discriminate].
  rewrite Z.sub_0_r in Hf. destruct Hf as (H1 & H2 & _).
  assert (i' = i) as ->.
  { destruct Ht as [Hu _]. apply Hu; [lia | lia | apply (equal_fold_nonnil n); assumption|].
    apply (equal_fold_join _ _ n); rewrite equal_fold_sym; assumption. }
  cbn [fst].
  assert (ad t i <> 0) as Hi0.
  { intros H0. destruct Ht as [_ Hb]. apply Hb in H0; [|lia]. rewrite H0 in H2. apply equal_fold_nil in H2. contradiction. }
  fold (lk t i). set (u := unlink t 0 i (lk t i)). destruct (unlink_spec t (lk t i) 0 i) as [HL HC]. fold u in HL, HC.
  set (t' := zset u i (Sym 0 [] (lk t i))).
  assert (zlen t' = zlen t) as L' by (unfold t'; rewrite zlen_zset; lia).
  assert (forall j, 0 <= j < zlen t -> j <> i -> ad t' j = ad t j) as Ha.
  { intros j Hj Hne. unfold t', ad. rewrite znth_zset by lia. replace (j =? i) with false by lia.
    destruct HC as [[_ ->]|(p & P1 & P2 & P3 & P4 & P5)]; [reflexivity|].
    destruct (Z.eq_dec j p) as [->|]; [rewrite P4; reflexivity | rewrite P5 by lia; reflexivity]. }
  assert (ad t' i = 0) as Hai.
  { unfold t', ad. rewrite znth_zset by lia. rewrite Z.eqb_refl. reflexivity. }
  assert (forall j, 0 <= j < zlen t -> j <> i -> (lk t j <> i /\ lk t' j = lk t j) \/ (lk t j = i /\ lk t' j = lk t i)) as Hk.
  { intros j Hj Hne.
    assert (lk t' j = lk u j) as -> by (unfold t', lk; rewrite znth_zset by lia; replace (j =? i) with false by lia; reflexivity).
    destruct HC as [[HN ->]|(p & P1 & P2 & P3 & P4 & P5)].
    - left. split; [apply HN; lia | reflexivity].
    - destruct (Z.eq_dec j p) as [->|Hjp].
      + right. split; [exact P3|]. unfold lk at 1. rewrite P4. reflexivity.
      + left. split; [|unfold lk; rewrite P5 by lia; reflexivity]. intros Hji. apply Hjp. apply Huniq; auto; lia. }
  assert (forall j, 0 <= j < zlen t -> ad t' j <> 0 -> j <> i) as Hji by (intros j Hj H0 ->; contradiction).
  assert (forall j, 0 <= j < zlen t -> ad t' j <> 0 -> lk t' j <> i) as Hnoi.
  { intros j Hj H0 He. specialize (Hji j Hj H0). destruct (Hk j Hj Hji) as [[K1 K2]|[K1 K2]]; [congruence|].
    rewrite K2 in He. specialize (Hl i Hi). rewrite link_ok_lk in Hl. destruct Hl as (L1 & _); [exact Hi0 | lia | contradiction]. }
  split; [|split; [|exact Hnoi]].
  - intros j Hj. rewrite link_ok_lk. intros H0 Hm. rewrite L' in *. specialize (Hji j Hj H0) as Hne.
    specialize (Hnoi j Hj H0).
    destruct (Hk j Hj Hne) as [[K1 K2]|[K1 K2]]; rewrite K2 in *; rewrite Ha in * by assumption.
    + specialize (Hl j Hj). rewrite link_ok_lk in Hl. destruct Hl as (L1 & L2 & L3); [exact H0 | exact Hm|].
      rewrite Ha by assumption. auto.
    + pose proof (Hl i Hi) as Hli. rewrite link_ok_lk in Hli. destruct Hli as (L1 & L2 & L3); [exact Hi0 | exact Hm|].
      rewrite Ha by assumption. split; [apply Hback; assumption|]. split; [exact L2|].
      specialize (Hl j Hj). rewrite link_ok_lk in Hl. destruct Hl as (_ & _ & L4); [exact H0 | lia|]. rewrite K1 in L4. congruence.
  - intros j Hj H0 Hm. rewrite L' in *. specialize (Hji j Hj H0) as Hne. specialize (Hnoi j Hj H0).
    rewrite Ha in H0 by assumption.
    destruct (Hk j Hj Hne) as [[K1 K2]|[K1 K2]]; rewrite K2 in *.
    + specialize (Hl j Hj). rewrite link_ok_lk in Hl. destruct Hl as (L1 & L2 & L3); [exact H0 | exact Hm|].
      rewrite Ha by assumption. apply Hlive; assumption.
    + specialize (Hl i Hi). rewrite link_ok_lk in Hl. destruct Hl as (L1 & L2 & L3); [exact Hi0 | exact Hm|].
      rewrite Ha by assumption. apply Hlive; assumption.
Qed.

(** Adding at an unused place that no live entry points to. *)
Lemma add_at_links t p n a : links_ok t -> live_links t -> 0 <= p < zlen t -> a <> 0 ->
  (forall j, 0 <= j < zlen t -> ad t j <> 0 -> lk t j <> p) -> ad t p = 0 ->
  links_ok (fst (add_at t p n a (addrHash a))) /\ live_links (fst (add_at t p n a (addrHash a))).
Proof.
  intros Hl Hlive Hp Ha0 Hno Hp0. unfold add_at. replace (p =? -1) with false by lia. cbn [fst].
  set (u := link_end t (addrHash a) p). destruct (link_end_spec t (addrHash a) p) as [HL HC]. fold u in HL, HC.
  set (t' := zset u p (Sym a n (-1))).
  assert (zlen t' = zlen t) as L' by (unfold t'; rewrite zlen_zset; lia).
  assert (ad t' p = a /\ lk t' p = -1) as [Hap Hlp].
  { unfold t', ad, lk. rewrite znth_zset by lia. rewrite Z.eqb_refl. split; reflexivity. }
  assert (forall j, 0 <= j < zlen t -> j <> p -> ad t' j = ad t j /\
            (lk t' j = lk t j \/ (lk t' j = p /\ addrHash (ad t j) = addrHash a))) as Hj.
  { intros j Hj Hne.
    assert (lk t' j = lk u j) as -> by (unfold t', lk; rewrite znth_zset by lia; replace (j =? p) with false by lia; reflexivity).
    assert (ad t' j = ad u j) as -> by (unfold t', ad; rewrite znth_zset by lia; replace (j =? p) with false by lia; reflexivity).
    destruct HC as [[HN ->]|(q & P1 & P2 & P3 & P4 & P5)]; [split; [reflexivity | left; reflexivity]|].
    destruct (Z.eq_dec j q) as [->|Hjp].
    - split; [unfold ad; rewrite P4; reflexivity|]. right. split; [unfold lk; rewrite P4; reflexivity | exact P2].
    - split; [unfold ad; rewrite P5 by lia; reflexivity | left; unfold lk; rewrite P5 by lia; reflexivity]. }
  split.
  - intros j Hjr. rewrite L' in Hjr. rewrite link_ok_lk. intros H0 Hm. rewrite L'.
    destruct (Z.eq_dec j p) as [->|Hne]; [congruence|]. destruct (Hj j Hjr Hne) as [Ea [Ek|[Ek Eh]]].
    + rewrite Ea, Ek in *. pose proof (Hl j Hjr) as Hlj. rewrite link_ok_lk in Hlj. destruct Hlj as (L1 & L2 & L3); [exact H0 | exact Hm|].
      split; [exact L1|]. split; [exact L2|]. destruct (Hj (lk t j) L2) as [-> _]; [apply Hno; assumption | exact L3].
    + rewrite Ea, Ek in *. rewrite Hap. split; [lia|]. split; [exact Hp|]. rewrite <- !addrHash_hash7. exact Eh.
  - intros j Hjr H0 Hm. rewrite L' in Hjr. destruct (Z.eq_dec j p) as [->|Hne]; [congruence|].
    destruct (Hj j Hjr Hne) as [Ea [Ek|[Ek Eh]]].
    + rewrite Ea, Ek in *. pose proof (Hl j Hjr) as Hlj. rewrite link_ok_lk in Hlj. destruct Hlj as (L1 & L2 & L3); [exact H0 | exact Hm|].
      destruct (Hj (lk t j) L2) as [-> _]; [apply Hno; assumption | apply Hlive; assumption].
    + rewrite Ek, Hap. exact Ha0.
Qed.

Lemma update_links t j a : links_ok t -> live_links t -> 0 <= j < zlen t -> a <> 0 -> ad t j <> 0 ->
  addrHash (ad t j) = addrHash a ->
  links_ok (zset t j (set_addr (znth sym0 t j) a)) /\ live_links (zset t j (set_addr (znth sym0 t j) a)).
Proof.
  intros Hl Hlive Hj Ha0 Hj0 Hh. set (t' := zset t j _).
  assert (zlen t' = zlen t) as L' by (unfold t'; rewrite zlen_zset; lia).
  assert (forall k, 0 <= k < zlen t -> lk t' k = lk t k /\ hash7 (ad t' k) = hash7 (ad t k) /\ (ad t' k <> 0 <-> ad t k <> 0)) as HK.
  { intros k Hk. unfold t', lk, ad. rewrite znth_zset by lia. destruct (Z.eqb_spec k j) as [->|]; [|tauto].
    cbn [set_addr s_link s_addr]. rewrite !addrHash_hash7 in Hh. unfold ad in *. split; [reflexivity|]. split; [congruence|]. tauto. }
  split.
  - intros k Hk. rewrite L' in Hk. rewrite link_ok_lk. intros H0 Hm. rewrite L'. destruct (HK k Hk) as (E1 & E2 & E3).
    rewrite E1, E2 in *. apply E3 in H0. specialize (Hl k Hk). rewrite link_ok_lk in Hl. destruct Hl as (L1 & L2 & L3); [exact H0 | exact Hm|].
    split; [exact L1|]. split; [exact L2|]. destruct (HK (lk t k) L2) as (_ & -> & _). exact L3.
  - intros k Hk H0 Hm. rewrite L' in Hk. destruct (HK k Hk) as (E1 & E2 & E3). rewrite E1 in *. apply E3 in H0.
    pose proof (Hl k Hk) as Hlk. rewrite link_ok_lk in Hlk. destruct Hlk as (L1 & L2 & L3); [exact H0 | exact Hm|].
    destruct (HK (lk t k) L2) as (_ & _ & E4). apply E4, Hlive; assumption.
Qed.

Lemma AddSymbol_links t n a t' : map_table t -> links_ok t -> live_links t -> n <> [] ->
  AddSymbol t n a = (t', Ok tt) ->
  (forall i, 0 <= i < zlen t -> equal_fold n (nm t i) = true -> hash7 (ad t i) <> hash7 a ->
     (forall j k, 0 <= j < zlen t -> 0 <= k < zlen t -> j <> i -> k <> i -> lk t j = i -> lk t k = i -> j = k) /\
     (forall j, 0 <= j < zlen t -> lk t j = i -> lk t i <> j)) ->
  links_ok t' /\ live_links t'.
Proof.
  intros Ht Hl Hlive Hn E Hcond. unfold AddSymbol in E. destruct (Z.eqb_spec a 0) as [|Ha0]; [discriminate|].
  pose proof (add_scan_spec t n (addrHash a) 0 (-1) ltac:(lia)) as Hs.
  pose proof (find_name_spec t n 0) as Hf.
  assert (forall p, ad t p = 0 -> forall j, 0 <= j < zlen t -> ad t j <> 0 -> 0 <= p -> lk t j <> p) as Hnb.
  { intros p Hp j Hj H0 Hpos He. apply (Hlive j Hj H0); [lia | congruence]. }
  destruct (find_name t n 0) as [i|].
  - rewrite Z.sub_0_r in *. destruct Hf as (H1 & H2 & H3). rewrite Hs in E.
    assert (ad t i <> 0) as Hi0.
    { intros H0. destruct Ht as [_ Hb]. apply Hb in H0; [|lia]. rewrite H0 in H2. apply equal_fold_nil in H2. contradiction. }
    destruct (Z.eqb_spec (addrHash (ad t i)) (addrHash a)) as [Eh|Eh].
    + inversion E; subst. apply update_links; auto; lia.
    + destruct (Hcond i) as [Hu Hb]; [lia | exact H2 | rewrite <- !addrHash_hash7; exact Eh|].
      destruct (DeleteSymbol_links t n i Ht Hl Hlive Hn ltac:(lia) H2 Hu Hb) as (D1 & D2 & D3).
      pose proof (zlen_DeleteSymbol t n) as DL.
      pose proof (DeleteSymbol_spec t n) as DS. 
      assert (ad (fst (DeleteSymbol t n)) i = 0) as Hz.
      { destruct (find_name t n 0) as [i'|] eqn:Ef.
        - destruct DS as (t'' & -> & (_ & _ & Hz & _) & _). cbn [fst].
          pose proof (find_name_spec t n 0) as Hf'. rewrite Ef, Z.sub_0_r in Hf'. destruct Hf' as (F1 & F2 & F3).
          assert (i' = i) as ->; [|exact Hz].
          destruct (Z.lt_trichotomy i' i) as [Hlt|[Heq|Hgt]]; [|exact Heq|].
          + rewrite H3 in F2 by lia. discriminate.
          + rewrite F3 in H2 by lia. discriminate.
        - pose proof (find_name_spec t n 0) as Hf'. rewrite Ef in Hf'. rewrite Hf' in H2 by lia. discriminate. }
      destruct (add_at_links (fst (DeleteSymbol t n)) i n a D1 D2) as [R1 R2].
      * lia.
      * exact Ha0.
      * intros j Hj. apply D3. lia.
      * exact Hz.
      * rewrite E in R1, R2. auto.
  - destruct Hs as (p & Es & Hp). rewrite Es in E.
    destruct Hp as [(H & _)|[(_ & Hp & H0)|(_ & -> & _)]]; [contradiction (H eq_refl)| |discriminate].
    rewrite Z.sub_0_r in *. destruct (add_at_links t p n a Hl Hlive) as [R1 R2].
    + lia.
    + exact Ha0.
    + intros j Hj H1. apply Hnb; auto; lia.
    + exact H0.
    + rewrite E in R1, R2. auto.
Qed.

(** Entries stay writable. *)
Lemma Forall_zset {A} (P : A -> Prop) l i v : 0 <= i < zlen l -> Forall P l -> P v -> Forall P (zset l i v).
Proof. intros Hi Hl Hv. unfold zset. apply Forall_upd; [exact Hl | constructor; [exact Hv | constructor]]. Qed.
Lemma Forall_znth {A} (P : A -> Prop) d l i : Forall P l -> 0 <= i < zlen l -> P (znth d l i).
Proof. intros H Hi. rewrite Forall_forall in H. apply H, znth_In, Hi. Qed.
