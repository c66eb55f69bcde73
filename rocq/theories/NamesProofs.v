(** NamesProofs.v -- sessions in which files are named refine a board of cards (C98). *)
From Coq Require Import ZifyBool ZifyNat.
From Verif Require Import GoBase GoLemmas TypesModel DiskModel DiskSpec DiskProofs DiskOpenProofs.
From Verif Require Import SupermonModel SupermonSpec SupermonTableSpec SupermonStoreSpec SupermonProofs SupermonSymProofs SupermonTabProofs SupermonLinkProofs SupermonOpProofs SupermonNameProofs SupermonFinalProofs SupermonNamedProofs SupermonRewriteProofs SupermonStmtProofs SupermonChainSpec SupermonChainProofs.
From Verif Require Import ProdosModel CmdModel CmdSpec CmdProofs CmdStmtProofs MainModel NakedCmdSpec NakedCmdProofs NakedOpenProofs DetectSpec DetectProofs PrintProofs AfterProofs SessionSpec SessionProofs MarkProofs NamesSpec.
Ltac Zify.zify_post_hook ::= Z.div_mod_to_equations.
Local Opaque zrange zeros sub.

(** ** Cards and tables *)
Notation blank := ((0, []) : card).
Lemma cards_keys t t' : cards_of t = cards_of t' -> map key t = map key t'.
Proof. exact (fun H => H). Qed.
Lemma table_cards l : cards_of (table_of l) = l.
Proof. unfold cards_of, table_of. rewrite map_map. rewrite <- (map_id l) at 2. apply map_ext. intros [a n]. reflexivity. Qed.
Lemma card_nth t j : 0 <= j < zlen t -> znth blank (cards_of t) j = (ad t j, nm t j).
Proof. intros Hj. unfold cards_of. rewrite (znth_map _ sym0 blank) by exact Hj. reflexivity. Qed.
Lemma zlen_cards t : zlen (cards_of t) = zlen t.
Proof. unfold cards_of. apply zlen_map. Qed.

Lemma symbol_file_keys t t' n f : cards_of t = cards_of t' -> symbol_file t n f -> symbol_file t' n f.
Proof.
  intros E (Hf & i & (Hi & H1 & H2) & Ha). destruct (keys_nth t t' E) as [HL Hk]. split; [exact Hf|]. exists i. split.
  - split; [lia|]. split; [rewrite <- (proj1 (Hk i)); exact H1|]. intros j Hj. rewrite <- (proj1 (Hk j)). apply H2, Hj.
  - rewrite <- (proj2 (Hk i)). exact Ha.
Qed.
Lemma resolves_keys t t' n f : cards_of t = cards_of t' -> resolves t n f -> resolves t' n f.
Proof. intros E [H|[H1 H2]]; [left; exact H|right; split; [exact H1|apply (symbol_file_keys t t' n f E H2)]]. Qed.
Lemma symbol_for_keys f : forall t t', cards_of t = cards_of t' -> symbol_for t f = symbol_for t' f.
Proof.
  unfold symbol_for. induction t as [|s t IH]; intros [|s' t'] E; try discriminate E; [reflexivity|].
  cbn [cards_of map] in E. injection E as E1 E2 E3. cbn [find]. rewrite <- E1.
  destruct (s_addr s =? 0xDF00 + f); [rewrite E2; reflexivity|]. apply IH. exact E3.
Qed.
Lemma shown_keys t t' f : cards_of t = cards_of t' -> shown t f = shown t' f /\ shown_full t f = shown_full t' f.
Proof. intros E. unfold shown, shown_full. rewrite (symbol_for_keys f t t' E). split; reflexivity. Qed.
Lemma refused_keys t t' n : cards_of t = cards_of t' -> refused t n -> refused t' n.
Proof.
  intros E H. destruct H as [p q r|p q Hp Hq H|n Ha Hv Hr|p q f Hp Ha Hv Hq].
  - apply rf_many.
  - apply rf_compound; assumption.
  - apply rf_plain; [exact Ha|exact Hv|]. intros f Hf. apply (Hr f). apply (resolves_keys t' t n f (eq_sym E) Hf).
  - apply (rf_symbol t' p q f); assumption.
Qed.

Lemma existsb_named n t : existsb (is_named n) (cards_of t) = true -> exists i, 0 <= i < zlen t /\ equal_fold n (nm t i) = true.
Proof.
  intros H. apply existsb_exists in H as (x & Hx & E). unfold cards_of in Hx. apply in_map_iff in Hx as (s & <- & Hs).
  apply (In_znth sym0) in Hs as (j & Hj & <-). exists j. split; [exact Hj|exact E].
Qed.
Lemma existsb_absent n t : (forall i, 0 <= i < zlen t -> equal_fold n (nm t i) = false) -> existsb (is_named n) (cards_of t) = false.
Proof.
  intros H. destruct (existsb (is_named n) (cards_of t)) eqn:E; [|reflexivity]. apply existsb_named in E as (i & Hi & E).
  rewrite (H i Hi) in E. discriminate E.
Qed.
Lemma existsb_present n t i : 0 <= i < zlen t -> equal_fold n (nm t i) = true -> existsb (is_named n) (cards_of t) = true.
Proof.
  intros Hi E. destruct (existsb (is_named n) (cards_of t)) eqn:Ex; [reflexivity|]. exfalso.
  assert (In (znth blank (cards_of t) i) (cards_of t)) as Hin by (apply znth_In; rewrite zlen_cards; exact Hi).
  assert (existsb (is_named n) (cards_of t) = true) as H; [|congruence].
  apply existsb_exists. exists (znth blank (cards_of t) i). split; [exact Hin|]. rewrite card_nth by exact Hi. exact E.
Qed.
Lemma pin_none n a l : (forall j, 0 <= j < zlen l -> fst (znth blank l j) <> 0) -> pin l n a = None.
Proof.
  induction l as [|x l IH]; intros H; [reflexivity|]. cbn [pin].
  pose proof (H 0 ltac:(rewrite zlen_cons; pose proof (zlen_nonneg l); lia)) as H0. rewrite znth_cons_0 in H0.
  destruct (Z.eqb_spec (fst x) 0); [contradiction|]. rewrite IH; [reflexivity|].
  intros j Hj. specialize (H (j + 1) ltac:(rewrite zlen_cons; lia)). rewrite znth_cons_S in H by lia. replace (j + 1 - 1) with j in H by lia. exact H.
Qed.
Lemma pin_at n a l : forall p, 0 <= p < zlen l -> fst (znth blank l p) = 0 -> (forall j, 0 <= j < p -> fst (znth blank l j) <> 0) ->
  pin l n a = Some (zset l p (a, upcase n)).
Proof.
  induction l as [|x l IH]; intros p Hp H0 H; [rewrite (@zlen_nil card) in Hp; lia|]. rewrite zlen_cons in Hp. cbn [pin].
  destruct (Z.eq_dec p 0) as [->|Hne].
  - rewrite znth_cons_0 in H0. rewrite H0. reflexivity.
  - pose proof (H 0 ltac:(lia)) as Hx. rewrite znth_cons_0 in Hx. destruct (Z.eqb_spec (fst x) 0); [contradiction|].
    rewrite znth_cons_S in H0 by lia.
    rewrite (IH (p - 1)); [|lia|exact H0|].
    + cbn [option_map]. apply (f_equal (@Some (list card))). apply (znth_ext blank).
      * rewrite zlen_cons, !zlen_zset, zlen_cons by (rewrite ?zlen_cons; lia). reflexivity.
      * intros i Hi. rewrite zlen_cons, zlen_zset in Hi by lia. rewrite (znth_zset blank (x :: l)) by (rewrite ?zlen_cons; lia).
        destruct (Z.eq_dec i 0) as [->|Hi0]; [rewrite !znth_cons_0; replace (0 =? p) with false by lia; reflexivity|].
        rewrite !znth_cons_S by lia. rewrite znth_zset by lia. replace (i - 1 =? p - 1) with (i =? p) by lia. reflexivity.
    + intros j Hj. specialize (H (j + 1) ltac:(lia)). rewrite znth_cons_S in H by lia. replace (j + 1 - 1) with j in H by lia. exact H.
Qed.

(** ** Adding and deleting a symbol *)
Section Cards.
  Context (s : disk) (t : list Symbol) (m : amap) (c : Z -> list Z) (Hd : table_disk s t m c).
  Lemma td_canon j : 0 <= j < zlen t -> canon (znth sym0 t j) = znth sym0 t j.
  Proof. intros Hj. rewrite <- canon_nth by exact Hj. rewrite (ReadSymbolTable_canon _ _ _ (td_t _ _ _ _ Hd)). reflexivity. Qed.
  Lemma canon_card t1 j : zlen t1 = zlen t -> 0 <= j < zlen t -> ad t1 j = ad t j -> nm t1 j = nm t j ->
    znth blank (cards_of (map canon t1)) j = (ad t j, nm t j).
  Proof.
    intros HL Hj Ea En. rewrite card_nth by (rewrite zlen_map; lia). unfold ad, nm in *. rewrite canon_nth by lia.
    pose proof (td_canon j Hj) as Hc. unfold canon in *. rewrite Ea, En.
    destruct (Z.eqb_spec (s_addr (znth sym0 t j)) 0) as [E0|E0].
    - rewrite <- Hc. reflexivity.
    - cbn [s_addr s_name]. rewrite <- Hc at 4. reflexivity.
  Qed.
  Lemma td_map : map_table t.
  Proof. apply (td_R _ _ _ _ Hd). Qed.

  Lemma add_cards n a : n <> [] -> valid_name n -> is_u16 a -> a <> 0 ->
    match AddSymbol t n a with
    | (t1, Ok _) => bind (cards_of t) n a = Some (cards_of (map canon t1))
    | (_, Err _) => bind (cards_of t) n a = None
    | (_, Panic) => False
    end.
  Proof.
    intros Hn Hv Hu Ha. destruct (AddSymbol t n a) as [t1 r] eqn:E. unfold bind. rewrite (beq_false _ _ Hn).
    pose proof (td_len _ _ _ _ Hd) as HL. pose proof td_map as Hmap.
    assert (r <> Ok tt -> (forall j, 0 <= j < zlen t -> equal_fold n (nm t j) = false) /\ unused t = 0 /\ exists e, r = Err e) as Hfail.
    { intros Hr. destruct (AddSymbol_fail t n a t1 r E Hr) as (_ & He & [H|[H1 H2]]); [contradiction|]. split; [exact H1|split; [exact H2|exact He]]. }
    destruct r as [[]|e|].
    2:{ destruct (Hfail ltac:(discriminate)) as (H1 & H2 & _). rewrite (existsb_absent n t H1). apply pin_none.
        intros j Hj. rewrite zlen_cards in Hj. rewrite card_nth by exact Hj. apply (proj1 (unused_ex t) H2 j Hj). }
    2:{ destruct (Hfail ltac:(discriminate)) as (_ & _ & [e He]). discriminate He. }
    destruct (AddSymbol_changed t n a t1 E) as (_ & p & n' & Hc & En & Hcase). pose proof Hc as (HL1 & Hp & Pa & Pn & Hq).
    pose proof (AddSymbol_sok t n a t1 ltac:(rewrite HL; lia) Hmap Hn (td_sok _ _ _ _ Hd) Hu Hv E) as Hs1.
    assert (Hcp : znth blank (cards_of (map canon t1)) p = (a, upcase n)).
    { rewrite card_nth by (rewrite zlen_map; lia). unfold ad, nm in *. rewrite canon_nth by lia. unfold canon. rewrite Pa, Pn.
      destruct (Z.eqb_spec a 0); [contradiction|]. cbn [s_addr s_name]. f_equal. symmetry.
      assert (valid_name n') as Hv' by (rewrite <- Pn; apply (Forall_znth s_ok sym0 t1 p Hs1 ltac:(lia))).
      destruct Hv as [?|(_ & Al & _)]; [contradiction|]. destruct Hv' as [->|(_ & Al' & _)]; [apply equal_fold_nil in En; contradiction|].
      apply fold_upcase_eq; assumption. }
    assert (Hco : forall j, 0 <= j < zlen t -> j <> p -> znth blank (cards_of (map canon t1)) j = (ad t j, nm t j)).
    { intros j Hj Hne. destruct (Hq j ltac:(lia) Hne) as [Q1 Q2]. apply canon_card; [exact HL1|exact Hj|exact Q1|exact Q2]. }
    destruct Hcase as [(H1 & _ & _)|(H1 & H2 & _)].
    - rewrite (existsb_present n t p Hp H1). apply (f_equal (@Some (list card))). apply (znth_ext blank).
      + rewrite zlen_map, !zlen_cards, zlen_map, HL1. reflexivity.
      + intros j Hj. rewrite zlen_map, zlen_cards in Hj. rewrite (znth_map _ blank blank) by (rewrite zlen_cards; exact Hj).
        rewrite card_nth by exact Hj. unfold is_named. cbn [snd]. destruct (Z.eq_dec j p) as [->|Hne]; [rewrite H1, Hcp; reflexivity|].
        rewrite (Hco j Hj Hne). destruct (equal_fold n (nm t j)) eqn:Ej; [|reflexivity]. exfalso. apply Hne.
        apply (proj1 Hmap j p Hj Hp); [apply (equal_fold_nonnil n); assumption|].
        apply (equal_fold_join _ _ n); [rewrite equal_fold_sym; exact Ej|rewrite equal_fold_sym; exact H1].
    - rewrite (existsb_absent n t H2).
      assert (forall j, 0 <= j < p -> ad t j <> 0) as Hb.
      { apply (AddSymbol_blank t n a t1 p n' E H2 Hc). }
      rewrite (pin_at n a (cards_of t) p); [|rewrite zlen_cards; exact Hp|rewrite card_nth by exact Hp; exact H1|].
      2:{ intros j Hj. rewrite card_nth by lia. apply Hb. exact Hj. }
      apply (f_equal (@Some (list card))). apply (znth_ext blank).
      + rewrite zlen_zset, !zlen_cards, zlen_map, HL1 by (rewrite zlen_cards; exact Hp). reflexivity.
      + intros j Hj. rewrite zlen_zset, zlen_cards in Hj by (rewrite zlen_cards; exact Hp). rewrite znth_zset by (rewrite ?zlen_cards; lia).
        destruct (Z.eqb_spec j p) as [->|Hne]; [rewrite Hcp; reflexivity|]. rewrite card_nth by exact Hj. rewrite (Hco j Hj Hne). reflexivity.
  Qed.

  Lemma delete_cards n : n <> [] -> cards_of (map canon (fst (DeleteSymbol t n))) = unpin (cards_of t) n.
  Proof.
    intros Hn. pose proof td_map as Hmap. pose proof (DeleteSymbol_spec t n) as H. pose proof (find_name_spec t n 0) as Hf.
    destruct (find_name t n 0) as [i|].
    - rewrite Z.sub_0_r in Hf. destruct Hf as (H1 & H2 & _). destruct H as (t1 & -> & (HL1 & Hi & Pa & Pn & Hq) & _). cbn [fst].
      apply (znth_ext blank).
      + unfold unpin. rewrite zlen_map, !zlen_cards, zlen_map, HL1. reflexivity.
      + intros j Hj. rewrite zlen_cards, zlen_map, HL1 in Hj. unfold unpin. rewrite (znth_map _ blank blank) by (rewrite zlen_cards; exact Hj).
        rewrite (card_nth t) by exact Hj. unfold is_named. cbn [snd]. destruct (Z.eq_dec j i) as [->|Hne].
        * rewrite H2. rewrite card_nth by (rewrite zlen_map; lia). unfold ad, nm in *. rewrite canon_nth by lia. unfold canon. rewrite Pa. reflexivity.
        * destruct (Hq j ltac:(lia) Hne) as [Q1 Q2]. rewrite (canon_card t1 j HL1 Hj Q1 Q2).
          destruct (equal_fold n (nm t j)) eqn:Ej; [|reflexivity]. exfalso. apply Hne.
          apply (proj1 Hmap j i Hj Hi); [apply (equal_fold_nonnil n); assumption|].
          apply (equal_fold_join _ _ n); [rewrite equal_fold_sym; exact Ej|rewrite equal_fold_sym; exact H2].
    - rewrite H. cbn [fst]. rewrite (ReadSymbolTable_canon _ _ _ (td_t _ _ _ _ Hd)). unfold unpin.
      apply (znth_ext blank); [rewrite zlen_map; reflexivity|]. intros j Hj. rewrite (znth_map _ blank blank) by exact Hj. rewrite zlen_cards in Hj.
      rewrite card_nth by exact Hj. unfold is_named. cbn [snd]. rewrite (Hf j Hj). reflexivity.
  Qed.
End Cards.

(** ** The disk and the board *)
Definition holds (s : disk) (st : store) (l : list card) : Prop :=
  exists t m c, table_disk s t m c /\ cards_of t = l /\ same_but_symbols (store_of (fst s) (snd s)) st /\ no_numeric_symbols t /\ nm t 0 <> [].

Lemma near_status s s' f data ow : same_but_symbols s s' -> legal f -> f <> 3 -> f <> 4 -> put_status s f data ow = put_status s' f data ow.
Proof. intros [H Hf] Hl N3 N4. unfold put_status, st_used. destruct (H f Hl) as [-> H2]. rewrite (H2 N3 N4), Hf. reflexivity. Qed.
Lemma near_set s s' s1 f c x y : same_but_symbols s s' -> legal f -> f <> 3 -> f <> 4 -> same_store s1 (st_set s f c (st_free s + st_used s f - x)) ->
  y = st_free s' + st_used s' f - x -> same_but_symbols s1 (st_set s' f c y).
Proof.
  intros [H Hf] Hl N3 N4 [H1 H2] ->. split.
  - intros g Hg. unfold in_use. rewrite (H1 g Hg). cbn [st_set st_file]. destruct (Z.eqb_spec g f) as [->|Hne]; [split; reflexivity|].
    destruct (H g Hg) as [E1 E2]. split; [exact E1|exact E2].
  - rewrite H2. cbn [st_set st_free]. unfold st_used. rewrite Hf, (proj2 (H f Hl) N3 N4). reflexivity.
Qed.
Lemma store_refl s : same_store s s.
Proof. split; reflexivity. Qed.

Lemma keep_table s s' t m c : table_disk s t m c -> floppy (fst s') (snd s') ->
  content (fst s') (snd s') 3 = content (fst s) (snd s) 3 -> content (fst s') (snd s') 4 = content (fst s) (snd s) 4 -> table_disk s' t m c.
Proof.
  intros [Hf H3 H4 Ht HL Hs HR Hc] Hf' E3 E4. pose proof (fl_len _ _ Hf) as D. pose proof (fl_len _ _ Hf') as D'. split; try assumption.
  - rewrite <- (used_owned (fst s') (snd s') 3 D'), E3, (used_owned (fst s) (snd s) 3 D). exact H3.
  - rewrite <- (used_owned (fst s') (snd s') 4 D'), E4, (used_owned (fst s) (snd s) 4 D). exact H4.
  - unfold disk_table in *. rewrite (ReadSymbolTable_same (fst s) (snd s) (fst s') (snd s') D D' E3 E4). exact Ht.
Qed.

Lemma write_holds s t m c st f data (ow : bool) : table_disk s t m c -> same_but_symbols (store_of (fst s) (snd s)) st -> legal f -> f <> 3 -> f <> 4 ->
  match WriteFile f data ow s with
  | (s', Ok _) => put_status st f data ow = 0 /\ table_disk s' t m c /\
      same_but_symbols (store_of (fst s') (snd s')) (st_set st f (padded data) (st_free st + st_used st f - nsec data))
  | (_, Err _) => put_status st f data ow = 1
  | (_, Panic) => put_status st f data ow = 2
  end.
Proof.
  intros Hd Hn Hf N3 N4. destruct s as [d sm]. cbn [fst snd] in *. rewrite <- (near_status _ _ f data ow Hn Hf N3 N4).
  pose proof (write_step d sm (store_of d sm) (td_fl _ _ _ _ Hd) (store_refl _) f data ow Hf) as H.
  destruct (WriteFile f data ow (d, sm)) as [[d' sm'] [b|e|]]; [|exact H|exact H].
  destruct H as (H1 & H2 & H3). split; [exact H1|]. cbn [fst snd].
  assert (forall g, legal g -> g <> f -> content d' sm' g = content d sm g) as Hg.
  { intros g Hg Hne. destruct H3 as [H3 _]. specialize (H3 g Hg). cbn [store_of st_set st_file] in H3.
    destruct (Z.eqb_spec g f); [contradiction|exact H3]. }
  split; [apply (keep_table (d, sm) (d', sm') t m c Hd H2); apply Hg; unfold legal; lia|].
  apply (near_set _ st _ f _ (nsec data) _ Hn Hf N3 N4 H3). reflexivity.
Qed.
Lemma delete_holds s t m c st f : table_disk s t m c -> same_but_symbols (store_of (fst s) (snd s)) st -> legal f -> f <> 3 -> f <> 4 ->
  table_disk (upd (fst s) 2512 (SMDelete (snd s) f), SMDelete (snd s) f) t m c /\
  same_but_symbols (store_of (upd (fst s) 2512 (SMDelete (snd s) f)) (SMDelete (snd s) f)) (st_set st f [] (st_free st + st_used st f)).
Proof.
  intros Hd Hn Hf N3 N4. destruct s as [d sm]. cbn [fst snd] in *.
  destruct (SessionProofs.delete_step d sm (store_of d sm) (td_fl _ _ _ _ Hd) (store_refl _) f Hf) as [H2 H3].
  assert (forall g, legal g -> g <> f -> content (upd d 2512 (SMDelete sm f)) (SMDelete sm f) g = content d sm g) as Hg.
  { intros g Hg Hne. destruct H3 as [H3 _]. specialize (H3 g Hg). cbn [store_of st_set st_file] in H3.
    destruct (Z.eqb_spec g f); [contradiction|exact H3]. }
  split; [apply (keep_table (d, sm) (_, _) t m c Hd H2); apply Hg; unfold legal; lia|].
  apply (near_set _ st _ f _ 0 _ Hn Hf N3 N4); [|lia]. rewrite Z.sub_0_r. exact H3.
Qed.

(** Writing another table. *)
Lemma table_holds s t m c st t1 m1 c1 : table_disk s t m c -> same_but_symbols (store_of (fst s) (snd s)) st ->
  zlen t1 = 819 -> Forall s_ok t1 -> sym_R t1 m1 -> one_chain t1 c1 ->
  exists s', WriteSymbolTable t1 s = (s', Ok tt) /\ table_disk s' (map canon t1) m1 c1 /\ same_but_symbols (store_of (fst s') (snd s')) st.
Proof.
  intros Hd [Hn Hfree] HL Hs HR Hc. destruct (SupermonChainProofs.written s t m c t1 m1 c1 Hd HL Hs HR Hc) as (s' & EW & Hd' & Ho).
  exists s'. split; [exact EW|]. split; [exact Hd'|].
  pose proof (fl_len _ _ (td_fl _ _ _ _ Hd)) as D. pose proof (fl_len _ _ (td_fl _ _ _ _ Hd')) as D'.
  assert (forall g, legal g -> g <> 3 -> g <> 4 -> content (fst s') (snd s') g = content (fst s) (snd s) g) as Hg.
  { intros g Hg N3 N4. destruct (Ho g N3 N4 Hg) as [_ E]. rewrite !ReadFile_spec in E by assumption. congruence. }
  split.
  - intros g Hgl. cbn [store_of st_file].
    destruct (Z.eq_dec g 3) as [->|N3]; [|destruct (Z.eq_dec g 4) as [->|N4]].
    + split; [|intros H; contradiction H; reflexivity]. rewrite <- (proj1 (Hn 3 Hgl)). unfold in_use. cbn [store_of st_file].
      rewrite !content_beq, (td_3 _ _ _ _ Hd), (td_3 _ _ _ _ Hd') by assumption. reflexivity.
    + split; [|intros _ H; contradiction H; reflexivity]. rewrite <- (proj1 (Hn 4 Hgl)). unfold in_use. cbn [store_of st_file].
      rewrite !content_beq, (td_4 _ _ _ _ Hd), (td_4 _ _ _ _ Hd') by assumption. reflexivity.
    + destruct (Hn g Hgl) as [E1 E2]. unfold in_use in *. cbn [store_of st_file] in *. rewrite (Hg g Hgl N3 N4). split; [exact E1|exact E2].
  - cbn [store_of st_free] in *. rewrite <- Hfree. destruct s as [d sm]. cbn [fst snd] in *.
    destruct (C35_lemma t1 d sm (td_fl _ _ _ _ Hd)) as (d2 & sm2 & EW2 & _ & _ & _ & _ & _ & EF);
      [split; [exact HL|split; [exact Hs|apply (chains_links t1 c1 Hc)]]|apply (td_3 _ _ _ _ Hd)|apply (td_4 _ _ _ _ Hd)|].
    assert (s' = (d2, sm2)) as -> by congruence. exact EF.
Qed.

(** ** Names of files *)
Lemma hash7_file f : legal f -> f <> 95 -> f <> 223 -> hash7 (0xDF00 + f) <> 0.
Proof.
  intros Hf N1 N2 E.
  assert (forallb (fun g => (g =? 95) || (g =? 223) || negb (hash7 (0xDF00 + g) =? 0)) (map Z.of_nat (seq 0 254)) = true) as H by (vm_compute; reflexivity).
  rewrite forallb_forall in H. specialize (H f). rewrite E in H. assert (In f (map Z.of_nat (seq 0 254))) as Hin.
  { apply in_map_iff. exists (Z.to_nat f). unfold legal in Hf. split; [lia|]. apply in_seq. lia. }
  specialize (H Hin). lia.
Qed.
Lemma not_orphans t i : i <> 0 -> ~ orphans t i.
Proof. intros Hi (j & _ & _ & _ & (H & _)). contradiction. Qed.
Lemma careful_add t n f : legal f -> may_bind (cards_of t) n f -> careful (SAdd n (0xDF00 + f)) t.
Proof.
  intros Hf Hm i Hi En. destruct (Hm i) as (H0 & H1 & H2); [rewrite zlen_cards; exact Hi|rewrite card_nth by exact Hi; exact En|].
  right. split; [apply hash7_file; assumption|apply not_orphans; exact H0].
Qed.
Lemma numeric_cards t : no_numeric_symbols t <-> forall x f, In x (cards_of t) -> ~ numeric (snd x) f.
Proof.
  split.
  - intros H x f Hx. unfold cards_of in Hx. apply in_map_iff in Hx as (y & <- & Hy). apply (In_znth sym0) in Hy as (j & Hj & <-). apply (H j f Hj).
  - intros H i f Hi. specialize (H (znth blank (cards_of t) i) f). rewrite card_nth in H by exact Hi. apply H.
    rewrite <- card_nth by exact Hi. apply znth_In. rewrite zlen_cards. exact Hi.
Qed.
Lemma upcase_numeric n f : valid_name n -> numeric (upcase n) f -> numeric n f.
Proof.
  intros Hv Hn. apply (numeric_fold (upcase n)); [exact Hn|]. unfold equal_fold. rewrite (fold_upcase _ (valid_ascii _ Hv)). apply beq_refl.
Qed.
Lemma pin_In n a l l' x : pin l n a = Some l' -> In x l' -> x = (a, upcase n) \/ In x l.
Proof.
  revert l'. induction l as [|y l IH]; intros l' E Hx; [discriminate E|]. cbn [pin] in E. destruct (fst y =? 0).
  - injection E as <-. destruct Hx as [<-|Hx]; [left; reflexivity|right; right; exact Hx].
  - destruct (pin l n a) as [l2|]; [|discriminate E]. cbn [option_map] in E. injection E as <-.
    destruct Hx as [<-|Hx]; [right; left; reflexivity|]. destruct (IH l2 eq_refl Hx) as [H|H]; [left; exact H|right; right; exact H].
Qed.
Lemma bind_In n a l l' x : bind l n a = Some l' -> In x l' -> x = (a, upcase n) \/ In x l.
Proof.
  unfold bind. destruct (beq n []); [intros E; injection E as <-; right; assumption|].
  destruct (existsb (is_named n) l); [|apply pin_In]. intros E Hx. injection E as <-. apply in_map_iff in Hx as (y & <- & Hy).
  destruct (is_named n y); [left; reflexivity|right; exact Hy].
Qed.
Lemma bind_first n a l l' : n <> [] -> 0 < zlen l -> snd (znth blank l 0) <> [] -> bind l n a = Some l' -> snd (znth blank l' 0) <> [].
Proof.
  intros Hn HL H0 E. assert (upcase n <> []) as Hu by (destruct n; [contradiction|discriminate]).
  destruct l as [|x l]; [rewrite (@zlen_nil card) in HL; lia|]. rewrite znth_cons_0 in H0. unfold bind in E. rewrite (beq_false _ _ Hn) in E.
  destruct (existsb (is_named n) (x :: l)).
  - injection E as <-. cbn [map]. rewrite znth_cons_0. destruct (is_named n x); [exact Hu|exact H0].
  - cbn [pin] in E. destruct (fst x =? 0); [injection E as <-; rewrite znth_cons_0; exact Hu|].
    destruct (pin l n a); [|discriminate E]. cbn [option_map] in E. injection E as <-. rewrite znth_cons_0. exact H0.
Qed.
Lemma unpin_In n l x : In x (unpin l n) -> x = blank \/ In x l.
Proof. unfold unpin. intros Hx. apply in_map_iff in Hx as (y & <- & Hy). destruct (is_named n y); [left; reflexivity|right; exact Hy]. Qed.
Lemma not_numeric_nil f : ~ numeric [] f.
Proof. intros (_ & v & H & _). apply hex_number_iff in H as [H _]. contradiction H. reflexivity. Qed.

(** Binding a name on the disk. *)
Lemma add_holds s t m c st n f : table_disk s t m c -> same_but_symbols (store_of (fst s) (snd s)) st -> no_numeric_symbols t -> nm t 0 <> [] ->
  n <> [] -> valid_name n -> (forall g, ~ numeric n g) -> legal f -> may_bind (cards_of t) n f ->
  match AddSymbol t n (0xDF00 + f) with
  | (t1, Ok _) => exists s' l, bind (cards_of t) n (0xDF00 + f) = Some l /\ WriteSymbolTable t1 s = (s', Ok tt) /\ holds s' st l
  | (_, Err _) => bind (cards_of t) n (0xDF00 + f) = None
  | (_, Panic) => False
  end.
Proof.
  intros Hd Hn Hnn H0 Hne Hv Hnum Hf Hmay. remember (0xDF00 + f) as a eqn:Ea.
  assert (is_u16 a) as Hu by (unfold is_u16, legal in *; lia). assert (a <> 0) as Ha by (unfold legal in Hf; lia).
  pose proof (add_cards s t m c Hd n a Hne Hv Hu Ha) as HC.
  destruct (AddSymbol t n a) as [t1 [[]|e|]] eqn:E; [|exact HC|exact HC].
  pose proof (td_len _ _ _ _ Hd) as HL. pose proof (td_map s t m c Hd) as Hmap.
  pose proof (careful_add t n f Hf Hmay) as Hcare. rewrite <- Ea in Hcare.
  destruct (add_step t n a t1 c HL Hmap (td_blank _ _ _ _ Hd) (td_c _ _ _ _ Hd) Hne Hcare E) as (c1 & Hc1 & _).
  destruct (am_step (SAdd n a) m) as [m1 o1] eqn:Em.
  destruct (sym_step_refines (SAdd n a) t m t1 OAdded m1 o1 Hne (td_R _ _ _ _ Hd)) as (_ & HR1 & L1); [cbn [sym_step]; rewrite E; reflexivity|exact Em|].
  pose proof (AddSymbol_sok t n a t1 ltac:(rewrite HL; lia) Hmap Hne (td_sok _ _ _ _ Hd) Hu Hv E) as Hs1.
  destruct (table_holds s t m c st t1 m1 c1 Hd Hn ltac:(rewrite L1; exact HL) Hs1 HR1 Hc1) as (s' & EW & Hd' & Hn').
  exists s', (cards_of (map canon t1)). split; [exact HC|]. split; [exact EW|].
  exists (map canon t1), m1, c1. split; [exact Hd'|]. split; [reflexivity|]. split; [exact Hn'|]. split.
  - apply numeric_cards. intros x g Hx. destruct (bind_In _ _ _ _ x HC Hx) as [->|Hx'].
    + cbn [snd]. intros H. apply (Hnum g). apply upcase_numeric; assumption.
    + apply (proj1 (numeric_cards t) Hnn x g Hx').
  - pose proof (bind_first n a (cards_of t) _ Hne ltac:(rewrite zlen_cards, HL; lia) ltac:(rewrite card_nth by (rewrite HL; lia); exact H0) HC) as H.
    rewrite card_nth in H by (rewrite zlen_map, L1, HL; lia). exact H.
Qed.
(** Deleting a name. *)
Lemma del_holds s t m c st n : table_disk s t m c -> same_but_symbols (store_of (fst s) (snd s)) st -> no_numeric_symbols t -> nm t 0 <> [] ->
  n <> [] -> equal_fold n (nm t 0) = false ->
  match DeleteSymbol t n with
  | (t1, true) => exists s', WriteSymbolTable t1 s = (s', Ok tt) /\ holds s' st (unpin (cards_of t) n)
  | (t1, false) => t1 = t /\ unpin (cards_of t) n = cards_of t
  end.
Proof.
  intros Hd Hn Hnn H0 Hne Hfirst. pose proof (delete_cards s t m c Hd n Hne) as HC.
  destruct (DeleteSymbol t n) as [t1 [|]] eqn:E; cbn [fst] in HC.
  2:{ assert (t1 = t) as ->. { unfold DeleteSymbol in E. destruct (find_name t n 0); [discriminate|congruence]. }
      split; [reflexivity|]. rewrite <- HC, (ReadSymbolTable_canon _ _ _ (td_t _ _ _ _ Hd)). reflexivity. }
  pose proof (td_len _ _ _ _ Hd) as HL. pose proof (td_map s t m c Hd) as Hmap.
  assert (careful (SDel n) t) as Hcare.
  { intros i Hi En. cbn [op_name] in En. apply not_orphans. intros ->. congruence. }
  destruct (SupermonChainProofs.delete_step t n t1 c HL Hmap (td_blank _ _ _ _ Hd) (td_c _ _ _ _ Hd) Hne Hcare E) as (c1 & Hc1 & _).
  destruct (am_step (SDel n) m) as [m1 o1] eqn:Em.
  destruct (sym_step_refines (SDel n) t m t1 (ODeleted true) m1 o1 Hne (td_R _ _ _ _ Hd)) as (_ & HR1 & L1); [cbn [sym_step]; rewrite E; reflexivity|exact Em|].
  pose proof (DeleteSymbol_sok t n ltac:(rewrite HL; lia) Hmap Hne (td_sok _ _ _ _ Hd)) as Hs1. rewrite E in Hs1. cbn [fst] in Hs1.
  destruct (table_holds s t m c st t1 m1 c1 Hd Hn ltac:(rewrite L1; exact HL) Hs1 HR1 Hc1) as (s' & EW & Hd' & Hn').
  exists s'. split; [exact EW|]. exists (map canon t1), m1, c1. split; [exact Hd'|]. split; [exact HC|]. split; [exact Hn'|]. split.
  - apply numeric_cards. intros x g Hx. rewrite HC in Hx. destruct (unpin_In n _ x Hx) as [->|Hx']; [apply not_numeric_nil|].
    apply (proj1 (numeric_cards t) Hnn x g Hx').
  - assert (znth blank (cards_of (map canon t1)) 0 = (ad t 0, nm t 0)) as Hz.
    { rewrite HC. unfold unpin. rewrite (znth_map _ blank blank) by (rewrite zlen_cards, HL; lia). rewrite card_nth by (rewrite HL; lia).
      unfold is_named. cbn [snd]. rewrite Hfirst. reflexivity. }
    rewrite card_nth in Hz by (rewrite zlen_map, L1, HL; lia). congruence.
Qed.

(** ** PutFile *)
Definition put_tail (f : Z) (data : bytes) (ow : bool) (named : bool) (n : bytes) : st Operator bool :=
  existed <== on_disk (WriteFile f data ow) ;;
  if named then
    fun o1 =>
      let '(table1, r) := AddSymbol (st_of o1) n (u16 (0xDF00 + f)) in
      let o2 := Op (op_data o1) (op_SM o1) (Some table1) in
      match r with
      | Err e => (o2, Err e)
      | Panic => (o2, Panic)
      | Ok _ => (_ <== on_disk (WriteSymbolTable table1) ;; sret existed) o2
      end
  else sret existed.
Lemma PutFile_plan i ow o t f0 nf sy : op_ST o = Some t -> d_type (fi_desc_ i) = FiletypeBinary -> d_length (fi_desc_ i) = zlen (fi_data i) ->
  FilesForCompoundName t (d_name (fi_desc_ i)) = Ok (f0, nf, sy) -> valid_name sy ->
  exists e, PutFile i ow o =
    let f := if f0 =? 0 then FirstFreeFile (op_SM o) else f0 in
    if f =? 0 then (o, Err e) else put_tail f (fi_data i) ow (negb (nf =? f) && negb (beq sy [])) sy o.
Proof.
  intros Et Ht Hl Ef Hv. unfold PutFile. rewrite Ht, Hl, !Z.eqb_refl. cbn [negb].
  replace (st_of o) with t by (unfold st_of; rewrite Et; reflexivity). rewrite Ef. cbv zeta. rewrite Et.
  destruct (encode_valid sy Hv) as (six & -> & _). cbn [rbind].
  eexists. destruct (beq sy []); reflexivity.
Qed.
Lemma put_holds op t m c st f data (ow named : bool) n : op_ST op = Some t -> table_disk (op_data op, op_SM op) t m c ->
  same_but_symbols (store_of (op_data op) (op_SM op)) st -> no_numeric_symbols t -> nm t 0 <> [] ->
  legal f -> f <> 3 -> f <> 4 ->
  (named = true -> n <> [] /\ valid_name n /\ (forall g, ~ numeric n g) /\ may_bind (cards_of t) n f) ->
  match put_tail f data ow named n op with
  | (op', Ok _) => put_status st f data ow = 0 /\ exists l, (if named then bind (cards_of t) n (0xDF00 + f) else Some (cards_of t)) = Some l /\
      holds (op_data op', op_SM op') (st_set st f (padded data) (st_free st + st_used st f - nsec data)) l
  | (_, Err _) => put_status st f data ow = 1 \/ (put_status st f data ow = 0 /\ (if named then bind (cards_of t) n (0xDF00 + f) else Some (cards_of t)) = None)
  | (_, Panic) => put_status st f data ow = 2
  end.
Proof.
  intros Et Hd Hn Hnn H0 Hf N3 N4 Hnamed. unfold put_tail, sbind, on_disk at 1.
  pose proof (write_holds (op_data op, op_SM op) t m c st f data ow Hd Hn Hf N3 N4) as HW.
  destruct (WriteFile f data ow (op_data op, op_SM op)) as [[d' sm'] [b|e|]]; [|left; exact HW|exact HW].
  destruct HW as (HW1 & HW2 & HW3). cbn [fst snd] in HW2, HW3. destruct named.
  - destruct (Hnamed eq_refl) as (Hne & Hv & Hnum & Hmay). unfold st_of. cbn [op_ST op_data op_SM]. rewrite Et.
    replace (u16 (0xDF00 + f)) with (0xDF00 + f) by (unfold u16, legal in *; lia).
    pose proof (add_holds (d', sm') t m c (st_set st f (padded data) (st_free st + st_used st f - nsec data)) n f HW2 HW3 Hnn H0 Hne Hv Hnum Hf Hmay) as HA.
    destruct (AddSymbol t n (0xDF00 + f)) as [t1 [[]|e|]]; [|right; split; [exact HW1|exact HA]|contradiction].
    destruct HA as (s' & l & HA1 & HA2 & HA3). unfold on_disk. cbn [op_data op_SM op_ST]. rewrite HA2. destruct s' as [d2 sm2].
    unfold sret. split; [exact HW1|]. exists l. split; [exact HA1|exact HA3].
  - unfold sret. split; [exact HW1|]. eexists. split; [reflexivity|]. cbn [op_data op_SM].
    exists t, m, c. split; [exact HW2|]. split; [reflexivity|]. split; [exact HW3|]. split; [exact Hnn|exact H0].
Qed.

(** Track 17 sector 0 stays as it is if it belongs to another file. *)
Lemma put_tail_spares f data ow named n op op' b g : zlen (op_data op) = 143360 -> zlen (op_SM op) = 560 -> legal f ->
  put_tail f data ow named n op = (op', Ok b) -> znth 0 (op_SM op) 272 = g -> g <> FREE -> g <> 3 -> g <> 4 -> g <> f ->
  znth 0 (op_SM op') 272 = g /\ release_byte (op_data op') = release_byte (op_data op).
Proof.
  intros Hd Hl Hf E Hg N1 N3 N4 Nf. unfold put_tail, sbind, on_disk at 1 in E.
  destruct (WriteFile f data ow (op_data op, op_SM op)) as [[d1 sm1] [x1|e|]] eqn:E1; [|discriminate E|discriminate E].
  destruct (WriteFile_spares f data ow _ _ d1 sm1 x1 g Hd Hl Hf E1 Hg N1 Nf) as (L1 & L2 & H1 & H2).
  destruct named; [|unfold sret in E; injection E as <- _; cbn [op_data op_SM]; split; [exact H1|exact H2]].
  destruct (AddSymbol _ _ _) as [t1 [[]|e|]]; [|discriminate E|discriminate E].
  unfold on_disk in E. cbn [op_data op_SM op_ST] in E.
  destruct (WriteSymbolTable t1 (d1, sm1)) as [[d2 sm2] [[]|e|]] eqn:E2; [|discriminate E|discriminate E].
  unfold sret in E. injection E as <- _. cbn [op_data op_SM].
  destruct (WriteSymbolTable_spares t1 d1 sm1 d2 sm2 g L1 L2 E2 H1 N1 N3 N4) as [H3 H4]. split; [exact H3|congruence].
Qed.
Lemma Delete_spares n op op' b f g : zlen (op_data op) = 143360 -> zlen (op_SM op) = 560 -> FileForName (st_of op) n = Ok f ->
  SupermonModel.Delete n op = (op', Ok b) -> znth 0 (op_SM op) 272 = g -> g <> FREE -> g <> 3 -> g <> 4 -> g <> f ->
  znth 0 (op_SM op') 272 = g /\ release_byte (op_data op') = release_byte (op_data op).
Proof.
  intros Hd Hl HF E Hg N1 N3 N4 Nf. unfold SupermonModel.Delete in E. rewrite HF in E. cbv zeta in E.
  assert (zlen (SMDelete (op_SM op) f) = 560) as L0 by (rewrite zlen_SMDelete; exact Hl).
  rewrite Persist_ok in E by lia.
  assert (znth 0 (SMDelete (op_SM op) f) 272 = g) as H1 by (rewrite znth_SMDelete by lia; replace (znth 0 (op_SM op) 272 =? f) with false by lia; exact Hg).
  pose proof (release_persist (op_data op) _ Hd L0) as H2.
  remember (upd (op_data op) 2512 (SMDelete (op_SM op) f)) as d1 eqn:Ed1.
  assert (zlen d1 = 143360) as L1 by (rewrite Ed1, zlen_upd; lia).
  destruct (op_ST op) as [t|]; [|injection E as <- _; cbn [op_data op_SM]; split; [exact H1|exact H2]].
  destruct (DeleteSymbol t n) as [t1 [|]]; [|injection E as <- _; cbn [op_data op_SM]; split; [exact H1|exact H2]].
  unfold sbind, on_disk in E. cbn [op_data op_SM op_ST] in E.
  destruct (WriteSymbolTable t1 _) as [[d2 sm2] [[]|e|]] eqn:E2; [|discriminate E|discriminate E].
  unfold sret in E. injection E as <- _. cbn [op_data op_SM].
  destruct (WriteSymbolTable_spares t1 d1 (SMDelete (op_SM op) f) d2 sm2 g L1 L0 E2 H1 N1 N3 N4) as [H3 H4]. split; [exact H3|congruence].
Qed.

(** ** The least unused file *)
Lemma find_seq (p : Z -> bool) r n : forall a, a < r <= a + Z.of_nat n -> p r = true ->
  (forall f, a < f < r -> p f = false) -> find p (map (fun k => k + 1) (zseq a n)) = Some r.
Proof.
  induction n as [|n IH]; intros a Hr Hp Hb; [lia|]. cbn [zseq map find].
  destruct (Z.eq_dec (a + 1) r) as [->|Hne]; [rewrite Hp; reflexivity|]. rewrite Hb by lia.
  apply IH; [lia|exact Hp|]. intros f Hf. apply Hb. lia.
Qed.
Local Transparent zrange.
Lemma find_first (p : Z -> bool) r : legal r -> p r = true -> (forall f, 0 < f < r -> p f = false) -> find p all_files = Some r.
Proof. intros H1 H2 H3. unfold all_files, zrange. apply find_seq; [unfold legal in H1; lia|exact H2|exact H3]. Qed.
Local Opaque zrange.
Lemma least_first d sm st : floppy d sm -> same_but_symbols (store_of d sm) st ->
  (least_unused st = None /\ FirstFreeFile sm = 0) \/
  (least_unused st = Some (FirstFreeFile sm) /\ legal (FirstFreeFile sm) /\ owned sm (FirstFreeFile sm) = []).
Proof.
  intros Hf [Hn _].
  assert (forall f, legal f -> negb (in_use st f) = (zlen (owned sm f) =? 0)) as Hu.
  { intros f Hl. rewrite <- (proj1 (Hn f Hl)). unfold in_use. cbn [store_of st_file]. rewrite negb_involutive. apply content_beq. apply (fl_len _ _ Hf). }
  unfold least_unused. destruct (FirstFreeFile_spec sm) as [(H1 & H2 & H3)|[H1 H2]].
  - right. split; [|split; [exact H1|exact H2]]. apply find_first.
    + exact H1.
    + rewrite (Hu _ H1), H2. reflexivity.
    + intros f Hfr. assert (legal f) as Hl by (unfold legal in *; lia). rewrite (Hu f Hl).
      destruct (Z.eqb_spec (zlen (owned sm f)) 0) as [E|]; [|reflexivity]. exfalso. apply (H3 f ltac:(lia)). apply zlen_zero_nil. exact E.
  - left. split; [|exact H1].
    destruct (find (fun f => negb (in_use st f)) all_files) as [r|] eqn:E; [|reflexivity]. exfalso.
    apply find_some in E as [Hin E]. apply in_map_iff in Hin as (j & <- & Hj). apply In_zrange in Hj.
    assert (legal (j + 1)) as Hl by (unfold legal; lia). rewrite (Hu _ Hl) in E. apply (H2 (j + 1) Hl). apply zlen_zero_nil. lia.
Qed.

(** ** One command *)
Section Names.
  Context (iter : list (Z * Subdirectory) -> list (Z * Subdirectory)) (fuel : nat).
  Context (order img o : bytes) (Hio : first_order img order o) (Himg : img <> s2b "-").
  (** Whether track 17 sector 0 is watched, and the file it belongs to. *)
  Context (B : Prop) (gm : Z) (Hgm : B -> gm <> FREE /\ gm <> 3 /\ gm <> 4).
  Definition watched (d sm : bytes) : Prop := B -> release_byte d <> 3 /\ znth 0 sm 272 = gm.

  (** The computer and the board agree. *)
  Record on_board (w : world) (k : board) : Prop := {
    ob_disk : exists c d, w_fs w img = NFile c true true /\ naked_image c o d /\ holds (d, stored_map d) (b_store k) (b_cards k) /\ watched d (stored_map d);
    ob_files : forall n, n <> img -> w_fs w n = b_files k n;
    ob_room : w_room w = None;
    ob_out : w_outroom w = None
  }.
  Lemma board_out w k text : on_board w k -> on_board (add_out w text) k.
  Proof. intros [H1 H2 H3 H4]. split; assumption. Qed.
  Lemma board_quiet w k : on_board w k -> on_board (quiet w) k.
  Proof. intros [H1 H2 H3 H4]. split; assumption. Qed.

  Lemma board_open w k : on_board w k -> unmarked img w -> exists c op t m ch,
    w_fs w img = NFile c true true /\ naked_image c o (op_data op) /\ op_ok op /\ op_ST op = Some t /\
    table_disk (op_data op, op_SM op) t m ch /\ cards_of t = b_cards k /\ same_but_symbols (store_of (op_data op) (op_SM op)) (b_store k) /\
    no_numeric_symbols t /\ nm t 0 <> [] /\ watched (op_data op) (op_SM op) /\
    run (OpenFilename iter fuel img order (s2b "auto")) w = (w, Ok (ONaked op, o)).
  Proof.
    intros [(c & d & Hc & Hn & (t & m & ch & Hd & Hk & HS & Hnn & H0) & HW) _ _ _] Hu. destruct (open_naked iter fuel c o d img order Hio Hn (Hu c _ _ Hc)) as (op & Eo & En).
    destruct (NewOperator_ok d op (fl_len _ _ (proj2 Hn)) En) as (Hok & Ed & Em & Est).
    exists c, op, t, m, ch. rewrite Ed, Em. cbn [fst snd] in HS. split; [exact Hc|]. split; [exact Hn|]. split; [exact Hok|].
    split; [rewrite Est; unfold opened_table; pose proof (td_t _ _ _ _ Hd) as Ht; unfold disk_table in Ht; cbn [fst snd] in Ht; rewrite Ht; reflexivity|].
    split; [exact Hd|]. split; [exact Hk|]. split; [exact HS|]. split; [exact Hnn|]. split; [exact H0|]. split; [exact HW|].
    destruct (open_run_ok iter fuel img order (s2b "auto") w c (ONaked op) o) as (w1 & Er & _ & _ & _ & _ & Hw);
      [right; split; [exact Himg|exists true; exact Hc]|exact Eo|]. rewrite (Hw Himg) in Er. exact Er.
  Qed.
  Lemma board_write w k c op d0 s l : on_board w k -> w_fs w img = NFile c true true -> naked_image c o d0 ->
    holds (op_data op, op_SM op) s l -> watched (op_data op) (op_SM op) ->
    exists w', run (WriteBack img (ONaked op) o true) w = (w', Ok tt) /\ on_board w' (Board (b_files k) s l) /\ w_stdout w' = w_stdout w.
  Proof.
    intros [_ Hfs Hr Ho] Hc Hn Hh HW. pose proof Hh as (t & m & ch & Hd & _). pose proof (td_fl _ _ _ _ Hd) as Hfl. cbn [fst snd] in Hfl.
    destruct (writeback_run c o d0 op img (proj1 Hn) (fl_len _ _ Hfl)) as (new & Hnew & Hrun). pose proof (fl_map _ _ Hfl) as Em.
    exists (set_fs w img (NFile new true true)). split; [|split].
    - rewrite Hrun. unfold WriteOutput. change dash with (s2b "-"). rewrite (beq_false _ _ Himg). cbn [run]. unfold sys_write.
      rewrite Hc, Hr. reflexivity.
    - split; [|intros n Hne; cbn [set_fs w_fs b_files]; rewrite (beq_false _ _ Hne); apply Hfs; exact Hne|exact Hr|exact Ho].
      exists new, (op_data op). cbn [set_fs w_fs b_store b_cards]. rewrite beq_refl. split; [reflexivity|]. rewrite Em.
      split; [split; [exact Hnew|rewrite Em; exact Hfl]|]. split; [exact Hh|exact HW].
    - reflexivity.
  Qed.

  Lemma FiletypeForName_np ft : FiletypeForName ft <> Panic.
  Proof.
    unfold FiletypeForName. induction filetypeInfos as [|x l IH]; cbn [FiletypeForName_loop]; [discriminate|].
    destruct (beq _ _ || beq _ _ || beq _ _); [discriminate|exact IH].
  Qed.

  (** put, given what its name amounts to: a file or the least unused one, and whether to bind a
      symbol. *)
  Definition tail_of (op : Operator) (t : list Symbol) (n : bytes) (p : plan) (s : store) : Prop :=
    match goal p s with
    | None => forall i ow, d_name (fi_desc_ i) = n -> d_type (fi_desc_ i) = FiletypeBinary -> d_length (fi_desc_ i) = zlen (fi_data i) ->
        exists op' e, PutFile i ow op = (op', Err e)
    | Some (f, sy) => legal f /\ f <> 3 /\ f <> 4 /\ exists (named : bool) n',
        (if named then bind (cards_of t) n' (0xDF00 + f) else Some (cards_of t)) = bind (cards_of t) sy (0xDF00 + f) /\
        (named = true -> n' <> [] /\ valid_name n' /\ (forall g, ~ numeric n' g) /\ may_bind (cards_of t) n' f) /\
        forall i ow, d_name (fi_desc_ i) = n -> d_type (fi_desc_ i) = FiletypeBinary -> d_length (fi_desc_ i) = zlen (fi_data i) ->
          PutFile i ow op = put_tail f (fi_data i) ow named n' op
    end.
  Lemma put_refines op t m ch c w k ft ow addr n src p : on_board w k -> w_stdout w = [] ->
    w_fs w img = NFile c true true -> naked_image c o (op_data op) -> op_ST op = Some t ->
    table_disk (op_data op, op_SM op) t m ch -> cards_of t = b_cards k -> same_but_symbols (store_of (op_data op) (op_SM op)) (b_store k) ->
    no_numeric_symbols t -> nm t 0 <> [] -> watched (op_data op) (op_SM op) ->
    run (OpenFilename iter fuel img order (s2b "auto")) w = (w, Ok (ONaked op, o)) ->
    src <> s2b "-" -> src <> img -> tail_of op t n p (b_store k) ->
    (B -> touched (APut ft ow addr n src) p (b_store k) <> Some gm) ->
    exists w', main_run (PutCmd_Run iter fuel order (s2b "auto") ft ow addr img n src) w = (w', fst (snd (act2 (APut ft ow addr n src) p k))) /\
      w_stdout w' = snd (snd (act2 (APut ft ow addr n src) p k)) /\ on_board w' (fst (act2 (APut ft ow addr n src) p k)).
  Proof.
    intros HB Hw0 Hc Hn Est Hd Hk HS Hnn H0 Hwat Er Hs1 Hs2 Htail Htouch. unfold main_run.
    unfold PutCmd_Run. change dash with (s2b "-"). rewrite (beq_false _ _ Himg). cbn [andb].
    rewrite run_pbind, Er, run_pbind. unfold FileContentsOrStdIn. change dash with (s2b "-"). rewrite (beq_false _ _ Hs1). cbn [run act2].
    rewrite (ob_files _ _ HB src Hs2).
    assert (forall (b : board * (Z * bytes)), b = (k, (1, [])) -> exists w', (w, 1) = (w', fst (snd b)) /\ w_stdout w' = snd (snd b) /\ on_board w' (fst b)) as Hfail.
    { intros b ->. exists w. split; [reflexivity|split; [exact Hw0|exact HB]]. }
    destruct (b_files k src) as [| |data [|] wr|]; cbn [sys_read]; try (apply Hfail; reflexivity).
    rewrite run_pbind. unfold plift at 1. cbn [run]. unfold binary. pose proof (FiletypeForName_np ft) as Hnp.
    destruct (FiletypeForName ft) as [ftv|e|] eqn:Ef; [|apply Hfail; destruct (goal p (b_store k)) as [[f sy]|]; reflexivity|contradiction].
    cbn [Op_PutFile]. unfold tail_of in Htail.
    destruct (Z.eqb_spec ftv FiletypeBinary) as [->|Hft].
    2:{ unfold PutFile. cbn [fi_desc_ d_type]. replace (ftv =? FiletypeBinary) with false by lia. cbn [negb lift_op].
        rewrite run_pbind. unfold plift. cbn [run]. apply Hfail. destruct (goal p (b_store k)) as [[f sy]|]; reflexivity. }
    cbn [touched] in Htouch.
    destruct (goal p (b_store k)) as [[f sy]|]; cbn [option_map fst] in Htouch.
    2:{ match goal with |- context [PutFile ?i0 ow op] => destruct (Htail i0 ow eq_refl eq_refl eq_refl) as (op' & e & ->) end.
        cbn [lift_op]. rewrite run_pbind. unfold plift. cbn [run]. apply Hfail. reflexivity. }
    destruct Htail as (Hf & N3 & N4 & named & n' & Hbind & Hnamed & Hput). rewrite <- Hk, <- Hbind.
    match goal with |- context [PutFile ?i0 ow op] => rewrite (Hput i0 ow eq_refl eq_refl eq_refl) end. cbn [fi_data].
    pose proof (put_holds op t m ch (b_store k) f data ow named n' Est Hd HS Hnn H0 Hf N3 N4 Hnamed) as HP.
    remember (if named then bind (cards_of t) n' (0xDF00 + f) else Some (cards_of t)) as l eqn:El. clear El Hbind Hput. pose proof (td_fl _ _ _ _ Hd) as Hfl. cbn [fst snd] in Hfl.
    destruct (put_tail f data ow named n' op) as [op' [b|e|]] eqn:EPT; cbn [lift_op]; rewrite run_pbind; unfold plift; cbn [run].
    - destruct HP as (-> & l' & -> & Hh). cbn [Z.eqb].
      destruct (board_write w k c op' _ _ l' HB Hc Hn Hh) as (w' & Ew & HB' & Ho).
      { intros b0. destruct (Hwat b0) as [W1 W2]. destruct (Hgm b0) as (G1 & G2 & G3).
        destruct (put_tail_spares f data ow named n' op op' b gm (fl_len _ _ Hfl) (v_len _ (fl_ver _ _ Hfl)) Hf EPT W2 G1 G2 G3) as [K1 K2];
          [intros E; apply (Htouch b0); rewrite E; reflexivity|]. rewrite K2. split; [exact W1|exact K1]. }
      exists w'. rewrite Ew. cbn [fst snd].
      split; [reflexivity|]. split; [congruence|exact HB'].
    - apply Hfail. destruct HP as [->|[-> ->]]; reflexivity.
    - rewrite HP. exists w. split; [reflexivity|split; [exact Hw0|exact HB]].
  Qed.

  (** What the name given to put amounts to. *)
  Lemma bind_nil l a : bind l [] a = Some l.
  Proof. reflexivity. Qed.
  Lemma owned_16 op t m ch f : table_disk (op_data op, op_SM op) t m ch -> owned (op_SM op) f = [] -> f <> 3 /\ f <> 4.
  Proof.
    intros Hd E. pose proof (td_3 _ _ _ _ Hd) as H3. pose proof (td_4 _ _ _ _ Hd) as H4. cbn [snd] in *.
    split; intros ->; rewrite E in *; [discriminate H3|discriminate H4].
  Qed.
  Lemma tail_planned op t m ch k ft ow addr n src p : op_ST op = Some t -> table_disk (op_data op, op_SM op) t m ch -> cards_of t = b_cards k ->
    same_but_symbols (store_of (op_data op) (op_SM op)) (b_store k) ->
    planned (b_cards k) (b_store k) img (APut ft ow addr n src) p -> tail_of op t n p (b_store k) /\ src <> s2b "-" /\ src <> img.
  Proof.
    intros Est Hd Hk HS Hp. assert (Hkt : cards_of (table_of (b_cards k)) = cards_of t) by (rewrite table_cards, Hk; reflexivity).
    assert (Hko : forall f0 nf sy, FilesForCompoundName t n = Ok (f0, nf, sy) -> valid_name sy -> legal f0 -> forall i ow0, d_name (fi_desc_ i) = n -> d_type (fi_desc_ i) = FiletypeBinary ->
      d_length (fi_desc_ i) = zlen (fi_data i) -> PutFile i ow0 op = put_tail f0 (fi_data i) ow0 (negb (nf =? f0) && negb (beq sy [])) sy op).
    { intros f0 nf sy EF Hv Hl i ow0 H1 H2 H3. rewrite <- H1 in EF. destruct (PutFile_plan i ow0 op t f0 nf sy Est H2 H3 EF Hv) as [e ->]. cbv zeta.
      unfold legal in Hl. replace (f0 =? 0) with false by lia. replace (f0 =? 0) with false by lia. reflexivity. }
    inversion Hp as [ft' ow' addr' n1 src' f Hr Hv N3 N4 Hs1 Hs2|ft' ow' addr' n1 src' Hr Hv Hmay Hs1 Hs2|ft' ow' addr' p0 q src' f Hnum Hnq Hv N3 N4 Hsy Hs1 Hs2
        |ft' ow' addr' p0 q src' f Hnum Hnq Hv N3 N4 Hne Hsy Hmay Hs1 Hs2|ft' ow' addr' n1 src' Hrf Hs1 Hs2| | | | | | |]; subst; (split; [|split; assumption]); unfold tail_of; cbn [goal].
    - (* a number or a symbol *)
      apply (resolves_keys _ t n f Hkt) in Hr. pose proof (resolves_legal _ _ _ Hr) as Hf. split; [exact Hf|]. split; [exact N3|]. split; [exact N4|].
      exists false, []. split; [reflexivity|]. split; [intros H; discriminate H|]. intros i ow0 H1 H2 H3.
      destruct Hr as [Hnum|[Hnn Hs]].
      + destruct (FilesForCompoundName_simple t n (numeric_no_colon _ _ Hnum)) as (E & _).
        rewrite (Hko f 0 [] (E f Hnum) (or_introl eq_refl) Hf i ow0 H1 H2 H3). rewrite andb_false_r. reflexivity.
      + destruct Hv as [Hv|Hv]; [contradiction (Hnn f Hv)|].
        destruct (FilesForCompoundName_simple t n (valid_no_colon _ Hv)) as (_ & E & _).
        rewrite (Hko f f n (E f Hnn Hs) Hv Hf i ow0 H1 H2 H3). rewrite Z.eqb_refl. reflexivity.
    - (* a new name *)
      assert (forall f, ~ resolves t n f) as Hr' by (intros f Hf; apply (Hr f), (resolves_keys t _ n f (eq_sym Hkt) Hf)).
      destruct (FilesForCompoundName_simple t n (valid_no_colon _ Hv)) as (_ & _ & E). specialize (E Hr').
      assert (Hplan : forall i ow0, d_name (fi_desc_ i) = n -> d_type (fi_desc_ i) = FiletypeBinary -> d_length (fi_desc_ i) = zlen (fi_data i) ->
        exists e, PutFile i ow0 op = if FirstFreeFile (op_SM op) =? 0 then (op, Err e)
          else put_tail (FirstFreeFile (op_SM op)) (fi_data i) ow0 (negb (0 =? FirstFreeFile (op_SM op)) && negb (beq n [])) n op).
      { intros i ow0 H1 H2 H3. rewrite <- H1 in E. destruct (PutFile_plan i ow0 op t 0 0 _ Est H2 H3 E ltac:(rewrite H1; exact Hv)) as [e ->].
        exists e. cbv zeta. cbn [Z.eqb]. rewrite H1. reflexivity. }
      destruct (least_first _ _ _ (td_fl _ _ _ _ Hd) HS) as [[-> E0]|(El & Hl & Ho)]; cbn [snd] in *.
      + intros i ow0 H1 H2 H3. destruct (Hplan i ow0 H1 H2 H3) as [e ->]. rewrite E0. eexists. eexists. reflexivity.
      + rewrite El. split; [exact Hl|]. destruct (owned_16 op t m ch _ Hd Ho) as [N3 N4]. split; [exact N3|]. split; [exact N4|].
        exists (negb (beq n [])), n. split; [unfold bind; destruct (beq n []); reflexivity|]. split.
        * intros Hb. assert (n <> []) as Hne by (intros ->; discriminate Hb). split; [exact Hne|]. split; [exact Hv|]. split.
          -- intros g Hg. apply (Hr' g). left. exact Hg.
          -- rewrite Hk. apply (Hmay Hne _ El).
        * intros i ow0 H1 H2 H3. destruct (Hplan i ow0 H1 H2 H3) as [e ->]. unfold legal in Hl.
          replace (FirstFreeFile (op_SM op) =? 0) with false by lia. replace (0 =? FirstFreeFile (op_SM op)) with false by lia. reflexivity.
    - (* number:name, nothing to bind *)
      assert (legal f) as Hf by apply Hnum. split; [exact Hf|]. split; [exact N3|]. split; [exact N4|].
      exists false, []. split; [reflexivity|]. split; [intros H; discriminate H|]. intros i ow0 H1 H2 H3.
      destruct (FilesForCompoundName_compound t p0 q (numeric_no_colon _ _ Hnum) (valid_no_colon _ Hv)) as [HE _].
      destruct (HE f Hnum Hnq) as [HE1 HE2]. destruct Hsy as [->|Hsy].
      + destruct (FileForName_spec t []) as [(g & _ & [Hg|[_ Hg]] & _)|[_ Hno]]; [contradiction (Hnq g Hg)| |].
        * rewrite (Hko f g [] (HE1 g Hg) (or_introl eq_refl) Hf i ow0 H1 H2 H3). rewrite andb_false_r. reflexivity.
        * assert (forall g, ~ symbol_file t [] g) as Hng by (intros g Hg; apply (Hno g); right; split; assumption).
          rewrite (Hko f 0 [] (HE2 Hng) (or_introl eq_refl) Hf i ow0 H1 H2 H3). rewrite andb_false_r. reflexivity.
      + apply (symbol_file_keys _ t q f Hkt) in Hsy. rewrite (Hko f f q (HE1 f Hsy) Hv Hf i ow0 H1 H2 H3). rewrite Z.eqb_refl. reflexivity.
    - (* number:name, to be bound *)
      assert (legal f) as Hf by apply Hnum. split; [exact Hf|]. split; [exact N3|]. split; [exact N4|].
      exists true, q. split; [reflexivity|]. split; [intros _; rewrite Hk; split; [exact Hne|split; [exact Hv|split; [exact Hnq|exact Hmay]]]|].
      intros i ow0 H1 H2 H3.
      destruct (FilesForCompoundName_compound t p0 q (numeric_no_colon _ _ Hnum) (valid_no_colon _ Hv)) as [HE _].
      destruct (HE f Hnum Hnq) as [HE1 HE2].
      assert (~ symbol_file t q f) as Hsy' by (intros H; apply Hsy, (symbol_file_keys t _ q f (eq_sym Hkt) H)).
      destruct (FileForName_spec t q) as [(g & _ & [Hg|[_ Hg]] & _)|[_ Hno]]; [contradiction (Hnq g Hg)| |].
      + rewrite (Hko f g q (HE1 g Hg) Hv Hf i ow0 H1 H2 H3). assert (g <> f) as Hgf by (intros ->; contradiction).
        replace (g =? f) with false by lia. rewrite (beq_false _ _ Hne). reflexivity.
      + assert (forall g, ~ symbol_file t q g) as Hng by (intros g Hg; apply (Hno g); right; split; assumption).
        rewrite (Hko f 0 q (HE2 Hng) Hv Hf i ow0 H1 H2 H3). unfold legal in Hf. replace (0 =? f) with false by lia. rewrite (beq_false _ _ Hne). reflexivity.
    - (* refused *)
      intros i ow0 H1 H2 H3. apply (refused_keys _ t n Hkt) in Hrf. unfold PutFile. rewrite H2, H3, !Z.eqb_refl. cbn [negb].
      replace (st_of op) with t by (unfold st_of; rewrite Est; reflexivity). rewrite H1, Est.
      destruct Hrf as [p0 q r|p0 q Hc1 Hc2 H|n Ha Hv Hr|p0 q f Hnum Ha Hv Hnq].
      + destruct (FilesForCompoundName_many t p0 q r) as [e ->]. eexists. eexists. reflexivity.
      + destruct (proj2 (FilesForCompoundName_compound t p0 q Hc1 Hc2) H) as [e ->]. eexists. eexists. reflexivity.
      + assert (no_colon n) as Hnc.
        { intros Hin. rewrite Forall_forall in Ha. specialize (Ha 58 Hin). unfold alnum, letter, digit in Ha. lia. }
        destruct (FilesForCompoundName_simple t n Hnc) as (_ & _ & E). rewrite (E Hr).
        destruct (encode_invalid n Ha Hv) as [e ->]. assert (n <> []) as Hne by (intros ->; apply Hv; left; reflexivity).
        rewrite (beq_false _ _ Hne). eexists. eexists. reflexivity.
      + assert (no_colon q) as Hnc.
        { intros Hin. rewrite Forall_forall in Ha. specialize (Ha 58 Hin). unfold alnum, letter, digit in Ha. lia. }
        destruct (FilesForCompoundName_compound t p0 q (numeric_no_colon _ _ Hnum) Hnc) as [HE _]. destruct (HE f Hnum Hnq) as [HE1 HE2].
        assert (q <> []) as Hne by (intros ->; apply Hv; left; reflexivity). destruct (encode_invalid q Ha Hv) as [e Ee].
        destruct (FileForName_spec t q) as [(g & _ & [Hg|[_ Hg]] & _)|[_ Hno]]; [contradiction (Hnq g Hg)| |].
        * rewrite (HE1 g Hg), Ee, (beq_false _ _ Hne). eexists. eexists. reflexivity.
        * assert (forall g, ~ symbol_file t q g) as Hng by (intros g Hg; apply (Hno g); right; split; assumption).
          rewrite (HE2 Hng), Ee, (beq_false _ _ Hne). eexists. eexists. reflexivity.
  Qed.

  (** rm of a file and perhaps of a name. *)
  Lemma rm_refines op t m ch c w k force n p : on_board w k -> w_stdout w = [] ->
    w_fs w img = NFile c true true -> naked_image c o (op_data op) -> op_ST op = Some t ->
    table_disk (op_data op, op_SM op) t m ch -> cards_of t = b_cards k -> same_but_symbols (store_of (op_data op) (op_SM op)) (b_store k) ->
    no_numeric_symbols t -> nm t 0 <> [] -> watched (op_data op) (op_SM op) ->
    run (OpenFilename iter fuel img order (s2b "auto")) w = (w, Ok (ONaked op, o)) ->
    planned (b_cards k) (b_store k) img (ARm force n) p ->
    (B -> touched (ARm force n) p (b_store k) <> Some gm) ->
    exists w', main_run (DeleteCmd_Run iter fuel order (s2b "auto") force img n) w = (w', fst (snd (act2 (ARm force n) p k))) /\
      w_stdout w' = snd (snd (act2 (ARm force n) p k)) /\ on_board w' (fst (act2 (ARm force n) p k)).
  Proof.
    intros HB Hw0 Hc Hn Est Hd Hk HS Hnn H0 Hwat Er Hp Htouch. unfold main_run, DeleteCmd_Run. rewrite run_pbind, Er. cbn [Op_Delete].
    assert (Hkt : cards_of (table_of (b_cards k)) = cards_of t) by (rewrite table_cards, Hk; reflexivity).
    assert (Hst : st_of op = t) by (unfold st_of; rewrite Est; reflexivity).
    pose proof (td_fl _ _ _ _ Hd) as Hfl. cbn [fst snd] in Hfl.
    match goal with |- ?G => assert (Hmain : forall f sy, resolves t n f -> f <> 3 -> f <> 4 -> NamesSpec.goal p (b_store k) = Some (f, sy) ->
      (sy = [] /\ DeleteSymbol t n = (t, false) \/ sy = n /\ n <> [] /\ equal_fold n (nm t 0) = false) -> G) end.
    { intros f sy Hr N3 N4 Hgoal Hsy. pose proof (resolves_legal _ _ _ Hr) as Hf. cbn [act2]. rewrite Hgoal.
      destruct (delete_holds (op_data op, op_SM op) t m ch (b_store k) f Hd HS Hf N3 N4) as [Hd1 HS1]. cbn [fst snd] in Hd1, HS1.
      destruct (Delete_disk (op_data op) (op_SM op) f Hfl Hf) as (EP & _).
      remember (upd (op_data op) 2512 (SMDelete (op_SM op) f)) as d1 eqn:Ed1. remember (SMDelete (op_SM op) f) as sm1 eqn:Esm1.
      remember (st_set (b_store k) f [] (st_free (b_store k) + st_used (b_store k) f)) as st1 eqn:Est1.
      assert (exists op', SupermonModel.Delete n op = (op', Ok (0 <? zlen (owned (op_SM op) f))) /\
        holds (op_data op', op_SM op') st1 (if beq sy [] then b_cards k else unpin (b_cards k) sy)) as (op' & EDel & Hh).
      { unfold SupermonModel.Delete. rewrite Hst. assert (FileForName t n = Ok f) as -> by (apply FileForName_resolves; exact Hr).
        cbv zeta. rewrite <- Esm1, EP, SectorsForFile_owned, zlen_map, Est.
        destruct Hsy as [(-> & EDS)|(-> & Hne & Hfirst)].
        - rewrite EDS. eexists. split; [reflexivity|]. cbn [beq op_data op_SM]. rewrite <- Hk.
          exists t, m, ch. split; [exact Hd1|]. split; [reflexivity|]. split; [exact HS1|]. split; [exact Hnn|exact H0].
        - rewrite (beq_false _ _ Hne), <- Hk.
          pose proof (del_holds (d1, sm1) t m ch st1 n Hd1 HS1 Hnn H0 Hne Hfirst) as HD.
          destruct (DeleteSymbol t n) as [t1 [|]].
          + destruct HD as ([d2 sm2] & HD1 & HD2). unfold sbind, on_disk. cbn [op_data op_SM op_ST].
            match goal with |- context [WriteSymbolTable t1 ?x] => replace (WriteSymbolTable t1 x) with ((d2, sm2), @Ok unit tt) by (symmetry; exact HD1) end. unfold sret.
            eexists. split; [reflexivity|]. cbn [op_data op_SM]. exact HD2.
          + destruct HD as [-> HD]. eexists. split; [reflexivity|]. cbn [op_data op_SM]. rewrite HD.
            exists t, m, ch. split; [exact Hd1|]. split; [reflexivity|]. split; [exact HS1|]. split; [exact Hnn|exact H0]. }
      rewrite EDel. cbn [lift_op]. rewrite run_pbind. unfold plift. cbn [run fst snd].
      assert (in_use (b_store k) f = (0 <? zlen (owned (op_SM op) f))) as ->.
      { rewrite <- (proj1 (proj1 HS f Hf)). unfold in_use. cbn [store_of st_file]. rewrite content_beq by apply (fl_len _ _ Hfl).
        pose proof (zlen_nonneg (owned (op_SM op) f)). lia. }
      replace ((0 <? zlen (owned (op_SM op) f)) || force) with (negb (negb (0 <? zlen (owned (op_SM op) f)) && negb force))
        by (destruct (0 <? _), force; reflexivity).
      destruct (negb (0 <? zlen (owned (op_SM op) f)) && negb force); cbn [negb].
      - exists w. split; [reflexivity|split; [exact Hw0|exact HB]].
      - destruct (board_write w k c op' _ _ _ HB Hc Hn Hh) as (w' & Ew & HB' & Ho).
        { intros b0. destruct (Hwat b0) as [W1 W2]. destruct (Hgm b0) as (G1 & G2 & G3).
          destruct (Delete_spares n op op' _ f gm (fl_len _ _ Hfl) (v_len _ (fl_ver _ _ Hfl)) ltac:(rewrite Hst; apply FileForName_resolves; exact Hr) EDel W2 G1 G2 G3) as [K1 K2];
            [intros E; apply (Htouch b0); cbn [touched]; rewrite Hgoal, E; reflexivity|]. rewrite K2. split; [exact W1|exact K1]. }
        exists w'. rewrite Ew. cbn [fst snd].
        split; [reflexivity|]. split; [congruence|exact HB']. }
    inversion Hp as [| | | | |force' n' f Hnum N3 N4|force' n' f Hr Hnum Hne N3 N4 Hfirst|force' n' Hr| | | |]; subst.
    - apply (Hmain f []); [left; exact Hnum|exact N3|exact N4|reflexivity|]. left. split; [reflexivity|].
      apply (DeleteSymbol_numeric _ n f Hnum Hnn).
    - apply (Hmain f n); [apply (resolves_keys _ (st_of op) n f Hkt Hr)|exact N3|exact N4|reflexivity|]. right. split; [reflexivity|]. split; [exact Hne|].
      rewrite <- Hk in Hfirst. rewrite card_nth in Hfirst by (rewrite (td_len _ _ _ _ Hd); lia). exact Hfirst.
    - cbn [act2 goal]. destruct (FileForName_spec (st_of op) n) as [(f & _ & Hf & _)|[EF _]]; [contradiction (Hr f (resolves_keys (st_of op) _ n f (eq_sym Hkt) Hf))|].
      unfold SupermonModel.Delete. rewrite EF. cbn [lift_op]. rewrite run_pbind. unfold plift. cbn [run fst snd].
      exists w. split; [reflexivity|split; [exact Hw0|exact HB]].
  Qed.

  Lemma command_refines2 a p w k : on_board w k -> unmarked img w -> w_stdout w = [] -> planned (b_cards k) (b_store k) img a p ->
    (B -> touched a p (b_store k) <> Some gm) ->
    exists w', main_run (command iter fuel order img a) w = (w', fst (snd (act2 a p k))) /\
      w_stdout w' = snd (snd (act2 a p k)) /\ on_board w' (fst (act2 a p k)).
  Proof.
    intros HB Hu Hw0 Hp Htouch. destruct (board_open w k HB Hu) as (c & op & t & m & ch & Hc & Hn & Hok & Est & Hd & Hk & HS & Hnn & H0 & Hwat & Er).
    assert (Hkt : cards_of (table_of (b_cards k)) = cards_of t) by (rewrite table_cards, Hk; reflexivity).
    assert (Hst : st_of op = t) by (unfold st_of; rewrite Est; reflexivity).
    pose proof (ok_fl _ Hok) as Hfl. pose proof (fl_len _ _ Hfl) as D.
    destruct a as [ft ow addr n src|force n|n|short|file cc]; cbn [command].
    - destruct (tail_planned op t m ch k ft ow addr n src p Est Hd Hk HS Hp) as (Htail & Hs1 & Hs2).
      apply (put_refines op t m ch c); assumption.
    - apply (rm_refines op t m ch c); assumption.
    - unfold main_run, DumpCmd_Run. rewrite run_pbind, Er, run_pbind. unfold plift. cbn [run Op_GetFile].
      inversion Hp as [| | | | | | | |n' f Hr N3 N4|n' Hr| |]; subst; cbn [act2 goal].
      + apply (resolves_keys _ (st_of op) n f Hkt) in Hr. pose proof (resolves_legal _ _ _ Hr) as Hf.
        destruct (proj1 HS f Hf) as [E1 E2]. rewrite <- E1, <- (E2 N3 N4). unfold in_use. cbn [store_of st_file].
        destruct (beq (content (op_data op) (op_SM op) f) []) eqn:Eb; cbn [negb].
        * apply beq_eq in Eb. assert (exists e, GetFile op n = Err e) as [e ->].
          { unfold GetFile. assert (FileForName (st_of op) n = Ok f) as -> by (apply FileForName_resolves; exact Hr).
            cbn [rbind]. rewrite (ReadFile_spec (op_data op) (op_SM op) f D), Eb. eexists. reflexivity. }
          exists w. split; [reflexivity|split; [exact Hw0|exact HB]].
        * apply beq_neq in Eb. destruct (GetFile_content op n f Hok Hr Eb) as (i & -> & Ei).
          cbn [run]. unfold sys_stdout. rewrite (ob_out _ _ HB). cbn [fits].
          exists (add_out w (fi_data i)). split; [reflexivity|]. split; [cbn [add_out w_stdout snd]; rewrite Hw0, Ei; reflexivity|].
          apply board_out. exact HB.
      + destruct (FileForName_spec (st_of op) n) as [(f & _ & Hf & _)|[EF _]]; [contradiction (Hr f (resolves_keys (st_of op) _ n f (eq_sym Hkt) Hf))|].
        unfold GetFile. rewrite EF. cbn [rbind]. exists w. split; [reflexivity|split; [exact Hw0|exact HB]].
    - unfold main_run, LsCmd_Run. rewrite run_pbind, Er. cbn [beq negb andb act2]. rewrite run_pbind. unfold plift at 1. cbn [run Op_Catalog].
      rewrite (Catalog_spec op). rewrite ls_run by apply (ob_out _ _ HB).
      eexists. split; [reflexivity|]. split; [|apply board_out; exact HB].
      cbn [add_out w_stdout fst snd]. rewrite Hw0. cbn [app]. f_equal. rewrite map_map. unfold all_files.
      assert (filter (fun f => negb (zlen (owned (op_SM op) f) =? 0)) (map (fun k0 => k0 + 1) (zrange 253)) =
              filter (in_use (b_store k)) (map (fun k0 => k0 + 1) (zrange 253))) as ->.
      { apply filter_ext_in. intros g Hg. apply in_map_iff in Hg as (j & <- & Hj). apply In_zrange in Hj.
        rewrite <- (proj1 (proj1 HS (j + 1) ltac:(unfold legal; lia))). unfold in_use. cbn [store_of st_file]. rewrite content_beq by exact D. reflexivity. }
      apply map_ext. intros f. destruct (shown_keys (table_of (b_cards k)) t f Hkt) as [E1 E2].
      unfold ls_name. cbn [d_name d_fullname]. rewrite Hst. destruct short; [symmetry; exact E1|]. cbn [negb andb]. rewrite E2.
      assert (shown_full t f <> []) as Hne by (unfold shown_full, printed; destruct (symbol_for _ _); discriminate).
      destruct (beq (shown_full t f) []) eqn:E; [apply beq_eq in E; contradiction|reflexivity].
    - inversion Hp as [| | | | | | | | | | |file' c' Hfile]; subst. unfold main_run. cbn [run act2]. unfold sys_write. rewrite (ob_files _ _ HB file Hfile), (ob_room _ _ HB).
      destruct (can_write (b_files k file)); cbn [fits fst snd].
      + eexists. split; [reflexivity|]. split; [exact Hw0|].
        destruct HB as [(c0 & d0 & G1 & G2 & G3 & G4) Hfs Hr Ho]. split; [|intros n Hne; cbn [set_fs w_fs b_files]|exact Hr|exact Ho].
        * exists c0, d0. cbn [set_fs w_fs b_store b_cards]. rewrite (beq_false img file) by congruence. split; [exact G1|]. split; [exact G2|]. split; [exact G3|exact G4].
        * destruct (beq n file) eqn:Eb; [reflexivity|]. apply Hfs. exact Hne.
      + exists w. split; [reflexivity|split; [exact Hw0|exact HB]].
  Qed.

  Lemma session_refines2 h : forall w k, on_board w k -> sensible img h k ->
    throughout (unmarked img) (map (command iter fuel order img) (map fst h)) w -> (B -> spares gm h k) ->
    snd (session (map (command iter fuel order img) (map fst h)) w) = snd (acts2 h k) /\
    on_board (fst (session (map (command iter fuel order img) (map fst h)) w)) (fst (acts2 h k)).
  Proof.
    induction h as [|[a p] h IH]; intros w k HB Hm Hth Hsp; [split; [reflexivity|exact HB]|].
    cbn [sensible] in Hm. destruct Hm as [Ha Hm]. cbn [map fst session acts2]. cbn [map fst throughout] in Hth. destruct Hth as [Hu Hth].
    destruct (command_refines2 a p (quiet w) k (board_quiet _ _ HB) Hu eq_refl Ha (fun b => proj1 (Hsp b))) as (w1 & Er & Hout & HB1). rewrite Er. rewrite Er in Hth.
    assert (B -> spares gm h (fst (act2 a p k))) as Hsp1 by (intros b; exact (proj2 (Hsp b))).
    destruct (act2 a p k) as [k1 [x out]]. cbn [fst snd] in *.
    specialize (IH w1 k1 HB1 Hm Hth Hsp1).
    destruct (session (map (command iter fuel order img) (map fst h)) w1) as [w2 l]. destruct (acts2 h k1) as [k2 l2]. cbn [fst snd] in *.
    destruct IH as [-> HB2]. split; [rewrite Hout; reflexivity|exact HB2].
  Qed.

  Lemma board_unmarked w k : on_board w k -> B -> unmarked img w.
  Proof.
    intros [(c & d & Hc & Hn & _ & HW) _ _ _] b c' r q E. rewrite Hc in E. injection E as <- _ _.
    rewrite <- (release_same _ _ _ _ (proj1 Hn)). exact (proj1 (HW b)).
  Qed.
  Lemma session_unmarked2 h : B -> forall w k, on_board w k -> sensible img h k -> spares gm h k ->
    throughout (unmarked img) (map (command iter fuel order img) (map fst h)) w.
  Proof.
    intros b. induction h as [|[a p] h IH]; intros w k HB Hm Hsp; [exact I|].
    cbn [sensible] in Hm. destruct Hm as [Ha Hm]. cbn [spares] in Hsp. destruct Hsp as [Ht Hsp]. cbn [map fst throughout].
    pose proof (board_unmarked w k HB b) as Hu. split; [exact Hu|].
    destruct (command_refines2 a p (quiet w) k (board_quiet _ _ HB) Hu eq_refl Ha (fun _ => Ht)) as (w1 & Er & _ & HB1). rewrite Er. cbn [fst].
    exact (IH w1 _ HB1 Hm Hsp).
  Qed.
End Names.

(** ** The statements *)
Lemma start_board (B : Prop) g img o w c d t ch k :
  w_fs w img = NFile c true true -> naked_image c o d -> w_room w = None -> w_outroom w = None ->
  plain_disk (d, stored_map d) t -> table_ok t -> names_unique t -> one_chain t ch -> no_numeric_symbols t -> nm t 0 <> [] ->
  (forall n, n <> img -> w_fs w n = b_files k n) -> same_but_symbols (store_of d (stored_map d)) (b_store k) -> cards_of t = b_cards k ->
  watched B g d (stored_map d) -> on_board img o B g w k.
Proof.
  intros Hc Hd Hr Hu (Hf & H3 & H4 & Et) (HL & Hs & _) Hun Hch Hnn H0 Hfs HS Hk HW.
  assert (blanks_unnamed t) as Hbu.
  { rewrite <- (ReadSymbolTable_canon _ _ _ Et). intros i Hii Ai. rewrite zlen_map in Hii. unfold ad, nm in *. rewrite canon_nth in * by exact Hii.
    rewrite canon_addr in Ai. unfold canon. rewrite Ai. reflexivity. }
  assert (table_disk (d, stored_map d) t (AM (ByName t) (unused t)) ch) as Htd.
  { split; try assumption. split; [split; assumption|]. split; reflexivity. }
  constructor; [exists c, d|..]; try assumption. split; [exact Hc|]. split; [exact Hd|]. split; [|exact HW].
  exists t, (AM (ByName t) (unused t)), ch. split; [exact Htd|]. split; [exact Hk|]. split; [exact HS|]. split; [exact Hnn|exact H0].
Qed.
Lemma C98_lemma : forall (iter : list (Z * Subdirectory) -> list (Z * Subdirectory)) fuel order img o h w c d t ch k,
  img <> s2b "-" -> first_order img order o ->
  w_fs w img = NFile c true true -> naked_image c o d -> w_room w = None -> w_outroom w = None ->
  plain_disk (d, stored_map d) t -> table_ok t -> names_unique t -> one_chain t ch -> no_numeric_symbols t -> nm t 0 <> [] ->
  (forall n, n <> img -> w_fs w n = b_files k n) -> same_but_symbols (store_of d (stored_map d)) (b_store k) -> cards_of t = b_cards k ->
  sensible img h k ->
  throughout (unmarked img) (map (fun ap => command iter fuel order img (fst ap)) h) w ->
  exists w' k' outcomes c' d' t' ch',
    session (map (fun ap => command iter fuel order img (fst ap)) h) w = (w', outcomes) /\
    acts2 h k = (k', outcomes) /\
    w_fs w' img = NFile c' true true /\ naked_image c' o d' /\
    plain_disk (d', stored_map d') t' /\ table_ok t' /\ names_unique t' /\ one_chain t' ch' /\ no_numeric_symbols t' /\
    (forall n, n <> img -> w_fs w' n = b_files k' n) /\ same_but_symbols (store_of d' (stored_map d')) (b_store k') /\ cards_of t' = b_cards k'.
Proof.
  intros iter fuel order img o h w c d t ch k Hi Ho Hc Hd Hr Hu Hpd Htok Hun Hch Hnn H0 Hfs HS Hk Hm Hth.
  pose proof (start_board False 0 img o w c d t ch k Hc Hd Hr Hu Hpd Htok Hun Hch Hnn H0 Hfs HS Hk ltac:(intros [])) as HB.
  destruct (session_refines2 iter fuel order img o Ho Hi False 0 ltac:(intros []) h w k HB Hm) as [E1 E2]; [rewrite map_map; exact Hth|intros []|].
  rewrite map_map in E1, E2. remember (map (fun x => command iter fuel order img (fst x)) h) as ps eqn:Eps.
  destruct (session ps w) as [w' l] eqn:Es. destruct (acts2 h k) as [k' l'] eqn:Ea. cbn [fst snd] in E1, E2. subst l'.
  destruct E2 as [(c' & d' & G1 & G2 & (t' & m' & ch' & G3 & G4 & G5 & G6 & G7) & _) Hfs' _ _].
  exists w', k', l, c', d', t', ch'. destruct G3 as [F1 F2 F3 F4 F5 F6 (F7 & F8 & F9) F10].
  split; [reflexivity|]. split; [reflexivity|]. split; [exact G1|]. split; [exact G2|].
  split; [split; [exact F1|split; [exact F2|split; [exact F3|exact F4]]]|].
  split; [split; [exact F5|split; [exact F6|apply (chains_links t' ch' F10)]]|]. split; [apply F7|]. split; [exact F10|]. split; [exact G6|].
  split; [exact Hfs'|]. split; [exact G5|exact G4].
Qed.
Lemma C98_spared_lemma : forall (iter : list (Z * Subdirectory) -> list (Z * Subdirectory)) fuel order img o h w c d t ch k,
  img <> s2b "-" -> first_order img order o ->
  w_fs w img = NFile c true true -> naked_image c o d -> w_room w = None -> w_outroom w = None ->
  plain_disk (d, stored_map d) t -> table_ok t -> names_unique t -> one_chain t ch -> no_numeric_symbols t -> nm t 0 <> [] ->
  (forall n, n <> img -> w_fs w n = b_files k n) -> same_but_symbols (store_of d (stored_map d)) (b_store k) -> cards_of t = b_cards k ->
  sensible img h k ->
  release_byte c <> 3 -> mark_owner d <> FREE -> mark_owner d <> 3 -> mark_owner d <> 4 -> spares (mark_owner d) h k ->
  throughout (unmarked img) (map (fun ap => command iter fuel order img (fst ap)) h) w.
Proof.
  intros iter fuel order img o h w c d t ch k Hi Ho Hc Hd Hr Hu Hpd Htok Hun Hch Hnn H0 Hfs HS Hk Hm Hrel NF N3 N4 Hsp.
  assert (watched True (mark_owner d) d (stored_map d)) as HW.
  { intros _. split; [rewrite (release_same _ _ _ _ (proj1 Hd)); exact Hrel|reflexivity]. }
  pose proof (start_board True (mark_owner d) img o w c d t ch k Hc Hd Hr Hu Hpd Htok Hun Hch Hnn H0 Hfs HS Hk HW) as HB.
  pose proof (session_unmarked2 iter fuel order img o Ho Hi True (mark_owner d) ltac:(intros _; split; [exact NF|split; [exact N3|exact N4]]) h I w k HB Hm Hsp) as X.
  rewrite map_map in X. exact X.
Qed.
