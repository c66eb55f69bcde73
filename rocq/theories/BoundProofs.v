(** BoundProofs.v -- what ls and dump show after a put that gives a file a name (C90). *)
From Coq Require Import ZifyBool ZifyNat.
From Verif Require Import GoBase GoLemmas TypesModel DiskModel DiskSpec DiskProofs DiskOpenProofs.
From Verif Require Import SupermonModel SupermonSpec SupermonTableSpec SupermonStoreSpec SupermonProofs SupermonSymProofs SupermonTabProofs SupermonLinkProofs SupermonOpProofs SupermonNameProofs SupermonFinalProofs SupermonNamedProofs SupermonRewriteProofs SupermonStmtProofs SupermonChainSpec SupermonChainProofs.
From Verif Require ProdosSpec.
From Verif Require Import ProdosModel CmdModel CmdSpec CmdProofs CmdStmtProofs NakedCmdSpec NakedCmdProofs NakedOpenProofs DetectSpec DetectProofs PrintProofs ListSpec ListProofs OpenFuelProofs AfterProofs SessionSpec SessionProofs NamesSpec NamesProofs BoundSpec.
Ltac Zify.zify_post_hook ::= Z.div_mod_to_equations.
Local Opaque zrange zeros sub.

(** ** AddSymbol on a table read from a disk *)
Lemma AddSymbol_bound t n a t1 : zlen t = 819 -> Forall read_ok t -> map canon t = t -> names_unique t -> Forall s_ok t ->
  n <> [] -> valid_name n -> is_u16 a -> AddSymbol t n a = (t1, Ok tt) ->
  bind (cards_of t) n a = Some (cards_of (map canon t1)).
Proof.
  intros HL Hrd Hcan Hun Hs Hn Hv Hu E. unfold bind. rewrite (beq_false _ _ Hn).
  assert (Hmap : map_table t) by (split; [exact Hun|apply read_ok_blanks; exact Hrd]).
  destruct (AddSymbol_changed t n a t1 E) as (Ha & p & n' & Hc & En & Hcase). pose proof Hc as (HL1 & Hp & Pa & Pn & Hq).
  pose proof (AddSymbol_sok t n a t1 ltac:(rewrite HL; lia) Hmap Hn Hs Hu Hv E) as Hs1.
  assert (Hcp : znth blank (cards_of (map canon t1)) p = (a, upcase n)).
  { rewrite card_nth by (rewrite zlen_map; lia). unfold ad, nm in *. rewrite canon_nth by lia. unfold canon. rewrite Pa, Pn.
    destruct (Z.eqb_spec a 0); [contradiction|]. cbn [s_addr s_name]. f_equal. symmetry.
    assert (valid_name n') as Hv' by (rewrite <- Pn; apply (Forall_znth s_ok sym0 t1 p Hs1 ltac:(lia))).
    destruct Hv as [?|(_ & Al & _)]; [contradiction|]. destruct Hv' as [->|(_ & Al' & _)]; [apply equal_fold_nil in En; contradiction|].
    apply fold_upcase_eq; assumption. }
  assert (Hcj : forall j, 0 <= j < zlen t -> canon (znth sym0 t j) = znth sym0 t j).
  { intros j Hj. rewrite <- canon_nth by exact Hj. rewrite Hcan. reflexivity. }
  assert (Hco : forall j, 0 <= j < zlen t -> j <> p -> znth blank (cards_of (map canon t1)) j = (ad t j, nm t j)).
  { intros j Hj Hne. destruct (Hq j ltac:(lia) Hne) as [Q1 Q2].
    rewrite card_nth by (rewrite zlen_map; lia). unfold ad, nm in *. rewrite canon_nth by lia.
    pose proof (Hcj j Hj) as Hx. unfold canon in *. rewrite Q1, Q2.
    destruct (Z.eqb_spec (s_addr (znth sym0 t j)) 0) as [E0|E0].
    - rewrite <- Hx. reflexivity.
    - cbn [s_addr s_name]. rewrite <- Hx at 4. reflexivity. }
  destruct Hcase as [(H1 & _ & _)|(H1 & H2 & _)].
  - rewrite (existsb_present n t p Hp H1). apply (f_equal (@Some (list card))). apply (znth_ext blank).
    + rewrite zlen_map, !zlen_cards, zlen_map, HL1. reflexivity.
    + intros j Hj. rewrite zlen_map, zlen_cards in Hj. rewrite (znth_map _ blank blank) by (rewrite zlen_cards; exact Hj).
      rewrite card_nth by exact Hj. unfold is_named. cbn [snd]. destruct (Z.eq_dec j p) as [->|Hne]; [rewrite H1, Hcp; reflexivity|].
      rewrite (Hco j Hj Hne). destruct (equal_fold n (nm t j)) eqn:Ej; [|reflexivity]. exfalso. apply Hne.
      apply (proj1 Hmap j p Hj Hp); [apply (equal_fold_nonnil n); assumption|].
      apply (equal_fold_join _ _ n); [rewrite equal_fold_sym; exact Ej|rewrite equal_fold_sym; exact H1].
  - rewrite (existsb_absent n t H2).
    assert (forall j, 0 <= j < p -> ad t j <> 0) as Hb.
    { apply (AddSymbol_blank t n a t1 p n' E H2 Hc). }
    rewrite (pin_at n a (cards_of t) p); [|rewrite zlen_cards; exact Hp|rewrite card_nth by exact Hp; exact H1|].
    2:{ intros j Hj. rewrite card_nth by lia. apply Hb. exact Hj. }
    apply (f_equal (@Some (list card))). apply (znth_ext blank).
    + rewrite zlen_zset, !zlen_cards, zlen_map, HL1 by (rewrite zlen_cards; exact Hp). reflexivity.
    + intros j Hj. rewrite zlen_zset, zlen_cards in Hj by (rewrite zlen_cards; exact Hp). rewrite znth_zset by (rewrite ?zlen_cards; lia).
      destruct (Z.eqb_spec j p) as [->|Hne]; [rewrite Hcp; reflexivity|]. rewrite card_nth by exact Hj. rewrite (Hco j Hj Hne). reflexivity.
Qed.
(** Binding a name to the file it names already changes nothing. *)
Lemma bind_same t n f : Forall read_ok t -> map canon t = t -> names_unique t -> n <> [] -> valid_name n -> symbol_file t n f ->
  bind (cards_of t) n (0xDF00 + f) = Some (cards_of t).
Proof.
  intros Hrd Hcan Hun Hn Hv (Hf & i & (Hi & Ei & _) & Ea). unfold bind. rewrite (beq_false _ _ Hn).
  rewrite equal_fold_sym in Ei. rewrite (existsb_present n t i Hi Ei). apply (f_equal (@Some (list card))). apply (znth_ext blank).
  - rewrite zlen_map. reflexivity.
  - intros j Hj. rewrite zlen_map, zlen_cards in Hj. rewrite (znth_map _ blank blank) by (rewrite zlen_cards; exact Hj).
    rewrite card_nth by exact Hj. unfold is_named. cbn [snd]. destruct (equal_fold n (nm t j)) eqn:Ej; [|reflexivity].
    assert (j = i) as ->.
    { apply (Hun j i Hj Hi); [apply (equal_fold_nonnil n); assumption|].
      apply (equal_fold_join _ _ n); rewrite equal_fold_sym; assumption. }
    rewrite Ea. f_equal.
    assert (Hcj : canon (znth sym0 t i) = znth sym0 t i) by (rewrite <- canon_nth by exact Hi; rewrite Hcan; reflexivity).
    unfold ad in Ea. unfold canon in Hcj. destruct (Z.eqb_spec (s_addr (znth sym0 t i)) 0) as [E0|E0]; [unfold legal in Hf; lia|].
    assert (nm t i = upcase (nm t i)) as -> by (unfold nm; rewrite <- Hcj at 1; reflexivity).
    apply fold_upcase_eq; [apply valid_alnum; assumption|apply (Forall_znth read_ok sym0 t i Hrd Hi)|exact Ej].
Qed.

(** ** put under a name, at the operator *)
Lemma Put_bound i ow o o' ex n q t : op_ok o -> bytes_ok (op_data o) -> op_ST o = Some t ->
  ReadSymbolTable (op_SM o) (op_data o) = Ok t -> names_unique t -> chained t ->
  fi_data i <> [] -> d_name (fi_desc_ i) = n -> q <> [] -> valid_name q -> (forall g, ~ numeric q g) ->
  equal_fold q (nm t 0) = false ->
  (n = q \/ exists p f, numeric p f /\ n = p ++ 58 :: q) ->
  PutFile i ow o = (o', Ok ex) ->
  exists f t', legal f /\ (f <> 3 -> f <> 4 ->
    ((n = q /\ (symbol_file t q f \/
                (forall g, ~ symbol_file t q g) /\ owned (op_SM o) f = [] /\ forall g, 1 <= g < f -> owned (op_SM o) g <> [])) \/
     exists p, numeric p f /\ n = p ++ 58 :: q) /\
    content (op_data o') (op_SM o') f = padded (fi_data i) /\
    (forall g, legal g -> g <> f -> g <> 3 -> g <> 4 -> content (op_data o') (op_SM o') g = content (op_data o) (op_SM o) g) /\
    ReadSymbolTable (op_SM o') (op_data o') = Ok t' /\
    bind (cards_of t) q (0xDF00 + f) = Some (cards_of t') /\ resolves t' q f).
Proof.
  intros Hok Hby Est HR Huniq Hch Hne En Hq0 Hv Hnn H0 Htgt HP. subst n.
  destruct (ReadSymbolTable_read_ok _ _ _ (fl_len _ _ (ok_fl _ Hok)) Hby HR) as (HL & Hl & Hrd).
  assert (map_table t) as Hmap by (split; [exact Huniq | apply read_ok_blanks; exact Hrd]).
  pose proof (ReadSymbolTable_canon _ _ _ HR) as Hcan.
  pose proof (valid_no_colon q Hv) as Hnc.
  destruct (PutFile_inv _ _ _ _ _ Hok Hne HP) as [Hok' _].
  destruct (PutFile_success i ow o o' ex Hok Hne HP) as (nf & mf & sy & num & d1 & sm1 & EF & Enum & Hln & Hsy & Fl & C & Oth & _ & _ & Hcase).
  assert (st_of o = t) as Es by (unfold st_of; rewrite Est; reflexivity). rewrite Es in EF.
  (* what the name amounts to *)
  assert (HF : sy = q /\ (symbol_file t q num -> mf = num) /\ (mf = num -> symbol_file t q num) /\
    ((d_name (fi_desc_ i) = q /\ (symbol_file t q num \/
        (forall g, ~ symbol_file t q g) /\ owned (op_SM o) num = [] /\ forall g, 1 <= g < num -> owned (op_SM o) g <> [])) \/
     exists p, numeric p num /\ d_name (fi_desc_ i) = p ++ 58 :: q)).
  { assert (Hfun : forall f g, symbol_file t q f -> symbol_file t q g -> f = g).
    { intros f g Hf Hg. assert (FileForName t q = Ok f) as E1 by (apply FileForName_resolves; right; auto).
      assert (FileForName t q = Ok g) as E2 by (apply FileForName_resolves; right; auto). congruence. }
    destruct Htgt as [En|(p & f & Hp & En)]; rewrite En in EF.
    - destruct (FilesForCompoundName_simple t q Hnc) as (_ & F2 & F3).
      destruct (FileForName_spec t q) as [(f & _ & [Hr|[_ Hr]] & Hf)|[_ Hno]]; [contradiction (Hnn f Hr)| |].
      + rewrite (F2 f Hnn Hr) in EF. inversion EF; subst nf mf sy. unfold legal in Hf. replace (f =? 0) with false in Enum by lia. subst num.
        split; [reflexivity|]. split; [reflexivity|]. split; [intros _; exact Hr|]. left. split; [exact En|]. left. exact Hr.
      + rewrite (F3 Hno) in EF. inversion EF; subst nf mf sy. rewrite Z.eqb_refl in Enum.
        assert (forall g, ~ symbol_file t q g) as Hng by (intros g Hg; apply (Hno g); right; split; assumption).
        split; [reflexivity|]. split; [intros H; contradiction (Hng _ H)|]. split; [unfold legal in Hln; lia|]. left. split; [exact En|].
        right. split; [exact Hng|]. destruct (FirstFreeFile_spec (op_SM o)) as [(Hl0 & Ho & Hb)|(E & _)]; [|rewrite Enum, E in Hln; unfold legal in Hln; lia].
        rewrite Enum. split; [exact Ho|]. exact Hb.
    - destruct (FilesForCompoundName_compound t p q (numeric_no_colon _ _ Hp) Hnc) as [HE _]. destruct (HE f Hp Hnn) as [HE1 HE2].
      assert (legal f) as Hlf by apply Hp.
      destruct (FileForName_spec t q) as [(g & _ & [Hg|[_ Hg]] & _)|[_ Hno]]; [contradiction (Hnn g Hg)| |].
      + rewrite (HE1 g Hg) in EF. inversion EF; subst nf mf sy. unfold legal in Hlf. replace (f =? 0) with false in Enum by lia. subst num.
        split; [reflexivity|]. split; [intros H; exact (Hfun _ _ Hg H)|]. split; [intros <-; exact Hg|]. right. exists p. split; assumption.
      + assert (forall g, ~ symbol_file t q g) as Hng by (intros g Hg; apply (Hno g); right; split; assumption).
        rewrite (HE2 Hng) in EF. inversion EF; subst nf mf sy. unfold legal in Hlf. replace (f =? 0) with false in Enum by lia. subst num.
        split; [reflexivity|]. split; [intros H; contradiction (Hng _ H)|]. split; [lia|]. right. exists p. split; assumption. }
  destruct HF as (-> & Hmf1 & Hmf2 & Hwhat).
  destruct Hcase as [[[Hx|Hx] Eo']|(Hx & _ & t0 & t1 & d2 & sm2 & Et0 & EA & EW & Eo')].
  - (* the name is there already *)
    pose proof (Hmf2 Hx) as Hsf. exists num, t. split; [exact Hln|]. intros N3 N4. split; [exact Hwhat|]. subst o'. cbn [op_data op_SM].
    split; [exact C|]. split; [intros g Hg Hgf _ _; apply Oth; assumption|]. split.
    + destruct (Oth 3 ltac:(lia) ltac:(unfold legal; lia)) as [_ C3]. destruct (Oth 4 ltac:(lia) ltac:(unfold legal; lia)) as [_ C4].
      rewrite <- HR. unfold ReadSymbolTable. rewrite !ReadFile_spec by (apply (fl_len _ _ Fl) || apply (fl_len _ _ (ok_fl _ Hok))).
      rewrite C3, C4. reflexivity.
    + split; [apply bind_same; assumption|]. right. split; assumption.
  - contradiction.
  - rewrite Est in Et0. inversion Et0; subst t0. clear Et0. subst o'. cbn [op_data op_SM].
    assert (zlen t1 = 819) as HL1.
    { pose proof (zlen_AddSymbol t q (0xDF00 + num)) as H. rewrite EA in H. cbn [fst] in H. lia. }
    pose proof (WriteSymbolTable_names t1 d1 sm1 _ _ Fl ltac:(lia) EW) as Hnames.
    destruct (AddSymbol_changed _ _ _ _ EA) as (_ & p & n' & Hcg & Hfold & Hp2). pose proof Hcg as (_ & Hp & Pa & Pn & Hqq).
    assert (Forall s_ok t) as Hs.
    { apply (s_ok_pointwise t); [reflexivity|]. intros j Hj.
      pose proof (Forall_znth read_ok sym0 t j Hrd Hj) as (R1 & R2 & R3 & R4). split; [exact R1|]. split; [|exact R3].
      destruct (Z.eq_dec j p) as [->|Hjp].
      - destruct Hp2 as [(K & _)|(K & _)]; [|left; apply R4; exact K].
        assert (Hup : upcase q = upcase (nm t p)) by (apply fold_upcase_eq; [apply valid_alnum; assumption|exact R2|exact K]).
        destruct (Z.eq_dec (ad t p) 0) as [E0|E0]; [left; apply R4; exact E0|].
        assert (Hcj : canon (znth sym0 t p) = znth sym0 t p) by (rewrite <- canon_nth by exact Hj; rewrite Hcan; reflexivity).
        unfold ad in E0. unfold canon in Hcj. destruct (Z.eqb_spec (s_addr (znth sym0 t p)) 0) as [E1|_]; [contradiction|].
        rewrite <- Hcj. cbn [s_name]. change (s_name (znth sym0 t p)) with (nm t p). rewrite <- Hup. apply upcase_valid. exact Hv.
      - destruct (Hqq j) as [_ Enm]; [lia | exact Hjp|].
        pose proof (Forall_znth _ sym0 t1 j Hnames ltac:(lia)) as (six & Esix). cbv beta in Esix.
        unfold nm in Enm. rewrite Enm in Esix. eapply encodes_valid; eassumption. }
    assert (is_u16 (0xDF00 + num)) as Hu by (unfold is_u16, legal in *; lia).
    destruct Hch as (Hlive & Hch2 & Hch3 & Hch4).
    assert (table_ok t1) as Ht1.
    { split; [exact HL1|]. split.
      - apply (AddSymbol_sok t q (0xDF00 + num) t1); auto. lia.
      - apply (AddSymbol_links t q (0xDF00 + num) t1); auto.
        intros k Hk Ek _.
        assert (k <> 0) as Hk0 by (intros ->; rewrite H0 in Ek; discriminate).
        assert (ad t k <> 0) as Hak.
        { intros E0. apply (proj2 Hmap k Hk) in E0. unfold nm in Ek. change (s_name (znth sym0 t k)) with (nm t k) in *. rewrite E0 in Ek. apply equal_fold_nil in Ek. contradiction. }
        assert (Hin : forall j, 0 <= j < zlen t -> lk t j = k -> ad t j <> 0).
        { intros j Hj Ej E0. rewrite (Hch2 j Hj E0) in Ej. lia. }
        split.
        + intros j j' Hj Hj' _ _ Ej Ej'. apply (Hch3 j j' Hj Hj' (Hin j Hj Ej) (Hin j' Hj' Ej')); [rewrite Ej; clear - Hk; lia|congruence].
        + intros j Hj Ej. apply (Hch4 j k Hj Hk (Hin j Hj Ej) Hak Ej). }
    pose proof (open_after d1 sm1 t1 _ _ Fl Ht1 EW) as HR'.
    pose proof (proj1 (proj2 Ht1)) as Hs1.
    destruct (WriteSymbolTable_any t1 d1 sm1 Fl ltac:(lia)) as (d2' & sm2' & r2 & E2 & _ & Fl2 & Oth2 & _).
    rewrite EW in E2. inversion E2; subst d2' sm2' r2. clear E2.
    exists num, (map canon t1). split; [exact Hln|]. intros N3 N4. split; [exact Hwhat|].
    split; [rewrite (proj2 (Oth2 num N3 N4 Hln)); exact C|].
    split; [intros g Hg Hgf G3 G4; rewrite (proj2 (Oth2 g G3 G4 Hg)); apply Oth; assumption|].
    split; [exact HR'|]. split; [apply AddSymbol_bound; assumption|].
    right. split; [exact Hnn|]. split; [exact Hln|]. destruct (AddSymbol_first _ _ _ _ EA) as (p2 & Hp3 & Hap).
    exists p2. destruct (canon_first t1 q p2 Hs1 Hq0 Hp3) as [K1 K2]; [unfold legal in Hln; lia|].
    split; [exact K1 | congruence].
Qed.

Section BoundName.
  Context (iter : list (Z * Subdirectory) -> list (Z * Subdirectory)).

  Lemma put_bound_ls fuel order system ft ow addr img tgt src w w' s :
    run (PutCmd_Run iter fuel order system ft ow addr img tgt src) w = (w', Ok tt) ->
    input w src s -> s <> [] ->
    exists c o d d' new,
      input w img c /\ naked_image c o d /\ (ProdosSpec.an_order iter -> only_seen img order system c o d) /\ output w w' img new /\ naked_image new o d' /\
      forall t q, bytes_ok c -> table_on d t -> names_unique t -> chained t ->
        names_symbol tgt q -> q <> [] -> valid_name q -> (forall g, ~ numeric q g) -> equal_fold q (nm t 0) = false ->
        exists f, legal f /\ (f <> 3 -> f <> 4 ->
          exists l fs fs', meant d t tgt q f /\ bind (cards_of t) q (0xDF00 + f) = Some l /\
          files_on d fs /\ files_on d' fs' /\ (forall g, In g fs' <-> g = f \/ In g fs) /\ file_on d' f = padded s /\
          (forall g, legal g -> g <> f -> g <> 3 -> g <> 4 -> file_on d' g = file_on d g) /\
          forall system2 (short : bool) w2, (system2 = s2b "auto" \/ system2 = s2b "nakedos") -> ProdosSpec.an_order iter ->
             seen_as img order new (s2b "nakedos") d' o -> input w2 img new -> w_outroom w2 = None ->
             eventually (fun k =>
               (exists text, all_lines (map (if short then shown (table_of l) else shown_full (table_of l)) fs') text /\
                  prints (LsCmd_Run iter k order system2 short img []) w2 text) /\
               prints (DumpCmd_Run iter k order system2 img q) w2 (padded s))).
  Proof.
    intros H Hs Hne.
    destruct (put_parts iter fuel _ _ _ _ _ _ _ _ _ _ _ H Hs Hne) as (c & o & op & op2 & ftv & ex & new & Hc & Hopen & Ef & EP & Hout & Hnew).
    destruct (naked_opened iter fuel _ _ _ _ _ _ Hopen) as (_ & Hr & En & Hd & Hre & Hni & Em & Hnm).
    exists c, o, (op_data op), (op_data op2), new. split; [exact Hc|]. split; [exact Hni|]. split; [apply (opened_seen iter fuel); exact Hopen|]. split; [exact Hout|]. split; [exact Hnew|].
    intros t q Hb (op' & En' & Ht) Hu Hch Htgt Hq0 Hv Hnn H0. assert (op' = op) as -> by congruence. clear En'.
    pose proof (reached_ok _ Hre) as Hok.
    destruct (NewOperator_ok _ _ Hd En) as (_ & _ & _ & H3).
    assert (ReadSymbolTable (op_SM op) (op_data op) = Ok t) as HR.
    { rewrite Em. rewrite Ht in H3. unfold opened_table in H3. destruct (ReadSymbolTable (stored_map (op_data op)) (op_data op)); congruence. }
    remember (FI (Desc tgt [] 0 0 (zlen s) false ftv) s addr) as i eqn:Ei.
    assert (Hdi : fi_data i = s) by (rewrite Ei; reflexivity).
    assert (Hni2 : d_name (fi_desc_ i) = tgt) by (rewrite Ei; reflexivity).
    destruct (Put_bound i ow op op2 ex tgt q t Hok (DetectProofs.reordered_bytes _ _ _ _ Hr Hb) Ht HR Hu Hch ltac:(rewrite Hdi; exact Hne) Hni2 Hq0 Hv Hnn H0 Htgt EP)
      as (f & t' & Hf & Hrest).
    exists f. split; [exact Hf|]. intros N3 N4. destruct (Hrest N3 N4) as (Hwhat & HC & Hoth & HR' & Hbind & Hres). clear Hrest.
    destruct (PutFile_inv _ _ _ _ _ Hok ltac:(rewrite Hdi; exact Hne) EP) as [Hok2 _].
    rewrite Hdi in HC. rewrite content_file_on in HC by exact Hok2.
    assert (Hoth' : forall g, legal g -> g <> f -> g <> 3 -> g <> 4 -> file_on (op_data op2) g = file_on (op_data op) g).
    { intros g Hg Hgf G3 G4. rewrite <- (content_file_on op2), <- (content_file_on op) by assumption. apply Hoth; assumption. }
    destruct (files_ex _ Hd) as [fs Hfs]. destruct (files_ex _ (fl_len _ _ (proj2 Hnew))) as [fs' Hfs'].
    destruct (table_files _ _ _ Hd HR) as [T3 T4].
    destruct (table_files _ _ _ (fl_len _ _ (proj2 Hnew)) HR') as [T3' T4'].
    assert (Hnon : forall x g, op_ok x -> zlen (owned (op_SM x) g) = 16 -> file_on (op_data x) g <> []).
    { intros x g Hx0 Hz E. apply owned_file_on in E; [|exact Hx0]. rewrite E in Hz. discriminate Hz. }
    assert (Hpad : padded s <> []) by (apply padded_nonempty; exact Hne).
    exists (cards_of t'), fs, fs'. split.
    { destruct Hwhat as [[E [Hsf|(Hno & Ho & Hl)]]|(p & Hp & E)].
      - right. left. split; assumption.
      - right. right. split; [exact E|]. split; [exact Hno|]. split; [apply owned_file_on; assumption|].
        intros g Hg Eg. apply (Hl g Hg). apply owned_file_on; assumption.
      - left. exists p. split; assumption. }
    split; [exact Hbind|]. split; [exact Hfs|]. split; [exact Hfs'|]. split.
    { intros g. rewrite (proj1 Hfs' g), (proj1 Hfs g). destruct (Z.eq_dec g f) as [->|Hg].
      - rewrite HC. split; [intros _; left; reflexivity|intros _; split; [exact Hf|exact Hpad]].
      - assert (legal g -> (file_on (op_data op2) g <> [] <-> file_on (op_data op) g <> [])) as Hgg.
        { intros Lg. destruct (Z.eq_dec g 3) as [->|G3]; [split; intros _; apply Hnon; assumption|].
          destruct (Z.eq_dec g 4) as [->|G4]; [split; intros _; apply Hnon; assumption|]. rewrite (Hoth' g Lg Hg G3 G4). reflexivity. }
        split; [intros [Lg E]; right; split; [exact Lg|apply (Hgg Lg); exact E]|].
        intros [Eg|[Lg E]]; [contradiction (Hg Eg)|]. split; [exact Lg|apply (Hgg Lg); exact E]. }
    split; [exact HC|]. split; [exact Hoth'|]. intros system2 short w2 Hsys Hi Hseen Hin Hw.
    assert (Hnm' : names_on (op_data op2) t').
    { pose proof (names_opened _ (proj2 Hnew)) as Hx. rewrite (fl_map _ _ (ok_fl _ Hok2)) in Hx. rewrite HR' in Hx. exact Hx. }
    apply eventually_and.
    - pose proof (ls_known iter img order system2 new (op_data op2) o t' fs' short w2 Hi Hseen Hsys Hnm' Hfs' Hin Hw) as HL1.
      assert (Emap : map (if short then shown t' else shown_full t') fs' =
        map (if short then shown (table_of (cards_of t')) else shown_full (table_of (cards_of t'))) fs').
      { apply map_ext_in. intros g Hg. destruct (shown_keys t' (table_of (cards_of t')) g (eq_sym (table_cards _))) as [S1 S2].
        destruct short; [exact S1|exact S2]. }
      rewrite Emap in HL1. exact HL1.
    - rewrite <- HC. apply (dump_nakedos iter img order system2 new (op_data op2) o t' q f w2 Hi Hseen Hsys Hnm' Hin); [exact Hres|rewrite HC; exact Hpad|exact Hw].
  Qed.
End BoundName.
