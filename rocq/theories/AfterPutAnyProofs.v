(** AfterPutAnyProofs.v -- what ls and dump show after a put under a name, for every symbol table (C90). *)
From Coq Require Import ZifyBool ZifyNat.
From Verif Require Import GoBase GoLemmas TypesModel DiskModel DiskSpec DiskProofs DiskOpenProofs.
From Verif Require Import SupermonModel SupermonSpec SupermonTableSpec SupermonBreakSpec SupermonStoreSpec SupermonProofs SupermonSymProofs SupermonTabProofs SupermonLinkProofs SupermonOpProofs SupermonNameProofs SupermonFinalProofs SupermonNamedProofs SupermonRewriteProofs SupermonStmtProofs SupermonReadableProofs SupermonBreakProofs SupermonChainSpec SupermonChainProofs.
From Verif Require ProdosSpec.
From Verif Require Import ProdosModel CmdModel CmdSpec CmdProofs CmdStmtProofs NakedCmdSpec NakedCmdProofs NakedOpenProofs DetectSpec DetectProofs PrintProofs ListSpec ListProofs OpenFuelProofs AfterProofs AfterRmProofs AfterRmAnyProofs SessionSpec SessionProofs NamesSpec NamesProofs BoundSpec BoundProofs.
Ltac Zify.zify_post_hook ::= Z.div_mod_to_equations.
Local Opaque zrange zeros sub.

Lemma first_unused_det t p q : first_unused t p -> first_unused t q -> p = q.
Proof.
  intros (P1 & P2 & P3) (F1 & F2 & F3). destruct (Z_lt_ge_dec p q) as [H|H]; [contradiction (F3 p ltac:(lia))|].
  destruct (Z_lt_ge_dec q p) as [H'|H']; [contradiction (P3 q ltac:(lia))|lia].
Qed.
(** The table that is read back after an addition. *)
Lemma canon_add t n a t1 i : map canon t = t -> Forall s_ok t1 -> n <> [] -> valid_name n -> AddSymbol t n a = (t1, Ok tt) ->
  place t n i -> like (zset t i (Sym a (upcase n) 0)) (map canon t1).
Proof.
  intros Hcan Hs1 Hn Hv E Hi. destruct (AddSymbol_changed t n a t1 E) as (Ha & p & n' & Hc & En & Hcase). pose proof Hc as (HL1 & Hp & Pa & Pn & Hq).
  assert (i = p) as ->.
  { destruct Hcase as [(H1 & H2 & _)|(H1 & H2 & _)].
    - destruct Hi as [Hi|[Hi _]]; [|rewrite (Hi p Hp) in H1; discriminate].
      assert (first_named t n p) as Hp' by (apply first_named_eq; split; [exact Hp|split; assumption]).
      apply first_named_find in Hp'. apply first_named_find in Hi. congruence.
    - destruct Hi as [(Hi1 & Hi2 & _)|[_ Hi]]; [rewrite equal_fold_sym, (H2 i Hi1) in Hi2; discriminate|].
      apply (first_unused_det t); [exact Hi|]. split; [exact Hp|]. split; [exact H1|]. apply (AddSymbol_blank t n a t1 p n' E H2 Hc). }
  split; [rewrite zlen_map, zlen_zset by lia; exact HL1|]. intros j Hj. rewrite zlen_zset in Hj by lia. unfold ad, nm in *.
  rewrite (znth_map canon sym0 sym0) by lia. rewrite znth_zset by lia. destruct (Z.eqb_spec j p) as [->|Hne].
  - unfold canon. rewrite Pa, Pn. destruct (Z.eqb_spec a 0); [contradiction|]. cbn [s_addr s_name]. split; [reflexivity|]. symmetry.
    assert (valid_name n') as Hv' by (rewrite <- Pn; apply (Forall_znth s_ok sym0 t1 p Hs1 ltac:(lia))).
    destruct Hv as [?|(_ & Al & _)]; [contradiction|]. destruct Hv' as [->|(_ & Al' & _)]; [apply equal_fold_nil in En; contradiction|].
    apply fold_upcase_eq; assumption.
  - destruct (Hq j ltac:(lia) Hne) as [Q1 Q2].
    assert (Hx : canon (znth sym0 t j) = znth sym0 t j) by (rewrite <- (znth_map canon sym0 sym0) by lia; rewrite Hcan; reflexivity).
    unfold canon in *. rewrite Q1, Q2. destruct (Z.eqb_spec (s_addr (znth sym0 t j)) 0) as [E0|E0].
    + rewrite <- Hx. split; reflexivity.
    + cbn [s_addr s_name]. split; [reflexivity|]. rewrite <- Hx at 2. reflexivity.
Qed.
(** A name that has the address already. *)
Lemma bound_same t n a i t1 : Forall read_ok t -> map canon t = t -> n <> [] -> valid_name n -> first_named t n i -> ad t i = a -> a <> 0 ->
  bound_after t n a t1 -> like t1 t.
Proof.
  intros Hrd Hcan Hn Hv Hi Ea Ha Hb.
  assert (forall k, first_named t n k -> k = i) as Hdet by (intros k Hk; apply first_named_find in Hk; apply first_named_find in Hi; congruence).
  assert (~ (forall j, 0 <= j < zlen t -> equal_fold n (nm t j) = false)) as Hsome.
  { intros H. destruct Hi as (Hi1 & Hi2 & _). rewrite equal_fold_sym, (H i Hi1) in Hi2. discriminate. }
  destruct Hb as [[[(k & Hk & Hh & _)|(H & _)] _]|(_ & k & [Hk|[H _]] & ->)]; [|contradiction| |contradiction].
  - exfalso. rewrite (Hdet k Hk), Ea in Hh. apply Hh. reflexivity.
  - rewrite (Hdet k Hk). clear k Hk. pose proof (proj1 Hi) as Hir. split; [rewrite zlen_zset by lia; reflexivity|]. intros j Hj. rewrite zlen_zset in Hj by lia.
    unfold ad, nm. rewrite znth_zset by lia. destruct (Z.eqb_spec j i) as [->|Hne]; [|split; reflexivity]. split; [exact Ea|].
    cbn [s_name].
    assert (Hcj : canon (znth sym0 t i) = znth sym0 t i) by (rewrite <- (znth_map canon sym0 sym0) by lia; rewrite Hcan; reflexivity).
    unfold ad in Ea. unfold canon in Hcj. destruct (Z.eqb_spec (s_addr (znth sym0 t i)) 0) as [E0|E0]; [congruence|].
    assert (nm t i = upcase (nm t i)) as Eu by (unfold nm; rewrite <- Hcj at 1; reflexivity). unfold nm in Eu. rewrite Eu.
    symmetry. apply fold_upcase_eq; [apply valid_alnum; assumption|apply (Forall_znth read_ok sym0 t i Hrd Hir)|].
    rewrite equal_fold_sym. apply Hi.
Qed.

(** ** put under a name, at the operator *)
Lemma Put_any i ow o o' ex n q t : op_ok o -> bytes_ok (op_data o) -> op_ST o = Some t ->
  ReadSymbolTable (op_SM o) (op_data o) = Ok t ->
  fi_data i <> [] -> d_name (fi_desc_ i) = n -> q <> [] -> valid_name q -> (forall g, ~ numeric q g) ->
  (n = q \/ exists p f, numeric p f /\ n = p ++ 58 :: q) ->
  PutFile i ow o = (o', Ok ex) ->
  exists f, legal f /\
    ((n = q /\ (symbol_file t q f \/
                (forall g, ~ symbol_file t q g) /\ owned (op_SM o) f = [] /\ forall g, 1 <= g < f -> owned (op_SM o) g <> [])) \/
     exists p, numeric p f /\ n = p ++ 58 :: q) /\
    (exists k, place t q k) /\
    owned (op_SM o') f <> [] /\
    (symbol_file t q f \/ (f <> 3 /\ f <> 4) -> content (op_data o') (op_SM o') f = padded (fi_data i)) /\
    (forall g, legal g -> g <> f -> g <> 3 -> g <> 4 -> content (op_data o') (op_SM o') g = content (op_data o) (op_SM o) g) /\
    (forall g, legal g -> g <> f -> (owned (op_SM o') g = [] <-> owned (op_SM o) g = [])) /\
    (~ symbol_file t q f \/ (f <> 3 /\ f <> 4) -> forall t1, bound_after t q (0xDF00 + f) t1 ->
       exists t2, like t1 t2 /\ match ReadSymbolTable (op_SM o') (op_data o') with Ok x => t2 = x | _ => t2 = [] end).
Proof.
  intros Hok Hby Est HR Hne En Hq0 Hv Hnn Htgt HP. subst n.
  destruct (ReadSymbolTable_read_ok _ _ _ (fl_len _ _ (ok_fl _ Hok)) Hby HR) as (HL & Hl & Hrd).
  pose proof (read_ok_blanks _ Hrd) as Hbl.
  pose proof (ReadSymbolTable_canon _ _ _ HR) as Hcan.
  pose proof (valid_no_colon q Hv) as Hnc.
  destruct (PutFile_inv _ _ _ _ _ Hok Hne HP) as [Hok' _].
  destruct (PutFile_success i ow o o' ex Hok Hne HP) as (nf & mf & sy & num & d1 & sm1 & EF & Enum & Hln & Hsy & Fl & C & Oth & _ & _ & Hcase).
  assert (st_of o = t) as Es by (unfold st_of; rewrite Est; reflexivity). rewrite Es in EF.
  assert (HF : sy = q /\ (symbol_file t q num -> mf = num) /\ (mf = num -> symbol_file t q num) /\
    ((d_name (fi_desc_ i) = q /\ (symbol_file t q num \/
        (forall g, ~ symbol_file t q g) /\ owned (op_SM o) num = [] /\ forall g, 1 <= g < num -> owned (op_SM o) g <> [])) \/
     exists p, numeric p num /\ d_name (fi_desc_ i) = p ++ 58 :: q)).
  { assert (Hfun : forall f g, symbol_file t q f -> symbol_file t q g -> f = g).
    { intros f g Hf Hg. assert (FileForName t q = Ok f) as E1 by (apply FileForName_resolves; right; auto).
      assert (FileForName t q = Ok g) as E2 by (apply FileForName_resolves; right; auto). congruence. }
    destruct Htgt as [En|(p & f & Hp & En)]; rewrite En in EF.
    - destruct (FilesForCompoundName_simple t q Hnc) as (_ & F2 & F3).
      destruct (FileForName_spec t q) as [(f & _ & [Hr|[_ Hr]] & Hf)|[_ Hno]]; [contradiction (Hnn f Hr)| |].
      + rewrite (F2 f Hnn Hr) in EF. inversion EF; subst nf mf sy. unfold legal in Hf. replace (f =? 0) with false in Enum by lia. subst num.
        split; [reflexivity|]. split; [reflexivity|]. split; [intros _; exact Hr|]. left. split; [exact En|]. left. exact Hr.
      + rewrite (F3 Hno) in EF. inversion EF; subst nf mf sy. rewrite Z.eqb_refl in Enum.
        assert (forall g, ~ symbol_file t q g) as Hng by (intros g Hg; apply (Hno g); right; split; assumption).
        split; [reflexivity|]. split; [intros H; contradiction (Hng _ H)|]. split; [unfold legal in Hln; lia|]. left. split; [exact En|].
        right. split; [exact Hng|]. destruct (FirstFreeFile_spec (op_SM o)) as [(Hl0 & Ho & Hb)|(E & _)]; [|rewrite Enum, E in Hln; unfold legal in Hln; lia].
        rewrite Enum. split; [exact Ho|]. exact Hb.
    - destruct (FilesForCompoundName_compound t p q (numeric_no_colon _ _ Hp) Hnc) as [HE _]. destruct (HE f Hp Hnn) as [HE1 HE2].
      assert (legal f) as Hlf by apply Hp.
      destruct (FileForName_spec t q) as [(g & _ & [Hg|[_ Hg]] & _)|[_ Hno]]; [contradiction (Hnn g Hg)| |].
      + rewrite (HE1 g Hg) in EF. inversion EF; subst nf mf sy. unfold legal in Hlf. replace (f =? 0) with false in Enum by lia. subst num.
        split; [reflexivity|]. split; [intros H; exact (Hfun _ _ Hg H)|]. split; [intros <-; exact Hg|]. right. exists p. split; assumption.
      + assert (forall g, ~ symbol_file t q g) as Hng by (intros g Hg; apply (Hno g); right; split; assumption).
        rewrite (HE2 Hng) in EF. inversion EF; subst nf mf sy. unfold legal in Hlf. replace (f =? 0) with false in Enum by lia. subst num.
        split; [reflexivity|]. split; [intros H; contradiction (Hng _ H)|]. split; [lia|]. right. exists p. split; assumption. }
  destruct HF as (-> & Hmf1 & Hmf2 & Hwhat).
  assert (Hpad : padded (fi_data i) <> []) by (apply padded_nonempty; exact Hne).
  exists num. split; [exact Hln|]. split; [exact Hwhat|].
  destruct Hcase as [[[Hx|Hx] Eo']|(Hx & _ & t0 & t1 & d2 & sm2 & Et0 & EA & EW & Eo')].
  - (* the name is there already *)
    pose proof (Hmf2 Hx) as Hsf. subst o'. cbn [op_data op_SM].
    split. { destruct Hsf as (_ & k & Hk & _). exists k. left. exact Hk. }
    split. { intros E. apply Hpad. rewrite <- C. unfold content. rewrite E. reflexivity. }
    split; [intros _; exact C|]. split; [intros g Hg Hgf _ _; apply Oth; assumption|].
    split; [intros g Hg Hgf; destruct (Oth g Hgf Hg) as [-> _]; reflexivity|].
    intros [Hz|[N3 N4]]; [contradiction|]. intros t1 Hb1. exists t. destruct Hsf as (_ & k & Hk & Ek). split.
    + apply (bound_same t q (0xDF00 + num) k); try assumption. unfold legal in Hln. lia.
    + replace (ReadSymbolTable sm1 d1) with (ReadSymbolTable (op_SM o) (op_data o)); [rewrite HR; reflexivity|].
      destruct (Oth 3 ltac:(congruence) ltac:(unfold legal; lia)) as [_ C3]. destruct (Oth 4 ltac:(congruence) ltac:(unfold legal; lia)) as [_ C4].
      symmetry. apply ReadSymbolTable_same; [apply (fl_len _ _ (ok_fl _ Hok))|apply (fl_len _ _ Fl)|exact C3|exact C4].
  - contradiction.
  - rewrite Est in Et0. injection Et0 as <-. subst o'. cbn [op_data op_SM].
    assert (~ symbol_file t q num) as Hns by (intros H; apply Hx, Hmf1, H).
    assert (zlen t1 = 819) as HL1.
    { pose proof (zlen_AddSymbol t q (0xDF00 + num)) as H. rewrite EA in H. cbn [fst] in H. lia. }
    pose proof (WriteSymbolTable_names t1 d1 sm1 _ _ Fl ltac:(lia) EW) as Hnames.
    destruct (AddSymbol_changed _ _ _ _ EA) as (_ & p & n' & Hcg & Hfold & Hp2). pose proof Hcg as (_ & Hp & Pa & Pn & Hqq).
    assert (Forall s_ok t) as Hs.
    { apply (s_ok_pointwise t); [reflexivity|]. intros j Hj.
      pose proof (Forall_znth read_ok sym0 t j Hrd Hj) as (R1 & R2 & R3 & R4). split; [exact R1|]. split; [|exact R3].
      destruct (Z.eq_dec j p) as [->|Hjp].
      - destruct Hp2 as [(K & _)|(K & _)]; [|left; apply R4; exact K].
        assert (Hup : upcase q = upcase (nm t p)) by (apply fold_upcase_eq; [apply valid_alnum; assumption|exact R2|exact K]).
        destruct (Z.eq_dec (ad t p) 0) as [E0|E0]; [left; apply R4; exact E0|].
        assert (Hcj : canon (znth sym0 t p) = znth sym0 t p) by (rewrite <- canon_nth by exact Hj; rewrite Hcan; reflexivity).
        unfold ad in E0. unfold canon in Hcj. destruct (Z.eqb_spec (s_addr (znth sym0 t p)) 0) as [E1|_]; [contradiction|].
        rewrite <- Hcj. cbn [s_name]. change (s_name (znth sym0 t p)) with (nm t p). rewrite <- Hup. apply upcase_valid. exact Hv.
      - destruct (Hqq j) as [_ Enm]; [lia | exact Hjp|].
        pose proof (Forall_znth _ sym0 t1 j Hnames ltac:(lia)) as (six & Esix). cbv beta in Esix.
        unfold nm in Enm. rewrite Enm in Esix. eapply encodes_valid; eassumption. }
    assert (is_u16 (0xDF00 + num)) as Hu by (unfold is_u16, legal in *; lia).
    pose proof (add_sok t q (0xDF00 + num) t1 HL Hs Hbl Hq0 Hu Hv EA) as Hs1.
    destruct (add_break t q (0xDF00 + num) t1 HL Hl Hbl Hq0 EA) as [B1 B2].
    destruct (WriteSymbolTable_any t1 d1 sm1 Fl ltac:(lia)) as (d2' & sm2' & r2 & E2 & _ & Fl2 & Oth2 & HO).
    rewrite EW in E2. injection E2 as <- <- <-. destruct (HO eq_refl) as (b1 & b2 & Efill & _ & _ & _ & _ & ER & _ & _ & O3 & O4 & _).
    destruct (parse_fill_exact t1 HL1 Hs1) as (b1' & b2' & Efill' & _ & _ & P1 & P2). rewrite Efill in Efill'. injection Efill' as <- <-.
    destruct (table_files _ _ _ (fl_len _ _ (ok_fl _ Hok)) HR) as [T3 T4].
    assert (forall l : list Z, zlen l = 16 -> l <> []) as Hnil by (intros l El ->; discriminate El).
    split.
    { exists p. destruct Hp2 as [(K1 & K2 & _)|(K1 & K2 & _)]; [left; apply first_named_eq; split; [exact Hp|split; assumption]|].
      right. split; [exact K2|]. split; [exact Hp|]. split; [exact K1|]. apply (AddSymbol_blank t q (0xDF00 + num) t1 p n' EA K2 Hcg). }
    split.
    { destruct (Z.eq_dec num 3) as [->|N3]; [apply Hnil, O3|]. destruct (Z.eq_dec num 4) as [->|N4]; [apply Hnil, O4|].
      destruct (Oth2 num N3 N4 Hln) as [-> _]. intros E. apply Hpad. rewrite <- C. unfold content. rewrite E. reflexivity. }
    split. { intros [H|[N3 N4]]; [contradiction|]. rewrite (proj2 (Oth2 num N3 N4 Hln)). exact C. }
    split; [intros g Hg Hgf G3 G4; rewrite (proj2 (Oth2 g G3 G4 Hg)); apply Oth; assumption|].
    split.
    { intros g Hg Hgf. destruct (Z.eq_dec g 3) as [->|G3]; [split; intros H; [contradiction (Hnil _ O3 H)|contradiction (Hnil _ T3 H)]|].
      destruct (Z.eq_dec g 4) as [->|G4]; [split; intros H; [contradiction (Hnil _ O4 H)|contradiction (Hnil _ T4 H)]|].
      destruct (Oth2 g G3 G4 Hg) as [-> _]. destruct (Oth g Hgf Hg) as [-> _]. reflexivity. }
    intros _ tb [[Hbr ->]|(Hnb & k & Hk & ->)].
    + exists []. split; [split; [reflexivity|split; reflexivity]|]. destruct (P2 (B1 Hbr)) as [e Pe]. rewrite ER, Pe. reflexivity.
    + exists (map canon t1). split; [apply (canon_add t q (0xDF00 + num) t1 k); assumption|]. rewrite ER, (P1 (B2 Hnb)). reflexivity.
Qed.

Lemma bound_resolves t q f t1 : zlen t = 819 -> q <> [] -> valid_name q -> (forall g, ~ numeric q g) -> legal f ->
  ~ add_breaks t q (0xDF00 + f) -> bound_after t q (0xDF00 + f) t1 -> resolves t1 q f.
Proof.
  intros HL Hq Hv Hnn Hf Hnb [[H _]|(_ & k & Hk & ->)]; [contradiction|]. right. split; [exact Hnn|]. split; [exact Hf|]. exists k.
  assert (0 <= k < zlen t) as Hkr by (destruct Hk as [Hk|[_ Hk]]; apply Hk).
  assert (forall j, 0 <= j < k -> equal_fold (nm t j) q = false) as Hb.
  { intros j Hj. destruct Hk as [(_ & _ & Hk)|[Hk _]]; [apply Hk, Hj|rewrite equal_fold_sym; apply Hk; lia]. }
  split.
  - split; [rewrite zlen_zset by lia; exact Hkr|]. unfold nm. split; [rewrite znth_zset, Z.eqb_refl by lia; cbn [s_name]; unfold equal_fold; rewrite (fold_upcase _ (valid_ascii _ Hv)); apply beq_refl|].
    intros j Hj. rewrite znth_zset by lia. replace (j =? k) with false by lia. apply Hb, Hj.
  - unfold ad. rewrite znth_zset, Z.eqb_refl by lia. reflexivity.
Qed.

(** ** Re-opening (C44) *)
Lemma reopen_any d o t i ow o' ex q : zlen d = 143360 -> bytes_ok d -> NewOperator d = Ok o -> op_ST o = Some t ->
  fi_data i <> [] -> names_symbol (d_name (fi_desc_ i)) q -> q <> [] -> valid_name q -> (forall g, ~ numeric q g) ->
  PutFile i ow o = (o', Ok ex) ->
  exists f o2, meant d t (d_name (fi_desc_ i)) q f /\ NewOperator (op_data o') = Ok o2 /\
    (f <> 3 -> f <> 4 ->
     (~ add_breaks t q (0xDF00 + f) -> exists i2, GetFile o2 q = Ok i2 /\ fi_data i2 = padded (fi_data i)) /\
     (add_breaks t q (0xDF00 + f) -> GetFile o2 q = Err EFileNotFound)).
Proof.
  intros Hd Hb En Et Hne Htgt Hq0 Hv Hnn HP. destruct (NewOperator_ok d o Hd En) as (Hok & H1 & H2 & H3).
  assert (ReadSymbolTable (op_SM o) (op_data o) = Ok t) as HR.
  { rewrite H1, H2. rewrite Et in H3. unfold opened_table in H3. destruct (ReadSymbolTable (stored_map d) d); congruence. }
  destruct (ReadSymbolTable_read_ok _ _ _ (fl_len _ _ (ok_fl _ Hok)) ltac:(rewrite H1; exact Hb) HR) as (HL & _ & _).
  destruct (Put_any i ow o o' ex _ q t Hok ltac:(rewrite H1; exact Hb) Et HR Hne eq_refl Hq0 Hv Hnn Htgt HP) as (f & Hf & Hwhat & (k & Hk) & Hof & HC & _ & _ & Hnames).
  destruct (PutFile_inv _ _ _ _ _ Hok Hne HP) as [Hok2 _]. pose proof (ok_fl _ Hok2) as Fl2.
  exists f. eexists. split.
  { rewrite <- H1. destruct Hwhat as [[E [Hsf|(Hno & Ho & Hl)]]|(p & Hp & E)].
    - right. left. split; assumption.
    - right. right. split; [exact E|]. split; [exact Hno|]. split; [apply owned_file_on; assumption|].
      intros g Hg Eg. apply (Hl g Hg). apply owned_file_on; assumption.
    - left. exists p. split; assumption. }
  split; [apply (NewOperator_floppy _ _ Fl2)|]. intros N3 N4.
  destruct (NewOperator_ok _ _ (fl_len _ _ Fl2) (NewOperator_floppy _ _ Fl2)) as (Hok3 & _).
  assert (Hno : ~ symbol_file t q f \/ f <> 3 /\ f <> 4) by (right; split; assumption). split.
  - intros Hnb. destruct (Hnames Hno _ (or_intror (conj Hnb (ex_intro _ k (conj Hk eq_refl))))) as (t2 & Hlike & Em).
    assert (resolves (zset t k (Sym (57088 + f) (upcase q) 0)) q f) as Hr.
    { apply (bound_resolves t q f); try assumption. right. split; [exact Hnb|]. exists k. split; [exact Hk|reflexivity]. }
    apply (like_resolves _ _ q f Hlike) in Hr.
    destruct (GetFile_content _ q f Hok3) as (i2 & E2 & D2).
    + unfold st_of. cbn [op_ST]. unfold opened_table. destruct (ReadSymbolTable (op_SM o') (op_data o')) as [x|e|]; rewrite <- Em; exact Hr.
    + cbn [op_data op_SM]. rewrite (HC ltac:(right; split; assumption)). apply padded_nonempty. exact Hne.
    + exists i2. split; [exact E2|]. rewrite D2. cbn [op_data op_SM]. apply HC. right. split; assumption.
  - intros Hbr. destruct (Hnames Hno _ (or_introl (conj Hbr eq_refl))) as (t2 & [Hlen _] & Em).
    assert (t2 = []) as -> by (destruct t2; [reflexivity|rewrite zlen_cons, (@zlen_nil Symbol) in Hlen; pose proof (zlen_nonneg t2); lia]).
    unfold GetFile, st_of. cbn [op_ST]. unfold opened_table.
    assert (FileForName [] q = Err EFileNotFound) as EF.
    { destruct (FileForName_spec [] q) as [(g & _ & [Hg|(_ & _ & j & (Hj & _) & _)] & _)|[E _]]; [contradiction (Hnn g Hg)|rewrite (@zlen_nil Symbol) in Hj; lia|exact E]. }
    destruct (ReadSymbolTable (op_SM o') (op_data o')) as [x|e|]; [rewrite <- Em|..]; rewrite EF; reflexivity.
Qed.

Section PutAny.
  Context (iter : list (Z * Subdirectory) -> list (Z * Subdirectory)).

  Lemma put_any fuel order system ft ow addr img tgt src w w' s :
    run (PutCmd_Run iter fuel order system ft ow addr img tgt src) w = (w', Ok tt) ->
    input w src s -> s <> [] ->
    exists c o d d' new fs fs',
      input w img c /\ naked_image c o d /\ (ProdosSpec.an_order iter -> only_seen img order system c o d) /\ output w w' img new /\ naked_image new o d' /\
      files_on d fs /\ files_on d' fs' /\
      forall t q, bytes_ok c -> table_on d t ->
        names_symbol tgt q -> q <> [] -> valid_name q -> (forall g, ~ numeric q g) ->
        exists f, legal f /\ meant d t tgt q f /\ (exists i, place t q i) /\ (forall g, In g fs' <-> g = f \/ In g fs) /\
          (symbol_file t q f \/ (f <> 3 /\ f <> 4) -> file_on d' f = padded s) /\
          (forall g, legal g -> g <> f -> g <> 3 -> g <> 4 -> file_on d' g = file_on d g) /\
          (~ symbol_file t q f \/ (f <> 3 /\ f <> 4) -> forall t', bound_after t q (0xDF00 + f) t' ->
           (~ add_breaks t q (0xDF00 + f) -> resolves t' q f) /\
           forall system2 w2, (system2 = s2b "auto" \/ system2 = s2b "nakedos") -> ProdosSpec.an_order iter ->
             seen_as img order new (s2b "nakedos") d' o -> input w2 img new -> w_outroom w2 = None ->
             (forall short : bool, eventually (fun k =>
               exists text, all_lines (map (if short then shown t' else shown_full t') fs') text /\
                  prints (LsCmd_Run iter k order system2 short img []) w2 text)) /\
             (forall name g, resolves t' name g -> In g fs' -> eventually (fun k => prints (DumpCmd_Run iter k order system2 img name) w2 (file_on d' g))) /\
             (forall name, (forall g, resolves t' name g -> ~ In g fs') -> eventually (fun k => fails_cleanly (DumpCmd_Run iter k order system2 img name) w2))).
  Proof.
    intros H Hs Hne.
    destruct (put_parts iter fuel _ _ _ _ _ _ _ _ _ _ _ H Hs Hne) as (c & o & op & op2 & ftv & ex & new & Hc & Hopen & Ef & EP & Hout & Hnew).
    destruct (naked_opened iter fuel _ _ _ _ _ _ Hopen) as (_ & Hr & En & Hd & Hre & Hni & Em & Hnm).
    destruct (files_ex _ Hd) as [fs Hfs]. destruct (files_ex _ (fl_len _ _ (proj2 Hnew))) as [fs' Hfs'].
    exists c, o, (op_data op), (op_data op2), new, fs, fs'. split; [exact Hc|]. split; [exact Hni|]. split; [apply (opened_seen iter fuel); exact Hopen|]. split; [exact Hout|]. split; [exact Hnew|].
    split; [exact Hfs|]. split; [exact Hfs'|].
    intros t q Hb (op' & En' & Ht) Htgt Hq0 Hv Hnn. assert (op' = op) as -> by congruence. clear En'.
    pose proof (reached_ok _ Hre) as Hok.
    destruct (NewOperator_ok _ _ Hd En) as (_ & _ & _ & H3).
    assert (ReadSymbolTable (op_SM op) (op_data op) = Ok t) as HR.
    { rewrite Em. rewrite Ht in H3. unfold opened_table in H3. destruct (ReadSymbolTable (stored_map (op_data op)) (op_data op)); congruence. }
    pose proof (DetectProofs.reordered_bytes _ _ _ _ Hr Hb) as Hbd.
    destruct (ReadSymbolTable_read_ok _ _ _ (fl_len _ _ (ok_fl _ Hok)) Hbd HR) as (HL & _ & _).
    remember (FI (Desc tgt [] 0 0 (zlen s) false ftv) s addr) as i eqn:Ei.
    assert (Hdi : fi_data i = s) by (rewrite Ei; reflexivity).
    assert (Hni2 : d_name (fi_desc_ i) = tgt) by (rewrite Ei; reflexivity).
    destruct (Put_any i ow op op2 ex tgt q t Hok Hbd Ht HR ltac:(rewrite Hdi; exact Hne) Hni2 Hq0 Hv Hnn Htgt EP)
      as (f & Hf & Hwhat & Hplace & Hof & HC & Hoth & Hown & Hnames).
    destruct (PutFile_inv _ _ _ _ _ Hok ltac:(rewrite Hdi; exact Hne) EP) as [Hok2 _].
    rewrite Hdi in HC. rewrite content_file_on in HC by exact Hok2.
    exists f. split; [exact Hf|]. split.
    { destruct Hwhat as [[E [Hsf|(Hno & Ho & Hl)]]|(p & Hp & E)].
      - right. left. split; assumption.
      - right. right. split; [exact E|]. split; [exact Hno|]. split; [apply owned_file_on; assumption|].
        intros g Hg Eg. apply (Hl g Hg). apply owned_file_on; assumption.
      - left. exists p. split; assumption. }
    split; [exact Hplace|]. split.
    { intros g. rewrite (proj1 Hfs' g), (proj1 Hfs g). destruct (Z.eq_dec g f) as [->|Hg].
      - split; [intros _; left; reflexivity|intros _; split; [exact Hf|]]. intros E. apply Hof. apply owned_file_on; assumption.
      - assert (legal g -> (file_on (op_data op2) g <> [] <-> file_on (op_data op) g <> [])) as Hgg.
        { intros Lg. destruct (Hown g Lg Hg) as [W1 W2]. split; intros E1 E2; apply E1, owned_file_on; try assumption; [apply W2|apply W1]; apply owned_file_on; assumption. }
        split; [intros [Lg E]; right; split; [exact Lg|apply (Hgg Lg); exact E]|].
        intros [Eg|[Lg E]]; [contradiction (Hg Eg)|]. split; [exact Lg|apply (Hgg Lg); exact E]. }
    split; [exact HC|]. split.
    { intros g Hg Hgf G3 G4. rewrite <- (content_file_on op2), <- (content_file_on op) by assumption. apply Hoth; assumption. }
    intros Hcond t' Hbd'. split; [intros Hnb; apply (bound_resolves t q f t'); assumption|].
    intros system2 w2 Hsys Hi Hseen Hin Hw.
    destruct (Hnames Hcond t' Hbd') as (t2 & Hlike & Em2).
    assert (Hn2 : names_on (op_data op2) t2).
    { pose proof (names_opened _ (proj2 Hnew)) as Hx. rewrite (fl_map _ _ (ok_fl _ Hok2)) in Hx.
      destruct (ReadSymbolTable (op_SM op2) (op_data op2)); rewrite Em2; exact Hx. }
    split; [|split].
    - intros short. pose proof (ls_known iter img order system2 new (op_data op2) o t2 fs' short w2 Hi Hseen Hsys Hn2 Hfs' Hin Hw) as HL1.
      assert (Emap : map (if short then shown t2 else shown_full t2) fs' = map (if short then shown t' else shown_full t') fs').
      { apply map_ext_in. intros g Hg. destruct short; unfold shown, shown_full; rewrite (like_symbol _ _ g Hlike); reflexivity. }
      rewrite Emap in HL1. exact HL1.
    - intros name g Hg Hgf. apply (proj1 Hfs') in Hgf as [_ Hgf]. apply (dump_nakedos iter img order system2 new (op_data op2) o t2 name g w2 Hi Hseen Hsys Hn2 Hin); [apply (like_resolves _ _ name g Hlike); exact Hg|exact Hgf|exact Hw].
    - intros name Hno. destruct (FileForName_spec t2 name) as [(g & _ & Hg & Lg)|[_ Hg]].
      + apply (dump_nakedos iter img order system2 new (op_data op2) o t2 name g w2 Hi Hseen Hsys Hn2 Hin). right. split; [exact Hg|].
        destruct (file_on (op_data op2) g) as [|b l] eqn:Efg; [reflexivity|]. exfalso. apply (Hno g); [apply (like_resolves _ _ name g Hlike); exact Hg|].
        apply (proj1 Hfs'). split; [exact Lg|]. rewrite Efg. discriminate.
      + apply (dump_nakedos iter img order system2 new (op_data op2) o t2 name 0 w2 Hi Hseen Hsys Hn2 Hin). left. exact Hg.
  Qed.
End PutAny.
