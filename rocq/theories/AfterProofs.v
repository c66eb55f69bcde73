(** AfterProofs.v -- what ls and dump show after put and rm (C90, C91). *)
From Coq Require Import ZifyBool ZifyNat.
From Coq Require Sorted.
From Verif Require Import GoBase GoLemmas TypesModel DiskModel DiskSpec DiskProofs DiskOpenProofs.
From Verif Require Import SupermonModel SupermonSpec SupermonTableSpec SupermonStoreSpec SupermonProofs SupermonSymProofs SupermonTabProofs SupermonLinkProofs SupermonOpProofs SupermonNameProofs SupermonFinalProofs SupermonNamedProofs SupermonStmtProofs SupermonRewriteProofs.
From Verif Require ProdosSpec.
From Verif Require Import ProdosModel CmdModel CmdSpec CmdProofs CmdStmtProofs NakedCmdSpec NakedCmdProofs NakedOpenProofs NakedNameProofs NakedExProofs DetectSpec DetectProofs PrintProofs ListSpec ListProofs OpenFuelProofs.
Ltac Zify.zify_post_hook ::= Z.div_mod_to_equations.
Local Opaque zrange zeros sub.

(** ** Lists of files *)
Lemma sorted_unique (a : list Z) : forall b, Sorted.StronglySorted Z.lt a -> Sorted.StronglySorted Z.lt b ->
  (forall x, In x a <-> In x b) -> a = b.
Proof.
  induction a as [|x a IH]; intros b Sa Sb H.
  - destruct b as [|y b]; [reflexivity|]. destruct (proj2 (H y) (or_introl eq_refl)).
  - inversion Sa as [|? ? Sa' Fa]; subst. destruct b as [|y b]; [destruct (proj1 (H x) (or_introl eq_refl))|].
    inversion Sb as [|? ? Sb' Fb]; subst. rewrite Forall_forall in Fa, Fb.
    assert (x = y) as ->.
    { destruct (proj1 (H x) (or_introl eq_refl)) as [E|E]; [congruence|]. destruct (proj2 (H y) (or_introl eq_refl)) as [E2|E2]; [congruence|].
      specialize (Fa y E2). specialize (Fb x E). lia. }
    f_equal. apply IH; try assumption. intros z. specialize (H z). cbn [In] in H. split; intros Hz.
    + destruct (proj1 H (or_intror Hz)) as [E|E]; [|exact E]. specialize (Fa z Hz). lia.
    + destruct (proj2 H (or_intror Hz)) as [E|E]; [|exact E]. specialize (Fb z Hz). lia.
Qed.
Lemma files_unique d a b : files_on d a -> files_on d b -> a = b.
Proof. intros [Ha Sa] [Hb Sb]. apply sorted_unique; try assumption. intros x. rewrite Ha, Hb. reflexivity. Qed.
Lemma files_ex d : zlen d = 143360 -> exists fs, files_on d fs.
Proof.
  intros Hz. exists (filter (fun f => negb (zlen (owned (stored_map d) f) =? 0)) (map (fun k => k + 1) (zrange 253))). split.
  - intros f. rewrite filter_In, in_map_iff. unfold legal, file_on. rewrite (content_nil_iff d (stored_map d) f Hz). split.
    + intros [(k' & <- & Hk) Hn]. apply In_zrange in Hk. split; [lia|]. intros E. rewrite E in Hn. discriminate Hn.
    + intros [Hf Hn]. split; [exists (f - 1); split; [lia|apply In_zrange; lia]|].
      destruct (Z.eqb_spec (zlen (owned (stored_map d) f)) 0) as [E|E]; [apply zlen_zero_nil in E; contradiction|reflexivity].
  - apply sorted_filter, sorted_files.
Qed.

(** ** The names depend on files 3 and 4 *)
Lemma names_opened d : floppy d (stored_map d) ->
  names_on d (match ReadSymbolTable (stored_map d) d with Ok t => t | _ => [] end).
Proof.
  intros Hf. eexists. split; [apply (NewOperator_floppy _ _ Hf)|]. unfold st_of. cbn [op_ST]. unfold opened_table.
  destruct (ReadSymbolTable (stored_map d) d); reflexivity.
Qed.
Lemma names_det d t t' : names_on d t -> names_on d t' -> t = t'.
Proof. intros (o & E & <-) (o' & E' & <-). congruence. Qed.
Lemma names_same d d' t : floppy d (stored_map d) -> floppy d' (stored_map d') ->
  file_on d' 3 = file_on d 3 -> file_on d' 4 = file_on d 4 -> names_on d t -> names_on d' t.
Proof.
  intros Hf Hf' E3 E4 Hn. rewrite (names_det _ _ _ Hn (names_opened d Hf)).
  rewrite <- (ReadSymbolTable_same d (stored_map d) d' (stored_map d') (fl_len _ _ Hf) (fl_len _ _ Hf') E3 E4).
  apply names_opened. exact Hf'.
Qed.

(** ** When the new image is detected as NakedOS *)
Lemma still_seen img order new o d : first_order img order o -> naked_image new o d -> release_byte new <> 3 -> bytes_ok new ->
  seen_as img order new (s2b "nakedos") d o.
Proof.
  intros [rest Hc] [Hr Hf] Hrel Hb. assert (L : zlen new = 143360) by apply Hr.
  assert (Hko : exists l, interleave o l) by (destruct Hr as (_ & _ & lf & lt & If & _); exists lf; exact If).
  destruct (reordered_ex new o (s2b "do") L Hko (ex_intro _ _ il_do)) as [d0 R0].
  apply (sa_floppy _ _ _ [] _ rest); [exact L|exact Hb|exact Hc|constructor|].
  apply (ra_naked _ _ d0); [exact R0|apply (not_dos_release _ _ _ R0 Hrel)|exact Hr|exact Hf].
Qed.

Section After.
  Context (iter : list (Z * Subdirectory) -> list (Z * Subdirectory)).

  (** What ls prints on a disk whose files and names are known. *)
  Lemma ls_known img order system c d o t fs (short : bool) w : ProdosSpec.an_order iter -> seen_as img order c (s2b "nakedos") d o ->
    (system = s2b "auto" \/ system = s2b "nakedos") -> names_on d t -> files_on d fs -> input w img c -> w_outroom w = None ->
    eventually (fun fuel => exists text, all_lines (map (if short then shown t else shown_full t) fs) text /\
      prints (LsCmd_Run iter fuel order system short img []) w text).
  Proof.
    intros Hi Hs Hsys Ht Hfs Hin Hw. eapply eventually_impl; [|exact (ls_naked iter img order system c d o t short w Hi Hs Hsys Ht Hin Hw)].
    intros k (fs' & text & Hfs' & Hl & Hp). rewrite (files_unique _ _ _ Hfs Hfs'). exists text. split; assumption.
  Qed.

  (** ** put to a number or a name in use *)
  Lemma put_known_ls fuel order system ft ow addr img tgt src w w' s :
    run (PutCmd_Run iter fuel order system ft ow addr img tgt src) w = (w', Ok tt) ->
    input w src s -> s <> [] ->
    exists c o d t d' new,
      input w img c /\ naked_image c o d /\ (ProdosSpec.an_order iter -> only_seen img order system c o d) /\ names_on d t /\ output w w' img new /\ naked_image new o d' /\
      forall f, no_colon tgt -> resolves t tgt f -> f <> 3 -> f <> 4 ->
      exists fs fs', files_on d fs /\ files_on d' fs' /\ (forall g, In g fs' <-> g = f \/ In g fs) /\
      file_on d' f = padded s /\
      forall system2 (short : bool) w2, (system2 = s2b "auto" \/ system2 = s2b "nakedos") -> ProdosSpec.an_order iter ->
        seen_as img order new (s2b "nakedos") d' o -> input w2 img new -> w_outroom w2 = None ->
        eventually (fun k =>
          (exists text, all_lines (map (if short then shown t else shown_full t) fs') text /\
             prints (LsCmd_Run iter k order system2 short img []) w2 text) /\
          prints (DumpCmd_Run iter k order system2 img tgt) w2 (padded s)).
  Proof.
    intros H Hs Hne.
    destruct (put_run_open iter fuel _ _ _ _ _ _ _ _ _ _ _ H Hs Hne) as (c & o & d & t & d' & new & f' & op & Hopen & Eop & Hc & _ & Hni & Hnm & Hout & Hnew & _ & Hl & Ht & _ & _ & _ & Hx).
    exists c, o, d, t, d', new. split; [exact Hc|]. split; [exact Hni|].
    split; [rewrite <- Eop; apply (opened_seen iter fuel); exact Hopen|]. split; [exact Hnm|]. split; [exact Hout|].
    split; [exact Hnew|]. intros f Hnc Hres N3 N4.
    assert (f' = f) as ->.
    { destruct Ht as [Ht|(_ & Ht & _)]; [|contradiction (Ht f Hres)].
      inversion Ht as [n g Hcol Hres' E1 E2|p q g Hp Hq Hn Hnn E1 E2].
      - apply (resolves_det _ _ _ _ Hres' Hres).
      - exfalso. apply Hnc. rewrite <- E1. apply in_or_app. right. left. reflexivity. }
    destruct (Hx Hnc Hres) as [Hf Hoth]. destruct Hni as [Hr Hfl]. destruct Hnew as [Hr' Hfl'].
    destruct (files_ex d (fl_len _ _ Hfl)) as [fs Hfs]. destruct (files_ex d' (fl_len _ _ Hfl')) as [fs' Hfs'].
    assert (Hnm' : names_on d' t).
    { apply (names_same d d' t Hfl Hfl'); [apply Hoth; unfold legal; lia|apply Hoth; unfold legal; lia|exact Hnm]. }
    assert (Hpad : padded s <> []) by (apply padded_nonempty; exact Hne).
    exists fs, fs'. split; [exact Hfs|]. split; [exact Hfs'|]. split.
    { intros g. rewrite (proj1 Hfs' g), (proj1 Hfs g). destruct (Z.eq_dec g f) as [->|Hg].
      - rewrite Hf. split; [intros _; left; reflexivity|intros _; split; [exact Hl|exact Hpad]].
      - split; [intros [L E]; right; rewrite <- (Hoth g L Hg); split; assumption|].
        intros [Eg|[L E]]; [contradiction (Hg Eg)|]. rewrite (Hoth g L Hg). split; assumption. }
    split; [exact Hf|]. intros system2 short w2 Hsys Hi Hseen Hin Hw.
    apply eventually_and; [apply (ls_known img order system2 new d' o t fs' short w2); assumption|].
    rewrite <- Hf. apply (dump_nakedos iter img order system2 new d' o t tgt f w2 Hi Hseen Hsys Hnm' Hin); [exact Hres|rewrite Hf; exact Hpad|exact Hw].
  Qed.
End After.

(** ** Symbols by position *)
Lemma symbol_for_first t f i : 0 <= i < zlen t -> ad t i = 0xDF00 + f -> (forall j, 0 <= j < i -> ad t j <> 0xDF00 + f) ->
  symbol_for t f = Some (nm t i).
Proof.
  revert i. unfold symbol_for, ad, nm. induction t as [|s t IH]; intros i Hi Ha Hb; [rewrite (@zlen_nil Symbol) in Hi; lia|].
  rewrite zlen_cons in Hi. cbn [find]. destruct (Z.eqb_spec (s_addr s) (0xDF00 + f)) as [E|E].
  - destruct (Z.eq_dec i 0) as [->|Hn]; [reflexivity|]. exfalso. apply (Hb 0 ltac:(lia)). exact E.
  - destruct (Z.eq_dec i 0) as [->|Hn]; [contradiction (E Ha)|].
    rewrite (znth_cons_S sym0 s t i) in * by lia.
    apply (IH (i - 1)); [lia|exact Ha|]. intros j Hj. specialize (Hb (j + 1) ltac:(lia)).
    rewrite (znth_cons_S sym0 s t (j + 1)) in Hb by lia. replace (j + 1 - 1) with j in Hb by lia. exact Hb.
Qed.
Lemma symbol_for_cases t f :
  (symbol_for t f = None /\ forall j, 0 <= j < zlen t -> ad t j <> 0xDF00 + f) \/
  (exists i, 0 <= i < zlen t /\ ad t i = 0xDF00 + f /\ (forall j, 0 <= j < i -> ad t j <> 0xDF00 + f) /\ symbol_for t f = Some (nm t i)).
Proof.
  destruct (symbol_for t f) as [n|] eqn:E.
  - right. revert n E. unfold symbol_for, ad, nm. induction t as [|s t IH]; intros n E; [discriminate E|].
    cbn [find] in E. destruct (Z.eqb_spec (s_addr s) (0xDF00 + f)) as [Es|Es].
    + exists 0. rewrite zlen_cons. pose proof (zlen_nonneg t). split; [lia|]. split; [exact Es|]. split; [intros; lia|]. symmetry. exact E.
    + destruct (IH n E) as (i & Hi & Ha & Hb & En). exists (i + 1). rewrite zlen_cons. split; [lia|].
      rewrite (znth_cons_S sym0 s t (i + 1)) by lia. replace (i + 1 - 1) with i by lia. split; [exact Ha|]. split; [|exact En].
      intros j Hj. destruct (Z.eq_dec j 0) as [->|Hj0]; [exact Es|]. rewrite (znth_cons_S sym0 s t j) by lia. apply Hb. lia.
  - left. split; [reflexivity|]. intros j Hj Ea. unfold symbol_for in E.
    destruct (find (fun s => s_addr s =? 0xDF00 + f) t) as [s|] eqn:F; [discriminate E|].
    pose proof (find_none _ _ F (znth sym0 t j) (znth_In sym0 t j Hj)) as H. cbv beta in H. unfold ad in Ea. lia.
Qed.
(** Giving a blank entry to a file that has no symbol. *)
Lemma symbol_for_new t t' p f n : zlen t' = zlen t -> 0 <= p < zlen t -> legal f -> ad t p = 0 -> ad t' p = 0xDF00 + f -> nm t' p = n ->
  (forall q, 0 <= q < zlen t -> q <> p -> ad t' q = ad t q /\ nm t' q = nm t q) ->
  (symbol_for t f = None -> symbol_for t' f = Some n) /\ (forall g, legal g -> g <> f -> symbol_for t' g = symbol_for t g).
Proof.
  intros HL Hp Hf H0 Ha Hn Hq. unfold legal in *. split.
  - intros E. destruct (symbol_for_cases t f) as [[_ Hno]|(i & _ & _ & _ & E')]; [|congruence].
    rewrite <- Hn. apply symbol_for_first; [lia|exact Ha|]. intros j Hj. rewrite (proj1 (Hq j ltac:(lia) ltac:(lia))). apply Hno. lia.
  - intros g Hg Hgf. destruct (symbol_for_cases t g) as [[E Hno]|(i & Hi & Ei & Hb & E)]; rewrite E.
    + destruct (symbol_for_cases t' g) as [[E' _]|(i & Hi & Ei & _)]; [exact E'|]. exfalso.
      destruct (Z.eq_dec i p) as [->|Hip]; [lia|]. apply (Hno i ltac:(lia)). rewrite <- (proj1 (Hq i ltac:(lia) Hip)). exact Ei.
    + assert (i <> p) as Hip by (intros ->; lia). destruct (Hq i ltac:(lia) Hip) as [Qa Qn]. rewrite <- Qn. apply symbol_for_first; [lia|lia|].
      intros j Hj. destruct (Z.eq_dec j p) as [->|Hjp]; [lia|]. rewrite (proj1 (Hq j ltac:(lia) Hjp)). apply Hb. exact Hj.
Qed.

(** ** put under a new symbolic name, at the operator *)
Lemma fold_upcase_eq a b : Forall alnum a -> Forall alnum b -> equal_fold a b = true -> upcase a = upcase b.
Proof.
  intros Ha Hb E. unfold equal_fold in E. apply beq_eq in E. rewrite !fold_case_ascii in E by (apply alnum_ascii; assumption).
  revert b Hb E. induction Ha as [|x a Hx _ IH]; intros [|y b] Hb E; try discriminate E; [reflexivity|].
  inversion Hb as [|? ? Hy Hb']; subst. cbn [map] in E. injection E as E1 E2. unfold upcase in *. cbn [map]. f_equal; [|apply IH; assumption].
  unfold low, is_upper in E1. unfold alnum, letter, digit in Hx, Hy.
  destruct ((97 <=? x) && (x <=? 122)) eqn:Ex; destruct ((97 <=? y) && (y <=? 122)) eqn:Ey;
    destruct ((65 <=? x) && (x <=? 90)) eqn:Fx; destruct ((65 <=? y) && (y <=? 90)) eqn:Fy; lia.
Qed.
Lemma valid_alnum n : n <> [] -> valid_name n -> Forall alnum n.
Proof. intros Hn [->|(_ & H & _)]; [contradiction|exact H]. Qed.
Lemma valid_no_colon n : valid_name n -> no_colon n.
Proof.
  intros [->|(_ & Ha & _)]; [intros []|]. intros Hin. rewrite Forall_forall in Ha. specialize (Ha 58 Hin).
  unfold alnum, letter, digit in Ha. lia.
Qed.
Lemma add_scan_first n h t : forall j pos p, -1 <= pos < j -> add_scan t j pos n h = AddAt p ->
  (pos <> -1 -> p = pos) /\ (pos = -1 -> p = -1 \/ j <= p /\ forall k, j <= k < p -> ad t (k - j) <> 0).
Proof.
  induction t as [|s t IH]; intros j pos p Hp; cbn [add_scan].
  - intros E. injection E as <-. split; [reflexivity|]. intros ->. left. reflexivity.
  - destruct (equal_fold n (s_name s)); [destruct (addrHash (s_addr s) =? h); discriminate|]. intros E.
    apply IH in E; [|destruct ((pos =? -1) && (s_addr s =? 0)); lia].
    destruct (Z.eqb_spec pos (-1)) as [->|Hn]; cbn [andb] in E.
    + split; [intros H; contradiction H; reflexivity|]. intros _. destruct (Z.eqb_spec (s_addr s) 0) as [Es|Es]; destruct E as [E1 E2].
      * right. rewrite (E1 ltac:(lia)). split; [lia|]. intros k Hk. lia.
      * destruct (E2 eq_refl) as [->|[E3 E4]]; [left; reflexivity|]. right. split; [lia|]. intros k Hk.
        unfold ad. destruct (Z.eq_dec k j) as [->|Hkj]; [rewrite Z.sub_diag; exact Es|]. rewrite znth_cons_S by lia.
        specialize (E4 k ltac:(lia)). unfold ad in E4. replace (k - j - 1) with (k - (j + 1)) by lia. exact E4.
    + split; [intros _; apply E; exact Hn|]. intros H. contradiction.
Qed.
(** A new name goes to the first unused entry. *)
Lemma AddSymbol_blank t n a t' p n' : AddSymbol t n a = (t', Ok tt) -> (forall j, 0 <= j < zlen t -> equal_fold n (nm t j) = false) ->
  changed_at t t' p a n' -> forall j, 0 <= j < p -> ad t j <> 0.
Proof.
  intros E Habs (HL & Hp & Pa & _ & Hq). unfold AddSymbol in E. destruct (Z.eqb_spec a 0) as [|Ha]; [discriminate|]. cbv zeta in E.
  pose proof (add_scan_spec t n (addrHash a) 0 (-1) ltac:(lia)) as Hs. pose proof (find_name_spec t n 0) as Hf.
  destruct (find_name t n 0) as [i|]; [rewrite Z.sub_0_r in Hf; destruct Hf as (H1 & H2 & _); rewrite Habs in H2 by lia; discriminate|].
  destruct Hs as (q & Eq & Hcase). rewrite Eq in E. unfold add_at in E. destruct (Z.eqb_spec q (-1)) as [|Hq1]; [discriminate|].
  injection E as <-. destruct Hcase as [(H & _)|[(_ & Q1 & Q2)|(_ & H & _)]]; [contradiction H; reflexivity| |contradiction].
  rewrite Z.sub_0_r in Q2. destruct (link_end_spec t (addrHash a) q) as [Lu _].
  assert (q = p) as ->.
  { destruct (Z.eq_dec q p) as [|Hne]; [assumption|]. exfalso. destruct (Hq q ltac:(lia) Hne) as [Qa _]. unfold ad in Qa at 1.
    rewrite znth_zset, Z.eqb_refl in Qa by lia. cbn [s_addr] in Qa. lia. }
  destruct (add_scan_first n (addrHash a) t 0 (-1) p ltac:(lia) Eq) as [_ Hx]. destruct (Hx eq_refl) as [|[_ Hx2]]; [contradiction|].
  intros j Hj. specialize (Hx2 j Hj). rewrite Z.sub_0_r in Hx2. exact Hx2.
Qed.
Lemma Put_new_table i ow o o' ex n t : op_ok o -> bytes_ok (op_data o) -> op_ST o = Some t ->
  ReadSymbolTable (op_SM o) (op_data o) = Ok t -> names_unique t -> live_links t ->
  fi_data i <> [] -> d_name (fi_desc_ i) = n -> n <> [] -> valid_name n -> (forall g, ~ numeric n g) ->
  ByName t n = 0 -> PutFile i ow o = (o', Ok ex) ->
  exists f t' p, legal f /\ owned (op_SM o) f = [] /\ f <> 3 /\ f <> 4 /\
    content (op_data o') (op_SM o') f = padded (fi_data i) /\
    (forall g, legal g -> g <> f -> g <> 3 -> g <> 4 -> content (op_data o') (op_SM o') g = content (op_data o) (op_SM o) g) /\
    ReadSymbolTable (op_SM o') (op_data o') = Ok t' /\ zlen t' = zlen t /\ 0 <= p < zlen t /\
    ad t p = 0 /\ ad t' p = 0xDF00 + f /\ nm t' p = upcase n /\
    (forall q, 0 <= q < zlen t -> q <> p -> ad t' q = ad t q /\ nm t' q = nm t q) /\ resolves t' n f /\
    (forall j, 0 <= j < p -> ad t j <> 0) /\ (forall g, 1 <= g < f -> owned (op_SM o) g <> []).
Proof.
  intros Hok Hby Est HR Huniq Hlive Hne En Hn0 Hv Hnn HB0 HP.
  destruct (ReadSymbolTable_read_ok _ _ _ (fl_len _ _ (ok_fl _ Hok)) Hby HR) as (HL & Hl & Hrd).
  assert (map_table t) as Hmap by (split; [exact Huniq | apply read_ok_blanks; exact Hrd]).
  pose proof (valid_no_colon n Hv) as Hnc.
  destruct (Put_then_get i ow o o' ex n t Hok Est HR Hne En Hn0 Hnc Hnn HP) as (f & Hf & Hr & HC & Hoth & Hc).
  pose proof (proj1 (ByName_0 t n Hmap Hn0) HB0) as Habs.
  destruct Hc as [(Hrt & _ & _)|(Hno & Ho & N3 & N4 & t1 & d1 & sm1 & EA & Fl1 & EW & ET)].
  { exfalso. destruct Hrt as [Hx|[_ (_ & k & (Hk & Ek & _) & _)]]; [exact (Hnn f Hx)|].
    rewrite equal_fold_sym, (Habs k Hk) in Ek. discriminate. }
  assert (zlen t1 = 819) as HL1.
  { pose proof (zlen_AddSymbol t n (0xDF00 + f)) as H. rewrite EA in H. cbn [fst] in H. lia. }
  pose proof (WriteSymbolTable_names t1 d1 sm1 _ _ Fl1 ltac:(lia) EW) as Hnames.
  destruct (AddSymbol_changed _ _ _ _ EA) as (_ & p & n' & Hch & Hfold & Hp2). pose proof Hch as (_ & Hp & Pa & Pn & Hq).
  destruct Hp2 as [(K & _)|(K & _)]; [rewrite Habs in K by exact Hp; discriminate|].
  assert (Forall s_ok t) as Hs.
  { apply (s_ok_pointwise t); [reflexivity|]. intros j Hj.
    pose proof (Forall_znth read_ok sym0 t j Hrd Hj) as (R1 & R2 & R3 & R4). split; [exact R1|]. split; [|exact R3].
    destruct (Z.eq_dec j p) as [->|Hjp]; [left; apply R4; exact K|].
    destruct (Hq j) as [_ Enm]; [lia | exact Hjp|].
    pose proof (Forall_znth _ sym0 t1 j Hnames ltac:(lia)) as (six & Esix). cbv beta in Esix.
    unfold nm in Enm. rewrite Enm in Esix. eapply encodes_valid; eassumption. }
  assert (table_ok t1) as Ht1.
  { split; [exact HL1|]. split.
    - apply (AddSymbol_sok t n (0xDF00 + f) t1); auto; [lia|]. unfold is_u16, legal in *. lia.
    - apply (AddSymbol_links t n (0xDF00 + f) t1); auto.
      intros k Hk Ek _. exfalso. rewrite (Habs k Hk) in Ek. discriminate. }
  pose proof (open_after d1 sm1 t1 _ _ Fl1 Ht1 EW) as HR'.
  pose proof (proj1 (proj2 Ht1)) as Hs1.
  assert (Hcan : forall q, 0 <= q < zlen t -> ad (map canon t1) q = ad t1 q /\ (ad t1 q <> 0 -> nm (map canon t1) q = upcase (nm t1 q)) /\ (ad t1 q = 0 -> nm (map canon t1) q = [])).
  { intros q Hqr. unfold ad, nm. rewrite (znth_map canon sym0) by lia. rewrite canon_addr. split; [reflexivity|].
    unfold canon. destruct (Z.eqb_spec (s_addr (znth sym0 t1 q)) 0) as [E|E]; split; intros H; try contradiction; reflexivity. }
  exists f, (map canon t1), p. split; [exact Hf|]. split; [exact Ho|]. split; [exact N3|]. split; [exact N4|]. split; [exact HC|].
  split; [exact Hoth|]. split; [exact HR'|]. split; [rewrite zlen_map; lia|]. split; [exact Hp|]. split; [exact K|].
  destruct (Hcan p Hp) as (C1 & C2 & _). split; [rewrite C1; exact Pa|]. split.
  { rewrite C2 by (rewrite Pa; unfold legal in Hf; lia). rewrite Pn. symmetry. apply fold_upcase_eq; [apply valid_alnum; assumption| |exact Hfold].
    pose proof (Forall_znth s_ok sym0 t1 p Hs1 ltac:(lia)) as (_ & Hvn & _). change (s_name (znth sym0 t1 p)) with (nm t1 p) in Hvn. rewrite Pn in Hvn.
    destruct n' as [|x n']; [constructor|apply valid_alnum; [discriminate|exact Hvn]]. }
  split.
  { intros q Hqr Hqp. destruct (Hcan q Hqr) as (D1 & D2 & D3). destruct (Hq q ltac:(lia) Hqp) as [Qa Qn]. split; [rewrite D1; exact Qa|].
    pose proof (ReadSymbolTable_canon _ _ _ HR) as HCt.
    assert (nm t q = if ad t q =? 0 then [] else upcase (nm t q)) as ->.
    { rewrite <- HCt at 1. unfold nm, ad. rewrite (znth_map canon sym0) by lia. unfold canon. destruct (_ =? 0); reflexivity. }
    destruct (Z.eqb_spec (ad t q) 0) as [E|E]; [apply D3; rewrite Qa; exact E|]. rewrite D2 by (rewrite Qa; exact E). rewrite Qn. reflexivity. }
  split.
  { right. split; [exact Hnn|]. split; [exact Hf|]. destruct (AddSymbol_first _ _ _ _ EA) as (p2 & Hp3 & Hap).
    exists p2. destruct (canon_first t1 n p2 Hs1 Hn0 Hp3) as [H1 H2]; [unfold legal in Hf; lia|].
    split; [exact H1 | congruence]. }
  split; [apply (AddSymbol_blank t n (0xDF00 + f) t1 p n' EA Habs Hch)|].
  exact (proj2 ET).
Qed.

Section AfterName.
  Context (iter : list (Z * Subdirectory) -> list (Z * Subdirectory)).

  Lemma put_symbol_ls fuel order system ft ow addr img tgt src w w' s :
    run (PutCmd_Run iter fuel order system ft ow addr img tgt src) w = (w', Ok tt) ->
    input w src s -> s <> [] -> tgt <> [] -> valid_name tgt -> (forall g, ~ numeric tgt g) ->
    exists c o d d' new,
      input w img c /\ naked_image c o d /\ (ProdosSpec.an_order iter -> only_seen img order system c o d) /\ output w w' img new /\ naked_image new o d' /\
      forall t, bytes_ok c -> table_on d t -> names_unique t -> live_links t -> ByName t tgt = 0 ->
        exists f fs fs', legal f /\ files_on d fs /\ files_on d' fs' /\ ~ In f fs /\ (forall g, In g fs' <-> g = f \/ In g fs) /\
          (forall g, 1 <= g < f -> In g fs) /\ file_on d' f = padded s /\
          (forall name, (((forall k, 0 <= k < zlen t -> ad t k = 0xDF00 + f -> exists j, 0 <= j < k /\ ad t j = 0) /\ name = upcase tgt) \/
              (exists k, 0 <= k < zlen t /\ ad t k = 0xDF00 + f /\ (forall j, 0 <= j < k -> ad t j <> 0xDF00 + f /\ ad t j <> 0) /\ name = nm t k)) ->
           forall system2 (short : bool) w2, (system2 = s2b "auto" \/ system2 = s2b "nakedos") -> ProdosSpec.an_order iter ->
             seen_as img order new (s2b "nakedos") d' o -> input w2 img new -> w_outroom w2 = None ->
             eventually (fun k =>
               (exists text, all_lines (map (fun g => if g =? f then (if short then name else printed f ++ 58 :: name)
                                                      else (if short then shown t else shown_full t) g) fs') text /\
                  prints (LsCmd_Run iter k order system2 short img []) w2 text) /\
               prints (DumpCmd_Run iter k order system2 img tgt) w2 (padded s))).
  Proof.
    intros H Hs Hne Hn0 Hv Hnn.
    destruct (put_parts iter fuel _ _ _ _ _ _ _ _ _ _ _ H Hs Hne) as (c & o & op & op2 & ftv & ex & new & Hc & Hopen & Ef & EP & Hout & Hnew).
    destruct (naked_opened iter fuel _ _ _ _ _ _ Hopen) as (_ & Hr & En & Hd & Hre & Hni & Em & Hnm).
    exists c, o, (op_data op), (op_data op2), new. split; [exact Hc|]. split; [exact Hni|]. split; [apply (opened_seen iter fuel); exact Hopen|]. split; [exact Hout|]. split; [exact Hnew|].
    intros t Hb (op' & En' & Ht) Hu Hlive HB0. assert (op' = op) as -> by congruence. clear En'.
    pose proof (reached_ok _ Hre) as Hok.
    destruct (NewOperator_ok _ _ Hd En) as (_ & _ & _ & H3).
    assert (ReadSymbolTable (op_SM op) (op_data op) = Ok t) as HR.
    { rewrite Em. rewrite Ht in H3. unfold opened_table in H3. destruct (ReadSymbolTable (stored_map (op_data op)) (op_data op)); congruence. }
    remember (FI (Desc tgt [] 0 0 (zlen s) false ftv) s addr) as i eqn:Ei.
    assert (Hdi : fi_data i = s) by (rewrite Ei; reflexivity).
    assert (Hni2 : d_name (fi_desc_ i) = tgt) by (rewrite Ei; reflexivity).
    destruct (Put_new_table i ow op op2 ex tgt t Hok (DetectProofs.reordered_bytes _ _ _ _ Hr Hb) Ht HR Hu Hlive ltac:(rewrite Hdi; exact Hne) Hni2 Hn0 Hv Hnn HB0 EP)
      as (f & t' & p & Hf & Hof & N3 & N4 & HC & Hoth & HR' & HL & Hp & P0 & Pa & Pn & Hq & Hres & Hblank & Hleast).
    destruct (PutFile_inv _ _ _ _ _ Hok ltac:(rewrite Hdi; exact Hne) EP) as [Hok2 _].
    rewrite Hdi in HC. rewrite content_file_on in HC by exact Hok2.
    assert (Hoth' : forall g, legal g -> g <> f -> g <> 3 -> g <> 4 -> file_on (op_data op2) g = file_on (op_data op) g).
    { intros g Hg Hgf G3 G4. rewrite <- (content_file_on op2), <- (content_file_on op) by assumption. apply Hoth; assumption. }
    destruct (files_ex _ Hd) as [fs Hfs]. destruct (files_ex _ (fl_len _ _ (proj2 Hnew))) as [fs' Hfs'].
    destruct (table_files _ _ _ Hd HR) as [T3 T4].
    destruct (table_files _ _ _ (fl_len _ _ (proj2 Hnew)) HR') as [T3' T4'].
    assert (Hnon : forall q g, op_ok q -> zlen (owned (op_SM q) g) = 16 -> file_on (op_data q) g <> []).
    { intros q g Hq0 Hz E. apply owned_file_on in E; [|exact Hq0]. rewrite E in Hz. discriminate Hz. }
    assert (Hpad : padded s <> []) by (apply padded_nonempty; exact Hne).
    assert (Hnot : ~ In f fs).
    { intros Hin. apply (proj1 Hfs) in Hin as [_ Hin]. apply Hin. apply owned_file_on; assumption. }
    exists f, fs, fs'. split; [exact Hf|]. split; [exact Hfs|]. split; [exact Hfs'|]. split; [exact Hnot|]. split.
    { intros g. rewrite (proj1 Hfs' g), (proj1 Hfs g). destruct (Z.eq_dec g f) as [->|Hg].
      - rewrite HC. split; [intros _; left; reflexivity|intros _; split; [exact Hf|exact Hpad]].
      - assert (legal g -> (file_on (op_data op2) g <> [] <-> file_on (op_data op) g <> [])) as Hgg.
        { intros Lg. destruct (Z.eq_dec g 3) as [->|G3]; [split; intros _; apply Hnon; assumption|].
          destruct (Z.eq_dec g 4) as [->|G4]; [split; intros _; apply Hnon; assumption|]. rewrite (Hoth' g Lg Hg G3 G4). reflexivity. }
        split; [intros [Lg E]; right; split; [exact Lg|apply (Hgg Lg); exact E]|].
        intros [Eg|[Lg E]]; [contradiction (Hg Eg)|]. split; [exact Lg|apply (Hgg Lg); exact E]. }
    split.
    { intros g Hg. apply (proj1 Hfs). assert (legal g) as Lg by (clear - Hf Hg; unfold legal in *; lia). split; [exact Lg|]. intros E.
      apply (Hleast g Hg). apply owned_file_on; assumption. }
    split; [exact HC|]. intros name Hname system2 short w2 Hsys Hi Hseen Hin Hw.
    destruct (symbol_for_new t t' p f (upcase tgt) HL Hp Hf P0 Pa Pn Hq) as [_ S2].
    assert (S1 : symbol_for t' f = Some name).
    { destruct Hname as [[Hlate ->]|(k & Hk & Ek & Hb0 & ->)].
      - rewrite <- Pn. apply symbol_for_first; [rewrite HL; exact Hp|exact Pa|]. intros j Hj. rewrite (proj1 (Hq j ltac:(clear - Hj Hp; lia) ltac:(clear - Hj; lia))).
        intros Ej. destruct (Hlate j ltac:(clear - Hj Hp; lia) Ej) as (j0 & Hj0 & E0). apply (Hblank j0); [clear - Hj0 Hj; lia|exact E0].
      - assert (k <> p) as Hkp by (intros ->; clear - Hf Ek P0; unfold legal in Hf; lia). destruct (Hq k Hk Hkp) as [Qa Qn]. rewrite <- Qn.
        assert (k < p) as Hlt.
        { destruct (Z_lt_le_dec k p) as [|Hge]; [assumption|]. exfalso. apply (proj2 (Hb0 p ltac:(clear - Hge Hp Hkp; lia))). exact P0. }
        apply symbol_for_first; [rewrite HL; exact Hk|rewrite Qa; exact Ek|]. intros j Hj.
        rewrite (proj1 (Hq j ltac:(clear - Hj Hk; lia) ltac:(clear - Hj Hlt; lia))). apply Hb0. exact Hj. }
    assert (Hnm' : names_on (op_data op2) t').
    { pose proof (names_opened _ (proj2 Hnew)) as Hx. rewrite (fl_map _ _ (ok_fl _ Hok2)) in Hx. rewrite HR' in Hx. exact Hx. }
    apply eventually_and.
    - pose proof (ls_known iter img order system2 new (op_data op2) o t' fs' short w2 Hi Hseen Hsys Hnm' Hfs' Hin Hw) as HL1.
      assert (Emap : map (if short then shown t' else shown_full t') fs' =
        map (fun g => if g =? f then (if short then name else printed f ++ 58 :: name) else (if short then shown t else shown_full t) g) fs').
      { apply map_ext_in. intros g Hg. apply (proj1 Hfs') in Hg as [Lg _]. destruct (Z.eqb_spec g f) as [->|Hgf].
        - destruct short; unfold shown, shown_full; rewrite S1; reflexivity.
        - destruct short; unfold shown, shown_full; rewrite (S2 g Lg Hgf); reflexivity. }
      rewrite Emap in HL1. exact HL1.
    - rewrite <- HC. apply (dump_nakedos iter img order system2 new (op_data op2) o t' tgt f w2 Hi Hseen Hsys Hnm' Hin); [exact Hres|rewrite HC; exact Hpad|exact Hw].
  Qed.
End AfterName.
