(** ListProofs.v -- ls combined with dump and rm. *)
From Coq Require Import ZifyBool ZifyNat.
From Verif Require Import GoBase GoLemmas TypesModel DiskModel DiskSpec DiskProofs DiskOpenProofs.
From Verif Require Import SupermonModel SupermonSpec SupermonTableSpec SupermonStoreSpec SupermonProofs SupermonTabProofs SupermonLinkProofs SupermonOpProofs SupermonNameProofs SupermonFinalProofs SupermonNamedProofs SupermonStmtProofs SupermonSymProofs.
From Verif Require Dos3Model Dos3Spec Dos3Proofs Dos3StmtProofs.
From Verif Require ProdosSpec ProdosProofs ProdosStmtProofs.
From Verif Require Import ProdosModel CmdModel CmdSpec CmdProofs CmdStmtProofs NakedCmdSpec NakedCmdProofs NakedOpenProofs NakedExProofs DetectSpec DetectProofs PrintProofs ListSpec.
Ltac Zify.zify_post_hook ::= Z.div_mod_to_equations.
Local Opaque zrange zeros sub.

(** ** Names on a disk contain letters and digits only *)
Lemma seen_bytes img order c d o : seen_as img order c (s2b "nakedos") d o -> bytes_ok d /\ zlen d = 143360.
Proof.
  intros H. assert (Hz : zlen d = 143360) by (destruct (seen_len _ _ _ _ _ _ H) as [Hz|Hz]; [exact Hz|contradiction (Hz eq_refl)]).
  split; [|exact Hz]. revert H. remember (s2b "nakedos") as sys eqn:Es. intros H.
  destruct H as [pre o' rest sys' d' Hc B Hca Hpre Hra|]; [|discriminate Es].
  destruct Hra as [? R _|? ? _ _ R _|? ? ? _ _ _ _ R _]; apply (reordered_bytes _ _ _ _ R B).
Qed.
Lemma names_alnum d t : bytes_ok d -> zlen d = 143360 -> names_on d t -> Forall (fun s => Forall alnum (s_name s)) t.
Proof.
  intros B L (op & En & <-). destruct (NewOperator_ok _ _ L En) as (_ & Ed & Em & Et). unfold st_of.
  destruct (op_ST op) as [t|]; [|constructor].
  symmetry in Et. unfold opened_table in Et. destruct (ReadSymbolTable (stored_map d) d) as [t'|e|] eqn:ER; [|discriminate|discriminate].
  injection Et as ->. destruct (ReadSymbolTable_read_ok _ _ _ L B ER) as (_ & _ & H).
  eapply Forall_impl; [|exact H]. intros s (_ & Hs & _). exact Hs.
Qed.
Lemma low_58 n : In 58 n -> In 58 (map low n).
Proof. intros H. change 58 with (low 58). apply in_map. exact H. Qed.
Lemma low_not_58 n : Forall alnum n -> ~ In 58 (map low n).
Proof.
  intros Ha Hin. apply in_map_iff in Hin as (x & Ex & Hx). rewrite Forall_forall in Ha. specialize (Ha x Hx).
  unfold alnum, letter, digit in Ha. unfold low in Ex. destruct (is_upper x) eqn:E; unfold is_upper in E; lia.
Qed.
Lemma alnum_ascii n : Forall alnum n -> is_ascii n.
Proof. intros H. eapply Forall_impl; [|exact H]. intros x Hx. unfold alnum, letter, digit in Hx. cbv beta. lia. Qed.
Lemma colon_unresolved t s : is_ascii s -> In 58 s -> Forall (fun x => Forall alnum (s_name x)) t -> forall f, ~ resolves t s f.
Proof.
  intros As Hin Ht f [Hn|[_ (_ & i & (Hi & He & _) & _)]].
  - apply (numeric_no_colon _ _ Hn). exact Hin.
  - assert (Ha : Forall alnum (nm t i)).
    { unfold nm. pose proof (znth_In sym0 t i Hi) as HI. rewrite Forall_forall in Ht. apply (Ht _ HI). }
    unfold equal_fold in He. apply beq_eq in He. rewrite !fold_case_ascii in He by (try exact As; apply alnum_ascii; exact Ha).
    apply low_58 in Hin. rewrite <- He in Hin. apply (low_not_58 _ Ha Hin).
Qed.
Lemma printed_ascii f : legal f -> is_ascii (printed f).
Proof.
  intros Hf. unfold legal in Hf. unfold printed. apply Forall_app. split.
  - repeat (constructor; [cbn; lia|]). constructor.
  - assert (H : forall v, 0 <= v < 16 -> 0 <= hexchar v < 128).
    { intros v Hv. unfold hexchar. assert (E : forallb (fun x => (0 <=? x) && (x <? 128)) (s2b "0123456789ABCDEF") = true) by reflexivity.
      rewrite forallb_forall in E. specialize (E _ (znth_In 0 (s2b "0123456789ABCDEF") v ltac:(cbn; lia))). lia. }
    constructor; [apply H; lia|]. constructor; [apply H; lia|constructor].
Qed.
Lemma symbol_for_in t f n : symbol_for t f = Some n -> exists s, In s t /\ s_name s = n.
Proof.
  unfold symbol_for. destruct (find (fun s => s_addr s =? 0xDF00 + f) t) as [s|] eqn:E; [|discriminate].
  intros H. injection H as <-. apply find_some in E as [E _]. exists s. split; [exact E|reflexivity].
Qed.
Lemma full_name_unresolved t f n : legal f -> Forall (fun x => Forall alnum (s_name x)) t -> symbol_for t f = Some n ->
  forall g, ~ resolves t (printed f ++ 58 :: n) g.
Proof.
  intros Hf Ht Hs. destruct (symbol_for_in _ _ _ Hs) as (s & Hin & <-).
  apply colon_unresolved; [|apply in_or_app; right; left; reflexivity|exact Ht].
  apply Forall_app. split; [apply printed_ascii; exact Hf|]. constructor; [lia|].
  apply alnum_ascii. rewrite Forall_forall in Ht. apply (Ht _ Hin).
Qed.

Section Ls.
  Context (iter : list (Z * Subdirectory) -> list (Z * Subdirectory)).
  Notation facs := (DiskOperatorFactories iter).

  Lemma ls_naked_line img order system c d o t (short : bool) w f : ProdosSpec.an_order iter -> seen_as img order c (s2b "nakedos") d o ->
    (system = s2b "auto" \/ system = s2b "nakedos") -> names_on d t -> input w img c -> w_outroom w = None ->
    legal f -> file_on d f <> [] ->
    eventually (fun fuel => shows_line (LsCmd_Run iter fuel order system short img []) w ((if short then shown t else shown_full t) f)).
  Proof.
    intros Hi Hs Hsys Ht Hin Hw Hf Hne. eapply eventually_impl; [|exact (ls_naked iter img order system c d o t short w Hi Hs Hsys Ht Hin Hw)].
    intros k (fs & text & (Hfs & _) & Hl & Hp). exists (map (if short then shown t else shown_full t) fs), text.
    split; [exact Hl|]. split; [|exact Hp]. apply in_map. apply Hfs. split; assumption.
  Qed.
  Lemma rm_fails_unknown img order system c d o t n force w : ProdosSpec.an_order iter -> seen_as img order c (s2b "nakedos") d o ->
    (system = s2b "auto" \/ system = s2b "nakedos") -> names_on d t -> input w img c -> (forall g, ~ resolves t n g) ->
    eventually (fun fuel => fails_cleanly (DeleteCmd_Run iter fuel order system force img n) w).
  Proof.
    intros Hi Hs Hsys (op0 & En0 & Et) Hin Hn. eapply eventually_impl; [|exact (opens iter _ _ _ _ _ _ _ Hi Hs Hsys)].
    intros k (op & Ho & Hop). inversion Hop as [| ? op1 En|]; subst. assert (op1 = op0) as -> by congruence.
    destruct (open_run_ok iter k _ _ _ _ _ _ _ Hin Ho) as (w1 & Er & Hsf & Hso & _).
    exists w1, EFileNotFound. split; [|split; [exact Hsf|exact Hso]]. unfold DeleteCmd_Run. rewrite run_pbind, Er. cbn [Op_Delete].
    assert (E : Delete n op0 = (op0, Err EFileNotFound)).
    { unfold Delete. destruct (FileForName_spec (st_of op0) n) as [(f & _ & Hr & _)|[E _]]; [contradiction (Hn f Hr)|].
      rewrite E. reflexivity. }
    rewrite E. reflexivity.
  Qed.

  Lemma full_names img order system c d o t f n force w : ProdosSpec.an_order iter -> seen_as img order c (s2b "nakedos") d o ->
    (system = s2b "auto" \/ system = s2b "nakedos") -> names_on d t -> input w img c -> w_outroom w = None ->
    legal f -> file_on d f <> [] -> symbol_for t f = Some n ->
    eventually (fun fuel =>
      shows_line (LsCmd_Run iter fuel order system false img []) w (printed f ++ 58 :: n) /\
      fails_cleanly (DumpCmd_Run iter fuel order system img (printed f ++ 58 :: n)) w /\
      fails_cleanly (DeleteCmd_Run iter fuel order system force img (printed f ++ 58 :: n)) w).
  Proof.
    intros Hi Hs Hsys Ht Hin Hw Hf Hne Hn. destruct (seen_bytes _ _ _ _ _ Hs) as [B L].
    pose proof (full_name_unresolved t f n Hf (names_alnum d t B L Ht) Hn) as Hu.
    pose proof (ls_naked_line img order system c d o t false w f Hi Hs Hsys Ht Hin Hw Hf Hne) as H1. cbv beta iota in H1.
    assert (E : shown_full t f = printed f ++ 58 :: n) by (unfold shown_full; rewrite Hn; reflexivity). rewrite E in H1.
    apply eventually_and; [exact H1|]. apply eventually_and; [|apply (rm_fails_unknown img order system c d o t); assumption].
    apply (dump_nakedos iter img order system c d o t _ f w Hi Hs Hsys Ht Hin). left. exact Hu.
  Qed.

  Lemma short_names img order system c d o t f w : ProdosSpec.an_order iter -> seen_as img order c (s2b "nakedos") d o ->
    (system = s2b "auto" \/ system = s2b "nakedos") -> names_on d t -> input w img c -> w_outroom w = None ->
    legal f -> file_on d f <> [] ->
    (forall n, symbol_for t f = Some n -> n <> [] /\ (forall g, numeric n g -> g = f)) -> names_unique t ->
    eventually (fun fuel =>
      shows_line (LsCmd_Run iter fuel order system true img []) w (shown t f) /\
      prints (DumpCmd_Run iter fuel order system img (shown t f)) w (file_on d f)).
  Proof.
    intros Hi Hs Hsys Ht Hin Hw Hf Hne Hn Hu.
    apply eventually_and; [apply (ls_naked_line img order system c d o t true w f); assumption|].
    apply (dump_nakedos iter img order system c d o t (shown t f) f w Hi Hs Hsys Ht Hin); [|exact Hne|exact Hw].
    apply FileForName_resolves. destruct (shown_resolves t f Hf) as [H1 H2].
    destruct (symbol_for t f) as [n|] eqn:E; [|apply H1; reflexivity]. destruct (Hn n eq_refl) as [Hn1 Hn2].
    destruct (parseAddress_cases n) as [(g & Hg & _)|[Hno _]].
    - assert (g = f) as -> by (apply Hn2; exact Hg). apply FileForName_resolves. left. unfold shown. rewrite E. exact Hg.
    - apply (H2 n eq_refl Hn1 Hno Hu).
  Qed.
  (** A symbol that is a number stands for the file with that number. *)
  Lemma numeric_names img order system c d o t f g n w : ProdosSpec.an_order iter -> seen_as img order c (s2b "nakedos") d o ->
    (system = s2b "auto" \/ system = s2b "nakedos") -> names_on d t -> input w img c -> w_outroom w = None ->
    legal f -> file_on d f <> [] -> symbol_for t f = Some n -> numeric n g -> file_on d g <> [] ->
    eventually (fun fuel =>
      shows_line (LsCmd_Run iter fuel order system true img []) w n /\
      prints (DumpCmd_Run iter fuel order system img n) w (file_on d g)).
  Proof.
    intros Hi Hs Hsys Ht Hin Hw Hf Hne Hn Hg Hgn.
    pose proof (ls_naked_line img order system c d o t true w f Hi Hs Hsys Ht Hin Hw Hf Hne) as H1. cbv beta iota in H1.
    assert (E : shown t f = n) by (unfold shown; rewrite Hn; reflexivity). rewrite E in H1.
    apply eventually_and; [exact H1|].
    apply (dump_nakedos iter img order system c d o t n g w Hi Hs Hsys Ht Hin); [left; exact Hg|exact Hgn|exact Hw].
  Qed.

  (** ** DOS 3.3 *)
  Lemma ls_dos_line img order system c d o l short w e n : ProdosSpec.an_order iter -> seen_as img order c (s2b "dos3") d o ->
    (system = s2b "auto" \/ system = s2b "dos3") -> bytes_ok d -> Dos3Spec.catalog d l -> input w img c -> w_outroom w = None ->
    In e (Dos3Spec.entries d l) -> Dos3Spec.is_live e = true -> Dos3Spec.entry_name e n ->
    eventually (fun fuel => shows_line (LsCmd_Run iter fuel order system short img []) w n).
  Proof.
    intros Hi Hs Hsys B C Hin Hw He Hl Hn. eapply eventually_impl; [|exact (ls_dos iter img order system c d o l short w Hi Hs Hsys B C Hin Hw)].
    intros k (names & text & HF & Ha & Hp). exists names, text. split; [exact Ha|]. split; [|exact Hp].
    assert (Hin2 : In e (filter Dos3Spec.is_live (Dos3Spec.entries d l))) by (apply filter_In; split; assumption).
    clear - HF Hin2 Hn. induction HF as [|x y xs ys Hxy HF IH]; [contradiction|]. destruct Hin2 as [->|Hin2]; [left|right; apply IH; exact Hin2].
    apply (Dos3Proofs.trimmed_unique _ _ _ Hxy Hn).
  Qed.
End Ls.

Section LsDos.
  Context (iter : list (Z * Subdirectory) -> list (Z * Subdirectory)).
  Lemma dos_names img order system c d o l e n ls data start out w : ProdosSpec.an_order iter -> seen_as img order c (s2b "dos3") d o ->
    (system = s2b "auto" \/ system = s2b "dos3") -> bytes_ok d -> Dos3Spec.catalog d l -> input w img c -> w_outroom w = None ->
    Dos3Spec.lookup (Dos3Spec.entries d l) n e ->
    Dos3Spec.body d (znth 0 e 0, znth 0 e 1) ls data -> Dos3Spec.decoded (znth 0 e 2 mod 128) (zlen ls) data start out ->
    eventually (fun fuel =>
      (forall short, shows_line (LsCmd_Run iter fuel order system short img []) w n) /\
      prints (DumpCmd_Run iter fuel order system img n) w out).
  Proof.
    intros Hi Hs Hsys B C Hin Hw Hlk Hb Hd.
    assert (H : forall short, eventually (fun fuel => shows_line (LsCmd_Run iter fuel order system short img []) w n)).
    { intros short. destruct Hlk as (a & b & Ee & Hl & Hn & _).
      apply (ls_dos_line iter img order system c d o l short w e n); try assumption. rewrite Ee. apply in_or_app. right. left. reflexivity. }
    apply eventually_and; [|apply (dump_dos iter img order system c d o l n e ls data start out w); assumption].
    eapply eventually_impl; [|exact (eventually_and _ _ (H true) (H false))]. intros k [H1 H2] []; assumption.
  Qed.
  Lemma dos_types img order system c d o l e n w : ProdosSpec.an_order iter -> seen_as img order c (s2b "dos3") d o ->
    (system = s2b "auto" \/ system = s2b "dos3") -> bytes_ok d -> Dos3Spec.catalog d l -> input w img c -> w_outroom w = None ->
    Dos3Spec.lookup (Dos3Spec.entries d l) n e -> ~ In (znth 0 e 2 mod 128) [0; 1; 2; 4] ->
    eventually (fun fuel =>
      (forall short, shows_line (LsCmd_Run iter fuel order system short img []) w n) /\
      fails_cleanly (DumpCmd_Run iter fuel order system img n) w).
  Proof.
    intros Hi Hs Hsys B C Hin Hw Hlk Hty.
    assert (H : forall short, eventually (fun fuel => shows_line (LsCmd_Run iter fuel order system short img []) w n)).
    { intros short. destruct Hlk as (a & b & Ee & Hl & Hn & _).
      apply (ls_dos_line iter img order system c d o l short w e n); try assumption. rewrite Ee. apply in_or_app. right. left. reflexivity. }
    apply eventually_and; [eapply eventually_impl; [|exact (eventually_and _ _ (H true) (H false))]; intros k [H1 H2] []; assumption|].
    destruct (Dos3StmtProofs.C19_lemma d l n e B C Hlk) as [_ HE]. destruct (HE (or_introl Hty)) as [n0 HG].
    eapply eventually_impl; [|exact (eventually_and _ _ (opens iter _ _ _ _ _ _ _ Hi Hs Hsys) (ex_intro _ n0 HG))].
    intros k [(op & Ho & Hop) (er & Er)]. cbv beta in *. inversion Hop; subst.
    apply (dump_fails iter k order system img n w c (ODos3 d) o er Hin Ho). cbn [Op_GetFile]. rewrite Er. reflexivity.
  Qed.
  (** Files whose contents make dump crash. *)
  Lemma dos_fatal img order system c d o l e n ls data w : ProdosSpec.an_order iter -> seen_as img order c (s2b "dos3") d o ->
    (system = s2b "auto" \/ system = s2b "dos3") -> bytes_ok d -> Dos3Spec.catalog d l -> input w img c -> w_outroom w = None ->
    Dos3Spec.lookup (Dos3Spec.entries d l) n e -> Dos3Spec.body d (znth 0 e 0, znth 0 e 1) ls data ->
    Dos3Spec.fatal (znth 0 e 2 mod 128) (zlen ls) data ->
    eventually (fun fuel =>
      (forall short, shows_line (LsCmd_Run iter fuel order system short img []) w n) /\
      exists w', run (DumpCmd_Run iter fuel order system img n) w = (w', Panic)).
  Proof.
    intros Hi Hs Hsys B C Hin Hw Hlk Hb HF.
    assert (H : forall short, eventually (fun fuel => shows_line (LsCmd_Run iter fuel order system short img []) w n)).
    { intros short. destruct Hlk as (a & b & Ee & Hl & Hn & _).
      apply (ls_dos_line iter img order system c d o l short w e n); try assumption. rewrite Ee. apply in_or_app. right. left. reflexivity. }
    apply eventually_and; [eapply eventually_impl; [|exact (eventually_and _ _ (H true) (H false))]; intros k [H1 H2] []; assumption|].
    assert (HG : eventually (fun k => Dos3Model.GetFile k d n = Some Panic)).
    { exists (S (length l + length ls)). intros k Hk. rewrite (Dos3Proofs.GetFile_found d l n e ls data k B C Hlk Hb) by lia.
      pose proof Hlk as (a & b & _ & Live & _). rewrite (Dos3Proofs.result_fatal d e n ls data B Live Hb HF). reflexivity. }
    eapply eventually_impl; [|exact (eventually_and _ _ (opens iter _ _ _ _ _ _ _ Hi Hs Hsys) HG)].
    intros k [(op & Ho & Hop) Er]. cbv beta in *. inversion Hop; subst.
    destruct (open_run_ok iter k _ _ _ _ _ _ _ Hin Ho) as (w1 & Eo & _).
    exists w1. unfold DumpCmd_Run. rewrite run_pbind, Eo. rewrite run_pbind. unfold plift. cbn [run Op_GetFile]. rewrite Er. reflexivity.
  Qed.
End LsDos.

(** ** Example disks *)
Lemma table_disk t : table_ok t -> map canon t = t -> exists c d,
  seen_as (s2b "x.do") (s2b "auto") c (s2b "nakedos") d (s2b "do") /\ table_on d t /\ names_on d t /\
  file_on d 5 = zeros 256 /\ file_on d 3 <> [] /\ bytes_ok c /\ naked_image c (s2b "do") d /\ release_byte c <> 3.
Proof.
  intros T1 T4. destruct five_free as (F0 & F1 & F3 & F4). destruct five_content as [F5 F6].
  destruct (WriteSymbolTable_ok t _ five_map five_floppy T1) as (d & sm & EW & Hf & HR & Hoth & Ho3 & _ & H5).
  { rewrite F0, F3, (@zlen_nil Z). lia. }
  { rewrite F0, F3, F4, (@zlen_nil Z). lia. }
  destruct (Hoth 5 ltac:(lia) ltac:(lia) ltac:(unfold legal; lia)) as [O5 C5].
  rewrite F5 in O5. rewrite F6 in C5. rewrite T4 in HR.
  assert (Hbd : bytes_ok d).
  { apply (WriteSymbolTable_bytes t _ five_map d sm five_floppy (proj1 T1)); [|exact map_disk_bytes|exact EW].
    destruct T1 as (_ & Hs & _). eapply Forall_impl; [|exact Hs]. intros s (H & _). exact H. }
  destruct (do_image _ _ Hf) as [c Hc].
  assert (Hbc : bytes_ok c) by (apply (reordered_bytes _ _ _ _ (reordered_back _ _ _ _ (proj1 Hc)) Hbd)).
  assert (Hrel : release_byte c <> 3).
  { rewrite <- (release_same _ _ _ _ (proj1 Hc)). rewrite (five_release d sm O5 C5). lia. }
  assert (L : zlen c = 143360) by apply Hc.
  destruct (reordered_ex c (s2b "do") (s2b "do") L (ex_intro _ _ il_do) (ex_intro _ _ il_do)) as [d0 R0].
  assert (Hop : table_on d t /\ names_on d t).
  { pose proof (NewOperator_floppy _ _ Hf) as E. unfold opened_table in E. rewrite HR in E.
    split; eexists; (split; [exact E|reflexivity]). }
  exists c, d. split; [|split; [apply Hop|split; [apply Hop|split; [|split; [|split; [exact Hbc|split; [exact Hc|exact Hrel]]]]]]].
  - apply (sa_floppy _ _ _ [] _ []); [exact L|exact Hbc|exact auto_do|constructor|].
    apply (ra_naked _ _ d0); [exact R0|apply (not_dos_release _ _ _ R0 Hrel)|apply Hc|apply Hc].
  - unfold file_on. rewrite (fl_map _ _ Hf). exact C5.
  - unfold file_on. rewrite (fl_map _ _ Hf). intros E. apply (content_nil_iff d sm 3 (fl_len _ _ Hf)) in E. rewrite E in Ho3. discriminate Ho3.
Qed.
Lemma names_example : exists c d, seen_as (s2b "x.do") (s2b "auto") c (s2b "nakedos") d (s2b "do") /\ names_on d ex_table /\
  file_on d 5 <> [] /\ symbol_for ex_table 5 = Some (s2b "FHELLO") /\ names_unique ex_table /\
  (forall g, ~ numeric (s2b "FHELLO") g).
Proof.
  destruct ex_table_ok as (T1 & T2 & _ & T4). destruct (table_disk ex_table T1 T4) as (c & d & H1 & _ & H2 & H3 & _).
  exists c, d. split; [exact H1|]. split; [exact H2|]. split; [rewrite H3; intros E; apply (f_equal (@zlen Z)) in E; rewrite zlen_zeros in E; [discriminate E|lia]|].
  split; [reflexivity|]. split; [apply T2|]. apply not_numeric. vm_compute. reflexivity.
Qed.
(** A table that calls file 5 DF03. *)
Definition odd_table : list Symbol :=
  Sym 0xDF05 (s2b "DF03") (-1) :: Sym 0xDF03 (s2b "FSYMTBL1") (-1) :: Sym 0xDF04 (s2b "FSYMTBL2") (-1) :: repeat sym0 816.
Lemma odd_table_ok : table_ok odd_table /\ map canon odd_table = odd_table.
Proof.
  unfold odd_table. split; [|vm_compute; reflexivity]. split; [apply three_len|]. split.
  - do 3 (constructor; [split; [unfold is_u16; cbn; lia|]; split; [apply valid_check; reflexivity | cbn; lia]|]). apply repeat_ok.
  - intros i Hi. rewrite three_len in Hi. unfold link_ok. rewrite three_len, three_nth by lia.
    destruct (Z.eqb_spec i 0); [cbn; lia|]. destruct (Z.eqb_spec i 1); [cbn; lia|].
    destruct (Z.eqb_spec i 2); cbn; lia.
Qed.
Lemma odd_example : exists c d, seen_as (s2b "x.do") (s2b "auto") c (s2b "nakedos") d (s2b "do") /\ names_on d odd_table /\
  file_on d 5 <> [] /\ symbol_for odd_table 5 = Some (s2b "DF03") /\ numeric (s2b "DF03") 3 /\ file_on d 3 <> [].
Proof.
  destruct odd_table_ok as (T1 & T4). destruct (table_disk odd_table T1 T4) as (c & d & H1 & _ & H2 & H3 & H4 & _).
  exists c, d. split; [exact H1|]. split; [exact H2|]. split; [rewrite H3; intros E; apply (f_equal (@zlen Z)) in E; rewrite zlen_zeros in E; [discriminate E|lia]|].
  split; [reflexivity|]. split; [|exact H4].
  destruct (parseAddress_cases (s2b "DF03")) as [(g & Hg & Eg)|[_ Hno]]; [|vm_compute in Hno; discriminate Hno].
  change (parseAddressFilename (s2b "DF03")) with 3 in Eg. subst g. exact Hg.
Qed.

(** The example disk with one file, MEMO, changed to type S. *)
Definition ex_types_disk : bytes := upd Dos3StmtProofs.ex_dos_disk (offset 17 14 + 11 + 35 * 3 + 2) [8].
Lemma types_bytes : bytes_ok ex_types_disk.
Proof. apply Dos3StmtProofs.bytes_ok_forallb. vm_compute. reflexivity. Qed.
Lemma types_catalog : Dos3Spec.catalog ex_types_disk [(17, 15); (17, 14)].
Proof.
  assert (zlen ex_types_disk = 143360) as L by (vm_compute; reflexivity).
  assert (Dos3Spec.in_image ex_types_disk 17 0) as Hi by (unfold Dos3Spec.in_image; rewrite L; unfold offset; lia).
  assert (znth 0 (Dos3Spec.vtoc ex_types_disk) 0x35 = 16) as S by (vm_compute; reflexivity).
  split; [exact Hi|]. split.
  - apply Dos3StmtProofs.good_vtoc_check; [exact types_bytes | exact Hi | vm_compute; reflexivity].
  - assert (Dos3Spec.catalog_start ex_types_disk = (17, 15)) as -> by (vm_compute; reflexivity).
    assert (Dos3Spec.link ex_types_disk 17 15 = (17, 14)) as E1 by (vm_compute; reflexivity).
    assert (Dos3Spec.link ex_types_disk 17 14 = (0, 0)) as E2 by (vm_compute; reflexivity).
    constructor; [discriminate | unfold Dos3Spec.catalog_place; rewrite S, L; unfold offset; lia|]. rewrite E1.
    constructor; [discriminate | unfold Dos3Spec.catalog_place; rewrite S, L; unfold offset; lia|]. rewrite E2. constructor.
Qed.
Lemma types_seen : seen_as (s2b "x.dsk") (s2b "auto") ex_types_disk (s2b "dos3") ex_types_disk (s2b "do").
Proof.
  assert (zlen ex_types_disk = 143360) as L by (vm_compute; reflexivity).
  apply (sa_floppy _ _ _ [] _ [s2b "po"]); [exact L|exact types_bytes|exact auto_dsk|constructor|].
  apply ra_dos; [apply (reordered_self _ _ _ L il_do)|eexists; exact types_catalog].
Qed.
Lemma lookup_check es a e b n : es = a ++ e :: b -> Dos3Spec.is_live e = true ->
  Dos3Model.TrimRightSpaces (Dos3Spec.clear_high (sub e 3 33)) = n ->
  forallb (fun x => negb (Dos3Spec.is_live x) || negb (beq (Dos3Model.TrimRightSpaces (Dos3Spec.clear_high (sub x 3 33))) n)) a = true ->
  Dos3Spec.lookup es n e.
Proof.
  intros E Hl <- Hc. exists a, b. split; [exact E|]. split; [exact Hl|]. split; [apply Dos3Proofs.Trim_trimmed|].
  intros x Hx Hlx Hn. rewrite forallb_forall in Hc. specialize (Hc x Hx). rewrite Hlx in Hc.
  pose proof (Dos3Proofs.trimmed_unique _ _ _ Hn (Dos3Proofs.Trim_trimmed _)) as Eq. unfold Dos3Spec.entry_name in Hn.
  rewrite <- Eq in Hc. rewrite beq_refl in Hc. discriminate Hc.
Qed.
Lemma types_example : exists e, seen_as (s2b "x.dsk") (s2b "auto") ex_types_disk (s2b "dos3") ex_types_disk (s2b "do") /\
  bytes_ok ex_types_disk /\ Dos3Spec.catalog ex_types_disk [(17, 15); (17, 14)] /\
  Dos3Spec.lookup (Dos3Spec.entries ex_types_disk [(17, 15); (17, 14)]) (s2b "MEMO") e /\ znth 0 e 2 mod 128 = 8.
Proof.
  exists (Dos3StmtProofs.ex_entry 18 5 8 (s2b "MEMO") 2). split; [exact types_seen|]. split; [exact types_bytes|]. split; [exact types_catalog|].
  split; [|reflexivity].
  apply (lookup_check _ (firstn 10 (Dos3Spec.entries ex_types_disk [(17, 15); (17, 14)])) _ (skipn 11 (Dos3Spec.entries ex_types_disk [(17, 15); (17, 14)])));
    vm_compute; reflexivity.
Qed.
Lemma fatal_example : exists e ls data,
  Dos3Spec.lookup (Dos3Spec.entries Dos3StmtProofs.ex_dos_disk [(17, 15); (17, 14)]) (s2b "LONG") e /\
  Dos3Spec.body Dos3StmtProofs.ex_dos_disk (znth 0 e 0, znth 0 e 1) ls data /\ Dos3Spec.fatal (znth 0 e 2 mod 128) (zlen ls) data.
Proof.
  exists (Dos3StmtProofs.ex_entry 18 7 4 (s2b "LONG") 3), [(18, 7)], (sector Dos3StmtProofs.ex_dos_disk 18 6).
  assert (zlen Dos3StmtProofs.ex_dos_disk = 143360) as L by (vm_compute; reflexivity).
  split; [|split].
  - apply (lookup_check _ (firstn 9 (Dos3Spec.entries Dos3StmtProofs.ex_dos_disk [(17, 15); (17, 14)])) _ (skipn 10 (Dos3Spec.entries Dos3StmtProofs.ex_dos_disk [(17, 15); (17, 14)])));
      vm_compute; reflexivity.
  - assert (Dos3Spec.link Dos3StmtProofs.ex_dos_disk 18 7 = (0, 0)) as EL by (vm_compute; reflexivity).
    split.
    + change (znth 0 (Dos3StmtProofs.ex_entry 18 7 4 (s2b "LONG") 3) 0, znth 0 (Dos3StmtProofs.ex_entry 18 7 4 (s2b "LONG") 3) 1) with (18, 7).
      constructor; [| |rewrite EL; constructor].
      all: unfold Dos3Spec.in_image; rewrite ?L; unfold offset; try lia; try discriminate.
    + exists [(18, 6)]. split; [|split].
      * constructor. right. exists (18, 6), (repeat (0, 0) 121). split; [discriminate|]. split; [apply Forall_forall; intros x Hx; apply repeat_spec in Hx; exact Hx|].
        split; [exists []; reflexivity|vm_compute; reflexivity].
      * constructor; [|constructor]. right. unfold Dos3Spec.in_image. rewrite L. unfold offset. cbn [fst snd]. lia.
      * vm_compute. reflexivity.
  - right. right. split; [reflexivity|]. apply Z.ltb_lt. vm_compute. reflexivity.
Qed.
