(** StatusProofs.v -- exactly which puts and removals succeed (C108). *)
From Coq Require Import ZifyBool ZifyNat.
From Verif Require Import GoBase GoLemmas TypesModel DiskModel DiskSpec DiskProofs DiskOpenProofs.
From Verif Require Import SupermonModel SupermonSpec SupermonTableSpec SupermonStoreSpec SupermonProofs SupermonSymProofs SupermonTabProofs SupermonLinkProofs SupermonOpProofs SupermonNameProofs SupermonFinalProofs SupermonNamedProofs SupermonStmtProofs SupermonRewriteProofs SupermonReadableProofs.
From Verif Require ProdosSpec.
From Verif Require Import ProdosModel CmdModel CmdSpec CmdProofs CmdStmtProofs MainModel NakedCmdSpec NakedCmdProofs NakedOpenProofs NakedNameProofs DetectSpec DetectProofs PrintProofs ListSpec ListProofs OpenFuelProofs AfterProofs AfterRmProofs EmptyPutProofs SessionSpec StatusSpec.
Ltac Zify.zify_post_hook ::= Z.div_mod_to_equations.
Local Opaque zrange zeros sub.

(** ** Writing a table *)
Definition encodes (n : bytes) : Prop := exists six, encodeSymbol n = Ok six.
Lemma fill_err syms : forall i b1 b2 e, fill_tables syms i b1 b2 = Err e -> ~ Forall (fun s => encodes (s_name s)) syms.
Proof.
  induction syms as [|s syms IH]; intros i b1 b2 e E H; [discriminate E|]. inversion H as [|? ? (six & Es) H2]; subst. cbn [fill_tables] in E.
  rewrite Es in E. cbn [rbind] in E. destruct (4096 <? i * 5 + 5); [discriminate E|]. eapply IH; eassumption.
Qed.
(** A table is written exactly if all its names can be encoded, given the space. *)
Lemma Write_exact t (d sm : bytes) : floppy d sm -> zlen t = 819 ->
  16 <= zlen (owned sm FREE) + zlen (owned sm 3) -> 32 <= zlen (owned sm FREE) + zlen (owned sm 3) + zlen (owned sm 4) ->
  (Forall (fun s => encodes (s_name s)) t -> exists d' sm', WriteSymbolTable t (d, sm) = ((d', sm'), Ok tt) /\ floppy d' sm') /\
  (~ Forall (fun s => encodes (s_name s)) t -> exists s' e, WriteSymbolTable t (d, sm) = (s', Err e)).
Proof.
  intros Hf HL S1 S2. pose proof (zlen_nonneg t).
  destruct (fill_tables_any t 0 (zeros 0x1000) (zeros 0x1000) ltac:(lia) ltac:(lia) ltac:(apply zlen_zeros; lia) ltac:(apply zlen_zeros; lia)) as [(e & E)|(c1 & c2 & E & L1 & L2)].
  - split; [intros He; contradiction (fill_err _ _ _ _ _ E He)|]. intros _. exists (d, sm), e. unfold WriteSymbolTable. rewrite E. reflexivity.
  - split; [intros _|intros He; contradiction He; apply (fill_names _ _ _ _ _ E)].
    destruct (WriteSymbolTable_gen t c1 c2 d sm Hf E L1 L2 S1 S2) as (d' & sm' & EW & Fl & _). exists d', sm'. split; [exact EW|exact Fl].
Qed.

(** ** Giving a symbol to an address *)
Lemma AddSymbol_names t n a t1 : AddSymbol t n a = (t1, Ok tt) -> forall j, 0 <= j < zlen t -> nm t1 j = n \/ nm t1 j = nm t j.
Proof.
  intros E j Hj. destruct (AddSymbol_changed t n a t1 E) as (Ha & p & n' & (HL & Hp & Pa & Pn & Hq) & En & Hc).
  destruct (Z.eq_dec j p) as [->|Hne]; [|right; apply (Hq j ltac:(lia) Hne)].
  destruct Hc as [(H1 & H2 & _)|(H1 & H2 & _)]; [|apply (AddSymbol_absent_names t n a t1 H2 E p Hp)].
  clear Pn Pa. unfold AddSymbol in E. destruct (Z.eqb_spec a 0) as [|_]; [contradiction|]. cbv zeta in E.
  pose proof (add_scan_spec t n (addrHash a) 0 (-1) ltac:(lia)) as Hsc. pose proof (find_name_spec t n 0) as Hfn.
  destruct (find_name t n 0) as [k|]; [|rewrite Hfn in H1 by exact Hp; discriminate H1].
  rewrite Z.sub_0_r in *. destruct Hfn as (K1 & K2 & K3).
  assert (k = p) as ->.
  { destruct (Ztrichotomy k p) as [L|[?|G]]; [rewrite H2 in K2 by lia; discriminate K2|assumption|rewrite K3 in H1 by lia; discriminate H1]. }
  rewrite Hsc in E. destruct (addrHash (ad t p) =? addrHash a).
  - right. injection E as <-. unfold nm. rewrite znth_zset by lia. rewrite Z.eqb_refl. reflexivity.
  - left. unfold add_at in E. replace (p =? -1) with false in E by lia. injection E as <-.
    pose proof (proj1 (link_end_spec (fst (DeleteSymbol t n)) (addrHash a) p)) as Lu. pose proof (zlen_DeleteSymbol t n) as Ld.
    unfold nm. rewrite znth_zset by lia. rewrite Z.eqb_refl. reflexivity.
Qed.
Lemma fold_alnum q x : is_ascii q -> Forall alnum x -> equal_fold q x = true -> Forall alnum q.
Proof.
  intros Hq Hx E. unfold equal_fold in E. apply beq_eq in E. rewrite !fold_case_ascii in E by (first [assumption|apply alnum_ascii; assumption]).
  revert x Hx E. induction Hq as [|c q Hc Hq IH]; intros [|y x] Hx E; try discriminate E; [constructor|].
  inversion Hx as [|? ? Hy Hx']; subst. cbn [map] in E. injection E as E1 E2. constructor; [|apply (IH x Hx' E2)].
  unfold low, is_upper, alnum, letter, digit in *. destruct ((65 <=? c) && (c <=? 90)) eqn:A; destruct ((65 <=? y) && (y <=? 90)) eqn:B; lia.
Qed.
Lemma valid_encodes n : valid_name n -> encodes n.
Proof. intros H. destruct (encode_valid n H) as (six & E & _). exists six. exact E. Qed.
Lemma valid_fold q x : is_ascii q -> encodes q -> Forall alnum x -> equal_fold q x = true -> valid_name x.
Proof.
  intros Hq (six & Es) Hx E. pose proof (fold_alnum q x Hq Hx E) as Ha. pose proof (encodes_valid q six Ha Es) as Hv.
  pose proof (fold_upcase_eq q x Ha Hx E) as Eu. destruct Hv as [->|(V1 & _ & V3)].
  - left. destruct x; [reflexivity|discriminate Eu].
  - right. assert (zlen x = zlen q) as El by (apply (f_equal (fun l => zlen l)) in Eu; unfold upcase in Eu; rewrite !zlen_map in Eu; lia).
    split; [lia|]. split; [exact Hx|]. replace (name_bits x) with (name_bits q); [exact V3|].
    clear - Eu Ha Hx. revert x Eu Hx. induction Ha as [|c q Hc _ IH]; intros [|y x] Eu Hx; try discriminate Eu; [reflexivity|].
    inversion Hx as [|? ? Hy Hx']; subst. cbn [upcase map] in Eu. injection Eu as E1 E2. cbn [name_bits]. f_equal; [|apply IH; assumption].
    unfold char_bits, alnum, letter, digit in *. destruct ((97 <=? c) && (c <=? 122)) eqn:A; destruct ((97 <=? y) && (y <=? 122)) eqn:B;
      destruct ((48 <=? c) && (c <=? 57)) eqn:C; destruct ((48 <=? y) && (y <=? 57)) eqn:D; lia.
Qed.

Lemma Edit_exact t q a (d sm : bytes) : floppy d sm -> zlen t = 819 -> Forall read_ok t -> is_ascii q -> encodes q -> a <> 0 ->
  16 <= zlen (owned sm FREE) + zlen (owned sm 3) -> 32 <= zlen (owned sm FREE) + zlen (owned sm 3) + zlen (owned sm 4) ->
  (room_for t q /\ all_valid t /\ exists t1 d' sm', AddSymbol t q a = (t1, Ok tt) /\ WriteSymbolTable t1 (d, sm) = ((d', sm'), Ok tt) /\ floppy d' sm') \/
  (~ (room_for t q /\ all_valid t) /\
     ((exists t1 e, AddSymbol t q a = (t1, Err e)) \/ (exists t1 s' e, AddSymbol t q a = (t1, Ok tt) /\ WriteSymbolTable t1 (d, sm) = (s', Err e)))).
Proof.
  intros Hf HL Hr Hq He Ha S1 S2. destruct (AddSymbol t q a) as [t1 r] eqn:E.
  assert (HL1 : zlen t1 = 819) by (pose proof (zlen_AddSymbol t q a) as H; rewrite E in H; cbn [fst] in H; lia).
  destruct r as [[]|e|].
  - destruct (AddSymbol_changed t q a t1 E) as (_ & p & n' & (_ & Hp & Pa & Pn & Hqq) & En & Hc). pose proof (AddSymbol_names t q a t1 E) as Hnm.
    assert (Hroom : room_for t q).
    { exists p. split; [exact Hp|]. destruct Hc as [(H1 & _)|(H1 & _)]; [left|right]; exact H1. }
    destruct (Write_exact t1 d sm Hf HL1 S1 S2) as [W1 W2].
    assert (Hiff : all_valid t <-> Forall (fun s => encodes (s_name s)) t1).
    { split.
      - intros Hv. apply Forall_forall. intros s Hs. destruct (In_znth sym0 t1 s Hs) as (j & Hj & <-). change (encodes (nm t1 j)).
        destruct (Hnm j ltac:(lia)) as [->| ->]; [exact He|]. apply valid_encodes, Hv. lia.
      - intros Hv j Hj. pose proof (Forall_znth read_ok sym0 t j Hr Hj) as (R1 & R2 & R3 & R4).
        destruct (Z.eq_dec j p) as [->|Hne].
        + destruct Hc as [(H1 & _)|(H1 & _)]; [|left; apply R4; exact H1]. apply (valid_fold q (nm t p) Hq He R2 H1).
        + pose proof (Forall_znth _ sym0 t1 j Hv ltac:(lia)) as (six & Es). cbv beta in Es. destruct (Hqq j ltac:(lia) Hne) as [_ Q2].
          unfold nm in Q2. rewrite Q2 in Es. apply (encodes_valid _ six R2 Es). }
    assert (Hdec : Forall (fun s => encodes (s_name s)) t1 \/ ~ Forall (fun s => encodes (s_name s)) t1).
    { clear. induction t1 as [|s t1 IH]; [left; constructor|]. destruct (encodeSymbol_total (s_name s)) as [(six & Es & _)|(e & Es)].
      - destruct IH as [H|H]; [left; constructor; [exists six; exact Es|exact H]|right; intros H2; inversion H2; contradiction].
      - right. intros H. inversion H as [|? ? (six & E2) _]; subst. rewrite Es in E2. discriminate E2. }
    destruct Hdec as [Hd|Hd].
    + left. split; [exact Hroom|]. split; [apply Hiff; exact Hd|]. destruct (W1 Hd) as (d' & sm' & EW & Fl). exists t1, d', sm'. split; [reflexivity|]. split; [exact EW|exact Fl].
    + right. split; [intros [_ H]; apply Hd, Hiff, H|]. right. destruct (W2 Hd) as (s' & e & EW). exists t1, s', e. split; [reflexivity|exact EW].
  - right. destruct (AddSymbol_fail t q a t1 (Err e) E ltac:(discriminate)) as (-> & _ & [H|[H1 H2]]); [contradiction|]. split.
    + intros [(i & Hi & [H|H]) _]; [rewrite (H1 i Hi) in H; discriminate H|]. unfold unused in H2.
      assert (In (znth sym0 t i) (filter (fun s => s_addr s =? 0) t)) as Hin by (apply filter_In; split; [apply znth_In; exact Hi|unfold ad in H; lia]).
      destruct (filter (fun s => s_addr s =? 0) t) as [|x l]; [contradiction|]. rewrite zlen_cons in H2. pose proof (zlen_nonneg l). lia.
    + left. exists t, e. reflexivity.
  - destruct (AddSymbol_fail t q a t1 Panic E ltac:(discriminate)) as (_ & (e & H) & _). discriminate H.
Qed.

(** ** The meaning of a name *)
Lemma numeric_one n f g : numeric n f -> numeric n g -> f = g.
Proof. intros H1 H2. rewrite <- (parseAddress_numeric _ _ H1). apply parseAddress_numeric. exact H2. Qed.
Lemma colon_split (p q p' q' : bytes) : no_colon p -> no_colon p' -> p ++ 58 :: q = p' ++ 58 :: q' -> p = p' /\ q = q'.
Proof.
  intros Hp Hp' E. revert p' Hp' E. induction p as [|x p IH]; intros [|y p'] Hp' E; cbn [app] in E.
  - injection E as ->. split; reflexivity.
  - injection E as E1 E2. contradiction Hp'. left. symmetry. exact E1.
  - injection E as E1 E2. contradiction Hp. left. exact E1.
  - injection E as -> E2. destruct (IH (fun H => Hp (or_intror H)) p' (fun H => Hp' (or_intror H)) E2) as [-> ->]. split; reflexivity.
Qed.
Lemma symbol_file_one t q f g : (forall h, ~ numeric q h) -> symbol_file t q f -> symbol_file t q g -> f = g.
Proof. intros Hn Hf Hg. apply (resolves_det t q); right; split; assumption. Qed.

Lemma new_one d f g : legal f -> legal g -> file_on d f = [] -> file_on d g = [] -> (forall h, 1 <= h < f -> file_on d h <> []) -> (forall h, 1 <= h < g -> file_on d h <> []) -> f = g.
Proof.
  intros Hf Hg E1 E2 H1 H2. unfold legal in *. destruct (Ztrichotomy f g) as [L|[E|G]]; [|exact E|].
  - contradiction (H2 f ltac:(lia)).
  - contradiction (H1 g ltac:(lia)).
Qed.
Lemma meaning_one d t n f q e f' q' e' : put_meaning d t n f q e -> put_meaning d t n f' q' e' -> f = f' /\ q = q' /\ e = e'.
Proof.
  intros H1 H2. destruct H1 as [n f N|n f C N S|n f C N L F G|p q f N C M S|p q f N C M S].
  - inversion H2 as [n2 f2 N2|n2 f2 C2 N2 S2|n2 f2 C2 N2 L2 F2 G2|p2 q2 f2 N2 C2 M2 S2 E2|p2 q2 f2 N2 C2 M2 S2 E2]; subst.
    + split; [apply (numeric_one _ _ _ N N2)|split; reflexivity].
    + contradiction (N2 f N).
    + contradiction (N2 f). left. exact N.
    + apply numeric_no_colon in N. contradiction N. apply in_or_app. right. left. reflexivity.
    + apply numeric_no_colon in N. contradiction N. apply in_or_app. right. left. reflexivity.
  - inversion H2 as [n2 f2 N2|n2 f2 C2 N2 S2|n2 f2 C2 N2 L2 F2 G2|p2 q2 f2 N2 C2 M2 S2 E2|p2 q2 f2 N2 C2 M2 S2 E2]; subst.
    + contradiction (N _ N2).
    + split; [apply (symbol_file_one t q' f f' N S S2)|split; reflexivity].
    + contradiction (N2 f). right. split; assumption.
    + contradiction C. apply in_or_app. right. left. reflexivity.
    + contradiction C. apply in_or_app. right. left. reflexivity.
  - inversion H2 as [n2 f2 N2|n2 f2 C2 N2 S2|n2 f2 C2 N2 L2 F2 G2|p2 q2 f2 N2 C2 M2 S2 E2|p2 q2 f2 N2 C2 M2 S2 E2]; subst.
    + contradiction (N f'). left. exact N2.
    + contradiction (N f'). right. split; assumption.
    + split; [apply (new_one d f f' L L2 F F2 G G2)|split; reflexivity].
    + contradiction C. apply in_or_app. right. left. reflexivity.
    + contradiction C. apply in_or_app. right. left. reflexivity.
  - inversion H2 as [n2 f2 N2|n2 f2 C2 N2 S2|n2 f2 C2 N2 L2 F2 G2|p2 q2 f2 N2 C2 M2 S2 E2|p2 q2 f2 N2 C2 M2 S2 E2]; subst.
    + apply numeric_no_colon in N2. contradiction N2. apply in_or_app. right. left. reflexivity.
    + contradiction C2. apply in_or_app. right. left. reflexivity.
    + contradiction C2. apply in_or_app. right. left. reflexivity.
    + destruct (colon_split p2 q' p q (numeric_no_colon _ _ N2) (numeric_no_colon _ _ N) E2) as [-> ->].
      split; [apply (numeric_one _ _ _ N N2)|split; reflexivity].
    + destruct (colon_split p2 q' p q (numeric_no_colon _ _ N2) (numeric_no_colon _ _ N) E2) as [-> ->].
      rewrite (numeric_one _ _ _ N2 N) in *. contradiction.
  - inversion H2 as [n2 f2 N2|n2 f2 C2 N2 S2|n2 f2 C2 N2 L2 F2 G2|p2 q2 f2 N2 C2 M2 S2 E2|p2 q2 f2 N2 C2 M2 S2 E2]; subst.
    + apply numeric_no_colon in N2. contradiction N2. apply in_or_app. right. left. reflexivity.
    + contradiction C2. apply in_or_app. right. left. reflexivity.
    + contradiction C2. apply in_or_app. right. left. reflexivity.
    + destruct (colon_split p2 q' p q (numeric_no_colon _ _ N2) (numeric_no_colon _ _ N) E2) as [-> ->].
      rewrite (numeric_one _ _ _ N2 N) in *. contradiction.
    + destruct (colon_split p2 q' p q (numeric_no_colon _ _ N2) (numeric_no_colon _ _ N) E2) as [-> ->].
      split; [apply (numeric_one _ _ _ N N2)|split; reflexivity].
Qed.

Lemma file_on_nil d f : zlen d = 143360 -> (file_on d f = [] <-> owned (stored_map d) f = []).
Proof. intros Hd. apply (content_nil_iff d (stored_map d) f Hd). Qed.

(** What the code makes of the name, and what the name means. *)
Lemma meaning_exact d t n : zlen d = 143360 ->
  match FilesForCompoundName t n with
  | Ok (nf, mf, q) =>
      let num := if nf =? 0 then FirstFreeFile (stored_map d) else nf in
      (num <> 0 /\ legal num /\ exists e, put_meaning d t n num q e /\ (q <> [] -> e = negb (mf =? num))) \/
      (num = 0 /\ forall f q' e, ~ put_meaning d t n f q' e)
  | Err _ => forall f q e, ~ put_meaning d t n f q e
  | Panic => False
  end.
Proof.
  intros Hd. destruct (colon_cases n) as [Hc|(p & b & -> & Hp)].
  - destruct (FilesForCompoundName_simple t n Hc) as (F1 & F2 & F3). destruct (parseAddress_cases n) as [(f & Hn & _)|[Hn _]].
    + rewrite (F1 f Hn). cbv zeta. pose proof (proj1 Hn) as Hl. assert (f <> 0) as H0 by (unfold legal in Hl; lia).
      destruct (Z.eqb_spec f 0) as [|_]; [contradiction|]. left. split; [exact H0|]. split; [exact Hl|]. exists false. split; [constructor; exact Hn|]. intros X; contradiction X; reflexivity.
    + destruct (FileForName_spec t n) as [(f & _ & Hr & Hl)|[_ Hnr]].
      * destruct Hr as [Hr|[_ Hr]]; [contradiction (Hn f Hr)|]. rewrite (F2 f Hn Hr). cbv zeta.
        assert (f <> 0) as H0 by (unfold legal in Hl; lia). destruct (Z.eqb_spec f 0) as [|_]; [contradiction|].
        left. split; [exact H0|]. split; [exact Hl|]. exists false. split; [constructor; assumption|]. intros _. rewrite Z.eqb_refl. reflexivity.
      * rewrite (F3 Hnr). cbv zeta. change (0 =? 0) with true. cbv iota. pose proof (FirstFreeFile_spec (stored_map d)) as HF. cbv zeta in HF.
        remember (FirstFreeFile (stored_map d)) as num eqn:En. clear En. destruct HF as [(L & O & B)|[Hz B]].
        -- assert (num <> 0) as H0 by (unfold legal in L; lia). left. split; [exact H0|]. split; [exact L|]. exists true.
           split; [|intros _; destruct (Z.eqb_spec 0 num) as [X|_]; [contradiction H0; symmetry; exact X|reflexivity]].
           apply pm_new; [exact Hc|exact Hnr|exact L|apply file_on_nil; assumption|]. intros g Hg X. apply (B g Hg). apply file_on_nil; assumption.
        -- right. split; [exact Hz|]. intros f q e M.
           inversion M as [n2 f2 N2|n2 f2 C2 N2 S2|n2 f2 C2 N2 L2 F4 G2|p2 q2 f2 N2 C2 M2 S2 E2|p2 q2 f2 N2 C2 M2 S2 E2]; subst.
           ++ contradiction (Hn f N2).
           ++ contradiction (Hnr f). right. split; assumption.
           ++ apply (B f L2). apply file_on_nil; assumption.
           ++ contradiction Hc. apply in_or_app. right. left. reflexivity.
           ++ contradiction Hc. apply in_or_app. right. left. reflexivity.
  - assert (Hno : forall f q e, put_meaning d t (p ++ 58 :: b) f q e -> numeric p f /\ q = b /\ no_colon b /\ forall g, ~ numeric b g).
    { intros f q e M. inversion M as [n2 f2 N2|n2 f2 C2 N2 S2|n2 f2 C2 N2 L2 F4 G2|p2 q2 f2 N2 C2 M2 S2 E2|p2 q2 f2 N2 C2 M2 S2 E2]; subst.
      - apply numeric_no_colon in N2. contradiction N2. apply in_or_app. right. left. reflexivity.
      - contradiction C2. apply in_or_app. right. left. reflexivity.
      - contradiction C2. apply in_or_app. right. left. reflexivity.
      - destruct (colon_split _ _ _ _ (numeric_no_colon _ _ N2) Hp E2) as [-> ->]. split; [exact N2|]. split; [reflexivity|]. split; assumption.
      - destruct (colon_split _ _ _ _ (numeric_no_colon _ _ N2) Hp E2) as [-> ->]. split; [exact N2|]. split; [reflexivity|]. split; assumption. }
    destruct (colon_cases b) as [Hb|(b1 & b2 & -> & _)].
    + destruct (FilesForCompoundName_compound t p b Hp Hb) as [F1 F2]. destruct (parseAddress_cases p) as [(f & Hn & _)|[Hn _]].
      * destruct (parseAddress_cases b) as [(g & Hg & _)|[Hg _]].
        -- destruct F2 as [e ->]; [right; exists g; exact Hg|]. intros f' q e' M. destruct (Hno _ _ _ M) as (_ & _ & _ & X). apply (X g Hg).
        -- destruct (F1 f Hn Hg) as [F3 F4]. pose proof (proj1 Hn) as Hl. assert (f <> 0) as H0 by (unfold legal in Hl; lia).
           destruct (FileForName_spec t b) as [(g & _ & [Hr|[_ Hr]] & _)|[_ Hnr]]; [contradiction (Hg g Hr)| |].
           ++ rewrite (F3 g Hr). cbv zeta. destruct (Z.eqb_spec f 0) as [|_]; [contradiction|]. left. split; [exact H0|]. split; [exact Hl|].
              destruct (Z.eqb_spec g f) as [->|Hne].
              ** exists false. split; [apply pm_both; assumption|reflexivity].
              ** exists true. split; [|reflexivity]. apply pm_at; try assumption. intros X. apply Hne. apply (symbol_file_one t b g f Hg Hr X).
           ++ assert (Hns : forall g, ~ symbol_file t b g) by (intros g X; apply (Hnr g); right; split; assumption).
              rewrite (F4 Hns). cbv zeta. destruct (Z.eqb_spec f 0) as [|_]; [contradiction|]. left. split; [exact H0|]. split; [exact Hl|].
              exists true. split; [apply pm_at; try assumption; apply Hns|]. intros _. destruct (Z.eqb_spec 0 f) as [X|_]; [contradiction H0; symmetry; exact X|reflexivity].
      * destruct F2 as [e ->]; [left; exact Hn|]. intros f' q e' M. destruct (Hno _ _ _ M) as (X & _). apply (Hn _ X).
    + destruct (FilesForCompoundName_many t p b1 b2) as [e ->]. intros f' q e' M. destruct (Hno _ _ _ M) as (_ & _ & X & _).
      apply X. apply in_or_app. right. left. reflexivity.
Qed.

(** ** PutFile *)
Definition outcome {A} (ok crash : Prop) (good : A -> Prop) (x : A * res bool) : Prop :=
  (ok /\ exists a b, x = (a, Ok b) /\ good a) \/ (crash /\ exists a, x = (a, Panic)) \/ (~ ok /\ ~ crash /\ exists a e, x = (a, Err e)).
Lemma Put_exact d o ft ftv ow n s a : zlen d = 143360 -> NewOperator d = Ok o -> bytes_ok d -> is_ascii n -> FiletypeForName ft = Ok ftv ->
  outcome (put_succeeds d (st_of o) ft ow n s) (put_crashes d (st_of o) ft ow n s) (fun o' => zlen (op_data o') = 143360)
    (PutFile (FI (Desc n [] 0 0 (zlen s) false ftv) s a) ow o).
Proof.
  intros Hd En Hb Ha Hft. destruct (NewOperator_ok d o Hd En) as (Hok & Ed & Em & Et). pose proof (ok_fl _ Hok) as Hfl. rewrite Ed, Em in Hfl.
  unfold PutFile. cbn [fi_desc_ fi_data d_type d_length d_name]. rewrite Z.eqb_refl. cbn [negb].
  assert (Hbin : binary ft = (ftv =? FiletypeBinary)) by (unfold binary; rewrite Hft; reflexivity).
  destruct (ftv =? FiletypeBinary) eqn:Eb; cbn [negb].
  2:{ right. right. split; [intros (f & q & e & (X & _) & _); congruence|]. split; [intros (f & q & e & (X & _) & _); congruence|]. eexists _, _. reflexivity. }
  pose proof (meaning_exact d (st_of o) n Hd) as HM.
  destruct (FilesForCompoundName (st_of o) n) as [[[nf mf] q]|er|]; [|right; right|contradiction].
  2:{ split; [intros (f & q & e & (_ & X & _) & _); exact (HM _ _ _ X)|]. split; [intros (f & q & e & (_ & X & _) & _); exact (HM _ _ _ X)|]. eexists _, _. reflexivity. }
  cbv zeta in HM. cbv zeta. rewrite Em. remember (if nf =? 0 then FirstFreeFile (stored_map d) else nf) as num eqn:Enum. clear Enum.
  assert (Htab : match op_ST o with Some t => zlen t = 819 /\ Forall read_ok t /\ zlen (owned (stored_map d) 3) = 16 /\ zlen (owned (stored_map d) 4) = 16 | None => st_of o = [] end).
  { destruct (op_ST o) as [t|] eqn:Eo; [|unfold st_of; rewrite Eo; reflexivity]. unfold opened_table in Et.
    destruct (ReadSymbolTable (stored_map d) d) as [t'| |] eqn:HR; try discriminate Et. injection Et as <-.
    destruct (ReadSymbolTable_read_ok _ _ _ Hd Hb HR) as (HL & _ & Hr). destruct (table_files _ _ _ Hd HR) as [T3 T4]. split; [exact HL|]. split; [exact Hr|]. split; assumption. }
  destruct HM as [(H0 & Hl & e & M & He)|[-> HM]].
  2:{ right. right. split; [intros (f & q' & e & (_ & X & _) & _); exact (HM _ _ _ X)|]. split; [intros (f & q' & e & (_ & X & _) & _); exact (HM _ _ _ X)|].
      destruct (if beq q [] then _ else _) as [u|er|] eqn:Es; [eexists _, _; reflexivity|eexists _, _; reflexivity|].
      destruct (beq q []); [discriminate Es|]. destruct (op_ST o); [|discriminate Es]. destruct (encodeSymbol_total q) as [(six & E6 & _)|(er & E6)]; rewrite E6 in Es; discriminate Es. }
  assert (Haq : is_ascii q).
  { destruct M; try exact Ha; [constructor| |]; apply Forall_app in Ha as [_ Ha]; inversion Ha; assumption. }
  assert (Hu : forall f q' e', put_meaning d (st_of o) n f q' e' -> f = num /\ q' = q /\ e' = e) by (intros f q' e' M'; apply (meaning_one _ _ _ _ _ _ _ _ _ M' M)).
  assert (Hsym : (if beq q [] then Ok tt else match op_ST o with
             | None => Err (EOther "cannot use symbolic names on disks without valid symbol tables")
             | Some _ => _ <- encodeSymbol q ;; Ok tt end) = Ok tt /\ (q = [] \/ (st_of o <> [] /\ accepted q)) \/
     (exists er, (if beq q [] then Ok tt else match op_ST o with
             | None => Err (EOther "cannot use symbolic names on disks without valid symbol tables")
             | Some _ => _ <- encodeSymbol q ;; Ok tt end) = Err er) /\ ~ (q = [] \/ (st_of o <> [] /\ accepted q))).
  { destruct (beq q []) eqn:Bq; [left; split; [reflexivity|left; apply beq_eq; exact Bq]|]. apply beq_neq in Bq.
    destruct (op_ST o) as [t|] eqn:Eo.
    - assert (Est : st_of o = t) by (unfold st_of; rewrite Eo; reflexivity). rewrite Est. destruct Htab as (HL & _).
      assert (t <> []) as Hte by (intros ->; discriminate HL).
      pose proof (C34_accepted_lemma q Haq) as HA. destruct (encodeSymbol_total q) as [(six & E6 & _)|(er & E6)]; rewrite E6 in *; cbn [rbind].
      + left. split; [reflexivity|]. right. split; [exact Hte|]. apply HA. exists six. reflexivity.
      + right. split; [exists er; reflexivity|]. intros [X|[_ X]]; [contradiction|]. apply HA in X as [six X]. discriminate X.
    - right. split; [eexists; reflexivity|]. intros [X|[X _]]; contradiction. }
  destruct Hsym as [[-> Hsy]|[(er & ->) Hsy]].
  2:{ right. right. split; [|split; [|eexists _, _; reflexivity]]; intros (f & q' & e' & (_ & X & Y & _) & _); destruct (Hu _ _ _ X) as (-> & -> & ->); contradiction. }
  destruct (Z.eqb_spec num 0) as [|_]; [contradiction|].
  assert (Henc : q <> [] -> exists t, op_ST o = Some t /\ st_of o = t /\ encodes q).
  { intros Hq. destruct Hsy as [X|[X Y]]; [contradiction|]. destruct (op_ST o) as [t|] eqn:Eo; [|contradiction].
    exists t. split; [reflexivity|]. split; [unfold st_of; rewrite Eo; reflexivity|]. apply (C34_accepted_lemma q Haq). exact Y. }
  pose proof (v_len _ (fl_ver _ _ Hfl)) as Lsm. pose proof (zlen_nonneg (owned (stored_map d) num)) as Ln. pose proof (zlen_nonneg (owned (stored_map d) FREE)) as Lf.
  (* refusals *)
  assert (Hno : forall P : Prop, (nsec s <= free_on d + sectors_on d num -> (file_on d num <> [] -> ow = true) -> P) ->
     ~ P -> ~ put_succeeds d (st_of o) ft ow n s /\ ~ put_crashes d (st_of o) ft ow n s).
  { intros P HP HnP. split; intros (f & q' & e' & (_ & X & _ & Y & Z1) & _); destruct (Hu _ _ _ X) as (-> & -> & ->); apply HnP, HP; assumption. }
  (* the file has been written: the symbol *)
  assert (Hrest : forall d1 sm1 ex, floppy d1 sm1 -> (s = [] -> free_on d + sectors_on d num = 0) ->
     nsec s <= free_on d + sectors_on d num -> (file_on d num <> [] -> ow = true) ->
     (forall t, op_ST o = Some t -> 16 <= zlen (owned sm1 FREE) + zlen (owned sm1 3) /\ 32 <= zlen (owned sm1 FREE) + zlen (owned sm1 3) + zlen (owned sm1 4)) ->
     outcome (put_succeeds d (st_of o) ft ow n s) (put_crashes d (st_of o) ft ow n s) (fun o' => zlen (op_data o') = 143360)
       ((if negb (mf =? num) && negb (beq q [])
         then fun o1 => let '(table1, r) := AddSymbol (st_of o1) q (u16 (57088 + num)) in
                   match r with
                   | Ok _ => (_ <== on_disk (WriteSymbolTable table1) ;; sret ex) (Op (op_data o1) (op_SM o1) (Some table1))
                   | Err e0 => (Op (op_data o1) (op_SM o1) (Some table1), Err e0)
                   | Panic => (Op (op_data o1) (op_SM o1) (Some table1), Panic)
                   end
         else sret ex) (Op d1 sm1 (op_ST o)))).
  { intros d1 sm1 ex Fl1 Hs0 Hsp How Hroom.
    assert (Hadm : admitted d (st_of o) ft ow n s num q e) by (split; [exact Hbin|]; split; [exact M|]; split; [exact Hsy|]; split; [exact Hsp|exact How]).
    assert (Hnc : ~ put_crashes d (st_of o) ft ow n s).
    { intros (f & q' & e' & (_ & X & _) & Y & Z1). destruct (Hu _ _ _ X) as (-> & -> & ->). rewrite (Hs0 Y) in Z1. lia. }
    destruct (beq q []) eqn:Bq; [apply beq_eq in Bq; rewrite andb_false_r|apply beq_neq in Bq; rewrite andb_true_r].
    { left. split; [|eexists _, _; split; [reflexivity|apply (fl_len _ _ Fl1)]]. exists num, q, e. split; [exact Hadm|]. split; [exact Hs0|]. intros _ X. contradiction. }
    rewrite <- (He Bq). destruct e.
    2:{ left. split; [|eexists _, _; split; [reflexivity|apply (fl_len _ _ Fl1)]]. exists num, q, false. split; [exact Hadm|]. split; [exact Hs0|]. intros X. discriminate X. }
    destruct (Henc Bq) as (t & Eo & Est & Hen). rewrite Eo in Htab. destruct Htab as (HL & Hr & _ & _). destruct (Hroom t Eo) as [R1 R2]. rewrite Eo. cbn [op_data op_SM].
    change (st_of (Op d1 sm1 (Some t))) with t.
    assert (Hu16 : u16 (57088 + num) <> 0) by (unfold u16, legal in *; rewrite Z.mod_small; lia).
    destruct (Edit_exact t q (u16 (57088 + num)) d1 sm1 Fl1 HL Hr Haq Hen Hu16 R1 R2) as [(V1 & V2 & t1 & d2 & sm2 & EA & EW & Fl2)|[V [(t1 & er & EA)|(t1 & [d2 sm2] & er & EA & EW)]]]; rewrite EA.
    - left. unfold sbind, on_disk. cbn [op_data op_SM op_ST]. rewrite EW. split; [|eexists _, _; split; [reflexivity|apply (fl_len _ _ Fl2)]].
      exists num, q, true. split; [exact Hadm|]. split; [exact Hs0|]. intros _ _. rewrite Est. split; assumption.
    - right. right. split; [|split; [exact Hnc|eexists _, _; reflexivity]]. intros (f & q' & e' & (_ & X & _) & _ & Z1). destruct (Hu _ _ _ X) as (-> & -> & ->).
      apply V. rewrite Est in Z1. exact (Z1 eq_refl Bq).
    - right. right. unfold sbind, on_disk. cbn [op_data op_SM op_ST]. rewrite EW. split; [|split; [exact Hnc|eexists _, _; reflexivity]].
      intros (f & q' & e' & (_ & X & _) & _ & Z1). destruct (Hu _ _ _ X) as (-> & -> & ->). apply V. rewrite Est in Z1. exact (Z1 eq_refl Bq). }
  unfold sbind at 1. unfold on_disk at 1. rewrite Ed, Em.
  destruct s as [|c0 s0] eqn:Es.
  - assert (Hn0 : nsec [] = 0) by reflexivity.
    destruct (file_on d num) as [|x l] eqn:Ef.
    + apply (file_on_nil d num Hd) in Ef as Eo.
      destruct (Z.eq_dec (free_on d) 0) as [Z0|Z0].
      * unfold free_on in Z0. apply zlen_zero_nil in Z0 as Ef0.
        rewrite (WriteFile_empty_full num ow d (stored_map d) Hd Lsm Ef0 Eo ltac:(unfold legal, FREE in *; lia)).
        destruct (Persist_floppy d (stored_map d) Hd (fl_ver _ _ Hfl)) as (_ & Fl1 & _).
        refine (Hrest _ _ false Fl1 _ _ _ _).
        -- intros _. unfold free_on, sectors_on. rewrite Eo, Ef0. reflexivity.
        -- unfold free_on, sectors_on. rewrite Eo, Ef0. rewrite Hn0. reflexivity.
        -- intros X. contradiction X. reflexivity.
        -- intros t Eot. rewrite Eot in Htab. destruct Htab as (_ & _ & T3 & T4). lia.
      * destruct (WriteFile_empty num ow d (stored_map d) (fl_ver _ _ Hfl) Hl ltac:(intros X; contradiction)) as [[d1 sm1] EW]; [unfold free_on in Z0; lia|]. rewrite EW.
        right. left. split; [|eexists; reflexivity]. exists num, q, e. split; [|split; [reflexivity|unfold free_on, sectors_on in *; lia]].
        split; [exact Hbin|]. split; [exact M|]. split; [exact Hsy|]. split; [rewrite Hn0; unfold free_on, sectors_on; lia|intros X; contradiction].
    + assert (Eo : owned (stored_map d) num <> []) by (intros X; apply (file_on_nil d num Hd) in X; rewrite X in Ef; discriminate Ef).
      assert (Lo : 0 < zlen (owned (stored_map d) num)) by (destruct (owned (stored_map d) num); [contradiction|rewrite zlen_cons in *; pose proof (zlen_nonneg l0); lia]).
      destruct ow.
      * destruct (WriteFile_empty num true d (stored_map d) (fl_ver _ _ Hfl) Hl ltac:(reflexivity)) as [[d1 sm1] EW]; [lia|]. rewrite EW.
        right. left. split; [|eexists; reflexivity]. exists num, q, e. split; [|split; [reflexivity|unfold free_on, sectors_on in *; lia]].
        split; [exact Hbin|]. split; [exact M|]. split; [exact Hsy|]. split; [rewrite Hn0; unfold free_on, sectors_on; lia|reflexivity].
      * rewrite (WriteFile_exists num [] d (stored_map d) Lsm ltac:(rewrite Hn0; lia) Eo).
        right. right. destruct (Hno False) as [N1 N2]; [intros _ X; discriminate (X ltac:(discriminate))|intros []|]. split; [exact N1|]. split; [exact N2|]. eexists _, _. reflexivity.
  - rewrite <- Es in *. assert (Hne : s <> []) by (rewrite Es; discriminate). clear Es c0 s0.
    destruct (WriteFile_cases num s ow d (stored_map d) Hfl Hl Hne) as [(C1 & E)|[(C1 & C2 & C3 & E)|(C1 & C2 & d1 & sm1 & E & Fl1 & _ & Cn & Cf & Oth)]]; rewrite E.
    + right. right. destruct (Hno False) as [N1 N2]; [intros X _; unfold free_on, sectors_on in X; lia|intros []|]. split; [exact N1|]. split; [exact N2|]. eexists _, _. reflexivity.
    + right. right. destruct (Hno False) as [N1 N2].
      { intros _ X. rewrite C3 in X. assert (file_on d num <> []) as Y by (intros Y; apply C2, (file_on_nil d num Hd), Y). discriminate (X Y). }
      { intros []. }
      split; [exact N1|]. split; [exact N2|]. eexists _, _. reflexivity.
    + refine (Hrest _ _ _ Fl1 _ C1 _ _).
      * intros X. contradiction.
      * intros X. apply C2. intros Y. apply X. apply (file_on_nil d num Hd). exact Y.
      * intros t Eot. rewrite Eot in Htab. destruct Htab as (_ & _ & T3 & T4).
        assert (G3 : num <> 3 -> zlen (owned sm1 3) = 16) by (intros X; destruct (Oth 3 ltac:(congruence) ltac:(unfold legal; lia)) as [-> _]; exact T3).
        assert (G4 : num <> 4 -> zlen (owned sm1 4) = 16) by (intros X; destruct (Oth 4 ltac:(congruence) ltac:(unfold legal; lia)) as [-> _]; exact T4).
        pose proof (zlen_nonneg (owned sm1 FREE)). clear - Cn Cf T3 T4 G3 G4 C1 Lf H.
        destruct (Z.eq_dec num 3) as [->|N3]; [rewrite G4 by lia; lia|]. rewrite (G3 N3). destruct (Z.eq_dec num 4) as [->|N4]; [lia|]. rewrite (G4 N4). lia.
Qed.

(** ** Delete *)
Lemma DeleteSymbol_names t n : match find_name t n 0 with
  | None => DeleteSymbol t n = (t, false)
  | Some i => 0 <= i < zlen t /\ first_named t n i /\ exists t1, DeleteSymbol t n = (t1, true) /\ zlen t1 = zlen t /\
      forall j, 0 <= j < zlen t -> nm t1 j = if j =? i then [] else nm t j
  end.
Proof.
  pose proof (find_name_spec t n 0) as Hf. unfold DeleteSymbol. destruct (find_name t n 0) as [i|]; [|reflexivity].
  rewrite Z.sub_0_r in Hf. destruct Hf as (H1 & H2 & H3). assert (Hi : 0 <= i < zlen t) by lia. split; [exact Hi|]. split.
  { split; [exact Hi|]. split; [rewrite equal_fold_sym; exact H2|]. intros j Hj. rewrite equal_fold_sym. apply H3. lia. }
  cbv zeta. eexists. split; [reflexivity|].
  change (s_link (znth sym0 t i)) with (lk t i). destruct (unlink_spec t (lk t i) 0 i) as [HLu HC]. split; [rewrite zlen_zset by lia; exact HLu|].
  intros j Hj. unfold nm. rewrite znth_zset by lia. destruct (Z.eqb_spec j i) as [->|Hne]; [reflexivity|].
  destruct HC as [[_ ->]|(q & Q1 & Q2 & Q3 & Q4 & Q5)]; [reflexivity|]. destruct (Z.eq_dec j q) as [->|]; [rewrite Q4; reflexivity|rewrite Q5 by lia; reflexivity].
Qed.
Definition rest_valid (t : list Symbol) (n : bytes) : Prop := forall i, first_named t n i -> forall j, 0 <= j < zlen t -> j <> i -> valid_name (nm t j).
Lemma Delete_exact d o n : zlen d = 143360 -> NewOperator d = Ok o -> bytes_ok d ->
  (exists f o', resolves (st_of o) n f /\ rest_valid (st_of o) n /\ Delete n o = (o', Ok (negb (beq (file_on d f) []))) /\ zlen (op_data o') = 143360) \/
  (~ (exists f, resolves (st_of o) n f /\ rest_valid (st_of o) n) /\ exists o' e, Delete n o = (o', Err e)).
Proof.
  intros Hd En Hb. destruct (NewOperator_ok d o Hd En) as (Hok & Ed & Em & Et). pose proof (ok_fl _ Hok) as Hfl. rewrite Ed, Em in Hfl.
  unfold Delete. destruct (FileForName_spec (st_of o) n) as [(f & -> & Hres & Hf)|[-> Hno]].
  2:{ right. split; [intros (f & X & _); exact (Hno f X)|]. eexists _, _. reflexivity. }
  cbv zeta. rewrite Ed, Em.
  assert (Eex : (0 <? zlen (SectorsForFile (stored_map d) f)) = negb (beq (file_on d f) [])).
  { unfold file_on. rewrite (content_beq d (stored_map d) f Hd). rewrite SectorsForFile_owned, zlen_map. pose proof (zlen_nonneg (owned (stored_map d) f)). lia. }
  rewrite Eex. destruct (Delete_disk d (stored_map d) f Hfl Hf) as (EP & Fl1 & _ & O1 & Oth1 & Fr1). rewrite EP.
  destruct (op_ST o) as [t|] eqn:Eo.
  2:{ left. exists f. eexists. split; [exact Hres|]. split; [|split; [reflexivity|apply (fl_len _ _ Fl1)]]. unfold rest_valid, st_of. rewrite Eo. intros i (Hi & _). rewrite (@zlen_nil Symbol) in Hi. lia. }
  assert (Est : st_of o = t) by (unfold st_of; rewrite Eo; reflexivity). rewrite Est in *.
  unfold opened_table in Et. destruct (ReadSymbolTable (stored_map d) d) as [t'| |] eqn:HR; try discriminate Et. injection Et as <-.
  destruct (ReadSymbolTable_read_ok _ _ _ Hd Hb HR) as (HL & _ & Hr). destruct (table_files _ _ _ Hd HR) as [T3 T4].
  pose proof (DeleteSymbol_names t n) as HN. pose proof (find_name_spec t n 0) as Hfn. destruct (find_name t n 0) as [i|].
  2:{ rewrite HN. left. exists f. eexists. split; [exact Hres|]. split; [|split; [reflexivity|apply (fl_len _ _ Fl1)]].
      intros i (Hi & Hn & _). rewrite equal_fold_sym, (Hfn i Hi) in Hn. discriminate Hn. }
  clear Hfn. destruct HN as (Hi & Hfi & t1 & -> & HL1 & Hnm).
  assert (Hone : forall k, first_named t n k -> k = i).
  { intros k (K1 & K2 & K3). destruct Hfi as (I1 & I2 & I3). destruct (Ztrichotomy k i) as [X|[X|X]]; [|exact X|].
    - rewrite (I3 k ltac:(lia)) in K2. discriminate K2.
    - rewrite (K3 i ltac:(lia)) in I2. discriminate I2. }
  assert (Hroom : 16 <= zlen (owned (SMDelete (stored_map d) f) FREE) + zlen (owned (SMDelete (stored_map d) f) 3) /\
     32 <= zlen (owned (SMDelete (stored_map d) f) FREE) + zlen (owned (SMDelete (stored_map d) f) 3) + zlen (owned (SMDelete (stored_map d) f) 4)).
  { assert (G3 : f <> 3 -> zlen (owned (SMDelete (stored_map d) f) 3) = 16) by (intros X; destruct (Oth1 3 ltac:(congruence) ltac:(unfold legal; lia)) as [-> _]; exact T3).
    assert (G4 : f <> 4 -> zlen (owned (SMDelete (stored_map d) f) 4) = 16) by (intros X; destruct (Oth1 4 ltac:(congruence) ltac:(unfold legal; lia)) as [-> _]; exact T4).
    pose proof (zlen_nonneg (owned (stored_map d) FREE)) as P1. pose proof (zlen_nonneg (owned (stored_map d) f)) as P2. rewrite Fr1. clear - G3 G4 T3 T4 O1 P1 P2.
    destruct (Z.eq_dec f 3) as [->|N3].
    - rewrite G4, O1, T3 by lia. rewrite (@zlen_nil Z). lia.
    - rewrite (G3 N3). destruct (Z.eq_dec f 4) as [->|N4]; [rewrite O1, T4, (@zlen_nil Z); lia|rewrite (G4 N4); lia]. }
  destruct Hroom as [R1 R2]. destruct (Write_exact t1 _ _ Fl1 ltac:(lia) R1 R2) as [W1 W2].
  assert (Hiff : rest_valid t n <-> Forall (fun s => encodes (s_name s)) t1).
  { split.
    - intros Hv. apply Forall_forall. intros s Hs. destruct (In_znth sym0 t1 s Hs) as (j & Hj & <-). change (encodes (nm t1 j)).
      rewrite Hnm by lia. destruct (Z.eqb_spec j i) as [->|Hne]; [apply valid_encodes; left; reflexivity|]. apply valid_encodes, (Hv i Hfi j ltac:(lia) Hne).
    - intros Hv k Hk j Hj Hne. rewrite (Hone k Hk) in Hne. pose proof (Forall_znth read_ok sym0 t j Hr Hj) as (_ & A2 & _).
      pose proof (Forall_znth _ sym0 t1 j Hv ltac:(lia)) as (six & Es). cbv beta in Es. specialize (Hnm j Hj). destruct (Z.eqb_spec j i) as [|_]; [contradiction|].
      unfold nm in Hnm. rewrite Hnm in Es. apply (encodes_valid _ six A2 Es). }
  assert (Hdec : Forall (fun s => encodes (s_name s)) t1 \/ ~ Forall (fun s => encodes (s_name s)) t1).
  { clear. induction t1 as [|s t1 IH]; [left; constructor|]. destruct (encodeSymbol_total (s_name s)) as [(six & Es & _)|(e & Es)].
    - destruct IH as [H|H]; [left; constructor; [exists six; exact Es|exact H]|right; intros H2; inversion H2; contradiction].
    - right. intros H. inversion H as [|? ? (six & E2) _]; subst. rewrite Es in E2. discriminate E2. }
  unfold sbind, on_disk. cbn [op_data op_SM op_ST]. destruct Hdec as [Hv|Hv].
  - left. destruct (W1 Hv) as (d2 & sm2 & EW & Fl2). rewrite EW. exists f. eexists. split; [exact Hres|]. split; [apply Hiff; exact Hv|].
    split; [reflexivity|apply (fl_len _ _ Fl2)].
  - right. split; [intros (g & _ & X); apply Hv, Hiff, X|]. destruct (W2 Hv) as ([d2 sm2] & e & EW). rewrite EW. eexists _, _. reflexivity.
Qed.

(** ** The commands *)
Section Status.
  Context (iter : list (Z * Subdirectory) -> list (Z * Subdirectory)).

  Lemma naked_bytes img order c d o : seen_as img order c (s2b "nakedos") d o -> zlen d = 143360 /\ bytes_ok d.
  Proof.
    intros H. destruct (seen_len _ _ _ _ _ _ H) as [Hz|Hz]; [|contradiction (Hz eq_refl)]. split; [exact Hz|].
    remember (s2b "nakedos") as sys eqn:Es. destruct H as [pre o rest sys d Hc B Hca Hpre Hra|]; [|discriminate Es].
    destruct Hra as [? R _|? ? _ _ R _|? ? ? _ _ _ _ R _]; apply (DetectProofs.reordered_bytes _ _ _ _ R B).
  Qed.
  (** The image is opened as the NakedOS disk [d]. *)
  Definition found (img order system c d o : bytes) : Prop :=
    eventually (fun k => exists op, OpenImage c (image_name img) order system (DiskOperatorFactories iter k) = Ok (op, o) /\ op_for (s2b "nakedos") d op) /\
    zlen d = 143360 /\ bytes_ok d.
  Lemma seen_found img order system c d o : ProdosSpec.an_order iter -> seen_as img order c (s2b "nakedos") d o ->
    (system = s2b "auto" \/ system = s2b "nakedos") -> found img order system c d o.
  Proof. intros Hi Hs Hsys. split; [exact (opens iter _ _ _ _ _ _ _ Hi Hs Hsys)|exact (naked_bytes _ _ _ _ _ Hs)]. Qed.
  Lemma naked_eventually img order system c d o t w (P : nat -> Prop) : found img order system c d o ->
    names_on d t -> input w img c ->
    (forall k op w1, OpenImage c (image_name img) order system (DiskOperatorFactories iter k) = Ok (ONaked op, o) ->
       run (OpenFilename iter k img order system) w = (w1, Ok (ONaked op, o)) -> same_files w w1 ->
       w_room w1 = w_room w -> w_outroom w1 = w_outroom w -> (img <> s2b "-" -> w1 = w) ->
       NewOperator d = Ok op -> op_data op = d -> st_of op = t -> reordered c o (s2b "raw") d -> P k) -> eventually P.
  Proof.
    intros (Hf & Hz & _) (op0 & En0 & Et) Hin HP. eapply eventually_impl; [|exact Hf].
    intros k (op & Ho & Hop). inversion Hop as [| ? op1 En|]; subst. assert (op1 = op0) as -> by congruence.
    destruct (open_run_ok iter k _ _ _ _ _ _ _ Hin Ho) as (w1 & Er & Hsf & _ & Hr1 & Ho1 & Hw1).
    destruct (naked_opened iter k _ _ _ _ _ _ Ho) as (_ & Hr & _).
    assert (Ed : op_data op0 = d) by (apply (NewOperator_ok d op0 Hz En)).
    rewrite Ed in Hr. apply (HP k op0 w1 Ho Er Hsf Hr1 Ho1 Hw1 En Ed eq_refl Hr).
  Qed.
  (** Writing it back. *)
  Lemma writeback_exits c o d op img w w1 : reordered c o (s2b "raw") d -> zlen (op_data op) = 143360 -> same_files w w1 ->
    w_room w1 = None -> w_outroom w1 = None -> can_output w img true ->
    exists w', run (WriteBack img (ONaked op) o true) w1 = (w', Ok tt).
  Proof.
    intros Hr Hz Hsf H1 H2 H3. destruct (writeback_run c o d op img Hr Hz) as (new & _ & Hrun).
    destruct (run_output_ok w1 img new true H1 H2) as [w2 E2].
    { destruct H3 as [H3|(H3 & H4 & H5)]; [left; exact H3|]. right. split; [exact H3|]. split; [|left; reflexivity]. unfold writable in *. rewrite Hsf. exact H4. }
    exists w2. rewrite Hrun. exact E2.
  Qed.
  Lemma exits_ok p w w' : run p w = (w', Ok tt) -> exits p w 0.
  Proof. intros E. exists w'. unfold main_run. rewrite E. split; [reflexivity|]. intros X. contradiction X. reflexivity. Qed.
  Lemma exits_err p w w' e : run p w = (w', Err e) -> same_files w w' -> exits p w 1.
  Proof. intros E H. exists w'. unfold main_run. rewrite E. split; [reflexivity|]. intros _. exact H. Qed.
  Lemma exits_panic p w w' : run p w = (w', Panic) -> same_files w w' -> exits p w 2.
  Proof. intros E H. exists w'. unfold main_run. rewrite E. split; [reflexivity|]. intros _. exact H. Qed.

  Lemma put_found img order system c d o t ft ow addr tgt src s w : found img order system c d o ->
    names_on d t -> input w img c -> input w src s -> ~ (img = s2b "-" /\ src = s2b "-") ->
    can_output w img true -> w_room w = None -> w_outroom w = None -> is_ascii tgt ->
    eventually (fun k => exits_by (put_succeeds d t ft ow tgt s) (put_crashes d t ft ow tgt s) (PutCmd_Run iter k order system ft ow addr img tgt src) w).
  Proof.
    intros Hs Hn Hin Hsrc Hnd Hco Hrm Hor Ha. apply (naked_eventually img order system c d o t w _ Hs Hn Hin).
    intros k op w1 _ Er Hsf Hr1 Ho1 Hw1 En Ed Et Hr. destruct Hs as (_ & Hd & Hb).
    assert (Hsrc1 : input w1 src s).
    { destruct (beq img (s2b "-")) eqn:B.
      - apply beq_eq in B. destruct Hsrc as [[X _]|[X (wr & Y)]]; [contradiction Hnd; split; assumption|]. right. split; [exact X|]. exists wr. rewrite Hsf. exact Y.
      - apply beq_neq in B. rewrite (Hw1 B). exact Hsrc. }
    destruct (run_contents_ok _ _ _ Hsrc1) as (w2 & Es & Hsf2 & _ & Hr2 & Ho2).
    assert (Hsf3 : same_files w w2) by (intros x; rewrite Hsf2; apply Hsf).
    assert (Edash : beq img dash && beq src dash = false).
    { destruct (beq img dash) eqn:B1; [|reflexivity]. destruct (beq src dash) eqn:B2; [|reflexivity]. apply beq_eq in B1, B2. contradiction Hnd. split; assumption. }
    assert (Erun : run (PutCmd_Run iter k order system ft ow addr img tgt src) w =
       match FiletypeForName ft with
       | Ok ftv => match PutFile (FI (Desc tgt [] 0 0 (zlen s) false ftv) s addr) ow op with
                   | (op', Ok _) => run (WriteBack img (ONaked op') o true) w2
                   | (_, Err e) => (w2, Err e) | (_, Panic) => (w2, Panic) end
       | Err e => (w2, Err e) | Panic => (w2, Panic) end).
    { unfold PutCmd_Run. rewrite Edash. rewrite run_pbind, Er, run_pbind, Es, run_pbind. unfold plift at 1. cbn [run].
      destruct (FiletypeForName ft) as [ftv|e|]; [|reflexivity|reflexivity]. cbn [Op_PutFile].
      destruct (PutFile _ ow op) as [op' [b|e|]]; reflexivity. }
    destruct (FiletypeForName ft) as [ftv|e|] eqn:Hft.
    - destruct (Put_exact d op ft ftv ow tgt s addr Hd En Hb Ha Hft) as [(H1 & op' & b & EP & Hz)|[(H1 & op' & EP)|(H1 & H2 & op' & e & EP)]]; rewrite Et in *; rewrite EP in Erun.
      + left. split; [exact H1|]. destruct (writeback_exits c o d op' img w w2 Hr Hz Hsf3 ltac:(congruence) ltac:(congruence) Hco) as [w' EW]. rewrite EW in Erun. apply (exits_ok _ _ _ Erun).
      + right. left. split; [exact H1|]. apply (exits_panic _ _ _ Erun Hsf3).
      + right. right. split; [exact H1|]. split; [exact H2|]. apply (exits_err _ _ _ _ Erun Hsf3).
    - right. right. split; [|split; [|apply (exits_err _ _ _ _ Erun Hsf3)]]; intros (f & q & e' & (X & _) & _); unfold binary in X; rewrite Hft in X; discriminate X.
    - contradiction (filetype_no_panic _ Hft).
  Qed.

  Lemma put_status img order system c d o t ft ow addr tgt src s w :
    ProdosSpec.an_order iter -> seen_as img order c (s2b "nakedos") d o -> (system = s2b "auto" \/ system = s2b "nakedos") ->
    names_on d t -> input w img c -> input w src s -> ~ (img = s2b "-" /\ src = s2b "-") ->
    can_output w img true -> w_room w = None -> w_outroom w = None -> is_ascii tgt ->
    eventually (fun k => exits_by (put_succeeds d t ft ow tgt s) (put_crashes d t ft ow tgt s) (PutCmd_Run iter k order system ft ow addr img tgt src) w).
  Proof. intros Hi Hs Hsys. apply put_found with (c := c) (o := o). apply seen_found; assumption. Qed.

  Lemma rm_found img order system c d o t force name w : found img order system c d o ->
    names_on d t -> input w img c -> can_output w img true -> w_room w = None -> w_outroom w = None ->
    eventually (fun k => exits_by (rm_succeeds d t force name) False (DeleteCmd_Run iter k order system force img name) w).
  Proof.
    intros Hs Hn Hin Hco Hrm Hor. apply (naked_eventually img order system c d o t w _ Hs Hn Hin).
    intros k op w1 _ Er Hsf Hr1 Ho1 _ En Ed Et Hr. destruct Hs as (_ & Hd & Hb).
    assert (Erun : run (DeleteCmd_Run iter k order system force img name) w =
       match Delete name op with
       | (op', Ok b) => if negb b && negb force then (w1, Err (EOther "file not found (use -f to prevent this being an error)")) else run (WriteBack img (ONaked op') o true) w1
       | (_, Err e) => (w1, Err e) | (_, Panic) => (w1, Panic) end).
    { unfold DeleteCmd_Run. rewrite run_pbind, Er. cbn [Op_Delete]. destruct (Delete name op) as [op' [b|e|]]; cbn [lift_op]; rewrite run_pbind; unfold plift; cbn [run]; [|reflexivity|reflexivity].
      destruct (negb b && negb force); reflexivity. }
    destruct (Delete_exact d op name Hd En Hb) as [(f & op' & Hres & Hv & ED & Hz)|[Hno (op' & e & ED)]]; rewrite Et in *; rewrite ED in Erun.
    - destruct (negb (negb (beq (file_on d f) [])) && negb force) eqn:B.
      + right. right. assert (file_on d f = [] /\ force = false) as [Hf ->].
        { apply andb_true_iff in B as [B1 B2]. rewrite negb_involutive in B1. apply beq_eq in B1. split; [exact B1|destruct force; [discriminate B2|reflexivity]]. }
        split; [|split; [intros []|apply (exits_err _ _ _ _ Erun Hsf)]]. intros (g & Hg & [X|X] & _); [|discriminate X]. apply X. rewrite (resolves_det _ _ _ _ Hg Hres). exact Hf.
      + left. split.
        { exists f. split; [exact Hres|]. split; [|exact Hv]. destruct force; [right; reflexivity|left]. rewrite negb_involutive, andb_true_r in B. apply beq_neq. exact B. }
        destruct (writeback_exits c o d op' img w w1 Hr Hz Hsf ltac:(congruence) ltac:(congruence) Hco) as [w' EW]. rewrite EW in Erun. apply (exits_ok _ _ _ Erun).
    - right. right. split; [intros (f & X & _ & Y); apply Hno; exists f; split; assumption|]. split; [intros []|]. apply (exits_err _ _ _ _ Erun Hsf).
  Qed.

  Lemma rm_status img order system c d o t force name w :
    ProdosSpec.an_order iter -> seen_as img order c (s2b "nakedos") d o -> (system = s2b "auto" \/ system = s2b "nakedos") ->
    names_on d t -> input w img c -> can_output w img true -> w_room w = None -> w_outroom w = None ->
    eventually (fun k => exits_by (rm_succeeds d t force name) False (DeleteCmd_Run iter k order system force img name) w).
  Proof. intros Hi Hs Hsys. apply rm_found with (c := c) (o := o). apply seen_found; assumption. Qed.

  Lemma dump_status img order system c d o t name w :
    ProdosSpec.an_order iter -> seen_as img order c (s2b "nakedos") d o -> (system = s2b "auto" \/ system = s2b "nakedos") ->
    names_on d t -> input w img c -> w_outroom w = None ->
    eventually (fun k => exits_by (exists f, resolves t name f /\ file_on d f <> []) False (DumpCmd_Run iter k order system img name) w).
  Proof.
    intros Hi Hs Hsys Hn Hin Ho. destruct (FileForName_spec t name) as [(f & _ & Hr & _)|[_ Hno]].
    - destruct (dump_nakedos iter img order system c d o t name f w Hi Hs Hsys Hn Hin) as [D1 D2]. destruct (file_on d f) as [|x l] eqn:Ef.
      + eapply eventually_impl; [|apply D2; right; split; [exact Hr|reflexivity]]. intros k (w' & e & E & Hsf & _). right. right.
        split; [intros (g & Hg & X); apply X; rewrite (resolves_det _ _ _ _ Hg Hr); exact Ef|]. split; [intros []|apply (exits_err _ _ _ _ E Hsf)].
      + eapply eventually_impl; [|apply D1; [exact Hr|discriminate|exact Ho]]. intros k (w' & E & _). left.
        split; [exists f; split; [exact Hr|rewrite Ef; discriminate]|apply (exits_ok _ _ _ E)].
    - destruct (dump_nakedos iter img order system c d o t name 0 w Hi Hs Hsys Hn Hin) as [_ D2].
      eapply eventually_impl; [|apply D2; left; exact Hno]. intros k (w' & e & E & Hsf & _). right. right.
      split; [intros (g & Hg & _); exact (Hno g Hg)|]. split; [intros []|apply (exits_err _ _ _ _ E Hsf)].
  Qed.

  Lemma hello_exact (t : list Symbol) n :
    match FilesForCompoundName t n with
    | Ok (nf, mf, _) => ((nf =? 0) && (mf =? 0) = false /\ hello_target t n nf /\ nf <> 0) \/ ((nf =? 0) && (mf =? 0) = true /\ forall f, ~ hello_target t n f)
    | Err _ => forall f, ~ hello_target t n f
    | Panic => False end.
  Proof.
    destruct (colon_cases n) as [Hc|(p & b & -> & Hp)].
    - assert (Hone : forall f, hello_target t n f -> resolves t n f).
      { intros f M. inversion M as [n2 f2 C2 R2|p2 q2 f2 N2 C2 M2 E2]; subst; [exact R2|]. contradiction Hc. apply in_or_app. right. left. reflexivity. }
      destruct (FilesForCompoundName_simple t n Hc) as (F1 & F2 & F3). destruct (parseAddress_cases n) as [(f & Hn & _)|[Hn _]].
      + rewrite (F1 f Hn). pose proof (proj1 Hn) as Hl. assert (f <> 0) as H0 by (unfold legal in Hl; lia). left. split; [|split; [|exact H0]].
        * destruct (Z.eqb_spec f 0); [contradiction|reflexivity].
        * apply ht_one; [exact Hc|left; exact Hn].
      + destruct (FileForName_spec t n) as [(f & _ & Hr & Hl)|[_ Hnr]].
        * destruct Hr as [Hr|[_ Hr]]; [contradiction (Hn f Hr)|]. rewrite (F2 f Hn Hr). assert (f <> 0) as H0 by (unfold legal in Hl; lia). left. split; [|split; [|exact H0]].
          -- destruct (Z.eqb_spec f 0); [contradiction|reflexivity].
          -- apply ht_one; [exact Hc|right; split; assumption].
        * rewrite (F3 Hnr). right. split; [reflexivity|]. intros f M. apply (Hnr f). apply Hone. exact M.
    - assert (Hno : forall f, hello_target t (p ++ 58 :: b) f -> numeric p f /\ no_colon b /\ forall g, ~ numeric b g).
      { intros f M. inversion M as [n2 f2 C2 R2|p2 q2 f2 N2 C2 M2 E2]; subst.
        - contradiction C2. apply in_or_app. right. left. reflexivity.
        - destruct (colon_split _ _ _ _ (numeric_no_colon _ _ N2) Hp E2) as [-> ->]. split; [exact N2|]. split; assumption. }
      destruct (colon_cases b) as [Hb|(b1 & b2 & -> & _)].
      + destruct (FilesForCompoundName_compound t p b Hp Hb) as [F1 F2]. destruct (parseAddress_cases p) as [(f & Hn & _)|[Hn _]].
        * destruct (parseAddress_cases b) as [(g & Hg & _)|[Hg _]].
          -- destruct F2 as [e ->]; [right; exists g; exact Hg|]. intros f' M. destruct (Hno _ M) as (_ & _ & X). apply (X g Hg).
          -- destruct (F1 f Hn Hg) as [F3 F4]. pose proof (proj1 Hn) as Hl. assert (f <> 0) as H0 by (unfold legal in Hl; lia).
             assert (HT : hello_target t (p ++ 58 :: b) f) by (apply ht_both; assumption).
             destruct (FileForName_spec t b) as [(g & _ & [Hr|[_ Hr]] & _)|[_ Hnr]]; [contradiction (Hg g Hr)| |].
             ++ rewrite (F3 g Hr). left. split; [destruct (Z.eqb_spec f 0); [contradiction|reflexivity]|]. split; assumption.
             ++ rewrite F4 by (intros g X; apply (Hnr g); right; split; assumption). left. split; [destruct (Z.eqb_spec f 0); [contradiction|reflexivity]|]. split; assumption.
        * destruct F2 as [e ->]; [left; exact Hn|]. intros f' M. destruct (Hno _ M) as (X & _). apply (Hn _ X).
      + destruct (FilesForCompoundName_many t p b1 b2) as [e ->]. intros f' M. destruct (Hno _ M) as (_ & X & _).
        apply X. apply in_or_app. right. left. reflexivity.
  Qed.

  Lemma df01 : numeric (s2b "DF01") 1.
  Proof.
    destruct (parseAddress_cases (s2b "DF01")) as [(f & Hn & E)|[_ E]]; [|vm_compute in E; discriminate E].
    vm_compute in E. subst f. exact Hn.
  Qed.
  Lemma fhello_not : forall g, ~ numeric (s2b "FHELLO") g.
  Proof. destruct (parseAddress_cases (s2b "FHELLO")) as [(f & Hn & E)|[H _]]; [|exact H]. vm_compute in E. subst f. destruct Hn as [X _]. unfold legal in X. lia. Qed.
  Lemma no_colon_dec (s : bytes) : forallb (fun c => negb (c =? 58)) s = true -> no_colon s.
  Proof. intros H X. rewrite forallb_forall in H. specialize (H 58 X). discriminate H. Qed.
  Lemma symbol_file_dec t q f : symbol_file t q f \/ ~ symbol_file t q f.
  Proof.
    destruct (parseAddress_cases q) as [(g & Hn & _)|[Hn _]].
    2:{ destruct (FileForName_spec t q) as [(g & _ & [Hr|[_ Hr]] & _)|[_ Hnr]]; [contradiction (Hn g Hr)| |].
        - destruct (Z.eq_dec f g) as [->|Hne]; [left; exact Hr|right; intros X; apply Hne; apply (symbol_file_one t q f g Hn X Hr)].
        - right. intros X. apply (Hnr f). right. split; assumption. }
    unfold symbol_file. destruct (Z_le_dec 1 f) as [L1|L1]; [|right; intros [X _]; unfold legal in X; lia]. destruct (Z_le_dec f 253) as [L2|L2]; [|right; intros [X _]; unfold legal in X; lia].
    pose proof (find_name_spec t q 0) as HF. destruct (find_name t q 0) as [i|].
    - rewrite Z.sub_0_r in HF. destruct HF as (A1 & A2 & A3). destruct (Z.eq_dec (ad t i) (57088 + f)) as [E|E].
      + left. split; [unfold legal; lia|]. exists i. split; [|exact E]. split; [lia|]. split; [rewrite equal_fold_sym; exact A2|]. intros j Hj. rewrite equal_fold_sym. apply A3. lia.
      + right. intros (_ & j & (J1 & J2 & J3) & J4). apply E. rewrite <- J4. f_equal. destruct (Ztrichotomy i j) as [X|[X|X]]; [|exact X|].
        * rewrite equal_fold_sym, (J3 i ltac:(lia)) in A2. discriminate A2.
        * rewrite equal_fold_sym, (A3 j ltac:(lia)) in J2. discriminate J2.
    - right. intros (_ & j & (J1 & J2 & _) & _). rewrite equal_fold_sym, (HF j J1) in J2. discriminate J2.
  Qed.
  Lemma hello_put (d : bytes) t (s : bytes) : zlen d = 143360 -> zlen s = 16 ->
    (put_succeeds d t (s2b "B") true (s2b "DF01:FHELLO") s <->
       t <> [] /\ (0 < free_on d \/ file_on d 1 <> []) /\ (symbol_file t (s2b "FHELLO") 1 \/ (room_for t (s2b "FHELLO") /\ all_valid t))) /\
    ~ put_crashes d t (s2b "B") true (s2b "DF01:FHELLO") s.
  Proof.
    intros Hd Hs. assert (Hne : s <> []) by (intros ->; discriminate Hs).
    assert (Hsec : nsec s = 1) by (unfold nsec; rewrite Hs; reflexivity).
    assert (Hsp : 1 <= free_on d + sectors_on d 1 <-> (0 < free_on d \/ file_on d 1 <> [])).
    { pose proof (file_on_nil d 1 Hd) as HF. unfold free_on, sectors_on. pose proof (zlen_nonneg (owned (stored_map d) FREE)) as A.
      destruct (owned (stored_map d) 1) as [|x l] eqn:E.
      - rewrite (@zlen_nil Z). rewrite (proj2 HF eq_refl). split; [intros X; left; lia|]. intros [X|X]; [lia|contradiction X; reflexivity].
      - rewrite zlen_cons. pose proof (zlen_nonneg l). split; [intros _; right; intros X; apply HF in X; discriminate X|intros _; lia]. }
    assert (Hc : no_colon (s2b "FHELLO")) by (apply no_colon_dec; vm_compute; reflexivity).
    assert (Hacc : accepted (s2b "FHELLO")) by (right; vm_compute; repeat split; discriminate).
    assert (Hm : exists e, put_meaning d t (s2b "DF01:FHELLO") 1 (s2b "FHELLO") e /\ (e = false <-> symbol_file t (s2b "FHELLO") 1)).
    { change (s2b "DF01:FHELLO") with (s2b "DF01" ++ 58 :: s2b "FHELLO"). destruct (symbol_file_dec t (s2b "FHELLO") 1) as [H|H].
      - exists false. split; [apply pm_both; [exact df01|exact Hc|exact fhello_not|exact H]|]. split; [intros _; exact H|reflexivity].
      - exists true. split; [apply pm_at; [exact df01|exact Hc|exact fhello_not|exact H]|]. split; [intros X; discriminate X|contradiction]. }
    destruct Hm as (e & Hm & He). split.
    - split.
      + intros (f & q & e' & (_ & M & Hq & Hn & _) & _ & Hr). destruct (meaning_one _ _ _ _ _ _ _ _ _ M Hm) as (-> & -> & ->).
        destruct Hq as [X|[Ht _]]; [discriminate X|]. split; [exact Ht|]. split; [apply Hsp; lia|]. destruct e; [right; apply Hr; [reflexivity|discriminate]|left; apply He; reflexivity].
      + intros (Ht & Hf & Hr). exists 1, (s2b "FHELLO"), e. split; [|split; [intros X; contradiction|]].
        * split; [reflexivity|]. split; [exact Hm|]. split; [right; split; [exact Ht|exact Hacc]|]. split; [apply Hsp in Hf; lia|reflexivity].
        * intros -> _. destruct Hr as [Hr|Hr]; [|exact Hr]. apply He in Hr. discriminate Hr.
    - intros (f & q & e' & _ & X & _). contradiction.
  Qed.

  Lemma mkhello_found img order c d o t name address start w : found img order (s2b "auto") c d o ->
    names_on d t -> input w img c -> can_output w img true -> w_room w = None -> w_outroom w = None ->
    eventually (fun k => exits_by (mkhello_succeeds d t name address start) False (MkHelloCmd_Run iter k order img name address start) w).
  Proof.
    intros Hs Hn Hin Hco Hrm Hor. apply (naked_eventually img order (s2b "auto") c d o t w _ Hs Hn Hin).
    intros k op w1 _ Er Hsf Hr1 Ho1 _ En Ed Et Hr. destruct Hs as (_ & Hd & Hb).
    unfold exits_by. assert (Hself : same_files w w) by (intros x; reflexivity).
    destruct (Z.eqb_spec (address mod 256) 0) as [Ea|Ea].
    2:{ right. right. split; [intros (X & _); contradiction|]. split; [intros []|]. apply (exits_err _ _ w (EOther "address not on a page boundary")); [|exact Hself].
        unfold MkHelloCmd_Run. cbv zeta. destruct (Z.eqb_spec (address mod 256) 0); [contradiction|]. reflexivity. }
    assert (Hst : (start <> 65535 -> address <= start) <-> (if start =? 65535 then address else start) <? address = false).
    { destruct (Z.eqb_spec start 65535) as [->|Hne]; [split; [intros _; lia|intros _ X; contradiction X; reflexivity]|]. split; [intros X; specialize (X Hne); lia|intros X _; lia]. }
    destruct ((if start =? 65535 then address else start) <? address) eqn:Es.
    { right. right. split; [intros (_ & X & _); apply Hst in X; discriminate X|]. split; [intros []|]. apply (exits_err _ _ w (EOther "start address < load address")); [|exact Hself].
      unfold MkHelloCmd_Run. cbv zeta. rewrite Ea. cbn [Z.eqb negb]. rewrite Es. reflexivity. }
    assert (Hst' : start <> 65535 -> address <= start) by (apply Hst; reflexivity). clear Hst.
    assert (Erun : run (MkHelloCmd_Run iter k order img name address start) w =
       match FilesForCompoundName t name with
       | Ok (nf, mf, _) => if (nf =? 0) && (mf =? 0) then (w1, Err (EOther "cannot parse as valid filename")) else
           match PutFile (FI (Desc (s2b "DF01:FHELLO") [] 0 0 (zlen (hello_program (if nf =? 0 then mf else nf) address (if start =? 65535 then address else start))) false FiletypeBinary)
                    (hello_program (if nf =? 0 then mf else nf) address (if start =? 65535 then address else start)) 0) true op with
           | (op', Ok _) => run (WriteBack img (ONaked op') o true) w1
           | (_, Err e) => (w1, Err e) | (_, Panic) => (w1, Panic) end
       | Err e => (w1, Err e) | Panic => (w1, Panic) end).
    { unfold MkHelloCmd_Run. cbv zeta. rewrite Ea. change (0 =? 0) with true. cbn [negb]. rewrite Es, run_pbind, Er. cbv iota. rewrite Et, run_pbind. unfold plift at 1. cbn [run].
      destruct (FilesForCompoundName t name) as [[[nf mf] q]|e|]; [|reflexivity|reflexivity]. destruct ((nf =? 0) && (mf =? 0)); [reflexivity|].
      change (s2b "DF01:" ++ helloName) with (s2b "DF01:FHELLO"). cbn [Op_PutFile].
      destruct (PutFile _ true op) as [op' [b|e|]]; reflexivity. }
    pose proof (hello_exact t name) as HX. destruct (FilesForCompoundName t name) as [[[nf mf] q]|e|].
    - destruct HX as [(E0 & HT & H0)|[E0 HT]]; rewrite E0 in Erun.
      + match type of Erun with context [PutFile (FI (Desc _ _ _ _ (zlen ?s0) _ _) _ _) _ _] => remember s0 as s eqn:Eps end.
        assert (Hz16 : zlen s = 16) by (rewrite Eps; reflexivity). clear Eps.
        destruct (hello_put d t s Hd Hz16) as [HP1 HP2].
        assert (Hasc : is_ascii (s2b "DF01:FHELLO")) by (unfold is_ascii; repeat constructor; lia).
        destruct (Put_exact d op (s2b "B") FiletypeBinary true (s2b "DF01:FHELLO") s 0 Hd En Hb Hasc ltac:(vm_compute; reflexivity))
          as [(H1 & op' & b & EP & Hz)|[(H1 & _)|(H1 & H2 & op' & e & EP)]]; rewrite Et in *.
        * rewrite EP in Erun. left. split; [split; [exact Ea|]; split; [exact Hst'|]; split; [exists nf; exact HT|]; apply HP1; exact H1|].
          destruct (writeback_exits c o d op' img w w1 Hr Hz Hsf ltac:(congruence) ltac:(congruence) Hco) as [w' EW]. rewrite EW in Erun. apply (exits_ok _ _ _ Erun).
        * contradiction.
        * rewrite EP in Erun. right. right. split; [intros (_ & _ & _ & X); apply H1, HP1, X|]. split; [intros []|]. apply (exits_err _ _ _ _ Erun Hsf).
      + right. right. split; [intros (_ & _ & (f & X) & _); exact (HT f X)|]. split; [intros []|]. apply (exits_err _ _ _ _ Erun Hsf).
    - right. right. split; [intros (_ & _ & (f & X) & _); exact (HX f X)|]. split; [intros []|]. apply (exits_err _ _ _ _ Erun Hsf).
    - contradiction.
  Qed.
  Lemma mkhello_status img order c d o t name address start w :
    ProdosSpec.an_order iter -> seen_as img order c (s2b "nakedos") d o ->
    names_on d t -> input w img c -> can_output w img true -> w_room w = None -> w_outroom w = None ->
    eventually (fun k => exits_by (mkhello_succeeds d t name address start) False (MkHelloCmd_Run iter k order img name address start) w).
  Proof. intros Hi Hs. apply mkhello_found with (c := c) (o := o). apply seen_found; [assumption|assumption|left; reflexivity]. Qed.
End Status.
