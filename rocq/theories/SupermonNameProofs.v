(** SupermonNameProofs.v -- file names. *)
From Verif Require Import GoBase GoLemmas DiskModel TypesModel
  SupermonModel SupermonSpec SupermonTableSpec SupermonProofs SupermonSymProofs SupermonTabProofs.
From Coq Require Import ZifyBool ZifyNat Permutation.
Ltac Zify.zify_post_hook ::= Z.div_mod_to_equations.
Local Opaque zrange.

(** ** Hexadecimal numbers *)
Lemma hexval_digit c v : hexval c = Some v <-> hex_digit c v.
Proof.
  unfold hexval, is_digit. split.
  - destruct ((48 <=? c) && (c <=? 57)) eqn:E1.
    { intros H; inversion H; subst. apply hd_dec. lia. }
    destruct ((97 <=? c) && (c <=? 102)) eqn:E2.
    { intros H; inversion H; subst. replace (c - 97 + 10) with (c - 87) by lia. apply hd_low. lia. }
    destruct ((65 <=? c) && (c <=? 70)) eqn:E3; [|discriminate].
    intros H; inversion H; subst. replace (c - 65 + 10) with (c - 55) by lia. apply hd_up. lia.
  - intros H. destruct H as [c H|c H|c H].
    + replace ((48 <=? c) && (c <=? 57)) with true by lia. reflexivity.
    + replace ((48 <=? c) && (c <=? 57)) with false by lia.
      replace ((97 <=? c) && (c <=? 102)) with true by lia. f_equal. lia.
    + replace ((48 <=? c) && (c <=? 57)) with false by lia.
      replace ((97 <=? c) && (c <=? 102)) with false by lia.
      replace ((65 <=? c) && (c <=? 70)) with true by lia. f_equal. lia.
Qed.
Lemma parse_hex_app s c : forall acc, parse_hex_acc (s ++ [c]) acc =
  match parse_hex_acc s acc with
  | Some v => match hexval c with Some d => Some (v * 16 + d) | None => None end
  | None => None
  end.
Proof.
  induction s as [|x s IH]; intros acc; cbn [app parse_hex_acc].
  - destruct (hexval c); reflexivity.
  - destruct (hexval x); [apply IH | reflexivity].
Qed.
Lemma hex_number_iff s v : hex_number s v <-> s <> [] /\ parse_hex_acc s 0 = Some v.
Proof.
  split.
  - induction 1 as [c v H|s c v w H [IH1 IH2] Hd].
    + split; [discriminate|]. apply hexval_digit in H. cbn [parse_hex_acc]. rewrite H. f_equal.
    + split; [destruct s; discriminate|]. rewrite parse_hex_app, IH2. apply hexval_digit in Hd. rewrite Hd. f_equal. lia.
  - intros [Hne H]. revert v H. induction s as [|c s IH] using rev_ind; [contradiction|]. intros v H.
    rewrite parse_hex_app in H. destruct (parse_hex_acc s 0) as [w|] eqn:E; [|discriminate].
    destruct (hexval c) as [x|] eqn:Ex; [|discriminate]. inversion H; subst. apply hexval_digit in Ex.
    destruct s as [|y s].
    + cbn in E. inversion E; subst. cbn [app]. apply hn_one. exact Ex.
    + replace (w * 16 + x) with (16 * w + x) by lia. apply hn_more; [|exact Ex]. apply IH; [discriminate | reflexivity].
Qed.
Lemma hex_number_det s v w : hex_number s v -> hex_number s w -> v = w.
Proof. rewrite !hex_number_iff. intros [_ H1] [_ H2]. congruence. Qed.
Lemma hex_number_nonneg s v : hex_number s v -> 0 <= v.
Proof. induction 1 as [c v H|s c v w H IH Hd]; [destruct H; lia | destruct Hd; lia]. Qed.
Lemma parse_uint16_some s v : parse_uint16_hex s = Some v <-> hex_number s v /\ v < 65536.
Proof.
  rewrite hex_number_iff. unfold parse_uint16_hex. destruct s as [|c s].
  - split; [discriminate | intros [[H _] _]; contradiction].
  - destruct (parse_hex_acc (c :: s) 0) as [w|].
    + destruct (Z.ltb_spec w 65536).
      * split; [intros E; inversion E; subst; split; [split; [discriminate | reflexivity] | assumption]|].
        intros [[_ E] _]. exact E.
      * split; [discriminate|]. intros [[_ E] Hv]. inversion E; lia.
    + split; [discriminate | intros [[_ E] _]; discriminate].
Qed.
Lemma parse_uint16_none s : parse_uint16_hex s = None <-> forall v, hex_number s v -> 65536 <= v.
Proof.
  split.
  - intros E v Hv. destruct (Z_lt_le_dec v 65536) as [Hlt|]; [|assumption].
    assert (parse_uint16_hex s = Some v) by (apply parse_uint16_some; auto). congruence.
  - intros H. destruct (parse_uint16_hex s) as [v|] eqn:E; [|reflexivity].
    apply parse_uint16_some in E as [E1 E2]. specialize (H v E1). lia.
Qed.

(** ** Numeric names *)
Lemma parseAddress_numeric s f : numeric s f -> parseAddressFilename s = f.
Proof.
  intros (Hf & v & Hv & Hc). unfold legal in Hf. unfold parseAddressFilename.
  assert (parse_uint16_hex s = Some v) as -> by (apply parse_uint16_some; split; [exact Hv | lia]).
  unfold u8. destruct Hc as [->| ->].
  - replace ((0xDF00 <? f) && (f <? 0xDFFE)) with false by lia.
    replace ((0 <? f) && (f <? 254)) with true by lia. lia.
  - replace ((0xDF00 <? 0xDF00 + f) && (0xDF00 + f <? 0xDFFE)) with true by lia. lia.
Qed.
Lemma parseAddress_cases s :
  (exists f, numeric s f /\ parseAddressFilename s = f) \/
  ((forall f, ~ numeric s f) /\ parseAddressFilename s = 0).
Proof.
  unfold parseAddressFilename. destruct (parse_uint16_hex s) as [v|] eqn:E.
  - apply parse_uint16_some in E as [Hv Hlt]. pose proof (hex_number_nonneg _ _ Hv).
    destruct ((0xDF00 <? v) && (v <? 0xDFFE)) eqn:E1.
    + left. exists (u8 (v - 0xDF00)). split; [|reflexivity]. unfold u8, numeric, legal.
      split; [lia|]. exists v. split; [exact Hv | right; lia].
    + destruct ((0 <? v) && (v <? 254)) eqn:E2.
      * left. exists (u8 v). split; [|reflexivity]. unfold u8, numeric, legal. split; [lia|]. exists v. split; [exact Hv | left; lia].
      * right. split; [|reflexivity]. intros f (Hf & w & Hw & Hc). unfold legal in Hf.
        assert (w = v) by (eapply hex_number_det; eassumption). lia.
  - right. split; [|reflexivity]. intros f (Hf & w & Hw & Hc). unfold legal in Hf.
    rewrite parse_uint16_none in E. specialize (E w Hw). lia.
Qed.
Lemma numeric_det s f g : numeric s f -> numeric s g -> f = g.
Proof. intros H1 H2. apply parseAddress_numeric in H1, H2. congruence. Qed.
Lemma numeric_dec s : (exists f, numeric s f) \/ forall f, ~ numeric s f.
Proof. destruct (parseAddress_cases s) as [(f & H & _)|[H _]]; [left; exists f; exact H | right; exact H]. Qed.

Lemma hexchar_digit v : 0 <= v < 16 -> hex_digit (hexchar v) v /\ hexchar v = hexdigit v.
Proof.
  intros Hv.
  assert (v = 0 \/ v = 1 \/ v = 2 \/ v = 3 \/ v = 4 \/ v = 5 \/ v = 6 \/ v = 7 \/ v = 8 \/ v = 9 \/ v = 10 \/ v = 11 \/ v = 12 \/ v = 13 \/ v = 14 \/ v = 15) as Hc by lia.
  repeat (destruct Hc as [->|Hc]; [split; [apply hexval_digit; reflexivity | reflexivity]|]).
  subst v. split; [apply hexval_digit; reflexivity | reflexivity].
Qed.
Lemma printed_hex f : 0 <= f < 256 -> printed f = s2b "DF" ++ hex2 f.
Proof.
  intros Hf. unfold printed, hex2.
  destruct (hexchar_digit (f / 16)) as [_ ->]; [lia|]. destruct (hexchar_digit (f mod 16)) as [_ ->]; [lia|]. reflexivity.
Qed.
Lemma printed_numeric f : legal f -> numeric (printed f) f.
Proof.
  intros Hf. split; [exact Hf|]. unfold legal in Hf. exists (0xDF00 + f). split; [|right; reflexivity].
  destruct (hexchar_digit (f / 16)) as [H1 _]; [lia|]. destruct (hexchar_digit (f mod 16)) as [H2 _]; [lia|].
  replace (0xDF00 + f) with (16 * (16 * (16 * 13 + 15) + f / 16) + f mod 16) by lia.
  unfold printed. change (s2b "DF" ++ [hexchar (f / 16); hexchar (f mod 16)])
    with ((([68] ++ [70]) ++ [hexchar (f / 16)]) ++ [hexchar (f mod 16)]).
  apply hn_more; [|exact H2]. apply hn_more; [|exact H1]. apply (hn_more [68] 70 13 15).
  - apply hn_one. apply (hd_up 68). lia.
  - apply (hd_up 70). lia.
Qed.

(** Numeric names up to case. *)
Lemma hex_number_chars s v : hex_number s v -> Forall (fun c => exists x, hex_digit c x) s.
Proof.
  induction 1 as [c v H|s c v w H IH Hd].
  - constructor; [exists v; exact H | constructor].
  - apply Forall_app. split; [exact IH | constructor; [exists w; exact Hd | constructor]].
Qed.
Lemma numeric_no_colon s f : numeric s f -> no_colon s.
Proof.
  intros (_ & v & Hv & _) Hin. apply hex_number_chars in Hv. rewrite Forall_forall in Hv.
  destruct (Hv 58 Hin) as [x Hx]. inversion Hx; lia.
Qed.
Lemma numeric_nonempty s f : numeric s f -> s <> [].
Proof. intros (_ & v & Hv & _). apply hex_number_iff in Hv. tauto. Qed.

Lemma low_hex c : (exists x, hex_digit c x) -> forall c', low c = low c' -> hexval c = hexval c'.
Proof.
  intros [x Hx] c' H. unfold low, is_upper, hexval, is_digit in *. revert H.
  destruct ((65 <=? c) && (c <=? 90)) eqn:E1; destruct ((65 <=? c') && (c' <=? 90)) eqn:E2; intros H.
  - replace c' with c by lia. reflexivity.
  - assert (c' = c + 32) as -> by lia. inversion Hx; subst; try lia.
    replace ((48 <=? c) && (c <=? 57)) with false by lia. replace ((97 <=? c) && (c <=? 102)) with false by lia.
    replace ((65 <=? c) && (c <=? 70)) with true by lia. replace ((48 <=? c + 32) && (c + 32 <=? 57)) with false by lia.
    replace ((97 <=? c + 32) && (c + 32 <=? 102)) with true by lia. f_equal. lia.
  - assert (c = c' + 32) as -> by lia. inversion Hx; subst; try lia.
    replace ((48 <=? c') && (c' <=? 57)) with false by lia. replace ((97 <=? c') && (c' <=? 102)) with false by lia.
    replace ((65 <=? c') && (c' <=? 70)) with true by lia. replace ((48 <=? c' + 32) && (c' + 32 <=? 57)) with false by lia.
    replace ((97 <=? c' + 32) && (c' + 32 <=? 102)) with true by lia. f_equal. lia.
  - replace c' with c by lia. reflexivity.
Qed.
Lemma fold_case_ascii n : is_ascii n -> fold_case n = map low n.
Proof.
  intros H. induction H as [|c n Hc Hn IH]; [reflexivity|]. destruct n as [|c2 n]; [reflexivity|].
  cbn [fold_case]. cbn [map] in *. replace (c =? 197) with false by lia. cbn [andb].
  destruct n as [|c3 n]; [rewrite <- IH; reflexivity|].
  replace (c =? 226) with false by lia. cbn [andb]. rewrite <- IH. reflexivity.
Qed.
Lemma hex_ascii s : Forall (fun c => exists x, hex_digit c x) s -> is_ascii s.
Proof. apply Forall_impl. intros c [x Hx]. destruct Hx; lia. Qed.
(** A string that folds to the folding of a hex string is a hex string of the same value. *)
Lemma fold_hex s : Forall (fun c => exists x, hex_digit c x) s ->
  forall s', fold_case s' = map low s -> forall acc, parse_hex_acc s' acc = parse_hex_acc s acc.
Proof.
  induction 1 as [|c s Hc Hs IH]; intros s' E acc.
  { apply fold_case_nil in E. subst. reflexivity. }
  assert (low c <> 107 /\ low c <> 115) as [Hk Hs5].
  { destruct Hc as [x Hx]. unfold low, is_upper. destruct ((65 <=? c) && (c <=? 90)) eqn:E1; inversion Hx; lia. }
  destruct s' as [|c1 s']; [discriminate|].
  assert (exists rest, fold_case (c1 :: s') = low c1 :: fold_case rest /\ rest = s') as (rest & Ef & ->).
  { exists s'. split; [|reflexivity]. destruct s' as [|c2 s']; [reflexivity|].
    cbn [fold_case] in E |- *. destruct ((c1 =? 197) && (c2 =? 191)) eqn:E1.
    { exfalso. inversion E as [[H1 H2]]. rewrite <- H1 in Hs5. apply Hs5. reflexivity. }
    destruct s' as [|c3 s']; [reflexivity|].
    destruct ((c1 =? 226) && (c2 =? 132) && (c3 =? 170)) eqn:E2; [|reflexivity].
    exfalso. inversion E as [[H1 H2]]. rewrite <- H1 in Hk. apply Hk. reflexivity. }
  rewrite Ef in E. cbn [map] in E. inversion E as [[H1 H2]].
  cbn [parse_hex_acc]. rewrite (low_hex c Hc c1) by congruence.
  destruct (hexval c1); [apply IH; exact H2 | reflexivity].
Qed.
Lemma numeric_fold s s' f : numeric s f -> equal_fold s s' = true -> numeric s' f.
Proof.
  intros (Hf & v & Hv & Hc) E. split; [exact Hf|]. exists v. split; [|exact Hc].
  pose proof (hex_number_chars _ _ Hv) as Hh. apply hex_number_iff in Hv as [Hne Hp].
  unfold equal_fold in E. apply beq_eq in E. rewrite (fold_case_ascii s (hex_ascii s Hh)) in E.
  apply hex_number_iff. split.
  - intros ->. cbn in E. destruct s; [contradiction | discriminate].
  - rewrite (fold_hex s Hh s') by congruence. exact Hp.
Qed.

(** ** Resolution *)
Lemma FileForName_loop_spec t s :
  match FileForName_loop t s with
  | Some f => symbol_file t s f
  | None => forall f, ~ symbol_file t s f
  end.
Proof.
  induction t as [|x t IH]; cbn [FileForName_loop].
  - intros f (_ & i & ((Hi & _) & _)). rewrite (@zlen_nil Symbol) in Hi. lia.
  - destruct (equal_fold (s_name x) s) eqn:E.
    + assert (first_named (x :: t) s 0) as H0.
      { split; [rewrite zlen_cons; pose proof (zlen_nonneg t); lia|]. split; [exact E | intros; lia]. }
      destruct ((0xDF00 <? s_addr x) && (s_addr x <? 0xDFFE)) eqn:Ea.
      * unfold u8. split; [unfold legal; lia|]. exists 0. split; [exact H0|]. unfold ad. rewrite znth_cons_0. lia.
      * intros f (Hf & i & Hi & Ha).
        assert (i = 0) as ->.
        { destruct (Z.eq_dec i 0); [assumption|]. destruct Hi as (H1 & _ & H2). specialize (H2 0 ltac:(lia)).
          unfold nm in H2. rewrite znth_cons_0 in H2. congruence. }
        unfold ad in Ha. rewrite znth_cons_0 in Ha. unfold legal in Hf. lia.
    + assert (forall i, first_named t s i <-> first_named (x :: t) s (i + 1)) as Hs.
      { intros i. unfold first_named, nm. rewrite zlen_cons. split; intros (H1 & H2 & H3).
        - split; [lia|]. rewrite znth_cons_S by lia. replace (i + 1 - 1) with i by lia. split; [exact H2|].
          intros j Hj. destruct (Z.eq_dec j 0) as [->|]; [exact E|]. rewrite znth_cons_S by lia. apply H3. lia.
        - destruct (Z.eq_dec i (-1)) as [->|]; [cbn [Z.add Z.opp] in H2; change (-1 + 1) with 0 in H2; rewrite znth_cons_0 in H2; congruence|].
          rewrite znth_cons_S in H2 by lia. replace (i + 1 - 1) with i in H2 by lia. split; [lia|]. split; [exact H2|].
          intros j Hj. specialize (H3 (j + 1) ltac:(lia)). rewrite znth_cons_S in H3 by lia. replace (j + 1 - 1) with j in H3 by lia. exact H3. }
      destruct (FileForName_loop t s) as [f|].
      * destruct IH as (Hf & i & Hi & Ha). split; [exact Hf|]. exists (i + 1). split; [apply Hs; exact Hi|].
        destruct Hi as (Hi & _). unfold ad in *. rewrite znth_cons_S by lia. replace (i + 1 - 1) with i by lia. exact Ha.
      * intros f (Hf & i & Hi & Ha). apply (IH f). split; [exact Hf|]. exists (i - 1).
        split; [apply Hs; replace (i - 1 + 1) with i by lia; exact Hi|].
        destruct (Z.eq_dec i 0) as [->|].
        { destruct Hi as (_ & H & _). unfold nm in H. rewrite znth_cons_0 in H. congruence. }
        destruct Hi as (Hi & _). unfold ad in *. rewrite znth_cons_S in Ha by lia. exact Ha.
Qed.
Lemma symbol_file_det t s f g : symbol_file t s f -> symbol_file t s g -> f = g.
Proof.
  intros (_ & i & (I1 & I2 & I3) & Ha) (_ & j & (J1 & J2 & J3) & Hb).
  assert (i = j) as ->; [|lia]. destruct (Z.lt_trichotomy i j) as [H|[H|H]]; [|exact H|].
  - rewrite J3 in I2 by lia. discriminate.
  - rewrite I3 in J2 by lia. discriminate.
Qed.
Lemma FileForName_spec t s :
  (exists f, FileForName t s = Ok f /\ resolves t s f /\ legal f) \/
  (FileForName t s = Err EFileNotFound /\ forall f, ~ resolves t s f).
Proof.
  unfold FileForName. destruct (parseAddress_cases s) as [(f & Hn & E)|[Hn E]]; rewrite E.
  - left. exists f. destruct Hn as [Hf Hn]. unfold legal in Hf. replace (f =? 0) with false by lia. cbn [negb].
    split; [reflexivity|]. split; [left; split; assumption | exact Hf].
  - cbn [Z.eqb negb]. pose proof (FileForName_loop_spec t s) as Hl. destruct (FileForName_loop t s) as [f|].
    + left. exists f. split; [reflexivity|]. split; [right; auto | apply Hl].
    + right. split; [reflexivity|]. intros f [H|[_ H]]; [exact (Hn f H) | exact (Hl f H)].
Qed.
Lemma resolves_det t s f g : resolves t s f -> resolves t s g -> f = g.
Proof.
  intros [H1|[N1 H1]] [H2|[N2 H2]].
  - eapply numeric_det; eassumption.
  - exfalso. exact (N2 f H1).
  - exfalso. exact (N1 g H2).
  - eapply symbol_file_det; eassumption.
Qed.
Lemma FileForName_resolves t s f : FileForName t s = Ok f <-> resolves t s f.
Proof.
  destruct (FileForName_spec t s) as [(g & E & H & _)|[E H]]; rewrite E.
  - split; [intros Hg; inversion Hg; subst; exact H | intros Hf; f_equal; eapply resolves_det; eassumption].
  - split; [discriminate | intros Hf; exfalso; exact (H f Hf)].
Qed.
Lemma resolves_legal t s f : resolves t s f -> legal f.
Proof. intros [[H _]|[_ [H _]]]; exact H. Qed.

(** ** Colons *)
Lemma split_aux_none s : forall cur, no_colon s -> split_colon_aux s cur = [rev cur ++ s].
Proof.
  induction s as [|c s IH]; intros cur H; cbn [split_colon_aux]; [rewrite app_nil_r; reflexivity|].
  assert (c <> 58) by (intros ->; apply H; left; reflexivity). replace (c =? 58) with false by lia.
  rewrite IH by (intros Hin; apply H; right; exact Hin). cbn [rev]. rewrite <- app_assoc. reflexivity.
Qed.
Lemma split_aux_app a b : forall cur, no_colon a -> split_colon_aux (a ++ 58 :: b) cur = (rev cur ++ a) :: split_colon b.
Proof.
  induction a as [|c a IH]; intros cur H; cbn [app split_colon_aux].
  - rewrite Z.eqb_refl, app_nil_r. reflexivity.
  - assert (c <> 58) by (intros ->; apply H; left; reflexivity). replace (c =? 58) with false by lia.
    rewrite IH by (intros Hin; apply H; right; exact Hin). cbn [rev]. rewrite <- app_assoc. reflexivity.
Qed.
Lemma split_none s : no_colon s -> split_colon s = [s].
Proof. intros H. unfold split_colon. rewrite split_aux_none by exact H. reflexivity. Qed.
Lemma split_app a b : no_colon a -> split_colon (a ++ 58 :: b) = a :: split_colon b.
Proof. intros H. unfold split_colon at 1. rewrite split_aux_app by exact H. reflexivity. Qed.
Lemma colon_cases s : no_colon s \/ exists a b, s = a ++ 58 :: b /\ no_colon a.
Proof.
  induction s as [|c s [IH|(a & b & -> & Ha)]].
  - left. intros [].
  - destruct (Z.eq_dec c 58) as [->|Hc].
    + right. exists [], s. split; [reflexivity | intros []].
    + left. intros [H|H]; [congruence | exact (IH H)].
  - destruct (Z.eq_dec c 58) as [->|Hc].
    + right. exists [], (a ++ 58 :: b). split; [reflexivity | intros []].
    + right. exists (c :: a), b. split; [reflexivity|]. intros [H|H]; [congruence | exact (Ha H)].
Qed.
Lemma split_nonempty s : split_colon s <> [].
Proof.
  destruct (colon_cases s) as [H|(a & b & -> & H)].
  - rewrite split_none by exact H. discriminate.
  - rewrite split_app by exact H. discriminate.
Qed.

Lemma FilesForCompoundName_simple t s : no_colon s ->
  (forall f, numeric s f -> FilesForCompoundName t s = Ok (f, 0, [])) /\
  (forall f, (forall g, ~ numeric s g) -> symbol_file t s f -> FilesForCompoundName t s = Ok (f, f, s)) /\
  ((forall f, ~ resolves t s f) -> FilesForCompoundName t s = Ok (0, 0, s)).
Proof.
  intros Hc. unfold FilesForCompoundName. rewrite split_none by exact Hc. repeat split.
  - intros f Hf. rewrite (parseAddress_numeric _ _ Hf). destruct Hf as [Hf _]. unfold legal in Hf.
    replace (f =? 0) with false by lia. reflexivity.
  - intros f Hn Hs. destruct (parseAddress_cases s) as [(g & Hg & _)|[_ E]]; [exfalso; exact (Hn g Hg)|]. rewrite E.
    cbn [Z.eqb negb]. assert (FileForName t s = Ok f) as -> by (apply FileForName_resolves; right; auto). reflexivity.
  - intros H. destruct (parseAddress_cases s) as [(g & Hg & _)|[_ E]]; [exfalso; apply (H g); left; exact Hg|]. rewrite E.
    cbn [Z.eqb negb]. destruct (FileForName_spec t s) as [(f & _ & Hf & _)|[E2 _]]; [exfalso; exact (H f Hf)|]. rewrite E2. reflexivity.
Qed.
Lemma FilesForCompoundName_compound t p q : no_colon p -> no_colon q ->
  (forall f, numeric p f -> (forall g, ~ numeric q g) ->
     (forall g, symbol_file t q g -> FilesForCompoundName t (p ++ 58 :: q) = Ok (f, g, q)) /\
     ((forall g, ~ symbol_file t q g) -> FilesForCompoundName t (p ++ 58 :: q) = Ok (f, 0, q))) /\
  ((forall f, ~ numeric p f) \/ (exists g, numeric q g) -> exists e, FilesForCompoundName t (p ++ 58 :: q) = Err e).
Proof.
  intros Hp Hq. unfold FilesForCompoundName. rewrite split_app by exact Hp. rewrite split_none by exact Hq. split.
  - intros f Hf Hn. rewrite (parseAddress_numeric _ _ Hf). destruct Hf as [Hf _]. unfold legal in Hf.
    replace (f =? 0) with false by lia.
    destruct (parseAddress_cases q) as [(g & Hg & _)|[_ E]]; [exfalso; exact (Hn g Hg)|]. rewrite E. cbn [Z.eqb negb].
    split.
    + intros g Hg. assert (FileForName t q = Ok g) as -> by (apply FileForName_resolves; right; auto). reflexivity.
    + intros H. destruct (FileForName_spec t q) as [(g & _ & [Hg|[_ Hg]] & _)|[E2 _]]; [exfalso; exact (Hn g Hg) | exfalso; exact (H g Hg) | rewrite E2; reflexivity].
  - destruct (parseAddress_cases p) as [(f & Hf & Ef)|[Hf Ef]]; rewrite Ef.
    + intros [Hn|[g Hg]]; [exfalso; exact (Hn f Hf)|]. destruct Hf as [Hf _]. unfold legal in Hf.
      replace (f =? 0) with false by lia. rewrite (parseAddress_numeric _ _ Hg). destruct Hg as [Hg _]. unfold legal in Hg.
      replace (g =? 0) with false by lia. eexists; reflexivity.
    + intros _. eexists; reflexivity.
Qed.
Lemma FilesForCompoundName_many t p q r : exists e, FilesForCompoundName t (p ++ 58 :: q ++ 58 :: r) = Err e.
Proof.
  assert (exists a b c rest, split_colon (p ++ 58 :: q ++ 58 :: r) = a :: b :: c :: rest) as (a & b & c & rest & E).
  { assert (forall x y, exists a rest, split_colon (x ++ 58 :: y) = a :: rest /\ rest <> [] /\
               (forall z, split_colon y = z -> (length rest >= length z)%nat)) as H.
    { intros x y. induction x as [|k x IHx].
      - exists [], (split_colon y). split; [reflexivity|]. split; [apply split_nonempty|]. intros z <-. lia.
      - destruct (colon_cases (k :: x)) as [Hn|(u & v & Eu & Hu)].
        + exists (k :: x), (split_colon y). split; [apply split_app; exact Hn|]. split; [apply split_nonempty|]. intros z <-. lia.
        + rewrite Eu, <- app_assoc. cbn [app]. rewrite split_app by exact Hu.
          exists u, (split_colon (v ++ 58 :: y)). split; [reflexivity|]. split; [apply split_nonempty|]. intros z <-.
          clear -v. revert v. intros v. remember (length v) as n eqn:En. revert v En.
          induction n as [n IHn] using lt_wf_ind. intros v En.
          destruct (colon_cases v) as [Hv|(a & b & -> & Ha)].
          * rewrite split_app by exact Hv. cbn [length]. lia.
          * rewrite <- app_assoc. cbn [app]. rewrite split_app by exact Ha. cbn [length].
            assert (length b < n)%nat by (subst n; rewrite app_length; cbn [length]; lia).
            specialize (IHn (length b) ltac:(lia) b eq_refl). lia. }
    destruct (H p (q ++ 58 :: r)) as (a & rest & E & _ & HL). specialize (HL _ eq_refl).
    destruct (H q r) as (b & rest2 & E2 & Hne & _). rewrite E2 in HL. cbn [length] in HL.
    destruct rest2 as [|z rest2]; [contradiction|]. cbn [length] in HL.
    destruct rest as [|x [|y rest]]; cbn [length] in HL; try lia. exists a, x, y, rest. exact E. }
  unfold FilesForCompoundName. rewrite E. destruct rest; eexists; reflexivity.
Qed.
