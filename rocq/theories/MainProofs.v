(** MainProofs.v -- proofs for C85 and C86. *)
From Verif Require Import GoBase GoLemmas TypesModel TypesSpec CmdModel CmdSpec DetectSpec MainModel MainSpec.
From Verif Require Import DiskModel DiskSpec CmdProofs NakedCmdSpec NakedCmdProofs DetectProofs PrintProofs.
From Verif Require ProdosModel ProdosSpec Dos3Spec TypesProofs BasicSpec BasicStmtProofs Dos3StmtProofs.
From Coq Require Import ZifyBool ZifyNat.
Ltac Zify.zify_post_hook ::= Z.div_mod_to_equations.
Local Opaque zrange zeros sub.

(** ** lower *)
Lemma lower_or c : lower c = c \/ lower c = c + 32.
Proof.
  unfold lower. destruct (Z.testbit c 5) eqn:E; [left|right].
  - apply Z.bits_inj'. intros n Hn. rewrite Z.lor_spec. change 32 with (2 ^ 5). rewrite Z.pow2_bits_eqb by lia.
    destruct (5 =? n) eqn:E5; [|apply orb_false_r]. apply Z.eqb_eq in E5. subst n. rewrite E. reflexivity.
  - assert (H0 : Z.land c 32 = 0).
    { apply Z.bits_inj'. intros n Hn. rewrite Z.land_spec, Z.bits_0. change 32 with (2 ^ 5). rewrite Z.pow2_bits_eqb by lia.
      destruct (5 =? n) eqn:E5; [|apply andb_false_r]. apply Z.eqb_eq in E5. subst n. rewrite E. reflexivity. }
    rewrite <- Z.lxor_lor by exact H0. symmetry. apply Z.add_nocarry_lxor. exact H0.
Qed.
Lemma range_cases (P : Z -> Prop) a n : (forall k, (k < n)%nat -> P (a + Z.of_nat k)) -> forall c, a <= c < a + Z.of_nat n -> P c.
Proof. intros H c Hc. specialize (H (Z.to_nat (c - a))). replace (a + Z.of_nat (Z.to_nat (c - a))) with c in H by lia. apply H. lia. Qed.
Lemma lower_up c : 65 <= c <= 90 -> lower c = c + 32.
Proof.
  intros Hc. apply (range_cases (fun c => lower c = c + 32) 65 26); [|lia]. intros k Hk.
  do 26 (destruct k as [|k]; [reflexivity|]). lia.
Qed.
Lemma lower_low c : 97 <= c <= 122 -> lower c = c.
Proof.
  intros Hc. apply (range_cases (fun c => lower c = c) 97 26); [|lia]. intros k Hk.
  do 26 (destruct k as [|k]; [reflexivity|]). lia.
Qed.
Lemma lower_is c x : 97 <= x <= 122 -> lower c = x <-> c = x \/ c = x - 32.
Proof.
  intros Hx. split.
  - intros H. destruct (lower_or c); lia.
  - intros [->| ->]; [apply lower_low; lia|]. rewrite lower_up by lia. lia.
Qed.

(** ** Digits *)
Definition digit_val (c : Z) : option Z :=
  if is_dec c then Some (c - 48) else if is_low_letter c 122 then Some (lower c - 97 + 10) else None.
Lemma digit_iff b c v : digit b c v <-> digit_val c = Some v /\ v < b.
Proof.
  unfold digit_val, is_dec, is_low_letter. split.
  - intros [d H1 H2|d H1 H2|d H1 H2].
    + replace ((48 <=? d) && (d <=? 57)) with true by lia. auto.
    + replace ((48 <=? d) && (d <=? 57)) with false by lia. rewrite (lower_low d) by lia.
      replace ((97 <=? d) && (d <=? 122)) with true by lia. split; [f_equal; lia|lia].
    + replace ((48 <=? d) && (d <=? 57)) with false by lia. rewrite (lower_up d) by lia.
      replace ((97 <=? d + 32) && (d + 32 <=? 122)) with true by lia. split; [f_equal; lia|lia].
  - intros [H Hv]. destruct ((48 <=? c) && (c <=? 57)) eqn:E1.
    + injection H as <-. apply dg_dec; lia.
    + destruct ((97 <=? lower c) && (lower c <=? 122)) eqn:E2; [|discriminate H]. injection H as <-.
      destruct (lower_or c) as [E|E]; rewrite E in *.
      * replace (c - 97 + 10) with (c - 87) by lia. apply dg_low; lia.
      * replace (c + 32 - 97 + 10) with (c - 55) by lia. apply dg_up; lia.
Qed.
Lemma digit_pos b c v : digit b c v -> 0 <= v < b /\ c <> 95.
Proof. intros [d H1 H2|d H1 H2|d H1 H2]; lia. Qed.
Lemma digit_fun b c v w : digit b c v -> digit b c w -> v = w.
Proof. intros H1 H2. apply digit_iff in H1, H2. destruct H1 as [H1 _], H2 as [H2 _]. congruence. Qed.

(** ** The loop *)
Definition strip (s : bytes) : bytes := filter (fun c => negb (c =? 95)) s.
Definition value (b : Z) (n : Z) (ds : list Z) : Z := fold_left (fun n d => n * b + d) ds n.
Lemma value_ge b : 1 <= b -> forall ds n, 0 <= n -> Forall (fun d => 0 <= d) ds -> n <= value b n ds.
Proof.
  intros Hb. induction ds as [|d ds IH]; intros n Hn H; [apply Z.le_refl|]. inversion H; subst.
  unfold value. cbn [fold_left]. fold (value b (n * b + d) ds). specialize (IH (n * b + d) ltac:(nia) H3). nia.
Qed.
Lemma digits_nonneg b l ds : Forall2 (digit b) l ds -> Forall (fun d => 0 <= d) ds.
Proof. induction 1; constructor; [|assumption]. apply digit_pos in H. lia. Qed.
Lemma loop_spec b M : 1 <= b -> forall s n u m u', 0 <= n -> n <= M ->
  ParseUint_loop b M s n u = Ok (m, u') <->
  (exists ds, Forall2 (digit b) (strip s) ds /\ m = value b n ds /\ m <= M) /\ u' = (u || existsb (fun c => c =? 95) s)%bool.
Proof.
  intros Hb. induction s as [|c s IH]; intros n u m u' Hn HM.
  - cbn [ParseUint_loop strip filter existsb]. rewrite orb_false_r. split.
    + intros H. injection H as <- <-. split; [|reflexivity]. exists []. split; [constructor|]. split; [reflexivity|exact HM].
    + intros [[ds [H1 [H2 _]]] ->]. inversion H1; subst. reflexivity.
  - cbn [ParseUint_loop strip filter existsb]. destruct (c =? 95) eqn:Ec; cbn [negb].
    + rewrite IH by assumption. cbn [orb]. rewrite ?orb_true_r. unfold strip. reflexivity.
    + rewrite orb_false_l. fold (strip s). fold (digit_val c). destruct (digit_val c) as [d|] eqn:Ed.
      * destruct (b <=? d) eqn:Eb.
        -- split; [intros H; discriminate H|]. intros [[ds [H1 _]] _]. inversion H1; subst. apply digit_iff in H2. destruct H2 as [H2 H3]. rewrite Ed in H2. injection H2 as ->. lia.
        -- assert (Hdg : digit b c d) by (apply digit_iff; split; [exact Ed|lia]).
           assert (Hd := digit_pos _ _ _ Hdg). destruct (M <? n * b + d) eqn:EM.
           ++ split; [intros H; discriminate H|]. intros [[ds [H1 [H2 H3]]] _]. inversion H1; subst.
              assert (Ey : y = d) by (apply (digit_fun b c); assumption). subst y.
              unfold value in H3. cbn [fold_left] in H3. assert (Hge := value_ge b Hb l' (n * b + d) ltac:(nia) (digits_nonneg _ _ _ H6)).
              unfold value in Hge. lia.
           ++ rewrite IH by nia. split; intros [[ds [H1 [H2 H3]]] H4]; (split; [|exact H4]).
              ** exists (d :: ds). split; [constructor; assumption|]. split; [exact H2|exact H3].
              ** inversion H1; subst. assert (Ey : y = d) by (apply (digit_fun b c); assumption). subst y.
                 exists l'. split; [assumption|]. split; [reflexivity|exact H3].
      * split; [intros H; discriminate H|]. intros [[ds [H1 _]] _]. inversion H1; subst. apply digit_iff in H2. destruct H2 as [H2 _]. congruence.
Qed.
Lemma loop_panic b M : forall s n u, ParseUint_loop b M s n u <> Panic.
Proof.
  induction s as [|c s IH]; intros n u; cbn [ParseUint_loop]; [discriminate|].
  destruct (c =? 95); [apply IH|]. destruct (if is_dec c then _ else _); [|discriminate].
  destruct (b <=? z); [discriminate|]. destruct (M <? _); [discriminate|]. apply IH.
Qed.

(** ** Underscores *)
(** State after a prefix: [Some true] after a digit, [Some false] otherwise. *)
Fixpoint st (a : bool) (s : bytes) : option bool :=
  match s with
  | [] => Some a
  | c :: s' => if c =? 95 then (if a then st false s' else None) else st true s'
  end.
Lemma st_app a s t : st a (s ++ t) = match st a s with Some a' => st a' t | None => None end.
Proof.
  revert a. induction s as [|c s IH]; intros a; [reflexivity|]. cbn [app st]. destruct (c =? 95); [destruct a; [apply IH|reflexivity]|apply IH].
Qed.
Definition sep (a : bool) (s : bytes) : bool := match st a s with Some true => true | _ => false end.
Lemma under_loop hex : forall s saw, Forall (fun c => (is_dec c || hex && is_low_letter c 102)%bool = true) (strip s) ->
  (saw = 48 \/ saw = 95 \/ (saw = 94 /\ s <> [])) ->
  underscoreOK_loop hex s saw = sep (saw =? 48) s.
Proof.
  induction s as [|c s IH]; intros saw Hs Hsaw.
  - unfold sep. cbn [underscoreOK_loop st]. destruct Hsaw as [->|[->|[_ H]]]; [reflexivity|reflexivity|elim H; reflexivity].
  - unfold sep. cbn [underscoreOK_loop st]. cbn [strip filter] in Hs. destruct (c =? 95) eqn:Ec; cbn [negb] in Hs.
    + assert (Eh : (is_dec c || hex && is_low_letter c 102)%bool = false).
      { apply Z.eqb_eq in Ec. subst c. destruct hex; reflexivity. }
      rewrite Eh. destruct (saw =? 48) eqn:E48; [|reflexivity]. rewrite IH; [reflexivity|exact Hs|right; left; reflexivity].
    + inversion Hs; subst. rewrite H1. rewrite IH; [reflexivity|exact H2|left; reflexivity].
Qed.
Lemma sep_plain : forall s a, existsb (fun c => c =? 95) s = false -> (a = true \/ s <> []) -> sep a s = true.
Proof.
  unfold sep. induction s as [|c s IH]; intros a H Ha; cbn [st].
  - destruct Ha as [->|Ha]; [reflexivity|elim Ha; reflexivity].
  - cbn [existsb] in H. apply orb_false_elim in H as [Hc H]. rewrite Hc. apply IH; [exact H|left; reflexivity].
Qed.

Lemma strip_app s t : strip (s ++ t) = strip s ++ strip t.
Proof. apply filter_app. Qed.
Lemma strip_digit b c v : digit b c v -> strip [c] = [c].
Proof. intros H. apply digit_pos in H. unfold strip. cbn [filter]. replace (c =? 95) with false by lia. reflexivity. Qed.
Lemma value_snoc b n ds d : value b n (ds ++ [d]) = value b n ds * b + d.
Proof. unfold value. rewrite fold_left_app. reflexivity. Qed.
Lemma Forall2_snoc {A B} (R : A -> B -> Prop) l l' x : Forall2 R (l ++ [x]) l' -> exists m y, l' = m ++ [y] /\ Forall2 R l m /\ R x y.
Proof.
  intros H. apply Forall2_app_inv_l in H as [m [m' [H1 [H2 ->]]]]. inversion H2; subst. inversion H5; subst. exists m, y. auto.
Qed.
Lemma st_last a s c : st a (s ++ [c]) = Some true -> c <> 95.
Proof. rewrite st_app. destruct (st a s) as [x|]; [|discriminate]. cbn [st]. destruct (c =? 95) eqn:E; [destruct x; discriminate|lia]. Qed.
Lemma st_false_last a s c : st a (s ++ [c]) = Some false -> c = 95 /\ st a s = Some true.
Proof. rewrite st_app. destruct (st a s) as [x|]; [|discriminate]. cbn [st]. destruct (c =? 95) eqn:E; [|discriminate]. destruct x; [|discriminate]. intros _. split; [lia|reflexivity]. Qed.

Lemma digits_iff b s n : digits b s n <-> exists ds, Forall2 (digit b) (strip s) ds /\ n = value b 0 ds /\ sep false s = true.
Proof.
  split.
  - induction 1 as [c v H|s c n v H IH Hc|s c n v H IH Hc].
    + exists [v]. rewrite (strip_digit _ _ _ H). split; [constructor; [exact H|constructor]|]. split; [reflexivity|].
      unfold sep. cbn [st]. apply digit_pos in H. replace (c =? 95) with false by lia. reflexivity.
    + destruct IH as [ds [H1 [H2 H3]]]. exists (ds ++ [v]). rewrite strip_app, (strip_digit _ _ _ Hc).
      split; [apply Forall2_app; [exact H1|constructor; [exact Hc|constructor]]|].
      split; [rewrite value_snoc, H2; reflexivity|]. unfold sep in *. rewrite st_app. destruct (st false s) as [x|]; [|discriminate H3].
      cbn [st]. apply digit_pos in Hc. replace (c =? 95) with false by lia. reflexivity.
    + destruct IH as [ds [H1 [H2 H3]]]. exists (ds ++ [v]). change [95; c] with ([95] ++ [c]). rewrite !strip_app, (strip_digit _ _ _ Hc).
      split; [apply Forall2_app; [exact H1|constructor; [exact Hc|constructor]]|].
      split; [rewrite value_snoc, H2; reflexivity|]. unfold sep in *. rewrite !st_app. destruct (st false s) as [[]|]; [|discriminate H3|discriminate H3].
      cbn [app st Z.eqb Pos.eqb]. apply digit_pos in Hc. replace (c =? 95) with false by lia. reflexivity.
  - intros [ds [H1 [H2 H3]]]. remember (length s) as k eqn:Ek. revert s n ds Ek H1 H2 H3.
    induction k as [k IH] using lt_wf_ind. intros s n ds Ek H1 H2 H3.
    destruct (st false s) as [[]|] eqn:Est; unfold sep in H3; rewrite Est in H3; try discriminate H3. clear H3.
    destruct (list_eq_dec Z.eq_dec s []) as [->|Hne]; [discriminate Est|].
    destruct (exists_last Hne) as [s' [c ->]]. assert (Hc := st_last _ _ _ Est).
    rewrite strip_app in H1. unfold strip in H1 at 2. cbn [filter] in H1. replace (c =? 95) with false in H1 by lia. cbn [negb] in H1.
    apply Forall2_snoc in H1 as [ds' [v [-> [H1 Hv]]]]. rewrite value_snoc in H2. subst n.
    rewrite app_length in Ek. cbn [length] in Ek.
    rewrite st_app in Est. destruct (st false s') as [[]|] eqn:Es'; [| |discriminate Est].
    + apply ds_more; [|exact Hv]. refine (IH (length s') ltac:(lia) s' _ ds' eq_refl H1 eq_refl _). unfold sep. rewrite Es'. reflexivity.
    + destruct (list_eq_dec Z.eq_dec s' []) as [->|Hne'].
      * inversion H1; subst. cbn [app value fold_left]. replace (0 * b + v) with v by lia. apply ds_one. exact Hv.
      * destruct (exists_last Hne') as [s2 [c2 ->]]. apply st_false_last in Es' as [-> Es2].
        rewrite strip_app in H1. change (strip [95]) with (@nil Z) in H1. rewrite app_nil_r in H1.
        replace ((s2 ++ [95]) ++ [c]) with (s2 ++ [95; c]) by (rewrite <- app_assoc; reflexivity).
        rewrite app_length in Ek. apply ds_sep; [|exact Hv].
        refine (IH (length s2) ltac:(lia) s2 _ ds' eq_refl H1 eq_refl _). unfold sep. rewrite Es2. reflexivity.
Qed.

(** ** C85 *)
Lemma hex_ok b hex l ds : Forall2 (digit b) l ds -> (b <= 10 \/ (b <= 16 /\ hex = true)) ->
  Forall (fun c => (is_dec c || hex && is_low_letter c 102)%bool = true) l.
Proof.
  intros H Hb. induction H as [|c v l ds H _ IH]; constructor; [|exact IH]. clear IH.
  unfold is_dec, is_low_letter. destruct H as [d H1 H2|d H1 H2|d H1 H2].
  - replace ((48 <=? d) && (d <=? 57)) with true by lia. reflexivity.
  - destruct Hb as [Hb|[Hb ->]]; [lia|]. rewrite (lower_low d) by lia. lia.
  - destruct Hb as [Hb|[Hb ->]]; [lia|]. rewrite (lower_up d) by lia. lia.
Qed.
(** Outcome of the loop and the check together, [chk] being what underscoreOK amounts to. *)
Lemma parse_with b t chk (a : bool) n : 1 <= b ->
  (forall ds, Forall2 (digit b) (strip t) ds -> chk = sep a t) -> (a = true \/ t <> []) ->
  (r <- ParseUint_loop b 65535 t 0 false ;; let '(n, u) := r in if (u && negb chk)%bool then Err (EOther "strconv.ErrSyntax") else Ok n) = Ok n <->
  (exists ds, Forall2 (digit b) (strip t) ds /\ n = value b 0 ds /\ n <= 65535) /\ sep a t = true.
Proof.
  intros Hb Hchk Ha. assert (L := fun m u' => loop_spec b 65535 Hb t 0 false m u' ltac:(lia) ltac:(lia)). rewrite ?orb_false_l in L.
  destruct (ParseUint_loop b 65535 t 0 false) as [[m u]|e|] eqn:E.
  - destruct (proj1 (L m u) eq_refl) as [[ds [H1 [H2 H3]]] Hu]. cbn [rbind]. rewrite (Hchk ds H1). cbn [orb] in Hu.
    destruct (sep a t) eqn:Es.
    + cbn [negb]. rewrite andb_false_r. split.
      * intros H. injection H as <-. split; [exists ds; auto|reflexivity].
      * intros [[ds' [H1' [H2' H3']]] _]. pose proof (proj2 (L n u) (conj (ex_intro _ ds' (conj H1' (conj H2' H3'))) Hu)) as Q. injection Q as ->. reflexivity.
    + destruct u; [cbn; split; [intros H; discriminate H|intros [_ H]; discriminate H]|].
      rewrite (sep_plain t a (eq_sym Hu) Ha) in Es. discriminate Es.
  - cbn [rbind]. split; [intros H; discriminate H|]. intros [H _]. pose proof (proj2 (L n _) (conj H eq_refl)) as H'. discriminate H'.
  - elim (loop_panic b 65535 t 0 false E).
Qed.

Lemma st_true_iff t : t <> [] -> sep true t = true <-> sep false t = true \/ exists t', t = 95 :: t' /\ sep false t' = true.
Proof.
  intros Hne. destruct t as [|c t]; [elim Hne; reflexivity|]. unfold sep. cbn [st]. destruct (c =? 95) eqn:Ec.
  - apply Z.eqb_eq in Ec. subst c. split; [intros H; right; exists t; auto|]. intros [H|[t' [H H']]]; [discriminate H|]. injection H as <-. exact H'.
  - split; [intros H; left; exact H|]. intros [H|[t' [H H']]]; [exact H|]. injection H as -> _. discriminate Ec.
Qed.
Lemma prefix_form p b : prefix p b -> exists q, p = [48; q] /\ ((b = 2 /\ lower q = 98) \/ (b = 8 /\ lower q = 111) \/ (b = 16 /\ lower q = 120)).
Proof. intros []; (eexists; split; [reflexivity|]); [left|left|right; left|right; left|right; right|right; right]; split; reflexivity. Qed.
Lemma prefix_intro q b : (b = 2 /\ lower q = 98) \/ (b = 8 /\ lower q = 111) \/ (b = 16 /\ lower q = 120) -> prefix [48; q] b.
Proof.
  intros [[-> H]|[[-> H]|[-> H]]]; apply lower_is in H; try lia; destruct H as [->|H];
    [apply px_b|cbn in H; subst q; apply px_B|apply px_o|cbn in H; subst q; apply px_O|apply px_x|cbn in H; subst q; apply px_X].
Qed.
Lemma digits_head b c s n : digits b (c :: s) n -> exists v, digit b c v.
Proof.
  intros H. apply digits_iff in H as [ds [H1 [_ H3]]]. unfold sep in H3. cbn [st] in H3. cbn [strip filter] in H1.
  destruct (c =? 95); [discriminate H3|]. cbn [negb] in H1. inversion H1; subst. eexists; eassumption.
Qed.
Lemma digits_second b c d s n : digits b (c :: d :: s) n -> d = 95 \/ exists v, digit b d v.
Proof.
  intros H. apply digits_iff in H as [ds [H1 _]]. destruct (d =? 95) eqn:Ed; [left; lia|right].
  change (c :: d :: s) with ([c] ++ [d] ++ s) in H1. rewrite !strip_app in H1. unfold strip at 2 in H1. cbn [filter] in H1. rewrite Ed in H1. cbn [negb] in H1.
  apply Forall2_app_inv_l in H1 as [l1 [l2 [_ [H _]]]]. inversion H; subst. eexists; eassumption.
Qed.
Lemma digits_nil b n : ~ digits b [] n.
Proof. intros H. apply digits_iff in H as [ds [_ [_ H]]]. discriminate H. Qed.

Lemma prefixed b t n : (b = 2 \/ b = 8 \/ b = 16) -> t <> [] -> forall chk, chk = underscoreOK_loop (b =? 16) t 48 ->
  (r <- ParseUint_loop b 65535 t 0 false ;; let '(n, u) := r in if (u && negb chk)%bool then Err (EOther "strconv.ErrSyntax") else Ok n) = Ok n <->
  (digits b t n \/ exists t', t = 95 :: t' /\ digits b t' n) /\ n <= 65535.
Proof.
  intros Hb Hne chk Hchk. rewrite (parse_with b t chk true n); [|lia| |left; reflexivity].
  2: { intros ds H. rewrite Hchk, under_loop; [reflexivity| |left; reflexivity]. apply (hex_ok b _ _ ds H). destruct Hb as [->|[->| ->]]; [left; lia|left; lia|right; split; [lia|reflexivity]]. }
  rewrite st_true_iff by exact Hne. split.
  - intros [[ds [H1 [H2 H3]]] [H|[t' [-> H]]]]; (split; [|exact H3]).
    + left. apply digits_iff. exists ds. auto.
    + right. exists t'. split; [reflexivity|]. apply digits_iff. exists ds. auto.
  - intros [[H|[t' [-> H]]] Hn]; apply digits_iff in H as [ds [H1 [H2 H3]]].
    + split; [exists ds; auto|left; exact H3].
    + split; [exists ds; auto|right; exists t'; auto].
Qed.

Lemma parse_iff s n : ParseUint_0_16 s = Ok n <-> literal s n /\ n <= 65535.
Proof.
  destruct s as [|c s].
  { split; [intros H; discriminate H|]. intros [H _]. exfalso. inversion H as [| |p b t m Hp Hd E|p b t m Hp Hd E]; destruct Hp; discriminate E. }
  unfold ParseUint_0_16. destruct (base_of (c :: s)) as [b t] eqn:Eb. unfold base_of in Eb.
  destruct (c =? 48) eqn:Ec.
  2: { injection Eb as <- <-. rewrite (parse_with 10 (c :: s) (underscoreOK (c :: s)) false n).
    - split.
      + intros [[ds [H1 [H2 H3]]] H4]. split; [|exact H3]. apply lit_dec; [lia|]. apply digits_iff. exists ds. auto.
      + intros [H Hn]. assert (Hd : digits 10 (c :: s) n).
        { inversion H as [c' s' m Hc Hd E1|s' m Hd E1|p b t m Hp Hd E|p b t m Hp Hd E].
          - exact Hd.
          - subst c. discriminate Ec.
          - exfalso. apply prefix_form in Hp as [q [-> _]]. cbn [app] in E. injection E as <- _. discriminate Ec.
          - exfalso. apply prefix_form in Hp as [q [-> _]]. cbn [app] in E. injection E as <- _. discriminate Ec. }
        apply digits_iff in Hd as [ds [H1 [H2 H3]]]. split; [exists ds; auto|exact H3].
    - lia.
    - intros ds Hds. assert (Hall : Forall (fun c => (is_dec c || false && is_low_letter c 102)%bool = true) (strip (c :: s))) by (apply (hex_ok 10 false _ _ Hds); left; lia).
      assert (Hsign : (c =? 45) || (c =? 43) = false).
      { destruct ((c =? 45) || (c =? 43)) eqn:E; [|reflexivity]. exfalso. cbn [strip filter] in Hall. replace (c =? 95) with false in Hall by lia. cbn [negb] in Hall.
        apply Forall_inv in Hall. cbn [andb] in Hall. rewrite orb_false_r in Hall. unfold is_dec in Hall. lia. }
      assert (EU : underscoreOK (c :: s) = underscoreOK_loop false (c :: s) 94).
      { unfold underscoreOK. rewrite Hsign. destruct s as [|p s]; [reflexivity|]. rewrite Ec. cbn [andb]. reflexivity. }
      rewrite EU. rewrite under_loop; [reflexivity|exact Hall|]. right; right. split; [reflexivity|discriminate].
    - right. discriminate. }
  apply Z.eqb_eq in Ec. subst c.
  (* octal without a letter *)
  assert (OCT : (forall p s2, s = p :: s2 -> s2 <> [] -> lower p <> 98 /\ lower p <> 111 /\ lower p <> 120) ->
    (r <- ParseUint_loop 8 65535 s 0 false ;; let '(n, u) := r in if (u && negb (underscoreOK (48 :: s)))%bool then Err (EOther "strconv.ErrSyntax") else Ok n) = Ok n <->
    literal (48 :: s) n /\ n <= 65535).
  { intros Hp. rewrite (parse_with 8 s (underscoreOK (48 :: s)) true n).
    - split.
      + intros [[ds [H1 [H2 H3]]] H4]. split; [|exact H3]. apply lit_oct. apply digits_iff. exists (0 :: ds).
        split; [cbn [strip filter Z.eqb Pos.eqb negb]; constructor; [apply (dg_dec 8 48); lia|exact H1]|]. split; [exact H2|]. exact H4.
      + intros [H Hn]. assert (Hd : digits 8 (48 :: s) n).
        { inversion H as [c' s' m Hc Hd E1|s' m Hd E1|p b' t' m Hpr Hd E|p b' t' m Hpr Hd E].
          - elim Hc. reflexivity.
          - exact Hd.
          - exfalso. apply prefix_form in Hpr as [q [-> Hq]]. cbn [app] in E. injection E as E. 
            destruct (Hp q t' (eq_sym E)) as [A1 [A2 A3]]; [intros ->; exact (digits_nil _ _ Hd)|]. lia.
          - exfalso. apply prefix_form in Hpr as [q [-> Hq]]. cbn [app] in E. injection E as E.
            destruct (Hp q (95 :: t') (eq_sym E)) as [A1 [A2 A3]]; [discriminate|]. lia. }
        apply digits_iff in Hd as [ds [H1 [H2 H3]]]. cbn [strip filter Z.eqb Pos.eqb negb] in H1. inversion H1; subst.
        assert (y = 0) as -> by (apply (digit_fun 8 48); [assumption|apply (dg_dec 8 48); lia]).
        split; [exists l'; split; [assumption|]; split; [reflexivity|exact Hn]|exact H3].
    - lia.
    - intros ds Hds. assert (Hall : Forall (fun c => (is_dec c || false && is_low_letter c 102)%bool = true) (strip s)) by (apply (hex_ok 8 false _ _ Hds); left; lia).
      assert (EU : underscoreOK (48 :: s) = underscoreOK_loop false (48 :: s) 94).
      { unfold underscoreOK. cbn [Z.eqb Pos.eqb orb]. destruct s as [|p s]; [reflexivity|].
        destruct ((lower p =? 98) || (lower p =? 111) || (lower p =? 120)) eqn:El; [|reflexivity]. exfalso.
        assert (Hl : p <> 95 /\ is_dec p = false).
        { assert (Hx : lower p = 98 \/ lower p = 111 \/ lower p = 120) by lia.
          destruct Hx as [Hx|[Hx|Hx]]; apply lower_is in Hx; try lia; unfold is_dec; lia. }
        cbn [strip filter] in Hall. replace (p =? 95) with false in Hall by lia. cbn [negb] in Hall. apply Forall_inv in Hall.
        rewrite (proj2 Hl) in Hall. discriminate Hall. }
      rewrite EU. cbn [underscoreOK_loop]. change (is_dec 48) with true. cbn [orb]. rewrite under_loop; [reflexivity|exact Hall|left; reflexivity].
    - left. reflexivity. }
  destruct s as [|p s2].
  { injection Eb as <- <-. apply OCT. intros p s2 E. discriminate E. }
  destruct s2 as [|d s3].
  { injection Eb as <- <-. apply OCT. intros q s2 E Hs. injection E as -> <-. elim Hs. reflexivity. }
  remember (d :: s3) as s2 eqn:Es2. assert (Hne : s2 <> []) by (rewrite Es2; discriminate). clear Es2 d s3.
  assert (PRE : forall b', (b' = 2 /\ lower p = 98) \/ (b' = 8 /\ lower p = 111) \/ (b' = 16 /\ lower p = 120) ->
    (r <- ParseUint_loop b' 65535 s2 0 false ;; let '(n, u) := r in if (u && negb (underscoreOK (48 :: p :: s2)))%bool then Err (EOther "strconv.ErrSyntax") else Ok n) = Ok n <->
    literal (48 :: p :: s2) n /\ n <= 65535).
  { intros b' Hb'. rewrite prefixed; [|lia|exact Hne|].
    - assert (Hlit : literal (48 :: p :: s2) n <-> (digits b' s2 n \/ exists t', s2 = 95 :: t' /\ digits b' t' n)); [|rewrite Hlit; reflexivity].
      split.
      + intros H. inversion H as [c' s' m Hc Hd E1|s' m Hd E1|p0 b0 t' m Hpr Hd E|p0 b0 t' m Hpr Hd E].
        * elim Hc. reflexivity.
        * exfalso. apply digits_second in Hd.
          assert (Hx : lower p = 98 \/ lower p = 111 \/ lower p = 120) by lia.
          assert (Hp8 : 58 <= p) by (destruct Hx as [Hx|[Hx|Hx]]; apply lower_is in Hx; lia).
          destruct Hd as [Hd|[v Hd]].
          -- subst p. vm_compute in Hx. lia.
          -- destruct Hx as [Hx|[Hx|Hx]]; apply lower_is in Hx; try lia; inversion Hd; lia.
        * apply prefix_form in Hpr as [q [-> Hq]]. cbn [app] in E. injection E as Eq1 Eq2. subst q t'.
          assert (b0 = b') as -> by lia. left. exact Hd.
        * apply prefix_form in Hpr as [q [-> Hq]]. cbn [app] in E. injection E as Eq1 Eq2. subst q.
          assert (b0 = b') as -> by lia. right. exists t'. split; [symmetry; exact Eq2|exact Hd].
      + intros [H|[t' [-> H]]].
        * apply (lit_pre [48; p] b' s2 n); [apply prefix_intro; exact Hb'|exact H].
        * apply (lit_pre_ [48; p] b' t' n); [apply prefix_intro; exact Hb'|exact H].
    - unfold underscoreOK. cbn [Z.eqb Pos.eqb orb andb].
      replace ((lower p =? 98) || (lower p =? 111) || (lower p =? 120)) with true by lia.
      replace (b' =? 16) with (lower p =? 120) by lia. reflexivity. }
  destruct s2 as [|d s3]; [elim Hne; reflexivity|].
  destruct (lower p =? 98) eqn:E1; [injection Eb as <- <-; apply PRE; lia|].
  destruct (lower p =? 111) eqn:E2; [injection Eb as <- <-; apply PRE; lia|].
  destruct (lower p =? 120) eqn:E3; [injection Eb as <- <-; apply PRE; lia|].
  injection Eb as <- <-. apply OCT. intros q s2 E _. injection E as -> _. lia.
Qed.

Lemma C85_lemma s : (forall n, hexUint16Mapper_Decode s = Ok n <-> literal s n /\ n <= 65535) /\
  ((forall n, literal s n -> 65535 < n) -> exists e, hexUint16Mapper_Decode s = Err e).
Proof.
  assert (H := parse_iff s). unfold hexUint16Mapper_Decode. destruct (ParseUint_0_16 s) as [m|e|].
  - split; [exact H|]. intros Hn. destruct (proj1 (H m) eq_refl) as [H1 H2]. specialize (Hn m H1). lia.
  - split; [|eexists; reflexivity]. intros n. split; [intros E; discriminate E|]. intros E. apply H in E. discriminate E.
  - split; [|eexists; reflexivity]. intros n. split; [intros E; discriminate E|]. intros E. apply H in E. discriminate E.
Qed.

(** ** C86 *)
Lemma fold_max_ge l x : In x l -> x <= fold_right Z.max 0 l.
Proof. induction l as [|y l IH]; [intros []|]. intros [->|H]; cbn [fold_right]; [lia|]. specialize (IH H). lia. Qed.
Lemma col_width_ge rows j r : In r rows -> zlen (nth j r []) + 1 <= col_width rows j.
Proof. intros H. apply fold_max_ge. apply in_map_iff. exists r. auto. Qed.
Lemma tab_line_in rows : forall r j k, length r = S k -> (forall i, (i < length r)%nat -> zlen (nth i r []) + 1 <= col_width rows (j + i)) ->
  row_in (map (fun i => col_width rows (j + i)) (seq 0 k)) r (tab_line rows j r).
Proof.
  induction r as [|c r IH]; intros j k Hl H; [discriminate Hl|]. destruct r as [|c2 r].
  - injection Hl as Hl. subst k. apply ri_last.
  - destruct k as [|k]; [discriminate Hl|]. cbn [seq map]. change (tab_line rows j (c :: c2 :: r)) with (c ++ repeat 32 (Z.to_nat (col_width rows j - zlen c)) ++ tab_line rows (S j) (c2 :: r)).
    rewrite app_assoc. rewrite Nat.add_0_r. apply ri_cell.
    + specialize (H O ltac:(cbn; lia)). cbn [nth] in H. rewrite Nat.add_0_r in H. exists (Z.to_nat (col_width rows j - zlen c)).
      split; [lia|]. split; [reflexivity|]. rewrite zlen_app. unfold zlen at 2. rewrite repeat_length. lia.
    + rewrite <- seq_shift, map_map. rewrite (map_ext _ (fun i => col_width rows (S j + i))) by (intros; f_equal; lia).
      apply IH; [injection Hl as Hl; cbn [length]; lia|]. intros i Hi. specialize (H (S i) ltac:(cbn [length] in *; lia)). cbn [nth] in H.
      replace (S j + i)%nat with (j + S i)%nat by lia. exact H.
Qed.
Lemma tab_text_in rows k : Forall (fun r => length r = S k) rows ->
  exists ws ts, length ws = k /\ Forall2 (row_in ws) rows ts /\ tab_text rows = concat ts.
Proof.
  intros H. exists (map (fun i => col_width rows (0 + i)) (seq 0 k)), (map (tab_line rows 0) rows).
  split; [rewrite map_length, seq_length; reflexivity|]. split; [|reflexivity].
  assert (G : forall l, incl l rows -> Forall2 (row_in (map (fun i => col_width rows (0 + i)) (seq 0 k))) l (map (tab_line rows 0) l)).
  { induction l as [|r l IH]; intros Hl; constructor.
    - assert (Hr : In r rows) by (apply Hl; left; reflexivity). rewrite Forall_forall in H. apply tab_line_in; [exact (H r Hr)|]. intros i Hi. apply col_width_ge. exact Hr.
    - apply IH. intros x Hx. apply Hl. right. exact Hx. }
  apply G. apply incl_refl.
Qed.

Lemma filter_all {A} (f : A -> bool) l : Forall (fun x => f x = true) l -> filter f l = l.
Proof. induction 1 as [|x l Hx H IH]; [reflexivity|]. cbn [filter]. rewrite Hx, IH. reflexivity. Qed.
Lemma nodup_map_filter {A B} (g : A -> B) (f : A -> bool) l : NoDup (map g l) -> NoDup (map g (filter f l)).
Proof.
  induction l as [|x l IH]; intros H; [exact H|]. cbn [map] in H. inversion H as [|? ? N1 N2]; subst. cbn [filter].
  destruct (f x); [|exact (IH N2)]. cbn [map]. constructor; [|exact (IH N2)].
  intros Hi. apply N1. apply in_map_iff in Hi as (y & E & Hy). apply filter_In in Hy as [Hy _]. apply in_map_iff. eauto.
Qed.
Lemma C86_lemma (all : bool) w : w_outroom w = None ->
  exists ws ts infos, length ws = 3%nat /\
    Forall2 (row_in ws) (header :: dashes :: map shown_row infos) ts /\
    prints (FiletypesCmd_Run all) w (concat ts) /\
    (exists keep, infos = filter keep filetypeInfos) /\ NoDup (map fi_type infos) /\
    (forall i, In i infos <-> In i filetypeInfos /\ (all = true \/ fi_extra i = false)) /\
    (forall n t, FiletypeForName n = Ok t -> exists i, In i filetypeInfos /\ fi_type i = t /\ In n (tl (shown_row i))).
Proof.
  intros Hw. destruct (tab_text_in (filetypes_rows all) 3) as [ws [ts [H1 [H2 H3]]]].
  { unfold filetypes_rows. constructor; [reflexivity|]. constructor; [reflexivity|]. apply Forall_forall. intros r Hr. apply in_map_iff in Hr as [i [<- _]]. reflexivity. }
  exists ws, ts, (FiletypeInfos all). split; [exact H1|]. split; [exact H2|]. split; [|split; [|split; [|split]]].
  - unfold prints, FiletypesCmd_Run. cbn [run]. unfold sys_stdout. rewrite Hw. cbn [fits run pret]. rewrite <- H3.
    eexists. split; [reflexivity|]. split; [|reflexivity]. intros x. reflexivity.
  - exists (fun i => all || negb (fi_extra i)). unfold FiletypeInfos. destruct all; [|reflexivity].
    symmetry. apply filter_all. apply Forall_forall. reflexivity.
  - unfold FiletypeInfos. destruct all; [exact TypesProofs.types_nodup|]. apply nodup_map_filter. exact TypesProofs.types_nodup.
  - intros i. unfold FiletypeInfos. destruct all.
    + split; [intros H; split; [exact H|left; reflexivity]|intros [H _]; exact H].
    + rewrite filter_In. split; [intros [A B]; split; [exact A|right; destruct (fi_extra i); [discriminate B|reflexivity]]|].
      intros [A [B|B]]; [discriminate B|]. split; [exact A|rewrite B; reflexivity].
  - intros n t H. apply TypesProofs.C61_lemma in H as [i [Hi Ht]]. exists i. destruct Hi as [l1 [l2 [E [Hc _]]]].
    split; [change filetypeInfos with (FiletypeInfos true); rewrite E; apply in_or_app; right; left; reflexivity|]. split; [exact Ht|].
    unfold carries in Hc. cbn [shown_row tl]. destruct Hc as [<-|[<-|<-]]; [left|right; left|right; right; left]; reflexivity.
Qed.
Lemma ex_refused : Forall (fun s => exists e, hexUint16Mapper_Decode s = Err e)
    [s2b ""; s2b "$801"; s2b "801h"; s2b "BFFF"; s2b "0801"; s2b "-1"; s2b "65536"; s2b "0x"; s2b "1__0"; s2b "18446744073709551616"].
Proof. repeat (constructor; [eexists; vm_compute; reflexivity|]). constructor. Qed.

(** ** C87 *)
Lemma honest_ret {A} (r : res A) : honest (PRet r).
Proof. intros w w' a _. exact I. Qed.
Lemma honest_bind {A B} (f : A -> prog B) : (forall a, honest (f a)) -> forall p, honest p -> honest (pbind p f).
Proof.
  intros Hf p Hp w w' b. specialize (Hp w). revert w w' b Hp. 
  induction p as [r|n k IH|k IH|n k IH|n c k IH|c k IH]; intros w w' b Hp.
  - destruct r as [a|e|]; cbn [pbind run all_written]; [apply Hf|intros _; exact I|intros _; exact I].
  - cbn [pbind run all_written] in *. intros H. exact (IH _ w w' b Hp H).
  - cbn [pbind run all_written] in *. destruct (sys_stdin w) as [w1 r1]. intros H. exact (IH _ w1 w' b Hp H).
  - cbn [pbind run all_written] in *. intros H. exact (IH _ w w' b Hp H).
  - cbn [pbind run all_written] in *. destruct (sys_write w n c) as [w1 r1] eqn:E. cbn [fst snd] in *. intros H.
    assert (Hr : exists w2 a, run (k r1) w1 = (w2, Ok a)).
    { clear - H. revert w1 H. generalize (k r1). intros q. induction q as [r|n' k' IH'|k' IH'|n' k' IH'|n' c' k' IH'|c' k' IH']; intros w1 H; cbn [pbind run] in *.
      - destruct r as [a|e|]; [exists w1, a; reflexivity|cbn [run] in H; congruence|cbn [run] in H; congruence].
      - exact (IH' _ _ H).
      - destruct (sys_stdin w1). exact (IH' _ _ H).
      - exact (IH' _ _ H).
      - destruct (sys_write w1 n' c'). exact (IH' _ _ H).
      - destruct (sys_stdout w1 c'). exact (IH' _ _ H). }
    destruct Hr as [w2 [a Hr]]. destruct (Hp w2 a Hr) as [-> Hk]. split; [reflexivity|].
    refine (IH (Ok tt) w1 w' b (fun _ _ _ => Hk) H).
  - cbn [pbind run all_written] in *. destruct (sys_stdout w c) as [w1 r1] eqn:E. cbn [fst snd] in *. intros H.
    assert (Hr : exists w2 a, run (k r1) w1 = (w2, Ok a)).
    { clear - H. revert w1 H. generalize (k r1). intros q. induction q as [r|n' k' IH'|k' IH'|n' k' IH'|n' c' k' IH'|c' k' IH']; intros w1 H; cbn [pbind run] in *.
      - destruct r as [a|e|]; [exists w1, a; reflexivity|cbn [run] in H; congruence|cbn [run] in H; congruence].
      - exact (IH' _ _ H).
      - destruct (sys_stdin w1). exact (IH' _ _ H).
      - exact (IH' _ _ H).
      - destruct (sys_write w1 n' c'). exact (IH' _ _ H).
      - destruct (sys_stdout w1 c'). exact (IH' _ _ H). }
    destruct Hr as [w2 [a Hr]]. destruct (Hp w2 a Hr) as [-> Hk]. split; [reflexivity|].
    refine (IH (Ok tt) w1 w' b (fun _ _ _ => Hk) H).
Qed.
Lemma honest_stdout c : honest (PStdout c PRet).
Proof. intros w w' [] H. cbn [run all_written] in *. destruct (sys_stdout w c) as [w1 r]. cbn [run fst snd] in *. injection H as _ ->. auto. Qed.
Lemma honest_write n c : honest (PWrite n c PRet).
Proof. intros w w' [] H. cbn [run all_written] in *. destruct (sys_write w n c) as [w1 r]. cbn [run fst snd] in *. injection H as _ ->. auto. Qed.
Lemma honest_read {A} n (k : res bytes -> prog A) : (forall r, honest (k r)) -> honest (PRead n k).
Proof. intros Hk w w' a H. exact (Hk _ w w' a H). Qed.
Lemma honest_stdin {A} (k : res bytes -> prog A) : (forall r, honest (k r)) -> honest (PStdin k).
Proof. intros Hk w w' a H. cbn [run all_written] in *. destruct (sys_stdin w) as [w1 r]. exact (Hk _ w1 w' a H). Qed.
Lemma honest_stat {A} n (k : bool -> prog A) : (forall r, honest (k r)) -> honest (PStat n k).
Proof. intros Hk w w' a H. exact (Hk _ w w' a H). Qed.
Lemma honest_contents s : honest (FileContentsOrStdIn s).
Proof. unfold FileContentsOrStdIn. destruct (beq s dash); [apply honest_stdin|apply honest_read]; intros r; apply honest_ret. Qed.
Lemma honest_output f c force : honest (WriteOutput f c force).
Proof.
  unfold WriteOutput. destruct (beq f dash); [apply honest_stdout|]. destruct force; [apply honest_write|].
  apply honest_stat. intros []; cbn [negb]; [apply honest_write|apply honest_ret].
Qed.
Lemma honest_open iter fuel f o s : honest (OpenFilename iter fuel f o s).
Proof. unfold OpenFilename. destruct (beq f dash); (apply honest_bind; [intros bb; apply honest_ret|]); [apply honest_stdin|apply honest_read]; intros r; apply honest_ret. Qed.
Lemma honest_writeback f op o b : honest (WriteBack f op o b).
Proof. unfold WriteBack. apply honest_bind; [intros d; apply honest_output|apply honest_ret]. Qed.

Lemma C87_lemma (iter : list (Z * ProdosModel.Subdirectory) -> list (Z * ProdosModel.Subdirectory)) fuel order system img name :
  (forall force, honest (DeleteCmd_Run iter fuel order system force img name)) /\
  (forall ft ow addr src, honest (PutCmd_Run iter fuel order system ft ow addr img name src)) /\
  (forall newOrder ow new, honest (ReorderCmd_Run order newOrder ow img new)) /\
  (forall binary addr start, honest (SDCmd_Run order img binary addr start)) /\
  (forall addr start, honest (MkHelloCmd_Run iter fuel order img name addr start)) /\
  honest (DumpCmd_Run iter fuel order system img name).
Proof.
  split; [|split; [|split; [|split; [|split]]]].
  - intros force. unfold DeleteCmd_Run. apply honest_bind; [|apply honest_open]. intros [op o]. destruct (Op_Delete op name) as [op' r].
    apply honest_bind; [|apply honest_ret]. intros del. destruct (negb del && negb force); [apply honest_ret|apply honest_writeback].
  - intros. unfold PutCmd_Run. destruct (beq img dash && beq src dash); [apply honest_ret|].
    apply honest_bind; [|apply honest_open]. intros [op o]. apply honest_bind; [|apply honest_contents]. intros c.
    apply honest_bind; [|apply honest_ret]. intros t. destruct (Op_PutFile op _ ow) as [op' r].
    apply honest_bind; [|apply honest_ret]. intros _. apply honest_writeback.
  - intros. unfold ReorderCmd_Run. apply honest_bind; [|apply honest_ret]. intros [a b]. apply honest_bind; [|apply honest_contents]. intros c.
    destruct (DiskModel.LogicalToPhysicalByName a); [|apply honest_ret]. destruct (DiskModel.PhysicalToLogicalByName b); [|apply honest_ret].
    apply honest_bind; [|apply honest_ret]. intros r1. apply honest_bind; [|apply honest_ret]. intros r2.
    destruct (beq new []); apply honest_output.
  - intros. unfold SDCmd_Run. apply honest_bind; [|apply honest_contents]. intros c. apply honest_bind; [|apply honest_ret]. intros r. apply honest_output.
  - intros. unfold MkHelloCmd_Run. destruct (negb _); [apply honest_ret|]. destruct (_ <? addr); [apply honest_ret|].
    apply honest_bind; [|apply honest_open]. intros [op o]. destruct op as [d|nop|d]; [apply honest_ret| |apply honest_ret].
    apply honest_bind; [|apply honest_ret]. intros [[a b] c]. destruct ((a =? 0) && (b =? 0)); [apply honest_ret|].
    match goal with |- context [Op_PutFile ?x ?y ?z] => destruct (Op_PutFile x y z) as [op' r] end.
    apply honest_bind; [|apply honest_ret]. intros _. apply honest_writeback.
  - unfold DumpCmd_Run. apply honest_bind; [|apply honest_open]. intros [op o]. apply honest_bind; [|apply honest_ret]. intros f. apply honest_stdout.
Qed.

Definition full_out (img c : bytes) : world := World (fun x => if beq x img then NFile c true true else NMissing) (Some []) [] None (Some 0).
Lemma C87_ft all : ~ honest (FiletypesCmd_Run all).
Proof.
  intros H. destruct all.
  - destruct (H (full_out [] []) _ tt eq_refl) as [A _]. vm_compute in A. discriminate A.
  - destruct (H (full_out [] []) _ tt eq_refl) as [A _]. vm_compute in A. discriminate A.
Qed.
Lemma C87_decode : ~ honest (DecodeCmd_Run 5 (s2b "p") 0x801 false).
Proof.
  intros H.
  destruct (run (DecodeCmd_Run 5 (s2b "p") 0x801 false) (full_out (s2b "p") (BasicSpec.program 0x801 BasicStmtProofs.ex_small))) as [w' r] eqn:E.
  assert (Hr : r = Ok tt) by (apply (f_equal snd) in E; vm_compute in E; symmetry; exact E). subst r.
  apply H in E. vm_compute in E. destruct E as [E _]. discriminate E.
Qed.
Lemma ls_lines_ok short fds w : exists w', run (ls_lines short fds) w = (w', Ok tt).
Proof. revert w. induction fds as [|fd fds IH]; intros w; [exists w; reflexivity|]. cbn [ls_lines run]. destruct (sys_stdout w (ls_line short fd)) as [w1 r]. apply IH. Qed.
Lemma all_written_bind {A B} (f : A -> prog B) : forall p w w1 a, run p w = (w1, Ok a) -> all_written (pbind p f) w -> all_written (f a) w1.
Proof.
  induction p as [r|n k IH|k IH|n k IH|n c k IH|c k IH]; intros w w1 a; cbn [run pbind all_written].
  - intros H. injection H as <- ->. exact (fun x => x).
  - apply IH.
  - destruct (sys_stdin w). apply IH.
  - apply IH.
  - destruct (sys_write w n c) as [w2 r]. cbn [fst snd]. intros H [-> H2]. exact (IH _ _ _ _ H H2).
  - destruct (sys_stdout w c) as [w2 r]. cbn [fst snd]. intros H [-> H2]. exact (IH _ _ _ _ H H2).
Qed.
Lemma C87_ls_gen (iter : list (Z * ProdosModel.Subdirectory) -> list (Z * ProdosModel.Subdirectory)) img order c d o l :
  ProdosSpec.an_order iter -> seen_as img order c (s2b "dos3") d o -> bytes_ok d -> Dos3Spec.catalog d l -> img <> s2b "-" ->
  filter Dos3Spec.is_live (Dos3Spec.entries d l) <> [] ->
  eventually (fun fuel => ~ honest (LsCmd_Run iter fuel order (s2b "auto") false img [])).
Proof.
  intros Hi Hs Bd C Himg Hlive. destruct (Dos3StmtProofs.C16_lemma d l Bd C) as [_ HC].
  eapply eventually_impl; [|exact (eventually_and _ _ (opens iter _ _ _ _ _ _ _ Hi Hs (or_introl eq_refl)) (eventually_returns _ _ HC))].
  intros k [(op & Ho & Hop) (r & (descs & -> & HF) & Er)]. inversion Hop; subst. intros H.
  remember (full_out img c) as w eqn:Ew.
  assert (Hin : input w img c).
  { rewrite Ew. right. split; [exact Himg|]. exists true. cbn [full_out w_fs]. rewrite beq_refl. reflexivity. }
  destruct (open_run_ok iter k _ _ _ _ _ _ _ Hin Ho) as (w1 & Er1 & _ & _ & _ & Hor & _).
  destruct (ls_lines_ok false descs w1) as [w' Hl].
  assert (Hcat : Op_Catalog iter k (ODos3 d) [] = Ok descs) by (cbn [Op_Catalog]; rewrite Er; reflexivity).
  assert (R : run (LsCmd_Run iter k order (s2b "auto") false img []) w = (w', Ok tt)).
  { unfold LsCmd_Run. rewrite run_pbind, Er1. cbn [beq negb andb]. rewrite run_pbind. unfold plift. cbn [run]. rewrite Hcat. exact Hl. }
  apply H in R. unfold LsCmd_Run in R. apply (all_written_bind _ _ _ _ _ Er1) in R. cbn [beq negb andb] in R.
  apply (all_written_bind _ (plift (Op_Catalog iter k (ODos3 d) [])) w1 w1 descs) in R; [|unfold plift; cbn [run]; rewrite Hcat; reflexivity].
  destruct descs as [|fd descs].
  - inversion HF; subst. apply Hlive. symmetry. assumption.
  - cbn [ls_lines all_written] in R. destruct R as [R _]. unfold sys_stdout in R. rewrite Hor, Ew in R. cbn [full_out w_outroom] in R.
    unfold fits in R. unfold ls_line in R at 1. rewrite zlen_app in R. change (zlen [10]) with 1 in R.
    match type of R with context [zlen ?x + 1 <=? 0] => pose proof (zlen_nonneg x); replace (zlen x + 1 <=? 0) with false in R by lia end.
    discriminate R.
Qed.
Lemma ex_live : filter Dos3Spec.is_live (Dos3Spec.entries Dos3StmtProofs.ex_dos_disk [(17, 15); (17, 14)]) <> [].
Proof.
  assert (H : Nat.eqb (length (filter Dos3Spec.is_live (Dos3Spec.entries Dos3StmtProofs.ex_dos_disk [(17, 15); (17, 14)]))) 0 = false) by (vm_compute; reflexivity).
  revert H. generalize (filter Dos3Spec.is_live (Dos3Spec.entries Dos3StmtProofs.ex_dos_disk [(17, 15); (17, 14)])). intros l H ->. discriminate H.
Qed.
Lemma C87_ls (iter : list (Z * ProdosModel.Subdirectory) -> list (Z * ProdosModel.Subdirectory)) : ProdosSpec.an_order iter ->
  eventually (fun fuel => ~ honest (LsCmd_Run iter fuel (s2b "auto") (s2b "auto") false (s2b "x.dsk") [])).
Proof.
  intros Hi. refine (C87_ls_gen iter _ _ _ _ _ _ Hi ex_seen_dos Dos3StmtProofs.ex_dos_disk_ok Dos3StmtProofs.ex_catalog _ ex_live). discriminate.
Qed.
