(** BasicProofs.v -- proofs about package basic, with the statements of PropertiesBasic. *)
From Verif Require Import GoBase GoLemmas CodecLemmas DiskSpec BasicModel BasicSpec.
From Verif Require Dos3Spec Dos3Proofs ProdosSpec.
From Coq Require Import ZifyBool ZifyNat.
Ltac Zify.zify_post_hook ::= Z.div_mod_to_equations.
Local Opaque zrange zeros sub.
#[local] Opaque applesoftTokens integerTokens.

(** ** Decimal numerals *)
Lemma value_app a b acc : value (a ++ b) acc = value b (value a acc).
Proof. revert acc. induction a as [|c a IH]; intros acc; [reflexivity|]. cbn [app value]. apply IH. Qed.
Lemma digits_spec fuel : forall n acc, 0 <= n < 10 ^ Z.of_nat fuel -> (0 < fuel)%nat -> exists s, digits fuel n acc = s ++ acc /\ decimal n s.
Proof.
  induction fuel as [|fuel IH]; intros n acc Hn Hf; [lia|]. cbn [digits]. destruct (Z.ltb_spec n 10) as [H|H].
  - exists [48 + n]. split; [reflexivity|]. split; [discriminate|]. split; [constructor; [lia | constructor]|]. split; [cbn [value]; lia|]. cbn [hd]. intros E. f_equal. lia.
  - destruct fuel as [|fuel]; [change (10 ^ Z.of_nat 1) with 10 in Hn; lia|].
    assert (10 ^ Z.of_nat (S (S fuel)) = 10 * 10 ^ Z.of_nat (S fuel)) as Ep by (rewrite (Nat2Z.inj_succ (S fuel)), Z.pow_succ_r by lia; reflexivity).
    destruct (IH (n / 10) (48 + n mod 10 :: acc)) as (s & E & N & F & V & Z0); [split; [lia | apply Z.div_lt_upper_bound; lia] | lia|].
    exists (s ++ [48 + n mod 10]). rewrite E, <- app_assoc. split; [reflexivity|]. split; [destruct s; discriminate|].
    split; [apply Forall_app; split; [exact F | constructor; [lia | constructor]]|]. split; [rewrite value_app, V; cbn [value]; lia|].
    destruct s as [|c s]; [congruence|]. cbn [hd app] in *. intros Hc. specialize (Z0 Hc). injection Z0 as -> ->. cbn [value] in V. lia.
Qed.
Lemma itoa_decimal n : 0 <= n -> decimal n (itoa n).
Proof.
  intros Hn. unfold itoa. destruct (digits_spec (S (Z.to_nat (Z.log2 n))) n []) as (s & E & D); [|lia | rewrite E, app_nil_r; exact D].
  split; [exact Hn|]. pose proof (Z.log2_nonneg n). rewrite Nat2Z.inj_succ, Z2Nat.id by lia.
  destruct (Z.eq_dec n 0) as [->|N]; [reflexivity|]. pose proof (Z.log2_spec n ltac:(lia)) as [_ H2].
  apply (Z.lt_le_trans _ _ _ H2). apply Z.pow_le_mono_l. lia.
Qed.
Lemma itoa5_decimal n : 0 <= n -> decimal5 n (itoa5 n).
Proof.
  intros Hn. exists (5 - length (itoa n))%nat, (itoa n). split; [reflexivity|]. split; [apply itoa_decimal; exact Hn|]. unfold zlen. lia.
Qed.

(** ** Length headers *)
Lemma dropHeader_body f : body f (dropHeader f).
Proof.
  unfold dropHeader, body, has_header, word. change (0 + 1) with 1. destruct (Z.leb_spec 2 (zlen f)) as [H|H].
  - destruct ((_ =? _) || (_ =? _)) eqn:E.
    + left. split; [split; lia|]. symmetry. change (sub f 0 2) with (firstn 2 f). apply (firstn_skipn 2).
    + right. split; [lia | reflexivity].
  - right. split; [lia | reflexivity].
Qed.
Lemma body_det f p q : body f p -> body f q -> p = q.
Proof.
  intros [[H1 E1]|[H1 E1]] [[H2 E2]|[H2 E2]]; try contradiction; [|congruence]. rewrite E1 in E2 at 1. apply app_inv_head in E2. exact E2.
Qed.
Lemma drop_is f p : body f p -> dropHeader f = p.
Proof. intros H. apply (body_det f); [apply dropHeader_body | exact H]. Qed.
Lemma body_header p t : zlen p < 65536 -> zlen t <= 1 -> body (put16 (zlen p) ++ p ++ t) (p ++ t).
Proof.
  intros Hp Ht. pose proof (zlen_nonneg p). pose proof (zlen_nonneg t). left. split.
  - unfold has_header, word. rewrite !zlen_app. change (zlen (put16 (zlen p))) with 2. split; [lia|].
    unfold put16. cbn [app]. rewrite znth_cons_0. change (0 + 1) with 1. rewrite znth_cons_S by lia. change (1 - 1) with 0. rewrite znth_cons_0. lia.
  - rewrite sub_app_l by (change (zlen (put16 (zlen p))) with 2; lia). change 2 with (zlen (put16 (zlen p))) at 1. rewrite sub_full. reflexivity.
Qed.
Lemma body_bytes f p : bytes_ok f -> body f p -> bytes_ok p.
Proof. intros B [[_ E]|[_ E]]; [rewrite E in B; apply Forall_app in B; apply B | subst; exact B]. Qed.

(** ** Applesoft lines *)
Definition known (c : Z) : bool := negb (beq (applesoftToken c) []).
#[local] Transparent applesoftTokens.
Lemma known_spec c : 128 <= c < 256 -> beq (applesoftToken c) [] = (0xEA <? c).
Proof.
  intros H. unfold applesoftToken. replace (c <? 128) with false by lia.
  assert (forallb (fun i => Bool.eqb (beq (znth [] applesoftTokens i) []) (0xEA <? i + 128)) (zrange 128) = true) as F by (vm_compute; reflexivity).
  rewrite forallb_forall in F. specialize (F (c - 128) ltac:(apply In_zrange; lia)). apply Bool.eqb_prop in F. rewrite F. f_equal. lia.
Qed.
#[local] Opaque applesoftTokens.
Lemma lineBytes_ok b : forall r acc, Forall applesoft_byte b -> lineBytes (b ++ 0 :: r) acc = Ok (acc ++ b).
Proof.
  induction b as [|c b IH]; intros r acc F; cbn [app lineBytes]; [rewrite app_nil_r; reflexivity|].
  inversion F as [|? ? Hc F']; subst. unfold applesoft_byte in Hc. replace (c =? 0) with false by lia.
  destruct (Z.ltb_spec c 128); [|rewrite known_spec by lia; replace (0xEA <? c) with false by lia]; (rewrite IH by exact F'; rewrite <- app_assoc; reflexivity).
Qed.
Lemma lineBytes_inv rest : forall acc, bytes_ok rest -> (exists b r, rest = b ++ 0 :: r /\ Forall applesoft_byte b /\ lineBytes rest acc = Ok (acc ++ b)) \/
  (exists e, lineBytes rest acc = Err e) /\ (forall b r, rest = b ++ 0 :: r -> ~ Forall applesoft_byte b).
Proof.
  induction rest as [|c rest IH]; intros acc B; cbn [lineBytes].
  - right. split; [eauto|]. intros b r E. destruct b; discriminate.
  - inversion B as [|? ? Bc B']; subst. unfold is_byte in Bc. destruct (Z.eqb_spec c 0) as [->|N].
    + left. exists [], rest. split; [reflexivity|]. split; [constructor | rewrite app_nil_r; reflexivity].
    + destruct (Z.leb_spec c 0xEA) as [Hc|Hc].
      * assert ((if c <? 128 then lineBytes rest (acc ++ [c]) else if beq (applesoftToken c) [] then Err (EOther "unknown token") else lineBytes rest (acc ++ [c])) = lineBytes rest (acc ++ [c])) as ->.
        { destruct (Z.ltb_spec c 128); [reflexivity|]. rewrite known_spec by lia. replace (0xEA <? c) with false by lia. reflexivity. }
        destruct (IH (acc ++ [c]) B') as [(b & r & -> & F & E)|[He Hn]].
        -- left. exists (c :: b), r. split; [reflexivity|]. split; [constructor; [unfold applesoft_byte; lia | exact F]|]. rewrite E, <- app_assoc. reflexivity.
        -- right. split; [exact He|]. intros b r E F. destruct b as [|c' b]; cbn [app] in E; [congruence|]. injection E as <- E. inversion F; subst. eapply Hn; [reflexivity | assumption].
      * replace (c <? 128) with false by lia. rewrite known_spec by lia. replace (0xEA <? c) with true by lia. right. split; [eauto|].
        intros b r E F. destruct b as [|c' b]; cbn [app] in E; [congruence|]. injection E as <- E. inversion F as [|? ? Hc' _]; subst. unfold applesoft_byte in Hc'. lia.
Qed.
Lemma skipn_sub {A} (l : list A) a : 0 <= a <= zlen l -> skipn (Z.to_nat a) l = sub l a (zlen l).
Proof.
  intros H. rewrite <- (sub_full l) at 1. rewrite (sub_app_split l 0 a (zlen l)) by lia.
  rewrite skipn_app, skipn_all2 by (pose proof (zlen_sub l 0 a); unfold zlen in *; lia).
  replace (Z.to_nat a - length (sub l 0 a))%nat with 0%nat by (pose proof (zlen_sub l 0 a); unfold zlen in *; lia). reflexivity.
Qed.
Lemma split_at {A} (l b r : list A) x : l = b ++ x :: r -> b = sub l 0 (zlen b) /\ zlen b < zlen l /\ forall d, znth d l (zlen b) = x.
Proof.
  intros ->. pose proof (zlen_nonneg b). split; [rewrite sub_app_l by lia; rewrite sub_full; reflexivity|]. split; [rewrite zlen_app, zlen_cons; pose proof (zlen_nonneg r); lia|].
  intros d. rewrite znth_app by lia. rewrite Z.ltb_irrefl, Z.sub_diag. apply znth_cons_0.
Qed.

(** ** Following an Applesoft program *)
Definition nextv (p : bytes) (loc a : Z) : Z := word p (a - loc).
Lemma word_u16 p a : bytes_ok p -> is_u16 (word p a).
Proof. exact (get16_u16 p a). Qed.
(** One round of the loop. *)
Lemma round p loc a : bytes_ok p -> is_u16 loc -> is_u16 a ->
  (ends_at p loc a /\ forall k acc, decodeLines (S k) p loc a acc = Some (Ok acc)) \/
  (a <> 0 /\ exists nx l, line_at p loc a nx l /\ forall k acc, decodeLines (S k) p loc a acc = decodeLines k p loc nx (acc ++ [l])) \/
  (a <> 0 /\ a = loc - 1 /\ p <> [] /\ forall k acc, decodeLines (S k) p loc a acc = Some Panic) \/
  (a <> 0 /\ ~ ends_at p loc a /\ (forall nx l, ~ line_at p loc a nx l) /\ (a = loc - 1 -> p = []) /\ exists e, forall k acc, decodeLines (S k) p loc a acc = Some (Err e)).
Proof.
  intros B Ul Ua. unfold is_u16 in Ul, Ua. cbn [decodeLines]. destruct (Z.eqb_spec a 0) as [->|N]; [left; split; [left; reflexivity | reflexivity]|]. cbv zeta.
  destruct ((a - loc <? -1) || (zlen p <=? a - loc + 1)) eqn:E1.
  { right. right. right. split; [exact N|]. split; [intros [?|(? & ? & _)]; [congruence | lia]|]. split; [intros nx l (? & ? & _); pose proof (zlen_nonneg (l_Bytes l)); lia|].
    split; [intros ->; apply zlen_zero_nil; pose proof (zlen_nonneg p); lia | eexists; reflexivity]. }
  destruct (Z.ltb_spec (a - loc) 0) as [H|H].
  { right. right. left. split; [exact N|]. split; [lia|]. split; [intros ->; rewrite (@zlen_nil Z) in E1; lia | reflexivity]. }
  fold (word p (a - loc)). destruct (Z.eqb_spec (word p (a - loc)) 0) as [Ez|Ez]; [left; split; [right; repeat split; [lia | lia | exact Ez] | reflexivity]|].
  assert (~ ends_at p loc a) as Ne by (intros [?|(_ & _ & ?)]; congruence).
  destruct (Z.leb_spec (zlen p) (a - loc + 2 + 1)) as [H2|H2].
  { right. right. right. split; [exact N|]. split; [exact Ne|]. split; [intros nx l (? & ? & _); pose proof (zlen_nonneg (l_Bytes l)); lia|]. split; [lia | eexists; reflexivity]. }
  replace (a - loc + 2 + 2) with (a - loc + 4) by lia.
  assert (forall acc, lineBytes (skipn (Z.to_nat (a - loc + 4)) p) acc = lineBytes (sub p (a - loc + 4) (zlen p)) acc) as Hs by (intros acc; rewrite skipn_sub by lia; reflexivity). rewrite Hs.
  fold (word p (a - loc + 2)).
  assert (bytes_ok (sub p (a - loc + 4) (zlen p))) as Bs by (apply bytes_ok_sub; exact B).
  assert (zlen (sub p (a - loc + 4) (zlen p)) = zlen p - (a - loc + 4)) as Ls by (rewrite zlen_sub by lia; lia).
  destruct (lineBytes_inv _ [] Bs) as [(b & r & Eb & F & E)|[[e E] Hn]]; rewrite E; cbn [app].
  - right. left. split; [exact N|]. exists (word p (a - loc)), (mkLine (word p (a - loc + 2)) b). split; [|reflexivity].
    destruct (split_at _ _ _ _ Eb) as (E3 & L3 & Z3). specialize (Z3 0). cbn [l_Bytes l_Num]. pose proof (zlen_nonneg b).
    unfold line_at. cbn [l_Bytes l_Num]. split; [lia|]. split; [lia|]. split; [reflexivity|]. split; [exact Ez|]. split; [reflexivity|].
    rewrite sub_sub in E3 by lia. split; [rewrite E3 at 1; f_equal; lia|]. split; [|exact F]. rewrite znth_sub in Z3 by lia. rewrite <- Z3. f_equal; lia.
  - right. right. right. split; [exact N|]. split; [exact Ne|]. split; [|split; [lia | exists e; reflexivity]].
    intros nx l (La & Lp & _ & _ & _ & Lb & Lz & Lf). pose proof (zlen_nonneg (l_Bytes l)).
    apply (Hn (l_Bytes l) (sub p (a - loc + 4 + zlen (l_Bytes l) + 1) (zlen p))); [|exact Lf].
    rewrite (sub_app_split p _ (a - loc + 4 + zlen (l_Bytes l)) (zlen p)) by lia. rewrite <- Lb. f_equal.
    rewrite (sub_app_split p _ (a - loc + 4 + zlen (l_Bytes l) + 1) (zlen p)) by lia. rewrite (sub_single 0) by lia. rewrite Lz. reflexivity.
Qed.
Lemma ends_not_line p loc a nx l : a <> 0 -> ends_at p loc a -> ~ line_at p loc a nx l.
Proof. intros N [?|(_ & _ & E)] (_ & _ & -> & Nz & _); congruence. Qed.
Lemma line_at_det p loc a nx l nx' l' : line_at p loc a nx l -> line_at p loc a nx' l' -> nx = nx' /\ l = l'.
Proof.
  intros (A1 & B1 & C1 & D1 & E1 & F1 & G1 & H1) (A2 & B2 & C2 & D2 & E2 & F2 & G2 & H2). split; [congruence|].
  pose proof (zlen_nonneg (l_Bytes l)). pose proof (zlen_nonneg (l_Bytes l')).
  assert (zlen (l_Bytes l) = zlen (l_Bytes l')) as L.
  { assert (forall x y z, 0 <= x < y -> z = sub p (a - loc + 4) (a - loc + 4 + y) -> zlen z = y -> a - loc + 4 + y <= zlen p -> Forall applesoft_byte z -> znth 0 p (a - loc + 4 + x) = 0 -> False) as W.
    { intros x y z Hx Ez Lz Lp F Z0. assert (znth 0 z x = 0) as Zx by (rewrite Ez, znth_sub by lia; exact Z0). 
      rewrite Forall_forall in F. specialize (F (znth 0 z x)). unfold applesoft_byte in F. rewrite Zx in F. assert (In (znth 0 z x) z) as Hin by (apply znth_In; lia). rewrite Zx in Hin. specialize (F Hin). lia. }
    destruct (Z.lt_trichotomy (zlen (l_Bytes l)) (zlen (l_Bytes l'))) as [Hl|[Hl|Hl]]; [|exact Hl|]; exfalso.
    - apply (W (zlen (l_Bytes l)) (zlen (l_Bytes l')) (l_Bytes l')); try assumption; try reflexivity; lia.
    - apply (W (zlen (l_Bytes l')) (zlen (l_Bytes l)) (l_Bytes l)); try assumption; try reflexivity; lia. }
  destruct l as [n b], l' as [n' b']. cbn [l_Num l_Bytes] in *. rewrite L in F1. congruence.
Qed.
Lemma line_u16 p loc a nx l : bytes_ok p -> line_at p loc a nx l -> is_u16 nx.
Proof. intros B (_ & _ & -> & _). apply word_u16. exact B. Qed.
Lemma follows_app p loc a ls b ls' c : follows p loc a ls b -> follows p loc b ls' c -> follows p loc a (ls ++ ls') c.
Proof. induction 1; intros H'; [exact H'|]. cbn [app]. econstructor; [assumption | eassumption | auto]. Qed.
Lemma follows_run p loc : bytes_ok p -> is_u16 loc -> forall a ls b, is_u16 a -> follows p loc a ls b -> is_u16 b /\
  forall k acc, decodeLines (length ls + k) p loc a acc = decodeLines k p loc b (acc ++ ls).
Proof.
  intros B Ul a ls b Ua H. induction H as [a|a nx l ls b N L H IH]; [split; [exact Ua|]; intros k acc; rewrite app_nil_r; reflexivity|].
  pose proof (line_u16 _ _ _ _ _ B L) as Un. destruct (IH Un) as [Ub R]. split; [exact Ub|]. intros k acc. cbn [length plus].
  destruct (round p loc a B Ul Ua) as [[Ea _]|[(_ & nx' & l' & L' & E)|[(_ & Eq & _)|(_ & _ & Nl & _)]]].
  - exfalso. eapply ends_not_line; eassumption.
  - destruct (line_at_det _ _ _ _ _ _ _ L L') as [-> ->]. rewrite E, R, <- app_assoc. reflexivity.
  - exfalso. destruct L as [L _]. lia.
  - exfalso. eapply Nl. exact L.
Qed.
(** Everything the loop does: follow lines, then stop for one of three reasons. *)
Definition goes (p : bytes) (loc a b : Z) : Prop := a <> 0 /\ exists l, line_at p loc a b l.
Lemma goes_follows p loc a b : ProdosSpec.steps (goes p loc) a b -> exists ls, ls <> [] /\ follows p loc a ls b.
Proof.
  induction 1 as [a b (N & l & L)|a b c (N & l & L) _ (ls & Hl & F)].
  - exists [l]. split; [discriminate|]. econstructor; [exact N | exact L | constructor].
  - exists (l :: ls). split; [discriminate|]. econstructor; eassumption.
Qed.
Lemma follows_goes p loc a ls b : follows p loc a ls b -> ls <> [] -> ProdosSpec.steps (goes p loc) a b.
Proof.
  induction 1 as [a|a nx l ls b N L H IH]; intros Hl; [congruence|]. destruct ls as [|l' ls].
  - inversion H; subst. apply ProdosSpec.steps_1. split; [exact N | exists l; exact L].
  - eapply ProdosSpec.steps_S; [split; [exact N | exists l; exact L] | apply IH; discriminate].
Qed.

Definition cyclic (p : bytes) (loc : Z) : Prop := exists ls a ls', follows p loc loc ls a /\ ls' <> [] /\ follows p loc a ls' a.
Definition ended (p : bytes) (loc : Z) (ls : list Line) : Prop := exists a, follows p loc loc ls a /\ ends_at p loc a.
Definition before (p : bytes) (loc : Z) : Prop := exists ls, follows p loc loc ls (loc - 1) /\ loc - 1 <> 0 /\ p <> [].
Definition broken (p : bytes) (loc : Z) : Prop := exists ls a e, follows p loc loc ls a /\ forall k acc, decodeLines (S k) p loc a acc = Some (Err e).
Lemma decode_classes p loc : bytes_ok p -> is_u16 loc -> cyclic p loc \/ (exists ls, ended p loc ls) \/ before p loc \/ broken p loc.
Proof.
  intros B Ul.
  assert (forall n : nat, (cyclic p loc \/ (exists ls, ended p loc ls) \/ before p loc \/ broken p loc) \/
    exists vs a ls, follows p loc loc ls a /\ is_u16 a /\ length vs = n /\ NoDup vs /\ (forall v, In v vs -> is_u16 v /\ exists l1 l2, follows p loc loc l1 v /\ l2 <> [] /\ follows p loc v l2 a)) as G.
  { induction n as [|n IH]; [right; exists [], loc, []; split; [apply follows_nil|]; split; [exact Ul|]; split; [reflexivity|]; split; [constructor | intros v []]|].
    destruct IH as [IH|(vs & a & ls & F & Ua & Lv & Nd & V)]; [left; exact IH|].
    destruct (in_dec Z.eq_dec a vs) as [Hin|Hout].
    { left. left. destruct (V a Hin) as (_ & l1 & l2 & F1 & N2 & F2). exists l1, a, l2. repeat split; assumption. }
    destruct (round p loc a B Ul Ua) as [[Ea _]|[(N & nx & l & L & _)|[(N & -> & Np & _)|(N & Ne & Nl & Np & e & E)]]].
    - left. right. left. exists ls, a. split; assumption.
    - right. assert (follows p loc a [l] nx) as F1 by (econstructor; [exact N | exact L | constructor]).
      exists (a :: vs), nx, (ls ++ [l]). split; [eapply follows_app; eassumption|]. split; [apply (line_u16 _ _ _ _ _ B L)|]. split; [cbn [length]; congruence|].
      split; [constructor; assumption|]. intros v [<-|Hv]; [split; [exact Ua|]; exists ls, [l]; repeat split; [exact F | discriminate | exact F1]|].
      destruct (V v Hv) as (Uv & l1 & l2 & G1 & G2 & G3). split; [exact Uv|]. exists l1, (l2 ++ [l]). split; [exact G1|]. split; [destruct l2; discriminate | eapply follows_app; eassumption].
    - left. right. right. left. exists ls. repeat split; assumption.
    - left. right. right. right. exists ls, a, e. split; assumption. }
  destruct (G (Z.to_nat 65537)) as [H|(vs & a & ls & _ & _ & Lv & Nd & V)]; [exact H|]. exfalso.
  assert (length vs <= length (zrange 65536))%nat as H by (apply NoDup_incl_length; [exact Nd|]; intros v Hv; apply In_zrange; apply V; exact Hv).
  assert (zlen (zrange 65536) = 65536) as Hz by (apply zlen_zrange; lia). unfold zlen in Hz. lia.
Qed.
Lemma decodeLines_mono p loc k : forall a acc r, decodeLines k p loc a acc = Some r -> forall k', (k <= k')%nat -> decodeLines k' p loc a acc = Some r.
Proof.
  induction k as [|k IH]; intros a acc r E k' Hk; [discriminate E|]. destruct k' as [|k']; [lia|]. cbn [decodeLines] in *.
  destruct (a =? 0); [exact E|]. cbv zeta in *. destruct (_ || _); [exact E|]. destruct (_ <? 0); [exact E|]. destruct (_ =? 0); [exact E|]. destruct (_ <=? _); [exact E|].
  destruct (lineBytes _ _); [|exact E|exact E]. apply (IH _ _ _ E). lia.
Qed.
Lemma Decode_mono f loc k r : applesoft_Decode k f loc = Some r -> forall k', (k <= k')%nat -> applesoft_Decode k' f loc = Some r.
Proof. unfold applesoft_Decode. apply decodeLines_mono. Qed.
Lemma run_to p loc ls a : bytes_ok p -> is_u16 loc -> follows p loc loc ls a -> forall k, decodeLines (length ls + k) p loc loc [] = decodeLines k p loc a ls.
Proof. intros B U F k. destruct (follows_run p loc B U loc ls a U F) as [_ R]. apply R. Qed.
Lemma cyclic_diverges p loc : bytes_ok p -> is_u16 loc -> cyclic p loc -> forall k, decodeLines k p loc loc [] = None.
Proof.
  intros B U (ls & a & ls' & F & N & F'). assert (forall n : nat, exists l, follows p loc a l a /\ (n <= length l)%nat) as G.
  { induction n as [|n (l & Fl & Ll)]; [exists []; split; [constructor | cbn; lia]|]. exists (ls' ++ l). split; [eapply follows_app; eassumption|]. rewrite app_length. destruct ls'; [congruence | cbn [length]; lia]. }
  intros k. destruct (G k) as (l & Fl & Ll). destruct (decodeLines k p loc loc []) as [r|] eqn:E; [|reflexivity]. exfalso.
  pose proof (run_to p loc (ls ++ l) a B U (follows_app _ _ _ _ _ _ _ F Fl) 0) as R. cbn [decodeLines] in R.
  rewrite (decodeLines_mono p loc k _ _ _ E) in R by (rewrite app_length; lia). discriminate R.
Qed.
Lemma ended_ok p loc ls : bytes_ok p -> is_u16 loc -> ended p loc ls -> decodeLines (length ls + 1) p loc loc [] = Some (Ok ls).
Proof.
  intros B U (a & F & Ea). rewrite (run_to p loc ls a B U F). destruct (follows_run p loc B U loc ls a U F) as [Ua _].
  destruct (round p loc a B U Ua) as [[_ E]|[(N & nx & l & L & _)|[(N & Eq & Np & _)|(N & Ne & _)]]].
  - apply E.
  - exfalso. eapply ends_not_line; eassumption.
  - exfalso. destruct Ea as [?|[? _]]; [congruence | lia].
  - contradiction.
Qed.
Lemma before_panic p loc : bytes_ok p -> is_u16 loc -> before p loc -> exists k, decodeLines k p loc loc [] = Some Panic.
Proof.
  intros B U (ls & F & N & Np). exists (length ls + 1)%nat. rewrite (run_to p loc ls _ B U F). destruct (follows_run p loc B U loc ls _ U F) as [Ua _].
  destruct (round p loc (loc - 1) B U Ua) as [[[?|[? _]] _]|[(_ & nx & l & [L _] & _)|[(_ & _ & _ & E)|(_ & _ & _ & Np' & _)]]]; [congruence | lia | lia | apply E | exfalso; apply Np, Np'; reflexivity].
Qed.
Lemma broken_err p loc : bytes_ok p -> is_u16 loc -> broken p loc -> exists k e, decodeLines k p loc loc [] = Some (Err e).
Proof. intros B U (ls & a & e & F & E). exists (length ls + 1)%nat, e. rewrite (run_to p loc ls _ B U F). apply E. Qed.
Lemma decode_det p loc a acc k k' r r' : decodeLines k p loc a acc = Some r -> decodeLines k' p loc a acc = Some r' -> r = r'.
Proof. intros E E'. pose proof (decodeLines_mono _ _ _ _ _ _ E (Nat.max k k') ltac:(lia)) as A. pose proof (decodeLines_mono _ _ _ _ _ _ E' (Nat.max k k') ltac:(lia)) as A'. congruence. Qed.

(** ** Applesoft programs as they are stored *)
Lemma zlen_program ls : forall loc, 2 <= zlen (program loc ls).
Proof.
  induction ls as [|l ls IH]; intros loc; cbn [program]; [rewrite !zlen_cons, (@zlen_nil Z); lia|]. rewrite !zlen_app. specialize (IH (loc + line_size l)).
  pose proof (zlen_nonneg (put16 (loc + line_size l))). pose proof (zlen_nonneg (put16 (l_Num l))). pose proof (zlen_nonneg (l_Bytes l)). pose proof (zlen_nonneg [0]). lia.
Qed.
Lemma zlen_put16 v : zlen (put16 v) = 2.
Proof. reflexivity. Qed.
Lemma zlen_program_cons loc l ls : zlen (program loc (l :: ls)) = line_size l + zlen (program (loc + line_size l) ls).
Proof. cbn [program]. rewrite !zlen_app, !zlen_put16. unfold line_size. change (zlen [0]) with 1. lia. Qed.
Lemma bytes_program ls : forall loc, 0 <= loc -> loc + zlen (program loc ls) <= 65536 -> Forall line_ok ls -> bytes_ok (program loc ls).
Proof.
  induction ls as [|l ls IH]; intros loc Hl Hs F; [repeat constructor; unfold is_byte; lia|]. rewrite zlen_program_cons in Hs. inversion F as [|? ? [Un Fb] F']; subst.
  pose proof (zlen_nonneg (l_Bytes l)). pose proof (zlen_program ls (loc + line_size l)). unfold line_size in *.
  cbn [program]. repeat (apply Forall_app; split).
  - apply put16_ok; unfold is_u16, line_size; lia.
  - apply put16_ok. exact Un.
  - eapply Forall_impl; [|exact Fb]. unfold applesoft_byte, is_byte. lia.
  - repeat constructor; unfold is_byte; lia.
  - apply IH; [unfold line_size; lia | unfold line_size; lia | exact F'].
Qed.
Lemma word_put16 pre v r : is_u16 v -> word (pre ++ put16 v ++ r) (zlen pre) = v.
Proof.
  intros U. unfold is_u16 in U. unfold word. pose proof (zlen_nonneg pre). rewrite (znth_app 0 pre _ (zlen pre)), (znth_app 0 pre _ (zlen pre + 1)) by lia. rewrite Z.ltb_irrefl, Z.sub_diag.
  replace (zlen pre + 1 <? zlen pre) with false by lia. replace (zlen pre + 1 - zlen pre) with 1 by lia. unfold put16. cbn [app].
  rewrite znth_cons_0, znth_cons_S, znth_cons_0 by lia. lia.
Qed.
Lemma line_here pre loc nx l r : is_u16 nx -> nx <> 0 -> line_ok l ->
  line_at (pre ++ put16 nx ++ put16 (l_Num l) ++ l_Bytes l ++ [0] ++ r) loc (loc + zlen pre) nx l.
Proof.
  intros Un Nz [Ul F]. pose proof (zlen_nonneg pre). pose proof (zlen_nonneg r). unfold line_at. replace (loc + zlen pre - loc) with (zlen pre) by lia.
  split; [lia|]. split; [rewrite !zlen_app, !zlen_put16; change (zlen [0]) with 1; lia|]. split; [rewrite word_put16 by exact Un; reflexivity|]. split; [exact Nz|].
  split. { rewrite (app_assoc pre). replace (zlen pre + 2) with (zlen (pre ++ put16 nx)) by (rewrite zlen_app, zlen_put16; lia). rewrite word_put16 by exact Ul. reflexivity. }
  assert (zlen ((pre ++ put16 nx) ++ put16 (l_Num l)) = zlen pre + 4) as L4 by (rewrite !zlen_app, !zlen_put16; lia).
  rewrite (app_assoc pre), (app_assoc (pre ++ put16 nx)). split; [|split; [|exact F]].
  - rewrite sub_app_r by lia. rewrite L4. replace (zlen pre + 4 - (zlen pre + 4)) with 0 by lia. replace (zlen pre + 4 + zlen (l_Bytes l) - (zlen pre + 4)) with (zlen (l_Bytes l)) by lia.
    rewrite sub_app_l by lia. rewrite sub_full. reflexivity.
  - pose proof (zlen_nonneg (l_Bytes l)). rewrite znth_app by lia. rewrite L4. replace (_ <? _) with false by lia. rewrite znth_app by lia. replace (_ <? _) with false by lia.
    replace (zlen pre + 4 + zlen (l_Bytes l) - (zlen pre + 4) - zlen (l_Bytes l)) with 0 by lia. reflexivity.
Qed.
Lemma program_follows ls : forall pre loc t, 0 < loc -> loc + zlen pre + zlen (program (loc + zlen pre) ls) <= 65536 -> Forall line_ok ls ->
  exists b, follows (pre ++ program (loc + zlen pre) ls ++ t) loc (loc + zlen pre) ls b /\ ends_at (pre ++ program (loc + zlen pre) ls ++ t) loc b.
Proof.
  induction ls as [|l ls IH]; intros pre loc t Hl Hs F; pose proof (zlen_nonneg pre).
  - exists (loc + zlen pre). split; [constructor|]. right. replace (loc + zlen pre - loc) with (zlen pre) by lia. cbn [program] in *. split; [lia|].
    split; [rewrite !zlen_app; change (zlen [0; 0]) with 2; pose proof (zlen_nonneg t); lia|]. change [0; 0] with (put16 0). apply word_put16. unfold is_u16. lia.
  - rewrite zlen_program_cons in Hs. inversion F as [|? ? Ok F']; subst. pose proof (zlen_nonneg (l_Bytes l)). pose proof (zlen_program ls (loc + zlen pre + line_size l)).
    remember (loc + zlen pre + line_size l) as nx eqn:Enx. pose proof Enx as Enx'. unfold line_size in Hs, Enx'.
    destruct (IH (pre ++ put16 nx ++ put16 (l_Num l) ++ l_Bytes l ++ [0]) loc t Hl) as (b & Fb & Eb).
    + rewrite !zlen_app, !zlen_put16. change (zlen [0]) with 1. replace (loc + (zlen pre + (2 + (2 + (zlen (l_Bytes l) + 1))))) with nx by lia. lia.
    + exact F'.
    + rewrite !zlen_app, !zlen_put16 in Fb, Eb. change (zlen [0]) with 1 in Fb, Eb. replace (loc + (zlen pre + (2 + (2 + (zlen (l_Bytes l) + 1))))) with nx in Fb, Eb by lia.
      cbn [program]. rewrite <- Enx. rewrite <- !app_assoc in Fb, Eb. rewrite <- !app_assoc. exists b. split; [|exact Eb].
      econstructor; [lia | | exact Fb]. apply line_here; [unfold is_u16; lia | lia | exact Ok].
Qed.
Lemma C55_stored ls loc t : 0 < loc -> loc + zlen (program loc ls) <= 65536 -> Forall line_ok ls -> ended (program loc ls ++ t) loc ls.
Proof.
  intros Hl Hs F. destruct (program_follows ls [] loc t Hl) as (b & Fb & Eb); [change (zlen (@nil Z)) with 0; replace (loc + 0) with loc by lia; exact Hs | exact F|].
  change (zlen (@nil Z)) with 0 in *. replace (loc + 0) with loc in * by lia. exists b. split; assumption.
Qed.
(** What a file of a program is. *)
Lemma C55_decodes_stored_programs ls loc t f : 0 < loc -> loc + zlen (program loc ls) <= 65536 -> Forall line_ok ls -> bytes_ok t ->
  (f = program loc ls ++ t /\ ~ has_header f) \/ (f = put16 (zlen (program loc ls)) ++ program loc ls ++ t /\ zlen t <= 1) ->
  returns (fun k => applesoft_Decode k f loc) (fun r => r = Ok ls).
Proof.
  intros Hl Hs F Bt H. pose proof (zlen_program ls loc). assert (body f (program loc ls ++ t)) as Hb.
  { destruct H as [[-> H]|[-> H]]; [right; split; [exact H | reflexivity] | apply body_header; [lia | exact H]]. }
  assert (bytes_ok (program loc ls ++ t)) as B by (apply Forall_app; split; [apply bytes_program; [lia | exact Hs | exact F] | exact Bt]).
  apply drop_is in Hb. exists (length ls + 1)%nat, (Ok ls). split; [reflexivity|]. intros k Hk. unfold applesoft_Decode. rewrite Hb.
  eapply decodeLines_mono; [apply ended_ok; [exact B | unfold is_u16; lia | apply C55_stored; assumption] | exact Hk].
Qed.

(** ** The exact behaviour of the Applesoft decoder *)
Lemma C56_four_outcomes f p loc : bytes_ok f -> is_u16 loc -> body f p ->
  (diverges (fun k => applesoft_Decode k f loc) <-> exists ls a ls', follows p loc loc ls a /\ ls' <> [] /\ follows p loc a ls' a) /\
  ((exists k, applesoft_Decode k f loc = Some Panic) <-> exists ls, follows p loc loc ls (loc - 1) /\ loc - 1 <> 0 /\ p <> []) /\
  (forall ls, (exists k, applesoft_Decode k f loc = Some (Ok ls)) <-> exists a, follows p loc loc ls a /\ ends_at p loc a) /\
  (diverges (fun k => applesoft_Decode k f loc) \/ returns (fun k => applesoft_Decode k f loc) (fun _ => True)).
Proof.
  intros B U Hb. pose proof (body_bytes _ _ B Hb) as Bp. apply drop_is in Hb.
  assert (forall k, applesoft_Decode k f loc = decodeLines k p loc loc []) as Ed by (intros k; unfold applesoft_Decode; rewrite Hb; reflexivity).
  pose proof (decode_classes p loc Bp U) as C.
  assert (forall k k' r r', applesoft_Decode k f loc = Some r -> applesoft_Decode k' f loc = Some r' -> r = r') as Det by (intros k k' r r'; rewrite !Ed; apply decode_det).
  assert (cyclic p loc -> forall k, applesoft_Decode k f loc = None) as C1 by (intros H k; rewrite Ed; apply cyclic_diverges; assumption).
  assert (forall ls, ended p loc ls -> exists k, applesoft_Decode k f loc = Some (Ok ls)) as C2 by (intros ls H; exists (length ls + 1)%nat; rewrite Ed; apply ended_ok; assumption).
  assert (before p loc -> exists k, applesoft_Decode k f loc = Some Panic) as C3 by (intros H; destruct (before_panic p loc Bp U H) as [k E]; exists k; rewrite Ed; exact E).
  assert (broken p loc -> exists k e, applesoft_Decode k f loc = Some (Err e)) as C4 by (intros H; destruct (broken_err p loc Bp U H) as (k & e & E); exists k, e; rewrite Ed; exact E).
  split; [|split; [|split]].
  - split; [|exact C1]. intros D. cbv beta in D. destruct C as [C|[[ls C]|[C|C]]]; [exact C | | |]; exfalso.
    + destruct (C2 _ C) as [k E]. rewrite D in E. discriminate E.
    + destruct (C3 C) as [k E]. rewrite D in E. discriminate E.
    + destruct (C4 C) as (k & e & E). rewrite D in E. discriminate E.
  - split; [|exact C3]. intros [k E]. destruct C as [C|[[ls C]|[C|C]]]; [| |exact C|]; exfalso.
    + rewrite (C1 C) in E. discriminate E.
    + destruct (C2 _ C) as [k' E']. discriminate (Det _ _ _ _ E E').
    + destruct (C4 C) as (k' & e & E'). discriminate (Det _ _ _ _ E E').
  - intros ls. split; [|exact (C2 ls)]. intros [k E]. destruct C as [C|[[ls' C]|[C|C]]].
    + rewrite (C1 C) in E. discriminate E.
    + destruct (C2 _ C) as [k' E']. pose proof (Det _ _ _ _ E E') as X. injection X as ->. exact C.
    + destruct (C3 C) as [k' E']. discriminate (Det _ _ _ _ E E').
    + destruct (C4 C) as (k' & e & E'). discriminate (Det _ _ _ _ E E').
  - assert (forall k r, applesoft_Decode k f loc = Some r -> returns (fun k => applesoft_Decode k f loc) (fun _ => True)) as R by (intros k r E; exists k, r; split; [exact I | intros k' Hk; apply (Decode_mono _ _ _ _ E _ Hk)]).
    destruct C as [C|[[ls C]|[C|C]]]; [left; exact (C1 C) | | |]; right.
    + destruct (C2 _ C) as [k E]. exact (R _ _ E).
    + destruct (C3 C) as [k E]. exact (R _ _ E).
    + destruct (C4 C) as (k & e & E). exact (R _ _ E).
Qed.

(** ** Integer BASIC *)
Lemma idx_ok b i : 0 <= i < zlen b -> idx b i = Ok (znth 0 b i).
Proof. exact (Dos3Proofs.idx_ok b i). Qed.
Lemma slice_ok (b : bytes) i j : 0 <= i -> i <= j -> j <= zlen b -> slice b i j = Ok (sub b i j).
Proof. intros. unfold slice. replace ((0 <=? i) && (i <=? j) && (j <=? zlen b)) with true by lia. reflexivity. Qed.
Lemma slice_panic (b : bytes) i j : j < i -> slice b i j = Panic.
Proof. intros. unfold slice. replace ((0 <=? i) && (i <=? j) && (j <=? zlen b)) with false by lia. reflexivity. Qed.
Lemma zlen_iline l : zlen (iline l) = zlen (l_Bytes l) + 4.
Proof. unfold iline. rewrite !zlen_app, zlen_put16. change (zlen [zlen (l_Bytes l) + 4]) with 1. change (zlen [1]) with 1. lia. Qed.
Lemma iround p : bytes_ok p ->
  (zlen p <= 3 /\ forall k acc, integerLines (S k) p acc = Some (Ok acc)) \/
  (3 < zlen p /\ exists l rest, p = iline l ++ rest /\ iline_ok l /\ forall k acc, integerLines (S k) p acc = integerLines k rest (acc ++ [l])) \/
  (stuck p /\ forall k acc, integerLines (S k) p acc = Some Panic) \/
  (3 < zlen p /\ ~ stuck p /\ (forall l rest, p = iline l ++ rest -> ~ iline_ok l) /\ exists e, forall k acc, integerLines (S k) p acc = Some (Err e)).
Proof.
  intros B. cbn [integerLines]. destruct (Z.leb_spec (zlen p) 3) as [H|H]; [left; split; [exact H | reflexivity]|]. cbv zeta.
  pose proof (bytes_ok_znth p 0 B) as B0. unfold is_byte in B0.
  assert (forall l rest, p = iline l ++ rest -> iline_ok l -> znth 0 p 0 = zlen (l_Bytes l) + 4 /\ zlen (l_Bytes l) + 4 <= zlen p /\ znth 0 p (znth 0 p 0 - 1) = 1) as Hl.
  { intros l rest E (_ & _ & L). pose proof (zlen_nonneg (l_Bytes l)). pose proof (zlen_nonneg rest). assert (znth 0 p 0 = zlen (l_Bytes l) + 4) as E0 by (rewrite E; reflexivity).
    split; [exact E0|]. split; [rewrite E, zlen_app, zlen_iline; lia|]. rewrite E0, E. replace (zlen (l_Bytes l) + 4 - 1) with (zlen ([zlen (l_Bytes l) + 4] ++ put16 (l_Num l) ++ l_Bytes l)) by (rewrite !zlen_app, zlen_put16; change (zlen [zlen (l_Bytes l) + 4]) with 1; lia).
    unfold iline. rewrite !app_assoc. rewrite <- (app_assoc _ [1]). rewrite znth_app by apply zlen_nonneg. rewrite Z.ltb_irrefl, Z.sub_diag. reflexivity. }
  destruct (Z.ltb_spec (zlen p) (znth 0 p 0)) as [H1|H1].
  { right. right. right. split; [lia|]. split; [intros [_ [?|[? _]]]; lia|]. split; [intros l rest E Lk; pose proof (Hl l rest E Lk); lia | eexists; reflexivity]. }
  destruct (Z.eq_dec (znth 0 p 0) 0) as [Ez|Nz].
  { right. right. left. split; [split; [lia | left; exact Ez]|]. rewrite Ez. reflexivity. }
  rewrite idx_ok by lia. destruct (Z.eqb_spec (znth 0 p (znth 0 p 0 - 1)) 1) as [E1|N1]; cbn [negb].
  - destruct (Z.leb_spec 4 (znth 0 p 0)) as [H4|H4].
    + right. left. split; [lia|]. rewrite slice_ok by lia.
      exists (mkLine (znth 0 p 1 + 256 * znth 0 p 2) (sub p 3 (znth 0 p 0 - 1))), (sub p (znth 0 p 0) (zlen p)). cbn [l_Bytes l_Num].
      pose proof (bytes_ok_znth p 1 B) as B1. pose proof (bytes_ok_znth p 2 B) as B2. unfold is_byte in B1, B2.
      assert (zlen (sub p 3 (znth 0 p 0 - 1)) = znth 0 p 0 - 4) as Ls by (rewrite zlen_sub by lia; lia).
      split; [|split; [split; [cbn [l_Num]; unfold is_u16; lia | cbn [l_Bytes]; split; [apply bytes_ok_sub; exact B | lia]] | rewrite skipn_sub by lia; reflexivity]].
      unfold iline. cbn [l_Bytes l_Num]. rewrite Ls. replace (znth 0 p 0 - 4 + 4) with (znth 0 p 0) by lia.
      assert (put16 (znth 0 p 1 + 256 * znth 0 p 2) = sub p 1 3) as ->.
      { rewrite (sub_app_split p 1 2 3) by lia. change (sub p 1 2) with (sub p 1 (1 + 1)). change (sub p 2 3) with (sub p 2 (2 + 1)). rewrite !(sub_single 0) by lia. unfold put16. cbn [app]. f_equal; [lia | f_equal; lia]. }
      rewrite <- (sub_full p) at 1. rewrite (sub_app_split p 0 1 (zlen p)) by lia. rewrite (sub_app_split p 1 3 (zlen p)) by lia. rewrite (sub_app_split p 3 (znth 0 p 0 - 1) (zlen p)) by lia.
      rewrite (sub_app_split p (znth 0 p 0 - 1) (znth 0 p 0) (zlen p)) by lia. replace (sub p (znth 0 p 0 - 1) (znth 0 p 0)) with [1].
      * change (sub p 0 1) with (sub p 0 (0 + 1)). rewrite (sub_single 0 p 0) by lia. rewrite <- !app_assoc. reflexivity.
      * replace (znth 0 p 0) with (znth 0 p 0 - 1 + 1) at 2 by lia. rewrite (sub_single 0) by lia. rewrite E1. reflexivity.
    + right. right. left. split; [split; [lia|]; right; split; [lia | exact E1]|]. rewrite slice_panic by lia. reflexivity.
  - right. right. right. split; [lia|]. split; [intros [_ [?|[_ ?]]]; congruence|]. split; [intros l rest E Lk; destruct (Hl l rest E Lk) as (_ & _ & ?); congruence | eexists; reflexivity].
Qed.
Definition iended (p : bytes) (ls : list Line) : Prop := exists t, p = iprogram ls ++ t /\ Forall iline_ok ls /\ zlen t <= 3.
Definition istuck (p : bytes) : Prop := exists ls t, p = iprogram ls ++ t /\ Forall iline_ok ls /\ stuck t.
Lemma iprogram_cons l ls : iprogram (l :: ls) = iline l ++ iprogram ls.
Proof. reflexivity. Qed.
Lemma iline_inj l l' r r' : iline_ok l -> iline_ok l' -> iline l ++ r = iline l' ++ r' -> l = l' /\ r = r'.
Proof.
  intros (U & B & L) (U' & B' & L') E. assert (zlen (iline l) = zlen (iline l')) as Lz.
  { rewrite !zlen_iline. unfold iline in E. cbn [app] in E. injection E as E _. exact E. }
  apply app_inj_len in E; [|exact Lz]. destruct E as [E ->]. split; [|reflexivity]. destruct l as [n b], l' as [n' b']. unfold iline in E. cbn [l_Num l_Bytes] in *.
  rewrite !zlen_iline in Lz. cbn [l_Bytes] in Lz. injection E as _ E1 E2 E3. apply app_inj_len in E3; [|lia]. destruct E3 as [-> _]. unfold is_u16 in U, U'. f_equal. lia.
Qed.
Lemma integer_all n : forall p acc, bytes_ok p -> (length p < n)%nat ->
  (exists ls, iended p ls /\ integerLines n p acc = Some (Ok (acc ++ ls))) \/ (istuck p /\ integerLines n p acc = Some Panic) \/
  ((forall ls, ~ iended p ls) /\ ~ istuck p /\ exists e, integerLines n p acc = Some (Err e)).
Proof.
  induction n as [|n IH]; intros p acc B Hn; [lia|].
  destruct (iround p B) as [[H E]|[(H & l & rest & -> & Lo & E)|[[H E]|(H & Ns & Nl & e & E)]]].
  - left. exists []. split; [exists p; split; [reflexivity|]; split; [constructor | exact H] | rewrite app_nil_r; apply E].
  - apply Forall_app in B. destruct B as [_ Br]. rewrite app_length in Hn. assert (0 < length (iline l))%nat as Hp by (unfold iline; rewrite app_length; cbn [length]; lia).
    rewrite E. destruct (IH rest (acc ++ [l]) Br ltac:(lia)) as [(ls & (t & -> & Fl & Ht) & R)|[[(ls & t & -> & Fl & St) R]|(N1 & N2 & e & R)]].
    + left. exists (l :: ls). split; [|rewrite R, <- app_assoc; reflexivity]. exists t. rewrite iprogram_cons, <- app_assoc. split; [reflexivity|]. split; [constructor; assumption | exact Ht].
    + right. left. split; [|exact R]. exists (l :: ls), t. rewrite iprogram_cons, <- app_assoc. split; [reflexivity|]. split; [constructor; assumption | exact St].
    + right. right. split; [|split; [|exists e; exact R]].
      * intros ls (t & Et & Fl & Ht). destruct ls as [|l' ls].
        -- change (iprogram [] ++ t) with t in Et. rewrite Et in H. lia.
        -- rewrite iprogram_cons, <- app_assoc in Et. inversion Fl; subst. apply iline_inj in Et; [|assumption | assumption]. destruct Et as [_ Et]. apply (N1 ls). exists t. split; [assumption | split; assumption].
      * intros (ls & t & Et & Fl & St). destruct ls as [|l' ls].
        -- change (iprogram [] ++ t) with t in Et. destruct Lo as (_ & _ & L). subst t. destruct St as [_ St]. pose proof (zlen_nonneg (l_Bytes l)).
           assert (znth 0 (iline l ++ rest) 0 = zlen (l_Bytes l) + 4) as E0 by reflexivity. rewrite E0 in St. destruct St as [St|[St _]]; lia.
        -- rewrite iprogram_cons, <- app_assoc in Et. inversion Fl; subst. apply iline_inj in Et; [|assumption | assumption]. destruct Et as [_ Et]. apply N2. exists ls, t. split; [assumption | split; assumption].
  - right. left. split; [exists [], p; split; [reflexivity|]; split; [constructor | exact H] | apply E].
  - right. right. split; [|split; [|exists e; apply E]].
    + intros ls (t & Et & Fl & Ht). destruct ls as [|l ls]; [change (iprogram [] ++ t) with t in Et; subst; lia|]. rewrite iprogram_cons, <- app_assoc in Et. inversion Fl; subst. eapply Nl; [reflexivity | assumption].
    + intros (ls & t & Et & Fl & St). destruct ls as [|l ls]; [change (iprogram [] ++ t) with t in Et; subst; contradiction|]. rewrite iprogram_cons, <- app_assoc in Et. inversion Fl; subst. eapply Nl; [reflexivity | assumption].
Qed.
Lemma integerLines_mono k : forall p acc r, integerLines k p acc = Some r -> forall k', (k <= k')%nat -> integerLines k' p acc = Some r.
Proof.
  induction k as [|k IH]; intros p acc r E k' Hk; [discriminate E|]. destruct k' as [|k']; [lia|]. cbn [integerLines] in *. destruct (_ <=? _); [exact E|]. cbv zeta in *. destruct (_ <? _); [exact E|].
  destruct (idx _ _) as [x| |]; [|exact E|exact E]. destruct (negb _); [exact E|]. destruct (slice _ _ _); [|exact E|exact E]. apply (IH _ _ _ E). lia.
Qed.
Lemma iended_unique ls : forall ls' p, iended p ls -> iended p ls' -> ls = ls'.
Proof.
  induction ls as [|l ls IH]; intros ls' p (t & E & F & H) (t' & E' & F' & H').
  - destruct ls' as [|l' ls']; [reflexivity|]. change (iprogram [] ++ t) with t in E. rewrite iprogram_cons, <- app_assoc in E'. assert (zlen t = zlen (iline l') + zlen (iprogram ls' ++ t')) as L by (rewrite <- zlen_app; congruence).
    rewrite zlen_iline in L. pose proof (zlen_nonneg (l_Bytes l')). pose proof (zlen_nonneg (iprogram ls' ++ t')). lia.
  - destruct ls' as [|l' ls'].
    + change (iprogram [] ++ t') with t' in E'. rewrite iprogram_cons, <- app_assoc in E. assert (zlen t' = zlen (iline l) + zlen (iprogram ls ++ t)) as L by (rewrite <- zlen_app; congruence).
      rewrite zlen_iline in L. pose proof (zlen_nonneg (l_Bytes l)). pose proof (zlen_nonneg (iprogram ls ++ t)). lia.
    + rewrite iprogram_cons, <- app_assoc in E, E'. inversion F; inversion F'; subst. apply iline_inj in E'; [|assumption | assumption]. destruct E' as [<- E']. f_equal. apply (IH ls' (iprogram ls ++ t)); [exists t; split; [reflexivity | split; assumption]|]. exists t'. split; [assumption | split; assumption].
Qed.
Lemma iended_not_stuck ls : forall p, iended p ls -> ~ istuck p.
Proof.
  induction ls as [|l ls IH]; intros p (t & E & F & H) (ls' & t' & E' & F' & St).
  - change (iprogram [] ++ t) with t in E. subst p. destruct ls' as [|l' ls']; [change (iprogram [] ++ t') with t' in E'; subst t'; destruct St; lia|].
    rewrite iprogram_cons, <- app_assoc in E'. assert (zlen t = zlen (iline l') + zlen (iprogram ls' ++ t')) as L by (rewrite <- zlen_app; congruence).
    rewrite zlen_iline in L. pose proof (zlen_nonneg (l_Bytes l')). pose proof (zlen_nonneg (iprogram ls' ++ t')). lia.
  - rewrite iprogram_cons, <- app_assoc in E. subst p. inversion F as [|? ? Lo F0]; subst. destruct ls' as [|l' ls'].
    + change (iprogram [] ++ t') with t' in E'. subst t'. destruct Lo as (_ & _ & L). destruct St as [_ St]. pose proof (zlen_nonneg (l_Bytes l)).
      assert (znth 0 (iline l ++ iprogram ls ++ t) 0 = zlen (l_Bytes l) + 4) as E0 by reflexivity. rewrite E0 in St. destruct St as [St|[St _]]; lia.
    + rewrite iprogram_cons, <- app_assoc in E'. inversion F'; subst. apply iline_inj in E'; [|assumption | assumption]. destruct E' as [_ E']. apply (IH (iprogram ls ++ t)); [exists t; split; [reflexivity | split; assumption]|]. exists ls', t'. split; [assumption | split; assumption].
Qed.
Lemma C58_three_outcomes f p : bytes_ok f -> body f p -> exists r, (forall k, (length f < k)%nat -> integer_Decode k f = Some r) /\
  (r = Panic <-> exists ls t, p = iprogram ls ++ t /\ Forall iline_ok ls /\ stuck t) /\
  (forall ls, r = Ok ls <-> exists t, p = iprogram ls ++ t /\ Forall iline_ok ls /\ zlen t <= 3).
Proof.
  intros B Hb. pose proof (body_bytes _ _ B Hb) as Bp. assert (length p <= length f)%nat as Hl.
  { destruct Hb as [[_ E]|[_ ->]]; [rewrite E, app_length; lia | lia]. }
  apply drop_is in Hb. assert (forall r, integerLines (S (length p)) p [] = Some r -> forall k, (length f < k)%nat -> integer_Decode k f = Some r) as M.
  { intros r E k Hk. unfold integer_Decode. rewrite Hb. apply (integerLines_mono _ _ _ _ E). lia. }
  destruct (integer_all (S (length p)) p [] Bp ltac:(lia)) as [(ls & I & R)|[[I R]|(N1 & N2 & e & R)]]; cbn [app] in R; eexists; (split; [exact (M _ R)|]).
  - split; [split; [discriminate|]; intros St; exfalso; apply (iended_not_stuck _ _ I St)|]. intros ls'. split; [intros E; injection E as <-; exact I|]. intros I'. f_equal. apply (iended_unique _ _ p I I').
  - split; [split; [intros _; exact I | reflexivity]|]. intros ls'. split; [discriminate|]. intros I'. exfalso. apply (iended_not_stuck _ _ I' I).
  - split; [split; [discriminate|]; intros St; contradiction|]. intros ls'. split; [discriminate|]. intros I'. exfalso. apply (N1 _ I').
Qed.
Lemma bytes_iprogram ls : Forall iline_ok ls -> bytes_ok (iprogram ls).
Proof.
  induction 1 as [|l ls (U & B & L) _ IH]; [constructor|]. rewrite iprogram_cons. apply Forall_app. split; [|exact IH]. pose proof (zlen_nonneg (l_Bytes l)).
  unfold iline. repeat (apply Forall_app; split); [constructor; [unfold is_byte; lia | constructor] | apply put16_ok; exact U | exact B | constructor; [unfold is_byte; lia | constructor]].
Qed.
Lemma C57_decodes_stored_programs ls t f : Forall iline_ok ls -> bytes_ok t -> zlen t <= 3 -> 
  (f = iprogram ls ++ t /\ ~ has_header f) \/ (f = put16 (zlen (iprogram ls)) ++ iprogram ls ++ t /\ zlen t <= 1 /\ zlen (iprogram ls) < 65536) ->
  returns (fun k => integer_Decode k f) (fun r => r = Ok ls).
Proof.
  intros F Bt Ht H. pose proof (bytes_iprogram ls F) as Bi. pose proof (zlen_nonneg (iprogram ls)).
  assert (body f (iprogram ls ++ t) /\ bytes_ok f) as [Hb B].
  { destruct H as [[-> H]|(-> & H & Hs)]; (split; [|repeat (apply Forall_app; split); try assumption; try (apply put16_ok; unfold is_u16; lia)]).
    - right. split; [exact H | reflexivity].
    - apply body_header; [exact Hs | exact H]. }
  destruct (C58_three_outcomes f _ B Hb) as (r & R & _ & Hok). exists (S (length f)), r. split; [apply Hok; exists t; split; [reflexivity | split; assumption]|]. intros k Hk. apply R. lia.
Qed.

(** ** Applesoft text *)
Lemma C59_text ls : Forall (fun l => 0 <= l_Num l) ls -> exists ts, Forall2 (fun l t => exists s, decimal (l_Num l) s /\ t = s ++ [32] ++ concat (map applesoft_text (l_Bytes l)) ++ [10]) ls ts /\ applesoft_String ls = concat ts.
Proof.
  induction 1 as [|l ls U _ (ts & IH & E)]; [exists []; split; [constructor | reflexivity]|].
  exists ((applesoft_line l ++ [10]) :: ts). split; [|unfold applesoft_String in *; cbn [flat_map concat]; rewrite E; reflexivity]. constructor; [|exact IH].
  exists (itoa (l_Num l)). split; [apply itoa_decimal; exact U|]. unfold applesoft_line. rewrite <- !app_assoc. f_equal. change (s2b " ") with [32]. f_equal. f_equal. rewrite flat_map_concat_map. f_equal. apply map_ext_in.
  intros c _. unfold applesoft_char, applesoft_text, applesoftToken. destruct (c <? 128); reflexivity.
Qed.

(** ** Integer BASIC text *)
#[local] Transparent integerTokens.
Lemma rem_only c : 0 <= c < 128 -> beq (integerToken c) (s2b "REM") = (c =? 0x5D).
Proof.
  intros H. assert (forallb (fun c => Bool.eqb (beq (integerToken c) (s2b "REM")) (c =? 0x5D)) (zrange 128) = true) as F by (vm_compute; reflexivity).
  rewrite forallb_forall in F. specialize (F c ltac:(apply In_zrange; lia)). apply Bool.eqb_prop in F. exact F.
Qed.
Lemma integer_rem : integerToken 0x5D = s2b "REM". Proof. reflexivity. Qed.
#[local] Opaque integerTokens.
Lemma isalnum_spec c : isalnum c = true <-> alnum c.
Proof. unfold isalnum, alnum. lia. Qed.
Lemma integer_remark r b : remark_ok r -> integer_bytes (remark_bytes r) b = remark_text r.
Proof.
  destruct r as [t|]; intros H; [|reflexivity]. cbn [remark_bytes remark_text remark_ok app] in *. cbn [integer_bytes]. change (0x5D <? 0x80) with true. cbv beta iota zeta.
  rewrite integer_rem. change (1 <? zlen (s2b "REM")) with true. change (beq (s2b "REM") (s2b "REM")) with true. cbv beta iota. rewrite app_assoc. change (s2b "REM" ++ s2b " ") with (s2b "REM "). f_equal.
  rewrite map_map. rewrite <- (map_id t) at 2. apply map_ext_in. intros c Hc. rewrite Forall_forall in H. specialize (H c Hc). cbv beta in H. unfold u8. lia.
Qed.
Lemma integer_items is : forall b r, items_ok b is -> remark_ok r -> exists ts, Forall2 item_text is ts /\ integer_bytes (concat (map item_bytes is) ++ remark_bytes r) b = concat ts ++ remark_text r.
Proof.
  induction is as [|i is IH]; intros b r I R; [exists []; split; [constructor | apply integer_remark; exact R]|].
  inversion I as [|? c ? Hc Nr I'|c ? Ha I'|? c ? b' Hc Nd Hb I'|m n ? Hm Un I']; subst.
  - destruct (IH false r I' R) as (ts & T & E). exists ((znth [] integerTokens c ++ if 1 <? zlen (znth [] integerTokens c) then s2b " " else []) :: ts).
    split; [constructor; [constructor | exact T]|]. cbn [map concat item_bytes app integer_bytes]. replace (c <? 128) with true by lia. cbv zeta. rewrite rem_only by lia. replace (c =? 0x5D) with false by lia.
    rewrite E. unfold integerToken. rewrite <- !app_assoc. reflexivity.
  - destruct (IH true r I' R) as (ts & T & E). exists ([c] :: ts). split; [constructor; [constructor | exact T]|]. assert (48 <= c <= 122) as Hc by (unfold alnum in Ha; lia).
    cbn [map concat item_bytes app integer_bytes]. replace (c + 128 <? 128) with false by lia. replace (c + 128 - 128) with c by lia. cbv zeta. cbn [negb andb]. apply isalnum_spec in Ha. rewrite Ha. cbn [app]. rewrite E. reflexivity.
  - destruct (IH b' r I' R) as (ts & T & E). exists ([c] :: ts). split; [constructor; [constructor | exact T]|].
    cbn [map concat item_bytes app integer_bytes]. replace (c + 128 <? 128) with false by lia. replace (c + 128 - 128) with c by lia. cbv zeta. unfold digit in Nd. replace (negb b && (48 <=? c) && (c <=? 57)) with false by (destruct b; cbn [negb andb]; lia).
    replace (isalnum c) with b' by (apply Bool.eq_true_iff_eq; rewrite isalnum_spec; exact Hb). cbn [app]. rewrite E. reflexivity.
  - destruct (IH true r I' R) as (ts & T & E). exists (itoa n :: ts). unfold digit in Hm. unfold is_u16 in Un. split; [constructor; [constructor; apply itoa_decimal; lia | exact T]|].
    cbn [map concat item_bytes app integer_bytes]. replace (m + 128 <? 128) with false by lia. replace (m + 128 - 128) with m by lia. cbv zeta. cbn [negb andb]. replace ((48 <=? m) && (m <=? 57)) with true by lia.
    unfold put16. cbn [app]. replace (isalnum m) with true by (symmetry; apply isalnum_spec; left; exact Hm). replace (n mod 256 + 256 * (n / 256)) with n by lia. rewrite E. apply app_assoc.
Qed.
Lemma C72_integer_line_text l is r : 0 <= l_Num l -> items_ok false is -> remark_ok r -> l_Bytes l = concat (map item_bytes is) ++ remark_bytes r ->
  exists s ts, decimal5 (l_Num l) s /\ Forall2 item_text is ts /\ integer_line l = s ++ [32] ++ concat ts ++ remark_text r.
Proof.
  intros Hn I R E. destruct (integer_items is false r I R) as (ts & T & Et). exists (itoa5 (l_Num l)), ts. split; [apply itoa5_decimal; exact Hn|]. split; [exact T|].
  unfold integer_line. rewrite E, Et. reflexivity.
Qed.

(** ** Control codes *)
Lemma chevron_plain c : 0 <= c -> ~ control c -> chevron c = [c].
Proof. unfold control, chevron. intros H0 H. destruct (Z.leb_spec 32 c); [reflexivity|]. replace ((c =? 10) || (c =? 9)) with true by lia. reflexivity. Qed.
Lemma chevron_control c : control c -> chevron c = in_chevrons (code_name c).
Proof.
  intros H. assert (forallb (fun c => (c =? 9) || (c =? 10) || beq (chevron c) (in_chevrons (code_name c))) (zrange 32) = true) as F by (vm_compute; reflexivity).
  rewrite forallb_forall in F. unfold control in H. specialize (F c ltac:(apply In_zrange; lia)). replace ((c =? 9) || (c =? 10)) with false in F by lia. apply beq_eq in F. exact F.
Qed.
Lemma C60_escaped s : bytes_ok s -> escaped s (ChevronControlCodes s).
Proof.
  induction 1 as [|c s Hc _ IH]; [constructor|]. unfold ChevronControlCodes in *. cbn [flat_map]. unfold is_byte in Hc. destruct ((c <? 32) && negb (c =? 9) && negb (c =? 10)) eqn:E.
  - assert (control c) by (unfold control; lia). rewrite chevron_control by assumption. apply esc_control; assumption.
  - assert (~ control c) by (unfold control; lia). rewrite chevron_plain by (assumption || lia). cbn [app]. apply esc_plain; assumption.
Qed.
Lemma C60_no_controls s : bytes_ok s -> Forall (fun c => ~ control c) (ChevronControlCodes s).
Proof.
  induction 1 as [|c s Hc _ IH]; [constructor|]. unfold ChevronControlCodes in *. cbn [flat_map]. apply Forall_app. split; [|exact IH].
  assert (forallb (fun c => forallb (fun x => negb ((0 <=? x) && (x <? 32) && negb (x =? 9) && negb (x =? 10))) (chevron c)) (zrange 256) = true) as F by (vm_compute; reflexivity).
  rewrite forallb_forall in F. unfold is_byte in Hc. specialize (F c ltac:(apply In_zrange; lia)). rewrite forallb_forall in F. apply Forall_forall. intros x Hx. specialize (F x Hx). unfold control. lia.
Qed.
Lemma C60_plain_unchanged s : Forall (fun c => 0 <= c /\ ~ control c) s -> ChevronControlCodes s = s.
Proof.
  induction 1 as [|c s [H0 Hc] _ IH]; [reflexivity|]. unfold ChevronControlCodes in *. cbn [flat_map]. rewrite chevron_plain by assumption. cbn [app]. f_equal. exact IH.
Qed.
Lemma chevron_bytes s : bytes_ok s -> bytes_ok (ChevronControlCodes s).
Proof.
  induction 1 as [|c s Hc _ IH]; [constructor|]. unfold ChevronControlCodes in *. cbn [flat_map]. apply Forall_app. split; [|exact IH].
  assert (forallb (fun c => forallb (fun x => (0 <=? x) && (x <? 256)) (chevron c)) (zrange 256) = true) as F by (vm_compute; reflexivity).
  rewrite forallb_forall in F. unfold is_byte in Hc. specialize (F c ltac:(apply In_zrange; lia)). rewrite forallb_forall in F. apply Forall_forall. intros x Hx. specialize (F x Hx). unfold is_byte. lia.
Qed.
Lemma C60_idempotent s : bytes_ok s -> ChevronControlCodes (ChevronControlCodes s) = ChevronControlCodes s.
Proof.
  intros B. apply C60_plain_unchanged. pose proof (C60_no_controls s B) as N. pose proof (chevron_bytes s B) as Bc. unfold bytes_ok in Bc. rewrite Forall_forall in *. intros c Hc. split; [apply (Bc c Hc) | apply (N c Hc)].
Qed.
