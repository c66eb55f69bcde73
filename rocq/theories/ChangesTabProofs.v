(** ChangesTabProofs.v -- the table after AddSymbol and DeleteSymbol, for property C113. *)
From Coq Require Import ZifyBool ZifyNat.
From Verif Require Import GoBase GoLemmas TypesModel SupermonModel SupermonSpec SupermonTableSpec SupermonProofs SupermonSymProofs SupermonTabProofs ChangesSpec.
Local Opaque zrange zeros sub.

Lemma zset_tail (s v : Symbol) t p : 0 <= p < zlen t -> zset (s :: t) (p + 1) v = s :: zset t p v.
Proof.
  intros Hp. apply (znth_ext sym0). { rewrite zlen_cons, !zlen_zset, zlen_cons by (rewrite ?zlen_cons; lia). reflexivity. }
  intros k Hk. rewrite zlen_zset in Hk by (rewrite ?zlen_cons; lia). rewrite zlen_cons in Hk.
  rewrite znth_zset by (rewrite ?zlen_cons; lia).
  destruct (Z.eq_dec k 0) as [->|]; [rewrite !znth_cons_0; replace (0 =? p + 1) with false by lia; reflexivity|].
  rewrite !znth_cons_S by lia. rewrite znth_zset by lia. destruct (Z.eqb_spec k (p + 1)) as [->|].
  - replace (p + 1 - 1 =? p) with true by lia. reflexivity.
  - replace (k - 1 =? p) with false by lia. reflexivity.
Qed.
Lemma zset_head (s v : Symbol) t : zset (s :: t) 0 v = v :: t.
Proof.
  pose proof (zlen_nonneg t). apply (znth_ext sym0). { rewrite zlen_zset by (rewrite zlen_cons; lia). rewrite !zlen_cons. reflexivity. }
  intros k Hk. rewrite zlen_zset in Hk by (rewrite ?zlen_cons; lia). rewrite zlen_cons in Hk.
  rewrite znth_zset by (rewrite ?zlen_cons; lia). destruct (Z.eqb_spec k 0) as [->|]; [reflexivity|]. rewrite !znth_cons_S by lia. reflexivity.
Qed.
Lemma relinked_tail (P Q : Z -> Prop) l s t t' : relinked P l t t' -> ~ Q 0 -> (forall k, 0 <= k -> (Q (k + 1) <-> P k)) -> relinked Q l (s :: t) (s :: t').
Proof.
  intros H H0 HQ. pose proof (zlen_nonneg t). destruct H as [(j & (Hj & Pj & Hf) & ->)|[Hn ->]].
  - left. exists (j + 1). split.
    + split; [rewrite zlen_cons; lia|]. split; [apply HQ; [lia|exact Pj]|]. intros k Hk.
      destruct (Z.eq_dec k 0) as [->|]; [exact H0|]. replace k with (k - 1 + 1) by lia. rewrite HQ by lia. apply Hf. lia.
    + rewrite zset_tail by lia. unfold ad, nm. rewrite !znth_cons_S by lia. replace (j + 1 - 1) with j by lia. reflexivity.
  - right. split; [|reflexivity]. intros k Hk. rewrite zlen_cons in Hk. destruct (Z.eq_dec k 0) as [->|]; [exact H0|].
    replace k with (k - 1 + 1) by lia. rewrite HQ by lia. apply Hn. lia.
Qed.
Lemma unlink_relinked t l i : forall j0, relinked (fun k => j0 + k <> i /\ lk t k = i) l t (unlink t j0 i l).
Proof.
  induction t as [|s t IH]; intros j0; cbn [unlink].
  - right. split; [|reflexivity]. intros j Hj. rewrite (@zlen_nil Symbol) in Hj. lia.
  - pose proof (zlen_nonneg t).
    assert (G : (j0 = i \/ s_link s <> i) -> relinked (fun k => j0 + k <> i /\ lk (s :: t) k = i) l (s :: t) (s :: unlink t (j0 + 1) i l)).
    { intros Hs. apply (relinked_tail (fun k => j0 + 1 + k <> i /\ lk t k = i)); [apply IH| |].
      - unfold lk. rewrite znth_cons_0. intros [A B]. destruct Hs; [lia|contradiction].
      - intros k Hk. unfold lk. rewrite znth_cons_S by lia. replace (k + 1 - 1) with k by lia. replace (j0 + (k + 1)) with (j0 + 1 + k) by lia. tauto. }
    destruct (Z.eqb_spec i j0) as [->|Hij]; [apply G; left; reflexivity|].
    destruct (Z.eqb_spec (s_link s) i) as [El|El]; [|apply G; right; exact El].
    left. exists 0. split.
    + split; [rewrite zlen_cons; lia|]. split; [unfold lk; rewrite znth_cons_0; split; [lia|exact El]|]. intros j Hj. lia.
    + rewrite zset_head. unfold ad, nm. rewrite znth_cons_0. reflexivity.
Qed.
Lemma link_end_relinked t a l : relinked (fun k => hash7 (ad t k) = hash7 a /\ lk t k = -1) l t (link_end t (addrHash a) l).
Proof.
  induction t as [|s t IH]; cbn [link_end].
  - right. split; [|reflexivity]. intros j Hj. rewrite (@zlen_nil Symbol) in Hj. lia.
  - pose proof (zlen_nonneg t). rewrite !addrHash_hash7 in *. destruct ((hash7 (s_addr s) =? hash7 a) && (s_link s =? -1)) eqn:E.
    + left. exists 0. split.
      * split; [rewrite zlen_cons; lia|]. split; [unfold lk, ad; rewrite !znth_cons_0; lia|]. intros j Hj. lia.
      * rewrite zset_head. unfold ad, nm. rewrite znth_cons_0. reflexivity.
    + apply (relinked_tail (fun k => hash7 (ad t k) = hash7 a /\ lk t k = -1)); [exact IH| |].
      * unfold lk, ad. rewrite !znth_cons_0. lia.
      * intros k Hk. unfold lk, ad. rewrite znth_cons_S by lia. replace (k + 1 - 1) with k by lia. tauto.
Qed.
Lemma first_found t n i : find_name t n 0 = Some i -> first_named t n i.
Proof.
  intros E. pose proof (find_name_spec t n 0) as Hf. rewrite E, Z.sub_0_r in Hf. destruct Hf as (H1 & H2 & H3).
  split; [lia|]. split; [rewrite equal_fold_sym; exact H2|]. intros j Hj. rewrite equal_fold_sym. apply H3. exact Hj.
Qed.
Lemma DeleteSymbol_deleted t n t' : DeleteSymbol t n = (t', true) -> deleted t n t'.
Proof.
  unfold DeleteSymbol. destruct (find_name t n 0) as [i|] eqn:E; [|intros H; injection H as _ H; discriminate H].
  intros H. injection H as <-. exists i, (unlink t 0 i (s_link (znth sym0 t i))). split; [apply first_found; exact E|]. split; [|reflexivity].
  apply (unlink_relinked t (lk t i) i 0).
Qed.
(** The first unused entry. *)
Lemma add_scan_first t n h : forall j pos, -1 <= pos < j -> find_name t n j = None ->
  exists p, add_scan t j pos n h = AddAt p /\
    (p = pos /\ (pos <> -1 \/ forall k, 0 <= k < zlen t -> ad t k <> 0) \/ pos = -1 /\ first_such (fun k => ad t k = 0) (zlen t) (p - j)).
Proof.
  induction t as [|s t IH]; intros j pos Hpos; cbn [find_name add_scan].
  - intros _. exists pos. split; [reflexivity|]. left. split; [reflexivity|]. right. intros k Hk. rewrite (@zlen_nil Symbol) in Hk. lia.
  - pose proof (zlen_nonneg t). destruct (equal_fold n (s_name s)); [discriminate|]. intros E.
    remember (if (pos =? -1) && (s_addr s =? 0) then j else pos) as pos' eqn:Ep.
    destruct (IH (j + 1) pos' ltac:(subst pos'; destruct (_ && _); lia) E) as (p & EA & HC). exists p. split; [exact EA|]. clear EA.
    destruct ((pos =? -1) && (s_addr s =? 0)) eqn:Ec; subst pos'.
    + right. split; [lia|]. destruct HC as [[-> _]|[X _]]; [|lia]. replace (j - j) with 0 by lia.
      split; [rewrite zlen_cons; lia|]. split; [unfold ad; rewrite znth_cons_0; lia|]. intros k Hk. lia.
    + destruct HC as [[-> HC]|[Hm (H1 & H2 & H3)]].
      * destruct HC as [HC|HC]; [left; split; [reflexivity|left; exact HC]|].
        destruct (Z.eq_dec pos (-1)) as [->|]; [|left; split; [reflexivity|left; assumption]].
        left. split; [reflexivity|]. right. intros k Hk. rewrite zlen_cons in Hk. unfold ad in *.
        destruct (Z.eq_dec k 0) as [->|]; [rewrite znth_cons_0; lia|]. rewrite znth_cons_S by lia. apply HC. lia.
      * right. split; [exact Hm|]. split; [rewrite zlen_cons; lia|]. unfold ad in *. split.
        -- rewrite znth_cons_S by lia. replace (p - j - 1) with (p - (j + 1)) by lia. exact H2.
        -- intros k Hk. destruct (Z.eq_dec k 0) as [->|]; [rewrite znth_cons_0; lia|]. rewrite znth_cons_S by lia. apply H3. lia.
Qed.
Lemma AddSymbol_added t n a t' : AddSymbol t n a = (t', Ok tt) -> added t n a t'.
Proof.
  unfold AddSymbol. destruct (Z.eqb_spec a 0) as [|Ha]; [discriminate|]. intros E.
  pose proof (add_scan_spec t n (addrHash a) 0 (-1) ltac:(lia)) as Hs.
  destruct (find_name t n 0) as [i|] eqn:Ef.
  - rewrite Z.sub_0_r in Hs. rewrite Hs in E. pose proof (first_found _ _ _ Ef) as Hn.
    replace (addrHash (ad t i) =? addrHash a) with (hash7 (ad t i) =? hash7 a) in E by (rewrite !addrHash_hash7; reflexivity).
    destruct (Z.eqb_spec (hash7 (ad t i)) (hash7 a)) as [Eh|Eh].
    + injection E as <-. left. exists i. split; [exact Hn|]. split; [exact Eh|]. reflexivity.
    + right. left. exists i. destruct (DeleteSymbol t n) as [t1 b] eqn:ED. exists t1. split; [exact Hn|]. split; [exact Eh|].
      assert (Hb : b = true) by (unfold DeleteSymbol in ED; rewrite Ef in ED; injection ED as _ <-; reflexivity). subst b.
      split; [apply DeleteSymbol_deleted; exact ED|]. cbn [fst] in E. unfold add_at in E. destruct Hn as (Hi & _).
      replace (i =? -1) with false in E by lia. injection E as <-. eexists. split; [apply link_end_relinked|reflexivity].
  - clear Hs. destruct (add_scan_first t n (addrHash a) 0 (-1) ltac:(lia) Ef) as (p & EA & HC). rewrite EA in E. unfold add_at in E.
    destruct (Z.eqb_spec p (-1)) as [|Hp]; [discriminate|]. injection E as <-. right. right. split.
    + intros i (Hi & Hn & _). pose proof (find_name_spec t n 0) as Hf. rewrite Ef in Hf. rewrite equal_fold_sym, (Hf i Hi) in Hn. discriminate Hn.
    + exists p. destruct HC as [[-> _]|[_ H]]; [contradiction|]. rewrite Z.sub_0_r in H. split; [exact H|]. eexists. split; [apply link_end_relinked|reflexivity].
Qed.
(** What the relations say is determined. *)
Lemma first_such_one P n i j : first_such P n i -> first_such P n j -> i = j.
Proof.
  intros (I1 & I2 & I3) (J1 & J2 & J3). destruct (Z.lt_trichotomy i j) as [H|[H|H]]; [|exact H|].
  - contradiction (J3 i ltac:(lia) I2).
  - contradiction (I3 j ltac:(lia) J2).
Qed.
Lemma relinked_one P l t t1 t2 : relinked P l t t1 -> relinked P l t t2 -> t1 = t2.
Proof.
  intros [(i & Hi & ->)|[Ni ->]] [(j & Hj & ->)|[Nj ->]].
  - rewrite (first_such_one _ _ _ _ Hi Hj). reflexivity.
  - destruct Hi as (H1 & H2 & _). contradiction (Nj i H1 H2).
  - destruct Hj as (H1 & H2 & _). contradiction (Ni j H1 H2).
  - reflexivity.
Qed.
Lemma first_named_one t n i j : first_named t n i -> first_named t n j -> i = j.
Proof.
  intros (I1 & I2 & I3) (J1 & J2 & J3). destruct (Z.lt_trichotomy i j) as [H|[H|H]]; [|exact H|].
  - rewrite (J3 i ltac:(lia)) in I2. discriminate I2.
  - rewrite (I3 j ltac:(lia)) in J2. discriminate J2.
Qed.
Lemma deleted_one t n t1 t2 : deleted t n t1 -> deleted t n t2 -> t1 = t2.
Proof.
  intros (i & u1 & I1 & R1 & ->) (j & u2 & I2 & R2 & ->). rewrite <- (first_named_one _ _ _ _ I1 I2) in R2 |- *.
  rewrite (relinked_one _ _ _ _ _ R1 R2). reflexivity.
Qed.
Lemma entered_one t p n a t1 t2 : entered t p n a t1 -> entered t p n a t2 -> t1 = t2.
Proof. intros (u1 & R1 & ->) (u2 & R2 & ->). rewrite (relinked_one _ _ _ _ _ R1 R2). reflexivity. Qed.
Lemma added_one t n a t1 t2 : added t n a t1 -> added t n a t2 -> t1 = t2.
Proof.
  intros [(i & I1 & H1 & ->)|[(i & u & I1 & H1 & D1 & E1)|(N1 & p & P1 & E1)]] [(j & I2 & H2 & ->)|[(j & v & I2 & H2 & D2 & E2)|(N2 & q & P2 & E2)]];
    try (contradiction (N1 _ I2)); try (contradiction (N2 _ I1)); try (pose proof (first_named_one _ _ _ _ I1 I2) as Ei; subst j; try contradiction).
  - reflexivity.
  - rewrite <- (deleted_one _ _ _ _ D1 D2) in E2. apply (entered_one _ _ _ _ _ _ E1 E2).
  - rewrite <- (first_such_one _ _ _ _ P1 P2) in E2. apply (entered_one _ _ _ _ _ _ E1 E2).
Qed.
Lemma table_exact :
  (forall t n a t', AddSymbol t n a = (t', Ok tt) <-> a <> 0 /\ added t n a t') /\
  (forall t n t', DeleteSymbol t n = (t', true) <-> deleted t n t') /\
  (forall t n a t1 t2, added t n a t1 -> added t n a t2 -> t1 = t2) /\ (forall t n t1 t2, deleted t n t1 -> deleted t n t2 -> t1 = t2).
Proof.
  split; [|split; [|split; [exact added_one|exact deleted_one]]].
  - intros t n a t'. split; [intros E; split; [apply (AddSymbol_changed _ _ _ _ E)|apply AddSymbol_added; exact E]|]. intros [Ha H].
    destruct (AddSymbol t n a) as [t1 r] eqn:E.
    assert (Hr : r = Ok tt \/ r <> Ok tt) by (destruct r as [[]|e|]; [left; reflexivity|right; discriminate|right; discriminate]).
    destruct Hr as [->|Hr]; [rewrite (added_one _ _ _ _ _ H (AddSymbol_added _ _ _ _ E)); reflexivity|].
    destruct (AddSymbol_fail _ _ _ _ _ E Hr) as (_ & _ & [|[Hno Hu]]); [contradiction|]. exfalso.
    assert (Hno' : forall i, ~ first_named t n i) by (intros i (Hi & Hn & _); rewrite equal_fold_sym, (Hno i Hi) in Hn; discriminate Hn).
    destruct H as [(i & Hi & _)|[(i & u & Hi & _)|(_ & p & (Hp & Hz & _) & _)]]; [contradiction (Hno' i Hi)|contradiction (Hno' i Hi)|].
    contradiction (proj1 (unused_ex t) Hu p Hp Hz).
  - intros t n t'. split; [apply DeleteSymbol_deleted|]. intros H. destruct (DeleteSymbol t n) as [t1 b] eqn:E.
    assert (Hb : b = true).
    { destruct H as (i & _ & (Hi & Hn & _) & _). pose proof (DeleteSymbol_spec t n) as HS. pose proof (find_name_spec t n 0) as Hf.
      destruct (find_name t n 0) as [k|]; [destruct HS as (x & HS & _); rewrite E in HS; injection HS as _ <-; reflexivity|].
      rewrite equal_fold_sym, (Hf i Hi) in Hn. discriminate Hn. }
    subst b. rewrite (deleted_one _ _ _ _ H (DeleteSymbol_deleted _ _ _ E)). reflexivity.
Qed.
