(** SupermonChainProofs.v -- what additions, deletions and moves do to the chains of a symbol
    table, and histories of edits on a disk (C94). *)
From Coq Require Import ZifyBool ZifyNat Permutation.
From Verif Require Import GoBase GoLemmas DiskModel TypesModel.
From Verif Require Import SupermonModel SupermonSpec SupermonTableSpec SupermonProofs SupermonSymProofs SupermonTabProofs SupermonLinkProofs SupermonNamedProofs SupermonFinalProofs SupermonRewriteProofs SupermonStmtProofs SupermonReadableProofs SupermonChainSpec.
Ltac Zify.zify_post_hook ::= Z.div_mod_to_equations.
Local Opaque zrange zeros sub.

(** ** Chains *)
Lemma NoDup_snoc (c : list Z) p : NoDup c -> ~ In p c -> NoDup (c ++ [p]).
Proof. intros H Hp. apply (Permutation_NoDup (l := p :: c)); [apply Permutation_cons_append|constructor; assumption]. Qed.
Lemma linked_ext t t' c : (forall j, In j c -> lk t' j = lk t j) -> linked t c -> linked t' c.
Proof.
  induction c as [|x c IH]; intros H Hl; [exact I|]. cbn [linked] in *. destruct Hl as [E Hl]. split.
  - rewrite H by (left; reflexivity). exact E.
  - apply IH; [intros j Hj; apply H; right; exact Hj|exact Hl].
Qed.
Lemma linked_tail t c : forall x j, linked t (x :: c) -> In j (x :: c) -> lk t j = -1 \/ In (lk t j) c.
Proof.
  induction c as [|y c IH]; intros x j [E Hl] Hj.
  - destruct Hj as [->|[]]. left. exact E.
  - destruct Hj as [->|Hj]; [right; left; symmetry; exact E|].
    destruct (IH y j Hl Hj) as [H|H]; [left; exact H|right; right; exact H].
Qed.
Lemma linked_next t c j : linked t c -> In j c -> lk t j = -1 \/ In (lk t j) c.
Proof.
  destruct c as [|x c]; [intros _ []|]. intros Hl Hj. destruct (linked_tail t c x j Hl Hj) as [H|H]; [left; exact H|right; right; exact H].
Qed.
Lemma linked_inj t c j k : NoDup c -> linked t c -> In j c -> In k c -> lk t j <> -1 -> lk t j = lk t k -> j = k.
Proof.
  induction c as [|x c IH]; intros Hn Hl Hj Hk Hm E; [destruct Hj|]. pose proof (proj1 (NoDup_cons_iff _ _) Hn) as [Hx Hn']. destruct Hl as [Ex Hl].
  assert (Hhd : forall i, In i c -> lk t i = lk t x -> lk t x <> -1 -> False).
  { intros i Hi Ei Hxm. destruct c as [|y c']; [exact Hi|]. cbn [hd] in Ex. apply NoDup_cons_iff in Hn'. destruct Hn' as [Hy _].
    destruct (linked_tail t c' y i Hl Hi) as [H|H]; [congruence|]. apply Hy. rewrite Ei, Ex in H. exact H. }
  destruct Hj as [->|Hj]; destruct Hk as [->|Hk].
  - reflexivity.
  - exfalso. apply (Hhd k Hk); congruence.
  - exfalso. apply (Hhd j Hj); congruence.
  - apply IH; assumption.
Qed.
Lemma linked_acyclic t c j k : NoDup c -> (forall i, In i c -> 0 <= i) -> linked t c -> In j c -> In k c -> lk t j = k -> lk t k <> j.
Proof.
  induction c as [|x c IH]; intros Hn Hp Hl Hj Hk Ej Ek; [destruct Hj|]. pose proof (proj1 (NoDup_cons_iff _ _) Hn) as [Hx Hn'].
  assert (Hin : forall y i, In i (x :: c) -> In y (x :: c) -> lk t i = y -> In y c).
  { intros y i Hi Hy E. pose proof (Hp y Hy) as H0. destruct (linked_tail t c x i Hl Hi) as [H|H]; [clear - H0 E H; lia|]. rewrite E in H. exact H. }
  pose proof (Hin _ _ Hj Hk Ej) as K1. pose proof (Hin _ _ Hk Hj Ek) as K2.
  destruct Hl as [_ Hl]. apply (IH Hn' (fun i H => Hp i (or_intror H)) Hl K2 K1 Ej Ek).
Qed.
Lemma linked_last t c j : (forall i, In i c -> 0 <= i) -> linked t c -> In j c -> lk t j = -1 -> exists c0, c = c0 ++ [j].
Proof.
  induction c as [|x c IH]; intros Hp Hl Hj E; [destruct Hj|]. destruct Hl as [Ex Hl]. destruct c as [|y c'].
  - destruct Hj as [->|[]]. exists []. reflexivity.
  - destruct Hj as [->|Hj].
    + cbn [hd] in Ex. pose proof (Hp y ltac:(right; left; reflexivity)) as H. exfalso. clear - H E Ex. lia.
    + destruct (IH (fun i H => Hp i (or_intror H)) Hl Hj E) as [c0 E0]. exists (x :: c0). rewrite E0. reflexivity.
Qed.
Lemma linked_has_last t c : c <> [] -> linked t c -> exists j, In j c /\ lk t j = -1.
Proof.
  induction c as [|x c IH]; intros Hn Hl; [contradiction|]. destruct Hl as [Ex Hl]. destruct c as [|y c'].
  - exists x. split; [left; reflexivity|exact Ex].
  - destruct IH as (j & Hj & E); [discriminate|exact Hl|]. exists j. split; [right; exact Hj|exact E].
Qed.
Lemma linked_snoc t t' c0 q p : (forall j, In j c0 -> lk t' j = lk t j) -> lk t' q = p -> lk t' p = -1 ->
  linked t (c0 ++ [q]) -> linked t' ((c0 ++ [q]) ++ [p]).
Proof.
  intros Hext Eq Ep. induction c0 as [|x c0 IH]; intros Hl.
  - cbn [app linked hd]. split; [exact Eq|]. split; [exact Ep|exact I].
  - cbn [app linked] in Hl. destruct Hl as [Ex Hl]. cbn [app linked]. split.
    + rewrite Hext by (left; reflexivity). rewrite Ex. destruct c0; reflexivity.
    + apply IH; [intros j Hj; apply Hext; right; exact Hj|exact Hl].
Qed.
Lemma In_without i c j : In j (without i c) <-> In j c /\ j <> i.
Proof. unfold without. rewrite filter_In. split; intros [H1 H2]; (split; [exact H1|]); destruct (Z.eqb_spec j i); cbn [negb] in *; congruence. Qed.
Lemma hd_without i c : NoDup c -> hd (-1) (without i c) = if hd (-1) c =? i then (match c with [] => -1 | _ :: r => hd (-1) r end) else hd (-1) c.
Proof.
  intros Hn. destruct c as [|x r].
  - cbn [without filter hd]. destruct (-1 =? i); reflexivity.
  - cbn [without filter hd]. destruct (Z.eqb_spec x i) as [->|Hne]; cbn [negb].
    + pose proof (proj1 (NoDup_cons_iff _ _) Hn) as [Hx _]. destruct r as [|y r']; [reflexivity|]. cbn [filter hd].
      destruct (Z.eqb_spec y i) as [->|]; [exfalso; apply Hx; left; reflexivity|]. reflexivity.
    + reflexivity.
Qed.
Lemma linked_without t t' i c : 0 <= i -> NoDup c -> linked t c ->
  (forall j, In j c -> j <> i -> lk t j <> i -> lk t' j = lk t j) ->
  (forall j, In j c -> j <> i -> lk t j = i -> lk t' j = lk t i) ->
  linked t' (without i c).
Proof.
  intros Hi. induction c as [|x c IH]; intros Hn Hl H1 H2; [exact I|]. pose proof (proj1 (NoDup_cons_iff _ _) Hn) as [Hx Hn']. destruct Hl as [Ex Hl].
  assert (Hrest : linked t' (without i c)) by (apply IH; [exact Hn'|exact Hl|intros j Hj; apply H1; right; exact Hj|intros j Hj; apply H2; right; exact Hj]).
  cbn [without filter]. destruct (Z.eqb_spec x i) as [->|Hne]; cbn [negb]; [exact Hrest|].
  split; [|exact Hrest]. fold (without i c). rewrite hd_without by exact Hn'. rewrite <- Ex.
  destruct (Z.eqb_spec (lk t x) i) as [Exi|Exi].
  - rewrite (H2 x (or_introl eq_refl) Hne Exi). destruct c as [|y c']; cbn [hd] in *; [clear - Ex Exi Hi; lia|].
    destruct Hl as [Ey _]. congruence.
  - exact (H1 x (or_introl eq_refl) Hne Exi).
Qed.
Lemma in_chain t c j : one_chain t c -> 0 <= j < zlen t -> ad t j <> 0 -> In j (c (hash7 (ad t j))).
Proof. intros Hc Hj Aj. apply (proj1 (proj2 (Hc _))). split; [exact Hj|]. split; [exact Aj|reflexivity]. Qed.
Lemma chain_pos t c h j : one_chain t c -> In j (c h) -> 0 <= j.
Proof. intros Hc Hj. apply (proj1 (proj2 (Hc _))) in Hj. destruct Hj as (H & _). clear - H. lia. Qed.
Lemma chain_next t c j : one_chain t c -> 0 <= j < zlen t -> ad t j <> 0 -> lk t j <> -1 ->
  0 <= lk t j < zlen t /\ ad t (lk t j) <> 0 /\ hash7 (ad t (lk t j)) = hash7 (ad t j) /\ In (lk t j) (c (hash7 (ad t j))).
Proof.
  intros Hc Hj Aj Hm. pose proof (in_chain t c j Hc Hj Aj) as Hin. destruct (Hc (hash7 (ad t j))) as (_ & Hmem & Hl).
  destruct (linked_next t _ j Hl Hin) as [H|H]; [contradiction|]. pose proof H as H'. apply Hmem in H. destruct H as (H1 & H2 & H3).
  split; [exact H1|]. split; [exact H2|]. split; [exact H3|exact H'].
Qed.
Lemma chains_chained t c : one_chain t c -> blank_links t -> chained t.
Proof.
  intros Hc Hb. split; [|split; [exact Hb|split]].
  - intros j Hj Aj Hm. apply (chain_next t c j Hc Hj Aj Hm).
  - intros j k Hj Hk Aj Ak Hm E. destruct (chain_next t c j Hc Hj Aj Hm) as (_ & _ & E1 & _).
    destruct (chain_next t c k Hc Hk Ak ltac:(congruence)) as (_ & _ & E2 & _). rewrite E, E2 in E1.
    pose proof (in_chain t c j Hc Hj Aj) as I1. pose proof (in_chain t c k Hc Hk Ak) as I2. rewrite E1 in I2.
    destruct (Hc (hash7 (ad t j))) as (Hn & _ & Hl). apply (linked_inj t _ j k Hn Hl I1 I2 Hm E).
  - intros j k Hj Hk Aj Ak E. destruct (chain_next t c j Hc Hj Aj ltac:(clear - E Hk; lia)) as (_ & _ & _ & I2). rewrite E in I2.
    pose proof (in_chain t c j Hc Hj Aj) as I1. destruct (Hc (hash7 (ad t j))) as (Hn & _ & Hl).
    apply (linked_acyclic t _ j k Hn (fun i H => chain_pos t c _ i Hc H) Hl I1 I2 E).
Qed.
Lemma chains_links t c : one_chain t c -> links_ok t.
Proof.
  intros Hc j Hj. rewrite link_ok_lk. intros Aj Hm. destruct (chain_next t c j Hc Hj Aj Hm) as (H1 & H2 & H3 & H4).
  split; [|split; [exact H1|symmetry; exact H3]]. intros E.
  pose proof (in_chain t c j Hc Hj Aj) as I1. destruct (Hc (hash7 (ad t j))) as (Hn & _ & Hl).
  apply (linked_acyclic t _ j j Hn (fun i H => chain_pos t c _ i Hc H) Hl I1 I1 E E).
Qed.

(** ** Deleting, adding, updating, moving *)
Lemma delete_chains t n i c : zlen t = 819 -> map_table t -> blank_links t -> one_chain t c -> n <> [] ->
  0 <= i < 819 -> equal_fold n (nm t i) = true -> ~ orphans t i ->
  one_chain (fst (DeleteSymbol t n)) (fun h => without i (c h)).
Proof.
  intros HL Hmap Hb Hc Hn Hi En Hno.
  destruct (delete_shape t n i HL (chains_links t c Hc) Hmap (chains_chained t c Hc Hb) Hn Hi En) as (Ai & L' & Hai & Ha & Hk1 & _ & Hk3).
  remember (fst (DeleteSymbol t n)) as t' eqn:Et'. clear Et'. intros h. destruct (Hc h) as (Hnd & Hmem & Hl). split; [|split].
  - apply NoDup_filter. exact Hnd.
  - intros j. rewrite In_without, Hmem, L'. split.
    + intros ((Hj & Aj & Ej) & Hne). rewrite (Ha j Hj Hne). split; [exact Hj|]. split; [exact Aj|exact Ej].
    + intros (Hj & Aj & Ej). assert (Hne : j <> i) by (intros ->; contradiction). rewrite (Ha j Hj Hne) in *.
      split; [|exact Hne]. split; [exact Hj|]. split; [exact Aj|exact Ej].
  - apply (linked_without t t' i (c h)); [clear - Hi; lia|exact Hnd|exact Hl| |].
    + intros j Hj Hne Ek. apply Hmem in Hj. destruct Hj as (Hj & Aj & _). apply Hk1; assumption.
    + intros j Hj Hne Ek. apply Hmem in Hj. destruct Hj as (Hj & Aj & _). apply Hk3; try assumption.
      intros Hs. apply Hno. exists j. split; [exact Hj|]. split; [exact Aj|]. split; [exact Ek|exact Hs].
Qed.
Definition append_to (h0 p : Z) (c : Z -> list Z) : Z -> list Z := fun h => if h =? h0 then c h ++ [p] else c h.
Lemma add_at_chains t p n a c : one_chain t c -> 0 <= p < zlen t -> ad t p = 0 -> a <> 0 ->
  (forall j, 0 <= j < zlen t -> ad t j = 0 -> hash7 a = 0 -> lk t j <> -1) ->
  one_chain (zset (link_end t (addrHash a) p) p (Sym a n (-1))) (append_to (hash7 a) p c).
Proof.
  intros Hc Hp Ap Ha0 Hbl. destruct (link_end_spec t (addrHash a) p) as [Lu HC]. remember (link_end t (addrHash a) p) as u eqn:Eu. clear Eu.
  assert (Hp' : 0 <= p < zlen u) by (clear - Hp Lu; lia).
  remember (zset u p (Sym a n (-1))) as t' eqn:Et'.
  assert (L' : zlen t' = zlen t) by (rewrite Et', zlen_zset; [exact Lu|exact Hp']).
  assert (Hap : ad t' p = a /\ lk t' p = -1).
  { rewrite Et'. unfold ad, lk. rewrite znth_zset by (clear - Hp'; lia). rewrite Z.eqb_refl. split; reflexivity. }
  destruct Hap as [Hap Hlp].
  assert (Hz : forall j, 0 <= j < zlen t -> j <> p -> znth sym0 t' j = znth sym0 u j).
  { intros j Hj Hne. rewrite Et', znth_zset by (clear - Hj Lu Hp'; lia). replace (j =? p) with false by (clear - Hne; lia). reflexivity. }
  assert (Hadj : forall j, 0 <= j < zlen t -> j <> p -> ad t' j = ad t j).
  { intros j Hj Hne. unfold ad. rewrite (Hz j Hj Hne). destruct HC as [[_ ->]|(q & Q1 & Q2 & Q3 & Q4 & Q5)]; [reflexivity|].
    destruct (Z.eq_dec j q) as [->|Hq]; [rewrite Q4; reflexivity|]. rewrite Q5; [reflexivity|clear - Hj; lia|exact Hq]. }
  assert (Hpc : forall h, ~ In p (c h)).
  { intros h H. apply (proj1 (proj2 (Hc h))) in H. destruct H as (_ & H & _). contradiction. }
  assert (Hnz : forall q, 0 <= q < zlen t -> hash7 (ad t q) = hash7 a -> lk t q = -1 -> ad t q <> 0).
  { intros q Hq Eq Lq A0. apply (Hbl q Hq A0); [|exact Lq]. rewrite <- Eq, A0. reflexivity. }
  assert (Hlk : forall h j, In j (c h) -> h <> hash7 a -> lk t' j = lk t j).
  { intros h j Hj Hne. pose proof Hj as Hin. apply (proj1 (proj2 (Hc h))) in Hj. destruct Hj as (Hj & Aj & Ej). assert (Hjp : j <> p) by (intros ->; contradiction).
    unfold lk. rewrite (Hz j Hj Hjp). destruct HC as [[_ ->]|(q & Q1 & Q2 & Q3 & Q4 & Q5)]; [reflexivity|].
    rewrite Q5; [reflexivity|clear - Hj; lia|]. intros ->. rewrite !addrHash_hash7 in Q2. congruence. }
  intros h. destruct (Hc h) as (Hnd & Hmem & Hl). unfold append_to.
  assert (Hother : forall j, In j (c h) <-> (0 <= j < zlen t' /\ ad t' j <> 0 /\ hash7 (ad t' j) = h) /\ j <> p).
  { intros j. rewrite Hmem, L'. split.
    - intros (Hj & Aj & Ej). assert (Hjp : j <> p) by (intros ->; contradiction). rewrite (Hadj j Hj Hjp).
      split; [|exact Hjp]. split; [exact Hj|]. split; [exact Aj|exact Ej].
    - intros ((Hj & Aj & Ej) & Hjp). rewrite (Hadj j Hj Hjp) in *. split; [exact Hj|]. split; [exact Aj|exact Ej]. }
  destruct (Z.eqb_spec h (hash7 a)) as [Eh|Eh].
  - split; [|split].
    + apply NoDup_snoc; [exact Hnd|apply Hpc].
    + intros j. rewrite in_app_iff, Hother. split.
      * intros [[H _]|[<-|[]]]; [exact H|]. rewrite L', Hap. split; [exact Hp|]. split; [exact Ha0|symmetry; exact Eh].
      * intros H. destruct (Z.eq_dec j p) as [->|Hjp]; [right; left; reflexivity|left; split; [exact H|exact Hjp]].
    + destruct HC as [[Hno Eu]|(q & Q1 & Q2 & Q3 & Q4 & Q5)].
      * destruct (c h) as [|x r] eqn:Ech; [cbn [app linked hd]; split; [exact Hlp|exact I]|].
        destruct (linked_has_last t (x :: r) ltac:(discriminate) Hl) as (j & Hj & Ej). apply Hmem in Hj. destruct Hj as (Hj & Aj & Hh).
        exfalso. apply (Hno j Hj); [rewrite !addrHash_hash7; congruence|exact Ej].
      * rewrite !addrHash_hash7 in Q2. pose proof (Hnz q Q1 Q2 Q3) as Aq.
        assert (Hq : In q (c h)) by (apply Hmem; split; [exact Q1|]; split; [exact Aq|congruence]).
        destruct (linked_last t (c h) q (fun i H => chain_pos t c h i Hc H) Hl Hq Q3) as [c0 E0].
        assert (Hqp : q <> p) by (intros ->; contradiction).
        rewrite E0 in *. apply (linked_snoc t t' c0 q p); [|unfold lk; rewrite (Hz q Q1 Hqp), Q4; reflexivity|exact Hlp|exact Hl].
        intros j Hj. assert (Hjc : In j (c0 ++ [q])) by (apply in_app_iff; left; exact Hj). apply Hmem in Hjc. destruct Hjc as (Hjr & Aj & _).
        assert (Hjp : j <> p) by (intros ->; contradiction). unfold lk. rewrite (Hz j Hjr Hjp), Q5; [reflexivity|clear - Hjr; lia|].
        intros ->. apply NoDup_remove_2 in Hnd. rewrite app_nil_r in Hnd. contradiction.
  - split; [exact Hnd|]. split.
    + intros j. rewrite Hother. split; [intros [H _]; exact H|]. intros H. split; [exact H|]. intros ->. destruct H as (_ & _ & H). rewrite Hap in H. congruence.
    + apply (linked_ext t t'); [|exact Hl]. intros j Hj. apply (Hlk h j Hj Eh).
Qed.
Lemma update_chains t j a c : one_chain t c -> 0 <= j < zlen t -> a <> 0 -> ad t j <> 0 -> hash7 (ad t j) = hash7 a ->
  one_chain (zset t j (set_addr (znth sym0 t j) a)) c.
Proof.
  intros Hc Hj Ha0 Aj Eh h. destruct (Hc h) as (Hnd & Hmem & Hl). split; [exact Hnd|].
  assert (H : forall k, 0 <= k < zlen t -> lk (zset t j (set_addr (znth sym0 t j) a)) k = lk t k /\
     hash7 (ad (zset t j (set_addr (znth sym0 t j) a)) k) = hash7 (ad t k) /\ (ad (zset t j (set_addr (znth sym0 t j) a)) k <> 0 <-> ad t k <> 0)).
  { intros k Hk. unfold lk, ad. rewrite znth_zset by (clear - Hk Hj; lia). destruct (Z.eqb_spec k j) as [->|]; [|split; [reflexivity|split; [reflexivity|reflexivity]]].
    cbn [set_addr s_link s_addr]. unfold ad in *. split; [reflexivity|]. split; [congruence|]. split; intros _; assumption. }
  split.
  - intros k. rewrite Hmem, zlen_zset by exact Hj. split; intros (Hk & Ak & Ek); destruct (H k Hk) as (_ & E1 & E2).
    + split; [exact Hk|]. split; [apply E2; exact Ak|congruence].
    + split; [exact Hk|]. split; [apply E2; exact Ak|congruence].
  - apply (linked_ext t); [|exact Hl]. intros k Hk. apply Hmem in Hk. apply (H k (proj1 Hk)).
Qed.
Lemma delete_step t n t' c : zlen t = 819 -> map_table t -> blank_links t -> one_chain t c -> n <> [] -> careful (SDel n) t ->
  DeleteSymbol t n = (t', true) -> exists c', one_chain t' c' /\ chains_after (SDel n) t t' c c'.
Proof.
  intros HL Hmap Hb Hc Hn Hcare E. pose proof (find_name_spec t n 0) as Hf.
  destruct (find_name t n 0) as [i|] eqn:Ef; [|unfold DeleteSymbol in E; rewrite Ef in E; inversion E].
  rewrite Z.sub_0_r in Hf. destruct Hf as (H1 & H2 & _). assert (Hi : 0 <= i < zlen t) by (clear - H1; lia).
  exists (fun h => without i (c h)). split.
  - pose proof (delete_chains t n i c HL Hmap Hb Hc Hn ltac:(clear - Hi HL; lia) H2 (Hcare i Hi H2)) as H. rewrite E in H. exact H.
  - exists i. split; [exact Hi|]. split; [exact H2|reflexivity].
Qed.
Lemma add_step t n a t' c : zlen t = 819 -> map_table t -> blank_links t -> one_chain t c -> n <> [] -> careful (SAdd n a) t ->
  AddSymbol t n a = (t', Ok tt) -> exists c', one_chain t' c' /\ chains_after (SAdd n a) t t' c c'.
Proof.
  intros HL Hmap Hb Hc Hn Hcare E. unfold AddSymbol in E. destruct (Z.eqb_spec a 0) as [|Ha0]; [discriminate|]. cbv zeta in E.
  pose proof (add_scan_spec t n (addrHash a) 0 (-1) ltac:(lia)) as Hsc. pose proof (find_name_spec t n 0) as Hf.
  destruct (find_name t n 0) as [i|].
  - rewrite Z.sub_0_r in *. destruct Hf as (H1 & H2 & _). assert (Hi : 0 <= i < zlen t) by (clear - H1; lia).
    destruct (delete_entry t n i Hmap Hn Hi H2) as (Ai & _ & _).
    rewrite Hsc, !addrHash_hash7 in E. destruct (Z.eqb_spec (hash7 (ad t i)) (hash7 a)) as [Eh|Eh].
    + assert (Et : zset t i (set_addr (znth sym0 t i) a) = t') by congruence. exists c. split.
      * rewrite <- Et. apply update_chains; assumption.
      * left. exists i. split; [exact Hi|]. split; [exact H2|]. split; [exact Eh|reflexivity].
    + unfold add_at in E. replace (i =? -1) with false in E by (clear - Hi; lia).
      assert (Et : zset (link_end (fst (DeleteSymbol t n)) (hash7 a) i) i (Sym a n (-1)) = t') by congruence. clear E.
      destruct (Hcare i Hi H2) as [H|[Hz Hno]]; [contradiction|].
      pose proof (delete_chains t n i c HL Hmap Hb Hc Hn ltac:(clear - Hi HL; lia) H2 Hno) as Hc1.
      destruct (delete_shape t n i HL (chains_links t c Hc) Hmap (chains_chained t c Hc Hb) Hn ltac:(clear - Hi HL; lia) H2) as (_ & L' & Hai & _).
      exists (append_to (hash7 a) i (fun h => without i (c h))). split.
      * pose proof (add_at_chains (fst (DeleteSymbol t n)) i n a _ Hc1 ltac:(rewrite L'; exact Hi) Hai Ha0 (fun j _ _ H => False_ind _ (Hz H))) as H.
        rewrite addrHash_hash7, Et in H. exact H.
      * right; left. exists i. split; [exact Hi|]. split; [exact H2|]. split; [exact Eh|reflexivity].
  - destruct Hsc as (p & Es & Hp). rewrite Es in E. unfold add_at in E. destruct (Z.eqb_spec p (-1)) as [Ep|Ep]; [discriminate|].
    assert (Et : zset (link_end t (addrHash a) p) p (Sym a n (-1)) = t') by congruence. clear E.
    destruct Hp as [(H & _)|[(_ & Hp & H0)|(_ & H3 & _)]]; [contradiction (H eq_refl)| |contradiction].
    rewrite Z.sub_0_r in H0. assert (Hp' : 0 <= p < zlen t) by (clear - Hp; lia).
    exists (append_to (hash7 a) p c). split.
    + rewrite <- Et. apply add_at_chains; [exact Hc|exact Hp'|exact H0|exact Ha0|]. intros j Hj Aj _. rewrite (Hb j Hj Aj). clear. lia.
    + right; right. exists p. split; [exact Hp'|]. split; [intros j Hj; apply (Hf j Hj)|]. split; [exact H0|]. split; [|reflexivity].
      pose proof (proj1 (link_end_spec t (addrHash a) p)) as Lu. rewrite <- Et. unfold ad. rewrite znth_zset by (clear - Lu Hp'; lia). rewrite Z.eqb_refl. reflexivity.
Qed.

(** ** A trip to the disk *)
Lemma canon_nth t j : 0 <= j < zlen t -> znth sym0 (map canon t) j = canon (znth sym0 t j).
Proof. intros Hj. apply (znth_map canon sym0 sym0). exact Hj. Qed.
Lemma canon_chains t c : one_chain t c -> one_chain (map canon t) c.
Proof.
  intros Hc h. destruct (Hc h) as (Hnd & Hmem & Hl). split; [exact Hnd|]. split.
  - intros j. rewrite Hmem, zlen_map. split; intros (Hj & H); (split; [exact Hj|]); unfold ad in *; rewrite canon_nth, canon_addr in *; assumption.
  - apply (linked_ext t); [|exact Hl]. intros j Hj. apply Hmem in Hj. destruct Hj as (Hj & Aj & _). unfold lk, ad in *.
    rewrite canon_nth by exact Hj. unfold canon. destruct (Z.eqb_spec (s_addr (znth sym0 t j)) 0); [contradiction|reflexivity].
Qed.
Lemma canon_blank_links t : blank_links (map canon t).
Proof.
  intros j Hj Aj. rewrite zlen_map in Hj. unfold lk, ad in *. rewrite canon_nth in * by exact Hj. rewrite canon_addr in Aj.
  unfold canon. rewrite Aj. reflexivity.
Qed.

Lemma upcase_valid n : valid_name n -> valid_name (upcase n).
Proof.
  intros [->|(H1 & H2 & H3)]; [left; reflexivity|]. right. unfold upcase. rewrite zlen_map. split; [exact H1|]. split.
  - apply Forall_map. eapply Forall_impl; [|exact H2]. intros c Hc. unfold alnum, letter, digit in *.
    destruct ((97 <=? c) && (c <=? 122)) eqn:E; lia.
  - replace (name_bits (map _ n)) with (name_bits n); [exact H3|]. clear H1 H3. induction H2 as [|c n Hc _ IH]; [reflexivity|].
    cbn [name_bits map]. rewrite <- IH. f_equal. unfold char_bits, alnum, letter, digit in *. destruct ((97 <=? c) && (c <=? 122)) eqn:E; [|reflexivity].
    replace ((48 <=? c) && (c <=? 57)) with false by lia. replace ((48 <=? c - 32) && (c - 32 <=? 57)) with false by lia. reflexivity.
Qed.
Lemma canon_s_ok s : s_ok s -> s_ok (canon s).
Proof.
  intros (H1 & H2 & H3). unfold canon. destruct (Z.eqb_spec (s_addr s) 0) as [E|E].
  - split; [unfold sym0, is_u16; cbn [s_addr]; lia|]. split; [left; reflexivity|]. intros H. contradiction H. reflexivity.
  - split; [exact H1|]. split; [cbn [s_name]; apply upcase_valid, H2|]. intros _. apply H3, E.
Qed.
Lemma canon_s_oks t : Forall s_ok t -> Forall s_ok (map canon t).
Proof. intros H. apply Forall_map. eapply Forall_impl; [|exact H]. exact canon_s_ok. Qed.
Lemma fold_canon n s : s_ok s -> (s_addr s = 0 -> s_name s = []) -> equal_fold n (s_name (canon s)) = equal_fold n (s_name s).
Proof.
  intros (_ & H2 & _) Hb. unfold canon. destruct (Z.eqb_spec (s_addr s) 0) as [E|E].
  - rewrite (Hb E). reflexivity.
  - cbn [s_name]. unfold equal_fold. rewrite (fold_upcase _ (valid_ascii _ H2)). reflexivity.
Qed.
Lemma blanks_Forall t : blanks_unnamed t -> Forall (fun s => s_addr s = 0 -> s_name s = []) t.
Proof. intros H. apply Forall_forall. intros s Hs. apply (In_znth sym0) in Hs as (j & Hj & <-). apply (H j Hj). Qed.
Lemma canon_ByName t n : Forall s_ok t -> blanks_unnamed t -> ByName (map canon t) n = ByName t n.
Proof.
  intros Hs Hb. apply blanks_Forall in Hb. induction t as [|s t IH]; [reflexivity|].
  apply Forall_cons_iff in Hs, Hb. destruct Hs as [Hs1 Hs], Hb as [Hb1 Hb].
  cbn [map ByName]. rewrite (fold_canon n s Hs1 Hb1), canon_addr, IH by assumption. reflexivity.
Qed.
Lemma canon_unused t : unused (map canon t) = unused t.
Proof.
  unfold unused. induction t as [|s t IH]; [reflexivity|]. cbn [map filter]. rewrite canon_addr. destruct (s_addr s =? 0); [rewrite !zlen_cons, IH; reflexivity|exact IH].
Qed.
Lemma canon_nm t n j : Forall s_ok t -> blanks_unnamed t -> 0 <= j < zlen t -> equal_fold n (nm (map canon t) j) = equal_fold n (nm t j).
Proof.
  intros Hs Hb Hj. unfold nm. rewrite canon_nth by exact Hj. apply fold_canon; [exact (Forall_znth s_ok sym0 t j Hs Hj)|apply (Hb j Hj)].
Qed.
Lemma canon_map_table t : Forall s_ok t -> map_table t -> map_table (map canon t).
Proof.
  intros Hs [Hu Hb]. split.
  - intros i j Hi Hj Hne E. rewrite zlen_map in Hi, Hj. rewrite canon_nm in E by assumption. rewrite equal_fold_sym, canon_nm, equal_fold_sym in E by assumption.
    apply (Hu i j Hi Hj); [|exact E]. intros H. apply Hne. unfold nm in *. rewrite canon_nth by exact Hi. unfold canon.
    destruct (s_addr (znth sym0 t i) =? 0); [reflexivity|]. cbn [s_name]. rewrite H. reflexivity.
  - intros i Hi Ai. rewrite zlen_map in Hi. unfold ad, nm in *. rewrite canon_nth in * by exact Hi. rewrite canon_addr in Ai. unfold canon. rewrite Ai. reflexivity.
Qed.
Lemma canon_sym_R t m : Forall s_ok t -> sym_R t m -> sym_R (map canon t) m.
Proof.
  intros Hs (H1 & H2 & H3). split; [apply canon_map_table; assumption|]. split.
  - intros n Hn. rewrite canon_ByName by (try assumption; apply H1). apply H2, Hn.
  - rewrite canon_unused. exact H3.
Qed.

(** ** Histories *)
Record table_disk (s : disk) (t : list Symbol) (m : amap) (c : Z -> list Z) : Prop := {
  td_fl : floppy (fst s) (snd s);
  td_3 : zlen (owned (snd s) 3) = 16;
  td_4 : zlen (owned (snd s) 4) = 16;
  td_t : disk_table s = Ok t;
  td_len : zlen t = 819;
  td_sok : Forall s_ok t;
  td_R : sym_R t m;
  td_c : one_chain t c }.
Lemma td_blank s t m c : table_disk s t m c -> blank_links t.
Proof. intros H. rewrite <- (ReadSymbolTable_canon _ _ _ (td_t _ _ _ _ H)). apply canon_blank_links. Qed.
Lemma written s t m c t' m' c' : table_disk s t m c -> zlen t' = 819 -> Forall s_ok t' -> sym_R t' m' -> one_chain t' c' ->
  exists s', WriteSymbolTable t' s = (s', Ok tt) /\ table_disk s' (map canon t') m' c' /\ others_same s s'.
Proof.
  intros Hd HL Hs HR Hc. destruct s as [d sm]. destruct Hd as [Hf H3 H4 _ _ _ _ _]. cbn [fst snd] in *.
  destruct (C35_lemma t' d sm Hf) as (d' & sm' & EW & Hf' & ER & Ho & K3 & K4 & _); [|exact H3|exact H4|].
  { split; [exact HL|]. split; [exact Hs|]. apply (chains_links t' c' Hc). }
  exists (d', sm'). split; [exact EW|]. split; [|exact Ho].
  split; cbn [fst snd]; [exact Hf'|exact K3|exact K4|exact ER|rewrite zlen_map; exact HL|apply canon_s_oks, Hs|apply canon_sym_R; assumption|apply canon_chains, Hc].
Qed.
Lemma edit_step op s t m c : table_disk s t m c -> edit_ok op -> careful op t ->
  exists s' t' c', disk_edit op s = Ok (s', snd (am_step op m)) /\ table_disk s' t' (fst (am_step op m)) c' /\ others_same s s' /\
    ((t' = t /\ (forall h, c' h = c h)) \/ (t' = map canon (fst (sym_step op t)) /\ chains_after op t t' c c')).
Proof.
  intros Hd [Hn Hop] Hcare. pose proof (td_blank _ _ _ _ Hd) as Hb. pose proof Hd as [Hf H3 H4 Et HL Hs HR Hc].
  destruct (sym_step op t) as [t1 o] eqn:Es. destruct (am_step op m) as [m1 o'] eqn:Em.
  destruct (sym_step_refines op t m t1 o m1 o' Hn HR Es Em) as (<- & HR1 & L1). cbn [fst snd].
  unfold disk_edit. rewrite Et. cbn [rbind]. destruct op as [n a|n]; cbn [op_name sym_step am_step] in *.
  - destruct (AddSymbol t n a) as [t2 r] eqn:Ea. assert (t2 = t1) as -> by congruence.
    destruct Hop as [Hv Hu]. destruct r as [[]|e|].
    + assert (o = OAdded) as -> by congruence.
      destruct (add_step t n a t1 c HL (proj1 HR) Hb Hc Hn Hcare Ea) as (c' & Hc' & Haft).
      destruct (written s t m c t1 m1 c' Hd ltac:(rewrite L1; exact HL) (AddSymbol_sok t n a t1 ltac:(rewrite HL; lia) (proj1 HR) Hn Hs Hu Hv Ea) HR1 Hc') as (s' & EW & Hd' & Ho).
      exists s', (map canon t1), c'. rewrite EW. cbn [rbind]. split; [reflexivity|]. split; [exact Hd'|]. split; [exact Ho|]. right. split; [reflexivity|].
      destruct Haft as [H|[H|(p & Hp & H1 & H2 & H5 & H6)]]; [left; exact H|right; left; exact H|right; right].
      exists p. split; [exact Hp|]. split; [exact H1|]. split; [exact H2|]. split; [|exact H6].
      rewrite <- H5. unfold ad. rewrite canon_nth by (rewrite L1; exact Hp). apply canon_addr.
    + assert (o = ORefused) as -> by congruence. destruct (AddSymbol_fail t n a t1 (Err e) Ea ltac:(discriminate)) as (-> & _).
      exists s, t, c. split; [reflexivity|]. split; [|split; [intros g _ _ _; split; reflexivity|left; split; [reflexivity|reflexivity]]].
      split; assumption.
    + exfalso. destruct (AddSymbol_fail t n a t1 Panic Ea ltac:(discriminate)) as (_ & [e He] & _). discriminate He.
  - destruct (DeleteSymbol t n) as [t2 b] eqn:Ea. assert (t2 = t1) as -> by congruence. assert (o = ODeleted b) as -> by congruence. destruct b.
    + destruct (delete_step t n t1 c HL (proj1 HR) Hb Hc Hn Hcare Ea) as (c' & Hc' & Haft).
      pose proof (DeleteSymbol_sok t n ltac:(rewrite HL; lia) (proj1 HR) Hn Hs) as Hs1. rewrite Ea in Hs1. cbn [fst] in Hs1.
      destruct (written s t m c t1 m1 c' Hd ltac:(rewrite L1; exact HL) Hs1 HR1 Hc') as (s' & EW & Hd' & Ho).
      exists s', (map canon t1), c'. rewrite EW. cbn [rbind]. split; [reflexivity|]. split; [exact Hd'|]. split; [exact Ho|]. right. split; [reflexivity|exact Haft].
    + assert (t1 = t) as ->.
      { unfold DeleteSymbol in Ea. destruct (find_name t n 0); [discriminate|congruence]. }
      exists s, t, c. split; [reflexivity|]. split; [|split; [intros g _ _ _; split; reflexivity|left; split; [reflexivity|reflexivity]]].
      split; assumption.
Qed.
Lemma edits_run ops : forall s t m c, table_disk s t m c -> Forall edit_ok ops -> all_careful ops s ->
  exists s' t' c', disk_edits ops s = Ok (s', snd (am_run ops m)) /\ table_disk s' t' (fst (am_run ops m)) c' /\ others_same s s'.
Proof.
  induction ops as [|op ops IH]; intros s t m c Hd Hok Hcare.
  - exists s, t, c. cbn [disk_edits am_run fst snd]. split; [reflexivity|]. split; [exact Hd|]. intros g _ _ _. split; reflexivity.
  - apply Forall_cons_iff in Hok. destruct Hok as [Hok1 Hok]. cbn [all_careful] in Hcare. destruct Hcare as [Hcare1 Hcare].
    destruct (edit_step op s t m c Hd Hok1 (Hcare1 t (td_t _ _ _ _ Hd))) as (s1 & t1 & c1 & E1 & Hd1 & Ho1 & _).
    cbn [disk_edits am_run]. destruct (am_step op m) as [m1 o1] eqn:Em. cbn [fst snd] in *.
    destruct (IH s1 t1 m1 c1 Hd1 Hok (Hcare s1 o1 E1)) as (s2 & t2 & c2 & E2 & Hd2 & Ho2).
    exists s2, t2, c2. rewrite E1. cbn [rbind fst snd]. rewrite E2. cbn [rbind fst snd].
    destruct (am_run ops m1) as [m2 os]. cbn [fst snd] in *. split; [reflexivity|]. split; [exact Hd2|].
    intros g G3 G4 Hg. destruct (Ho1 g G3 G4 Hg) as [A1 A2]. destruct (Ho2 g G3 G4 Hg) as [B1 B2]. split; congruence.
Qed.

(** Edits that leave the first entry alone are careful. *)
Lemma canon_upcase_nm t : map canon t = t -> forall j, 0 <= j < zlen t -> ad t j <> 0 -> upcase (nm t j) = nm t j.
Proof.
  intros Ec j Hj Aj. unfold nm, ad in *. pose proof (canon_nth t j Hj) as H. rewrite Ec in H. unfold canon in H.
  destruct (Z.eqb_spec (s_addr (znth sym0 t j)) 0); [contradiction|]. rewrite H at 2. reflexivity.
Qed.
Lemma sparing_step op s t m c : table_disk s t m c -> edit_ok op -> nm t 0 <> [] -> equal_fold (op_name op) (nm t 0) = false ->
  match op with SAdd _ a => hash7 a <> 0 | SDel _ => True end ->
  careful op t /\ forall s' o, disk_edit op s = Ok (s', o) -> exists t', disk_table s' = Ok t' /\ nm t' 0 = nm t 0.
Proof.
  intros Hd Hok Hne Hop Hz. pose proof (td_len _ _ _ _ Hd) as HL.
  assert (Hcare : careful op t).
  { intros i Hi En. assert (Hi0 : i <> 0) by (intros ->; congruence).
    assert (Hno : ~ orphans t i) by (intros (j & _ & _ & _ & (H & _)); contradiction).
    destruct op as [n a|n]; [right; split; assumption|exact Hno]. }
  split; [exact Hcare|]. intros s' o E.
  destruct (edit_step op s t m c Hd Hok Hcare) as (s1 & t1 & c1 & E1 & Hd1 & _ & Hcase).
  assert (s1 = s') as <- by congruence. exists t1. split; [apply (td_t _ _ _ _ Hd1)|].
  destruct Hcase as [(-> & _)|(-> & _)]; [reflexivity|].
  assert (A0 : ad t 0 <> 0).
  { intros H. apply Hne. apply (proj2 (proj1 (td_R _ _ _ _ Hd))); [rewrite HL; lia|exact H]. }
  assert (Hfirst : ad (fst (sym_step op t)) 0 = ad t 0 /\ nm (fst (sym_step op t)) 0 = nm t 0 /\ zlen (fst (sym_step op t)) = zlen t).
  { destruct op as [n a|n]; cbn [sym_step op_name] in *.
    - pose proof (zlen_AddSymbol t n a) as HLa. destruct (AddSymbol t n a) as [t2 r] eqn:Ea. cbn [fst] in *.
      destruct r as [[]|e|]; [|destruct (AddSymbol_fail t n a t2 _ Ea ltac:(discriminate)) as (-> & _); split; [reflexivity|split; [reflexivity|exact HLa]]
        |destruct (AddSymbol_fail t n a t2 _ Ea ltac:(discriminate)) as (-> & _); split; [reflexivity|split; [reflexivity|exact HLa]]].
      destruct (AddSymbol_changed t n a t2 Ea) as (_ & p & n' & (_ & _ & _ & _ & Hq) & _ & Hp).
      assert (0 <> p) as Hp0.
      { intros <-. destruct Hp as [(H & _)|(H & _)]; [congruence|contradiction]. }
      destruct (Hq 0 ltac:(clear; lia) Hp0) as [Q1 Q2]. split; [exact Q1|]. split; [exact Q2|exact HLa].
    - pose proof (DeleteSymbol_spec t n) as H. pose proof (find_name_spec t n 0) as Hf. destruct (find_name t n 0) as [i|].
      + destruct H as (t2 & Ed & (H1 & _ & _ & _ & Hq) & _). rewrite Ed. cbn [fst]. rewrite Z.sub_0_r in Hf. destruct Hf as (_ & Hf & _).
        assert (0 <> i) as Hi0 by (intros <-; congruence).
        destruct (Hq 0 ltac:(clear; lia) Hi0) as [Q1 Q2]. split; [exact Q1|]. split; [exact Q2|exact H1].
      + rewrite H. split; [reflexivity|]. split; reflexivity. }
  destruct Hfirst as (F1 & F2 & F3). unfold nm at 1. rewrite canon_nth by (rewrite F3, HL; lia). unfold canon. fold (ad (fst (sym_step op t)) 0) (nm (fst (sym_step op t)) 0).
  rewrite F1, F2. destruct (Z.eqb_spec (ad t 0) 0); [contradiction|]. cbn [s_name].
  apply canon_upcase_nm; [apply (ReadSymbolTable_canon _ _ _ (td_t _ _ _ _ Hd))|rewrite HL; lia|exact A0].
Qed.
Lemma sparing_careful ops : forall s t m c, table_disk s t m c -> Forall edit_ok ops -> spares_first t ops -> all_careful ops s.
Proof.
  induction ops as [|op ops IH]; intros s t m c Hd Hok [Hne Hsp]; [exact I|].
  apply Forall_cons_iff in Hok, Hsp. destruct Hok as [Hok1 Hok]. destruct Hsp as [[Hop Hz] Hsp]. cbn [all_careful].
  destruct (sparing_step op s t m c Hd Hok1 Hne Hop Hz) as [Hcare Hnext]. split.
  - intros t2 E2. assert (t2 = t) as -> by (rewrite (td_t _ _ _ _ Hd) in E2; congruence). exact Hcare.
  - intros s' o E. destruct (edit_step op s t m c Hd Hok1 Hcare) as (s1 & t1 & c1 & E1 & Hd1 & _).
    assert (s1 = s') as <- by congruence. destruct (Hnext s1 o E) as (t' & Et' & Hn').
    assert (t' = t1) as -> by (rewrite (td_t _ _ _ _ Hd1) in Et'; congruence).
    apply (IH s1 t1 _ c1 Hd1 Hok). split; [rewrite Hn'; exact Hne|]. rewrite Hn'. exact Hsp.
Qed.

(** ** The statements *)
Lemma C94_history_lemma : forall ops s t m c, plain_disk s t -> table_ok t -> names_unique t -> one_chain t c ->
  (forall n, n <> [] -> am_addr m n = ByName t n) -> am_free m = unused t ->
  Forall edit_ok ops -> (all_careful ops s \/ spares_first t ops) ->
  exists s' t' c', disk_edits ops s = Ok (s', snd (am_run ops m)) /\ plain_disk s' t' /\
    table_ok t' /\ names_unique t' /\ one_chain t' c' /\
    (forall n, n <> [] -> ByName t' n = am_addr (fst (am_run ops m)) n) /\ unused t' = am_free (fst (am_run ops m)) /\
    others_same s s'.
Proof.
  intros ops s t m c (Hf & H3 & H4 & Et) (HL & Hs & _) Hu Hc Hm Hfree Hok Hcare.
  assert (Hbu : blanks_unnamed t).
  { rewrite <- (ReadSymbolTable_canon _ _ _ Et). intros i Hi Ai. rewrite zlen_map in Hi. unfold ad, nm in *. rewrite canon_nth in * by exact Hi.
    rewrite canon_addr in Ai. unfold canon. rewrite Ai. reflexivity. }
  assert (Hd : table_disk s t m c).
  { split; try assumption. split; [split; assumption|]. split; assumption. }
  assert (Hcare' : all_careful ops s) by (destruct Hcare as [H|H]; [exact H|apply (sparing_careful ops s t m c Hd Hok H)]).
  destruct (edits_run ops s t m c Hd Hok Hcare') as (s' & t' & c' & E & Hd' & Ho). exists s', t', c'.
  destruct Hd' as [F1 F2 F3 F4 F5 F6 (F7 & F8 & F9) F10]. split; [exact E|]. split; [split; [exact F1|split; [exact F2|split; [exact F3|exact F4]]]|].
  split; [split; [exact F5|split; [exact F6|apply (chains_links t' c' F10)]]|]. split; [apply F7|]. split; [exact F10|].
  split; [intros n Hn; symmetry; apply F8, Hn|]. split; [symmetry; exact F9|exact Ho].
Qed.
Lemma C94_step_lemma : forall op t t' c, zlen t = 819 -> map_table t -> blank_links t -> one_chain t c -> op_name op <> [] -> careful op t ->
  match op with SAdd n a => AddSymbol t n a = (t', Ok tt) | SDel n => DeleteSymbol t n = (t', true) end ->
  exists c', one_chain t' c' /\ chains_after op t t' c c'.
Proof.
  intros [n a|n] t t' c HL Hmap Hb Hc Hn Hcare E; cbn [op_name] in Hn.
  - apply add_step; assumption.
  - apply delete_step; assumption.
Qed.
