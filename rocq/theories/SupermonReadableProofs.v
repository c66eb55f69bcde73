(** SupermonReadableProofs.v -- exactly which written symbol tables can be read back, and exactly
    which deletions make a table unreadable (C38). *)
From Coq Require Import ZifyBool ZifyNat.
From Verif Require Import GoBase GoLemmas DiskModel TypesModel.
From Verif Require Import SupermonModel SupermonSpec SupermonTableSpec SupermonProofs SupermonSymProofs SupermonTabProofs SupermonLinkProofs SupermonNamedProofs SupermonFinalProofs.
Ltac Zify.zify_post_hook ::= Z.div_mod_to_equations.
Local Opaque zrange zeros sub.

Lemma links_canon t : links_ok (map canon t) <-> links_ok t.
Proof.
  assert (H : forall i, 0 <= i < zlen t -> (link_ok (map canon t) i <-> link_ok t i)).
  { intros i Hi. unfold link_ok. rewrite (znth_map canon sym0) by lia. rewrite canon_addr, zlen_map.
    destruct (Z.eq_dec (s_addr (znth sym0 t i)) 0) as [E|E]; [split; intros _ Hx; contradiction (Hx E)|].
    assert (s_link (canon (znth sym0 t i)) = s_link (znth sym0 t i)) as ->.
    { unfold canon. destruct (Z.eqb_spec (s_addr (znth sym0 t i)) 0); [contradiction | reflexivity]. }
    split; intros Hx Ha Hl; destruct (Hx Ha Hl) as (X1 & X2 & X3); (split; [exact X1|]; split; [exact X2|]).
    - rewrite (znth_map canon sym0) in X3 by lia. rewrite canon_addr in X3. exact X3.
    - rewrite (znth_map canon sym0) by lia. rewrite canon_addr. exact X3. }
  unfold links_ok. rewrite zlen_map. split; intros Hl i Hi; apply (H i Hi), Hl, Hi.
Qed.
Lemma check_links_err table rest : Forall (fun s => s_addr s <> 0 -> -1 <= s_link s < zlen table) rest ->
  forall i, check_links table i rest <> Panic.
Proof.
  induction 1 as [|s rest Hs _ IH]; intros i; cbn [check_links]; [discriminate|].
  destruct (negb (s_addr s =? 0) && negb (s_link s =? -1)) eqn:E; [|apply IH].
  destruct (s_link s =? i); [discriminate|].
  replace ((s_link s <? 0) || (zlen table <=? s_link s)) with false by lia.
  destruct (negb (addrHash (s_addr s) =? addrHash (s_addr (znth sym0 table (s_link s))))); [intros Hx; discriminate Hx|apply IH].
Qed.
Lemma parse_fill_exact t : zlen t = 819 -> Forall s_ok t ->
  exists b1 b2, fill_tables t 0 (zeros 0x1000) (zeros 0x1000) = Ok (b1, b2) /\ zlen b1 = 4096 /\ zlen b2 = 4096 /\
    (links_ok t -> parseSymbolTable b1 b2 = Ok (map canon t)) /\
    (~ links_ok t -> exists e, parseSymbolTable b1 b2 = Err e).
Proof.
  intros Hlen Hs.
  assert (forall j, 0 <= j < 819 -> s_ok (znth sym0 t j)) as Hs'.
  { intros j Hj. rewrite Forall_forall in Hs. apply Hs, znth_In. lia. }
  destruct (fill_tables_spec t 0 (zeros 0x1000) (zeros 0x1000)) as (b1 & b2 & E & L1 & L2 & _ & Hin).
  { eapply Forall_impl; [|exact Hs]. intros s (_ & H & _). exact H. }
  { lia. } { lia. } { reflexivity. } { reflexivity. }
  exists b1, b2. split; [exact E|]. split; [exact L1|]. split; [exact L2|].
  assert (map (fun k => canon (znth sym0 t k)) (zrange 819) = map canon t) as Em.
  { transitivity (map canon (map (znth sym0 t) (zrange (zlen t)))).
    - rewrite map_map, Hlen. reflexivity.
    - rewrite <- map_zrange_self. reflexivity. }
  assert (Hre : read_entries b1 b2 (zrange 819) = Ok (map canon t)).
  { rewrite (read_entries_spec _ _ (fun k => canon (znth sym0 t k))); [rewrite Em; reflexivity|].
    intros k Hk. apply In_zrange in Hk. destruct (Hin k) as [H1 H2]; [lia|]. rewrite Z.add_0_l in *.
    apply read_entry_spec; auto; lia. }
  assert (Hlink : parseSymbolTable b1 b2 = Ok (map canon t) \/ exists e, parseSymbolTable b1 b2 = Err e).
  { unfold parseSymbolTable. rewrite Hre. cbn [rbind]. destruct (check_links (map canon t) 0 (map canon t)) as [[]|e|] eqn:Ec; cbn [rbind].
    - left. reflexivity.
    - right. exists e. reflexivity.
    - exfalso. revert Ec. apply check_links_err. apply Forall_forall. intros x Hx. apply in_map_iff in Hx as (y & <- & Hy).
      rewrite Forall_forall in Hs. destruct (Hs y Hy) as (_ & _ & Hr). rewrite canon_addr, zlen_map, Hlen. intros Ha.
      unfold canon. replace (s_addr y =? 0) with false by lia. cbn [s_link]. apply Hr, Ha. }
  split; intros Hl.
  - destruct (parse_fill t (conj Hlen (conj Hs Hl))) as (c1 & c2 & E' & _ & _ & P). rewrite E in E'. injection E' as <- <-. exact P.
  - destruct Hlink as [P|P]; [|exact P]. contradiction Hl. apply links_canon. apply (parse_links _ _ _ P).
Qed.
Lemma write_read_exact : forall t (d sm : bytes), floppy d sm -> zlen t = 819 -> Forall s_ok t ->
  zlen (owned sm 3) = 16 -> zlen (owned sm 4) = 16 ->
  exists d' sm', WriteSymbolTable t (d, sm) = ((d', sm'), Ok tt) /\
    (links_ok t -> ReadSymbolTable sm' d' = Ok (map canon t)) /\
    (~ links_ok t -> exists e, ReadSymbolTable sm' d' = Err e).
Proof.
  intros t d sm Hf HL Hs H3 H4. pose proof (zlen_nonneg (owned sm FREE)).
  destruct (parse_fill_exact t HL Hs) as (b1 & b2 & E & L1 & L2 & P1 & P2).
  destruct (WriteSymbolTable_gen t b1 b2 d sm Hf E L1 L2 ltac:(lia) ltac:(lia)) as (d' & sm' & EW & _ & _ & _ & ER & _).
  exists d', sm'. split; [exact EW|]. rewrite ER. split; assumption.
Qed.

(** ** Deleting an entry *)
(** unlink stops at the first entry linked to [i]. *)
Lemma unlink_first t l : forall j0 i p, 0 <= p < zlen t -> j0 + p <> i -> lk t p = i ->
  (forall k, 0 <= k < p -> j0 + k <> i -> lk t k <> i) ->
  znth sym0 (unlink t j0 i l) p = set_link (znth sym0 t p) l /\
  forall k, 0 <= k -> k <> p -> znth sym0 (unlink t j0 i l) k = znth sym0 t k.
Proof.
  induction t as [|s t IH]; intros j0 i p Hp Hj Hl Hbefore; [rewrite (@zlen_nil Symbol) in Hp; lia|].
  rewrite zlen_cons in Hp. cbn [unlink].
  destruct (Z.eq_dec p 0) as [->|Hp0].
  - unfold lk in Hl. rewrite znth_cons_0 in Hl. replace (i =? j0) with false by lia. replace (s_link s =? i) with true by lia.
    rewrite !znth_cons_0. split; [reflexivity|]. intros k Hk Hk0. rewrite !znth_cons_S by lia. reflexivity.
  - assert (G : znth sym0 (s :: unlink t (j0 + 1) i l) p = set_link (znth sym0 (s :: t) p) l /\
      forall k, 0 <= k -> k <> p -> znth sym0 (s :: unlink t (j0 + 1) i l) k = znth sym0 (s :: t) k).
    { destruct (IH (j0 + 1) i (p - 1)) as [G1 G2]; [lia|lia| | |].
      - unfold lk in *. rewrite znth_cons_S in Hl by lia. exact Hl.
      - intros k Hk Hne. specialize (Hbefore (k + 1) ltac:(lia) ltac:(lia)). unfold lk in *. rewrite znth_cons_S in Hbefore by lia.
        replace (k + 1 - 1) with k in Hbefore by lia. exact Hbefore.
      - split; [rewrite !znth_cons_S by lia; exact G1|]. intros k Hk Hkp.
        destruct (Z.eq_dec k 0) as [->|Hk0]; [rewrite !znth_cons_0; reflexivity|]. rewrite !znth_cons_S by lia. apply G2; lia. }
    destruct (Z.eqb_spec i j0) as [->|Hij]; [exact G|]. destruct (Z.eqb_spec (s_link s) i) as [Es|Es]; [|exact G].
    exfalso. apply (Hbefore 0 ltac:(lia) ltac:(lia)). unfold lk. rewrite znth_cons_0. exact Es.
Qed.
Lemma unlink_none t l : forall j0 i, (forall k, 0 <= k < zlen t -> j0 + k <> i -> lk t k <> i) -> unlink t j0 i l = t.
Proof.
  intros j0 i H. destruct (unlink_spec t l j0 i) as [_ [[_ E]|(p & P1 & P2 & P3 & _)]]; [exact E|]. contradiction (H p P1 P2).
Qed.
(** The first entry, other than [i], with a given link. *)
Lemma first_link t i : (forall k, 0 <= k < zlen t -> k <> i -> lk t k <> i) \/
  exists p, 0 <= p < zlen t /\ p <> i /\ lk t p = i /\ forall k, 0 <= k < p -> k <> i -> lk t k <> i.
Proof.
  assert (H : forall n : nat, (forall k, 0 <= k < Z.of_nat n -> k <> i -> lk t k <> i) \/
    exists p, 0 <= p < Z.of_nat n /\ p <> i /\ lk t p = i /\ forall k, 0 <= k < p -> k <> i -> lk t k <> i).
  { induction n as [|n [IH|(p & P)]].
    - left. intros; lia.
    - destruct (Z.eq_dec (Z.of_nat n) i) as [En|En]; [left; intros k Hk Hki; apply IH; lia|].
      destruct (Z.eq_dec (lk t (Z.of_nat n)) i) as [El|El].
      + right. exists (Z.of_nat n). split; [lia|]. split; [exact En|]. split; [exact El|exact IH].
      + left. intros k Hk Hki. destruct (Z.eq_dec k (Z.of_nat n)) as [->|]; [exact El|apply IH; lia].
    - right. exists p. destruct P as (P1 & P2 & P3 & P4). split; [lia|]. split; [exact P2|]. split; [exact P3|exact P4]. }
  pose proof (zlen_nonneg t). specialize (H (Z.to_nat (zlen t))). rewrite Z2Nat.id in H by lia. exact H.
Qed.
(** The table after deleting entry [i]: addresses, and the links of the entries in use. *)
Lemma delete_entry t n i : map_table t -> n <> [] -> 0 <= i < zlen t -> equal_fold n (nm t i) = true ->
  ad t i <> 0 /\ fst (DeleteSymbol t n) = zset (unlink t 0 i (lk t i)) i (Sym 0 [] (lk t i)) /\ snd (DeleteSymbol t n) = true.
Proof.
  intros Ht Hn Hi En. pose proof (find_name_spec t n 0) as Hf. unfold DeleteSymbol.
  destruct (find_name t n 0) as [i'|]; [|rewrite Hf in En by lia; discriminate].
  rewrite Z.sub_0_r in Hf. destruct Hf as (H1 & H2 & _).
  assert (i' = i) as ->.
  { destruct Ht as [Hu _]. apply Hu; [lia | lia | apply (equal_fold_nonnil n); assumption|].
    apply (equal_fold_join _ _ n); rewrite equal_fold_sym; assumption. }
  split; [|split; reflexivity].
  intros H0. destruct Ht as [_ Hb]. apply Hb in H0; [|lia]. rewrite H0 in H2. apply equal_fold_nil in H2. contradiction.
Qed.
Lemma skipped_dec t i j : skipped t i j \/ ~ skipped t i j.
Proof.
  destruct (Z.eq_dec i 0) as [Ei|Ei]; [|right; intros [H _]; contradiction].
  assert (H : forall n : nat, (exists k, 0 < k < Z.of_nat n /\ ad t k = 0) \/ (forall k, 0 < k < Z.of_nat n -> ad t k <> 0)).
  { induction n as [|n [(k & Hk & Ak)|IH]]; [right; intros; lia|left; exists k; split; [lia|exact Ak]|].
    destruct (Z.eq_dec (ad t (Z.of_nat n)) 0) as [E|E].
    - destruct (Z.eq_dec (Z.of_nat n) 0) as [En|En]; [right; intros; lia|]. left. exists (Z.of_nat n). split; [lia|exact E].
    - right. intros k Hk. destruct (Z.eq_dec k (Z.of_nat n)) as [->|]; [exact E|apply IH; lia]. }
  destruct (Z_lt_ge_dec j 0) as [Hj|Hj]; [right; intros (_ & k & Hk & _); lia|].
  specialize (H (Z.to_nat j)). rewrite Z2Nat.id in H by lia. destruct H as [H|H]; [left; split; assumption|].
  right. intros (_ & k & Hk & Ak). apply (H k Hk Ak).
Qed.
Lemma delete_shape t n i : zlen t = 819 -> links_ok t -> map_table t -> chained t -> n <> [] ->
  0 <= i < 819 -> equal_fold n (nm t i) = true ->
  ad t i <> 0 /\ zlen (fst (DeleteSymbol t n)) = zlen t /\ ad (fst (DeleteSymbol t n)) i = 0 /\
  (forall j, 0 <= j < zlen t -> j <> i -> ad (fst (DeleteSymbol t n)) j = ad t j) /\
  (forall j, 0 <= j < zlen t -> j <> i -> ad t j <> 0 -> lk t j <> i -> lk (fst (DeleteSymbol t n)) j = lk t j) /\
  (forall j, 0 <= j < zlen t -> j <> i -> ad t j <> 0 -> lk t j = i -> skipped t i j -> lk (fst (DeleteSymbol t n)) j = i) /\
  (forall j, 0 <= j < zlen t -> j <> i -> ad t j <> 0 -> lk t j = i -> ~ skipped t i j -> lk (fst (DeleteSymbol t n)) j = lk t i).
Proof.
  intros HL Hl Hmap (Hlive & Hbl & Hinj & Hcyc) Hn Hi En.
  destruct (delete_entry t n i Hmap Hn ltac:(clear - Hi HL; lia) En) as (Ai & ED & _). rewrite ED. clear ED Hmap En.
  assert (Hi' : 0 <= i < zlen t) by (clear - Hi HL; lia).
  remember (unlink t 0 i (lk t i)) as u eqn:Eu.
  assert (Lu : zlen u = zlen t) by (rewrite Eu; apply (unlink_spec t (lk t i) 0 i)).
  remember (zset u i (Sym 0 [] (lk t i))) as t' eqn:Et'.
  assert (L' : zlen t' = zlen t) by (rewrite Et', zlen_zset; [exact Lu|clear - Hi' Lu; lia]).
  assert (Hkeys : map key u = map key t) by (rewrite Eu; apply unlink_keys).
  assert (Hz : forall j, 0 <= j < zlen t -> j <> i -> znth sym0 t' j = znth sym0 u j).
  { intros j Hj Hne. rewrite Et'. rewrite znth_zset by (clear - Hj Hi' Lu; lia). replace (j =? i) with false by (clear - Hne; lia). reflexivity. }
  split; [exact Ai|]. split; [exact L'|]. split.
  { rewrite Et'; unfold ad; rewrite znth_zset by (clear - Hi' Lu; lia). rewrite Z.eqb_refl. reflexivity. }
  split. { intros j Hj Hne. unfold ad. rewrite (Hz j Hj Hne). destruct (keys_nth _ _ Hkeys) as [_ Hk]. apply (Hk j). }
  split.
  { intros j Hj Hne _ Hji. unfold lk. rewrite (Hz j Hj Hne), Eu. destruct (unlink_spec t (lk t i) 0 i) as [_ [[_ ->]|(p & P1 & P2 & P3 & P4 & P5)]]; [reflexivity|].
    rewrite P5; [reflexivity|clear - Hj; lia|]. intros ->. contradiction. }
  assert (Hfirst : forall j, 0 <= j < zlen t -> j <> i -> ad t j <> 0 -> lk t j = i ->
    exists p, 0 <= p <= j /\ p <> i /\ lk t p = i /\ (forall k, 0 <= k < p -> k <> i -> lk t k <> i) /\
      znth sym0 u p = set_link (znth sym0 t p) (lk t i) /\ (forall k, 0 <= k -> k <> p -> znth sym0 u k = znth sym0 t k) /\
      (p <> j -> ad t p = 0 /\ i = 0)).
  { intros j Hj Hne Aj Ej. destruct (first_link t i) as [Hno|(p & P1 & P2 & P3 & P4)]; [contradiction (Hno j Hj Hne)|].
    assert (p <= j) as Hpj by (destruct (Z_le_gt_dec p j) as [|H]; [assumption|exfalso; apply (P4 j ltac:(clear - Hj H; lia) Hne Ej)]).
    destruct (unlink_first t (lk t i) 0 i p P1 ltac:(clear - P2; lia) P3) as [U1 U2]; [intros q Hq Hq0; apply P4; [exact Hq|clear - Hq0; lia]|].
    exists p. split; [clear - P1 Hpj; lia|]. split; [exact P2|]. split; [exact P3|]. split; [exact P4|].
    rewrite Eu. split; [exact U1|]. split; [exact U2|]. intros Hpne.
    destruct (Z.eq_dec (ad t p) 0) as [Ap|Ap].
    - split; [exact Ap|]. rewrite (Hbl p P1 Ap) in P3. symmetry. exact P3.
    - exfalso. apply Hpne. apply (Hinj p j P1 Hj Ap Aj); [rewrite P3; clear - Hi; lia|congruence]. }
  split.
  - intros j Hj Hne Aj Ej (Ei & k & Hkj & Ak). destruct (Hfirst j Hj Hne Aj Ej) as (p & P1 & P2 & P3 & P4 & U1 & U2 & P5).
    assert (p <> j).
    { intros ->. apply (P4 k ltac:(clear - Hkj; lia) ltac:(clear - Hkj Ei; lia)). rewrite (Hbl k ltac:(clear - Hkj Hj; lia) Ak). symmetry. exact Ei. }
    unfold lk. rewrite (Hz j Hj Hne), U2; [exact Ej|clear - Hj; lia|congruence].
  - intros j Hj Hne Aj Ej Hns. destruct (Hfirst j Hj Hne Aj Ej) as (p & P1 & P2 & P3 & P4 & U1 & U2 & P5).
    assert (p = j) as ->.
    { destruct (Z.eq_dec p j) as [|Hp]; [assumption|]. destruct (P5 Hp) as [Ap Ei]. exfalso. apply Hns. split; [exact Ei|].
      exists p. split; [clear - P1 P2 Ei Hp; lia|exact Ap]. }
    unfold lk at 1. rewrite (Hz j Hj Hne), U1. reflexivity.
Qed.
Lemma delete_links_exact t n i : zlen t = 819 -> links_ok t -> map_table t -> chained t -> n <> [] ->
  0 <= i < 819 -> equal_fold n (nm t i) = true ->
  (links_ok (fst (DeleteSymbol t n)) <-> ~ damaging t i).
Proof.
  intros HL Hl Hmap Hc Hn Hi En. destruct (delete_shape t n i HL Hl Hmap Hc Hn Hi En) as (Ai & L' & Hai & Ha & Hk1 & Hk2 & Hk3).
  remember (fst (DeleteSymbol t n)) as t' eqn:Et'. clear Et'. destruct Hc as (Hlive & Hbl & Hinj & Hcyc).
  assert (Hi' : 0 <= i < zlen t) by (clear - Hi HL; lia).
  assert (Hlinked : forall j, 0 <= j < zlen t -> ad t j <> 0 -> lk t j = i -> j <> i /\ hash7 (ad t j) = hash7 (ad t i)).
  { intros j Hj Aj Ej. pose proof (Hl j Hj) as Hlj. rewrite link_ok_lk, Ej in Hlj. destruct (Hlj Aj ltac:(clear - Hi; lia)) as (H1 & _ & H3).
    split; [congruence|exact H3]. }
  split.
  - intros Hlinks (Hh & j & Hj & Aj & Ej & Hsk). destruct (Hlinked j Hj Aj Ej) as [Hne Eh].
    specialize (Hlinks j ltac:(rewrite L'; exact Hj)). rewrite link_ok_lk, (Hk2 j Hj Hne Aj Ej Hsk), Hai, (Ha j Hj Hne) in Hlinks.
    destruct (Hlinks Aj ltac:(clear - Hi; lia)) as (_ & _ & Hx). apply Hh. rewrite <- Eh, Hx. vm_compute. reflexivity.
  - intros Hnd j Hj. rewrite L' in Hj. rewrite link_ok_lk. destruct (Z.eq_dec j i) as [->|Hne]; [intros Hx; contradiction|].
    rewrite (Ha j Hj Hne), L'. intros Aj Lj. destruct (Z.eq_dec (lk t j) i) as [Ej|Ej].
    + destruct (Hlinked j Hj Aj Ej) as [_ Eh]. destruct (skipped_dec t i j) as [Hsk|Hsk].
      * rewrite (Hk2 j Hj Hne Aj Ej Hsk), Hai. split; [congruence|]. split; [exact Hi'|]. rewrite Eh.
        destruct (Z.eq_dec (hash7 (ad t i)) 0) as [E|E]; [rewrite E; vm_compute; reflexivity|].
        exfalso. apply Hnd. split; [exact E|]. exists j. split; [exact Hj|]. split; [exact Aj|]. split; [exact Ej|exact Hsk].
      * rewrite (Hk3 j Hj Hne Aj Ej Hsk) in *. pose proof (Hl i Hi') as Hli. rewrite link_ok_lk in Hli. destruct (Hli Ai Lj) as (X1 & X2 & X3).
        split; [apply Hcyc; assumption|]. split; [exact X2|]. rewrite (Ha _ X2 X1). congruence.
    + rewrite (Hk1 j Hj Hne Aj Ej) in *. pose proof (Hl j Hj) as Hlj. rewrite link_ok_lk in Hlj. destruct (Hlj Aj Lj) as (X1 & X2 & X3).
      split; [exact X1|]. split; [exact X2|]. rewrite (Ha _ X2 Ej). exact X3.
Qed.
(** With no such entry, what is left is linked properly and nothing points to the deleted entry. *)
Lemma delete_clean t n i : table_ok t -> map_table t -> chained t -> n <> [] ->
  0 <= i < 819 -> equal_fold n (nm t i) = true ->
  ~ (exists j, 0 <= j < zlen t /\ ad t j <> 0 /\ lk t j = i /\ skipped t i j) ->
  live_links (fst (DeleteSymbol t n)) /\
  (forall j, 0 <= j < zlen t -> ad (fst (DeleteSymbol t n)) j <> 0 -> lk (fst (DeleteSymbol t n)) j <> i).
Proof.
  intros Ht Hmap Hc Hn Hi En Hno. destruct (delete_shape t n i (proj1 Ht) (proj2 (proj2 Ht)) Hmap Hc Hn Hi En) as (Ai & L' & Hai & Ha & Hk1 & Hk2 & Hk3).
  remember (fst (DeleteSymbol t n)) as t' eqn:Et'. clear Et'. destruct Ht as (HL & Hs & Hl). destruct Hc as (Hlive & Hbl & Hinj & Hcyc).
  assert (Hi' : 0 <= i < zlen t) by (clear - Hi HL; lia).
  assert (Hns : forall j, 0 <= j < zlen t -> ad t j <> 0 -> lk t j = i -> ~ skipped t i j).
  { intros j Hj Aj Ej Hsk. apply Hno. exists j. split; [exact Hj|]. split; [exact Aj|]. split; [exact Ej|exact Hsk]. }
  assert (Hnoi : forall j, 0 <= j < zlen t -> ad t' j <> 0 -> lk t' j <> i).
  { intros j Hj Aj E. assert (Hne : j <> i) by (intros ->; contradiction). rewrite (Ha j Hj Hne) in Aj.
    destruct (Z.eq_dec (lk t j) i) as [Ej|Ej]; [|rewrite (Hk1 j Hj Hne Aj Ej) in E; contradiction].
    rewrite (Hk3 j Hj Hne Aj Ej (Hns j Hj Aj Ej)) in E. pose proof (Hl i Hi') as Hli. rewrite link_ok_lk in Hli.
    destruct (Hli Ai ltac:(clear - E Hi; lia)) as (X1 & _). contradiction. }
  split; [|exact Hnoi].
  intros j Hj Aj Lj. rewrite L' in Hj. assert (Hne : j <> i) by (intros ->; contradiction). pose proof (Hnoi j Hj Aj) as Hni.
  rewrite (Ha j Hj Hne) in Aj.
  assert (Hcase : exists q, 0 <= q < zlen t /\ ad t q <> 0 /\ lk t' j = lk t q).
  { destruct (Z.eq_dec (lk t j) i) as [Ej|Ej].
    - exists i. split; [exact Hi'|]. split; [exact Ai|]. apply Hk3; try assumption. apply Hns; assumption.
    - exists j. split; [exact Hj|]. split; [exact Aj|]. apply Hk1; assumption. }
  destruct Hcase as (q & Hq & Aq & Eq). rewrite Eq in *. pose proof (Hl q Hq) as Hlq. rewrite link_ok_lk in Hlq. destruct (Hlq Aq Lj) as (_ & X2 & _).
  rewrite (Ha _ X2 Hni). apply Hlive; assumption.
Qed.

Lemma C38_exact_lemma : forall t n i, table_ok t -> map_table t -> chained t -> n <> [] ->
  0 <= i < 819 -> equal_fold n (nm t i) = true ->
  forall (d sm : bytes), floppy d sm -> zlen (owned sm 3) = 16 -> zlen (owned sm 4) = 16 ->
    exists d' sm', WriteSymbolTable (fst (DeleteSymbol t n)) (d, sm) = ((d', sm'), Ok tt) /\
      (~ damaging t i -> ReadSymbolTable sm' d' = Ok (map canon (fst (DeleteSymbol t n)))) /\
      (damaging t i -> exists e, ReadSymbolTable sm' d' = Err e).
Proof.
  intros t n i Ht Hmap Hc Hn Hi En d sm Hf H3 H4.
  pose proof (delete_links_exact t n i (proj1 Ht) (proj2 (proj2 Ht)) Hmap Hc Hn Hi En) as Hex. destruct Ht as (HL & Hs & Hl).
  assert (Forall s_ok (fst (DeleteSymbol t n))) as Hs' by (apply DeleteSymbol_sok; auto; lia).
  destruct (write_read_exact (fst (DeleteSymbol t n)) d sm Hf) as (d' & sm' & EW & R1 & R2);
    [rewrite zlen_DeleteSymbol; lia|exact Hs'|exact H3|exact H4|].
  exists d', sm'. split; [exact EW|]. split; [intros H; apply R1, Hex, H|]. intros H. apply R2. intros Hx. apply Hex in Hx. contradiction.
Qed.

(** ** Moving a name to an address with another hash *)
Lemma move_links_exact t n a i : table_ok t -> map_table t -> chained t -> n <> [] -> a <> 0 ->
  0 <= i < 819 -> equal_fold n (nm t i) = true -> hash7 (ad t i) <> hash7 a ->
  exists t', AddSymbol t n a = (t', Ok tt) /\
    (links_ok t' <-> ~ exists j, 0 <= j < zlen t /\ ad t j <> 0 /\ lk t j = i /\ skipped t i j).
Proof.
  intros Ht Hmap Hc Hn Ha0 Hi En Hh. pose proof (proj1 Ht) as HL.
  destruct (delete_shape t n i (proj1 Ht) (proj2 (proj2 Ht)) Hmap Hc Hn Hi En) as (Ai & L' & Hai & Ha & Hk1 & Hk2 & Hk3).
  assert (Hi' : 0 <= i < zlen t) by (clear - Hi HL; lia).
  assert (EA : AddSymbol t n a = (zset (link_end (fst (DeleteSymbol t n)) (addrHash a) i) i (Sym a n (-1)), Ok tt)).
  { unfold AddSymbol. replace (a =? 0) with false by (clear - Ha0; lia).
    pose proof (add_scan_spec t n (addrHash a) 0 (-1) ltac:(lia)) as Hsc. pose proof (find_name_spec t n 0) as Hf.
    destruct (find_name t n 0) as [i'|]; [|rewrite Hf in En by lia; discriminate].
    rewrite Z.sub_0_r in *. destruct Hf as (H1 & H2 & _).
    assert (i' = i) as ->.
    { destruct Hmap as [Hu _]. apply Hu; [lia | lia | apply (equal_fold_nonnil n); assumption|].
      apply (equal_fold_join _ _ n); rewrite equal_fold_sym; assumption. }
    rewrite Hsc. rewrite !addrHash_hash7. replace (hash7 (ad t i) =? hash7 a) with false by (clear - Hh; lia).
    unfold add_at. replace (i =? -1) with false by (clear - Hi; lia). reflexivity. }
  eexists. split; [exact EA|].
  remember (fst (DeleteSymbol t n)) as t1 eqn:Et1.
  split.
  - intros Hlinks (j & Hj & Aj & Ej & Hsk). destruct Ht as (_ & Hs & Hl).
    pose proof (Hl j Hj) as Hlj. rewrite link_ok_lk, Ej in Hlj. destruct (Hlj Aj ltac:(clear - Hi; lia)) as (X1 & _ & X3).
    assert (Hne : j <> i) by congruence.
    pose proof (Hk2 j Hj Hne Aj Ej Hsk) as E1.
    destruct (link_end_spec t1 (addrHash a) i) as [Lu HC]. remember (link_end t1 (addrHash a) i) as u eqn:Eu.
    assert (Huj : znth sym0 u j = znth sym0 t1 j).
    { destruct HC as [[_ ->]|(q & Q1 & Q2 & Q3 & Q4 & Q5)]; [reflexivity|]. apply Q5; [clear - Hj; lia|]. intros ->. unfold lk in *. clear - E1 Q3 Hi. lia. }
    specialize (Hlinks j). rewrite zlen_zset in Hlinks by (clear - Hi' Lu L'; lia). specialize (Hlinks ltac:(clear - Hj Lu L'; lia)).
    unfold link_ok in Hlinks. assert (Ez : znth sym0 (zset u i (Sym a n (-1))) j = znth sym0 t1 j).
    { rewrite znth_zset by (clear - Hj Hi' Lu L'; lia). replace (j =? i) with false by (clear - Hne; lia). exact Huj. }
    rewrite Ez in Hlinks. unfold lk in E1. rewrite E1 in Hlinks.
    assert (Aj' : s_addr (znth sym0 t1 j) = ad t j) by (apply (Ha j Hj Hne)). rewrite Aj' in Hlinks.
    destruct (Hlinks Aj ltac:(clear - Hi; lia)) as (_ & _ & Hx).
    assert (Eia : s_addr (znth sym0 (zset u i (Sym a n (-1))) i) = a) by (rewrite znth_zset by (clear - Hi' Lu L'; lia); rewrite Z.eqb_refl; reflexivity).
    rewrite Eia in Hx. apply Hh. congruence.
  - intros Hno. destruct (delete_clean t n i Ht Hmap Hc Hn Hi En Hno) as [C1 C2]. rewrite <- Et1 in C1, C2.
    assert (Hl1 : links_ok t1).
    { rewrite Et1. apply (delete_links_exact t n i (proj1 Ht) (proj2 (proj2 Ht)) Hmap Hc Hn Hi En). intros (_ & Hd). exact (Hno Hd). }
    destruct (add_at_links t1 i n a Hl1 C1 ltac:(rewrite L'; exact Hi') Ha0) as [R _].
    + intros j Hj. apply C2. rewrite <- L'. exact Hj.
    + exact Hai.
    + unfold add_at in R. replace (i =? -1) with false in R by (clear - Hi; lia). exact R.
Qed.
Lemma C38_move_lemma : forall t n a i, table_ok t -> map_table t -> chained t -> n <> [] -> valid_name n -> is_u16 a -> a <> 0 ->
  0 <= i < 819 -> equal_fold n (nm t i) = true -> hash7 (ad t i) <> hash7 a ->
  exists t', AddSymbol t n a = (t', Ok tt) /\
  forall (d sm : bytes), floppy d sm -> zlen (owned sm 3) = 16 -> zlen (owned sm 4) = 16 ->
    exists d' sm', WriteSymbolTable t' (d, sm) = ((d', sm'), Ok tt) /\
      (~ (exists j, 0 <= j < zlen t /\ ad t j <> 0 /\ lk t j = i /\ skipped t i j) -> ReadSymbolTable sm' d' = Ok (map canon t')) /\
      ((exists j, 0 <= j < zlen t /\ ad t j <> 0 /\ lk t j = i /\ skipped t i j) -> exists e, ReadSymbolTable sm' d' = Err e).
Proof.
  intros t n a i Ht Hmap Hc Hn Hv Hu Ha0 Hi En Hh.
  destruct (move_links_exact t n a i Ht Hmap Hc Hn Ha0 Hi En Hh) as (t' & EA & Hex). destruct Ht as (HL & Hs & _).
  exists t'. split; [exact EA|]. intros d sm Hf H3 H4.
  assert (zlen t' = 819) as L'. { pose proof (zlen_AddSymbol t n a) as H. rewrite EA in H. cbn [fst] in H. lia. }
  destruct (write_read_exact t' d sm Hf L') as (d' & sm' & EW & R1 & R2); [apply (AddSymbol_sok t n a t'); auto; lia|exact H3|exact H4|].
  exists d', sm'. split; [exact EW|]. split; [intros H; apply R1, Hex, H|]. intros H. apply R2. intros Hx. apply Hex in Hx. contradiction.
Qed.

(** ** Examples *)
Lemma damaging_example : table_ok bad_chain /\ map_table bad_chain /\ chained bad_chain /\ damaging bad_chain 0 /\
  equal_fold (s2b "bbb") (nm bad_chain 0) = true /\ ~ damaging ex_table 0.
Proof.
  destruct bad_chain_ok as (H1 & H2 & H3). split; [exact H1|]. split; [exact H2|]. split; [|split; [|split; [vm_compute; reflexivity|]]].
  - split; [exact H3|]. unfold bad_chain. split; [|split].
    + intros j Hj. rewrite three_len in Hj. unfold ad, lk. rewrite three_nth by lia.
      destruct (Z.eqb_spec j 0); [cbn; lia|]. destruct (Z.eqb_spec j 1); [cbn; lia|]. destruct (Z.eqb_spec j 2); cbn; lia.
    + intros j k Hj Hk. rewrite three_len in Hj, Hk. unfold ad, lk. rewrite !three_nth by lia.
      destruct (Z.eqb_spec j 0); [cbn; lia|]. destruct (Z.eqb_spec j 1); [cbn; lia|].
      destruct (Z.eqb_spec j 2); (destruct (Z.eqb_spec k 0); [|destruct (Z.eqb_spec k 1); [|destruct (Z.eqb_spec k 2)]]); cbn; lia.
    + intros j k Hj Hk. rewrite three_len in Hj, Hk. unfold ad, lk. rewrite !three_nth by lia.
      destruct (Z.eqb_spec j 0); [|destruct (Z.eqb_spec j 1); [|destruct (Z.eqb_spec j 2)]];
      (destruct (Z.eqb_spec k 0); [|destruct (Z.eqb_spec k 1); [|destruct (Z.eqb_spec k 2)]]); cbn; lia.
  - split; [vm_compute; discriminate|]. exists 2. unfold bad_chain. rewrite three_len. split; [lia|]. split; [vm_compute; discriminate|]. split; [reflexivity|].
    split; [reflexivity|]. exists 1. split; [lia|reflexivity].
  - intros (_ & j & Hj & Aj & Ej & _). unfold ex_table in *. rewrite three_len in Hj. unfold ad, lk in *. rewrite three_nth in * by lia.
    destruct (Z.eqb_spec j 0); [discriminate Ej|]. destruct (Z.eqb_spec j 1); [discriminate Ej|]. destruct (Z.eqb_spec j 2); [discriminate Ej|].
    apply Aj. reflexivity.
Qed.
