(** NamedBatchProofs.v -- proofs for property C118. *)
From Coq Require Import ZifyBool ZifyNat Permutation.
From Verif Require Import GoBase GoLemmas TypesModel DiskModel DiskSpec DiskProofs.
From Verif Require Import SupermonModel SupermonSpec SupermonTableSpec SupermonStoreSpec SupermonProofs SupermonTabProofs SupermonOpProofs SupermonNameProofs SupermonChainSpec SupermonChainProofs SupermonNamedProofs SupermonFinalProofs SupermonRewriteProofs.
From Verif Require Import ProdosModel CmdModel CmdSpec MainModel NakedCmdSpec AfterProofs SessionSpec SessionProofs NamesSpec NamesProofs BatchSpec BatchProofs NamedBatchSpec.
Ltac Zify.zify_post_hook ::= Z.div_mod_to_equations.
Local Opaque zrange zeros sub.

(** ** Cards *)
Definition clean (l : list card) : Prop := Forall (fun x => fst x = 0 -> snd x = []) l.
Lemma fold_nil n : n <> [] -> equal_fold n [] = false.
Proof.
  intros H. unfold equal_fold. destruct (beq (fold_case n) (fold_case [])) eqn:E; [|reflexivity]. apply beq_eq in E. contradiction H. apply fold_case_nil. rewrite E. reflexivity.
Qed.
Lemma fold_up m q : is_ascii q -> equal_fold m (upcase q) = equal_fold m q.
Proof. intros H. unfold equal_fold. rewrite (fold_upcase q H). reflexivity. Qed.
Lemma fold_cong a b c : equal_fold a b = true -> equal_fold a c = equal_fold b c.
Proof. intros H. symmetry. exact (equal_fold_trans a b c H). Qed.
Lemma named_same m q x : equal_fold m q = true -> is_named m x = is_named q x.
Proof. intros H. exact (fold_cong m q (snd x) H). Qed.
Lemma named_other m q x : equal_fold m q = false -> is_named q x = true -> is_named m x = false.
Proof. unfold is_named. intros B E. rewrite equal_fold_sym in B. rewrite (fold_cong q (snd x) m E) in B. rewrite equal_fold_sym. exact B. Qed.
Lemma named_up m q a : is_ascii q -> is_named m (a, upcase q) = equal_fold m q.
Proof. exact (fold_up m q). Qed.
Lemma named_blank m (x : card) : m <> [] -> snd x = [] -> is_named m x = false.
Proof. intros H E. unfold is_named. replace (snd x) with (@nil Z) by (symmetry; exact E). exact (fold_nil m H). Qed.
Lemma bind_address l q a l' m : clean l -> q <> [] -> m <> [] -> is_ascii q -> bind l q a = Some l' ->
  address_of l' m = if equal_fold m q then Some a else address_of l m.
Proof.
  intros HC Hq Hm Ha. unfold bind. rewrite (proj2 (beq_neq _ _) Hq). destruct (existsb (is_named q) l) eqn:E; unfold address_of.
  - intros X. injection X as <-. clear HC. destruct (equal_fold m q) eqn:B.
    + induction l as [|x l IH]; [discriminate E|]. cbn [existsb map find] in *. destruct (is_named q x) eqn:Ex.
      * rewrite (named_up m q a Ha), B. reflexivity.
      * rewrite (named_same m q x B), Ex. apply IH. exact E.
    + clear E. induction l as [|x l IH]; [reflexivity|]. cbn [map find]. destruct (is_named q x) eqn:Ex.
      * rewrite (named_up m q a Ha), B, (named_other m q x B Ex). exact IH.
      * destruct (is_named m x); [reflexivity|exact IH].
  - revert l'. induction l as [|x l IH]; intros l' X; [discriminate X|]. cbn [pin] in X. cbn [existsb] in E. apply orb_false_elim in E as [E1 E2].
    inversion HC as [|y z Hx HC' Ey]. subst y z. destruct (fst x =? 0) eqn:E0.
    + injection X as <-. cbn [find]. rewrite (named_up m q a Ha), (named_blank m x Hm (Hx (proj1 (Z.eqb_eq _ _) E0))). destruct (equal_fold m q) eqn:B; reflexivity.
    + destruct (pin l q a) as [l1|]; [|discriminate X]. cbn [option_map] in X. injection X as <-. cbn [find]. specialize (IH HC' E2 l1 eq_refl).
      destruct (is_named m x) eqn:Ex; [|exact IH]. destruct (equal_fold m q) eqn:B; [|reflexivity].
      exfalso. rewrite (named_same m q x B) in Ex. congruence.
Qed.
Lemma unpin_address l q m : m <> [] -> address_of (unpin l q) m = if equal_fold m q then None else address_of l m.
Proof.
  intros Hm. unfold address_of, unpin. induction l as [|x l IH]; [destruct (equal_fold m q); reflexivity|]. cbn [map find]. destruct (is_named q x) eqn:Ex.
  - rewrite (named_blank m (0, []) Hm eq_refl). destruct (equal_fold m q) eqn:B; [exact IH|]. rewrite (named_other m q x B Ex). exact IH.
  - destruct (is_named m x) eqn:Em; [|exact IH]. destruct (equal_fold m q) eqn:B; [|reflexivity]. exfalso. rewrite (named_same m q x B) in Em. congruence.
Qed.
Lemma pin_clean l q a : a <> 0 -> clean l -> forall l', pin l q a = Some l' -> clean l'.
Proof.
  intros Ha. induction l as [|x l IH]; intros HC l' X; [discriminate X|]. cbn [pin] in X. inversion HC as [|y z Hx HC' Ey]. subst y z. destruct (fst x =? 0).
  - injection X as <-. constructor; [cbn [fst]; intros Y; contradiction (Ha Y)|exact HC'].
  - destruct (pin l q a) as [l1|]; [|discriminate X]. cbn [option_map] in X. injection X as <-. constructor; [exact Hx|]. apply IH; [exact HC'|reflexivity].
Qed.
Lemma bind_clean l q a l' : a <> 0 -> clean l -> bind l q a = Some l' -> clean l'.
Proof.
  intros Ha HC. unfold bind. destruct (beq q []); [intros X; injection X as <-; exact HC|]. destruct (existsb (is_named q) l); [|apply pin_clean; assumption].
  intros X. injection X as <-. unfold clean in *. rewrite Forall_map. apply (Forall_impl _ (P := fun x => fst x = 0 -> snd x = [])); [|exact HC]. intros x Hx. destruct (is_named q x); [cbn [fst]; intros Y; contradiction (Ha Y)|exact Hx].
Qed.
Lemma unpin_clean l q : clean l -> clean (unpin l q).
Proof.
  intros HC. unfold clean, unpin in *. rewrite Forall_map. apply (Forall_impl _ (P := fun x => fst x = 0 -> snd x = [])); [|exact HC]. intros x Hx. destruct (is_named q x); [reflexivity|exact Hx].
Qed.

(** ** On the board *)
Definition numbered (h : list (action * plan)) : list (action * option Z) := map (fun ap => (fst ap, file_of (snd ap))) h.
Definition desk_of (k : board) : desk := Desk (b_files k) (b_store k).
(** What an edit that goes well does to a name. *)
Definition renames (a : action) (p : plan) (n : bytes) (x : option Z) : option Z :=
  if beq (symbol_of p) [] then x else
  if equal_fold n (symbol_of p) then match a, file_of p with APut _ _ _ _ _, Some f => Some (0xDF00 + f) | _, _ => None end else x.
Lemma act2_well a p k k1 o f : an_edit a -> file_of p = Some f -> legal f -> (match a with APut _ _ _ _ _ => is_ascii (symbol_of p) | _ => True end) -> clean (b_cards k) ->
  act2 a p k = (k1, (0, o)) ->
  act [] a (Some f) (desk_of k) = (desk_of k1, (0, o)) /\ clean (b_cards k1) /\ forall n, n <> [] -> address_of (b_cards k1) n = renames a p n (address_of (b_cards k) n).
Proof.
  intros Ha Hf HL HA HC. assert (Hg : goal p (b_store k) = Some (f, symbol_of p)) by (destruct p; try discriminate Hf; cbn [file_of] in Hf; injection Hf as <-; reflexivity).
  unfold renames. destruct a as [ft ow addr n src|force n|n|sh|fl c]; try contradiction Ha; cbn [act2 act]; unfold desk_of; cbn [k_files k_store]; rewrite Hg.
  - destruct (b_files k src) as [| |data [|] wr|]; try discriminate. destruct (binary ft); [|discriminate].
    destruct (SessionSpec.put_status (b_store k) f data ow =? 0) eqn:ES; [|intros X; apply Z.eqb_neq in ES; exfalso; apply ES; congruence].
    destruct (bind (b_cards k) (symbol_of p) (57088 + f)) as [l'|] eqn:EB; [|discriminate]. intros X. injection X as <- <-. cbn [b_files b_store b_cards].
    assert (ES' : SessionSpec.put_status (b_store k) f data ow = 0) by (apply Z.eqb_eq; exact ES). rewrite ES'. split; [reflexivity|]. split; [apply (fun HA0 => bind_clean _ _ _ _ HA0 HC EB); unfold legal in HL; lia|].
    intros m Hm. destruct (beq (symbol_of p) []) eqn:E0.
    + unfold bind in EB. rewrite E0 in EB. injection EB as <-. reflexivity.
    + rewrite Hf. apply bind_address; [exact HC|apply beq_neq; exact E0|exact Hm|exact HA|exact EB].
  - destruct (in_use (b_store k) f || force); [|discriminate]. intros X. injection X as <- <-. cbn [b_files b_store b_cards]. split; [reflexivity|].
    destruct (beq (symbol_of p) []) eqn:E0; [split; [exact HC|reflexivity]|]. split; [apply unpin_clean; exact HC|]. intros m Hm. apply unpin_address. exact Hm.
Qed.
(** Every put that the session plans has a symbol that can be written. *)
Lemma planned_ascii l s img a p : planned l s img a p -> match a with APut _ _ _ _ _ => is_ascii (symbol_of p) | _ => True end.
Proof.
  assert (HV : forall q, valid_name q -> is_ascii q) by exact valid_ascii.
  intros H. destruct H; cbn [symbol_of]; try exact I; try constructor. apply HV. assumption.
Qed.
Lemma planned_legal l s img a p f : planned l s img a p -> file_of p = Some f -> legal f.
Proof.
  assert (HR : forall t n g, resolves t n g -> legal g) by (intros t n g [[R _]|[_ [R _]]]; exact R).
  intros H E. destruct H; cbn [file_of] in E; try discriminate E; injection E as <-; try (eapply HR; eassumption);
    match goal with N : numeric _ _ |- _ => apply N end.
Qed.
Definition ren (h : list (action * plan)) (n : bytes) (x : option Z) : option Z := fold_left (fun y ap => renames (fst ap) (snd ap) n y) h x.
Lemma acts2_well img h : forall k k1 outs, sensible img h k -> Forall (fun ap => an_edit (fst ap) /\ file_of (snd ap) <> None) h -> clean (b_cards k) ->
  acts2 h k = (k1, outs) -> all_well outs ->
  acts [] (numbered h) (desk_of k) = (desk_of k1, outs) /\ clean (b_cards k1) /\ (forall n, n <> [] -> address_of (b_cards k1) n = ren h n (address_of (b_cards k) n)) /\
  Forall (fun ap => forall f, file_of (snd ap) = Some f -> legal f) h.
Proof.
  induction h as [|[a p] h IH]; intros k k1 outs Hs HE HC E Hw.
  - cbn [acts2] in E. injection E as <- <-. split; [reflexivity|]. split; [exact HC|]. split; [reflexivity|constructor].
  - cbn [sensible] in Hs. destruct Hs as [Hp Hs]. inversion HE as [|x y [Ha Hof] HE' Ex]. subst x y. cbn [fst snd] in Ha, Hof.
    destruct (file_of p) as [f|] eqn:Ef; [|contradiction Hof; reflexivity]. pose proof (planned_legal _ _ _ _ _ _ Hp Ef) as HL.
    cbn [acts2] in E. destruct (act2 a p k) as [k0 [z o]] eqn:EA. cbn [fst] in Hs. destruct (acts2 h k0) as [k2 l2] eqn:E2. injection E as <- <-.
    inversion Hw as [|x y Hz Hw' Ex]. subst x y. cbn [fst] in Hz. subst z.
    destruct (act2_well a p k k0 o f Ha Ef HL (planned_ascii _ _ _ _ _ Hp) HC EA) as (A1 & A2 & A3).
    destruct (IH k0 k2 l2 Hs HE' A2 E2 Hw') as (B1 & B2 & B3 & B4).
    cbn [numbered map fst snd acts]. rewrite Ef, A1. fold (numbered h). rewrite B1. split; [reflexivity|]. split; [exact B2|]. split.
    + intros n Hn. rewrite (B3 n Hn), (A3 n Hn). reflexivity.
    + constructor; [|exact B4]. cbn [snd]. intros g Eg. rewrite Ef in Eg. injection Eg as <-. exact HL.
Qed.
Lemma numbered_batch h : named_batch h -> batch (numbered h).
Proof.
  intros (H1 & H2 & _). split.
  - unfold numbered. rewrite Forall_map. exact H1.
  - unfold numbered. rewrite map_map. exact H2.
Qed.
(** The names after a batch. *)
Lemma ren_keep h n x : (forall a p, In (a, p) h -> symbol_of p = [] \/ equal_fold n (symbol_of p) = false) -> ren h n x = x.
Proof.
  revert x. induction h as [|[a p] h IH]; intros x H; [reflexivity|]. unfold ren. cbn [fold_left fst snd]. fold (ren h n (renames a p n x)).
  rewrite IH by (intros b q Hb; apply (H b q); right; exact Hb). unfold renames. destruct (H a p (or_introl eq_refl)) as [->| ->]; [reflexivity|]. destruct (beq (symbol_of p) []); reflexivity.
Qed.
Lemma ren_hit h n a p x : NoDup (filter (fun m => negb (beq m [])) (map (fun ap => fold_case (symbol_of (snd ap))) h)) -> In (a, p) h -> symbol_of p <> [] -> equal_fold n (symbol_of p) = true ->
  ren h n x = match a, file_of p with APut _ _ _ _ _, Some f => Some (0xDF00 + f) | _, _ => None end.
Proof.
  intros HN Hi H0 HF. revert x. induction h as [|[b q] h IH]; intros x; [contradiction Hi|]. cbn [map filter snd] in HN.
  unfold ren. cbn [fold_left fst snd]. fold (ren h n (renames b q n x)). destruct Hi as [Hi|Hi].
  - injection Hi as -> ->. rewrite ren_keep.
    + unfold renames. rewrite (proj2 (beq_neq _ _) H0), HF. reflexivity.
    + intros c r Hr. destruct (beq (symbol_of r) []) eqn:E0; [left; apply beq_eq; exact E0|right]. apply beq_neq in E0.
      destruct (equal_fold n (symbol_of r)) eqn:EF; [|reflexivity]. exfalso.
      destruct (beq (fold_case (symbol_of p)) []) eqn:Ep; [apply beq_eq in Ep; exact (H0 (fold_case_nil _ Ep))|]. cbn [negb] in HN.
      inversion HN as [|y z Hni _ Ey]. apply Hni. apply filter_In. split; [|rewrite Ep; reflexivity].
      apply in_map_iff. exists (c, r). split; [|exact Hr]. cbn [snd]. unfold equal_fold in *. apply beq_eq in EF, HF. congruence.
  - apply IH; [|exact Hi]. destruct (negb (beq (fold_case (symbol_of q)) [])); [inversion HN; assumption|exact HN].
Qed.
Lemma ren_perm h h2 n x : NoDup (filter (fun m => negb (beq m [])) (map (fun ap => fold_case (symbol_of (snd ap))) h)) -> Permutation h h2 -> ren h n x = ren h2 n x.
Proof.
  intros HN P.
  assert (HN2 : NoDup (filter (fun m => negb (beq m [])) (map (fun ap => fold_case (symbol_of (snd ap))) h2))).
  { apply (Permutation_NoDup (l := filter (fun m => negb (beq m [])) (map (fun ap => fold_case (symbol_of (snd ap))) h))); [|exact HN].
    assert (Permutation (map (fun ap : action * plan => fold_case (symbol_of (snd ap))) h) (map (fun ap => fold_case (symbol_of (snd ap))) h2)) as PM by (apply Permutation_map; exact P).
    revert PM. generalize (map (fun ap : action * plan => fold_case (symbol_of (snd ap))) h) (map (fun ap : action * plan => fold_case (symbol_of (snd ap))) h2). clear.
    intros l l2 PM. induction PM as [|y l l2 _ IH|y z l|l l2 l3 _ IH1 _ IH2]; cbn [filter]; [constructor| | |exact (Permutation_trans IH1 IH2)].
    - destruct (negb (beq y [])); [apply perm_skip|]; exact IH.
    - destruct (negb (beq y [])), (negb (beq z [])); try apply Permutation_refl. apply perm_swap. }
  destruct (existsb (fun ap : action * plan => negb (beq (symbol_of (snd ap)) []) && equal_fold n (symbol_of (snd ap))) h) eqn:E.
  - apply existsb_exists in E as ([a p] & Hi & E). cbn [snd] in E. apply andb_prop in E as [E1 E2]. assert (H0 : symbol_of p <> []) by (apply beq_neq; destruct (beq (symbol_of p) []); [discriminate E1|reflexivity]).
    rewrite (ren_hit h n a p x HN Hi H0 E2), (ren_hit h2 n a p x HN2 (Permutation_in _ P Hi) H0 E2). reflexivity.
  - assert (HK : forall a p, In (a, p) h -> symbol_of p = [] \/ equal_fold n (symbol_of p) = false).
    { intros a p Hi. destruct (beq (symbol_of p) []) eqn:E0; [left; apply beq_eq; exact E0|right]. destruct (equal_fold n (symbol_of p)) eqn:EF; [|reflexivity].
      assert (existsb (fun ap : action * plan => negb (beq (symbol_of (snd ap)) []) && equal_fold n (symbol_of (snd ap))) h = true) as X; [|congruence].
      apply existsb_exists. exists (a, p). split; [exact Hi|]. cbn [snd]. rewrite E0, EF. reflexivity. }
    rewrite (ren_keep h n x HK). symmetry. apply ren_keep. intros a p Hi. apply (HK a p). apply (Permutation_in _ (Permutation_sym P) Hi).
Qed.

(** ** On the image *)
Section Run.
  Variable iter : list (Z * Subdirectory) -> list (Z * Subdirectory).
  Variable fuel : nat.
  Lemma table_clean d t : plain_disk (d, stored_map d) t -> clean (cards_of t).
  Proof.
    intros (_ & _ & _ & HT). unfold disk_table in HT. cbn [fst snd] in HT. pose proof (ReadSymbolTable_canon _ _ _ HT) as HCt.
    rewrite <- HCt. unfold clean, cards_of. rewrite !Forall_map. apply Forall_forall. intros s _. unfold canon. destruct (s_addr s =? 0) eqn:E; cbn [s_addr s_name fst snd]; [reflexivity|lia].
  Qed.
  Lemma named_well order img o h w c d t ch k w1 l1 :
    img <> s2b "-" -> first_order img order o ->
    w_fs w img = NFile c true true -> naked_image c o d -> w_room w = None -> w_outroom w = None ->
    plain_disk (d, stored_map d) t -> table_ok t -> names_unique t -> one_chain t ch -> no_numeric_symbols t -> nm t 0 <> [] ->
    (forall n, n <> img -> w_fs w n = b_files k n) -> same_but_symbols (store_of d (stored_map d)) (b_store k) -> cards_of t = b_cards k ->
    named_batch h -> sensible img h k ->
    throughout (unmarked img) (map (fun ap => command iter fuel order img (fst ap)) h) w ->
    session (map (fun ap => command iter fuel order img (fst ap)) h) w = (w1, l1) -> all_well l1 ->
    exists c1 d1 t1, w_fs w1 img = NFile c1 true true /\ naked_image c1 o d1 /\ plain_disk (d1, stored_map d1) t1 /\ table_ok t1 /\ names_unique t1 /\
      named_done (w_fs w) d (cards_of t) h d1 (cards_of t1) /\
      free_on d1 = free_on d + total (map (gain (desk_of k)) (numbered h)) /\
      (forall a p f, In (a, p) h -> file_of p = Some f -> match a with APut _ _ _ _ src => exists s q, w_fs w src = NFile s true q | ARm _ _ => True | _ => False end) /\
      (forall n, n <> [] -> address_of (cards_of t1) n = ren h n (address_of (cards_of t) n)) /\
      (forall n, n <> img -> w_fs w1 n = w_fs w n).
  Proof.
    intros H1 H2 H3 H4 H5 H6 Hpd Htok Hun Hch Hnn H0 Hkf Hks Hkc HB HS HT HR HW.
    destruct (C98_lemma iter fuel order img o h w c d t ch k H1 H2 H3 H4 H5 H6 Hpd Htok Hun Hch Hnn H0 Hkf Hks Hkc HS HT) as (w' & k' & l & c1 & d1 & t1 & ch1 & G1 & G2 & G3 & G4 & G5 & G6 & G7 & _ & _ & G8 & G9 & G10).
    rewrite HR in G1. injection G1 as <- <-. destruct Hks as [Hks Hfree]. cbn [store_of st_free] in Hfree.
    destruct (acts2_well img h k k' l1 HS (proj1 HB) ltac:(rewrite <- Hkc; exact (table_clean d t Hpd)) G2 HW) as (A1 & _ & A3 & A4).
    destruct (acts_well [] (numbered h) (desk_of k) (desk_of k') l1 (numbered_batch _ HB) A1 HW) as (K1 & K2 & K3 & K4 & _).
    { unfold desk_of. cbn [k_store]. rewrite <- Hfree. apply zlen_nonneg. }
    unfold desk_of in K1, K3, K4. cbn [k_store k_files] in K1, K3, K4. rewrite <- Hkc in A3.
    destruct G9 as [G9 GF].
    assert (KV : forall a f, In (a, Some f) (numbered h) -> st_file (b_store k') f = val (b_files k) a) by (intros a f Hi; exact (proj1 (K2 a f Hi))).
    assert (HV : forall f, legal f -> f <> 3 -> f <> 4 -> file_on d1 f = st_file (b_store k') f) by (intros f Hf N3 N4; apply (G9 f Hf); assumption).
    assert (HI : forall a p f, In (a, p) h -> file_of p = Some f -> In (a, Some f) (numbered h)).
    { intros a p f Hi Ef. unfold numbered. apply in_map_iff. exists (a, p). split; [cbn [fst snd]; rewrite Ef; reflexivity|exact Hi]. }
    assert (HL : forall a p f, In (a, p) h -> file_of p = Some f -> legal f /\ f <> 3 /\ f <> 4 /\ match a with APut _ _ _ _ src => src <> img | _ => True end).
    { intros a p f Hi Ef. pose proof A4 as X. rewrite Forall_forall in X. split; [apply (X _ Hi); exact Ef|].
      clear - HS Hi Ef. revert HS Hi. generalize k. induction h as [|[b q] h0 IH]; intros k0 HS Hi; [contradiction Hi|]. cbn [sensible] in HS. destruct HS as [Hp HS]. destruct Hi as [Hi|Hi]; [|exact (IH _ HS Hi)].
      injection Hi as -> ->. destruct Hp; cbn [file_of] in Ef; try discriminate Ef; injection Ef as <-; (split; [assumption|split; [assumption|first [exact I|assumption]]]). }
    exists c1, d1, t1. split; [exact G3|]. split; [exact G4|]. split; [exact G5|]. split; [exact G6|]. split; [exact G7|].
    rewrite G10. split; [|split; [|split; [|split]]].
    - split.
      + intros ft ow addr n src p f s r q Hi Ef Es. destruct (HL _ _ _ Hi Ef) as (L1 & L2 & L3 & L4). rewrite HV by assumption. rewrite (KV _ _ (HI _ _ _ Hi Ef)). cbn [val]. rewrite <- (Hkf src L4), Es. reflexivity.
      + intros force n p f Hi Ef. destruct (HL _ _ _ Hi Ef) as (L1 & L2 & L3 & _). rewrite HV by assumption. rewrite (KV _ _ (HI _ _ _ Hi Ef)). reflexivity.
      + intros f Hf N3 N4 Hni. rewrite HV by assumption. rewrite K3; [symmetry; apply (Hks f Hf); assumption|]. unfold numbered. rewrite map_map. exact Hni.
      + intros ft ow addr n src f q Hi Hq. rewrite (A3 q Hq). rewrite (ren_hit h q _ _ _ (proj2 (proj2 HB)) Hi Hq (equal_fold_refl q)). reflexivity.
      + intros force n f q Hi Hq. rewrite (A3 q Hq). rewrite (ren_hit h q _ _ _ (proj2 (proj2 HB)) Hi Hq (equal_fold_refl q)). reflexivity.
      + intros n Hn Hno. rewrite (A3 n Hn). apply ren_keep. intros a p Hi. right. exact (Hno a p Hi).
    - cbn [store_of st_free] in GF. unfold free_on. rewrite GF, K4, Hfree. reflexivity.
    - intros a p f Hi Ef. destruct (HL _ _ _ Hi Ef) as (L1 & L2 & L3 & L4). pose proof (proj2 (K2 _ _ (HI _ _ _ Hi Ef))) as HF.
      destruct a as [ft ow addr n src|force n|n|sh|fl c0]; try contradiction HF; [|exact I]. destruct HF as (_ & (s & q & Es) & _). unfold desk_of in Es. cbn [k_files] in Es.
      exists s, q. rewrite (Hkf src L4). exact Es.
    - exact A3.
    - intros n Hn. rewrite (G8 n Hn), K1. symmetry. exact (Hkf n Hn).
  Qed.
  Lemma named_batch_perm h h2 : Permutation h h2 -> named_batch h -> named_batch h2.
  Proof.
    intros P (H1 & H2 & H3). split; [apply (Permutation_Forall P H1)|]. split; [apply (Permutation_NoDup (Permutation_map _ P) H2)|].
    apply (Permutation_NoDup (l := filter (fun m => negb (beq m [])) (map (fun ap => fold_case (symbol_of (snd ap))) h))); [|exact H3].
    assert (Permutation (map (fun ap : action * plan => fold_case (symbol_of (snd ap))) h) (map (fun ap => fold_case (symbol_of (snd ap))) h2)) as PM by (apply Permutation_map; exact P).
    revert PM. generalize (map (fun ap : action * plan => fold_case (symbol_of (snd ap))) h) (map (fun ap : action * plan => fold_case (symbol_of (snd ap))) h2). clear.
    intros l l2 PM. induction PM as [|y l l2 _ IH|y z l|l l2 l3 _ IH1 _ IH2]; cbn [filter]; [constructor| | |exact (Permutation_trans IH1 IH2)].
    - destruct (negb (beq y [])); [apply perm_skip|]; exact IH.
    - destruct (negb (beq y [])), (negb (beq z [])); try apply Permutation_refl. apply perm_swap.
  Qed.
  Lemma named_any_order order img o h h2 w c d t ch k w1 l1 w2 l2 :
    img <> s2b "-" -> first_order img order o ->
    w_fs w img = NFile c true true -> naked_image c o d -> w_room w = None -> w_outroom w = None ->
    plain_disk (d, stored_map d) t -> table_ok t -> names_unique t -> one_chain t ch -> no_numeric_symbols t -> nm t 0 <> [] ->
    (forall n, n <> img -> w_fs w n = b_files k n) -> same_but_symbols (store_of d (stored_map d)) (b_store k) -> cards_of t = b_cards k ->
    named_batch h -> Permutation h h2 -> sensible img h k -> sensible img h2 k ->
    throughout (unmarked img) (map (fun ap => command iter fuel order img (fst ap)) h) w ->
    throughout (unmarked img) (map (fun ap => command iter fuel order img (fst ap)) h2) w ->
    session (map (fun ap => command iter fuel order img (fst ap)) h) w = (w1, l1) -> all_well l1 ->
    session (map (fun ap => command iter fuel order img (fst ap)) h2) w = (w2, l2) -> all_well l2 ->
    exists c1 d1 t1 c2 d2 t2, w_fs w1 img = NFile c1 true true /\ naked_image c1 o d1 /\ w_fs w2 img = NFile c2 true true /\ naked_image c2 o d2 /\
      plain_disk (d1, stored_map d1) t1 /\ plain_disk (d2, stored_map d2) t2 /\ names_unique t1 /\ names_unique t2 /\
      named_done (w_fs w) d (cards_of t) h d1 (cards_of t1) /\
      (forall f, legal f -> f <> 3 -> f <> 4 -> file_on d1 f = file_on d2 f) /\ free_on d1 = free_on d2 /\
      (forall n, n <> [] -> address_of (cards_of t1) n = address_of (cards_of t2) n) /\
      (forall n, n <> img -> w_fs w1 n = w_fs w2 n).
  Proof.
    intros H1 H2 H3 H4 H5 H6 Hpd Htok Hun Hch Hnn H0 Hkf Hks Hkc HB P HS HS2 HT HT2 HR HW HR2 HW2.
    destruct (named_well order img o h w c d t ch k w1 l1 H1 H2 H3 H4 H5 H6 Hpd Htok Hun Hch Hnn H0 Hkf Hks Hkc HB HS HT HR HW) as (c1 & d1 & t1 & A1 & A2 & A3 & A4 & A5 & A6 & A7 & A8 & A9 & A10).
    destruct (named_well order img o h2 w c d t ch k w2 l2 H1 H2 H3 H4 H5 H6 Hpd Htok Hun Hch Hnn H0 Hkf Hks Hkc (named_batch_perm _ _ P HB) HS2 HT2 HR2 HW2) as (c2 & d2 & t2 & B1 & B2 & B3 & B4 & B5 & B6 & B7 & B8 & B9 & B10).
    exists c1, d1, t1, c2, d2, t2. do 8 (split; [assumption|]). split; [exact A6|]. split; [|split; [|split]].
    - intros f Hf N3 N4. destruct (in_dec (fun x y : option Z => ltac:(decide equality; apply Z.eq_dec)) (Some f) (map (fun ap => file_of (snd ap)) h)) as [Hi|Hi].
      + apply in_map_iff in Hi as ([a p] & Eg & Hi). cbn [snd] in Eg. pose proof (Permutation_in _ P Hi) as Hi2.
        specialize (A8 _ _ _ Hi Eg). destruct a as [ft ow addr n src|force n|n|sh|fl c0]; try contradiction A8.
        * destruct A8 as (s & q & Es).
          rewrite (nd_put _ _ _ _ _ _ A6 _ _ _ _ _ _ _ _ _ _ Hi Eg Es), (nd_put _ _ _ _ _ _ B6 _ _ _ _ _ _ _ _ _ _ Hi2 Eg Es). reflexivity.
        * rewrite (nd_rm _ _ _ _ _ _ A6 _ _ _ _ Hi Eg), (nd_rm _ _ _ _ _ _ B6 _ _ _ _ Hi2 Eg). reflexivity.
      + rewrite (nd_other _ _ _ _ _ _ A6 f Hf N3 N4 Hi). symmetry. apply (nd_other _ _ _ _ _ _ B6 f Hf N3 N4). intros X. apply Hi. apply (Permutation_in _ (Permutation_sym (Permutation_map _ P)) X).
    - rewrite A7, B7. f_equal. apply total_perm. apply Permutation_map. unfold numbered. apply Permutation_map. exact P.
    - intros n Hn. rewrite (A9 n Hn), (B9 n Hn). apply (ren_perm h h2 n _ (proj2 (proj2 HB)) P).
    - intros n Hn. rewrite (A10 n Hn), (B10 n Hn). reflexivity.
  Qed.
End Run.
