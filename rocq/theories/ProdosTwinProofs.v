(** ProdosTwinProofs.v -- listing directories of which several have one path. *)
From Verif Require Import GoBase GoLemmas DiskModel DiskSpec TypesModel ProdosModel ProdosSpec ProdosCodecProofs ProdosBitmapProofs ProdosProofs ProdosStmtProofs.
From Coq Require Import ZifyBool ZifyNat Permutation.
Ltac Zify.zify_post_hook ::= Z.div_mod_to_equations.
Local Opaque zrange zeros sub.

Lemma paths_split d t : root t = 2 -> paths d [] t = ([], (2, later t)) :: subpaths d t.
Proof. unfold subpaths. destruct t as [k0 l0 s0]. cbn [root]. intros ->. reflexivity. Qed.
Lemma in_subpaths d t p x : root t = 2 -> p <> [] -> In (p, x) (paths d [] t) <-> In (p, x) (subpaths d t).
Proof.
  intros R Hp. rewrite (paths_split d t R). cbn [In]. split; [intros [H|H]; [injection H as H _; congruence | exact H] | auto].
Qed.
(** What Catalog finds, given the order in which the subdirectories were visited. *)
Lemma Catalog_last d t iter p pre k l post fuel bm byB fi : well_formed d t -> p <> [] -> ~ In p (map fst post) ->
  readVolume iter fuel d 2 =
    Some (Ok (mkVol (mk_vk d 2) (map (mk_vb d) (later t)) bm byB (mputs beq (map (named_sub d) (pre ++ (p, (k, l)) :: post)) []) fi)) ->
  In (p, (k, l)) (paths d [] t) ->
  returns (fun n => Catalog iter n d p) (lists d k l).
Proof.
  intros W Hp N E I. assert (Catalog iter fuel d p = Some (Ok (live_descs (map pfd_of (dir_entries d k l))))) as EC.
  { unfold Catalog. rewrite E. cbn [obind]. destruct p as [|c p]; [congruence|]. rewrite zlen_cons. pose proof (zlen_nonneg p).
    replace (1 + zlen p =? 0) with false by lia. cbn [vol_subdirsByName]. rewrite map_app. cbn [map].
    change (named_sub d (c :: p, (k, l))) with (c :: p, mk_sub d k l). rewrite (mputs_at beq beq_eq) by (rewrite map_map; exact N). rewrite sub_descs. reflexivity. }
  apply (returns_mono _ _ (Catalog_mono iter d p) _ _ EC). destruct W as [B _ _ R T _].
  destruct (paths_dir d t B T ltac:(lia) _ _ _ _ I) as [D Hk]. apply live_lists; assumption.
Qed.
Lemma twin_some d t iter p : well_formed d t -> an_order iter -> p <> [] -> In p (map fst (paths d [] t)) ->
  exists k l, In (p, (k, l)) (paths d [] t) /\ returns (fun n => Catalog iter n d p) (lists d k l).
Proof.
  intros W Ho Hp I. pose proof (wf_root _ _ W) as R. destruct (readVolume_ok d t iter W Ho) as (fuel & bm & byB & fi & tl' & Pt & E).
  assert (In p (map fst tl')) as I'.
  { apply in_map_iff in I as ([p' x] & <- & I). cbn [fst] in *. apply (in_map fst tl' (p', x)). eapply Permutation_in; [symmetry; exact Pt|].
    apply (in_subpaths d t p' x R Hp). exact I. }
  destruct (last_key (list_eq_dec Z.eq_dec) p tl' I') as (pre & [k l] & post & -> & N). exists k, l.
  assert (In (p, (k, l)) (paths d [] t)) as Ip.
  { apply (in_subpaths d t p _ R Hp). eapply Permutation_in; [exact Pt|]. apply in_or_app. right. left. reflexivity. }
  split; [exact Ip|]. exact (Catalog_last d t iter p pre k l post fuel bm byB fi W Hp N E Ip).
Qed.
(** The order that visits the subdirectory at block [k] last. *)
Definition last_visit (k : Z) (m : list (Z * Subdirectory)) : list (Z * Subdirectory) :=
  filter (fun x => negb (fst x =? k)) m ++ filter (fun x => fst x =? k) m.
Lemma last_visit_order k : an_order (last_visit k).
Proof.
  intros m. unfold last_visit. induction m as [|x m IH]; [constructor|]. cbn [filter]. destruct (fst x =? k); cbn [negb].
  - etransitivity; [symmetry; apply Permutation_middle|]. constructor. exact IH.
  - cbn [app]. constructor. exact IH.
Qed.
Lemma same_key {A B} (f : A -> B) (x : A) l : NoDup (map f l) -> In x l -> (forall y, In y l -> f y = f x) -> l = [x].
Proof.
  destruct l as [|a [|b l]]; [intros _ []| |].
  - intros _ [->|[]] _. reflexivity.
  - intros N _ H. exfalso. inversion N as [|? ? N1 _]; subst. apply N1. left. rewrite (H a), (H b) by (cbn; auto). reflexivity.
Qed.
Lemma twin_each d t p k l : well_formed d t -> p <> [] -> In (p, (k, l)) (paths d [] t) ->
  exists iter, an_order iter /\ returns (fun n => Catalog iter n d p) (lists d k l).
Proof.
  intros W Hp I. pose proof (wf_root _ _ W) as R. exists (last_visit k). split; [apply last_visit_order|].
  destruct (readVolume_order d t _ W (last_visit_order k)) as (fuel & bm & byB & fi & tl' & Pt & Nd & Ei & E).
  assert (In (p, (k, l)) tl') as It by (eapply Permutation_in; [symmetry; exact Pt|]; apply (in_subpaths d t p _ R Hp); exact I).
  assert (NoDup (map (fun y => fst (sub_entry d (snd y))) tl')) as Nt.
  { rewrite <- (map_map (fun y => sub_entry d (snd y)) fst), <- Ei. eapply Permutation_NoDup; [apply Permutation_map; symmetry; apply last_visit_order | exact Nd]. }
  unfold last_visit in Ei. symmetry in Ei. apply map_eq_app in Ei as (t1 & t2 & -> & E1 & E2).
  assert (forall y, In y t2 -> fst (snd y) = k) as H2.
  { intros y Hy. apply (in_map (fun y => sub_entry d (snd y))) in Hy. rewrite E2 in Hy. apply filter_In in Hy as [_ Hy]. cbn [sub_entry fst] in Hy. lia. }
  assert (In (p, (k, l)) t2) as I2.
  { apply in_app_or in It as [It|It]; [|exact It]. exfalso. apply (in_map (fun y => sub_entry d (snd y))) in It. rewrite E1 in It. apply filter_In in It as [_ It].
    cbn [sub_entry fst snd] in It. lia. }
  rewrite map_app in Nt. assert (t2 = [(p, (k, l))]) as ->.
  { apply (same_key (fun y => fst (sub_entry d (snd y)))); [|exact I2|].
    - clear - Nt. induction (map _ t1); [exact Nt|]. apply IHl. inversion Nt; assumption.
    - intros y Hy. cbn [sub_entry fst snd]. apply H2. exact Hy. }
  apply (Catalog_last d t _ p t1 k l [] fuel bm byB fi W Hp ltac:(intros []) E I).
Qed.
Lemma C53_exact_lemma d t p : well_formed d t -> p <> [] -> In p (map fst (paths d [] t)) ->
  (forall iter, an_order iter -> exists k l, In (p, (k, l)) (paths d [] t) /\ returns (fun n => Catalog iter n d p) (lists d k l)) /\
  (forall k l, In (p, (k, l)) (paths d [] t) -> exists iter, an_order iter /\ returns (fun n => Catalog iter n d p) (lists d k l)).
Proof.
  intros W Hp I. split; [intros iter Ho; apply twin_some; assumption | intros k l; apply twin_each; assumption].
Qed.
(** One directory of that path is enough for the listing to be that of it. *)
Lemma C51_one_lemma d t iter p k l : well_formed d t -> an_order iter -> In (p, (k, l)) (paths d [] t) ->
  (forall x, In (p, x) (paths d [] t) -> x = (k, l)) ->
  returns (fun n => Catalog iter n d p) (lists d k l).
Proof.
  intros W Ho I U. destruct (list_eq_dec Z.eq_dec p []) as [->|Hp].
  - pose proof (wf_root _ _ W) as R. specialize (U (2, later t)). rewrite (paths_split d t R) in U. specialize (U (or_introl eq_refl)). injection U as <- <-.
    destruct t as [k0 l0 s0]. cbn [root] in R. subst k0. cbn [later]. apply (C51_root_lemma d l0 s0); assumption.
  - destruct (twin_some d t iter p W Ho Hp ltac:(apply (in_map fst) in I; exact I)) as (k' & l' & I' & Rt).
    injection (U _ I') as -> ->. exact Rt.
Qed.
Lemma lists_det d k l r1 r2 : lists d k l r1 -> lists d k l r2 -> r1 = r2.
Proof.
  intros (ds1 & -> & F1) (ds2 & -> & F2). f_equal. revert ds2 F2. induction F1 as [|e x es ds1 D1 F1 IH]; intros ds2 F2; inversion F2 as [|? y ? ds2' D2 F2']; subst; [reflexivity|].
  f_equal; [|apply IH; exact F2']. destruct D1 as [A1 A2 [A3 A3'] A4 A5 A6], D2 as [B1 B2 [B3 B3'] B4 B5 B6]. destruct x, y. cbn in *. congruence.
Qed.
Lemma C53_one_lemma d t p : well_formed d t -> (forall x y, In (p, x) (paths d [] t) -> In (p, y) (paths d [] t) -> x = y) ->
  exists Q : res (list Descriptor) -> Prop, (forall r1 r2, Q r1 -> Q r2 -> r1 = r2 \/ exists e1 e2, r1 = Err e1 /\ r2 = Err e2) /\
  forall iter, an_order iter -> returns (fun k => Catalog iter k d p) Q.
Proof.
  intros W N. destruct (in_dec (list_eq_dec Z.eq_dec) p (map fst (paths d [] t))) as [Hp|Hp].
  - apply in_map_iff in Hp as ([p' [k l]] & E & Hin). cbn [fst] in E. subst p'. exists (lists d k l).
    split; [intros r1 r2 H1 H2; left; exact (lists_det _ _ _ _ _ H1 H2)|]. intros iter Ho. apply (C51_one_lemma d t); try assumption.
    intros x Hx. apply N; assumption.
  - exists (fun r => exists e, r = Err e). split; [intros r1 r2 [e1 ->] [e2 ->]; right; eauto|]. intros iter Ho. apply (C51_missing_lemma d t); assumption.
Qed.
