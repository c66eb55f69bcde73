(** BatchProofs.v -- proofs for property C115. *)
From Coq Require Import ZifyBool ZifyNat Permutation.
From Verif Require Import GoBase GoLemmas TypesModel DiskModel DiskSpec DiskProofs.
From Verif Require Import SupermonModel SupermonSpec SupermonTableSpec SupermonStoreSpec SupermonProofs SupermonOpProofs SupermonNameProofs.
From Verif Require Import ProdosModel CmdModel CmdSpec MainModel NakedCmdSpec SessionSpec SessionProofs BatchSpec.
Ltac Zify.zify_post_hook ::= Z.div_mod_to_equations.
Local Opaque zrange zeros sub.

(** ** On the desk *)
(** What an edit leaves in the file, and the sectors that it gives back. *)
Definition val (files : bytes -> node) (a : action) : bytes :=
  match a with APut _ _ _ _ src => match files src with NFile s _ _ => padded s | _ => [] end | _ => [] end.
Definition gain (k : desk) (af : action * option Z) : Z :=
  match snd af with Some f => st_used (k_store k) f - zlen (val (k_files k) (fst af)) / 256 | None => 0 end.
Definition total (l : list Z) : Z := fold_right Z.add 0 l.
Lemma total_perm l l2 : Permutation l l2 -> total l = total l2.
Proof. induction 1; cbn [total fold_right] in *; unfold total in *; cbn [fold_right]; lia. Qed.

Definition fitting (k : desk) (a : action) (f : Z) : Prop :=
  match a with
  | APut ft ow _ _ src => binary ft = true /\ (exists s q, k_files k src = NFile s true q) /\ (in_use (k_store k) f = true -> ow = true)
  | ARm force _ => in_use (k_store k) f = false -> force = true
  | _ => False
  end.
Lemma act_well t a f k k1 o : an_edit a -> act t a (Some f) k = (k1, (0, o)) ->
  fitting k a f /\ k1 = Desk (k_files k) (st_set (k_store k) f (val (k_files k) a) (st_free (k_store k) + gain k (a, Some f))) /\
  (0 <= st_free (k_store k) -> 0 <= st_used (k_store k) f -> 0 <= st_free (k_store k) + gain k (a, Some f)).
Proof.
  intros Ha E. destruct a as [ft ow addr n src|force n|n|sh|fl c]; try contradiction Ha; unfold gain; cbn [act fst snd val fitting] in *.
  - destruct (k_files k src) as [| |s r q|] eqn:Es; try discriminate E. destruct r; [|discriminate E]. destruct (binary ft) eqn:Eb; [|discriminate E].
    injection E as E1 E2 _. rewrite E2 in E1. cbn [Z.eqb] in E1. subst k1. unfold SessionSpec.put_status in E2.
    assert (X : zlen (padded s) / 256 = nsec s) by (rewrite zlen_padded; lia). rewrite X.
    destruct (Z.ltb_spec (st_free (k_store k) + st_used (k_store k) f) (nsec s)) as [|Hf]; [discriminate E2|].
    destruct (in_use (k_store k) f) eqn:Eu; cbn [andb] in E2.
    + destruct ow; [|discriminate E2]. split; [split; [reflexivity|]; split; [exists s, q; reflexivity|reflexivity]|]. split; [|lia]. do 2 f_equal. lia.
    + split; [split; [reflexivity|]; split; [exists s, q; reflexivity|discriminate]|]. split; [|lia]. do 2 f_equal. lia.
  - destruct (in_use (k_store k) f || force) eqn:Eo; [|discriminate E]. injection E as <- _. change (zlen [] / 256) with 0.
    split; [intros X; rewrite X in Eo; exact Eo|]. split; [|lia]. do 2 f_equal. lia.
Qed.
Lemma used_nonneg s f : 0 <= st_used s f.
Proof. unfold st_used. pose proof (zlen_nonneg (st_file s f)). lia. Qed.
Lemma gain_after k f v u a g : g <> f -> gain (Desk (k_files k) (st_set (k_store k) f v u)) (a, Some g) = gain k (a, Some g).
Proof. intros H. unfold gain. cbn [fst snd k_store k_files]. unfold st_used. cbn [st_set st_file]. rewrite (proj2 (Z.eqb_neq g f) H). reflexivity. Qed.
Lemma gains_after k f v u h : ~ In (Some f) (map snd h) -> map (gain (Desk (k_files k) (st_set (k_store k) f v u))) h = map (gain k) h.
Proof.
  intros H. apply map_ext_in. intros [a [g|]] Hg; [|reflexivity]. apply gain_after. intros ->. apply H. change (Some f) with (snd (a, Some f)). apply in_map. exact Hg.
Qed.
(** A batch that goes well. *)
Lemma acts_well t : forall h k k1 l, batch h -> acts t h k = (k1, l) -> all_well l -> 0 <= st_free (k_store k) ->
  k_files k1 = k_files k /\ (forall a f, In (a, Some f) h -> st_file (k_store k1) f = val (k_files k) a /\ fitting k a f) /\
  (forall f, ~ In (Some f) (map snd h) -> st_file (k_store k1) f = st_file (k_store k) f) /\
  st_free (k_store k1) = st_free (k_store k) + total (map (gain k) h) /\ 0 <= st_free (k_store k1).
Proof.
  induction h as [|[a of] h IH]; intros k k1 l [HB HN] E Hw H0; cbn [acts] in E.
  - injection E as <- _. split; [reflexivity|]. split; [intros a f []|]. split; [reflexivity|]. cbn [map total fold_right]. split; lia.
  - inversion HB as [|x y [Ha Hof] HB' Ex]. subst x y. cbn [fst snd] in *. destruct of as [f|]; [|contradiction Hof; reflexivity].
    cbn [map snd] in HN. inversion HN as [|x y Hni HN' Ex]. subst x y.
    destruct (act t a (Some f) k) as [k0 [z o]] eqn:EA. destruct (acts t h k0) as [k2 l2] eqn:E2. injection E as <- <-.
    inversion Hw as [|x y Hz Hw' Ex]. subst x y. cbn [fst] in Hz. subst z.
    destruct (act_well _ _ _ _ _ _ Ha EA) as (F1 & Ek0 & H1). specialize (H1 H0 (used_nonneg _ _)).
    destruct (IH k0 k2 l2 (conj HB' HN') E2 Hw') as (G1 & G2 & G3 & G4 & G5); [rewrite Ek0; exact H1|].
    assert (Hkf : k_files k0 = k_files k) by (rewrite Ek0; reflexivity).
    split; [congruence|]. split; [|split; [|split; [|exact G5]]].
    + intros b g [X|X].
      * injection X as <- <-. split; [|exact F1]. rewrite (G3 f Hni), Ek0. cbn [k_store st_set st_file]. rewrite Z.eqb_refl. reflexivity.
      * assert (Hgf : g <> f) by (intros ->; apply Hni; change (Some f) with (snd (b, Some f)); apply in_map; exact X).
        destruct (G2 b g X) as [Y1 Y2]. split; [rewrite Y1, Hkf; reflexivity|].
        destruct b as [ft ow addr n src|force n|n|sh|fl c]; cbn [fitting] in *; try contradiction Y2; rewrite ?Hkf in Y2; rewrite Ek0 in Y2; cbn [k_store] in Y2;
          unfold in_use in *; cbn [st_set st_file] in Y2; rewrite (proj2 (Z.eqb_neq g f) Hgf) in Y2; exact Y2.
    + intros g Hg. cbn [map snd] in Hg. rewrite G3 by (intros X; apply Hg; right; exact X). rewrite Ek0. cbn [k_store st_set st_file].
      destruct (Z.eqb_spec g f) as [->|]; [|reflexivity]. contradiction Hg. left. reflexivity.
    + rewrite G4. rewrite Ek0 at 2. rewrite (gains_after k f _ _ h Hni). rewrite Ek0. cbn [k_store st_set st_free map total fold_right]. unfold total. lia.
Qed.
(** A batch of growing files that fit. *)
Lemma acts_grow t : forall h k, batch h -> (forall a f, In (a, Some f) h -> fitting k a f /\ gain k (a, Some f) <= 0 /\ exists ft ow addr n src s r q, a = APut ft ow addr n src /\ k_files k src = NFile s r q /\ s <> []) ->
  0 <= st_free (k_store k) + total (map (gain k) h) -> all_well (snd (acts t h k)).
Proof.
  induction h as [|[a of] h IH]; intros k [HB HN] HF H0; cbn [acts]; [constructor|].
  inversion HB as [|x y [Ha Hof] HB' Ex]. subst x y. cbn [fst snd] in *. destruct of as [f|]; [|contradiction Hof; reflexivity].
  cbn [map snd] in HN. inversion HN as [|x y Hni HN' Ex]. subst x y.
  destruct (HF a f (or_introl eq_refl)) as (F1 & F2 & ft & ow & addr & n & src & s & r & q & Ea & Es & Hne).
  assert (HT : total (map (gain k) h) <= 0).
  { assert (X : forall l, (forall x, In x l -> x <= 0) -> total l <= 0).
    { induction l as [|y l IHl]; intros Hl; cbn [total fold_right]; [lia|]. specialize (IHl (fun z Hz => Hl z (or_intror Hz))). pose proof (Hl y (or_introl eq_refl)). unfold total in IHl. lia. }
    apply X. intros x Hx. apply in_map_iff in Hx as ([b [g|]] & <- & Hb); [|unfold gain; cbn [snd]; lia]. apply (HF b g (or_intror Hb)). }
  cbn [map total fold_right] in H0. fold (total (map (gain k) h)) in H0.
  assert (EA : act t a (Some f) k = (Desk (k_files k) (st_set (k_store k) f (padded s) (st_free (k_store k) + gain k (a, Some f))), (0, []))).
  { rewrite Ea in *. unfold gain in *. cbn [act fst snd val fitting] in *. destruct F1 as (Eb & (s1 & q1 & Es1) & Eo). rewrite Es in *. injection Es1 as <- -> <-. rewrite Eb.
    assert (X : zlen (padded s) / 256 = nsec s) by (rewrite zlen_padded; lia). rewrite X in *.
    assert (EP : SessionSpec.put_status (k_store k) f s ow = 0).
    { unfold SessionSpec.put_status. destruct (Z.ltb_spec (st_free (k_store k) + st_used (k_store k) f) (nsec s)) as [Y|_]; [lia|].
      destruct (in_use (k_store k) f); cbn [andb negb]; [rewrite (Eo eq_refl); cbn [negb]|]; (destruct (beq s []) eqn:B; [apply beq_eq in B; contradiction|reflexivity]). }
    rewrite EP. cbn [Z.eqb]. do 3 f_equal. lia. }
  rewrite EA. remember (Desk (k_files k) (st_set (k_store k) f (padded s) (st_free (k_store k) + gain k (a, Some f)))) as k0 eqn:Ek0.
  specialize (IH k0 (conj HB' HN')). destruct (acts t h k0) as [k2 l2] eqn:E2. cbn [snd] in *. constructor; [reflexivity|]. apply IH.
  - intros b g Hg. destruct (HF b g (or_intror Hg)) as (Y1 & Y2 & Y3).
    assert (Hgf : g <> f) by (intros ->; apply Hni; change (Some f) with (snd (b, Some f)); apply in_map; exact Hg).
    rewrite Ek0. split; [|split; [rewrite gain_after by exact Hgf; exact Y2|exact Y3]].
    destruct b as [ft1 ow1 addr1 n1 src1|force n1|n1|sh|fl c]; cbn [fitting k_files k_store] in *; try contradiction Y1; unfold in_use in *; cbn [st_set st_file]; rewrite (proj2 (Z.eqb_neq g f) Hgf); exact Y1.
  - rewrite Ek0 at 2. rewrite (gains_after k f _ _ h Hni). rewrite Ek0. cbn [k_store st_set st_free]. lia.
Qed.

(** ** On the image *)
Lemma batch_perm h h2 : Permutation h h2 -> batch h -> batch h2.
Proof.
  intros P [H1 H2]. split; [apply (Permutation_Forall P H1)|]. apply (Permutation_NoDup (Permutation_map snd P) H2).
Qed.
Section Run.
  Variable iter : list (Z * Subdirectory) -> list (Z * Subdirectory).
  Variable fuel : nat.
  Lemma meant_legal t img a f : meant t img a (Some f) -> an_edit a -> legal f.
  Proof.
    intros H Ha. inversion H; subst; try contradiction Ha.
    - apply (resolves_legal t n). assumption.
    - apply (resolves_legal t n). left. assumption.
  Qed.
  Lemma batch_well order img o t h w c d w1 l1 :
    img <> s2b "-" -> first_order img order o -> no_numeric_symbols t ->
    w_fs w img = NFile c true true -> naked_image c o d -> names_on d t -> w_room w = None -> w_outroom w = None ->
    batch h -> Forall (fun af => meant t img (fst af) (snd af)) h ->
    throughout (unmarked img) (map (fun af => command iter fuel order img (fst af)) h) w ->
    session (map (fun af => command iter fuel order img (fst af)) h) w = (w1, l1) -> all_well l1 ->
    exists c1 d1, w_fs w1 img = NFile c1 true true /\ naked_image c1 o d1 /\ names_on d1 t /\ done (w_fs w) d h d1 /\
      free_on d1 = free_on d + total (map (gain (Desk (w_fs w) (store_of d (stored_map d)))) h) /\ 0 <= free_on d1 /\
      (forall a f, In (a, Some f) h -> fitting (Desk (w_fs w) (store_of d (stored_map d))) a f) /\
      (forall n, n <> img -> w_fs w1 n = w_fs w n).
  Proof.
    intros H1 H2 H3 H4 H5 H6 H7 H8 HB HM HT HS HW. remember (Desk (w_fs w) (store_of d (stored_map d))) as k eqn:Ek.
    assert (Hkf : k_files k = w_fs w) by (rewrite Ek; reflexivity). assert (Hks : k_store k = store_of d (stored_map d)) by (rewrite Ek; reflexivity).
    destruct (C95_lemma iter fuel order img o t h w c d k H1 H2 H3 H4 H5 H6 H7 H8) as (w' & k' & l & c1 & d1 & G1 & G2 & G3 & G4 & G5 & [G6 G7] & G8).
    { intros n _. rewrite Hkf. reflexivity. }
    { rewrite Hks. split; reflexivity. }
    { exact HM. }
    { exact HT. }
    rewrite HS in G1. injection G1 as <- <-.
    destruct (acts_well t h k k' l1 HB G2 HW) as (K1 & K2 & K3 & K4 & K5).
    { rewrite Hks. cbn [store_of st_free]. apply zlen_nonneg. }
    assert (HL : forall a f, In (a, Some f) h -> legal f).
    { intros a f Hi. destruct HB as [HB _]. rewrite Forall_forall in HB, HM. apply (meant_legal t img a); [apply (HM _ Hi)|apply (HB _ Hi)]. }
    assert (HV : forall f, legal f -> file_on d1 f = st_file (k_store k') f) by (intros f Hf; apply (G6 f Hf)).
    exists c1, d1. split; [exact G3|]. split; [exact G4|]. split; [exact G5|]. split; [|split; [|split; [|split]]].
    - split.
      + intros ft ow addr n src f s r q Hi Es. rewrite HV by (apply (HL _ _ Hi)). rewrite (proj1 (K2 _ _ Hi)), Hkf. cbn [val]. rewrite Es. reflexivity.
      + intros force n f Hi. rewrite HV by (apply (HL _ _ Hi)). rewrite (proj1 (K2 _ _ Hi)). reflexivity.
      + intros f Hf Hni. rewrite HV by exact Hf. rewrite (K3 f Hni), Hks. reflexivity.
    - cbn [store_of st_free] in G7. unfold free_on. rewrite G7, K4, Hks. reflexivity.
    - cbn [store_of st_free] in G7. unfold free_on. rewrite G7. exact K5.
    - intros a f Hi. apply (K2 a f Hi).
    - intros n Hn. rewrite (G8 n Hn), K1, Hkf. reflexivity.
  Qed.
  Lemma done_same files d h h2 d1 d2 : Forall (fun af => an_edit (fst af) /\ snd af <> None) h -> (forall a f, In (a, Some f) h -> fitting (Desk files (store_of d (stored_map d))) a f) ->
    Permutation h h2 -> done files d h d1 -> done files d h2 d2 -> forall f, legal f -> file_on d1 f = file_on d2 f.
  Proof.
    intros HE HF P D1 D2 f Hf. destruct (in_dec (fun x y : option Z => ltac:(decide equality; apply Z.eq_dec)) (Some f) (map snd h)) as [Hi|Hi].
    - apply in_map_iff in Hi as ([a g] & Eg & Hi). cbn [snd] in Eg. subst g. pose proof (Permutation_in _ P Hi) as Hi2.
      specialize (HF _ _ Hi). rewrite Forall_forall in HE. specialize (HE _ Hi). destruct a as [ft ow addr n src|force n|n|sh|fl c]; try contradiction HF.
      + destruct HF as (_ & (s & q & Es) & _). cbn [k_files] in Es. rewrite (dn_put _ _ _ _ D1 _ _ _ _ _ _ _ _ _ Hi Es), (dn_put _ _ _ _ D2 _ _ _ _ _ _ _ _ _ Hi2 Es). reflexivity.
      + rewrite (dn_rm _ _ _ _ D1 _ _ _ Hi), (dn_rm _ _ _ _ D2 _ _ _ Hi2). reflexivity.
    - rewrite (dn_other _ _ _ _ D1 f Hf Hi). symmetry. apply (dn_other _ _ _ _ D2 f Hf). intros X. apply Hi. apply (Permutation_in _ (Permutation_sym (Permutation_map snd P)) X).
  Qed.
  Lemma batch_any_order order img o t h h2 w c d w1 l1 w2 l2 :
    img <> s2b "-" -> first_order img order o -> no_numeric_symbols t ->
    w_fs w img = NFile c true true -> naked_image c o d -> names_on d t -> w_room w = None -> w_outroom w = None ->
    batch h -> Permutation h h2 -> Forall (fun af => meant t img (fst af) (snd af)) h ->
    throughout (unmarked img) (map (fun af => command iter fuel order img (fst af)) h) w ->
    throughout (unmarked img) (map (fun af => command iter fuel order img (fst af)) h2) w ->
    session (map (fun af => command iter fuel order img (fst af)) h) w = (w1, l1) -> all_well l1 ->
    session (map (fun af => command iter fuel order img (fst af)) h2) w = (w2, l2) -> all_well l2 ->
    exists c1 d1 c2 d2, w_fs w1 img = NFile c1 true true /\ naked_image c1 o d1 /\ w_fs w2 img = NFile c2 true true /\ naked_image c2 o d2 /\
      names_on d1 t /\ names_on d2 t /\ done (w_fs w) d h d1 /\
      (forall f, legal f -> file_on d1 f = file_on d2 f) /\ free_on d1 = free_on d2 /\ (forall n, n <> img -> w_fs w1 n = w_fs w2 n).
  Proof.
    intros H1 H2 H3 H4 H5 H6 H7 H8 HB P HM HT HT2 HS HW HS2 HW2.
    destruct (batch_well order img o t h w c d w1 l1 H1 H2 H3 H4 H5 H6 H7 H8 HB HM HT HS HW) as (c1 & d1 & A1 & A2 & A3 & A4 & A5 & A6 & A7 & A8).
    destruct (batch_well order img o t h2 w c d w2 l2 H1 H2 H3 H4 H5 H6 H7 H8 (batch_perm _ _ P HB) (Permutation_Forall P HM) HT2 HS2 HW2) as (c2 & d2 & B1 & B2 & B3 & B4 & B5 & B6 & B7 & B8).
    exists c1, d1, c2, d2. split; [exact A1|]. split; [exact A2|]. split; [exact B1|]. split; [exact B2|]. split; [exact A3|]. split; [exact B3|]. split; [exact A4|].
    split; [apply (done_same (w_fs w) d h h2); [apply (proj1 HB)|exact A7|exact P|exact A4|exact B4]|].
    split; [rewrite A5, B5, (total_perm _ _ (Permutation_map _ P)); reflexivity|]. intros n Hn. rewrite (A8 n Hn), (B8 n Hn). reflexivity.
  Qed.
  Lemma batch_growing order img o t h h2 w c d w1 l1 w2 l2 :
    img <> s2b "-" -> first_order img order o -> no_numeric_symbols t ->
    w_fs w img = NFile c true true -> naked_image c o d -> names_on d t -> w_room w = None -> w_outroom w = None ->
    batch h -> Permutation h h2 -> Forall (fun af => meant t img (fst af) (snd af)) h ->
    throughout (unmarked img) (map (fun af => command iter fuel order img (fst af)) h) w ->
    throughout (unmarked img) (map (fun af => command iter fuel order img (fst af)) h2) w ->
    growing (w_fs w) d h ->
    session (map (fun af => command iter fuel order img (fst af)) h) w = (w1, l1) -> all_well l1 ->
    session (map (fun af => command iter fuel order img (fst af)) h2) w = (w2, l2) -> all_well l2.
  Proof.
    intros H1 H2 H3 H4 H5 H6 H7 H8 HB P HM HT HT2 HG HS HW HS2.
    destruct (batch_well order img o t h w c d w1 l1 H1 H2 H3 H4 H5 H6 H7 H8 HB HM HT HS HW) as (c1 & d1 & A1 & A2 & A3 & A4 & A5 & A6 & A7 & A8).
    remember (Desk (w_fs w) (store_of d (stored_map d))) as k eqn:Ek.
    assert (Hkf : k_files k = w_fs w) by (rewrite Ek; reflexivity). assert (Hks : k_store k = store_of d (stored_map d)) by (rewrite Ek; reflexivity).
    destruct (C95_lemma iter fuel order img o t h2 w c d k H1 H2 H3 H4 H5 H6 H7 H8) as (w' & k' & l & c2 & d2 & G1 & G2 & _).
    { intros n _. rewrite Hkf. reflexivity. }
    { rewrite Hks. split; reflexivity. }
    { apply (Permutation_Forall P HM). }
    { exact HT2. }
    rewrite HS2 in G1. injection G1 as <- <-.
    pose proof (acts_grow t h2 k (batch_perm _ _ P HB)) as X. rewrite G2 in X. cbn [snd] in X. apply X.
    - intros a f Hi. pose proof (Permutation_in _ (Permutation_sym P) Hi) as Hi1. split; [apply (A7 _ _ Hi1)|].
      destruct (HG _ _ Hi1) as (ft & ow & addr & n & src & s & r & q & Ea & Es & Hne & Hle). split.
      + unfold gain. cbn [fst snd]. rewrite Ea, Hkf, Hks. cbn [val]. rewrite Es, zlen_padded. unfold st_used. cbn [store_of st_file]. unfold sectors_on in Hle.
        assert (Y : zlen (content d (stored_map d) f) = 256 * zlen (owned (stored_map d) f)) by (apply zlen_content; apply (fl_len _ _ (proj2 H5))). rewrite Y. lia.
      + exists ft, ow, addr, n, src, s, r, q. rewrite Hkf. split; [exact Ea|]. split; [exact Es|exact Hne].
    - rewrite <- (total_perm _ _ (Permutation_map _ P)), Hks. cbn [store_of st_free]. unfold free_on in A5, A6. lia.
  Qed.
End Run.
