(** RoomProofs.v -- proofs for property C119. *)
From Coq Require Import ZifyBool ZifyNat Permutation.
From Verif Require Import GoBase GoLemmas TypesModel DiskModel DiskSpec DiskProofs.
From Verif Require Import SupermonModel SupermonSpec SupermonTableSpec SupermonStoreSpec SupermonProofs SupermonOpProofs SupermonNameProofs.
From Verif Require Import ProdosModel CmdModel CmdSpec MainModel NakedCmdSpec SessionSpec SessionProofs BatchSpec BatchProofs RoomSpec.
Ltac Zify.zify_post_hook ::= Z.div_mod_to_equations.
Local Opaque zrange zeros sub.

Lemma total_app l l2 : total (l ++ l2) = total l + total l2.
Proof. induction l as [|x l IH]; cbn [app total fold_right] in *; unfold total in *; lia. Qed.
(** A batch that fits at every step. *)
Lemma act_fits t a f k : an_edit a -> fitting k a f -> (forall ft ow addr n src s r q, a = APut ft ow addr n src -> k_files k src = NFile s r q -> s <> []) ->
  0 <= st_free (k_store k) + gain k (a, Some f) ->
  act t a (Some f) k = (Desk (k_files k) (st_set (k_store k) f (val (k_files k) a) (st_free (k_store k) + gain k (a, Some f))), (0, [])).
Proof.
  intros Ha F Hne H0. destruct a as [ft ow addr n src|force n|n|sh|fl c]; try contradiction Ha; unfold gain in *; cbn [act fst snd val fitting] in *.
  - destruct F as (Eb & (s & q & Es) & Eo). rewrite Es in *. rewrite Eb.
    assert (X : zlen (padded s) / 256 = nsec s) by (rewrite zlen_padded; lia). rewrite X in *.
    assert (EP : SessionSpec.put_status (k_store k) f s ow = 0).
    { unfold SessionSpec.put_status. destruct (Z.ltb_spec (st_free (k_store k) + st_used (k_store k) f) (nsec s)) as [Y|_]; [lia|].
      destruct (beq s []) eqn:B; [apply beq_eq in B; contradiction (Hne _ _ _ _ _ _ _ _ eq_refl Es B)|].
      destruct (in_use (k_store k) f); cbn [andb negb]; [rewrite (Eo eq_refl); reflexivity|reflexivity]. }
    rewrite EP. cbn [Z.eqb]. do 3 f_equal. lia.
  - change (zlen [] / 256) with 0. destruct (in_use (k_store k) f) eqn:E; cbn [orb]; [|rewrite (F eq_refl)]; do 3 f_equal; lia.
Qed.
Lemma fitting_after k f v u a g : g <> f -> fitting k a g -> fitting (Desk (k_files k) (st_set (k_store k) f v u)) a g.
Proof.
  intros Hgf Y1. destruct a as [ft ow addr n src|force n|n|sh|fl c]; cbn [fitting k_files k_store] in *; try contradiction Y1;
    unfold in_use in *; cbn [st_set st_file]; rewrite (proj2 (Z.eqb_neq g f) Hgf); exact Y1.
Qed.
Lemma acts_fit t : forall h k, batch h -> (forall a f, In (a, Some f) h -> fitting k a f) ->
  (forall ft ow addr n src f s r q, In (APut ft ow addr n src, f) h -> k_files k src = NFile s r q -> s <> []) ->
  (forall h1 h2, h = h1 ++ h2 -> 0 <= st_free (k_store k) + total (map (gain k) h1)) -> all_well (snd (acts t h k)).
Proof.
  induction h as [|[a of] h IH]; intros k [HB HN] HF HE H0; cbn [acts]; [constructor|].
  inversion HB as [|x y [Ha Hof] HB' Ex]. subst x y. cbn [fst snd] in *. destruct of as [f|]; [|contradiction Hof; reflexivity].
  cbn [map snd] in HN. inversion HN as [|x y Hni HN' Ex]. subst x y.
  rewrite act_fits; [|exact Ha|apply HF; left; reflexivity| |].
  - remember (Desk (k_files k) (st_set (k_store k) f (val (k_files k) a) (st_free (k_store k) + gain k (a, Some f)))) as k0 eqn:Ek0.
    specialize (IH k0 (conj HB' HN')). destruct (acts t h k0) as [k2 l2] eqn:E2. cbn [snd] in *. constructor; [reflexivity|]. apply IH.
    + intros b g Hg. rewrite Ek0. apply fitting_after; [|apply HF; right; exact Hg].
      intros ->. apply Hni. change (Some f) with (snd (b, Some f)). apply in_map. exact Hg.
    + intros ft ow addr n src g s r q Hi Es. apply (HE ft ow addr n src g s r q (or_intror Hi)). rewrite Ek0 in Es. exact Es.
    + intros h1 h2 Eh. specialize (H0 ((a, Some f) :: h1) h2). rewrite Eh in H0. specialize (H0 eq_refl). cbn [map total fold_right] in H0. fold (total (map (gain k) h1)) in H0.
      rewrite Ek0 at 2. rewrite (gains_after k f _ _ h1).
      * rewrite Ek0. cbn [k_store st_set st_free]. lia.
      * intros X. apply Hni. rewrite Eh, map_app. apply in_or_app. left. exact X.
  - intros ft ow addr n src s r q Ea Es. apply (HE ft ow addr n src (Some f) s r q); [left; rewrite Ea; reflexivity|exact Es].
  - specialize (H0 [(a, Some f)] h eq_refl). cbn [map total fold_right] in H0. lia.
Qed.
(** A beginning of a batch that goes well goes well. *)
Lemma acts_begin t : forall h1 h2 k, all_well (snd (acts t (h1 ++ h2) k)) -> all_well (snd (acts t h1 k)).
Proof.
  induction h1 as [|[a f] h1 IH]; intros h2 k H; cbn [acts app] in *; [constructor|].
  destruct (act t a f k) as [k1 x]. specialize (IH h2 k1). destruct (acts t (h1 ++ h2) k1) as [k2 l2]. destruct (acts t h1 k1) as [k3 l3]. cbn [snd] in *.
  inversion H as [|y l Hy Hl E]. constructor; [exact Hy|exact (IH Hl)].
Qed.
Lemma batch_begin h1 h2 : batch (h1 ++ h2) -> batch h1.
Proof.
  intros [H1 H2]. split; [apply Forall_app in H1 as [H1 _]; exact H1|]. rewrite map_app in H2.
  revert H2. generalize (map snd h1) (map snd h2). intros l l2. induction l as [|x l IH]; intros H; [constructor|]. cbn [app] in H. inversion H as [|y z Hn Hd E]. subst.
  constructor; [intros X; apply Hn; apply in_or_app; left; exact X|exact (IH Hd)].
Qed.
Lemma acts_exactly t h k : batch h -> 0 <= st_free (k_store k) ->
  (forall ft ow addr n src f s r q, In (APut ft ow addr n src, f) h -> k_files k src = NFile s r q -> s <> []) ->
  (all_well (snd (acts t h k)) <->
     (forall a f, In (a, Some f) h -> fitting k a f) /\ (forall h1 h2, h = h1 ++ h2 -> 0 <= st_free (k_store k) + total (map (gain k) h1))).
Proof.
  intros HB H0 HE. split.
  - intros HW. split.
    + destruct (acts t h k) as [k1 l] eqn:E. intros a f Hi. exact (proj2 (proj1 (proj2 (acts_well t h k k1 l HB E HW H0)) a f Hi)).
    + intros h1 h2 Eh. rewrite Eh in HB, HW. apply acts_begin in HW. apply batch_begin in HB. destruct (acts t h1 k) as [k1 l] eqn:E.
      destruct (acts_well t h1 k k1 l HB E HW H0) as (_ & _ & _ & G4 & G5). lia.
  - intros [HF HR]. apply acts_fit; assumption.
Qed.

(** ** On the image *)
Lemma gain_needed files d af : zlen d = 143360 -> gain (Desk files (store_of d (stored_map d))) af = - needed files d af \/ ~ possible files d af.
Proof.
  intros Hd. destruct af as [a [f|]]; [|right; destruct a; intros []].
  unfold gain. cbn [fst snd k_store k_files]. unfold st_used. cbn [store_of st_file].
  assert (Y : zlen (content d (stored_map d) f) = 256 * zlen (owned (stored_map d) f)) by (apply zlen_content; exact Hd). rewrite Y.
  destruct a as [ft ow addr n src|force n|n|sh|fl c]; cbn [needed possible val]; unfold sectors_on; try (right; intros X; exact X).
  - destruct (files src) as [| |s r q|]; try (right; intros (_ & (s & q & X) & _); discriminate X). left. rewrite zlen_padded. lia.
  - left. change (zlen [] / 256) with 0. lia.
Qed.
Lemma fitting_possible files d a f : fitting (Desk files (store_of d (stored_map d))) a f <-> possible files d (a, Some f).
Proof.
  assert (U : in_use (store_of d (stored_map d)) f = true <-> file_on d f <> []).
  { unfold in_use, file_on. cbn [store_of st_file]. destruct (beq (content d (stored_map d) f) []) eqn:B; cbn [negb].
    - apply beq_eq in B. split; [discriminate|intros X; contradiction (X B)].
    - split; [intros _; apply beq_neq; exact B|reflexivity]. }
  destruct a as [ft ow addr n src|force n|n|sh|fl c]; cbn [fitting possible k_files k_store]; try (split; intros X; exact X).
  - split; intros (H1 & H2 & H3); (split; [exact H1|]; split; [exact H2|]); intros X; apply H3; apply U; exact X.
  - split; intros H X; apply H.
    + destruct (in_use (store_of d (stored_map d)) f) eqn:E; [contradiction (proj1 U eq_refl X)|reflexivity].
    + destruct (file_on d f) eqn:E; [reflexivity|]. assert (in_use (store_of d (stored_map d)) f = true) by (apply U; discriminate). congruence.
Qed.
Lemma totals files d : zlen d = 143360 -> forall h, Forall (possible files d) h -> total (map (gain (Desk files (store_of d (stored_map d)))) h) = - needed_in_all files d h.
Proof.
  intros Hd. unfold needed_in_all, total. induction h as [|x h IH]; intros H; cbn [map fold_right]; [reflexivity|]. inversion H as [|y z Hx Hh E]. subst.
  destruct (gain_needed files d x Hd) as [G|G]; [|contradiction (G Hx)]. rewrite G, (IH Hh). lia.
Qed.
Lemma fittings_possible files d h : Forall (fun af => an_edit (fst af) /\ snd af <> None) h ->
  ((forall a f, In (a, Some f) h -> fitting (Desk files (store_of d (stored_map d))) a f) <-> Forall (possible files d) h).
Proof.
  intros HB. rewrite Forall_forall in HB. rewrite Forall_forall. split.
  - intros H [a [f|]] Hi; [apply fitting_possible, H, Hi|]. contradiction (proj2 (HB _ Hi)). reflexivity.
  - intros H a f Hi. apply fitting_possible. exact (H _ Hi).
Qed.
Lemma needed_app files d h1 h2 : needed_in_all files d (h1 ++ h2) = needed_in_all files d h1 + needed_in_all files d h2.
Proof. unfold needed_in_all. rewrite map_app. apply total_app. Qed.
Lemma needed_perm files d h h2 : Permutation h h2 -> needed_in_all files d h = needed_in_all files d h2.
Proof. intros P. apply (total_perm _ _ (Permutation_map _ P)). Qed.
Lemma needed_sign files d h : (Forall (fun af => needed files d af <= 0) h -> needed_in_all files d h <= 0) /\ (Forall (fun af => 0 <= needed files d af) h -> 0 <= needed_in_all files d h).
Proof.
  unfold needed_in_all. induction h as [|x h [I1 I2]]; cbn [map fold_right]; [split; intros; lia|].
  split; intros H; inversion H as [|y z Hx Hh E]; subst; [specialize (I1 Hh)|specialize (I2 Hh)]; lia.
Qed.
(** Freeing first: the last step is the tightest. *)
Lemma freeing_rooms files d h n : 0 <= n -> freeing_first files d h -> needed_in_all files d h <= n -> forall h1 h2, h = h1 ++ h2 -> needed_in_all files d h1 <= n.
Proof.
  intros Hn (a & b & Eh & Ha & Hb) HT h1 h2 E. rewrite Eh in E. 
  assert (C : (exists m, a = h1 ++ m) \/ exists m, b = m ++ h2).
  { revert h1 E Eh Ha. clear. intros h1 E _ _. revert a E. induction h1 as [|x h1 IH]; intros a E; [left; exists a; reflexivity|].
    destruct a as [|y a]; cbn [app] in E; [right; exists (x :: h1); exact E|]. injection E as -> E. destruct (IH a E) as [[m ->]|[m ->]]; [left; exists m; reflexivity|right; exists m; reflexivity]. }
  destruct C as [[m ->]|[m ->]].
  - apply Forall_app in Ha as [Ha _]. pose proof (proj1 (needed_sign files d h1) Ha). lia.
  - apply Forall_app in Hb as [_ Hb]. pose proof (proj2 (needed_sign files d h2) Hb). rewrite Eh, E, needed_app in HT. lia.
Qed.

Section Run.
  Variable iter : list (Z * Subdirectory) -> list (Z * Subdirectory).
  Variable fuel : nat.
  Lemma room_exactly order img o t h w c d w1 l1 :
    img <> s2b "-" -> first_order img order o -> no_numeric_symbols t ->
    w_fs w img = NFile c true true -> naked_image c o d -> names_on d t -> w_room w = None -> w_outroom w = None ->
    batch h -> Forall (fun af => meant t img (fst af) (snd af)) h -> with_contents (w_fs w) h ->
    throughout (unmarked img) (map (fun af => command iter fuel order img (fst af)) h) w ->
    session (map (fun af => command iter fuel order img (fst af)) h) w = (w1, l1) ->
    (all_well l1 <-> Forall (possible (w_fs w) d) h /\ forall h1 h2, h = h1 ++ h2 -> needed_in_all (w_fs w) d h1 <= free_on d).
  Proof.
    intros H1 H2 H3 H4 H5 H6 H7 H8 HB HM HE HT HS. remember (Desk (w_fs w) (store_of d (stored_map d))) as k eqn:Ek.
    assert (Hkf : k_files k = w_fs w) by (rewrite Ek; reflexivity). assert (Hks : k_store k = store_of d (stored_map d)) by (rewrite Ek; reflexivity).
    destruct (C95_lemma iter fuel order img o t h w c d k H1 H2 H3 H4 H5 H6 H7 H8) as (w' & k' & l & c1 & d1 & G1 & G2 & _).
    { intros n _. rewrite Hkf. reflexivity. }
    { rewrite Hks. split; reflexivity. }
    { exact HM. }
    { exact HT. }
    rewrite HS in G1. injection G1 as <- <-.
    pose proof (acts_exactly t h k HB) as X. rewrite G2 in X. cbn [snd] in X. rewrite X; [|rewrite Hks; cbn [store_of st_free]; apply zlen_nonneg|intros ft ow addr n src f s r q Hi Es; rewrite Hkf in Es; exact (HE _ _ _ _ _ _ _ _ _ Hi Es)].
    pose proof (fl_len _ _ (proj2 H5)) as Hd. rewrite Hks, Ek, (fittings_possible _ _ _ (proj1 HB)). cbn [store_of st_free]. unfold free_on.
    split; intros [P Q]; (split; [exact P|]); intros h1 h2 Eh; specialize (Q h1 h2 Eh);
      (assert (Ph : Forall (possible (w_fs w) d) h1) by (rewrite Eh in P; apply Forall_app in P; apply P)); rewrite (totals _ _ Hd _ Ph) in *; lia.
  Qed.
  Lemma room_freeing order img o t h w c d w1 l1 :
    img <> s2b "-" -> first_order img order o -> no_numeric_symbols t ->
    w_fs w img = NFile c true true -> naked_image c o d -> names_on d t -> w_room w = None -> w_outroom w = None ->
    batch h -> Forall (fun af => meant t img (fst af) (snd af)) h -> with_contents (w_fs w) h -> freeing_first (w_fs w) d h ->
    throughout (unmarked img) (map (fun af => command iter fuel order img (fst af)) h) w ->
    session (map (fun af => command iter fuel order img (fst af)) h) w = (w1, l1) ->
    (all_well l1 <-> Forall (possible (w_fs w) d) h /\ needed_in_all (w_fs w) d h <= free_on d).
  Proof.
    intros H1 H2 H3 H4 H5 H6 H7 H8 HB HM HE HF HT HS.
    rewrite (room_exactly order img o t h w c d w1 l1 H1 H2 H3 H4 H5 H6 H7 H8 HB HM HE HT HS). split; intros [P Q]; (split; [exact P|]).
    - apply (Q h []). rewrite app_nil_r. reflexivity.
    - apply (freeing_rooms (w_fs w) d h); [unfold free_on; apply zlen_nonneg|exact HF|exact Q].
  Qed.
  Lemma room_best order img o t h h2 w c d w1 l1 w2 l2 :
    img <> s2b "-" -> first_order img order o -> no_numeric_symbols t ->
    w_fs w img = NFile c true true -> naked_image c o d -> names_on d t -> w_room w = None -> w_outroom w = None ->
    batch h -> Permutation h h2 -> Forall (fun af => meant t img (fst af) (snd af)) h -> with_contents (w_fs w) h -> freeing_first (w_fs w) d h2 ->
    throughout (unmarked img) (map (fun af => command iter fuel order img (fst af)) h) w ->
    throughout (unmarked img) (map (fun af => command iter fuel order img (fst af)) h2) w ->
    session (map (fun af => command iter fuel order img (fst af)) h) w = (w1, l1) -> all_well l1 ->
    session (map (fun af => command iter fuel order img (fst af)) h2) w = (w2, l2) -> all_well l2.
  Proof.
    intros H1 H2 H3 H4 H5 H6 H7 H8 HB P HM HE HF HT HT2 HS HW HS2.
    rewrite (room_freeing order img o t h2 w c d w2 l2 H1 H2 H3 H4 H5 H6 H7 H8 (batch_perm _ _ P HB) (Permutation_Forall P HM)); [| |exact HF|exact HT2|exact HS2].
    - rewrite (room_exactly order img o t h w c d w1 l1 H1 H2 H3 H4 H5 H6 H7 H8 HB HM HE HT HS) in HW. destruct HW as [Q R].
      split; [exact (Permutation_Forall P Q)|]. rewrite <- (needed_perm _ _ _ _ P). apply (R h []). rewrite app_nil_r. reflexivity.
    - intros ft ow addr n src f s r q Hi Es. exact (HE _ _ _ _ _ _ _ _ _ (Permutation_in _ (Permutation_sym P) Hi) Es).
  Qed.
  (** The sectors left. *)
  Lemma room_left order img o t h w c d w1 l1 :
    img <> s2b "-" -> first_order img order o -> no_numeric_symbols t ->
    w_fs w img = NFile c true true -> naked_image c o d -> names_on d t -> w_room w = None -> w_outroom w = None ->
    batch h -> Forall (fun af => meant t img (fst af) (snd af)) h ->
    throughout (unmarked img) (map (fun af => command iter fuel order img (fst af)) h) w ->
    session (map (fun af => command iter fuel order img (fst af)) h) w = (w1, l1) -> all_well l1 ->
    exists c1 d1, w_fs w1 img = NFile c1 true true /\ naked_image c1 o d1 /\ free_on d1 = free_on d - needed_in_all (w_fs w) d h.
  Proof.
    intros H1 H2 H3 H4 H5 H6 H7 H8 HB HM HT HS HW.
    destruct (batch_well iter fuel order img o t h w c d w1 l1 H1 H2 H3 H4 H5 H6 H7 H8 HB HM HT HS HW) as (c1 & d1 & A1 & A2 & A3 & A4 & A5 & A6 & A7 & A8).
    exists c1, d1. split; [exact A1|]. split; [exact A2|]. rewrite A5.
    rewrite (totals _ _ (fl_len _ _ (proj2 H5))); [lia|]. apply (proj1 (fittings_possible _ _ _ (proj1 HB))). exact A7.
  Qed.
End Run.
