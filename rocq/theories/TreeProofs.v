(** TreeProofs.v -- where the directories of a ProDOS volume lie does not matter to ls. *)
From Coq Require Import ZifyBool ZifyNat.
From Verif Require Import GoBase GoLemmas DiskSpec ProdosModel ProdosSpec CmdModel CmdSpec DetectSpec DetectProofs PrintProofs TreeSpec.
Local Opaque zrange zeros sub.

Definition listing_of (d : bytes) (x : bytes * (Z * list Z)) : list bytes := names_in d (fst (snd x)) (snd (snd x)).
Lemma forall2_flat {A B C D} (R : C -> D -> Prop) (f : A -> list C) (g : B -> list D) l l' : length l = length l' ->
  (forall x y, In (x, y) (combine l l') -> Forall2 R (f x) (g y)) -> Forall2 R (flat_map f l) (flat_map g l').
Proof.
  revert l'. induction l as [|x l IH]; intros [|y l'] L H; try discriminate L; [constructor|]. cbn [flat_map]. apply Forall2_app.
  - apply H. left. reflexivity.
  - apply IH; [injection L as L; exact L|]. intros a b I'. apply H. right. exact I'.
Qed.
Lemma paths_same d d' t t' : same_tree d d' t t' -> forall p,
  Forall2 (fun x x' => fst x = fst x' /\ listing_of d x = listing_of d' x') (paths d p t) (paths d' p t').
Proof.
  induction 1 as [k l subs k' l' subs' HN HL HH HS IH]. intros p. cbn [paths]. constructor; [split; [reflexivity|exact HN]|].
  apply forall2_flat; [exact HL|]. intros s s' I'. rewrite (HH s s' I'). apply (IH s s' I').
Qed.
Lemma forall2_fst {A B} (R : bytes * A -> bytes * B -> Prop) l l' : Forall2 (fun x x' => fst x = fst x' /\ R x x') l l' -> map fst l = map fst l'.
Proof. induction 1 as [|x x' l l' [E _] _ IH]; [reflexivity|]. cbn [map]. rewrite E, IH. reflexivity. Qed.
Lemma forall2_at {A B} (R : A -> B -> Prop) l l' x : Forall2 R l l' -> In x l -> exists x', In x' l' /\ R x x'.
Proof.
  induction 1 as [|a b l l' H _ IH]; intros I'; [destruct I'|]. destruct I' as [<-|I']; [exists b; split; [left; reflexivity|exact H]|].
  destruct (IH I') as (x' & H1 & H2). exists x'. split; [right; exact H1|exact H2].
Qed.
Lemma nodup_fst {A} (l : list (bytes * A)) p x : NoDup (map fst l) -> In (p, x) l -> forall y, In (p, y) l -> y = x.
Proof.
  induction l as [|[q z] l IH]; intros N H1 y H2; [destruct H1|]. cbn [map fst] in N. inversion N as [|? ? N1 N2]; subst.
  destruct H1 as [E|H1], H2 as [E2|H2].
  - congruence.
  - injection E as -> ->. exfalso. apply N1. apply (in_map fst) in H2. exact H2.
  - injection E2 as -> ->. exfalso. apply N1. apply (in_map fst) in H1. exact H1.
  - exact (IH N2 H1 y H2).
Qed.
Lemma all_lines_one ns t t' : all_lines ns t -> all_lines ns t' -> t = t'.
Proof.
  intros H. revert t'. induction H as [|n ns t H IH]; intros t' H'; inversion H' as [|? ? t2 H2]; subst; [reflexivity|]. rewrite (IH t2 H2). reflexivity.
Qed.
Lemma split_line (a b x y : bytes) : ~ In 10 a -> ~ In 10 b -> a ++ 10 :: x = b ++ 10 :: y -> a = b /\ x = y.
Proof.
  revert b. induction a as [|c a IH]; intros [|e b] Ha Hb E; cbn [app] in E; injection E.
  - intros ->. split; reflexivity.
  - intros _ E1. exfalso. apply Hb. left. symmetry. exact E1.
  - intros _ E1. exfalso. apply Ha. left. exact E1.
  - intros E2 ->. destruct (IH b) as [-> ->]; [intros X; apply Ha; right; exact X|intros X; apply Hb; right; exact X|exact E2|split; reflexivity].
Qed.
Lemma all_lines_names ns ns' t : all_lines ns t -> all_lines ns' t -> (forall n, In n ns -> ~ In 10 n) -> (forall n, In n ns' -> ~ In 10 n) -> ns = ns'.
Proof.
  intros H. revert ns'. induction H as [|n ns t H IH]; intros ns' H' P P'; inversion H' as [|n' ns2 t2 H2 E1 E2]; subst.
  - reflexivity.
  - destruct n'; discriminate.
  - destruct n; discriminate.
  - destruct (split_line n' n t2 t) as [-> ->]; [apply P'; left; reflexivity|apply P; left; reflexivity|assumption|].
    rewrite (IH ns2 H2); [reflexivity|intros x Hx; apply P; right; exact Hx|intros x Hx; apply P'; right; exact Hx].
Qed.
Lemma prints_one p w x y : prints p w x -> prints p w y -> x = y.
Proof. intros (v & E & _ & T) (v' & E' & _ & T'). rewrite E in E'. injection E' as <-. rewrite T in T'. exact (app_inv_head _ _ _ T'). Qed.
Lemma prints_fails p w x : prints p w x -> fails_cleanly p w -> False.
Proof. intros (v & E & _) (v' & e & E' & _). rewrite E in E'. discriminate E'. Qed.
Lemma eventually_some (P : nat -> Prop) : eventually P -> exists k, P k.
Proof. intros [n H]. exists n. apply H. lia. Qed.
Section Commands.
  Context (iter iter' : list (Z * Subdirectory) -> list (Z * Subdirectory)).
  Lemma same_listing img img' order order' system system' c c' d d' o o' t t' w w' :
    an_order iter -> an_order iter' ->
    seen_as img order c (s2b "prodos") d o -> seen_as img' order' c' (s2b "prodos") d' o' ->
    (system = s2b "auto" \/ system = s2b "prodos") -> (system' = s2b "auto" \/ system' = s2b "prodos") ->
    well_formed d t -> well_formed d' t' -> same_tree d d' t t' -> distinct_paths d t ->
    input w img c -> input w' img' c' -> w_outroom w = None -> w_outroom w' = None ->
    (forall short dir, eventually (fun fuel => show_alike (LsCmd_Run iter fuel order system short img dir) w (LsCmd_Run iter' fuel order' system' short img' dir) w')) /\
    (forall n, eventually (fun fuel => show_alike (DumpCmd_Run iter fuel order system img n) w (DumpCmd_Run iter' fuel order' system' img' n) w')).
  Proof.
    intros HI HI' Hs Hs' Sy Sy' W W' ST ND In1 In2 R R'. pose proof (paths_same d d' t t' ST []) as FP. pose proof (forall2_fst _ _ _ FP) as EF. split.
    - intros short dir. destruct (in_dec (list_eq_dec Z.eq_dec) dir (map fst (paths d [] t))) as [Hin|Hout].
      + apply in_map_iff in Hin as ([p [k l]] & Ep & Hin). cbn [fst] in Ep. subst p.
        destruct (forall2_at _ _ _ _ FP Hin) as ([p' [k' l']] & Hin' & Ep & EN). cbn [fst] in Ep. subst p'.
        assert (NoDup (map fst (paths d' [] t'))) as ND' by (rewrite <- EF; exact ND).
        pose proof (ls_prodos iter img order system c d o t dir k l short w HI Hs Sy In1 R W Hin (nodup_fst _ _ _ ND Hin)) as E1.
        pose proof (ls_prodos iter' img' order' system' c' d' o' t' dir k' l' short w' HI' Hs' Sy' In2 R' W' Hin' (nodup_fst _ _ _ ND' Hin')) as E2.
        eapply eventually_impl; [|exact (eventually_and _ _ E1 E2)]. intros fuel [(x & Hx & Px) (x' & Hx' & Px')]. left. exists x. split; [exact Px|].
        unfold listing_of, names_in in EN. cbn [fst snd] in EN. rewrite <- EN in Hx'. rewrite (all_lines_one _ _ _ Hx Hx'). exact Px'.
      + assert (~ In dir (map fst (paths d' [] t'))) as Hout' by (rewrite <- EF; exact Hout).
        eapply eventually_impl; [|exact (eventually_and _ _ (ls_prodos_none iter img order system c d o t dir short w HI Hs Sy In1 W Hout)
          (ls_prodos_none iter' img' order' system' c' d' o' t' dir short w' HI' Hs' Sy' In2 W' Hout'))]. intros fuel H. right. exact H.
    - intros n. eapply eventually_impl; [|exact (eventually_and _ _ (dump_prodos iter img order system c d o n w HI Hs Sy In1) (dump_prodos iter' img' order' system' c' d' o' n w' HI' Hs' Sy' In2))].
      intros fuel H. right. exact H.
  Qed.
  Section Apart.
    Context (img img' order order' system system' c c' d d' o o' : bytes) (t t' : tree) (w w' : world).
    Context (HI : an_order iter) (HI' : an_order iter') (Hs : seen_as img order c (s2b "prodos") d o) (Hs' : seen_as img' order' c' (s2b "prodos") d' o').
    Context (Sy : system = s2b "auto" \/ system = s2b "prodos") (Sy' : system' = s2b "auto" \/ system' = s2b "prodos").
    Context (W : well_formed d t) (W' : well_formed d' t') (ND : distinct_paths d t) (ND' : distinct_paths d' t') (PN : plain_names d t) (PN' : plain_names d' t').
    Context (In1 : input w img c) (In2 : input w' img' c') (R : w_outroom w = None) (R' : w_outroom w' = None).
    Lemma folder_there short p ns :
      eventually (fun fuel => show_alike (LsCmd_Run iter fuel order system short img p) w (LsCmd_Run iter' fuel order' system' short img' p) w') ->
      has_folder d t p ns -> has_folder d' t' p ns.
    Proof.
      intros A HF. pose proof HF as (k & l & Hin & En).
      pose proof (ls_prodos iter img order system c d o t p k l short w HI Hs Sy In1 R W Hin (nodup_fst _ _ _ ND Hin)) as E1.
      destruct (in_dec (list_eq_dec Z.eq_dec) p (map fst (paths d' [] t'))) as [Hin'|Hout].
      - apply in_map_iff in Hin' as ([p' [k' l']] & Ep & Hin'). cbn [fst] in Ep. subst p'.
        pose proof (ls_prodos iter' img' order' system' c' d' o' t' p k' l' short w' HI' Hs' Sy' In2 R' W' Hin' (nodup_fst _ _ _ ND' Hin')) as E2.
        destruct (eventually_some _ (eventually_and _ _ A (eventually_and _ _ E1 E2))) as (fuel & [(z & P & P')|[F _]] & (x & Hx & Px) & (x' & Hx' & Px')); [|destruct (prints_fails _ _ _ Px F)].
        pose proof (prints_one _ _ _ _ P Px) as X. subst z. pose proof (prints_one _ _ _ _ P' Px') as X. subst x'.
        exists k', l'. split; [exact Hin'|]. rewrite <- En. symmetry. apply (all_lines_names _ _ x Hx Hx').
        + intros n Hn. apply (PN p ns n HF). rewrite <- En. exact Hn.
        + intros n Hn. apply (PN' p (names_in d' k' l') n); [exists k', l'; split; [exact Hin'|reflexivity]|exact Hn].
      - exfalso. destruct (eventually_some _ (eventually_and _ _ A (eventually_and _ _ E1 (ls_prodos_none iter' img' order' system' c' d' o' t' p short w' HI' Hs' Sy' In2 W' Hout))))
          as (fuel & [(z & P & P')|[F _]] & (x & Hx & Px) & F'); [exact (prints_fails _ _ _ P' F')|exact (prints_fails _ _ _ Px F)].
    Qed.
  End Apart.
  Lemma alike_sym p w p' w' : show_alike p w p' w' -> show_alike p' w' p w.
  Proof. intros [(x & H1 & H2)|[H1 H2]]; [left; exists x; split; assumption|right; split; assumption]. Qed.
End Commands.
Lemma same_folders (iter iter' : list (Z * Subdirectory) -> list (Z * Subdirectory)) img img' order order' system system' c c' d d' o o' t t' w w' short :
  an_order iter -> an_order iter' ->
  seen_as img order c (s2b "prodos") d o -> seen_as img' order' c' (s2b "prodos") d' o' ->
  (system = s2b "auto" \/ system = s2b "prodos") -> (system' = s2b "auto" \/ system' = s2b "prodos") ->
  well_formed d t -> well_formed d' t' -> distinct_paths d t -> distinct_paths d' t' -> plain_names d t -> plain_names d' t' ->
  input w img c -> input w' img' c' -> w_outroom w = None -> w_outroom w' = None ->
  (forall dir, eventually (fun fuel => show_alike (LsCmd_Run iter fuel order system short img dir) w (LsCmd_Run iter' fuel order' system' short img' dir) w')) ->
  forall p ns, has_folder d t p ns <-> has_folder d' t' p ns.
Proof.
  intros HI HI' Hs Hs' Sy Sy' W W' ND ND' PN PN' In1 In2 R R' A p ns. split.
  - apply (folder_there iter iter' img img' order order' system system' c c' d d' o o' t t' w w' HI HI' Hs Hs' Sy Sy' W W' ND ND' PN PN' In1 In2 R R' short), A.
  - apply (folder_there iter' iter img' img order' order system' system c' c d' d o' o t' t w' w HI' HI Hs' Hs Sy' Sy W' W ND' ND PN' PN In2 In1 R' R short).
    eapply eventually_impl; [|exact (A p)]. intros fuel. apply alike_sym.
Qed.
