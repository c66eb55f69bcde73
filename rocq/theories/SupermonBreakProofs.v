(** SupermonBreakProofs.v -- proofs for C38: exactly which changes of a symbol table damage it. *)
From Verif Require Import GoBase GoLemmas TypesModel SupermonModel SupermonSpec SupermonTableSpec SupermonBreakSpec SupermonTabProofs SupermonSymProofs SupermonLinkProofs SupermonNamedProofs SupermonFinalProofs SupermonReadableProofs.
From Coq Require Import ZifyBool ZifyNat.
Ltac Zify.zify_post_hook ::= Z.div_mod_to_equations.
Local Opaque zrange zeros sub.

Lemma first_named_eq t n i : first_named t n i <->
  0 <= i < zlen t /\ equal_fold n (nm t i) = true /\ forall j, 0 <= j < i -> equal_fold n (nm t j) = false.
Proof.
  unfold first_named. rewrite (equal_fold_sym n). split; intros (H1 & H2 & H3); (split; [exact H1|]; split; [exact H2|]); intros j Hj; [rewrite equal_fold_sym|rewrite equal_fold_sym]; apply H3, Hj.
Qed.
Lemma first_named_find t n i : first_named t n i -> find_name t n 0 = Some i.
Proof.
  rewrite first_named_eq. intros (H1 & H2 & H3). pose proof (find_name_spec t n 0) as Hf. destruct (find_name t n 0) as [k|].
  - rewrite Z.sub_0_r in Hf. destruct Hf as (F1 & F2 & F3). f_equal.
    destruct (Z_lt_ge_dec k i) as [H|H]; [rewrite (H3 k) in F2 by lia; discriminate|].
    destruct (Z_lt_ge_dec i k) as [H'|H']; [rewrite (F3 i) in H2 by lia; discriminate|lia].
  - rewrite Hf in H2 by lia. discriminate.
Qed.
Lemma find_first_named t n i : find_name t n 0 = Some i -> first_named t n i.
Proof.
  intros E. pose proof (find_name_spec t n 0) as Hf. rewrite E in Hf. rewrite Z.sub_0_r in Hf. destruct Hf as (F1 & F2 & F3).
  apply first_named_eq. split; [lia|]. split; [exact F2|exact F3].
Qed.
Lemma first_to_det t i j k : first_to t i j -> first_to t i k -> j = k.
Proof.
  intros (J1 & J2 & J3 & J4) (K1 & K2 & K3 & K4). destruct (Z_lt_ge_dec j k) as [H|H]; [contradiction (K4 j ltac:(lia) J2)|].
  destruct (Z_lt_ge_dec k j) as [H'|H']; [contradiction (J4 k ltac:(lia) K2)|lia].
Qed.
Lemma first_to_dec t i j : first_to t i j \/ ~ first_to t i j.
Proof.
  destruct (first_link t i) as [H|(p & P1 & P2 & P3 & P4)].
  - right. intros (J1 & J2 & J3 & _). exact (H j J1 J2 J3).
  - destruct (Z.eq_dec j p) as [->|Hne]; [left; split; [exact P1|split; [exact P2|split; assumption]]|].
    right. intros Hj. apply Hne. apply (first_to_det t i j p Hj). split; [exact P1|split; [exact P2|split; assumption]].
Qed.

(** What deleting does to each entry. *)
Lemma delete_each t n i : first_named t n i ->
  zlen (fst (DeleteSymbol t n)) = zlen t /\
  znth sym0 (fst (DeleteSymbol t n)) i = Sym 0 [] (lk t i) /\
  (forall j, 0 <= j < zlen t -> j <> i -> first_to t i j -> znth sym0 (fst (DeleteSymbol t n)) j = set_link (znth sym0 t j) (lk t i)) /\
  (forall j, 0 <= j < zlen t -> j <> i -> ~ first_to t i j -> znth sym0 (fst (DeleteSymbol t n)) j = znth sym0 t j).
Proof.
  intros Hn. unfold DeleteSymbol. rewrite (first_named_find t n i Hn). cbn [fst]. destruct Hn as (Hi & _).
  change (s_link (znth sym0 t i)) with (lk t i). destruct (unlink_spec t (lk t i) 0 i) as [Lu Hc].
  split; [rewrite zlen_zset by lia; exact Lu|].
  split; [rewrite znth_zset by lia; rewrite Z.eqb_refl; reflexivity|].
  assert (forall j, 0 <= j < zlen t -> j <> i -> znth sym0 (zset (unlink t 0 i (lk t i)) i (Sym 0 [] (lk t i))) j = znth sym0 (unlink t 0 i (lk t i)) j) as Hz.
  { intros j Hj Hne. rewrite znth_zset by lia. replace (j =? i) with false by lia. reflexivity. }
  split; intros j Hj Hne Hft; rewrite (Hz j Hj Hne).
  - destruct Hft as (F1 & F2 & F3 & F4). apply (unlink_first t (lk t i) 0 i j F1 ltac:(lia) F3). intros k Hk Hki. apply F4; lia.
  - destruct (first_link t i) as [Hno|(p & P1 & P2 & P3 & P4)].
    + destruct Hc as [[_ ->]|(p & P1 & P2 & P3 & _)]; [reflexivity|]. exfalso. apply (Hno p P1 ltac:(lia) P3).
    + destruct (unlink_first t (lk t i) 0 i p P1 ltac:(lia) P3) as [_ U]; [intros k Hk Hki; apply P4; lia|].
      apply U; [lia|]. intros ->. apply Hft. split; [exact P1|]. split; [exact P2|]. split; assumption.
Qed.
Lemma delete_fields t n i : first_named t n i ->
  zlen (fst (DeleteSymbol t n)) = zlen t /\ ad (fst (DeleteSymbol t n)) i = 0 /\ lk (fst (DeleteSymbol t n)) i = lk t i /\
  (forall j, 0 <= j < zlen t -> j <> i -> ad (fst (DeleteSymbol t n)) j = ad t j) /\
  (forall j, 0 <= j < zlen t -> j <> i -> first_to t i j -> lk (fst (DeleteSymbol t n)) j = lk t i) /\
  (forall j, 0 <= j < zlen t -> j <> i -> ~ first_to t i j -> lk (fst (DeleteSymbol t n)) j = lk t j).
Proof.
  intros Hn. destruct (delete_each t n i Hn) as (L & E & E1 & E2). remember (fst (DeleteSymbol t n)) as t' eqn:Et. clear Et.
  unfold ad, lk. split; [exact L|]. split; [rewrite E; reflexivity|]. split; [rewrite E; reflexivity|].
  split. { intros j Hj Hne. destruct (first_to_dec t i j) as [Hf|Hf]; [rewrite (E1 j Hj Hne Hf)|rewrite (E2 j Hj Hne Hf)]; reflexivity. }
  split; intros j Hj Hne Hf; [rewrite (E1 j Hj Hne Hf)|rewrite (E2 j Hj Hne Hf)]; reflexivity.
Qed.
(** Links other than those to the deleted entry stay sound; so does the redirected one, if there is
    no loop. *)
Lemma linked_to t i j : links_ok t -> 0 <= i < zlen t -> 0 <= j < zlen t -> ad t j <> 0 -> lk t j = i -> j <> i /\ hash7 (ad t j) = hash7 (ad t i).
Proof.
  intros Hl Hi Hj Aj Ej. pose proof (Hl j Hj) as Hlj. rewrite link_ok_lk, Ej in Hlj. destruct (Hlj Aj ltac:(lia)) as (H1 & _ & H3).
  split; [congruence|exact H3].
Qed.
Lemma delete_others t n i j : links_ok t -> first_named t n i -> ad t i <> 0 -> ~ loops t i -> 0 <= j < zlen t -> j <> i -> ad t j <> 0 ->
  lk (fst (DeleteSymbol t n)) j <> -1 -> lk (fst (DeleteSymbol t n)) j <> i ->
  lk (fst (DeleteSymbol t n)) j <> j /\ 0 <= lk (fst (DeleteSymbol t n)) j < zlen t /\
  hash7 (ad t j) = hash7 (ad t (lk (fst (DeleteSymbol t n)) j)).
Proof.
  intros Hl Hn Ai Hno Hj Hne Aj Lj Li. destruct (delete_fields t n i Hn) as (L & _ & _ & _ & E1 & E2). pose proof (proj1 Hn) as Hi.
  destruct (first_to_dec t i j) as [Hf|Hf].
  - rewrite (E1 j Hj Hne Hf) in *. pose proof (Hl i Hi) as Hli. rewrite link_ok_lk in Hli. destruct (Hli Ai Lj) as (X1 & X2 & X3).
    destruct (linked_to t i j Hl Hi Hj Aj (proj1 (proj2 (proj2 Hf)))) as [_ Eh].
    split; [intros Ex; apply Hno; exists j; split; [exact Hf|split; [exact Aj|exact Ex]]|]. split; [exact X2|congruence].
  - rewrite (E2 j Hj Hne Hf) in *. pose proof (Hl j Hj) as Hlj. rewrite link_ok_lk in Hlj. apply Hlj; assumption.
Qed.
Lemma delete_break t n i : links_ok t -> first_named t n i -> ad t i <> 0 ->
  (delete_breaks t i -> ~ links_ok (fst (DeleteSymbol t n))) /\ (~ delete_breaks t i -> links_ok (fst (DeleteSymbol t n))).
Proof.
  intros Hl Hn Ai. destruct (delete_fields t n i Hn) as (L & A0 & _ & A & E1 & E2). pose proof (proj1 Hn) as Hi. split.
  - intros [[(j & Hj & Aj & Ej & Hnf) Hh]|(j & Hf & Aj & Ej)] Hx.
    + destruct (linked_to t i j Hl Hi Hj Aj Ej) as [Hne Eh]. specialize (Hx j ltac:(lia)). rewrite link_ok_lk, (E2 j Hj Hne Hnf), Ej, A0, (A j Hj Hne) in Hx.
      destruct (Hx Aj ltac:(lia)) as (_ & _ & Hx'). apply Hh. rewrite <- Eh, Hx'. vm_compute. reflexivity.
    + pose proof Hf as (Hj & Hne & _). specialize (Hx j ltac:(lia)). rewrite link_ok_lk, (E1 j Hj Hne Hf), Ej, (A j Hj Hne) in Hx.
      destruct (Hx Aj ltac:(lia)) as (Hx' & _). contradiction.
  - intros Hnb j Hj. rewrite L in Hj. rewrite link_ok_lk, L. destruct (Z.eq_dec j i) as [->|Hne]; [intros Hx; contradiction|].
    rewrite (A j Hj Hne). intros Aj Lj. destruct (Z.eq_dec (lk (fst (DeleteSymbol t n)) j) i) as [Ei|Ei].
    + rewrite Ei, A0. split; [congruence|]. split; [exact Hi|].
      assert (lk t j = i /\ ~ first_to t i j) as [Ej Hnf].
      { destruct (first_to_dec t i j) as [Hf|Hf]; [|split; [rewrite <- (E2 j Hj Hne Hf); exact Ei|exact Hf]].
        rewrite (E1 j Hj Hne Hf) in Ei. pose proof (Hl i Hi) as Hli. rewrite link_ok_lk in Hli. destruct (Hli Ai ltac:(lia)) as (X1 & _). contradiction. }
      destruct (linked_to t i j Hl Hi Hj Aj Ej) as [_ Eh]. rewrite Eh. change (hash7 0) with 0.
      destruct (Z.eq_dec (hash7 (ad t i)) 0) as [E|E]; [exact E|]. exfalso. apply Hnb. left. split; [|exact E]. exists j. split; [exact Hj|]. split; [exact Aj|]. split; assumption.
    + destruct (delete_others t n i j Hl Hn Ai ltac:(intros Hlo; apply Hnb; right; exact Hlo) Hj Hne Aj Lj Ei) as (X1 & X2 & X3).
      split; [exact X1|]. split; [exact X2|]. rewrite (A _ X2 Ei). exact X3.
Qed.

(** A new name gets the first unused entry. *)
Lemma add_scan_pos t n h : forall j pos p, pos <> -1 -> add_scan t j pos n h = AddAt p -> p = pos.
Proof.
  induction t as [|s t IH]; intros j pos p Hpos E; cbn [add_scan] in E; [injection E as <-; reflexivity|].
  destruct (equal_fold n (s_name s)); [destruct (_ =? _); discriminate|]. replace (pos =? -1) with false in E by lia. apply (IH _ _ _ Hpos E).
Qed.
Lemma add_scan_first0 t n h : forall j p, 0 <= j -> add_scan t j (-1) n h = AddAt p -> forall k, 0 <= k -> j + k < p -> ad t k <> 0.
Proof.
  induction t as [|s t IH]; intros j p Hj E k Hk Hp; cbn [add_scan] in E; [injection E as <-; lia|].
  destruct (equal_fold n (s_name s)); [destruct (_ =? _); discriminate|]. change (-1 =? -1) with true in E. cbn [andb] in E.
  destruct (Z.eqb_spec (s_addr s) 0) as [E0|E0]; [apply add_scan_pos in E; lia|].
  unfold ad. destruct (Z.eq_dec k 0) as [->|Hk0]; [rewrite znth_cons_0; exact E0|]. rewrite znth_cons_S by lia. apply (IH (j + 1) p ltac:(lia) E); lia.
Qed.
Lemma add_scan_first t n h p : add_scan t 0 (-1) n h = AddAt p -> forall k, 0 <= k < p -> ad t k <> 0.
Proof. intros E k Hk. apply (add_scan_first0 t n h 0 p ltac:(lia) E); lia. Qed.

(** Giving a name an address. *)
Lemma add_at_each t p n a : 0 <= p < zlen t -> exists u, add_at t p n a (addrHash a) = (u, Ok tt) /\ zlen u = zlen t /\ znth sym0 u p = Sym a n (-1) /\
  forall j, 0 <= j < zlen t -> j <> p -> ad u j = ad t j /\ (lk u j = lk t j \/ (hash7 (ad t j) = hash7 a /\ lk t j = -1 /\ lk u j = p)).
Proof.
  intros Hp. unfold add_at. replace (p =? -1) with false by lia. destruct (link_end_spec t (addrHash a) p) as [Lu HC].
  eexists. split; [reflexivity|]. split; [rewrite zlen_zset by lia; exact Lu|]. split; [rewrite znth_zset by lia; rewrite Z.eqb_refl; reflexivity|].
  intros j Hj Hne. unfold ad, lk. rewrite znth_zset by lia. replace (j =? p) with false by lia.
  destruct HC as [[_ ->]|(q & Q1 & Q2 & Q3 & Q4 & Q5)]; [split; [reflexivity|left; reflexivity]|].
  destruct (Z.eq_dec j q) as [->|Hq]; [|rewrite Q5 by lia; split; [reflexivity|left; reflexivity]].
  rewrite Q4. split; [reflexivity|]. right. rewrite !addrHash_hash7 in Q2. split; [exact Q2|]. split; [exact Q3|reflexivity].
Qed.
Lemma add_break t n a t' : zlen t = 819 -> links_ok t -> blanks_unnamed t -> n <> [] -> AddSymbol t n a = (t', Ok tt) ->
  (add_breaks t n a -> ~ links_ok t') /\ (~ add_breaks t n a -> links_ok t').
Proof.
  intros HL Hl Hb Hn E. unfold AddSymbol in E. destruct (Z.eqb_spec a 0) as [|Ha0]; [discriminate|].
  pose proof (add_scan_spec t n (addrHash a) 0 (-1) ltac:(lia)) as Hsc. pose proof (find_name_spec t n 0) as Hfs.
  destruct (find_name t n 0) as [i|] eqn:Ef.
  - rewrite Z.sub_0_r in Hsc. rewrite Hsc, !addrHash_hash7 in E. apply find_first_named in Ef. clear Hsc Hfs. pose proof (proj1 Ef) as Hi.
    assert (ad t i <> 0) as Ai. { intros H0. apply (Hb i Hi) in H0. apply first_named_eq in Ef. destruct Ef as (_ & Ef & _). rewrite H0 in Ef. apply equal_fold_nil in Ef. contradiction. }
    assert (forall k, first_named t n k -> k = i) as Hdet.
    { intros k Hk. apply first_named_find in Hk. apply first_named_find in Ef. congruence. }
    destruct (Z.eqb_spec (hash7 (ad t i)) (hash7 a)) as [Eh|Eh].
    + injection E as <-.
      assert (forall j, 0 <= j < zlen t -> lk (zset t i (set_addr (znth sym0 t i) a)) j = lk t j /\ hash7 (ad (zset t i (set_addr (znth sym0 t i) a)) j) = hash7 (ad t j) /\
        (ad (zset t i (set_addr (znth sym0 t i) a)) j <> 0 -> ad t j <> 0)) as Hsame.
      { intros j Hj. unfold lk, ad at 1 3. rewrite znth_zset by lia. destruct (Z.eqb_spec j i) as [->|]; [|split; [reflexivity|split; [reflexivity|tauto]]].
        split; [reflexivity|]. split; [symmetry; exact Eh|intros _; exact Ai]. }
      split.
      * intros [(k & Hk & Hh & _)|(Hno & _)]; [rewrite (Hdet k Hk) in Hh; contradiction|]. apply first_named_eq in Ef. destruct Ef as (_ & Ef & _). rewrite (Hno i Hi) in Ef. discriminate.
      * intros _ j Hj. rewrite link_ok_lk. rewrite zlen_zset in * by lia. destruct (Hsame j Hj) as (S1 & S2 & S3). rewrite S1, S2. intros Aj Lj.
        pose proof (Hl j Hj) as Hlj. rewrite link_ok_lk in Hlj. destruct (Hlj (S3 Aj) Lj) as (X1 & X2 & X3). split; [exact X1|]. split; [exact X2|].
        destruct (Hsame _ X2) as (_ & -> & _). exact X3.
    + destruct (delete_fields t n i Ef) as (L1 & A0 & _ & A & E1 & E2).
      remember (fst (DeleteSymbol t n)) as t1 eqn:Et1.
      destruct (add_at_each t1 i n a ltac:(lia)) as (u & Eu & Lu & Ui & Uj). rewrite <- addrHash_hash7 in E. rewrite Eu in E. injection E as <-.
      assert (ad u i = a) as Aui by (unfold ad; rewrite Ui; reflexivity).
      assert (lk u i = -1) as Lui by (unfold lk; rewrite Ui; reflexivity). split.
      * intros [(k & Hk & _ & Hsl)|(Hno & _)]; [|apply first_named_eq in Ef; destruct Ef as (_ & Ef & _); rewrite (Hno i Hi) in Ef; discriminate]. rewrite (Hdet k Hk) in Hsl. clear k Hk.
        intros Hx. destruct Hsl as [(j & Hj & Aj & Ej & Hnf)|(j & Hf & Aj & Ej)].
        -- destruct (linked_to t i j Hl Hi Hj Aj Ej) as [Hne Eh2]. destruct (Uj j ltac:(lia) Hne) as [U1 U2]. rewrite (A j Hj Hne), (E2 j Hj Hne Hnf), Ej in *.
           specialize (Hx j ltac:(lia)). rewrite link_ok_lk, U1 in Hx. destruct U2 as [U2|(_ & U2 & _)]; [|lia]. rewrite U2, Aui in Hx.
           destruct (Hx Aj ltac:(lia)) as (_ & _ & Hx'). congruence.
        -- pose proof Hf as (Hj & Hne & _). destruct (Uj j ltac:(lia) Hne) as [U1 U2]. rewrite (A j Hj Hne), (E1 j Hj Hne Hf), Ej in *.
           specialize (Hx j ltac:(lia)). rewrite link_ok_lk, U1 in Hx. destruct U2 as [U2|(_ & U2 & _)]; [|lia]. rewrite U2 in Hx.
           destruct (Hx Aj ltac:(lia)) as (Hx' & _). contradiction.
      * intros Hnb. assert (~ strays t i /\ ~ loops t i) as [Hns Hnl].
        { split; intros Hx; apply Hnb; left; exists i; split; [exact Ef|split; [exact Eh|left; exact Hx]|exact Ef|split; [exact Eh|right; exact Hx]]. }
        intros j Hj. rewrite Lu, L1 in Hj. rewrite link_ok_lk. destruct (Z.eq_dec j i) as [->|Hne]; [intros _ Hx; contradiction|].
        destruct (Uj j ltac:(lia) Hne) as [U1 U2]. rewrite U1, (A j Hj Hne) in *. intros Aj Lj. destruct U2 as [U2|(U2 & _ & U3)].
        -- rewrite U2 in *. destruct (Z.eq_dec (lk t1 j) i) as [Ei|Ei].
           ++ exfalso. destruct (first_to_dec t i j) as [Hf|Hf].
              ** rewrite (E1 j Hj Hne Hf) in Ei. pose proof (Hl i Hi) as Hli. rewrite link_ok_lk in Hli. destruct (Hli Ai ltac:(lia)) as (X1 & _). contradiction.
              ** apply Hns. exists j. rewrite (E2 j Hj Hne Hf) in Ei. split; [exact Hj|]. split; [exact Aj|]. split; assumption.
           ++ assert (lk t1 j <> j /\ 0 <= lk t1 j < zlen t /\ hash7 (ad t j) = hash7 (ad t (lk t1 j))) as (X1 & X2 & X3).
              { rewrite Et1 in *. apply (delete_others t n i j Hl Ef Ai Hnl Hj Hne Aj Lj Ei). }
              split; [exact X1|]. split; [lia|]. destruct (Uj _ ltac:(rewrite L1; exact X2) Ei) as [-> _]. rewrite (A _ X2 Ei). exact X3.
        -- rewrite U3, Aui. split; [congruence|]. split; [lia|exact U2].
  - destruct Hsc as (p & Hsc & Hp). rewrite Hsc in E. destruct Hp as [[Hp _]|[(_ & Hp & Ap)|(_ & -> & _)]]; [lia| |discriminate].
    rewrite Z.sub_0_r, Z.add_0_l in *.
    assert (first_unused t p) as Hfu.
    { split; [exact Hp|]. split; [exact Ap|]. apply (add_scan_first t n (addrHash a) p Hsc). }
    destruct (add_at_each t p n a Hp) as (u & Eu & Lu & Up & Uj). rewrite Eu in E. injection E as <-.
    assert (ad u p = a) as Aup by (unfold ad; rewrite Up; reflexivity).
    assert (lk u p = -1) as Lup by (unfold lk; rewrite Up; reflexivity).
    assert (forall p', first_unused t p' -> p' = p) as Hdet.
    { intros p' (P1 & P2 & P3). destruct Hfu as (F1 & F2 & F3). destruct (Z_lt_ge_dec p' p) as [H|H]; [contradiction (F3 p' ltac:(lia))|].
      destruct (Z_lt_ge_dec p p') as [H'|H']; [contradiction (P3 p ltac:(lia))|lia]. }
    split.
    + intros [(k & (Hk1 & Hk2 & _) & _)|(_ & Hh & p' & j & Hp' & Hj & Aj & Ej)] Hx; [rewrite equal_fold_sym, (Hfs k Hk1) in Hk2; discriminate|].
      rewrite (Hdet p' Hp') in Ej. clear p' Hp'. destruct (linked_to t p j Hl Hp Hj Aj Ej) as [Hne Eh]. destruct (Uj j Hj Hne) as [U1 U2]. rewrite Ej in U2.
      specialize (Hx j ltac:(lia)). rewrite link_ok_lk, U1 in Hx. destruct U2 as [U2|(_ & U2 & _)]; [|lia]. rewrite U2, Aup in Hx. destruct (Hx Aj ltac:(lia)) as (_ & _ & Hx').
      apply Hh. rewrite <- Hx', Eh, Ap. reflexivity.
    + intros Hnb j Hj. rewrite Lu in Hj. rewrite link_ok_lk, Lu. destruct (Z.eq_dec j p) as [->|Hne]; [intros _ Hx; contradiction|].
      destruct (Uj j Hj Hne) as [U1 U2]. rewrite U1. intros Aj Lj. destruct U2 as [U2|(U2 & _ & U3)]; [|rewrite U3, Aup; split; [congruence|split; [exact Hp|exact U2]]].
      rewrite U2 in *. pose proof (Hl j Hj) as Hlj. rewrite link_ok_lk in Hlj. destruct (Hlj Aj Lj) as (X1 & X2 & X3). split; [exact X1|]. split; [exact X2|].
      destruct (Z.eq_dec (lk t j) p) as [Ep|Ep]; [|destruct (Uj _ X2 Ep) as [-> _]; exact X3].
      rewrite Ep, Aup in *. rewrite Ap in X3. change (hash7 0) with 0 in X3. rewrite X3.
      destruct (Z.eq_dec (hash7 a) 0) as [E0|E0]; [symmetry; exact E0|]. exfalso. apply Hnb. right. split; [exact Hfs|]. split; [exact E0|].
      exists p, j. split; [exact Hfu|]. split; [exact Hj|]. split; assumption.
Qed.

(** ** The disk *)
Lemma delete_sok t n i : zlen t = 819 -> Forall s_ok t -> first_named t n i -> ad t i <> 0 -> Forall s_ok (fst (DeleteSymbol t n)).
Proof.
  intros HL Hs Hn Ai. destruct (delete_each t n i Hn) as (L & E & E1 & E2). pose proof (proj1 Hn) as Hi.
  apply (s_ok_pointwise t _ L). intros j Hj. pose proof (Forall_znth s_ok sym0 t j Hs Hj) as Hsj.
  destruct (Z.eq_dec j i) as [->|Hne]; [rewrite E; split; [unfold is_u16; cbn; lia|]; split; [left; reflexivity|cbn; lia]|].
  destruct (first_to_dec t i j) as [Hf|Hf]; [|rewrite (E2 j Hj Hne Hf); exact Hsj].
  rewrite (E1 j Hj Hne Hf). destruct Hsj as (S1 & S2 & S3). split; [exact S1|]. split; [exact S2|]. intros _. cbn [set_link s_link].
  destruct (Forall_znth s_ok sym0 t i Hs Hi) as (_ & _ & S4). apply (S4 Ai).
Qed.
Lemma add_sok t n a t' : zlen t = 819 -> Forall s_ok t -> blanks_unnamed t -> n <> [] -> is_u16 a -> valid_name n ->
  AddSymbol t n a = (t', Ok tt) -> Forall s_ok t'.
Proof.
  intros HL Hs Hb Hn Ha Hv E. unfold AddSymbol in E. destruct (Z.eqb_spec a 0) as [|Ha0]; [discriminate|].
  pose proof (add_scan_spec t n (addrHash a) 0 (-1) ltac:(lia)) as Hsc. pose proof (zlen_DeleteSymbol t n) as DL.
  destruct (find_name t n 0) as [i|] eqn:Ef.
  - apply find_first_named in Ef. pose proof Ef as Ef'. apply first_named_eq in Ef' as (Hi & H2 & _). rewrite Z.sub_0_r in Hsc. rewrite Hsc in E.
    assert (ad t i <> 0) as Ai. { intros H0. apply (Hb i Hi) in H0. rewrite H0 in H2. apply equal_fold_nil in H2. contradiction. }
    destruct (addrHash (ad t i) =? addrHash a).
    + injection E as <-. apply Forall_zset; [exact Hi|exact Hs|]. destruct (Forall_znth s_ok sym0 t i Hs Hi) as (S1 & S2 & S3).
      split; [exact Ha|]. split; [exact S2|]. intros _. apply (S3 Ai).
    + pose proof (add_at_sok (fst (DeleteSymbol t n)) i n a (addrHash a) ltac:(lia) (delete_sok t n i HL Hs Ef Ai) ltac:(lia) Ha Hv) as H. rewrite E in H. exact H.
  - destruct Hsc as (p & Es & Hp). rewrite Es in E. destruct Hp as [(H & _)|[(_ & Hp & H0)|(_ & -> & _)]]; [contradiction (H eq_refl)| |discriminate].
    pose proof (add_at_sok t p n a (addrHash a) ltac:(lia) Hs ltac:(lia) Ha Hv) as H. rewrite E in H. exact H.
Qed.
Lemma C38_delete_any_lemma : forall t n i, table_ok t -> first_named t n i -> ad t i <> 0 ->
  forall (d sm : bytes), floppy d sm -> zlen (owned sm 3) = 16 -> zlen (owned sm 4) = 16 ->
    exists d' sm', WriteSymbolTable (fst (DeleteSymbol t n)) (d, sm) = ((d', sm'), Ok tt) /\
      (~ delete_breaks t i -> ReadSymbolTable sm' d' = Ok (map canon (fst (DeleteSymbol t n)))) /\
      (delete_breaks t i -> exists e, ReadSymbolTable sm' d' = Err e).
Proof.
  intros t n i (HL & Hs & Hl) Hn Ai d sm Hf H3 H4. destruct (delete_break t n i Hl Hn Ai) as [B1 B2].
  destruct (write_read_exact (fst (DeleteSymbol t n)) d sm Hf) as (d' & sm' & EW & R1 & R2);
    [rewrite zlen_DeleteSymbol; lia|apply (delete_sok t n i HL Hs Hn Ai)|exact H3|exact H4|].
  exists d', sm'. split; [exact EW|]. split; [intros H; apply R1, B2, H|intros H; apply R2, B1, H].
Qed.
Lemma C38_add_any_lemma : forall t n a t', table_ok t -> blanks_unnamed t -> n <> [] -> valid_name n -> is_u16 a -> AddSymbol t n a = (t', Ok tt) ->
  forall (d sm : bytes), floppy d sm -> zlen (owned sm 3) = 16 -> zlen (owned sm 4) = 16 ->
    exists d' sm', WriteSymbolTable t' (d, sm) = ((d', sm'), Ok tt) /\
      (~ add_breaks t n a -> ReadSymbolTable sm' d' = Ok (map canon t')) /\
      (add_breaks t n a -> exists e, ReadSymbolTable sm' d' = Err e).
Proof.
  intros t n a t' (HL & Hs & Hl) Hb Hn Hv Ha E d sm Hf H3 H4. destruct (add_break t n a t' HL Hl Hb Hn E) as [B1 B2].
  assert (zlen t' = 819) as L'. { pose proof (zlen_AddSymbol t n a) as H. rewrite E in H. cbn [fst] in H. lia. }
  destruct (write_read_exact t' d sm Hf L' (add_sok t n a t' HL Hs Hb Hn Ha Hv E) H3 H4) as (d' & sm' & EW & R1 & R2).
  exists d', sm'. split; [exact EW|]. split; [intros H; apply R1, B2, H|intros H; apply R2, B1, H].
Qed.

(** ** Examples: two entries linked to the first one; two linked to each other *)
Definition merging : list Symbol := Sym 0x0001 (s2b "BBB") (-1) :: Sym 0x0100 (s2b "PPP") 0 :: Sym 0x0100 (s2b "QQQ") 0 :: repeat sym0 816.
Definition looping : list Symbol := Sym 0x0001 (s2b "BBB") 1 :: Sym 0x0100 (s2b "PPP") 0 :: Sym 0x0100 (s2b "QQQ") 0 :: repeat sym0 816.
Lemma breaks_example :
  table_ok merging /\ blanks_unnamed merging /\ ~ chained merging /\ first_named merging (s2b "bbb") 0 /\ ad merging 0 <> 0 /\ delete_breaks merging 0 /\
  add_breaks merging (s2b "bbb") 0xDF06 /\ first_named merging (s2b "ppp") 1 /\ ~ delete_breaks merging 1 /\ ~ add_breaks merging (s2b "new") 0xDF06 /\
  table_ok looping /\ first_named looping (s2b "bbb") 0 /\ loops looping 0.
Proof.
  assert (forall a b c, s_ok a -> s_ok b -> s_ok c -> (forall i, 0 <= i < 819 -> link_ok (a :: b :: c :: repeat sym0 816) i) -> table_ok (a :: b :: c :: repeat sym0 816)) as T.
  { intros a b c Ha Hb Hc Hl. split; [apply three_len|]. split; [do 3 (constructor; [assumption|]); apply repeat_ok|]. intros i Hi. rewrite three_len in Hi. apply Hl, Hi. }
  assert (table_ok merging) as T1.
  { unfold merging. apply T; try (split; [unfold is_u16; cbn; lia|split; [apply valid_check; reflexivity|cbn; lia]]).
    intros i Hi. unfold link_ok. rewrite three_len, three_nth by lia.
    destruct (Z.eqb_spec i 0); [cbn; lia|]. destruct (Z.eqb_spec i 1); [subst; cbn; intros; repeat split; try lia; reflexivity|].
    destruct (Z.eqb_spec i 2); [subst; cbn; intros; repeat split; try lia; reflexivity|cbn; lia]. }
  assert (forall i, 0 <= i -> lk merging i = if i =? 0 then -1 else 0) as LM.
  { intros i Hi. unfold lk, merging. rewrite three_nth by lia. destruct (Z.eqb_spec i 0); [reflexivity|]. destruct (Z.eqb_spec i 1); [reflexivity|]. destruct (Z.eqb_spec i 2); reflexivity. }
  assert (zlen merging = 819) as HL by reflexivity.
  assert (first_to merging 0 1) as F1.
  { split; [lia|]. split; [lia|]. split; [reflexivity|]. intros k Hk Hk0. lia. }
  assert (strays merging 0) as S0.
  { exists 2. split; [lia|]. split; [vm_compute; discriminate|]. split; [reflexivity|]. intros F2. pose proof (first_to_det _ _ _ _ F1 F2). lia. }
  assert (first_named merging (s2b "bbb") 0) as N0 by (split; [lia|]; split; [reflexivity|intros; lia]).
  split; [exact T1|]. split.
  { intros i Hi. rewrite HL in Hi. unfold ad, nm, merging. rewrite three_nth by lia.
    destruct (Z.eqb_spec i 0); [discriminate|]. destruct (Z.eqb_spec i 1); [discriminate|]. destruct (Z.eqb_spec i 2); [discriminate|reflexivity]. }
  split. { intros (_ & _ & Hinj & _). specialize (Hinj 1 2 ltac:(lia) ltac:(lia) ltac:(vm_compute; discriminate) ltac:(vm_compute; discriminate) ltac:(vm_compute; discriminate) eq_refl). lia. }
  split; [exact N0|]. split; [vm_compute; discriminate|].
  split; [left; split; [exact S0|vm_compute; discriminate]|].
  split; [left; exists 0; split; [exact N0|]; split; [vm_compute; discriminate|left; exact S0]|].
  split; [split; [lia|]; split; [reflexivity|]; intros j Hj; replace j with 0 by lia; reflexivity|].
  split. { intros [[(j & Hj & Aj & Ej & _) _]|(j & (Hj & _ & Ej & _) & _)]; rewrite LM in Ej by lia; destruct (Z.eqb_spec j 0); lia. }
  split.
  { intros [(k & (Hk & Hk2 & _) & _)|(_ & _ & p & j & (P1 & P2 & P3) & Hj & Aj & Ej)].
    - rewrite HL in Hk. unfold nm, merging in Hk2. rewrite three_nth in Hk2 by lia.
      destruct (Z.eqb_spec k 0); [discriminate Hk2|]. destruct (Z.eqb_spec k 1); [discriminate Hk2|]. destruct (Z.eqb_spec k 2); discriminate Hk2.
    - rewrite LM in Ej by lia. destruct (Z.eqb_spec j 0); [lia|]. subst p. discriminate P2. }
  split; [|split; [split; [cbn; lia|]; split; [reflexivity|intros; lia]|]].
  - unfold looping. apply T; try (split; [unfold is_u16; cbn; lia|split; [apply valid_check; reflexivity|cbn; lia]]).
    intros i Hi. unfold link_ok. rewrite three_len, three_nth by lia.
    destruct (Z.eqb_spec i 0); [subst; cbn; intros; repeat split; try lia; reflexivity|]. destruct (Z.eqb_spec i 1); [subst; cbn; intros; repeat split; try lia; reflexivity|].
    destruct (Z.eqb_spec i 2); [subst; cbn; intros; repeat split; try lia; reflexivity|cbn; lia].
  - exists 1. split; [split; [change (zlen looping) with 819; lia|]; split; [lia|]; split; [reflexivity|intros; lia]|]. split; [vm_compute; discriminate|reflexivity].
Qed.
