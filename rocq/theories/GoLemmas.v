(** GoLemmas.v -- lemmas about the definitions of GoBase.v. *)
From Verif Require Import GoBase.
From Coq Require Import ZifyBool ZifyNat FinFun.
Ltac Zify.zify_post_hook ::= Z.div_mod_to_equations.

(** ** Lengths *)
Lemma zlen_nonneg {A} (l : list A) : 0 <= zlen l.
Proof. unfold zlen; lia. Qed.
Lemma zlen_nil {A} : zlen (@nil A) = 0. Proof. reflexivity. Qed.
Lemma zlen_cons {A} (x : A) l : zlen (x :: l) = 1 + zlen l.
Proof. unfold zlen; cbn [length]; lia. Qed.
Lemma zlen_app {A} (a b : list A) : zlen (a ++ b) = zlen a + zlen b.
Proof. unfold zlen; rewrite app_length; lia. Qed.
Lemma zlen_map {A B} (f : A -> B) l : zlen (map f l) = zlen l.
Proof. unfold zlen; rewrite map_length; reflexivity. Qed.
Lemma zlen_rev {A} (l : list A) : zlen (rev l) = zlen l.
Proof. unfold zlen; rewrite rev_length; reflexivity. Qed.
Lemma zlen_repeat {A} (x : A) n : zlen (repeat x n) = Z.of_nat n.
Proof. unfold zlen; rewrite repeat_length; reflexivity. Qed.
Lemma zlen_zeros n : 0 <= n -> zlen (zeros n) = n.
Proof. intros; unfold zeros; rewrite zlen_repeat; lia. Qed.
Lemma zseq_seq a n : zseq a n = map (fun k => a + Z.of_nat k) (seq 0 n).
Proof.
  revert a; induction n as [|n IH]; intros a; [reflexivity|].
  cbn [zseq seq map]. rewrite IH. rewrite <- (seq_shift n 0), map_map. f_equal; [lia|].
  apply map_ext. intros k; lia.
Qed.
Lemma zrange_seq n : zrange n = map Z.of_nat (seq 0 (Z.to_nat n)).
Proof. unfold zrange. rewrite zseq_seq. apply map_ext. intros; lia. Qed.
Lemma zlen_zrange n : 0 <= n -> zlen (zrange n) = n.
Proof. intros; rewrite zrange_seq; rewrite zlen_map; unfold zlen; rewrite seq_length; lia. Qed.
Lemma zlen_sub {A} (l : list A) a b :
  0 <= a -> a <= b -> b <= zlen l -> zlen (sub l a b) = b - a.
Proof. intros; unfold sub, zlen in *; rewrite firstn_length, skipn_length; lia. Qed.
Lemma zlen_upd {A} (l : list A) a d :
  0 <= a -> a + zlen d <= zlen l -> zlen (upd l a d) = zlen l.
Proof.
  intros Ha Hb; unfold upd; rewrite !zlen_app. unfold zlen in *.
  rewrite firstn_length, skipn_length; lia.
Qed.
Lemma zlen_zset {A} (l : list A) i v :
  0 <= i < zlen l -> zlen (zset l i v) = zlen l.
Proof. intros; unfold zset; apply zlen_upd; rewrite ?zlen_cons, ?zlen_nil; lia. Qed.
Lemma zlen_zero_nil {A} (l : list A) : zlen l = 0 -> l = [].
Proof. destruct l; [reflexivity | rewrite zlen_cons; pose proof (zlen_nonneg l); lia]. Qed.

(** ** Elements *)
Lemma znth_cons_0 {A} (d x : A) l : znth d (x :: l) 0 = x.
Proof. reflexivity. Qed.
Lemma znth_cons_S {A} (d x : A) l i : 0 < i -> znth d (x :: l) i = znth d l (i - 1).
Proof.
  intros Hi; unfold znth. replace (Z.to_nat i) with (S (Z.to_nat (i - 1))) by lia.
  reflexivity.
Qed.
Lemma znth_overflow {A} (d : A) l i : zlen l <= i -> znth d l i = d.
Proof. intros; unfold znth; apply nth_overflow; unfold zlen in *; lia. Qed.
Lemma znth_app {A} (d : A) a b i :
  0 <= i -> znth d (a ++ b) i = if i <? zlen a then znth d a i else znth d b (i - zlen a).
Proof.
  intros Hi; unfold znth, zlen; destruct (Z.ltb_spec i (Z.of_nat (length a))).
  - apply app_nth1; lia.
  - rewrite app_nth2 by lia. f_equal; lia.
Qed.
Lemma nth_firstn {A} (d : A) l n i : (i < n)%nat -> nth i (firstn n l) d = nth i l d.
Proof.
  revert l i; induction n as [|n IH]; intros l i Hi; [lia|].
  destruct l as [|x l]; [reflexivity|]. destruct i; [reflexivity|].
  cbn [firstn nth]. apply IH; lia.
Qed.
Lemma nth_skipn {A} (d : A) l n i : nth i (skipn n l) d = nth (n + i) l d.
Proof.
  revert l i; induction n as [|n IH]; intros l i; [reflexivity|].
  destruct l as [|x l]; [destruct i; reflexivity|].
  cbn [skipn nth Nat.add]. apply IH.
Qed.
Lemma znth_sub {A} (d : A) l a b i :
  0 <= a -> 0 <= i < b - a -> znth d (sub l a b) i = znth d l (a + i).
Proof.
  intros Ha Hi; unfold znth, sub. rewrite nth_firstn by lia. rewrite nth_skipn.
  f_equal; lia.
Qed.
Lemma znth_upd {A} (dd : A) l a d i :
  0 <= a -> a + zlen d <= zlen l -> 0 <= i ->
  znth dd (upd l a d) i =
    if (a <=? i) && (i <? a + zlen d) then znth dd d (i - a) else znth dd l i.
Proof.
  intros Ha Hb Hi; unfold upd. rewrite znth_app by lia.
  assert (Hl : zlen (firstn (Z.to_nat a) l) = a).
  { unfold zlen in *; rewrite firstn_length; lia. }
  rewrite Hl. destruct (Z.ltb_spec i a).
  - replace ((a <=? i) && (i <? a + zlen d)) with false by lia.
    unfold znth. apply nth_firstn; lia.
  - rewrite znth_app by lia. destruct (Z.ltb_spec (i - a) (zlen d)).
    + replace ((a <=? i) && (i <? a + zlen d)) with true by lia. reflexivity.
    + replace ((a <=? i) && (i <? a + zlen d)) with false by lia.
      unfold znth. rewrite nth_skipn. f_equal. pose proof (zlen_nonneg d); lia.
Qed.
Lemma znth_zset {A} (dd : A) l i v j :
  0 <= i < zlen l -> 0 <= j ->
  znth dd (zset l i v) j = if j =? i then v else znth dd l j.
Proof.
  intros; unfold zset. rewrite znth_upd by (rewrite ?zlen_cons, ?zlen_nil; lia).
  rewrite zlen_cons, zlen_nil. destruct (Z.eqb_spec j i).
  - subst. replace ((i <=? i) && (i <? i + (1 + 0))) with true by lia.
    replace (i - i) with 0 by lia; reflexivity.
  - replace ((i <=? j) && (j <? i + (1 + 0))) with false by lia. reflexivity.
Qed.
Lemma znth_repeat {A} (d x : A) n i : 0 <= i < Z.of_nat n -> znth d (repeat x n) i = x.
Proof.
  intros Hi; unfold znth.
  assert (forall n i, (i < n)%nat -> nth i (repeat x n) d = x) as H.
  { clear. induction n as [|n IH]; intros i Hi; [lia|]. destruct i; [reflexivity|].
    cbn [repeat nth]. apply IH; lia. }
  apply H; lia.
Qed.
Lemma znth_zeros n i : 0 <= i -> znth 0 (zeros n) i = 0.
Proof.
  intros Hi. destruct (Z.ltb_spec i (Z.of_nat (Z.to_nat n))).
  - apply znth_repeat; lia.
  - apply znth_overflow; unfold zeros; rewrite zlen_repeat; lia.
Qed.
Lemma znth_map {A B} (f : A -> B) d d' l i :
  0 <= i < zlen l -> znth d' (map f l) i = f (znth d l i).
Proof.
  intros Hi; unfold znth. rewrite <- (map_nth f).
  apply nth_indep. rewrite map_length. unfold zlen in Hi; lia.
Qed.
Lemma znth_zrange n i : 0 <= i < n -> znth 0 (zrange n) i = i.
Proof.
  intros Hi; rewrite zrange_seq. rewrite (znth_map Z.of_nat 0%nat).
  - unfold znth. rewrite seq_nth by lia. lia.
  - unfold zlen; rewrite seq_length; lia.
Qed.
Lemma In_zrange n i : In i (zrange n) <-> 0 <= i < n.
Proof.
  rewrite zrange_seq. rewrite in_map_iff. split.
  - intros (x & Hx & Hin). apply in_seq in Hin. lia.
  - intros Hi. exists (Z.to_nat i). split; [lia|]. apply in_seq. lia.
Qed.
Lemma NoDup_zrange n : NoDup (zrange n).
Proof.
  rewrite zrange_seq. apply FinFun.Injective_map_NoDup; [|apply seq_NoDup].
  intros a b Hab; lia.
Qed.
Lemma zrange_S n : 0 <= n -> zrange (n + 1) = zrange n ++ [n].
Proof.
  intros Hn; rewrite !zrange_seq. replace (Z.to_nat (n + 1)) with (Z.to_nat n + 1)%nat by lia.
  rewrite seq_app, map_app. cbn [map seq]. f_equal. f_equal. lia.
Qed.
Lemma zrange_nonpos n : n <= 0 -> zrange n = [].
Proof. intros Hn; unfold zrange. replace (Z.to_nat n) with 0%nat by lia. reflexivity. Qed.

Lemma znth_In {A} (d : A) l i : 0 <= i < zlen l -> In (znth d l i) l.
Proof. intros Hi; unfold znth; apply nth_In; unfold zlen in Hi; lia. Qed.
Lemma In_znth {A} (d : A) l x : In x l -> exists i, 0 <= i < zlen l /\ znth d l i = x.
Proof.
  intros Hin. destruct (In_nth l x d Hin) as (n & Hn & Hx).
  exists (Z.of_nat n). unfold zlen, znth. rewrite Nat2Z.id. split; [lia | exact Hx].
Qed.

(** Extensionality. *)
Lemma znth_ext {A} (d : A) l1 l2 :
  zlen l1 = zlen l2 -> (forall i, 0 <= i < zlen l1 -> znth d l1 i = znth d l2 i) -> l1 = l2.
Proof.
  intros Hl H. apply nth_ext with (d := d) (d' := d); [unfold zlen in Hl; lia|].
  intros n Hn. specialize (H (Z.of_nat n)). unfold znth in H. rewrite Nat2Z.id in H.
  apply H. unfold zlen; lia.
Qed.

(** ** Slices *)
Lemma skipn_skipn {A} x y (l : list A) : skipn x (skipn y l) = skipn (x + y) l.
Proof.
  revert x l; induction y as [|y IH]; intros x l; [rewrite Nat.add_0_r; reflexivity|].
  rewrite Nat.add_succ_r. destruct l as [|z l]; [rewrite !skipn_nil; reflexivity|].
  cbn [skipn]. apply IH.
Qed.
Lemma sub_full {A} (l : list A) : sub l 0 (zlen l) = l.
Proof. unfold sub. cbn [skipn Z.to_nat]. apply firstn_all2. unfold zlen; lia. Qed.
Lemma sub_nil {A} (l : list A) a b : b <= a -> sub l a b = [].
Proof. intros H; unfold sub. replace (Z.to_nat (b - a)) with 0%nat by lia. reflexivity. Qed.
Lemma sub_app_split {A} (l : list A) a b c :
  0 <= a -> a <= b -> b <= c -> sub l a c = sub l a b ++ sub l b c.
Proof.
  intros Ha Hb Hc; unfold sub.
  replace (Z.to_nat (c - a)) with (Z.to_nat (b - a) + Z.to_nat (c - b))%nat by lia.
  replace (Z.to_nat b) with (Z.to_nat (b - a) + Z.to_nat a)%nat by lia.
  rewrite <- (skipn_skipn (Z.to_nat (b - a)) (Z.to_nat a) l).
  generalize (skipn (Z.to_nat a) l) as m. intros m.
  generalize (Z.to_nat (b - a)) as p, (Z.to_nat (c - b)) as q. intros p q.
  revert m; induction p as [|p IH]; intros m; [reflexivity|].
  destruct m as [|x m]; [destruct q; reflexivity|].
  cbn [firstn Nat.add skipn app]. f_equal. apply IH.
Qed.
Lemma sub_app_l {A} (a b : list A) i j :
  0 <= i -> j <= zlen a -> sub (a ++ b) i j = sub a i j.
Proof.
  intros Hi Hj; unfold sub, zlen in *.
  destruct (Z.leb_spec j i).
  { replace (Z.to_nat (j - i)) with 0%nat by lia. reflexivity. }
  rewrite skipn_app. rewrite firstn_app.
  rewrite skipn_length.
  replace (Z.to_nat (j - i) - (length a - Z.to_nat i))%nat with 0%nat by lia.
  rewrite firstn_O, app_nil_r. reflexivity.
Qed.
Lemma sub_app_r {A} (a b : list A) i j :
  zlen a <= i -> sub (a ++ b) i j = sub b (i - zlen a) (j - zlen a).
Proof.
  intros Hi; unfold sub, zlen in *. rewrite skipn_app.
  rewrite (skipn_all2 a) by lia. cbn [app].
  f_equal; [lia|]. f_equal. lia.
Qed.
Lemma sub_sub {A} (l : list A) a b c d :
  0 <= a -> 0 <= c -> d <= b - a -> sub (sub l a b) c d = sub l (a + c) (a + d).
Proof.
  intros Ha Hc Hd; unfold sub.
  rewrite skipn_firstn_comm, skipn_skipn, firstn_firstn.
  replace (Z.to_nat c + Z.to_nat a)%nat with (Z.to_nat (a + c)) by lia.
  f_equal. lia.
Qed.
Lemma sub_upd_same {A} (l d : list A) a b :
  0 <= a -> b = a + zlen d -> b <= zlen l -> sub (upd l a d) a b = d.
Proof.
  intros Ha -> Hb. unfold upd.
  assert (Hl : zlen (firstn (Z.to_nat a) l) = a).
  { unfold zlen in *; rewrite firstn_length; lia. }
  rewrite sub_app_r by lia. rewrite Hl.
  replace (a - a) with 0 by lia. replace (a + zlen d - a) with (zlen d) by lia.
  rewrite sub_app_l by lia. apply sub_full.
Qed.
Lemma sub_upd_before {A} (l d : list A) a i j :
  0 <= i -> j <= a -> a + zlen d <= zlen l -> sub (upd l a d) i j = sub l i j.
Proof.
  intros Hi Hj Hl. destruct (Z.leb_spec j i); [rewrite !sub_nil by lia; reflexivity|].
  pose proof (zlen_nonneg d).
  unfold upd.
  assert (Hf : zlen (firstn (Z.to_nat a) l) = a).
  { unfold zlen in *; rewrite firstn_length; lia. }
  rewrite sub_app_l by lia.
  replace (firstn (Z.to_nat a) l) with (sub l 0 a).
  - rewrite sub_sub by lia. reflexivity.
  - unfold sub. rewrite Z.sub_0_r. reflexivity.
Qed.
Lemma sub_upd_after {A} (l d : list A) a i j :
  0 <= a -> a + zlen d <= i -> a + zlen d <= zlen l -> sub (upd l a d) i j = sub l i j.
Proof.
  intros Ha Hi Hl. pose proof (zlen_nonneg d). unfold upd.
  assert (Hf : zlen (firstn (Z.to_nat a) l) = a).
  { unfold zlen in *; rewrite firstn_length; lia. }
  rewrite sub_app_r by lia. rewrite sub_app_r by lia. rewrite Hf.
  unfold sub. rewrite skipn_skipn. f_equal; [lia|]. f_equal. lia.
Qed.
Lemma upd_sub_id {A} (l : list A) a b :
  0 <= a -> a <= b -> b <= zlen l -> upd l a (sub l a b) = l.
Proof.
  intros Ha Hb Hl. unfold upd. rewrite zlen_sub by lia.
  replace (a + (b - a)) with b by lia.
  replace (firstn (Z.to_nat a) l) with (sub l 0 a) by (unfold sub; rewrite Z.sub_0_r; reflexivity).
  replace (skipn (Z.to_nat b) l) with (sub l b (zlen l)).
  - rewrite <- sub_app_split by lia. rewrite <- sub_app_split by lia. apply sub_full.
  - unfold sub. apply firstn_all2. rewrite skipn_length. unfold zlen; lia.
Qed.
Lemma upd_upd_adj {A} (l d1 d2 : list A) a :
  0 <= a -> a + zlen d1 + zlen d2 <= zlen l ->
  upd (upd l a d1) (a + zlen d1) d2 = upd l a (d1 ++ d2).
Proof.
  intros Ha Hl. pose proof (zlen_nonneg d1). pose proof (zlen_nonneg d2).
  destruct l as [|x0 l0].
  { rewrite zlen_nil in Hl. destruct d1; [|rewrite zlen_cons in *; pose proof (zlen_nonneg d1); lia].
    destruct d2; [|rewrite zlen_cons in *; pose proof (zlen_nonneg d2); lia].
    unfold upd. rewrite !skipn_nil, !firstn_nil. cbn [app]. rewrite skipn_nil. reflexivity. }
  apply (znth_ext x0).
  - rewrite !zlen_upd; rewrite ?zlen_app, ?zlen_upd; lia.
  - intros i Hi.
    assert (zlen (upd (x0 :: l0) a d1) = zlen (x0 :: l0)) by (apply zlen_upd; lia).
    assert (zlen (upd (upd (x0 :: l0) a d1) (a + zlen d1) d2) = zlen (x0 :: l0)).
    { rewrite zlen_upd; lia. }
    rewrite znth_upd by lia. rewrite znth_upd by lia. rewrite znth_upd by (rewrite ?zlen_app; lia).
    rewrite zlen_app.
    destruct ((a + zlen d1 <=? i) && (i <? a + zlen d1 + zlen d2)) eqn:E1.
    + replace ((a <=? i) && (i <? a + (zlen d1 + zlen d2))) with true by lia.
      rewrite znth_app by lia. replace (i - a <? zlen d1) with false by lia.
      f_equal; lia.
    + destruct ((a <=? i) && (i <? a + zlen d1)) eqn:E2.
      * replace ((a <=? i) && (i <? a + (zlen d1 + zlen d2))) with true by lia.
        rewrite znth_app by lia. replace (i - a <? zlen d1) with true by lia. reflexivity.
      * replace ((a <=? i) && (i <? a + (zlen d1 + zlen d2))) with false by lia. reflexivity.
Qed.
Lemma upd_nil {A} (l : list A) a : 0 <= a -> a <= zlen l -> upd l a [] = l.
Proof.
  intros Ha Hl; unfold upd. rewrite zlen_nil, Z.add_0_r. cbn [app]. apply firstn_skipn.
Qed.
Lemma sub_single {A} (d : A) l i : 0 <= i < zlen l -> sub l i (i + 1) = [znth d l i].
Proof.
  intros Hi. apply (znth_ext d).
  - rewrite zlen_sub by lia. rewrite zlen_cons, zlen_nil. lia.
  - intros j Hj. rewrite zlen_sub in Hj by lia. rewrite znth_sub by lia.
    replace j with 0 by lia. rewrite Z.add_0_r. reflexivity.
Qed.

(** ** Bytes *)
Lemma bytes_ok_app a b : bytes_ok (a ++ b) <-> bytes_ok a /\ bytes_ok b.
Proof. unfold bytes_ok. apply Forall_app. Qed.
Lemma bytes_ok_znth l i : bytes_ok l -> is_byte (znth 0 l i).
Proof.
  intros Hl. unfold znth. destruct (Nat.ltb_spec (Z.to_nat i) (length l)).
  - unfold bytes_ok in Hl. rewrite Forall_forall in Hl. apply Hl, nth_In. lia.
  - rewrite nth_overflow by lia. unfold is_byte; lia.
Qed.
Lemma Forall_firstn {A} (P : A -> Prop) n l : Forall P l -> Forall P (firstn n l).
Proof. intros H; revert n; induction H; intros [|n]; cbn [firstn]; constructor; auto. Qed.
Lemma Forall_skipn {A} (P : A -> Prop) n l : Forall P l -> Forall P (skipn n l).
Proof. intros H; revert n; induction H; intros [|n]; cbn [skipn]; auto. Qed.
Lemma Forall_sub {A} (P : A -> Prop) l a b : Forall P l -> Forall P (sub l a b).
Proof. intros; unfold sub; apply Forall_firstn, Forall_skipn; assumption. Qed.
Lemma Forall_upd {A} (P : A -> Prop) l a d : Forall P l -> Forall P d -> Forall P (upd l a d).
Proof.
  intros; unfold upd; repeat (apply Forall_app; split); auto using Forall_firstn, Forall_skipn.
Qed.
Lemma bytes_ok_sub l a b : bytes_ok l -> bytes_ok (sub l a b).
Proof. apply Forall_sub. Qed.
Lemma bytes_ok_upd l a d : bytes_ok l -> bytes_ok d -> bytes_ok (upd l a d).
Proof. apply Forall_upd. Qed.
Lemma bytes_ok_zeros n : bytes_ok (zeros n).
Proof.
  unfold zeros, bytes_ok. apply Forall_forall. intros x Hx. apply repeat_spec in Hx.
  subst; unfold is_byte; lia.
Qed.

Lemma beq_eq a b : beq a b = true <-> a = b.
Proof.
  revert b; induction a as [|x a IH]; intros [|y b]; cbn [beq]; split; intro H; try easy.
  - apply andb_true_iff in H as [H1 H2]. apply IH in H2. f_equal; [lia | exact H2].
  - inversion H; subst. apply andb_true_iff; split; [lia | apply IH; reflexivity].
Qed.
Lemma beq_refl a : beq a a = true. Proof. apply beq_eq; reflexivity. Qed.
Lemma beq_neq a b : beq a b = false <-> a <> b.
Proof.
  split; intro H.
  - intros ->. rewrite beq_refl in H; discriminate.
  - destruct (beq a b) eqn:E; [apply beq_eq in E; contradiction | reflexivity].
Qed.
Lemma beq_sym a b : beq a b = beq b a.
Proof.
  destruct (beq a b) eqn:E, (beq b a) eqn:E2; try reflexivity.
  - apply beq_eq in E. subst. rewrite beq_refl in E2; discriminate.
  - apply beq_eq in E2. subst. rewrite beq_refl in E; discriminate.
Qed.

(** ** 16-bit little endian *)
Lemma put16_get16 l a :
  bytes_ok l -> 0 <= a -> a + 2 <= zlen l -> put16 (get16 l a) = sub l a (a + 2).
Proof.
  intros Hl Ha Hb. unfold put16, get16, le16.
  pose proof (bytes_ok_znth l a Hl) as H1. pose proof (bytes_ok_znth l (a + 1) Hl) as H2.
  unfold is_byte in *.
  rewrite (sub_app_split l a (a + 1)) by lia.
  rewrite (sub_single 0) by lia. replace (a + 2) with (a + 1 + 1) by lia.
  rewrite (sub_single 0) by lia. cbn [app].
  f_equal; [lia | f_equal; lia].
Qed.
Lemma zlen_put16 v : zlen (put16 v) = 2. Proof. reflexivity. Qed.
Lemma put16_ok v : is_u16 v -> bytes_ok (put16 v).
Proof. unfold is_u16; intros; repeat constructor; lia. Qed.
Lemma get16_sub l a v : 0 <= a -> sub l a (a + 2) = put16 v -> get16 l a = v.
Proof.
  intros Ha H. unfold get16, le16.
  replace (znth 0 l a) with (znth 0 (sub l a (a + 2)) 0) by (rewrite znth_sub by lia; f_equal; lia).
  replace (znth 0 l (a + 1)) with (znth 0 (sub l a (a + 2)) 1) by (rewrite znth_sub by lia; reflexivity).
  rewrite H. unfold put16. rewrite znth_cons_0, znth_cons_S by lia.
  change (1 - 1) with 0. rewrite znth_cons_0. lia.
Qed.

Global Hint Rewrite @zlen_nil @zlen_cons @zlen_app @zlen_map @zlen_rev @zlen_repeat zlen_put16 : zl.

(** ** Loops *)
Lemma for_app {S I} (l1 l2 : list I) (body : I -> st S unit) s :
  for_ (l1 ++ l2) body s =
    match for_ l1 body s with
    | (s', Ok _) => for_ l2 body s'
    | (s', Err e) => (s', Err e)
    | (s', Panic) => (s', Panic)
    end.
Proof.
  revert s; induction l1 as [|i l1 IH]; intros s; [reflexivity|].
  cbn [app for_]. unfold sbind. destruct (body i s) as [s' [[]|e|]]; auto.
Qed.

(** Loop invariant rule for [for i := 0; i < n; i++]. *)
Lemma for_inv {S} (P : Z -> S -> Prop) n (body : Z -> st S unit) s :
  0 <= n -> P 0 s ->
  (forall i s, 0 <= i < n -> P i s -> exists s', body i s = (s', Ok tt) /\ P (i + 1) s') ->
  exists s', for_ (zrange n) body s = (s', Ok tt) /\ P n s'.
Proof.
  intros Hn H0 Hstep.
  assert (forall k, (k <= Z.to_nat n)%nat ->
            exists s', for_ (zrange (Z.of_nat k)) body s = (s', Ok tt) /\ P (Z.of_nat k) s') as H.
  { induction k as [|k IH]; intros Hk.
    - exists s. split; [reflexivity | exact H0].
    - destruct IH as (s1 & E1 & P1); [lia|].
      replace (Z.of_nat (Datatypes.S k)) with (Z.of_nat k + 1) by lia.
      rewrite zrange_S by lia. rewrite for_app, E1.
      destruct (Hstep (Z.of_nat k) s1) as (s2 & E2 & P2); [lia | exact P1|].
      exists s2. split; [|exact P2]. cbn [for_]. unfold sbind. rewrite E2. reflexivity. }
  specialize (H (Z.to_nat n)). replace (Z.of_nat (Z.to_nat n)) with n in H by lia.
  apply H. lia.
Qed.
