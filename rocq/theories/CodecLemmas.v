(** CodecLemmas.v -- lemmas for struct/byte codecs: filling a fresh buffer left to right
    and cutting a buffer into consecutive pieces. *)
From Verif Require Import GoBase GoLemmas Dos3Model.
From Coq Require Import ZifyBool ZifyNat.
Local Opaque zrange.

Lemma upd_fresh (p d : bytes) n a : zlen p = a -> zlen d <= n ->
  upd (p ++ zeros n) a d = (p ++ d) ++ zeros (n - zlen d).
Proof.
  intros Hp Hd. pose proof (zlen_nonneg p). pose proof (zlen_nonneg d). unfold upd. subst a. unfold zlen in *.
  rewrite firstn_app, Nat2Z.id, Nat.sub_diag, firstn_O, app_nil_r, firstn_all.
  rewrite skipn_app, skipn_all2 by lia. cbn [app]. rewrite <- app_assoc. do 2 f_equal.
  replace (Z.to_nat (Z.of_nat (length p) + Z.of_nat (length d)) - length p)%nat with (length d) by lia.
  unfold zeros. replace (Z.to_nat n) with (length d + Z.to_nat (n - Z.of_nat (length d)))%nat by lia.
  rewrite repeat_app, skipn_app, skipn_all2 by (rewrite repeat_length; lia). rewrite repeat_length, Nat.sub_diag. reflexivity.
Qed.
Lemma zset_fresh (p : bytes) v n a : zlen p = a -> 1 <= n -> zset (p ++ zeros n) a v = (p ++ [v]) ++ zeros (n - 1).
Proof. intros Hp Hn. unfold zset. rewrite upd_fresh by (rewrite ?zlen_cons, ?(@zlen_nil Z); lia). reflexivity. Qed.
Lemma copyInto_fresh (p d : bytes) n a b : zlen p = a -> zlen d = b - a -> b - a <= n ->
  copyInto (p ++ zeros n) a b d = Ok ((p ++ d) ++ zeros (n - (b - a))).
Proof.
  intros Hp Hd Hn. unfold copyInto. rewrite Hd, Z.eqb_refl. rewrite upd_fresh by lia. rewrite Hd. reflexivity.
Qed.
Lemma zlen_concat (l : list bytes) w : Forall (fun m => zlen m = w) l -> zlen (concat l) = w * zlen l.
Proof.
  induction 1 as [|m l Hm Hl IH]; cbn [concat]; [unfold zlen; cbn [length]; lia|]. rewrite zlen_app, zlen_cons, IH. lia.
Qed.
Lemma copyEach_fresh start w items : forall i (p : bytes) n, Forall (fun m => zlen m = w) items -> 0 <= w ->
  zlen p = start + w * i -> w * zlen items <= n ->
  copyEach start w i items (p ++ zeros n) = Ok ((p ++ concat items) ++ zeros (n - w * zlen items)).
Proof.
  induction items as [|m items IH]; intros i p n Hi Hw Hp Hn; cbn [copyEach concat].
  - rewrite app_nil_r. do 3 f_equal. unfold zlen; cbn [length]; lia.
  - inversion Hi as [|? ? Hm Hi']; subst. rewrite zlen_cons in Hn. pose proof (zlen_nonneg items).
    rewrite copyInto_fresh by nia. cbn [rbind]. rewrite IH; [|exact Hi' | lia | rewrite zlen_app; lia | nia].
    rewrite app_assoc, zlen_cons. do 3 f_equal. lia.
Qed.

(** Cutting. *)
Lemma app_inj_len {A} (a a' b b' : list A) : zlen a = zlen a' -> a ++ b = a' ++ b' -> a = a' /\ b = b'.
Proof.
  unfold zlen. revert a'. induction a as [|x a IH]; intros [|y a'] Hl H; cbn [length] in Hl; try lia; [auto|].
  cbn [app] in H. inversion H; subst. destruct (IH a') as [-> ->]; [lia | assumption | auto].
Qed.
Lemma concat_inj_len (l l' : list bytes) w : 0 < w -> Forall (fun m => zlen m = w) l -> Forall (fun m => zlen m = w) l' ->
  concat l = concat l' -> l = l'.
Proof.
  intros Hw H. revert l'. induction H as [|m l Hm Hl IH]; intros l' H'; destruct H' as [|m' l' Hm' Hl']; cbn [concat]; intros E.
  - reflexivity.
  - apply (f_equal zlen) in E. rewrite zlen_app, zlen_nil in E. pose proof (zlen_nonneg (concat l')). lia.
  - apply (f_equal zlen) in E. rewrite zlen_app, zlen_nil in E. pose proof (zlen_nonneg (concat l)). lia.
  - apply app_inj_len in E as [-> E]; [|lia]. f_equal. apply IH; assumption.
Qed.
Lemma concat_subs (b : bytes) start w n : 0 <= start -> 0 <= w -> 0 <= n -> start + w * n <= zlen b ->
  concat (map (fun i => sub b (start + w * i) (start + w * i + w)) (zrange n)) = sub b start (start + w * n).
Proof.
  intros Hs Hw Hn. revert n Hn. apply (natlike_ind (fun n => start + w * n <= zlen b ->
    concat (map (fun i => sub b (start + w * i) (start + w * i + w)) (zrange n)) = sub b start (start + w * n))).
  - intros _. rewrite zrange_nonpos by lia. cbn. symmetry. apply sub_nil. lia.
  - intros n Hn IH Hb. replace (Z.succ n) with (n + 1) in * by lia. rewrite zrange_S by lia. rewrite map_app, concat_app, IH by nia.
    cbn [map concat]. rewrite app_nil_r. replace (start + w * (n + 1)) with (start + w * n + w) by lia.
    symmetry; apply sub_app_split; nia.
Qed.
Lemma Forall_subs (b : bytes) start w n : 0 <= start -> 0 <= w -> start + w * n <= zlen b ->
  Forall (fun m => zlen m = w) (map (fun i => sub b (start + w * i) (start + w * i + w)) (zrange n)).
Proof.
  intros Hs Hw Hb. apply Forall_map, Forall_forall. intros i Hi. apply In_zrange in Hi. rewrite zlen_sub by nia. lia.
Qed.
Lemma sub_znth (l : bytes) i : 0 <= i < zlen l -> [znth 0 l i] = sub l i (i + 1).
Proof. intros H. symmetry. apply sub_single. exact H. Qed.
Lemma app_single_inj {A} (x y : A) a b : [x] ++ a = [y] ++ b -> x = y /\ a = b.
Proof. cbn. intros H; inversion H; auto. Qed.
Lemma put16_inj x y : is_u16 x -> is_u16 y -> put16 x = put16 y -> x = y.
Proof. unfold put16, is_u16. intros Hx Hy E. inversion E. pose proof (Z.div_mod x 256). pose proof (Z.div_mod y 256). lia. Qed.
Lemma znth_in_concat (l : list bytes) w i j : Forall (fun m => zlen m = w) l -> 0 <= i < zlen l -> 0 <= j < w ->
  znth 0 (concat l) (w * i + j) = znth 0 (znth [] l i) j.
Proof.
  intros H. revert i. induction H as [|m l Hm Hl IH]; intros i Hi Hj; [unfold zlen in Hi; cbn [length] in Hi; lia|].
  cbn [concat]. rewrite zlen_cons in Hi. rewrite znth_app by nia. rewrite Hm. destruct (Z.eq_dec i 0) as [->|Hi0].
  - replace (w * 0 + j) with j by lia. replace (j <? w) with true by lia. reflexivity.
  - replace (w * i + j <? w) with false by nia. rewrite znth_cons_S by lia. rewrite <- IH by lia. f_equal. lia.
Qed.
Lemma get16_u16 b a : bytes_ok b -> is_u16 (get16 b a).
Proof.
  intros Hb. pose proof (bytes_ok_znth b a Hb). pose proof (bytes_ok_znth b (a + 1) Hb).
  unfold get16, le16, is_u16, is_byte in *. lia.
Qed.
