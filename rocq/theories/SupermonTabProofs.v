(** SupermonTabProofs.v -- AddSymbol and DeleteSymbol as operations on a map. *)
From Verif Require Import GoBase GoLemmas DiskModel TypesModel
  SupermonModel SupermonSpec SupermonTableSpec SupermonProofs SupermonSymProofs.
From Coq Require Import ZifyBool ZifyNat Permutation.
Ltac Zify.zify_post_hook ::= Z.div_mod_to_equations.
Local Opaque zrange.

Lemma equal_fold_refl a : equal_fold a a = true. Proof. apply beq_refl. Qed.
Lemma equal_fold_sym a b : equal_fold a b = equal_fold b a. Proof. apply beq_sym. Qed.
Lemma equal_fold_trans a b c : equal_fold a b = true -> equal_fold b c = equal_fold a c.
Proof. unfold equal_fold. intros H. apply beq_eq in H. rewrite H. reflexivity. Qed.
Lemma equal_fold_join a b c : equal_fold a c = true -> equal_fold b c = true -> equal_fold a b = true.
Proof. unfold equal_fold. intros H1 H2. apply beq_eq in H1, H2. rewrite H1, H2. apply beq_refl. Qed.
Lemma fold_case_nil a : fold_case a = [] -> a = [].
Proof.
  destruct a as [|c [|c2 [|c3 a]]]; cbn [fold_case]; try easy.
  - destruct ((c =? 197) && (c2 =? 191)); discriminate.
  - destruct ((c =? 197) && (c2 =? 191)); [discriminate|].
    destruct ((c =? 226) && (c2 =? 132) && (c3 =? 170)); discriminate.
Qed.
Lemma equal_fold_nil a : equal_fold a [] = true -> a = [].
Proof. unfold equal_fold. intros H. apply beq_eq in H. apply fold_case_nil, H. Qed.
Lemma equal_fold_nonnil a b : equal_fold a b = true -> a <> [] -> b <> [].
Proof. intros H Ha ->. apply equal_fold_nil in H. contradiction. Qed.

(** ** Tables up to links *)
Definition key (s : Symbol) : Z * bytes := (s_addr s, s_name s).
Lemma keys_nth t t' : map key t = map key t' -> zlen t = zlen t' /\ forall i, nm t i = nm t' i /\ ad t i = ad t' i.
Proof.
  intros H. split.
  - rewrite <- (zlen_map key t), H. apply zlen_map.
  - intros i. assert (key (znth sym0 t i) = key (znth sym0 t' i)) as Hk.
    { unfold znth. rewrite <- !(map_nth key). rewrite H. reflexivity. }
    unfold key in Hk. inversion Hk. split; assumption.
Qed.
Lemma keys_unused t t' : map key t = map key t' -> unused t = unused t'.
Proof.
  revert t'. unfold unused. induction t as [|s t IH]; intros [|s' t'] H; try discriminate; [reflexivity|].
  cbn [map] in H. inversion H as [[H1 H2 H3]]. cbn [filter]. rewrite H1. specialize (IH t' H3).
  destruct (s_addr s' =? 0); rewrite ?zlen_cons, IH; reflexivity.
Qed.
Lemma unlink_keys t : forall j i l, map key (unlink t j i l) = map key t.
Proof.
  induction t as [|s t IH]; intros j i l; [reflexivity|]. cbn [unlink].
  destruct (i =? j); [cbn [map]; rewrite IH; reflexivity|].
  destruct (s_link s =? i); [reflexivity | cbn [map]; rewrite IH; reflexivity].
Qed.
Lemma link_end_keys t h p : map key (link_end t h p) = map key t.
Proof.
  induction t as [|s t IH]; [reflexivity|]. cbn [link_end].
  destruct (_ && _); [reflexivity | cbn [map]; rewrite IH; reflexivity].
Qed.

(** ** Scans *)
Lemma find_name_spec t n : forall i0,
  match find_name t n i0 with
  | Some i => i0 <= i < i0 + zlen t /\ equal_fold n (nm t (i - i0)) = true /\
              (forall j, 0 <= j < i - i0 -> equal_fold n (nm t j) = false)
  | None => forall j, 0 <= j < zlen t -> equal_fold n (nm t j) = false
  end.
Proof.
  induction t as [|s t IH]; intros i0; cbn [find_name].
  - intros j Hj. rewrite (@zlen_nil Symbol) in Hj. lia.
  - rewrite zlen_cons. pose proof (zlen_nonneg t). destruct (equal_fold n (s_name s)) eqn:E.
    + split; [lia|]. replace (i0 - i0) with 0 by lia. split; [exact E | intros; lia].
    + specialize (IH (i0 + 1)). destruct (find_name t n (i0 + 1)) as [i|].
      * destruct IH as (H1 & H2 & H3). split; [lia|]. unfold nm in *.
        rewrite znth_cons_S by lia. replace (i - i0 - 1) with (i - (i0 + 1)) by lia. split; [exact H2|].
        intros j Hj. destruct (Z.eq_dec j 0) as [->|]; [exact E|]. rewrite znth_cons_S by lia. apply H3. lia.
      * intros j Hj. destruct (Z.eq_dec j 0) as [->|]; [exact E|]. unfold nm in *. rewrite znth_cons_S by lia. apply IH. lia.
Qed.
Lemma ByName_find t n : forall i0,
  ByName t n = match find_name t n i0 with Some i => ad t (i - i0) | None => 0 end.
Proof.
  induction t as [|s t IH]; intros i0; [reflexivity|]. cbn [ByName find_name].
  destruct (equal_fold n (s_name s)) eqn:E; [replace (i0 - i0) with 0 by lia; reflexivity|].
  rewrite (IH (i0 + 1)). pose proof (find_name_spec t n (i0 + 1)) as H.
  destruct (find_name t n (i0 + 1)) as [i|]; [|reflexivity]. unfold ad.
  rewrite znth_cons_S by lia. f_equal. f_equal. lia.
Qed.
Lemma add_scan_spec t n h : forall j pos,
  -1 <= pos < j ->
  match find_name t n j with
  | Some i => add_scan t j pos n h = (if addrHash (ad t (i - j)) =? h then AddUpdate i else AddReplace i)
  | None =>
      exists p, add_scan t j pos n h = AddAt p /\
        ((pos <> -1 /\ p = pos) \/
         (pos = -1 /\ j <= p < j + zlen t /\ ad t (p - j) = 0) \/
         (pos = -1 /\ p = -1 /\ forall k, 0 <= k < zlen t -> ad t k <> 0))
  end.
Proof.
  induction t as [|s t IH]; intros j pos Hpos; cbn [find_name add_scan].
  - exists pos. split; [reflexivity|]. destruct (Z.eq_dec pos (-1)); [right; right | left; auto].
    split; [assumption|]. split; [assumption|]. intros k Hk. rewrite (@zlen_nil Symbol) in Hk. lia.
  - rewrite zlen_cons. pose proof (zlen_nonneg t). destruct (equal_fold n (s_name s)) eqn:E.
    + replace (j - j) with 0 by lia. unfold ad. rewrite znth_cons_0. reflexivity.
    + set (pos' := if (pos =? -1) && (s_addr s =? 0) then j else pos).
      specialize (IH (j + 1) pos' ltac:(unfold pos'; destruct (_ && _); lia)).
      pose proof (find_name_spec t n (j + 1)) as Hf.
      destruct (find_name t n (j + 1)) as [i|].
      * rewrite IH. unfold ad. rewrite znth_cons_S by lia. replace (i - j - 1) with (i - (j + 1)) by lia. reflexivity.
      * destruct IH as (p & Ep & Hp). exists p. split; [exact Ep|]. unfold pos' in Hp.
        destruct ((pos =? -1) && (s_addr s =? 0)) eqn:Eb.
        -- destruct Hp as [(_ & ->)|[(? & _)|(? & _)]]; [|lia|lia].
           right; left. split; [lia|]. split; [lia|]. replace (j - j) with 0 by lia. unfold ad. rewrite znth_cons_0. lia.
        -- destruct Hp as [(? & ->)|[(? & ? & ?)|(? & ? & H3)]].
           ++ left; auto.
           ++ right; left. split; [lia|]. split; [lia|]. unfold ad in *. rewrite znth_cons_S by lia.
              replace (p - j - 1) with (p - (j + 1)) by lia. assumption.
           ++ right; right. split; [lia|]. split; [lia|]. intros k Hk. unfold ad in *.
              destruct (Z.eq_dec k 0) as [->|]; [rewrite znth_cons_0; lia|]. rewrite znth_cons_S by lia. apply H3. lia.
Qed.

(** ** One-entry changes *)
Definition changed_at (t t' : list Symbol) (p : Z) (a : Z) (n : bytes) : Prop :=
  zlen t' = zlen t /\ 0 <= p < zlen t /\ ad t' p = a /\ nm t' p = n /\
  forall q, 0 <= q -> q <> p -> ad t' q = ad t q /\ nm t' q = nm t q.
Lemma zset_changed t u p s : map key u = map key t -> 0 <= p < zlen t ->
  changed_at t (zset u p s) p (s_addr s) (s_name s).
Proof.
  intros Hk Hp. destruct (keys_nth _ _ Hk) as [Hl Hn].
  unfold changed_at. rewrite zlen_zset by lia. split; [exact Hl|]. split; [exact Hp|].
  unfold ad, nm in *. rewrite znth_zset by lia. rewrite Z.eqb_refl. split; [reflexivity|]. split; [reflexivity|].
  intros q Hq Hne. rewrite znth_zset by lia. replace (q =? p) with false by lia.
  destruct (Hn q) as [H1 H2]. auto.
Qed.
Definition b2z (b : bool) : Z := if b then 1 else 0.
Lemma unused_zset t p s : 0 <= p < zlen t ->
  unused (zset t p s) = unused t - b2z (ad t p =? 0) + b2z (s_addr s =? 0).
Proof.
  intros Hp. unfold zset, upd. rewrite zlen_cons, zlen_nil.
  replace (Z.to_nat (p + (1 + 0))) with (S (Z.to_nat p)) by lia.
  unfold ad, znth. assert (Z.to_nat p < length t)%nat as Hk by (unfold zlen in Hp; lia).
  revert Hk. generalize (Z.to_nat p). clear Hp p. intros k Hk. unfold unused.
  revert k Hk. induction t as [|x t IH]; intros k Hk; [cbn in Hk; lia|].
  destruct k as [|k].
  - cbn [firstn skipn filter nth app]. destruct (s_addr x =? 0), (s_addr s =? 0); cbn [b2z]; rewrite ?zlen_cons, ?zlen_nil; lia.
  - cbn [length] in Hk. specialize (IH k ltac:(lia)). cbn [firstn skipn filter nth app] in *.
    destruct (s_addr x =? 0); rewrite ?zlen_cons; lia.
Qed.
Lemma unused_ex t : unused t = 0 <-> forall k, 0 <= k < zlen t -> ad t k <> 0.
Proof.
  unfold unused. split.
  - intros H k Hk H0. apply zlen_zero_nil in H.
    assert (In (znth sym0 t k) (filter (fun s => s_addr s =? 0) t)) as Hin.
    { apply filter_In. split; [apply znth_In; lia | unfold ad in H0; lia]. }
    rewrite H in Hin. destruct Hin.
  - intros H. destruct (filter _ t) as [|s l] eqn:E; [reflexivity|].
    assert (In s (filter (fun s => s_addr s =? 0) t)) as Hin by (rewrite E; left; reflexivity).
    apply filter_In in Hin as [Hin H0]. apply (In_znth sym0) in Hin as (k & Hk & <-).
    specialize (H k Hk). unfold ad in H. lia.
Qed.

Lemma ByName_uniq t n p : map_table t -> n <> [] -> 0 <= p < zlen t -> equal_fold n (nm t p) = true ->
  ByName t n = ad t p.
Proof.
  intros [Hu _] Hn Hp E. rewrite (ByName_find t n 0). pose proof (find_name_spec t n 0) as Hf.
  destruct (find_name t n 0) as [i|]; [|rewrite Hf in E by lia; discriminate].
  rewrite Z.sub_0_r in *. destruct Hf as (H1 & H2 & H3). f_equal.
  apply Hu; [lia | lia | apply (equal_fold_nonnil n); assumption|].
  rewrite <- E. rewrite equal_fold_sym in H2. symmetry. rewrite (equal_fold_trans _ _ _ H2). reflexivity.
Qed.
Lemma ByName_absent t n : (forall j, 0 <= j < zlen t -> equal_fold n (nm t j) = false) -> ByName t n = 0.
Proof.
  intros H. rewrite (ByName_find t n 0). pose proof (find_name_spec t n 0) as Hf.
  destruct (find_name t n 0) as [i|]; [|reflexivity]. rewrite Z.sub_0_r in *. rewrite H in Hf by lia. destruct Hf as (_ & Hf & _). discriminate.
Qed.
Lemma ByName_0 t n : map_table t -> n <> [] ->
  (ByName t n = 0 <-> forall j, 0 <= j < zlen t -> equal_fold n (nm t j) = false).
Proof.
  intros Ht Hn. split; [|apply ByName_absent].
  intros H0 j Hj. destruct (equal_fold n (nm t j)) eqn:E; [exfalso|reflexivity].
  rewrite (ByName_uniq t n j Ht Hn Hj E) in H0. destruct Ht as [_ Hb].
  apply Hb in H0; [|exact Hj]. rewrite H0 in E. apply equal_fold_nil in E. contradiction.
Qed.

(** The effect of writing (a, n') at a place that held n or was unused and n absent. *)
Lemma changed_set t t' p a n n' : map_table t -> changed_at t t' p a n' -> a <> 0 -> n <> [] ->
  equal_fold n n' = true ->
  (equal_fold n (nm t p) = true \/ (ad t p = 0 /\ forall j, 0 <= j < zlen t -> equal_fold n (nm t j) = false)) ->
  map_table t' /\ ByName t' n = a /\
  forall m, m <> [] -> equal_fold m n = false -> ByName t' m = ByName t m.
Proof.
  intros Ht (Hl & Hp & Ha & Hn' & Hq) Ha0 Hn En Hwas.
  assert (forall q, 0 <= q < zlen t -> q <> p -> equal_fold n (nm t q) = false) as Hother.
  { intros q Hq' Hne. destruct Hwas as [Hw|[_ Hw]]; [|apply Hw; exact Hq'].
    destruct (equal_fold n (nm t q)) eqn:E; [exfalso|reflexivity]. apply Hne.
    destruct Ht as [Hu _]. symmetry. apply Hu; [lia | lia | apply (equal_fold_nonnil n); assumption|].
    rewrite equal_fold_sym in Hw. rewrite <- (equal_fold_trans _ _ _ Hw). exact E. }
  assert (map_table t') as Ht'.
  { split.
    - intros i j Hi Hj Hne E. rewrite Hl in *.
      destruct (Z.eq_dec i p) as [->|Hip], (Z.eq_dec j p) as [->|Hjp]; [reflexivity| | |].
      + rewrite Hn' in E. destruct (Hq j) as [_ H2]; [lia | exact Hjp|]. rewrite H2 in E.
        rewrite (equal_fold_trans _ _ _ En) in E. rewrite Hother in E by lia. discriminate.
      + rewrite Hn' in E. destruct (Hq i) as [_ H2]; [lia | exact Hip|]. rewrite H2 in E.
        rewrite equal_fold_sym in E. rewrite (equal_fold_trans _ _ _ En) in E. rewrite Hother in E by lia. discriminate.
      + destruct (Hq i) as [_ H2]; [lia | exact Hip|]. destruct (Hq j) as [_ H3]; [lia | exact Hjp|].
        rewrite H2, H3 in *. destruct Ht as [Hu _]. apply Hu; auto.
    - intros i Hi H0. rewrite Hl in Hi. destruct (Z.eq_dec i p) as [->|Hip]; [lia|].
      destruct (Hq i) as [H1 H2]; [lia | exact Hip|]. rewrite H1 in H0. rewrite H2. destruct Ht as [_ Hb]. apply Hb; auto. }
  split; [exact Ht'|]. split.
  - rewrite <- Ha. apply ByName_uniq; auto; [lia|]. rewrite Hn'. exact En.
  - intros m Hm Hmn.
    assert (equal_fold m n' = false) as Hmn'.
    { destruct (equal_fold m n') eqn:E; [|reflexivity]. rewrite equal_fold_sym in En.
      pose proof (equal_fold_trans m n' n E) as HH. congruence. }
    destruct (Z.eq_dec (ByName t m) 0) as [E0|E0].
    + rewrite E0. apply ByName_absent. intros j Hj. rewrite Hl in Hj.
      destruct (Z.eq_dec j p) as [->|Hjp]; [rewrite Hn'; exact Hmn'|].
      destruct (Hq j) as [_ ->]; [lia | exact Hjp|]. exact (proj1 (ByName_0 t m Ht Hm) E0 j Hj).
    + pose proof (find_name_spec t m 0) as Hf. rewrite (ByName_find t m 0) in *.
      destruct (find_name t m 0) as [i|]; [|congruence]. rewrite Z.sub_0_r in *. destruct Hf as (H1 & H2 & _).
      assert (i <> p) as Hip.
      { intros ->. destruct Hwas as [Hw|[Hw _]]; [|contradiction].
        rewrite (equal_fold_join m n (nm t p)) in Hmn by assumption. discriminate. }
      destruct (Hq i) as [H3 H4]; [lia | exact Hip|]. rewrite <- H3. apply ByName_uniq; auto; [lia|]. rewrite H4. exact H2.
Qed.
Lemma changed_clear t t' p n : map_table t -> changed_at t t' p 0 [] -> n <> [] ->
  equal_fold n (nm t p) = true ->
  map_table t' /\ ByName t' n = 0 /\ (forall j, 0 <= j < zlen t' -> equal_fold n (nm t' j) = false) /\
  forall m, m <> [] -> equal_fold m n = false -> ByName t' m = ByName t m.
Proof.
  intros Ht (Hl & Hp & Ha & Hn' & Hq) Hn Hw.
  assert (forall q, 0 <= q < zlen t -> q <> p -> equal_fold n (nm t q) = false) as Hother.
  { intros q Hq' Hne. destruct (equal_fold n (nm t q)) eqn:E; [exfalso|reflexivity]. apply Hne.
    destruct Ht as [Hu _]. symmetry. apply Hu; [lia | lia | apply (equal_fold_nonnil n); assumption|].
    rewrite equal_fold_sym in Hw. rewrite <- (equal_fold_trans _ _ _ Hw). exact E. }
  assert (map_table t') as Ht'.
  { split.
    - intros i j Hi Hj Hne E. rewrite Hl in *.
      destruct (Z.eq_dec i p) as [->|Hip]; [congruence|].
      destruct (Z.eq_dec j p) as [->|Hjp]; [rewrite Hn' in E; apply equal_fold_nil in E; contradiction|].
      destruct (Hq i) as [_ H2]; [lia | exact Hip|]. destruct (Hq j) as [_ H3]; [lia | exact Hjp|].
      rewrite H2, H3 in *. destruct Ht as [Hu _]. apply Hu; auto.
    - intros i Hi H0. rewrite Hl in Hi. destruct (Z.eq_dec i p) as [->|Hip]; [exact Hn'|].
      destruct (Hq i) as [H1 H2]; [lia | exact Hip|]. rewrite H1 in H0. rewrite H2. destruct Ht as [_ Hb]. apply Hb; auto. }
  assert (forall j, 0 <= j < zlen t' -> equal_fold n (nm t' j) = false) as Habs.
  { intros j Hj. rewrite Hl in Hj. destruct (Z.eq_dec j p) as [->|Hjp].
    - rewrite Hn'. destruct (equal_fold n []) eqn:E; [apply equal_fold_nil in E; contradiction | reflexivity].
    - destruct (Hq j) as [_ ->]; [lia | exact Hjp|]. apply Hother; auto. }
  split; [exact Ht'|]. split; [apply ByName_absent; exact Habs|]. split; [exact Habs|].
  intros m Hm Hmn. destruct (Z.eq_dec (ByName t m) 0) as [E0|E0].
  + rewrite E0. apply ByName_absent. intros j Hj. rewrite Hl in Hj.
    destruct (Z.eq_dec j p) as [->|Hjp].
    * rewrite Hn'. destruct (equal_fold m []) eqn:E; [apply equal_fold_nil in E; contradiction | reflexivity].
    * destruct (Hq j) as [_ ->]; [lia | exact Hjp|]. exact (proj1 (ByName_0 t m Ht Hm) E0 j Hj).
  + pose proof (find_name_spec t m 0) as Hf. rewrite (ByName_find t m 0) in *.
    destruct (find_name t m 0) as [i|]; [|congruence]. rewrite Z.sub_0_r in *. destruct Hf as (H1 & H2 & _).
    assert (i <> p) as Hip.
    { intros ->. rewrite (equal_fold_join m n (nm t p)) in Hmn by assumption. discriminate. }
    destruct (Hq i) as [H3 H4]; [lia | exact Hip|]. rewrite <- H3. apply ByName_uniq; auto; [lia|]. rewrite H4. exact H2.
Qed.

(** ** DeleteSymbol *)
Lemma DeleteSymbol_spec t n :
  match find_name t n 0 with
  | Some i => exists t', DeleteSymbol t n = (t', true) /\ changed_at t t' i 0 [] /\
      unused t' = unused t - b2z (ad t i =? 0) + 1
  | None => DeleteSymbol t n = (t, false)
  end.
Proof.
  unfold DeleteSymbol. pose proof (find_name_spec t n 0) as Hf. destruct (find_name t n 0) as [i|]; [|reflexivity].
  rewrite Z.sub_0_r in Hf. destruct Hf as (H1 & H2 & _).
  set (u := unlink t 0 i _). assert (map key u = map key t) as Hk by apply unlink_keys.
  destruct (keys_nth _ _ Hk) as [Hl Hn].
  eexists. split; [reflexivity|]. split; [apply (zset_changed t u i); [exact Hk | lia]|].
  rewrite unused_zset by lia. rewrite (keys_unused _ _ Hk). destruct (Hn i) as [_ ->]. reflexivity.
Qed.
Lemma zlen_DeleteSymbol t n : zlen (fst (DeleteSymbol t n)) = zlen t.
Proof.
  pose proof (DeleteSymbol_spec t n) as H. destruct (find_name t n 0).
  - destruct H as (t' & -> & (H & _) & _). exact H.
  - rewrite H. reflexivity.
Qed.

Lemma DeleteSymbol_map t n : map_table t -> n <> [] ->
  exists t', DeleteSymbol t n = (t', negb (ByName t n =? 0)) /\ map_table t' /\ zlen t' = zlen t /\
    ByName t' n = 0 /\ (forall m, m <> [] -> equal_fold m n = false -> ByName t' m = ByName t m) /\
    unused t' = unused t + b2z (negb (ByName t n =? 0)).
Proof.
  intros Ht Hn. pose proof (DeleteSymbol_spec t n) as H. pose proof (find_name_spec t n 0) as Hf.
  destruct (find_name t n 0) as [i|].
  - rewrite Z.sub_0_r in Hf. destruct Hf as (H1 & H2 & _). destruct H as (t' & E & Hc & Hu).
    destruct (changed_clear t t' i n Ht Hc Hn H2) as (Ht' & B0 & _ & Hm).
    assert (ByName t n = ad t i) as Eb by (apply ByName_uniq; auto; lia).
    assert (ad t i <> 0) as Hi0.
    { intros H0. destruct Ht as [_ Hb]. apply Hb in H0; [|lia]. rewrite H0 in H2. apply equal_fold_nil in H2. contradiction. }
    rewrite Eb. replace (ad t i =? 0) with false in * by lia. exists t'. cbn [b2z negb] in *.
    split; [exact E|]. split; [exact Ht'|]. split; [apply Hc|]. split; [exact B0|]. split; [exact Hm | lia].
  - assert (ByName t n = 0) as E0 by (apply ByName_absent; exact Hf).
    exists t. rewrite E0. cbn [negb b2z Z.eqb]. rewrite Z.add_0_r. repeat (split; auto).
Qed.

(** ** AddSymbol *)
Lemma AddSymbol_changed t n a t' : AddSymbol t n a = (t', Ok tt) ->
  a <> 0 /\ exists p n', changed_at t t' p a n' /\ equal_fold n n' = true /\
    ((equal_fold n (nm t p) = true /\ (forall j, 0 <= j < p -> equal_fold n (nm t j) = false) /\
        unused t' = unused t - b2z (ad t p =? 0)) \/
     (ad t p = 0 /\ (forall j, 0 <= j < zlen t -> equal_fold n (nm t j) = false) /\ unused t' = unused t - 1)).
Proof.
  unfold AddSymbol. destruct (Z.eqb_spec a 0) as [|Ha]; [discriminate|]. intros E. split; [exact Ha|].
  pose proof (add_scan_spec t n (addrHash a) 0 (-1) ltac:(lia)) as Hs.
  pose proof (find_name_spec t n 0) as Hf.
  pose proof (DeleteSymbol_spec t n) as Hd.
  destruct (find_name t n 0) as [i|].
  - rewrite Z.sub_0_r in *. destruct Hf as (H1 & H2 & H3). rewrite Hs in E.
    destruct (addrHash (ad t i) =? addrHash a).
    + inversion E; subst. exists i, (nm t i).
      split; [apply (zset_changed t t i); [reflexivity | lia]|]. split; [exact H2|]. left.
      split; [exact H2|]. split; [exact H3|]. rewrite unused_zset by lia. cbn [set_addr s_addr].
      replace (a =? 0) with false by lia. cbn [b2z]. lia.
    + destruct Hd as (u & Eu & Hc & Huu). rewrite Eu in E. cbn [fst] in E. unfold add_at in E.
      replace (i =? -1) with false in E by lia. inversion E; subst. clear E.
      set (v := link_end u (addrHash a) i). assert (map key v = map key u) as Hk by apply link_end_keys.
      destruct (keys_nth _ _ Hk) as [Hlv Hnv]. destruct Hc as (Hl & Hp & Ha0 & Hn0 & Hq).
      destruct (zset_changed u v i (Sym a n (-1)) Hk ltac:(lia)) as (G1 & G2 & G3 & G4 & G5).
      exists i, n. split; [|split; [apply equal_fold_refl|]].
      * split; [lia|]. split; [lia|]. split; [exact G3|]. split; [exact G4|].
        intros q H H0. destruct (G5 q H H0) as [E1 E2]. destruct (Hq q H H0) as [E3 E4].
        split; [exact (eq_trans E1 E3) | exact (eq_trans E2 E4)].
      * left. split; [exact H2|]. split; [exact H3|]. rewrite unused_zset by lia. cbn [s_addr].
        replace (a =? 0) with false by lia. rewrite (keys_unused _ _ Hk). destruct (Hnv i) as [_ ->].
        rewrite Ha0, Huu. cbn [b2z Z.eqb]. lia.
  - destruct Hs as (p & Es & Hp). rewrite Es in E. unfold add_at in E. destruct (Z.eqb_spec p (-1)); [discriminate|].
    destruct Hp as [(H & _)|[(_ & Hp & H0)|(_ & ? & _)]]; [lia| |lia]. rewrite Z.sub_0_r in *.
    inversion E; subst. clear E. set (v := link_end t (addrHash a) p).
    assert (map key v = map key t) as Hk by apply link_end_keys. destruct (keys_nth _ _ Hk) as [Hlv Hnv].
    exists p, n. split; [apply (zset_changed t v p (Sym a n (-1))); [exact Hk | lia]|]. split; [apply equal_fold_refl|].
    right. split; [exact H0|]. split; [exact Hf|]. rewrite unused_zset by lia. cbn [s_addr].
    replace (a =? 0) with false by lia. rewrite (keys_unused _ _ Hk). destruct (Hnv p) as [_ ->]. rewrite H0. cbn [b2z Z.eqb]. lia.
Qed.
Lemma AddSymbol_fail t n a t' r : AddSymbol t n a = (t', r) -> r <> Ok tt ->
  t' = t /\ (exists e, r = Err e) /\
  (a = 0 \/ ((forall j, 0 <= j < zlen t -> equal_fold n (nm t j) = false) /\ unused t = 0)).
Proof.
  unfold AddSymbol. destruct (Z.eqb_spec a 0) as [|Ha].
  { intros E _. inversion E; subst. split; [reflexivity|]. split; [eexists; reflexivity | left; reflexivity]. }
  intros E Hr.
  pose proof (add_scan_spec t n (addrHash a) 0 (-1) ltac:(lia)) as Hs.
  pose proof (find_name_spec t n 0) as Hf.
  destruct (find_name t n 0) as [i|].
  - rewrite Z.sub_0_r in *. rewrite Hs in E. exfalso. apply Hr. destruct (_ =? _).
    + inversion E; reflexivity.
    + unfold add_at in E. replace (i =? -1) with false in E by lia. inversion E; reflexivity.
  - destruct Hs as (p & Es & Hp). rewrite Es in E. unfold add_at in E. destruct (Z.eqb_spec p (-1)) as [Ep|]; [|inversion E; subst; contradiction].
    destruct Hp as [(H & _)|[(_ & Hp & H0)|(_ & _ & H3)]]; [contradiction (H eq_refl)|lia|].
    inversion E; subst. split; [reflexivity|]. split; [eexists; reflexivity|]. right. split; [exact Hf|].
    apply unused_ex. exact H3.
Qed.
Lemma zlen_AddSymbol t n a : zlen (fst (AddSymbol t n a)) = zlen t.
Proof.
  destruct (AddSymbol t n a) as [t' r] eqn:E. cbn [fst]. destruct r as [[]|e|].
  - apply AddSymbol_changed in E as (_ & p & n' & (H & _) & _). exact H.
  - apply AddSymbol_fail in E as (-> & _); [reflexivity | discriminate].
  - apply AddSymbol_fail in E as (-> & _); [reflexivity | discriminate].
Qed.

Lemma AddSymbol_map t n a : map_table t -> n <> [] ->
  exists t' r, AddSymbol t n a = (t', r) /\ map_table t' /\ zlen t' = zlen t /\
   ((r = Ok tt /\ a <> 0 /\ (ByName t n <> 0 \/ unused t <> 0) /\
     ByName t' n = a /\ (forall m, m <> [] -> equal_fold m n = false -> ByName t' m = ByName t m) /\
     unused t' = unused t - b2z (ByName t n =? 0)) \/
    (t' = t /\ (exists e, r = Err e) /\ (a = 0 \/ (ByName t n = 0 /\ unused t = 0)))).
Proof.
  intros Ht Hn. destruct (AddSymbol t n a) as [t' r] eqn:E. exists t', r. split; [reflexivity|].
  destruct (match r with Ok _ => true | _ => false end) eqn:Er.
  - destruct r as [[]|e|]; try discriminate. destruct (AddSymbol_changed _ _ _ _ E) as (Ha & p & n' & Hc & En & Hcase).
    assert (map_table t' /\ ByName t' n = a /\ forall m, m <> [] -> equal_fold m n = false -> ByName t' m = ByName t m) as (Ht' & B & Hm).
    { apply (changed_set t t' p a n n'); auto. destruct Hcase as [(H & _)|(H1 & H2 & _)]; auto. }
    split; [exact Ht'|]. split; [apply Hc|]. left. split; [reflexivity|]. split; [exact Ha|].
    destruct Hc as (_ & Hp & _).
    destruct Hcase as [(H & _ & Hu)|(H1 & H2 & Hu)].
    + assert (ByName t n = ad t p) as Eb by (apply ByName_uniq; auto; lia).
      assert (ad t p <> 0) as Hi0.
      { intros H0. destruct Ht as [_ Hb]. apply Hb in H0; [|lia]. rewrite H0 in H. apply equal_fold_nil in H. contradiction. }
      rewrite Eb. auto.
    + assert (ByName t n = 0) as E0 by (apply ByName_absent; exact H2). rewrite E0. cbn [b2z Z.eqb].
      split; [|auto]. right. intros Hu0. apply (proj1 (unused_ex t)) with (k := p) in Hu0; [contradiction | lia].
  - assert (r <> Ok tt) as Hr by (intros ->; discriminate).
    destruct (AddSymbol_fail _ _ _ _ _ E Hr) as (-> & He & Hcase). split; [exact Ht|]. split; [reflexivity|].
    right. split; [reflexivity|]. split; [exact He|]. destruct Hcase as [H|[H1 H2]]; [left; exact H | right].
    split; [apply ByName_absent; exact H1 | exact H2].
Qed.

(** ** Histories *)
Definition sym_step (op : sym_op) (t : list Symbol) : list Symbol * sym_out :=
  match op with
  | SAdd n a => let '(t', r) := AddSymbol t n a in (t', match r with Ok _ => OAdded | _ => ORefused end)
  | SDel n => let '(t', b) := DeleteSymbol t n in (t', ODeleted b)
  end.
Fixpoint sym_run (ops : list sym_op) (t : list Symbol) : list Symbol * list sym_out :=
  match ops with
  | [] => (t, [])
  | op :: rest => let '(t1, o) := sym_step op t in let '(t2, os) := sym_run rest t1 in (t2, o :: os)
  end.
Definition sym_R (t : list Symbol) (m : amap) : Prop :=
  map_table t /\ (forall n, n <> [] -> am_addr m n = ByName t n) /\ am_free m = unused t.
Lemma sym_step_refines op t m t' o m' o' : op_name op <> [] -> sym_R t m ->
  sym_step op t = (t', o) -> am_step op m = (m', o') -> o = o' /\ sym_R t' m' /\ zlen t' = zlen t.
Proof.
  intros Hn (Ht & HA & HF) E1 E2. destruct op as [n a|n]; cbn [op_name] in Hn; cbn [sym_step am_step] in E1, E2.
  - destruct (AddSymbol_map t n a Ht Hn) as (u & r & E & Hu & Hl & Hcase). rewrite E in E1. inversion E1; subst; clear E1.
    rewrite HA, HF in E2 by exact Hn. destruct Hcase as [(-> & Ha & Hroom & B & Hm & Huu)|(-> & [e ->] & Hbad)].
    + replace (a =? 0) with false in E2 by lia.
      assert (forall n0, n0 <> [] -> am_set (am_addr m) n a n0 = ByName t' n0) as Hset.
      { intros n0 Hn0. unfold am_set. destruct (equal_fold n0 n) eqn:En.
        - rewrite <- B. assert (fold_case n0 = fold_case n) as Ef by (apply beq_eq; exact En).
          clear -Ef. induction t' as [|s t' IH]; [reflexivity|]. cbn [ByName]. unfold equal_fold. rewrite Ef, IH. reflexivity.
        - rewrite HA by exact Hn0. symmetry. apply Hm; assumption. }
      destruct (Z.eqb_spec (ByName t n) 0) as [E0|E0]; cbn [negb b2z] in *.
      * replace (unused t =? 0) with false in E2 by lia. inversion E2; subst.
        split; [reflexivity|]. split; [|exact Hl]. split; [exact Hu|]. split; [exact Hset | cbn [am_free]; lia].
      * inversion E2; subst. split; [reflexivity|]. split; [|exact Hl]. split; [exact Hu|]. split; [exact Hset | cbn [am_free]; lia].
    + assert ((m', o') = (m, ORefused)) as E3.
      { rewrite <- E2. destruct Hbad as [->|[-> ->]]; [reflexivity|]. destruct (a =? 0); reflexivity. }
      inversion E3; subst. split; [reflexivity|]. split; [|reflexivity]. split; [exact Hu|]. auto.
  - destruct (DeleteSymbol_map t n Ht Hn) as (u & E & Hu & Hl & B & Hm & Huu). rewrite E in E1. inversion E1; subst; clear E1.
    rewrite HA in E2 by exact Hn. destruct (Z.eqb_spec (ByName t n) 0) as [E0|E0]; cbn [negb b2z] in *; inversion E2; subst; clear E2.
    + split; [reflexivity|]. split; [|exact Hl]. split; [exact Hu|]. split; [|lia].
      intros n0 Hn0. destruct (equal_fold n0 n) eqn:En; [|rewrite HA by exact Hn0; symmetry; apply Hm; assumption].
      assert (fold_case n0 = fold_case n) as Ef by (apply beq_eq; exact En).
      assert (forall s, ByName s n0 = ByName s n) as Heq.
      { induction s as [|x s IH]; [reflexivity|]. cbn [ByName]. unfold equal_fold. rewrite Ef, IH. reflexivity. }
      rewrite HA by exact Hn0. rewrite !Heq. congruence.
    + split; [reflexivity|]. split; [|exact Hl]. split; [exact Hu|]. cbn [am_addr am_free]. split; [|lia].
      intros n0 Hn0. unfold am_set. destruct (equal_fold n0 n) eqn:En; [|rewrite HA by exact Hn0; symmetry; apply Hm; assumption].
      assert (fold_case n0 = fold_case n) as Ef by (apply beq_eq; exact En).
      rewrite <- B. clear -Ef. induction t' as [|s t' IH]; [reflexivity|]. cbn [ByName]. unfold equal_fold. rewrite Ef, IH. reflexivity.
Qed.
Lemma sym_run_refines ops : forall t m, Forall (fun op => op_name op <> []) ops -> sym_R t m ->
  snd (sym_run ops t) = snd (am_run ops m) /\ sym_R (fst (sym_run ops t)) (fst (am_run ops m)) /\
  zlen (fst (sym_run ops t)) = zlen t.
Proof.
  induction ops as [|op ops IH]; intros t m Hn HR; [auto|].
  inversion Hn as [|? ? Hn1 Hn2]; subst. cbn [sym_run am_run].
  destruct (sym_step op t) as [t1 o1] eqn:E1. destruct (am_step op m) as [m1 o1'] eqn:E2.
  destruct (sym_step_refines _ _ _ _ _ _ _ Hn1 HR E1 E2) as (-> & HR1 & Hl1).
  destruct (IH t1 m1 Hn2 HR1) as (H1 & H2 & H3).
  destruct (sym_run ops t1) as [t2 os]. destruct (am_run ops m1) as [m2 os']. cbn [fst snd] in *.
  split; [congruence|]. split; [exact H2 | congruence].
Qed.
