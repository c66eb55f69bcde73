(** SettledProofs.v -- proofs for property C114. *)
From Coq Require Import ZifyBool ZifyNat.
From Verif Require Import GoBase GoLemmas DiskModel TypesModel DiskSpec SupermonModel SupermonSpec SupermonTableSpec SupermonBreakSpec SupermonStoreSpec SupermonProofs SupermonSymProofs
  SupermonTabProofs SupermonLinkProofs SupermonNameProofs SupermonOpProofs SupermonFinalProofs SupermonNamedProofs SupermonRewriteProofs SupermonStmtProofs SupermonReadableProofs.
From Verif Require ProdosSpec.
From Verif Require Import ProdosModel CmdModel MainModel CmdSpec CmdProofs NakedCmdSpec NakedCmdProofs NakedSeenProofs DetectSpec DetectProofs ListSpec OpenFuelProofs AfterProofs AfterRmAnyProofs
  SessionSpec BoundSpec AfterPutAnyProofs StatusSpec StatusProofs LawsProofs ChangesSpec ChangesTabProofs ChangesProofs.
Ltac Zify.zify_post_hook ::= Z.div_mod_to_equations.
Local Opaque zrange zeros sub.

(** ** No free sector before the sectors of a file *)
Definition packed (d : bytes) (f : Z) : Prop :=
  forall k t, 0 <= k < 560 -> 0 <= t < 560 -> znth 0 (stored_map d) k = FREE -> znth 0 (stored_map d) t = f -> t < k.
Lemma sorted_range n : Sorted.StronglySorted Z.lt (zrange n).
Proof.
  rewrite zrange_seq. generalize (Z.to_nat n) as m. generalize 0%nat as a. intros a m. revert a.
  induction m as [|m IH]; intros a; cbn [seq map]; [constructor|]. constructor; [apply IH|].
  apply Forall_forall. intros y Hy. apply in_map_iff in Hy as (k & <- & Hk). apply in_seq in Hk. lia.
Qed.
Lemma sorted_room d f : Sorted.StronglySorted Z.lt (room d f).
Proof. apply sorted_filter, sorted_range. Qed.
Lemma sorted_first (l : list Z) : Sorted.StronglySorted Z.lt l -> forall n t k, In t (firstn n l) -> In k l -> ~ In k (firstn n l) -> t < k.
Proof.
  induction 1 as [|x l Hl IH Hx]; intros n t k Ht Hk Hn; [destruct Hk|].
  destruct n as [|n]; [destruct Ht|]. cbn [firstn] in Ht, Hn. rewrite Forall_forall in Hx.
  destruct Hk as [<-|Hk]; [contradiction Hn; left; reflexivity|].
  destruct Ht as [<-|Ht]; [apply Hx; exact Hk|]. apply (IH n t k Ht Hk). intros H. apply Hn. right. exact H.
Qed.
Lemma legal_free f : legal f -> f <> FREE.
Proof. unfold legal, FREE. lia. Qed.
Lemma placed_in_room d f c d1 k : placed d f c d1 -> 0 <= k < 560 -> znth 0 (stored_map d1) k = FREE -> f <> FREE -> In k (room d f) /\ ~ In k (taken d f c).
Proof.
  intros P Hk E Hf. assert (Hn : ~ In k (taken d f c)) by (intros H; rewrite (pl_taken _ _ _ _ P k H) in E; contradiction).
  split; [|exact Hn]. apply In_room. split; [exact Hk|].
  destruct (Z.eq_dec (znth 0 (stored_map d) k) f) as [X|X]; [right; exact X|]. left. rewrite <- (pl_others _ _ _ _ P k Hk Hn X). exact E.
Qed.
Lemma placed_packed d f c d1 : legal f -> placed d f c d1 -> packed d1 f.
Proof.
  intros Hf P k t Hk Ht Ek Et. pose proof (legal_free f Hf) as Hff.
  destruct (placed_in_room _ _ _ _ _ P Hk Ek Hff) as [Rk Nk].
  apply (sorted_first _ (sorted_room d f) (Z.to_nat (nsec c)) t k); [|exact Rk|exact Nk].
  destruct (in_dec Z.eq_dec t (taken d f c)) as [H|H]; [exact H|]. exfalso.
  destruct (Z.eq_dec (znth 0 (stored_map d) t) f) as [X|X].
  - rewrite (pl_freed _ _ _ _ P t Ht H X) in Et. congruence.
  - rewrite (pl_others _ _ _ _ P t Ht H X) in Et. contradiction.
Qed.
Lemma placed_same d g c d1 f k : placed d g c d1 -> legal f -> f <> g -> 0 <= k < 560 -> (znth 0 (stored_map d1) k = f <-> znth 0 (stored_map d) k = f).
Proof.
  intros P Hf Hfg Hk. pose proof (legal_free f Hf) as Hff. destruct (in_dec Z.eq_dec k (taken d g c)) as [H|H].
  - rewrite (pl_taken _ _ _ _ P k H). apply In_taken, In_room in H as [_ H]. split; intros X; [congruence|]. destruct H; congruence.
  - destruct (Z.eq_dec (znth 0 (stored_map d) k) g) as [X|X].
    + rewrite (pl_freed _ _ _ _ P k Hk H X). split; intros Y; congruence.
    + rewrite (pl_others _ _ _ _ P k Hk H X). reflexivity.
Qed.
Lemma placed_owned d g c d1 f : placed d g c d1 -> legal f -> f <> g -> owned (stored_map d1) f = owned (stored_map d) f.
Proof.
  intros P Hf Hfg. unfold owned. apply filter_ext_in. intros k Hk. apply In_zrange in Hk. pose proof (placed_same d g c d1 f k P Hf Hfg Hk). lia.
Qed.
Lemma NoDup_first (l : list Z) n : NoDup l -> NoDup (firstn n l).
Proof.
  intros H. revert n. induction H as [|x l Hx Hl IH]; intros [|n]; cbn [firstn]; try constructor; [|apply IH].
  intros Hi. apply Hx. apply (In_firstn x n l Hi).
Qed.
Lemma not_all (l : list Z) (p : Z -> bool) : forallb p l = false -> exists x, In x l /\ p x = false.
Proof.
  induction l as [|x l IH]; cbn [forallb]; [discriminate|]. destruct (p x) eqn:E; cbn [andb].
  - intros H. destruct (IH H) as (y & Hy & Ey). exists y. split; [right; exact Hy|exact Ey].
  - intros _. exists x. split; [left; reflexivity|exact E].
Qed.
Lemma packed_other d g c d1 f : placed d g c d1 -> legal f -> legal g -> f <> g -> zlen (owned (stored_map d) g) <= nsec c -> packed d f -> packed d1 f.
Proof.
  intros P Hf Hg Hfg Hn Hp k t Hk Ht Ek Et. pose proof (legal_free g Hg) as Hgf.
  apply (placed_same d g c d1 f t P Hf Hfg Ht) in Et.
  destruct (placed_in_room _ _ _ _ _ P Hk Ek Hgf) as [Rk Nk].
  pose proof (proj1 (In_room d g k) Rk) as [_ [Fk|Gk]]; [apply (Hp k t Hk Ht Fk Et)|].
  destruct (forallb (fun x => znth 0 (stored_map d) x =? g) (taken d g c)) eqn:Ba.
  - exfalso. rewrite forallb_forall in Ba.
    assert (Hi : incl (k :: taken d g c) (owned (stored_map d) g)).
    { intros x [<-|Hx]; apply In_owned; [split; assumption|]. split; [apply In_taken, In_room in Hx; apply Hx|]. specialize (Ba x Hx). lia. }
    apply NoDup_incl_length in Hi.
    + cbn [length] in Hi. pose proof (zlen_taken d g c (pl_fits _ _ _ _ P)) as E. unfold zlen in *. lia.
    + constructor; [exact Nk|]. apply NoDup_first, NoDup_filter, NoDup_zrange.
  - destruct (not_all _ _ Ba) as (x & Hx & Ex).
    assert (x < k) by (apply (sorted_first _ (sorted_room d g) (Z.to_nat (nsec c)) x k Hx Rk Nk)).
    apply In_taken, In_room in Hx as [Rx Hx]. assert (t < x) by (apply (Hp x t Rx Ht); [destruct Hx; lia|exact Et]). lia.
Qed.

(** ** A file that is where it would be put *)
Lemma sorted_app (a b : list Z) : Sorted.StronglySorted Z.lt a -> Sorted.StronglySorted Z.lt b -> (forall x y, In x a -> In y b -> x < y) -> Sorted.StronglySorted Z.lt (a ++ b).
Proof.
  induction 1 as [|x a Ha IH Hx]; intros Hb H; [exact Hb|]. cbn [app]. constructor.
  - apply IH; [exact Hb|]. intros u v Hu. apply H. right. exact Hu.
  - rewrite Forall_forall in *. intros y Hy. apply in_app_or in Hy as [Hy|Hy]; [apply Hx; exact Hy|]. apply H; [left; reflexivity|exact Hy].
Qed.
Lemma room_packed d f : packed d f -> room d f = owned (stored_map d) f ++ filter (fun k => (znth 0 (stored_map d) k =? FREE) && negb (znth 0 (stored_map d) k =? f)) (zrange 560).
Proof.
  intros Hp. apply sorted_unique; [apply sorted_room| |].
  - apply sorted_app; [apply sorted_filter, sorted_range|apply sorted_filter, sorted_range|].
    intros x y Hx Hy. apply In_owned in Hx. apply filter_In in Hy as [Hy Ey]. apply In_zrange in Hy. apply (Hp y x); lia.
  - intros x. rewrite In_room, in_app_iff, In_owned, filter_In, In_zrange. lia.
Qed.
Lemma settled d f c : zlen d = 143360 -> file_on d f = padded c -> packed d f -> placed d f c d.
Proof.
  intros Hd Hc Hp. assert (N : zlen (owned (stored_map d) f) = nsec c).
  { pose proof (zlen_content d (stored_map d) f Hd) as E. unfold file_on in Hc. rewrite Hc, zlen_padded in E. lia. }
  pose proof (room_packed d f Hp) as R.
  assert (T : taken d f c = owned (stored_map d) f).
  { unfold taken. rewrite R, firstn_app. replace (Z.to_nat (nsec c)) with (length (owned (stored_map d) f)) by (unfold zlen in N; lia).
    rewrite firstn_all, Nat.sub_diag. cbn [firstn]. apply app_nil_r. }
  constructor; rewrite ?T.
  - rewrite R, zlen_app. pose proof (zlen_nonneg (filter (fun k => (znth 0 (stored_map d) k =? FREE) && negb (znth 0 (stored_map d) k =? f)) (zrange 560))). lia.
  - exact Hd.
  - intros k Hk. apply In_owned in Hk. apply Hk.
  - intros k Hk Hn E. contradiction Hn. apply In_owned. split; assumption.
  - reflexivity.
  - intros i Hi. rewrite <- Hc. unfold file_on, content. symmetry. apply flat_map_piece; [|lia].
    intros k Hk. apply In_owned in Hk. unfold sec. rewrite zlen_sub by lia. lia.
  - reflexivity.
Qed.
Lemma placed_file d f c d1 : legal f -> placed d f c d1 -> file_on d1 f = padded c.
Proof.
  intros Hf P. pose proof (legal_free f Hf) as Hff.
  assert (T : owned (stored_map d1) f = taken d f c).
  { apply sorted_unique; [apply sorted_filter, sorted_range| |].
    - unfold taken. generalize (Z.to_nat (nsec c)) as n. induction (sorted_room d f) as [|x l Hl IH Hx]; intros n; destruct n as [|n]; cbn [firstn]; try constructor.
      + apply IH.
      + rewrite Forall_forall in *. intros y Hy. apply Hx. revert Hy. apply In_firstn.
    - intros k. rewrite In_owned. split.
      + intros [Hk E]. destruct (in_dec Z.eq_dec k (taken d f c)) as [H|H]; [exact H|]. exfalso.
        destruct (Z.eq_dec (znth 0 (stored_map d) k) f) as [X|X].
        * rewrite (pl_freed _ _ _ _ P k Hk H X) in E. congruence.
        * rewrite (pl_others _ _ _ _ P k Hk H X) in E. contradiction.
      + intros H. split; [apply In_taken, In_room in H; apply H|apply (pl_taken _ _ _ _ P k H)]. }
  pose proof (zlen_taken d f c (pl_fits _ _ _ _ P)) as L. pose proof (pl_size _ _ _ _ P) as Hd.
  unfold file_on, content. rewrite T.
  assert (Hs : forall k, In k (taken d f c) -> zlen (sec d1 k) = 256).
  { intros k Hk. apply In_taken, In_room in Hk. unfold sec. rewrite zlen_sub by lia. lia. }
  assert (Z0 : zlen (flat_map (sec d1) (taken d f c)) = 256 * nsec c).
  { rewrite <- L. clear -Hs. induction (taken d f c) as [|k l IH]; [reflexivity|]. cbn [flat_map]. rewrite zlen_app, zlen_cons, (Hs k (or_introl eq_refl)), IH; [lia|].
    intros x Hx. apply Hs. right. exact Hx. }
  apply (znth_ext 0); [rewrite Z0, zlen_padded; reflexivity|]. intros p Hp. rewrite Z0 in Hp.
  assert (E : sub (flat_map (sec d1) (taken d f c)) (256 * (p / 256)) (256 * (p / 256) + 256) = sub (padded c) (256 * (p / 256)) (256 * (p / 256) + 256)).
  { rewrite flat_map_piece by (assumption || lia). apply (pl_data _ _ _ _ P). lia. }
  apply (f_equal (fun l => znth 0 l (p mod 256))) in E. rewrite !znth_sub in E by (rewrite ?Z0, ?zlen_padded; lia).
  replace (256 * (p / 256) + p mod 256) with p in E by lia. exact E.
Qed.
Lemma placed_keeps d sm g c d1 f : floppy d sm -> placed d g c d1 -> legal f -> legal g -> f <> g -> file_on d1 f = file_on d f.
Proof.
  intros Hfl P Hf Hg Hfg. pose proof (fl_len _ _ Hfl) as Hd. pose proof (pl_size _ _ _ _ P) as Hd1.
  unfold file_on, content. rewrite (placed_owned d g c d1 f P Hf Hfg).
  assert (E : forall k, In k (owned (stored_map d) f) -> sec d1 k = sec d k).
  { intros k Hk. apply In_owned in Hk as [Hk Ek].
    assert (12 <= k).
    { destruct (Z.ltb_spec k 12) as [Hlt|]; [|lia]. rewrite (fl_map _ _ Hfl), (v_res _ (fl_ver _ _ Hfl) k) in Ek by lia. unfold legal, RESERVED in *. lia. }
    assert (Hn : ~ In k (taken d g c)).
    { intros H0. apply In_taken, In_room in H0 as [_ H0]. unfold legal, FREE in *. lia. }
    apply (znth_ext 0); [unfold sec; rewrite !zlen_sub by lia; reflexivity|]. intros p Hp. unfold sec in Hp. rewrite zlen_sub in Hp by lia.
    unfold sec. rewrite !znth_sub by lia. apply (pl_rest _ _ _ _ P); [lia|lia|]. replace ((256 * k + p) / 256) with k by lia. exact Hn. }
  induction (owned (stored_map d) f) as [|k l IH]; [reflexivity|]. cbn [flat_map]. rewrite (E k (or_introl eq_refl)). f_equal. apply IH. intros x Hx. apply E. right. exact Hx.
Qed.

(** ** PutFile a second time *)
Lemma Put_symbol d o n s ftv a ow o' ex f q e : zlen d = 143360 -> NewOperator d = Ok o -> is_ascii n ->
  PutFile (FI (Desc n [] 0 0 (zlen s) false ftv) s a) ow o = (o', Ok ex) -> put_meaning d (st_of o) n f q e ->
  q = [] \/ (exists t, op_ST o = Some t /\ accepted q).
Proof.
  intros Hd En Ha E M0. destruct (NewOperator_ok d o Hd En) as (Hok & Ed & Em & Et).
  unfold PutFile in E. cbn [fi_desc_ fi_data d_type d_length d_name] in E. rewrite Z.eqb_refl in E. cbn [negb] in E.
  destruct (negb (ftv =? FiletypeBinary)); [discriminate E|].
  pose proof (meaning_exact d (st_of o) n Hd) as HM.
  destruct (FilesForCompoundName (st_of o) n) as [[[nf mf] q1]|er|]; [|discriminate E|contradiction].
  cbv zeta in HM, E. rewrite Em in E. remember (if nf =? 0 then FirstFreeFile (stored_map d) else nf) as num eqn:Enum. clear Enum.
  destruct HM as [(H0 & Hl & e1 & M & He)|[_ HN]]; [|contradiction (HN _ _ _ M0)].
  destruct (meaning_one _ _ _ _ _ _ _ _ _ M M0) as (-> & -> & ->). clear M.
  destruct (beq q []) eqn:Bq; [left; apply beq_eq; exact Bq|]. right.
  assert (Haq : is_ascii q).
  { destruct M0; try exact Ha; [constructor| |]; apply Forall_app in Ha as [_ Ha]; inversion Ha; assumption. }
  destruct (op_ST o) as [t|]; [|cbv iota in E; injection E as _ E; discriminate E]. exists t. split; [reflexivity|].
  apply (C34_accepted_lemma q Haq). destruct (encodeSymbol q) as [six|er|]; cbn [rbind] in E; [exists six; reflexivity|discriminate E|discriminate E].
Qed.
Lemma unbreaking t q f : symbol_file t q f -> ~ add_breaks t q (0xDF00 + f).
Proof.
  intros (Hl & i & Hi & Ea) [(j & Hj & Hh & _)|(Hn & _)].
  - assert (j = i) as ->; [|rewrite Ea in Hh; contradiction].
    destruct Hi as (I1 & I2 & I3), Hj as (J1 & J2 & J3). destruct (Z.lt_trichotomy i j) as [X|[X|X]]; [|lia|].
    + rewrite (J3 i) in I2 by lia. discriminate I2.
    + rewrite (I3 j) in J2 by lia. discriminate J2.
  - destruct Hi as (I1 & I2 & _). rewrite equal_fold_sym, (Hn i I1) in I2. discriminate I2.
Qed.
Lemma symbol_dec t q f : (forall g, ~ numeric q g) -> symbol_file t q f \/ ~ symbol_file t q f.
Proof.
  intros Hn. destruct (FileForName_spec t q) as [(g & _ & [Hg|[_ Hg]] & _)|[_ Hno]]; [contradiction (Hn g Hg)| |].
  - destruct (Z.eq_dec g f) as [<-|N]; [left; exact Hg|]. right. intros Hf. apply N. apply (symbol_file_one t q); assumption.
  - right. intros Hf. apply (Hno f). right. split; assumption.
Qed.
Lemma numeric_nil g : ~ numeric [] g.
Proof. intros (_ & v & H & _). inversion H as [|s c v0 w0 _ _ E]. destruct s; discriminate E. Qed.
Lemma no_self (p q : bytes) : p ++ 58 :: q <> q.
Proof. intros E. apply (f_equal (@length Z)) in E. rewrite app_length in E. cbn [length] in E. lia. Qed.
Lemma meaning_found d t n q f f' : put_meaning d t n f q true -> legal f' ->
  ((n = q /\ (symbol_file t q f' \/ (file_on d f' = [] /\ forall g, 1 <= g < f' -> file_on d g <> []))) \/ exists p, numeric p f' /\ n = p ++ 58 :: q) -> f' = f.
Proof.
  intros M Hf' Hw. inversion M as [| |n0 f0 Hcol Hnr HL0 Hf0 Hbelow E1 E2 E3| |p q0 f0 Hp Hcol Hnq Hns E1 E2 E3].
  - destruct Hw as [[_ [Hsf|(Ho & Hl)]]|(p & Hp & E)].
    + contradiction (Hnr f'). destruct (parseAddress_cases q) as [(g & Hg & _)|[Hg _]]; [contradiction (Hnr g); left; exact Hg|]. right. split; assumption.
    + apply (new_one d); assumption.
    + rewrite E3 in E. symmetry in E. contradiction (no_self _ _ E).
  - destruct Hw as [[E _]|(p' & Hp' & E)].
    + rewrite E, E3 in E1. contradiction (no_self _ _ E1).
    + rewrite E, E3 in E1. apply app_inv_tail in E1. subst p'. apply (numeric_one p); assumption.
Qed.
Lemma Put_settled d o n s ftv a ow o' ex f q e : zlen d = 143360 -> NewOperator d = Ok o -> s <> [] -> is_ascii n ->
  PutFile (FI (Desc n [] 0 0 (zlen s) false ftv) s a) ow o = (o', Ok ex) -> put_meaning d (st_of o) n f q e ->
  (q = [] -> n <> []) -> (q <> [] -> f <> 3 /\ f <> 4 /\ (e = true -> bytes_ok d /\ valid_name q /\ ~ add_breaks (st_of o) q (0xDF00 + f))) ->
  forall t2, names_on (op_data o') t2 ->
  exists e2, put_meaning (op_data o') t2 n f q e2 /\ (e2 = false \/ q = []) /\ placed (op_data o') f s (op_data o') /\
    legal f /\ file_on (op_data o') f = padded s /\ (q = [] \/ (t2 <> [] /\ accepted q)).
Proof.
  intros Hd En Hs Ha EP M Hn Hq t2 Ht2.
  pose proof (Put_symbol _ _ _ _ _ _ _ _ _ _ _ _ Hd En Ha EP M) as Hsym.
  pose proof (Put_placed _ _ _ _ _ _ _ _ _ Hd En Hs Ha EP) as (f1 & q1 & e1 & M1 & Hch).
  destruct (meaning_one _ _ _ _ _ _ _ _ _ M1 M) as (-> & -> & ->). clear M1.
  destruct (NewOperator_ok d o Hd En) as (Hok & Ed & Em & Et). pose proof (ok_fl _ Hok) as Hfl. rewrite Ed, Em in Hfl.
  match type of EP with PutFile ?i _ _ = _ => destruct (PutFile_inv i _ _ _ _ Hok Hs EP) as [Hok2 _] end. pose proof (ok_fl _ Hok2) as Hfl2. rewrite <- (fl_map _ _ Hfl2) in Hfl2.
  assert (Hf : legal f) by (destruct M as [? ? N|? ? ? ? [L _]|? ? ? ? L ? ?|? ? ? N ? ? ?|? ? ? N ? ? ?]; try exact L; apply N).
  assert (Hgo : placed d f s (op_data o') -> placed (op_data o') f s (op_data o') /\ file_on (op_data o') f = padded s).
  { intros P. pose proof (placed_file _ _ _ _ Hf P) as Hc. split; [|exact Hc]. apply settled; [apply (fl_len _ _ Hfl2)|exact Hc|apply (placed_packed _ _ _ _ Hf P)]. }
  destruct Hch as [(-> & Hq0 & t' & d1 & Hadd & P1 & Htab)|[He P1]].
  - (* a symbol given *)
    destruct (Hq Hq0) as (N3 & N4 & Hx). destruct (Hx eq_refl) as (Hb & Hv & Hnb). clear Hx.
    destruct Hsym as [|(t & Eo & Hacc)]; [contradiction|]. assert (Est : st_of o = t) by (unfold st_of; rewrite Eo; reflexivity). rewrite Est in *.
    assert (HR : ReadSymbolTable (op_SM o) (op_data o) = Ok t).
    { rewrite Ed, Em. rewrite Eo in Et. unfold opened_table in Et. destruct (ReadSymbolTable (stored_map d) d); congruence. }
    destruct (table_files _ _ _ (fl_len _ _ (ok_fl _ Hok)) HR) as [T3 T4]. rewrite Em in T3, T4.
    destruct (ReadSymbolTable_read_ok _ _ _ (fl_len _ _ (ok_fl _ Hok)) ltac:(rewrite Ed; exact Hb) HR) as (HL & _).
    assert (Hnn : forall g, ~ numeric q g).
    { inversion M; subst; [|assumption]. intros g Hg. apply (H0 g). left. exact Hg. }
    assert (Htgt : n = q \/ exists p f, numeric p f /\ n = p ++ 58 :: q).
    { inversion M; subst; [left; reflexivity|right; exists p, f; split; [assumption|reflexivity]]. }
    remember (FI (Desc n [] 0 0 (zlen s) false ftv) s a) as i eqn:Ei.
    assert (Hdi : fi_data i = s) by (rewrite Ei; reflexivity). assert (Hni : d_name (fi_desc_ i) = n) by (rewrite Ei; reflexivity).
    destruct (Put_any i ow o o' ex n q t Hok ltac:(rewrite Ed; exact Hb) Eo HR ltac:(rewrite Hdi; exact Hs) Hni Hq0 Hv Hnn Htgt EP)
      as (f' & Hf' & Hwhat & (k & Hk) & Hof & HC & _ & _ & Hnames).
    assert (f' = f) as ->.
    { apply (meaning_found d t n q f f' M Hf'). destruct Hwhat as [[E [Hsf|(Hno & Ho & Hl)]]|Hp]; [left; split; [exact E|left; exact Hsf]| |right; exact Hp].
      left. split; [exact E|]. right. split; [rewrite <- Ed; apply (owned_file_on o f' Hok); exact Ho|].
      intros h Hh Eh. apply (Hl h Hh). apply (owned_file_on o h Hok). rewrite Ed. exact Eh. }
    clear Hwhat. assert (Hcond : ~ symbol_file t q f \/ f <> 3 /\ f <> 4) by (right; split; assumption).
    destruct (Hnames Hcond _ (or_intror (conj Hnb (ex_intro _ k (conj Hk eq_refl))))) as (t3 & Hlike & Em2).
    assert (Hr : resolves (zset t k (Sym (57088 + f) (upcase q) 0)) q f).
    { apply (bound_resolves t q f); try assumption. right. split; [exact Hnb|]. exists k. split; [exact Hk|reflexivity]. }
    apply (like_resolves _ _ q f Hlike) in Hr.
    assert (t3 = t2) as ->.
    { apply (names_det (op_data o')); [|exact Ht2]. pose proof (names_opened _ Hfl2) as Hx. rewrite (fl_map _ _ (ok_fl _ Hok2)) in Hx.
      destruct (ReadSymbolTable (op_SM o') (op_data o')); rewrite Em2; exact Hx. }
    destruct Hr as [Hr|[_ Hr]]; [contradiction (Hnn f Hr)|].
    assert (Hc : file_on (op_data o') f = padded s) by (rewrite <- content_file_on by exact Hok2; rewrite <- Hdi; apply HC; right; split; assumption).
    exists false. split.
    { inversion M; subst; [apply pm_symbol; assumption|apply pm_both; assumption]. }
    split; [left; reflexivity|]. split.
    { apply settled; [apply (fl_len _ _ Hfl2)|exact Hc|]. pose proof (placed_packed _ _ _ _ Hf P1) as K1.
      destruct Htab as (b1 & b2 & d2 & Tb & Q1 & Q2). destruct (tb_size _ _ _ Tb) as [L1 L2].
      assert (N1 : nsec b1 = 16) by (unfold nsec; rewrite L1; reflexivity). assert (N2 : nsec b2 = 16) by (unfold nsec; rewrite L2; reflexivity).
      assert (legal 3 /\ legal 4) as [G3 G4] by (unfold legal; lia).
      apply (packed_other d2 4 b2); try assumption; [rewrite (placed_owned d1 3 b1), (placed_owned d f s) by (assumption || lia); lia|].
      apply (packed_other d1 3 b1); try assumption. rewrite (placed_owned d f s) by (assumption || lia). lia. }
    split; [exact Hf|]. split; [exact Hc|]. right. split; [|exact Hacc].
    intros ->. destruct Hr as (_ & i2 & (Hi2 & _) & _). rewrite (@zlen_nil Symbol) in Hi2. lia.
  - destruct (Hgo P1) as [P2 Hc]. destruct (beq q []) eqn:Bq.
    + apply beq_eq in Bq. subst q. pose proof (Hn eq_refl) as Hn0.
      assert (Hm2 : exists e2, put_meaning (op_data o') t2 n f [] e2).
      { inversion M; subst; try congruence; [exists false; apply pm_number; assumption| |];
          (destruct (symbol_dec t2 [] f numeric_nil) as [Y|Y]; [exists false; apply pm_both; assumption|exists true; apply pm_at; assumption]). }
      destruct Hm2 as [e2 M2]. exists e2. split; [exact M2|]. split; [right; reflexivity|]. split; [exact P2|]. split; [exact Hf|]. split; [exact Hc|]. left. reflexivity.
    + apply beq_neq in Bq. destruct He as [->|He]; [|contradiction]. destruct (Hq Bq) as (N3 & N4 & _).
      destruct Hsym as [|(t & Eo & Hacc)]; [contradiction|].
      assert (t2 = st_of o) as ->.
      { apply (names_det (op_data o')); [exact Ht2|]. assert (legal 3 /\ legal 4) as [G3 G4] by (unfold legal; lia).
        apply (names_same d); [exact Hfl|exact Hfl2| | |exists o; split; [exact En|reflexivity]]; apply (placed_keeps d _ f s _ _ Hfl P1); (assumption || lia). }
      exists false. split.
      { inversion M; subst; try congruence; [apply pm_symbol; assumption|apply pm_both; assumption]. }
      split; [left; reflexivity|]. split; [exact P2|]. split; [exact Hf|]. split; [exact Hc|]. right. split; [|exact Hacc].
      unfold st_of. rewrite Eo. intros ->. pose proof (ok_st _ Hok _ Eo) as X. discriminate X.
Qed.

(** ** The commands *)
Lemma input_one w name c c' : input w name c -> input w name c' -> c = c'.
Proof. intros [[E H]|[E [r H]]] [[E' H']|[E' [r' H']]]; try contradiction; congruence. Qed.
Lemma exits_run p w : StatusSpec.exits p w 0 -> exists w', run p w = (w', Ok tt).
Proof.
  intros (w' & E & _). unfold main_run in E. destruct (run p w) as [w1 [[]|e|]]; cbn [main_status] in E; [|discriminate E|discriminate E].
  injection E as <-. exists w1. reflexivity.
Qed.
Lemma exits_good ok crash p w : exits_by ok crash p w -> ok -> ~ crash -> exists w', run p w = (w', Ok tt).
Proof. intros [[_ H]|[[H _]|(H & _)]] Hok Hc; [apply exits_run; exact H|contradiction|contradiction]. Qed.
Lemma hello_ascii : is_ascii (s2b "DF01:FHELLO").
Proof. let l := eval vm_compute in (s2b "DF01:FHELLO") in change (is_ascii l). unfold is_ascii. repeat (apply Forall_cons; [lia|]). apply Forall_nil. Qed.
Lemma hello_valid : valid_name (s2b "FHELLO").
Proof.
  right. split; [vm_compute; split; discriminate|]. split; [|vm_compute; discriminate].
  let l := eval vm_compute in (s2b "FHELLO") in change (Forall alnum l). repeat (apply Forall_cons; [unfold alnum, letter, digit; lia|]). apply Forall_nil.
Qed.
Lemma hello_what d t : exists e, put_meaning d t (s2b "DF01:FHELLO") 1 (s2b "FHELLO") e /\ (e = false <-> symbol_file t (s2b "FHELLO") 1).
Proof.
  assert (Hc : no_colon (s2b "FHELLO")) by (apply no_colon_dec; vm_compute; reflexivity).
  change (s2b "DF01:FHELLO") with (s2b "DF01" ++ 58 :: s2b "FHELLO"). destruct (symbol_file_dec t (s2b "FHELLO") 1) as [H|H].
  - exists false. split; [apply pm_both; [exact df01|exact Hc|exact fhello_not|exact H]|]. split; [intros _; exact H|reflexivity].
  - exists true. split; [apply pm_at; [exact df01|exact Hc|exact fhello_not|exact H]|]. split; [discriminate|contradiction].
Qed.
Lemma fits_settled d f s : zlen d = 143360 -> file_on d f = padded s -> sectors_on d f = nsec s.
Proof. intros Hd Hc. unfold sectors_on. pose proof (zlen_content d (stored_map d) f Hd) as E. unfold file_on in Hc. rewrite Hc, zlen_padded in E. lia. Qed.
Lemma target_one t n f g : target t n f -> target t n g -> f = g.
Proof.
  intros H1 H2. inversion H1 as [n1 f1 C1 R1|p1 q1 f1 Cp1 Cq1 N1 M1]; inversion H2 as [n2 f2 C2 R2|p2 q2 f2 Cp2 Cq2 N2 M2]; subst.
  - apply (resolves_one t n); assumption.
  - contradiction C1. apply in_or_app. right. left. reflexivity.
  - contradiction C2. apply in_or_app. right. left. reflexivity.
  - match goal with E : _ ++ 58 :: _ = _ ++ 58 :: _ |- _ => apply colon_split in E as [-> _]; [|assumption|assumption] end. apply (numeric_one p1); assumption.
Qed.

Section Run.
  Variable iter : list (Z * Subdirectory) -> list (Z * Subdirectory).
  Variable fuel : nat.
  Lemma put_settled order system ft ow addr img tgt src w w' s :
    run (PutCmd_Run iter fuel order system ft ow addr img tgt src) w = (w', Ok tt) ->
    input w src s -> s <> [] -> is_ascii tgt ->
    exists c o d t d' new,
      input w img c /\ naked_image c o d /\ (ProdosSpec.an_order iter -> only_seen img order system c o d) /\ names_on d t /\
      output w w' img new /\ naked_image new o d' /\
      forall f q e, put_meaning d t tgt f q e -> (q = [] -> tgt <> []) ->
        (q <> [] -> f <> 3 /\ f <> 4 /\ (e = true -> bytes_ok c /\ valid_name q /\ ~ add_breaks t q (0xDF00 + f))) ->
      forall order2 system2 addr2 img2 src2 w2, (system2 = s2b "auto" \/ system2 = s2b "nakedos") -> ProdosSpec.an_order iter ->
        seen_as img2 order2 new (s2b "nakedos") d' o -> input w2 img2 new -> input w2 src2 s -> ~ (img2 = s2b "-" /\ src2 = s2b "-") ->
        w_room w2 = None -> w_outroom w2 = None -> can_output w2 img2 true ->
        eventually (fun k => exists w3, run (PutCmd_Run iter k order2 system2 ft true addr2 img2 tgt src2) w2 = (w3, Ok tt) /\ output w2 w3 img2 new).
  Proof.
    intros H Hs Hne Ha. destruct (put_parts iter fuel _ _ _ _ _ _ _ _ _ _ _ H Hs Hne) as (c & o & op & op2 & ftv & ex & new & Hc & Hopen & Ef & EP & Hout & Hnew).
    destruct (naked_opened iter fuel _ _ _ _ _ _ Hopen) as (_ & Hr & En & Hd & Hre & Hni & Em & Hnm).
    exists c, o, (op_data op), (st_of op), (op_data op2), new. split; [exact Hc|]. split; [exact Hni|].
    split; [apply (opened_seen iter fuel); exact Hopen|]. split; [exact Hnm|]. split; [exact Hout|]. split; [exact Hnew|].
    intros f q e M Hq0 Hq order2 system2 addr2 img2 src2 w2 Hsys Hi Hseen Hin Hsrc Hio Hrm Hor Hco.
    assert (Hbin : binary ft = true).
    { unfold binary. rewrite Ef. apply put_binary in EP. cbn [fi_desc_ d_type] in EP. rewrite EP. apply Z.eqb_refl. }
    pose proof (names_opened _ (proj2 Hnew)) as Hn2. remember (match ReadSymbolTable (stored_map (op_data op2)) (op_data op2) with Ok t => t | _ => [] end) as t2 eqn:Et2. clear Et2.
    assert (Hqd : q <> [] -> f <> 3 /\ f <> 4 /\ (e = true -> bytes_ok (op_data op) /\ valid_name q /\ ~ add_breaks (st_of op) q (57088 + f))).
    { intros X. destruct (Hq X) as (N3 & N4 & Y). split; [exact N3|]. split; [exact N4|]. intros Z0. destruct (Y Z0) as (B & V). split; [apply (DetectProofs.reordered_bytes _ _ _ _ Hr B)|exact V]. }
    destruct (Put_settled _ _ _ _ _ _ _ _ _ _ _ _ Hd En Hne Ha EP M Hq0 Hqd t2 Hn2) as (e2 & M2 & He2 & P2 & Hf & Hc2 & Hacc).
    pose proof (fl_len _ _ (proj2 Hnew)) as Hd2. pose proof (fits_settled _ _ _ Hd2 Hc2) as Hfit.
    pose proof (zlen_nonneg (owned (stored_map (op_data op2)) FREE)) as Hfree.
    assert (Hok : put_succeeds (op_data op2) t2 ft true tgt s).
    { exists f, q, e2. split; [|split; [intros X; contradiction|intros X Y; destruct He2; [congruence|contradiction]]].
      split; [exact Hbin|]. split; [exact M2|]. split; [exact Hacc|]. split; [unfold free_on; lia|reflexivity]. }
    assert (Hcr : ~ put_crashes (op_data op2) t2 ft true tgt s) by (intros (? & ? & ? & _ & X & _); contradiction).
    eapply eventually_impl; [|exact (put_status iter img2 order2 system2 new _ o t2 ft true addr2 tgt src2 s w2 Hi Hseen Hsys Hn2 Hin Hsrc Hio Hco Hrm Hor Ha)].
    intros k Hex. cbv beta in Hex. destruct (exits_good _ _ _ _ Hex Hok Hcr) as [w3 Er]. exists w3. split; [exact Er|].
    destruct (put_changes_run iter k _ _ _ _ _ _ _ _ _ _ _ Er Hsrc Hne Ha) as (c2 & o2 & d2 & t3 & d3 & new3 & Hc3 & _ & Hon & Hn3 & Hout3 & Hnew3 & f3 & q3 & e3 & M3 & Hch).
    rewrite (input_one _ _ _ _ Hc3 Hin) in *. destruct (Hon Hi _ _ _ Hseen Hsys) as (_ & <- & <-).
    rewrite (names_det _ _ _ Hn3 Hn2) in *. destruct (meaning_one _ _ _ _ _ _ _ _ _ M3 M2) as (-> & -> & ->).
    assert (d3 = op_data op2) as ->.
    { destruct Hch as [(X & Y & _)|[_ P3]]; [destruct He2; [congruence|contradiction]|]. apply (placed_one _ _ _ _ _ P3 P2). }
    rewrite (reordered_det _ _ _ _ Hnew Hnew3) in Hout3. exact Hout3.
  Qed.

  Lemma mkhello_settled order img name address start0 w w' :
    run (MkHelloCmd_Run iter fuel order img name address start0) w = (w', Ok tt) ->
    0 <= address < 65536 -> 0 <= start0 < 65536 ->
    exists c o d t d' new f,
      input w img c /\ naked_image c o d /\ (ProdosSpec.an_order iter -> only_seen img order (s2b "auto") c o d) /\ names_on d t /\ target t name f /\
      output w w' img new /\ naked_image new o d' /\
      (symbol_file t (s2b "FHELLO") 1 \/ (bytes_ok c /\ ~ add_breaks t (s2b "FHELLO") 0xDF01) ->
       forall order2 img2 name2 w2 t2, ProdosSpec.an_order iter -> names_on d' t2 -> target t2 name2 f ->
         seen_as img2 order2 new (s2b "nakedos") d' o -> input w2 img2 new ->
         w_room w2 = None -> w_outroom w2 = None -> can_output w2 img2 true ->
         eventually (fun k => exists w3, run (MkHelloCmd_Run iter k order2 img2 name2 address start0) w2 = (w3, Ok tt) /\ output w2 w3 img2 new)).
  Proof.
    intros H Ha Hs. pose proof H as Hrun. unfold MkHelloCmd_Run in H. cbv zeta in H.
    destruct (Z.eqb_spec (address mod 256) 0) as [Ham|Ham]; cbn [negb] in H; [|discriminate].
    destruct (Z.ltb_spec (if start0 =? 0xFFFF then address else start0) address) as [Hlt|Hlt]; [discriminate|].
    assert (Hst0 : start0 <> 65535 -> address <= start0) by (intros X; destruct (Z.eqb_spec start0 65535) in Hlt; lia).
    remember (if start0 =? 0xFFFF then address else start0) as start eqn:Est.
    assert (Hst : 0 <= start < 65536) by (destruct (start0 =? 65535); lia).
    rewrite run_pbind in H. destruct (run (OpenFilename iter fuel img order (s2b "auto")) w) as [w1 [[op o]|e|]] eqn:Eo; [|discriminate|discriminate].
    destruct (open_run _ _ _ _ _ _ _ _ _ Eo) as (c & Hc & Hopen & Hsf & Hso & _ & _ & Hw1).
    destruct op as [d0|op|d0]; [discriminate| |discriminate].
    rewrite run_pbind in H. unfold plift in H at 1. cbn [run] in H.
    destruct (FilesForCompoundName (st_of op) name) as [[[nf mf] sy]|e|] eqn:EF; [|discriminate|discriminate].
    destruct ((nf =? 0) && (mf =? 0)) eqn:E0; [discriminate|].
    remember (if nf =? 0 then mf else nf) as f eqn:Ef.
    remember (hello_program f address start) as prog eqn:Epr.
    destruct (Op_PutFile (ONaked op) (FI (Desc (s2b "DF01:" ++ helloName) [] 0 0 (zlen prog) false FiletypeBinary) prog 0) true) as [op' r] eqn:EP. rewrite run_pbind in H. unfold plift in H. cbn [run] in H.
    destruct r as [ex|e|]; [|discriminate|discriminate].
    cbn [Op_PutFile] in EP. destruct (PutFile (FI (Desc (s2b "DF01:" ++ helloName) [] 0 0 (zlen prog) false FiletypeBinary) prog 0) true op) as [op2 r2] eqn:EP2. cbn [lift_op] in EP. injection EP as <- ->.
    destruct (naked_opened iter fuel _ _ _ _ _ _ Hopen) as (_ & Hr & En & Hd & Hre & Hni & Em & Hnm).
    pose proof (reached_ok _ Hre) as Hok.
    assert (Hne : prog <> []) by (rewrite Epr; discriminate).
    destruct (put_finish c o op op2 img w w1 w' (FI (Desc (s2b "DF01:" ++ helloName) [] 0 0 (zlen prog) false FiletypeBinary) prog 0) true ex Hr Hok Hne Hsf Hso EP2 H) as (new & Hout & Hnew).
    apply target_files in EF.
    assert (Hf : target (st_of op) name f).
    { destruct EF as [(-> & -> & _)|(Hnz & Ht2 & Hx)]; [discriminate E0|]. replace (nf =? 0) with false in Ef by lia. subst f. exact Ht2. }
    exists c, o, (op_data op), (st_of op), (op_data op2), new, f. split; [exact Hc|]. split; [exact Hni|].
    split; [apply (opened_seen iter fuel); exact Hopen|]. split; [exact Hnm|]. split; [exact Hf|]. split; [exact Hout|]. split; [exact Hnew|].
    intros Hcond order2 img2 name2 w2 t2 Hi Hn2 Ht2 Hseen Hin Hrm Hor Hco.
    assert (Ep : prog = [0x20; 0x40; 0x03; 0x6D; 0x01; 0xDC; 0x2C; f; 0xDF; 0x2C; 0; address / 256; 0xD8; 0x4C; start mod 256; start / 256]).
    { rewrite Epr. unfold hello_program, u8. replace (address / 256 mod 256) with (address / 256) by lia. replace (start / 256 mod 256) with (start / 256) by lia. reflexivity. }
    clear Epr. change (s2b "DF01:" ++ helloName) with (s2b "DF01:FHELLO") in EP2.
    pose proof (Put_placed _ op (s2b "DF01:FHELLO") prog FiletypeBinary 0 true op2 ex Hd En Hne hello_ascii EP2) as (f1 & q1 & e1 & M & _).
    destruct (hello_what (op_data op) (st_of op)) as (e0 & M0 & He0). destruct (meaning_one _ _ _ _ _ _ _ _ _ M0 M) as (<- & <- & <-).
    pose proof hello_valid as Hv.
    assert (Hqd : s2b "FHELLO" <> [] -> 1 <> 3 /\ 1 <> 4 /\ (e0 = true -> bytes_ok (op_data op) /\ valid_name (s2b "FHELLO") /\ ~ add_breaks (st_of op) (s2b "FHELLO") (57088 + 1))).
    { intros _. split; [lia|]. split; [lia|]. intros ->. destruct Hcond as [Hsf1|[B Hnb]].
      - apply He0 in Hsf1. discriminate Hsf1.
      - split; [apply (DetectProofs.reordered_bytes _ _ _ _ Hr B)|]. split; [exact Hv|exact Hnb]. }
    destruct (Put_settled _ _ _ _ _ _ _ _ _ _ _ _ Hd En Hne hello_ascii EP2 M ltac:(discriminate) Hqd t2 Hn2) as (e2 & M2 & He2 & P2 & Hl & Hc2 & Hacc).
    destruct He2 as [->|X]; [|discriminate X]. destruct Hacc as [X|[Ht20 _]]; [discriminate X|].
    assert (Hs1 : symbol_file t2 (s2b "FHELLO") 1).
    { destruct (hello_what (op_data op2) t2) as (e3 & M3 & He3). destruct (meaning_one _ _ _ _ _ _ _ _ _ M3 M2) as (_ & _ & ->). apply He3. reflexivity. }
    assert (Hgood : mkhello_succeeds (op_data op2) t2 name2 address start0).
    { split; [exact Ham|]. split; [exact Hst0|]. split; [exists f; destruct Ht2; [apply ht_one|apply ht_both]; assumption|].
      split; [exact Ht20|]. split; [right; rewrite Hc2; apply padded_nonempty; exact Hne|left; exact Hs1]. }
    eapply eventually_impl; [|exact (mkhello_status iter img2 order2 new _ o t2 name2 address start0 w2 Hi Hseen Hn2 Hin Hco Hrm Hor)].
    intros k Hex. cbv beta in Hex. destruct (exits_good _ _ _ _ Hex Hgood (fun x => x)) as [w3 Er]. exists w3. split; [exact Er|].
    destruct (mkhello_changes_run iter k _ _ _ _ _ _ _ Er Ha Hs) as (c2 & o2 & d2 & t3 & d3 & new3 & f3 & Hc3 & _ & Hon & Hn3 & Ht3 & Hout3 & Hnew3 & Hch).
    rewrite <- Est in Hch.
    rewrite (input_one _ _ _ _ Hc3 Hin) in *. destruct (Hon Hi _ _ _ Hseen (or_introl eq_refl)) as (_ & <- & <-).
    rewrite (names_det _ _ _ Hn3 Hn2) in *. rewrite (target_one _ _ _ _ Ht3 Ht2) in Hch. rewrite <- Ep in Hch. destruct Hch as (f4 & q4 & e4 & M4 & Hch).
    destruct (meaning_one _ _ _ _ _ _ _ _ _ M4 M2) as (-> & -> & ->).
    assert (d3 = op_data op2) as ->.
    { destruct Hch as [(X & _)|[_ P3]]; [discriminate X|]. apply (placed_one _ _ _ _ _ P3 P2). }
    rewrite (reordered_det _ _ _ _ Hnew Hnew3) in Hout3. exact Hout3.
  Qed.

  (** Without a name. *)
  Lemma put_unnamed order system ft ow addr img src w w' s :
    run (PutCmd_Run iter fuel order system ft ow addr img [] src) w = (w', Ok tt) ->
    input w src s -> s <> [] ->
    exists c o d t d' new,
      input w img c /\ naked_image c o d /\ (ProdosSpec.an_order iter -> only_seen img order system c o d) /\ names_on d t /\
      output w w' img new /\ naked_image new o d' /\
      forall f, put_meaning d t [] f [] true -> f <> 3 -> f <> 4 ->
      forall k order2 system2 ft2 ow2 addr2 img2 src2 s2 w2 w3, (system2 = s2b "auto" \/ system2 = s2b "nakedos") -> ProdosSpec.an_order iter ->
        seen_as img2 order2 new (s2b "nakedos") d' o -> input w2 img2 new -> input w2 src2 s2 -> s2 <> [] ->
        run (PutCmd_Run iter k order2 system2 ft2 ow2 addr2 img2 [] src2) w2 = (w3, Ok tt) -> exists new2 d2, output w2 w3 img2 new2 /\ naked_image new2 o d2 /\
          file_on d2 f = padded s /\ exists g, g <> f /\ legal g /\ file_on d' g = [] /\ file_on d2 g = padded s2.
  Proof.
    intros H Hs Hne. assert (Ha : is_ascii []) by constructor.
    destruct (put_changes_run iter fuel _ _ _ _ _ _ _ _ _ _ _ H Hs Hne Ha) as (c & o & d & t & d' & new & Hc & Hni & Hon & Hn & Hout & Hnew & f1 & q1 & e1 & M1 & Hch).
    exists c, o, d, t, d', new. split; [exact Hc|]. split; [exact Hni|]. split; [exact Hon|]. split; [exact Hn|]. split; [exact Hout|]. split; [exact Hnew|].
    intros f M N3 N4 k order2 system2 ft2 ow2 addr2 img2 src2 s2 w2 w3 Hsys Hi Hseen Hin Hsrc Hne2 H2.
    destruct (meaning_one _ _ _ _ _ _ _ _ _ M1 M) as (-> & -> & ->). clear M1.
    destruct Hch as [(_ & X & _)|[_ P1]]; [contradiction X; reflexivity|].
    inversion M as [| |n0 f0 Hcol Hnr Hf Hf0 Hbelow E1 E2 E3| |p q f0 N C X Y E]; [|symmetry in E; destruct p; discriminate E].
    assert (legal 3 /\ legal 4) as [G3 G4] by (unfold legal; lia). pose proof (proj2 Hni) as Hfl. pose proof (proj2 Hnew) as Hfl2.
    assert (Hn' : names_on d' t).
    { apply (names_same d); [exact Hfl|exact Hfl2| | |exact Hn]; apply (placed_keeps d _ f s _ _ Hfl P1); (assumption || lia). }
    destruct (put_changes_run iter k _ _ _ _ _ _ _ _ _ _ _ H2 Hsrc Hne2 Ha) as (c2 & o2 & d2 & t3 & d3 & new3 & Hc3 & _ & Hon3 & Hn3 & Hout3 & Hnew3 & g & q3 & e3 & M3 & Hch).
    rewrite (input_one _ _ _ _ Hc3 Hin) in *. destruct (Hon3 Hi _ _ _ Hseen Hsys) as (_ & <- & <-).
    rewrite (names_det _ _ _ Hn3 Hn') in *.
    pose proof (placed_file _ _ _ _ Hf P1) as Hc1.
    inversion M3 as [n5 f5 X|n5 f5 X Y Z0|n5 f5 Hcol5 Hnr5 Hg Hg0 Hbelow5| p q f5 N C X Y E|p q f5 N C X Y E];
      [contradiction (numeric_nil _ X)|contradiction (Hnr g); right; split; [exact Y|exact Z0]| |destruct p; discriminate E|destruct p; discriminate E].
    assert (Hgf : g <> f) by (intros ->; rewrite Hc1 in Hg0; apply (padded_nonempty s Hne Hg0)).
    destruct Hch as [(_ & X & _)|[_ P3]]; [congruence|].
    exists new3, d3. split; [exact Hout3|]. split; [exact Hnew3|].
    split; [rewrite (placed_keeps d' _ g s2 d3 f Hfl2 P3) by (assumption || congruence); exact Hc1|].
    exists g. split; [exact Hgf|]. split; [exact Hg|]. split; [exact Hg0|]. apply (placed_file _ _ _ _ Hg P3).
  Qed.
End Run.
