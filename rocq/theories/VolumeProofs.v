(** VolumeProofs.v -- listing any ProDOS volume. *)
From Verif Require Import GoBase GoLemmas DiskModel DiskSpec TypesModel ProdosModel ProdosSpec ProdosCodecProofs ProdosBitmapProofs ProdosProofs ProdosStmtProofs ProdosTwinProofs VolumeSpec.
From Coq Require Import ZifyBool ZifyNat Permutation.
Ltac Zify.zify_post_hook ::= Z.div_mod_to_equations.
Local Opaque zrange zeros sub.

(** ** Deciding reachability *)
Section Reach.
  Variables (R : Z -> Z -> Prop).
  Hypothesis R_dec : forall x y, R x y \/ ~ R x y.
  (** Paths through the points of [S]. *)
  Inductive via (S : list Z) : Z -> Z -> Prop :=
  | via_1 x y : R x y -> via S x y
  | via_S x z y : R x z -> In z S -> via S z y -> via S x y.
  Lemma via_mono (S T : list Z) x y : incl S T -> via S x y -> via T x y.
  Proof. intros I H. induction H; [apply via_1; assumption | eapply via_S; eauto]. Qed.
  Lemma via_app (S : list Z) x z y : via S x z -> In z S -> via S z y -> via S x y.
  Proof. intros H I. induction H; intros; [eapply via_S; eauto | eapply via_S; eauto]. Qed.
  Lemma via_split (S : list Z) z x y : via (z :: S) x y -> via S x y \/ (via S x z /\ via S z y).
  Proof.
    induction 1 as [x y H|x w y H I _ IH]; [left; apply via_1; exact H|]. destruct I as [->|I].
    - destruct IH as [IH|[_ IH]]; right; (split; [apply via_1; exact H | exact IH]).
    - destruct IH as [IH|[I1 I2]]; [left; eapply via_S; eassumption | right; split; [eapply via_S; eassumption | exact I2]].
  Qed.
  Lemma via_dec (S : list Z) : forall x y, via S x y \/ ~ via S x y.
  Proof.
    induction S as [|z S IH]; intros x y.
    - destruct (R_dec x y) as [H|H]; [left; apply via_1; exact H|]. right. intros V. inversion V as [? ? H'|? ? ? ? []]; contradiction.
    - destruct (IH x y) as [H|H]; [left; revert H; apply via_mono; intros w; right; assumption|].
      destruct (IH x z) as [H1|H1]; [destruct (IH z y) as [H2|H2]|].
      + left. assert (incl S (z :: S)) as I by (intros w; right; assumption).
        apply (via_app _ _ z); [revert H1; apply via_mono; exact I | left; reflexivity | revert H2; apply via_mono; exact I].
      + right. intros V. apply via_split in V as [V|[_ V]]; contradiction.
      + right. intros V. apply via_split in V as [V|[V _]]; contradiction.
  Qed.
  Variable lim : list Z.
  Hypothesis R_lim : forall x y, R x y -> In y lim.
  Lemma steps_via x y : steps R x y <-> via lim x y.
  Proof.
    split.
    - induction 1 as [x y H|x z y H _ IH]; [apply via_1; exact H | eapply via_S; [exact H | apply (R_lim _ _ H) | exact IH]].
    - induction 1 as [x y H|x z y H _ _ IH]; [apply steps_1; exact H | eapply steps_S; eassumption].
  Qed.
  Lemma steps_dec x y : steps R x y \/ ~ steps R x y.
  Proof. destruct (via_dec lim x y) as [H|H]; [left; apply steps_via; exact H | right; intros V; apply H, steps_via, V]. Qed.
  Lemma steps_lim x y : steps R x y -> In y lim.
  Proof. induction 1; eauto. Qed.
  Lemma list_ex_dec (P : Z -> Prop) : (forall x, P x \/ ~ P x) -> forall l : list Z, (exists x, In x l /\ P x) \/ forall x, In x l -> ~ P x.
  Proof.
    intros D. induction l as [|x l IH]; [right; intros ? []|]. destruct (D x) as [H|H]; [left; exists x; split; [left; reflexivity | exact H]|].
    destruct IH as [(y & I & Hy)|IH]; [left; exists y; split; [right; exact I | exact Hy]|]. right. intros y [<-|I]; [exact H | apply IH; exact I].
  Qed.
  (** From [k] one gets to a cycle, or not. *)
  Lemma cycle_dec k : (exists z, (z = k \/ steps R k z) /\ steps R z z) \/ Acc (fun y x => R x y) k.
  Proof.
    destruct (list_ex_dec (fun z => (z = k \/ steps R k z) /\ steps R z z)) with (l := lim) as [(z & _ & H)|H].
    - intros z. destruct (steps_dec z z) as [C|C]; [|right; intros [_ C']; contradiction]. destruct (Z.eq_dec z k) as [E|E]; [left; split; [left; exact E | exact C]|].
      destruct (steps_dec k z) as [S|S]; [left; split; [right; exact S | exact C] | right; intros [[E'|S'] _]; contradiction].
    - left. exists z. exact H.
    - right. apply (acyclic_Acc _ lim R_lim). intros z S C. apply (H z); [apply (steps_lim _ _ C) | split; [right; exact S | exact C]].
  Qed.
End Reach.

(** ** Chains and directories *)
Lemma walk_rest d n l q : walk d n l q -> forall l', bchain d n l' -> exists l'', bchain d q l''.
Proof. induction 1 as [n|n l q N D W IH]; intros l' C; [eauto|]. inversion C; subst; [congruence|]. eapply IH; eassumption. Qed.
Lemma leaves_not d k : leaves d k -> ~ readable d k.
Proof.
  intros H [l [D C]]. destruct H as [H|(l1 & q & W & N & O)]; [contradiction|]. destruct (walk_rest d _ _ _ W _ C) as [l2 C2]. inversion C2; subst; contradiction.
Qed.
Lemma loops_not d k : loops d k -> ~ readable d k.
Proof. intros [_ H] [l [D C]]. exact (chain_not_cyclic d _ l C H). Qed.
Lemma chain_dec d n : bytes_ok d -> chain_cyclic d n \/ ~ chain_cyclic d n.
Proof.
  intros B. destruct (cycle_dec (next_step d)) with (lim := u16s) (k := n) as [(z & Hz & C)|A].
  - intros x y. unfold next_step. destruct (Z.eq_dec x 0) as [->|N]; [right; intros (H & _); congruence|].
    destruct (in_dev_dec d x) as [D|D]; [|right; intros (_ & H & _); contradiction].
    destruct (Z.eq_dec y (next_block d x)) as [->|E]; [left; auto | right; intros (_ & _ & H); contradiction].
  - intros x y (_ & _ & ->). apply In_u16s, next_u16. exact B.
  - left. apply steps_walk in C as (l2 & N2 & W2). destruct Hz as [->|Hz].
    + exists l2, n. split; [exact W2 | eapply walk_head; eassumption].
    + apply steps_walk in Hz as (l1 & N1 & W1). exists (l1 ++ l2), z. split; [eapply walk_app; eassumption|]. apply in_or_app. right. eapply walk_head; eassumption.
  - right. intros C. induction A as [n _ IH]. destruct (cyclic_step d n C) as (N & D & C'). apply (IH (next_block d n)); [split; [exact N | split; [exact D | reflexivity]] | exact C'].
Qed.
Lemma dir_cases d k : bytes_ok d -> readable d k \/ leaves d k \/ loops d k.
Proof.
  intros B. destruct (in_dev_dec d k) as [D|D]; [|right; left; left; exact D]. destruct (chain_dec d (next_block d k) B) as [C|C]; [right; right; split; assumption|].
  destruct (chain_classes d _ B C) as [O|[l L]]; [right; left; right; exact O | left; exists l; split; assumption].
Qed.
Lemma readable_dec d k : bytes_ok d -> readable d k \/ ~ readable d k.
Proof. intros B. destruct (dir_cases d k B) as [H|[H|H]]; [left; exact H | right; apply leaves_not; exact H | right; apply loops_not; exact H]. Qed.
Lemma is_dir_det d k l l' : is_dir d k l -> is_dir d k l' -> l = l'.
Proof. intros [_ C] [_ C']. eapply bchain_det; eassumption. Qed.
Lemma child_subkeys d k l y : is_dir d k l -> (child d k y <-> In y (subkeys d k l)).
Proof.
  intros D. unfold subkeys. split.
  - intros (l' & e & D' & I & S & ->). rewrite (is_dir_det d k l l' D D'). apply in_map, filter_In. split; assumption.
  - intros H. apply in_map_iff in H as (e & <- & H). apply filter_In in H as [I S]. exists l, e. repeat split; try assumption; apply D.
Qed.
Lemma child_dec d x y : bytes_ok d -> child d x y \/ ~ child d x y.
Proof.
  intros B. destruct (readable_dec d x B) as [[l D]|N]; [|right; intros (l & e & D & _); apply N; exists l; exact D].
  destruct (in_dec Z.eq_dec y (subkeys d x l)) as [I|I]; [left | right; intros C]; [apply (child_subkeys d x l y D); exact I|]. apply I, (child_subkeys d x l y D), C.
Qed.
Definition pchild (d : bytes) (x y : Z) : Prop := 0 <= x /\ child d x y.
Lemma pchild_dec d x y : bytes_ok d -> pchild d x y \/ ~ pchild d x y.
Proof.
  intros B. unfold pchild. destruct (Z.le_gt_cases 0 x) as [H|H]; [|right; lia]. destruct (child_dec d x y B) as [C|C]; [left; auto | right; intros [_ C']; contradiction].
Qed.
Lemma pchild_lim d x y : bytes_ok d -> pchild d x y -> In y u16s.
Proof. intros B [H C]. apply In_u16s, (child_u16 d x y B H C). Qed.
Lemma steps_pchild d x y : bytes_ok d -> 0 <= x -> (steps (pchild d) x y <-> steps (child d) x y).
Proof.
  intros B. split.
  - intros S. clear H. induction S as [x y [_ C]|x z y [_ C] _ IH]; [apply steps_1; exact C | eapply steps_S; eassumption].
  - intros S. induction S as [x y C|x z y C _ IH]; [apply steps_1; split; assumption|]. apply (steps_S _ _ z); [split; assumption|]. apply IH. apply (child_u16 d x z B H C).
Qed.
Lemma steps_nonneg d x y : bytes_ok d -> 0 <= x -> steps (child d) x y -> 0 <= y.
Proof. intros B H S. induction S as [x y C|x z y C _ IH]; [apply (child_u16 d x y B H C) | apply IH, (child_u16 d x z B H C)]. Qed.

(** ** Levels *)
Lemma below_dec d ks : bytes_ok d -> (exists ks', below d ks ks') \/ exists pre k post, ks = pre ++ k :: post /\ (forall x, In x pre -> readable d x) /\ ~ readable d k.
Proof.
  intros B. induction ks as [|k ks IH]; [left; exists []; constructor|]. destruct (readable_dec d k B) as [[l D]|N].
  - destruct IH as [[ks' H]|(pre & k' & post & -> & P & N)]; [left; exists (subkeys d k l ++ ks'); constructor; assumption|].
    right. exists (k :: pre), k', post. split; [reflexivity|]. split; [|exact N]. intros x [<-|I]; [exists l; exact D | apply P; exact I].
  - right. exists [], k, ks. split; [reflexivity|]. split; [intros x [] | exact N].
Qed.
Lemma below_in d ks ks' : below d ks ks' -> forall y, In y ks' <-> exists x, In x ks /\ child d x y.
Proof.
  induction 1 as [|k l ks ks' D _ IH]; intros y; [split; [intros [] | intros (x & [] & _)]|]. rewrite in_app_iff, IH, <- (child_subkeys d k l y D). split.
  - intros [C|(x & I & C)]; [exists k | exists x]; (split; [cbn [In]; auto | exact C]).
  - intros (x & [<-|I] & C); [left; exact C | right; exists x; auto].
Qed.
Lemma below_readable d ks ks' : below d ks ks' -> forall x, In x ks -> readable d x.
Proof. induction 1 as [|k l ks ks' D _ IH]; intros x []; [subst; exists l; exact D | apply IH; assumption]. Qed.
Lemma level_reach d n ks : level d n ks -> forall x, In x ks -> steps (child d) 2 x.
Proof.
  induction 1 as [l D|n ks ks' _ IH H]; intros x I; [apply steps_1, (child_subkeys d 2 l x D), I|].
  apply (below_in d ks ks' H) in I as (y & I & C). apply (steps_snoc _ _ y); [apply IH; exact I | exact C].
Qed.
Lemma fault_reach d k : first_fault d k -> steps (child d) 2 k.
Proof. intros (n & pre & post & L & _). apply (level_reach d n _ L). apply in_or_app. right. left. reflexivity. Qed.
Lemma level_next d n ks : bytes_ok d -> level d n ks -> (exists ks', below d ks ks') \/ exists k, first_fault d k.
Proof.
  intros B L. destruct (below_dec d ks B) as [H|(pre & k & post & -> & P & N)]; [left; exact H|]. right. exists k, n, pre, post. auto.
Qed.
(** Everything reachable is on some level, unless there is a fault before. *)
Lemma reach_level d k : bytes_ok d -> readable d 2 -> steps (child d) 2 k -> (exists n ks, level d n ks /\ In k ks) \/ exists k', first_fault d k'.
Proof.
  intros B [l D] S.
  assert (forall x y, steps (child d) x y -> forall n ks, level d n ks -> In x ks -> (exists n' ks', level d n' ks' /\ In y ks') \/ exists k', first_fault d k') as G.
  { clear k S. intros x y S. induction S as [x y C|x z y C _ IH]; intros n ks L I.
    - destruct (level_next d n ks B L) as [[ks' H]|F]; [left | right; exact F]. exists (Datatypes.S n), ks'. split; [econstructor; eassumption|]. apply (below_in d ks ks' H). exists x. auto.
    - destruct (level_next d n ks B L) as [[ks' H]|F]; [|right; exact F]. apply (IH (Datatypes.S n) ks'); [econstructor; eassumption|]. apply (below_in d ks ks' H). exists x. auto. }
  assert (level d 0 (subkeys d 2 l)) as L0 by (constructor; exact D).
  remember 2 as r eqn:Er. destruct S as [r y C|r z y C S]; subst r.
  - left. exists 0%nat, (subkeys d 2 l). split; [exact L0 | apply (child_subkeys d 2 l y D), C].
  - apply (G z y S 0%nat (subkeys d 2 l) L0). apply (child_subkeys d 2 l z D), C.
Qed.
Lemma fault_exists d k : bytes_ok d -> readable d 2 -> steps (child d) 2 k -> ~ readable d k -> exists k', first_fault d k'.
Proof.
  intros B D S N. destruct (reach_level d k B D S) as [(n & ks & L & I)|F]; [|exact F]. destruct (level_next d n ks B L) as [[ks' H]|F]; [|exact F].
  exfalso. apply N, (below_readable d ks ks' H k I).
Qed.
(** A volume without faults and without cycles has finitely many levels. *)
Fixpoint bounded (d : bytes) (h : nat) (k : Z) : Prop := match h with O => False | S h => forall y, child d k y -> bounded d h y end.
Lemma bounded_mono d h : forall k h', bounded d h k -> (h <= h')%nat -> bounded d h' k.
Proof. induction h as [|h IH]; intros k h' H L; [destruct H|]. destruct h' as [|h']; [lia|]. intros y C. apply (IH y h'); [apply H; exact C | lia]. Qed.
Lemma bounded_list d ks : (forall k, In k ks -> exists h, bounded d h k) -> exists h, forall k, In k ks -> bounded d h k.
Proof.
  induction ks as [|k ks IH]; intros H; [exists 0%nat; intros ? []|]. destruct (H k (or_introl eq_refl)) as [h1 H1]. destruct IH as [h2 H2]; [intros x I; apply H; right; exact I|].
  exists (h1 + h2)%nat. intros x [<-|I]; [apply (bounded_mono d h1); [exact H1 | lia] | apply (bounded_mono d h2); [apply H2; exact I | lia]].
Qed.
Lemma Acc_bounded d k : bytes_ok d -> 0 <= k -> Acc (fun y x => pchild d x y) k -> exists h, bounded d h k.
Proof.
  intros B H A. induction A as [k _ IH]. destruct (readable_dec d k B) as [[l D]|N].
  - destruct (bounded_list d (subkeys d k l)) as [h Hh].
    + intros y I. apply (child_subkeys d k l y D) in I. apply (IH y); [split; assumption | apply (child_u16 d k y B H I)].
    + exists (S h). intros y C. apply Hh, (child_subkeys d k l y D), C.
  - exists 1%nat. intros y (l & e & D & _). exfalso. apply N. exists l. exact D.
Qed.
Lemma bounded_levels d h : bytes_ok d -> forall ks, (forall x y, In x ks -> y = x \/ steps (child d) x y -> readable d y) -> (forall x, In x ks -> bounded d h x) -> exists rest, levels d ks rest.
Proof.
  intros B. induction h as [|h IH]; intros ks R Hb.
  - destruct ks as [|k ks]; [exists []; constructor|]. destruct (Hb k (or_introl eq_refl)).
  - destruct (below_dec d ks B) as [[ks' H]|(pre & k & post & -> & _ & N)].
    + destruct (IH ks') as [rest L].
      * intros x y I Hy. apply (below_in d ks ks' H) in I as (w & I & C). apply (R w y I). right. destruct Hy as [->|S]; [apply steps_1; exact C | eapply steps_S; eassumption].
      * intros x I. apply (below_in d ks ks' H) in I as (w & I & C). apply (Hb w I). exact C.
      * exists (ks ++ rest). econstructor; eassumption.
    + exfalso. apply N, (R k k); [apply in_or_app; right; left; reflexivity | left; reflexivity].
Qed.
(** The three kinds of volumes whose volume directory is readable. *)
Lemma volume_cases d : bytes_ok d -> readable d 2 -> (exists k, first_fault d k) \/ endless d \/ exists ks, in_order d ks.
Proof.
  intros B [l D].
  destruct (list_ex_dec (fun k => steps (pchild d) 2 k /\ ~ readable d k)) with (l := u16s) as [(k & _ & S & N)|Hr].
  { intros k. destruct (readable_dec d k B) as [H|H]; [right; intros [_ N]; contradiction|].
    destruct (steps_dec (pchild d) (fun x y => pchild_dec d x y B) u16s (fun x y => pchild_lim d x y B) 2 k) as [S|S]; [left; auto | right; intros [S' _]; contradiction]. }
  { left. apply (fault_exists d k B); [exists l; exact D | apply (steps_pchild d 2 k B); [lia | exact S] | exact N]. }
  right. assert (forall k, steps (child d) 2 k -> readable d k) as R.
  { intros k S. destruct (readable_dec d k B) as [H|H]; [exact H|]. exfalso. apply (steps_pchild d 2 k B ltac:(lia)) in S.
    apply (Hr k); [apply (steps_lim (pchild d) u16s (fun x y => pchild_lim d x y B) 2 k S) | split; assumption]. }
  destruct (cycle_dec (pchild d) (fun x y => pchild_dec d x y B) u16s (fun x y => pchild_lim d x y B) 2) as [(z & Hz & C)|A].
  - left. split; [exists l; exact D|]. split; [exact R|]. destruct Hz as [->|Hz].
    + exists 2. assert (steps (child d) 2 2) as H by (apply (steps_pchild d 2 2 B); [lia | exact C]). split; exact H.
    + exists z. apply (steps_pchild d 2 z B ltac:(lia)) in Hz. split; [exact Hz|]. apply (steps_pchild d z z B); [apply (steps_nonneg d 2 z B ltac:(lia) Hz) | exact C].
  - right. destruct (Acc_bounded d 2 B ltac:(lia) A) as [h Hh]. destruct h as [|h]; [destruct Hh|].
    destruct (bounded_levels d h B (subkeys d 2 l)) as [rest L].
    + intros x y I Hy. apply (child_subkeys d 2 l x D) in I. apply R. destruct Hy as [->|S]; [apply steps_1; exact I | eapply steps_S; eassumption].
    + intros x I. apply Hh, (child_subkeys d 2 l x D), I.
    + exists rest, l. split; assumption.
Qed.

(** ** Reading the subdirectories *)
Inductive runs (d : bytes) : list Z -> list (Z * list Z) -> list Z -> Prop :=
| runs_nil q : runs d q [] q
| runs_cons k l q vs q' : is_dir d k l -> runs d (q ++ subkeys d k l) vs q' -> runs d (k :: q) ((k, l) :: vs) q'.
Lemma runs_app d q vs q' : runs d q vs q' -> forall ws q'', runs d q' ws q'' -> runs d q (vs ++ ws) q''.
Proof. induction 1; intros; cbn [app]; [assumption | constructor; auto]. Qed.
Lemma runs_dirs d q vs q' : runs d q vs q' -> Forall (fun x => is_dir d (fst x) (snd x)) vs.
Proof. induction 1; constructor; assumption. Qed.
Lemma below_runs d ks ks' : below d ks ks' -> forall acc, exists vs, map fst vs = ks /\ runs d (ks ++ acc) vs (acc ++ ks').
Proof.
  induction 1 as [|k l ks ks' D _ IH]; intros acc; [exists []; split; [reflexivity | cbn [app]; rewrite app_nil_r; constructor]|].
  destruct (IH (acc ++ subkeys d k l)) as (vs & E & H). exists ((k, l) :: vs). split; [cbn [map fst]; rewrite E; reflexivity|].
  cbn [app]. constructor; [exact D|]. rewrite <- !app_assoc in *. exact H.
Qed.
Lemma part_runs d pre : forall rest, (forall x, In x pre -> readable d x) -> exists vs q', runs d (pre ++ rest) vs (rest ++ q').
Proof.
  induction pre as [|k pre IH]; intros rest R; [exists [], []; rewrite app_nil_r; constructor|]. destruct (R k (or_introl eq_refl)) as [l D].
  destruct (IH (rest ++ subkeys d k l)) as (vs & q' & H); [intros x I; apply R; right; exact I|].
  exists ((k, l) :: vs), (subkeys d k l ++ q'). cbn [app]. constructor; [exact D|]. rewrite <- !app_assoc in *. exact H.
Qed.
Lemma level_runs d n ks : level d n ks -> exists l vs, is_dir d 2 l /\ runs d (subkeys d 2 l) vs ks.
Proof.
  induction 1 as [l D|n ks ks' _ (l & vs & D & H) Hb]; [exists l, []; split; [exact D | constructor]|].
  destruct (below_runs d ks ks' Hb []) as (ws & _ & W). rewrite app_nil_r in W. cbn [app] in W. exists l, (vs ++ ws). split; [exact D | eapply runs_app; eassumption].
Qed.
Lemma fault_runs d k : first_fault d k -> exists l vs q, is_dir d 2 l /\ runs d (subkeys d 2 l) vs (k :: q).
Proof.
  intros (n & pre & post & L & P & _). destruct (level_runs d n _ L) as (l & vs & D & H). destruct (part_runs d pre (k :: post) P) as (ws & q' & W).
  exists l, (vs ++ ws), (post ++ q'). split; [exact D|]. eapply runs_app; eassumption.
Qed.
Lemma levels_runs d q ks : levels d q ks -> exists vs, map fst vs = ks /\ runs d q vs [].
Proof.
  induction 1 as [|ks ks' rest Hb _ (ws & E & W)]; [exists []; split; [reflexivity | constructor]|].
  destruct (below_runs d ks ks' Hb []) as (vs & Ev & V). rewrite app_nil_r in V. cbn [app] in V. exists (vs ++ ws). split; [rewrite map_app, Ev, E; reflexivity | eapply runs_app; eassumption].
Qed.
Lemma subkeys_descs d k l : map f_KeyPointer (map pfd_of (filter is_subdir (dir_entries d k l))) = subkeys d k l.
Proof. rewrite map_map. reflexivity. Qed.
Lemma subkeys_nonneg d k l : bytes_ok d -> 0 <= k -> is_dir d k l -> Forall (fun x => 0 <= x) (subkeys d k l).
Proof. intros B H D. apply Forall_forall. intros y I. apply (child_subkeys d k l y D) in I. apply (child_u16 d k y B H I). Qed.
Lemma readSubdirs_runs d : bytes_ok d -> forall q vs q', runs d q vs q' -> Forall (fun x => 0 <= x) q -> forall qd, map f_KeyPointer qd = q ->
  exists N qd', map f_KeyPointer qd' = q' /\ Forall (fun x => 0 <= x) q' /\ Forall (fun x => 0 <= fst x) vs /\ forall byB fi fuel, (N <= fuel)%nat ->
    readSubdirs (length vs + fuel) d qd byB fi = readSubdirs fuel d qd' (mputs Z.eqb (map (sub_entry d) vs) byB) (mputs Z.eqb (flat_map block_entries vs) fi).
Proof.
  intros B q vs q' H. induction H as [q|k l q vs q' D _ IH]; intros F qd E; [exists 0%nat, qd; split; [exact E|]; split; [exact F|]; split; [constructor | intros; reflexivity]|].
  destruct qd as [|sdd qd]; [discriminate|]. cbn [map] in E. injection E as Ek E. inversion F as [|? ? F0 F']; subst.
  destruct (IH) with (qd := qd ++ sd_subdirDescriptors (mk_sub d (f_KeyPointer sdd) l)) as (N & qd' & Eq & Fq & Fv & Hr).
  - apply Forall_app. split; [exact F' | apply subkeys_nonneg; assumption].
  - rewrite map_app, sub_subdirs, subkeys_descs. reflexivity.
  - exists (N + length l)%nat, qd'. split; [exact Eq|]. split; [exact Fq|]. split; [constructor; assumption|]. intros byB fi fuel Hf. cbn [length plus readSubdirs].
    rewrite (readSubdirectory_ok d sdd l) by (try assumption; lia). cbn [obind sd_blocks mk_sub]. rewrite Hr by lia.
    cbn [map flat_map]. rewrite mputs_app, record_puts, vfirst_puts. reflexivity.
Qed.

(** ** The maps *)
Definition owner_in (all : list (Z * list Z)) (b k : Z) : Prop := exists pre post l, all = pre ++ (k, l) :: post /\ In b l /\ forall y, In y post -> ~ In b (snd y).
Lemma mget_put {K V} (eqk : K -> K -> bool) (ok : forall a b, eqk a b = true <-> a = b) k v k' (m : list (K * V)) :
  mget eqk k' (mput eqk k v m) = if eqk k k' then Some v else mget eqk k' m.
Proof.
  unfold mget, mput. cbn [find fst]. destruct (eqk k k') eqn:E; [reflexivity|]. induction m as [|[a b] m IH]; [reflexivity|]. cbn [filter find fst].
  destruct (eqk a k) eqn:E1; cbn [negb].
  - apply ok in E1. subst. rewrite E. exact IH.
  - cbn [find fst]. destruct (eqk a k'); [reflexivity | exact IH].
Qed.
Lemma mget_blocks b (x : Z * list Z) m : (In b (snd x) -> mget Z.eqb b (mputs Z.eqb (block_entries x) m) = Some (fst x)) /\
  (~ In b (snd x) -> mget Z.eqb b (mputs Z.eqb (block_entries x) m) = mget Z.eqb b m).
Proof.
  destruct x as [k l]. unfold block_entries. cbn [fst snd]. revert m. induction l as [|c l IH] using rev_ind; intros m; [split; [intros [] | reflexivity]|].
  rewrite map_app, mputs_app. cbn [map mputs fold_left fst snd]. rewrite (mget_put Z.eqb Zeqb_ok). destruct (Z.eqb_spec c b) as [->|N].
  - split; [reflexivity|]. intros H. exfalso. apply H, in_or_app. right. left. reflexivity.
  - rewrite in_app_iff. cbn [In]. split; [intros [H|[H|[]]]; [apply (proj1 (IH m)); exact H | congruence] | intros H; apply (proj2 (IH m)); intros I; apply H; left; exact I].
Qed.
Lemma first_get all b k : mget Z.eqb b (mputs Z.eqb (flat_map block_entries all) []) = Some k <-> owner_in all b k.
Proof.
  induction all as [|x all IH] using rev_ind; [split; [discriminate | intros (pre & post & l & E & _); destruct pre; discriminate]|].
  rewrite flat_map_app, mputs_app. cbn [flat_map]. rewrite app_nil_r. destruct (mget_blocks b x (mputs Z.eqb (flat_map block_entries all) [])) as [H1 H2].
  destruct (in_dec Z.eq_dec b (snd x)) as [I|I].
  - rewrite (H1 I). destruct x as [k0 l0]. cbn [fst snd] in *. split.
    + intros E. injection E as ->. exists all, [], l0. split; [reflexivity|]. split; [exact I | intros y []].
    + intros (pre & post & l & E & Ib & P). destruct post as [|y post] using rev_ind.
      * apply app_inj_tail in E as [_ E]. injection E as -> _. reflexivity.
      * exfalso. rewrite app_comm_cons, app_assoc in E. apply app_inj_tail in E as [_ <-]. apply (P (k0, l0)); [apply in_or_app; right; left; reflexivity | exact I].
  - rewrite (H2 I), IH. split.
    + intros (pre & post & l & -> & Ib & P). exists pre, (post ++ [x]), l. split; [rewrite <- app_assoc; reflexivity|]. split; [exact Ib|].
      intros y Hy. apply in_app_or in Hy as [Hy|[<-|[]]]; [apply P; exact Hy | exact I].
    + intros (pre & post & l & E & Ib & P). destruct post as [|y post _] using rev_ind.
      * exfalso. apply app_inj_tail in E as [_ ->]. apply I. exact Ib.
      * rewrite app_comm_cons, app_assoc in E. apply app_inj_tail in E as [-> _]. exists pre, post, l. split; [reflexivity|]. split; [exact Ib|]. intros z Hz. apply P, in_or_app. left. exact Hz.
Qed.
Lemma map_fst_split (vs : list (Z * list Z)) : forall pre k post, map fst vs = pre ++ k :: post -> exists v1 l v2, vs = v1 ++ (k, l) :: v2 /\ map fst v1 = pre /\ map fst v2 = post.
Proof.
  induction vs as [|[a b] vs IH]; intros [|p pre] k post E; cbn [map fst app] in E; try discriminate.
  - injection E as -> <-. exists [], b, vs. auto.
  - injection E as -> E. destruct (IH _ _ _ E) as (v1 & l & v2 & -> & <- & <-). exists ((p, b) :: v1), l, v2. auto.
Qed.
Lemma owner_iff d l2 vs b k : is_dir d 2 l2 -> Forall (fun x => is_dir d (fst x) (snd x)) vs -> (owner_in ((2, l2) :: vs) b k <-> owner d (map fst vs) b k).
Proof.
  intros D F. assert (Forall (fun x => is_dir d (fst x) (snd x)) ((2, l2) :: vs)) as F2 by (constructor; assumption). split.
  - intros (pre & post & l & E & I & P). exists (map fst pre), (map fst post), l. split; [change (2 :: map fst vs) with (map fst ((2, l2) :: vs)); rewrite E, map_app; reflexivity|].
    rewrite E, Forall_app in F2. destruct F2 as [_ F2]. inversion F2 as [|? ? D2 F3]; subst. split; [exact D2|]. split; [exact I|].
    intros k' l' Ik Dk. apply in_map_iff in Ik as ([k2 l3] & <- & Ik). cbn [fst] in Dk. rewrite Forall_forall in F3. specialize (F3 _ Ik). cbn [fst snd] in F3.
    rewrite (is_dir_det d k2 l' l3 Dk F3). apply (P _ Ik).
  - intros (pre & post & l & E & Dk & I & P). change (2 :: map fst vs) with (map fst ((2, l2) :: vs)) in E. apply map_fst_split in E as (v1 & l' & v2 & E & _ & <-).
    rewrite E, Forall_app in F2. destruct F2 as [_ F2]. inversion F2 as [|? ? D2 F3]; subst. cbn [fst snd] in D2. rewrite (is_dir_det d k l' l D2 Dk) in E.
    exists v1, v2, l. split; [exact E|]. split; [exact I|]. intros [k' l''] Iy. rewrite Forall_forall in F3. apply (P k' l''); [apply (in_map fst _ (k', l'')); exact Iy | apply (F3 _ Iy)].
Qed.
Lemma bykey_get d vs k l : Forall (fun x => is_dir d (fst x) (snd x)) vs -> is_dir d k l -> In k (map fst vs) ->
  mget Z.eqb k (mputs Z.eqb (map (sub_entry d) vs) []) = Some (mk_sub d k l).
Proof.
  intros F D I. destruct (last_key Z.eq_dec k vs I) as (pre & l' & post & -> & N). rewrite Forall_app in F. destruct F as [_ F]. inversion F as [|? ? D2 _]; subst. cbn [fst snd] in D2.
  rewrite (is_dir_det d k l' l D2 D). rewrite map_app. cbn [map]. change (sub_entry d (k, l)) with (k, mk_sub d k l).
  apply (mputs_at Z.eqb Zeqb_ok). intros H. apply N. rewrite map_map in H. exact H.
Qed.
Lemma bykey_none d vs k : ~ In k (map fst vs) -> mget Z.eqb k (mputs Z.eqb (map (sub_entry d) vs) []) = None.
Proof.
  intros N. apply (mget_None Z.eqb Zeqb_ok). intros H. apply mputs_keys in H as [H|[]]. apply N. rewrite map_map in H. exact H.
Qed.

(** ** Paths *)
Section Parents.
  Variables (d : bytes) (l2 : list Z) (vs : list (Z * list Z)).
  Hypothesis B : bytes_ok d.
  Hypothesis D2 : is_dir d 2 l2.
  Hypothesis F : Forall (fun x => is_dir d (fst x) (snd x)) vs.
  Hypothesis Fn : Forall (fun x => 0 <= fst x) vs.
  Let ks := map fst vs.
  Definition by_key : list (Z * Subdirectory) := mputs Z.eqb (map (sub_entry d) vs) [].
  Definition by_block : list (Z * Z) := mputs Z.eqb (flat_map block_entries ((2, l2) :: vs)) [].
  Lemma key_dir k : In k ks -> exists l, is_dir d k l /\ 0 <= k.
  Proof.
    intros I. apply in_map_iff in I as ([k' l] & <- & I). rewrite Forall_forall in F, Fn. exists l. split; [apply (F _ I) | apply (Fn _ I)].
  Qed.
  Lemma owner_get b k : mget Z.eqb b by_block = Some k <-> owner d ks b k.
  Proof. unfold by_block. rewrite first_get. apply owner_iff; assumption. Qed.
  Lemma owner_key b k : owner d ks b k -> k = 2 \/ In k ks.
  Proof.
    intros (pre & post & l & E & _). assert (In k (2 :: ks)) as I by (rewrite E; apply in_or_app; right; left; reflexivity). destruct I as [<-|I]; auto.
  Qed.
  Lemma at_root_get b : ((b =? 2) || (match mget Z.eqb b by_block with Some b => b | None => 0 end =? 2)) = true <-> at_root d ks b.
  Proof.
    unfold at_root. rewrite orb_true_iff, Z.eqb_eq. destruct (mget Z.eqb b by_block) as [z|] eqn:E.
    - rewrite Z.eqb_eq. split; (intros [H|H]; [left; exact H | right]); [subst z; apply owner_get; exact E|]. apply owner_get in H. congruence.
    - split; (intros [H|H]; [left; exact H|]); [discriminate|]. apply owner_get in H. congruence.
  Qed.
  Lemma at_root_dec b : at_root d ks b \/ ~ at_root d ks b.
  Proof.
    destruct ((b =? 2) || (match mget Z.eqb b by_block with Some b => b | None => 0 end =? 2)) eqn:E; [left; apply at_root_get; exact E | right; intros H; apply at_root_get in H; congruence].
  Qed.
  Lemma dir_at_key b k : dir_at d ks b k -> In k ks.
  Proof. intros [N [[I ->]|[_ O]]]; [exact I|]. destruct (owner_key b k O) as [->|I]; [|exact I]. exfalso. apply N. right. exact O. Qed.
  Lemma dir_at_det b k k' : dir_at d ks b k -> dir_at d ks b k' -> k = k'.
  Proof.
    intros [_ [[I ->]|[N O]]] [_ [[I' ->]|[N' O']]]; try contradiction; [reflexivity|]. apply owner_get in O, O'. congruence.
  Qed.
  Lemma dir_at_cases b : at_root d ks b \/ (exists k, dir_at d ks b k) \/ (~ at_root d ks b /\ ~ In b ks /\ mget Z.eqb b by_block = None).
  Proof.
    destruct (at_root_dec b) as [R|R]; [left; exact R|]. right. destruct (in_dec Z.eq_dec b ks) as [I|I]; [left; exists b; split; [exact R | left; auto]|].
    destruct (mget Z.eqb b by_block) as [k|] eqn:E; [left; exists k; split; [exact R|]; right; split; [exact I | apply owner_get; exact E]|]. right. auto.
  Qed.
  Lemma dir_at_dec b k : dir_at d ks b k \/ ~ dir_at d ks b k.
  Proof.
    destruct (dir_at_cases b) as [R|[[k' D]|(R & I & E)]]; [right; intros [N _]; contradiction | |].
    - destruct (Z.eq_dec k k') as [->|N]; [left; exact D | right; intros D'; apply N; eapply dir_at_det; eassumption].
    - right. intros [_ [[I' _]|[_ O]]]; [contradiction|]. apply owner_get in O. congruence.
  Qed.
  Lemma pdn_root b fuel : at_root d ks b -> parentDirName (S fuel) b 2 by_key by_block = Some (Ok []).
  Proof. intros R. apply at_root_get in R. cbn [parentDirName]. rewrite R. reflexivity. Qed.
  Lemma pdn_up b k fuel : dir_at d ks b k -> parentDirName (S fuel) b 2 by_key by_block =
    obind (parentDirName fuel (parent_pointer d k) 2 by_key by_block) (fun n => Some (Ok (join n (header_name d k)))).
  Proof.
    intros D. pose proof (dir_at_key b k D) as Ik. destruct (key_dir k Ik) as (l & Dk & Hk). destruct D as [N O]. cbn [parentDirName].
    destruct ((b =? 2) || _) eqn:E; [exfalso; apply N, at_root_get, E|]. cbv zeta.
    replace (match mget Z.eqb b by_key with Some sd => Some sd | None => match mget Z.eqb b by_block with Some p => mget Z.eqb p by_key | None => None end end) with (Some (mk_sub d k l)).
    - rewrite parent_of by (try assumption; apply Dk). rewrite header_name_of by (try assumption; apply Dk).
      destruct (parentDirName fuel (parent_pointer d k) 2 by_key by_block) as [[n|e|]|]; cbn [obind]; try reflexivity. rewrite <- join_eq. destruct (zlen n =? 0); reflexivity.
    - symmetry. destruct O as [[I ->]|[I O]].
      + unfold by_key. rewrite (bykey_get d vs b l F Dk I). reflexivity.
      + unfold by_key at 1. rewrite (bykey_none d vs b I). apply owner_get in O. rewrite O. apply (bykey_get d vs k l F Dk Ik).
  Qed.
  Lemma pdn_lost b fuel : ~ at_root d ks b -> (forall k, ~ dir_at d ks b k) -> exists e, parentDirName (S fuel) b 2 by_key by_block = Some (Err e).
  Proof.
    intros N H. destruct (dir_at_cases b) as [R|[[k D]|(_ & I & E)]]; [contradiction | exfalso; apply (H k D)|]. cbn [parentDirName].
    destruct ((b =? 2) || _) eqn:Er; [exfalso; apply N, at_root_get, Er|]. cbv zeta. unfold by_key. rewrite (bykey_none d vs b I), E. eauto.
  Qed.
  Lemma path_pdn b n : path_to d ks b n -> exists f, forall fuel, (f <= fuel)%nat -> parentDirName fuel b 2 by_key by_block = Some (Ok n).
  Proof.
    induction 1 as [b R|b k n D _ (f & IH)].
    - exists 1%nat. intros [|fuel] L; [lia|]. apply pdn_root. exact R.
    - exists (S f). intros [|fuel] L; [lia|]. rewrite (pdn_up b k fuel D), IH by lia. reflexivity.
  Qed.
  Lemma path_det b n n' : path_to d ks b n -> path_to d ks b n' -> n = n'.
  Proof.
    intros H H'. apply path_pdn in H as [f H], H' as [f' H']. specialize (H (f + f')%nat ltac:(lia)). specialize (H' (f + f')%nat ltac:(lia)). congruence.
  Qed.
  Lemma lost_pdn k : lost d ks k -> exists f e, forall fuel, (f <= fuel)%nat -> parentDirName fuel (parent_pointer d k) 2 by_key by_block = Some (Err e).
  Proof.
    assert (forall x z, steps (above d ks) x z -> (exists f e, parentDirName f (parent_pointer d z) 2 by_key by_block = Some (Err e)) ->
      exists f e, parentDirName f (parent_pointer d x) 2 by_key by_block = Some (Err e)) as G.
    { intros x z S. induction S as [x y U|x y w U _ IH]; intros H.
      - destruct H as (f & e & E). exists (S f), e. rewrite (pdn_up _ y f U), E. reflexivity.
      - destruct (IH H) as (f & e & E). exists (S f), e. rewrite (pdn_up _ y f U), E. reflexivity. }
    intros (z & Hz & N & H).
    assert (exists f e, parentDirName f (parent_pointer d z) 2 by_key by_block = Some (Err e)) as E by (destruct (pdn_lost _ 0 N H) as [e E]; eauto).
    assert (exists f' e', parentDirName f' (parent_pointer d k) 2 by_key by_block = Some (Err e')) as (f' & e' & E').
    { destruct Hz as [->|S]; [exact E | apply (G k z S E)]. }
    exists f', e'. intros fuel L. apply (parentDirName_mono _ _ _ _ _ _ E' fuel L).
  Qed.
  Lemma circular_up k : circular d ks k -> exists k', above d ks k k' /\ circular d ks k'.
  Proof.
    intros (z & Hz & C). assert (steps (above d ks) k z) as S by (destruct Hz as [<-|S]; assumption). inversion S as [? ? U|? y ? U S']; subst.
    - exists z. split; [exact U|]. exists z. auto.
    - exists y. split; [exact U|]. exists z. auto.
  Qed.
  Lemma circular_pdn fuel : forall k, circular d ks k -> parentDirName fuel (parent_pointer d k) 2 by_key by_block = None.
  Proof.
    induction fuel as [|fuel IH]; intros k C; [reflexivity|]. destruct (circular_up k C) as (k' & U & C'). rewrite (pdn_up _ k' fuel U), (IH k' C'). reflexivity.
  Qed.
  Lemma name_cases k : (exists n, full_name d ks k n) \/ lost d ks k \/ circular d ks k.
  Proof.
    destruct (cycle_dec (above d ks) (fun x y => dir_at_dec (parent_pointer d x) y) ks (fun x y => dir_at_key (parent_pointer d x) y) k) as [C|A]; [right; right; exact C|].
    assert ((exists n, path_to d ks (parent_pointer d k) n) \/ lost d ks k) as [[n H]|H].
    { induction A as [k _ IH]. destruct (dir_at_cases (parent_pointer d k)) as [R|[[k' D]|(N & I & E)]].
      - left. exists []. constructor. exact R.
      - destruct (IH k' D) as [[n H]|(z & Hz & H)]; [left; eexists; eapply path_up; eassumption|]. right. exists z. split; [|exact H]. right.
        destruct Hz as [->|S]; [apply steps_1; exact D | eapply steps_S; eassumption].
      - right. exists k. split; [left; reflexivity|]. split; [exact N|]. intros y [_ [[I' _]|[_ O]]]; [contradiction|]. apply owner_get in O. congruence. }
    - left. exists (join n (header_name d k)), n. auto.
    - right. left. exact H.
  Qed.
End Parents.

(** ** Reading a volume with finitely many readable directories *)
Definition named_all (d : bytes) (ks : list Z) : Prop := forall x, In x ks -> exists n, full_name d ks x n.
Section Named.
  Variables (d : bytes) (l2 : list Z) (vs : list (Z * list Z)).
  Hypothesis B : bytes_ok d.
  Hypothesis D2 : is_dir d 2 l2.
  Hypothesis F : Forall (fun x => is_dir d (fst x) (snd x)) vs.
  Hypothesis Fn : Forall (fun x => 0 <= fst x) vs.
  Local Notation ks := (map fst vs).
  Local Notation byK := (by_key d vs).
  Local Notation byB := (by_block l2 vs).
  Definition an_entry (x : Z * Subdirectory) : Prop := In (fst x) ks /\ exists l, x = sub_entry d (fst x, l) /\ is_dir d (fst x) l /\ 0 <= fst x.
  Lemma by_key_entry x : In x byK -> an_entry x.
  Proof.
    intros I. unfold by_key in I. apply mputs_In in I as [I|[]]. apply in_map_iff in I as ([k l] & <- & I). split; [apply (in_map fst) in I; exact I|].
    exists l. rewrite Forall_forall in F, Fn. split; [reflexivity|]. split; [apply (F _ I) | apply (Fn _ I)].
  Qed.
  Lemma by_key_has k l : In k ks -> is_dir d k l -> In (sub_entry d (k, l)) byK.
  Proof. intros I D. apply (mget_In Z.eqb Zeqb_ok k (mk_sub d k l)). apply (bykey_get d vs k l F D I). Qed.
  Lemma name_step x l fuel : x = sub_entry d (fst x, l) -> is_dir d (fst x) l -> 0 <= fst x -> forall rest acc,
    nameSubdirs fuel 2 byK byB (x :: rest) acc = obind (parentDirName fuel (parent_pointer d (fst x)) 2 byK byB) (fun pn =>
      nameSubdirs fuel 2 byK byB rest (mput beq (join pn (header_name d (fst x))) (mk_sub d (fst x) l) acc)).
  Proof.
    intros E D H rest acc. destruct x as [k sd]. unfold sub_entry in E. cbn [fst snd] in *. injection E as ->.
    rewrite nameSubdirs_spec. cbn [snd]. rewrite parent_of by (try assumption; apply D). rewrite header_name_of by (try assumption; apply D). reflexivity.
  Qed.
  Lemma names_ok sds : Forall an_entry sds -> (forall x, In x sds -> exists n, full_name d ks (fst x) n) ->
    exists N ys, map (fun y => sub_entry d (snd y)) ys = sds /\ (forall y, In y ys -> full_name d ks (fst (snd y)) (fst y)) /\
    forall fuel, (N <= fuel)%nat -> forall rest acc, nameSubdirs fuel 2 byK byB (sds ++ rest) acc = nameSubdirs fuel 2 byK byB rest (mputs beq (map (named_sub d) ys) acc).
  Proof.
    induction sds as [|x sds IH]; intros A H; [exists 0%nat, []; split; [reflexivity|]; split; [intros y [] | intros; reflexivity]|].
    inversion A as [|? ? (I & l & E & D & Hx) A']; subst. destruct (H x (or_introl eq_refl)) as (n & m & P & En).
    destruct (path_pdn d l2 vs B D2 F Fn _ _ P) as (f & Hf). destruct IH as (N & ys & Ey & Py & Hy); [exact A' | intros y Iy; apply H; right; exact Iy|].
    exists (f + N)%nat, ((n, (fst x, l)) :: ys). split; [cbn [map snd]; rewrite Ey, <- E; reflexivity|].
    split; [intros y [<-|Iy]; [exists m; split; assumption | apply Py; exact Iy]|]. intros fuel L rest acc. cbn [app].
    rewrite (name_step x l fuel E D Hx), (Hf fuel) by lia. cbn [obind]. rewrite Hy by lia. subst n. reflexivity.
  Qed.
  (** The first directory, in the order of the iteration, that has no path. *)
  Lemma first_unnamed sds : Forall an_entry sds -> (forall x, In x sds -> exists n, full_name d ks (fst x) n) \/
    exists pre x post, sds = pre ++ x :: post /\ (forall y, In y pre -> exists n, full_name d ks (fst y) n) /\ (lost d ks (fst x) \/ circular d ks (fst x)).
  Proof.
    induction sds as [|x sds IH]; intros A; [left; intros ? []|]. inversion A as [|? ? _ A']; subst.
    destruct (name_cases d l2 vs D2 F (fst x)) as [H|H].
    - destruct (IH A') as [G|(pre & y & post & -> & P & G)]; [left; intros y [<-|I]; auto|]. right. exists (x :: pre), y, post.
      split; [reflexivity|]. split; [intros z [<-|I]; auto | exact G].
    - right. exists [], x, sds. split; [reflexivity|]. split; [intros y [] | exact H].
  Qed.
  Lemma names_lost pre x post acc : Forall an_entry (pre ++ x :: post) -> (forall y, In y pre -> exists n, full_name d ks (fst y) n) -> lost d ks (fst x) ->
    exists N e, forall fuel, (N <= fuel)%nat -> nameSubdirs fuel 2 byK byB (pre ++ x :: post) acc = Some (Err e).
  Proof.
    intros A P L. apply Forall_app in A as [A1 A2]. inversion A2 as [|? ? (I & l & E & D & Hx) A']; subst.
    destruct (names_ok pre A1 P) as (N & ys & _ & _ & Hy). destruct (lost_pdn d l2 vs B D2 F Fn _ L) as (f & e & Hf).
    exists (N + f)%nat, e. intros fuel Hl. rewrite Hy by lia. rewrite (name_step x l fuel E D Hx), Hf by lia. reflexivity.
  Qed.
  Lemma names_circular pre x post acc fuel : Forall an_entry (pre ++ x :: post) -> (forall y, In y pre -> exists n, full_name d ks (fst y) n) -> circular d ks (fst x) ->
    nameSubdirs fuel 2 byK byB (pre ++ x :: post) acc = None.
  Proof.
    intros A P C. apply Forall_app in A as [A1 A2]. inversion A2 as [|? ? (I & l & E & D & Hx) A']; subst. destruct (names_ok pre A1 P) as (N & ys & _ & _ & Hy).
    destruct (nameSubdirs fuel 2 byK byB (pre ++ x :: post) acc) as [r|] eqn:Er; [exfalso | reflexivity].
    apply (nameSubdirs_mono _ _ _ _ _ _ _) with (fuel' := (fuel + N)%nat) in Er; [|lia]. rewrite Hy in Er by lia.
    rewrite (name_step x l _ E D Hx), (circular_pdn d l2 vs B D2 F Fn _ _ C) in Er. discriminate Er.
  Qed.
End Named.

Lemma volume_read d ks : bytes_ok d -> zlen d <= 65536 * 512 -> bitmap_on_device d -> in_order d ks ->
  exists l2 vs bm N, is_dir d 2 l2 /\ map fst vs = ks /\ Forall (fun x => is_dir d (fst x) (snd x)) vs /\ Forall (fun x => 0 <= fst x) vs /\
  forall iter fuel, (N <= fuel)%nat -> readVolume iter fuel d 2 =
    obind (nameSubdirs fuel 2 (by_key d vs) (by_block l2 vs) (iter (by_key d vs)) []) (fun byName =>
      Some (Ok (mkVol (mk_vk d 2) (map (mk_vb d) l2) bm (by_key d vs) byName (by_block l2 vs)))).
Proof.
  intros B L Hb (l2 & D & Lv). destruct (levels_runs d _ _ Lv) as (vs & E & R). destruct (bitmap_ok' d B L Hb) as [bm Eb].
  destruct (readSubdirs_runs d B _ _ _ R (subkeys_nonneg d 2 l2 B ltac:(lia) D) (map pfd_of (filter is_subdir (dir_entries d 2 l2))) (subkeys_descs d 2 l2)) as (N & qd' & Eq & _ & Fn & Hr).
  destruct qd' as [|? ?]; [|discriminate]. exists l2, vs, bm, (S N + length vs + S (length l2))%nat. split; [exact D|]. split; [exact E|].
  split; [apply (runs_dirs d _ _ _ R)|]. split; [exact Fn|]. intros iter fuel Hf. unfold readVolume. rewrite Unm_vk by (try lia; apply D). cbn [obind]. rewrite vh_pointer by (try assumption; apply D).
  rewrite Eb. cbn [obind]. change (vk_Next (mk_vk d 2)) with (next_block d 2).
  rewrite (readVDB_chain d _ l2 fuel 2 B (proj1 (next_u16 d 2 B)) (proj2 D)) by lia. cbn [obind]. cbv zeta.
  unfold vol_subdirDescriptors. rewrite vol_descs, (filter_pfd _ is_subdir) by reflexivity.
  assert (readSubdirs fuel d (map pfd_of (filter is_subdir (dir_entries d 2 l2))) [] (vfirst 2 l2 []) = Some (Ok (by_key d vs, by_block l2 vs))) as ->; [|reflexivity].
  replace fuel with (length vs + S (fuel - length vs - 1))%nat by lia. rewrite Hr by lia. cbn [readSubdirs]. unfold by_key, by_block. cbn [flat_map]. rewrite mputs_app, vfirst_puts. reflexivity.
Qed.

(** ** From the volume to the listing *)
Lemma volume_none iter d p N : (forall fuel, (N <= fuel)%nat -> readVolume iter fuel d 2 = None) -> diverges (fun k => Catalog iter k d p).
Proof.
  intros H k. unfold Catalog. destruct (readVolume iter k d 2) as [r|] eqn:E; [exfalso | reflexivity].
  apply (readVolume_mono _ _ _ _ _) with (fuel' := (k + N)%nat) in E; [|lia]. rewrite H in E by lia. discriminate E.
Qed.
Lemma volume_err iter d p N e : readVolume iter N d 2 = Some (Err e) -> returns (fun k => Catalog iter k d p) (fun r => exists e, r = Err e).
Proof.
  intros H. assert (Catalog iter N d p = Some (Err e)) as E by (unfold Catalog; rewrite H; reflexivity). apply (returns_mono _ _ (Catalog_mono iter d p) _ _ E). eauto.
Qed.
Lemma volume_start d l : bytes_ok d -> zlen d <= 65536 * 512 -> bitmap_on_device d -> is_dir d 2 l -> exists bm, forall iter fuel, (length l < fuel)%nat ->
  readVolume iter fuel d 2 = obind (readSubdirs fuel d (map pfd_of (filter is_subdir (dir_entries d 2 l))) [] (vfirst 2 l [])) (fun bf =>
    let '(byBlock, first) := bf in
    obind (nameSubdirs fuel 2 byBlock first (iter byBlock) []) (fun byName => Some (Ok (mkVol (mk_vk d 2) (map (mk_vb d) l) bm byBlock byName first)))).
Proof.
  intros B L Hb D. destruct (bitmap_ok' d B L Hb) as [bm Eb]. exists bm. intros iter fuel Hf. unfold readVolume. rewrite Unm_vk by (try lia; apply D). cbn [obind].
  rewrite vh_pointer by (try assumption; apply D). rewrite Eb. cbn [obind]. change (vk_Next (mk_vk d 2)) with (next_block d 2).
  rewrite (readVDB_chain d _ l fuel 2 B (proj1 (next_u16 d 2 B)) (proj2 D)) by lia. cbn [obind]. cbv zeta.
  unfold vol_subdirDescriptors. rewrite vol_descs, (filter_pfd _ is_subdir) by reflexivity. reflexivity.
Qed.
Lemma fault_leaves d k iter p : bytes_ok d -> zlen d <= 65536 * 512 -> bitmap_on_device d -> first_fault d k -> leaves d k ->
  returns (fun n => Catalog iter n d p) (fun r => exists e, r = Err e).
Proof.
  intros B L Hb Hf Hl. destruct (fault_runs d k Hf) as (l & vs & q & D & R). destruct (volume_start d l B L Hb D) as [bm Ev].
  destruct (readSubdirs_runs d B _ _ _ R (subkeys_nonneg d 2 l B ltac:(lia) D) _ (subkeys_descs d 2 l)) as (N & qd' & Eq & Fq & _ & Hr).
  destruct qd' as [|sdd qd']; [discriminate|]. cbn [map] in Eq. injection Eq as Ek Eq. inversion Fq as [|? ? F0 _]; subst.
  destruct (readSubdirectory_bad d sdd B F0 Hl) as (f & e & Ee). apply (volume_err iter d p (length vs + S (N + f + length l))%nat e).
  rewrite Ev by lia. rewrite Hr by lia. cbn [readSubdirs]. rewrite (readSubdirectory_mono _ _ _ _ Ee) by lia. reflexivity.
Qed.
Lemma fault_loops d k iter p : bytes_ok d -> zlen d <= 65536 * 512 -> bitmap_on_device d -> first_fault d k -> loops d k -> diverges (fun n => Catalog iter n d p).
Proof.
  intros B L Hb Hf [Hd Hc]. destruct (fault_runs d k Hf) as (l & vs & q & D & R). destruct (volume_start d l B L Hb D) as [bm Ev].
  destruct (readSubdirs_runs d B _ _ _ R (subkeys_nonneg d 2 l B ltac:(lia) D) _ (subkeys_descs d 2 l)) as (N & qd' & Eq & Fq & _ & Hr).
  destruct qd' as [|sdd qd']; [discriminate|]. cbn [map] in Eq. injection Eq as Ek Eq. inversion Fq as [|? ? F0 _]; subst.
  apply (volume_none iter d p (length vs + S (N + length l))%nat). intros fuel Hl. rewrite Ev by lia. replace fuel with (length vs + S (fuel - length vs - 1))%nat by lia.
  rewrite Hr by lia. cbn [readSubdirs]. unfold readSubdirectory. rewrite Unm_sk by assumption. cbn [obind].
  change (sk_Next (mk_sk d (f_KeyPointer sdd))) with (next_block d (f_KeyPointer sdd)). rewrite (readSB_cyclic d _ B) by (try assumption; apply (next_u16 d _ B)). reflexivity.
Qed.
Lemma key_off d iter p : ~ in_dev d 2 -> returns (fun n => Catalog iter n d p) (fun r => exists e, r = Err e).
Proof.
  intros D. destruct (Unm_off (VDKB_FromBlock zeroVDKB) VDKB_SetBlock d 2 D) as [e E]. apply (volume_err iter d p 0 e). unfold readVolume. rewrite E. reflexivity.
Qed.
Lemma bitmap_off d iter p : bytes_ok d -> zlen d <= 65536 * 512 -> in_dev d 2 -> ~ bitmap_on_device d -> returns (fun n => Catalog iter n d p) (fun r => exists e, r = Err e).
Proof.
  intros B L D N. unfold bitmap_on_device in N. pose proof (word_u16 (blk d 2) 0x27 (blk_bytes d 2 B)) as U. destruct (Z.ltb_spec (zlen d) (4096 * 512)) as [Hs|Hs]; [exfalso; apply N; lia|].
  assert (~ in_dev d (word (blk d 2) 0x27)) as O by (intros H; apply N; intros _; exact H).
  assert (exists e, readVolumeBitMap d (word (blk d 2) 0x27) = Err e) as [e E].
  { rewrite read_big by (try assumption; lia). unfold in_dev in O. destruct (zlen d <? _) eqn:E; [eauto | exfalso; lia]. }
  apply (volume_err iter d p 0 e). unfold readVolume. rewrite Unm_vk by (try lia; exact D). cbn [obind]. rewrite vh_pointer by assumption. rewrite E. reflexivity.
Qed.
Lemma root_leaves d iter p : bytes_ok d -> zlen d <= 65536 * 512 -> bitmap_on_device d -> in_dev d 2 -> leaves d 2 -> returns (fun n => Catalog iter n d p) (fun r => exists e, r = Err e).
Proof.
  intros B L Hb D [N|(l & q & W & N & O)]; [contradiction|]. destruct (bitmap_ok' d B L Hb) as [bm Eb].
  destruct (readVDB_off d _ l q (S (length l)) 2 B (proj1 (next_u16 d 2 B)) W N O ltac:(lia)) as [e E]. apply (volume_err iter d p (S (length l)) e).
  unfold readVolume. rewrite Unm_vk by (try lia; exact D). cbn [obind]. rewrite vh_pointer by assumption. rewrite Eb. cbn [obind].
  change (vk_Next (mk_vk d 2)) with (next_block d 2). rewrite E. reflexivity.
Qed.

(** ** All listings *)
Lemma sub_entry_inj d k l k' l' : sub_entry d (k, l) = sub_entry d (k', l') -> k = k' /\ l = l'.
Proof.
  intros H. split; [exact (f_equal fst H)|]. pose proof (f_equal (fun x => map sb_block (sd_blocks (snd x))) H) as E.
  cbn [sub_entry fst snd mk_sub sd_blocks] in E. rewrite !map_map in E. cbn [mk_sb sb_of sb_block] in E. rewrite !map_id in E. exact E.
Qed.
Section Order.
  Variables (d : bytes) (p : bytes) (ks : list Z).
  Hypothesis B : bytes_ok d.
  Hypothesis L : zlen d <= 65536 * 512.
  Hypothesis Hb : bitmap_on_device d.
  Hypothesis O : in_order d ks.
  Lemma full_name_det x n n' : full_name d ks x n -> full_name d ks x n' -> n = n'.
  Proof.
    destruct (volume_read d ks B L Hb O) as (l2 & vs & bm & N & D2 & <- & F & Fn & _). intros (m & P & ->) (m' & P' & ->).
    rewrite (path_det d l2 vs B D2 F Fn _ _ _ P P'). reflexivity.
  Qed.
  (** A completely named volume, given the order of the iteration. *)
  Lemma named_volume iter : an_order iter -> named_all d ks -> exists l2 bm byK byB ys N, is_dir d 2 l2 /\
    readVolume iter N d 2 = Some (Ok (mkVol (mk_vk d 2) (map (mk_vb d) l2) bm byK (mputs beq (map (named_sub d) ys) []) byB)) /\
    (forall y, In y ys -> In (fst (snd y)) ks /\ is_dir d (fst (snd y)) (snd (snd y)) /\ 0 <= fst (snd y) /\ full_name d ks (fst (snd y)) (fst y)) /\
    map (fun y => sub_entry d (snd y)) ys = iter byK /\ (forall k l, In k ks -> is_dir d k l -> In (sub_entry d (k, l)) byK).
  Proof.
    intros Ho H. destruct (volume_read d ks B L Hb O) as (l2 & vs & bm & N & D2 & E & F & Fn & Ev).
    destruct (names_ok d l2 vs B D2 F Fn (iter (by_key d vs))) as (N2 & ys & Ey & Py & Hy).
    { apply Forall_forall. intros x I. apply (by_key_entry d vs F Fn). eapply Permutation_in; [apply Ho | exact I]. }
    { intros x I. rewrite E. apply H. rewrite <- E. apply (by_key_entry d vs F Fn). eapply Permutation_in; [apply Ho | exact I]. }
    exists l2, bm, (by_key d vs), (by_block l2 vs), ys, (N + N2)%nat. split; [exact D2|]. split; [|split; [|split; [exact Ey|]]].
    - rewrite Ev by lia. specialize (Hy (N + N2)%nat ltac:(lia) [] []). rewrite app_nil_r in Hy. rewrite Hy. reflexivity.
    - intros y I. pose proof (Py y I) as Fy. rewrite E in Fy. destruct y as [n [k l]]. cbn [fst snd] in *. apply (in_map (fun y => sub_entry d (snd y))) in I. rewrite Ey in I. cbn [snd] in I.
      assert (In (sub_entry d (k, l)) (by_key d vs)) as I' by (eapply Permutation_in; [apply Ho | exact I]). unfold by_key in I'. apply mputs_In in I' as [I'|[]].
      apply in_map_iff in I' as ([k' l'] & Ekl & I'). apply sub_entry_inj in Ekl as [-> ->]. rewrite <- E.
      split; [apply (in_map fst _ (k, l)); exact I'|]. rewrite Forall_forall in F, Fn. split; [apply (F _ I')|]. split; [apply (Fn _ I')|]. rewrite E. exact Fy.
    - intros k l I D. rewrite <- E in I. apply (by_key_has d vs F k l I D).
  Qed.
  Lemma list_root iter l : an_order iter -> named_all d ks -> is_dir d 2 l -> returns (fun n => Catalog iter n d []) (lists d 2 l).
  Proof.
    intros Ho H D. destruct (named_volume iter Ho H) as (l2 & bm & byK & byB & ys & N & D2 & EV & _). rewrite (is_dir_det d 2 l l2 D D2).
    assert (Catalog iter N d [] = Some (Ok (live_descs (map pfd_of (dir_entries d 2 l2))))) as EC.
    { unfold Catalog. rewrite EV. cbn [obind]. rewrite (@zlen_nil Z). change (0 =? 0) with true. cbv iota. rewrite vol_descs. reflexivity. }
    apply (returns_mono _ _ (Catalog_mono iter d []) _ _ EC). apply live_lists; [exact B | lia | exact D2].
  Qed.
  Lemma list_last iter N bm byK byB l2 pre k l post : p <> [] -> ~ In p (map fst post) -> is_dir d k l -> 0 <= k ->
    readVolume iter N d 2 = Some (Ok (mkVol (mk_vk d 2) (map (mk_vb d) l2) bm byK (mputs beq (map (named_sub d) (pre ++ (p, (k, l)) :: post)) []) byB)) ->
    returns (fun n => Catalog iter n d p) (lists d k l).
  Proof.
    intros Hp Np D Hk EV.
    assert (Catalog iter N d p = Some (Ok (live_descs (map pfd_of (dir_entries d k l))))) as EC.
    { unfold Catalog. rewrite EV. cbn [obind vol_subdirsByName]. replace (zlen p =? 0) with false by (destruct p as [|c p']; [congruence|]; rewrite zlen_cons; pose proof (zlen_nonneg p'); lia).
      rewrite map_app. cbn [map]. change (named_sub d (p, (k, l))) with (p, mk_sub d k l). rewrite (mputs_at beq beq_eq) by (rewrite map_map; exact Np). rewrite sub_descs. reflexivity. }
    apply (returns_mono _ _ (Catalog_mono iter d p) _ _ EC). apply live_lists; assumption.
  Qed.
  Lemma list_missing iter : an_order iter -> named_all d ks -> p <> [] -> (forall x, In x ks -> ~ full_name d ks x p) -> returns (fun n => Catalog iter n d p) (fun r => exists e, r = Err e).
  Proof.
    intros Ho H Hp Hm. destruct (named_volume iter Ho H) as (l2 & bm & byK & byB & ys & N & D2 & EV & Iy & _).
    assert (exists e, Catalog iter N d p = Some (Err e)) as [e EC].
    { unfold Catalog. rewrite EV. cbn [obind vol_subdirsByName]. replace (zlen p =? 0) with false by (destruct p as [|c p']; [congruence|]; rewrite zlen_cons; pose proof (zlen_nonneg p'); lia).
      destruct (mget beq p (mputs beq (map (named_sub d) ys) [])) as [sd|] eqn:G; [|eauto]. exfalso. apply (mget_In beq beq_eq) in G. apply mputs_In in G as [G|[]].
      apply in_map_iff in G as (y & Ey' & Hy'). unfold named_sub in Ey'. pose proof (f_equal fst Ey') as Ek. cbn [fst] in Ek. destruct (Iy y Hy') as (I1 & _ & _ & I4). rewrite Ek in I4. exact (Hm _ I1 I4). }
    apply (returns_mono _ _ (Catalog_mono iter d p) _ _ EC). eauto.
  Qed.
  Lemma named_lists iter : an_order iter -> named_all d ks -> exists v, may d p v /\ comes_to d (fun n => Catalog iter n d p) v.
  Proof.
    intros Ho H. destruct (named_volume iter Ho H) as (l2 & bm & byK & byB & ys & N & D2 & EV & Iy & Ey & Ib).
    assert (p = [] \/ p <> []) as [Ep|Hp] by (destruct p; [left; reflexivity | right; discriminate]).
    - exists (Lists 2 l2). split; [apply (may_list d p ks 2 l2 Hb O H); [left; auto | exact D2]|]. cbn [comes_to]. rewrite Ep. apply list_root; assumption.
    - destruct (in_dec (list_eq_dec Z.eq_dec) p (map fst ys)) as [I|I].
      + destruct (last_key (list_eq_dec Z.eq_dec) p ys I) as (pre & [k l] & post & -> & Np).
        destruct (Iy (p, (k, l))) as (I1 & I2 & I3 & I4); [apply in_or_app; right; left; reflexivity|]. cbn [fst snd] in I1, I2, I3, I4.
        exists (Lists k l). split; [apply (may_list d p ks k l Hb O H); [right; auto | exact I2]|]. cbn [comes_to].
        apply (list_last iter N bm byK byB l2 pre k l post); assumption.
      + assert (forall x, In x ks -> ~ full_name d ks x p) as Hm.
        { intros x Ix Fx. apply I. destruct (volume_read d ks B L Hb O) as (l3 & vs & _ & _ & _ & E & F & Fn & _). pose proof Ix as Ix'. rewrite <- E in Ix'.
          destruct (key_dir d vs F Fn x Ix') as (l & Dx & _). pose proof (Ib x l Ix Dx) as Ie.
          assert (In (sub_entry d (x, l)) (iter byK)) as Ii by (eapply Permutation_in; [symmetry; apply Ho | exact Ie]).
          rewrite <- Ey in Ii. apply in_map_iff in Ii as ([n [k' l']] & Ekl & Ii). cbn [snd] in Ekl. apply sub_entry_inj in Ekl as [-> _].
          destruct (Iy _ Ii) as (_ & _ & _ & Fk). cbn [fst snd] in Fk. apply in_map_iff. exists (n, (x, l')). split; [|exact Ii]. cbn [fst]. apply (full_name_det x n p Fk Fx). }
        exists Fails. split; [apply (may_missing d p ks Hb O H Hp Hm)|]. apply list_missing; assumption.
  Qed.
  Lemma list_each k l : named_all d ks -> p <> [] -> In k ks -> full_name d ks k p -> is_dir d k l -> exists iter, an_order iter /\ returns (fun n => Catalog iter n d p) (lists d k l).
  Proof.
    intros H Hp Ik Fk D. exists (last_visit k). split; [apply last_visit_order|].
    destruct (named_volume _ (last_visit_order k) H) as (l2 & bm & byK & byB & ys & N & D2 & EV & Iy & Ey & Ib). pose proof (Ib k l Ik D) as Ie.
    assert (filter (fun x => fst x =? k) byK <> []) as Nf.
    { intros E. assert (In (sub_entry d (k, l)) (filter (fun x => fst x =? k) byK)) as I by (apply filter_In; split; [exact Ie | cbn [sub_entry fst]; lia]). rewrite E in I. destruct I. }
    unfold last_visit in Ey. apply map_eq_app in Ey as (t1 & t2 & -> & _ & E2).
    destruct t2 as [|y t2 _] using rev_ind; [exfalso; apply Nf; symmetry; exact E2|].
    assert (fst (snd y) = k) as Ek.
    { assert (In (sub_entry d (snd y)) (filter (fun x => fst x =? k) byK)) as I by (rewrite <- E2, map_app; apply in_or_app; right; left; reflexivity).
      apply filter_In in I as [_ I]. cbn [sub_entry fst] in I. lia. }
    destruct (Iy y) as (_ & I2 & I3 & I4); [apply in_or_app; right; apply in_or_app; right; left; reflexivity|]. destruct y as [n [k' l']]. cbn [fst snd] in *. subst k'.
    rewrite (is_dir_det d k l' l I2 D) in *. rewrite (full_name_det k n p I4 Fk) in *. rewrite app_assoc in EV.
    apply (list_last (last_visit k) N bm byK byB l2 (t1 ++ t2) k l []); try assumption. intros [].
  Qed.
  Lemma order_lists iter : an_order iter -> exists v, may d p v /\ comes_to d (fun n => Catalog iter n d p) v.
  Proof.
    intros Ho. destruct (volume_read d ks B L Hb O) as (l2 & vs & bm & N & D2 & E & F & Fn & Ev).
    assert (Forall (an_entry d vs) (iter (by_key d vs))) as A.
    { apply Forall_forall. intros x I. apply (by_key_entry d vs F Fn). eapply Permutation_in; [apply Ho | exact I]. }
    destruct (first_unnamed d l2 vs D2 F (iter (by_key d vs)) A) as [H|(pre & x & post & Es & P & H)].
    - apply named_lists; [exact Ho|]. intros x Ix. rewrite <- E in Ix |- *. destruct (key_dir d vs F Fn x Ix) as (l & Dx & _).
      pose proof (by_key_has d vs F x l Ix Dx) as Ie. apply (H (sub_entry d (x, l))). eapply Permutation_in; [symmetry; apply Ho | exact Ie].
    - rewrite Es in A. assert (In (fst x) ks) as Ix by (rewrite <- E; apply Forall_app in A as [_ A]; inversion A as [|? ? [I _] _]; subst; exact I).
      destruct H as [H|H].
      + exists Fails. split; [rewrite E in H; apply (may_lost d p ks (fst x) Hb O Ix H)|]. cbn [comes_to].
        destruct (names_lost d l2 vs B D2 F Fn pre x post [] A P H) as (N2 & e & He). apply (volume_err iter d p (N + N2)%nat e). rewrite Ev by lia. rewrite Es, He by lia. reflexivity.
      + exists Hangs. split; [rewrite E in H; apply (may_circular d p ks (fst x) Hb O Ix H)|]. cbn [comes_to]. apply (volume_none iter d p N). intros fuel Hf.
        rewrite Ev by lia. rewrite Es, (names_circular d l2 vs B D2 F Fn pre x post [] fuel A P H). reflexivity.
  Qed.
  (** The order that visits the subdirectory at block [k] first. *)
  Definition first_visit (k : Z) (m : list (Z * Subdirectory)) : list (Z * Subdirectory) :=
    filter (fun x => fst x =? k) m ++ filter (fun x => negb (fst x =? k)) m.
  Lemma first_visit_order k : an_order (first_visit k).
  Proof.
    intros m. unfold first_visit. etransitivity; [apply Permutation_app_comm|]. apply (last_visit_order k).
  Qed.
  Lemma visit_first k : In k ks -> lost d ks k \/ circular d ks k ->
    (lost d ks k -> returns (fun n => Catalog (first_visit k) n d p) (fun r => exists e, r = Err e)) /\
    (circular d ks k -> diverges (fun n => Catalog (first_visit k) n d p)).
  Proof.
    intros Ik _. destruct (volume_read d ks B L Hb O) as (l2 & vs & bm & N & D2 & E & F & Fn & Ev).
    assert (Forall (an_entry d vs) (first_visit k (by_key d vs))) as A.
    { apply Forall_forall. intros x I. apply (by_key_entry d vs F Fn). eapply Permutation_in; [apply first_visit_order | exact I]. }
    rewrite <- E in Ik |- *. destruct (key_dir d vs F Fn k Ik) as (l & D & _). pose proof (by_key_has d vs F k l Ik D) as Ie.
    assert (exists x post, first_visit k (by_key d vs) = [] ++ x :: post /\ fst x = k) as (x & post & Es & Ek).
    { unfold first_visit. destruct (filter (fun x => fst x =? k) (by_key d vs)) as [|x r] eqn:Ef.
      - exfalso. assert (In (sub_entry d (k, l)) (filter (fun x => fst x =? k) (by_key d vs))) as I by (apply filter_In; split; [exact Ie | cbn [sub_entry fst]; lia]). rewrite Ef in I. destruct I.
      - exists x. eexists. split; [reflexivity|]. assert (In x (filter (fun x => fst x =? k) (by_key d vs))) as I by (rewrite Ef; left; reflexivity). apply filter_In in I as [_ I]. lia. }
    rewrite Es in A. subst k. split; intros H.
    - destruct (names_lost d l2 vs B D2 F Fn [] x post [] A ltac:(intros y []) H) as (N2 & e & He). apply (volume_err _ d p (N + N2)%nat e). rewrite Ev by lia. rewrite Es, He by lia. reflexivity.
    - apply (volume_none _ d p N). intros fuel Hf. rewrite Ev by lia. rewrite Es, (names_circular d l2 vs B D2 F Fn [] x post [] fuel A ltac:(intros y []) H). reflexivity.
  Qed.
End Order.

Lemma endless_hangs d iter p : bytes_ok d -> zlen d <= 65536 * 512 -> bitmap_on_device d -> endless d -> diverges (fun n => Catalog iter n d p).
Proof. intros B L Hb (R & H & C). exact (C52_subdir_cycle_lemma d iter p B L Hb R H C). Qed.
Lemma listing_lemma d p iter : bytes_ok d -> zlen d <= 65536 * 512 -> an_order iter -> exists v, may d p v /\ comes_to d (fun n => Catalog iter n d p) v.
Proof.
  intros B L Ho. destruct (in_dev_dec d 2) as [D|D]; [|exists Fails; split; [apply may_key; exact D | apply key_off; exact D]].
  assert (bitmap_on_device d \/ ~ bitmap_on_device d) as [Hb|Hb].
  { unfold bitmap_on_device. destruct (Z.le_gt_cases (4096 * 512) (zlen d)) as [H|H]; [|left; lia]. destruct (in_dev_dec d (word (blk d 2) 0x27)) as [I|I]; [left; intros _; exact I | right; intros G; apply I, G, H]. }
  2: { exists Fails. split; [apply may_bitmap; assumption | apply bitmap_off; assumption]. }
  destruct (dir_cases d 2 B) as [R|[H|H]].
  - destruct (volume_cases d B R) as [(k & Hf)|[He|(ks & Ho')]].
    + pose proof Hf as (_ & _ & _ & _ & _ & Nr). destruct (dir_cases d k B) as [H|[H|H]]; [contradiction | |].
      * exists Fails. split; [apply (may_leave d p k); auto | apply (fault_leaves d k); assumption].
      * exists Hangs. split; [apply (may_loop d p k); auto | apply (fault_loops d k); assumption].
    + exists Hangs. split; [apply may_endless; assumption | apply endless_hangs; assumption].
    + apply (order_lists d p ks B L Hb Ho' iter Ho).
  - exists Fails. split; [apply (may_leave d p 2); auto | apply root_leaves; assumption].
  - exists Hangs. split; [apply (may_loop d p 2); auto|]. cbn [comes_to]. apply C52_block_cycle_lemma; try assumption. apply H.
Qed.
Lemma each_lemma d p v : bytes_ok d -> zlen d <= 65536 * 512 -> may d p v -> exists iter, an_order iter /\ comes_to d (fun n => Catalog iter n d p) v.
Proof.
  intros B L M. assert (an_order (fun m => m)) as Hi by (intros m; apply Permutation_refl). destruct M as [D|D Hb|k Hb D Hk H|k Hb D Hk H|Hb H|ks k Hb O I H|ks k Hb O I H|ks k l Hb O N Hk D|ks Hb O N Hp H].
  - exists (fun m => m). split; [exact Hi | apply key_off; exact D].
  - exists (fun m => m). split; [exact Hi | apply bitmap_off; assumption].
  - exists (fun m => m). split; [exact Hi|]. destruct Hk as [->|Hk]; [apply root_leaves; assumption | apply (fault_leaves d k); assumption].
  - exists (fun m => m). split; [exact Hi|]. cbn [comes_to]. destruct Hk as [->|Hk]; [apply C52_block_cycle_lemma; try assumption; apply H | apply (fault_loops d k); assumption].
  - exists (fun m => m). split; [exact Hi | apply endless_hangs; assumption].
  - exists (first_visit k). split; [apply first_visit_order|]. apply (visit_first d p ks B L Hb O k I (or_introl H)). exact H.
  - exists (first_visit k). split; [apply first_visit_order|]. apply (visit_first d p ks B L Hb O k I (or_intror H)). exact H.
  - destruct Hk as [[-> ->]|(Hp & I & Fk)]; [exists (fun m => m); split; [exact Hi | apply (list_root d ks B L Hb O); assumption] | apply (list_each d p ks B L Hb O k l); assumption].
  - exists (fun m => m). split; [exact Hi | apply (list_missing d p ks B L Hb O); assumption].
Qed.
