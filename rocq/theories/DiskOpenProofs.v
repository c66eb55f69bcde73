(** DiskOpenProofs.v -- proofs about file names, OpenImage and WriteBack. *)
From Verif Require Import GoBase GoLemmas DiskModel DiskSpec DiskProofs.
From Coq Require Import ZifyBool ZifyNat Permutation.
Ltac Zify.zify_post_hook ::= Z.div_mod_to_equations.

(** ** File name extensions *)
Lemma ext_rev_plain x r acc : plain x ->
  ext_rev (rev x ++ r) acc = ext_rev r (x ++ acc).
Proof.
  intros H. revert r acc. induction x as [|c x IH] using rev_ind; intros r acc; [reflexivity|].
  unfold plain in *. apply Forall_app in H as [Hx Hc]. inversion Hc as [|? ? [H1 H2] _]; subst.
  rewrite rev_app_distr. cbn [rev app ext_rev].
  replace (c =? 47) with false by lia. replace (c =? 46) with false by lia.
  rewrite IH by assumption. rewrite <- app_assoc. reflexivity.
Qed.

Lemma path_Ext_has name e : has_ext name e -> path_Ext name = 46 :: e.
Proof.
  intros [Hp [pre ->]]. unfold path_Ext. rewrite rev_app_distr. cbn [rev].
  rewrite <- app_assoc. rewrite ext_rev_plain by assumption. cbn [app ext_rev].
  replace (46 =? 47) with false by lia. rewrite Z.eqb_refl, app_nil_r. reflexivity.
Qed.

Lemma path_Ext_no name : no_ext name -> path_Ext name = [].
Proof.
  unfold path_Ext. intros [Hp | (pre & x & -> & Hp)].
  - rewrite <- (app_nil_r (rev name)). rewrite ext_rev_plain by assumption. reflexivity.
  - rewrite rev_app_distr. cbn [rev]. rewrite <- app_assoc.
    rewrite ext_rev_plain by assumption. reflexivity.
Qed.

Lemma ext_cases name : (exists e, has_ext name e) \/ no_ext name.
Proof.
  induction name as [|c name IH].
  - right; left; constructor.
  - destruct IH as [(e & Hp & pre & ->) | [Hp | (pre & x & -> & Hp)]].
    + left. exists e. split; [exact Hp|]. exists (c :: pre); reflexivity.
    + destruct (Z.eq_dec c 46) as [->|]; [left; exists name; split; [exact Hp | exists []; reflexivity]|].
      destruct (Z.eq_dec c 47) as [->|]; [right; right; exists [], name; split; [reflexivity | exact Hp]|].
      right; left; constructor; [split; assumption | exact Hp].
    + right; right. exists (c :: pre), x. split; [reflexivity | exact Hp].
Qed.

Lemma to_lower_cons c s : 0 <= c < 128 -> to_lower (c :: s) = low c :: to_lower s.
Proof.
  intros Hc. cbn [to_lower]. destruct s as [|c2 s2]; [reflexivity|].
  replace (c =? 196) with false by lia. cbn [andb].
  destruct s2 as [|c3 s3]; [reflexivity|].
  replace (c =? 226) with false by lia. reflexivity.
Qed.

Lemma ci_to_lower e l : ci e l -> to_lower e = l.
Proof.
  intros H; induction H.
  - reflexivity.
  - rewrite to_lower_cons by assumption. rewrite IHci. unfold low, is_upper.
    replace ((65 <=? c) && (c <=? 90)) with false by lia. reflexivity.
  - rewrite to_lower_cons by lia. rewrite IHci. unfold low, is_upper.
    replace ((65 <=? c) && (c <=? 90)) with true by lia. reflexivity.
  - cbn [to_lower]. rewrite IHci. reflexivity.
  - cbn [to_lower]. rewrite IHci. reflexivity.
Qed.

Lemma low_ascii c x : low c = x -> 0 <= x < 128 ->
  (x = c /\ ~ (65 <= c <= 90)) \/ (65 <= c <= 90 /\ x = c + 32).
Proof. unfold low, is_upper. destruct ((65 <=? c) && (c <=? 90)) eqn:E; lia. Qed.

Lemma to_lower_ci n e l : (length e <= n)%nat -> is_ascii l -> to_lower e = l -> ci e l.
Proof.
  revert e l. induction n as [|n IH]; intros e l Hn Ha He.
  { destruct e; [|cbn in Hn; lia]. subst; constructor. }
  destruct e as [|c e1]; [subst; constructor|].
  assert (Hstep : to_lower (c :: e1) = low c :: to_lower e1 -> ci (c :: e1) l).
  { intros E. rewrite E in He. destruct l as [|x l]; [discriminate|]. inversion He; subst.
    inversion Ha; subst. cbn [length] in Hn.
    assert (ci e1 (to_lower e1)) by (apply IH; [lia | assumption | reflexivity]).
    destruct (low_ascii c (low c) eq_refl) as [[E1 E2]|[E1 E2]]; [assumption| |].
    - rewrite E1. constructor; [assumption | lia | assumption].
    - rewrite E2. apply ci_upper; assumption. }
  destruct e1 as [|c2 e2]; [apply Hstep; reflexivity|].
  destruct ((c =? 196) && (c2 =? 176)) eqn:E1.
  { assert (c = 196) by lia. assert (c2 = 176) by lia. subst c c2.
    cbn [to_lower] in He. rewrite E1 in He. subst l. inversion Ha; subst.
    apply ci_dotted_i. apply IH; [cbn [length] in Hn; lia | assumption | reflexivity]. }
  destruct e2 as [|c3 e3].
  { apply Hstep. cbn [to_lower]. rewrite E1. reflexivity. }
  destruct ((c =? 226) && (c2 =? 132) && (c3 =? 170)) eqn:E2.
  { assert (c = 226) by lia. assert (c2 = 132) by lia. assert (c3 = 170) by lia. subst c c2 c3.
    cbn [to_lower] in He. rewrite E1, E2 in He. subst l. inversion Ha; subst.
    apply ci_kelvin. apply IH; [cbn [length] in Hn; lia | assumption | reflexivity]. }
  apply Hstep. cbn [to_lower]. rewrite E1, E2. reflexivity.
Qed.

Lemma ext_lower_iff name lit : is_ascii lit ->
  to_lower (path_Ext name) = 46 :: lit <-> ext_is name lit.
Proof.
  intros Ha. split.
  - intros H. destruct (ext_cases name) as [[e He]|Hn].
    + rewrite (path_Ext_has name e He) in H. rewrite to_lower_cons in H by lia.
      inversion H as [[H1]]. exists e. split; [exact He|].
      rewrite <- H1 in Ha. rewrite H1. apply (to_lower_ci (length e)); [lia | rewrite <- H1; exact Ha | exact H1].
    + rewrite (path_Ext_no name Hn) in H. discriminate.
  - intros (e & He & Hc). rewrite (path_Ext_has name e He). rewrite to_lower_cons by lia.
    rewrite (ci_to_lower _ _ Hc). reflexivity.
Qed.
Lemma ext_lower_none name : to_lower (path_Ext name) = [] <-> no_ext name.
Proof.
  split.
  - intros H. destruct (ext_cases name) as [[e He]|Hn]; [|exact Hn].
    rewrite (path_Ext_has name e He) in H. rewrite to_lower_cons in H by lia. discriminate.
  - intros H. rewrite (path_Ext_no name H). reflexivity.
Qed.

Lemma ext_beq name lit : is_ascii (s2b lit) ->
  forall l, l = 46 :: s2b lit ->
  beq (to_lower (path_Ext name)) l = true <-> ext_is name (s2b lit).
Proof. intros Ha l ->. rewrite beq_eq. apply ext_lower_iff, Ha. Qed.
Ltac ascii := repeat constructor; lia.
Lemma ext_dsk name : beq (to_lower (path_Ext name)) (s2b ".dsk") = true <-> ext_is name (s2b "dsk").
Proof. apply ext_beq; [ascii | reflexivity]. Qed.
Lemma ext_do name : beq (to_lower (path_Ext name)) (s2b ".do") = true <-> ext_is name (s2b "do").
Proof. apply ext_beq; [ascii | reflexivity]. Qed.
Lemma ext_po name : beq (to_lower (path_Ext name)) (s2b ".po") = true <-> ext_is name (s2b "po").
Proof. apply ext_beq; [ascii | reflexivity]. Qed.
Lemma ext_hdv name : beq (to_lower (path_Ext name)) (s2b ".hdv") = true <-> ext_is name (s2b "hdv").
Proof. apply ext_beq; [ascii | reflexivity]. Qed.

Lemma ext_is_fun name l l' : is_ascii l -> is_ascii l' -> ext_is name l -> ext_is name l' -> l = l'.
Proof.
  intros Ha Ha' H H'. apply ext_lower_iff in H; [|exact Ha]. apply ext_lower_iff in H'; [|exact Ha'].
  congruence.
Qed.

Lemma OrderFromFilename_do name d :
  ext_is name (s2b "dsk") \/ ext_is name (s2b "do") -> OrderFromFilename name d = DiskOrderDO.
Proof.
  intros H. unfold OrderFromFilename.
  replace (_ || _) with true; [reflexivity|]. symmetry. apply orb_true_iff.
  rewrite ext_dsk, ext_do. exact H.
Qed.
Lemma OrderFromFilename_po name d :
  ext_is name (s2b "po") -> OrderFromFilename name d = DiskOrderPO.
Proof.
  intros H. unfold OrderFromFilename. apply ext_po in H.
  apply beq_eq in H. rewrite H. reflexivity.
Qed.
Lemma OrderFromFilename_other name d :
  ~ ext_is name (s2b "dsk") -> ~ ext_is name (s2b "do") -> ~ ext_is name (s2b "po") ->
  OrderFromFilename name d = d.
Proof.
  intros H1 H2 H3. rewrite <- ext_dsk in H1. rewrite <- ext_do in H2. rewrite <- ext_po in H3.
  unfold OrderFromFilename.
  apply not_true_is_false in H1, H2, H3. rewrite H1, H2, H3. reflexivity.
Qed.

(** ** candidate orders *)
Lemma candidate_orders_iff name order orders :
  candidate_orders order (to_lower (path_Ext name)) = Ok orders <-> candidates name order orders.
Proof.
  unfold candidate_orders. split.
  - destruct (beq order DiskOrderDO) eqn:E1.
    { apply beq_eq in E1; subst. intros H; inversion H; subst. constructor. }
    destruct (beq order DiskOrderPO) eqn:E2.
    { apply beq_eq in E2; subst. intros H; inversion H; subst. constructor. }
    cbn [orb]. destruct (beq order DiskOrderAuto) eqn:E3; [|discriminate].
    apply beq_eq in E3; subst.
    destruct (beq _ (s2b ".po")) eqn:X1.
    { apply ext_po in X1. intros H; inversion H; subst. apply cand_auto_po; assumption. }
    destruct (beq _ (s2b ".do")) eqn:X2.
    { apply ext_do in X2. intros H; inversion H; subst. apply cand_auto_do; assumption. }
    destruct (beq _ (s2b ".dsk")) eqn:X3.
    { apply ext_dsk in X3. intros H; inversion H; subst. apply cand_auto_both; left; assumption. }
    destruct (beq _ []) eqn:X4; [|discriminate].
    apply beq_eq, ext_lower_none in X4. intros H; inversion H; subst.
    apply cand_auto_both; right; assumption.
  - intros H; destruct H as [| |H|H|[H|H]].
    + reflexivity.
    + reflexivity.
    + apply ext_do, beq_eq in H. rewrite H. reflexivity.
    + apply ext_po, beq_eq in H. rewrite H. reflexivity.
    + apply ext_dsk, beq_eq in H. rewrite H. reflexivity.
    + apply ext_lower_none in H. rewrite H. reflexivity.
Qed.
Lemma candidate_orders_total order ext : candidate_orders order ext <> Panic.
Proof.
  unfold candidate_orders. repeat (match goal with |- context [if ?b then _ else _] => destruct b end); discriminate.
Qed.
Lemma candidates_interleave name order orders o :
  candidates name order orders -> In o orders -> exists l, interleave o l.
Proof.
  intros H Hin. destruct H; cbn [In] in Hin; intuition (subst; eexists; constructor).
Qed.
Lemma candidates_nonempty name order orders : candidates name order orders -> orders <> [].
Proof. intros H; destruct H; discriminate. Qed.

Section Open.
  Context {Op : Type}.
  Implicit Types f : factory Op.
  Implicit Types facs sel : list (factory Op).

  Lemma filter_selected system facs :
    selected f_name system facs
      (filter (fun f => beq system (s2b "auto") || beq system (f_name f)) facs).
  Proof.
    unfold selected. destruct (beq system (s2b "auto")) eqn:E.
    - left. apply beq_eq in E. split; [exact E|]. cbn [orb].
      induction facs as [|f facs IH]; [reflexivity|]. cbn [filter]. rewrite IH. reflexivity.
    - right. apply beq_neq in E. split; [exact E|]. cbn [orb].
      apply filter_ext. intros f. apply beq_sym.
  Qed.
  Lemma selected_fun system (facs s1 s2 : list (factory Op)) :
    selected f_name system facs s1 -> selected f_name system facs s2 -> s1 = s2.
  Proof. intros [[H1 H2]|[H1 H2]] [[H3 H4]|[H3 H4]]; congruence. Qed.
  Lemma selected_In system (facs sel : list (factory Op)) f :
    selected f_name system facs sel -> In f sel -> In f facs.
  Proof.
    intros [[_ ->]|[_ ->]] H; [exact H|]. apply filter_In in H. tauto.
  Qed.

  Definition accepts (img : bytes) (of_ : DiskOrder * factory Op) (op : Op) : Prop :=
    exists d, reordered img (fst of_) (f_order (snd of_)) d /\
      f_seems (snd of_) d = Some true /\ f_operator (snd of_) d = Ok op.
  Definition rejects (img : bytes) (of_ : DiskOrder * factory Op) : Prop :=
    exists d, reordered img (fst of_) (f_order (snd of_)) d /\
      (f_seems (snd of_) d = Some false \/
       (f_seems (snd of_) d = Some true /\ exists e, f_operator (snd of_) d = Err e)).

  Definition hangs (img : bytes) (of_ : DiskOrder * factory Op) : Prop :=
    exists d, reordered img (fst of_) (f_order (snd of_)) d /\
      (f_seems (snd of_) d = None \/
       (f_seems (snd of_) d = Some true /\ f_operator (snd of_) d = Panic)).

  Lemma accepts_not_rejects img x op : accepts img x op -> ~ rejects img x.
  Proof.
    intros (d' & Hd' & Hs & Ho) (d & Hd & Hr).
    pose proof (reordered_fun _ _ _ _ _ Hd Hd'); subst d'.
    destruct Hr as [Hr|(_ & e & Hr)]; congruence.
  Qed.
  Lemma hangs_not_rejects img x : hangs img x -> ~ rejects img x.
  Proof.
    intros (d' & Hd' & Hs) (d & Hd & Hr).
    pose proof (reordered_fun _ _ _ _ _ Hd Hd'); subst d'.
    destruct Hr as [Hr|(Hr1 & e & Hr)]; destruct Hs as [Hs|[Hs Ho]]; congruence.
  Qed.
  Lemma accepts_fun img x op op' : accepts img x op -> accepts img x op' -> op = op'.
  Proof.
    intros (d & Hd & _ & Ho) (d' & Hd' & _ & Ho').
    pose proof (reordered_fun _ _ _ _ _ Hd Hd'); subst d'. congruence.
  Qed.
  Lemma accepts_not_hangs img x op : accepts img x op -> ~ hangs img x.
  Proof.
    intros (d & Hd & Hs & Ho) (d' & Hd' & Hh).
    pose proof (reordered_fun _ _ _ _ _ Hd Hd'); subst d'.
    destruct Hh as [Hh|[_ Hh]]; congruence.
  Qed.
  Lemma first_unique {X} (P : X -> Prop) (l1 l2 l1' l2' : list X) x x' :
    l1 ++ x :: l2 = l1' ++ x' :: l2' ->
    Forall P l1 -> Forall P l1' -> ~ P x -> ~ P x' -> x = x'.
  Proof.
    revert l1'. induction l1 as [|y l1 IH]; intros [|y' l1'] E H1 H1' Hx Hx'; cbn [app] in E; inversion E; subst.
    - reflexivity.
    - inversion H1'; contradiction.
    - inversion H1; contradiction.
    - inversion H1; inversion H1'; subst. eapply IH; eassumption.
  Qed.

  Lemma reorder_step img order sw f :
    Swizzle img (orNil (LogicalToPhysicalByName order)) = Ok sw ->
    (exists l, interleave (f_order f) l) ->
    exists d, Swizzle sw (orNil (PhysicalToLogicalByName (f_order f))) = Ok d /\
              reordered img order (f_order f) d.
  Proof.
    intros E Hf.
    destruct (tables_ok _ Hf) as (lt & pt & Elt & Ept & It & Plt & Ppt & _).
    pose proof E as E'. apply Swizzle_iff in E' as (_ & _ & Hl & _).
    destruct (Swizzle_ok sw pt Hl Ppt) as (d & Ed & _).
    exists d. rewrite Ept. cbn [orNil]. split; [exact Ed|].
    apply reorder2_iff. unfold reorder2. rewrite E, Ept. cbn [rbind orNil]. exact Ed.
  Qed.

  Lemma try_factories_spec img sw single system order facs :
    single && negb (beq system (s2b "auto")) = false ->
    Swizzle img (orNil (LogicalToPhysicalByName order)) = Ok sw ->
    (forall f, In f facs -> exists l, interleave (f_order f) l) ->
    match try_factories sw single system order facs with
    | None => Forall (rejects img) (map (pair order) facs)
    | Some (Ok (op, o)) => o = order /\ exists l1 f l2,
        map (pair order) facs = l1 ++ (order, f) :: l2 /\
        Forall (rejects img) l1 /\ accepts img (order, f) op
    | Some (Err _) => False
    | Some Panic => exists l1 x l2,
        map (pair order) facs = l1 ++ x :: l2 /\ Forall (rejects img) l1 /\ hangs img x
    end.
  Proof.
    intros Hpin Hsw. induction facs as [|f facs IH]; intros Hfac; cbn [try_factories map].
    { constructor. }
    destruct (reorder_step img order sw f Hsw) as (d & Ed & Hre).
    { apply Hfac; left; reflexivity. }
    rewrite Ed, Hpin.
    assert (IH' := IH (fun g Hg => Hfac g (or_intror Hg))). clear IH.
    assert (Hrej : rejects img (order, f) ->
      match try_factories sw single system order facs with
      | None => Forall (rejects img) ((order, f) :: map (pair order) facs)
      | Some (Ok (op, o)) => o = order /\ exists l1 f0 l2,
          (order, f) :: map (pair order) facs = l1 ++ (order, f0) :: l2 /\
          Forall (rejects img) l1 /\ accepts img (order, f0) op
      | Some (Err _) => False
      | Some Panic => exists l1 x l2,
          (order, f) :: map (pair order) facs = l1 ++ x :: l2 /\ Forall (rejects img) l1 /\ hangs img x
      end).
    { intros Hr. destruct (try_factories sw single system order facs) as [[[op o]|e|]|].
      - destruct IH' as (-> & l1 & f0 & l2 & El & Hl & Ha). split; [reflexivity|].
        exists ((order, f) :: l1), f0, l2. split; [rewrite El; reflexivity|].
        split; [constructor; assumption | exact Ha].
      - exact IH'.
      - destruct IH' as (l1 & x & l2 & El & Hl & Hx).
        exists ((order, f) :: l1), x, l2. split; [rewrite El; reflexivity|].
        split; [constructor; assumption | exact Hx].
      - constructor; assumption. }
    destruct (f_seems f d) as [[|]|] eqn:Es.
    - destruct (f_operator f d) as [op|e|] eqn:Eo.
      + split; [reflexivity|]. exists [], f, (map (pair order) facs).
        split; [reflexivity|]. split; [constructor|]. exists d; auto.
      + apply Hrej. exists d. split; [exact Hre|]. right; eauto.
      + exists [], (order, f), (map (pair order) facs). split; [reflexivity|]. split; [constructor|].
        exists d. split; [exact Hre|]. right; split; assumption.
    - apply Hrej. exists d. split; [exact Hre|]. left; exact Es.
    - exists [], (order, f), (map (pair order) facs). split; [reflexivity|]. split; [constructor|].
      exists d. split; [exact Hre|]. left; assumption.
  Qed.

  Lemma try_orders_spec img single system facs orders :
    zlen img = 143360 ->
    single && negb (beq system (s2b "auto")) = false ->
    (forall o, In o orders -> exists l, interleave o l) ->
    (forall f, In f facs -> exists l, interleave (f_order f) l) ->
    match try_orders img single system facs orders with
    | Ok (op, o) => exists l1 f l2,
        list_prod orders facs = l1 ++ (o, f) :: l2 /\
        Forall (rejects img) l1 /\ accepts img (o, f) op
    | Err _ => Forall (rejects img) (list_prod orders facs)
    | Panic => exists l1 x l2,
        list_prod orders facs = l1 ++ x :: l2 /\ Forall (rejects img) l1 /\ hangs img x
    end.
  Proof.
    intros Hi Hpin Hord Hfac. induction orders as [|o orders IH]; cbn [try_orders list_prod].
    { constructor. }
    destruct (tables_ok o (Hord o (or_introl eq_refl))) as (l & p & El & Ep & Il & Pl & Pp & _).
    destruct (Swizzle_ok img l Hi Pl) as (sw & Esw & _).
    assert (Esw' : Swizzle img (orNil (LogicalToPhysicalByName o)) = Ok sw) by (rewrite El; exact Esw).
    rewrite Esw'.
    pose proof (try_factories_spec img sw single system o facs Hpin Esw' Hfac) as HT.
    assert (IH' := IH (fun g Hg => Hord g (or_intror Hg))). clear IH.
    change (map (fun y : factory Op => (o, y)) facs) with (map (pair o) facs).
    destruct (try_factories sw single system o facs) as [[[op o']|e|]|].
    - destruct HT as (-> & l1 & f & l2 & E & Hl & Ha). exists l1, f, (l2 ++ list_prod orders facs).
      split; [|split; assumption]. rewrite E, <- app_assoc. reflexivity.
    - contradiction.
    - destruct HT as (l1 & x & l2 & E & Hl & Ha). exists l1, x, (l2 ++ list_prod orders facs).
      split; [|split; assumption]. rewrite E, <- app_assoc. reflexivity.
    - destruct (try_orders img single system facs orders) as [[op o']|e|].
      + destruct IH' as (l1 & f & l2 & E & Hl & Ha).
        exists (map (pair o) facs ++ l1), f, l2. split; [rewrite E, <- app_assoc; reflexivity|].
        split; [apply Forall_app; split; assumption | exact Ha].
      + apply Forall_app; split; assumption.
      + destruct IH' as (l1 & x & l2 & E & Hl & Ha).
        exists (map (pair o) facs ++ l1), x, l2. split; [rewrite E, <- app_assoc; reflexivity|].
        split; [apply Forall_app; split; assumption | exact Ha].
  Qed.

  Lemma OpenImage_floppy img name order system facs :
    zlen img = 143360 ->
    OpenImage img name order system facs =
      openDoOrPo img order system (to_lower (path_Ext name)) facs.
  Proof. intros H. unfold OpenImage, FloppyDiskBytes. rewrite H. reflexivity. Qed.

  Lemma open_scan img name order system facs sel orders op o :
    zlen img = 143360 ->
    (forall f, In f facs -> exists l, interleave (f_order f) l) ->
    selected f_name system facs sel ->
    candidates name order orders ->
    (zlen orders <> 1 \/ system = s2b "auto") ->
    OpenImage img name order system facs = Ok (op, o) <->
    exists l1 f l2, list_prod orders sel = l1 ++ (o, f) :: l2 /\
        Forall (rejects img) l1 /\ accepts img (o, f) op.
  Proof.
    intros Hi Hfac Hsel Hc Hpin. rewrite OpenImage_floppy by assumption. unfold openDoOrPo. cbv zeta.
    rewrite (selected_fun _ _ _ _ (filter_selected system facs) Hsel).
    pose proof Hc as Hc'. apply candidate_orders_iff in Hc'.
    destruct (Z.eqb_spec (zlen sel) 0) as [E0|E0].
    { apply zlen_zero_nil in E0. subst sel. split; [discriminate|].
      intros (l1 & f & l2 & E & _). exfalso.
      assert (Hn : list_prod orders (@nil (factory Op)) = []).
      { clear. induction orders; [reflexivity | exact IHorders]. }
      rewrite Hn in E. destruct l1; discriminate. }
    rewrite Hc'. cbn [rbind].
    pose proof (try_orders_spec img (zlen orders =? 1) system sel orders Hi) as HT.
    assert (Hp : (zlen orders =? 1) && negb (beq system (s2b "auto")) = false).
    { destruct Hpin as [Hp| ->]; [replace (zlen orders =? 1) with false by lia; reflexivity|].
      rewrite beq_refl. apply andb_false_r. }
    specialize (HT Hp (fun o' => candidates_interleave _ _ _ o' Hc)
                  (fun f Hf => Hfac f (selected_In _ _ _ _ Hsel Hf))).
    destruct (try_orders img (zlen orders =? 1) system sel orders) as [[op1 o1]|e|].
    - split.
      + intros H; inversion H; subst; exact HT.
      + intros (l1 & f & l2 & E & Hl & Ha). destruct HT as (l1' & f' & l2' & E' & Hl' & Ha').
        rewrite E in E'.
        pose proof (first_unique _ _ _ _ _ _ _ E' Hl Hl' (accepts_not_rejects _ _ _ Ha)
                      (accepts_not_rejects _ _ _ Ha')) as Ex.
        inversion Ex; subst. rewrite (accepts_fun _ _ _ _ Ha Ha'). reflexivity.
    - split; [discriminate|]. intros (l1 & f & l2 & E & Hl & Ha). exfalso.
      rewrite E in HT. apply Forall_app in HT as [_ HT]. inversion HT as [|? ? Hr _]; subst.
      eapply accepts_not_rejects; eassumption.
    - split; [discriminate|]. intros (l1 & f & l2 & E & Hl & Ha). exfalso.
      destruct HT as (l1' & x & l2' & E' & Hl' & Hx). rewrite E in E'.
      pose proof (first_unique _ _ _ _ _ _ _ E' Hl Hl' (accepts_not_rejects _ _ _ Ha)
                    (hangs_not_rejects _ _ Hx)) as Ex.
      subst x. eapply accepts_not_hangs; eassumption.
  Qed.

  (** No pair matches: an error. *)
  Lemma open_scan_none img name order system facs sel orders :
    zlen img = 143360 ->
    (forall f, In f facs -> exists l, interleave (f_order f) l) ->
    selected f_name system facs sel ->
    candidates name order orders ->
    (zlen orders <> 1 \/ system = s2b "auto") ->
    (exists e, OpenImage img name order system facs = Err e) <->
    Forall (rejects img) (list_prod orders sel).
  Proof.
    intros Hi Hfac Hsel Hc Hpin. rewrite OpenImage_floppy by assumption. unfold openDoOrPo. cbv zeta.
    rewrite (selected_fun _ _ _ _ (filter_selected system facs) Hsel).
    pose proof Hc as Hc'. apply candidate_orders_iff in Hc'.
    destruct (Z.eqb_spec (zlen sel) 0) as [E0|E0].
    { apply zlen_zero_nil in E0. subst sel. split; [|intros _; eexists; reflexivity].
      intros _. assert (Hn : list_prod orders (@nil (factory Op)) = []).
      { clear. induction orders; [reflexivity | exact IHorders]. }
      rewrite Hn. constructor. }
    rewrite Hc'. cbn [rbind].
    pose proof (try_orders_spec img (zlen orders =? 1) system sel orders Hi) as HT.
    assert (Hp : (zlen orders =? 1) && negb (beq system (s2b "auto")) = false).
    { destruct Hpin as [Hp| ->]; [replace (zlen orders =? 1) with false by lia; reflexivity|].
      rewrite beq_refl. apply andb_false_r. }
    specialize (HT Hp (fun o' => candidates_interleave _ _ _ o' Hc)
                  (fun f Hf => Hfac f (selected_In _ _ _ _ Hsel Hf))).
    destruct (try_orders img (zlen orders =? 1) system sel orders) as [[op1 o1]|e|].
    - split; [intros [e He]; discriminate|]. intros HF. exfalso.
      destruct HT as (l1 & f & l2 & E & _ & Ha). rewrite E in HF.
      apply Forall_app in HF as [_ HF]. inversion HF; subst. eapply accepts_not_rejects; eassumption.
    - split; eauto.
    - split; [intros [e He]; discriminate|]. intros HF. exfalso.
      destruct HT as (l1 & f & l2 & E & _ & Ha). rewrite E in HF.
      apply Forall_app in HF as [_ HF]. inversion HF; subst. eapply hangs_not_rejects; eassumption.
  Qed.

  (** Order and system pinned: no matching test. *)
  Lemma open_pinned img name order system facs sel o :
    zlen img = 143360 ->
    (forall f, In f facs -> exists l, interleave (f_order f) l) ->
    selected f_name system facs sel ->
    candidates name order [o] -> system <> s2b "auto" ->
    match sel with
    | [] => exists e, OpenImage img name order system facs = Err e
    | f :: _ => exists d, reordered img o (f_order f) d /\
        OpenImage img name order system facs = (op <- f_operator f d ;; Ok (op, o))
    end.
  Proof.
    intros Hi Hfac Hsel Hc Hsys. rewrite OpenImage_floppy by assumption. unfold openDoOrPo. cbv zeta.
    rewrite (selected_fun _ _ _ _ (filter_selected system facs) Hsel).
    pose proof Hc as Hc'. apply candidate_orders_iff in Hc'.
    destruct sel as [|f sel]; [eexists; reflexivity|].
    rewrite zlen_cons. pose proof (zlen_nonneg sel).
    replace (1 + zlen sel =? 0) with false by lia. rewrite Hc'. cbn [rbind try_orders zlen length Z.of_nat Pos.of_succ_nat Z.eqb Pos.eqb].
    destruct (tables_ok o (candidates_interleave _ _ _ o Hc (or_introl eq_refl))) as (l & p & El & Ep & Il & Pl & Pp & _).
    destruct (Swizzle_ok img l Hi Pl) as (sw & Esw & _).
    assert (Esw' : Swizzle img (orNil (LogicalToPhysicalByName o)) = Ok sw) by (rewrite El; exact Esw).
    rewrite Esw'. cbn [try_factories].
    destruct (reorder_step img o sw f Esw') as (d & Ed & Hre).
    { apply Hfac. eapply selected_In; [exact Hsel | left; reflexivity]. }
    exists d. split; [exact Hre|]. rewrite Ed. apply beq_neq in Hsys. rewrite Hsys. reflexivity.
  Qed.

  (** No candidate order (bad flag or unknown extension): an error. *)
  Lemma open_no_candidates img name order system facs :
    zlen img = 143360 -> (forall orders, ~ candidates name order orders) ->
    exists e, OpenImage img name order system facs = Err e.
  Proof.
    intros Hi Hc. rewrite OpenImage_floppy by assumption. unfold openDoOrPo. cbv zeta.
    destruct (zlen _ =? 0); [eexists; reflexivity|].
    destruct (candidate_orders order (to_lower (path_Ext name))) as [orders|e|] eqn:E.
    - apply candidate_orders_iff in E. exfalso. eapply Hc; eassumption.
    - eexists; reflexivity.
    - exfalso. eapply candidate_orders_total; eassumption.
  Qed.

  (** Whatever OpenImage returns on a floppy is some factory's operator on the re-ordered image. *)
  Lemma open_floppy_sound img name order system facs op o :
    zlen img = 143360 ->
    (forall f, In f facs -> exists l, interleave (f_order f) l) ->
    OpenImage img name order system facs = Ok (op, o) ->
    exists f d, In f facs /\ reordered img o (f_order f) d /\ f_operator f d = Ok op.
  Proof.
    intros Hi Hfac H.
    assert (Hsel := filter_selected system facs).
    set (sel := filter _ facs) in Hsel.
    destruct (candidate_orders order (to_lower (path_Ext name))) as [orders|e|] eqn:E.
    - apply candidate_orders_iff in E.
      destruct (Z.eq_dec (zlen orders) 1) as [E1|E1];
        [destruct (beq system (s2b "auto")) eqn:E2|].
      1,3: (assert (Hp : zlen orders <> 1 \/ system = s2b "auto") by (apply beq_eq in E2; auto) || (left; assumption));
        (eapply open_scan in H; [|eassumption..]);
        destruct H as (l1 & f & l2 & El & _ & d & Hd & _ & Ho); exists f, d;
        (split; [|split; assumption]);
        assert (Hin : In (o, f) (list_prod orders sel)) by (unfold DiskOrder in *; rewrite El; apply in_elt);
        apply in_prod_iff in Hin as [_ Hin]; eapply selected_In; eassumption.
      apply beq_neq in E2.
      destruct orders as [|o1 [|o2 orders]]; [cbn in E1; lia| |rewrite !zlen_cons in E1; pose proof (zlen_nonneg orders); lia].
      pose proof (open_pinned img name order system facs sel o1 Hi Hfac Hsel E E2) as HP.
      destruct sel as [|f sel'] eqn:Es; [destruct HP as [e He]; congruence|].
      destruct HP as (d & Hd & Eo). rewrite H in Eo.
      destruct (f_operator f d) as [op'|e|] eqn:Ef; cbn [rbind] in Eo; inversion Eo; subst.
      exists f, d. split; [|split; assumption]. eapply selected_In; [exact Hsel | left; reflexivity].
    - rewrite OpenImage_floppy in H by assumption. unfold openDoOrPo in H. rewrite E in H.
      destruct (zlen _ =? 0); discriminate.
    - exfalso. eapply candidate_orders_total; eassumption.
  Qed.

  (** ** .hdv and the gates *)
  Lemma openHDV_loop_ok raw facs op o :
    openHDV_loop raw facs = Ok (op, o) <->
    o = s2b "po" /\ exists l1 f l2, facs = l1 ++ f :: l2 /\
      (forall g, In g l1 -> f_name g <> s2b "prodos") /\ f_name f = s2b "prodos" /\
      f_operator f raw = Ok op.
  Proof.
    induction facs as [|f facs IH]; cbn [openHDV_loop].
    - split; [discriminate|]. intros (_ & l1 & f & l2 & E & _). destruct l1; discriminate.
    - destruct (beq (f_name f) (s2b "prodos")) eqn:E.
      + apply beq_eq in E. split.
        * destruct (f_operator f raw) as [op'|e|] eqn:Eo; cbn [rbind]; try discriminate.
          intros H; inversion H; subst. split; [reflexivity|]. exists [], f, facs.
          split; [reflexivity|]. split; [intros g []|]. split; assumption.
        * intros (-> & [|g l1] & f' & l2 & El & Hn & Hf & Ho); cbn [app] in El; inversion El; subst.
          -- rewrite Ho. reflexivity.
          -- exfalso. apply (Hn g (or_introl eq_refl)). exact E.
      + rewrite IH. apply beq_neq in E. split; intros (-> & l1 & g & l2 & El & Hn & Hf & Ho); (split; [reflexivity|]).
        * exists (f :: l1), g, l2. split; [rewrite El; reflexivity|]. split; [|split; assumption].
          intros h [<-|Hh]; [exact E | apply Hn, Hh].
        * destruct l1 as [|h l1]; cbn [app] in El; inversion El; subst; [contradiction|].
          exists l1, g, l2. split; [reflexivity|]. split; [|split; assumption].
          intros k Hk. apply Hn. right; exact Hk.
  Qed.

  Lemma open_hdv img name order system facs op o :
    zlen img <> 143360 ->
    OpenImage img name order system facs = Ok (op, o) <->
    zlen img <> 116480 /\ ext_is name (s2b "hdv") /\
    zlen img mod 512 = 0 /\ zlen img <= 65536 * 512 /\
    (order = s2b "auto" \/ order = s2b "po") /\ (system = s2b "auto" \/ system = s2b "prodos") /\
    o = s2b "po" /\ exists l1 f l2, facs = l1 ++ f :: l2 /\
      (forall g, In g l1 -> f_name g <> s2b "prodos") /\ f_name f = s2b "prodos" /\
      f_operator f img = Ok op.
  Proof.
    intros Hi. unfold OpenImage. unfold FloppyDiskBytes, FloppyDiskBytes13Sector.
    replace (zlen img =? 143360) with false by lia. change (35 * 13 * 256) with 116480.
    destruct (Z.eqb_spec (zlen img) 116480) as [E|E]; [split; [discriminate | tauto]|].
    destruct (beq (to_lower (path_Ext name)) (s2b ".hdv")) eqn:Ex.
    2:{ split; [discriminate|]. intros (_ & Hx & _). apply ext_hdv in Hx. congruence. }
    pose proof Ex as Ex'. apply ext_hdv in Ex'.
    unfold openHDV. pose proof (zlen_nonneg img).
    destruct (Z.ltb_spec 0 (zlen img mod 512)); [split; [discriminate | lia]|].
    destruct (Z.ltb_spec 65536 (zlen img / 512)); [split; [discriminate | lia]|].
    destruct (beq order (s2b "auto")) eqn:O1; [|destruct (beq order DiskOrderPO) eqn:O2]; cbn [negb andb].
    3:{ apply beq_neq in O1, O2. split; [discriminate | tauto]. }
    all: (destruct (beq system (s2b "auto")) eqn:S1; [|destruct (beq system (s2b "prodos")) eqn:S2]; cbn [negb andb]).
    3,6: (apply beq_neq in S1, S2; split; [discriminate | tauto]).
    all: rewrite openHDV_loop_ok;
      repeat match goal with H : beq _ _ = true |- _ => apply beq_eq in H end;
      (split; [intros (? & ?); repeat (split; [first [assumption | lia | auto]|]); assumption | tauto]).
  Qed.

  (** ** Open then write back *)
  Lemma open_writeback (get_bytes : Op -> bytes) (op_order : Op -> DiskOrder)
      img name order system facs op o :
    (forall f, In f facs -> exists l, interleave (f_order f) l) ->
    (forall f d op, In f facs -> f_operator f d = Ok op -> get_bytes op = d /\ op_order op = f_order f) ->
    OpenImage img name order system facs = Ok (op, o) ->
    WriteBackBytes (get_bytes op) (op_order op) o = Ok img.
  Proof.
    intros Hfac Hct H.
    destruct (Z.eq_dec (zlen img) 143360) as [Hi|Hi].
    - destruct (open_floppy_sound _ _ _ _ _ _ _ Hi Hfac H) as (f & d & Hin & Hre & Ho).
      destruct (Hct f d op Hin Ho) as [-> ->].
      unfold WriteBackBytes, FloppyDiskBytes.
      pose proof Hre as (_ & Hl & _). rewrite Hl. cbn [Z.eqb Pos.eqb negb].
      apply reorder2_iff. apply reordered_back. exact Hre.
    - apply open_hdv in H; [|exact Hi].
      destruct H as (_ & _ & _ & _ & _ & _ & -> & l1 & f & l2 & -> & _ & _ & Ho).
      destruct (Hct f img op) as [-> ->]; [apply in_elt | exact Ho|].
      unfold WriteBackBytes, FloppyDiskBytes. replace (zlen img =? 143360) with false by lia. reflexivity.
  Qed.
End Open.

(** ** Final forms *)
Lemma C01_lemma : forall img t s, is_byte t -> is_byte s ->
  (4096 * t + 256 * s + 256 <= zlen img ->
     exists r, ReadSector img t s = Ok r /\ zlen r = 256 /\
       forall i, 0 <= i < 256 -> znth 0 r i = znth 0 img (4096 * t + 256 * s + i)) /\
  (zlen img < 4096 * t + 256 * s + 256 -> exists e, ReadSector img t s = Err e).
Proof.
  unfold is_byte. intros img t s Ht Hs. rewrite ReadSector_spec. unfold offset. split; intros H.
  - replace (zlen img <? 4096 * t + 256 * s + 256) with false by lia.
    eexists. split; [reflexivity|]. split; [apply zlen_sector; unfold offset; lia|].
    intros i Hi. unfold sector, offset. rewrite znth_sub by lia. reflexivity.
  - replace (zlen img <? 4096 * t + 256 * s + 256) with true by lia. eauto.
Qed.

Lemma C02_lemma : forall img t s d img' r, is_byte t -> is_byte s ->
  WriteSector t s d img = (img', r) ->
  (zlen d = 256 /\ 4096 * t + 256 * s + 256 <= zlen img ->
     r = Ok tt /\ zlen img' = zlen img /\
     (forall i, 0 <= i < 256 -> znth 0 img' (4096 * t + 256 * s + i) = znth 0 d i) /\
     (forall j, 0 <= j -> ~ (4096 * t + 256 * s <= j < 4096 * t + 256 * s + 256) ->
        znth 0 img' j = znth 0 img j) /\
     ReadSector img' t s = Ok d /\
     (forall t' s', is_byte t' -> is_byte s' -> 4096 * t' + 256 * s' <> 4096 * t + 256 * s ->
        ReadSector img' t' s' = ReadSector img t' s')) /\
  (~ (zlen d = 256 /\ 4096 * t + 256 * s + 256 <= zlen img) ->
     img' = img /\ exists e, r = Err e).
Proof.
  unfold is_byte. intros img t s d img' r Ht Hs HW. split.
  - intros [Hd Hi]. rewrite WriteSector_ok in HW by (unfold offset; assumption || lia).
    inversion HW; subst img' r.
    assert (Hl : zlen (upd img (offset t s) d) = zlen img) by (apply zlen_upd; unfold offset; lia).
    split; [reflexivity|]. split; [exact Hl|]. repeat split.
    + intros i Hr. rewrite znth_upd by (unfold offset; lia). unfold offset.
      replace ((4096 * t + 256 * s <=? 4096 * t + 256 * s + i) &&
               (4096 * t + 256 * s + i <? 4096 * t + 256 * s + zlen d)) with true by lia.
      f_equal; lia.
    + intros j Hj Hn. rewrite znth_upd by (unfold offset; lia). unfold offset.
      replace ((4096 * t + 256 * s <=? j) && (j <? 4096 * t + 256 * s + zlen d)) with false by lia.
      reflexivity.
    + rewrite ReadSector_spec, Hl.
      replace (zlen img <? offset t s + 256) with false by (unfold offset; lia).
      f_equal. apply sector_upd_same; unfold offset; lia.
    + intros t' s' Ht' Hs' Hne. rewrite !ReadSector_spec, Hl.
      destruct (zlen img <? offset t' s' + 256); [reflexivity|]. f_equal.
      apply sector_upd_other; unfold offset; lia.
  - intros Hn. destruct (WriteSector_err img t s d) as [e He]; [unfold offset; lia|].
    rewrite He in HW. inversion HW; subst. split; [reflexivity | eauto].
Qed.

Lemma zrange16 : zrange 16 = [0;1;2;3;4;5;6;7;8;9;10;11;12;13;14;15].
Proof. reflexivity. Qed.

Lemma C03_lemma : forall img order,
  ((exists r, Swizzle img order = Ok r) <->
     zlen img = 143360 /\ Permutation order [0;1;2;3;4;5;6;7;8;9;10;11;12;13;14;15]) /\
  ((exists e, Swizzle img order = Err e) <->
     ~ (zlen img = 143360 /\ Permutation order [0;1;2;3;4;5;6;7;8;9;10;11;12;13;14;15])) /\
  (forall r, Swizzle img order = Ok r ->
     zlen r = 143360 /\
     forall t s i, 0 <= t < 35 -> 0 <= s < 16 -> 0 <= i < 256 ->
       znth 0 r (4096 * t + 256 * znth 0 order s + i) = znth 0 img (4096 * t + 256 * s + i)).
Proof.
  intros img order. rewrite <- zrange16. split; [|split].
  - split.
    + intros [r Hr]. apply Swizzle_iff in Hr. tauto.
    + intros [Hi Hp]. destruct (Swizzle_ok img order Hi Hp) as (r & Hr & _). eauto.
  - split.
    + intros [e He] [Hi Hp]. destruct (Swizzle_ok img order Hi Hp) as (r & Hr & _). congruence.
    + apply Swizzle_err.
  - intros r Hr. apply Swizzle_iff in Hr as (Hi & Hp & Hl & Hs). split; [exact Hl|].
    intros t s i Ht Hsr Hir. specialize (Hs t s Ht Hsr).
    pose proof (perm_range order s Hp Hsr).
    apply (f_equal (fun l => znth 0 l i)) in Hs. unfold sector, offset in Hs.
    rewrite !znth_sub in Hs by lia. exact Hs.
Qed.

Lemma known_order o : o = s2b "do" \/ o = s2b "po" \/ o = s2b "raw" <-> exists l, interleave o l.
Proof.
  split.
  - intros [->|[->| ->]]; eexists; constructor.
  - intros [l H]; inversion H; auto.
Qed.

Lemma C04_lemma : forall o img, (o = s2b "do" \/ o = s2b "po" \/ o = s2b "raw") ->
  zlen img = 143360 ->
  exists l p a b,
    LogicalToPhysicalByName o = Some l /\ PhysicalToLogicalByName o = Some p /\
    Swizzle img l = Ok a /\ Swizzle a p = Ok img /\
    Swizzle img p = Ok b /\ Swizzle b l = Ok img.
Proof.
  intros o img Ho Hi. apply known_order in Ho.
  destruct (tables_ok o Ho) as (l & p & El & Ep & _ & Pl & Pp & _).
  destruct (Swizzle_ok img l Hi Pl) as (a & Ea & _).
  destruct (Swizzle_ok img p Hi Pp) as (b & Eb & _).
  exists l, p, a, b. repeat (split; [assumption|]).
  split; [exact (proj1 (Swizzle_inverse o img l p a El Ep Hi) Ea)|]. split; [exact Eb|].
  exact (proj2 (Swizzle_inverse o img l p b El Ep Hi) Eb).
Qed.

Lemma C05_lemma : forall (Op : Type) (get_bytes : Op -> bytes) (op_order : Op -> bytes)
    (facs : list (factory Op)) img name order system op o,
  (forall f, In f facs -> f_order f = s2b "do" \/ f_order f = s2b "po" \/ f_order f = s2b "raw") ->
  (forall f d op, In f facs -> f_operator f d = Ok op -> get_bytes op = d /\ op_order op = f_order f) ->
  OpenImage img name order system facs = Ok (op, o) ->
  WriteBackBytes (get_bytes op) (op_order op) o = Ok img.
Proof.
  intros Op gb oo facs img name order system op o Hf Hc Ho.
  eapply open_writeback; [|exact Hc|exact Ho]. intros f Hin. apply known_order, Hf, Hin.
Qed.

Lemma C07_lemma : forall (Op : Type) (facs sel : list (factory Op)) img name order system,
  zlen img = 143360 ->
  (forall f, In f facs -> f_order f = s2b "do" \/ f_order f = s2b "po" \/ f_order f = s2b "raw") ->
  selected f_name system facs sel ->
  ((forall orders, ~ candidates name order orders) ->
     exists e, OpenImage img name order system facs = Err e) /\
  (forall orders, candidates name order orders ->
     ((zlen orders <> 1 \/ system = s2b "auto") ->
        (forall op o, OpenImage img name order system facs = Ok (op, o) <->
           exists l1 f l2, list_prod orders sel = l1 ++ (o, f) :: l2 /\
             Forall (rejects img) l1 /\ accepts img (o, f) op) /\
        ((exists e, OpenImage img name order system facs = Err e) <->
           Forall (rejects img) (list_prod orders sel))) /\
     (forall o, orders = [o] -> system <> s2b "auto" ->
        match sel with
        | [] => exists e, OpenImage img name order system facs = Err e
        | f :: _ => exists d, reordered img o (f_order f) d /\
            OpenImage img name order system facs =
              match f_operator f d with Ok op => Ok (op, o) | Err e => Err e | Panic => Panic end
        end)).
Proof.
  intros Op facs sel img name order system Hi Hf Hsel.
  assert (Hf' : forall f, In f facs -> exists l, interleave (f_order f) l).
  { intros f Hin. apply known_order, Hf, Hin. }
  split; [apply open_no_candidates; assumption|].
  intros orders Hc. split.
  - intros Hp. split.
    + intros op o. apply open_scan; assumption.
    + apply open_scan_none; assumption.
  - intros o -> Hsys. exact (open_pinned img name order system facs sel o Hi Hf' Hsel Hc Hsys).
Qed.

Lemma C09_unmarshal_lemma : forall (T : Type) (FromBlock : bytes -> res T) setBlock img i, is_u16 i ->
  (512 * i + 512 <= zlen img ->
     exists blk, zlen blk = 512 /\ (forall j, 0 <= j < 512 -> znth 0 blk j = znth 0 img (512 * i + j)) /\
       UnmarshalBlock FromBlock setBlock img i =
         match FromBlock blk with Ok v => Ok (setBlock i v) | Err e => Err e | Panic => Panic end) /\
  (zlen img < 512 * i + 512 -> exists e, UnmarshalBlock FromBlock setBlock img i = Err e).
Proof.
  unfold is_u16. intros T FB sb img i Hi. unfold UnmarshalBlock. split; intros H.
  - replace (zlen img <? i * 512 + 512) with false by lia.
    exists (sub img (i * 512) (i * 512 + 512)). split; [rewrite zlen_sub; lia|].
    split; [|reflexivity]. intros j Hj. rewrite znth_sub by lia. f_equal; lia.
  - replace (zlen img <? i * 512 + 512) with true by lia. eauto.
Qed.

Lemma C09_marshal_lemma : forall (T : Type) (ToBlock : T -> res bytes) getBlock (v : T) img img' r,
  is_u16 (getBlock v) -> (forall b, ToBlock v = Ok b -> zlen b = 512) ->
  MarshalBlock ToBlock getBlock v img = (img', r) ->
  (forall b, ToBlock v = Ok b -> 512 * getBlock v + 512 <= zlen img ->
     r = Ok tt /\ zlen img' = zlen img /\
     (forall j, 0 <= j < 512 -> znth 0 img' (512 * getBlock v + j) = znth 0 b j) /\
     (forall j, 0 <= j -> ~ (512 * getBlock v <= j < 512 * getBlock v + 512) ->
        znth 0 img' j = znth 0 img j)) /\
  (r <> Ok tt -> img' = img) /\
  (zlen img < 512 * getBlock v + 512 -> r <> Ok tt).
Proof.
  unfold is_u16. intros T TB gb v img img' r Hi HB HM. unfold MarshalBlock in HM.
  destruct (TB v) as [blk|e|] eqn:E.
  - specialize (HB blk eq_refl). cbv zeta in HM.
    destruct (Z.ltb_spec (zlen img) (gb v * 512 + 512)) as [Hlt|Hge]; inversion HM; subst.
    + split; [intros; lia|]. split; [reflexivity|]. discriminate.
    + split; [|split; [congruence | intros; lia]].
      intros b Hb _. inversion Hb; subst b. split; [reflexivity|].
      split; [apply zlen_upd; lia|]. split.
      * intros j Hj. rewrite znth_upd by lia.
        replace ((gb v * 512 <=? 512 * gb v + j) && (512 * gb v + j <? gb v * 512 + zlen blk)) with true by lia.
        f_equal; lia.
      * intros j Hj Hn. rewrite znth_upd by lia.
        replace ((gb v * 512 <=? j) && (j <? gb v * 512 + zlen blk)) with false by lia. reflexivity.
  - inversion HM; subst. split; [congruence|]. split; [reflexivity|]. discriminate.
  - inversion HM; subst. split; [congruence|]. split; [reflexivity|]. discriminate.
Qed.

Lemma no_ext_not_ext name lit : is_ascii lit -> no_ext name -> ~ ext_is name lit.
Proof.
  intros Ha Hn H. apply ext_lower_iff in H; [|exact Ha]. rewrite (path_Ext_no name Hn) in H. discriminate.
Qed.

Lemma C10_lemma : forall name dflt,
  (ext_is name (s2b "dsk") \/ ext_is name (s2b "do") -> OrderFromFilename name dflt = s2b "do") /\
  (ext_is name (s2b "po") -> OrderFromFilename name dflt = s2b "po") /\
  (~ ext_is name (s2b "dsk") -> ~ ext_is name (s2b "do") -> ~ ext_is name (s2b "po") ->
     OrderFromFilename name dflt = dflt) /\
  (forall pre x, name = pre ++ 47 :: x -> plain x -> OrderFromFilename name dflt = dflt).
Proof.
  intros name dflt. split; [apply OrderFromFilename_do|]. split; [apply OrderFromFilename_po|].
  split; [apply OrderFromFilename_other|]. intros pre x -> Hp.
  assert (Hn : no_ext (pre ++ 47 :: x)) by (right; eauto).
  apply OrderFromFilename_other; apply no_ext_not_ext; try assumption; ascii.
Qed.

Lemma ext_is_dec_true name lit : is_ascii lit ->
  beq (to_lower (path_Ext name)) (46 :: lit) = true -> ext_is name lit.
Proof. intros Ha H. apply beq_eq in H. apply ext_lower_iff; assumption. Qed.
Lemma ext_is_dec_false name lit : is_ascii lit ->
  beq (to_lower (path_Ext name)) (46 :: lit) = false -> ~ ext_is name lit.
Proof. intros Ha H H2. apply ext_lower_iff in H2; [|exact Ha]. apply beq_neq in H. contradiction. Qed.

Lemma C10_example_lemma : ext_is (s2b "x.dsk/y.Po") (s2b "po") /\ ~ ext_is (s2b "x.dsk/y") (s2b "dsk").
Proof.
  split; [apply ext_is_dec_true; [ascii | reflexivity] | apply ext_is_dec_false; [ascii | reflexivity]].
Qed.
