(** VisitProofs.v -- every visit of a map in an order of its own. *)
From Coq Require Import ZifyBool ZifyNat.
From Verif Require Import GoBase GoLemmas TypesModel DiskModel DiskSpec DiskProofs DiskOpenProofs.
From Verif Require Import SupermonModel SupermonSpec SupermonStoreSpec SupermonTableSpec SupermonProofs SupermonOpProofs.
From Verif Require Dos3Spec ProdosSpec ProdosProofs.
From Verif Require Import ProdosModel CmdModel CmdSpec CmdProofs CmdStmtProofs NakedCmdSpec NakedCmdProofs MainModel DetectSpec DetectProofs PrintProofs StatusSpec StatusProofs AfterProofs VolumeSpec VolumeProofs VolumeExProofs ImageSpec ImageProofs VisitModel.
Ltac Zify.zify_post_hook ::= Z.div_mod_to_equations.
Local Opaque zrange zeros sub.

(** ** The loop over the orders *)
Section Loop.
  Context {Op : Type}.
  Fixpoint pairs (facs : DiskOrder -> list (factory Op)) (orders : list DiskOrder) : list (DiskOrder * factory Op) :=
    match orders with [] => [] | o :: rest => map (pair o) (facs o) ++ pairs facs rest end.
  Lemma try_orders_v_spec img single system (facs : DiskOrder -> list (factory Op)) orders :
    zlen img = 143360 -> single && negb (beq system (s2b "auto")) = false ->
    (forall o, In o orders -> exists l, interleave o l) ->
    (forall o f, In f (facs o) -> exists l, interleave (f_order f) l) ->
    match try_orders_v img single system facs orders with
    | Ok (op, o) => exists l1 f l2, pairs facs orders = l1 ++ (o, f) :: l2 /\ Forall (rejects img) l1 /\ accepts img (o, f) op
    | Err _ => Forall (rejects img) (pairs facs orders)
    | Panic => exists l1 x l2, pairs facs orders = l1 ++ x :: l2 /\ Forall (rejects img) l1 /\ hangs img x
    end.
  Proof.
    intros Hi Hpin Hord Hfac. induction orders as [|o orders IH]; cbn [try_orders_v pairs].
    { constructor. }
    destruct (tables_ok o (Hord o (or_introl eq_refl))) as (l & p & El & Ep & Il & Pl & Pp & _).
    destruct (Swizzle_ok img l Hi Pl) as (sw & Esw & _).
    assert (Esw' : Swizzle img (orNil (LogicalToPhysicalByName o)) = Ok sw) by (rewrite El; exact Esw).
    rewrite Esw'.
    pose proof (try_factories_spec img sw single system o (facs o) Hpin Esw' (Hfac o)) as HT.
    assert (IH' := IH (fun g Hg => Hord g (or_intror Hg))). clear IH.
    destruct (try_factories sw single system o (facs o)) as [[[op o']|e|]|].
    - destruct HT as (-> & l1 & f & l2 & E & Hl & Ha). exists l1, f, (l2 ++ pairs facs orders).
      split; [|split; assumption]. rewrite E, <- app_assoc. reflexivity.
    - contradiction.
    - destruct HT as (l1 & x & l2 & E & Hl & Ha). exists l1, x, (l2 ++ pairs facs orders).
      split; [|split; assumption]. rewrite E, <- app_assoc. reflexivity.
    - destruct (try_orders_v img single system facs orders) as [[op o']|e|].
      + destruct IH' as (l1 & f & l2 & E & Hl & Ha).
        exists (map (pair o) (facs o) ++ l1), f, l2. split; [rewrite E, <- app_assoc; reflexivity|].
        split; [apply Forall_app; split; assumption | exact Ha].
      + apply Forall_app; split; assumption.
      + destruct IH' as (l1 & x & l2 & E & Hl & Ha).
        exists (map (pair o) (facs o) ++ l1), x, l2. split; [rewrite E, <- app_assoc; reflexivity|].
        split; [apply Forall_app; split; assumption | exact Ha].
  Qed.
End Loop.

(** ** One order for all visits *)
Lemma try_orders_same {Op} img single system (facs : list (factory Op)) orders :
  try_orders_v img single system (fun _ => facs) orders = try_orders img single system facs orders.
Proof.
  induction orders as [|o orders IH]; [reflexivity|]. cbn [try_orders_v try_orders]. rewrite IH. reflexivity.
Qed.
Lemma open_same {Op} c name order system (facs : list (factory Op)) : OpenImage_v c name order system (fun _ => facs) = OpenImage c name order system facs.
Proof.
  unfold OpenImage_v, OpenImage, openDoOrPo_v, openDoOrPo. cbv zeta. destruct (candidate_orders order (to_lower (path_Ext name))) as [orders|e|]; cbn [rbind]; [rewrite try_orders_same|..]; reflexivity.
Qed.
(** A single candidate order, or none: that visit only. *)
Lemma open_v_single {Op} c name order system (facs : DiskOrder -> list (factory Op)) o : zlen c = 143360 -> candidates name order [o] ->
  (forall o1 o2 : DiskOrder, map f_name (facs o1) = map f_name (facs o2)) ->
  OpenImage_v c name order system facs = OpenImage c name order system (facs o).
Proof.
  intros Hc Hca Hn. unfold OpenImage_v, OpenImage, FloppyDiskBytes. rewrite Hc. cbv zeta. cbn [Z.eqb Pos.eqb]. unfold openDoOrPo_v, openDoOrPo. cbv zeta.
  apply candidate_orders_iff in Hca. rewrite Hca. cbn [rbind].
  assert (Hz : forall l1 l2 : list (factory Op), map f_name l1 = map f_name l2 ->
    zlen (filter (fun f => beq system (s2b "auto") || beq system (f_name f)) l1) = zlen (filter (fun f => beq system (s2b "auto") || beq system (f_name f)) l2)).
  { induction l1 as [|f l1 IH]; intros [|g l2] E; try discriminate E; [reflexivity|]. cbn [map] in E. injection E as E1 E2. cbn [filter]. rewrite E1.
    destruct (_ || _); [rewrite !zlen_cons, (IH _ E2); reflexivity|apply IH, E2]. }
  rewrite (Hz _ _ (Hn DiskOrderPO o)). destruct (_ =? 0); [reflexivity|]. cbn [try_orders_v try_orders].
  destruct (Swizzle _ _); [|reflexivity..]. destruct (try_factories _ _ _ _ _); reflexivity.
Qed.

Section Visits.
  Context (vis : DiskOrder -> visiting).
  Local Notation vfacs := (fun k o => DiskOperatorFactories (vis o) k).
  Definition with_vis (k : nat) (x : bytes * bytes) : DiskOrder * factory AnyOp := (fst x, fac (vis (fst x)) k (snd x)).
  (** Trying pairs in turn comes to [r]. *)
  Definition runs (c : bytes) (L : list (bytes * bytes)) (r : opened_as) : Prop :=
    match r with
    | Opened sys d o => exists l1 l2, L = l1 ++ (o, sys) :: l2 /\ eventually (fun k => Forall (rejects c) (map (with_vis k) l1) /\ exists op, accepts c (o, fac (vis o) k sys) op /\ op_for sys d op)
    | Refused => eventually (fun k => Forall (rejects c) (map (with_vis k) L))
    | Stuck => exists l1 x l2, L = l1 ++ x :: l2 /\ eventually (fun k => Forall (rejects c) (map (with_vis k) l1) /\ hangs c (with_vis k x))
    end.
  Definition answers (c o sys d : bytes) (a : answer) : Prop :=
    match a with
    | Yes => eventually (fun k => exists op, accepts c (o, fac (vis o) k sys) op /\ op_for sys d op)
    | No => eventually (fun k => rejects c (o, fac (vis o) k sys))
    | Never => eventually (fun k => hangs c (o, fac (vis o) k sys))
    end.
  Lemma runs_yes c o sys d L : answers c o sys d Yes -> runs c ((o, sys) :: L) (Opened sys d o).
  Proof. intros H. exists [], L. split; [reflexivity|]. eapply eventually_impl; [|exact H]. intros k Hk. split; [constructor|exact Hk]. Qed.
  Lemma runs_no c o sys d L r : answers c o sys d No -> runs c L r -> runs c ((o, sys) :: L) r.
  Proof.
    intros H R. destruct r as [sys' d' o'| |]; cbn [runs answers] in *.
    - destruct R as (l1 & l2 & -> & R). exists ((o, sys) :: l1), l2. split; [reflexivity|]. eapply eventually_impl; [|exact (eventually_and _ _ H R)].
      intros k [H1 [H2 H3]]. split; [constructor; assumption|exact H3].
    - eapply eventually_impl; [|exact (eventually_and _ _ H R)]. intros k [H1 H2]. constructor; assumption.
    - destruct R as (l1 & x & l2 & -> & R). exists ((o, sys) :: l1), x, l2. split; [reflexivity|]. eapply eventually_impl; [|exact (eventually_and _ _ H R)].
      intros k [H1 [H2 H3]]. split; [constructor; assumption|exact H3].
  Qed.
  Lemma runs_never c o sys d L : answers c o sys d Never -> runs c ((o, sys) :: L) Stuck.
  Proof. intros H. exists [], (o, sys), L. split; [reflexivity|]. eapply eventually_impl; [|exact H]. intros k Hk. split; [constructor|exact Hk]. Qed.
  Lemma scan_total_v c L : zlen c = 143360 -> bytes_ok c -> (forall o, ProdosSpec.an_order (vis o)) ->
    Forall (fun x => (exists l, interleave (fst x) l) /\ exists so, own_order (snd x) so) L ->
    exists r, scan c L r /\ runs c L r.
  Proof.
    intros Hc B Hi. induction 1 as [|[o sys] L [Ho [so Hs]] _ IH].
    - exists Refused. split; [constructor|]. exists 0%nat. intros k _. constructor.
    - cbn [fst snd] in Ho, Hs. destruct (test_total (vis o) c o sys so Hc B (Hi o) Ho Hs) as (d & a & R & T & H). destruct a.
      + exists (Opened sys d o). split; [eapply sc_yes; eassumption|]. apply runs_yes. exact H.
      + destruct IH as (r & S & IH). exists r. split; [eapply sc_no; eassumption|]. apply (runs_no _ _ _ d); assumption.
      + exists Stuck. split; [eapply sc_never; eassumption|]. apply (runs_never _ _ _ d). exact H.
  Qed.

  Definition opens_v (img order system c : bytes) (r : opened_as) : Prop :=
    match r with
    | Opened sys d o => eventually (fun k => exists op, OpenImage_v c (image_name img) order system (vfacs k) = Ok (op, o) /\ op_for sys d op)
    | Refused => eventually (fun k => exists e, OpenImage_v c (image_name img) order system (vfacs k) = Err e)
    | Stuck => eventually (fun k => OpenImage_v c (image_name img) order system (vfacs k) = Panic)
    end.
  Lemma pairs_with k system syss orders : systems system syss ->
    pairs (fun o => filter (fun f => beq system (s2b "auto") || beq system (f_name f)) (DiskOperatorFactories (vis o) k)) orders = map (with_vis k) (list_prod orders syss).
  Proof.
    intros Hs. induction orders as [|o orders IH]; [reflexivity|]. cbn [pairs list_prod]. rewrite map_app, IH. f_equal.
    rewrite (selected_fun _ _ _ _ (filter_selected system (DiskOperatorFactories (vis o) k)) (systems_selected (vis o) system syss k Hs)).
    rewrite !map_map. reflexivity.
  Qed.
  Lemma runs_opens img order system c orders syss r : zlen c = 143360 -> candidates (image_name img) order orders -> systems system syss ->
    system = s2b "auto" \/ zlen orders <> 1 -> runs c (list_prod orders syss) r -> opens_v img order system c r.
  Proof.
    intros Hc Hca Hsy Hp HR.
    assert (Hp' : (zlen orders =? 1) && negb (beq system (s2b "auto")) = false).
    { destruct Hp as [-> |Hp]; [rewrite beq_refl; apply andb_false_r|replace (zlen orders =? 1) with false by lia; reflexivity]. }
    assert (HO : forall k, let res := OpenImage_v c (image_name img) order system (vfacs k) in
      match res with
      | Ok (op, o) => exists l1 f l2, map (with_vis k) (list_prod orders syss) = l1 ++ (o, f) :: l2 /\ Forall (rejects c) l1 /\ accepts c (o, f) op
      | Err _ => Forall (rejects c) (map (with_vis k) (list_prod orders syss))
      | Panic => exists l1 x l2, map (with_vis k) (list_prod orders syss) = l1 ++ x :: l2 /\ Forall (rejects c) l1 /\ hangs c x
      end).
    { intros k. unfold OpenImage_v, FloppyDiskBytes. rewrite Hc. cbv zeta. cbn [Z.eqb Pos.eqb]. unfold openDoOrPo_v. cbv zeta.
      rewrite (selected_fun _ _ _ _ (filter_selected system (DiskOperatorFactories (vis DiskOrderPO) k)) (systems_selected (vis DiskOrderPO) system syss k Hsy)).
      replace (zlen (map (fac (vis DiskOrderPO) k) syss) =? 0) with false by (destruct Hsy; reflexivity).
      pose proof Hca as Hca'. apply candidate_orders_iff in Hca'. rewrite Hca'. cbn [rbind].
      rewrite <- (pairs_with k system syss orders Hsy).
      apply (try_orders_v_spec c (zlen orders =? 1) system (fun o => filter (fun f => beq system (s2b "auto") || beq system (f_name f)) (DiskOperatorFactories (vis o) k)) orders Hc Hp').
      - intros o Ho. pose proof (candidates_interleave _ _ _ Hca) as F. rewrite Forall_forall in F. exact (F o Ho).
      - intros o f Hf. apply filter_In in Hf as [Hf _]. exact (facs_order (vis o) k f Hf). }
    cbv zeta in HO. destruct r as [sys d o| |]; cbn [runs opens_v] in *.
    - destruct HR as (l1 & l2 & E & HR). eapply eventually_impl; [|exact HR]. intros k (Hr & op & Ha & Hop). exists op. split; [|exact Hop]. specialize (HO k).
      assert (E' : map (with_vis k) (list_prod orders syss) = map (with_vis k) l1 ++ (o, fac (vis o) k sys) :: map (with_vis k) l2) by (rewrite E, map_app; reflexivity). rewrite E' in HO.
      destruct (OpenImage_v _ _ _ _ _) as [[op' o']|e|].
      + destruct HO as (m1 & f & m2 & E2 & Hm & Ha2). pose proof (first_unique _ _ _ _ _ _ _ E2 Hr Hm (accepts_not_rejects _ _ _ Ha) (accepts_not_rejects _ _ _ Ha2)) as X.
        injection X as <- <-. rewrite (accepts_fun _ _ _ _ Ha Ha2). reflexivity.
      + exfalso. apply Forall_app in HO as [_ HO]. apply Forall_inv in HO. exact (accepts_not_rejects _ _ _ Ha HO).
      + exfalso. destruct HO as (m1 & x & m2 & E2 & Hm & Hh). pose proof (first_unique _ _ _ _ _ _ _ E2 Hr Hm (accepts_not_rejects _ _ _ Ha) (hangs_not_rejects _ _ Hh)) as X.
        subst x. exact (accepts_not_hangs _ _ _ Ha Hh).
    - eapply eventually_impl; [|exact HR]. intros k Hr. specialize (HO k). destruct (OpenImage_v _ _ _ _ _) as [[op' o']|e|].
      + exfalso. destruct HO as (m1 & f & m2 & E2 & _ & Ha). apply (eq_ind _ (Forall (rejects c)) Hr) in E2. clear Hr. rename E2 into Hr. apply Forall_app in Hr as [_ Hr]. apply Forall_inv in Hr. exact (accepts_not_rejects _ _ _ Ha Hr).
      + exists e. reflexivity.
      + exfalso. destruct HO as (m1 & x & m2 & E2 & _ & Hh). apply (eq_ind _ (Forall (rejects c)) Hr) in E2. clear Hr. rename E2 into Hr. apply Forall_app in Hr as [_ Hr]. apply Forall_inv in Hr. exact (hangs_not_rejects _ _ Hh Hr).
    - destruct HR as (l1 & x & l2 & E & HR). eapply eventually_impl; [|exact HR]. intros k (Hr & Hh). specialize (HO k).
      assert (E' : map (with_vis k) (list_prod orders syss) = map (with_vis k) l1 ++ with_vis k x :: map (with_vis k) l2) by (rewrite E, map_app; reflexivity). rewrite E' in HO.
      destruct (OpenImage_v _ _ _ _ _) as [[op' o']|e|].
      + exfalso. destruct HO as (m1 & f & m2 & E2 & Hm & Ha2). pose proof (first_unique _ _ _ _ _ _ _ E2 Hr Hm (hangs_not_rejects _ _ Hh) (accepts_not_rejects _ _ _ Ha2)) as X.
        rewrite X in Hh. exact (accepts_not_hangs _ _ _ Ha2 Hh).
      + exfalso. apply Forall_app in HO as [_ HO]. apply Forall_inv in HO. exact (hangs_not_rejects _ _ Hh HO).
      + reflexivity.
  Qed.
  (** Where the matching tests are not asked, the visits do not matter. *)
  Lemma names_same k (o1 o2 : DiskOrder) : map f_name (DiskOperatorFactories (vis o1) k) = map f_name (DiskOperatorFactories (vis o2) k).
  Proof. reflexivity. Qed.
  Lemma opens_v_single img order system c o r : zlen c = 143360 -> candidates (image_name img) order [o] ->
    opens_as (vis o) img order system c r -> opens_v img order system c r.
  Proof.
    intros Hc Hca H.
    assert (E : forall k, OpenImage_v c (image_name img) order system (vfacs k) = OpenImage c (image_name img) order system (DiskOperatorFactories (vis o) k))
      by (intros k; apply (open_v_single c (image_name img) order system (vfacs k) o Hc Hca); intros o1 o2; apply names_same).
    destruct r as [sys d o'| |]; cbn [opens_as opens_v] in *; (eapply eventually_impl; [|exact H]); intros k Hk; rewrite E; exact Hk.
  Qed.
  Lemma opens_v_device img order system c r : zlen c <> 143360 ->
    opens_as (vis DiskOrderPO) img order system c r -> opens_v img order system c r.
  Proof.
    intros Hc H.
    assert (E : forall k, OpenImage_v c (image_name img) order system (vfacs k) = OpenImage c (image_name img) order system (DiskOperatorFactories (vis DiskOrderPO) k)).
    { intros k. unfold OpenImage_v, OpenImage, FloppyDiskBytes. replace (zlen c =? 143360) with false by lia. reflexivity. }
    destruct r as [sys d o'| |]; cbn [opens_as opens_v] in *; (eapply eventually_impl; [|exact H]); intros k Hk; rewrite E; exact Hk.
  Qed.
  Lemma not_candidates img order system c : zlen c = 143360 -> (forall orders, ~ candidates (image_name img) order orders) -> opens_v img order system c Refused.
  Proof.
    intros Hc N. exists 0%nat. intros k _. unfold OpenImage_v, FloppyDiskBytes. rewrite Hc. cbv zeta. cbn [Z.eqb Pos.eqb]. unfold openDoOrPo_v. cbv zeta.
    destruct (_ =? 0); [eexists; reflexivity|]. destruct (candidate_orders order _) as [orders|e|] eqn:E; [|eexists; reflexivity|].
    - apply candidate_orders_iff in E. contradiction (N _ E).
    - exfalso. eapply candidate_orders_total; eassumption.
  Qed.
  Lemma not_systems img order system c : zlen c = 143360 -> (forall syss, ~ systems system syss) -> opens_v img order system c Refused.
  Proof.
    intros Hc N. exists 0%nat. intros k _. unfold OpenImage_v, FloppyDiskBytes. rewrite Hc. cbv zeta. cbn [Z.eqb Pos.eqb]. unfold openDoOrPo_v. cbv zeta.
    assert (filter (fun f => beq system (s2b "auto") || beq system (f_name f)) (DiskOperatorFactories (vis DiskOrderPO) k) = []) as ->; [|eexists; reflexivity].
    destruct (beq system (s2b "auto")) eqn:E0; [apply beq_eq in E0; subst; contradiction (N _ sy_auto)|]. cbn [filter DiskOperatorFactories].
    destruct (beq system (f_name (dos3_factory k))) eqn:E1; [apply beq_eq in E1; subst; contradiction (N _ (sy_one _ _ oo_dos))|].
    destruct (beq system (f_name nakedos_factory)) eqn:E2; [apply beq_eq in E2; subst; contradiction (N _ (sy_one _ _ oo_naked))|].
    destruct (beq system (f_name (prodos_factory (vis DiskOrderPO) k))) eqn:E3; [apply beq_eq in E3; subst; contradiction (N _ (sy_one _ _ oo_prodos))|]. reflexivity.
  Qed.
  (** A pinned order and system. *)
  Lemma opens_told img order system c o : zlen c = 143360 -> candidates (image_name img) order [o] -> system <> s2b "auto" -> bytes_ok c -> (forall o, ProdosSpec.an_order (vis o)) ->
    exists r, opening img order system c r /\ opens_v img order system c r.
  Proof.
    intros Hc Hca _ B Hi. destruct (opening_total (vis o) img order system c B (Hi o)) as (r & O & H). exists r. split; [exact O|]. apply (opens_v_single _ _ _ _ o); assumption.
  Qed.

  Lemma opening_total_v img order system c : bytes_ok c -> (forall o, ProdosSpec.an_order (vis o)) -> exists r, opening img order system c r /\ opens_v img order system c r.
  Proof.
    intros B Hi. destruct (Z.eq_dec (zlen c) 143360) as [Hc|Hc].
    2: { destruct (opening_total (vis DiskOrderPO) img order system c B (Hi DiskOrderPO)) as (r & O & H). exists r. split; [exact O|]. apply opens_v_device; assumption. }
    destruct (candidates_dec (image_name img) order) as [[orders Hca]|N].
    2: { exists Refused. split; [apply og_no_order; assumption|]. apply not_candidates; assumption. }
    destruct (systems_dec system) as [[syss Hsy]|N].
    2: { exists Refused. split; [apply og_no_system; assumption|]. apply not_systems; assumption. }
    assert (system = s2b "auto" \/ zlen orders <> 1 \/ (system <> s2b "auto" /\ exists o, orders = [o])) as Hcase.
    { destruct (beq system (s2b "auto")) eqn:E; [left; apply beq_eq; exact E|]. apply beq_neq in E. right. destruct orders as [|o [|o2 os]]; [left; discriminate|right; split; [exact E|exists o; reflexivity]|left].
      rewrite !zlen_cons. pose proof (zlen_nonneg os). lia. }
    assert (Hscan : system = s2b "auto" \/ zlen orders <> 1 -> exists r, opening img order system c r /\ opens_v img order system c r).
    { intros Hp. destruct (scan_total_v c (list_prod orders syss) Hc B Hi) as (r & S & H).
      { apply (prod_forall (fun o => exists l, interleave o l) (fun s => exists so, own_order s so)); [apply (candidates_interleave _ _ _ Hca)|apply (systems_own _ _ Hsy)]. }
      exists r. split; [apply (og_scan _ _ _ _ orders syss); assumption|]. apply (runs_opens img order system c orders syss); assumption. }
    destruct Hcase as [H|[H|[Hne [o ->]]]]; [apply Hscan; left; exact H|apply Hscan; right; exact H|]. clear Hscan. apply (opens_told img order system c o); assumption.
  Qed.
End Visits.

(** ** Every outcome is reached *)
Lemma test_each c o sys so d a : bytes_ok c -> own_order sys so -> reordered c o so d -> tested d sys a ->
  exists i, ProdosSpec.an_order i /\ forall vis : DiskOrder -> visiting, (sys = s2b "prodos" -> vis o = i) -> answers vis c o sys d a.
Proof.
  intros B Hs R T. pose proof (reordered_bytes _ _ _ _ R B) as Bd. assert (zlen d = 143360) as Ld by apply R.
  assert (Hid : ProdosSpec.an_order (fun m => m)) by (intros m; apply Permutation.Permutation_refl).
  destruct Hs; inversion T as [D|D|D|D|D|k l M|M|M]; subst; clear T.
  - exists (fun m => m). split; [exact Hid|]. intros vis _. apply eventually_561. intros k Hk. exists (ODos3 d). split; [apply acc_dos; assumption|constructor].
  - exists (fun m => m). split; [exact Hid|]. intros vis _. apply eventually_561. intros k Hk. apply (rej_dos c o d k); assumption.
  - exists (fun m => m). split; [exact Hid|]. intros vis _. apply eventually_561. intros k Hk. exists d. split; [exact R|]. left. apply seems_dos_hangs; assumption.
  - exists (fun m => m). split; [exact Hid|]. intros vis _. destruct (acc_naked c o d R D) as (op & En & Ha). exists 0%nat. intros k _. exists (ONaked op). split; [exact Ha|constructor; exact En].
  - exists (fun m => m). split; [exact Hid|]. intros vis _. exists 0%nat. intros k _. apply (rej_naked c o d R D).
  - destruct (each_lemma d [] _ Bd ltac:(lia) M) as (i & Hi & C). apply detect_lemma in C. exists i. split; [exact Hi|]. intros vis E. specialize (E eq_refl). cbn [answers]. rewrite E.
    destruct C as (n & r & -> & H). exists n. intros k' Hk. exists (OProdos d). split; [|constructor]. exists d. split; [exact R|]. split; [apply H; exact Hk|reflexivity].
  - destruct (each_lemma d [] _ Bd ltac:(lia) M) as (i & Hi & C). apply detect_lemma in C. exists i. split; [exact Hi|]. intros vis E. specialize (E eq_refl). cbn [answers]. rewrite E.
    destruct C as (n & r & -> & H). exists n. intros k' Hk. exists d. split; [exact R|]. left. apply H. exact Hk.
  - destruct (each_lemma d [] _ Bd ltac:(lia) M) as (i & Hi & C). apply detect_lemma in C. exists i. split; [exact Hi|]. intros vis E. specialize (E eq_refl). cbn [answers]. rewrite E.
    exists 0%nat. intros k' _. exists d. split; [exact R|]. left. apply C.
Qed.
Lemma scan_each c L r : bytes_ok c -> NoDup L -> scan c L r ->
  exists vis0 : DiskOrder -> visiting, (forall o, ProdosSpec.an_order (vis0 o)) /\
    forall vis, (forall o, In (o, s2b "prodos") L -> vis o = vis0 o) -> runs vis c L r.
Proof.
  intros B ND S. assert (Hid : ProdosSpec.an_order (fun m => m)) by (intros m; apply Permutation.Permutation_refl).
  induction S as [|o sys so d rest Hs R T|o sys so d rest r Hs R T S IH|o sys so d rest Hs R T].
  - exists (fun _ m => m). split; [intros _; exact Hid|]. intros vis _. exists 0%nat. intros k _. constructor.
  - destruct (test_each c o sys so d _ B Hs R T) as (i & Hi & H). exists (fun _ => i). split; [intros _; exact Hi|]. intros vis E. apply runs_yes. apply H. intros ->. apply E. left. reflexivity.
  - destruct (test_each c o sys so d _ B Hs R T) as (i & Hi & H). inversion ND as [|? ? Hn ND']; subst. destruct (IH ND') as (vis0 & Hv & H0).
    exists (fun o' => if beq sys (s2b "prodos") && beq o' o then i else vis0 o'). split.
    { intros o'. destruct (_ && _); [exact Hi|apply Hv]. }
    intros vis E. apply (runs_no vis c o sys d).
    + apply H. intros ->. rewrite (E o (or_introl eq_refl)). rewrite !beq_refl. reflexivity.
    + apply H0. intros o' Ho'. rewrite (E o' (or_intror Ho')). destruct (beq sys (s2b "prodos")) eqn:E1; [|reflexivity]. apply beq_eq in E1. subst sys.
      destruct (beq o' o) eqn:E2; [|reflexivity]. apply beq_eq in E2. subst o'. contradiction.
  - destruct (test_each c o sys so d _ B Hs R T) as (i & Hi & H). exists (fun _ => i). split; [intros _; exact Hi|]. intros vis E. apply (runs_never vis c o sys d). apply H. intros ->. apply E. left. reflexivity.
Qed.
Lemma tried_once name order orders system syss : candidates name order orders -> systems system syss -> NoDup (list_prod orders syss).
Proof.
  intros Hc Hs. destruct Hs as [|sys so Hs]; destruct Hc; cbn [list_prod map app];
    repeat (apply NoDup_cons; [cbn [In]; intros X; repeat (destruct X as [X|X]; [discriminate X|]); exact X|]); apply NoDup_nil.
Qed.
Lemma opening_each_v img order system c r : bytes_ok c -> opening img order system c r ->
  exists vis : DiskOrder -> visiting, (forall o, ProdosSpec.an_order (vis o)) /\ opens_v vis img order system c r.
Proof.
  intros B H. pose proof H as H0. assert (Hid : forall o : DiskOrder, ProdosSpec.an_order ((fun _ m => m) o)) by (intros _ m; apply Permutation.Permutation_refl).
  assert (Hdet : (forall orders syss, zlen c = 143360 -> candidates (image_name img) order orders -> systems system syss -> ~ (system = s2b "auto" \/ zlen orders <> 1)) ->
    exists vis : DiskOrder -> visiting, (forall o, ProdosSpec.an_order (vis o)) /\ opens_v vis img order system c r).
  { intros N. exists (fun _ m => m). split; [exact Hid|]. destruct (opening_total_v (fun _ m => m) img order system c B Hid) as (r' & O & Hv).
    destruct (opening_split _ _ _ _ _ _ H0 O) as [->|(Hc & orders & syss & Hca & Hsy & Hm & _)]; [exact Hv|]. contradiction (N _ _ Hc Hca Hsy Hm). }
  destruct H as [orders syss r Hc Hca Hsy Hm S|o so d Hc Hca Hs R Hn|o d Hc Hca Es R Hn|Hc N|Hc N|Hc D|Hc N].
  - destruct (scan_each c _ r B (tried_once _ _ _ _ _ Hca Hsy) S) as (vis & Hv & HR). exists vis. split; [exact Hv|]. apply (runs_opens vis img order system c orders syss); try assumption. apply HR. reflexivity.
  - apply Hdet. intros orders syss _ Hca' _ [E|E]; [subst; inversion Hs|]. pose proof (candidates_fun _ _ _ _ Hca Hca') as <-. apply E. reflexivity.
  - apply Hdet. intros orders syss _ Hca' _ [E|E]; [subst; discriminate E|]. pose proof (candidates_fun _ _ _ _ Hca Hca') as <-. apply E. reflexivity.
  - apply Hdet. intros orders syss _ Hca' _ _. contradiction (N _ Hca').
  - apply Hdet. intros orders syss _ _ Hsy' _. contradiction (N _ Hsy').
  - apply Hdet. intros orders syss Hc'. contradiction.
  - apply Hdet. intros orders syss Hc'. contradiction.
Qed.

(** ** Naming the order that was found makes the visits irrelevant *)
Lemma tested_sure d sys a b : bytes_ok d -> zlen d = 143360 -> tested d sys a -> tested d sys b -> a = Yes \/ sys <> s2b "prodos" -> b = a.
Proof.
  intros Bd Ld Ha Hb H.
  assert (Hyc : dos_disk d -> dos_cyclic d -> False).
  { intros X Y. pose proof (seems_dos_yes d Bd X 561 ltac:(lia)) as E1. pose proof (seems_dos_hangs d Bd Y 561) as E2. congruence. }
  inversion Ha as [D|D|D|D|D|k l M|M|M]; subst; inversion Hb as [D'|D'|D'|D'|D'|k' l' M'|M'|M']; subst; try reflexivity; try (exfalso; unfold not_dos in *; tauto); destruct H as [H|H]; try discriminate H; try (contradiction H; reflexivity).
  - pose proof (root_one d _ _ _ Bd ltac:(lia) M M') as X. discriminate X.
  - pose proof (root_one d _ _ _ Bd ltac:(lia) M M') as X. discriminate X.
Qed.
Lemma scan_sure c o sys d r : bytes_ok c -> scan c [(o, s2b "dos3"); (o, s2b "nakedos"); (o, s2b "prodos")] (Opened sys d o) ->
  scan c [(o, s2b "dos3"); (o, s2b "nakedos"); (o, s2b "prodos")] r -> r = Opened sys d o.
Proof.
  intros B.
  assert (Hstep : forall s rest, s <> s2b "prodos" -> (scan c rest (Opened sys d o) -> scan c rest r -> r = Opened sys d o) ->
    scan c ((o, s) :: rest) (Opened sys d o) -> scan c ((o, s) :: rest) r -> r = Opened sys d o).
  { intros s rest Hne IH H1 H2. inversion H1 as [|? ? so1 d1 ? Hs1 R1 T1|? ? so1 d1 ? ? Hs1 R1 T1 S1|]; subst;
      inversion H2 as [|? ? so2 d2 ? Hs2 R2 T2|? ? so2 d2 ? ? Hs2 R2 T2 S2|? ? so2 d2 ? Hs2 R2 T2]; subst;
      pose proof (own_order_fun _ _ _ Hs1 Hs2); subst so2; pose proof (reordered_fun _ _ _ _ _ R1 R2); subst d2;
      pose proof (tested_sure _ _ _ _ (reordered_bytes _ _ _ _ R1 B) ltac:(apply R1) T1 T2 (or_intror Hne)) as X; try discriminate X; [reflexivity|apply IH; assumption]. }
  apply Hstep; [discriminate|]. apply Hstep; [discriminate|]. intros H1 H2.
  inversion H1 as [|? ? so1 d1 ? Hs1 R1 T1|? ? so1 d1 ? ? Hs1 R1 T1 S1|]; subst; [|inversion S1].
  inversion H2 as [|? ? so2 d2 ? Hs2 R2 T2|? ? so2 d2 ? ? Hs2 R2 T2 S2|? ? so2 d2 ? Hs2 R2 T2]; subst;
    pose proof (own_order_fun _ _ _ Hs1 Hs2); subst so2; pose proof (reordered_fun _ _ _ _ _ R1 R2); subst d2;
    pose proof (tested_sure _ _ _ _ (reordered_bytes _ _ _ _ R1 B) ltac:(apply R1) T1 T2 (or_introl eq_refl)) as X; try discriminate X. reflexivity.
Qed.
(** What a scan that opens an image found. *)
Lemma scan_opened c L sys d o : scan c L (Opened sys d o) -> In (o, sys) L /\ exists so, own_order sys so /\ reordered c o so d /\ tested d sys Yes.
Proof.
  intros S. remember (Opened sys d o) as r eqn:Er. induction S as [|o' sys' so d' rest Hs R T|o' sys' so d' rest r Hs R T S IH|]; try discriminate Er.
  - injection Er as <- <- <-. split; [left; reflexivity|]. exists so. auto.
  - destruct (IH Er) as [H1 H2]. split; [right; exact H1|exact H2].
Qed.
Lemma scan_drop c l1 l2 sys d o : (forall x, In x l1 -> fst x <> o) -> scan c (l1 ++ l2) (Opened sys d o) -> scan c l2 (Opened sys d o).
Proof.
  induction l1 as [|[o' s] l1 IH]; intros H S; [exact S|]. cbn [app] in S. inversion S as [|? ? so1 d1 ? Hs1 R1 T1|? ? so1 d1 ? ? Hs1 R1 T1 S1|]; subst.
  - contradiction (H (o, sys) (or_introl eq_refl)). reflexivity.
  - apply IH; [|exact S1]. intros x Hx. apply H. right. exact Hx.
Qed.
Lemma scan_take c l1 l2 sys d o : (forall x, In x l2 -> fst x <> o) -> scan c (l1 ++ l2) (Opened sys d o) -> scan c l1 (Opened sys d o).
Proof.
  induction l1 as [|[o' s] l1 IH]; intros H S.
  - cbn [app] in S. apply scan_opened in S as [S _]. contradiction (H _ S). reflexivity.
  - cbn [app] in S. inversion S as [|? ? so1 d1 ? Hs1 R1 T1|? ? so1 d1 ? ? Hs1 R1 T1 S1|]; subst.
    + eapply sc_yes; eassumption.
    + eapply sc_no; try eassumption. apply IH; assumption.
Qed.
Lemma repin img order system c sys d o : opening img order system c (Opened sys d o) -> opening img o system c (Opened sys d o).
Proof.
  intros H. remember (Opened sys d o) as r eqn:Er. destruct H as [orders syss r Hc Hca Hsy Hm S|o' so d' Hc Hca Hs R Hn|? ? ? ? ? ? ?|? ?|? ?|Hc D|? ?]; try discriminate Er.
  - subst r. destruct (scan_opened _ _ _ _ _ S) as (Hin & so & Hs & R & T). apply in_prod_iff in Hin as [Hino Hins].
    assert (Hpin : candidates (image_name img) o [o]) by (destruct Hca; cbn [In] in Hino; intuition subst; constructor).
    destruct Hsy as [|system so' Hs'].
    + apply (og_scan _ _ _ _ [o] [s2b "dos3"; s2b "nakedos"; s2b "prodos"]); [exact Hc|exact Hpin|constructor|left; reflexivity|].
      destruct Hca; cbn [list_prod map app] in *; cbn [In] in Hino; try (destruct Hino as [<-|[]]; exact S).
      destruct Hino as [<-|[<-|[]]].
      * apply (scan_take c [(s2b "do", s2b "dos3"); (s2b "do", s2b "nakedos"); (s2b "do", s2b "prodos")] [(s2b "po", s2b "dos3"); (s2b "po", s2b "nakedos"); (s2b "po", s2b "prodos")]); [|exact S].
        intros x [<-|[<-|[<-|[]]]]; discriminate.
      * apply (scan_drop c [(s2b "do", s2b "dos3"); (s2b "do", s2b "nakedos"); (s2b "do", s2b "prodos")] [(s2b "po", s2b "dos3"); (s2b "po", s2b "nakedos"); (s2b "po", s2b "prodos")]); [|exact S].
        intros x [<-|[<-|[<-|[]]]]; discriminate.
    + cbn [In] in Hins. destruct Hins as [<-|[]]. apply (og_told _ _ _ _ o so); try assumption. intros ->. inversion T; assumption.
  - injection Er as <- <- <-. apply (og_told _ _ _ _ o' so); try assumption. inversion Hca; subst; constructor.
  - injection Er as <- <- <-. apply og_device; [exact Hc|]. destruct D as (D1 & D2 & D3 & D4 & D5 & D6). repeat (split; [assumption|]). split; [right; reflexivity|exact D6].
Qed.
Lemma pinned_sure img order system c sys d o r : bytes_ok c -> opening img order system c (Opened sys d o) -> opening img o system c r -> r = Opened sys d o.
Proof.
  intros B H H2. pose proof (repin _ _ _ _ _ _ _ H) as H1.
  destruct (opening_split _ _ _ _ _ _ H1 H2) as [E|(Hc & orders & syss & Hca & Hsy & Hm & S1 & S2)]; [symmetry; exact E|].
  destruct (scan_opened _ _ _ _ _ S1) as (Hin & _). apply in_prod_iff in Hin as [Hino _].
  assert (orders = [o]) as ->. { clear - Hca Hino. inversion Hca; subst; try reflexivity; exfalso; cbn [In] in Hino; repeat (destruct Hino as [X|Hino]; [discriminate X|]); exact Hino. }
  destruct Hm as [->|Hm]; [|contradiction Hm; reflexivity].
  assert (syss = [s2b "dos3"; s2b "nakedos"; s2b "prodos"]) as -> by (apply (systems_fun (s2b "auto")); [exact Hsy|constructor]).
  exact (scan_sure c o sys d r B S1 S2).
Qed.
Lemma pinned_opens iter img order system c sys d o : bytes_ok c -> ProdosSpec.an_order iter -> opening img order system c (Opened sys d o) -> opens_as iter img o system c (Opened sys d o).
Proof.
  intros B Hi H. destruct (opening_total iter img o system c B Hi) as (r & O & Hr). rewrite (pinned_sure _ _ _ _ _ _ _ _ B H O) in Hr. exact Hr.
Qed.
Lemma op_for_fun sys d op op' : op_for sys d op -> op_for sys d op' -> op = op'.
Proof.
  intros H1 H2. destruct H1 as [d|d op E|d]; inversion H2 as [|? op2 E2|]; subst; [reflexivity| |reflexivity]. rewrite E in E2. injection E2 as <-. reflexivity.
Qed.

(** ** Commands *)
Lemma open_run_v w img order system c : input w img c -> exists w1,
  (forall vis k, run (OpenFilename_v vis k img order system) w = (w1, OpenImage_v c (image_name img) order system (fun o => DiskOperatorFactories (vis o) k))) /\
  (forall iter k o, run (OpenFilename iter k img o system) w = (w1, OpenImage c (image_name img) o system (DiskOperatorFactories iter k))) /\
  same_files w w1 /\ w_stdout w1 = w_stdout w.
Proof.
  intros Hin. unfold OpenFilename_v, OpenFilename, image_name. change dash with (s2b "-"). destruct Hin as [[-> Hs]|[Hn [wr Hf]]].
  - rewrite beq_refl. eexists. split; [intros vis k; rewrite run_pbind; cbn [run]; unfold sys_stdin; rewrite Hs; reflexivity|].
    split; [intros iter k o; rewrite run_pbind; cbn [run]; unfold sys_stdin; rewrite Hs; reflexivity|]. split; [intros n; reflexivity|reflexivity].
  - destruct (beq img (s2b "-")) eqn:E; [apply beq_eq in E; contradiction|]. eexists. split; [intros vis k; rewrite run_pbind; cbn [run]; rewrite Hf; reflexivity|].
    split; [intros iter k o; rewrite run_pbind; cbn [run]; rewrite Hf; reflexivity|]. split; [intros n; reflexivity|reflexivity].
Qed.
(** What follows the opening of the image. *)
Lemma body_v (body : nat -> AnyOp * DiskOrder -> prog unit) vis iter img order system c w r : bytes_ok c -> ProdosSpec.an_order iter -> input w img c ->
  opening img order system c r -> opens_v vis img order system c r ->
  match r with
  | Opened sys d o => eventually (fun k => run (pbind (OpenFilename_v vis k img order system) (body k)) w = run (pbind (OpenFilename iter k img o system) (body k)) w)
  | Refused => eventually (fun k => exists w' e, run (pbind (OpenFilename_v vis k img order system) (body k)) w = (w', Err e) /\ same_files w w' /\ w_stdout w' = w_stdout w)
  | Stuck => eventually (fun k => exists w', run (pbind (OpenFilename_v vis k img order system) (body k)) w = (w', Panic) /\ same_files w w' /\ w_stdout w' = w_stdout w)
  end.
Proof.
  intros B Hi Hin O H. destruct (open_run_v w img order system c Hin) as (w1 & Ev & Ei & Hsf & Hso). destruct r as [sys d o| |].
  - pose proof (pinned_opens iter _ _ _ _ _ _ _ B Hi O) as H2. cbn [opens_v opens_as] in H, H2. eapply eventually_impl; [|exact (eventually_and _ _ H H2)]. cbv beta.
    intros k [(op & E1 & F1) (op2 & E2 & F2)]. rewrite (op_for_fun _ _ _ _ F1 F2) in E1. rewrite !run_pbind, Ev, Ei, E1, E2. reflexivity.
  - cbn [opens_v] in H. eapply eventually_impl; [|exact H]. intros k (e & E). exists w1, e. rewrite run_pbind, Ev, E. split; [reflexivity|]. split; assumption.
  - cbn [opens_v] in H. eapply eventually_impl; [|exact H]. intros k E. exists w1. rewrite run_pbind, Ev, E. split; [reflexivity|]. split; assumption.
Qed.
Lemma ends_in_ext p q w e : eventually (fun k => run (p k) w = run (q k) w) -> ends_in q w e -> ends_in p w e.
Proof.
  intros H. destruct e as [text| |]; cbn [ends_in]; intros E; (eapply eventually_impl; [|exact (eventually_and _ _ H E)]); cbv beta; intros k [R X]; unfold prints, fails_cleanly, crashes in *; rewrite R; exact X.
Qed.
Lemma exits_ext p q w n : run p w = run q w -> exits q w n -> exits p w n.
Proof. intros H. unfold exits, main_run. rewrite H. intros X. exact X. Qed.
Definition opened_ends (vis : DiskOrder -> visiting) (img order system c : bytes) (w : world) (P : nat -> prog unit) (Q : DiskOrder -> nat -> prog unit) (r : opened_as) : Prop :=
  match r with
  | Opened sys d o => eventually (fun k => run (P k) w = run (Q o k) w)
  | Refused => eventually (fun k => exists w' e, run (P k) w = (w', Err e) /\ same_files w w' /\ w_stdout w' = w_stdout w)
  | Stuck => eventually (fun k => exists w', run (P k) w = (w', Panic) /\ same_files w w' /\ w_stdout w' = w_stdout w)
  end.

Lemma ls_opened vis icat img order system c short dir w r : bytes_ok c -> ProdosSpec.an_order icat -> input w img c ->
  opening img order system c r -> opens_v vis img order system c r ->
  opened_ends vis img order system c w (fun k => LsCmd_Run_v vis icat k order system short img dir) (fun o k => LsCmd_Run icat k o system short img dir) r.
Proof.
  intros B Hi Hin O H.
  exact (body_v (fun k x => let '(op, _) := x in
    if negb (beq dir []) && negb (Op_HasSubdirs op) then perr (EOther "disks of this type cannot have subdirectories")
    else fds <<- plift (Op_Catalog icat k op dir) ;; ls_lines short fds) vis icat img order system c w r B Hi Hin O H).
Qed.
Lemma dump_opened vis img order system c n w r : bytes_ok c -> input w img c ->
  opening img order system c r -> opens_v vis img order system c r ->
  opened_ends vis img order system c w (fun k => DumpCmd_Run_v vis k order system img n) (fun o k => DumpCmd_Run (fun m => m) k o system img n) r.
Proof.
  intros B Hin O H. assert (Hid : ProdosSpec.an_order (fun m => m)) by (intros m; apply Permutation.Permutation_refl).
  exact (body_v (fun k x => let '(op, _) := x in file <<- plift (Op_GetFile k op n) ;; PStdout (fi_data file) PRet) vis (fun m => m) img order system c w r B Hid Hin O H).
Qed.
Lemma rm_opened vis img order system c force name w r : bytes_ok c -> input w img c ->
  opening img order system c r -> opens_v vis img order system c r ->
  opened_ends vis img order system c w (fun k => DeleteCmd_Run_v vis k order system force img name) (fun o k => DeleteCmd_Run (fun m => m) k o system force img name) r.
Proof.
  intros B Hin O H. assert (Hid : ProdosSpec.an_order (fun m => m)) by (intros m; apply Permutation.Permutation_refl).
  exact (body_v (fun k x => let '(op, order) := x in let '(op, r) := Op_Delete op name in deleted <<- plift r ;;
    if negb deleted && negb force then perr (EOther "file not found (use -f to prevent this being an error)") else WriteBack img op order true)
    vis (fun m => m) img order system c w r B Hid Hin O H).
Qed.
Lemma put_opened vis img order system c ft ow addr tgt src w r : bytes_ok c -> input w img c -> ~ (img = s2b "-" /\ src = s2b "-") ->
  opening img order system c r -> opens_v vis img order system c r ->
  opened_ends vis img order system c w (fun k => PutCmd_Run_v vis k order system ft ow addr img tgt src) (fun o k => PutCmd_Run (fun m => m) k o system ft ow addr img tgt src) r.
Proof.
  intros B Hin Hnd O H. assert (Hid : ProdosSpec.an_order (fun m => m)) by (intros m; apply Permutation.Permutation_refl).
  assert (Edash : beq img dash && beq src dash = false).
  { destruct (beq img dash) eqn:B1; [|reflexivity]. destruct (beq src dash) eqn:B2; [|reflexivity]. apply beq_eq in B1, B2. contradiction Hnd. split; assumption. }
  unfold PutCmd_Run_v, PutCmd_Run. rewrite Edash.
  exact (body_v (fun k x => let '(op, order) := x in contents <<- FileContentsOrStdIn src ;; filetype <<- plift (FiletypeForName ft) ;;
    let fileInfo := FI (Desc tgt [] 0 0 (zlen contents) false filetype) contents addr in
    let '(op, r) := Op_PutFile op fileInfo ow in _ <<- plift r ;; WriteBack img op order true)
    vis (fun m => m) img order system c w r B Hid Hin O H).
Qed.
Lemma mkhello_opened vis img order c name address start w r : bytes_ok c -> input w img c -> hello_at address start ->
  opening img order (s2b "auto") c r -> opens_v vis img order (s2b "auto") c r ->
  opened_ends vis img order (s2b "auto") c w (fun k => MkHelloCmd_Run_v vis k order img name address start) (fun o k => MkHelloCmd_Run (fun m => m) k o img name address start) r.
Proof.
  intros B Hin [Ea Hst] O H. assert (Hid : ProdosSpec.an_order (fun m => m)) by (intros m; apply Permutation.Permutation_refl).
  assert (Es : (if start =? 65535 then address else start) <? address = false).
  { destruct (Z.eqb_spec start 65535) as [->|Hne]; [lia|]. specialize (Hst Hne). lia. }
  unfold MkHelloCmd_Run_v, MkHelloCmd_Run. cbv zeta. rewrite Ea. cbn [Z.eqb negb]. rewrite Es.
  exact (body_v (fun k x => let '(op, order) := x in
      match op with
      | ONaked nakOp =>
          '(addr, symbolAddr, _) <<- plift (FilesForCompoundName (st_of nakOp) name) ;;
          if (addr =? 0) && (symbolAddr =? 0) then perr (EOther "cannot parse as valid filename")
          else
            let toLoad := if addr =? 0 then symbolAddr else addr in
            let contents := hello_program toLoad address (if start =? 65535 then address else start) in
            let fileInfo := FI (Desc (s2b "DF01:" ++ helloName) [] 0 0 (zlen contents) false FiletypeBinary)
                               contents 0 in
            let '(op, r) := Op_PutFile op fileInfo true in
            _ <<- plift r ;;
            WriteBack img op order true
      | _ => perr (EOther "mkhello only works on disks of type nakedos")
      end) vis (fun m => m) img order (s2b "auto") c w r B Hid Hin O H).
Qed.

(** What the commands come to, from what they come to with the order named. *)
Lemma ends_v img order system c w (P : nat -> prog unit) (Q : DiskOrder -> nat -> prog unit) (shows : bytes -> bytes -> ending -> Prop) vis : bytes_ok c ->
  (forall o, ProdosSpec.an_order (vis o)) ->
  (forall r, opening img order system c r -> opens_v vis img order system c r -> opened_ends vis img order system c w P Q r) ->
  (forall o, exists r e, opening img o system c r /\ afterwards r shows e /\ ends_in (Q o) w e) ->
  exists r e, opening img order system c r /\ afterwards r shows e /\ ends_in P w e.
Proof.
  intros B Hv HP HQ. destruct (opening_total_v vis img order system c B Hv) as (r & O & H). specialize (HP r O H). exists r. destruct r as [sys d o| |]; cbn [opened_ends] in HP.
  - destruct (HQ o) as (r' & e & O' & A & E). rewrite (pinned_sure _ _ _ _ _ _ _ _ B O O') in A. exists e. split; [exact O|]. split; [exact A|]. apply (ends_in_ext P (Q o)); assumption.
  - exists Errs. split; [exact O|]. split; [reflexivity|]. exact HP.
  - exists Crashes. split; [exact O|]. split; [reflexivity|]. exact HP.
Qed.
Lemma ls_visits vis icat img order system c short dir w : bytes_ok c -> (forall o, ProdosSpec.an_order (vis o)) -> ProdosSpec.an_order icat -> input w img c -> w_outroom w = None ->
  exists r e, opening img order system c r /\ afterwards r (ls_shows dir short) e /\ ends_in (fun k => LsCmd_Run_v vis icat k order system short img dir) w e.
Proof.
  intros B Hv Hi Hin Hw. apply (ends_v img order system c w _ (fun o k => LsCmd_Run icat k o system short img dir) (ls_shows dir short) vis B Hv).
  - intros r. apply ls_opened; assumption.
  - intros o. apply ls_exact; assumption.
Qed.
Lemma dump_visits vis img order system c n w : bytes_ok c -> (forall o, ProdosSpec.an_order (vis o)) -> input w img c -> w_outroom w = None ->
  exists r e, opening img order system c r /\ afterwards r (dump_shows n) e /\ ends_in (fun k => DumpCmd_Run_v vis k order system img n) w e.
Proof.
  intros B Hv Hin Hw. apply (ends_v img order system c w _ (fun o k => DumpCmd_Run (fun m => m) k o system img n) (dump_shows n) vis B Hv).
  - intros r. apply dump_opened; assumption.
  - intros o. apply dump_exact; try assumption. intros m; apply Permutation.Permutation_refl.
Qed.
Lemma edits_v img order system c w (P : nat -> prog unit) (Q : DiskOrder -> nat -> prog unit) ok crash vis : bytes_ok c ->
  (forall o, ProdosSpec.an_order (vis o)) ->
  (forall r, opening img order system c r -> opens_v vis img order system c r -> opened_ends vis img order system c w P Q r) ->
  (forall o, exists r n, opening img o system c r /\ edits ok crash r n /\ eventually (fun k => exits (Q o k) w n)) ->
  exists r n, opening img order system c r /\ edits ok crash r n /\ eventually (fun k => exits (P k) w n).
Proof.
  intros B Hv HP HQ. destruct (opening_total_v vis img order system c B Hv) as (r & O & H). specialize (HP r O H). exists r. destruct r as [sys d o| |]; cbn [opened_ends] in HP.
  - destruct (HQ o) as (r' & n & O' & A & E). rewrite (pinned_sure _ _ _ _ _ _ _ _ B O O') in A. exists n. split; [exact O|]. split; [exact A|].
    eapply eventually_impl; [|exact (eventually_and _ _ HP E)]. cbv beta. intros k [R X]. exact (exits_ext _ _ _ _ R X).
  - exists 1. split; [exact O|]. split; [constructor|]. eapply eventually_impl; [|exact HP]. intros k (w' & e & E & S & _). exact (exits_err _ _ w' e E S).
  - exists 2. split; [exact O|]. split; [constructor|]. eapply eventually_impl; [|exact HP]. intros k (w' & E & S & _). exact (exits_panic _ _ w' E S).
Qed.
Lemma rm_visits vis img order system c force name w : bytes_ok c -> (forall o, ProdosSpec.an_order (vis o)) -> input w img c -> can_output w img true -> w_room w = None -> w_outroom w = None ->
  exists r n, opening img order system c r /\ edits (fun d t => rm_succeeds d t force name) (fun _ _ => False) r n /\
    eventually (fun k => exits (DeleteCmd_Run_v vis k order system force img name) w n).
Proof.
  intros B Hv Hin Hco Hrm Hor. apply (edits_v img order system c w _ (fun o k => DeleteCmd_Run (fun m => m) k o system force img name) _ _ vis B Hv).
  - intros r. apply rm_opened; assumption.
  - intros o. apply rm_exact; try assumption. intros m; apply Permutation.Permutation_refl.
Qed.
Lemma put_visits vis img order system c ft ow addr tgt src s w : bytes_ok c -> (forall o, ProdosSpec.an_order (vis o)) -> input w img c -> input w src s -> ~ (img = s2b "-" /\ src = s2b "-") ->
  can_output w img true -> w_room w = None -> w_outroom w = None -> is_ascii tgt ->
  exists r n, opening img order system c r /\ edits (fun d t => put_succeeds d t ft ow tgt s) (fun d t => put_crashes d t ft ow tgt s) r n /\
    eventually (fun k => exits (PutCmd_Run_v vis k order system ft ow addr img tgt src) w n).
Proof.
  intros B Hv Hin Hsrc Hnd Hco Hrm Hor Ha. apply (edits_v img order system c w _ (fun o k => PutCmd_Run (fun m => m) k o system ft ow addr img tgt src) _ _ vis B Hv).
  - intros r. apply put_opened; assumption.
  - intros o. apply put_exact; try assumption. intros m; apply Permutation.Permutation_refl.
Qed.
Lemma mkhello_visits vis img order c name address start w : bytes_ok c -> (forall o, ProdosSpec.an_order (vis o)) -> input w img c -> can_output w img true -> w_room w = None -> w_outroom w = None ->
  exists r n, opening img order (s2b "auto") c r /\
    (~ hello_at address start /\ n = 1 \/ hello_at address start /\ edits (fun d t => mkhello_succeeds d t name address start) (fun _ _ => False) r n) /\
    eventually (fun k => exits (MkHelloCmd_Run_v vis k order img name address start) w n).
Proof.
  intros B Hv Hin Hco Hrm Hor. assert (Hid : ProdosSpec.an_order (fun m => m)) by (intros m; apply Permutation.Permutation_refl).
  assert (Hdec : hello_at address start \/ ~ hello_at address start).
  { unfold hello_at. destruct (Z.eq_dec (address mod 256) 0); destruct (Z.eq_dec start 65535); destruct (Z_le_dec address start); intuition lia. }
  destruct Hdec as [Hh|Hh].
  - destruct (edits_v img order (s2b "auto") c w (fun k => MkHelloCmd_Run_v vis k order img name address start) (fun o k => MkHelloCmd_Run (fun m => m) k o img name address start)
      (fun d t => mkhello_succeeds d t name address start) (fun _ _ => False) vis B Hv) as (r & n & H1 & H2 & H3).
    + intros r. apply mkhello_opened; assumption.
    + intros o. destruct (mkhello_exact (fun m => m) img o c name address start w B Hid Hin Hco Hrm Hor) as (r & n & H1 & [[X _]|[_ H2]] & H3); [contradiction|]. exists r, n. split; [exact H1|]. split; assumption.
    + exists r, n. split; [exact H1|]. split; [right; split; assumption|exact H3].
  - destruct (opening_total_v vis img order (s2b "auto") c B Hv) as (r & O & _).
    destruct (mkhello_exact (fun m => m) img order c name address start w B Hid Hin Hco Hrm Hor) as (r' & n & _ & [[_ ->]|[X _]] & H3); [|contradiction].
    exists r, 1. split; [exact O|]. split; [left; split; [exact Hh|reflexivity]|]. eapply eventually_impl; [|exact H3]. cbv beta. intros k. apply exits_ext.
    unfold MkHelloCmd_Run_v, MkHelloCmd_Run. cbv zeta. destruct (Z.eqb_spec (address mod 256) 0) as [Ea|Ea]; [|reflexivity]. cbn [negb].
    destruct ((if start =? 65535 then address else start) <? address) eqn:Es; [reflexivity|]. exfalso. apply Hh. split; [exact Ea|]. intros Hne. destruct (Z.eqb_spec start 65535); [contradiction|lia].
Qed.

(** Every outcome of ls is reached. *)
Lemma ls_each_catalog sys d dir short e : bytes_ok d -> zlen d <= 65536 * 512 -> (sys = s2b "nakedos" -> zlen d = 143360) -> ls_shows dir short sys d e ->
  exists icat, ProdosSpec.an_order icat /\ eventually (fun k => forall op, op_for sys d op -> catalogs icat short dir k op e).
Proof.
  intros B L Lz H. assert (Hid : ProdosSpec.an_order (fun m => m)) by (intros m; apply Permutation.Permutation_refl).
  assert (Hcy : dos_disk d -> dos_cyclic d -> False).
  { intros X Y. pose proof (seems_dos_yes d B X 561 ltac:(lia)) as E1. pose proof (seems_dos_hangs d B Y 561) as E2. congruence. }
  destruct H as [sys d Hs Hd|d l names text Ed C Hn Ht|d Ed N|d Ed N|d t fs text Ed Hno Hf Ht|d k0 l text M Ht|d M|d M].
  - exists (fun m => m). split; [exact Hid|]. exists 0%nat. intros k _ op Hop. left. split; [exact Hd|]. destruct Hop; [reflexivity|reflexivity|contradiction Hs; reflexivity].
  - exists (fun m => m). split; [exact Hid|]. destruct (Dos3StmtProofs.C16_lemma d l B C) as [_ (n & r & (descs & -> & HF) & HC)]. exists n. intros k Hk op Hop. inversion Hop; subst.
    split; [left; reflexivity|]. exists descs. split; [cbn [Op_Catalog]; rewrite (HC k Hk); reflexivity|].
    replace (map (ls_name short) descs) with names; [exact Ht|]. clear - HF Hn. revert names Hn. induction HF as [|e ds es l0 D _ IH]; intros names Hn; inversion Hn as [|? nm ? ns En Hn']; subst; [reflexivity|].
    cbn [map]. f_equal; [|apply IH, Hn']. destruct D as (nn & D). unfold ls_name. rewrite (Dos3Spec.ds_full _ _ _ _ D). rewrite andb_false_r. destruct (Dos3Spec.ds_name _ _ _ _ D) as [E1 ->].
    unfold Dos3Spec.entry_name in *. eapply Dos3Proofs.trimmed_unique; eassumption.
  - exists (fun m => m). split; [exact Hid|]. destruct (ls_dos_any (fun m => m) d dir short B) as (e' & S & E).
    assert (e' = Errs) as ->. { inversion S as [|? l ? ? ? C|? ? N'|? ? N'| | | |]; subst; try reflexivity; [|]; exfalso; destruct N as [N1 N2]; [apply N1; exists l; exact C|exact (N2 N')]. }
    eapply eventually_impl; [|exact E]. intros k Hk op Hop. inversion Hop; subst. exact Hk.
  - exists (fun m => m). split; [exact Hid|]. destruct (ls_dos_any (fun m => m) d dir short B) as (e' & S & E).
    assert (e' = Crashes) as ->. { inversion S as [? ? ? Hd|? l ? ? ? C|? ? N'|? ? N'| | | |]; subst; try reflexivity; exfalso; [apply Hd; reflexivity|apply Hcy; [exists l; exact C|exact N]|destruct N' as [_ N2]; exact (N2 N)]. }
    eapply eventually_impl; [|exact E]. intros k Hk op Hop. inversion Hop; subst. exact Hk.
  - exists (fun m => m). split; [exact Hid|]. exists 0%nat. intros k _ op Hop. inversion Hop as [|? op' En|]; subst op.
    destruct (ls_naked_any (fun m => m) d op' dir short (Lz eq_refl) En) as (e' & S & E).
    assert (e' = Prints text) as ->; [|exact (E k)].
    inversion S as [? ? ? Hd| | | |? t' fs' text' ? Hno' Hf' Ht'| | |]; subst; [contradiction Hd; reflexivity|].
    destruct Hno as (o1 & E1 & <-), Hno' as (o2 & E2 & <-). assert (o2 = o1) as -> by congruence. rewrite (files_unique _ _ _ Hf' Hf) in Ht'. rewrite (all_lines_fun _ _ _ Ht Ht'). reflexivity.
  - destruct (each_lemma d dir _ B L M) as (i & Hi & n & r & (descs & -> & HF) & HC). exists i. split; [exact Hi|]. exists n. intros k Hk op Hop. inversion Hop; subst. split; [right; reflexivity|].
    exists descs. split; [cbn [Op_Catalog]; rewrite (HC k Hk); reflexivity|].
    replace (map (ls_name short) descs) with (map prodos_name_of (filter ProdosSpec.is_live (ProdosSpec.dir_entries d k0 l))); [exact Ht|]. clear - HF.
    induction HF as [|e ds es l0 D _ IH]; [reflexivity|]. cbn [map]. f_equal; [|exact IH].
    unfold ls_name. rewrite (ProdosSpec.ds_full _ _ D). rewrite andb_false_r. symmetry. apply (ProdosSpec.ds_name _ _ D).
  - destruct (each_lemma d dir _ B L M) as (i & Hi & n & r & (er & ->) & HC). exists i. split; [exact Hi|]. exists n. intros k Hk op Hop. inversion Hop; subst. right. split; [right; reflexivity|]. exists er. cbn [Op_Catalog]. rewrite (HC k Hk). reflexivity.
  - destruct (each_lemma d dir _ B L M) as (i & Hi & HC). exists i. split; [exact Hi|]. exists 0%nat. intros k _ op Hop. inversion Hop; subst. split; [right; reflexivity|]. cbn [Op_Catalog]. pose proof (HC k) as E. cbv beta in E. rewrite E. reflexivity.
Qed.
Lemma ls_reached img order system c short dir w r e : bytes_ok c -> input w img c -> w_outroom w = None ->
  opening img order system c r -> afterwards r (ls_shows dir short) e ->
  exists vis icat, (forall o, ProdosSpec.an_order (vis o)) /\ ProdosSpec.an_order icat /\ ends_in (fun k => LsCmd_Run_v vis icat k order system short img dir) w e.
Proof.
  intros B Hin Hw O A. destruct (opening_each_v img order system c r B O) as (vis & Hv & H). exists vis.
  assert (Hid : ProdosSpec.an_order (fun m => m)) by (intros m; apply Permutation.Permutation_refl). destruct r as [sys d o| |]; cbn [afterwards] in A.
  - destruct (opening_bytes _ _ _ _ _ _ _ B O) as (Bd & Ld & _ & Hn). destruct (ls_each_catalog sys d dir short e Bd Ld (fun X => proj1 (Hn X)) A) as (icat & Hi & E).
    exists icat. split; [exact Hv|]. split; [exact Hi|]. pose proof (ls_opened vis icat img order system c short dir w _ B Hi Hin O H) as X. cbn [opened_ends] in X.
    apply (ends_in_ext _ _ _ _ X). exact (ls_tail icat img o system c sys d o short dir w e Hin Hw (pinned_opens icat _ _ _ _ _ _ _ B Hi O) E).
  - subst e. exists (fun m => m). split; [exact Hv|]. split; [exact Hid|]. exact (ls_opened vis (fun m => m) img order system c short dir w _ B Hid Hin O H).
  - subst e. exists (fun m => m). split; [exact Hv|]. split; [exact Hid|]. exact (ls_opened vis (fun m => m) img order system c short dir w _ B Hid Hin O H).
Qed.

(** With one order for all visits, the programs are those of CmdModel. *)
Lemma one_order iter k w : (forall order system force img name, run (DeleteCmd_Run_v (fun _ => iter) k order system force img name) w = run (DeleteCmd_Run iter k order system force img name) w) /\
  (forall order system ft ow addr img tgt src, run (PutCmd_Run_v (fun _ => iter) k order system ft ow addr img tgt src) w = run (PutCmd_Run iter k order system ft ow addr img tgt src) w) /\
  (forall order img name address start, run (MkHelloCmd_Run_v (fun _ => iter) k order img name address start) w = run (MkHelloCmd_Run iter k order img name address start) w) /\
  (forall order system short img dir, run (LsCmd_Run_v (fun _ => iter) iter k order system short img dir) w = run (LsCmd_Run iter k order system short img dir) w) /\
  (forall order system img n, run (DumpCmd_Run_v (fun _ => iter) k order system img n) w = run (DumpCmd_Run iter k order system img n) w).
Proof.
  assert (E : forall img order system, run (OpenFilename_v (fun _ => iter) k img order system) w = run (OpenFilename iter k img order system) w).
  { intros img order system. unfold OpenFilename_v, OpenFilename. destruct (beq img dash); rewrite !run_pbind; destruct (run _ w) as [w1 [b|e|]]; try reflexivity; unfold plift; cbn [run]; rewrite open_same; reflexivity. }
  split; [|split; [|split; [|split]]].
  - intros. unfold DeleteCmd_Run_v, DeleteCmd_Run. rewrite !run_pbind, E. reflexivity.
  - intros. unfold PutCmd_Run_v, PutCmd_Run. destruct (_ && _); [reflexivity|]. rewrite run_pbind, E, run_pbind. reflexivity.
  - intros. unfold MkHelloCmd_Run_v, MkHelloCmd_Run. cbv zeta. destruct (negb _); [reflexivity|]. destruct (_ <? address); [reflexivity|]. rewrite run_pbind, E, run_pbind. reflexivity.
  - intros. unfold LsCmd_Run_v, LsCmd_Run. rewrite run_pbind, E, run_pbind. reflexivity.
  - intros. unfold DumpCmd_Run_v, DumpCmd_Run. rewrite run_pbind, E, run_pbind. reflexivity.
Qed.
Lemma opening_visits vis img order system c : bytes_ok c -> (forall o, ProdosSpec.an_order (vis o)) -> exists r, opening img order system c r /\
  match r with
  | Opened sys d o => eventually (fun k => exists op, OpenImage_v c (image_name img) order system (fun o => DiskOperatorFactories (vis o) k) = Ok (op, o) /\ Op_Name op = sys /\ Op_GetBytes op = d)
  | Refused => eventually (fun k => exists e, OpenImage_v c (image_name img) order system (fun o => DiskOperatorFactories (vis o) k) = Err e)
  | Stuck => eventually (fun k => OpenImage_v c (image_name img) order system (fun o => DiskOperatorFactories (vis o) k) = Panic)
  end.
Proof.
  intros B Hi. destruct (opening_total_v vis img order system c B Hi) as (r & O & H). exists r. split; [exact O|]. destruct r as [sys d o| |]; [|exact H|exact H].
  destruct (opening_bytes _ _ _ _ _ _ _ B O) as (_ & _ & _ & Hn). eapply eventually_impl; [|exact H]. intros k (op & Ho & Hop). exists op. split; [exact Ho|]. apply (op_for_name sys d op); [|exact Hop].
  destruct (beq sys (s2b "nakedos")) eqn:E; [apply beq_eq in E; left; apply Hn, E|apply beq_neq in E; right; exact E].
Qed.
Lemma opening_reached img order system c r : bytes_ok c -> opening img order system c r -> exists vis : DiskOrder -> visiting, (forall o, ProdosSpec.an_order (vis o)) /\
  match r with
  | Opened sys d o => eventually (fun k => exists op, OpenImage_v c (image_name img) order system (fun o => DiskOperatorFactories (vis o) k) = Ok (op, o) /\ Op_Name op = sys /\ Op_GetBytes op = d)
  | Refused => eventually (fun k => exists e, OpenImage_v c (image_name img) order system (fun o => DiskOperatorFactories (vis o) k) = Err e)
  | Stuck => eventually (fun k => OpenImage_v c (image_name img) order system (fun o => DiskOperatorFactories (vis o) k) = Panic)
  end.
Proof.
  intros B O. destruct (opening_each_v img order system c r B O) as (vis & Hv & H). exists vis. split; [exact Hv|]. destruct r as [sys d o| |]; [|exact H|exact H].
  destruct (opening_bytes _ _ _ _ _ _ _ B O) as (_ & _ & _ & Hn). eapply eventually_impl; [|exact H]. intros k (op & Ho & Hop). exists op. split; [exact Ho|]. apply (op_for_name sys d op); [|exact Hop].
  destruct (beq sys (s2b "nakedos")) eqn:E; [apply beq_eq in E; left; apply Hn, E|apply beq_neq in E; right; exact E].
Qed.
(** The image ex_astray said to be of ProDOS: ls fails, or never ends. *)
Lemma astray_visits w : input w (s2b "x.po") ex_astray -> w_outroom w = None -> exists vis icat icat',
  (forall o, ProdosSpec.an_order (vis o)) /\ ProdosSpec.an_order icat /\ ProdosSpec.an_order icat' /\
  ends_in (fun k => LsCmd_Run_v vis icat k (s2b "auto") (s2b "prodos") false (s2b "x.po") []) w Errs /\
  ends_in (fun k => LsCmd_Run_v vis icat' k (s2b "auto") (s2b "prodos") false (s2b "x.po") []) w Crashes.
Proof.
  intros Hin Hw. destruct ex_astray_ok as (B & L & _). destruct (ex_astray_may []) as [MF MH].
  remember ex_astray as v eqn:Ev. clear Ev. pose proof (reordered_self _ _ _ L il_po) as R.
  assert (O : opening (s2b "x.po") (s2b "auto") (s2b "prodos") v (Opened (s2b "prodos") v (s2b "po"))).
  { apply (og_told _ _ _ _ (s2b "po") (s2b "po")); [exact L|exact auto_po|constructor|exact R|discriminate]. }
  destruct (opening_each_v _ _ _ _ _ B O) as (vis & Hv & H).
  destruct (ls_each_catalog (s2b "prodos") v [] false Errs B ltac:(lia) ltac:(discriminate) (ls_prodos_no _ _ _ MF)) as (i1 & Hi1 & E1).
  destruct (ls_each_catalog (s2b "prodos") v [] false Crashes B ltac:(lia) ltac:(discriminate) (ls_prodos_never _ _ _ MH)) as (i2 & Hi2 & E2).
  exists vis, i1, i2. split; [exact Hv|]. split; [exact Hi1|]. split; [exact Hi2|].
  pose proof (ls_opened vis i1 (s2b "x.po") (s2b "auto") (s2b "prodos") v false [] w _ B Hi1 Hin O H) as X1.
  pose proof (ls_opened vis i2 (s2b "x.po") (s2b "auto") (s2b "prodos") v false [] w _ B Hi2 Hin O H) as X2. cbn [opened_ends] in X1, X2. split.
  - apply (ends_in_ext _ _ _ _ X1). exact (ls_tail i1 _ _ _ v _ v _ false [] w _ Hin Hw (pinned_opens i1 _ _ _ _ _ _ _ B Hi1 O) E1).
  - apply (ends_in_ext _ _ _ _ X2). exact (ls_tail i2 _ _ _ v _ v _ false [] w _ Hin Hw (pinned_opens i2 _ _ _ _ _ _ _ B Hi2 O) E2).
Qed.
