(** CrashProofs.v -- which commands come to an end, and with which exit status. *)
From Verif Require Import GoBase GoLemmas TypesModel TypesProofs DiskModel DiskSpec DiskProofs DiskOpenProofs.
From Verif Require Import Dos3Model Dos3Spec Dos3Proofs Dos3StmtProofs.
From Verif Require Import SupermonModel SupermonSpec SupermonStoreSpec SupermonProofs SupermonOpProofs SupermonFinalProofs SupermonStmtProofs.
From Verif Require ProdosSpec ProdosModel ProdosProofs ProdosStmtProofs BasicSpec BasicModel BasicProofs SdSpec SdProofs.
From Verif Require Import CmdModel CmdSpec CmdProofs CmdStmtProofs NakedCmdSpec NakedCmdProofs DetectSpec DetectProofs OpenFuelProofs MainModel CrashSpec.
From Coq Require Import ZifyBool ZifyNat Permutation.
Ltac Zify.zify_post_hook ::= Z.div_mod_to_equations.
Local Opaque zrange zeros sub.

Lemma Swizzle_np img l : Swizzle img l <> Panic.
Proof.
  destruct (Z.eq_dec (zlen img) 143360) as [Hi|Hi].
  - destruct (validateOrder l) as [[]|e|] eqn:Ev.
    + apply validateOrder_ok in Ev. destruct (Swizzle_ok img l Hi Ev) as (r & -> & _). discriminate.
    + unfold Swizzle. rewrite Ev. destruct (negb _); discriminate.
    + destruct (validateOrder_no_panic l Ev).
  - destruct (Swizzle_err img l) as [e ->]; [intros [H _]; exact (Hi H)|discriminate].
Qed.
Lemma try_orders_np {Op} img single system (facs : list (factory Op)) orders :
  (forall o sw, In o orders -> Swizzle img (orNil (LogicalToPhysicalByName o)) = Ok sw -> try_factories sw single system o facs <> Some Panic) ->
  try_orders img single system facs orders <> Panic.
Proof.
  induction orders as [|o orders IH]; intros H; cbn [try_orders]; [discriminate|].
  destruct (Swizzle img (orNil (LogicalToPhysicalByName o))) as [sw|e|] eqn:E; [|discriminate|destruct (Swizzle_np _ _ E)].
  specialize (H o) as H0. specialize (H0 sw (or_introl eq_refl) E).
  destruct (try_factories sw single system o facs) as [r|]; [intros ->; apply H0; reflexivity|].
  apply IH. intros o' sw' Hin. apply H. right. exact Hin.
Qed.
(** Facts at one amount of fuel. *)
Definition decided {Op} (img : bytes) (x : DiskOrder * factory Op) : Prop := rejects img x \/ exists op, accepts img x op.

Section Crash.
  Context (iter : list (Z * ProdosModel.Subdirectory) -> list (Z * ProdosModel.Subdirectory)).
  Notation facs := (DiskOperatorFactories iter).

  Definition settles_at (k : nat) (system c o : bytes) : Prop :=
    ((system = s2b "auto" \/ system = s2b "dos3") /\ exists op, accepts c (o, dos3_factory k) op) \/
    ((system = s2b "auto" \/ system = s2b "nakedos") /\ rejects c (o, dos3_factory k) /\ exists op, accepts c (o, nakedos_factory) op) \/
    (decided c (o, dos3_factory k) /\ decided c (o, nakedos_factory) /\ decided c (o, prodos_factory iter k)).
  (** The catalogs of the disk in the operator can be read. *)
  Definition fine (k : nat) (op : AnyOp) : Prop :=
    match op with
    | ODos3 d => bytes_ok d /\ zlen d = 143360 /\ exists r, Dos3Model.ReadCatalog k d = Some r /\ r <> Panic
    | ONaked op => reached op
    | OProdos d => bytes_ok d /\ exists r, ProdosModel.readVolume iter k d 2 = Some r /\ r <> Panic
    end.

  Lemma readVolume_ends d : bytes_ok d -> zlen d <= 65536 * 512 -> ProdosSpec.an_order iter -> ProdosSpec.acyclic d ->
    eventually (fun k => exists r, ProdosModel.readVolume iter k d 2 = Some r /\ r <> Panic).
  Proof.
    intros B L Hi A. destruct (ProdosStmtProofs.C52_partial_lemma d iter [] B L Hi A) as (n & r & Hr & H).
    exists n. intros k Hk. specialize (H k Hk). unfold ProdosModel.Catalog in H.
    destruct (ProdosModel.readVolume iter k d 2) as [[v|e|]|]; cbn [ProdosModel.obind] in H.
    - exists (Ok v). split; [reflexivity|discriminate].
    - exists (Err e). split; [reflexivity|discriminate].
    - injection H as <-. destruct (Hr eq_refl).
    - discriminate H.
  Qed.
  Lemma ReadCatalog_ends d : bytes_ok d -> ~ dos_cyclic d -> forall k, (561 <= k)%nat -> exists r, Dos3Model.ReadCatalog k d = Some r /\ r <> Panic.
  Proof.
    intros B N k Hk. destruct (C17_partial_lemma d B) as [D H]. destruct (H (fun x => N (proj1 D x))) as (r & Hr & Np & _).
    exists r. split; [apply Hr; exact Hk|exact Np].
  Qed.
  Lemma dos_not_cyclic d : bytes_ok d -> dos_disk d -> ~ dos_cyclic d.
  Proof.
    intros B Hd C. pose proof (seems_dos_yes d B Hd 561%nat (Nat.le_refl _)) as E. rewrite (seems_dos_hangs d B C 561%nat) in E. discriminate E.
  Qed.
  Lemma decided_dos c o d k : bytes_ok c -> reordered c o (s2b "do") d -> ~ dos_cyclic d -> (561 <= k)%nat -> decided c (o, dos3_factory k).
  Proof.
    intros B R N Hk. destruct (ReadCatalog_ends d (reordered_bytes _ _ _ _ R B) N k Hk) as (r & E & Np).
    destruct r as [x|e|]; [right; exists (ODos3 d)|left|destruct (Np eq_refl)]; (exists d; split; [exact R|]).
    - cbn [snd f_seems dos3_factory]. unfold dos3_SeemsToMatch. rewrite E. split; reflexivity.
    - left. cbn [snd f_seems dos3_factory]. unfold dos3_SeemsToMatch. rewrite E. reflexivity.
  Qed.
  Lemma decided_naked c o l : zlen c = 143360 -> interleave o l -> decided c (o, nakedos_factory).
  Proof.
    intros Hc Hl. destruct (reordered_ex c o (s2b "raw") Hc) as [d R]; [exists l; exact Hl|eexists; constructor|].
    assert (zlen d = 143360) as Hd by apply R.
    destruct (SeemsToMatch d) eqn:E.
    - assert (naked_disk d) as N.
      { unfold SeemsToMatch in E. rewrite LoadSectorMap_ok in E by lia.
        destruct (Verify_spec (stored_map d) (zlen_stored_map d ltac:(lia))) as [V _].
        destruct (Verify (stored_map d)) as [[]|e|] eqn:Ev; try discriminate E.
        constructor; [exact Hd | apply V; reflexivity | reflexivity]. }
      destruct (acc_naked c o d R N) as (op & _ & Ha). right. exists (ONaked op). exact Ha.
    - left. exists d. split; [exact R|]. left. cbn [snd f_seems nakedos_factory supermon_factory]. rewrite E. reflexivity.
  Qed.
  Lemma decided_prodos c o d : bytes_ok c -> reordered c o (s2b "po") d -> ProdosSpec.an_order iter -> ProdosSpec.acyclic d ->
    eventually (fun k => decided c (o, prodos_factory iter k)).
  Proof.
    intros B R Hi A. assert (zlen d = 143360) as Hd by apply R.
    eapply eventually_impl; [|apply (readVolume_ends d (reordered_bytes _ _ _ _ R B) ltac:(lia) Hi A)].
    intros k (r & E & Np). destruct r as [x|e|]; [right; exists (OProdos d)|left|destruct (Np eq_refl)]; (exists d; split; [exact R|]).
    - cbn [snd f_seems prodos_factory]. unfold ProdosModel.prodos_SeemsToMatch. rewrite E. split; reflexivity.
    - left. cbn [snd f_seems prodos_factory]. unfold ProdosModel.prodos_SeemsToMatch. rewrite E. reflexivity.
  Qed.
  Lemma settles_later system c o l : bytes_ok c -> zlen c = 143360 -> interleave o l -> ProdosSpec.an_order iter -> settles system c o ->
    eventually (fun k => settles_at k system c o).
  Proof.
    intros B Hc Hl Hi [d Hs R N|d0 d Hs R0 N0 R N|d0 d R0 N0 R A].
    - apply eventually_561. intros k Hk. left. split; [exact Hs|]. exists (ODos3 d). apply acc_dos; assumption.
    - apply eventually_561. intros k Hk. right. left. split; [exact Hs|]. split; [apply (rej_dos c o d0); assumption|].
      destruct (acc_naked c o d R N) as (op & _ & Ha). exists (ONaked op). exact Ha.
    - eapply eventually_impl; [|exact (eventually_and _ _ (decided_prodos c o d B R Hi A) (eventually_561 (fun k => (561 <= k)%nat) (fun k H => H)))].
      intros k [Hp Hk]. right. right. split; [apply (decided_dos c o d0); assumption|]. split; [apply (decided_naked c o l); assumption|exact Hp].
  Qed.
  Lemma settled_later system c : settled system c -> zlen c = 143360 -> ProdosSpec.an_order iter ->
    eventually (fun k => (561 <= k)%nat /\ settles_at k system c (s2b "do") /\ settles_at k system c (s2b "po")).
  Proof.
    intros (B & H & _) Hc Hi. destruct (H Hc) as [H1 H2].
    apply (eventually_impl (fun k => (561 <= k)%nat /\ (settles_at k system c (s2b "do") /\ settles_at k system c (s2b "po")))); [trivial|].
    apply eventually_and; [exists 561%nat; trivial|]. apply eventually_and; (eapply settles_later; [exact B|exact Hc|constructor|exact Hi|assumption]).
  Qed.

  Lemma decided_not_hangs c (x : DiskOrder * factory AnyOp) : decided c x -> hangs c x -> False.
  Proof. intros [H|[op H]] Hh; [exact (hangs_not_rejects _ _ Hh H)|exact (accepts_not_hangs _ _ _ H Hh)]. Qed.
  Definition sel_of (k : nat) (system : bytes) := filter (fun f => beq system (s2b "auto") || beq system (f_name f)) (facs k).
  Lemma sel_cases k system :
    (system = s2b "auto" /\ sel_of k system = facs k) \/ (system = s2b "dos3" /\ sel_of k system = [dos3_factory k]) \/
    (system = s2b "nakedos" /\ sel_of k system = [nakedos_factory]) \/ (system = s2b "prodos" /\ sel_of k system = [prodos_factory iter k]) \/
    sel_of k system = [].
  Proof.
    unfold sel_of, DiskOperatorFactories. cbn [filter f_name dos3_factory nakedos_factory prodos_factory supermon_factory].
    destruct (beq system (s2b "auto")) eqn:Ea; [apply beq_eq in Ea; left; split; [exact Ea|reflexivity]|]. cbn [orb].
    destruct (beq system dos3_name) eqn:E1; [apply beq_eq in E1; subst; right; left; split; reflexivity|].
    destruct (beq system operatorName) eqn:E2; [apply beq_eq in E2; subst; right; right; left; split; reflexivity|].
    destruct (beq system ProdosModel.prodos_name) eqn:E3; [apply beq_eq in E3; subst; right; right; right; left; split; reflexivity|].
    right; right; right; right. reflexivity.
  Qed.
  Lemma three_hang {A} (P Q : A -> Prop) a b c l1 x l2 : [a; b; c] = l1 ++ x :: l2 -> Forall P l1 -> Q x ->
    Q a \/ (P a /\ Q b) \/ (P a /\ P b /\ Q c).
  Proof.
    intros E F H. destruct l1 as [|y1 l1]; [injection E as -> _; left; exact H|]. cbn [app] in E. injection E as -> E. inversion F as [|? ? P1 F1]; subst.
    destruct l1 as [|y2 l1]; [injection E as -> _; right; left; split; assumption|]. cbn [app] in E. injection E as -> E. inversion F1 as [|? ? P2 F2]; subst.
    destruct l1 as [|y3 l1]; [injection E as -> _; right; right; auto|]. cbn [app] in E. injection E as -> E. destruct l1; discriminate E.
  Qed.
  Lemma one_hang {A} (Q : A -> Prop) a l1 x l2 : [a] = l1 ++ x :: l2 -> Q x -> Q a.
  Proof. destruct l1 as [|y l1]; [intros E; injection E as -> _; trivial|]. cbn [app]. intros E. injection E as _ E. destruct l1; discriminate E. Qed.

  Lemma settles_no_hang k system c o l1 x l2 : settles_at k system c o -> map (pair o) (sel_of k system) = l1 ++ x :: l2 ->
    Forall (rejects c) l1 -> hangs c x -> False.
  Proof.
    intros S E F H. destruct (sel_cases k system) as [[Hs Es]|[[Hs Es]|[[Hs Es]|[[Hs Es]|Es]]]]; rewrite Es in E.
    - cbn [map DiskOperatorFactories] in E. destruct (three_hang _ _ _ _ _ _ _ _ E F H) as [H1|[[H1 H2]|(H1 & H2 & H3)]];
        (destruct S as [[_ [op S]]|[(_ & S1 & [op S])|(S1 & S2 & S3)]]).
      + exact (accepts_not_hangs _ _ _ S H1).
      + exact (hangs_not_rejects _ _ H1 S1).
      + exact (decided_not_hangs _ _ S1 H1).
      + exact (accepts_not_rejects _ _ _ S H1).
      + exact (accepts_not_hangs _ _ _ S H2).
      + exact (decided_not_hangs _ _ S2 H2).
      + exact (accepts_not_rejects _ _ _ S H1).
      + exact (accepts_not_rejects _ _ _ S H2).
      + exact (decided_not_hangs _ _ S3 H3).
    - cbn [map] in E. pose proof (one_hang (hangs c) _ _ _ _ E H) as H1. destruct S as [[_ [op S]]|[([Hx|Hx] & S1 & [op S])|(S1 & S2 & S3)]]; try (rewrite Hs in Hx; discriminate Hx).
      + exact (accepts_not_hangs _ _ _ S H1).
      + exact (decided_not_hangs _ _ S1 H1).
    - cbn [map] in E. pose proof (one_hang (hangs c) _ _ _ _ E H) as H1. destruct S as [[[Hx|Hx] [op S]]|[(_ & S1 & [op S])|(S1 & S2 & S3)]]; try (rewrite Hs in Hx; discriminate Hx).
      + exact (accepts_not_hangs _ _ _ S H1).
      + exact (decided_not_hangs _ _ S2 H1).
    - cbn [map] in E. pose proof (one_hang (hangs c) _ _ _ _ E H) as H1.
      destruct S as [[[Hx|Hx] [op S]]|[([Hx|Hx] & S1 & [op S])|(S1 & S2 & S3)]]; try (rewrite Hs in Hx; discriminate Hx).
      exact (decided_not_hangs _ _ S3 H1).
    - destruct l1; discriminate E.
  Qed.
  Lemma rmap_np {A B} (f : A -> B) (r : res A) : rmap f r = Panic -> r = Panic.
  Proof. unfold rmap. destruct r; cbn [rbind]; [discriminate|discriminate|reflexivity]. Qed.
  Lemma NewOperator_np d : zlen d = 143360 -> NewOperator d <> Panic.
  Proof.
    intros Hd. destruct (Verify (stored_map d)) as [[]|e|] eqn:Ev;
      (destruct (Verify_spec (stored_map d) (zlen_stored_map d ltac:(lia))) as [V Vn]).
    - assert (naked_disk d) as N by (constructor; [exact Hd | apply V; exact Ev | reflexivity]).
      rewrite (NewOperator_floppy _ _ N). discriminate.
    - unfold NewOperator. rewrite LoadSectorMap_ok by lia. cbn [rbind]. rewrite Ev. discriminate.
    - destruct (Vn Ev).
  Qed.
  Lemma operator_np k f d : In f (facs k) -> zlen d = 143360 -> f_operator f d <> Panic.
  Proof.
    intros [<-|[<-|[<-|[]]]] Hd; [discriminate| |discriminate]. intros E. apply rmap_np in E. exact (NewOperator_np d Hd E).
  Qed.
  Lemma candidates_do_po name order orders o : candidates name order orders -> In o orders -> o = s2b "do" \/ o = s2b "po".
  Proof.
    intros H Hin. apply candidate_orders_iff in H. unfold candidate_orders in H.
    repeat match type of H with
    | (if ?b then _ else _) = _ => destruct b eqn:?
    end; (discriminate H || injection H as <-); cbn [In] in Hin; unfold DiskOrderDO, DiskOrderPO in *;
    repeat match goal with H : _ || _ = true |- _ => apply orb_true_iff in H as [H|H]; apply beq_eq in H end; intuition (subst; auto).
  Qed.
  Lemma open_ends c name order system : ProdosSpec.an_order iter -> settled system c ->
    eventually (fun k => OpenImage c name order system (facs k) <> Panic).
  Proof.
    intros Hi S. destruct (Z.eq_dec (zlen c) 143360) as [Hc|Hc].
    - eapply eventually_impl; [|exact (settled_later system c S Hc Hi)]. intros k (Hk & S1 & S2).
      rewrite OpenImage_floppy by exact Hc. unfold openDoOrPo. cbv zeta. fold (sel_of k system).
      destruct (zlen (sel_of k system) =? 0); [discriminate|].
      destruct (candidate_orders order (to_lower (path_Ext name))) as [orders|e|] eqn:E; [|discriminate|destruct (candidate_orders_total _ _ E)].
      cbn [rbind]. apply candidate_orders_iff in E. apply try_orders_np. intros o sw Hin Esw.
      assert (settles_at k system c o) as S0 by (destruct (candidates_do_po _ _ _ _ E Hin) as [->| ->]; assumption).
      assert (forall f, In f (sel_of k system) -> In f (facs k)) as Hsel by (intros f Hf; unfold sel_of in Hf; apply filter_In in Hf; apply Hf).
      assert (forall f, In f (sel_of k system) -> exists l, interleave (f_order f) l) as Hfac by (intros f Hf; apply (facs_order iter k), Hsel, Hf).
      destruct ((zlen orders =? 1) && negb (beq system (s2b "auto"))) eqn:Ep.
      + destruct (sel_of k system) as [|f sel] eqn:Es; [discriminate|]. cbn [try_factories].
        destruct (reorder_step c o sw f Esw (Hfac f (or_introl eq_refl))) as (d & -> & Hre). rewrite Ep.
        pose proof (operator_np k f d (Hsel f (or_introl eq_refl)) ltac:(apply Hre)) as Hn.
        destruct (f_operator f d); cbn [rbind]; [discriminate|discriminate|destruct (Hn eq_refl)].
      + pose proof (try_factories_spec c sw _ system o (sel_of k system) Ep Esw Hfac) as H.
        destruct (try_factories sw _ system o (sel_of k system)) as [[r|e|]|]; try discriminate.
        destruct H as (l1 & x & l2 & El & Hl & Hx). destruct (settles_no_hang k system c o l1 x l2 S0 El Hl Hx).
    - exists O. intros k _. unfold OpenImage. unfold FloppyDiskBytes. replace (zlen c =? 143360) with false by lia.
      destruct (zlen c =? FloppyDiskBytes13Sector); [discriminate|]. destruct (beq _ (s2b ".hdv")); [|discriminate].
      unfold openHDV. cbv zeta. destruct (_ <? _); [discriminate|]. destruct (_ <? _); [discriminate|]. destruct (_ && _); [discriminate|]. destruct (_ && _); discriminate.
  Qed.
  (** What is opened has catalogs that can be read. *)
  Lemma open_fine c name order system : ProdosSpec.an_order iter -> settled system c ->
    eventually (fun k => forall op o, OpenImage c name order system (facs k) = Ok (op, o) -> fine k op).
  Proof.
    intros Hi S. pose proof S as (B & SF & SH). destruct (Z.eq_dec (zlen c) 143360) as [Hc|Hc].
    - assert (eventually (fun k => forall o d, o = s2b "do" \/ o = s2b "po" -> reordered c o (s2b "po") d -> system = s2b "prodos" ->
        exists r, ProdosModel.readVolume iter k d 2 = Some r /\ r <> Panic)) as EP.
      { destruct (beq system (s2b "prodos")) eqn:Eb; [apply beq_eq in Eb|exists O; intros k _ o d _ _ ->; rewrite beq_refl in Eb; discriminate Eb].
        assert (forall o, settles system c o -> eventually (fun k => forall d, reordered c o (s2b "po") d ->
          exists r, ProdosModel.readVolume iter k d 2 = Some r /\ r <> Panic)) as H.
        { intros o [d [->| ->] R N|d0 d [->| ->] R0 N0 R N|d0 d R0 N0 R A]; try discriminate Eb. assert (zlen d = 143360) as Hd by apply R.
          eapply eventually_impl; [|apply (readVolume_ends d (reordered_bytes _ _ _ _ R B) ltac:(lia) Hi A)].
          intros k Hk d' R'. rewrite (reordered_fun _ _ _ _ _ R' R). exact Hk. }
        destruct (SF Hc) as [S1 S2]. eapply eventually_impl; [|exact (eventually_and _ _ (H _ S1) (H _ S2))].
        intros k [H1 H2] o d [->| ->] R _; [apply H1|apply H2]; exact R. }
      assert (forall o d, o = s2b "do" \/ o = s2b "po" -> reordered c o (s2b "do") d -> system = s2b "auto" \/ system = s2b "dos3" -> ~ dos_cyclic d) as ND.
      { assert (forall o d, settles system c o -> reordered c o (s2b "do") d -> system = s2b "auto" \/ system = s2b "dos3" -> ~ dos_cyclic d) as H.
        { intros o d [d' _ R N|d0 d' _ R0 N0 R N|d0 d' R0 N0 R A] R' _.
          - rewrite (reordered_fun _ _ _ _ _ R' R). apply (dos_not_cyclic d' (reordered_bytes _ _ _ _ R B) N).
          - rewrite (reordered_fun _ _ _ _ _ R' R0). apply N0.
          - rewrite (reordered_fun _ _ _ _ _ R' R0). exact N0. }
        destruct (SF Hc) as [S1 S2]. intros o d [->| ->]; apply H; assumption. }
      apply (eventually_impl (fun k => (561 <= k)%nat /\ (forall o d, o = s2b "do" \/ o = s2b "po" -> reordered c o (s2b "po") d -> system = s2b "prodos" ->
        exists r, ProdosModel.readVolume iter k d 2 = Some r /\ r <> Panic))); [|apply eventually_and; [exists 561%nat; trivial|exact EP]].
      intros k [Hk HP] op o E.
      assert (forall f d, In f (sel_of k system) -> o = s2b "do" \/ o = s2b "po" -> reordered c o (f_order f) d -> f_operator f d = Ok op ->
        (f_seems f d = Some true \/ system <> s2b "auto") -> fine k op) as Main.
      { intros f d Hf Ho R Eo Hse. assert (zlen d = 143360) as Hd by apply R. pose proof (reordered_bytes _ _ _ _ R B) as Bd.
        assert (f = dos3_factory k /\ (system = s2b "auto" \/ system = s2b "dos3") \/ f = nakedos_factory \/ f = prodos_factory iter k /\ (system = s2b "auto" \/ system = s2b "prodos")) as Hcase.
        { destruct (sel_cases k system) as [[Hs Es]|[[Hs Es]|[[Hs Es]|[[Hs Es]|Es]]]]; rewrite Es in Hf; cbn [In DiskOperatorFactories] in Hf.
          - destruct Hf as [<-|[<-|[<-|[]]]]; auto.
          - destruct Hf as [<-|[]]; auto.
          - destruct Hf as [<-|[]]; auto.
          - destruct Hf as [<-|[]]; auto.
          - destruct Hf. }
        destruct Hcase as [[-> Hs]|[->|[-> Hs]]].
        - cbn [f_operator dos3_factory rmap rbind dos3_Operator] in Eo. injection Eo as <-. split; [exact Bd|]. split; [exact Hd|].
          apply ReadCatalog_ends; [exact Bd|apply (ND o d Ho R Hs)|exact Hk].
        - cbn [f_operator nakedos_factory supermon_factory] in Eo. unfold rmap in Eo. destruct (NewOperator d) as [x|e|] eqn:En; cbn [rbind] in Eo; try discriminate Eo.
          injection Eo as <-. apply (reached_open d x Hd En).
        - cbn [f_operator prodos_factory rmap rbind ProdosModel.prodos_Operator] in Eo. injection Eo as <-. split; [exact Bd|].
          destruct Hs as [Hs|Hs]; [|apply (HP o d Ho R Hs)]. destruct Hse as [Hse|Hse]; [|destruct (Hse Hs)].
          cbn [f_seems prodos_factory] in Hse. unfold ProdosModel.prodos_SeemsToMatch in Hse.
          destruct (ProdosModel.readVolume iter k d 2) as [[v|e|]|]; try discriminate Hse. exists (Ok v). split; [reflexivity|discriminate]. }
      pose proof E as E0. rewrite OpenImage_floppy in E0 by exact Hc. unfold openDoOrPo in E0. cbv zeta in E0.
      destruct (candidate_orders order (to_lower (path_Ext name))) as [orders|e|] eqn:Ec; [|destruct (_ =? 0); discriminate E0|destruct (_ =? 0); discriminate E0]. clear E0.
      apply candidate_orders_iff in Ec. pose proof (filter_selected system (facs k)) as Hsel. fold (sel_of k system) in Hsel.
      destruct (beq system (s2b "auto")) eqn:Ea; [apply beq_eq in Ea|apply beq_neq in Ea].
      2: destruct (Z.eq_dec (zlen orders) 1) as [E1|E1].
      2: { destruct orders as [|o1 [|o2 orders]]; [cbn in E1; lia| |rewrite !zlen_cons in E1; pose proof (zlen_nonneg orders); lia].
           pose proof (open_pinned c name order system (facs k) (sel_of k system) o1 Hc (facs_order iter k) Hsel Ec Ea) as HPn.
           destruct (sel_of k system) as [|f sel]; [destruct HPn as [e He]; rewrite He in E; discriminate E|].
           destruct HPn as (d & Hd & Eo). rewrite E in Eo. destruct (f_operator f d) as [op'|e|] eqn:Ef; cbn [rbind] in Eo; try discriminate Eo. injection Eo as -> ->.
           apply (Main f d (or_introl eq_refl) (candidates_do_po _ _ _ _ Ec (or_introl eq_refl)) Hd Ef (or_intror Ea)). }
      all: assert (zlen orders <> 1 \/ system = s2b "auto") as Hp by (first [right; assumption | left; assumption]);
        apply (open_scan c name order system (facs k) (sel_of k system) orders op o Hc (facs_order iter k) Hsel Ec Hp) in E;
        destruct E as (l1 & f & l2 & El & _ & d & Hd & Hse & Ho);
        assert (Hin : In (o, f) (list_prod orders (sel_of k system))) by (unfold DiskOrder in *; rewrite El; apply in_elt);
        apply in_prod_iff in Hin as [Hin1 Hin2]; apply (Main f d Hin2 (candidates_do_po _ _ _ _ Ec Hin1) Hd Ho (or_introl Hse)).
    - destruct (Z.le_gt_cases (zlen c) (65536 * 512)) as [Hl|Hl].
      + eapply eventually_impl; [|apply (readVolume_ends c B Hl Hi (SH Hc Hl))]. intros k HV op o E.
        apply open_hdv in E; [|exact Hc]. destruct E as (_ & _ & _ & _ & _ & _ & _ & l1 & f & l2 & El & _ & Hn & Ho).
        assert (In f (facs k)) as Hf by (rewrite El; apply in_elt). destruct Hf as [<-|[<-|[<-|[]]]]; try discriminate Hn.
        injection Ho as <-. split; assumption.
      + exists O. intros k _ op o E. apply open_hdv in E; [|exact Hc]. destruct E as (_ & _ & _ & Hx & _). lia.
  Qed.
End Crash.

(** ** Commands *)
Lemma ends_of p w : snd (run p w) <> Panic -> (forall w' r, w_room w = None -> run p w = (w', r) -> r <> Ok tt -> same_files w w') -> ends p w.
Proof.
  intros Np H. unfold ends, main_run. destruct (run p w) as [w' r] eqn:E. cbn [snd] in Np. exists w', (main_status r). split; [reflexivity|].
  destruct r as [[]|e|]; [left; split; reflexivity| |destruct (Np eq_refl)].
  right. split; [reflexivity|]. split; [exists e; reflexivity|]. intros Hr. apply (H w' (Err e) Hr eq_refl). discriminate.
Qed.
Lemma WriteOutput_np n c f w : snd (run (WriteOutput n c f) w) <> Panic.
Proof. destruct (run (WriteOutput n c f) w) as [w' r] eqn:E. apply (C63_lemma _ _ _ _ _ _ E). Qed.
Lemma WriteBack_np n op o ow w : snd (run (WriteBack n op o ow) w) <> Panic.
Proof.
  unfold WriteBack. rewrite run_pbind. unfold plift. cbn [run]. unfold WriteBackBytes.
  destruct (negb _); [apply WriteOutput_np|].
  destruct (Swizzle (Op_GetBytes op) _) as [p|e|] eqn:E; cbn [rbind]; [|discriminate|destruct (Swizzle_np _ _ E)].
  destruct (Swizzle p _) as [q|e|] eqn:E2; [apply WriteOutput_np|discriminate|destruct (Swizzle_np _ _ E2)].
Qed.
Lemma Contents_total d fd : bytes_ok d -> FD_wf fd -> eventually (fun k => exists r, Contents k fd d = Some r /\ r <> Panic).
Proof. intros B W. destruct (C18_lemma d fd B W) as (n & r & [Np _] & H). exists n. intros k Hk. exists r. split; [apply H; exact Hk|exact Np]. Qed.

Section Commands.
  Context (iter : list (Z * ProdosModel.Subdirectory) -> list (Z * ProdosModel.Subdirectory)).
  Notation facs := (DiskOperatorFactories iter).

  Lemma open_read w img order system :
    (exists c w1, input w img c /\ forall k, run (OpenFilename iter k img order system) w = (w1, OpenImage c (image_name img) order system (facs k))) \/
    (exists w1 e, forall k, run (OpenFilename iter k img order system) w = (w1, Err e)).
  Proof.
    unfold OpenFilename, image_name. change dash with (s2b "-"). destruct (beq img (s2b "-")) eqn:E.
    - apply beq_eq in E. subst img. destruct (w_stdin w) as [c|] eqn:Es.
      + left. exists c, (no_stdin w). split; [left; split; [reflexivity|exact Es]|]. intros k. rewrite run_pbind. cbn [run]. unfold sys_stdin. rewrite Es. reflexivity.
      + right. eexists _, _. intros k. rewrite run_pbind. cbn [run]. unfold sys_stdin. rewrite Es. reflexivity.
    - destruct (sys_read (w_fs w img)) as [c|e|] eqn:Er.
      + left. exists c, w. split; [right; split; [intros ->; rewrite beq_refl in E; discriminate E|]|].
        * unfold sys_read in Er. destruct (w_fs w img) as [| | c0 r wr| ] eqn:Ef; try discriminate Er. destruct r; [|discriminate Er]. injection Er as ->. exists wr. exact Ef.
        * intros k. rewrite run_pbind. cbn [run]. rewrite Er. reflexivity.
      + right. exists w, e. intros k. rewrite run_pbind. cbn [run]. rewrite Er. reflexivity.
      + unfold sys_read in Er. destruct (w_fs w img) as [| | c0 r wr| ]; try discriminate Er. destruct r; discriminate Er.
  Qed.
  (** A command that opens an image and goes on. *)
  Lemma open_then {B} w img order system (f : nat -> AnyOp * DiskOrder -> prog B) (Good : AnyOp -> Prop) :
    ProdosSpec.an_order iter -> (forall c, input w img c -> settled system c) ->
    (forall c, input w img c -> forall k op o, OpenImage c (image_name img) order system (facs k) = Ok (op, o) -> Good op) ->
    (forall op o w1, Good op -> eventually (fun k => fine iter k op -> snd (run (f k (op, o)) w1) <> Panic)) ->
    eventually (fun k => snd (run (pbind (OpenFilename iter k img order system) (f k)) w) <> Panic).
  Proof.
    intros Hi Hs HG Hf. destruct (open_read w img order system) as [(c & w1 & Hin & E)|(w1 & e & E)].
    2: { exists O. intros k _. rewrite run_pbind, E. discriminate. }
    specialize (Hs c Hin). specialize (HG c Hin).
    pose proof (open_ends iter c (image_name img) order system Hi Hs) as H1. pose proof (open_fine iter c (image_name img) order system Hi Hs) as H2.
    destruct (eventually_and _ _ H1 H2) as [n Hn]. cbv beta in Hn.
    destruct (OpenImage c (image_name img) order system (facs n)) as [[op o]|er|] eqn:En; [| |destruct (proj1 (Hn n (Nat.le_refl n)) En)].
    - assert (forall k, (n <= k)%nat -> OpenImage c (image_name img) order system (facs k) = Ok (op, o)) as Eo.
      { intros k Hk. apply (OpenFuelProofs.open_more iter c _ _ _ n k _ Hk En). }
      destruct (Hf op o w1 (HG n op o En)) as [m Hm].
      exists (Nat.max n m). intros k Hk. rewrite run_pbind, E, Eo by lia. apply Hm; [lia|]. apply (proj2 (Hn k ltac:(lia)) op o). apply Eo. lia.
    - exists n. intros k Hk. rewrite run_pbind, E. pose proof (proj1 (Hn k Hk)) as Np.
      destruct (OpenImage c (image_name img) order system (facs k)) as [[op o]|er'|] eqn:Ek; [|discriminate|destruct (Np eq_refl)].
      exfalso. pose proof (OpenFuelProofs.better_open c (image_name img) order system _ _ (OpenFuelProofs.better_facs iter n k Hk)) as Hb.
      rewrite En, Ek in Hb. specialize (Hb ltac:(discriminate)). discriminate Hb.
  Qed.
  Definition any (op : AnyOp) : Prop := True.

  Lemma rm_np w order system miss img name : ProdosSpec.an_order iter -> (forall c, input w img c -> settled system c) ->
    eventually (fun k => snd (run (DeleteCmd_Run iter k order system miss img name) w) <> Panic).
  Proof.
    intros Hi Hs. unfold DeleteCmd_Run. apply (open_then _ _ _ _ _ any Hi Hs); [intros; exact I|].
    intros op o w1 _. exists O. intros k _ Hf. destruct op as [d|op|d]; cbn [Op_Delete lift_op dos3_Delete ProdosModel.prodos_Delete].
    1, 3: rewrite run_pbind; discriminate.
    pose proof (reached_nopanic op (RDelete name) Hf ltac:(intros i ow E; discriminate E)) as Np. cbn [op_step] in Np.
    destruct (Delete name op) as [op' r]. cbn [lift_op]. rewrite run_pbind. unfold plift. cbn [run].
    cbn [snd] in Np. destruct r as [b|e|]; [|discriminate|cbn in Np; destruct (Np eq_refl)].
    destruct (negb b && negb miss); [discriminate|apply WriteBack_np].
  Qed.
  Lemma source_read w src : (exists s w1, input w src s /\ run (FileContentsOrStdIn src) w = (w1, Ok s)) \/ exists w1 e, run (FileContentsOrStdIn src) w = (w1, Err e).
  Proof.
    unfold FileContentsOrStdIn. change dash with (s2b "-"). destruct (beq src (s2b "-")) eqn:E.
    - apply beq_eq in E. subst src. cbn [run]. unfold sys_stdin. destruct (w_stdin w) as [c|] eqn:Es; [left|right; eexists _, _; reflexivity].
      exists c, (no_stdin w). split; [left; split; [reflexivity|exact Es]|reflexivity].
    - cbn [run]. destruct (sys_read (w_fs w src)) as [c|e|] eqn:Er.
      + left. exists c, w. split; [right; split; [intros ->; rewrite beq_refl in E; discriminate E|]|reflexivity].
        unfold sys_read in Er. destruct (w_fs w src) as [| |c0 r wr|] eqn:Ef; try discriminate Er. destruct r; [|discriminate Er]. injection Er as ->. exists wr. exact Ef.
      + right. exists w, e. reflexivity.
      + unfold sys_read in Er. destruct (w_fs w src) as [| | c0 r wr| ]; try discriminate Er. destruct r; discriminate Er.
  Qed.
  (** The source as it is read after the image. *)
  Lemma source_after w img order system k w1 r src s : run (OpenFilename iter k img order system) w = (w1, r) ->
    (beq img dash && beq src dash)%bool = false -> input w1 src s -> input w src s.
  Proof.
    unfold OpenFilename. intros E Hd Hin. change dash with (s2b "-") in *. destruct (beq img (s2b "-")) eqn:Eb.
    - cbn [andb] in Hd. rewrite run_pbind in E. cbn [run] in E. unfold sys_stdin in E.
      assert (same_files w w1) as Hsf by (destruct (w_stdin w); cbn [run plift] in E; injection E as <- _; intros n; reflexivity).
      destruct Hin as [[-> _]|[Hn [wr Hf]]]; [rewrite beq_refl in Hd; discriminate Hd|]. right. split; [exact Hn|]. exists wr. rewrite <- Hsf. exact Hf.
    - rewrite run_pbind in E. cbn [run] in E. assert (w1 = w) as -> by (destruct (sys_read _); cbn [run plift] in E; injection E as <- _; reflexivity). exact Hin.
  Qed.
  Lemma put_np w order system ft ow addr img tgt src : ProdosSpec.an_order iter -> (forall c, input w img c -> settled system c) ->
    ~ input w src [] ->
    eventually (fun k => snd (run (PutCmd_Run iter k order system ft ow addr img tgt src) w) <> Panic).
  Proof.
    intros Hi Hs Hsrc. unfold PutCmd_Run. destruct (beq img dash && beq src dash)%bool eqn:Ed; [exists O; intros k _; discriminate|].
    destruct (open_read w img order system) as [(c & w1 & Hin & E)|(w1 & e & E)].
    2: { exists O. intros k _. rewrite run_pbind, E. discriminate. }
    specialize (Hs c Hin).
    pose proof (open_ends iter c (image_name img) order system Hi Hs) as H1. pose proof (open_fine iter c (image_name img) order system Hi Hs) as H2.
    eapply eventually_impl; [|exact (eventually_and _ _ H1 H2)]. intros k [Np Hf]. rewrite run_pbind, E.
    destruct (OpenImage c (image_name img) order system (facs k)) as [[op o]|er|] eqn:Eo; [|discriminate|destruct (Np eq_refl)].
    specialize (Hf op o eq_refl). rewrite run_pbind. destruct (source_read w1 src) as [(s & w2 & Hs2 & ->)|(w2 & e & ->)]; [|discriminate].
    apply (source_after w img order system k w1 _ src s (E k) Ed) in Hs2.
    rewrite run_pbind. unfold plift at 1. cbn [run]. destruct (FiletypeForName ft) as [t|e|] eqn:Eft; [|discriminate|].
    2: { destruct (proj1 (proj2 (proj2 C61_lemma)) ft Eft). }
    destruct op as [d|op|d]; cbn [Op_PutFile lift_op dos3_PutFile ProdosModel.prodos_PutFile].
    1, 3: rewrite run_pbind; discriminate.
    remember (FI (Desc tgt [] 0 0 (zlen s) false t) s addr) as fi eqn:Efi.
    pose proof (reached_nopanic op (RPut fi ow) Hf) as Np2. cbn [op_step] in Np2.
    assert (forall i ow', RPut fi ow = RPut i ow' -> fi_data i <> []) as Hne.
    { intros i ow' Ei. injection Ei as <- _. rewrite Efi. cbn [fi_data]. intros ->. exact (Hsrc Hs2). }
    specialize (Np2 Hne). destruct (PutFile fi ow op) as [op' r]. cbn [lift_op]. rewrite run_pbind. unfold plift. cbn [run].
    cbn [snd] in Np2. destruct r as [b|e|]; [|discriminate|cbn in Np2; destruct (Np2 eq_refl)]. apply WriteBack_np.
  Qed.
  Lemma FileForName_np t n : FileForName t n <> Panic.
  Proof. unfold FileForName. cbv zeta. destruct (negb _); [discriminate|]. destruct (FileForName_loop _ _); discriminate. Qed.
  Lemma compound_np t n : FilesForCompoundName t n <> Panic.
  Proof.
    unfold FilesForCompoundName. destruct (split_colon n) as [|p [|q [|r l]]]; try discriminate.
    - destruct (negb _); [discriminate|]. pose proof (FileForName_np t n) as H. destruct (FileForName t n); [discriminate|discriminate|destruct (H eq_refl)].
    - destruct (_ =? 0); [discriminate|]. destruct (negb _); [discriminate|]. pose proof (FileForName_np t q) as H. destruct (FileForName t q); [discriminate|discriminate|destruct (H eq_refl)].
  Qed.
  Lemma mkhello_np w order img name addr start : ProdosSpec.an_order iter -> (forall c, input w img c -> settled (s2b "auto") c) ->
    eventually (fun k => snd (run (MkHelloCmd_Run iter k order img name addr start) w) <> Panic).
  Proof.
    intros Hi Hs. unfold MkHelloCmd_Run. cbv zeta. destruct (negb _); [exists O; intros k _; discriminate|]. destruct (_ <? _); [exists O; intros k _; discriminate|].
    apply (open_then _ _ _ _ _ any Hi Hs); [intros; exact I|].
    intros op o w1 _. exists O. intros k _ Hf. destruct op as [d|op|d]; [discriminate| |discriminate].
    rewrite run_pbind. unfold plift at 1. cbn [run].
    destruct (FilesForCompoundName (st_of op) name) as [[[a sa] r]|e|] eqn:En; [|discriminate|].
    2: { destruct (compound_np _ _ En). }
    destruct ((a =? 0) && (sa =? 0)); [discriminate|]. cbn [Op_PutFile].
    remember (FI _ _ 0) as fi eqn:Efi. pose proof (reached_nopanic op (RPut fi true) Hf) as Np2. cbn [op_step] in Np2.
    assert (forall i ow', RPut fi true = RPut i ow' -> fi_data i <> []) as Hne.
    { intros i ow' Ei. injection Ei as <- _. rewrite Efi. cbn [fi_data]. unfold hello_program. discriminate. }
    specialize (Np2 Hne). destruct (PutFile fi true op) as [op' r2]. cbn [lift_op]. rewrite run_pbind. unfold plift. cbn [run].
    cbn [snd] in Np2. destruct r2 as [b|e|]; [|discriminate|cbn in Np2; destruct (Np2 eq_refl)]. apply WriteBack_np.
  Qed.
  Lemma lines_np short fds w : snd (run (ls_lines short fds) w) <> Panic.
  Proof.
    revert w. induction fds as [|fd fds IH]; intros w; cbn [ls_lines run]; [discriminate|].
    destruct (sys_stdout w (ls_line short fd)) as [w1 r]. apply IH.
  Qed.
  Lemma ls_np w order system short img dir : ProdosSpec.an_order iter -> (forall c, input w img c -> settled system c) ->
    eventually (fun k => snd (run (LsCmd_Run iter k order system short img dir) w) <> Panic).
  Proof.
    intros Hi Hs. unfold LsCmd_Run. apply (open_then _ _ _ _ _ any Hi Hs); [intros; exact I|].
    intros op o w1 _. exists O. intros k _ Hf. destruct (_ && _); [discriminate|]. rewrite run_pbind. unfold plift. cbn [run].
    assert (Op_Catalog iter k op dir <> Panic) as Np.
    { destruct op as [d|op|d]; cbn [Op_Catalog].
      - destruct Hf as (B & L & r & E & Np). unfold Dos3Model.Catalog. rewrite E. destruct r as [[fds dl]|e|]; cbn [returned]; [discriminate|discriminate|destruct (Np eq_refl)].
      - pose proof (reached_nopanic op RCatalog Hf ltac:(intros i ow E; discriminate E)) as Np. cbn [op_step snd] in Np.
        destruct (Catalog op); cbn [err_class] in Np; [discriminate|discriminate|destruct (Np eq_refl)].
      - destruct Hf as (B & r & E & Np). unfold ProdosModel.Catalog. rewrite E. destruct r as [v|e|]; cbn [ProdosModel.obind returned]; [|discriminate|destruct (Np eq_refl)].
        destruct (zlen dir =? 0); [discriminate|]. destruct (ProdosModel.mget beq dir _); discriminate. }
    destruct (Op_Catalog iter k op dir) as [fds|e|]; [apply lines_np|discriminate|destruct (Np eq_refl)].
  Qed.
  Lemma dump_np w order system img n : ProdosSpec.an_order iter -> (forall c, input w img c -> settled system c /\ no_fatal c n) ->
    eventually (fun k => snd (run (DumpCmd_Run iter k order system img n) w) <> Panic).
  Proof.
    intros Hi Hs. unfold DumpCmd_Run.
    apply (open_then _ _ _ _ _ (fun op => match op with ODos3 d => bytes_ok d /\ forall k, Dos3Model.GetFile k d n <> Some Panic | _ => True end) Hi (fun c Hc => proj1 (Hs c Hc))).
    - intros c Hc k op o E. destruct op as [d|op|d]; [|exact I|exact I]. destruct (Hs c Hc) as [(B & _) Hnf].
      destruct (Z.eq_dec (zlen c) 143360) as [Lc|Lc].
      + apply open_floppy_sound in E as (f & d' & Hin & R & Ho); [|exact Lc|apply (facs_order iter k)].
        destruct Hin as [<-|[<-|[<-|[]]]].
        * injection Ho as ->. pose proof (reordered_bytes _ _ _ _ R B) as Bd. split; [exact Bd|]. intros k' Ek.
          destruct (proj1 (C20_partial_lemma d n Bd) (ex_intro _ k' Ek)) as (l & e & ls & data & H1 & H2 & H3 & H4).
          exact (Hnf o d l e ls data R H1 H2 H3 H4).
        * cbn [f_operator nakedos_factory supermon_factory] in Ho. unfold rmap in Ho. destruct (NewOperator d') as [x|e|]; discriminate Ho.
        * discriminate Ho.
      + apply open_hdv in E; [|exact Lc]. destruct E as (_ & _ & _ & _ & _ & _ & _ & l1 & f & l2 & El & _ & Hn & Ho).
        assert (In f (facs k)) as Hf by (rewrite El; apply in_elt). destruct Hf as [<-|[<-|[<-|[]]]]; try discriminate Hn. discriminate Ho.
    - intros op o w1 HG. destruct op as [d|op|d].
      + destruct HG as [B HG].
        assert (eventually (fun k => forall r, Dos3Model.ReadCatalog k d = Some r -> r <> Panic -> exists r', Dos3Model.GetFile k d n = Some r')) as HE.
        { destruct (C17_partial_lemma d B) as [D17 H17].
          destruct (Dos3Model.ReadCatalog 561 d) as [r0|] eqn:E0.
          2: { exists 561%nat. intros k Hk r Er _. exfalso.
               assert (~ diverges (fun k => Dos3Model.ReadCatalog k d)) as Hn by (intros Hd; rewrite Hd in Er; discriminate Er).
               destruct (H17 Hn) as (r1 & H1 & _). rewrite (H1 561%nat (Nat.le_refl _)) in E0. discriminate E0. }
          destruct r0 as [[fds dl]|e|].
          - destruct (find (fun fd => beq (FilenameString fd) n) fds) as [fd|] eqn:Ef.
            + assert (FD_wf fd) as W.
              { assert (exists l, catalog d l) as [l C].
                { assert (~ diverges (fun k => Dos3Model.ReadCatalog k d)) as Hn by (intros Hd; rewrite Hd in E0; discriminate E0).
                  destruct (H17 Hn) as (r1 & H1 & _ & H2). apply H2. rewrite (H1 561%nat (Nat.le_refl _)) in E0. injection E0 as ->. eauto. }
                destruct (C16_lemma d l B C) as [(m & r & (files & deleted & -> & Hf2 & _) & Hm) _].
                pose proof (OpenFuelProofs.ReadCatalog_more 561 d _ (Nat.max 561 m) (Nat.le_max_l _ _) E0) as Ea. rewrite (Hm _ (Nat.le_max_r _ _)) in Ea. injection Ea as -> _.
                apply find_some in Ef as [Hin _]. clear - Hf2 Hin. induction Hf2 as [|x y l1 l2 [_ Hxy] _ IH]; [destruct Hin|]. destruct Hin as [<-|Hin]; [exact Hxy|apply IH; exact Hin]. }
              destruct (Contents_total d fd B W) as [m Hm]. exists (Nat.max 561 m). intros k Hk r Er _.
              rewrite (OpenFuelProofs.ReadCatalog_more 561 d _ k ltac:(lia) E0) in Er. injection Er as <-.
              unfold Dos3Model.GetFile, fileForFilename. rewrite (OpenFuelProofs.ReadCatalog_more 561 d _ k ltac:(lia) E0), Ef.
              destruct (Hm k ltac:(lia)) as (r' & -> & _). destruct r' as [[data cap]|e|]; eexists; reflexivity.
            + exists 561%nat. intros k Hk r Er _. unfold Dos3Model.GetFile, fileForFilename.
              rewrite (OpenFuelProofs.ReadCatalog_more 561 d _ k Hk E0), Ef. eexists; reflexivity.
          - exists 561%nat. intros k Hk r Er _. unfold Dos3Model.GetFile, fileForFilename.
              rewrite (OpenFuelProofs.ReadCatalog_more 561 d _ k Hk E0). eexists; reflexivity.
          - exists 561%nat. intros k Hk r Er Np. rewrite (OpenFuelProofs.ReadCatalog_more 561 d _ k Hk E0) in Er. injection Er as <-. destruct (Np eq_refl). }
        eapply eventually_impl; [|exact HE]. intros k H (_ & _ & r & Er & Np). destruct (H r Er Np) as [r' Eg].
        rewrite run_pbind. unfold plift. cbn [run Op_GetFile]. rewrite Eg. cbn [returned]. specialize (HG k). rewrite Eg in HG.
        destruct r' as [f|e|]; [|discriminate|destruct (HG eq_refl)]. cbn [run]. unfold sys_stdout. destruct (fits _ _); discriminate.
      + exists O. intros k _ Hf. rewrite run_pbind. unfold plift. cbn [run Op_GetFile].
        pose proof (reached_nopanic op (RGet n) Hf ltac:(intros i ow E; discriminate E)) as Np. cbn [op_step snd] in Np.
        destruct (GetFile op n) as [f|e|]; cbn [err_class] in Np; [|discriminate|destruct (Np eq_refl)]. cbn [run]. unfold sys_stdout. destruct (fits _ _); discriminate.
      + exists O. intros k _ Hf. rewrite run_pbind. discriminate.
  Qed.
  Lemma reorder_np w a b ow img newImg : snd (run (ReorderCmd_Run a b ow img newImg) w) <> Panic.
  Proof.
    unfold ReorderCmd_Run. rewrite run_pbind. unfold plift at 1. cbn [run].
    assert (getOrders img a newImg b <> Panic) as Np.
    { unfold getOrders. cbv zeta. repeat (match goal with |- (if ?x then _ else _) <> _ => destruct x end; try discriminate). }
    destruct (getOrders img a newImg b) as [[fo to]|e|]; [|discriminate|destruct (Np eq_refl)].
    rewrite run_pbind. destruct (source_read w img) as [(s & w1 & _ & ->)|(w1 & e & ->)]; [|discriminate].
    destruct (LogicalToPhysicalByName fo); [|discriminate]. destruct (PhysicalToLogicalByName to); [|discriminate].
    rewrite run_pbind. unfold plift at 1. cbn [run]. destruct (Swizzle s l) as [x|e|] eqn:E; [|discriminate|destruct (Swizzle_np _ _ E)].
    rewrite run_pbind. unfold plift at 1. cbn [run]. destruct (Swizzle x l0) as [y|e|] eqn:E2; [|discriminate|destruct (Swizzle_np _ _ E2)].
    destruct (beq newImg []); apply WriteOutput_np.
  Qed.
  Lemma mksd_np w order img bin addr start : order_flag order -> 0 <= addr < 65536 -> 0 <= start < 65536 ->
    snd (run (SDCmd_Run order img bin addr start) w) <> Panic.
  Proof.
    intros Hf Ha Hs. unfold SDCmd_Run. rewrite run_pbind. destruct (source_read w bin) as [(s & w1 & _ & ->)|(w1 & e & ->)]; [|discriminate].
    rewrite run_pbind. unfold plift. cbn [run].
    assert (SdSpec.sd_accepts s addr (SdSpec.sd_start addr start) \/ ~ SdSpec.sd_accepts s addr (SdSpec.sd_start addr start)) as [H|H].
    { unfold SdSpec.sd_accepts. lia. }
    - destruct (SdProofs.sd_order_exists order img Hf) as [o Ho].
      destruct (SdProofs.sd_image_ok order img s addr start o Hf Ho Ha Hs H) as (raw & d & -> & _). apply WriteOutput_np.
    - destruct (SdProofs.sd_image_err order img s addr start Ha H) as [e ->]. discriminate.
  Qed.
  Lemma decode_np w file loc raw : 0 <= loc < 65536 -> (forall f, input w file f -> lines_end f loc) ->
    eventually (fun k => snd (run (DecodeCmd_Run k file loc raw) w) <> Panic).
  Proof.
    intros Hl H. unfold DecodeCmd_Run. destruct (source_read w file) as [(s & w1 & Hin & E)|(w1 & e & E)].
    2: { exists O. intros k _. rewrite run_pbind, E. discriminate. }
    destruct (H s Hin) as (B & p & Hb & Hc & Hp).
    destruct (BasicProofs.C56_four_outcomes s p loc B Hl Hb) as (D & P & _ & [Dv|(n & r & _ & Hr)]).
    { apply D in Dv. destruct Dv as (ls & a & ls' & F1 & N & F2). destruct (N (Hc _ _ _ F1 F2)). }
    exists n. intros k Hk. rewrite run_pbind, E, run_pbind. unfold plift. cbn [run]. rewrite (Hr k Hk). cbn [returned].
    destruct r as [ls|e|]; [| |].
    - cbn [run]. unfold sys_stdout. destruct (fits _ _); discriminate.
    - discriminate.
    - destruct P as [P _]. destruct (P (ex_intro _ k (Hr k Hk))) as (ls & F & _). destruct (Hp ls F).
  Qed.

  Lemma safe_ends w p : ProdosSpec.an_order iter -> safe iter w p -> eventually (fun k => ends (p k) w).
  Proof.
    intros Hi Hs.
    assert (eventually (fun k => snd (run (p k) w) <> Panic)) as Np.
    { destruct Hs; [apply ls_np|apply dump_np|apply rm_np|apply put_np|apply mkhello_np| | |apply decode_np|]; try assumption.
      - exists O. intros k _. apply reorder_np.
      - exists O. intros k _. apply mksd_np; assumption.
      - exists O. intros k _. unfold FiletypesCmd_Run. cbn [run]. destruct (sys_stdout _ _). discriminate. }
    eapply eventually_impl; [|exact Np]. intros k Hk. apply ends_of; [exact Hk|]. intros w' r Hr E Hn.
    destruct Hs; cbv beta in *.
    1: apply (proj1 (C74_lemma iter k _ (r_ls iter k _ _ _ _ _)) w w' r E).
    1: apply (proj1 (C74_lemma iter k _ (r_dump iter k _ _ _ _)) w w' r E).
    1: apply (C64_room_lemma iter k _ _ (m_rm iter k _ _ _ _ _) w w' r Hr E Hn).
    1: apply (C64_room_lemma iter k _ _ (m_put iter k _ _ _ _ _ _ _ _) w w' r Hr E Hn).
    1: apply (C64_room_lemma iter k _ _ (m_mkhello iter k _ _ _ _ _) w w' r Hr E Hn).
    1: apply (C64_room_lemma iter k _ _ (m_reorder iter k _ _ _ _ _) w w' r Hr E Hn).
    1: apply (C64_room_lemma iter k _ _ (m_mksd iter k _ _ _ _ _) w w' r Hr E Hn).
    1: apply (proj1 (C74_lemma iter k _ (r_decode iter k _ _ _)) w w' r E).
    unfold FiletypesCmd_Run in E. cbn [run] in E. destruct (sys_stdout _ _). injection E as _ <-. destruct (Hn eq_refl).
  Qed.
End Commands.
