(** OpenFuelProofs.v -- a result of OpenImage does not depend on the fuel, so it agrees with
    what the image is seen as. *)
From Coq Require Import ZifyBool ZifyNat.
From Verif Require Import GoBase GoLemmas TypesModel DiskModel DiskSpec DiskProofs DiskOpenProofs.
From Verif Require Import SupermonModel SupermonSpec.
From Verif Require Dos3Model.
From Verif Require ProdosSpec.
From Verif Require Import ProdosModel ProdosProofs CmdModel CmdSpec CmdProofs CmdStmtProofs NakedCmdSpec NakedCmdProofs NakedOpenProofs DetectSpec DetectProofs ListSpec.
Ltac Zify.zify_post_hook ::= Z.div_mod_to_equations.
Local Opaque zrange zeros sub.

(** The same factory with more fuel. *)
Definition better {Op} (f g : factory Op) : Prop :=
  f_name f = f_name g /\ f_order f = f_order g /\ (forall d, f_operator f d = f_operator g d) /\
  (forall d b, f_seems f d = Some b -> f_seems g d = Some b).

Lemma better_factories {Op} sw single system order (fs gs : list (factory Op)) : Forall2 better fs gs ->
  try_factories sw single system order fs <> Some Panic ->
  try_factories sw single system order gs = try_factories sw single system order fs.
Proof.
  intros H. induction H as [|f g fs gs (En & Eo & Ep & Es) _ IH]; [reflexivity|]. cbn [try_factories]. rewrite <- Eo.
  destruct (Swizzle sw _) as [db|e|]; [|reflexivity|reflexivity]. rewrite <- Ep.
  destruct (single && negb (beq system (s2b "auto"))); [reflexivity|].
  destruct (f_seems f db) as [b|] eqn:E; [|intros N; contradiction N; reflexivity]. rewrite (Es _ _ E). destruct b; [|exact IH].
  destruct (f_operator f db); [reflexivity|exact IH|reflexivity].
Qed.
Lemma better_orders {Op} raw single system (fs gs : list (factory Op)) orders : Forall2 better fs gs ->
  try_orders raw single system fs orders <> Panic ->
  try_orders raw single system gs orders = try_orders raw single system fs orders.
Proof.
  intros H. induction orders as [|o rest IH]; [reflexivity|]. cbn [try_orders].
  destruct (Swizzle raw _) as [sw|e|]; [|reflexivity|reflexivity]. intros N.
  rewrite (better_factories sw single system o fs gs H) by (intros E; rewrite E in N; contradiction N; reflexivity).
  destruct (try_factories sw single system o fs); [reflexivity|apply IH, N].
Qed.
Lemma better_filter {Op} (p : bytes -> bool) (fs gs : list (factory Op)) : Forall2 better fs gs ->
  Forall2 better (filter (fun f => p (f_name f)) fs) (filter (fun f => p (f_name f)) gs).
Proof.
  intros H. induction H as [|f g fs gs Hfg _ IH]; [constructor|]. cbn [filter]. rewrite <- (proj1 Hfg).
  destruct (p (f_name f)); [constructor; assumption|exact IH].
Qed.
Lemma better_hdv {Op} raw (fs gs : list (factory Op)) : Forall2 better fs gs -> openHDV_loop raw gs = openHDV_loop raw fs.
Proof.
  intros H. induction H as [|f g fs gs (En & _ & Ep & _) _ IH]; [reflexivity|]. cbn [openHDV_loop]. rewrite <- En, <- Ep, IH. reflexivity.
Qed.
Lemma better_len {Op} (fs gs : list (factory Op)) : Forall2 better fs gs -> zlen gs = zlen fs.
Proof. intros H. induction H as [|f g fs gs _ _ IH]; [reflexivity|]. rewrite !zlen_cons, IH. reflexivity. Qed.
Lemma better_open {Op} c name order system (fs gs : list (factory Op)) : Forall2 better fs gs ->
  OpenImage c name order system fs <> Panic -> OpenImage c name order system gs = OpenImage c name order system fs.
Proof.
  intros H. unfold OpenImage. cbv zeta. destruct (zlen c =? FloppyDiskBytes).
  - unfold openDoOrPo. cbv zeta. pose proof (better_filter (fun n => beq system (s2b "auto") || beq system n) fs gs H) as HF. cbv beta in HF.
    rewrite (better_len _ _ HF). destruct (zlen _ =? 0); [reflexivity|].
    destruct (candidate_orders order _) as [os|e|]; cbn [rbind]; [|reflexivity|reflexivity]. apply better_orders. exact HF.
  - intros _. destruct (zlen c =? FloppyDiskBytes13Sector); [reflexivity|]. destruct (beq _ _); [|reflexivity].
    unfold openHDV. cbv zeta. rewrite (better_hdv c fs gs H). reflexivity.
Qed.

Lemma readCatalog_more n d v : forall k, (n <= k)%nat -> forall t s sn cs r,
  Dos3Model.readCatalog_loop n d v t s sn cs = Some r -> Dos3Model.readCatalog_loop k d v t s sn cs = Some r.
Proof.
  induction n as [|n IH]; intros k Hk t s sn cs r E; [discriminate|]. destruct k as [|k]; [lia|]. cbn [Dos3Model.readCatalog_loop] in *.
  destruct (_ || _); [|exact E]. destruct (Dos3Model.seen_in _ _ _); [exact E|]. destruct (_ <=? _); [exact E|]. destruct (_ <=? _); [exact E|].
  destruct (UnmarshalLogicalSector _ _ _ _ _); [|exact E|exact E]. apply IH; [lia | exact E].
Qed.
Lemma ReadCatalog_more n d r k : (n <= k)%nat -> Dos3Model.ReadCatalog n d = Some r -> Dos3Model.ReadCatalog k d = Some r.
Proof.
  intros Hk E. unfold Dos3Model.ReadCatalog in *.
  destruct (Dos3Model.readCatalogSectors n d) as [x|] eqn:E1; [|discriminate].
  assert (Dos3Model.readCatalogSectors k d = Some x) as ->; [|exact E].
  clear E. unfold Dos3Model.readCatalogSectors in *. destruct (UnmarshalLogicalSector _ _ _ _ _) as [v| |]; [|exact E1|exact E1].
  destruct (Dos3Model.Validate v); [|exact E1|exact E1]. apply (readCatalog_more n d v k Hk _ _ _ _ _ E1).
Qed.

Section OpenFuel.
  Context (iter : list (Z * Subdirectory) -> list (Z * Subdirectory)).
  Notation facs := (DiskOperatorFactories iter).

  Lemma better_facs n k : (n <= k)%nat -> Forall2 better (facs n) (facs k).
  Proof.
    intros Hk. constructor; [|constructor; [|constructor; [|constructor]]]; (split; [reflexivity|split; [reflexivity|split; [reflexivity|]]]).
    - intros d b. cbn [f_seems dos3_factory]. unfold Dos3Model.dos3_SeemsToMatch.
      destruct (Dos3Model.ReadCatalog n d) as [r|] eqn:E; [|discriminate]. rewrite (ReadCatalog_more n d r k Hk E). trivial.
    - trivial.
    - intros d b. cbn [f_seems prodos_factory]. unfold prodos_SeemsToMatch.
      destruct (readVolume iter n d 2) as [r|] eqn:E; [|discriminate]. rewrite (readVolume_mono iter d 2 n r E k Hk). trivial.
  Qed.
  Lemma open_more c name order system n k r : (n <= k)%nat -> OpenImage c name order system (facs n) = Ok r ->
    OpenImage c name order system (facs k) = Ok r.
  Proof.
    intros Hk E. rewrite (better_open c name order system _ _ (better_facs n k Hk)); [exact E|]. rewrite E. discriminate.
  Qed.
  (** What the image is opened as is what it is seen as. *)
  Lemma open_seen fuel img order system c sys d o op o' : ProdosSpec.an_order iter -> seen_as img order c sys d o ->
    (system = s2b "auto" \/ system = sys) ->
    OpenImage c (image_name img) order system (facs fuel) = Ok (op, o') -> o' = o /\ op_for sys d op.
  Proof.
    intros Hi Hs Hsys E. destruct (opens iter img order system c sys d o Hi Hs Hsys) as [n Hn].
    destruct (Hn (Nat.max n fuel) (Nat.le_max_l _ _)) as (op1 & E1 & Hop).
    rewrite (open_more _ _ _ _ fuel (Nat.max n fuel) _ (Nat.le_max_r _ _) E) in E1. injection E1 as -> ->. split; [reflexivity|exact Hop].
  Qed.
  Lemma naked_seen fuel img order system c sys d o op o' : ProdosSpec.an_order iter -> seen_as img order c sys d o ->
    (system = s2b "auto" \/ system = sys) ->
    OpenImage c (image_name img) order system (facs fuel) = Ok (ONaked op, o') -> sys = s2b "nakedos" /\ o' = o /\ op_data op = d.
  Proof.
    intros Hi Hs Hsys E. destruct (open_seen fuel _ _ _ _ _ _ _ _ _ Hi Hs Hsys E) as [Eo Hop].
    remember (ONaked op) as x eqn:Ex. destruct Hop as [d'|d' op' En|d']; [discriminate| |discriminate]. injection Ex as ->.
    split; [reflexivity|]. split; [exact Eo|].
    destruct (naked_opened iter fuel _ _ _ _ _ _ E) as (_ & _ & _ & Hd & _).
    unfold NewOperator in En. destruct (LoadSectorMap d') as [sm|e|]; cbn [rbind] in En; try discriminate.
    destruct (Verify sm) as [u|e|]; cbn [rbind] in En; try discriminate.
    destruct (ReadSymbolTable sm d') as [t|e|]; try discriminate; injection En as <-; reflexivity.
  Qed.
  Lemma opened_seen fuel img order system c op o : OpenImage c (image_name img) order system (facs fuel) = Ok (ONaked op, o) ->
    ProdosSpec.an_order iter -> only_seen img order system c o (op_data op).
  Proof.
    intros E Hi sys d0 o0 Hs Hsys. destruct (naked_seen fuel _ _ _ _ _ _ _ _ _ Hi Hs Hsys E) as (E1 & E2 & E3).
    split; [exact E1|]. split; symmetry; assumption.
  Qed.
End OpenFuel.
