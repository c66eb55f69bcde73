(** TightProofs.v -- refusals of OpenImage and MarshalBlock, what a failed write of a bitmap leaves, and
    index-block entries that Set does not name (C08, C09, C50, C71). *)
From Verif Require Import GoBase GoLemmas DiskModel DiskSpec DiskProofs DiskOpenProofs DiskOpenSpec
  ProdosModel ProdosSpec ProdosBitmapProofs ProdosStmtProofs.
From Coq Require Import ZifyBool ZifyNat.
Ltac Zify.zify_post_hook ::= Z.div_mod_to_equations.
Local Opaque zrange zeros sub.

(** ** C08 *)
Lemma openHDV_loop_err {Op} raw (facs : list (factory Op)) :
  (exists e, openHDV_loop raw facs = Err e) <->
  (forall f, In f facs -> f_name f <> s2b "prodos") \/
  exists l1 f l2 e, facs = l1 ++ f :: l2 /\ (forall g, In g l1 -> f_name g <> s2b "prodos") /\
    f_name f = s2b "prodos" /\ f_operator f raw = Err e.
Proof.
  induction facs as [|f facs IH]; cbn [openHDV_loop].
  - split; [intros _; left; intros f [] | eauto].
  - destruct (beq (f_name f) (s2b "prodos")) eqn:E.
    + apply beq_eq in E. split.
      * intros [e H]. right. destruct (f_operator f raw) as [op'|e'|] eqn:Eo; cbn [rbind] in H; try discriminate H.
        exists [], f, facs, e'. split; [reflexivity|]. split; [intros g []|]. split; assumption.
      * intros [H|(l1 & g & l2 & e & El & Hn & Hf & Ho)]; [exfalso; exact (H f (or_introl eq_refl) E)|].
        destruct l1 as [|h l1]; cbn [app] in El; injection El as <- El; [|exfalso; exact (Hn f (or_introl eq_refl) E)].
        rewrite Ho. cbn [rbind]. eauto.
    + apply beq_neq in E. rewrite IH. split.
      * intros [H|(l1 & g & l2 & e & El & Hn & Hf & Ho)].
        -- left. intros g [<-|Hg]; [exact E | apply H, Hg].
        -- right. exists (f :: l1), g, l2, e. split; [rewrite El; reflexivity|]. split; [|split; assumption].
           intros h [<-|Hh]; [exact E | apply Hn, Hh].
      * intros [H|(l1 & g & l2 & e & El & Hn & Hf & Ho)].
        -- left. intros g Hg. apply H. right. exact Hg.
        -- right. destruct l1 as [|h l1]; cbn [app] in El; injection El as <- El; [contradiction|].
           exists l1, g, l2, e. split; [exact El|]. split; [|split; assumption]. intros k Hk. apply Hn. right. exact Hk.
Qed.
Lemma C08_refusals_lemma : forall (Op : Type) (facs : list (factory Op)) img name order system,
  zlen img <> 143360 ->
  (exists e, OpenImage img name order system facs = Err e) <->
    zlen img = 35 * 13 * 256 \/ ~ ext_is name (s2b "hdv") \/ zlen img mod 512 <> 0 \/ 65536 * 512 < zlen img \/
    (order <> s2b "auto" /\ order <> s2b "po") \/ (system <> s2b "auto" /\ system <> s2b "prodos") \/
    (forall f, In f facs -> f_name f <> s2b "prodos") \/
    exists l1 f l2 e, facs = l1 ++ f :: l2 /\ (forall g, In g l1 -> f_name g <> s2b "prodos") /\
      f_name f = s2b "prodos" /\ f_operator f img = Err e.
Proof.
  intros Op facs img name order system Hi. unfold OpenImage, FloppyDiskBytes, FloppyDiskBytes13Sector.
  replace (zlen img =? 143360) with false by lia. change (35 * 13 * 256) with 116480.
  destruct (Z.eqb_spec (zlen img) 116480) as [E|E]; [split; eauto|].
  destruct (beq (to_lower (path_Ext name)) (s2b ".hdv")) eqn:Ex.
  2:{ split; [|eauto]. intros _. right. left. intros Hx. apply ext_hdv in Hx. congruence. }
  apply ext_hdv in Ex.
  unfold openHDV. pose proof (zlen_nonneg img).
  destruct (Z.ltb_spec 0 (zlen img mod 512)) as [M|M]; [split; [intros _; right; right; left; lia | eauto]|].
  destruct (Z.ltb_spec 65536 (zlen img / 512)) as [B|B]; [split; [intros _; right; right; right; left; lia | eauto]|].
  destruct (beq order (s2b "auto")) eqn:O1; [|destruct (beq order DiskOrderPO) eqn:O2]; cbn [negb andb].
  3:{ apply beq_neq in O1, O2. split; [intros _; right; right; right; right; left; auto | eauto]. }
  all: (destruct (beq system (s2b "auto")) eqn:S1; [|destruct (beq system (s2b "prodos")) eqn:S2]; cbn [negb andb]).
  3,6: (apply beq_neq in S1, S2; split; [intros _; right; right; right; right; right; left; auto | eauto]).
  all: rewrite openHDV_loop_err;
    repeat match goal with H : beq _ _ = true |- _ => apply beq_eq in H end;
    (split; [intros Hr; do 6 right; exact Hr|]);
    (intros [N|[N|[N|[N|[[N1 N2]|[[N1 N2]|N]]]]]]; [contradiction | contradiction | lia | lia | contradiction | contradiction | exact N]).
Qed.

(** ** C09 *)
Lemma C09_marshal_tight : forall (T : Type) (ToBlock : T -> res bytes) getBlock (v : T) img img' r,
  is_u16 (getBlock v) -> (forall b, ToBlock v = Ok b -> zlen b = 512) ->
  MarshalBlock ToBlock getBlock v img = (img', r) ->
  (forall b, ToBlock v = Ok b -> 512 * getBlock v + 512 <= zlen img ->
     r = Ok tt /\ zlen img' = zlen img /\
     (forall j, 0 <= j < 512 -> znth 0 img' (512 * getBlock v + j) = znth 0 b j) /\
     (forall j, 0 <= j -> ~ (512 * getBlock v <= j < 512 * getBlock v + 512) ->
        znth 0 img' j = znth 0 img j)) /\
  (r <> Ok tt -> img' = img) /\
  (forall b, ToBlock v = Ok b -> zlen img < 512 * getBlock v + 512 -> exists e, r = Err e) /\
  (forall e, ToBlock v = Err e -> r = Err e).
Proof.
  intros T TB gb v img img' r Hi HB HM.
  destruct (C09_marshal_lemma T TB gb v img img' r Hi HB HM) as (H1 & H2 & _).
  split; [exact H1|]. split; [exact H2|]. unfold MarshalBlock in HM. split.
  - intros b E L. rewrite E in HM. cbv zeta in HM. replace (zlen img <? gb v * 512 + 512) with true in HM by lia.
    injection HM as <- <-. eauto.
  - intros e E. rewrite E in HM. injection HM as <- <-. reflexivity.
Qed.

(** ** C50 *)
Lemma C50_others_lemma i n b m : arr 512 i -> 0 <= n < 256 -> is_u16 b -> 0 <= m < 256 -> m <> n ->
  IndexBlock_Get (IndexBlock_Set i n b) m = IndexBlock_Get i m.
Proof. intros _ _ _ _ _. unfold IndexBlock_Set. cbv zeta. reflexivity. Qed.

(** ** C71 *)
Lemma Write_err_exact vbm : forall d, vbm_wf vbm -> Forall (fun p => is_u16 (bp_block p)) vbm ->
  NoDup (map bp_block vbm) -> Exists (fun p => ~ in_dev d (bp_block p)) vbm ->
  exists d' e pre p post, vbm = pre ++ p :: post /\ Forall (fun q => in_dev d (bp_block q)) pre /\ ~ in_dev d (bp_block p) /\
    Write vbm d = (d', Err e) /\ zlen d' = zlen d /\
    (forall q, In q pre -> blk d' (bp_block q) = bp_data q) /\
    (forall n, 0 <= n -> ~ In n (map bp_block pre) -> blk d' n = blk d n).
Proof.
  induction vbm as [|bp vbm IH]; intros d W F N X; [inversion X|]. cbn [Write].
  inversion W as [|? ? [L B] W']; subst. inversion F as [|? ? U F']; subst. cbn [map] in N. inversion N as [|? ? N1 N2]; subst.
  unfold is_u16 in U. unfold sbind. rewrite write_part by lia.
  destruct (Z.ltb_spec (zlen d) (512 * bp_block bp + 512)) as [H|H].
  { exists d. eexists. exists [], bp, vbm. split; [reflexivity|]. split; [constructor|]. split; [unfold in_dev; lia|].
    split; [reflexivity|]. split; [reflexivity|]. split; [intros q [] | reflexivity]. }
  assert (zlen (upd d (512 * bp_block bp) (bp_data bp)) = zlen d) as Lu by (apply zlen_upd; lia).
  assert (forall k, in_dev (upd d (512 * bp_block bp) (bp_data bp)) k <-> in_dev d k) as Dv by (intros k; unfold in_dev; rewrite Lu; reflexivity).
  inversion X as [? ? X1|? ? X1]; subst; [exfalso; apply X1; unfold in_dev; lia|].
  destruct (IH (upd d (512 * bp_block bp) (bp_data bp)) W' F' N2) as (d' & e & pre & p & post & El & Fp & Np & E & L' & P & Q).
  { apply Exists_exists in X1 as (p & Hp & Np). apply Exists_exists. exists p. split; [exact Hp|]. rewrite Dv. exact Np. }
  exists d', e, (bp :: pre), p, post. split; [rewrite El; reflexivity|].
  split. { constructor; [unfold in_dev; lia|]. eapply Forall_impl; [|exact Fp]. intros q. rewrite Dv. auto. }
  split; [rewrite Dv in Np; exact Np|]. split; [exact E|]. split; [lia|].
  assert (~ In (bp_block bp) (map bp_block pre)) as N3.
  { intros Hi. apply N1. rewrite El, map_app. apply in_or_app. left. exact Hi. }
  split.
  - intros q [<-|Hq]; [|apply P; exact Hq]. rewrite Q by (try lia; exact N3). apply blk_upd_same; try lia; unfold in_dev; lia.
  - intros n Hn Hi. rewrite Q by (try lia; intros H'; apply Hi; right; exact H'). apply blk_upd_other; try lia; [unfold in_dev; lia|].
    intros ->. apply Hi. left. reflexivity.
Qed.
