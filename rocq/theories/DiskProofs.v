(** DiskProofs.v -- proofs about package disk. *)
From Verif Require Import GoBase GoLemmas DiskModel DiskSpec.
From Coq Require Import ZifyBool ZifyNat Permutation.
Ltac Zify.zify_post_hook ::= Z.div_mod_to_equations.

Lemma offset_model t s : t * FloppyTrackBytes + s * 256 = offset t s.
Proof. unfold offset, FloppyTrackBytes, FloppySectors; lia. Qed.

(** ** Sectors *)
Lemma ReadSector_spec img t s :
  ReadSector img t s =
    if zlen img <? offset t s + 256 then Err (EOther "cannot read track/sector")
    else Ok (sector img t s).
Proof. unfold ReadSector. rewrite offset_model. reflexivity. Qed.

Lemma WriteSector_ok img t s d :
  zlen d = 256 -> offset t s + 256 <= zlen img ->
  WriteSector t s d img = (upd img (offset t s) d, Ok tt).
Proof.
  intros Hd Hi. unfold WriteSector. rewrite offset_model.
  replace (zlen d =? 256) with true by lia. cbn [negb].
  replace (zlen img <? offset t s + 256) with false by lia. reflexivity.
Qed.

Lemma WriteSector_err img t s d :
  zlen d <> 256 \/ zlen img < offset t s + 256 ->
  exists e, WriteSector t s d img = (img, Err e).
Proof.
  intros H. unfold WriteSector. rewrite offset_model.
  destruct (Z.eqb_spec (zlen d) 256); cbn [negb]; [|eauto].
  replace (zlen img <? offset t s + 256) with true by lia. eauto.
Qed.

Lemma zlen_sector img t s :
  0 <= t -> 0 <= s -> offset t s + 256 <= zlen img -> zlen (sector img t s) = 256.
Proof. intros; unfold sector. rewrite zlen_sub; unfold offset in *; lia. Qed.

Lemma sector_upd_same img t s d :
  0 <= t -> 0 <= s -> zlen d = 256 -> offset t s + 256 <= zlen img ->
  sector (upd img (offset t s) d) t s = d.
Proof. intros; unfold sector. apply sub_upd_same; unfold offset in *; lia. Qed.

Lemma sector_upd_other img t s t' s' d :
  0 <= t -> 0 <= s -> 0 <= t' -> 0 <= s' -> zlen d = 256 ->
  offset t s + 256 <= zlen img -> offset t s <> offset t' s' ->
  sector (upd img (offset t s) d) t' s' = sector img t' s'.
Proof.
  intros; unfold sector. unfold offset in *.
  destruct (Z.ltb_spec (4096 * t' + 256 * s') (4096 * t + 256 * s)).
  - apply sub_upd_before; lia.
  - apply sub_upd_after; lia.
Qed.

Lemma offset_inj t s t' s' :
  0 <= s < 16 -> 0 <= s' < 16 -> offset t s = offset t' s' -> t = t' /\ s = s'.
Proof. unfold offset; lia. Qed.

Lemma offset_bound t s : 0 <= t < 35 -> 0 <= s < 16 -> 0 <= offset t s /\ offset t s + 256 <= 143360.
Proof. unfold offset; lia. Qed.

(** A floppy image is determined by its 560 sectors. *)
Lemma sectors_ext a b :
  zlen a = 143360 -> zlen b = 143360 ->
  (forall t s, 0 <= t < 35 -> 0 <= s < 16 -> sector a t s = sector b t s) -> a = b.
Proof.
  intros Ha Hb H. apply (znth_ext 0); [lia|]. intros i Hi.
  specialize (H (i / 4096) (i mod 4096 / 256)).
  assert (Hs : sector a (i / 4096) (i mod 4096 / 256) = sector b (i / 4096) (i mod 4096 / 256)).
  { apply H; lia. }
  assert (forall c, zlen c = 143360 ->
    znth 0 c i = znth 0 (sector c (i / 4096) (i mod 4096 / 256)) (i mod 256)) as Hc.
  { intros c Hl. unfold sector, offset. rewrite znth_sub by lia. f_equal. lia. }
  rewrite (Hc a Ha), (Hc b Hb), Hs. reflexivity.
Qed.

(** ** validateOrder *)
Lemma validateOrder_loop_spec order seen :
  match validateOrder_loop order seen with
  | Ok _ => Forall (fun m => 0 <= m < 16) order /\ NoDup order /\ (forall m, In m order -> ~ In m seen)
  | Err _ => ~ (Forall (fun m => 0 <= m < 16) order /\ NoDup order /\ (forall m, In m order -> ~ In m seen))
  | Panic => False
  end.
Proof.
  revert seen; induction order as [|m order IH]; intros seen; cbn [validateOrder_loop].
  - split; [constructor|split; [constructor|]]. intros m [].
  - destruct ((m <? 0) || (15 <? m)) eqn:E1.
    { intros (H & _). inversion H; subst; lia. }
    destruct (existsb (Z.eqb m) seen) eqn:E2.
    { apply existsb_exists in E2 as (x & Hx & Ex). apply Z.eqb_eq in Ex. subst x.
      intros (_ & _ & H). apply (H m); [left; reflexivity | exact Hx]. }
    assert (Hm : ~ In m seen).
    { intros Hin. assert (existsb (Z.eqb m) seen = true); [|congruence].
      apply existsb_exists. exists m. split; [exact Hin | apply Z.eqb_refl]. }
    specialize (IH (m :: seen)). destruct (validateOrder_loop order (m :: seen)).
    + destruct IH as (H1 & H2 & H3). split; [constructor; [lia | exact H1]|].
      split.
      * constructor; [|exact H2]. intros Hin. apply (H3 m Hin). left; reflexivity.
      * intros x [<-|Hx]; [exact Hm|]. intros Hs. apply (H3 x Hx). right; exact Hs.
    + intros (H1 & H2 & H3). apply IH. inversion H1; subst. inversion H2; subst.
      split; [assumption|]. split; [assumption|].
      intros x Hx [<-|Hs]; [contradiction|]. apply (H3 x); [right; exact Hx | exact Hs].
    + exact IH.
Qed.

Lemma validateOrder_ok order :
  Permutation order (zrange 16) <-> validateOrder order = Ok tt.
Proof.
  unfold validateOrder. pose proof (validateOrder_loop_spec order []) as H. split.
  - intros Hp.
    assert (Hl : zlen order = 16).
    { unfold zlen. rewrite (Permutation_length Hp). reflexivity. }
    unfold FloppySectors. rewrite Hl. cbn [Z.eqb Pos.eqb negb].
    destruct (validateOrder_loop order []) as [[]|e|]; [reflexivity| |contradiction].
    exfalso. apply H. split; [|split].
    + apply Forall_forall. intros x Hx. apply (In_zrange 16).
      apply (Permutation_in x Hp Hx).
    + apply (Permutation_NoDup (Permutation_sym Hp)). apply NoDup_zrange.
    + intros m _ [].
  - unfold FloppySectors. destruct (Z.eqb_spec (zlen order) 16) as [Hl|]; cbn [negb]; [|discriminate].
    destruct (validateOrder_loop order []) as [[]|e|]; try discriminate. intros _.
    destruct H as (H1 & H2 & _). apply NoDup_Permutation_bis.
    + exact H2.
    + unfold zlen in Hl. change (length (zrange 16)) with 16%nat. lia.
    + intros x Hx. apply In_zrange. rewrite Forall_forall in H1. apply H1, Hx.
Qed.

Lemma validateOrder_no_panic order : validateOrder order <> Panic.
Proof.
  unfold validateOrder. destruct (negb _); [discriminate|].
  pose proof (validateOrder_loop_spec order []). destruct (validateOrder_loop order []); congruence || contradiction.
Qed.

Lemma perm_range order s : Permutation order (zrange 16) -> 0 <= s < 16 -> 0 <= znth 0 order s < 16.
Proof.
  intros Hp Hs. apply In_zrange. apply (Permutation_in _ Hp). apply znth_In.
  unfold zlen; rewrite (Permutation_length Hp). exact Hs.
Qed.
Lemma perm_inj order s s' : Permutation order (zrange 16) ->
  0 <= s < 16 -> 0 <= s' < 16 -> znth 0 order s = znth 0 order s' -> s = s'.
Proof.
  intros Hp Hs Hs' He.
  assert (Hn : NoDup order) by (apply (Permutation_NoDup (Permutation_sym Hp)), NoDup_zrange).
  rewrite (NoDup_nth order 0) in Hn. unfold znth in He.
  assert (length order = 16%nat) by (rewrite (Permutation_length Hp); reflexivity).
  apply Hn in He; lia.
Qed.
Lemma perm_surj order p : Permutation order (zrange 16) -> 0 <= p < 16 ->
  exists s, 0 <= s < 16 /\ znth 0 order s = p.
Proof.
  intros Hp Hr. destruct (In_znth 0 order p) as (i & Hi & E).
  - apply (Permutation_in _ (Permutation_sym Hp)). apply In_zrange. exact Hr.
  - exists i. split; [|exact E]. unfold zlen in Hi. rewrite (Permutation_length Hp) in Hi. exact Hi.
Qed.

(** ** Swizzle *)
Lemma swizzle_one_ok img order t s r :
  zlen img = 143360 -> zlen r = 143360 -> 0 <= t < 35 -> 0 <= s < 16 ->
  0 <= znth 0 order s < 16 ->
  swizzle_one img order t s r =
    (upd r (offset t (znth 0 order s)) (sector img t s), Ok tt).
Proof.
  intros Hi Hr Ht Hs Ho. unfold swizzle_one, sbind, lift.
  rewrite ReadSector_spec. unfold u8. rewrite !Z.mod_small by lia.
  pose proof (offset_bound t s Ht Hs). pose proof (offset_bound t (znth 0 order s) Ht Ho).
  replace (zlen img <? offset t s + 256) with false by lia.
  apply WriteSector_ok; [apply zlen_sector; lia | lia].
Qed.

Definition swz_inv (img : bytes) (order : list Z) (T S : Z) (r : bytes) : Prop :=
  zlen r = 143360 /\
  forall t s, 0 <= t < 35 -> 0 <= s < 16 -> t < T \/ (t = T /\ s < S) ->
    sector r t (znth 0 order s) = sector img t s.

Lemma Swizzle_ok img order :
  zlen img = 143360 -> Permutation order (zrange 16) ->
  exists r, Swizzle img order = Ok r /\ zlen r = 143360 /\
    forall t s, 0 <= t < 35 -> 0 <= s < 16 ->
      sector r t (znth 0 order s) = sector img t s.
Proof.
  intros Hi Hp. unfold Swizzle. unfold FloppyDiskBytes at 1.
  replace (zlen img =? 143360) with true by lia. cbn [negb].
  pose proof Hp as Hv. apply validateOrder_ok in Hv. rewrite Hv. cbn [rbind].
  destruct (for_inv (fun T r => swz_inv img order T 0 r) FloppyTracks
    (fun track => for_ (zrange FloppySectors) (fun sector => swizzle_one img order track sector))
    (zeros FloppyDiskBytes)) as (r & Er & Hr).
  - unfold FloppyTracks; lia.
  - split; [apply zlen_zeros; unfold FloppyDiskBytes; lia|]. intros; lia.
  - intros T r HT HI.
    destruct (for_inv (fun S r => swz_inv img order T S r) FloppySectors
      (fun sector => swizzle_one img order T sector) r) as (r' & Er' & Hr').
    + unfold FloppySectors; lia.
    + exact HI.
    + unfold FloppySectors, FloppyTracks in *. intros S r1 HS [Hl Hsec].
      pose proof (perm_range order S Hp HS) as Ho.
      rewrite swizzle_one_ok by (assumption || lia).
      pose proof (offset_bound T S HT HS). pose proof (offset_bound T (znth 0 order S) HT Ho).
      assert (zlen (sector img T S) = 256) by (apply zlen_sector; lia).
      eexists. split; [reflexivity|]. split.
      * rewrite zlen_upd; lia.
      * intros t s Ht Hs Hlt.
        pose proof (perm_range order s Hp Hs) as Ho'.
        destruct (Z.eq_dec (offset T (znth 0 order S)) (offset t (znth 0 order s))) as [E|NE].
        -- apply offset_inj in E as [-> E]; [|lia|lia]. apply perm_inj in E; [|assumption..].
           subst s. apply sector_upd_same; lia.
        -- rewrite sector_upd_other by (assumption || lia).
           apply Hsec; [lia|lia|].
           destruct (Z.eq_dec t T) as [->|]; [|lia].
           destruct (Z.eq_dec s S) as [->|]; [|lia]. contradiction NE; reflexivity.
    + exists r'. split; [exact Er'|]. destruct Hr' as [Hl Hsec]. split; [exact Hl|].
      unfold FloppySectors in *. intros t s Ht Hs Hlt. apply Hsec; lia.
  - exists r. rewrite Er. split; [reflexivity|]. destruct Hr as [Hl Hsec]. split; [exact Hl|].
    unfold FloppyTracks in *. intros t s Ht Hs. apply Hsec; lia.
Qed.

Lemma Swizzle_err img order :
  ~ (zlen img = 143360 /\ Permutation order (zrange 16)) -> exists e, Swizzle img order = Err e.
Proof.
  intros H. unfold Swizzle. unfold FloppyDiskBytes at 1.
  destruct (Z.eqb_spec (zlen img) 143360) as [E|]; cbn [negb]; [|eauto].
  destruct (validateOrder order) as [[]|e|] eqn:Ev; cbn [rbind].
  - exfalso. apply H. split; [exact E | apply validateOrder_ok, Ev].
  - eauto.
  - exfalso. apply (validateOrder_no_panic order Ev).
Qed.

(** Swizzle is determined by its specification. *)
Lemma swizzled_unique img order a b :
  Permutation order (zrange 16) -> zlen a = 143360 -> zlen b = 143360 ->
  (forall t s, 0 <= t < 35 -> 0 <= s < 16 -> sector a t (znth 0 order s) = sector img t s) ->
  (forall t s, 0 <= t < 35 -> 0 <= s < 16 -> sector b t (znth 0 order s) = sector img t s) ->
  a = b.
Proof.
  intros Hp Ha Hb H1 H2. apply sectors_ext; [assumption..|]. intros t p Ht Hpr.
  destruct (perm_surj order p Hp Hpr) as (s & Hs & <-).
  rewrite H1, H2 by assumption. reflexivity.
Qed.

Lemma Swizzle_iff img order r :
  Swizzle img order = Ok r <->
    zlen img = 143360 /\ Permutation order (zrange 16) /\ zlen r = 143360 /\
    forall t s, 0 <= t < 35 -> 0 <= s < 16 -> sector r t (znth 0 order s) = sector img t s.
Proof.
  split.
  - intros HS.
    destruct (Z.eq_dec (zlen img) 143360) as [Hi|Hi].
    2:{ destruct (Swizzle_err img order) as [e He]; [tauto | congruence]. }
    destruct (validateOrder order) as [[]|e|] eqn:Ev.
    + apply validateOrder_ok in Ev. destruct (Swizzle_ok img order Hi Ev) as (r' & E & Hl & Hs).
      rewrite E in HS. inversion HS; subst r'. auto.
    + unfold Swizzle in HS. rewrite Ev in HS. destruct (negb _); discriminate.
    + unfold Swizzle in HS. rewrite Ev in HS. destruct (negb _); discriminate.
  - intros (Hi & Hp & Hl & Hs). destruct (Swizzle_ok img order Hi Hp) as (r' & E & Hl' & Hs').
    rewrite E. f_equal. eapply swizzled_unique; eassumption.
Qed.

(** ** The tables *)
Lemma perm_check order : validateOrder order = Ok tt -> Permutation order (zrange 16).
Proof. apply validateOrder_ok. Qed.

(** A name that has an entry: both tables are permutations, inverse to each other, and the
    logical-to-physical one is the published interleave. *)
Lemma tables_ok o :
  (exists l, interleave o l) ->
  exists l p, LogicalToPhysicalByName o = Some l /\ PhysicalToLogicalByName o = Some p /\
    interleave o l /\
    Permutation l (zrange 16) /\ Permutation p (zrange 16) /\
    (forall s, 0 <= s < 16 -> znth 0 p (znth 0 l s) = s) /\
    (forall s, 0 <= s < 16 -> znth 0 l (znth 0 p s) = s).
Proof.
  assert (Hall : forall (f : Z -> Z), forallb (fun s => f s =? s) (zrange 16) = true ->
            forall s, 0 <= s < 16 -> f s = s).
  { intros f Hf s Hs. rewrite forallb_forall in Hf. specialize (Hf s).
    rewrite In_zrange in Hf. specialize (Hf Hs). lia. }
  intros [l0 H]; inversion H; subst;
    (eexists; eexists; split; [vm_compute; reflexivity|]; split; [vm_compute; reflexivity|];
     split; [constructor|];
     split; [apply perm_check; vm_compute; reflexivity|];
     split; [apply perm_check; vm_compute; reflexivity|];
     split; [apply (Hall (fun s => znth 0 _ (znth 0 _ s))); vm_compute; reflexivity
            |apply (Hall (fun s => znth 0 _ (znth 0 _ s))); vm_compute; reflexivity]).
Qed.

Lemma interleave_fun o l l' : interleave o l -> interleave o l' -> l = l'.
Proof. intros H1 H2; destruct H1; inversion H2; reflexivity. Qed.

Lemma tables_none o : (~ exists l, interleave o l) ->
  LogicalToPhysicalByName o = None /\ PhysicalToLogicalByName o = None.
Proof.
  intros H. unfold LogicalToPhysicalByName, PhysicalToLogicalByName.
  destruct (beq o DiskOrderDO) eqn:E1.
  { apply beq_eq in E1; subst. exfalso; apply H; eexists; constructor. }
  destruct (beq o DiskOrderPO) eqn:E2.
  { apply beq_eq in E2; subst. exfalso; apply H; eexists; constructor. }
  destruct (beq o DiskOrderRaw) eqn:E3.
  { apply beq_eq in E3; subst. exfalso; apply H; eexists; constructor. }
  split; reflexivity.
Qed.
Lemma interleave_dec o : (exists l, interleave o l) \/ ~ exists l, interleave o l.
Proof.
  destruct (beq o (s2b "do")) eqn:E1.
  { apply beq_eq in E1; subst. left; eexists; constructor. }
  destruct (beq o (s2b "po")) eqn:E2.
  { apply beq_eq in E2; subst. left; eexists; constructor. }
  destruct (beq o (s2b "raw")) eqn:E3.
  { apply beq_eq in E3; subst. left; eexists; constructor. }
  right. intros [l H]. inversion H; subst; rewrite beq_refl in *; discriminate.
Qed.

(** Two Swizzles, logical [from] to physical to logical [to]. *)
Definition reorder2 (img : bytes) (from to : bytes) : res bytes :=
  phys <- Swizzle img (orNil (LogicalToPhysicalByName from)) ;;
  Swizzle phys (orNil (PhysicalToLogicalByName to)).

Lemma Swizzle_nil img : exists e, Swizzle img [] = Err e.
Proof.
  apply Swizzle_err. intros [_ H]. apply Permutation_length in H. discriminate H.
Qed.

Lemma reorder2_iff img from to d :
  reorder2 img from to = Ok d <-> reordered img from to d.
Proof.
  unfold reorder2. split.
  - intros H.
    destruct (Swizzle img (orNil (LogicalToPhysicalByName from))) as [phys|e|] eqn:E1;
      cbn [rbind] in H; try discriminate.
    apply Swizzle_iff in E1 as (Hi & Hp1 & Hl1 & Hs1).
    apply Swizzle_iff in H as (_ & Hp2 & Hl2 & Hs2).
    destruct (interleave_dec from) as [Hf|Hf].
    2:{ destruct (tables_none from Hf) as [E _]. rewrite E in Hp1.
        apply Permutation_length in Hp1. discriminate. }
    destruct (interleave_dec to) as [Ht|Ht].
    2:{ destruct (tables_none to Ht) as [_ E]. rewrite E in Hp2.
        apply Permutation_length in Hp2. discriminate. }
    destruct (tables_ok from Hf) as (lf & pf & Elf & Epf & If & Plf & Ppf & Hf1 & Hf2).
    destruct (tables_ok to Ht) as (lt & pt & Elt & Ept & It & Plt & Ppt & Ht1 & Ht2).
    rewrite Elf in *. rewrite Ept in *. cbn [orNil] in *.
    split; [exact Hi|]. split; [exact Hl2|]. exists lf, lt. split; [exact If|]. split; [exact It|].
    intros t s s' Ht' Hs Hs' E.
    pose proof (perm_range lf s Plf Hs).
    rewrite <- (Ht1 s' Hs'). rewrite <- E. rewrite Hs2 by assumption. apply Hs1; assumption.
  - intros (Hi & Hl & lf & lt & If & It & H).
    destruct (tables_ok from) as (lf' & pf & Elf & Epf & If' & Plf & Ppf & Hf1 & Hf2); [eauto|].
    destruct (tables_ok to) as (lt' & pt & Elt & Ept & It' & Plt & Ppt & Ht1 & Ht2); [eauto|].
    pose proof (interleave_fun _ _ _ If If'); subst lf'.
    pose proof (interleave_fun _ _ _ It It'); subst lt'.
    rewrite Elf, Ept. cbn [orNil].
    destruct (Swizzle_ok img lf Hi Plf) as (phys & Ephys & Hlp & Hsp).
    rewrite Ephys. cbn [rbind].
    apply Swizzle_iff. split; [exact Hlp|]. split; [exact Ppt|]. split; [exact Hl|].
    intros t p Ht' Hp. destruct (perm_surj lf p Plf Hp) as (s & Hs & <-).
    rewrite Hsp by assumption. apply H; try assumption.
    + apply perm_range; assumption.
    + symmetry. apply Ht2. apply perm_range; assumption.
Qed.

Lemma reordered_fun img from to d d' :
  reordered img from to d -> reordered img from to d' -> d = d'.
Proof. intros H1 H2. apply reorder2_iff in H1, H2. congruence. Qed.

Lemma reordered_ex img from to :
  zlen img = 143360 -> (exists l, interleave from l) -> (exists l, interleave to l) ->
  exists d, reordered img from to d.
Proof.
  intros Hi Hf Ht.
  destruct (tables_ok from Hf) as (lf & pf & Elf & Epf & If & Plf & Ppf & Hf1 & Hf2).
  destruct (tables_ok to Ht) as (lt & pt & Elt & Ept & It & Plt & Ppt & Ht1 & Ht2).
  destruct (Swizzle_ok img lf Hi Plf) as (phys & E1 & Hl1 & _).
  destruct (Swizzle_ok phys pt Hl1 Ppt) as (d & E2 & Hl2 & _).
  exists d. apply reorder2_iff. unfold reorder2. rewrite Elf, Ept. cbn [orNil]. rewrite E1. exact E2.
Qed.

Lemma reordered_back img from to d : reordered img from to d -> reordered d to from img.
Proof.
  intros (Hi & Hl & lf & lt & If & It & H). split; [exact Hl|]. split; [exact Hi|].
  exists lt, lf. split; [exact It|]. split; [exact If|].
  intros t s s' Ht Hs Hs' E. symmetry. apply H; auto.
Qed.

(** Each table pair is inverse on images. *)
Lemma Swizzle_inverse o img l p r :
  LogicalToPhysicalByName o = Some l -> PhysicalToLogicalByName o = Some p ->
  zlen img = 143360 ->
  (Swizzle img l = Ok r -> Swizzle r p = Ok img) /\ (Swizzle img p = Ok r -> Swizzle r l = Ok img).
Proof.
  intros El Ep Hi.
  destruct (interleave_dec o) as [Ho|Ho].
  2:{ destruct (tables_none o Ho). congruence. }
  destruct (tables_ok o Ho) as (l' & p' & El' & Ep' & _ & Pl & Pp & Hlp & Hpl).
  rewrite El in El'; inversion El'; subst l'. rewrite Ep in Ep'; inversion Ep'; subst p'.
  split; intros HS; apply Swizzle_iff in HS as (_ & _ & Hl & Hs); apply Swizzle_iff;
    (split; [exact Hl|]; split; [assumption|]; split; [exact Hi|]); intros t s Ht Hsr.
  - rewrite <- Hs by (try apply perm_range; assumption). rewrite Hpl by assumption. reflexivity.
  - rewrite <- Hs by (try apply perm_range; assumption). rewrite Hlp by assumption. reflexivity.
Qed.
