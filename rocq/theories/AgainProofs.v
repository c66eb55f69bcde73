(** AgainProofs.v -- a command run again with other visits of the maps. *)
From Coq Require Import ZifyBool ZifyNat.
From Verif Require Import GoBase GoLemmas TypesModel DiskModel DiskSpec DiskProofs DiskOpenProofs.
From Verif Require Import SupermonModel SupermonSpec SupermonStoreSpec SupermonTableSpec SupermonProofs SupermonOpProofs NakedCmdSpec NakedCmdProofs.
From Verif Require Dos3Spec ProdosSpec ProdosProofs.
From Verif Require Import ProdosModel CmdModel CmdSpec CmdProofs CmdStmtProofs MainModel DetectSpec DetectProofs StatusSpec VolumeSpec VolumeProofs VolumeExProofs ImageSpec ImageProofs VisitModel VisitProofs AgainSpec.
Ltac Zify.zify_post_hook ::= Z.div_mod_to_equations.
Local Opaque zrange zeros sub.

(** ** Outcomes that differ in the text of an error at most *)
Definition alike {A} (r r' : res A) : Prop := r = r' \/ exists e e', r = Err e /\ r' = Err e'.
Lemma alike_main {A} (r r' : res A) (f f' : A -> prog unit) w : alike r r' -> (forall a, r = Ok a -> r' = Ok a -> main_run (f a) w = main_run (f' a) w) ->
  main_run (pbind (plift r) f) w = main_run (pbind (plift r') f') w.
Proof.
  intros H Hf. unfold main_run. rewrite !run_pbind. unfold plift. cbn [run]. destruct H as [<-|(e & e' & -> & ->)]; [|reflexivity].
  destruct r as [a|e|]; [|reflexivity..]. exact (Hf a eq_refl eq_refl).
Qed.

(** ** Directories in order are determined *)
Lemma below_det d ks a b : below d ks a -> below d ks b -> a = b.
Proof.
  intros H. revert b. induction H as [|k l ks ks' D H IH]; intros b Hb; inversion Hb as [|k2 l2 ks2 ks2' D2 H2]; subst; [reflexivity|].
  rewrite (is_dir_det d k l l2 D D2), (IH _ H2). reflexivity.
Qed.
Lemma levels_nil d ks r : levels d ks r -> ks = [] -> r = [].
Proof. induction 1 as [|ks ks' r B H IH]; intros E; [reflexivity|]. subst ks. inversion B; subst. exact (IH eq_refl). Qed.
Lemma levels_det d ks a b : levels d ks a -> levels d ks b -> a = b.
Proof.
  intros H. revert b. induction H as [|ks ks' rest B H IH]; intros b Hb; [symmetry; exact (levels_nil d _ _ Hb eq_refl)|].
  inversion Hb as [E|ks2 ks2' rest2 B2 H2]; subst.
  - inversion B; subst. exact (IH [] (levels_end d)).
  - pose proof (below_det d ks _ _ B B2). subst ks2'. rewrite (IH _ H2). reflexivity.
Qed.
Lemma in_order_det d a b : in_order d a -> in_order d b -> a = b.
Proof. intros (l & D & H) (l' & D' & H'). rewrite (is_dir_det d 2 l' l D' D) in H'. exact (levels_det d _ _ _ H H'). Qed.

(** ** Listings *)
Lemma describes_fun e a b : ProdosSpec.describes e a -> ProdosSpec.describes e b -> a = b.
Proof. intros [A1 A2 [A3 A4] A5 A6 A7] [B1 B2 [B3 B4] B5 B6 B7]. destruct a, b; cbn in *. congruence. Qed.
Lemma described_fun l : forall a b, Forall2 ProdosSpec.describes l a -> Forall2 ProdosSpec.describes l b -> a = b.
Proof.
  induction l as [|e l IH]; intros a b Ha Hb; inversion Ha; inversion Hb; subst; [reflexivity|]. f_equal; [eapply describes_fun; eassumption|apply IH; assumption].
Qed.
Lemma lists_fun d k l r r' : ProdosSpec.lists d k l r -> ProdosSpec.lists d k l r' -> r = r'.
Proof. intros (a & -> & Ha) (b & -> & Hb). f_equal. eapply described_fun; eassumption. Qed.
(** A verdict is that of the volume directory, or the volume directory can be listed. *)
Lemma may_root d p v : may d p v -> (may d [] v /\ forall k l, v <> Lists k l) \/
  exists ks l, in_order d ks /\ may d [] (Lists 2 l) /\
    ((exists k l', v = Lists k l' /\ ((p = [] /\ k = 2) \/ (p <> [] /\ In k ks /\ full_name d ks k p)) /\ ProdosSpec.is_dir d k l') \/ (v = Fails /\ p <> [] /\ forall x, In x ks -> ~ full_name d ks x p)).
Proof.
  intros M. destruct M as [D|D Hb|k Hb D Hk H|k Hb D Hk H|Hb H|ks k Hb O I H|ks k Hb O I H|ks k l Hb O N Hk D|ks Hb O N Hp H].
  - left. split; [apply may_key; assumption|discriminate].
  - left. split; [apply may_bitmap; assumption|discriminate].
  - left. split; [apply (may_leave d [] k); assumption|discriminate].
  - left. split; [apply (may_loop d [] k); assumption|discriminate].
  - left. split; [apply may_endless; assumption|discriminate].
  - left. split; [apply (may_lost d [] ks k); assumption|discriminate].
  - left. split; [apply (may_circular d [] ks k); assumption|discriminate].
  - right. pose proof O as (l2 & D2 & _). exists ks, l2. split; [exact O|]. split; [apply (may_list d [] ks 2 l2 Hb O N); [left; split; reflexivity|exact D2]|].
    left. exists k, l. split; [reflexivity|]. split; assumption.
  - right. pose proof O as (l2 & D2 & _). exists ks, l2. split; [exact O|]. split; [apply (may_list d [] ks 2 l2 Hb O N); [left; split; reflexivity|exact D2]|].
    right. split; [reflexivity|]. split; assumption.
Qed.
Lemma may_one d p v v' : bytes_ok d -> zlen d <= 65536 * 512 -> ~ (may d [] Fails /\ may d [] Hangs) ->
  (forall ks k k', p <> [] -> in_order d ks -> In k ks -> In k' ks -> full_name d ks k p -> full_name d ks k' p -> k = k') ->
  may d p v -> may d p v' -> v = v'.
Proof.
  intros B L S U M M'. destruct (may_root d p v M) as [[R N]|(ks & l & O & R & H)]; destruct (may_root d p v' M') as [[R' N']|(ks' & l' & O' & R' & H')].
  - destruct v as [k1 l1| |]; [contradiction (N k1 l1); reflexivity|..]; (destruct v' as [k2 l2| |]; [contradiction (N' k2 l2); reflexivity|..]); try reflexivity; contradiction S; split; assumption.
  - contradiction (N 2 l'). exact (root_one d 2 l' v B L R' R).
  - contradiction (N' 2 l). exact (root_one d 2 l v' B L R R').
  - rewrite (in_order_det d ks' ks O' O) in H'. destruct H as [(k1 & l1 & -> & H & D)|(-> & Hp & H)]; destruct H' as [(k2 & l2 & -> & H' & D')|(-> & Hp' & H')].
    + assert (k1 = k2) as <-.
      { destruct H as [[E ->]|[E [I F]]]; destruct H' as [[E' ->]|[E' [I' F']]]; [reflexivity|contradiction (E' E)|contradiction (E E')|]. exact (U ks k1 k2 E O I I' F F'). }
      rewrite (is_dir_det d k1 l1 l2 D D'). reflexivity.
    + destruct H as [[E _]|[E [I F]]]; [contradiction (Hp' E)|contradiction (H' _ I F)].
    + destruct H' as [[E _]|[E [I F]]]; [contradiction (Hp E)|contradiction (H _ I F)].
    + reflexivity.
Qed.
Lemma catalog_alike d p i i' : bytes_ok d -> zlen d <= 65536 * 512 -> ~ (may d [] Fails /\ may d [] Hangs) ->
  (forall ks k k', p <> [] -> in_order d ks -> In k ks -> In k' ks -> full_name d ks k p -> full_name d ks k' p -> k = k') ->
  ProdosSpec.an_order i -> ProdosSpec.an_order i' ->
  eventually (fun k => alike (returned (ProdosModel.Catalog i k d p)) (returned (ProdosModel.Catalog i' k d p))).
Proof.
  intros B L S U Hi Hi'. destruct (listing_lemma d p i B L Hi) as (v & M & C). destruct (listing_lemma d p i' B L Hi') as (v' & M' & C').
  rewrite <- (may_one d p v v' B L S U M M') in C'. destruct v as [k l| |]; cbn [comes_to] in C, C'.
  - destruct C as (n & r & Hr & H). destruct C' as (n' & r' & Hr' & H'). exists (max n n'). intros j Hj. rewrite (H j ltac:(lia)), (H' j ltac:(lia)). left. cbn [returned]. exact (lists_fun d k l r r' Hr Hr').
  - destruct C as (n & r & (e & ->) & H). destruct C' as (n' & r' & (e' & ->) & H'). exists (max n n'). intros j Hj. rewrite (H j ltac:(lia)), (H' j ltac:(lia)). right. exists e, e'. split; reflexivity.
  - exists 0%nat. intros j _. rewrite (C j), (C' j). left. reflexivity.
Qed.

(** ** Opening *)
Lemma settled_not c : settled c -> ~ unsettled c.
Proof. intros S (o & d & R & M). apply (S d); [right; exists o; exact R|exact M]. Qed.
Lemma op_for_fun sys d op op' : op_for sys d op -> op_for sys d op' -> op = op'.
Proof. intros H H'. destruct H as [d|d op E|d]; inversion H' as [|d2 op2 E2|]; subst; try reflexivity. congruence. Qed.
Lemma open_alike vis vis' img order system c : bytes_ok c -> ~ unsettled c -> (forall o, ProdosSpec.an_order (vis o)) -> (forall o, ProdosSpec.an_order (vis' o)) ->
  exists r, opening img order system c r /\ opens_v vis img order system c r /\
  eventually (fun k => alike (OpenImage_v c (image_name img) order system (fun o => DiskOperatorFactories (vis o) k)) (OpenImage_v c (image_name img) order system (fun o => DiskOperatorFactories (vis' o) k))).
Proof.
  intros B U Hv Hv'. destruct (opening_total_v vis img order system c B Hv) as (r & O & H). destruct (opening_total_v vis' img order system c B Hv') as (r' & O' & H').
  exists r. split; [exact O|]. split; [exact H|]. destruct (opening_one _ _ _ _ _ _ B O O') as [<-|[_ X]]; [|contradiction (U X)].
  destruct r as [sys d o| |]; cbn [opens_v] in H, H'; (eapply eventually_impl; [|exact (eventually_and _ _ H H')]); intros k.
  - intros [(op & E & F) (op' & E' & F')]. rewrite E, E', (op_for_fun _ _ _ _ F F'). left. reflexivity.
  - intros [(e & E) (e' & E')]. rewrite E, E'. right. exists e, e'. split; reflexivity.
  - intros [E E']. rewrite E, E'. left. reflexivity.
Qed.
Lemma always (P : nat -> Prop) : (forall k, P k) -> eventually P.
Proof. intros H. exists 0%nat. intros k _. apply H. Qed.

(** Opening, and then what depends on the visits no more. *)
Lemma open_then vis vis' order system img w (f f' : nat -> AnyOp * DiskOrder -> prog unit) :
  (forall o, ProdosSpec.an_order (vis o)) -> (forall o, ProdosSpec.an_order (vis' o)) ->
  (forall c, input w img c -> bytes_ok c /\ settled c) ->
  (forall c sys d o, input w img c -> opening img order system c (Opened sys d o) -> eventually (fun k => forall op w1, op_for sys d op -> main_run (f k (op, o)) w1 = main_run (f' k (op, o)) w1)) ->
  eventually (fun k => main_run (pbind (OpenFilename_v vis k img order system) (f k)) w = main_run (pbind (OpenFilename_v vis' k img order system) (f' k)) w).
Proof.
  intros Hv Hv' Hc Hf.
  assert (K : forall c w1, input w img c -> eventually (fun k =>
    main_run (pbind (plift (OpenImage_v c (image_name img) order system (fun o => DiskOperatorFactories (vis o) k))) (f k)) w1 =
    main_run (pbind (plift (OpenImage_v c (image_name img) order system (fun o => DiskOperatorFactories (vis' o) k))) (f' k)) w1)).
  { intros c w1 Hi. destruct (Hc c Hi) as [B S]. destruct (open_alike vis vis' img order system c B (settled_not c S) Hv Hv') as (r & O & H & A). destruct r as [sys d o| |].
    - pose proof (Hf c sys d o Hi O) as F. cbn [opens_v] in H. eapply eventually_impl; [|exact (eventually_and _ _ (eventually_and _ _ A H) F)]. intros k [[Ak (op & E & Hop)] Fk].
      apply alike_main; [exact Ak|]. intros [op2 o2] E2 _. rewrite E in E2. injection E2 as <- <-. exact (Fk op w1 Hop).
    - eapply eventually_impl; [|exact (eventually_and _ _ A H)]. intros k [Ak (e & E)]. apply alike_main; [exact Ak|]. intros a E2 _. rewrite E in E2. discriminate E2.
    - eapply eventually_impl; [|exact (eventually_and _ _ A H)]. intros k [Ak E]. apply alike_main; [exact Ak|]. intros a E2 _. rewrite E in E2. discriminate E2. }
  unfold OpenFilename_v. destruct (beq img dash) eqn:E.
  - assert (image_name img = s2b "/dev/stdin") as En by (unfold image_name; fold dash; rewrite E; reflexivity). apply beq_eq in E. destruct (w_stdin w) as [c|] eqn:Ew.
    + eapply eventually_impl; [|exact (K c (no_stdin w) (or_introl (conj E Ew)))]. intros k. rewrite En. unfold main_run. rewrite !run_pbind. cbn [pbind run]. unfold sys_stdin. rewrite Ew. exact (fun H => H).
    + apply always. intros k. unfold main_run. rewrite !run_pbind. cbn [pbind run]. unfold sys_stdin. rewrite Ew. reflexivity.
  - assert (image_name img = img) as En by (unfold image_name; fold dash; rewrite E; reflexivity). apply beq_neq in E. destruct (sys_read (w_fs w img)) as [c|e|] eqn:Ew.
    + assert (input w img c) as Hi. { right. split; [exact E|]. unfold sys_read in Ew. destruct (w_fs w img) as [ | |c1 [|] wr| ] eqn:Ef; try discriminate Ew. injection Ew as <-. exists wr. exact Ef. }
      eapply eventually_impl; [|exact (K c w Hi)]. intros k. rewrite En. unfold main_run. rewrite !run_pbind. cbn [pbind run]. rewrite Ew. exact (fun H => H).
    + apply always. intros k. unfold main_run. rewrite !run_pbind. cbn [pbind run]. rewrite Ew. reflexivity.
    + apply always. intros k. unfold main_run. rewrite !run_pbind. cbn [pbind run]. rewrite Ew. reflexivity.
Qed.

Section Again.
  Context (vis vis' : DiskOrder -> visiting) (icat icat' : visiting).
  Context (Hv : forall o, ProdosSpec.an_order (vis o)) (Hv' : forall o, ProdosSpec.an_order (vis' o)) (Hi : ProdosSpec.an_order icat) (Hi' : ProdosSpec.an_order icat').
  Lemma again_dump w order system img name : (forall c, input w img c -> bytes_ok c /\ settled c) ->
    eventually (fun k => main_run (DumpCmd_Run_v vis k order system img name) w = main_run (DumpCmd_Run_v vis' k order system img name) w).
  Proof. intros S. apply (open_then vis vis' order system img w _ _ Hv Hv' S). intros. apply always. reflexivity. Qed.
  Lemma again_rm w order system miss img name : (forall c, input w img c -> bytes_ok c /\ settled c) ->
    eventually (fun k => main_run (DeleteCmd_Run_v vis k order system miss img name) w = main_run (DeleteCmd_Run_v vis' k order system miss img name) w).
  Proof. intros S. apply (open_then vis vis' order system img w _ _ Hv Hv' S). intros. apply always. reflexivity. Qed.
  Lemma again_put w order system ft ow addr img tgt src : (forall c, input w img c -> bytes_ok c /\ settled c) ->
    eventually (fun k => main_run (PutCmd_Run_v vis k order system ft ow addr img tgt src) w = main_run (PutCmd_Run_v vis' k order system ft ow addr img tgt src) w).
  Proof.
    intros S. unfold PutCmd_Run_v. destruct (beq img dash && beq src dash); [apply always; reflexivity|].
    apply (open_then vis vis' order system img w _ _ Hv Hv' S). intros. apply always. reflexivity.
  Qed.
  Lemma again_mkhello w order img name addr start : (forall c, input w img c -> bytes_ok c /\ settled c) ->
    eventually (fun k => main_run (MkHelloCmd_Run_v vis k order img name addr start) w = main_run (MkHelloCmd_Run_v vis' k order img name addr start) w).
  Proof.
    intros S. unfold MkHelloCmd_Run_v. cbv zeta. destruct (negb _); [apply always; reflexivity|]. destruct (_ <? _); [apply always; reflexivity|].
    apply (open_then vis vis' order (s2b "auto") img w _ _ Hv Hv' S). intros. apply always. reflexivity.
  Qed.
  Lemma opened_volume img order system c d o : bytes_ok c -> opening img order system c (Opened (s2b "prodos") d o) -> as_volume c d /\ bytes_ok d /\ zlen d <= 65536 * 512.
  Proof.
    assert (Hs : forall L r, bytes_ok c -> zlen c = 143360 -> scan c L r -> r = Opened (s2b "prodos") d o -> as_volume c d /\ bytes_ok d /\ zlen d <= 65536 * 512).
    { intros L r B Hc S. induction S as [|o1 sys so d1 rest Hs R T|o1 sys so d1 rest r Hs R T S IH|o1 sys so d1 rest Hs R T]; intros E; try discriminate E; [|exact (IH E)].
      injection E as E1 <- <-. subst sys. inversion Hs; subst. split; [right; exists o1; exact R|]. split; [exact (reordered_bytes _ _ _ _ R B)|]. destruct R as (_ & X & _). lia. }
    intros B O. inversion O as [orders syss r Hc Hca Hsy Hp S|o1 so d1 Hc Hca Hs1 R Hn| | | |Hc D|]; subst.
    - exact (Hs _ _ B Hc S eq_refl).
    - inversion Hs1; subst. split; [right; exists o; exact R|]. split; [exact (reordered_bytes _ _ _ _ R B)|]. destruct R as (_ & X & _). lia.
    - split; [left; split; [assumption|reflexivity]|]. split; [exact B|]. apply D.
  Qed.
  Lemma again_ls w order system short img dir : (forall c, input w img c -> bytes_ok c /\ settled c /\ one_called c dir) ->
    eventually (fun k => main_run (LsCmd_Run_v vis icat k order system short img dir) w = main_run (LsCmd_Run_v vis' icat' k order system short img dir) w).
  Proof.
    intros S. apply (open_then vis vis' order system img w _ _ Hv Hv').
    { intros c Ic. destruct (S c Ic) as (B & X & _). split; assumption. }
    intros c sys d o Ic O. destruct (S c Ic) as (B & X & Y).
    assert (sys = s2b "prodos" \/ sys <> s2b "prodos") as [->|Ns] by (destruct (beq sys (s2b "prodos")) eqn:E; [left; apply beq_eq, E|right; apply beq_neq, E]).
    - destruct (opened_volume _ _ _ _ _ _ B O) as (V & Bd & Ld).
      assert (U : forall ks k k', dir <> [] -> in_order d ks -> In k ks -> In k' ks -> full_name d ks k dir -> full_name d ks k' dir -> k = k') by (intros ks k k' Hn; exact (Y d ks k k' Hn V)).
      eapply eventually_impl; [|exact (catalog_alike d dir icat icat' Bd Ld (X d V) U Hi Hi')]. intros k A op w1 Hop. inversion Hop; subst. cbv beta iota. cbn [Op_HasSubdirs negb andb]. rewrite andb_false_r.
      apply alike_main; [exact A|]. intros. reflexivity.
    - apply always. intros k op w1 Hop. destruct Hop; try reflexivity. contradiction Ns. reflexivity.
  Qed.
End Again.

(** ** Device images *)
Lemma input_det w img c c' : input w img c -> input w img c' -> c = c'.
Proof. intros [[E H]|[E [r H]]] [[E' H']|[E' [r' H']]]; try contradiction; congruence. Qed.
Lemma device_settled img order system c w short : bytes_ok c -> zlen c <> 143360 -> device img order system c -> input w img c -> w_outroom w = None ->
  ((forall (vis vis' : DiskOrder -> visiting) (icat icat' : visiting), (forall o, ProdosSpec.an_order (vis o)) -> (forall o, ProdosSpec.an_order (vis' o)) ->
     ProdosSpec.an_order icat -> ProdosSpec.an_order icat' ->
     eventually (fun k => main_run (LsCmd_Run_v vis icat k order system short img []) w = main_run (LsCmd_Run_v vis' icat' k order system short img []) w)) <-> settled c).
Proof.
  intros B Hc D Hi Ho. split.
  - intros H d V [MF MH]. destruct V as [[_ ->]|(o & R)]; [|apply Hc; apply R].
    pose proof (og_device img order system c Hc D) as O.
    destruct (ls_reached img order system c short [] w _ Errs B Hi Ho O) as (vis & icat & Hv & Hic & H1); [cbn [afterwards]; apply ls_prodos_no; exact MF|].
    destruct (ls_reached img order system c short [] w _ Crashes B Hi Ho O) as (vis' & icat' & Hv' & Hic' & H2); [cbn [afterwards]; apply ls_prodos_never; exact MH|].
    specialize (H vis vis' icat icat' Hv Hv' Hic Hic'). cbn [ends_in] in H1, H2. destruct H as [n H]. destruct H1 as [n1 H1]. destruct H2 as [n2 H2].
    remember (max n (max n1 n2)) as k eqn:Ek. specialize (H k ltac:(lia)). specialize (H1 k ltac:(lia)). specialize (H2 k ltac:(lia)).
    destruct H1 as (w1 & e1 & E1 & _). destruct H2 as (w2 & E2 & _). cbv beta in *. unfold main_run in H. rewrite E1, E2 in H. discriminate H.
  - intros S vis vis' icat icat' Hv Hv' Hic Hic'. apply again_ls; try assumption. intros c' Hi'. rewrite (input_det w img c' c Hi' Hi). split; [exact B|]. split; [exact S|]. intros d ks k k' X. contradiction X. reflexivity.
Qed.
