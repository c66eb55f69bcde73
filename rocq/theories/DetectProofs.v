(** DetectProofs.v -- detection of the system of a disk image. *)
From Coq Require Import ZifyBool ZifyNat.
From Verif Require Import GoBase GoLemmas TypesModel DiskModel DiskSpec DiskProofs DiskOpenProofs.
From Verif Require Import SupermonModel SupermonSpec SupermonTableSpec SupermonStoreSpec SupermonProofs SupermonOpProofs SupermonFinalProofs.
From Verif Require Import Dos3Model Dos3Spec Dos3Proofs Dos3StmtProofs.
From Verif Require ProdosSpec ProdosProofs ProdosStmtProofs.
From Verif Require Import ProdosModel CmdModel CmdSpec CmdProofs CmdStmtProofs NakedCmdSpec NakedCmdProofs NakedOpenProofs DetectSpec.
Ltac Zify.zify_post_hook ::= Z.div_mod_to_equations.
Local Opaque zrange zeros sub.

(** ** Bytes of a reordered image *)
Lemma interleave_onto o l s : interleave o l -> 0 <= s < 16 -> forall o' l', interleave o' l' -> exists s', 0 <= s' < 16 /\ znth 0 l' s' = znth 0 l s.
Proof.
  intros H Hs o' l' H'.
  assert (0 <= znth 0 l s < 16) as R.
  { destruct H; assert (s = 0 \/ s = 1 \/ s = 2 \/ s = 3 \/ s = 4 \/ s = 5 \/ s = 6 \/ s = 7 \/ s = 8 \/ s = 9 \/ s = 10 \/ s = 11 \/ s = 12 \/ s = 13 \/ s = 14 \/ s = 15) as X by lia;
      repeat (destruct X as [->|X]; [vm_compute; split; [discriminate|reflexivity]|]); subst s; vm_compute; split; [discriminate|reflexivity| discriminate|reflexivity|discriminate|reflexivity]. }
  remember (znth 0 l s) as v eqn:E. clear - H' R.
  assert (v = 0 \/ v = 1 \/ v = 2 \/ v = 3 \/ v = 4 \/ v = 5 \/ v = 6 \/ v = 7 \/ v = 8 \/ v = 9 \/ v = 10 \/ v = 11 \/ v = 12 \/ v = 13 \/ v = 14 \/ v = 15) as X by lia.
  assert (exists s', In s' [0;1;2;3;4;5;6;7;8;9;10;11;12;13;14;15] /\ znth 0 l' s' = v) as (s' & Hi & E).
  { destruct H'; repeat (destruct X as [->|X]); try subst v;
      match goal with |- exists _, In _ ?L /\ znth 0 ?T _ = ?w => let r := eval vm_compute in (find (fun i => znth 0 T i =? w) L) in
        match r with Some ?i => exists i end end; (split; [repeat (try (left; reflexivity); right)|reflexivity]). }
  exists s'. split; [|exact E]. cbn [In] in Hi. lia.
Qed.
Lemma reordered_bytes c a b d : reordered c a b d -> bytes_ok c -> bytes_ok d.
Proof.
  intros (Lc & Ld & lf & lt & If & It & H) B. apply Forall_forall. intros x Hx.
  apply (In_nth _ _ 0) in Hx as (n & Hn & <-). unfold zlen, bytes in *.
  set (i := Z.of_nat n). assert (0 <= i < 143360) as Hi by lia.
  set (t := i / 4096). set (s' := i mod 4096 / 256). assert (0 <= t < 35 /\ 0 <= s' < 16) as [Ht Hs'] by (subst t s'; lia).
  destruct (interleave_onto b lt s' It Hs' a lf If) as (s & Hs & E). specialize (H t s s' Ht Hs Hs' E).
  assert (nth n d 0 = znth 0 (sector d t s') (i mod 256)) as ->.
  { unfold sector. rewrite znth_sub by (unfold zlen, offset in *; subst t s'; lia). unfold znth. f_equal. unfold offset. subst t s' i. lia. }
  rewrite H. apply bytes_ok_znth. unfold sector. apply bytes_ok_sub. exact B.
Qed.

(** ** The three tests *)
Lemma seems_dos_yes d : bytes_ok d -> dos_disk d -> forall k, (561 <= k)%nat -> dos3_SeemsToMatch k d = Some true.
Proof.
  intros B [l C] k Hk. destruct (C17_partial_lemma d B) as [_ H].
  assert (~ diverges (fun k => ReadCatalog k d)) as N.
  { intros D. destruct (C16_lemma d l B C) as [(n & r & _ & H1) _]. specialize (H1 n (Nat.le_refl n)). rewrite D in H1. discriminate H1. }
  destruct (H N) as (r & Hr & _ & Hok). unfold dos3_SeemsToMatch. rewrite (Hr k Hk).
  destruct (proj2 Hok (ex_intro _ l C)) as [x ->]. reflexivity.
Qed.
Lemma seems_dos_no d : bytes_ok d -> not_dos d -> forall k, (561 <= k)%nat -> dos3_SeemsToMatch k d = Some false.
Proof.
  intros B [N1 N2] k Hk. destruct (C17_partial_lemma d B) as [D H].
  destruct (H (fun x => N2 (proj1 D x))) as (r & Hr & Np & Hok). unfold dos3_SeemsToMatch. rewrite (Hr k Hk).
  destruct r as [x|e|]; [|reflexivity|contradiction]. contradiction N1. apply Hok. eauto.
Qed.
Lemma seems_dos_hangs d : bytes_ok d -> dos_cyclic d -> forall k, dos3_SeemsToMatch k d = None.
Proof.
  intros B C k. destruct (C17_partial_lemma d B) as [D _]. unfold dos3_SeemsToMatch. pose proof (proj2 D C k) as E. cbv beta in E. rewrite E. reflexivity.
Qed.
Lemma seems_naked_no d : zlen d = 143360 -> ~ naked_disk d -> SeemsToMatch d = false.
Proof.
  intros Hd N. unfold SeemsToMatch. rewrite LoadSectorMap_ok by lia.
  destruct (Verify_spec (stored_map d) (zlen_stored_map d ltac:(lia))) as [V _].
  destruct (Verify (stored_map d)) as [[]|e|] eqn:E; try reflexivity.
  contradiction N. constructor; [exact Hd | apply V; reflexivity | reflexivity].
Qed.
Lemma seems_prodos_yes d iter : ProdosSpec.an_order iter -> prodos_disk d -> eventually (fun k => prodos_SeemsToMatch iter k d = Some true).
Proof.
  intros Hi [t W]. destruct (ProdosProofs.readVolume_ok d t iter W Hi) as (fuel & bm & byB & fi & tl & _ & E).
  exists fuel. intros k Hk. unfold prodos_SeemsToMatch. rewrite (ProdosProofs.readVolume_mono _ _ _ _ _ E k Hk). reflexivity.
Qed.
Lemma seems_prodos_no d iter : bytes_ok d -> zlen d = 143360 -> prodos_broken d -> eventually (fun k => prodos_SeemsToMatch iter k d = Some false).
Proof.
  intros B L (l & q & W & Q & O). exists (S (length l)). intros k Hk. unfold prodos_SeemsToMatch, readVolume.
  assert (ProdosSpec.in_dev d 2) as D2 by (unfold ProdosSpec.in_dev; lia).
  rewrite (ProdosProofs.Unm_vk d 2) by (try lia; exact D2). cbn [obind].
  rewrite (ProdosStmtProofs.vh_pointer d B D2).
  destruct (ProdosStmtProofs.bitmap_ok' d B ltac:(lia)) as [bm ->]. { intros H. lia. } cbn [obind].
  pose proof (ProdosProofs.next_u16 d 2 B) as Hn. unfold is_u16 in Hn.
  destruct (ProdosProofs.readVDB_off d (ProdosSpec.next_block d 2) l q k 2 B ltac:(lia) W Q O ltac:(lia)) as [e E].
  change (vk_Next (ProdosProofs.mk_vk d 2)) with (ProdosSpec.next_block d 2). rewrite E. reflexivity.
Qed.

Lemma eventually_and P Q : eventually P -> eventually Q -> eventually (fun k => P k /\ Q k).
Proof. intros [n H] [m H']. exists (Nat.max n m). intros k Hk. split; [apply H; lia|apply H'; lia]. Qed.
Lemma eventually_impl (P Q : nat -> Prop) : (forall k, P k -> Q k) -> eventually P -> eventually Q.
Proof. intros HI [n H]. exists n. intros k Hk. apply HI, H, Hk. Qed.
Lemma eventually_Forall {A} (P : A -> nat -> Prop) l : Forall (fun x => eventually (P x)) l -> eventually (fun k => Forall (fun x => P x k) l).
Proof.
  induction 1 as [|x l Hx Hl IH]; [exists O; intros; constructor|].
  apply (eventually_impl (fun k => P x k /\ Forall (fun x => P x k) l)); [intros k []; constructor; assumption|].
  apply eventually_and; assumption.
Qed.
Lemma eventually_561 (P : nat -> Prop) : (forall k, (561 <= k)%nat -> P k) -> eventually P.
Proof. intros H. exists 561%nat. exact H. Qed.

(** ** Scanning the orders and systems *)
Section Scan.
  Context (iter : list (Z * Subdirectory) -> list (Z * Subdirectory)).
  Notation facs := (DiskOperatorFactories iter).

  Lemma scan_at fuel c name order system sel pre o rest pre_f f post_f op :
    zlen c = 143360 -> selected f_name system (facs fuel) sel -> candidates name order (pre ++ o :: rest) ->
    sel = pre_f ++ f :: post_f -> Forall (fun o' => Forall (rejects c) (map (pair o') sel)) pre ->
    Forall (rejects c) (map (pair o) pre_f) -> accepts c (o, f) op -> (system = s2b "auto" \/ pre_f = []) ->
    OpenImage c name order system (facs fuel) = Ok (op, o).
  Proof.
    intros Hc Hs Hca E Hp Hr Ha Hsys.
    assert (Hscan : zlen (pre ++ o :: rest) <> 1 \/ system = s2b "auto" -> OpenImage c name order system (facs fuel) = Ok (op, o)).
    { intros Hx. apply (open_scan c name order system (facs fuel) sel (pre ++ o :: rest) op o Hc (facs_order iter fuel) Hs Hca Hx).
      exists (list_prod pre sel ++ map (pair o) pre_f), f, (map (pair o) post_f ++ list_prod rest sel). split; [|split; [|exact Ha]].
      - clear - E. induction pre as [|a pre IH]; cbn [list_prod app].
        + rewrite E at 1. rewrite map_app. cbn [map]. rewrite <- app_assoc. reflexivity.
        + rewrite IH. rewrite <- !app_assoc. reflexivity.
      - apply Forall_app. split; [|exact Hr]. clear - Hp. induction Hp as [|a l H _ IH]; [constructor|]. cbn [list_prod]. apply Forall_app. split; assumption. }
    destruct Hsys as [Hsys|Hsys]; [apply Hscan; right; exact Hsys|]. subst pre_f. cbn [app] in E.
    destruct (beq system (s2b "auto")) eqn:Eb; [apply beq_eq in Eb; apply Hscan; right; exact Eb|].
    destruct (Z.eq_dec (zlen (pre ++ o :: rest)) 1) as [E1|E1]; [|apply Hscan; left; exact E1].
    assert (pre = [] /\ rest = []) as [-> ->].
    { rewrite zlen_app, zlen_cons in E1. pose proof (zlen_nonneg pre). pose proof (zlen_nonneg rest). split; apply zlen_zero_nil; lia. }
    cbn [app] in Hca. pose proof (open_pinned c name order system (facs fuel) sel o Hc (facs_order iter fuel) Hs Hca) as HP.
    rewrite E in HP. destruct HP as (d & Hd & ->); [intros ->; rewrite beq_refl in Eb; discriminate Eb|].
    destruct Ha as (d' & Hd' & _ & Ho). cbn [fst snd] in Hd', Ho. rewrite (reordered_fun _ _ _ _ _ Hd Hd'), Ho. reflexivity.
  Qed.

  Lemma rej_dos c o d k : bytes_ok c -> reordered c o (s2b "do") d -> not_dos d -> (561 <= k)%nat -> rejects c (o, dos3_factory k).
  Proof. intros B R N Hk. exists d. split; [exact R|]. left. apply seems_dos_no; [apply (reordered_bytes _ _ _ _ R B)|exact N|exact Hk]. Qed.
  Lemma rej_naked c o d : reordered c o (s2b "raw") d -> ~ naked_disk d -> rejects c (o, nakedos_factory).
  Proof. intros R N. exists d. split; [exact R|]. left. cbn [snd f_seems nakedos_factory supermon_factory]. rewrite seems_naked_no; [reflexivity|apply R|exact N]. Qed.
  Lemma rej_prodos c o d : bytes_ok c -> reordered c o (s2b "po") d -> prodos_broken d -> eventually (fun k => rejects c (o, prodos_factory iter k)).
  Proof.
    intros B R N. destruct (seems_prodos_no d iter (reordered_bytes _ _ _ _ R B) ltac:(apply R) N) as [n H].
    exists n. intros k Hk. exists d. split; [exact R|]. left. apply H. exact Hk.
  Qed.
  Lemma unreadable_rejected c o : bytes_ok c -> unreadable c o -> eventually (fun k => Forall (rejects c) (map (pair o) (facs k))).
  Proof.
    intros B [d0 d1 d R0 N0 R1 N1 R N]. apply (eventually_impl (fun k => (561 <= k)%nat /\ rejects c (o, prodos_factory iter k))).
    - intros k [Hk HP]. cbn [map DiskOperatorFactories]. constructor; [apply (rej_dos c o d0 k); assumption|].
      constructor; [apply (rej_naked c o d1); assumption|]. constructor; [exact HP|constructor].
    - apply eventually_and; [apply eventually_561; intros; assumption|apply (rej_prodos c o d); assumption].
  Qed.
  Lemma acc_dos c o d k : bytes_ok c -> reordered c o (s2b "do") d -> dos_disk d -> (561 <= k)%nat -> accepts c (o, dos3_factory k) (ODos3 d).
  Proof. intros B R N Hk. exists d. split; [exact R|]. split; [|reflexivity]. apply seems_dos_yes; [apply (reordered_bytes _ _ _ _ R B)|exact N|exact Hk]. Qed.
  Lemma acc_naked c o d : reordered c o (s2b "raw") d -> naked_disk d -> exists op, NewOperator d = Ok op /\ accepts c (o, nakedos_factory) (ONaked op).
  Proof.
    intros R N. pose proof (NewOperator_floppy _ _ N) as E. remember (Op d (stored_map d) (opened_table d (stored_map d))) as op eqn:Eop.
    exists op. split; [exact E|]. exists d. split; [exact R|]. cbn [snd f_seems f_operator nakedos_factory supermon_factory].
    split; [rewrite (seems_floppy _ _ N); reflexivity|]. rewrite E. reflexivity.
  Qed.
  Lemma acc_prodos c o d : ProdosSpec.an_order iter -> reordered c o (s2b "po") d -> prodos_disk d -> eventually (fun k => accepts c (o, prodos_factory iter k) (OProdos d)).
  Proof. intros Hi R N. destruct (seems_prodos_yes d iter Hi N) as [n H]. exists n. intros k Hk. exists d. split; [exact R|]. split; [apply H; exact Hk|reflexivity]. Qed.

  (** The operator for a disk of a system. *)
  Inductive op_for : bytes -> bytes -> AnyOp -> Prop :=
  | of_dos d : op_for (s2b "dos3") d (ODos3 d)
  | of_naked d op : NewOperator d = Ok op -> op_for (s2b "nakedos") d (ONaked op)
  | of_prodos d : op_for (s2b "prodos") d (OProdos d).

  Lemma forall_sub {A} (P : A -> Prop) (g : A -> bool) l : Forall P l -> Forall P (filter g l).
  Proof. intros H. apply Forall_forall. intros x Hx. apply filter_In in Hx as [Hx _]. rewrite Forall_forall in H. apply H, Hx. Qed.
  Lemma rejects_sub c o k g : Forall (rejects c) (map (pair o) (facs k)) -> Forall (rejects c) (map (pair o) (filter g (facs k))).
  Proof.
    intros H. apply Forall_forall. intros x Hx. apply in_map_iff in Hx as (f & <- & Hf). apply filter_In in Hf as [Hf _].
    rewrite Forall_forall in H. apply H. apply in_map. exact Hf.
  Qed.

  Lemma opens img order system c sys d o : ProdosSpec.an_order iter -> seen_as img order c sys d o -> (system = s2b "auto" \/ system = sys) ->
    eventually (fun fuel => exists op, OpenImage c (image_name img) order system (facs fuel) = Ok (op, o) /\ op_for sys d op).
  Proof.
    intros Hi Hs Hsys. destruct Hs as [pre o rest sys d Hc B Hca Hpre Hra|Hc Hc2 Hx Hm Hl Ho].
    2: { exists O. intros k _. exists (OProdos c). split; [|constructor]. apply (open_hdv c (image_name img) order system (facs k) (OProdos c) (s2b "po") Hc).
         split; [exact Hc2|]. split; [exact Hx|]. split; [exact Hm|]. split; [exact Hl|]. split; [exact Ho|]. split; [exact Hsys|]. split; [reflexivity|].
         exists [dos3_factory k; nakedos_factory], (prodos_factory iter k), []. split; [reflexivity|]. split; [|split; reflexivity].
         intros g [<-|[<-|[]]] H; vm_compute in H; discriminate H. }
    assert (eventually (fun k => Forall (fun o' => Forall (rejects c) (map (pair o') (facs k))) pre)) as Epre.
    { apply (eventually_Forall (fun o' k => Forall (rejects c) (map (pair o') (facs k)))).
      eapply Forall_impl; [|exact Hpre]. intros o' Hu. apply unreadable_rejected; assumption. }
    assert (forall k, selected f_name (s2b "auto") (facs k) (facs k)) as Sauto by (intros k; left; split; reflexivity).
    assert (forall k n, n <> s2b "auto" -> selected f_name n (facs k) (filter (fun f => beq (f_name f) n) (facs k))) as Ssys by (intros k n Hn; right; split; [exact Hn|reflexivity]).
    pose proof (eventually_and _ _ Epre (eventually_561 (fun k => (561 <= k)%nat) (fun k H => H))) as E2.
    destruct Hra as [d R N|d0 d R0 N0 R N|d0 d1 d R0 N0 R1 N1 R N].
    - eapply eventually_impl; [|exact E2]. intros k [Hp Hk]. cbv beta in *. exists (ODos3 d). split; [|constructor].
      destruct Hsys as [->| ->].
      + eapply (scan_at k c _ order _ (facs k) pre o rest [] (dos3_factory k)); try eassumption; [apply Sauto|reflexivity|constructor|apply acc_dos; assumption|left; reflexivity].
      + eapply (scan_at k c _ order _ (filter (fun f => beq (f_name f) (s2b "dos3")) (facs k)) pre o rest [] (dos3_factory k) []); try eassumption;
          [apply (Ssys k (s2b "dos3")); discriminate|reflexivity| |constructor|apply acc_dos; assumption|right; reflexivity].
        eapply Forall_impl; [|exact Hp]. intros o' H. apply rejects_sub. exact H.
    - destruct (acc_naked c o d R N) as (op & En & Ha).
      eapply eventually_impl; [|exact E2]. intros k [Hp Hk]. cbv beta in *. exists (ONaked op). split; [|constructor; exact En].
      destruct Hsys as [->| ->].
      + eapply (scan_at k c _ order _ (facs k) pre o rest [dos3_factory k] nakedos_factory); try eassumption;
          [apply Sauto|reflexivity|constructor; [apply (rej_dos c o d0); assumption|constructor]|left; reflexivity].
      + eapply (scan_at k c _ order _ (filter (fun f => beq (f_name f) (s2b "nakedos")) (facs k)) pre o rest [] nakedos_factory []); try eassumption;
          [apply (Ssys k (s2b "nakedos")); discriminate|reflexivity| |constructor|right; reflexivity].
        eapply Forall_impl; [|exact Hp]. intros o' H. apply rejects_sub. exact H.
    - eapply eventually_impl; [|exact (eventually_and _ _ E2 (acc_prodos c o d Hi R N))]. intros k [[Hp Hk] Ha]. cbv beta in *. exists (OProdos d). split; [|constructor].
      destruct Hsys as [->| ->].
      + eapply (scan_at k c _ order _ (facs k) pre o rest [dos3_factory k; nakedos_factory] (prodos_factory iter k)); try eassumption;
          [apply Sauto|reflexivity| |left; reflexivity].
        constructor; [apply (rej_dos c o d0); assumption|]. constructor; [apply (rej_naked c o d1); assumption|constructor].
      + eapply (scan_at k c _ order _ (filter (fun f => beq (f_name f) (s2b "prodos")) (facs k)) pre o rest [] (prodos_factory iter k) []); try eassumption;
          [apply (Ssys k (s2b "prodos")); discriminate|reflexivity| |constructor|right; reflexivity].
        eapply Forall_impl; [|exact Hp]. intros o' H. apply rejects_sub. exact H.
  Qed.

  Lemma opens_none img order c orders : zlen c = 143360 -> bytes_ok c -> candidates (image_name img) order orders -> Forall (unreadable c) orders ->
    eventually (fun fuel => exists e, OpenImage c (image_name img) order (s2b "auto") (facs fuel) = Err e).
  Proof.
    intros Hc B Hca Hu.
    assert (eventually (fun k => Forall (fun o' => Forall (rejects c) (map (pair o') (facs k))) orders)) as Epre.
    { apply (eventually_Forall (fun o' k => Forall (rejects c) (map (pair o') (facs k)))).
      eapply Forall_impl; [|exact Hu]. intros o' H. apply unreadable_rejected; assumption. }
    eapply eventually_impl; [|exact Epre]. intros k Hk. cbv beta in *.
    apply (open_scan_none c (image_name img) order (s2b "auto") (facs k) (facs k) orders Hc (facs_order iter k)); [left; split; reflexivity|exact Hca|right; reflexivity|].
    clear - Hk. induction Hk as [|a l H _ IH]; [constructor|]. cbn [list_prod]. apply Forall_app. split; assumption.
  Qed.

  Lemma hangs_at k img order c pre o rest d : zlen c = 143360 -> bytes_ok c -> candidates (image_name img) order (pre ++ o :: rest) ->
    Forall (fun o' => Forall (rejects c) (map (pair o') (facs k))) pre ->
    reordered c o (s2b "do") d -> dos_cyclic d -> OpenImage c (image_name img) order (s2b "auto") (facs k) = Panic.
  Proof.
    intros Hc B Hca Hk R D.
    assert (hangs c (o, dos3_factory k)) as Hh.
    { exists d. split; [exact R|]. left. apply seems_dos_hangs; [apply (reordered_bytes _ _ _ _ R B)|exact D]. }
    assert (list_prod (pre ++ o :: rest) (facs k) = list_prod pre (facs k) ++ (o, dos3_factory k) :: (o, nakedos_factory) :: (o, prodos_factory iter k) :: list_prod rest (facs k)) as El.
    { clear. induction pre as [|a pre IH]; cbn [list_prod app]; [reflexivity|]. rewrite IH. rewrite <- app_assoc. reflexivity. }
    assert (Forall (rejects c) (list_prod pre (facs k))) as Hr.
    { clear - Hk. induction Hk as [|a l H _ IH]; [constructor|]. cbn [list_prod]. apply Forall_app. split; assumption. }
    destruct (OpenImage c (image_name img) order (s2b "auto") (facs k)) as [[op o']|e|] eqn:E; [exfalso|exfalso|reflexivity].
    - apply (open_scan c (image_name img) order (s2b "auto") (facs k) (facs k) (pre ++ o :: rest) op o' Hc (facs_order iter k)) in E; [|left; split; reflexivity|exact Hca|right; reflexivity].
      destruct E as (l1 & f & l2 & E & Hl & Ha). rewrite El in E.
      pose proof (first_unique _ _ _ _ _ _ _ E Hr Hl (hangs_not_rejects _ _ Hh) (accepts_not_rejects _ _ _ Ha)) as Ex.
      rewrite Ex in Hh. apply (accepts_not_hangs _ _ _ Ha Hh).
    - assert (exists e, OpenImage c (image_name img) order (s2b "auto") (facs k) = Err e) as E' by eauto.
      apply (open_scan_none c (image_name img) order (s2b "auto") (facs k) (facs k) (pre ++ o :: rest) Hc (facs_order iter k)) in E'; [|left; split; reflexivity|exact Hca|right; reflexivity].
      rewrite El in E'. apply Forall_app in E' as [_ E']. apply Forall_inv in E'. exact (hangs_not_rejects _ _ Hh E').
  Qed.
  Lemma opens_hangs img order c pre o rest d : zlen c = 143360 -> bytes_ok c -> candidates (image_name img) order (pre ++ o :: rest) -> Forall (unreadable c) pre ->
    reordered c o (s2b "do") d -> dos_cyclic d ->
    eventually (fun fuel => OpenImage c (image_name img) order (s2b "auto") (facs fuel) = Panic).
  Proof.
    intros Hc B Hca Hu R D.
    assert (eventually (fun k => Forall (fun o' => Forall (rejects c) (map (pair o') (facs k))) pre)) as Epre.
    { apply (eventually_Forall (fun o' k => Forall (rejects c) (map (pair o') (facs k)))).
      eapply Forall_impl; [|exact Hu]. intros o' H. apply unreadable_rejected; assumption. }
    eapply eventually_impl; [|exact Epre]. intros k Hk. apply (hangs_at k img order c pre o rest d); assumption.
  Qed.
End Scan.

(** ** Examples *)
Lemma not_dos_release c o d : reordered c o (s2b "do") d -> release_byte c <> 3 -> not_dos d.
Proof.
  intros R H. rewrite <- (release_same _ _ _ _ R) in H. unfold release_byte in H.
  split; [intros (l & _ & G & _)|intros (_ & G & _)]; apply H; apply (gv_release _ G).
Qed.
Lemma not_naked c o lf d s : reordered c o (s2b "raw") d -> interleave o lf -> 0 <= s < 16 -> znth 0 lf s = 9 ->
  znth 0 (sector c 0 s) 208 <> 254 -> ~ naked_disk d.
Proof.
  intros (Lc & Ld & lf' & lt & If & It & H) If' Hs E N F. pose proof (interleave_fun _ _ _ If If'). subst lf'.
  inversion It; subst. specialize (H 0 s 9 ltac:(lia) Hs ltac:(lia) E). apply N. rewrite <- H.
  assert (znth 0 (sector d 0 9) 208 = znth 0 (stored_map d) 0) as ->.
  { unfold sector, stored_map. rewrite !znth_sub by (unfold offset, bytes in *; lia). reflexivity. }
  apply (v_res _ (fl_ver _ _ F)). lia.
Qed.
Lemma reordered_self c o lf : zlen c = 143360 -> interleave o lf -> reordered c o o c.
Proof.
  intros L I. split; [exact L|]. split; [exact L|]. exists lf, lf. split; [exact I|]. split; [exact I|].
  intros t s s' _ Hs Hs' E. f_equal.
  assert (forallb (fun a => forallb (fun b => implb (znth 0 lf a =? znth 0 lf b) (a =? b)) (zrange 16)) (zrange 16) = true) as T by (destruct I; vm_compute; reflexivity).
  rewrite forallb_forall in T. specialize (T s ltac:(apply In_zrange; lia)). rewrite forallb_forall in T. specialize (T s' ltac:(apply In_zrange; lia)).
  rewrite E, Z.eqb_refl in T. cbn [implb] in T. symmetry. lia.
Qed.
Lemma reordered_zeros a b la lb : interleave a la -> interleave b lb -> reordered (zeros 143360) a b (zeros 143360).
Proof.
  intros Ia Ib. assert (zlen (zeros 143360) = 143360) as L by (apply zlen_zeros; lia).
  split; [exact L|]. split; [exact L|]. exists la, lb. split; [exact Ia|]. split; [exact Ib|].
  intros t s s' Ht Hs Hs' _. unfold sector, offset. apply (znth_ext 0).
  - rewrite !zlen_sub by lia. lia.
  - intros i Hi. rewrite zlen_sub in Hi by lia. rewrite !znth_sub by lia. rewrite !znth_zeros by lia. reflexivity.
Qed.
Lemma auto_do : candidates (image_name (s2b "x.do")) (s2b "auto") [s2b "do"].
Proof. apply candidate_orders_iff. vm_compute. reflexivity. Qed.
Lemma auto_po : candidates (image_name (s2b "x.po")) (s2b "auto") [s2b "po"].
Proof. apply candidate_orders_iff. vm_compute. reflexivity. Qed.
Lemma auto_dsk : candidates (image_name (s2b "x.dsk")) (s2b "auto") [s2b "do"; s2b "po"].
Proof. apply candidate_orders_iff. vm_compute. reflexivity. Qed.

Lemma ex_seen_dos : seen_as (s2b "x.dsk") (s2b "auto") ex_dos_disk (s2b "dos3") ex_dos_disk (s2b "do").
Proof.
  assert (zlen ex_dos_disk = 143360) as L by (vm_compute; reflexivity).
  apply (sa_floppy _ _ _ [] _ [s2b "po"]); [exact L|exact ex_dos_disk_ok|exact auto_dsk|constructor|].
  apply ra_dos; [apply (reordered_self _ _ _ L il_do)|eexists; exact ex_catalog].
Qed.
Lemma ex_seen_prodos : seen_as (s2b "x.po") (s2b "auto") ProdosStmtProofs.ex_vol (s2b "prodos") ProdosStmtProofs.ex_vol (s2b "po").
Proof.
  remember ProdosStmtProofs.ex_vol as v eqn:Ev.
  assert (zlen v = 143360) as L by (rewrite Ev; vm_compute; reflexivity).
  destruct (reordered_ex v (s2b "po") (s2b "do") L (ex_intro _ _ il_po) (ex_intro _ _ il_do)) as [d0 R0].
  destruct (reordered_ex v (s2b "po") (s2b "raw") L (ex_intro _ _ il_po) (ex_intro _ _ il_raw)) as [d1 R1].
  apply (sa_floppy _ _ _ [] _ []); [exact L|rewrite Ev; apply (ProdosSpec.wf_bytes _ _ ProdosStmtProofs.ex_vol_ok)|exact auto_po|constructor|].
  apply (ra_prodos _ _ d0 d1); [exact R0| |exact R1| |apply (reordered_self _ _ _ L il_po)|rewrite Ev; eexists; exact ProdosStmtProofs.ex_vol_ok].
  - apply (not_dos_release _ _ _ R0). rewrite Ev. vm_compute. discriminate.
  - apply (not_naked _ _ _ _ 12 R1 il_po); [lia|vm_compute; reflexivity|]. rewrite Ev. vm_compute. discriminate.
Qed.
Definition blank_tree : ProdosSpec.tree := ProdosSpec.Node 2 [] [].
Lemma zeros_ok : ProdosSpec.well_formed (zeros 143360) blank_tree.
Proof.
  assert (zlen (zeros 143360) = 143360) as L by (apply zlen_zeros; lia).
  assert (ProdosSpec.next_block (zeros 143360) 2 = 0) as N by (vm_compute; reflexivity).
  split; [apply Dos3StmtProofs.bytes_ok_forallb; vm_compute; reflexivity|lia|intros H; lia|reflexivity| |].
  - apply ProdosSpec.tree_node; [split; [unfold ProdosSpec.in_dev; lia|rewrite N; constructor]|vm_compute; reflexivity|intros s []|intros s []].
  - constructor; [intros []|constructor].
Qed.
Lemma ex_seen_zeros : seen_as (s2b "x.dsk") (s2b "auto") (zeros 143360) (s2b "prodos") (zeros 143360) (s2b "do").
Proof.
  assert (zlen (zeros 143360) = 143360) as L by (apply zlen_zeros; lia).
  pose proof (reordered_zeros _ _ _ _ il_do il_do) as R0. pose proof (reordered_zeros _ _ _ _ il_do il_raw) as R1.
  apply (sa_floppy _ _ _ [] _ [s2b "po"]); [exact L|apply (ProdosSpec.wf_bytes _ _ zeros_ok)|exact auto_dsk|constructor|].
  apply (ra_prodos _ _ (zeros 143360) (zeros 143360)); [exact R0| |exact R1| |exact (reordered_zeros _ _ _ _ il_do il_po)|eexists; exact zeros_ok].
  - apply (not_dos_release _ _ _ R0). vm_compute. discriminate.
  - apply (not_naked _ _ _ _ 3 R1 il_do); [lia|vm_compute; reflexivity|]. vm_compute. discriminate.
Qed.
