(** ImageProofs.v -- opening any file as a disk image, and what the commands then do. *)
From Coq Require Import ZifyBool ZifyNat.
From Verif Require Import GoBase GoLemmas TypesModel DiskModel DiskSpec DiskProofs DiskOpenProofs.
From Verif Require Import SupermonModel SupermonSpec SupermonStoreSpec SupermonTableSpec SupermonProofs SupermonOpProofs SupermonNameProofs SupermonFinalProofs SupermonNamedProofs SupermonStmtProofs.
From Verif Require Dos3Model Dos3Spec Dos3Proofs Dos3StmtProofs.
From Verif Require ProdosSpec ProdosProofs.
From Verif Require Import ProdosModel CmdModel CmdSpec CmdProofs CmdStmtProofs NakedCmdSpec NakedCmdProofs NakedOpenProofs MainModel DetectSpec DetectProofs PrintProofs StatusSpec StatusProofs VolumeSpec VolumeProofs VolumeExProofs ImageSpec.
Ltac Zify.zify_post_hook ::= Z.div_mod_to_equations.
Local Opaque zrange zeros sub.

Lemma dos_cases d : bytes_ok d -> dos_disk d \/ not_dos d \/ dos_cyclic d.
Proof.
  intros B. destruct (Dos3StmtProofs.rcs_classes d B) as [(l & C & _)|[(N & H)|C]]; [left; exists l; exact C| |right; right; exact C].
  right. left. split; [intros [l C]; exact (N l C)|]. intros C. destruct (H 561%nat ltac:(lia)) as [e E].
  pose proof (proj2 (proj1 (Dos3StmtProofs.C17_partial_lemma d B)) C 561%nat) as D. cbv beta in D. unfold Dos3Model.ReadCatalog in D. rewrite E in D. discriminate D.
Qed.
Lemma naked_dec d : zlen d = 143360 -> naked_disk d \/ ~ naked_disk d.
Proof.
  intros L. destruct (Verify_spec (stored_map d) (zlen_stored_map d ltac:(lia))) as [V _]. destruct (Verify (stored_map d)) as [[]|e|] eqn:E.
  - left. constructor; [exact L | apply V; reflexivity | reflexivity].
  - right. intros F. pose proof (proj2 V (fl_ver _ _ F)) as X. discriminate X.
  - right. intros F. pose proof (proj2 V (fl_ver _ _ F)) as X. discriminate X.
Qed.
Lemma naked_operator d : zlen d = 143360 -> (exists op, NewOperator d = Ok op /\ naked_disk d) \/ ((exists e, NewOperator d = Err e) /\ ~ naked_disk d).
Proof.
  intros L. destruct (naked_dec d L) as [N|N].
  - left. rewrite (NewOperator_floppy _ _ N). eexists. split; [reflexivity|exact N].
  - right. split; [|exact N]. unfold NewOperator. rewrite LoadSectorMap_ok by lia. cbn [rbind].
    destruct (Verify_spec (stored_map d) (zlen_stored_map d ltac:(lia))) as [V Vp]. destruct (Verify (stored_map d)) as [[]|e|] eqn:E; cbn [rbind].
    + contradiction N. constructor; [exact L | apply V; reflexivity | reflexivity].
    + eexists. reflexivity.
    + contradiction Vp. reflexivity.
Qed.

Section Image.
  Context (iter : list (Z * Subdirectory) -> list (Z * Subdirectory)).
  Notation facs := (DiskOperatorFactories iter).

  (** ** Opening *)
  Definition fac (k : nat) (sys : bytes) : factory AnyOp :=
    if beq sys (s2b "dos3") then dos3_factory k else if beq sys (s2b "nakedos") then nakedos_factory else prodos_factory iter k.
  Lemma test_total c o sys so : zlen c = 143360 -> bytes_ok c -> ProdosSpec.an_order iter -> (exists l, interleave o l) -> own_order sys so ->
    exists d a, reordered c o so d /\ tested d sys a /\
    match a with
    | Yes => eventually (fun k => exists op, accepts c (o, fac k sys) op /\ op_for sys d op)
    | No => eventually (fun k => rejects c (o, fac k sys))
    | Never => eventually (fun k => hangs c (o, fac k sys))
    end.
  Proof.
    intros Hc B Hi Ho Hs. assert (exists l, interleave so l) as Hso by (destruct Hs; eexists; constructor).
    destruct (reordered_ex c o so Hc Ho Hso) as (d & R). exists d. pose proof (reordered_bytes _ _ _ _ R B) as Bd. assert (zlen d = 143360) as Ld by apply R.
    destruct Hs.
    - change (fac) with fac. destruct (dos_cases d Bd) as [D|[D|D]].
      + exists Yes. split; [exact R|]. split; [constructor; exact D|]. apply eventually_561. intros k Hk. exists (ODos3 d). split; [apply acc_dos; assumption|constructor].
      + exists No. split; [exact R|]. split; [constructor; exact D|]. apply eventually_561. intros k Hk. apply (rej_dos c o d k); assumption.
      + exists Never. split; [exact R|]. split; [constructor; exact D|]. apply eventually_561. intros k Hk. exists d. split; [exact R|]. left. apply seems_dos_hangs; assumption.
    - destruct (naked_dec d Ld) as [D|D].
      + exists Yes. split; [exact R|]. split; [constructor; exact D|]. destruct (acc_naked c o d R D) as (op & En & Ha). exists O. intros k _. exists (ONaked op). split; [exact Ha|constructor; exact En].
      + exists No. split; [exact R|]. split; [constructor; exact D|]. exists O. intros k _. apply (rej_naked c o d R D).
    - destruct (detected_lemma d iter Bd ltac:(lia) Hi) as (v & M & H). destruct v as [k0 l| |].
      + exists Yes. split; [exact R|]. split; [apply (td_prodos_yes d k0 l M)|]. destruct H as (n & r & -> & H). exists n. intros k Hk. exists (OProdos d). split; [|constructor].
        exists d. split; [exact R|]. split; [apply H; exact Hk|reflexivity].
      + exists No. split; [exact R|]. split; [apply td_prodos_no; exact M|]. destruct H as (n & r & -> & H). exists n. intros k Hk. exists d. split; [exact R|]. left. apply H. exact Hk.
      + exists Never. split; [exact R|]. split; [apply td_prodos_never; exact M|]. exists O. intros k _. exists d. split; [exact R|]. left. apply H.
  Qed.

  Definition with_fac (k : nat) (x : bytes * bytes) : DiskOrder * factory AnyOp := (fst x, fac k (snd x)).
  Lemma scan_total c L : zlen c = 143360 -> bytes_ok c -> ProdosSpec.an_order iter ->
    Forall (fun x => (exists l, interleave (fst x) l) /\ exists so, own_order (snd x) so) L ->
    exists r, scan c L r /\
    match r with
    | Opened sys d o => exists l1 l2, L = l1 ++ (o, sys) :: l2 /\ eventually (fun k => Forall (rejects c) (map (with_fac k) l1) /\ exists op, accepts c (o, fac k sys) op /\ op_for sys d op)
    | Refused => eventually (fun k => Forall (rejects c) (map (with_fac k) L))
    | Stuck => exists l1 x l2, L = l1 ++ x :: l2 /\ eventually (fun k => Forall (rejects c) (map (with_fac k) l1) /\ hangs c (with_fac k x))
    end.
  Proof.
    intros Hc B Hi. induction 1 as [|[o sys] L [Ho [so Hs]] _ IH].
    - exists Refused. split; [constructor|]. exists O. intros k _. constructor.
    - cbn [fst snd] in Ho, Hs. destruct (test_total c o sys so Hc B Hi Ho Hs) as (d & a & R & T & H). destruct a.
      + exists (Opened sys d o). split; [eapply sc_yes; eassumption|]. exists [], L. split; [reflexivity|]. eapply eventually_impl; [|exact H]. intros k Hk. split; [constructor|exact Hk].
      + destruct IH as (r & S & IH). exists r. split; [eapply sc_no; eassumption|]. destruct r as [sys' d' o'| |].
        * destruct IH as (l1 & l2 & -> & IH). exists ((o, sys) :: l1), l2. split; [reflexivity|]. eapply eventually_impl; [|exact (eventually_and _ _ H IH)].
          intros k [H1 [H2 H3]]. split; [constructor; assumption|exact H3].
        * eapply eventually_impl; [|exact (eventually_and _ _ H IH)]. intros k [H1 H2]. constructor; assumption.
        * destruct IH as (l1 & x & l2 & -> & IH). exists ((o, sys) :: l1), x, l2. split; [reflexivity|]. eapply eventually_impl; [|exact (eventually_and _ _ H IH)].
          intros k [H1 [H2 H3]]. split; [constructor; assumption|exact H3].
      + exists Stuck. split; [eapply sc_never; eassumption|]. exists [], (o, sys), L. split; [reflexivity|]. eapply eventually_impl; [|exact H]. intros k Hk. split; [constructor|exact Hk].
  Qed.

  Lemma open_stuck c name order system k sel orders l1 x l2 : zlen c = 143360 -> selected f_name system (facs k) sel -> candidates name order orders ->
    zlen orders <> 1 \/ system = s2b "auto" -> list_prod orders sel = l1 ++ x :: l2 -> Forall (rejects c) l1 -> hangs c x ->
    OpenImage c name order system (facs k) = Panic.
  Proof.
    intros Hc Hs Hca Hp El Hr Hh. destruct (OpenImage c name order system (facs k)) as [[op o']|e|] eqn:E; [exfalso|exfalso|reflexivity].
    - apply (open_scan c name order system (facs k) sel orders op o' Hc (facs_order iter k) Hs Hca Hp) in E.
      destruct E as (m1 & f & m2 & E & Hl & Ha). rewrite El in E.
      pose proof (first_unique _ _ _ _ _ _ _ E Hr Hl (hangs_not_rejects _ _ Hh) (accepts_not_rejects _ _ _ Ha)) as Ex.
      rewrite Ex in Hh. apply (accepts_not_hangs _ _ _ Ha Hh).
    - assert (exists e, OpenImage c name order system (facs k) = Err e) as E' by eauto.
      apply (open_scan_none c name order system (facs k) sel orders Hc (facs_order iter k) Hs Hca Hp) in E'.
      rewrite El in E'. apply Forall_app in E' as [_ E']. apply Forall_inv in E'. exact (hangs_not_rejects _ _ Hh E').
  Qed.

  Lemma systems_selected system syss k : systems system syss -> selected f_name system (facs k) (map (fac k) syss).
  Proof.
    intros [|sys so Hs]; [left; split; reflexivity|]. right. destruct Hs; (split; [discriminate|reflexivity]).
  Qed.
  Lemma systems_own system syss : systems system syss -> Forall (fun s => exists so, own_order s so) syss.
  Proof. intros [|sys so Hs]; repeat constructor; eexists; try exact Hs; constructor. Qed.
  Lemma candidates_interleave name order orders : candidates name order orders -> Forall (fun o => exists l, interleave o l) orders.
  Proof. intros H. destruct H; repeat constructor; eexists; constructor. Qed.
  Lemma prod_with k orders syss : list_prod orders (map (fac k) syss) = map (with_fac k) (list_prod orders syss).
  Proof.
    induction orders as [|o orders IH]; [reflexivity|]. cbn [list_prod]. rewrite map_app, IH. f_equal. rewrite !map_map. reflexivity.
  Qed.
  Lemma prod_forall {A B} (P : A -> Prop) (Q : B -> Prop) l m : Forall P l -> Forall Q m -> Forall (fun x => P (fst x) /\ Q (snd x)) (list_prod l m).
  Proof. intros HP HQ. apply Forall_forall. intros [a b] Hx. apply in_prod_iff in Hx as [H1 H2]. rewrite Forall_forall in HP, HQ. split; [apply HP, H1|apply HQ, H2]. Qed.
  Lemma systems_dec system : (exists syss, systems system syss) \/ forall syss, ~ systems system syss.
  Proof.
    destruct (beq system (s2b "auto")) eqn:E0; [apply beq_eq in E0; subst; left; eexists; apply sy_auto|]. apply beq_neq in E0.
    destruct (beq system (s2b "dos3")) eqn:E1; [apply beq_eq in E1; subst; left; eexists; apply (sy_one _ _ oo_dos)|]. apply beq_neq in E1.
    destruct (beq system (s2b "nakedos")) eqn:E2; [apply beq_eq in E2; subst; left; eexists; apply (sy_one _ _ oo_naked)|]. apply beq_neq in E2.
    destruct (beq system (s2b "prodos")) eqn:E3; [apply beq_eq in E3; subst; left; eexists; apply (sy_one _ _ oo_prodos)|]. apply beq_neq in E3.
    right. intros syss H. destruct H as [|sys so Hs]; [contradiction E0; reflexivity|]. destruct Hs; [apply E1|apply E2|apply E3]; reflexivity.
  Qed.
  Lemma candidates_dec name order : (exists orders, candidates name order orders) \/ forall orders, ~ candidates name order orders.
  Proof.
    destruct (candidate_orders order (to_lower (path_Ext name))) as [orders|e|] eqn:E.
    - left. exists orders. apply candidate_orders_iff. exact E.
    - right. intros orders H. apply candidate_orders_iff in H. congruence.
    - right. intros orders H. apply candidate_orders_iff in H. congruence.
  Qed.

  Definition opens_as (img order system c : bytes) (r : opened_as) : Prop :=
    match r with
    | Opened sys d o => eventually (fun k => exists op, OpenImage c (image_name img) order system (facs k) = Ok (op, o) /\ op_for sys d op)
    | Refused => eventually (fun k => exists e, OpenImage c (image_name img) order system (facs k) = Err e)
    | Stuck => eventually (fun k => OpenImage c (image_name img) order system (facs k) = Panic)
    end.
  Lemma device_open img order system c k : zlen c <> 143360 -> device img order system c ->
    OpenImage c (image_name img) order system (facs k) = Ok (OProdos c, s2b "po").
  Proof.
    intros Hc (Hc2 & Hx & Hm & Hl & Ho & Hsys). apply (open_hdv c (image_name img) order system (facs k) (OProdos c) (s2b "po") Hc).
    split; [exact Hc2|]. split; [exact Hx|]. split; [exact Hm|]. split; [exact Hl|]. split; [exact Ho|]. split; [exact Hsys|]. split; [reflexivity|].
    exists [dos3_factory k; nakedos_factory], (prodos_factory iter k), []. split; [reflexivity|]. split; [|split; reflexivity].
    intros g [<-|[<-|[]]] H; vm_compute in H; discriminate H.
  Qed.
  Lemma no_device img order system c k : zlen c <> 143360 -> ~ device img order system c -> exists e, OpenImage c (image_name img) order system (facs k) = Err e.
  Proof.
    intros Hc N. destruct (OpenImage c (image_name img) order system (facs k)) as [[op o]|e|] eqn:E.
    - apply (open_hdv c (image_name img) order system (facs k) op o Hc) in E. destruct E as (H1 & H2 & H3 & H4 & H5 & H6 & _). contradiction N. repeat (split; [assumption|]). assumption.
    - eexists. reflexivity.
    - exfalso. revert E. unfold OpenImage. unfold FloppyDiskBytes, FloppyDiskBytes13Sector. replace (zlen c =? 143360) with false by lia.
      destruct (_ =? _); [discriminate|]. destruct (beq _ _); [|discriminate]. unfold openHDV. destruct (_ <? _); [discriminate|]. destruct (_ <? _); [discriminate|].
      destruct (_ && _); [discriminate|]. destruct (_ && _); [discriminate|]. unfold DiskOperatorFactories. cbn [openHDV_loop].
      change (beq (f_name (dos3_factory k)) (s2b "prodos")) with false. change (beq (f_name nakedos_factory) (s2b "prodos")) with false.
      change (beq (f_name (prodos_factory iter k)) (s2b "prodos")) with true. cbv iota. discriminate.
  Qed.
  Lemma device_dec img order system c : zlen c <> 143360 -> device img order system c \/ ~ device img order system c.
  Proof.
    intros Hc. destruct (OpenImage c (image_name img) order system (facs 0)) as [[op o]|e|] eqn:E.
    - left. apply (open_hdv c (image_name img) order system (facs 0) op o Hc) in E. destruct E as (H1 & H2 & H3 & H4 & H5 & H6 & _). repeat (split; [assumption|]). assumption.
    - right. intros D. rewrite (device_open img order system c 0 Hc D) in E. discriminate E.
    - right. intros D. rewrite (device_open img order system c 0 Hc D) in E. discriminate E.
  Qed.

  Lemma opening_total img order system c : bytes_ok c -> ProdosSpec.an_order iter -> exists r, opening img order system c r /\ opens_as img order system c r.
  Proof.
    intros B Hi. destruct (Z.eq_dec (zlen c) 143360) as [Hc|Hc].
    2: { destruct (device_dec img order system c Hc) as [D|D].
         - exists (Opened (s2b "prodos") c (s2b "po")). split; [apply og_device; assumption|]. exists O. intros k _. exists (OProdos c). split; [apply device_open; assumption|constructor].
         - exists Refused. split; [apply og_no_device; assumption|]. exists O. intros k _. apply no_device; assumption. }
    destruct (candidates_dec (image_name img) order) as [[orders Hca]|N].
    2: { exists Refused. split; [apply og_no_order; assumption|]. exists O. intros k _. apply open_no_candidates; assumption. }
    destruct (systems_dec system) as [[syss Hsy]|N].
    2: { exists Refused. split; [apply og_no_system; assumption|]. exists O. intros k _. rewrite OpenImage_floppy by exact Hc. unfold openDoOrPo. cbv zeta.
         assert (filter (fun f => beq system (s2b "auto") || beq system (f_name f)) (facs k) = []) as ->; [|eexists; reflexivity].
         destruct (beq system (s2b "auto")) eqn:E0; [apply beq_eq in E0; subst; contradiction (N _ sy_auto)|]. cbn [filter DiskOperatorFactories].
         destruct (beq system (f_name (dos3_factory k))) eqn:E1; [apply beq_eq in E1; subst; contradiction (N _ (sy_one _ _ oo_dos))|].
         destruct (beq system (f_name nakedos_factory)) eqn:E2; [apply beq_eq in E2; subst; contradiction (N _ (sy_one _ _ oo_naked))|].
         destruct (beq system (f_name (prodos_factory iter k))) eqn:E3; [apply beq_eq in E3; subst; contradiction (N _ (sy_one _ _ oo_prodos))|]. reflexivity. }
    assert (zlen orders <> 1 \/ system = s2b "auto" \/ (system <> s2b "auto" /\ exists o, orders = [o])) as Hcase.
    { destruct (beq system (s2b "auto")) eqn:E; [right; left; apply beq_eq; exact E|]. apply beq_neq in E. destruct orders as [|o [|o2 os]]; [left; discriminate|right; right; split; [exact E|exists o; reflexivity]|left].
      rewrite !zlen_cons. pose proof (zlen_nonneg os). lia. }
    assert (Hscan : zlen orders <> 1 \/ system = s2b "auto" -> exists r, opening img order system c r /\ opens_as img order system c r).
    { intros Hp. destruct (scan_total c (list_prod orders syss) Hc B Hi) as (r & S & H).
      { apply (prod_forall (fun o => exists l, interleave o l) (fun s => exists so, own_order s so)); [apply (candidates_interleave _ _ _ Hca)|apply (systems_own _ _ Hsy)]. }
      exists r. split; [apply (og_scan _ _ _ _ orders syss); try assumption; destruct Hp; [right|left]; assumption|]. destruct r as [sys d o| |]; cbn [opens_as].
      - destruct H as (l1 & l2 & E & H). eapply eventually_impl; [|exact H]. intros k (Hr & op & Ha & Hop). exists op. split; [|exact Hop].
        apply (open_scan c (image_name img) order system (facs k) _ orders op o Hc (facs_order iter k) (systems_selected _ _ k Hsy) Hca Hp).
        exists (map (with_fac k) l1), (fac k sys), (map (with_fac k) l2). split; [|split; assumption]. rewrite prod_with, E, map_app. reflexivity.
      - eapply eventually_impl; [|exact H]. intros k Hr. apply (open_scan_none c (image_name img) order system (facs k) _ orders Hc (facs_order iter k) (systems_selected _ _ k Hsy) Hca Hp).
        rewrite prod_with. exact Hr.
      - destruct H as (l1 & x & l2 & E & H). eapply eventually_impl; [|exact H]. intros k (Hr & Hh).
        apply (open_stuck c (image_name img) order system k _ orders (map (with_fac k) l1) (with_fac k x) (map (with_fac k) l2) Hc (systems_selected _ _ k Hsy) Hca Hp); try assumption.
        rewrite prod_with, E, map_app. reflexivity. }
    destruct Hcase as [H|[H|[Hne [o ->]]]]; [apply Hscan; left; exact H|apply Hscan; right; exact H|]. clear Hscan.
    destruct Hsy as [|sys so Hs]; [contradiction Hne; reflexivity|].
    assert (exists l, interleave o l) as Io by (pose proof (candidates_interleave _ _ _ Hca) as F; apply Forall_inv in F; exact F).
    assert (exists l, interleave so l) as Iso by (destruct Hs; eexists; constructor).
    destruct (reordered_ex c o so Hc Io Iso) as (d & R).
    assert (Hopen : forall k, OpenImage c (image_name img) order sys (facs k) = (op <- f_operator (fac k sys) d ;; Ok (op, o))).
    { intros k. pose proof (open_pinned c (image_name img) order sys (facs k) (map (fac k) [sys]) o Hc (facs_order iter k) (systems_selected _ _ k (sy_one _ _ Hs)) Hca Hne) as HP.
      cbn [map] in HP. destruct HP as (d' & R' & HP). assert (d' = d) as ->; [|exact HP]. apply (reordered_fun c o so); [|exact R]. destruct Hs; exact R'. }
    destruct Hs.
    - exists (Opened (s2b "dos3") d o). split; [apply (og_told _ _ _ _ o (s2b "do") d); try assumption; [constructor|discriminate]|].
      exists O. intros k _. exists (ODos3 d). split; [rewrite Hopen; reflexivity|constructor].
    - destruct (naked_operator d ltac:(apply R)) as [(op & En & D)|([e En] & D)].
      + exists (Opened (s2b "nakedos") d o). split; [apply (og_told _ _ _ _ o (s2b "raw") d); try assumption; [constructor|intros _; exact D]|].
        exists O. intros k _. exists (ONaked op). split; [|constructor; exact En]. rewrite Hopen. change (f_operator (fac k (s2b "nakedos")) d) with (rmap ONaked (NewOperator d)). rewrite En. reflexivity.
      + exists Refused. split; [apply (og_told_wrong _ _ _ _ o d); try assumption; reflexivity|].
        exists O. intros k _. exists e. rewrite Hopen. change (f_operator (fac k (s2b "nakedos")) d) with (rmap ONaked (NewOperator d)). rewrite En. reflexivity.
    - exists (Opened (s2b "prodos") d o). split; [apply (og_told _ _ _ _ o (s2b "po") d); try assumption; [constructor|discriminate]|].
      exists O. intros k _. exists (OProdos d). split; [rewrite Hopen; reflexivity|constructor].
  Qed.

  Lemma opening_bytes img order system c sys d o : bytes_ok c -> opening img order system c (Opened sys d o) ->
    bytes_ok d /\ zlen d <= 65536 * 512 /\ (sys = s2b "dos3" \/ sys = s2b "nakedos" \/ sys = s2b "prodos") /\ (sys = s2b "nakedos" -> zlen d = 143360 /\ naked_disk d).
  Proof.
    intros B H. remember (Opened sys d o) as r eqn:Er. destruct H as [orders syss r Hc Hca Hsy _ S|o' so d' Hc Hca Hs R Hn|? ? ? ? ? ? ?|? ?|? ?|Hc D|? ?]; try discriminate Er.
    - subst r. clear - B S. remember (Opened sys d o) as r eqn:Er. induction S as [|o' sys' so d' rest Hs R T|o' sys' so d' rest r Hs R T S IH|]; try discriminate Er; [|apply IH; exact Er].
      injection Er as <- <- <-. split; [exact (reordered_bytes _ _ _ _ R B)|]. assert (zlen d' = 143360) as L by apply R. split; [lia|]. split; [destruct Hs; auto|].
      intros ->. split; [exact L|]. inversion T; assumption.
    - injection Er as <- <- <-. split; [exact (reordered_bytes _ _ _ _ R B)|]. assert (zlen d' = 143360) as L by apply R. split; [lia|]. split; [destruct Hs; auto|].
      intros E. split; [exact L|apply Hn; exact E].
    - injection Er as <- <- <-. split; [exact B|]. split; [apply D|]. split; [auto|]. discriminate.
  Qed.

  (** ** Running a command *)
  Lemma open_run_gen w img order system c : input w img c -> exists w1,
    (forall k, run (OpenFilename iter k img order system) w = (w1, OpenImage c (image_name img) order system (facs k))) /\
    same_files w w1 /\ w_stdout w1 = w_stdout w /\ w_outroom w1 = w_outroom w.
  Proof.
    intros Hin. unfold OpenFilename, image_name. change dash with (s2b "-"). destruct Hin as [[-> Hs]|[Hn [wr Hf]]].
    - rewrite beq_refl. eexists. split; [intros k; rewrite run_pbind; cbn [run]; unfold sys_stdin; rewrite Hs; reflexivity|]. split; [intros n; reflexivity|]. split; reflexivity.
    - destruct (beq img (s2b "-")) eqn:E; [apply beq_eq in E; contradiction|]. eexists. split; [intros k; rewrite run_pbind; cbn [run]; rewrite Hf; reflexivity|]. split; [intros n; reflexivity|]. split; reflexivity.
  Qed.
  Lemma all_lines_fun l t1 t2 : all_lines l t1 -> all_lines l t2 -> t1 = t2.
  Proof.
    intros H. revert t2. induction H as [|x l t H IH]; intros t2 H2; inversion H2; subst; [reflexivity|]. f_equal. f_equal. apply IH. assumption.
  Qed.
  Lemma all_lines_ex l : exists t, all_lines l t.
  Proof. induction l as [|x l [t IH]]; [exists []; constructor|]. exists (x ++ 10 :: t). constructor. exact IH. Qed.

  (** ls *)
  Definition catalogs (short : bool) (dir : bytes) (k : nat) (op : AnyOp) (e : ending) : Prop :=
    match e with
    | Prints text => (dir = [] \/ Op_HasSubdirs op = true) /\ exists fds, Op_Catalog iter k op dir = Ok fds /\ all_lines (map (ls_name short) fds) text
    | Errs => (dir <> [] /\ Op_HasSubdirs op = false) \/ ((dir = [] \/ Op_HasSubdirs op = true) /\ exists er, Op_Catalog iter k op dir = Err er)
    | Crashes => (dir = [] \/ Op_HasSubdirs op = true) /\ Op_Catalog iter k op dir = Panic
    end.
  Lemma ls_dos_any d dir short : bytes_ok d -> exists e, ls_shows dir short (s2b "dos3") d e /\ eventually (fun k => catalogs short dir k (ODos3 d) e).
  Proof.
    intros B. destruct (beq dir []) eqn:Ed; [apply beq_eq in Ed|apply beq_neq in Ed].
    2: { exists Errs. split; [apply ls_flat; [discriminate|exact Ed]|]. exists O. intros k _. left. split; [exact Ed|reflexivity]. }
    destruct (Dos3StmtProofs.rcs_classes d B) as [(l & C & _)|[(N & H)|C]].
    - destruct (Dos3StmtProofs.C16_lemma d l B C) as [_ (n & r & (descs & -> & HF) & HC)].
      destruct (all_lines_ex (map d_name descs)) as (text & Ht). exists (Prints text). split.
      + apply (ls_dos dir short d l (map d_name descs) text Ed C); [|exact Ht].
        clear - HF. induction HF as [|e ds es l0 (n & D) _ IH]; constructor; [|exact IH]. destruct (Dos3Spec.ds_name _ _ _ _ D) as [En ->]. exact En.
      + exists n. intros k Hk. split; [left; exact Ed|]. exists descs. split; [cbn [Op_Catalog]; rewrite (HC k Hk); reflexivity|].
        replace (map (ls_name short) descs) with (map d_name descs); [exact Ht|]. clear - HF.
        induction HF as [|e ds es l0 (n & D) _ IH]; [reflexivity|]. cbn [map]. f_equal; [|exact IH].
        unfold ls_name. rewrite (Dos3Spec.ds_full _ _ _ _ D). rewrite andb_false_r. reflexivity.
    - exists Errs. split.
      + apply ls_dos_no; [exact Ed|]. destruct (dos_cases d B) as [[l D]|[D|D]]; [contradiction (N l D)|exact D|]. exfalso.
        destruct (H 561%nat ltac:(lia)) as [e E]. pose proof (proj2 (proj1 (Dos3StmtProofs.C17_partial_lemma d B)) D 561%nat) as D'. cbv beta in D'. unfold Dos3Model.ReadCatalog in D'. rewrite E in D'. discriminate D'.
      + exists 561%nat. intros k Hk. right. split; [left; exact Ed|]. destruct (H k Hk) as [e E]. exists e. cbn [Op_Catalog]. unfold Dos3Model.Catalog, Dos3Model.ReadCatalog. rewrite E. reflexivity.
    - exists Crashes. split; [apply ls_dos_never; [exact Ed|exact C]|]. exists O. intros k _. split; [left; exact Ed|].
      pose proof (proj2 (proj1 (Dos3StmtProofs.C17_partial_lemma d B)) C k) as D'. cbv beta in D'. cbn [Op_Catalog]. unfold Dos3Model.Catalog. rewrite D'. reflexivity.
  Qed.
  Lemma ls_prodos_any d dir short : bytes_ok d -> zlen d <= 65536 * 512 -> ProdosSpec.an_order iter ->
    exists e, ls_shows dir short (s2b "prodos") d e /\ eventually (fun k => catalogs short dir k (OProdos d) e).
  Proof.
    intros B L Hi. destruct (listing_lemma d dir iter B L Hi) as (v & M & H). destruct v as [k0 l| |].
    - destruct (all_lines_ex (map prodos_name_of (filter ProdosSpec.is_live (ProdosSpec.dir_entries d k0 l)))) as (text & Ht).
      exists (Prints text). split; [eapply ls_prodos; eassumption|]. destruct H as (n & r & (descs & -> & HF) & HC). exists n. intros k Hk. split; [right; reflexivity|].
      exists descs. split; [cbn [Op_Catalog]; rewrite (HC k Hk); reflexivity|].
      replace (map (ls_name short) descs) with (map prodos_name_of (filter ProdosSpec.is_live (ProdosSpec.dir_entries d k0 l))); [exact Ht|]. clear - HF.
      induction HF as [|e ds es l0 D _ IH]; [reflexivity|]. cbn [map]. f_equal; [|exact IH].
      unfold ls_name. rewrite (ProdosSpec.ds_full _ _ D). rewrite andb_false_r. symmetry. apply (ProdosSpec.ds_name _ _ D).
    - exists Errs. split; [apply ls_prodos_no; exact M|]. destruct H as (n & r & (e & ->) & HC). exists n. intros k Hk. right. split; [right; reflexivity|]. exists e. cbn [Op_Catalog]. rewrite (HC k Hk). reflexivity.
    - exists Crashes. split; [apply ls_prodos_never; exact M|]. exists O. intros k _. split; [right; reflexivity|]. cbn [Op_Catalog]. pose proof (H k) as E. cbv beta in E. rewrite E. reflexivity.
  Qed.
  Lemma ls_naked_any d op dir short : zlen d = 143360 -> NewOperator d = Ok op -> exists e, ls_shows dir short (s2b "nakedos") d e /\ forall k, catalogs short dir k (ONaked op) e.
  Proof.
    intros Hz En. destruct (beq dir []) eqn:Ed; [apply beq_eq in Ed|apply beq_neq in Ed].
    2: { exists Errs. split; [apply ls_flat; [discriminate|exact Ed]|]. intros k. left. split; [exact Ed|reflexivity]. }
    destruct (NewOperator_ok _ _ Hz En) as (Hok & Edt & Em & _). pose proof (Catalog_spec op) as HC.
    match type of HC with _ = Ok (map ?g ?l) => remember l as fs eqn:Efs end.
    destruct (all_lines_ex (map (if short then shown (st_of op) else shown_full (st_of op)) fs)) as (text & Ht). exists (Prints text). split.
    - apply (ls_naked dir short d (st_of op) fs text Ed); [exists op; split; [exact En|reflexivity]| |exact Ht]. subst fs. rewrite Em. split.
      + intros f. rewrite filter_In, in_map_iff. unfold legal, file_on. rewrite (content_nil_iff d (stored_map d) f Hz). split.
        * intros [(k' & <- & Hk) Hn]. apply In_zrange in Hk. split; [lia|]. intros E. rewrite E in Hn. discriminate Hn.
        * intros [Hf Hn]. split; [exists (f - 1); split; [lia|apply In_zrange; lia]|].
          destruct (Z.eqb_spec (zlen (owned (stored_map d) f)) 0) as [E|E]; [apply zlen_zero_nil in E; contradiction|reflexivity].
      + apply sorted_filter, sorted_files.
    - intros k. split; [left; exact Ed|]. eexists. split; [exact HC|]. rewrite map_map.
      match goal with |- all_lines (map ?g ?l) _ => replace (map g l) with (map (if short then shown (st_of op) else shown_full (st_of op)) l); [exact Ht|] end.
      apply map_ext. intros f. unfold ls_name. cbn [d_name d_fullname]. destruct short; [reflexivity|]. cbn [negb andb].
      assert (shown_full (st_of op) f <> []) as Hne by (unfold shown_full, printed; destruct (symbol_for _ _); discriminate).
      destruct (beq (shown_full (st_of op) f) []) eqn:E; [apply beq_eq in E; contradiction|reflexivity].
  Qed.

  Lemma ls_tail img order system c sys d o short dir w e : input w img c -> w_outroom w = None -> opens_as img order system c (Opened sys d o) ->
    eventually (fun k => forall op, op_for sys d op -> catalogs short dir k op e) -> ends_in (fun k => LsCmd_Run iter k order system short img dir) w e.
  Proof.
    intros Hin Hw H Hcat. destruct (open_run_gen w img order system c Hin) as (w1 & Er & Hsf & Hso & Hor). cbn [opens_as] in H.
    pose proof (eventually_and _ _ H Hcat) as HH. clear H Hcat.
    destruct e as [text| |]; cbn [ends_in catalogs] in *; (eapply eventually_impl; [|exact HH]); intros k [(op & Ho & Hop) Hc]; specialize (Hc op Hop).
    + destruct Hc as (Hd & fds & Hc & Ht). destruct (ls_prints iter k order system short img dir w c op o fds Hin Hw Ho Hd Hc) as (text' & Ht' & Hp). rewrite (all_lines_fun _ _ _ Ht Ht'). exact Hp.
    + unfold fails_cleanly, LsCmd_Run. rewrite run_pbind, Er, Ho. destruct Hc as [[Hd Hs]|[Hd [er He]]].
      * rewrite Hs. destruct (beq dir []) eqn:E; [apply beq_eq in E; contradiction|]. cbn [negb andb]. eexists w1, _. split; [reflexivity|]. split; [exact Hsf|exact Hso].
      * assert (negb (beq dir []) && negb (Op_HasSubdirs op) = false)%bool as -> by (destruct Hd as [-> | ->]; [reflexivity|apply andb_false_r]).
        rewrite run_pbind. unfold plift. cbn [run]. rewrite He. eexists w1, er. split; [reflexivity|]. split; [exact Hsf|exact Hso].
    + destruct Hc as [Hd He]. unfold crashes, LsCmd_Run. rewrite run_pbind, Er, Ho.
      assert (negb (beq dir []) && negb (Op_HasSubdirs op) = false)%bool as -> by (destruct Hd as [-> | ->]; [reflexivity|apply andb_false_r]).
      rewrite run_pbind. unfold plift. cbn [run]. rewrite He. exists w1. split; [reflexivity|]. split; [exact Hsf|exact Hso].
  Qed.
  Lemma ls_exact img order system c short dir w : bytes_ok c -> ProdosSpec.an_order iter -> input w img c -> w_outroom w = None ->
    exists r e, opening img order system c r /\ afterwards r (ls_shows dir short) e /\ ends_in (fun k => LsCmd_Run iter k order system short img dir) w e.
  Proof.
    intros B Hi Hin Hw. destruct (opening_total img order system c B Hi) as (r & O & H). destruct (open_run_gen w img order system c Hin) as (w1 & Er & Hsf & Hso & Hor).
    exists r. destruct r as [sys d o| |].
    - destruct (opening_bytes _ _ _ _ _ _ _ B O) as (Bd & Ld & Hsys & Hn).
      assert (exists e, ls_shows dir short sys d e /\ eventually (fun k => forall op, op_for sys d op -> catalogs short dir k op e)) as (e & Hsh & Hcat).
      { destruct Hsys as [->|[->| ->]].
        - destruct (ls_dos_any d dir short Bd) as (e & S & E). exists e. split; [exact S|]. eapply eventually_impl; [|exact E]. intros k Hk op Hop. inversion Hop; subst. exact Hk.
        - destruct (Hn eq_refl) as [Lz D]. destruct (ls_naked_any d _ dir short Lz (NewOperator_floppy _ _ D)) as (e & S & E). exists e. split; [exact S|]. exists 0%nat. intros k _ op Hop.
          inversion Hop as [|? op' E'|]; subst. rewrite (NewOperator_floppy _ _ D) in E'. injection E' as <-. apply E.
        - destruct (ls_prodos_any d dir short Bd Ld Hi) as (e & S & E). exists e. split; [exact S|]. eapply eventually_impl; [|exact E]. intros k Hk op Hop. inversion Hop; subst. exact Hk. }
      exists e. split; [exact O|]. split; [exact Hsh|]. exact (ls_tail img order system c sys d o short dir w e Hin Hw H Hcat).
    - exists Errs. split; [exact O|]. split; [reflexivity|]. eapply eventually_impl; [|exact H]. intros k [er Ho]. unfold fails_cleanly, LsCmd_Run. rewrite run_pbind, Er, Ho. exists w1, er. split; [reflexivity|]. split; [exact Hsf|exact Hso].
    - exists Crashes. split; [exact O|]. split; [reflexivity|]. eapply eventually_impl; [|exact H]. intros k Ho. unfold crashes, LsCmd_Run. rewrite run_pbind, Er, Ho. exists w1. split; [reflexivity|]. split; [exact Hsf|exact Hso].
  Qed.

  (** dump *)
  Definition fetches (n : bytes) (k : nat) (op : AnyOp) (e : ending) : Prop :=
    match e with
    | Prints text => exists i, Op_GetFile k op n = Ok i /\ fi_data i = text
    | Errs => exists er, Op_GetFile k op n = Err er
    | Crashes => Op_GetFile k op n = Panic
    end.
  Lemma dump_dos_any d n : bytes_ok d -> exists e, dump_shows n (s2b "dos3") d e /\ eventually (fun k => fetches n k (ODos3 d) e).
  Proof.
    intros B. destruct (Dos3StmtProofs.rcs_classes d B) as [(l & C & _)|[(N & H)|C]].
    - destruct (Dos3Proofs.find_lookup_dec (Dos3Spec.entries d l) n (Dos3StmtProofs.catalog_entries d l B C)) as [[e Hl]|Hl].
      + pose proof (Dos3StmtProofs.catalog_entries d l B C) as FE. rewrite Forall_forall in FE. destruct (FE e (Dos3Proofs.lookup_In _ _ _ Hl)) as [L Be].
        destruct (Dos3StmtProofs.C19_lemma d l n e B C Hl) as [HG HE].
        destruct (Dos3Proofs.body_dec d (znth 0 e 0, znth 0 e 1) B) as [(ls & data & Hb & L')|Nb]; [split; apply bytes_ok_znth; exact Be| |].
        * destruct (Dos3Proofs.kinds e data (zlen ls)) as [(start & out & HD)|[HF|HO]].
          -- exists (Prints out). split; [eapply du_dos; eassumption|]. destruct (HG ls data start out Hb HD) as (k0 & r & (ds & -> & _) & HK). exists k0. intros k Hk.
             exists (FI ds out start). split; [|reflexivity]. cbn [Op_GetFile]. rewrite (HK k Hk). reflexivity.
          -- exists Crashes. split; [eapply du_dos_fatal; eassumption|]. exists (S (length l + length ls)). intros k Hk. cbn [fetches Op_GetFile].
             rewrite (Dos3Proofs.GetFile_found d l n e ls data k B C Hl Hb) by lia. pose proof Hl as (a & b & _ & Live & _). rewrite (Dos3Proofs.result_fatal d e n ls data B Live Hb HF). reflexivity.
          -- exists Errs. split; [eapply du_dos_other; [exact C|exact Hl|left; exact HO]|]. destruct (HE (or_introl HO)) as (k0 & HK). exists k0. intros k Hk. destruct (HK k Hk) as [er E]. exists er. cbn [Op_GetFile]. rewrite E. reflexivity.
        * exists Errs. split; [eapply du_dos_other; [exact C|exact Hl|right; exact Nb]|]. destruct (HE (or_intror Nb)) as (k0 & HK). exists k0. intros k Hk. destruct (HK k Hk) as [er E]. exists er. cbn [Op_GetFile]. rewrite E. reflexivity.
      + exists Errs. split; [eapply du_dos_missing; eassumption|]. exists (S (length l)). intros k Hk. destruct (Dos3Proofs.GetFile_missing d l n k B C Hl ltac:(lia)) as [er E]. exists er. cbn [Op_GetFile]. rewrite E. reflexivity.
    - exists Errs. split.
      + apply du_dos_no. destruct (dos_cases d B) as [[l D]|[D|D]]; [contradiction (N l D)|exact D|]. exfalso.
        destruct (H 561%nat ltac:(lia)) as [e E]. pose proof (proj2 (proj1 (Dos3StmtProofs.C17_partial_lemma d B)) D 561%nat) as D'. cbv beta in D'. unfold Dos3Model.ReadCatalog in D'. rewrite E in D'. discriminate D'.
      + exists 561%nat. intros k Hk. destruct (H k Hk) as [e E]. exists e. cbn [Op_GetFile]. unfold Dos3Model.GetFile, Dos3Model.fileForFilename, Dos3Model.ReadCatalog. rewrite E. reflexivity.
    - exists Crashes. split; [apply du_dos_never; exact C|]. exists O. intros k _.
      pose proof (proj2 (proj1 (Dos3StmtProofs.C17_partial_lemma d B)) C k) as D'. cbv beta in D'. cbn [fetches Op_GetFile]. unfold Dos3Model.GetFile, Dos3Model.fileForFilename. rewrite D'. reflexivity.
  Qed.
  Lemma dump_naked_any d op n : zlen d = 143360 -> NewOperator d = Ok op -> exists e, dump_shows n (s2b "nakedos") d e /\ forall k, fetches n k (ONaked op) e.
  Proof.
    intros Hz En. destruct (NewOperator_ok _ _ Hz En) as (Hok & Ed & Em & _).
    assert (names_on d (st_of op)) as Hno by (exists op; split; [exact En|reflexivity]).
    destruct (FileForName_spec (st_of op) n) as [(f & E & Hr & _)|[E Hr]].
    - assert (Hc : content (op_data op) (op_SM op) f = file_on d f) by (rewrite Ed, Em; reflexivity). destruct (file_on d f) as [|x xs] eqn:Ef.
      + exists Errs. split; [apply (du_naked_no n d _ Hno)|].
        * intros g Hg. apply FileForName_resolves in Hg. assert (g = f) as -> by congruence. exact Ef.
        * intros k. cbn [fetches Op_GetFile]. unfold GetFile. rewrite E. cbn [rbind]. rewrite ReadFile_spec by (rewrite Ed; exact Hz). rewrite Hc. eexists. reflexivity.
      + exists (Prints (file_on d f)). split; [apply (du_naked n d _ f Hno); [exact Hr|rewrite Ef; discriminate]|]. intros k. destruct (GetFile_content op n f Hok Hr) as (i & Eg & Ei); [rewrite Hc; discriminate|].
        exists i. split; [exact Eg|]. rewrite Ei, Hc. symmetry. exact Ef.
    - exists Errs. split; [apply (du_naked_no n d _ Hno); intros f Hf; contradiction (Hr f Hf)|]. intros k. cbn [fetches Op_GetFile]. unfold GetFile. rewrite E. eexists. reflexivity.
  Qed.
  Lemma dump_exact img order system c n w : bytes_ok c -> ProdosSpec.an_order iter -> input w img c -> w_outroom w = None ->
    exists r e, opening img order system c r /\ afterwards r (dump_shows n) e /\ ends_in (fun k => DumpCmd_Run iter k order system img n) w e.
  Proof.
    intros B Hi Hin Hw. destruct (opening_total img order system c B Hi) as (r & O & H). destruct (open_run_gen w img order system c Hin) as (w1 & Er & Hsf & Hso & Hor).
    exists r. destruct r as [sys d o| |].
    - cbn [opens_as] in H. destruct (opening_bytes _ _ _ _ _ _ _ B O) as (Bd & Ld & Hsys & Hn).
      assert (exists e, dump_shows n sys d e /\ eventually (fun k => forall op, op_for sys d op -> fetches n k op e)) as (e & Hsh & Hcat).
      { destruct Hsys as [->|[->| ->]].
        - destruct (dump_dos_any d n Bd) as (e & S & E). exists e. split; [exact S|]. eapply eventually_impl; [|exact E]. intros k Hk op Hop. inversion Hop; subst. exact Hk.
        - destruct (Hn eq_refl) as [Lz D]. destruct (dump_naked_any d _ n Lz (NewOperator_floppy _ _ D)) as (e & S & E). exists e. split; [exact S|]. exists 0%nat. intros k _ op Hop.
          inversion Hop as [|? op' E'|]; subst. rewrite (NewOperator_floppy _ _ D) in E'. injection E' as <-. apply E.
        - exists Errs. split; [apply du_prodos|]. exists 0%nat. intros k _ op Hop. inversion Hop; subst. eexists. reflexivity. }
      exists e. split; [exact O|]. split; [exact Hsh|]. pose proof (eventually_and _ _ H Hcat) as HH. clear H Hcat.
      destruct e as [text| |]; cbn [ends_in fetches] in *; (eapply eventually_impl; [|exact HH]); intros k [(op & Ho & Hop) Hc]; specialize (Hc op Hop).
      + destruct Hc as (i & Hc & <-). apply (dump_prints iter k order system img n w c op o i Hin Hw Ho Hc).
      + destruct Hc as [er He]. apply (dump_fails iter k order system img n w c op o er Hin Ho He).
      + unfold crashes, DumpCmd_Run. rewrite run_pbind, Er, Ho, run_pbind. unfold plift. cbn [run]. rewrite Hc. exists w1. split; [reflexivity|]. split; [exact Hsf|exact Hso].
    - exists Errs. split; [exact O|]. split; [reflexivity|]. eapply eventually_impl; [|exact H]. intros k [er Ho]. unfold fails_cleanly, DumpCmd_Run. rewrite run_pbind, Er, Ho. exists w1, er. split; [reflexivity|]. split; [exact Hsf|exact Hso].
    - exists Crashes. split; [exact O|]. split; [reflexivity|]. eapply eventually_impl; [|exact H]. intros k Ho. unfold crashes, DumpCmd_Run. rewrite run_pbind, Er, Ho. exists w1. split; [reflexivity|]. split; [exact Hsf|exact Hso].
  Qed.

  (** ** Edits *)
  Lemma edit_exact img order system c w (p : nat -> prog unit) (ok crash : bytes -> list Symbol -> Prop) : bytes_ok c -> ProdosSpec.an_order iter ->
    (forall d t, ok d t -> crash d t -> False) ->
    (forall k e, OpenImage c (image_name img) order system (facs k) = Err e -> exits (p k) w 1) ->
    (forall k, OpenImage c (image_name img) order system (facs k) = Panic -> exits (p k) w 2) ->
    (forall k op o, OpenImage c (image_name img) order system (facs k) = Ok (op, o) -> (forall x, op <> ONaked x) -> exits (p k) w 1) ->
    (forall d o t, found iter img order system c d o -> names_on d t -> eventually (fun k => exits_by (ok d t) (crash d t) (p k) w)) ->
    exists r n, opening img order system c r /\ edits ok crash r n /\ eventually (fun k => exits (p k) w n).
  Proof.
    intros B Hi Hex He Hp Ho Hf. destruct (opening_total img order system c B Hi) as (r & O & H). exists r. destruct r as [sys d o| |]; cbn [opens_as] in H.
    - destruct (opening_bytes _ _ _ _ _ _ _ B O) as (Bd & Ld & Hsys & Hn). destruct (beq sys (s2b "nakedos")) eqn:E; [apply beq_eq in E; subst sys|apply beq_neq in E].
      + destruct (Hn eq_refl) as [Lz D]. assert (Hno : names_on d (st_of _)) by (eexists; split; [exact (NewOperator_floppy _ _ D)|reflexivity]).
        match type of Hno with names_on d ?t => remember t as tt0 end.
        destruct (Hf d o _ (conj H (conj Lz Bd)) Hno) as (k0 & HK). destruct (HK k0 (le_n _)) as [(H1 & _)|[(H1 & _)|(H1 & H2 & _)]].
        * exists 0. split; [exact O|]. split; [eapply ed_ok; eassumption|]. exists k0. intros k Hk. destruct (HK k Hk) as [(_ & X)|[(X & _)|(X & _)]]; [exact X|contradiction (Hex _ _ H1 X)|contradiction].
        * exists 2. split; [exact O|]. split; [eapply ed_crash; eassumption|]. exists k0. intros k Hk. destruct (HK k Hk) as [(X & _)|[(_ & X)|(_ & X & _)]]; [contradiction (Hex _ _ X H1)|exact X|contradiction].
        * exists 1. split; [exact O|]. split; [eapply ed_err; eassumption|]. exists k0. intros k Hk. destruct (HK k Hk) as [(X & _)|[(X & _)|(_ & _ & X)]]; [contradiction|contradiction|exact X].
      + exists 1. split; [exact O|]. split; [apply ed_other; exact E|]. eapply eventually_impl; [|exact H]. intros k (op & Hop & Hfor). apply (Ho k op o Hop). intros x ->. inversion Hfor; subst. apply E. reflexivity.
    - exists 1. split; [exact O|]. split; [constructor|]. eapply eventually_impl; [|exact H]. intros k [e E]. exact (He k e E).
    - exists 2. split; [exact O|]. split; [constructor|]. eapply eventually_impl; [|exact H]. intros k E. exact (Hp k E).
  Qed.
  Lemma rm_exact img order system c force name w : bytes_ok c -> ProdosSpec.an_order iter -> input w img c -> can_output w img true -> w_room w = None -> w_outroom w = None ->
    exists r n, opening img order system c r /\ edits (fun d t => rm_succeeds d t force name) (fun _ _ => False) r n /\
      eventually (fun k => exits (DeleteCmd_Run iter k order system force img name) w n).
  Proof.
    intros B Hi Hin Hco Hrm Hor. destruct (open_run_gen w img order system c Hin) as (w1 & Er & Hsf & Hso & Hor1).
    apply (edit_exact img order system c w (fun k => DeleteCmd_Run iter k order system force img name)); try assumption.
    - intros d t _ [].
    - intros k e E. apply (exits_err _ _ w1 e); [|exact Hsf]. unfold DeleteCmd_Run. rewrite run_pbind, Er, E. reflexivity.
    - intros k E. apply (exits_panic _ _ w1); [|exact Hsf]. unfold DeleteCmd_Run. rewrite run_pbind, Er, E. reflexivity.
    - intros k op o E N. destruct op as [x|x|x]; [|contradiction (N x eq_refl)|]; (eapply (exits_err _ _ w1); [|exact Hsf]); unfold DeleteCmd_Run; rewrite run_pbind, Er, E; cbn [Op_Delete lift_op]; reflexivity.
    - intros d o t F Hno. apply (rm_found iter img order system c d o t force name w F Hno Hin Hco Hrm Hor).
  Qed.
  Lemma put_exact img order system c ft ow addr tgt src s w : bytes_ok c -> ProdosSpec.an_order iter -> input w img c -> input w src s -> ~ (img = s2b "-" /\ src = s2b "-") ->
    can_output w img true -> w_room w = None -> w_outroom w = None -> is_ascii tgt ->
    exists r n, opening img order system c r /\ edits (fun d t => put_succeeds d t ft ow tgt s) (fun d t => put_crashes d t ft ow tgt s) r n /\
      eventually (fun k => exits (PutCmd_Run iter k order system ft ow addr img tgt src) w n).
  Proof.
    intros B Hi Hin Hsrc Hnd Hco Hrm Hor Ha. destruct (open_run_gen w img order system c Hin) as (w1 & Er & Hsf & Hso & Hor1).
    assert (Edash : beq img dash && beq src dash = false).
    { destruct (beq img dash) eqn:B1; [|reflexivity]. destruct (beq src dash) eqn:B2; [|reflexivity]. apply beq_eq in B1, B2. contradiction Hnd. split; assumption. }
    apply (edit_exact img order system c w (fun k => PutCmd_Run iter k order system ft ow addr img tgt src)); try assumption.
    - intros d t (f & q & e & (_ & M & _) & H1 & _) (f' & q' & e' & (_ & M' & _) & -> & H2). destruct (meaning_one _ _ _ _ _ _ _ _ _ M M') as (-> & _). specialize (H1 eq_refl). lia.
    - intros k e E. apply (exits_err _ _ w1 e); [|exact Hsf]. unfold PutCmd_Run. rewrite Edash, run_pbind, Er, E. reflexivity.
    - intros k E. apply (exits_panic _ _ w1); [|exact Hsf]. unfold PutCmd_Run. rewrite Edash, run_pbind, Er, E. reflexivity.
    - intros k op o E N. unfold PutCmd_Run. rewrite Edash. destruct (run (FileContentsOrStdIn src) w1) as [w3 r] eqn:E3. destruct (contents_run _ _ _ _ E3) as (Hsf3 & _ & Hp3).
      assert (same_files w w3) as S3 by (intros m; rewrite (Hsf3 m); apply Hsf). destruct r as [s'|e|]; [|eapply (exits_err _ _ w3 e); [|exact S3]; rewrite run_pbind, Er, E, run_pbind, E3; reflexivity|contradiction].
      destruct (FiletypeForName ft) as [f|e|] eqn:Ef; [| |contradiction (filetype_no_panic ft)];
        (destruct op as [x|x|x]; [|contradiction (N x eq_refl)|]); (eapply (exits_err _ _ w3); [|exact S3]); rewrite run_pbind, Er, E, run_pbind, E3, run_pbind; unfold plift at 1; cbn [run]; cbn [Op_PutFile lift_op]; reflexivity.
    - intros d o t F Hno. apply (put_found iter img order system c d o t ft ow addr tgt src s w F Hno Hin Hsrc Hnd Hco Hrm Hor Ha).
  Qed.
  Lemma mkhello_exact img order c name address start w : bytes_ok c -> ProdosSpec.an_order iter -> input w img c -> can_output w img true -> w_room w = None -> w_outroom w = None ->
    exists r n, opening img order (s2b "auto") c r /\ (~ hello_at address start /\ n = 1 \/ hello_at address start /\ edits (fun d t => mkhello_succeeds d t name address start) (fun _ _ => False) r n) /\
      eventually (fun k => exits (MkHelloCmd_Run iter k order img name address start) w n).
  Proof.
    intros B Hi Hin Hco Hrm Hor. destruct (open_run_gen w img order (s2b "auto") c Hin) as (w1 & Er & Hsf & Hso & Hor1).
    assert (Hself : same_files w w) by (intros x; reflexivity).
    destruct (Z.eqb_spec (address mod 256) 0) as [Ea|Ea].
    2:{ destruct (opening_total img order (s2b "auto") c B Hi) as (r & O & _). exists r, 1. split; [exact O|]. split; [left; split; [intros [X _]; contradiction|reflexivity]|]. exists 0%nat. intros k _.
        apply (exits_err _ _ w (EOther "address not on a page boundary")); [|exact Hself].
        unfold MkHelloCmd_Run. cbv zeta. destruct (Z.eqb_spec (address mod 256) 0); [contradiction|]. reflexivity. }
    assert (Hst : (start <> 65535 -> address <= start) <-> (if start =? 65535 then address else start) <? address = false).
    { destruct (Z.eqb_spec start 65535) as [->|Hne]; [split; [intros _; lia|intros _ X; contradiction X; reflexivity]|]. split; [intros X; specialize (X Hne); lia|intros X _; lia]. }
    destruct ((if start =? 65535 then address else start) <? address) eqn:Es.
    { destruct (opening_total img order (s2b "auto") c B Hi) as (r & O & _). exists r, 1. split; [exact O|]. split; [left; split; [intros [_ X]; apply Hst in X; discriminate X|reflexivity]|]. exists 0%nat. intros k _.
      apply (exits_err _ _ w (EOther "start address < load address")); [|exact Hself].
      unfold MkHelloCmd_Run. cbv zeta. rewrite Ea. cbn [Z.eqb negb]. rewrite Es. reflexivity. }
    destruct (edit_exact img order (s2b "auto") c w (fun k => MkHelloCmd_Run iter k order img name address start) (fun d t => mkhello_succeeds d t name address start) (fun _ _ => False)) as (r & n & H1 & H2 & H3); try assumption.
    - intros d t _ [].
    - intros k e E. apply (exits_err _ _ w1 e); [|exact Hsf]. unfold MkHelloCmd_Run. cbv zeta. rewrite Ea. cbn [Z.eqb negb]. rewrite Es, run_pbind, Er, E. reflexivity.
    - intros k E. apply (exits_panic _ _ w1); [|exact Hsf]. unfold MkHelloCmd_Run. cbv zeta. rewrite Ea. cbn [Z.eqb negb]. rewrite Es, run_pbind, Er, E. reflexivity.
    - intros k op o E N. destruct op as [x|x|x]; [|contradiction (N x eq_refl)|]; (eapply (exits_err _ _ w1); [|exact Hsf]); unfold MkHelloCmd_Run; cbv zeta; rewrite Ea; cbn [Z.eqb negb]; rewrite Es, run_pbind, Er, E; reflexivity.
    - intros d o t F Hno. apply (mkhello_found iter img order c d o t name address start w F Hno Hin Hco Hrm Hor).
    - exists r, n. split; [exact H1|]. split; [right; split; [split; [exact Ea|apply Hst; reflexivity]|exact H2]|exact H3].
  Qed.
End Image.

(** ** How far opening is determined *)
Lemma root_one d k l v : bytes_ok d -> zlen d <= 65536 * 512 -> may d [] (Lists k l) -> may d [] v -> v = Lists k l.
Proof.
  intros B L M Mv. destruct (each_lemma d [] v B L Mv) as (iter & Hi & HC).
  assert (Dos3Spec.returns (fun n => Catalog iter n d []) (ProdosSpec.lists d 2 l) /\ k = 2) as [(n1 & r1 & (ds & -> & HF) & H1) ->].
  { inversion M as [| | | | | | |ks k' l' Hb O H Hk D|]; subst. destruct Hk as [[_ ->]|[X _]]; [|contradiction X; reflexivity]. split; [|reflexivity]. apply (list_root d ks B L Hb O iter l Hi H D). }
  destruct v as [k' l'| |]; cbn [comes_to] in HC.
  - inversion M as [| | | | | | |ks k1 l1 Hb O H Hk D|]; subst. inversion Mv as [| | | | | | |ks' k1 l1 Hb' O' H' Hk' D'|]; subst.
    destruct Hk' as [[_ ->]|[X _]]; [|contradiction X; reflexivity]. f_equal. exact (is_dir_det d 2 l' l D' D).
  - destruct HC as (n2 & r2 & (e & ->) & H2). specialize (H1 (max n1 n2) ltac:(lia)). specialize (H2 (max n1 n2) ltac:(lia)). cbv beta in *. congruence.
  - specialize (HC n1). specialize (H1 n1 (le_n _)). cbv beta in *. congruence.
Qed.
Lemma own_order_fun sys a b : own_order sys a -> own_order sys b -> a = b.
Proof. intros H1 H2. destruct H1; inversion H2; reflexivity. Qed.
Lemma tested_one c o so d sys a b : bytes_ok c -> reordered c o so d -> own_order sys so -> tested d sys a -> tested d sys b -> a = b \/ ((a = Never \/ b = Never) /\ unsettled c).
Proof.
  intros B R Hs Ha Hb. pose proof (reordered_bytes _ _ _ _ R B) as Bd. assert (zlen d = 143360) as Ld by apply R.
  assert (Hyc : dos_disk d -> dos_cyclic d -> False).
  { intros X Y. pose proof (seems_dos_yes d Bd X 561 ltac:(lia)) as E1. pose proof (seems_dos_hangs d Bd Y 561) as E2. congruence. }
  destruct Hs; inversion Ha; subst; inversion Hb; subst; try (left; reflexivity); try (exfalso; unfold not_dos in *; tauto).
  - left. pose proof (root_one d _ _ _ Bd ltac:(lia) H H0). discriminate.
  - left. pose proof (root_one d _ _ _ Bd ltac:(lia) H H0). discriminate.
  - left. pose proof (root_one d _ _ _ Bd ltac:(lia) H0 H). discriminate.
  - right. split; [right; reflexivity|]. exists o, d. split; [exact R|]. split; assumption.
  - left. pose proof (root_one d _ _ _ Bd ltac:(lia) H0 H). discriminate.
  - right. split; [left; reflexivity|]. exists o, d. split; [exact R|]. split; assumption.
Qed.
Lemma scan_one c L r1 r2 : bytes_ok c -> scan c L r1 -> scan c L r2 -> r1 = r2 \/ ((r1 = Stuck \/ r2 = Stuck) /\ unsettled c).
Proof.
  intros B H. revert r2. induction H as [|o sys so d rest Hs R T|o sys so d rest r Hs R T S IH|o sys so d rest Hs R T]; intros r2 H2; inversion H2 as [|? ? so' d' ? Hs' R' T'|? ? so' d' ? ? Hs' R' T' S'|? ? so' d' ? Hs' R' T']; subst;
    try (left; reflexivity); pose proof (own_order_fun _ _ _ Hs Hs'); subst so'; pose proof (reordered_fun _ _ _ _ _ R R'); subst d';
    pose proof (tested_one c o so d sys _ _ B R Hs T T') as K; try (destruct K as [K|[[K|K] U]]; try discriminate K); try (left; reflexivity); try (apply IH; assumption); try (right; split; [auto|exact U]).
Qed.
Lemma candidates_fun name order a b : candidates name order a -> candidates name order b -> a = b.
Proof. intros H1 H2. apply candidate_orders_iff in H1, H2. congruence. Qed.
Lemma systems_fun system a b : systems system a -> systems system b -> a = b.
Proof.
  assert (Hna : forall so, own_order (s2b "auto") so -> False) by (intros so X; inversion X).
  intros H1 H2. destruct H1 as [|sys so Hs].
  - remember (s2b "auto") as x eqn:E in H2. destruct H2 as [|sys so Hs]; [reflexivity|]. subst sys. contradiction (Hna _ Hs).
  - destruct H2 as [|sys so' Hs']; [contradiction (Hna _ Hs)|reflexivity].
Qed.
Lemma opening_split img order system c r1 r2 : opening img order system c r1 -> opening img order system c r2 -> r1 = r2 \/
  (zlen c = 143360 /\ exists orders syss, candidates (image_name img) order orders /\ systems system syss /\ (system = s2b "auto" \/ zlen orders <> 1) /\
     scan c (list_prod orders syss) r1 /\ scan c (list_prod orders syss) r2).
Proof.
  intros H1 H2.
  assert (own_order system (s2b "auto") -> False) as _ by (intros X; inversion X).
  assert (Hna : forall so, own_order (s2b "auto") so -> False) by (intros so X; inversion X).
  destruct H1 as [orders syss r Hc Hca Hsy Hm S|o so d Hc Hca Hs R Hn|o d Hc Hca Es R Hn|Hc N|Hc N|Hc D|Hc N];
  destruct H2 as [orders' syss' r' Hc' Hca' Hsy' Hm' S'|o' so' d' Hc' Hca' Hs' R' Hn'|o' d' Hc' Hca' Es' R' Hn'|Hc' N'|Hc' N'|Hc' D'|Hc' N']; try contradiction; try (left; reflexivity); try lia.
  - pose proof (candidates_fun _ _ _ _ Hca Hca'). pose proof (systems_fun _ _ _ Hsy Hsy'). subst. right. split; [exact Hc|]. exists orders', syss'. repeat (split; [assumption|]). assumption.
  - exfalso. pose proof (candidates_fun _ _ _ _ Hca Hca'). subst orders. destruct Hm as [-> |X]; [exact (Hna _ Hs')|apply X; reflexivity].
  - exfalso. pose proof (candidates_fun _ _ _ _ Hca Hca'). subst orders. destruct Hm as [-> |X]; [discriminate Es'|apply X; reflexivity].
  - contradiction (N' _ Hca).
  - contradiction (N' _ Hsy).
  - exfalso. pose proof (candidates_fun _ _ _ _ Hca Hca'). subst orders'. destruct Hm' as [-> |X]; [exact (Hna _ Hs)|apply X; reflexivity].
  - left. pose proof (candidates_fun _ _ _ _ Hca Hca') as X. injection X as <-. pose proof (own_order_fun _ _ _ Hs Hs'). subst so'. rewrite (reordered_fun _ _ _ _ _ R R'). reflexivity.
  - exfalso. pose proof (candidates_fun _ _ _ _ Hca Hca') as X. injection X as <-. subst system. inversion Hs; subst. apply Hn'. rewrite (reordered_fun _ _ _ _ _ R' R). apply Hn. reflexivity.
  - contradiction (N' _ Hca).
  - contradiction (N' _ (sy_one _ _ Hs)).
  - exfalso. pose proof (candidates_fun _ _ _ _ Hca Hca'). subst orders'. destruct Hm' as [-> |X]; [discriminate Es|apply X; reflexivity].
  - exfalso. pose proof (candidates_fun _ _ _ _ Hca Hca') as X. injection X as <-. subst system. inversion Hs'; subst. apply Hn. rewrite (reordered_fun _ _ _ _ _ R R'). apply Hn'. reflexivity.
  - contradiction (N _ Hca').
  - contradiction (N _ Hca').
  - contradiction (N _ Hsy').
  - contradiction (N _ (sy_one _ _ Hs')).
Qed.
Lemma opening_one img order system c r1 r2 : bytes_ok c -> opening img order system c r1 -> opening img order system c r2 -> r1 = r2 \/ ((r1 = Stuck \/ r2 = Stuck) /\ unsettled c).
Proof.
  intros B H1 H2. destruct (opening_split _ _ _ _ _ _ H1 H2) as [E|(_ & orders & syss & _ & _ & _ & S1 & S2)]; [left; exact E|]. exact (scan_one c _ _ _ B S1 S2).
Qed.
