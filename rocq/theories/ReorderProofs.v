(** ReorderProofs.v -- ls and dump show the same before and after reorder (C92). *)
From Coq Require Import ZifyBool ZifyNat.
From Verif Require Import GoBase GoLemmas TypesModel DiskModel DiskSpec DiskProofs DiskOpenProofs.
From Verif Require Import SupermonModel SupermonSpec.
From Verif Require Dos3StmtProofs.
From Verif Require ProdosSpec.
From Verif Require Import ProdosModel CmdModel CmdSpec CmdProofs CmdStmtProofs NakedCmdSpec NakedCmdProofs NakedOpenProofs DetectSpec DetectProofs PrintProofs ListSpec.
Ltac Zify.zify_post_hook ::= Z.div_mod_to_equations.
Local Opaque zrange zeros sub.

(** An image read through another order. *)
Lemma reordered_through c a b n s d : reordered c a b n -> reordered c a s d -> reordered n b s d.
Proof.
  intros (Lc & Ln & la & lb & Ia & Ib & H1) (_ & Ld & la' & ls & Ia' & Is & H2).
  rewrite (interleave_fun _ _ _ Ia' Ia) in H2. split; [exact Ln|]. split; [exact Ld|]. exists lb, ls. split; [exact Ib|]. split; [exact Is|].
  intros t k j Ht Hk Hj E. destruct (interleave_onto b lb k Ib Hk a la Ia) as (i & Hi & Ei).
  rewrite (H2 t i j Ht Hi Hj ltac:(congruence)). symmetry. apply (H1 t i k Ht Hi Hk Ei).
Qed.
Lemma reads_through c a b n sys d : reordered c a b n -> reads_as c a sys d -> reads_as n b sys d.
Proof.
  intros R [d' R' D|d0 d' R0 N0 R' D|d0 d1 d' R0 N0 R1 N1 R' D].
  - apply ra_dos; [apply (reordered_through _ _ _ _ _ _ R R')|exact D].
  - apply (ra_naked _ _ d0); [apply (reordered_through _ _ _ _ _ _ R R0)|exact N0|apply (reordered_through _ _ _ _ _ _ R R')|exact D].
  - apply (ra_prodos _ _ d0 d1); [apply (reordered_through _ _ _ _ _ _ R R0)|exact N0|apply (reordered_through _ _ _ _ _ _ R R1)|exact N1|apply (reordered_through _ _ _ _ _ _ R R')|exact D].
Qed.
Lemma op_for_inv sys d x : op_for sys d x ->
  (sys = s2b "dos3" /\ x = ODos3 d) \/ (sys = s2b "nakedos" /\ exists op, NewOperator d = Ok op /\ x = ONaked op) \/
  (sys = s2b "prodos" /\ x = OProdos d).
Proof.
  intros [d'|d' op E|d'].
  - left. split; reflexivity.
  - right. left. split; [reflexivity|]. exists op. split; [exact E|reflexivity].
  - right. right. split; reflexivity.
Qed.
Lemma op_for_fun sys d x y : op_for sys d x -> op_for sys d y -> x = y.
Proof.
  intros H H'. apply op_for_inv in H. apply op_for_inv in H'.
  destruct H as [[-> ->]|[[-> (op & E & ->)]|[-> ->]]]; destruct H' as [[S' ->]|[[S' (op' & E' & ->)]|[S' ->]]];
    try reflexivity; try (vm_compute in S'; discriminate S').
  rewrite E in E'. injection E' as ->. reflexivity.
Qed.

Section Same.
  Context (iter : list (Z * Subdirectory) -> list (Z * Subdirectory)).
  Notation facs := (DiskOperatorFactories iter).

  Lemma same_fail {A} (k : AnyOp * DiskOrder -> prog unit) fuel img1 order1 img2 order2 system w v c1 c2 (op : AnyOp) o1 o2 (r : res A) :
    input w img1 c1 -> input v img2 c2 ->
    OpenImage c1 (image_name img1) order1 system (facs fuel) = Ok (op, o1) ->
    OpenImage c2 (image_name img2) order2 system (facs fuel) = Ok (op, o2) ->
    (forall u o, run (k (op, o)) u = (u, match r with Ok _ => Panic | Err e => Err e | Panic => Panic end)) ->
    same_outcome (pbind (OpenFilename iter fuel img1 order1 system) k) w (pbind (OpenFilename iter fuel img2 order2 system) k) v.
  Proof.
    intros Hi1 Hi2 H1 H2 Hk.
    destruct (open_run_ok iter fuel _ _ _ _ _ _ _ Hi1 H1) as (w1 & Er & Hsf & Hso & _).
    destruct (open_run_ok iter fuel _ _ _ _ _ _ _ Hi2 H2) as (v1 & Er' & Hsf' & Hso' & _).
    eexists _, [], w1, v1. split; [rewrite run_pbind, Er; apply Hk|]. split; [rewrite run_pbind, Er'; apply Hk|].
    rewrite !app_nil_r. split; [exact Hso|]. split; [exact Hso'|]. split; assumption.
  Qed.
  Lemma prints_same p w q v text : prints p w text -> prints q v text -> same_outcome p w q v.
  Proof.
    intros (w' & R & S & O) (v' & R' & S' & O'). exists (Ok tt), text, w', v'. split; [exact R|]. split; [exact R'|].
    split; [exact O|]. split; [exact O'|]. split; assumption.
  Qed.
  Lemma all_lines_fun names a b : all_lines names a -> all_lines names b -> a = b.
  Proof.
    intros H. revert b. induction H as [|n ns t H IH]; intros b Hb.
    - inversion Hb; reflexivity.
    - inversion Hb as [|? ? t' Hb']; subst. rewrite (IH t' Hb'). reflexivity.
  Qed.

  Lemma ls_same fuel img1 order1 img2 order2 system short dir w v c1 c2 (op : AnyOp) o1 o2 :
    input w img1 c1 -> input v img2 c2 -> w_outroom w = None -> w_outroom v = None ->
    OpenImage c1 (image_name img1) order1 system (facs fuel) = Ok (op, o1) ->
    OpenImage c2 (image_name img2) order2 system (facs fuel) = Ok (op, o2) ->
    same_outcome (LsCmd_Run iter fuel order1 system short img1 dir) w (LsCmd_Run iter fuel order2 system short img2 dir) v.
  Proof.
    intros Hi1 Hi2 Hw Hv H1 H2.
    destruct (negb (beq dir []) && negb (Op_HasSubdirs op)) eqn:Ed.
    { apply (same_fail _ fuel img1 order1 img2 order2 system w v c1 c2 op o1 o2 (@Err unit (EOther "disks of this type cannot have subdirectories")) Hi1 Hi2 H1 H2).
      intros u o. cbv beta iota. rewrite Ed. reflexivity. }
    assert (Hd : dir = [] \/ Op_HasSubdirs op = true).
    { destruct (beq dir []) eqn:E; [left; apply beq_eq; exact E|right]. destruct (Op_HasSubdirs op); [reflexivity|discriminate Ed]. }
    destruct (Op_Catalog iter fuel op dir) as [fds|e|] eqn:Ec.
    - destruct (ls_prints iter fuel order1 system short img1 dir w c1 op o1 fds Hi1 Hw H1 Hd Ec) as (t1 & L1 & P1).
      destruct (ls_prints iter fuel order2 system short img2 dir v c2 op o2 fds Hi2 Hv H2 Hd Ec) as (t2 & L2 & P2).
      rewrite <- (all_lines_fun _ _ _ L1 L2) in P2. apply (prints_same _ _ _ _ _ P1 P2).
    - apply (same_fail _ fuel img1 order1 img2 order2 system w v c1 c2 op o1 o2 (@Err unit e) Hi1 Hi2 H1 H2).
      intros u o. cbv beta iota. rewrite Ed. rewrite run_pbind. unfold plift. cbn [run]. rewrite Ec. reflexivity.
    - apply (same_fail _ fuel img1 order1 img2 order2 system w v c1 c2 op o1 o2 (@Panic unit) Hi1 Hi2 H1 H2).
      intros u o. cbv beta iota. rewrite Ed. rewrite run_pbind. unfold plift. cbn [run]. rewrite Ec. reflexivity.
  Qed.
  Lemma dump_same fuel img1 order1 img2 order2 system n w v c1 c2 (op : AnyOp) o1 o2 :
    input w img1 c1 -> input v img2 c2 -> w_outroom w = None -> w_outroom v = None ->
    OpenImage c1 (image_name img1) order1 system (facs fuel) = Ok (op, o1) ->
    OpenImage c2 (image_name img2) order2 system (facs fuel) = Ok (op, o2) ->
    same_outcome (DumpCmd_Run iter fuel order1 system img1 n) w (DumpCmd_Run iter fuel order2 system img2 n) v.
  Proof.
    intros Hi1 Hi2 Hw Hv H1 H2. destruct (Op_GetFile fuel op n) as [i|e|] eqn:Eg.
    - apply (prints_same _ _ _ _ (fi_data i)).
      + apply (dump_prints iter fuel order1 system img1 n w c1 op o1 i); assumption.
      + apply (dump_prints iter fuel order2 system img2 n v c2 op o2 i); assumption.
    - apply (same_fail _ fuel img1 order1 img2 order2 system w v c1 c2 op o1 o2 (@Err unit e) Hi1 Hi2 H1 H2).
      intros u o. cbv beta iota. rewrite run_pbind. unfold plift. cbn [run]. rewrite Eg. reflexivity.
    - apply (same_fail _ fuel img1 order1 img2 order2 system w v c1 c2 op o1 o2 (@Panic unit) Hi1 Hi2 H1 H2).
      intros u o. cbv beta iota. rewrite run_pbind. unfold plift. cbn [run]. rewrite Eg. reflexivity.
  Qed.

  Lemma reorder_shows inF outF ow img newImg w w' ka kb a b c order1 order2 sys d :
    order_flag inF -> order_flag outF -> known img inF newImg outF ka kb -> chosen ka kb a b ->
    run (ReorderCmd_Run inF outF ow img newImg) w = (w', Ok tt) -> input w img c ->
    ProdosSpec.an_order iter -> seen_as img order1 c sys d a -> first_order (reorder_target img newImg) order2 b ->
    exists new, output w w' (reorder_target img newImg) new /\ seen_as (reorder_target img newImg) order2 new sys d b /\
      forall system w1 w2, (system = s2b "auto" \/ system = sys) ->
        input w1 img c -> input w2 (reorder_target img newImg) new -> w_outroom w1 = None -> w_outroom w2 = None ->
        (forall short dir, eventually (fun fuel =>
           same_outcome (LsCmd_Run iter fuel order1 system short img dir) w1
                        (LsCmd_Run iter fuel order2 system short (reorder_target img newImg) dir) w2)) /\
        (forall n, eventually (fun fuel =>
           same_outcome (DumpCmd_Run iter fuel order1 system img n) w1
                        (DumpCmd_Run iter fuel order2 system (reorder_target img newImg) n) w2)).
  Proof.
    intros Fi Fo Hk Hch H Hi Ho Hs [rest Hc].
    destruct (C66_lemma img inF newImg outF Fi Fo) as (G1 & _ & G3).
    assert (Hg : getOrders img inF newImg outF = Ok (a, b)) by (apply G1; exists ka, kb; split; assumption).
    destruct (G3 a b Hg) as [Hab _].
    destruct (reorder_run_ok inF outF ow img newImg w w' a b Hg Hab H) as (c' & new & Hi' & R & Hout & _).
    assert (c' = c) as ->.
    { destruct Hi as [[E0 E]|[Hn [x E]]]; destruct Hi' as [[E1 E']|[Hn' [x' E']]]; congruence. }
    exists new. split; [exact Hout|].
    assert (Hseen : seen_as (reorder_target img newImg) order2 new sys d b).
    { destruct Hs as [pre o rs sys d Lc B Hca Hpre Hra|Lc]; [|contradiction Lc; apply R].
      apply (sa_floppy _ _ _ [] _ rest); [apply R|apply (reordered_bytes _ _ _ _ R B)|exact Hc|constructor|].
      apply (reads_through _ _ _ _ _ _ R Hra). }
    split; [exact Hseen|]. intros system w1 w2 Hsys Hi1 Hi2 Hw1 Hw2.
    pose proof (eventually_and _ _ (opens iter _ _ _ _ _ _ _ Ho Hs Hsys) (opens iter _ _ _ _ _ _ _ Ho Hseen Hsys)) as He.
    split.
    - intros short dir. eapply eventually_impl; [|exact He]. intros k [(op & H1 & O1) (op' & H2 & O2)]. cbv beta in *.
      rewrite (op_for_fun _ _ _ _ O2 O1) in H2.
      apply (ls_same k img order1 _ order2 system short dir w1 w2 c new op a b); assumption.
    - intros n. eapply eventually_impl; [|exact He]. intros k [(op & H1 & O1) (op' & H2 & O2)]. cbv beta in *.
      rewrite (op_for_fun _ _ _ _ O2 O1) in H2.
      apply (dump_same k img order1 _ order2 system n w1 w2 c new op a b); assumption.
  Qed.
End Same.
