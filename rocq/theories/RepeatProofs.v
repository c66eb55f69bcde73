(** RepeatProofs.v -- a command run again: what the bound on loops and the order of visiting a map
    can change. *)
From Coq Require Import ZifyBool ZifyNat Permutation.
From Verif Require Import GoBase GoLemmas TypesModel DiskModel DiskSpec DiskProofs.
From Verif Require Import SupermonModel SupermonSpec.
From Verif Require Dos3Model.
From Verif Require Import ProdosSpec ProdosModel ProdosProofs ProdosStmtProofs BasicModel BasicProofs CmdModel CmdSpec CmdProofs MainModel OpenFuelProofs RepeatSpec.
Ltac Zify.zify_post_hook ::= Z.div_mod_to_equations.
Local Opaque zrange zeros sub.

(** ** Results and programs that differ at most in crashing and in the text of errors *)
Definition alike {A} (r1 r2 : res A) : Prop := r1 = Panic \/ r2 = Panic \/ r1 = r2 \/ exists e1 e2, r1 = Err e1 /\ r2 = Err e2.
Inductive palike {A} : prog A -> prog A -> Prop :=
| pl_ret r1 r2 : alike r1 r2 -> palike (PRet r1) (PRet r2)
| pl_left q : palike (PRet Panic) q
| pl_right p : palike p (PRet Panic)
| pl_read n k1 k2 : (forall r, palike (k1 r) (k2 r)) -> palike (PRead n k1) (PRead n k2)
| pl_stdin k1 k2 : (forall r, palike (k1 r) (k2 r)) -> palike (PStdin k1) (PStdin k2)
| pl_stat n k1 k2 : (forall r, palike (k1 r) (k2 r)) -> palike (PStat n k1) (PStat n k2)
| pl_write n c k1 k2 : (forall r, palike (k1 r) (k2 r)) -> palike (PWrite n c k1) (PWrite n c k2)
| pl_stdout c k1 k2 : (forall r, palike (k1 r) (k2 r)) -> palike (PStdout c k1) (PStdout c k2).

Lemma alike_refl {A} (r : res A) : alike r r.
Proof. right. right. left. reflexivity. Qed.
Lemma palike_refl {A} (p : prog A) : palike p p.
Proof. induction p; constructor; try assumption. apply alike_refl. Qed.
Lemma palike_bind {A B} (p1 p2 : prog A) (f1 f2 : A -> prog B) : palike p1 p2 -> (forall a, palike (f1 a) (f2 a)) -> palike (pbind p1 f1) (pbind p2 f2).
Proof.
  intros H HF. induction H as [r1 r2 H|q|p|n k1 k2 _ IH|k1 k2 _ IH|n k1 k2 _ IH|n c k1 k2 _ IH|c k1 k2 _ IH]; cbn [pbind]; try (constructor; exact IH); try apply pl_left; try apply pl_right.
  destruct H as [->|[->|[->|(e1 & e2 & -> & ->)]]]; [apply pl_left|apply pl_right| |].
  - destruct r2 as [a|e|]; [apply HF|apply pl_ret; apply alike_refl|apply pl_left].
  - apply pl_ret. right. right. right. eauto.
Qed.
Lemma palike_run {A} (p1 p2 : prog A) : palike p1 p2 -> forall w w1 w2 r1 r2, run p1 w = (w1, r1) -> run p2 w = (w2, r2) ->
  r1 <> Panic -> r2 <> Panic -> w1 = w2 /\ alike r1 r2.
Proof.
  intros H. induction H as [s1 s2 H|q|p|n k1 k2 _ IH|k1 k2 _ IH|n k1 k2 _ IH|n c k1 k2 _ IH|c k1 k2 _ IH]; intros w w1 w2 r1 r2 E1 E2 N1 N2; cbn [run] in E1, E2.
  - injection E1 as <- <-. injection E2 as <- <-. split; [reflexivity|exact H].
  - injection E1 as _ <-. contradiction N1; reflexivity.
  - injection E2 as _ <-. contradiction N2; reflexivity.
  - exact (IH _ _ _ _ _ _ E1 E2 N1 N2).
  - destruct (sys_stdin w) as [v r]. exact (IH _ _ _ _ _ _ E1 E2 N1 N2).
  - exact (IH _ _ _ _ _ _ E1 E2 N1 N2).
  - destruct (sys_write w n c) as [v r]. exact (IH _ _ _ _ _ _ E1 E2 N1 N2).
  - destruct (sys_stdout w c) as [v r]. exact (IH _ _ _ _ _ _ E1 E2 N1 N2).
Qed.
Lemma palike_main (p1 p2 : prog unit) w w1 w2 s1 s2 : palike p1 p2 -> main_run p1 w = (w1, s1) -> main_run p2 w = (w2, s2) -> s1 <> 2 -> s2 <> 2 -> w1 = w2 /\ s1 = s2.
Proof.
  intros H E1 E2 N1 N2. unfold main_run in *. destruct (run p1 w) as [v1 r1] eqn:R1. destruct (run p2 w) as [v2 r2] eqn:R2.
  injection E1 as <- <-. injection E2 as <- <-.
  assert (r1 <> Panic) as P1 by (intros ->; apply N1; reflexivity). assert (r2 <> Panic) as P2 by (intros ->; apply N2; reflexivity).
  destruct (palike_run _ _ H _ _ _ _ _ R1 R2 P1 P2) as [-> HA]. split; [reflexivity|].
  destruct HA as [->|[->|[->|(e1 & e2 & -> & ->)]]]; [contradiction P1; reflexivity|contradiction P2; reflexivity|reflexivity|reflexivity].
Qed.

(** ** Fuelled results *)
Lemma returned_alike {A} (f : nat -> option (res A)) : (forall k r, f k = Some r -> forall k', (k <= k')%nat -> f k' = Some r) ->
  forall k1 k2, alike (returned (f k1)) (returned (f k2)).
Proof.
  intros M k1 k2. destruct (f k1) as [r1|] eqn:E1; [|left; reflexivity]. destruct (f k2) as [r2|] eqn:E2; [|right; left; reflexivity].
  right. right. left. pose proof (M _ _ E1 (Nat.max k1 k2) (Nat.le_max_l _ _)) as H1. pose proof (M _ _ E2 (Nat.max k1 k2) (Nat.le_max_r _ _)) as H2.
  cbn [returned]. congruence.
Qed.
Lemma readTSLs_more n d : forall k, (n <= k)%nat -> forall t s seen l r, Dos3Model.readTSLs n d t s seen l = Some r -> Dos3Model.readTSLs k d t s seen l = Some r.
Proof.
  induction n as [|n IH]; intros k Hk t s seen l r E; [discriminate|]. destruct k as [|k]; [lia|]. cbn [Dos3Model.readTSLs] in *.
  destruct (_ || _); [|exact E]. destruct (Dos3Model.seen_in _ _ _); [exact E|].
  destruct (UnmarshalLogicalSector _ _ _ _ _); [|exact E|exact E]. apply IH; [lia | exact E].
Qed.
Lemma dos_Catalog_more d k r : Dos3Model.Catalog k d = Some r -> forall k', (k <= k')%nat -> Dos3Model.Catalog k' d = Some r.
Proof.
  intros E k' Hk. unfold Dos3Model.Catalog in *. destruct (Dos3Model.ReadCatalog k d) as [x|] eqn:E1; [|discriminate].
  rewrite (ReadCatalog_more _ _ _ _ Hk E1). exact E.
Qed.
Lemma dos_GetFile_more d n k r : Dos3Model.GetFile k d n = Some r -> forall k', (k <= k')%nat -> Dos3Model.GetFile k' d n = Some r.
Proof.
  intros E k' Hk. unfold Dos3Model.GetFile in *.
  assert (forall x, Dos3Model.fileForFilename k d n = Some x -> Dos3Model.fileForFilename k' d n = Some x) as H1.
  { intros x Ex. unfold Dos3Model.fileForFilename in *. destruct (Dos3Model.ReadCatalog k d) as [y|] eqn:E1; [|discriminate].
    rewrite (ReadCatalog_more _ _ _ _ Hk E1). exact Ex. }
  destruct (Dos3Model.fileForFilename k d n) as [x|] eqn:E1; [|discriminate]. rewrite (H1 _ eq_refl). destruct x as [fd|e|]; [|exact E|exact E].
  assert (forall x, Dos3Model.Contents k fd d = Some x -> Dos3Model.Contents k' fd d = Some x) as H2.
  { intros x Ex. unfold Dos3Model.Contents in *. destruct (Dos3Model.readTSLs k d _ _ [] []) as [y|] eqn:E2; [|discriminate].
    rewrite (readTSLs_more _ _ _ Hk _ _ _ _ _ E2). exact Ex. }
  cbv zeta in *. destruct (Dos3Model.Contents k fd d) as [x|] eqn:E2; [|discriminate]. rewrite (H2 _ eq_refl). exact E.
Qed.

(** ** Two orders of visiting the map *)
Definition volalike (r1 r2 : option (res Volume)) : Prop :=
  (exists v1 v2, r1 = Some (Ok v1) /\ r2 = Some (Ok v2) /\ vol_descriptors v1 = vol_descriptors v2) \/
  ((forall v, r1 <> Some (Ok v)) /\ (forall v, r2 <> Some (Ok v))).
Lemma readVolume_orders d i1 i2 k : an_order i1 -> an_order i2 -> volalike (readVolume i1 k d 2) (readVolume i2 k d 2).
Proof.
  intros O1 O2. unfold readVolume. destruct (UnmarshalBlock (VDKB_FromBlock zeroVDKB) VDKB_SetBlock d 2) as [key|e|]; cbn [obind]; try (right; split; discriminate).
  destruct (readVolumeBitMap d _) as [bm|e|]; cbn [obind]; try (right; split; discriminate). destruct (readVDB k d 2 _ [] []) as [[[bs fi]|e|]|]; cbn [obind]; try (right; split; discriminate).
  cbv zeta. destruct (readSubdirs k d _ [] fi) as [[[byB fi']|e|]|]; cbn [obind]; try (right; split; discriminate).
  assert (forall i j, an_order i -> an_order j -> (exists n1, nameSubdirs k 2 byB fi' (i byB) [] = Some (Ok n1)) -> exists n2, nameSubdirs k 2 byB fi' (j byB) [] = Some (Ok n2)) as HX.
  { intros i j Oi Oj Hn. apply nameSubdirs_climbs in Hn. apply nameSubdirs_climbs. apply Forall_forall. intros x Hx.
    rewrite Forall_forall in Hn. apply Hn. eapply Permutation_in; [symmetry; apply Oi|]. eapply Permutation_in; [apply Oj | exact Hx]. }
  destruct (nameSubdirs k 2 byB fi' (i1 byB) []) as [[n1|e|]|] eqn:E1; cbn [obind].
  - destruct (HX i1 i2 O1 O2 (ex_intro _ n1 E1)) as [n2 ->]. cbn [obind]. left. eexists _, _. split; [reflexivity|]. split; reflexivity.
  - right. split; [discriminate|]. destruct (nameSubdirs k 2 byB fi' (i2 byB) []) as [[n2|e2|]|] eqn:E2; cbn [obind]; try discriminate.
    destruct (HX i2 i1 O2 O1 (ex_intro _ n2 E2)) as [n1 X]. rewrite E1 in X. discriminate X.
  - right. split; [discriminate|]. destruct (nameSubdirs k 2 byB fi' (i2 byB) []) as [[n2|e2|]|] eqn:E2; cbn [obind]; try discriminate.
    destruct (HX i2 i1 O2 O1 (ex_intro _ n2 E2)) as [n1 X]. rewrite E1 in X. discriminate X.
  - right. split; [discriminate|]. destruct (nameSubdirs k 2 byB fi' (i2 byB) []) as [[n2|e2|]|] eqn:E2; cbn [obind]; try discriminate.
    destruct (HX i2 i1 O2 O1 (ex_intro _ n2 E2)) as [n1 X]. rewrite E1 in X. discriminate X.
Qed.

(** ** Factories that differ in not deciding *)
Definition similar {Op} (f g : factory Op) : Prop :=
  f_name f = f_name g /\ f_order f = f_order g /\ (forall d, f_operator f d = f_operator g d) /\
  (forall d, f_seems f d = None \/ f_seems g d = None \/ f_seems f d = f_seems g d).
Lemma similar_factories {Op} sw single system order (fs gs : list (factory Op)) : Forall2 similar fs gs ->
  try_factories sw single system order fs = Some Panic \/ try_factories sw single system order gs = Some Panic \/
  try_factories sw single system order gs = try_factories sw single system order fs.
Proof.
  intros H. induction H as [|f g fs gs (En & Eo & Ep & Es) _ IH]; [right; right; reflexivity|]. cbn [try_factories]. rewrite <- Eo.
  destruct (Swizzle sw _) as [db|e|]; [|right; right; reflexivity|right; right; reflexivity]. rewrite <- Ep.
  destruct (single && negb (beq system (s2b "auto"))); [right; right; reflexivity|].
  destruct (Es db) as [E|[E|E]]; [rewrite E; left; reflexivity|rewrite E; right; left; reflexivity|]. rewrite <- E.
  destruct (f_seems f db) as [[|]|]; [|exact IH|left; reflexivity].
  destruct (f_operator f db); [right; right; reflexivity|exact IH|right; right; reflexivity].
Qed.
Lemma similar_orders {Op} raw single system (fs gs : list (factory Op)) orders : Forall2 similar fs gs ->
  try_orders raw single system fs orders = Panic \/ try_orders raw single system gs orders = Panic \/
  try_orders raw single system gs orders = try_orders raw single system fs orders.
Proof.
  intros H. induction orders as [|o rest IH]; [right; right; reflexivity|]. cbn [try_orders].
  destruct (Swizzle raw _) as [sw|e|]; [|right; right; reflexivity|right; right; reflexivity].
  destruct (similar_factories sw single system o fs gs H) as [E|[E|E]]; rewrite E; [left; reflexivity|right; left; reflexivity|].
  destruct (try_factories sw single system o fs); [right; right; reflexivity|exact IH].
Qed.
Lemma similar_filter {Op} (p : bytes -> bool) (fs gs : list (factory Op)) : Forall2 similar fs gs ->
  Forall2 similar (filter (fun f => p (f_name f)) fs) (filter (fun f => p (f_name f)) gs).
Proof.
  intros H. induction H as [|f g fs gs Hfg _ IH]; [constructor|]. cbn [filter]. rewrite <- (proj1 Hfg).
  destruct (p (f_name f)); [constructor; assumption|exact IH].
Qed.
Lemma similar_hdv {Op} raw (fs gs : list (factory Op)) : Forall2 similar fs gs -> openHDV_loop raw gs = openHDV_loop raw fs.
Proof.
  intros H. induction H as [|f g fs gs (En & _ & Ep & _) _ IH]; [reflexivity|]. cbn [openHDV_loop]. rewrite <- En, <- Ep, IH. reflexivity.
Qed.
Lemma similar_len {Op} (fs gs : list (factory Op)) : Forall2 similar fs gs -> zlen gs = zlen fs.
Proof. intros H. induction H as [|f g fs gs _ _ IH]; [reflexivity|]. rewrite !zlen_cons, IH. reflexivity. Qed.
Lemma similar_open {Op} c name order system (fs gs : list (factory Op)) : Forall2 similar fs gs ->
  alike (OpenImage c name order system fs) (OpenImage c name order system gs).
Proof.
  intros H. unfold OpenImage. cbv zeta. destruct (zlen c =? FloppyDiskBytes).
  - unfold openDoOrPo. cbv zeta. pose proof (similar_filter (fun n => beq system (s2b "auto") || beq system n) fs gs H) as HF. cbv beta in HF.
    rewrite (similar_len _ _ HF). destruct (zlen _ =? 0); [apply alike_refl|].
    destruct (candidate_orders order _) as [os|e|]; cbn [rbind]; [|apply alike_refl|apply alike_refl].
    destruct (similar_orders c (zlen os =? 1) system _ _ os HF) as [E|[E|E]]; [left; exact E|right; left; exact E|right; right; left; symmetry; exact E].
  - destruct (zlen c =? FloppyDiskBytes13Sector); [apply alike_refl|]. destruct (beq _ _); [|apply alike_refl].
    unfold openHDV. cbv zeta. rewrite (similar_hdv c fs gs H). apply alike_refl.
Qed.

Section Repeat.
  Context (i1 i2 : list (Z * Subdirectory) -> list (Z * Subdirectory)) (k1 k2 : nat) (O1 : an_order i1) (O2 : an_order i2).

  Lemma prodos_seems_alike d : prodos_SeemsToMatch i1 k1 d = None \/ prodos_SeemsToMatch i2 k2 d = None \/ prodos_SeemsToMatch i1 k1 d = prodos_SeemsToMatch i2 k2 d.
  Proof.
    unfold prodos_SeemsToMatch. destruct (readVolume i1 k1 d 2) as [r1|] eqn:E1; [|left; reflexivity].
    destruct (readVolume i2 k2 d 2) as [r2|] eqn:E2; [|right; left; reflexivity].
    pose proof (readVolume_mono _ _ _ _ _ E1 (Nat.max k1 k2) (Nat.le_max_l _ _)) as H1. pose proof (readVolume_mono _ _ _ _ _ E2 (Nat.max k1 k2) (Nat.le_max_r _ _)) as H2.
    pose proof (readVolume_orders d i1 i2 (Nat.max k1 k2) O1 O2) as HV. rewrite H1, H2 in HV.
    destruct HV as [(v1 & v2 & X1 & X2 & _)|[N1 N2]].
    - injection X1 as ->. injection X2 as ->. right. right. reflexivity.
    - destruct r1 as [v|e|]; [contradiction (N1 v); reflexivity| |left; reflexivity].
      destruct r2 as [v|e2|]; [contradiction (N2 v); reflexivity|right; right; reflexivity|right; left; reflexivity].
  Qed.
  Lemma dos_seems_alike d : Dos3Model.dos3_SeemsToMatch k1 d = None \/ Dos3Model.dos3_SeemsToMatch k2 d = None \/ Dos3Model.dos3_SeemsToMatch k1 d = Dos3Model.dos3_SeemsToMatch k2 d.
  Proof.
    unfold Dos3Model.dos3_SeemsToMatch. destruct (Dos3Model.ReadCatalog k1 d) as [r1|] eqn:E1; [|left; reflexivity].
    destruct (Dos3Model.ReadCatalog k2 d) as [r2|] eqn:E2; [|right; left; reflexivity].
    pose proof (ReadCatalog_more _ _ _ _ (Nat.le_max_l k1 k2) E1) as H1. pose proof (ReadCatalog_more _ _ _ _ (Nat.le_max_r k1 k2) E2) as H2.
    right. right. assert (r1 = r2) as -> by congruence. reflexivity.
  Qed.
  Lemma similar_facs : Forall2 similar (DiskOperatorFactories i1 k1) (DiskOperatorFactories i2 k2).
  Proof.
    constructor; [|constructor; [|constructor; [|constructor]]]; (split; [reflexivity|split; [reflexivity|split; [reflexivity|]]]).
    - exact dos_seems_alike.
    - intros d. right. right. reflexivity.
    - exact prodos_seems_alike.
  Qed.
  Lemma open_alike img order system : palike (OpenFilename i1 k1 img order system) (OpenFilename i2 k2 img order system).
  Proof.
    unfold OpenFilename. destruct (beq img dash); (apply palike_bind; [apply palike_refl|]; intros c; constructor; apply similar_open; exact similar_facs).
  Qed.
  Lemma catalog_alike op d : d = [] \/ i1 = i2 -> alike (Op_Catalog i1 k1 op d) (Op_Catalog i2 k2 op d).
  Proof.
    intros Hd. destruct op as [x|o|x]; cbn [Op_Catalog].
    - apply (returned_alike (fun k => Dos3Model.Catalog k x)). intros k r E. exact (dos_Catalog_more x k r E).
    - apply alike_refl.
    - destruct Hd as [->| <-]; [|apply (returned_alike (fun k => Catalog i1 k x d)); intros k r E; exact (Catalog_mono i1 x d k r E)].
      destruct (Catalog i1 k1 x []) as [r1|] eqn:E1; [|left; reflexivity]. destruct (Catalog i2 k2 x []) as [r2|] eqn:E2; [|right; left; reflexivity].
      pose proof (Catalog_mono _ _ _ _ _ E1 (Nat.max k1 k2) (Nat.le_max_l _ _)) as H1. pose proof (Catalog_mono _ _ _ _ _ E2 (Nat.max k1 k2) (Nat.le_max_r _ _)) as H2.
      cbn [returned]. destruct r1 as [l1|e1|]; [|destruct r2 as [l2|e2|]|left; reflexivity].
      + rewrite (C53_root_lemma _ _ _ _ _ O1 O2 H1) in H2. injection H2 as <-. apply alike_refl.
      + rewrite (C53_root_lemma _ _ _ _ _ O2 O1 H2) in H1. discriminate H1.
      + right. right. right. eauto.
      + right. left. reflexivity.
  Qed.
  Lemma getfile_alike op n : alike (Op_GetFile k1 op n) (Op_GetFile k2 op n).
  Proof.
    destruct op as [x|o|x]; cbn [Op_GetFile]; [|apply alike_refl|apply alike_refl].
    apply (returned_alike (fun k => Dos3Model.GetFile k x n)). intros k r E. exact (dos_GetFile_more x n k r E).
  Qed.
  Lemma commands_alike dir p : a_command dir p -> dir = false \/ i1 = i2 -> palike (p i1 k1) (p i2 k2).
  Proof.
    intros H Hd. destruct H as [order system short img d Hx|order system img n|order system miss img n|order system ft ow addr img tgt src|order img n addr start| | |file loc raw|].
    - unfold LsCmd_Run. apply palike_bind; [apply open_alike|]. intros [op o].
      destruct (_ && _); [apply palike_refl|]. apply palike_bind; [|intros fds; apply palike_refl]. constructor. apply catalog_alike.
      destruct Hd as [Hd|Hd]; [left; exact (Hx Hd)|right; exact Hd].
    - unfold DumpCmd_Run. apply palike_bind; [apply open_alike|]. intros [op o]. apply palike_bind; [|intros f; apply palike_refl]. constructor. apply getfile_alike.
    - unfold DeleteCmd_Run. apply palike_bind; [apply open_alike|]. intros [op o]. apply palike_refl.
    - unfold PutCmd_Run. destruct (_ && _); [apply palike_refl|]. apply palike_bind; [apply open_alike|]. intros [op o]. apply palike_refl.
    - unfold MkHelloCmd_Run. cbv zeta. destruct (negb _); [apply palike_refl|]. destruct (_ <? _); [apply palike_refl|].
      apply palike_bind; [apply open_alike|]. intros [op o]. apply palike_refl.
    - apply palike_refl.
    - apply palike_refl.
    - unfold DecodeCmd_Run. apply palike_bind; [apply palike_refl|]. intros c. apply palike_bind; [|intros l; apply palike_refl]. constructor.
      apply (returned_alike (fun k => applesoft_Decode k c loc)). intros k r E. exact (Decode_mono c loc k r E).
    - apply palike_refl.
  Qed.
End Repeat.

Lemma C106_lemma dir p i1 i2 k1 k2 w w1 s1 w2 s2 : a_command dir p -> dir = false \/ i1 = i2 -> an_order i1 -> an_order i2 ->
  main_run (p i1 k1) w = (w1, s1) -> main_run (p i2 k2) w = (w2, s2) -> s1 <> 2 -> s2 <> 2 -> w1 = w2 /\ s1 = s2.
Proof. intros H Hd O1 O2 E1 E2 N1 N2. exact (palike_main _ _ _ _ _ _ _ (commands_alike i1 i2 k1 k2 O1 O2 dir p H Hd) E1 E2 N1 N2). Qed.
Lemma C106_same_lemma p i1 i2 k1 k2 w w1 s1 w2 s2 : a_command false p -> an_order i1 -> an_order i2 ->
  main_run (p i1 k1) w = (w1, s1) -> main_run (p i2 k2) w = (w2, s2) -> s1 <> 2 -> s2 <> 2 -> w1 = w2 /\ s1 = s2.
Proof. intros H. exact (C106_lemma false p i1 i2 k1 k2 w w1 s1 w2 s2 H (or_introl eq_refl)). Qed.
Lemma C106_one_lemma p i k1 k2 w w1 s1 w2 s2 : a_command true p -> an_order i ->
  main_run (p i k1) w = (w1, s1) -> main_run (p i k2) w = (w2, s2) -> s1 <> 2 -> s2 <> 2 -> w1 = w2 /\ s1 = s2.
Proof. intros H O. exact (C106_lemma true p i i k1 k2 w w1 s1 w2 s2 H (or_intror eq_refl) O O). Qed.

(** ** Where the order shows *)
(** A (block 7): its parent is a block outside the volume; B (block 8) is its own parent. *)
Definition ex_astray : bytes :=
  let d := zeros 8192 in
  let d := putb d 2 (ex_kb 0 0 0xF4 (s2b "DISK") 0 6 [ex_pd 0xD1 (s2b "A") 0x0F 7 1 [0; 2; 0]; ex_pd 0xD1 (s2b "B") 0x0F 8 1 [0; 2; 0]]) in
  let d := putb d 7 (ex_kb 0 0 0xE1 (s2b "A") 0x75 99 []) in
  putb d 8 (ex_kb 0 0 0xE1 (s2b "B") 0x75 8 []).
Lemma one_way_order : an_order one_way.
Proof. intros m. apply Permutation_refl. Qed.
Lemma other_way_order : an_order other_way.
Proof. intros m. symmetry. apply Permutation_rev. Qed.
Lemma ex_astray_stuck k : readVolume one_way k ex_astray 2 = None.
Proof.
  destruct (readVolume one_way k ex_astray 2) as [r|] eqn:E; [exfalso | reflexivity].
  apply (readVolume_mono _ _ _ _ _) with (fuel' := (5 + k)%nat) in E; [|lia]. revert E. unfold readVolume.
  assert (exists bm, readVolumeBitMap ex_astray 6 = Ok bm) as [bm Eb] by (vm_compute; eexists; reflexivity).
  rewrite Unm_vk by (try lia; dev). cbn [obind]. assert (vh_BitMapPointer (vk_Header (mk_vk ex_astray 2)) = 6) as -> by (vm_compute; reflexivity).
  rewrite Eb. cbn [obind]. rewrite (readVDB_mono _ _ 1%nat _ _ _ (Ok ([], []))); [|vm_compute; reflexivity | lia]. cbn [obind]. cbv zeta.
  remember [(8, mk_sub ex_astray 8 []); (7, mk_sub ex_astray 7 [])] as m eqn:Em.
  rewrite (readSubdirs_mono _ 4%nat _ _ _ (Ok (m, []))); [|rewrite Em; vm_compute; reflexivity | lia]. cbn [obind].
  unfold one_way. rewrite nameSubdirs_spec. destruct m as [|x m']; [discriminate Em|]. assert (snd x = mk_sub ex_astray 8 []) as -> by (injection Em as -> _; reflexivity).
  assert (sh_ParentPointer (sk_Header (sd_keyBlock (mk_sub ex_astray 8 []))) = 8) as Ep by (vm_compute; reflexivity). rewrite Ep.
  assert (forall fuel, parentDirName fuel 8 2 (x :: m') [] = None) as ->; [|cbn [obind]; discriminate].
  induction fuel as [|fuel IH]; [reflexivity|]. cbn [parentDirName]. assert (mget Z.eqb 8 (x :: m') = Some (mk_sub ex_astray 8 [])) as -> by (rewrite Em; reflexivity).
  change (mget Z.eqb 8 (@nil (Z * Z))) with (@None Z). cbn [orb Z.eqb Pos.eqb]. cbv zeta. rewrite Ep, IH. reflexivity.
Qed.
(** The only factory tried on a .hdv file is the ProDOS one. *)
Lemma ls_hdv d i k dir : (forall facs : list (factory AnyOp), OpenImage d (s2b "x.hdv") (s2b "auto") (s2b "auto") facs = openHDV d (s2b "auto") (s2b "auto") facs) ->
  openHDV d (s2b "auto") (s2b "auto") (DiskOperatorFactories i k) = Ok (OProdos d, s2b "po") ->
  main_run (plain_ls dir i k) (hdv_world d) = main_run (fds <<- plift (returned (Catalog i k d dir)) ;; ls_lines true fds) (hdv_world d).
Proof.
  intros H1 H2. unfold main_run, plain_ls, LsCmd_Run, OpenFilename. change (beq (s2b "x.hdv") dash) with false. cbv iota. rewrite !run_pbind. cbn [run].
  assert (sys_read (w_fs (hdv_world d) (s2b "x.hdv")) = Ok d) as -> by reflexivity. cbn [run plift]. rewrite H1, H2. cbn [run plift Op_HasSubdirs Op_Catalog negb]. rewrite Bool.andb_false_r. rewrite run_pbind. reflexivity.
Qed.
Lemma astray_open i k : openHDV ex_astray (s2b "auto") (s2b "auto") (DiskOperatorFactories i k) = Ok (OProdos ex_astray, s2b "po").
Proof. assert (zlen ex_astray = 8192) as L by (vm_compute; reflexivity). unfold openHDV. cbv zeta. rewrite L. cbn - [ex_astray beq]. reflexivity. Qed.
Lemma C106_crash_lemma : exists d w', hopeless (plain_ls [] one_way) (hdv_world d) /\ outcome (plain_ls [] other_way) (hdv_world d) w' 1.
Proof.
  assert (forall facs : list (factory AnyOp), OpenImage ex_astray (s2b "x.hdv") (s2b "auto") (s2b "auto") facs = openHDV ex_astray (s2b "auto") (s2b "auto") facs) as HO.
  { intros facs. unfold OpenImage. cbv zeta. assert (zlen ex_astray = 8192) as -> by (vm_compute; reflexivity). reflexivity. }
  exists ex_astray, (hdv_world ex_astray). split.
  - intros k. rewrite (ls_hdv ex_astray one_way k [] HO (astray_open one_way k)). unfold Catalog. rewrite ex_astray_stuck. reflexivity.
  - split; [right; reflexivity|]. exists 5%nat. intros k Hk. rewrite (ls_hdv ex_astray other_way k [] HO (astray_open other_way k)).
    assert (exists e, Catalog other_way 5 ex_astray [] = Some (Err e)) as [e E] by (vm_compute; eexists; reflexivity).
    rewrite (Catalog_mono _ _ _ _ _ E k Hk). reflexivity.
Qed.
Definition ex_pair : bytes :=
  let d := zeros 8192 in
  let d := putb d 2 (ex_kb 0 0 0xF4 (s2b "DISK") 0 6 [ex_pd 0xD1 (s2b "A") 0x0F 7 1 [0; 2; 0]; ex_pd 0xD1 (s2b "A") 0x0F 8 1 [0; 2; 0]]) in
  let d := putb d 7 (ex_kb 0 0 0xE1 (s2b "A") 0x75 2 [ex_pd 0x13 (s2b "ONE") 4 20 1 [1; 0; 0]]) in
  putb d 8 (ex_kb 0 0 0xE1 (s2b "A") 0x75 2 [ex_pd 0x13 (s2b "TWO") 4 21 1 [2; 0; 0]]).
Lemma pair_open i k : openHDV ex_pair (s2b "auto") (s2b "auto") (DiskOperatorFactories i k) = Ok (OProdos ex_pair, s2b "po").
Proof. assert (zlen ex_pair = 8192) as L by (vm_compute; reflexivity). unfold openHDV. cbv zeta. rewrite L. cbn - [ex_pair beq]. reflexivity. Qed.
Lemma C106_twins_lemma : exists d w1 w2, w_stdout w1 = s2b "ONE" ++ [10] /\ w_stdout w2 = s2b "TWO" ++ [10] /\
  outcome (plain_ls (s2b "A") one_way) (hdv_world d) w1 0 /\ outcome (plain_ls (s2b "A") other_way) (hdv_world d) w2 0.
Proof.
  assert (forall facs : list (factory AnyOp), OpenImage ex_pair (s2b "x.hdv") (s2b "auto") (s2b "auto") facs = openHDV ex_pair (s2b "auto") (s2b "auto") facs) as HO.
  { intros facs. unfold OpenImage. cbv zeta. assert (zlen ex_pair = 8192) as -> by (vm_compute; reflexivity). reflexivity. }
  assert (forall i nm, (match Catalog i 5 ex_pair (s2b "A") with Some (Ok l) => map d_name l | _ => [] end) = [nm] ->
    outcome (plain_ls (s2b "A") i) (hdv_world ex_pair) (add_out (hdv_world ex_pair) (nm ++ [10])) 0) as H.
  { intros i nm N. split; [left; reflexivity|]. exists 5%nat. intros k Hk. rewrite (ls_hdv ex_pair i k (s2b "A") HO (pair_open i k)).
    destruct (Catalog i 5 ex_pair (s2b "A")) as [[l|e|]|] eqn:E; [|discriminate N..]. rewrite (Catalog_mono _ _ _ _ _ E k Hk).
    destruct l as [|fd [|? ?]]; [discriminate N| |discriminate N]. injection N as N. unfold main_run. rewrite run_pbind. cbn [returned plift run ls_lines]. unfold ls_line. cbn [negb andb]. rewrite N. reflexivity. }
  exists ex_pair, (add_out (hdv_world ex_pair) (s2b "ONE" ++ [10])), (add_out (hdv_world ex_pair) (s2b "TWO" ++ [10])). split; [reflexivity|]. split; [reflexivity|].
  split; apply H; vm_compute; reflexivity.
Qed.
Lemma C106_example_lemma : a_command false (plain_ls []) /\ an_order one_way /\ an_order other_way /\ one_way <> other_way /\
  exists d w1, w_stdout w1 = s2b "A" ++ [10] ++ s2b "A" ++ [10] /\ outcome (plain_ls [] one_way) (hdv_world d) w1 0 /\ outcome (plain_ls [] other_way) (hdv_world d) w1 0.
Proof.
  assert (forall facs : list (factory AnyOp), OpenImage ex_pair (s2b "x.hdv") (s2b "auto") (s2b "auto") facs = openHDV ex_pair (s2b "auto") (s2b "auto") facs) as HO.
  { intros facs. unfold OpenImage. cbv zeta. assert (zlen ex_pair = 8192) as -> by (vm_compute; reflexivity). reflexivity. }
  split; [constructor; reflexivity|]. split; [exact one_way_order|]. split; [exact other_way_order|]. split.
  { intros H. assert (forall m, one_way m = other_way m) as X by (rewrite H; reflexivity).
    specialize (X [(1, mk_sub ex_pair 7 []); (2, mk_sub ex_pair 7 [])]). apply (f_equal (map fst)) in X. discriminate X. }
  exists ex_pair, (add_out (add_out (hdv_world ex_pair) (s2b "A" ++ [10])) (s2b "A" ++ [10])). split; [reflexivity|].
  assert (forall i, (match Catalog i 5 ex_pair [] with Some (Ok l) => map d_name l | _ => [] end) = [s2b "A"; s2b "A"] ->
    outcome (plain_ls [] i) (hdv_world ex_pair) (add_out (add_out (hdv_world ex_pair) (s2b "A" ++ [10])) (s2b "A" ++ [10])) 0) as H.
  { intros i N. split; [left; reflexivity|]. exists 5%nat. intros k Hk. rewrite (ls_hdv ex_pair i k [] HO (pair_open i k)).
    destruct (Catalog i 5 ex_pair []) as [[l|e|]|] eqn:E; [|discriminate N..]. rewrite (Catalog_mono _ _ _ _ _ E k Hk).
    destruct l as [|fd [|fd2 [|? ?]]]; [discriminate N|discriminate N| |discriminate N]. injection N as N N2. unfold main_run. rewrite run_pbind. cbn [returned plift run ls_lines]. unfold ls_line. cbn [negb andb]. rewrite N, N2. reflexivity. }
  split; apply H; vm_compute; reflexivity.
Qed.
