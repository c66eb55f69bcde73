(** CmdStmtProofs.v -- the property lemmas of the command layer: C05, C06, C63-C66, C74. *)
From Verif Require Import GoBase GoLemmas TypesModel DiskModel DiskSpec DiskProofs DiskOpenProofs.
From Verif Require Import SupermonModel Dos3Model ProdosModel BasicModel CmdModel CmdSpec CmdProofs.
From Coq Require Import ZifyBool ZifyNat.
Ltac Zify.zify_post_hook ::= Z.div_mod_to_equations.
Local Opaque zrange zeros sub.

(** ** C63 *)
Lemma exists_iff w n : file_exists w n <-> sys_notexist (w_fs w n) = false.
Proof.
  unfold file_exists. destruct (w_fs w n); cbn [sys_notexist]; split; try (intros [H1 H2]; try contradiction; reflexivity);
    try discriminate; intros _; (split; discriminate).
Qed.
Lemma writable_iff w n : writable w n <-> can_write (w_fs w n) = true.
Proof.
  unfold writable. destruct (w_fs w n) as [| |c r wr|]; cbn [can_write]; split; try discriminate.
  - intros _. reflexivity.
  - intros _. left. reflexivity.
  - intros [H|(c & r & H)]; discriminate.
  - intros [H|(c' & r' & H)]; [discriminate|]. injection H as _ _ ->. reflexivity.
  - intros H. right. exists c, r. destruct wr; [reflexivity|discriminate].
  - intros [H|(c & r & H)]; discriminate.
Qed.
Lemma beq_false (a b : bytes) : a <> b -> beq a b = false.
Proof. intros H. destruct (beq a b) eqn:E; [apply beq_eq in E; contradiction|reflexivity]. Qed.

Lemma C63_lemma : forall w name contents force w' r, run (WriteOutput name contents force) w = (w', r) ->
  r <> Panic /\
  (name = s2b "-" -> same_files w w' /\ (r = Ok tt -> w_stdout w' = w_stdout w ++ contents) /\
     (w_outroom w = None -> r = Ok tt)) /\
  (name <> s2b "-" ->
     w_stdout w' = w_stdout w /\ same_files_but w w' name /\
     (force = false -> file_exists w name -> w' = w /\ exists e, r = Err e) /\
     (r = Ok tt -> holds w' name contents) /\
     (w_room w = None -> (r = Ok tt <-> (force = true \/ ~ file_exists w name) /\ writable w name)) /\
     (forall e, r = Err e -> w' = w \/ (runs_full w contents /\ exists p, prefix p contents /\ holds w' name p))).
Proof.
  intros w name contents force w' r H.
  destruct (beq name dash) eqn:Ed.
  { unfold WriteOutput in H. rewrite Ed in H. apply beq_eq in Ed. subst name. cbn [run] in H. unfold sys_stdout in H.
    destruct (fits (w_outroom w) contents) eqn:Ef; cbn [run] in H; injection H as <- <-.
    - split; [discriminate|]. split; [|intros E; contradiction E; reflexivity].
      intros _. split; [intros n; reflexivity|]. split; intros _; reflexivity.
    - split; [discriminate|]. split; [|intros E; contradiction E; reflexivity].
      intros _. split; [intros n; reflexivity|]. split; [discriminate|].
      intros E. rewrite E in Ef. discriminate. }
  assert (Hn : name <> s2b "-") by (intros E; unfold dash in Ed; rewrite <- E, beq_refl in Ed; discriminate).
  assert (Hw : forall x y, sys_write w name contents = (x, y) ->
     w_stdout x = w_stdout w /\ same_files_but w x name /\ y <> Panic /\
     (y = Ok tt -> holds x name contents) /\ (w_room w = None -> (y = Ok tt <-> writable w name)) /\
     (forall e, y = Err e -> x = w \/ (runs_full w contents /\ exists p, prefix p contents /\ holds x name p))).
  { intros x y E. unfold sys_write in E.
    destruct (can_write (w_fs w name)) eqn:Ec; [destruct (fits (w_room w) contents) eqn:Ef|]; injection E as <- <-.
    - split; [reflexivity|]. split; [intros m Hm; apply set_fs_other; exact Hm|]. split; [discriminate|].
      split; [intros _; destruct (written_holds (w_fs w name) contents) as (a & b & E); exists a, b; rewrite set_fs_same; exact E|].
      split; [intros _; rewrite writable_iff; split; [intros _; exact Ec|reflexivity]|]. intros e E; discriminate.
    - split; [reflexivity|]. split; [intros m Hm; apply set_fs_other; exact Hm|]. split; [discriminate|].
      split; [discriminate|]. split; [intros E; rewrite E in Ef; discriminate|].
      intros e _. right. split.
      + destruct (w_room w) as [m|] eqn:Er; cbn [fits] in Ef; [|discriminate]. exists m. split; [exact Er|lia].
      + exists (cut (w_room w) contents). split; [apply prefix_cut|].
        destruct (written_holds (w_fs w name) (cut (w_room w) contents)) as (a & b & E). exists a, b. rewrite set_fs_same. exact E.
    - split; [reflexivity|]. split; [intros m Hm; reflexivity|]. split; [discriminate|].
      split; [discriminate|]. split; [intros _; rewrite writable_iff, Ec; split; discriminate|].
      intros e _. left. reflexivity. }
  unfold WriteOutput in H. rewrite Ed in H.
  assert (K : force = false -> file_exists w name -> w' = w /\ exists e, r = Err e).
  { intros -> He. apply exists_iff in He. cbn [run] in H. rewrite He in H. cbn [negb perr run] in H.
    injection H as <- <-. split; [reflexivity|]. eexists. reflexivity. }
  destruct force.
  - cbn [run] in H. destruct (sys_write w name contents) as [x y] eqn:E. cbn [run] in H. injection H as <- <-.
    destruct (Hw x y eq_refl) as (H1 & H2 & H3 & H4 & H5 & H6).
    split; [exact H3|]. split; [intros E'; contradiction|]. intros _. split; [exact H1|]. split; [exact H2|].
    split; [discriminate|]. split; [exact H4|]. split; [|exact H6].
    intros Hr. rewrite (H5 Hr). split; [intros Hx; split; [left; reflexivity|exact Hx]|intros [_ Hx]; exact Hx].
  - cbn [run] in H. destruct (sys_notexist (w_fs w name)) eqn:En; cbn [negb perr run] in H.
    + destruct (sys_write w name contents) as [x y] eqn:E. injection H as <- <-.
      destruct (Hw x y eq_refl) as (H1 & H2 & H3 & H4 & H5 & H6).
      split; [exact H3|]. split; [intros E'; contradiction|]. intros _. split; [exact H1|]. split; [exact H2|].
      split; [exact K|]. split; [exact H4|]. split; [|exact H6].
      intros Hr. rewrite (H5 Hr). split; [|intros [_ Hx]; exact Hx].
      intros Hx; split; [right; rewrite exists_iff, En; discriminate|exact Hx].
    + injection H as <- <-. split; [discriminate|]. split; [intros E'; contradiction|].
      intros _. split; [reflexivity|]. split; [intros m _; reflexivity|]. split; [exact K|].
      split; [discriminate|]. split; [|intros e _; left; reflexivity].
      intros _. split; [discriminate|]. intros [[E|E] _]; [discriminate|]. exfalso. apply E, exists_iff, En.
Qed.

(** ** C66 *)
Lemma name_order_val n o : name_order n o ->
  OrderFromFilename n DiskOrderUnknown = match o with Some x => x | None => [] end.
Proof.
  intros H. destruct H as [H|H|H1 H2 H3].
  - apply OrderFromFilename_do. exact H.
  - apply OrderFromFilename_po. exact H.
  - apply OrderFromFilename_other; assumption.
Qed.
Lemma name_order_ex n : exists o, name_order n o.
Proof.
  destruct (beq (to_lower (path_Ext n)) (s2b ".dsk")) eqn:E1;
    [exists (Some (s2b "do")); constructor; left; apply ext_dsk; exact E1|].
  destruct (beq (to_lower (path_Ext n)) (s2b ".do")) eqn:E2;
    [exists (Some (s2b "do")); constructor; right; apply ext_do; exact E2|].
  destruct (beq (to_lower (path_Ext n)) (s2b ".po")) eqn:E3;
    [exists (Some (s2b "po")); constructor; apply ext_po; exact E3|].
  exists None. constructor; intros H; [apply ext_dsk in H|apply ext_do in H|apply ext_po in H]; congruence.
Qed.
Lemma name_order_fun n o o' : name_order n o -> name_order n o' -> o = o'.
Proof.
  intros H H'. pose proof (name_order_val n o H) as E. rewrite (name_order_val n o' H') in E.
  destruct H, H'; try reflexivity; discriminate.
Qed.
Lemma known_names a b : forall x y, known a (s2b "auto") b (s2b "auto") x y -> name_order a x /\ name_order b y.
Proof.
  intros x y H. inversion H as [x' y' Hf|x' y' _ _ H1 H2]; subst; [|split; assumption].
  destruct Hf as [Hf|Hf]; contradiction Hf; reflexivity.
Qed.
Ltac known_flags :=
  let x := fresh "x" in let y := fresh "y" in let Hx := fresh in
  intros x y Hx; inversion Hx as [? ? _ G1 G2 G3 G4|? ? G1 G2 _ _]; subst;
  [ try (specialize (G1 eq_refl)); try (specialize (G3 eq_refl));
    try (specialize (G2 ltac:(discriminate))); try (specialize (G4 ltac:(discriminate))); subst; split; reflexivity
  | discriminate ].

Definition orders_spec (inN inF outN outF : bytes) (r : res (bytes * bytes)) : Prop :=
  match r with
  | Ok (f, t) => exists a b, known inN inF outN outF a b /\ chosen a b f t
  | Err _ => forall a b f t, known inN inF outN outF a b -> ~ chosen a b f t
  | Panic => False
  end.
Lemma getOrders_spec inN inF outN outF : order_flag inF -> order_flag outF ->
  orders_spec inN inF outN outF (getOrders inN inF outN outF).
Proof.
  intros Hi Ho.
  destruct (name_order_ex inN) as [a Ha]. destruct (name_order_ex outN) as [b Hb].
  pose proof (name_order_val inN a Ha) as Ea. pose proof (name_order_val outN b Hb) as Eb.
  assert (KF : forall a b, (inF <> s2b "auto" \/ outF <> s2b "auto") ->
      a = (if beq inF (s2b "auto") then None else Some inF) -> b = (if beq outF (s2b "auto") then None else Some outF) ->
      known inN inF outN outF a b).
  { intros a0 b0 Hf E1 E2. apply k_flags; [exact Hf| | | |]; intros E; subst; rewrite ?E, ?beq_refl, ?(beq_false _ _ E); reflexivity. }
  destruct Hi, Ho.
  - (* auto auto *)
    unfold getOrders. cbv zeta. rewrite Ea, Eb. clear Ea Eb KF.
    assert (Hk : known inN (s2b "auto") outN (s2b "auto") a b) by (apply k_names; [reflexivity|reflexivity|exact Ha|exact Hb]).
    assert (Hu : forall x y, known inN (s2b "auto") outN (s2b "auto") x y -> x = a /\ y = b).
    { intros x y Hx. apply known_names in Hx. destruct Hx as [H1 H2].
      split; [exact (name_order_fun _ _ _ H1 Ha)|exact (name_order_fun _ _ _ H2 Hb)]. }
    destruct Ha, Hb; cbn; try (eexists; eexists; split; [exact Hk|]; constructor; constructor);
      (intros x y f t Hx Hc; destruct (Hu x y Hx) as [-> ->]; inversion Hc as [? ? Hz|? ? Hz|? ? Hz]; inversion Hz).
  - cbn. eexists; eexists; split; [apply KF; [right; discriminate|reflexivity|reflexivity]|]. constructor. constructor.
  - cbn. eexists; eexists; split; [apply KF; [right; discriminate|reflexivity|reflexivity]|]. constructor. constructor.
  - cbn. eexists; eexists; split; [apply KF; [left; discriminate|reflexivity|reflexivity]|]. constructor. constructor.
  - cbn. intros x y f t Hx Hc. assert (E : x = Some (s2b "do") /\ y = Some (s2b "do")) by (revert x y Hx Hc; intros x y Hx _; revert x y Hx; known_flags).
    destruct E as [-> ->]. inversion Hc as [? ? Hz|? ? Hz|? ? Hz]; inversion Hz.
  - cbn. eexists; eexists; split; [apply KF; [left; discriminate|reflexivity|reflexivity]|]. constructor. constructor.
  - cbn. eexists; eexists; split; [apply KF; [left; discriminate|reflexivity|reflexivity]|]. constructor. constructor.
  - cbn. eexists; eexists; split; [apply KF; [left; discriminate|reflexivity|reflexivity]|]. constructor. constructor.
  - cbn. intros x y f t Hx Hc. assert (E : x = Some (s2b "po") /\ y = Some (s2b "po")) by (revert x y Hx Hc; intros x y Hx _; revert x y Hx; known_flags).
    destruct E as [-> ->]. inversion Hc as [? ? Hz|? ? Hz|? ? Hz]; inversion Hz.
Qed.
Lemma known_fun inN inF outN outF a b a' b' : known inN inF outN outF a b -> known inN inF outN outF a' b' -> a = a' /\ b = b'.
Proof.
  intros H H'. destruct H as [a b Hf G1 G2 G3 G4|a b G1 G2 G3 G4]; destruct H' as [a' b' Hf' K1 K2 K3 K4|a' b' K1 K2 K3 K4].
  - split.
    + destruct (beq inF (s2b "auto")) eqn:E; [apply beq_eq in E; rewrite (G1 E), (K1 E); reflexivity|].
      assert (inF <> s2b "auto") by (intros ->; rewrite beq_refl in E; discriminate). rewrite G2, K2 by assumption. reflexivity.
    + destruct (beq outF (s2b "auto")) eqn:E; [apply beq_eq in E; rewrite (G3 E), (K3 E); reflexivity|].
      assert (outF <> s2b "auto") by (intros ->; rewrite beq_refl in E; discriminate). rewrite G4, K4 by assumption. reflexivity.
  - destruct Hf; contradiction.
  - destruct Hf'; contradiction.
  - split; [exact (name_order_fun _ _ _ G3 K3)|exact (name_order_fun _ _ _ G4 K4)].
Qed.
Lemma chosen_fun a b f t f' t' : chosen a b f t -> chosen a b f' t' -> f = f' /\ t = t'.
Proof.
  intros H H'. destruct H as [a b H|a b H|a b H]; inversion H' as [? ? G|? ? G|? ? G]; subst;
    destruct H; inversion G; subst; split; reflexivity.
Qed.
Lemma C66_lemma : forall inN inF outN outF, order_flag inF -> order_flag outF ->
  (forall f t, getOrders inN inF outN outF = Ok (f, t) <->
     exists a b, known inN inF outN outF a b /\ chosen a b f t) /\
  ((exists e, getOrders inN inF outN outF = Err e) <->
     forall a b f t, known inN inF outN outF a b -> ~ chosen a b f t) /\
  (forall f t, getOrders inN inF outN outF = Ok (f, t) ->
     other_order f t /\ (inF <> s2b "auto" -> f = inF) /\ (outF <> s2b "auto" -> t = outF) /\
     (inF = s2b "auto" -> outF = s2b "auto" ->
        (forall o, name_order inN (Some o) -> f = o) /\ (forall o, name_order outN (Some o) -> t = o) /\
        ~ (name_order inN None /\ name_order outN None))).
Proof.
  intros inN inF outN outF Hi Ho. pose proof (getOrders_spec inN inF outN outF Hi Ho) as H.
  destruct (getOrders inN inF outN outF) as [[f t]|e|]; cbn [orders_spec] in H; [| |contradiction].
  - destruct H as (a & b & Hk & Hc). split; [|split].
    + intros f' t'. split.
      * intros E. injection E as <- <-. exists a, b. split; [exact Hk|exact Hc].
      * intros (a' & b' & Hk' & Hc'). destruct (known_fun _ _ _ _ _ _ _ _ Hk Hk') as [<- <-].
        destruct (chosen_fun _ _ _ _ _ _ Hc Hc') as [<- <-]. reflexivity.
    + split; [intros [e E]; discriminate|]. intros Hn. exfalso. exact (Hn a b f t Hk Hc).
    + intros f' t' E. injection E as <- <-.
      assert (Hoo : other_order f t) by (destruct Hc; assumption). split; [exact Hoo|].
      destruct Hk as [a b Hf G1 G2 G3 G4|a b G1 G2 G3 G4].
      * split; [intros E; rewrite (G2 E) in Hc; inversion Hc; reflexivity|].
        split; [intros E; rewrite (G4 E) in Hc; inversion Hc; reflexivity|].
        intros E1 E2. destruct Hf; contradiction.
      * split; [intros E; contradiction|]. split; [intros E; contradiction|]. intros _ _.
        split; [intros o Hx; pose proof (name_order_fun _ _ _ G3 Hx); subst a; inversion Hc; reflexivity|].
        split; [intros o Hx; pose proof (name_order_fun _ _ _ G4 Hx); subst b; inversion Hc; reflexivity|].
        intros [E1 E2]. pose proof (name_order_fun _ _ _ G3 E1). pose proof (name_order_fun _ _ _ G4 E2). subst. inversion Hc.
  - split; [|split].
    + intros f t. split; [discriminate|]. intros (a & b & Hk & Hc). exfalso. exact (H a b f t Hk Hc).
    + split; [intros _; exact H|intros _; eexists; reflexivity].
    + discriminate.
Qed.

(** ** Reading and writing *)
Lemma run_contents w s w1 c : run (FileContentsOrStdIn s) w = (w1, Ok c) ->
  input w s c /\ same_files w w1 /\ w_stdout w1 = w_stdout w /\ w_room w1 = w_room w /\ w_outroom w1 = w_outroom w.
Proof.
  unfold FileContentsOrStdIn. destruct (beq s dash) eqn:E; cbn [run].
  - apply beq_eq in E. subst s. unfold sys_stdin. destruct (w_stdin w) as [c0|] eqn:Es; cbn [run]; intros H; [|discriminate].
    injection H as <- <-. split; [left; split; [reflexivity|exact Es]|]. split; [intros n; reflexivity|].
    split; [reflexivity|]. split; reflexivity.
  - intros H. injection H as <- H. split.
    + right. split; [intros ->; rewrite beq_refl in E; discriminate|].
      destruct (w_fs w s) as [| |c0 r0 wr|] eqn:Ef; cbn [sys_read] in H; try discriminate. destruct r0; [|discriminate].
      injection H as ->. exists wr. exact Ef.
    + split; [apply same_files_refl|]. split; [reflexivity|]. split; reflexivity.
Qed.
Lemma run_contents_ok w s c : input w s c -> exists w1, run (FileContentsOrStdIn s) w = (w1, Ok c) /\
  same_files w w1 /\ w_stdout w1 = w_stdout w /\ w_room w1 = w_room w /\ w_outroom w1 = w_outroom w.
Proof.
  unfold FileContentsOrStdIn. intros [[-> H]|[Hn [wr H]]].
  - cbn [beq]. rewrite beq_refl. cbn [run]. unfold sys_stdin. rewrite H. cbn [run]. eexists. split; [reflexivity|].
    split; [intros n; reflexivity|]. split; [reflexivity|]. split; reflexivity.
  - change dash with (s2b "-"). rewrite (beq_false _ _ Hn). cbn [run]. rewrite H. cbn [sys_read run]. eexists. split; [reflexivity|].
    split; [apply same_files_refl|]. split; [reflexivity|]. split; reflexivity.
Qed.
Lemma run_contents_not_panic w s : snd (run (FileContentsOrStdIn s) w) <> Panic.
Proof.
  unfold FileContentsOrStdIn. destruct (beq s dash); cbn [run].
  - unfold sys_stdin. destruct (w_stdin w); cbn [run snd]; discriminate.
  - cbn [snd]. destruct (w_fs w s) as [| |c0 [|] wr|]; cbn [sys_read]; discriminate.
Qed.
Lemma run_output w t c ow w' : run (WriteOutput t c ow) w = (w', Ok tt) -> output w w' t c.
Proof.
  intros H. destruct (C63_lemma _ _ _ _ _ _ H) as (_ & H1 & H2).
  destruct (beq t (s2b "-")) eqn:E.
  - apply beq_eq in E. left. split; [exact E|]. destruct (H1 E) as (H3 & H4 & _). split; [exact H3|exact (H4 eq_refl)].
  - assert (Hn : t <> s2b "-") by (intros ->; rewrite beq_refl in E; discriminate).
    right. split; [exact Hn|]. destruct (H2 Hn) as (H3 & H4 & _ & H5 & _).
    split; [exact H4|]. split; [exact (H5 eq_refl)|exact H3].
Qed.
Lemma output_files w w1 w' t c : same_files w w1 -> w_stdout w1 = w_stdout w -> output w1 w' t c -> output w w' t c.
Proof.
  intros Hs Ho [(H1 & H2 & H3)|(H1 & H2 & H3 & H4)].
  - left. split; [exact H1|]. split; [intros n; rewrite H2; apply Hs|congruence].
  - right. split; [exact H1|]. split; [intros n Hn; rewrite H2 by exact Hn; apply Hs|]. split; [exact H3|congruence].
Qed.
Lemma run_output_ok w t c ow : w_room w = None -> w_outroom w = None -> can_output w t ow ->
  exists w', run (WriteOutput t c ow) w = (w', Ok tt).
Proof.
  intros Hr Ho Hc. destruct (run (WriteOutput t c ow) w) as [w' r] eqn:E. exists w'.
  destruct (C63_lemma _ _ _ _ _ _ E) as (_ & H1 & H2). f_equal.
  destruct Hc as [Ht|(Ht & Hw & Hx)].
  - destruct (H1 Ht) as (_ & _ & H3). exact (H3 Ho).
  - destruct (H2 Ht) as (_ & _ & _ & _ & H3 & _). apply (H3 Hr). split; [exact Hx|exact Hw].
Qed.

(** ** Reorder *)
Lemma other_interleave a b : other_order a b -> exists la lb pa pb, LogicalToPhysicalByName a = Some la /\
  PhysicalToLogicalByName b = Some lb /\ LogicalToPhysicalByName b = Some pb /\ PhysicalToLogicalByName a = Some pa /\
  interleave a la /\ interleave b pb.
Proof. intros H. destruct H; do 4 eexists; (split; [reflexivity|]); (split; [reflexivity|]); (split; [reflexivity|]); (split; [reflexivity|]); split; constructor. Qed.

Lemma reorder_run_ok order newOrder ow img newImg w w' a b :
  getOrders img order newImg newOrder = Ok (a, b) -> other_order a b ->
  run (ReorderCmd_Run order newOrder ow img newImg) w = (w', Ok tt) ->
  exists c d, input w img c /\ reordered c a b d /\ output w w' (reorder_target img newImg) d /\
    exists w1, same_files w w1 /\ run (WriteOutput (reorder_target img newImg) d (match newImg with [] => true | _ => ow end)) w1 = (w', Ok tt).
Proof.
  intros Hg Ho H. destruct (other_interleave a b Ho) as (la & lb & pa & pb & E1 & E2 & _ & _ & _ & _).
  unfold ReorderCmd_Run in H. rewrite run_pbind in H. unfold plift in H. cbn [run] in H. rewrite Hg in H.
  rewrite run_pbind in H. destruct (run (FileContentsOrStdIn img) w) as [w1 [c|e|]] eqn:Ec; try discriminate.
  apply run_contents in Ec. destruct Ec as (Hi & Hs & Hso & _). rewrite E1, E2 in H.
  rewrite run_pbind in H. cbn [run] in H. destruct (Swizzle c la) as [raw|e|] eqn:Es1; try discriminate.
  rewrite run_pbind in H. cbn [run] in H. destruct (Swizzle raw lb) as [d|e|] eqn:Es2; try discriminate.
  exists c, d. split; [exact Hi|].
  assert (Hre : reordered c a b d) by (apply reorder2_iff; unfold reorder2; rewrite E1, E2; cbn [orNil]; rewrite Es1; exact Es2).
  split; [exact Hre|].
  assert (Hrun : run (WriteOutput (reorder_target img newImg) d (match newImg with [] => true | _ => ow end)) w1 = (w', Ok tt)).
  { destruct newImg; exact H. }
  split; [|exists w1; split; [exact Hs|exact Hrun]].
  apply (output_files _ w1); [exact Hs|exact Hso|]. apply (run_output _ _ _ _ _ Hrun).
Qed.
Lemma reorder_run_do order newOrder ow img newImg w a b c :
  getOrders img order newImg newOrder = Ok (a, b) -> other_order a b -> input w img c -> zlen c = 143360 ->
  exists w1 d, same_files w w1 /\ w_stdout w1 = w_stdout w /\ w_room w1 = w_room w /\ w_outroom w1 = w_outroom w /\ reordered c a b d /\
    run (ReorderCmd_Run order newOrder ow img newImg) w =
    run (WriteOutput (reorder_target img newImg) d (match newImg with [] => true | _ => ow end)) w1.
Proof.
  intros Hg Ho Hi Hl. destruct (other_interleave a b Ho) as (la & lb & pa & pb & E1 & E2 & _ & _ & I1 & I2).
  destruct (run_contents_ok w img c Hi) as (w1 & Ec & Hs & Hso & Hr & Hor).
  destruct (reordered_ex c a b Hl (ex_intro _ _ I1) (ex_intro _ _ I2)) as (d & Hd). exists w1, d.
  split; [exact Hs|]. split; [exact Hso|]. split; [exact Hr|]. split; [exact Hor|]. split; [exact Hd|].
  apply reorder2_iff in Hd. unfold reorder2 in Hd. rewrite E1, E2 in Hd. cbn [orNil] in Hd.
  unfold ReorderCmd_Run. rewrite run_pbind. unfold plift. cbn [run]. rewrite Hg. rewrite run_pbind, Ec, E1, E2.
  destruct (Swizzle c la) as [raw|e|] eqn:Es1; cbn [rbind] in Hd; try discriminate.
  rewrite run_pbind. cbn [run]. rewrite run_pbind. cbn [run]. rewrite Hd. destruct newImg; reflexivity.
Qed.

(** ** C06 *)
Definition orders_of (img order newImg newOrder a b : bytes) : Prop :=
  order_flag order /\ order_flag newOrder /\
  exists x y, known img order newImg newOrder x y /\ chosen x y a b.
Lemma orders_of_get img order newImg newOrder a b : orders_of img order newImg newOrder a b ->
  getOrders img order newImg newOrder = Ok (a, b) /\ other_order a b.
Proof.
  intros (H1 & H2 & H3). destruct (C66_lemma img order newImg newOrder H1 H2) as (G & _ & K).
  apply G in H3. split; [exact H3|]. exact (proj1 (K _ _ H3)).
Qed.

Lemma other_flag a b : other_order a b -> order_flag a /\ order_flag b /\ a <> s2b "auto" /\ b <> s2b "auto" /\ a <> b.
Proof. intros H. destruct H; (split; [constructor|]); (split; [constructor|]); (split; [discriminate|]); split; discriminate. Qed.

Lemma C06_lemma : forall a b w img newImg ow c,
  other_order a b -> input w img c ->
  (* one step *)
  (forall w', run (ReorderCmd_Run a b ow img newImg) w = (w', Ok tt) ->
     exists d, reordered c a b d /\ output w w' (reorder_target img newImg) d) /\
  (zlen c = 143360 -> w_room w = None -> w_outroom w = None ->
     can_output w (reorder_target img newImg) (match newImg with [] => true | _ => ow end) ->
     exists w', run (ReorderCmd_Run a b ow img newImg) w = (w', Ok tt)) /\
  (zlen c <> 143360 -> exists w' e, run (ReorderCmd_Run a b ow img newImg) w = (w', Err e) /\ same_files w w') /\
  (* there and back *)
  (forall w1 ow2 newImg2 w2 mid, reorder_target img newImg = mid -> mid <> s2b "-" ->
     run (ReorderCmd_Run a b ow img newImg) w = (w1, Ok tt) ->
     run (ReorderCmd_Run b a ow2 mid newImg2) w1 = (w2, Ok tt) ->
     output w1 w2 (reorder_target mid newImg2) c).
Proof.
  intros a b w img newImg ow c Hab Hi.
  assert (Hba : other_order b a) by (destruct Hab; constructor).
  destruct (other_flag a b Hab) as (Fa & Fb & Na & Nb & Hne).
  assert (Hg : forall x y p q, other_order x y -> getOrders p x q y = Ok (x, y)).
  { intros x y p q Hx. destruct Hx; reflexivity. }
  assert (S1 : forall w', run (ReorderCmd_Run a b ow img newImg) w = (w', Ok tt) ->
     exists d, reordered c a b d /\ output w w' (reorder_target img newImg) d).
  { intros w' H. destruct (reorder_run_ok _ _ _ _ _ _ _ a b (Hg a b img newImg Hab) Hab H) as (c' & d & H1 & H2 & H3 & _).
    assert (c' = c).
    { destruct Hi as [[-> E]|[Hn [x E]]]; destruct H1 as [[E1 E']|[Hn' [x' E']]]; congruence. }
    subst c'. exists d. split; [exact H2|exact H3]. }
  split; [exact S1|]. split; [|split].
  - intros Hl Hr Hor Hc. destruct (reorder_run_do a b ow img newImg w a b c (Hg _ _ _ _ Hab) Hab Hi Hl) as (w1 & d & Hs & Hso & Hr1 & Hor1 & _ & E).
    rewrite E. apply run_output_ok; [congruence|congruence|].
    destruct Hc as [Hc|(Hc1 & Hc2 & Hc3)]; [left; exact Hc|right]. split; [exact Hc1|].
    unfold writable, file_exists in *. rewrite Hs. split; [exact Hc2|exact Hc3].
  - intros Hl. destruct (other_interleave a b Hab) as (la & lb & pa & pb & E1 & E2 & _ & _ & _ & _).
    destruct (run_contents_ok w img c Hi) as (w1 & Ec & Hs & _).
    assert (Es : exists e, Swizzle c la = Err e) by (apply Swizzle_err; intros [E _]; contradiction).
    destruct Es as [e Es]. exists w1, e. split; [|exact Hs].
    unfold ReorderCmd_Run. rewrite run_pbind. unfold plift. cbn [run]. rewrite (Hg _ _ _ _ Hab). rewrite run_pbind, Ec, E1, E2.
    rewrite run_pbind. cbn [run]. rewrite Es. reflexivity.
  - intros w1 ow2 newImg2 w2 mid Em Hm H1 H2. destruct (S1 _ H1) as (d & Hd & Hout).
    destruct (reorder_run_ok _ _ _ _ _ _ _ b a (Hg b a mid newImg2 Hba) Hba H2) as (d' & c' & G1 & G2 & G3 & _).
    rewrite Em in Hout. destruct Hout as [(Hx & _)|(_ & _ & (r & wr & Hh) & _)]; [contradiction|].
    assert (d' = d).
    { destruct G1 as [[E _]|[_ [x E]]]; [contradiction|]. congruence. }
    subst d'. apply reordered_back in Hd. rewrite (reordered_fun _ _ _ _ _ Hd G2). exact G3.
Qed.

Lemma one_file_get name c room : w_fs (one_file name c room) name = NFile c true true.
Proof. cbn. rewrite beq_refl. reflexivity. Qed.
Lemma C06_example_lemma : forall img, zlen img = 143360 -> sector img 0 1 <> sector img 0 14 ->
  let w := one_file (s2b "a.dsk") img None in
  exists w1 w2, run (ReorderCmd_Run (s2b "do") (s2b "po") false (s2b "a.dsk") (s2b "a.po")) w = (w1, Ok tt) /\
    run (ReorderCmd_Run (s2b "po") (s2b "do") false (s2b "a.po") []) w1 = (w2, Ok tt) /\
    ~ holds w1 (s2b "a.po") img /\ holds w2 (s2b "a.po") img.
Proof.
  intros img Hl Hv w.
  assert (Hin : input w (s2b "a.dsk") img) by (right; split; [discriminate|]; exists true; apply one_file_get).
  destruct (C06_lemma (s2b "do") (s2b "po") w (s2b "a.dsk") (s2b "a.po") false img oo_do Hin) as (_ & _ & _ & S4).
  destruct (reorder_run_do (s2b "do") (s2b "po") false (s2b "a.dsk") (s2b "a.po") w (s2b "do") (s2b "po") img)
      as (w0 & d & Hs & _ & Hr & Ho & Hd & E); [reflexivity|constructor|exact Hin|exact Hl|].
  assert (E1 : run (ReorderCmd_Run (s2b "do") (s2b "po") false (s2b "a.dsk") (s2b "a.po")) w
             = (set_fs w0 (s2b "a.po") (NFile d true true), Ok tt)).
  { rewrite E. change (match s2b "a.po" with [] => true | _ => false end) with false.
    change (reorder_target (s2b "a.dsk") (s2b "a.po")) with (s2b "a.po").
    unfold WriteOutput. replace (beq (s2b "a.po") dash) with false by reflexivity. cbn [run].
    assert (Hm : w_fs w0 (s2b "a.po") = NMissing) by (rewrite Hs; reflexivity).
    rewrite Hm. cbn [sys_notexist negb run]. unfold sys_write. rewrite Hm, Hr. reflexivity. }
  remember (set_fs w0 (s2b "a.po") (NFile d true true)) as w1 eqn:Hw1.
  assert (Hf1 : w_fs w1 (s2b "a.po") = NFile d true true) by (rewrite Hw1; apply set_fs_same).
  assert (Hin1 : input w1 (s2b "a.po") d) by (right; split; [discriminate|]; exists true; exact Hf1).
  destruct (C06_lemma (s2b "po") (s2b "do") w1 (s2b "a.po") [] false d oo_po Hin1) as (_ & T2 & _ & _).
  destruct T2 as [w2 E2]; [exact (proj1 (proj2 Hd))|rewrite Hw1; exact Hr|rewrite Hw1; exact Ho| |].
  { right. split; [discriminate|]. split; [right; exists d, true; exact Hf1|left; reflexivity]. }
  exists w1, w2. split; [exact E1|]. split; [exact E2|]. split.
  - intros (r & wr & H). rewrite Hf1 in H. injection H as -> _ _.
    destruct Hd as (_ & _ & lf & lt & I1 & I2 & H). inversion I1; subst; try discriminate. inversion I2; subst; try discriminate.
    apply Hv. symmetry. apply H; [lia|lia|lia|reflexivity].
  - destruct (S4 w1 false [] w2 (s2b "a.po") eq_refl ltac:(discriminate) E1 E2) as [(E3 & _)|(_ & _ & H & _)]; [discriminate|exact H].
Qed.

(** ** C64, C65 *)
Lemma C64_lemma : forall iter fuel p t, modifies iter fuel p t -> forall w w' r, run p w = (w', r) ->
  (r = Ok tt -> exists c, output w w' t c) /\
  (forall e, r = Err e -> same_files w w' \/
     (t <> s2b "-" /\ same_files_but w w' t /\ exists c q, runs_full w c /\ prefix q c /\ holds w' t q)) /\
  (r = Panic -> same_files w w').
Proof. intros iter fuel p t H. exact (final_run t p (modifies_final iter fuel p t H)). Qed.
Lemma C64_room_lemma : forall iter fuel p t, modifies iter fuel p t -> forall w w' r, w_room w = None -> run p w = (w', r) ->
  r <> Ok tt -> same_files w w'.
Proof.
  intros iter fuel p t H w w' r Hr E Hn. destruct (C64_lemma _ _ _ _ H w w' r E) as (_ & H2 & H3).
  destruct r as [[]|e|]; [contradiction Hn; reflexivity| |exact (H3 eq_refl)].
  destruct (H2 e eq_refl) as [G|(_ & _ & c & q & (n & G & _) & _)]; [exact G|]. congruence.
Qed.

Lemma C64_refuted_lemma : forall iter fuel img, zlen img = 143360 ->
  exists p w w' e, modifies iter fuel p (s2b "a.dsk") /\ holds w (s2b "a.dsk") img /\
    run p w = (w', Err e) /\ holds w' (s2b "a.dsk") [].
Proof.
  intros iter fuel img Hl.
  exists (ReorderCmd_Run (s2b "auto") (s2b "auto") false (s2b "a.dsk") []), (one_file (s2b "a.dsk") img (Some 0)).
  assert (Hm := m_reorder iter fuel (s2b "auto") (s2b "auto") false (s2b "a.dsk") []). cbn [reorder_target] in Hm.
  destruct (reorder_run_do (s2b "auto") (s2b "auto") false (s2b "a.dsk") [] (one_file (s2b "a.dsk") img (Some 0)) (s2b "do") (s2b "po") img)
    as (w1 & d & Hs & _ & Hr & _ & Hd & E).
  - reflexivity.
  - constructor.
  - right. split; [discriminate|]. exists true. apply one_file_get.
  - exact Hl.
  - rewrite E. cbn [reorder_target]. unfold WriteOutput. replace (beq (s2b "a.dsk") dash) with false by reflexivity.
    cbn [run]. unfold sys_write. rewrite (Hs (s2b "a.dsk")), one_file_get, Hr. cbn [can_write one_file w_room].
    destruct Hd as (_ & Hd & _). cbn [fits]. replace (zlen d <=? 0) with false by lia. eexists. eexists.
    split; [exact Hm|]. split; [exists true, true; apply one_file_get|]. split; [reflexivity|].
    exists true, true. rewrite set_fs_same. cbn [written cut]. change (Z.max 0 0) with 0. rewrite sub_nil by lia. reflexivity.
Qed.

Lemma C65_refuted_lemma : forall iter fuel img, zlen img = 143360 ->
  exists p w w' w2 new, modifies iter fuel p (s2b "a.dsk") /\ holds w (s2b "a.dsk") img /\ w_room w = None /\
    run p w = (w2, Ok tt) /\ holds w2 (s2b "a.dsk") new /\ zlen new = 143360 /\
    crash p w w' /\ holds w' (s2b "a.dsk") [].
Proof.
  intros iter fuel img Hl. set (w := one_file (s2b "a.dsk") img None).
  set (p := ReorderCmd_Run (s2b "auto") (s2b "auto") false (s2b "a.dsk") []).
  assert (Hm := m_reorder iter fuel (s2b "auto") (s2b "auto") false (s2b "a.dsk") []). cbn [reorder_target] in Hm.
  assert (Hf : w_fs w (s2b "a.dsk") = NFile img true true) by apply one_file_get.
  destruct (other_interleave (s2b "do") (s2b "po") oo_do) as (la & lb & pa & pb & E1 & E2 & _ & _ & I1 & I2).
  destruct (reordered_ex img (s2b "do") (s2b "po") Hl (ex_intro _ _ I1) (ex_intro _ _ I2)) as (d & Hd).
  assert (Hd' := Hd). apply reorder2_iff in Hd'. unfold reorder2 in Hd'. rewrite E1, E2 in Hd'. cbn [orNil] in Hd'.
  destruct (Swizzle img la) as [raw|e|] eqn:Es1; cbn [rbind] in Hd'; try discriminate.
  assert (Hp : exists k, p = PRead (s2b "a.dsk") k /\ k (Ok img) = PWrite (s2b "a.dsk") d PRet).
  { unfold p, ReorderCmd_Run, plift.
    replace (getOrders (s2b "a.dsk") (s2b "auto") [] (s2b "auto")) with (@Ok (bytes * bytes) (s2b "do", s2b "po")) by reflexivity.
    cbn [pbind]. unfold FileContentsOrStdIn. replace (beq (s2b "a.dsk") dash) with false by reflexivity.
    cbn [pbind]. eexists. split; [reflexivity|]. cbv beta. cbn [pbind]. rewrite E1, E2, Es1. cbn [pbind]. rewrite Hd'.
    cbn [pbind]. unfold WriteOutput. replace (beq (s2b "a.dsk") dash) with false by reflexivity. reflexivity. }
  destruct Hp as (k & Hp & Hk).
  assert (Hk2 : k (sys_read (w_fs w (s2b "a.dsk"))) = PWrite (s2b "a.dsk") d PRet) by (rewrite Hf; exact Hk).
  exists p, w, (set_fs w (s2b "a.dsk") (NFile [] true true)), (set_fs w (s2b "a.dsk") (NFile d true true)), d.
  split; [exact Hm|]. split; [exists true, true; exact Hf|]. split; [reflexivity|].
  split.
  { rewrite Hp. cbn [run]. rewrite Hk2. cbn [run]. unfold sys_write. rewrite Hf. reflexivity. }
  split; [exists true, true; apply set_fs_same|]. split; [exact (proj1 (proj2 Hd))|]. split.
  { rewrite Hp. cbn [crash]. right. rewrite Hk2. cbn [crash]. right. left. rewrite Hf.
    split; [reflexivity|]. exists 0. split; [pose proof (zlen_nonneg d); lia|]. rewrite sub_nil by lia. reflexivity. }
  exists true, true. apply set_fs_same.
Qed.
Lemma C65_lemma : forall iter fuel p t, modifies iter fuel p t -> forall w w', crash p w w' ->
  same_files w w' \/
  (t <> s2b "-" /\ same_files_but w w' t /\
   exists new q w2, run p (unlimited w) = (w2, Ok tt) /\ holds w2 t new /\ prefix q new /\ holds w' t q).
Proof. intros iter fuel p t H. exact (final_crash t p (modifies_final iter fuel p t H)). Qed.

(** ** C74 *)
Lemma C74_lemma : forall iter fuel p, reads iter fuel p ->
  (forall w w' r, run p w = (w', r) -> same_files w w') /\ (forall w w', crash p w w' -> same_files w w').
Proof.
  intros iter fuel p H. apply reads_no_write in H. split.
  - intros w w' r. apply no_write_run. exact H.
  - intros w w'. apply no_write_crash. exact H.
Qed.

(** ** C05: the registered factories *)
Lemma C05_factories_lemma : forall iter fuel,
  (forall f, In f (DiskOperatorFactories iter fuel) -> f_order f = s2b "do" \/ f_order f = s2b "po" \/ f_order f = s2b "raw") /\
  (forall f d op, In f (DiskOperatorFactories iter fuel) -> f_operator f d = Ok op ->
     Op_GetBytes op = d /\ Op_DiskOrder op = f_order f /\ Op_Name op = f_name f) /\
  NoDup (map f_name (DiskOperatorFactories iter fuel)).
Proof.
  intros iter fuel. split; [|split].
  - intros f [<-|[<-|[<-|[]]]]; [left|right; right|right; left]; reflexivity.
  - intros f d op [<-|[<-|[<-|[]]]] H; cbn in H.
    + injection H as <-. split; [reflexivity|split; reflexivity].
    + unfold rmap, NewOperator in H. destruct (LoadSectorMap d) as [sm|e|]; cbn [rbind] in H; try discriminate.
      destruct (Verify sm) as [u|e|]; cbn [rbind] in H; try discriminate.
      destruct (ReadSymbolTable sm d) as [t|e|]; cbn [rbind] in H; try discriminate;
        injection H as <-; (split; [reflexivity|split; reflexivity]).
    + injection H as <-. split; [reflexivity|split; reflexivity].
  - cbn. constructor; [intros [H|[H|[]]]; discriminate|]. constructor; [intros [H|[]]; discriminate|].
    constructor; [intros []|constructor].
Qed.
