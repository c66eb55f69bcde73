(** NamesExProofs.v -- a concrete session with names (C98). *)
From Coq Require Import ZifyBool ZifyNat.
From Verif Require Import GoBase GoLemmas TypesModel DiskModel DiskSpec DiskProofs.
From Verif Require Import SupermonModel SupermonSpec SupermonTableSpec SupermonStoreSpec SupermonProofs SupermonSymProofs SupermonTabProofs SupermonLinkProofs SupermonOpProofs SupermonNameProofs SupermonFinalProofs SupermonNamedProofs SupermonStmtProofs SupermonChainSpec SupermonChainProofs SupermonChainExProofs.
From Verif Require Import ProdosModel CmdModel CmdSpec CmdProofs MainModel NakedCmdSpec NakedCmdProofs NakedOpenProofs NakedExProofs AfterProofs AfterExProofs SessionSpec SessionProofs SessionExProofs NamesSpec NamesProofs.
Ltac Zify.zify_post_hook ::= Z.div_mod_to_equations.

(** ** A check that a session is sensible *)
Definition valid_b (n : bytes) : bool := beq n [] || ((3 <=? zlen n) && (zlen n <=? 9) && forallb is_alnum n && (name_bits n <=? 48)).
Lemma valid_b_iff n : valid_b n = true <-> valid_name n.
Proof.
  unfold valid_b. destruct (beq n []) eqn:E.
  - apply beq_eq in E. split; [intros _; left; exact E|reflexivity].
  - apply beq_neq in E. cbn [orb]. split.
    + intros H. apply andb_prop in H as [H H4]. apply andb_prop in H as [H H3]. right. split; [lia|]. split; [|lia].
      apply Forall_forall. intros x Hx. rewrite forallb_forall in H3. specialize (H3 x Hx). unfold is_alnum in H3. unfold alnum, letter, digit. lia.
    + intros [H|(H1 & H2 & H3)]; [contradiction|]. apply andb_true_intro. split; [apply andb_true_intro; split; [lia|]|lia].
      apply forallb_forall. intros x Hx. rewrite Forall_forall in H2. specialize (H2 x Hx). unfold is_alnum. unfold alnum, letter, digit in H2. lia.
Qed.
Definition may_b (l : list card) (n : bytes) (f : Z) : bool :=
  forallb (fun i => negb (is_named n (znth (0, []) l i)) || (negb (i =? 0) && negb (f =? 95) && negb (f =? 223))) (zrange (zlen l)).
Lemma may_b_ok l n f : may_b l n f = true -> may_bind l n f.
Proof.
  intros H i Hi E. unfold may_b in H. rewrite forallb_forall in H. specialize (H i (proj2 (In_zrange _ _) Hi)). cbv beta in H. rewrite E in H. lia.
Qed.
Definition means (l : list card) (n : bytes) : option Z := match FileForName (table_of l) n with Ok f => Some f | _ => None end.
Definition planned_b (l : list card) (s : store) (img : bytes) (a : action) (p : plan) : bool :=
  match a, p with
  | APut _ _ _ n src, _ =>
      negb (beq src (s2b "-")) && negb (beq src img) &&
      match p with
      | PlFile f => match means l n with Some g => (g =? f) && valid_b n && negb (f =? 3) && negb (f =? 4) | None => false end
      | PlNew m => beq m n && match means l n with None => true | _ => false end && valid_b n &&
          match least_unused s with Some f => may_b l n f | None => true end
      | PlAt f q =>
          let c := firstn (length n - length q - 1) n in
          beq n (c ++ 58 :: q) && (parseAddressFilename c =? f) && negb (f =? 0) && (parseAddressFilename q =? 0) && valid_b q && negb (f =? 3) && negb (f =? 4) &&
          negb (beq q []) && match means l q with None => true | Some g => negb (g =? f) end && may_b l q f
      | PlNone => forallb is_alnum n && negb (valid_b n) && match means l n with None => true | _ => false end
      end
  | ARm _ n, PlFile f => (parseAddressFilename n =? f) && negb (f =? 0) && negb (f =? 3) && negb (f =? 4)
  | ARm _ n, PlAt f m => beq m n && match means l n with Some g => g =? f | None => false end && (parseAddressFilename n =? 0) && negb (beq n []) &&
      negb (f =? 3) && negb (f =? 4) && negb (is_named n (znth (0, []) l 0))
  | ARm _ n, PlNone => match means l n with None => true | _ => false end
  | ADump n, PlFile f => match means l n with Some g => g =? f | None => false end && negb (f =? 3) && negb (f =? 4)
  | ADump n, PlNone => match means l n with None => true | _ => false end
  | ALs _, PlNone => true
  | ASave file _, PlNone => negb (beq file img)
  | _, _ => false
  end.
Lemma means_some l n f : means l n = Some f -> resolves (table_of l) n f.
Proof.
  unfold means. intros H. apply FileForName_resolves. destruct (FileForName (table_of l) n) as [g| |]; [congruence|discriminate H|discriminate H].
Qed.
Lemma means_none l n : means l n = None -> forall f, ~ resolves (table_of l) n f.
Proof. unfold means. intros H f Hf. apply FileForName_resolves in Hf. rewrite Hf in H. discriminate H. Qed.
Ltac bits := repeat match goal with H : _ && _ = true |- _ => apply andb_prop in H as [? ?] end.
Lemma beqn_ne a b : negb (beq a b) = true -> a <> b.
Proof. intros H E. apply beq_eq in E. rewrite E in H. discriminate H. Qed.
Lemma planned_b_ok l s img a p : planned_b l s img a p = true -> planned l s img a p.
Proof.
  destruct a as [ft ow addr n src|force n|n|short|file c]; cbn [planned_b]; intros H.
  - bits. repeat match goal with H : negb (beq _ _) = true |- _ => apply beqn_ne in H end. destruct p as [|f|m|f q].
    + bits. apply pl_put_refused; [|assumption|assumption]. apply rf_plain.
      * apply Forall_forall. intros x Hx. match goal with H : forallb _ _ = true |- _ => rewrite forallb_forall in H; specialize (H x Hx); unfold is_alnum in H end. unfold alnum, letter, digit. lia.
      * rewrite <- valid_b_iff. intros E. rewrite E in *. discriminate.
      * apply means_none. destruct (means l n); [discriminate|reflexivity].
    + destruct (means l n) as [g|] eqn:E; [|discriminate]. bits. assert (g = f) as -> by lia. apply means_some in E.
      apply pl_put; [exact E|right; apply valid_b_iff; assumption|lia|lia|assumption|assumption].
    + bits. match goal with H : beq m n = true |- _ => apply beq_eq in H; subst m end. apply pl_put_new; [|apply valid_b_iff; assumption| |assumption|assumption].
      * apply means_none. destruct (means l n); [discriminate|reflexivity].
      * intros _ f Ef. rewrite Ef in *. apply may_b_ok. assumption.
    + cbv zeta in *. bits. match goal with H : beq n _ = true |- _ => apply beq_eq in H; rewrite H end.
      match goal with H : negb (beq q _) = true |- _ => apply beqn_ne in H end.
      assert (parseAddressFilename (firstn (length n - length q - 1) n) = f) as Ep by lia.
      apply pl_put_at; [apply numeric_parse; [exact Ep|lia]|apply not_numeric; lia|apply valid_b_iff; assumption|lia|lia|assumption| |apply may_b_ok; assumption|assumption|assumption].
      intros Hs. assert (resolves (table_of l) q f) as Hr by (right; split; [apply not_numeric; lia|exact Hs]).
      apply FileForName_resolves in Hr. unfold means in *. rewrite Hr in *. lia.
  - destruct p as [|f|m|f m]; [|bits|discriminate|].
    + apply pl_rm_none, means_none. destruct (means l n); [discriminate|reflexivity].
    + apply pl_rm; [apply numeric_parse; lia|lia|lia].
    + bits. match goal with H : beq m n = true |- _ => apply beq_eq in H; subst m end. destruct (means l n) as [g|] eqn:E; [|discriminate].
      assert (g = f) as -> by lia. apply means_some in E. match goal with H : negb (beq n _) = true |- _ => apply beqn_ne in H end.
      apply pl_rm_symbol; [exact E|apply not_numeric; lia|assumption|lia|lia|]. destruct (is_named n (znth (0, []) l 0)); [discriminate|reflexivity].
  - destruct p as [|f|m|f m]; try discriminate.
    + apply pl_dump_none, means_none. destruct (means l n); [discriminate|reflexivity].
    + bits. destruct (means l n) as [g|] eqn:E; [|discriminate]. assert (g = f) as -> by lia. apply means_some in E. apply pl_dump; [exact E|lia|lia].
  - destruct p; try discriminate. apply pl_ls.
  - destruct p; try discriminate. apply pl_save. apply beqn_ne. exact H.
Qed.
Fixpoint sensible_b (img : bytes) (h : list (action * plan)) (k : board) : bool :=
  match h with
  | [] => true
  | (a, p) :: rest => planned_b (b_cards k) (b_store k) img a p && sensible_b img rest (fst (act2 a p k))
  end.
Lemma sensible_b_ok img h : forall k, sensible_b img h k = true -> sensible img h k.
Proof.
  induction h as [|[a p] h IH]; intros k H; [exact I|]. cbn [sensible_b sensible] in *. apply andb_prop in H as [H1 H2].
  split; [apply planned_b_ok; exact H1|apply IH; exact H2].
Qed.

Fixpoint spares_b (g : Z) (h : list (action * plan)) (k : board) : bool :=
  match h with
  | [] => true
  | (a, p) :: rest => match touched a p (b_store k) with Some f => negb (f =? g) | None => true end && spares_b g rest (fst (act2 a p k))
  end.
Lemma spares_b_ok g h : forall k, spares_b g h k = true -> spares g h k.
Proof.
  induction h as [|[a p] h IH]; intros k H; [exact I|]. cbn [spares_b spares] in *. apply andb_prop in H as [H1 H2].
  split; [|apply IH; exact H2]. destruct (touched a p (b_store k)) as [f|]; [|discriminate]. intros E. injection E as E. lia.
Qed.

(** ** A session on a disk with the 156 symbols of supermon/testdata/chacha20.dsk *)
Definition day3 : list (action * plan) :=
  [ (ASave (s2b "f") (repeat 7 300), PlNone);
    (APut (s2b "B") false 0 (s2b "FHELLO") (s2b "f"), PlFile 1);
    (APut (s2b "B") false 0 (s2b "40:game") (s2b "f"), PlAt 64 (s2b "game"));
    (ALs true, PlNone);
    (APut (s2b "B") false 0 (s2b "GAME") (s2b "f"), PlFile 64);
    (APut (s2b "B") false 0 (s2b "NEWFILE") (s2b "f"), PlNew (s2b "NEWFILE"));
    (APut (s2b "B") false 0 (s2b "COUT") (s2b "f"), PlNew (s2b "COUT"));
    (APut (s2b "B") false 0 (s2b "XY") (s2b "f"), PlNone);
    (ALs false, PlNone);
    (ADump (s2b "newfile"), PlFile 2);
    (ARm false (s2b "FSUPERMON"), PlAt 2 (s2b "FSUPERMON"));
    (ARm false (s2b "NewFile"), PlAt 2 (s2b "NewFile"));
    (ARm true (s2b "NEWFILE"), PlAt 2 (s2b "NEWFILE"));
    (ADump (s2b "NEWFILE"), PlNone);
    (APut (s2b "B") false 0 (s2b "41:GAME") (s2b "f"), PlAt 65 (s2b "GAME"));
    (ARm false (s2b "40"), PlFile 64);
    (ALs true, PlNone) ].
Definition day3_outcomes : list (Z * bytes) :=
  [ (0, []); (0, []); (0, []); (0, lines [s2b "FHELLO"; s2b "FSYMTBL1"; s2b "FSYMTBL2"; s2b "FMONHELP"; s2b "GAME"]);
    (1, []); (0, []); (0, []); (1, []);
    (0, lines [s2b "DF01:FHELLO"; s2b "DF02:FSUPERMON"; s2b "DF03:FSYMTBL1"; s2b "DF04:FSYMTBL2"; s2b "DF05:FMONHELP"; s2b "DF06:COUT"; s2b "DF40:GAME"]);
    (0, repeat 7 300 ++ repeat 0 212);
    (0, []); (1, []); (0, []); (1, []); (0, []); (0, []);
    (0, lines [s2b "FHELLO"; s2b "FSYMTBL1"; s2b "FSYMTBL2"; s2b "FMONHELP"; s2b "COUT"; s2b "GAME"]) ].
Definition day3_board (fs : bytes -> node) : board :=
  Board fs (St (fun g => if (g =? 3) || (g =? 4) then [0] else if g =? 5 then zeros 256 else []) 515) (cards_of real_table).
Lemma day3_runs nd : let k := day3_board (fun n => if beq n (s2b "x.do") then nd else NMissing) in
  sensible_b (s2b "x.do") day3 k = true /\ spares_b 5 day3 k = true /\ snd (acts2 day3 k) = day3_outcomes.
Proof. intros k. unfold k. split; [|split]; vm_compute; reflexivity. Qed.
(** File 5 is track 17 sector 0, files 3 and 4 hold the symbol table, the other sectors are free. *)
Lemma five_others g : legal g -> g <> 5 -> owned five_map g = [].
Proof.
  intros Hg H5. destruct (owned five_map g) as [|x l] eqn:E; [reflexivity|exfalso].
  assert (In x (owned five_map g)) as Hx by (rewrite E; left; reflexivity). apply filter_In in Hx as [Hx Hv]. apply In_zrange in Hx.
  assert (forallb (fun k => (znth 0 five_map k =? 254) || (znth 0 five_map k =? 255) || (znth 0 five_map k =? 5)) (zrange 560) = true) as H by (vm_compute; reflexivity).
  rewrite forallb_forall in H. specialize (H x (proj2 (In_zrange 560 x) Hx)). cbv beta in H. unfold legal in Hg. lia.
Qed.
Lemma real_disk : exists d sm, plain_disk (d, sm) real_table /\ owned sm 5 = [272] /\ content d sm 5 = zeros 256 /\
  (forall g, legal g -> g <> 3 -> g <> 4 -> g <> 5 -> owned sm g = []) /\ zlen (owned sm FREE) = 515.
Proof.
  destruct real_table_ok as (A & _ & C & _). destruct five_free as (F0 & _ & F3 & F4). destruct five_content as [F5 F6].
  destruct (WriteSymbolTable_ok real_table _ five_map five_floppy A) as (d & sm & _ & Hf & HR & Ho & K3 & K4 & KF).
  - rewrite F0, F3. vm_compute. discriminate.
  - rewrite F0, F3, F4. vm_compute. discriminate.
  - assert (legal 5) as L5 by (unfold legal; lia). destruct (Ho 5 ltac:(lia) ltac:(lia) L5) as [O5 C5].
    exists d, sm. split; [|split; [|split; [|split]]].
    + split; [exact Hf|]. split; [exact K3|]. split; [exact K4|]. unfold disk_table. cbn [fst snd]. rewrite HR, C. reflexivity.
    + rewrite O5. exact F5.
    + congruence.
    + intros g Hg H3 H4 H5. rewrite (proj1 (Ho g H3 H4 Hg)). apply five_others; assumption.
    + rewrite KF, F0, F3, F4. reflexivity.
Qed.
Lemma real_no_numeric : no_numeric_symbols real_table.
Proof.
  intros i f Hi. apply not_numeric.
  assert (forallb (fun s => parseAddressFilename (s_name s) =? 0) real_table = true) as H by (vm_compute; reflexivity).
  rewrite forallb_forall in H. specialize (H (znth sym0 real_table i) (znth_In sym0 real_table i Hi)). cbv beta in H. unfold nm. lia.
Qed.
Lemma day3_example iter fuel : exists w w', session (map (fun ap => command iter fuel (s2b "auto") (s2b "x.do") (fst ap)) day3) w = (w', day3_outcomes).
Proof.
  destruct real_disk as (d & sm & Hp & O5 & C5 & Ho & HF). pose proof Hp as (Hf & K3 & K4 & _). cbn [fst snd] in Hf, K3, K4.
  destruct (do_image _ _ Hf) as [c Hc]. pose proof (fl_map _ _ Hf) as Em.
  destruct real_table_ok as (A & B & C & D & _).
  pose proof (day3_runs (NFile c true true)) as HD. cbv zeta in HD.
  remember (day3_board (fun n => if beq n (s2b "x.do") then NFile c true true else NMissing)) as k eqn:Ek.
  destruct HD as (HD1 & HD3 & HD2).
  pose proof (C98_lemma iter fuel (s2b "auto") (s2b "x.do") (s2b "do") day3 (one_file (s2b "x.do") c None) c d real_table (chain_of real_chains) k) as HL.
  pose proof (C98_spared_lemma iter fuel (s2b "auto") (s2b "x.do") (s2b "do") day3 (one_file (s2b "x.do") c None) c d real_table (chain_of real_chains) k) as HH.
  repeat match type of HL with ?P -> _ => match type of HH with P -> _ => let X := fresh "Hyp" in assert (X : P); [clear HL HH|specialize (HL X); specialize (HH X)] end end.
  - discriminate.
  - apply first_do.
  - reflexivity.
  - exact Hc.
  - reflexivity.
  - reflexivity.
  - rewrite Em. exact Hp.
  - exact A.
  - apply B.
  - exact D.
  - exact real_no_numeric.
  - vm_compute. discriminate.
  - intros n _. rewrite Ek. reflexivity.
  - rewrite Ek, Em. split; [|exact HF]. intros f Hlf. unfold in_use. cbn [store_of st_file b_store day3_board].
    destruct (Z.eqb_spec f 3) as [->|N3].
    + split; [|intros X; contradiction]. rewrite content_beq by exact (fl_len _ _ Hf). rewrite K3. reflexivity.
    + destruct (Z.eqb_spec f 4) as [->|N4].
      * split; [|intros _ X; contradiction]. rewrite content_beq by exact (fl_len _ _ Hf). rewrite K4. reflexivity.
      * cbn [orb]. destruct (Z.eqb_spec f 5) as [->|N5]; [rewrite C5; split; [reflexivity|intros _ _; reflexivity]|].
        assert (content d sm f = []) as -> by (apply (content_nil_iff d sm f (fl_len _ _ Hf)); apply Ho; assumption).
        split; [reflexivity|intros _ _; reflexivity].
  - rewrite Ek. reflexivity.
  - apply sensible_b_ok. exact HD1.
  - assert (In 272 (owned sm 5)) as H5 by (rewrite O5; left; reflexivity). apply filter_In in H5 as [_ H5]. apply Z.eqb_eq in H5.
    assert (mark_owner d = 5) as E5 by (unfold mark_owner; rewrite Em; exact H5). rewrite E5 in HH.
    destruct (HL (HH ltac:(rewrite <- (release_same _ _ _ _ (proj1 Hc)), (five_release _ _ O5 C5); discriminate) ltac:(discriminate) ltac:(discriminate) ltac:(discriminate)
      ltac:(apply spares_b_ok; exact HD3))) as (w' & k' & l & _ & _ & _ & _ & Es & Ea & _).
    exists (one_file (s2b "x.do") c None), w'. rewrite Es. apply f_equal2; [reflexivity|]. rewrite Ea in HD2. exact HD2.
Qed.
