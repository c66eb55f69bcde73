(** CycleExProofs.v -- a concrete session (C121): a program is put, mkhello is run, the program is put again. *)
From Coq Require Import ZifyBool ZifyNat.
From Verif Require Import GoBase GoLemmas TypesModel DiskModel DiskSpec DiskProofs DiskOpenProofs.
From Verif Require Import SupermonModel SupermonSpec SupermonTableSpec SupermonStoreSpec SupermonProofs SupermonSymProofs SupermonOpProofs SupermonNameProofs SupermonFinalProofs SupermonNamedProofs SupermonStmtProofs SupermonChainSpec SupermonChainProofs SupermonChainExProofs.
From Verif Require Import ProdosModel CmdModel CmdSpec CmdProofs CmdStmtProofs MainModel NakedCmdSpec NakedCmdProofs NakedOpenProofs NakedExProofs AfterProofs AfterExProofs SessionSpec SessionProofs SessionExProofs MarkProofs NamesSpec NamesProofs NamesExProofs.
From Verif Require Import RestSpec ShelfSpec ShelfProofs ShelfExProofs CycleSpec CycleProofs.
Ltac Zify.zify_post_hook ::= Z.div_mod_to_equations.

Definition leaves_alone_b (g : Z) (img : bytes) (x : deed) (m : sense) (K : shelf) : bool :=
  match x with
  | On _ i _ | Hello _ i _ _ _ => negb (beq i img) || match file_touched x m K with Some f => negb (f =? g) | None => true end
  | Reorder _ _ _ _ new => negb (beq new img)
  | Copy _ new => negb (beq new img)
  | Save _ _ => true
  end.
Fixpoint leaves_b (g : Z) (img : bytes) (h : list (deed * sense)) (K : shelf) : bool :=
  match h with
  | [] => true
  | (x, m) :: rest => leaves_alone_b g img x m K && leaves_b g img rest (fst (do x m K))
  end.
Lemma leaves_b_ok g img h : forall K, leaves_b g img h K = true -> leaves g img h K.
Proof.
  induction h as [|[x m] h IH]; intros K H; [exact I|]. cbn [leaves_b leaves] in *. apply andb_prop in H as [H1 H2]. split; [|exact (IH _ H2)].
  assert (B : forall a b : bytes, negb (beq a b) = true -> a <> b) by (intros a b E; apply beq_neq; destruct (beq a b); [discriminate E|reflexivity]).
  destruct x as [order i a|order i n a s0|a b ow i new|i new|file c]; cbn [leaves_alone_b leaves_alone] in *; try (apply B; exact H1); try exact I.
  - intros E. apply orb_prop in H1 as [H1|H1]; [contradiction (B _ _ H1 E)|]. destruct (file_touched _ m K) as [f|]; [|discriminate]. intros X. injection X as ->. rewrite Z.eqb_refl in H1. discriminate H1.
  - intros E. apply orb_prop in H1 as [H1|H1]; [contradiction (B _ _ H1 E)|]. destruct (file_touched _ m K) as [f|]; [|discriminate]. intros X. injection X as ->. rewrite Z.eqb_refl in H1. discriminate H1.
Qed.

Lemma shelf4_shown : exists w, shows w day4_shelf /\ forall iter fuel h, orderly h day4_shelf -> spare 5 h day4_shelf -> unnoticed iter fuel (map fst h) w.
Proof.
  destruct real_disk as (d & sm & Hp & O5 & C5 & Ho & HF). pose proof Hp as (Hf & K3 & K4 & _). cbn [fst snd] in Hf, K3, K4.
  destruct (do_image _ _ Hf) as [c Hc]. pose proof (fl_map _ _ Hf) as Em.
  destruct real_table_ok as (A & B & C & D & _).
  assert (HS : shows (one_file (s2b "x.do") c None) day4_shelf).
  { split; [| |reflexivity|reflexivity].
    - intros img x E. unfold day4_shelf in E. cbn [sh_disks] in E. destruct (beq img (s2b "x.do")) eqn:Ei; [|discriminate E]. apply beq_eq in Ei. subst img.
      injection E as <-. cbn [kp_order kp_store kp_cards]. exists c. split; [reflexivity|]. exists d, real_table, (chain_of real_chains). rewrite Em.
      split; [exact Hc|]. split; [exact Hp|]. split; [exact A|]. split; [apply B|]. split; [exact D|]. split; [exact real_no_numeric|]. split; [vm_compute; discriminate|]. split; [|reflexivity].
      split; [|exact HF]. intros f Hlf. unfold in_use. cbn [store_of st_file].
      destruct (Z.eqb_spec f 3) as [->|N3].
      + split; [|intros X; contradiction (X eq_refl)]. rewrite content_beq by exact (fl_len _ _ Hf). rewrite K3. reflexivity.
      + destruct (Z.eqb_spec f 4) as [->|N4].
        * split; [|intros _ X; contradiction (X eq_refl)]. rewrite content_beq by exact (fl_len _ _ Hf). rewrite K4. reflexivity.
        * cbn [orb]. destruct (Z.eqb_spec f 5) as [->|N5]; [rewrite C5; split; [reflexivity|intros _ _; reflexivity]|].
          assert (content d sm f = []) as -> by (apply (content_nil_iff d sm f (fl_len _ _ Hf)); apply Ho; assumption).
          split; [reflexivity|intros _ _; reflexivity].
    - intros n. unfold day4_shelf, one_file. cbn [sh_disks sh_files w_fs]. destruct (beq n (s2b "x.do")); [discriminate|reflexivity]. }
  exists (one_file (s2b "x.do") c None). split; [exact HS|]. intros iter fuel h H1 H2.
  apply (shelf_spared iter fuel h _ day4_shelf 5); [exact HS|exact H1|discriminate|discriminate|discriminate| |exact H2].
  intros img x c2 d2 E Hc2 Hd2. unfold day4_shelf in E. cbn [sh_disks] in E. destruct (beq img (s2b "x.do")) eqn:Ei; [|discriminate E]. apply beq_eq in Ei. subst img. injection E as <-. cbn [kp_order] in Hd2.
  assert (c2 = c) as -> by (cbn in Hc2; injection Hc2 as Hc2; symmetry; exact Hc2). assert (d2 = d) as -> by exact (reordered_fun _ _ _ _ _ (proj1 Hd2) (proj1 Hc)).
  split; [rewrite <- (release_same _ _ _ _ (proj1 Hc)), (five_release _ _ O5 C5); discriminate|].
  assert (In 272 (owned sm 5)) as H5 by (rewrite O5; left; reflexivity). apply filter_In in H5 as [_ H5]. apply Z.eqb_eq in H5. unfold mark_owner. rewrite Em. exact H5.
Qed.

(** ** Two versions of a program *)
Definition cycle1 : list (deed * sense) :=
  [ (Save (s2b "f") (repeat 7 300), SPlan PlNone);
    (On (s2b "auto") (s2b "x.do") (APut (s2b "B") false 0 (s2b "40:game") (s2b "f")), SPlan (PlAt 64 (s2b "game"))) ].
Definition cycle2 : list (deed * sense) :=
  [ (Reorder (s2b "auto") (s2b "auto") false (s2b "x.do") (s2b "y.po"), SPlan PlNone);
    (On (s2b "auto") (s2b "y.po") (ARm false (s2b "GAME")), SPlan (PlAt 64 (s2b "GAME")));
    (Save (s2b "f") (repeat 9 700), SPlan PlNone) ].
Definition cycle3 : list (deed * sense) :=
  [ (On (s2b "auto") (s2b "x.do") (APut (s2b "B") false 0 (s2b "41:other") (s2b "f")), SPlan (PlAt 65 (s2b "other")));
    (Save (s2b "f") (repeat 1 5), SPlan PlNone);
    (Copy (s2b "x.do") (s2b "z.do"), SPlan PlNone) ].
Definition cycle : list (deed * sense) :=
  cycle1 ++ (Hello (s2b "auto") (s2b "x.do") (s2b "Game") 0x2000 0xFFFF, SLoad 64 (PlFile 1)) :: cycle2 ++
  (On (s2b "auto") (s2b "x.do") (APut (s2b "B") true 0 (s2b "game") (s2b "f")), SPlan (PlFile 64)) :: cycle3.
Lemma cycle_orderly : orderly_b 5 cycle day4_shelf = true.
Proof. vm_compute. reflexivity. Qed.
Lemma cycle_runs : snd (deeds cycle day4_shelf) = repeat (0, []) 10.
Proof. vm_compute. reflexivity. Qed.
Lemma cycle_leaves1 : leaves_b 1 (s2b "x.do") (cycle2 ++ (On (s2b "auto") (s2b "x.do") (APut (s2b "B") true 0 (s2b "game") (s2b "f")), SPlan (PlFile 64)) :: cycle3)
  (fst (deeds (cycle1 ++ [(Hello (s2b "auto") (s2b "x.do") (s2b "Game") 0x2000 0xFFFF, SLoad 64 (PlFile 1))]) day4_shelf)) = true.
Proof. vm_compute. reflexivity. Qed.
Lemma cycle_leaves64 : leaves_b 64 (s2b "x.do") cycle3 (fst (deeds (cycle1 ++ (Hello (s2b "auto") (s2b "x.do") (s2b "Game") 0x2000 0xFFFF, SLoad 64 (PlFile 1)) :: cycle2 ++
  [(On (s2b "auto") (s2b "x.do") (APut (s2b "B") true 0 (s2b "game") (s2b "f")), SPlan (PlFile 64))]) day4_shelf)) = true.
Proof. vm_compute. reflexivity. Qed.
Definition before_put : list (deed * sense) := cycle1 ++ (Hello (s2b "auto") (s2b "x.do") (s2b "Game") 0x2000 0xFFFF, SLoad 64 (PlFile 1)) :: cycle2.
Lemma cycle_data : sh_files (fst (deeds before_put day4_shelf)) (s2b "f") = NFile (repeat 9 700) true true.
Proof. vm_compute. reflexivity. Qed.
Lemma cycle_outside : known_img (fst (deeds before_put day4_shelf)) (s2b "f") = false.
Proof. vm_compute. reflexivity. Qed.
Lemma cycle_touched : file_touched (On (s2b "auto") (s2b "x.do") (APut (s2b "B") true 0 (s2b "game") (s2b "f"))) (SPlan (PlFile 64)) (fst (deeds before_put day4_shelf)) = Some 64.
Proof. vm_compute. reflexivity. Qed.
Lemma cycle_example iter fuel : exists w w',
  let hello := (Hello (s2b "auto") (s2b "x.do") (s2b "Game") 0x2000 0xFFFF, SLoad 64 (PlFile 1)) in
  let put := (On (s2b "auto") (s2b "x.do") (APut (s2b "B") true 0 (s2b "game") (s2b "f")), SPlan (PlFile 64)) in
  let run_of h := session (map (fun xm => deed_command iter fuel (fst xm)) h) w in
  let shelf_after h := fst (deeds h day4_shelf) in
  shows w day4_shelf /\ orderly (cycle1 ++ hello :: cycle2 ++ put :: cycle3) day4_shelf /\ unnoticed iter fuel (map fst (cycle1 ++ hello :: cycle2 ++ put :: cycle3)) w /\
  run_of (cycle1 ++ hello :: cycle2 ++ put :: cycle3) = (w', repeat (0, []) 2 ++ (0, []) :: repeat (0, []) 3 ++ (0, []) :: repeat (0, []) 3) /\
  leaves 1 (s2b "x.do") (cycle2 ++ put :: cycle3) (shelf_after (cycle1 ++ [hello])) /\
  file_touched (fst put) (snd put) (shelf_after (cycle1 ++ hello :: cycle2)) = Some 64 /\
  leaves 64 (s2b "x.do") cycle3 (shelf_after (cycle1 ++ hello :: cycle2 ++ [put])) /\
  w_fs (fst (run_of (cycle1 ++ hello :: cycle2))) (s2b "f") = NFile (repeat 9 700) true true.
Proof.
  destruct shelf4_shown as (w & HS & HU). destruct (orderly_b_ok 5 cycle day4_shelf cycle_orderly) as [H1 H2]. pose proof (HU iter fuel cycle H1 H2) as H3.
  destruct (shelf_session iter fuel cycle w day4_shelf HS H1 H3) as (w' & K' & l & Es & Ed & _).
  assert (Ebp : cycle = before_put ++ (On (s2b "auto") (s2b "x.do") (APut (s2b "B") true 0 (s2b "game") (s2b "f")), SPlan (PlFile 64)) :: cycle3) by reflexivity.
  pose proof H1 as Hop. rewrite Ebp in Hop. apply orderly_app in Hop as [Hop _].
  assert (Hup : unnoticed iter fuel (map fst before_put) w).
  { apply (unnoticed_app iter fuel _ (map fst ((On (s2b "auto") (s2b "x.do") (APut (s2b "B") true 0 (s2b "game") (s2b "f")), SPlan (PlFile 64)) :: cycle3))). rewrite <- map_app, <- Ebp. exact H3. }
  destruct (shelf_session iter fuel before_put w day4_shelf HS Hop Hup) as (w2 & K2 & l2 & Es2 & Ed2 & HS2).
  exists w, w'. cbv zeta. split; [exact HS|]. split; [exact H1|]. split; [exact H3|]. split.
  - change (cycle1 ++ _) with cycle. rewrite Es. apply f_equal2; [reflexivity|]. pose proof cycle_runs as HD. rewrite Ed in HD. exact HD.
  - split; [apply leaves_b_ok; exact cycle_leaves1|]. split; [exact cycle_touched|]. split; [apply leaves_b_ok; exact cycle_leaves64|].
    change (cycle1 ++ _) with before_put. rewrite Es2. cbn [fst]. pose proof cycle_data as HD. pose proof cycle_outside as HO. rewrite Ed2 in HD, HO. cbn [fst] in HD, HO.
    rewrite (sw_files _ _ HS2); [exact HD|]. unfold known_img in HO. destruct (sh_disks K2 (s2b "f")); [discriminate HO|reflexivity].
Qed.
