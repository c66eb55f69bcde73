(** ShelfExProofs.v -- a concrete session on two images (C117). *)
From Coq Require Import ZifyBool ZifyNat.
From Verif Require Import GoBase GoLemmas TypesModel DiskModel DiskSpec DiskProofs DiskOpenProofs.
From Verif Require Import SupermonModel SupermonSpec SupermonTableSpec SupermonStoreSpec SupermonProofs SupermonSymProofs SupermonOpProofs SupermonNameProofs SupermonFinalProofs SupermonNamedProofs SupermonStmtProofs SupermonChainSpec SupermonChainProofs SupermonChainExProofs.
From Verif Require Import ProdosModel CmdModel CmdSpec CmdProofs CmdStmtProofs MainModel NakedCmdSpec NakedCmdProofs NakedOpenProofs NakedExProofs AfterProofs AfterExProofs SessionSpec SessionProofs SessionExProofs MarkProofs NamesSpec NamesProofs NamesExProofs.
From Verif Require Import RestSpec ShelfSpec ShelfProofs.
Ltac Zify.zify_post_hook ::= Z.div_mod_to_equations.

(** ** A check that a session is orderly *)
Definition first_b (img order o : bytes) : bool :=
  match candidate_orders order (to_lower (path_Ext (image_name img))) with Ok (o' :: _) => beq o' o | _ => false end.
Definition flag_b (a : bytes) : bool := beq a (s2b "auto") || beq a (s2b "do") || beq a (s2b "po").
Definition known_img (K : shelf) (n : bytes) : bool := match sh_disks K n with Some _ => true | None => false end.
Definition vacant_b (K : shelf) (n : bytes) : bool := known_img K n || match sh_files K n with NMissing => true | _ => false end.
Definition sound_b (K : shelf) (x : deed) (m : sense) : bool :=
  match x with
  | On order img a =>
      match sh_disks K img, m with
      | Some x, SPlan p => negb (beq img (s2b "-")) && first_b img order (kp_order x) && planned_b (kp_cards x) (kp_store x) img a p
      | _, _ => false
      end &&
      match a with APut _ _ _ _ src => negb (known_img K src) | ASave _ _ => false | _ => true end
  | Hello order img n a s0 =>
      (0 <=? a) && (a <? 65536) && (0 <=? s0) && (s0 <? 65536) && negb (beq img (s2b "-")) && (zlen img <? 255) &&
      match sh_disks K img, m with
      | Some x, SLoad f p =>
          first_b img order (kp_order x) &&
          match means (kp_cards x) n with Some g => g =? f | None => false end && valid_b n &&
          match p with PlFile f' => (f' =? 1) && match means (kp_cards x) (s2b "FHELLO") with Some g => g =? 1 | None => false end | _ => false end
      | _, _ => false
      end
  | Reorder a b _ img new =>
      flag_b a && flag_b b && negb (beq img (s2b "-")) && negb (beq new (s2b "-")) &&
      match sh_disks K img, getOrders img a new b with Some x, Ok (f, t) => beq f (kp_order x) | _, _ => false end &&
      (beq new [] || vacant_b K new)
  | Copy img new => known_img K img && negb (beq img (s2b "-")) && vacant_b K new
  | Save file _ => negb (known_img K file)
  end.
Lemma first_b_ok img order o : first_b img order o = true -> first_order img order o.
Proof.
  unfold first_b. destruct (candidate_orders order (to_lower (path_Ext (image_name img)))) as [[|o' r]| |] eqn:E; try discriminate.
  intros H. apply beq_eq in H. subst o'. exists r. apply candidate_orders_iff. exact E.
Qed.
Lemma flag_b_ok a : flag_b a = true -> order_flag a.
Proof.
  unfold flag_b. intros H. apply orb_prop in H as [H|H]; [apply orb_prop in H as [H|H]|]; apply beq_eq in H; subst a; constructor.
Qed.
Lemma vacant_b_ok K n : vacant_b K n = true -> vacant K n.
Proof.
  unfold vacant_b, known_img, vacant. destruct (sh_disks K n); [left; discriminate|]. cbn [orb]. intros H. right. destruct (sh_files K n); try discriminate H; reflexivity.
Qed.
Lemma sound_b_ok K x m : sound_b K x m = true -> sound K x m.
Proof.
  intros H. destruct x as [order img a|order img n a s0|a b ow img new|img new|file c]; cbn [sound_b] in H.
  - bits. destruct (sh_disks K img) as [x|] eqn:E; [|discriminate]. destruct m as [p|f p]; [|discriminate]. bits.
    apply (sd_on _ _ _ _ _ x); [exact E|apply beqn_ne; assumption|apply first_b_ok; assumption|apply planned_b_ok; assumption|].
    destruct a as [ft ow addr n src|force n|n|short|file c]; try exact I; [|discriminate]. unfold from_outside. unfold known_img in *. destruct (sh_disks K src); [discriminate|reflexivity].
  - bits. destruct (sh_disks K img) as [x|] eqn:E; [|discriminate]. destruct m as [p|f p]; [discriminate|]. bits.
    destruct (means (kp_cards x) n) as [g|] eqn:EM; [|discriminate]. assert (g = f) as -> by lia. apply means_some in EM.
    destruct p as [|f'|q|f' q]; try discriminate. bits. assert (f' = 1) as -> by lia. destruct (means (kp_cards x) (s2b "FHELLO")) as [g|] eqn:EH; [|discriminate]. assert (g = 1) as -> by lia. apply means_some in EH.
    apply (sd_hello _ _ _ _ _ _ _ _ x); [exact E|apply beqn_ne; assumption|apply first_b_ok; assumption|lia|lia| |].
    + apply tg_plain; [|exact EM]. apply valid_no_colon, valid_b_iff. assumption.
    + unfold loader_put. change (s2b "DF01:FHELLO") with (s2b "DF01" ++ 58 :: s2b "FHELLO").
      assert (Hn : forall g, ~ numeric (s2b "FHELLO") g) by (apply not_numeric; reflexivity).
      apply pl_put_both; [apply numeric_parse; [reflexivity|lia]|exact Hn|apply valid_b_iff; reflexivity|lia|lia| |discriminate|].
      * right. destruct EH as [EH|[_ EH]]; [contradiction (Hn _ EH)|exact EH].
      * intros X. apply (f_equal (@length Z)) in X. cbn [length] in X. lia.
  - bits. destruct (sh_disks K img) as [x|] eqn:E; [|discriminate]. destruct (getOrders img a new b) as [[f t]| |] eqn:EG; try discriminate.
    match goal with H : beq f _ = true |- _ => apply beq_eq in H; subst f end.
    assert (Fa : order_flag a) by (apply flag_b_ok; assumption). assert (Fb : order_flag b) by (apply flag_b_ok; assumption).
    apply (sd_reorder _ _ _ _ _ _ _ x t); [exact E|apply beqn_ne; assumption|apply beqn_ne; assumption|exact Fa|exact Fb|apply (proj1 (C66_lemma img a new b Fa Fb)); exact EG|].
    match goal with H : _ || _ = true |- _ => apply orb_prop in H as [H|H] end; [left; apply beq_eq; assumption|right; apply vacant_b_ok; assumption].
  - bits. unfold known_img in *. destruct (sh_disks K img) as [x|] eqn:E; [|discriminate]. apply (sd_copy _ _ _ _ x); [exact E|apply beqn_ne; assumption|apply vacant_b_ok; assumption].
  - apply sd_save. unfold known_img in H. destruct (sh_disks K file); [discriminate|reflexivity].
Qed.
Fixpoint orderly_b (g : Z) (h : list (deed * sense)) (K : shelf) : bool :=
  match h with
  | [] => true
  | (x, m) :: rest => sound_b K x m && match file_touched x m K with Some f => negb (f =? g) | None => true end && orderly_b g rest (fst (do x m K))
  end.
Lemma orderly_b_ok g h : forall K, orderly_b g h K = true -> orderly h K /\ spare g h K.
Proof.
  induction h as [|[x m] h IH]; intros K H; [split; exact I|]. cbn [orderly_b orderly spare] in *. apply andb_prop in H as [H H3]. apply andb_prop in H as [H1 H2].
  destruct (IH _ H3) as [I1 I2]. split; (split; [|assumption]); [apply sound_b_ok; exact H1|].
  destruct (file_touched x m K) as [f|]; [|discriminate]. intros E. injection E as E. lia.
Qed.

(** ** A session on two images *)
Definition day4 : list (deed * sense) :=
  let auto := s2b "auto" in let x := s2b "x.do" in let y := s2b "y.po" in let z := s2b "z.do" in
  [ (Save (s2b "f") (repeat 7 300), SPlan PlNone);
    (On auto x (APut (s2b "B") false 0 (s2b "40:game") (s2b "f")), SPlan (PlAt 64 (s2b "game")));
    (Reorder auto auto false x y, SPlan PlNone);
    (On auto y (ALs false), SPlan PlNone);
    (Hello auto x (s2b "Game") 0x2000 0xFFFF, SLoad 64 (PlFile 1));
    (On auto x (ADump (s2b "FHELLO")), SPlan (PlFile 1));
    (Hello auto x (s2b "Game") 0x2010 0xFFFF, SLoad 64 (PlFile 1));
    (On auto y (ARm false (s2b "GAME")), SPlan (PlAt 64 (s2b "GAME")));
    (On auto x (ADump (s2b "40")), SPlan (PlFile 64));
    (On auto y (ADump (s2b "40")), SPlan (PlFile 64));
    (Save (s2b "g") (repeat 7 300 ++ repeat 0 212), SPlan PlNone);
    (On auto y (APut (s2b "B") false 0 (s2b "NEWFILE") (s2b "g")), SPlan (PlNew (s2b "NEWFILE")));
    (On auto y (ALs true), SPlan PlNone);
    (Reorder auto auto false y x, SPlan PlNone);
    (On auto x (ALs true), SPlan PlNone);
    (Reorder auto auto true y x, SPlan PlNone);
    (On auto x (ALs false), SPlan PlNone);
    (Reorder (s2b "po") auto false y [], SPlan PlNone);
    (Copy x z, SPlan PlNone);
    (On auto z (APut (s2b "B") false 0 (s2b "41:other") (s2b "f")), SPlan (PlAt 65 (s2b "other")));
    (On (s2b "do") y (ALs true), SPlan PlNone);
    (On auto x (ALs true), SPlan PlNone);
    (On auto z (ALs true), SPlan PlNone) ].
Definition day4_outcomes : list (Z * bytes) :=
  [ (0, []); (0, []); (0, []);
    (0, lines [s2b "DF03:FSYMTBL1"; s2b "DF04:FSYMTBL2"; s2b "DF05:FMONHELP"; s2b "DF40:GAME"]);
    (0, []); (0, loader 64 0x2000 0x2000 ++ repeat 0 240); (1, []); (0, []);
    (0, repeat 7 300 ++ repeat 0 212); (1, []); (0, []); (0, []);
    (0, lines [s2b "FHELLO"; s2b "FSYMTBL1"; s2b "FSYMTBL2"; s2b "FMONHELP"]);
    (1, []);
    (0, lines [s2b "FHELLO"; s2b "FSYMTBL1"; s2b "FSYMTBL2"; s2b "FMONHELP"; s2b "GAME"]);
    (0, []);
    (0, lines [s2b "DF01:FHELLO"; s2b "DF03:FSYMTBL1"; s2b "DF04:FSYMTBL2"; s2b "DF05:FMONHELP"]);
    (0, []); (0, []); (0, []);
    (0, lines [s2b "FHELLO"; s2b "FSYMTBL1"; s2b "FSYMTBL2"; s2b "FMONHELP"]);
    (0, lines [s2b "FHELLO"; s2b "FSYMTBL1"; s2b "FSYMTBL2"; s2b "FMONHELP"]);
    (0, lines [s2b "FHELLO"; s2b "FSYMTBL1"; s2b "FSYMTBL2"; s2b "FMONHELP"; s2b "OTHER"]) ].
Definition day4_shelf : shelf :=
  Shelf (fun _ => NMissing)
    (fun n => if beq n (s2b "x.do")
              then Some (Kept (s2b "do") (St (fun g => if (g =? 3) || (g =? 4) then [0] else if g =? 5 then zeros 256 else []) 515) (cards_of real_table)) else None).
Lemma day4_orderly : orderly_b 5 day4 day4_shelf = true.
Proof. vm_compute. reflexivity. Qed.
Lemma day4_runs : snd (deeds day4 day4_shelf) = day4_outcomes.
Proof. vm_compute. reflexivity. Qed.
Lemma day4_known : known_img (fst (deeds day4 day4_shelf)) (s2b "y.po") = true.
Proof. vm_compute. reflexivity. Qed.
Lemma day4_example iter fuel : exists w w', shows w day4_shelf /\ session (map (fun xm => deed_command iter fuel (fst xm)) day4) w = (w', day4_outcomes) /\
  w_fs w' (s2b "y.po") <> w_fs w (s2b "y.po").
Proof.
  destruct real_disk as (d & sm & Hp & O5 & C5 & Ho & HF). pose proof Hp as (Hf & K3 & K4 & _). cbn [fst snd] in Hf, K3, K4.
  destruct (do_image _ _ Hf) as [c Hc]. pose proof (fl_map _ _ Hf) as Em.
  destruct real_table_ok as (A & B & C & D & _).
  assert (HS : shows (one_file (s2b "x.do") c None) day4_shelf).
  { split; [| |reflexivity|reflexivity].
    - intros img x E. unfold day4_shelf in E. cbn [sh_disks] in E. destruct (beq img (s2b "x.do")) eqn:Ei; [|discriminate E]. apply beq_eq in Ei. subst img.
      injection E as <-. cbn [kp_order kp_store kp_cards]. exists c. split; [reflexivity|]. exists d, real_table, (chain_of real_chains). rewrite Em.
      split; [exact Hc|]. split; [exact Hp|]. split; [exact A|]. split; [apply B|]. split; [exact D|]. split; [exact real_no_numeric|]. split; [vm_compute; discriminate|]. split; [|reflexivity].
      split; [|exact HF]. intros f Hlf. unfold in_use. cbn [store_of st_file].
      destruct (Z.eqb_spec f 3) as [->|N3].
      + split; [|intros X; contradiction (X eq_refl)]. rewrite content_beq by exact (fl_len _ _ Hf). rewrite K3. reflexivity.
      + destruct (Z.eqb_spec f 4) as [->|N4].
        * split; [|intros _ X; contradiction (X eq_refl)]. rewrite content_beq by exact (fl_len _ _ Hf). rewrite K4. reflexivity.
        * cbn [orb]. destruct (Z.eqb_spec f 5) as [->|N5]; [rewrite C5; split; [reflexivity|intros _ _; reflexivity]|].
          assert (content d sm f = []) as -> by (apply (content_nil_iff d sm f (fl_len _ _ Hf)); apply Ho; assumption).
          split; [reflexivity|intros _ _; reflexivity].
    - intros n. unfold day4_shelf, one_file. cbn [sh_disks sh_files w_fs]. destruct (beq n (s2b "x.do")); [discriminate|reflexivity]. }
  destruct (orderly_b_ok 5 day4 day4_shelf day4_orderly) as [H1 H2].
  destruct (shelf_session iter fuel day4 _ day4_shelf HS H1) as (w' & K' & l & Es & Ed & HS').
  - apply (shelf_spared iter fuel day4 _ day4_shelf 5); [exact HS|exact H1|discriminate|discriminate|discriminate| |exact H2].
    intros img x c2 d2 E Hc2 Hd2. unfold day4_shelf in E. cbn [sh_disks] in E. destruct (beq img (s2b "x.do")) eqn:Ei; [|discriminate E]. apply beq_eq in Ei. subst img. injection E as <-. cbn [kp_order] in Hd2.
    assert (c2 = c) as -> by (cbn in Hc2; injection Hc2 as Hc2; symmetry; exact Hc2). assert (d2 = d) as -> by exact (reordered_fun _ _ _ _ _ (proj1 Hd2) (proj1 Hc)).
    split; [rewrite <- (release_same _ _ _ _ (proj1 Hc)), (five_release _ _ O5 C5); discriminate|].
    assert (In 272 (owned sm 5)) as H5 by (rewrite O5; left; reflexivity). apply filter_In in H5 as [_ H5]. apply Z.eqb_eq in H5. unfold mark_owner. rewrite Em. exact H5.
  - exists (one_file (s2b "x.do") c None), w'. split; [exact HS|]. split; [rewrite Es; apply f_equal2; [reflexivity|]; pose proof day4_runs as HD; rewrite Ed in HD; exact HD|].
    assert (exists x, sh_disks K' (s2b "y.po") = Some x) as [x2 Ey] by (pose proof day4_known as HK; rewrite Ed in HK; unfold known_img in HK; cbn [fst] in HK; destruct (sh_disks K' (s2b "y.po")) as [x|]; [exists x; reflexivity|discriminate HK]).
    destruct (sw_disks _ _ HS' _ _ Ey) as (c2 & Hc2 & _). rewrite Hc2. discriminate.
Qed.
