(** SettledExProofs.v -- examples for property C114. *)
From Coq Require Import ZifyBool ZifyNat.
From Verif Require Import GoBase GoLemmas TypesModel DiskModel DiskSpec DiskProofs DiskOpenProofs.
From Verif Require Import SupermonModel SupermonSpec SupermonTableSpec SupermonBreakSpec SupermonStoreSpec SupermonProofs SupermonSymProofs SupermonTabProofs SupermonLinkProofs SupermonOpProofs SupermonNameProofs SupermonFinalProofs SupermonNamedProofs SupermonStmtProofs.
From Verif Require ProdosSpec.
From Verif Require Import ProdosModel CmdModel CmdSpec CmdProofs CmdStmtProofs NakedCmdSpec NakedCmdProofs NakedOpenProofs NakedNameProofs NakedExProofs DetectSpec DetectProofs ListSpec OpenFuelProofs AfterProofs AfterExProofs
  SessionSpec SessionExProofs StatusSpec StatusProofs LawsProofs ChangesSpec ChangesProofs SettledProofs.
Ltac Zify.zify_post_hook ::= Z.div_mod_to_equations.
Local Opaque zrange zeros sub.

Lemma two_world a c s : a <> s2b "-" -> a <> s2b "f" -> let w := two_files a c (s2b "f") s in
  input w a c /\ input w (s2b "f") s /\ can_output w a true /\ w_room w = None /\ w_outroom w = None.
Proof.
  intros H0 Hf. cbv zeta. assert (B1 : beq a a = true) by (apply beq_eq; reflexivity).
  assert (B2 : beq (s2b "f") a = false) by (destruct (beq (s2b "f") a) eqn:B; [apply beq_eq in B; congruence|reflexivity]).
  split; [right; split; [exact H0|]; exists true; cbn [w_fs two_files]; rewrite B1; reflexivity|].
  split; [right; split; [discriminate|]; exists true; cbn [w_fs two_files]; rewrite B2; reflexivity|].
  split; [|split; reflexivity]. right. split; [exact H0|]. split; [|left; reflexivity]. right. cbn [w_fs two_files]. rewrite B1. eexists _, _. reflexivity.
Qed.
Lemma placed_bytes d f c d' : zlen d = 143360 -> bytes_ok d -> bytes_ok c -> legal f -> placed d f c d' -> bytes_ok d'.
Proof.
  intros Hd Hb Hc Hf P. pose proof (pl_size _ _ _ _ P) as Hd'. apply Forall_forall. intros x Hx. apply (In_znth 0) in Hx as (p & Hp & <-). rewrite Hd' in Hp.
  assert (Hz : forall (l : bytes) i, bytes_ok l -> is_byte (znth 0 l i)) by (intros l i Hl; apply bytes_ok_znth; exact Hl).
  destruct (in_dec Z.eq_dec (p / 256) (taken d f c)) as [Hi|Hi].
  - rewrite (znth_sec d') by lia. apply (In_znth 0) in Hi as (i & Hi & <-). rewrite (zlen_taken _ _ _ (pl_fits _ _ _ _ P)) in Hi.
    rewrite (pl_data _ _ _ _ P i Hi). apply Hz. apply bytes_ok_sub. unfold padded. apply Forall_app. split; [exact Hc|].
    apply bytes_ok_zeros.
  - assert (2512 <= p < 3072 \/ ~ (2512 <= p < 3072)) as [Hm|Hm] by lia; [|rewrite (pl_rest _ _ _ _ P) by (assumption || lia); apply Hz; exact Hb].
    rewrite (ChangesProofs.znth_map d') by lia. assert (Hk : 0 <= p - 2512 < 560) by lia. remember (p - 2512) as k eqn:Ek. clear Ek.
    destruct (in_dec Z.eq_dec k (taken d f c)) as [Ht|Ht]; [rewrite (pl_taken _ _ _ _ P k Ht); unfold is_byte, legal in *; lia|].
    destruct (Z.eq_dec (znth 0 (stored_map d) k) f) as [X|X].
    + rewrite (pl_freed _ _ _ _ P k Hk Ht X). unfold is_byte, FREE. lia.
    + rewrite (pl_others _ _ _ _ P k Hk Ht X). unfold stored_map. rewrite znth_sub by lia. apply Hz. exact Hb.
Qed.

(** File 2 is empty on the disks of [six_disk] as well. *)
Lemma six_two t : table_ok t -> map canon t = t -> exists d sm,
  floppy d sm /\ ReadSymbolTable sm d = Ok t /\ bytes_ok d /\ owned sm 5 = [272] /\ content d sm 5 = zeros 256 /\ owned sm 6 = [273] /\ owned sm 1 = [] /\
  zlen (owned sm 3) = 16 /\ zlen (owned sm 4) = 16 /\ zlen (owned sm FREE) = 514 /\ owned sm 2 = [].
Proof.
  intros T1 T4. destruct six_owned as (F5 & F6 & F1 & F3 & F4 & F0).
  destruct (WriteSymbolTable_ok t _ six_map six_floppy T1) as (d & sm & EW & Hf & HR & Hoth & Ho3 & Ho4 & H5).
  { rewrite F0, F3, (@zlen_nil Z). lia. }
  { rewrite F0, F3, F4, (@zlen_nil Z). lia. }
  rewrite F0, F3, F4, (@zlen_nil Z) in H5.
  destruct (Hoth 5 ltac:(lia) ltac:(lia) ltac:(unfold legal; lia)) as [O5 C5]. destruct (Hoth 6 ltac:(lia) ltac:(lia) ltac:(unfold legal; lia)) as [O6 _].
  destruct (Hoth 1 ltac:(lia) ltac:(lia) ltac:(unfold legal; lia)) as [O1 _].
  destruct (Hoth 2 ltac:(lia) ltac:(lia) ltac:(unfold legal; lia)) as [O2 _].
  rewrite F5 in O5. rewrite F6 in O6. rewrite F1 in O1. rewrite six_content in C5. rewrite T4 in HR.
  assert (Hbd : bytes_ok d).
  { apply (WriteSymbolTable_bytes t _ six_map d sm six_floppy (proj1 T1)); [|exact six_bytes|exact EW].
    destruct T1 as (_ & Hs & _). eapply Forall_impl; [|exact Hs]. intros s (H & _). exact H. }
  exists d, sm. split; [exact Hf|]. split; [exact HR|]. split; [exact Hbd|]. split; [exact O5|]. split; [exact C5|]. split; [exact O6|].
  split; [exact O1|]. split; [exact Ho3|]. split; [exact Ho4|]. split; [lia|]. rewrite O2. vm_compute. reflexivity.
Qed.
Lemma placed_free d f c d' : placed d f c d' -> free_on d <= free_on d' + nsec c.
Proof.
  intros P. rewrite <- (zlen_taken d f c (pl_fits _ _ _ _ P)). unfold free_on. rewrite <- zlen_app. unfold zlen. apply inj_le.
  apply NoDup_incl_length; [apply NoDup_owned|]. intros k Hk. apply In_owned in Hk as [Hk E]. apply in_or_app.
  destruct (in_dec Z.eq_dec k (taken d f c)) as [X|X]; [right; exact X|left]. apply In_owned. split; [exact Hk|].
  destruct (Z.eq_dec f FREE) as [->|Hf]; [apply (pl_freed _ _ _ _ P k Hk X E)|]. rewrite (pl_others _ _ _ _ P k Hk X); congruence.
Qed.

Section Ex.
  Variable iter : list (Z * Subdirectory) -> list (Z * Subdirectory).
  (** put NEWFILE, and again. *)
  Lemma put_twice fuel : ProdosSpec.an_order iter -> exists w w' new,
    run (PutCmd_Run iter fuel (s2b "auto") (s2b "auto") (s2b "B") false 0 (s2b "x.do") (s2b "NEWFILE") (s2b "f")) w = (w', Ok tt) /\
    output w w' (s2b "x.do") new /\
    eventually (fun k => exists w3, run (PutCmd_Run iter k (s2b "auto") (s2b "auto") (s2b "B") true 0 (s2b "x.do") (s2b "NEWFILE") (s2b "f")) (two_files (s2b "x.do") new (s2b "f") (repeat 7 300)) = (w3, Ok tt) /\
      holds w3 (s2b "x.do") new).
  Proof.
    intros Hit. destruct ex_table_ok as (T1 & T2 & T3 & T4).
    destruct (put_new iter fuel ex_table T1 T4 T2 T3 ltac:(vm_compute; reflexivity) ltac:(vm_compute; discriminate))
      as (w & w' & c & d & new & d' & Hif & Hin & Hbc & Hw & Hseen & Htb & Hnm & H1 & Hrun & Hout & Hnew & Hseen2).
    exists w, w', new. split; [exact Hrun|]. split; [exact Hout|].
    assert (Hne : repeat 7 300 <> []) by discriminate. remember (repeat 7 300) as s eqn:Es.
    assert (Hasc : is_ascii (s2b "NEWFILE")).
    { let l := eval vm_compute in (s2b "NEWFILE") in change (is_ascii l). unfold is_ascii. repeat (apply Forall_cons; [lia|]). apply Forall_nil. }
    destruct (put_settled iter fuel _ _ _ _ _ _ _ _ _ _ _ Hrun Hif Hne Hasc) as (c0 & o & d0 & t & d2 & new0 & Hc0 & Hni & Hos & Hn0 & Hout0 & Hnew0 & HX).
    rewrite (SettledProofs.input_one _ _ _ _ Hc0 Hin) in *. destruct (Hos Hit _ _ _ Hseen (or_introl eq_refl)) as (_ & <- & <-).
    rewrite (names_det _ _ _ Hn0 Hnm) in *.
    assert (new0 = new) as -> by exact (output_fun w w' (s2b "x.do") _ _ ltac:(discriminate) Hout0 Hout).
    assert (d2 = d') as -> by exact (reordered_fun _ _ _ _ _ (proj1 Hnew0) (proj1 Hnew)).
    assert (Hnn : forall g, ~ numeric (s2b "NEWFILE") g) by (apply not_numeric; vm_compute; reflexivity).
    assert (Hno : forall j, 0 <= j < zlen ex_table -> equal_fold (s2b "NEWFILE") (nm ex_table j) = false).
    { pose proof (find_name_spec ex_table (s2b "NEWFILE") 0) as HF. assert (find_name ex_table (s2b "NEWFILE") 0 = None) as E by (vm_compute; reflexivity). rewrite E in HF. exact HF. }
    assert (M : put_meaning d ex_table (s2b "NEWFILE") 1 (s2b "NEWFILE") true).
    { apply pm_new; [apply valid_no_colon, valid_check; reflexivity| |unfold legal; lia|exact H1|intros g Hg; lia].
      intros g [Hg|(_ & _ & i & (Hi & Hf & _) & _)]; [contradiction (Hnn g Hg)|]. rewrite equal_fold_sym, (Hno i Hi) in Hf. discriminate Hf. }
    destruct (two_world (s2b "x.do") new s ltac:(discriminate) ltac:(discriminate)) as (I1 & I2 & I3 & I4 & I5).
    eapply eventually_impl; [|exact (HX 1 _ true M ltac:(discriminate) ltac:(intros _; split; [lia|]; split; [lia|]; intros _; split; [exact Hbc|]; split; [apply valid_check; reflexivity|];
        intros [(i & (Hi & Hf & _) & _)|(_ & _ & p & j & (Hp & Ep & _) & Hj & Ej & Lj)]; [rewrite equal_fold_sym, (Hno i Hi) in Hf; discriminate Hf|];
        apply (T3 j Hj Ej); [lia|rewrite Lj; exact Ep])
      (s2b "auto") (s2b "auto") 0 (s2b "x.do") (s2b "f") _ (or_introl eq_refl) Hit Hseen2 I1 I2 ltac:(intros [X _]; discriminate X) I4 I5 I3)].
    intros k (w3 & Er3 & Hout3). exists w3. split; [exact Er3|]. destruct Hout3 as [[Hx _]|(_ & _ & Hx & _)]; [discriminate Hx|exact Hx].
  Qed.
  (** mkhello, and again. *)
  Lemma mkhello_twice : ProdosSpec.an_order iter -> eventually (fun fuel => exists w w' new,
    run (MkHelloCmd_Run iter fuel (s2b "auto") (s2b "x.do") (s2b "DF05") 0x2000 0xFFFF) w = (w', Ok tt) /\
    output w w' (s2b "x.do") new /\
    eventually (fun k => exists w3, run (MkHelloCmd_Run iter k (s2b "auto") (s2b "x.do") (s2b "5") 0x2000 0xFFFF) (two_files (s2b "x.do") new (s2b "f") []) = (w3, Ok tt) /\
      holds w3 (s2b "x.do") new)).
  Proof.
    intros Hit. destruct hello_table_ok as [T1 T4].
    destruct (six_disk hello_table T1 T4) as (d & sm & Hf & HR & Hbd & O5 & C5 & O6 & O1 & O3 & O4 & HF).
    destruct (do_image _ _ Hf) as [c Hc].
    assert (Hbc : bytes_ok c) by (apply (DetectProofs.reordered_bytes _ _ _ _ (reordered_back _ _ _ _ (proj1 Hc)) Hbd)).
    assert (Hrel : release_byte c <> 3).
    { rewrite <- (release_same _ _ _ _ (proj1 Hc)). rewrite (five_release d sm O5 C5). lia. }
    pose proof (still_seen _ _ _ _ _ first_do Hc Hrel Hbc) as Hseen.
    assert (Hnm : names_on d hello_table).
    { pose proof (names_opened d (proj2 Hc)) as Hn. rewrite (fl_map _ _ Hf), HR in Hn. exact Hn. }
    destruct (two_world (s2b "x.do") c [] ltac:(discriminate) ltac:(discriminate)) as (I1 & _ & I3 & I4 & I5).
    assert (H5a : numeric (s2b "DF05") 5) by (apply numeric_parse; [vm_compute; reflexivity|discriminate]).
    assert (H5b : numeric (s2b "5") 5) by (apply numeric_parse; [vm_compute; reflexivity|discriminate]).
    assert (Hs1 : symbol_file hello_table (s2b "FHELLO") 1).
    { assert (resolves hello_table (s2b "FHELLO") 1) as [X|[_ X]] by (apply FileForName_resolves; vm_compute; reflexivity); [contradiction (fhello_not _ X)|exact X]. }
    assert (Hgood : mkhello_succeeds d hello_table (s2b "DF05") 0x2000 0xFFFF).
    { split; [reflexivity|]. split; [intros X; contradiction X; reflexivity|]. split; [exists 5; apply ht_one; [apply (numeric_no_colon _ _ H5a)|left; exact H5a]|].
      split; [discriminate|]. split; [left; unfold free_on; rewrite (fl_map _ _ Hf), HF; lia|left; exact Hs1]. }
    eapply eventually_impl; [|exact (mkhello_status iter (s2b "x.do") (s2b "auto") c d (s2b "do") hello_table (s2b "DF05") 0x2000 0xFFFF _ Hit Hseen Hnm I1 I3 I4 I5)].
    intros fuel Hex. cbv beta in Hex. destruct (exits_good _ _ _ _ Hex Hgood (fun x => x)) as [w' Er].
    remember (two_files (s2b "x.do") c (s2b "f") []) as w eqn:Ew. clear Ew.
    destruct (mkhello_changes_run iter fuel _ _ _ _ _ _ _ Er ltac:(lia) ltac:(lia)) as (c2 & o2 & d2 & t2 & d2' & new2 & f2 & J1 & J2 & J3 & J4 & J5 & J6 & J7 & f3 & q3 & e3 & M & Hch).
    destruct (mkhello_settled iter fuel _ _ _ _ _ _ _ Er ltac:(lia) ltac:(lia)) as (c1 & o & d1 & t & d' & new & f & Hc1 & Hni & Hos & Hn1 & Ht & Hout & Hnew & HX).
    rewrite (SettledProofs.input_one _ _ _ _ Hc1 I1) in *. destruct (Hos Hit _ _ _ Hseen (or_introl eq_refl)) as (_ & <- & <-).
    rewrite (SettledProofs.input_one _ _ _ _ J1 I1) in *. destruct (J3 Hit _ _ _ Hseen (or_introl eq_refl)) as (_ & <- & <-).
    rewrite (names_det _ _ _ Hn1 Hnm) in *. rewrite (names_det _ _ _ J4 Hnm) in *.
    assert (f = 5) as -> by (apply (target_one _ _ _ _ Ht); apply tg_plain; [apply (numeric_no_colon _ _ H5a)|left; exact H5a]).
    assert (f2 = 5) as -> by (apply (target_one _ _ _ _ J5); apply tg_plain; [apply (numeric_no_colon _ _ H5a)|left; exact H5a]).
    assert (new2 = new) as -> by exact (output_fun w w' (s2b "x.do") _ _ ltac:(discriminate) J6 Hout).
    assert (d2' = d') as -> by exact (reordered_fun _ _ _ _ _ (proj1 J7) (proj1 Hnew)).
    destruct (hello_what d hello_table) as (e0 & M0 & He0). destruct (meaning_one _ _ _ _ _ _ _ _ _ M M0) as (-> & -> & ->).
    destruct Hch as [(X & _)|[_ P]]; [apply He0 in Hs1; congruence|].
    assert (legal 1 /\ legal 5) as [L1 L5] by (unfold legal; lia).
    assert (Hbd' : bytes_ok d').
    { refine (placed_bytes d 1 _ d' (fl_len _ _ Hf) Hbd _ L1 P). change (0x2000 / 256) with 32. cbn [Z.eqb Pos.eqb]. change (0x2000 mod 256) with 0. change (0x2000 / 256) with 32.
      repeat (apply Forall_cons; [unfold is_byte; lia|]). apply Forall_nil. }
    assert (Hbn : bytes_ok new) by (apply (DetectProofs.reordered_bytes _ _ _ _ (reordered_back _ _ _ _ (proj1 Hnew)) Hbd')).
    assert (Hrel2 : release_byte new <> 3).
    { rewrite <- (release_same _ _ _ _ (proj1 Hnew)). rewrite (five_release d' (stored_map d')); [lia| |].
      - rewrite (placed_owned d 1 _ d' 5 P L5 ltac:(lia)). rewrite (fl_map _ _ Hf). exact O5.
      - pose proof (placed_keeps d sm 1 _ d' 5 Hf P L5 L1 ltac:(lia)) as K. unfold file_on in K. rewrite K, (fl_map _ _ Hf). exact C5. }
    pose proof (still_seen _ _ _ _ _ first_do Hnew Hrel2 Hbn) as Hseen2.
    exists w, w', new. split; [exact Er|]. split; [exact Hout|].
    destruct (two_world (s2b "x.do") new [] ltac:(discriminate) ltac:(discriminate)) as (K1 & _ & K3 & K4 & K5).
    eapply eventually_impl; [|exact (HX (or_introl Hs1) (s2b "auto") (s2b "x.do") (s2b "5") _ _ Hit (names_opened _ (proj2 Hnew))
      (tg_plain _ _ 5 (numeric_no_colon _ _ H5b) (or_introl H5b)) Hseen2 K1 K4 K5 K3)].
    intros k (w3 & Er3 & Hout3). exists w3. split; [exact Er3|]. destruct Hout3 as [[Hx _]|(_ & _ & Hx & _)]; [discriminate Hx|exact Hx].
  Qed.
  (** put without a name, and again. *)
  Lemma unnamed_twice : ProdosSpec.an_order iter -> eventually (fun fuel => exists w w' c d t d' new,
    run (PutCmd_Run iter fuel (s2b "auto") (s2b "auto") (s2b "B") false 0 (s2b "x.do") [] (s2b "f")) w = (w', Ok tt) /\
    input w (s2b "f") (repeat 7 300) /\ input w (s2b "x.do") c /\ seen_as (s2b "x.do") (s2b "auto") c (s2b "nakedos") d (s2b "do") /\ names_on d t /\ put_meaning d t [] 1 [] true /\
    output w w' (s2b "x.do") new /\ seen_as (s2b "x.do") (s2b "auto") new (s2b "nakedos") d' (s2b "do") /\
    eventually (fun k => exists w3,
      run (PutCmd_Run iter k (s2b "auto") (s2b "auto") (s2b "B") false 0 (s2b "x.do") [] (s2b "f")) (two_files (s2b "x.do") new (s2b "f") (repeat 7 300)) = (w3, Ok tt))).
  Proof.
    intros Hit. destruct hello_table_ok as [T1 T4].
    destruct (six_two hello_table T1 T4) as (d & sm & Hf & HR & Hbd & O5 & C5 & O6 & O1 & O3 & O4 & HF & O2).
    destruct (do_image _ _ Hf) as [c Hc].
    assert (Hbc : bytes_ok c) by (apply (DetectProofs.reordered_bytes _ _ _ _ (reordered_back _ _ _ _ (proj1 Hc)) Hbd)).
    assert (Hrel : release_byte c <> 3).
    { rewrite <- (release_same _ _ _ _ (proj1 Hc)). rewrite (five_release d sm O5 C5). lia. }
    pose proof (still_seen _ _ _ _ _ first_do Hc Hrel Hbc) as Hseen.
    assert (Hnm : names_on d hello_table).
    { pose proof (names_opened d (proj2 Hc)) as Hn. rewrite (fl_map _ _ Hf), HR in Hn. exact Hn. }
    assert (Hbs : bytes_ok (repeat 7 300)) by (apply Forall_forall; intros x Hx; apply repeat_spec in Hx; subst x; unfold is_byte; lia).
    assert (Hns : nsec (repeat 7 300) = 2) by (vm_compute; reflexivity).
    assert (Hne : repeat 7 300 <> []) by discriminate. remember (repeat 7 300) as s eqn:Es. clear Es.
    assert (Ha : is_ascii []) by constructor.
    assert (Hnr : forall g, ~ resolves hello_table [] g).
    { intros g X. apply FileForName_resolves in X. vm_compute in X. discriminate X. }
    assert (legal 1 /\ legal 5 /\ legal 2) as (L1 & L5 & L2) by (unfold legal; lia).
    assert (F1 : file_on d 1 = []) by (unfold file_on, content; rewrite (fl_map _ _ Hf), O1; reflexivity).
    assert (M : put_meaning d hello_table [] 1 [] true) by (apply pm_new; [intros []|exact Hnr|exact L1|exact F1|intros g Hg; lia]).
    destruct (two_world (s2b "x.do") c s ltac:(discriminate) ltac:(discriminate)) as (I1 & I2 & I3 & I4 & I5).
    assert (Hgood : put_succeeds d hello_table (s2b "B") false [] s).
    { exists 1, [], true. split; [|split; [intros X; contradiction (Hne X)|intros _ X; contradiction (X eq_refl)]].
      split; [reflexivity|]. split; [exact M|]. split; [left; reflexivity|]. split; [unfold free_on, sectors_on; rewrite (fl_map _ _ Hf), HF, Hns, O1, (@zlen_nil Z); lia|]. intros X; contradiction X; exact F1. }
    assert (Hnc : forall d0, ~ put_crashes d0 hello_table (s2b "B") false [] s) by (intros d0 (f0 & q0 & e0 & _ & X & _); contradiction (Hne X)).
    eapply eventually_impl; [|exact (put_status iter (s2b "x.do") (s2b "auto") (s2b "auto") c d (s2b "do") hello_table (s2b "B") false 0 [] (s2b "f") s _ Hit Hseen (or_introl eq_refl) Hnm I1 I2
      ltac:(intros [X _]; discriminate X) I3 I4 I5 Ha)].
    intros fuel Hex. cbv beta in Hex. destruct (exits_good _ _ _ _ Hex Hgood (Hnc d)) as [w' Er].
    remember (two_files (s2b "x.do") c (s2b "f") s) as w eqn:Ew. clear Ew.
    destruct (put_changes_run iter fuel _ _ _ _ _ _ _ _ _ _ _ Er I2 Hne Ha) as (c2 & o2 & d2 & t2 & d' & new & J1 & J2 & J3 & J4 & J6 & J7 & f3 & q3 & e3 & M3 & Hch).
    rewrite (SettledProofs.input_one _ _ _ _ J1 I1) in *. destruct (J3 Hit _ _ _ Hseen (or_introl eq_refl)) as (_ & <- & <-).
    rewrite (names_det _ _ _ J4 Hnm) in *. destruct (meaning_one _ _ _ _ _ _ _ _ _ M3 M) as (-> & -> & ->).
    destruct Hch as [(_ & X & _)|[_ P]]; [contradiction X; reflexivity|].
    pose proof (placed_bytes d 1 _ d' (fl_len _ _ Hf) Hbd Hbs L1 P) as Hbd'.
    assert (Hbn : bytes_ok new) by (apply (DetectProofs.reordered_bytes _ _ _ _ (reordered_back _ _ _ _ (proj1 J7)) Hbd')).
    assert (Hrel2 : release_byte new <> 3).
    { rewrite <- (release_same _ _ _ _ (proj1 J7)). rewrite (five_release d' (stored_map d')); [lia| |].
      - rewrite (placed_owned d 1 _ d' 5 P L5 ltac:(lia)). rewrite (fl_map _ _ Hf). exact O5.
      - pose proof (placed_keeps d sm 1 _ d' 5 Hf P L5 L1 ltac:(lia)) as K. unfold file_on in K. rewrite K, (fl_map _ _ Hf). exact C5. }
    pose proof (still_seen _ _ _ _ _ first_do J7 Hrel2 Hbn) as Hseen2.
    exists w, w', c, d, hello_table, d', new. split; [exact Er|]. split; [exact I2|]. split; [exact I1|]. split; [exact Hseen|]. split; [exact Hnm|]. split; [exact M|]. split; [exact J6|]. split; [exact Hseen2|].
    destruct (two_world (s2b "x.do") new s ltac:(discriminate) ltac:(discriminate)) as (K1 & K2 & K3 & K4 & K5).
    assert (Hnm' : names_on d' hello_table).
    { apply (AfterProofs.names_same d); [exact (proj2 Hc)|exact (proj2 J7)| | |exact Hnm]; apply (placed_keeps d sm 1 s d' _ Hf P); unfold legal; lia. }
    assert (F1' : file_on d' 1 <> []) by (rewrite (placed_file _ _ _ _ L1 P); apply padded_nonempty; exact Hne).
    assert (F2' : file_on d' 2 = []).
    { rewrite (placed_keeps d sm 1 s d' 2 Hf P L2 L1 ltac:(lia)). unfold file_on, content. rewrite (fl_map _ _ Hf), O2. reflexivity. }
    assert (Hgood' : put_succeeds d' hello_table (s2b "B") false [] s).
    { exists 2, [], true. split; [|split; [intros X; contradiction (Hne X)|intros _ X; contradiction (X eq_refl)]].
      split; [reflexivity|]. split; [apply pm_new; [intros []|exact Hnr|exact L2|exact F2'|intros g Hg; assert (g = 1) as -> by lia; exact F1']|]. split; [left; reflexivity|].
      split; [|intros X; contradiction (X F2')]. pose proof (placed_free _ _ _ _ P) as K. unfold free_on at 1 in K. rewrite (fl_map _ _ Hf), HF, Hns in K.
      pose proof (zlen_nonneg (owned (stored_map d') 2)). unfold sectors_on. lia. }
    eapply eventually_impl; [|exact (put_status iter (s2b "x.do") (s2b "auto") (s2b "auto") new d' (s2b "do") hello_table (s2b "B") false 0 [] (s2b "f") s _ Hit Hseen2 (or_introl eq_refl) Hnm' K1 K2
      ltac:(intros [X _]; discriminate X) K3 K4 K5 Ha)].
    intros k Hex2. cbv beta in Hex2. exact (exits_good _ _ _ _ Hex2 Hgood' (Hnc d')).
  Qed.
End Ex.
