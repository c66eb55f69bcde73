(** SessionExProofs.v -- concrete sessions (C95). *)
From Coq Require Import ZifyBool ZifyNat.
From Verif Require Import GoBase GoLemmas TypesModel DiskModel DiskSpec DiskProofs.
From Verif Require Import SupermonModel SupermonSpec SupermonTableSpec SupermonStoreSpec SupermonProofs SupermonSymProofs SupermonTabProofs SupermonLinkProofs SupermonOpProofs SupermonNameProofs SupermonFinalProofs SupermonNamedProofs SupermonStmtProofs.
From Verif Require Import ProdosModel CmdModel CmdSpec CmdProofs MainModel NakedCmdSpec NakedCmdProofs NakedOpenProofs NakedExProofs AfterProofs AfterExProofs SessionSpec SessionProofs.
Ltac Zify.zify_post_hook ::= Z.div_mod_to_equations.
Local Opaque zrange zeros sub.

Lemma numeric_parse s f : parseAddressFilename s = f -> f <> 0 -> numeric s f.
Proof.
  intros E H. destruct (parseAddress_cases s) as [(g & Hg & Eg)|[_ E0]]; [|congruence]. assert (g = f) as <- by congruence. exact Hg.
Qed.

(** Nothing is put that would look like the mark of DOS 3.3. *)
Lemma harmless_saved t img h : forall k, (forall n data r q, n <> img -> k_files k n = NFile data r q -> no_mark data) ->
  Forall (fun af => match fst af with ASave _ c => no_mark c | APut _ _ _ _ src => src <> img | _ => True end) h -> harmless t h k.
Proof.
  induction h as [|[a f] h IH]; intros k Hk Hh; [exact I|]. inversion Hh as [|? ? Ha Hr]. subst. cbn [harmless fst] in *. split.
  - destruct a as [ft ow addr n src|force n|n|short|file c]; cbn [calm]; try exact I. intros data r q. apply Hk. exact Ha.
  - apply IH; [|exact Hr]. intros n data r q Hn E.
    assert (k_files (fst (act t a f k)) n = k_files k n \/ exists c r' q', a = ASave n c /\ k_files (fst (act t a f k)) n = NFile c r' q') as X.
    { destruct a as [ft ow addr n' src|force n'|n'|short|file c]; cbn [act].
      - left. destruct f; [|reflexivity]. destruct (k_files k src) as [| |data' [|] q'|]; try reflexivity.
        destruct (binary ft); [|reflexivity]. cbv zeta. destruct (_ =? 0); reflexivity.
      - left. destruct f; [|reflexivity]. destruct (_ || _); reflexivity.
      - left. destruct f; reflexivity.
      - left. reflexivity.
      - destruct (can_write (k_files k file)) eqn:Ew; [|left; reflexivity]. cbn [fst k_files]. destruct (beq n file) eqn:En; [|left; reflexivity].
        right. apply beq_eq in En. subst file. destruct (k_files k n); cbn [written]; (eexists _, _, _; split; reflexivity) || discriminate Ew. }
    destruct X as [X|(c & r' & q' & -> & X)].
    + rewrite X in E. apply (Hk n data r q Hn E).
    + rewrite X in E. injection E as <- _ _. exact Ha.
Qed.
Lemma no_mark_nil : no_mark [].
Proof. intros j Hj. rewrite znth_overflow; [lia|rewrite (@zlen_nil Z); lia]. Qed.
Lemma no_mark_repeat v n : v <> 3 -> no_mark (repeat v n).
Proof.
  intros Hv j Hj. destruct (Z_lt_ge_dec (256 * j + 3) (zlen (repeat v n))) as [Hlt|Hge].
  - intros E. apply Hv. rewrite <- E. symmetry. apply (repeat_spec n v). apply znth_In. lia.
  - rewrite znth_overflow; lia.
Qed.

(** A blank disk: all files are put by number. *)
Definition day : list (action * option Z) :=
  [ (ASave (s2b "f") (repeat 7 300), None);
    (ALs true, None);
    (APut (s2b "B") false 0 (s2b "DF06") (s2b "f"), Some 6);
    (APut (s2b "B") false 0 (s2b "06") (s2b "f"), Some 6);
    (APut (s2b "BIN") true 0 (s2b "1a") (s2b "f"), Some 26);
    (ALs true, None);
    (ADump (s2b "06"), Some 6);
    (ADump (s2b "GAME"), None);
    (ARm false (s2b "DF06"), Some 6);
    (ARm false (s2b "DF06"), Some 6);
    (ARm true (s2b "DF06"), Some 6);
    (ALs false, None) ].
Definition day_outcomes : list (Z * bytes) :=
  [ (0, []); (0, []); (0, []); (1, []); (0, []); (0, s2b "DF06" ++ [10] ++ s2b "DF1A" ++ [10]); (0, repeat 7 300 ++ repeat 0 212); (1, []);
    (0, []); (1, []); (0, []); (0, s2b "DF1A" ++ [10]) ].

Lemma blank_release c : naked_image c (s2b "do") ex_blank -> release_byte c <> 3.
Proof.
  intros Hc. rewrite <- (release_same _ _ _ _ (proj1 Hc)). unfold release_byte. change ex_blank with (map_disk ex_map).
  rewrite map_disk_sector by reflexivity. rewrite znth_zeros; lia.
Qed.
Lemma day_saved : Forall (fun af : action * option Z => match fst af with ASave _ c => no_mark c | APut _ _ _ _ src => src <> s2b "x.do" | _ => True end) day.
Proof. unfold day. repeat (apply Forall_cons || apply Forall_nil); cbn [fst]; try exact I; try discriminate. apply no_mark_repeat. lia. Qed.
Lemma one_file_others c n data r q : n <> s2b "x.do" -> w_fs (one_file (s2b "x.do") c None) n = NFile data r q -> no_mark data.
Proof. intros Hn E. exfalso. unfold one_file in E. cbn [w_fs] in E. apply beq_neq in Hn. rewrite Hn in E. discriminate E. Qed.
Lemma day_example iter fuel : exists w w', session (map (fun af => command iter fuel (s2b "auto") (s2b "x.do") (fst af)) day) w = (w', day_outcomes).
Proof.
  destruct (do_image _ _ ex_floppy) as [c Hc]. destruct ex_free as [F1 F2].
  pose proof (fl_map _ _ ex_floppy) as Em.
  remember (Desk (w_fs (one_file (s2b "x.do") c None)) (St (fun _ => []) 548)) as k eqn:Ek.
  pose proof (C95_lemma iter fuel (s2b "auto") (s2b "x.do") (s2b "do") [] day (one_file (s2b "x.do") c None) c ex_blank k) as HL.
  pose proof (C95_harmless_lemma iter fuel (s2b "auto") (s2b "x.do") (s2b "do") [] day (one_file (s2b "x.do") c None) c ex_blank k) as HH.
  repeat match type of HL with ?P -> _ => match type of HH with P -> _ => let X := fresh "X" in assert (X : P); [clear HL HH|specialize (HL X); specialize (HH X)] end end.
  - discriminate.
  - apply first_do.
  - intros i f Hi. rewrite (@zlen_nil Symbol) in Hi. lia.
  - reflexivity.
  - exact Hc.
  - eexists. split; [apply (NewOperator_floppy _ _ ex_floppy)|]. unfold st_of. cbn [op_ST]. rewrite ex_blank_table. reflexivity.
  - reflexivity.
  - reflexivity.
  - intros n _. rewrite Ek. reflexivity.
  - rewrite Ek, Em. split; [|exact F1]. intros f Hf. cbn [store_of st_file k_store]. unfold content. rewrite (F2 f Hf). reflexivity.
  - assert (numeric (s2b "DF06") 6 /\ numeric (s2b "06") 6 /\ numeric (s2b "1a") 26) as (N1 & N2 & N3)
      by (split; [|split]; apply numeric_parse; [vm_compute; reflexivity|lia|vm_compute; reflexivity|lia|vm_compute; reflexivity|lia]).
    repeat (apply Forall_cons || apply Forall_nil); cbn [fst snd].
    + constructor. discriminate.
    + constructor.
    + constructor; [left; exact N1|left; exact N1|lia|lia|discriminate|discriminate].
    + constructor; [left; exact N2|left; exact N2|lia|lia|discriminate|discriminate].
    + constructor; [left; exact N3|left; exact N3|lia|lia|discriminate|discriminate].
    + constructor.
    + constructor. left. exact N2.
    + constructor. intros f [H|[_ (_ & i & (Hi & _) & _)]]; [apply (not_numeric (s2b "GAME") ltac:(vm_compute; reflexivity) f H)|].
      rewrite (@zlen_nil Symbol) in Hi. lia.
    + constructor; [exact N1|lia|lia].
    + constructor; [exact N1|lia|lia].
    + constructor; [exact N1|lia|lia].
    + constructor.
  - destruct (HL (HH ltac:(apply blank_release; exact Hc) ltac:(apply (harmless_saved _ (s2b "x.do")); [intros n data r q; rewrite Ek; apply one_file_others|apply day_saved]))) as (w' & k' & l & _ & _ & Es & Ea & _).
    exists (one_file (s2b "x.do") c None), w'. rewrite Es. f_equal.
    assert (snd (acts [] day k) = day_outcomes) as E.
    { rewrite Ek. unfold one_file. cbn [w_fs]. generalize (NFile c true true). intros nd. vm_compute. reflexivity. }
    rewrite Ea in E. exact E.
Qed.

(** A disk with a symbol table: a file put by its name; an empty file crashes the program and changes nothing. *)
Definition day2 : list (action * option Z) :=
  [ (ASave (s2b "f") (repeat 7 300), None);
    (APut (s2b "B") false 0 (s2b "FHELLO") (s2b "f"), Some 1);
    (ADump (s2b "DF01"), Some 1);
    (ASave (s2b "f") [], None);
    (APut (s2b "B") true 0 (s2b "fhello") (s2b "f"), Some 1);
    (ADump (s2b "FHELLO"), Some 1);
    (ARm false (s2b "01"), Some 1);
    (ADump (s2b "FHELLO"), Some 1) ].
Definition day2_outcomes : list (Z * bytes) :=
  [ (0, []); (0, []); (0, repeat 7 300 ++ repeat 0 212); (0, []); (2, []); (0, repeat 7 300 ++ repeat 0 212); (0, []); (1, []) ].
Lemma day2_saved : Forall (fun af : action * option Z => match fst af with ASave _ c => no_mark c | APut _ _ _ _ src => src <> s2b "x.do" | _ => True end) day2.
Proof. unfold day2. repeat (apply Forall_cons || apply Forall_nil); cbn [fst]; try exact I; try discriminate; [apply no_mark_repeat; lia|apply no_mark_nil]. Qed.
Lemma day2_example iter fuel : exists w w', session (map (fun af => command iter fuel (s2b "auto") (s2b "x.do") (fst af)) day2) w = (w', day2_outcomes).
Proof.
  destruct hello_table_ok as [T1 T4].
  destruct (six_disk hello_table T1 T4) as (d & sm & Hf & HR & Hbd & O5 & C5 & O6 & O1 & O3 & O4 & HF).
  destruct (do_image _ _ Hf) as [c Hc]. pose proof (fl_map _ _ Hf) as Em.
  remember (Desk (w_fs (one_file (s2b "x.do") c None)) (St (fun g => if g =? 1 then [] else content d sm g) 514)) as k eqn:Ek.
  pose proof (C95_lemma iter fuel (s2b "auto") (s2b "x.do") (s2b "do") hello_table day2 (one_file (s2b "x.do") c None) c d k) as HL.
  pose proof (C95_harmless_lemma iter fuel (s2b "auto") (s2b "x.do") (s2b "do") hello_table day2 (one_file (s2b "x.do") c None) c d k) as HH.
  repeat match type of HL with ?P -> _ => match type of HH with P -> _ => let X := fresh "X" in assert (X : P); [clear HL HH|specialize (HL X); specialize (HH X)] end end.
  - discriminate.
  - apply first_do.
  - intros i f Hi. unfold hello_table in Hi. rewrite three_len in Hi. unfold nm, hello_table. rewrite three_nth by lia.
    destruct (Z.eqb_spec i 0); [apply not_numeric; vm_compute; reflexivity|]. destruct (Z.eqb_spec i 1); [apply not_numeric; vm_compute; reflexivity|].
    destruct (Z.eqb_spec i 2); apply not_numeric; vm_compute; reflexivity.
  - reflexivity.
  - exact Hc.
  - eexists. split; [rewrite <- Em in Hf; apply (NewOperator_floppy _ _ Hf)|]. unfold st_of. cbn [op_ST]. unfold opened_table. rewrite Em, HR. reflexivity.
  - reflexivity.
  - reflexivity.
  - intros n _. rewrite Ek. reflexivity.
  - rewrite Ek, Em. split; [|exact HF]. intros f Hlf. cbn [store_of st_file k_store]. destruct (Z.eqb_spec f 1) as [->|_]; [|reflexivity].
    apply (content_nil_iff d sm 1 (fl_len _ _ Hf)). exact O1.
  - assert (numeric (s2b "DF01") 1 /\ numeric (s2b "01") 1) as (N1 & N2)
      by (split; apply numeric_parse; [vm_compute; reflexivity|lia|vm_compute; reflexivity|lia]).
    assert (forall n, n = s2b "FHELLO" \/ n = s2b "fhello" -> resolves hello_table n 1) as HN.
    { intros n Hn. apply FileForName_resolves. destruct Hn as [-> | ->]; vm_compute; reflexivity. }
    assert (forall n, n = s2b "FHELLO" \/ n = s2b "fhello" -> valid_name n) as HV.
    { intros n Hn. destruct Hn as [-> | ->]; apply valid_check; reflexivity. }
    repeat (apply Forall_cons || apply Forall_nil); cbn [fst snd].
    + constructor. discriminate.
    + constructor; [apply HN; left; reflexivity|right; apply HV; left; reflexivity|lia|lia|discriminate|discriminate].
    + constructor. left. exact N1.
    + constructor. discriminate.
    + constructor; [apply HN; right; reflexivity|right; apply HV; right; reflexivity|lia|lia|discriminate|discriminate].
    + constructor. apply HN. left. reflexivity.
    + constructor; [exact N2|lia|lia].
    + constructor. apply HN. left. reflexivity.
  - destruct (HL (HH ltac:(rewrite <- (release_same _ _ _ _ (proj1 Hc)), (five_release _ _ O5 C5); discriminate) ltac:(apply (harmless_saved _ (s2b "x.do")); [intros n data r q; rewrite Ek; apply one_file_others|apply day2_saved]))) as (w' & k' & l & _ & _ & Es & Ea & _).
    exists (one_file (s2b "x.do") c None), w'. rewrite Es. f_equal.
    assert (snd (acts hello_table day2 k) = day2_outcomes) as E.
    { rewrite Ek. unfold one_file. cbn [w_fs]. generalize (NFile c true true) (content d sm). intros nd F. vm_compute. reflexivity. }
    rewrite Ea in E. exact E.
Qed.
