(** RestExProofs.v -- the examples for RestProofs.v. *)
From Verif Require Import GoBase GoLemmas DiskSpec DiskProofs DiskOpenProofs BasicModel BasicSpec CmdModel CmdSpec CmdProofs CmdStmtProofs SdSpec MainModel DetectSpec ListingSpec ListingProofs ImageSpec RestSpec RestProofs DiskExProofs.
From Verif Require BasicProofs BasicStmtProofs Dos3StmtProofs.
From Coq Require Import ZifyBool ZifyNat.
Ltac Zify.zify_post_hook ::= Z.div_mod_to_equations.
Local Opaque zrange zeros sub.

(** Two files: an image and another one that must not be overwritten. *)
Definition two_files (c : bytes) : world :=
  World (fun n => if beq n (s2b "a.dsk") then NFile c true true else if beq n (s2b "b.po") then NFile [1] true true else NMissing) None [] None None.
Lemma reorder_example2 : let w := two_files sample_img in
  orders_in_force (s2b "a.dsk") (s2b "auto") [] (s2b "auto") (s2b "do") (s2b "po") /\
  orders_in_force (s2b "a.dsk") (s2b "auto") (s2b "b.po") (s2b "auto") (s2b "do") (s2b "po") /\
  input w (s2b "a.dsk") sample_img /\ zlen sample_img = 143360 /\ can_output w (s2b "a.dsk") true /\
  can_output w (s2b "b.po") true /\ ~ can_output w (s2b "b.po") false.
Proof.
  intros w. assert (N : name_order (s2b "a.dsk") (Some (s2b "do"))) by (apply no_dsk; left; apply ext_is_dec_true; [ascii|reflexivity]).
  split; [exists (Some (s2b "do")), None; split; [apply k_names; try reflexivity; [exact N|]|apply ch_in; constructor]|].
  { apply no_none; apply ext_is_dec_false; try reflexivity; ascii. }
  split; [exists (Some (s2b "do")), (Some (s2b "po")); split; [apply k_names; try reflexivity; [exact N|apply no_po; apply ext_is_dec_true; [ascii|reflexivity]]|apply ch_both; constructor]|].
  split; [right; split; [discriminate|]; exists true; reflexivity|]. split; [vm_compute; reflexivity|].
  split; [right; split; [discriminate|]; split; [right; eexists _, _; reflexivity|left; reflexivity]|].
  split; [right; split; [discriminate|]; split; [right; eexists _, _; reflexivity|left; reflexivity]|].
  intros [X|(_ & _ & [X|X])]; try discriminate. apply X. split; discriminate.
Qed.
Lemma mksd_example2 : sd_accepts (repeat 7 600) 0x2000 (sd_start 0x2000 0xFFFF) /\ ~ sd_accepts (repeat 7 600) 0x2000 (sd_start 0x2000 0x2300).
Proof. split; [repeat split; vm_compute; discriminate|]. intros (_ & [_ H] & _). vm_compute in H. discriminate H. Qed.
Lemma decode_example2 :
  decode_shows (program 0x801 BasicStmtProofs.ex_small) 0x801 false (Prints (s2b "10  PRINT ""HI""" ++ [10] ++ s2b "20  GOTO 10" ++ [10])) /\
  decode_shows BasicStmtProofs.ex_loop 0x801 false Crashes /\ decode_shows BasicStmtProofs.ex_before 0x801 true Crashes /\ decode_shows [1; 2; 3] 0x801 true Errs.
Proof.
  assert (U : is_u16 0x801) by (unfold is_u16; lia).
  split; [|split; [|split]].
  - assert (B : bytes_ok (program 0x801 BasicStmtProofs.ex_small)) by (apply Dos3StmtProofs.bytes_ok_forallb; vm_compute; reflexivity).
    destruct (body_ex _ B) as (p & Hp). destruct (BasicProofs.C56_four_outcomes _ p 0x801 B U Hp) as (_ & _ & O & _).
    destruct (proj1 (O BasicStmtProofs.ex_small)) as (a & H1 & H2); [exists 3%nat; vm_compute; reflexivity|].
    apply (de_lines _ _ _ p BasicStmtProofs.ex_small a); try assumption.
    replace (s2b "10  PRINT ""HI""" ++ [10] ++ s2b "20  GOTO 10" ++ [10]) with (text_of_lines BasicStmtProofs.ex_small false) by (vm_compute; reflexivity).
    apply listing_of. apply BasicStmtProofs.ex_small_ok.
  - assert (B : bytes_ok BasicStmtProofs.ex_loop) by (apply Dos3StmtProofs.bytes_ok_forallb; vm_compute; reflexivity).
    destruct (body_ex _ B) as (p & Hp). destruct (BasicProofs.C56_four_outcomes _ p 0x801 B U Hp) as (D & _).
    destruct (proj1 D BasicStmtProofs.C56_loop_lemma) as (ls & a & ls' & H1 & H2 & H3). exact (de_cycle _ _ _ p ls a ls' Hp H1 H2 H3).
  - assert (B : bytes_ok BasicStmtProofs.ex_before) by (apply Dos3StmtProofs.bytes_ok_forallb; vm_compute; reflexivity).
    destruct (body_ex _ B) as (p & Hp). destruct (BasicProofs.C56_four_outcomes _ p 0x801 B U Hp) as (_ & P & _).
    destruct BasicStmtProofs.C56_panic_lemma as (n & r & -> & E). destruct (proj1 P (ex_intro _ n (E n (le_n n)))) as (ls & H1 & H2 & H3). exact (de_before _ _ _ p ls Hp H1 H2 H3).
  - assert (B : bytes_ok [1; 2; 3]) by (apply Dos3StmtProofs.bytes_ok_forallb; vm_compute; reflexivity).
    pose proof (decode_exact (s2b "p") [1; 2; 3] 0x801 true (one_file (s2b "p") [1; 2; 3] None) B U) as H.
    destruct H as [(e & He) H]; [right; split; [discriminate|]; exists true; reflexivity|reflexivity|].
    assert (Hrun : forall k, exists w' er, run (DecodeCmd_Run (S k) (s2b "p") 0x801 true) (one_file (s2b "p") [1; 2; 3] None) = (w', Err er)) by (intros k; eexists _, _; reflexivity).
    specialize (H e He). destruct e as [text| |]; [|exact He|]; exfalso; destruct H as (n & H); specialize (H (S n) ltac:(lia)); destruct (Hrun n) as (w1 & er & E).
    + destruct H as (w' & E' & _). rewrite E in E'. discriminate E'.
    + destruct H as (w' & E' & _). rewrite E in E'. discriminate E'.
Qed.
Lemma unreadable_example : let w := one_file (s2b "a.dsk") [1] None in unreadable w (s2b "b.dsk") /\ ~ unreadable w (s2b "a.dsk") /\ ~ unreadable w (s2b "-").
Proof.
  intros w. split; [|split].
  - intros c [[X _]|[_ [wr X]]]; discriminate.
  - intros U. apply (U [1]). right. split; [discriminate|]. exists true. reflexivity.
  - intros U. apply (U []). left. split; reflexivity.
Qed.
(** The image is write-protected. *)
Definition protected (c : bytes) : world := World (fun n => if beq n (s2b "a.dsk") then NFile c true false else NMissing) (Some []) [] None None.
Lemma locked_example : forall c, locked (protected c) (one_file (s2b "a.dsk") c None) (s2b "a.dsk").
Proof.
  intros c. unfold locked. split; [discriminate|]. split; [intros [X|(x & y & X)]; discriminate X|]. split; [right; eexists _, _; reflexivity|].
  split; [reflexivity|]. split; [discriminate|]. split; [|repeat split].
  intros n N. cbn [protected one_file w_fs]. destruct (beq n (s2b "a.dsk")) eqn:E; [apply beq_eq in E; contradiction|reflexivity].
Qed.
