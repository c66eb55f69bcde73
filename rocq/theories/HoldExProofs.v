(** HoldExProofs.v -- example for property C126. *)
From Coq Require Import ZifyBool ZifyNat.
From Verif Require Import GoBase GoLemmas TypesModel DiskModel DiskSpec DiskProofs.
From Verif Require Import SupermonModel SupermonSpec SupermonTableSpec SupermonStoreSpec SupermonProofs SupermonOpProofs SupermonNameProofs SupermonFinalProofs.
From Verif Require Import ProdosModel CmdModel CmdSpec MainModel NakedCmdSpec NakedCmdProofs NakedOpenProofs NakedExProofs SessionSpec SessionProofs SessionExProofs BatchSpec BatchProofs BatchExProofs.
From Verif Require Import ShelfSpec LocalExProofs TwinSpec TwinExProofs BackupSpec HoldSpec.
Ltac Zify.zify_post_hook ::= Z.div_mod_to_equations.

(** The disk with file 5 in sector 100 instead of 272. *)
Definition moved_map : bytes := zset ex_map 100 5.
Lemma moved_floppy : floppy (map_disk moved_map) moved_map.
Proof. apply map_disk_floppy; [reflexivity|vm_compute; reflexivity]. Qed.
Lemma moved_content : owned moved_map 5 = [100] /\ content (map_disk moved_map) moved_map 5 = zeros 256.
Proof. split; vm_compute; reflexivity. Qed.
Lemma moved_free : owned moved_map 3 = [].
Proof. vm_compute. reflexivity. Qed.
Lemma moved_store : same_store (store_of (map_disk moved_map) moved_map) (one_store 5 (zeros 256) 547).
Proof.
  pose proof (simple_store (map_disk moved_map) moved_map 5 ltac:(vm_compute; reflexivity) eq_refl) as H. rewrite (proj2 moved_content) in H.
  assert (zlen (owned moved_map FREE) = 547) as E by (vm_compute; reflexivity). rewrite E in H. exact H.
Qed.
Local Opaque zrange zeros sub.
Lemma store_holding c c' o d d' sm sm' st : floppy d sm -> floppy d' sm' -> same_store (store_of d sm) st -> same_store (store_of d' sm') st ->
  naked_image c o d -> naked_image c' o d' -> same_holding c c' o d d'.
Proof.
  intros F F' [A B] [A' B'] H H'. split; [exact H|exact H'| |].
  - intros f Hf. unfold file_on. rewrite (fl_map _ _ F), (fl_map _ _ F'). exact (eq_trans (A' f Hf) (eq_sym (A f Hf))).
  - unfold free_on. rewrite (fl_map _ _ F), (fl_map _ _ F'). exact (eq_trans B' (eq_sym B)).
Qed.
Definition place_acts : list (action * option Z) := (ADump (s2b "5"), Some 5) :: twin_acts.
Definition place_deeds : list deed := map (fun af => On (s2b "auto") (s2b "x.do") (fst af)) place_acts.
Lemma place_work : Forall (work_of (s2b "auto") (s2b "x.do")) place_deeds.
Proof. apply Forall_cons; [apply wo_dump|]. apply (Forall_impl _ (wo_edit (s2b "auto") (s2b "x.do"))). exact twin_edits. Qed.
Lemma place_commands iter fuel : map (deed_command iter fuel) place_deeds = map (fun af => command iter fuel (s2b "auto") (s2b "x.do") (fst af)) place_acts.
Proof. reflexivity. Qed.
Lemma place_meant : Forall (fun af => meant [] (s2b "x.do") (fst af) (snd af)) place_acts.
Proof. apply Forall_cons; [|exact twin_meant]. constructor. left. exact (proj2 (proj2 names_three)). Qed.
Lemma place_other : Forall (fun af : action * option Z => match fst af with ASave _ c => no_mark c | APut _ _ _ _ src => src <> s2b "x.do" | _ => True end) place_acts.
Proof. apply Forall_cons; [exact Logic.I|exact twin_other]. Qed.
Lemma place_outputs c : snd (acts [] place_acts (Desk (w_fs (NakedExProofs.two_files (s2b "x.do") c (s2b "f") filler)) (one_store 5 (zeros 256) 547))) =
  [(0, zeros 256); (0, []); (0, []); (0, []); (0, s2b "DF06" ++ [10] ++ s2b "DF1A" ++ [10])].
Proof. vm_compute. reflexivity. Qed.
Lemma place_example iter fuel : exists w w' c c' v,
  beside (s2b "x.do") w w' /\ w_fs w (s2b "x.do") = NFile c true true /\ w_fs w' (s2b "x.do") = NFile c' true true /\
  same_holding c c' (s2b "do") (map_disk five_map) (map_disk moved_map) /\ stored_map (map_disk five_map) <> stored_map (map_disk moved_map) /\
  no_empty_source place_deeds w /\ throughout (unmarked (s2b "x.do")) (map (deed_command iter fuel) place_deeds) w /\
  throughout (unmarked (s2b "x.do")) (map (deed_command iter fuel) place_deeds) w' /\
  session (map (deed_command iter fuel) place_deeds) w = (v, [(0, zeros 256); (0, []); (0, []); (0, []); (0, s2b "DF06" ++ [10] ++ s2b "DF1A" ++ [10])]).
Proof.
  destruct (do_image _ _ five_floppy) as [c Hc]. destruct (do_image _ _ moved_floppy) as [c' Hc'].
  destruct (batch_session iter fuel five_map c place_acts _ five_store eq_refl five_floppy (proj1 naked_free) Hc place_meant place_other) as (T1 & w1 & E1).
  destruct (batch_session iter fuel moved_map c' place_acts _ moved_store eq_refl moved_floppy moved_free Hc' place_meant place_other) as (T2 & _).
  exists (NakedExProofs.two_files (s2b "x.do") c (s2b "f") filler), (NakedExProofs.two_files (s2b "x.do") c' (s2b "f") filler), c, c', w1.
  split.
  { split; [|reflexivity|split; reflexivity|reflexivity]. intros n Hn. unfold NakedExProofs.two_files. cbn [w_fs]. apply beq_neq in Hn. rewrite Hn. reflexivity. }
  split; [reflexivity|]. split; [reflexivity|]. split; [exact (store_holding _ _ _ _ _ _ _ _ five_floppy moved_floppy five_store moved_store Hc Hc')|]. split; [|split; [|split; [|split]]].
  - rewrite (fl_map _ _ five_floppy), (fl_map _ _ moved_floppy). intros E. apply (f_equal (fun l => znth 0 l 100)) in E. vm_compute in E. discriminate E.
  - intros order img ft ow addr n src s r q Hin Hs.
    assert (Hsrc : src <> s2b "x.do").
    { pose proof twin_edits as TE. rewrite Forall_forall in TE. destruct Hin as [X|Hin]; [discriminate X|]. specialize (TE _ Hin). remember (On order img (APut ft ow addr n src)) as y eqn:Ey. destruct TE; congruence. }
    unfold NakedExProofs.two_files in Hs. cbn [w_fs] in Hs. apply beq_neq in Hsrc. rewrite Hsrc in Hs. destruct (beq src (s2b "f")); [|discriminate Hs].
    injection Hs as <- _ _. discriminate.
  - rewrite place_commands. exact T1.
  - rewrite place_commands. exact T2.
  - rewrite place_commands, E1. apply f_equal. apply place_outputs.
Qed.

(** The disk with one sector more reserved: the same files, but less room. *)
Definition less_map : bytes := zset five_map 100 254.
Lemma less_floppy : floppy (map_disk less_map) less_map.
Proof. apply map_disk_floppy; [reflexivity|vm_compute; reflexivity]. Qed.
Lemma less_content : content (map_disk less_map) less_map 5 = content (map_disk five_map) five_map 5.
Proof. vm_compute. reflexivity. Qed.
Lemma less_free : zlen (owned less_map FREE) <> zlen (owned five_map FREE).
Proof. vm_compute. discriminate. Qed.
Lemma less_simple : forallb (fun x => (x =? FREE) || (x =? RESERVED) || (x =? 5)) less_map = true /\ forallb (fun x => (x =? FREE) || (x =? RESERVED) || (x =? 5)) five_map = true.
Proof. split; vm_compute; reflexivity. Qed.
Lemma simple_contents d d' sm sm' : floppy d sm -> floppy d' sm' -> forallb (fun x => (x =? FREE) || (x =? RESERVED) || (x =? 5)) sm = true ->
  forallb (fun x => (x =? FREE) || (x =? RESERVED) || (x =? 5)) sm' = true -> content d' sm' 5 = content d sm 5 -> same_contents d d'.
Proof.
  intros F F' S S' C f Hf. unfold file_on. rewrite (fl_map _ _ F), (fl_map _ _ F').
  destruct (Z.eq_dec f 5) as [->|Hn]; [exact C|]. unfold content.
  rewrite (other_owned sm 5 f (simple_map _ _ S) (v_len _ (fl_ver _ _ F)) Hf Hn), (other_owned sm' 5 f (simple_map _ _ S') (v_len _ (fl_ver _ _ F')) Hf Hn). reflexivity.
Qed.
Lemma plain_release c sm : naked_image c (s2b "do") (map_disk sm) -> zlen sm = 560 -> release_byte c <> 3.
Proof. intros H HL. rewrite <- (release_same _ _ _ _ (proj1 H)). unfold release_byte. rewrite map_disk_sector by exact HL. rewrite znth_zeros; lia. Qed.
Lemma less_example : exists w w' c c',
  beside (s2b "x.do") w w' /\ w_outroom w = None /\ w_fs w (s2b "x.do") = NFile c true true /\ w_fs w' (s2b "x.do") = NFile c' true true /\
  naked_image c (s2b "do") (map_disk five_map) /\ naked_image c' (s2b "do") (map_disk less_map) /\ release_byte c <> 3 /\ release_byte c' <> 3 /\
  w_fs w (s2b "g") = NMissing /\ same_contents (map_disk five_map) (map_disk less_map) /\
  ~ same_holding c c' (s2b "do") (map_disk five_map) (map_disk less_map).
Proof.
  destruct (do_image _ _ five_floppy) as [c Hc]. destruct (do_image _ _ less_floppy) as [c' Hc'].
  exists (NakedExProofs.two_files (s2b "x.do") c (s2b "f") filler), (NakedExProofs.two_files (s2b "x.do") c' (s2b "f") filler), c, c'.
  split.
  { split; [|reflexivity|split; reflexivity|reflexivity]. intros n Hn. unfold NakedExProofs.two_files. cbn [w_fs]. apply beq_neq in Hn. rewrite Hn. reflexivity. }
  split; [reflexivity|]. split; [reflexivity|]. split; [reflexivity|]. split; [exact Hc|]. split; [exact Hc'|].
  split; [exact (plain_release _ _ Hc eq_refl)|]. split; [exact (plain_release _ _ Hc' eq_refl)|]. split; [reflexivity|]. split.
  - apply (simple_contents _ _ _ _ five_floppy less_floppy (proj2 less_simple) (proj1 less_simple)). exact less_content.
  - intros [_ _ _ X]. unfold free_on in X. rewrite (fl_map _ _ five_floppy), (fl_map _ _ less_floppy) in X. exact (less_free X).
Qed.
