(** TwinExProofs.v -- example for property C123. *)
From Coq Require Import ZifyBool ZifyNat.
From Verif Require Import GoBase GoLemmas TypesModel DiskModel DiskSpec DiskProofs.
From Verif Require Import SupermonModel SupermonSpec SupermonTableSpec SupermonStoreSpec SupermonProofs SupermonOpProofs SupermonNameProofs SupermonFinalProofs.
From Verif Require Import ProdosModel CmdModel CmdSpec MainModel NakedCmdSpec NakedCmdProofs NakedOpenProofs NakedExProofs AfterProofs AfterExProofs SessionSpec SessionProofs SessionExProofs LawsExProofs BatchSpec BatchProofs BatchExProofs.
From Verif Require Import ShelfSpec LocalSpec LocalExProofs TwinSpec.
Ltac Zify.zify_post_hook ::= Z.div_mod_to_equations.
Local Opaque zrange zeros sub.

(** Two puts, a removal and a listing. *)
Definition twin_acts : list (action * option Z) := three ++ [(ALs false, None)].
Definition twin_deeds : list deed := map (fun af => On (s2b "auto") (s2b "x.do") (fst af)) twin_acts.
Lemma twin_edits : Forall (edit_of (s2b "auto") (s2b "x.do")) twin_deeds.
Proof. repeat (apply Forall_cons || apply Forall_nil); constructor; discriminate. Qed.
Lemma twin_commands iter fuel : map (deed_command iter fuel) twin_deeds = map (fun af => command iter fuel (s2b "auto") (s2b "x.do") (fst af)) twin_acts.
Proof. reflexivity. Qed.
Lemma twin_meant : Forall (fun af => meant [] (s2b "x.do") (fst af) (snd af)) twin_acts.
Proof. apply Forall_app. split; [exact meant_three|]. constructor; [|constructor]. constructor. Qed.
Lemma twin_other : Forall (fun af : action * option Z => match fst af with ASave _ c => no_mark c | APut _ _ _ _ src => src <> s2b "x.do" | _ => True end) twin_acts.
Proof. apply Forall_app. split; [exact other_three|]. constructor; [exact Logic.I|constructor]. Qed.
Lemma twin_example iter fuel : exists w w' c c' v,
  beside (s2b "x.do") w w' /\ w_fs w (s2b "x.do") = NFile c true true /\ w_fs w' (s2b "x.do") = NFile c' true true /\
  twins c c' (s2b "do") (map_disk five_map) hurt_naked /\ sec (map_disk five_map) 100 <> sec hurt_naked 100 /\
  no_empty_source twin_deeds w /\ throughout (unmarked (s2b "x.do")) (map (deed_command iter fuel) twin_deeds) w /\
  session (map (deed_command iter fuel) twin_deeds) w = (v, [(0, []); (0, []); (0, []); (0, s2b "DF06" ++ [10] ++ s2b "DF1A" ++ [10])]).
Proof.
  destruct (do_image _ _ five_floppy) as [c Hc]. destruct (do_image _ _ hurt_floppy) as [c' Hc'].
  destruct (batch_session iter fuel five_map c twin_acts _ five_store eq_refl five_floppy (proj1 naked_free) Hc twin_meant twin_other) as (T1 & w1 & E1).
  pose proof (fl_map _ _ five_floppy) as M. pose proof (fl_map _ _ hurt_floppy) as M'.
  exists (NakedExProofs.two_files (s2b "x.do") c (s2b "f") filler), (NakedExProofs.two_files (s2b "x.do") c' (s2b "f") filler), c, c', w1.
  split.
  { split; [|reflexivity|split; reflexivity|reflexivity]. intros n Hn. unfold NakedExProofs.two_files. cbn [w_fs]. apply beq_neq in Hn. rewrite Hn. reflexivity. }
  split; [reflexivity|]. split; [reflexivity|]. split; [|split; [exact naked_differs|split; [|split]]].
  - split; [exact (conj (proj1 Hc) (eq_ind_r (floppy _) five_floppy M))|exact (conj (proj1 Hc') (eq_ind_r (floppy _) hurt_floppy M'))|congruence| |].
    + intros k [H|H]; rewrite M in H; [rewrite (proj1 naked_free) in H|rewrite (proj2 naked_free) in H]; destruct H.
    + rewrite <- (release_same _ _ _ _ (proj1 Hc)), <- (release_same _ _ _ _ (proj1 Hc')). unfold release_byte.
      rewrite (proj2 naked_tracks 0) by lia. reflexivity.
  - intros order img ft ow addr n src s r q Hin Hs.
    assert (Hsrc : src <> s2b "x.do").
    { pose proof twin_edits as TE. rewrite Forall_forall in TE. specialize (TE _ Hin). remember (On order img (APut ft ow addr n src)) as y eqn:Ey. destruct TE; congruence. }
    unfold NakedExProofs.two_files in Hs. cbn [w_fs] in Hs. apply beq_neq in Hsrc. rewrite Hsrc in Hs. destruct (beq src (s2b "f")); [|discriminate Hs].
    injection Hs as <- _ _. discriminate.
  - rewrite twin_commands. exact T1.
  - rewrite twin_commands, E1. reflexivity.
Qed.
