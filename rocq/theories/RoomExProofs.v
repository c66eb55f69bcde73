(** RoomExProofs.v -- concrete cases for property C119: a full disk. *)
From Coq Require Import ZifyBool ZifyNat Permutation.
From Verif Require Import GoBase GoLemmas TypesModel DiskModel DiskSpec DiskProofs.
From Verif Require Import SupermonModel SupermonSpec SupermonTableSpec SupermonStoreSpec SupermonProofs SupermonOpProofs SupermonNameProofs.
From Verif Require Import ProdosModel CmdModel CmdSpec MainModel NakedCmdSpec NakedExProofs SessionSpec SessionProofs BatchSpec BatchProofs BatchExProofs RoomSpec RoomProofs.
Ltac Zify.zify_post_hook ::= Z.div_mod_to_equations.
Local Opaque zrange zeros sub.

Lemma full_example_room iter fuel : exists w c,
  w_fs w (s2b "x.do") = NFile c true true /\ naked_image c (s2b "do") (map_disk full_map) /\ names_on (map_disk full_map) [] /\ w_room w = None /\ w_outroom w = None /\
  free_on (map_disk full_map) = 0 /\ batch swap_files /\ with_contents (w_fs w) swap_files /\ freeing_first (w_fs w) (map_disk full_map) swap_files /\
  Forall (possible (w_fs w) (map_disk full_map)) swap_files /\ needed_in_all (w_fs w) (map_disk full_map) swap_files = -546 /\
  map (needed (w_fs w) (map_disk full_map)) (rev swap_files) = [2; -548] /\
  forall h, In h [swap_files; rev swap_files] ->
    Forall (fun af => meant [] (s2b "x.do") (fst af) (snd af)) h /\
    throughout (unmarked (s2b "x.do")) (map (fun af => command iter fuel (s2b "auto") (s2b "x.do") (fst af)) h) w.
Proof.
  destruct (do_image _ _ full_floppy) as [c Hc]. destruct full_free as (F0 & F5 & O3 & FL). destruct names_three as (N6 & _ & N5).
  exists (NakedExProofs.two_files (s2b "x.do") c (s2b "f") filler), c.
  assert (HM : Forall (fun af => meant [] (s2b "x.do") (fst af) (snd af)) swap_files).
  { repeat (apply Forall_cons || apply Forall_nil); cbn [fst snd]; [constructor; [exact N5|lia|lia]|apply meant_put; [exact N6|lia|lia]]. }
  assert (HS : Forall (fun af : action * option Z => match fst af with ASave _ c => no_mark c | APut _ _ _ _ src => src <> s2b "x.do" | _ => True end) swap_files).
  { repeat (apply Forall_cons || apply Forall_nil); cbn [fst]; try exact I; discriminate. }
  assert (Em : stored_map (map_disk full_map) = full_map) by exact (fl_map _ _ full_floppy).
  assert (S5 : sectors_on (map_disk full_map) 5 = 548) by (unfold sectors_on; rewrite Em; exact F5).
  assert (S6 : sectors_on (map_disk full_map) 6 = 0) by (unfold sectors_on; rewrite Em; vm_compute; reflexivity).
  assert (Hn : nsec filler = 2) by (vm_compute; reflexivity).
  assert (E5 : zlen (file_on (map_disk full_map) 5) = 256 * 548) by (unfold file_on; rewrite zlen_content by apply (fl_len _ _ full_floppy); rewrite Em, F5; reflexivity).
  assert (E6 : file_on (map_disk full_map) 6 = []) by (unfold file_on; apply content_nil_iff; [apply (fl_len _ _ full_floppy)|rewrite Em; vm_compute; reflexivity]).
  assert (HN1 : needed (w_fs (NakedExProofs.two_files (s2b "x.do") c (s2b "f") filler)) (map_disk full_map) (ARm false (s2b "5"), Some 5) = -548).
  { unfold needed. rewrite S5. reflexivity. }
  assert (HN2 : needed (w_fs (NakedExProofs.two_files (s2b "x.do") c (s2b "f") filler)) (map_disk full_map) (APut (s2b "B") false 0 (s2b "DF06") (s2b "f"), Some 6) = 2).
  { change (nsec filler - sectors_on (map_disk full_map) 6 = 2). rewrite S6, Hn. reflexivity. }
  split; [reflexivity|]. split; [exact Hc|]. split; [apply (no_names _ full_floppy O3)|]. split; [reflexivity|]. split; [reflexivity|].
  split; [unfold free_on; rewrite Em; exact F0|].
  split; [split; [repeat (apply Forall_cons || apply Forall_nil); (split; [exact I|discriminate])|cbn [swap_files map snd]; repeat constructor; cbn [In]; intuition discriminate]|].
  split; [intros ft ow addr n src f s r q [X|[X|[]]] Es; [discriminate X|]; injection X as _ _ _ _ <- _; cbn in Es; injection Es as <- _ _; discriminate|].
  split; [exists [(ARm false (s2b "5"), Some 5)], [(APut (s2b "B") false 0 (s2b "DF06") (s2b "f"), Some 6)]; split; [reflexivity|]; split; (constructor; [rewrite ?HN1, ?HN2; lia|constructor])|].
  split.
  { constructor; [cbn [possible]; intros X; rewrite X in E5; discriminate E5|]. constructor; [|constructor]. cbn [possible].
    split; [vm_compute; reflexivity|]. split; [exists filler, true; reflexivity|]. intros X. contradiction (X E6). }
  split; [unfold needed_in_all, swap_files; cbn [map fold_right]; rewrite HN1, HN2; reflexivity|].
  split; [unfold swap_files; cbn [rev app map]; rewrite HN1, HN2; reflexivity|].
  destruct full_store as (X & EL & Hst). intros h [<-|[<-|[]]].
  - split; [exact HM|]. apply (batch_session iter fuel full_map c swap_files _ Hst FL full_floppy O3 Hc HM HS).
  - split; [exact (Forall_rev HM)|]. apply (batch_session iter fuel full_map c (rev swap_files) _ Hst FL full_floppy O3 Hc (Forall_rev HM) (Forall_rev HS)).
Qed.
