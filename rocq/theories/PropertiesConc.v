(** PropertiesConc.v -- property C100: diskii commands that run at the same time
    (helpers/helpers.go:15-36, disk/open.go:16-38 and 210-230). *)
From Verif Require Import GoBase TypesModel DiskSpec ProdosModel CmdModel CmdSpec MainModel SessionSpec ConcModel ConcSpec ConcProofs ConcExProofs ConcEndProofs ConcReadProofs.

(** ** C100 *)
(** The claim: commands that are started at the same time end as if they had been run one after
    the other.  It fails when two of them work on the same image.

    Any two commands that change the same image and would both succeed on their own: there is an
    execution in which both succeed and the image is as if only the second had been run. *)
Theorem C100_lost_update_refuted : forall room (iter : list (Z * Subdirectory) -> list (Z * Subdirectory)) fuel fs0 x y img w1 w2,
  in_place iter fuel (j_prog x) img -> in_place iter fuel (j_prog y) img ->
  alone x fs0 room = (w1, 0) -> alone y fs0 room = (w2, 0) ->
  exists fs1 a b, execution room fs0 [launch x; launch y] fs1 [a; b] /\ ended a 0 /\ ended b 0 /\ fs1 img = w_fs w2 img.
Proof. exact C100_lost_lemma. Qed.
Print Assumptions C100_lost_update_refuted.
(** Two puts on a blank disk: one after the other both files arrive; at the same time one may be
    lost although both commands end with status 0. *)
Example C100_lost_update_example : forall iter fuel, exists fs0,
  (exists w, session [put_at iter fuel (s2b "DF06"); put_at iter fuel (s2b "DF07"); dump_of iter fuel (s2b "DF06"); dump_of iter fuel (s2b "DF07")] (World fs0 None [] None None)
    = (w, [(0, []); (0, []); (0, filler); (0, filler)])) /\
  exists fs1 a b, execution None fs0 [launch (put_job iter fuel (s2b "DF06")); launch (put_job iter fuel (s2b "DF07"))] fs1 [a; b] /\ ended a 0 /\ ended b 0 /\
    (exists w, main_run (dump_of iter fuel (s2b "DF06")) (World fs1 None [] None None) = (w, 1) /\ w_stdout w = []) /\
    exists w, main_run (dump_of iter fuel (s2b "DF07")) (World fs1 None [] None None) = (w, 0) /\ w_stdout w = filler.
Proof. exact C100_lost_ex. Qed.

(** Any ls or dump beside any command that changes the image: it may find the image empty and
    fail, although the image is a good one before and after. *)
Theorem C100_torn_read_refuted : forall room (iter : list (Z * Subdirectory) -> list (Z * Subdirectory)) fuel fs0 x y img w1,
  in_place iter fuel (j_prog x) img -> looks iter fuel (j_prog y) img -> ~ ext_is img (s2b "hdv") ->
  alone x fs0 room = (w1, 0) ->
  exists fs1 a b, execution room fs0 [launch x; launch y] fs1 [a; b] /\ ended a 0 /\ ended b 1 /\ q_stdout b = [] /\ fs1 img = w_fs w1 img.
Proof. exact C100_torn_lemma. Qed.
Print Assumptions C100_torn_read_refuted.

(** Or it may see an image that never was: the first [j] bytes of the old one and the rest of the
    new one. *)
Theorem C100_mixed_read_refuted : forall room (iter : list (Z * Subdirectory) -> list (Z * Subdirectory)) fuel fs0 x y img w1 c c' j w2 s2,
  in_place iter fuel (j_prog x) img -> looks iter fuel (j_prog y) img ->
  alone x fs0 room = (w1, 0) -> fs0 img = NFile c true true -> w_fs w1 img = NFile c' true true -> 0 <= j <= zlen c -> zlen c <= zlen c' ->
  alone y (put_fs fs0 img (NFile (sub c 0 j ++ sub c' j (zlen c')) true true)) room = (w2, s2) ->
  exists fs1 a b, execution room fs0 [launch x; launch y] fs1 [a; b] /\ ended a 0 /\ ended b s2 /\ q_stdout b = w_stdout w2 /\ fs1 img = NFile c' true true.
Proof. exact C100_mixed_lemma. Qed.
Print Assumptions C100_mixed_read_refuted.
(** A put and a dump that meet the conditions of the last two theorems. *)
Example C100_put_example : forall iter fuel, exists fs0 c c' w,
  fs0 (s2b "x.dsk") = NFile c true true /\ alone (put_job iter fuel (s2b "DF06")) fs0 None = (w, 0) /\
  w_fs w (s2b "x.dsk") = NFile c' true true /\ zlen c = 143360 /\ zlen c' = 143360 /\
  in_place iter fuel (j_prog (put_job iter fuel (s2b "DF06"))) (s2b "x.dsk") /\
  looks iter fuel (dump_of iter fuel (s2b "DF06")) (s2b "x.dsk") /\ ~ ext_is (s2b "x.dsk") (s2b "hdv").
Proof. exact C100_put_ex. Qed.

(** More than that: the old image up to [j], then the new one up to [m] and nothing after it.
    Every such mixture can be what it sees. *)
Theorem C100_any_mix_refuted : forall room fs0 (iter : list (Z * Subdirectory) -> list (Z * Subdirectory)) fuel x y img w1 c c' j m w2 s2,
  in_place iter fuel (j_prog x) img -> looks iter fuel (j_prog y) img ->
  alone x fs0 room = (w1, 0) -> fs0 img = NFile c true true -> w_fs w1 img = NFile c' true true -> 0 <= j <= zlen c -> m = j \/ j <= m <= zlen c' ->
  alone y (put_fs fs0 img (NFile (sub c 0 j ++ sub c' j m) true true)) room = (w2, s2) ->
  exists fs1 a b, execution room fs0 [launch x; launch y] fs1 [a; b] /\ ended a 0 /\ ended b s2 /\ q_stdout b = w_stdout w2 /\ fs1 img = NFile c' true true.
Proof. exact C100_any_mix_lemma. Qed.
Print Assumptions C100_any_mix_refuted.
(** And nothing else: beside one command that changes the image, and any others that leave that
    command's files alone, an ls or dump that has ended has the exit status and the output that
    it has alone on such a mixture.  The changing command may fail ([t1]). *)
Theorem C100_reader_sees : forall room fs0 (iter : list (Z * Subdirectory) -> list (Z * Subdirectory)) fuel js ix iy x y img c c' w1 t1 fs1 qs q s,
  Forall (fun j => uses iter fuel (j_prog j) (j_reads j) (j_writes j)) js -> nth_error js ix = Some x -> nth_error js iy = Some y -> ix <> iy ->
  in_place iter fuel (j_prog x) img -> looks iter fuel (j_prog y) img -> In img (j_writes x) ->
  (forall i b, nth_error js i = Some b -> i <> ix -> forall n, In n (j_writes b) -> ~ In n (j_reads x) /\ ~ In n (j_writes x)) ->
  fs0 img = NFile c true true -> alone x fs0 room = (w1, t1) -> w_fs w1 img = NFile c' true true ->
  execution room fs0 (map launch js) fs1 qs -> nth_error qs iy = Some q -> ended q s ->
  exists j m w, 0 <= j <= zlen c /\ (m = j \/ j <= m <= zlen c') /\
    alone y (put_fs fs0 img (NFile (sub c 0 j ++ sub c' j m) true true)) room = (w, s) /\ q_stdout q = w_stdout w.
Proof. exact C100_reader_lemma. Qed.
Print Assumptions C100_reader_sees.
(** A put and a dump that meet the conditions of the last three theorems, and an execution in
    which both end. *)
Example C100_reader_example : forall iter fuel, exists fs0 c c' w fs1 a b s, let js := [put_job iter fuel (s2b "DF06"); dump_job iter fuel (s2b "DF06")] in
  Forall (fun j => uses iter fuel (j_prog j) (j_reads j) (j_writes j)) js /\
  in_place iter fuel (j_prog (put_job iter fuel (s2b "DF06"))) (s2b "x.dsk") /\ looks iter fuel (j_prog (dump_job iter fuel (s2b "DF06"))) (s2b "x.dsk") /\
  (forall i b, nth_error js i = Some b -> i <> 0%nat -> forall n, In n (j_writes b) ->
     ~ In n (j_reads (put_job iter fuel (s2b "DF06"))) /\ ~ In n (j_writes (put_job iter fuel (s2b "DF06")))) /\
  fs0 (s2b "x.dsk") = NFile c true true /\ alone (put_job iter fuel (s2b "DF06")) fs0 None = (w, 0) /\ w_fs w (s2b "x.dsk") = NFile c' true true /\
  zlen c = 143360 /\ zlen c' = 143360 /\
  execution None fs0 (map launch js) fs1 [a; b] /\ ended a 0 /\ ended b s.
Proof. exact C100_reader_ex. Qed.

(** A command whose files nobody else writes, whatever the others do to each other and whatever
    they read: when it has ended it has the exit status, the output and the files that it has
    when it is run alone.  So a command that changes an image is not disturbed by listings. *)
Theorem C100_undisturbed : forall room fs0 (iter : list (Z * Subdirectory) -> list (Z * Subdirectory)) fuel js i a fs1 qs q s w t,
  Forall (fun j => uses iter fuel (j_prog j) (j_reads j) (j_writes j)) js -> nth_error js i = Some a ->
  (forall i' b, nth_error js i' = Some b -> i' <> i -> forall n, In n (j_writes b) -> ~ In n (j_reads a) /\ ~ In n (j_writes a)) ->
  execution room fs0 (map launch js) fs1 qs -> nth_error qs i = Some q -> ended q s -> alone a fs0 room = (w, t) ->
  s = t /\ q_stdout q = w_stdout w /\ forall n, In n (j_writes a) -> fs1 n = w_fs w n.
Proof. exact C100_undisturbed_lemma. Qed.
Print Assumptions C100_undisturbed.

(** What is true: any number of commands none of which writes a file that another one uses.
    Whatever the interleaving, a command that has ended has the exit status, the output and the
    files that it has when it is run alone; files that nobody writes stay.
    Missing: commands that share a file which one of them writes (for those: the refutations,
    [C100_reader_sees] and [C100_undisturbed] above). *)
Theorem C100_apart_partial : forall room fs0 (iter : list (Z * Subdirectory) -> list (Z * Subdirectory)) fuel js fs1 qs,
  Forall (fun j => uses iter fuel (j_prog j) (j_reads j) (j_writes j)) js -> apart js ->
  execution room fs0 (map launch js) fs1 qs ->
  length qs = length js /\
  (forall i j q s w t, nth_error js i = Some j -> nth_error qs i = Some q -> ended q s -> alone j fs0 room = (w, t) ->
     s = t /\ q_stdout q = w_stdout w /\ forall n, In n (j_writes j) -> fs1 n = w_fs w n) /\
  (forall n, (forall j, In j js -> ~ In n (j_writes j)) -> fs1 n = fs0 n).
Proof. exact C100_lemma. Qed.
Print Assumptions C100_apart_partial.
(** A put and a mksd from the same source: both succeed. *)
Example C100_apart_example : forall iter fuel, exists fs0 fs1 a b, let js := [put_job iter fuel (s2b "DF06"); mksd_job] in
  Forall (fun j => uses iter fuel (j_prog j) (j_reads j) (j_writes j)) js /\ apart js /\
  execution None fs0 (map launch js) fs1 [a; b] /\ ended a 0 /\ ended b 0.
Proof. exact C100_apart_ex. Qed.

(** What is true of all commands, also of those that share files: no interleaving goes on for
    ever, and as long as one of them has not ended, one of them can go on. *)
Theorem C100_every_execution_ends : forall room,
  (forall f : nat -> fsystem * list process, ~ forall n, moves room (f n) (f (S n))) /\
  forall fs0 js fs1 qs, execution room fs0 (map launch js) fs1 qs -> all_ended qs \/ exists b, moves room (fs1, qs) b.
Proof. exact C100_ending_lemma. Qed.
Print Assumptions C100_every_execution_ends.
