(** PropertiesCmd.v -- properties C05 (registered factories), C06, C63-C66, C74 (packages
    helpers and cmd). *)
From Verif Require Import GoBase GoLemmas DiskModel DiskSpec DiskProofs DiskOpenProofs.
From Verif Require Import SupermonModel CmdModel CmdSpec CmdProofs CmdStmtProofs DiskExProofs.

(** ** C05: the factories the program registers *)
Theorem C05_registered_factories : forall iter fuel,
  (forall f, In f (DiskOperatorFactories iter fuel) -> f_order f = s2b "do" \/ f_order f = s2b "po" \/ f_order f = s2b "raw") /\
  (forall f d op, In f (DiskOperatorFactories iter fuel) -> f_operator f d = Ok op ->
     Op_GetBytes op = d /\ Op_DiskOrder op = f_order f /\ Op_Name op = f_name f) /\
  NoDup (map f_name (DiskOperatorFactories iter fuel)).
Proof. exact C05_factories_lemma. Qed.
Print Assumptions C05_registered_factories.
Example C05_registered_example : forall iter fuel,
  map f_name (DiskOperatorFactories iter fuel) = [s2b "dos3"; s2b "nakedos"; s2b "prodos"].
Proof. intros iter fuel. reflexivity. Qed.

(** ** C06 *)
(** [reordered c a b d] (DiskSpec.v): read in order [b], [d] has at each track and sector what
    [c] has there when read in order [a], by the published interleave tables. *)
Theorem C06_reorder_there_and_back : forall a b w img newImg ow c,
  other_order a b -> input w img c ->
  (* one step *)
  (forall w', run (ReorderCmd_Run a b ow img newImg) w = (w', Ok tt) ->
     exists d, reordered c a b d /\ output w w' (reorder_target img newImg) d) /\
  (zlen c = 143360 -> w_room w = None -> w_outroom w = None ->
     can_output w (reorder_target img newImg) (match newImg with [] => true | _ => ow end) ->
     exists w', run (ReorderCmd_Run a b ow img newImg) w = (w', Ok tt)) /\
  (zlen c <> 143360 -> exists w' e, run (ReorderCmd_Run a b ow img newImg) w = (w', Err e) /\ same_files w w') /\
  (* there and back *)
  (forall w1 ow2 newImg2 w2 mid, reorder_target img newImg = mid -> mid <> s2b "-" ->
     run (ReorderCmd_Run a b ow img newImg) w = (w1, Ok tt) ->
     run (ReorderCmd_Run b a ow2 mid newImg2) w1 = (w2, Ok tt) ->
     output w1 w2 (reorder_target mid newImg2) c).
Proof. exact C06_lemma. Qed.
Print Assumptions C06_reorder_there_and_back.
(** The sample image, reordered into a second file and that one in place. *)
Example C06_example : let w := one_file (s2b "a.dsk") sample_img None in
  exists w1 w2, run (ReorderCmd_Run (s2b "do") (s2b "po") false (s2b "a.dsk") (s2b "a.po")) w = (w1, Ok tt) /\
    run (ReorderCmd_Run (s2b "po") (s2b "do") false (s2b "a.po") []) w1 = (w2, Ok tt) /\
    ~ holds w1 (s2b "a.po") sample_img /\ holds w2 (s2b "a.po") sample_img.
Proof.
  apply C06_example_lemma; [vm_compute; reflexivity|]. vm_compute. discriminate.
Qed.

(** ** C63 *)
Theorem C63_WriteOutput : forall w name contents force w' r, run (WriteOutput name contents force) w = (w', r) ->
  r <> Panic /\
  (name = s2b "-" -> same_files w w' /\ (r = Ok tt -> w_stdout w' = w_stdout w ++ contents) /\
     (w_outroom w = None -> r = Ok tt)) /\
  (name <> s2b "-" ->
     w_stdout w' = w_stdout w /\ same_files_but w w' name /\
     (force = false -> file_exists w name -> w' = w /\ exists e, r = Err e) /\
     (r = Ok tt -> holds w' name contents) /\
     (w_room w = None -> (r = Ok tt <-> (force = true \/ ~ file_exists w name) /\ writable w name)) /\
     (forall e, r = Err e -> w' = w \/ (runs_full w contents /\ exists p, prefix p contents /\ holds w' name p))).
Proof. exact C63_lemma. Qed.
Print Assumptions C63_WriteOutput.
Example C63_example : let w := one_file (s2b "a") [1; 2] None in
  run (WriteOutput (s2b "a") [3] false) w = (w, Err (EOther "cannot overwrite file without --force")) /\
  snd (run (WriteOutput (s2b "a") [3] true) w) = Ok tt /\
  w_fs (fst (run (WriteOutput (s2b "a") [3] true) w)) (s2b "a") = NFile [3] true true /\
  w_stdout (fst (run (WriteOutput (s2b "-") [3] true) w)) = [3].
Proof. split; [|split; [|split]]; reflexivity. Qed.

(** ** C64 *)
(** The full claim, that no file changes when the command returns an error, fails if the medium
    runs full: the image is truncated. *)
Theorem C64_full_medium_refuted : forall iter fuel img, zlen img = 143360 ->
  exists p w w' e, modifies iter fuel p (s2b "a.dsk") /\ holds w (s2b "a.dsk") img /\
    run p w = (w', Err e) /\ holds w' (s2b "a.dsk") [].
Proof. exact C64_refuted_lemma. Qed.
Print Assumptions C64_full_medium_refuted.
Theorem C64_failed_command_partial : forall iter fuel p t, modifies iter fuel p t -> forall w w' r, run p w = (w', r) ->
  (r = Ok tt -> exists c, output w w' t c) /\
  (forall e, r = Err e -> same_files w w' \/
     (t <> s2b "-" /\ same_files_but w w' t /\ exists c q, runs_full w c /\ prefix q c /\ holds w' t q)) /\
  (r = Panic -> same_files w w').
Proof. exact C64_lemma. Qed.
Print Assumptions C64_failed_command_partial.
Theorem C64_room_partial : forall iter fuel p t, modifies iter fuel p t -> forall w w' r, w_room w = None -> run p w = (w', r) ->
  r <> Ok tt -> same_files w w'.
Proof. exact C64_room_lemma. Qed.
Print Assumptions C64_room_partial.
(** An `rm` of an image that is not a disk image fails; the other outcome is C06_example. *)
Example C64_example : forall iter fuel, exists e,
  snd (run (DeleteCmd_Run iter fuel (s2b "auto") (s2b "auto") true (s2b "a.dsk") (s2b "X")) (one_file (s2b "a.dsk") [1; 2] None))
  = Err e.
Proof. intros iter fuel. eexists. reflexivity. Qed.

(** ** C65 *)
(** The full claim, that the killed command leaves the old or the new image, fails: the image is
    truncated before it is written. *)
Theorem C65_interrupted_refuted : forall iter fuel img, zlen img = 143360 ->
  exists p w w' w2 new, modifies iter fuel p (s2b "a.dsk") /\ holds w (s2b "a.dsk") img /\ w_room w = None /\
    run p w = (w2, Ok tt) /\ holds w2 (s2b "a.dsk") new /\ zlen new = 143360 /\
    crash p w w' /\ holds w' (s2b "a.dsk") [].
Proof. exact C65_refuted_lemma. Qed.
Print Assumptions C65_interrupted_refuted.
Theorem C65_interrupted_partial : forall iter fuel p t, modifies iter fuel p t -> forall w w', crash p w w' ->
  same_files w w' \/
  (t <> s2b "-" /\ same_files_but w w' t /\
   exists new q w2, run p (unlimited w) = (w2, Ok tt) /\ holds w2 t new /\ prefix q new /\ holds w' t q).
Proof. exact C65_lemma. Qed.
Print Assumptions C65_interrupted_partial.
Example C65_example : zlen sample_img = 143360 /\
  exists p, modifies (fun l => l) 5 p (s2b "a.dsk") /\ forall w, crash p w w.
Proof.
  split; [vm_compute; reflexivity|].
  exists (ReorderCmd_Run (s2b "auto") (s2b "auto") false (s2b "a.dsk") []). split; [apply (m_reorder (fun l => l) 5)|].
  intros w. destruct (ReorderCmd_Run (s2b "auto") (s2b "auto") false (s2b "a.dsk") []); left; reflexivity.
Qed.

(** ** C66 *)
Theorem C66_reorder_orders : forall inN inF outN outF, order_flag inF -> order_flag outF ->
  (forall f t, getOrders inN inF outN outF = Ok (f, t) <->
     exists a b, known inN inF outN outF a b /\ chosen a b f t) /\
  ((exists e, getOrders inN inF outN outF = Err e) <->
     forall a b f t, known inN inF outN outF a b -> ~ chosen a b f t) /\
  (forall f t, getOrders inN inF outN outF = Ok (f, t) ->
     other_order f t /\ (inF <> s2b "auto" -> f = inF) /\ (outF <> s2b "auto" -> t = outF) /\
     (inF = s2b "auto" -> outF = s2b "auto" ->
        (forall o, name_order inN (Some o) -> f = o) /\ (forall o, name_order outN (Some o) -> t = o) /\
        ~ (name_order inN None /\ name_order outN None))).
Proof. exact C66_lemma. Qed.
Print Assumptions C66_reorder_orders.
Example C66_example :
  getOrders (s2b "a.dsk") (s2b "auto") (s2b "b") (s2b "auto") = Ok (s2b "do", s2b "po") /\
  getOrders (s2b "a.dsk") (s2b "auto") (s2b "b.po") (s2b "do") = Ok (s2b "po", s2b "do") /\
  (exists e, getOrders (s2b "a.dsk") (s2b "auto") (s2b "b.DO") (s2b "auto") = Err e) /\
  (exists e, getOrders (s2b "a") (s2b "auto") (s2b "b.hdv") (s2b "auto") = Err e) /\
  (exists e, getOrders (s2b "a") (s2b "po") (s2b "b") (s2b "po") = Err e).
Proof. split; [reflexivity|]. split; [reflexivity|]. split; [|split]; eexists; reflexivity. Qed.

(** ** C74 *)
Theorem C74_readers_write_nothing : forall iter fuel p, reads iter fuel p ->
  (forall w w' r, run p w = (w', r) -> same_files w w') /\ (forall w w', crash p w w' -> same_files w w').
Proof. exact C74_lemma. Qed.
Print Assumptions C74_readers_write_nothing.
(** Decoding a one-line program prints it and touches nothing. *)
Example C74_example : let w := one_file (s2b "p") [7; 8; 10; 0; 128; 0; 0; 0] None in
  reads (fun l => l) 50 (DecodeCmd_Run 50 (s2b "p") 0x801 true) /\
  let r := run (DecodeCmd_Run 50 (s2b "p") 0x801 true) w in
  w_stdout (fst r) = s2b "10  END " ++ [10] /\ snd r = Ok tt.
Proof. split; [apply (r_decode (fun l => l) 50)|]. vm_compute. split; reflexivity. Qed.
