(** PropertiesRest.v -- property C111: reorder, mksd and applesoft decode on any file, and all commands
    when a file cannot be read or written (cmd/reorder.go, cmd/sd.go, cmd/applesoft.go,
    helpers/helpers.go, disk/open.go). *)
From Verif Require Import GoBase DiskSpec DiskExProofs CmdModel CmdSpec SdSpec MainModel StatusSpec DetectSpec ImageSpec RestSpec RestProofs RestExProofs.
From Verif Require ProdosModel ProdosSpec BasicSpec BasicStmtProofs.

(** ** C111 *)
(** reorder either writes the image in the other order or fails without a trace, and it does the
    former exactly if the image can be read and has 143360 bytes, the orders are known and differ, and
    the result can be written. *)
Theorem C111_reorder : forall a b ow img new w, order_flag a -> order_flag b -> w_room w = None -> w_outroom w = None ->
  (exists c f t d w', input w img c /\ orders_in_force img a new b f t /\ reordered c f t d /\
     can_output w (reorder_target img new) (match new with [] => true | _ => ow end) /\
     run (ReorderCmd_Run a b ow img new) w = (w', Ok tt) /\ output w w' (reorder_target img new) d) \/
  (~ (exists c f t, input w img c /\ orders_in_force img a new b f t /\ zlen c = 143360 /\
      can_output w (reorder_target img new) (match new with [] => true | _ => ow end)) /\
   fails_cleanly (ReorderCmd_Run a b ow img new) w).
Proof. exact reorder_exact. Qed.
Print Assumptions C111_reorder.
Example C111_reorder_example : let w := two_files sample_img in
  orders_in_force (s2b "a.dsk") (s2b "auto") [] (s2b "auto") (s2b "do") (s2b "po") /\
  orders_in_force (s2b "a.dsk") (s2b "auto") (s2b "b.po") (s2b "auto") (s2b "do") (s2b "po") /\
  input w (s2b "a.dsk") sample_img /\ zlen sample_img = 143360 /\ can_output w (s2b "a.dsk") true /\
  can_output w (s2b "b.po") true /\ ~ can_output w (s2b "b.po") false.
Proof. exact reorder_example2. Qed.

(** mksd, likewise. *)
Theorem C111_mksd : forall order img bin address start w,
  order_flag order -> 0 <= address < 65536 -> 0 <= start < 65536 -> w_room w = None -> w_outroom w = None ->
  (exists c o d raw w', input w bin c /\ sd_accepts c address (sd_start address start) /\ can_output w img true /\
     sd_image_order order img o /\ sd_disk c address (sd_start address start) d /\ reordered d (s2b "raw") o raw /\
     run (SDCmd_Run order img bin address start) w = (w', Ok tt) /\ output w w' img raw) \/
  (~ (exists c, input w bin c /\ sd_accepts c address (sd_start address start) /\ can_output w img true) /\
   fails_cleanly (SDCmd_Run order img bin address start) w).
Proof. exact mksd_exact. Qed.
Print Assumptions C111_mksd.
Example C111_mksd_example : sd_accepts (repeat 7 600) 0x2000 (sd_start 0x2000 0xFFFF) /\ ~ sd_accepts (repeat 7 600) 0x2000 (sd_start 0x2000 0x2300).
Proof. exact mksd_example2. Qed.

(** applesoft decode of any file at any address: there is an outcome, and whatever [decode_shows] says
    happens (so it says one thing only). *)
Theorem C111_decode : forall file f loc raw w, bytes_ok f -> is_u16 loc -> input w file f -> w_outroom w = None ->
  (exists e, decode_shows f loc raw e) /\ (forall e, decode_shows f loc raw e -> ends_in (fun k => DecodeCmd_Run k file loc raw) w e).
Proof. exact decode_exact. Qed.
Print Assumptions C111_decode.
Example C111_decode_example :
  decode_shows (BasicSpec.program 0x801 BasicStmtProofs.ex_small) 0x801 false (Prints (s2b "10  PRINT ""HI""" ++ [10] ++ s2b "20  GOTO 10" ++ [10])) /\
  decode_shows BasicStmtProofs.ex_loop 0x801 false Crashes /\ decode_shows BasicStmtProofs.ex_before 0x801 true Crashes /\ decode_shows [1; 2; 3] 0x801 true Errs.
Proof. exact decode_example2. Qed.

(** A file that cannot be read. *)
Theorem C111_unreadable : forall iter k p name w, takes iter k p name -> unreadable w name -> fails_cleanly p w.
Proof. exact unreadable_lemma. Qed.
Print Assumptions C111_unreadable.
(** put, when the image can be read but the contents cannot. *)
Theorem C111_put_source : forall (iter : list (Z * ProdosModel.Subdirectory) -> list (Z * ProdosModel.Subdirectory)) img order system c ft ow addr tgt src w,
  bytes_ok c -> ProdosSpec.an_order iter -> input w img c -> unreadable w src -> img <> s2b "-" \/ src <> s2b "-" ->
  exists r, opening img order system c r /\
    eventually (fun k => exits (PutCmd_Run iter k order system ft ow addr img tgt src) w (match r with Stuck => 2 | _ => 1 end)).
Proof. exact put_source_lemma. Qed.
Print Assumptions C111_put_source.
Example C111_unreadable_example : let w := one_file (s2b "a.dsk") [1] None in unreadable w (s2b "b.dsk") /\ ~ unreadable w (s2b "a.dsk") /\ ~ unreadable w (s2b "-").
Proof. exact unreadable_example. Qed.

(** A file that cannot be written: the command that would otherwise succeed or fail, fails, and the one
    that crashes, crashes; nothing changes and nothing is printed. *)
Theorem C111_unwritable : forall iter k p t w w2 w2' s, modifies iter k p t -> locked w w2 t -> w_room w = None ->
  main_run p w2 = (w2', s) -> exists w', main_run p w = (w', if s =? 2 then 2 else 1) /\ same_files w w' /\ w_stdout w' = w_stdout w.
Proof. exact unwritable_lemma. Qed.
Print Assumptions C111_unwritable.
Example C111_unwritable_example : forall c, locked (protected c) (one_file (s2b "a.dsk") c None) (s2b "a.dsk").
Proof. exact locked_example. Qed.
