(** PropertiesSd.v -- properties C67 and C75 (cmd/sd.go). *)
From Verif Require Import GoBase GoLemmas DiskSpec DiskProofs DiskOpenProofs CmdModel CmdSpec SdSpec SdProofs SdStmtProofs.

(** ** C67 *)
Theorem C67_standard_delivery : forall order name c address start0 o,
  order_flag order -> sd_image_order order name o -> 0 <= address < 65536 -> 0 <= start0 < 65536 ->
  ((exists raw, sd_image order name c address start0 = Ok raw) <-> sd_accepts c address (sd_start address start0)) /\
  ((exists e, sd_image order name c address start0 = Err e) <-> ~ sd_accepts c address (sd_start address start0)) /\
  (forall raw, sd_image order name c address start0 = Ok raw ->
     exists d, sd_disk c address (sd_start address start0) d /\ reordered d (s2b "raw") o raw) /\
  (sd_accepts c address (sd_start address start0) -> forall i, 0 <= i < sd_pages c -> 0 <= address / 256 + i < 0xC0).
Proof. exact C67_lemma. Qed.
Print Assumptions C67_standard_delivery.

Theorem C67_mksd_command : forall order img bin c address start0 w,
  input w bin c ->
  (forall w', run (SDCmd_Run order img bin address start0) w = (w', Ok tt) ->
     exists raw, sd_image order img c address start0 = Ok raw /\ output w w' img raw) /\
  (forall raw, sd_image order img c address start0 = Ok raw -> w_room w = None -> w_outroom w = None ->
     can_output w img true -> exists w', run (SDCmd_Run order img bin address start0) w = (w', Ok tt)) /\
  (forall e, sd_image order img c address start0 = Err e ->
     exists w', run (SDCmd_Run order img bin address start0) w = (w', Err e) /\ same_files w w').
Proof. exact C67_run_lemma. Qed.
Print Assumptions C67_mksd_command.
Example C67_example :
  order_flag (s2b "auto") /\ sd_image_order (s2b "auto") (s2b "x.dsk") (s2b "do") /\
  sd_accepts (repeat 7 600) 0x2000 (sd_start 0x2000 0x2100) /\ sd_pages (repeat 7 600) = 3 /\
  ~ sd_accepts (repeat 7 600) 0x2001 0x2100 /\
  input (one_file (s2b "prog") (repeat 7 600) None) (s2b "prog") (repeat 7 600).
Proof.
  split; [constructor|]. split; [apply so_name; [reflexivity|]; apply no_dsk; left; apply ext_is_dec_true; [ascii | reflexivity]|].
  split; [repeat split; vm_compute; discriminate|]. split; [reflexivity|]. split; [intros [H _]; vm_compute in H; discriminate H|].
  right. split; [discriminate|]. exists true. reflexivity.
Qed.

(** ** C75 *)
(** The check adds the length to the start address instead of the load address: a binary of
    4000 bytes (hexadecimal) for 7000-AFFF started at 8800 is refused. *)
Theorem C75_fitting_binary_refuted : exists c address start,
  sd_runnable c address start /\
  forall order name, order_flag order -> exists e, sd_image order name c address start = Err e.
Proof. exact C75_refuted_lemma. Qed.
Print Assumptions C75_fitting_binary_refuted.
Theorem C75_fitting_binary_partial : forall order name c address start0,
  order_flag order -> 0 <= address < 65536 -> 0 <= start0 < 65536 ->
  (sd_runnable c address (sd_start address start0) -> sd_start address start0 + zlen c <= 0xC000 ->
     sd_pages c <= 176 -> exists raw, sd_image order name c address start0 = Ok raw) /\
  (0x1000 <= address -> sd_runnable c address address ->
     exists raw, sd_image order name c address 0xFFFF = Ok raw) /\
  (forall raw, sd_image order name c address start0 = Ok raw -> sd_runnable c address (sd_start address start0)).
Proof. exact C75_partial_lemma. Qed.
Print Assumptions C75_fitting_binary_partial.
Example C75_example : sd_runnable (repeat 7 600) 0x2000 0x2000 /\ ~ sd_runnable (repeat 7 600) 0xBF00 0xBF00.
Proof. split; [repeat split; vm_compute; discriminate|]. intros (_ & _ & H). vm_compute in H. apply H. reflexivity. Qed.
