(** PropertiesBoot.v -- property C88 (cmd/sd.go, run on the machine of BootSpec.v). *)
From Verif Require Import GoBase GoLemmas DiskSpec DiskOpenProofs CmdModel CmdSpec SdSpec SdProofs BootSpec BootProofs BootStmtProofs.

(** ** C88 *)
(** In full: whenever mksd succeeds, the disk boots into the binary.  This is false for binaries
    that occupy page 8 (the loader overwrites itself), page 0 (which the loader skips) or page 1
    and another page after it (the loader uses the stack while it loads that). *)
Theorem C88_page8_refuted : exists c, forall order img bin o w, order_flag order -> sd_image_order order img o ->
  input w bin c -> w_room w = None -> w_outroom w = None -> can_output w img true ->
  exists w' raw d, run (SDCmd_Run order img bin 0x800 0xFFFF) w = (w', Ok tt) /\
    output w w' img raw /\ reordered raw o (s2b "raw") d /\ ~ boots_into d c 0x800 0x800.
Proof. exact C88_page8_lemma. Qed.
Print Assumptions C88_page8_refuted.
Theorem C88_page0_refuted : exists c, forall order img bin o w, order_flag order -> sd_image_order order img o ->
  input w bin c -> w_room w = None -> w_outroom w = None -> can_output w img true ->
  exists w' raw d, run (SDCmd_Run order img bin 0 0xFFFF) w = (w', Ok tt) /\
    output w w' img raw /\ reordered raw o (s2b "raw") d /\ ~ boots_into d c 0 0.
Proof. exact C88_page0_lemma. Qed.
Print Assumptions C88_page0_refuted.
Theorem C88_page1_refuted : exists c, forall order img bin o w, order_flag order -> sd_image_order order img o ->
  input w bin c -> w_room w = None -> w_outroom w = None -> can_output w img true ->
  exists w' raw d, run (SDCmd_Run order img bin 0x100 0xFFFF) w = (w', Ok tt) /\
    output w w' img raw /\ reordered raw o (s2b "raw") d /\ ~ boots_into d c 0x100 0x100.
Proof. exact C88_page1_lemma. Qed.
Print Assumptions C88_page1_refuted.
(** Proved for all others that keep out of the pages 0, 3 and 8 and have nothing after page 1.
    Missing: page 3, where it depends on what the PROM leaves there. *)
Theorem C88_boots_partial : forall order img bin c address start0 o w w',
  order_flag order -> sd_image_order order img o -> 0 <= address < 65536 -> 0 <= start0 < 65536 ->
  input w bin c -> run (SDCmd_Run order img bin address start0) w = (w', Ok tt) ->
  out_of_the_way (address / 256) (sd_pages c) ->
  exists raw d, output w w' img raw /\ reordered raw o (s2b "raw") d /\
    boots_into d c address (sd_start address start0).
Proof. exact C88_partial_lemma. Qed.
Print Assumptions C88_boots_partial.
(** A binary of 16 pages, the last of which is on the second track, written to x.dsk; a machine that has
    just been started; and hypotheses of the refutations. *)
Example C88_example :
  let c := repeat 7 4000 in let w := one_file (s2b "prog") c None in
  sd_image_order (s2b "auto") (s2b "x.dsk") (s2b "do") /\ input w (s2b "prog") c /\
  (exists w', run (SDCmd_Run (s2b "auto") (s2b "x.dsk") (s2b "prog") 0x2000 0x2100) w = (w', Ok tt)) /\
  sd_pages c = 16 /\ out_of_the_way (0x2000 / 256) (sd_pages c) /\
  cold_start 6 (Mach 0 0x60 0 0xFF false false 0xC65C base 0 (fun _ => false)) /\
  can_output w (s2b "x.dsk") true /\ w_room w = None /\ w_outroom w = None.
Proof. exact C88_example_lemma. Qed.
