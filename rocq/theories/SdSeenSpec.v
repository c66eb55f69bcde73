(** SdSeenSpec.v -- a Standard Delivery disk as one sequence of bytes, and commands that fail on it. *)
From Verif Require Import GoBase DiskSpec CmdModel CmdSpec MainModel SdSpec.

(** The boot sector: the loader, the start address, the pages and the end mark, and zeros. *)
Definition sd_first (c : bytes) (address start : Z) : bytes :=
  let l := sd_boot ++ [start mod 256; start / 256] ++ map (fun i => address / 256 + i) (zrange (sd_pages c)) ++ [0xC0] in
  l ++ zeros (256 - zlen l).
(** The boot sector, the binary as it is, and zeros to the end of the disk. *)
Definition sd_line (c : bytes) (address start : Z) : bytes := sd_first c address start ++ c ++ zeros (143104 - zlen c).
(** The command reports an error or crashes; it changes no file and prints nothing. *)
Definition leaves_alone (p : prog unit) (w : world) : Prop :=
  exists w' n, main_run p w = (w', n) /\ n <> 0 /\ same_files w w' /\ w_stdout w' = w_stdout w.
