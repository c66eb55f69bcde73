(** SdSpec.v -- what a Standard Delivery disk for a binary is, as cmd/sd.go describes it
    (https://github.com/peterferrie/standard-delivery). *)
From Verif Require Import GoBase DiskSpec CmdSpec.

(** The order in which the boot loader reads the sectors of a track. *)
Definition sd_order : list Z := [0; 2; 4; 6; 8; 10; 12; 14; 1; 3; 5; 7; 9; 11; 13; 15].
(** The [k]-th sector the loader reads; number 0 is the loader itself. *)
Definition sd_sector (d : bytes) (k : Z) : bytes := sector d (k / 16) (znth 0 sd_order (k mod 16)).
(** The fixed part of the boot loader. *)
Definition sd_boot : bytes :=
  [1; 168; 238; 6; 8; 173; 78; 8; 201; 192; 240; 64; 133; 39; 200; 192; 16; 144; 9; 240; 5; 32; 47; 8; 168; 44;
   160; 1; 132; 61; 200; 165; 39; 240; 223; 138; 74; 74; 74; 74; 9; 192; 72; 169; 91; 72; 96; 230; 65; 6; 64; 32;
   55; 8; 24; 32; 60; 8; 230; 64; 165; 64; 41; 3; 42; 5; 43; 168; 185; 128; 192; 169; 48; 76; 168; 252; 76].
(** Pages needed for the binary. *)
Definition sd_pages (c : bytes) : Z := (zlen c + 255) / 256.

(** The 560 sectors of the disk: the loader with the start address, the list of pages and the
    end mark C0; the pages of the binary, zero padded; zeros. *)
Definition sd_disk (c : bytes) (address start : Z) (d : bytes) : Prop :=
  zlen d = 143360 /\
  (exists tail, sd_sector d 0 = sd_boot ++ [start mod 256; start / 256] ++
     map (fun i => address / 256 + i) (zrange (sd_pages c)) ++ [0xC0] ++ tail /\
     forall x, In x tail -> x = 0) /\
  (forall i j, 0 <= i < sd_pages c -> 0 <= j < 256 ->
     znth 0 (sd_sector d (i + 1)) j = znth 0 c (256 * i + j)) /\
  (forall k j, sd_pages c < k < 560 -> 0 <= j < 256 -> znth 0 (sd_sector d k) j = 0).

(** The start address in force: FFFF stands for the load address. *)
Definition sd_start (address start : Z) : Z := if start =? 0xFFFF then address else start.
(** The arguments mksd accepts. *)
Definition sd_accepts (c : bytes) (address start : Z) : Prop :=
  address mod 256 = 0 /\ address <= start < address + zlen c /\ start + zlen c <= 0xC000 /\ sd_pages c <= 176.
(** The order of the image: the flag, or what the file name says, or DOS order. *)
Inductive sd_image_order (order name : bytes) : bytes -> Prop :=
| so_flag : order <> s2b "auto" -> sd_image_order order name order
| so_name o : order = s2b "auto" -> name_order name (Some o) -> sd_image_order order name o
| so_default : order = s2b "auto" -> name_order name None -> sd_image_order order name (s2b "do").
(** The binary can be loaded and run: it starts on a page, the start address lies in it, and it
    ends below the I/O page C000. *)
Definition sd_runnable (c : bytes) (address start : Z) : Prop :=
  address mod 256 = 0 /\ address <= start < address + zlen c /\ address + zlen c <= 0xC000.
