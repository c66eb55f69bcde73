(** SupermonSpec.v -- independent vocabulary for the properties of package supermon.
    Nothing here mentions the model's functions. *)
From Verif Require Import GoBase.

(** ** The NakedOS floppy: 560 sectors, numbered 16 * track + sector *)

(** The 256 bytes of sector number [k]. *)
Definition sec (d : bytes) (k : Z) : bytes := sub d (256 * k) (256 * k + 256).
(** The sectors owned by file [f] according to map [sm], in increasing order. *)
Definition owned (sm : bytes) (f : Z) : list Z := filter (fun k => znth 0 sm k =? f) (zrange 560).
(** The contents of file [f]. *)
Definition content (d sm : bytes) (f : Z) : bytes := flat_map (sec d) (owned sm f).
(** Sectors needed for [c], and [c] zero-padded to a multiple of 256. *)
Definition nsec (c : bytes) : Z := (zlen c + 255) / 256.
Definition padded (c : bytes) : bytes := c ++ zeros (256 * nsec c - zlen c).

Definition legal (f : Z) : Prop := 1 <= f <= 253.
Definition FREE : Z := 255.
Definition RESERVED : Z := 254.

(** A well-formed sector map. *)
Record verified (sm : bytes) : Prop := {
  v_len : zlen sm = 560;
  v_res : forall k, 0 <= k < 12 -> znth 0 sm k = RESERVED;
  v_leg : forall k, 0 <= k < 560 -> znth 0 sm k <> 0
}.

(** The map stored on the disk: bytes 2512..3071 (track 0, sectors 9 from offset D0, A, B). *)
Definition stored_map (d : bytes) : bytes := sub d 2512 3072.

(** A floppy whose stored map is the well-formed map [sm]. *)
Record floppy (d sm : bytes) : Prop := {
  fl_len : zlen d = 143360;
  fl_ver : verified sm;
  fl_map : stored_map d = sm
}.

(** ** Symbol names *)
Definition letter (c : Z) : Prop := 65 <= c <= 90 \/ 97 <= c <= 122.
Definition digit (c : Z) : Prop := 48 <= c <= 57.
Definition alnum (c : Z) : Prop := letter c \/ digit c.
(** The same, decided. *)
Definition is_alnum (c : Z) : bool :=
  ((65 <=? c) && (c <=? 90)) || ((97 <=? c) && (c <=? 122)) || ((48 <=? c) && (c <=? 57)).
(** Encoded size: 6 bits for a digit, 5 for a letter. *)
Definition char_bits (c : Z) : Z := if (48 <=? c) && (c <=? 57) then 6 else 5.
Fixpoint name_bits (n : bytes) : Z := match n with [] => 0 | c :: n' => char_bits c + name_bits n' end.
Definition valid_name (n : bytes) : Prop :=
  n = [] \/ (3 <= zlen n <= 9 /\ Forall alnum n /\ name_bits n <= 48).
(** ASCII upper case. *)
Definition upcase (n : bytes) : bytes := map (fun c => if (97 <=? c) && (c <=? 122) then c - 32 else c) n.

(** ** Symbol tables: (address, name, link) *)
Definition hash7 (a : Z) : Z := Z.lxor (a mod 256) (a / 256 mod 256) mod 128.

(** ** Numeric file names *)
(** [hex_digit c v]: [c] is a hexadecimal digit (either case) of value [v]. *)
Inductive hex_digit : Z -> Z -> Prop :=
| hd_dec c : 48 <= c <= 57 -> hex_digit c (c - 48)
| hd_low c : 97 <= c <= 102 -> hex_digit c (c - 87)
| hd_up c : 65 <= c <= 70 -> hex_digit c (c - 55).
(** [hex_number s v]: [s] is a non-empty string of hexadecimal digits of value [v]. *)
Inductive hex_number : bytes -> Z -> Prop :=
| hn_one c v : hex_digit c v -> hex_number [c] v
| hn_more s c v w : hex_number s v -> hex_digit c w -> hex_number (s ++ [c]) (16 * v + w).
(** [numeric s f]: [s] is a number naming file [f]: 01..FD or DF01..DFFD. *)
Definition numeric (s : bytes) (f : Z) : Prop :=
  legal f /\ exists v, hex_number s v /\ (v = f \/ v = 0xDF00 + f).
(** No colon in a file name, and the shapes of compound names. *)
Definition no_colon (s : bytes) : Prop := ~ In 58 s.
(** [$DFxx] as printed by the catalog. *)
Definition hexchar (v : Z) : Z := znth 0 (s2b "0123456789ABCDEF") v.
Definition printed (f : Z) : bytes := s2b "DF" ++ [hexchar (f / 16); hexchar (f mod 16)].
