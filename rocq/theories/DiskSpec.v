(** DiskSpec.v -- independent vocabulary for the properties of package disk.
    Nothing here mentions the model's functions. *)
From Verif Require Import GoBase.
From Coq Require Import Permutation.

(** Byte offset of a track/sector, and the 256 bytes found there. *)
Definition offset (t s : Z) : Z := 4096 * t + 256 * s.
Definition sector (img : bytes) (t s : Z) : bytes := sub img (offset t s) (offset t s + 256).

(** The published interleave tables: physical sector of a logical sector. *)
Definition do_interleave : list Z := [0; 13; 11; 9; 7; 5; 3; 1; 14; 12; 10; 8; 6; 4; 2; 15].
Definition po_interleave : list Z := [0; 2; 4; 6; 8; 10; 12; 14; 1; 3; 5; 7; 9; 11; 13; 15].
Definition raw_interleave : list Z := [0; 1; 2; 3; 4; 5; 6; 7; 8; 9; 10; 11; 12; 13; 14; 15].
Inductive interleave : bytes -> list Z -> Prop :=
| il_do : interleave (s2b "do") do_interleave
| il_po : interleave (s2b "po") po_interleave
| il_raw : interleave (s2b "raw") raw_interleave.

(** [reordered img from to d]: [d] holds the image [img], whose logical sectors are in
    order [from], re-ordered to order [to]: two logical sectors with the same physical
    place hold the same data. *)
Definition reordered (img : bytes) (from to : bytes) (d : bytes) : Prop :=
  zlen img = 143360 /\ zlen d = 143360 /\
  exists lf lt, interleave from lf /\ interleave to lt /\
    forall t s s', 0 <= t < 35 -> 0 <= s < 16 -> 0 <= s' < 16 ->
      znth 0 lf s = znth 0 lt s' -> sector d t s' = sector img t s.

(** Extension of a file name: [has_ext name e] when [e] is what follows the last dot of the
    last path component; [no_ext] when the last component has no dot. *)
Definition plain (x : bytes) : Prop := Forall (fun c => c <> 46 /\ c <> 47) x.
Definition has_ext (name e : bytes) : Prop := plain e /\ exists pre, name = pre ++ 46 :: e.
Definition no_ext (name : bytes) : Prop := plain name \/ exists pre x, name = pre ++ 47 :: x /\ plain x.

(** [ci e lit]: [e] is a spelling of the lower-case ASCII text [lit] that Go's lower-casing
    identifies with it: any mix of ASCII cases, plus the two non-ASCII characters whose
    lower case is an ASCII letter (U+212A KELVIN SIGN, U+0130). *)
Inductive ci : bytes -> bytes -> Prop :=
| ci_nil : ci [] []
| ci_lower c e l : ci e l -> 0 <= c < 128 -> ~ (65 <= c <= 90) -> ci (c :: e) (c :: l)
| ci_upper c e l : ci e l -> 65 <= c <= 90 -> ci (c :: e) (c + 32 :: l)
| ci_kelvin e l : ci e l -> ci (226 :: 132 :: 170 :: e) (107 :: l)
| ci_dotted_i e l : ci e l -> ci (196 :: 176 :: e) (105 :: l).

Definition ext_is (name : bytes) (lit : bytes) : Prop := exists e, has_ext name e /\ ci e lit.

(** Orders tried for a floppy-sized image, given the order flag and the file name. *)
Inductive candidates (name : bytes) : bytes -> list bytes -> Prop :=
| cand_do : candidates name (s2b "do") [s2b "do"]
| cand_po : candidates name (s2b "po") [s2b "po"]
| cand_auto_do : ext_is name (s2b "do") -> candidates name (s2b "auto") [s2b "do"]
| cand_auto_po : ext_is name (s2b "po") -> candidates name (s2b "auto") [s2b "po"]
| cand_auto_both : ext_is name (s2b "dsk") \/ no_ext name ->
    candidates name (s2b "auto") [s2b "do"; s2b "po"].

(** The registered systems selected by the system flag. *)
Definition selected {F} (fname : F -> bytes) (system : bytes) (facs sel : list F) : Prop :=
  (system = s2b "auto" /\ sel = facs) \/
  (system <> s2b "auto" /\ sel = filter (fun f => beq (fname f) system) facs).
