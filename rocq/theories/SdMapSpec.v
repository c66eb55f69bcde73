(** SdMapSpec.v -- the parts of a binary that may be taken for the sector map of NakedOS when the binary
    is on a Standard Delivery disk. *)
From Verif Require Import GoBase.

(** Page [i] of the binary on the disk, with zeros after its end. *)
Definition sd_page (c : bytes) (i : Z) : bytes := sub (c ++ zeros (143104 - zlen c)) (256 * i) (256 * i + 256).
(** What is where NakedOS keeps its map, if the image is read in the order in which it was written; and
    if it is read in the other order. *)
Definition sd_own_map (c : bytes) : bytes := sub (sd_page c 11) 208 256 ++ sd_page c 4 ++ sd_page c 12.
Definition sd_other_map (c : bytes) : bytes := sub (sd_page c 2) 208 256 ++ sd_page c 9 ++ sd_page c 1.
