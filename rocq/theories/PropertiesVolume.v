(** PropertiesVolume.v -- listing ProDOS volumes, whatever is on them (C109, and C52 again). *)
From Verif Require Import GoBase DiskModel ProdosModel ProdosSpec ProdosStmtProofs VolumeSpec VolumeProofs VolumeExProofs.

(** C109: on every image of up to 65536 blocks, well-formed or not, listing a directory comes to one
    of the outcomes described by [may]: the entries of one directory, an error, or a run without end. *)
Theorem C109_listing : forall d p (iter : list (Z * Subdirectory) -> list (Z * Subdirectory)),
  bytes_ok d -> zlen d <= 65536 * 512 -> an_order iter -> exists v, may d p v /\ comes_to d (fun n => Catalog iter n d p) v.
Proof. exact listing_lemma. Qed.
Print Assumptions C109_listing.
(** And to each of them, for some order in which the entries of the map are visited. *)
Theorem C109_each : forall d p v, bytes_ok d -> zlen d <= 65536 * 512 -> may d p v ->
  exists iter, an_order iter /\ comes_to d (fun n => Catalog iter n d p) v.
Proof. exact each_lemma. Qed.
Print Assumptions C109_each.
(** An image is taken for a ProDOS volume exactly if its volume directory can be listed. *)
Theorem C109_recognised : forall d (iter : list (Z * Subdirectory) -> list (Z * Subdirectory)),
  bytes_ok d -> zlen d <= 65536 * 512 -> an_order iter -> exists v, may d [] v /\
  match v with
  | Lists _ _ => returns (fun n => prodos_SeemsToMatch iter n d) (fun r => r = true)
  | Fails => returns (fun n => prodos_SeemsToMatch iter n d) (fun r => r = false)
  | Hangs => diverges (fun n => prodos_SeemsToMatch iter n d)
  end.
Proof. exact detected_lemma. Qed.
Print Assumptions C109_recognised.
(** A well-formed volume, with a parent pointer to a later block; a volume with two faults, of which
    either may be found first; and one where a directory without a last block is found before one,
    a level deeper, that is off the device. *)
Example C109_example : may ex_vol (s2b "SUB/INNER") (Lists 9 []) /\ (forall p, may ex_astray p Fails /\ may ex_astray p Hangs) /\
  (forall p, bytes_ok ex_torn /\ zlen ex_torn = 143360 /\ may ex_torn p Hangs /\ leaves ex_torn 999 /\ steps (child ex_torn) 2 999).
Proof. exact (conj ex_vol_may (conj ex_astray_may ex_torn_may)). Qed.

(** C52: exactly which volumes are listed, or refused, in finite time, whatever the order of the map;
    and which never are. *)
Theorem C52_terminates_exact : forall d p, bytes_ok d -> zlen d <= 65536 * 512 ->
  ((forall iter, an_order iter -> returns (fun n => Catalog iter n d p) (fun r => r <> Panic)) <-> ~ may d p Hangs).
Proof. exact terminates_lemma. Qed.
Print Assumptions C52_terminates_exact.
Theorem C52_never_exact : forall d p, bytes_ok d -> zlen d <= 65536 * 512 ->
  ((forall iter, an_order iter -> diverges (fun n => Catalog iter n d p)) <-> (may d p Hangs /\ forall v, may d p v -> v = Hangs)).
Proof. exact hangs_lemma. Qed.
Print Assumptions C52_never_exact.
