(** PlaceSpec.v -- vocabulary for C78: a structure that has a home on the disk image. *)
From Verif Require Import GoBase.

(** [rd d p] reads the structure whose home starts at byte [start p] of [d] and is [size] bytes
    long; [wr v d] writes [v] to [d].  [home v] is the place [v] names. *)
Record kept_in_place {T P : Type} (rd : bytes -> P -> res T) (wr : T -> bytes -> bytes * res unit)
    (home : T -> P) (start : P -> Z) (size : Z) (place : P -> Prop) (wf : T -> Prop) (shows : bytes -> T -> Prop) : Prop := {
  (* what is read shows the bytes at its home, names its home, and writing it back changes nothing *)
  kp_read : forall d p, bytes_ok d -> place p -> start p + size <= zlen d ->
    exists v, rd d p = Ok v /\ wf v /\ home v = p /\ shows (sub d (start p) (start p + size)) v /\ wr v d = (d, Ok tt);
  (* what is written is read back from its home, and nothing outside its home changes *)
  kp_write : forall d v, bytes_ok d -> wf v -> start (home v) + size <= zlen d ->
    exists d', wr v d = (d', Ok tt) /\ zlen d' = zlen d /\ bytes_ok d' /\ rd d' (home v) = Ok v /\
      (forall i, 0 <= i -> ~ (start (home v) <= i < start (home v) + size) -> znth 0 d' i = znth 0 d i);
  (* a home that is not on the image gives an error and leaves the image alone *)
  kp_off_read : forall d p, place p -> zlen d < start p + size -> exists e, rd d p = Err e;
  kp_off_write : forall d v, wf v -> zlen d < start (home v) + size -> exists e, wr v d = (d, Err e)
}.
