(** HelloSpec.v -- the machine that the loader of mkhello is made for: the 6502 of BootSpec.v, and the
    one call of NakedOS that it uses.  Nothing here comes from /repo but the name of the call (NKRDFILE)
    and its form: JSR 340, followed by ADC DC01, BIT DFff and BIT pp00, with the number [ff] of the file
    and the page [pp] it is to be read to; NakedOS goes on behind them. *)
From Verif Require Import GoBase DiskSpec SupermonSpec NakedCmdSpec BootSpec.

Section Run.
  (** The disk in the drive. *)
  Context (d : bytes).

  Inductive nstep (s : machine) : machine -> Prop :=
  | ns_cpu s' : ram (rPC s) = true -> rPC s + 2 < 0xC000 -> rPC s <> 0x340 ->
      execute (mem s (rPC s)) (mem s (rPC s + 1)) (mem s (rPC s + 2)) s = Some s' -> nstep s s'
  (** CLD; the flag it clears is not part of the machine. *)
  | ns_cld : ram (rPC s) = true -> rPC s <> 0x340 -> mem s (rPC s) = 0xD8 -> nstep s (jump s (rPC s + 1))
  (** NakedOS reads the file to the page and those that follow it.  Nothing is said about files that are
      not there, about reading to pages 0 to 3 or above BF, and about what NakedOS does to pages 0 to 3
      and to the registers other than S. *)
  | ns_read f p r s' : rPC s = 0x340 -> r = rPC (return_ s) -> 0 <= r -> r + 8 < 0xC000 ->
      mem s r = 0x6D -> mem s (r + 1) = 0x01 -> mem s (r + 2) = 0xDC ->
      mem s (r + 3) = 0x2C -> mem s (r + 4) = f -> mem s (r + 5) = 0xDF ->
      mem s (r + 6) = 0x2C -> mem s (r + 7) = 0 -> mem s (r + 8) = p ->
      legal f -> file_on d f <> [] -> 4 <= p -> 256 * p + zlen (file_on d f) <= 0xC000 ->
      (forall i, 0 <= i < zlen (file_on d f) -> mem s' (256 * p + i) = znth 0 (file_on d f) i) ->
      (forall x, 0x400 <= x < 0xC000 -> ~ (256 * p <= x < 256 * p + zlen (file_on d f)) -> mem s' x = mem s x) ->
      rPC s' = r + 9 -> rS s' = rS (return_ s) -> nstep s s'.

  (** Whatever the unknown values are, the machine comes to a state with [P]. *)
  Inductive comes_to (P : machine -> Prop) (s : machine) : Prop :=
  | ct_here : P s -> comes_to P s
  | ct_step : (exists s', nstep s s') -> (forall s', nstep s s' -> comes_to P s') -> comes_to P s.
End Run.

(** File 1 of the disk [d], read to anywhere above page 3 where the binary [c] is not going to be, and started,
    brings [c] to [address] and goes on at [start]. *)
Definition starts_into (d c : bytes) (address start : Z) : Prop :=
  forall l s, 0x400 <= l -> l + 16 <= 0xC000 -> l + 16 <= address \/ address + zlen c <= l ->
    rPC s = l -> 0 <= rS s < 256 -> (forall i, 0 <= i < 16 -> mem s (l + i) = znth 0 (file_on d 1) i) ->
    comes_to d (runs c address start) s.
