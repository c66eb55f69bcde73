(** BootSpec.v -- the machine a Standard Delivery disk is made for: as much of an Apple II as its
    boot loader uses.  Nothing here comes from /repo: it is the environment in which the
    property C88 says what the disks written by mksd do.

    - 6502: the 28 instructions of the loader, from the MOS programming manual.  Of the flags only
      C and Z are kept; no instruction below reads another one.
    - Monitor ROM: WAIT at FCA8.
    - Disk II: the four phase magnets and the head, and the part of the controller's boot PROM
      (P5A, 16 sectors) from Cn5C on, which reads one sector.
    A state from which no step is described is one about which nothing is claimed. *)
From Verif Require Import GoBase DiskSpec.

Definition memory := Z -> Z.
Definition mset (m : memory) (a v : Z) : memory := fun x => if x =? a then v else m x.

Record machine := Mach {
  rA : Z; rX : Z; rY : Z; rS : Z; fC : bool; fZ : bool; rPC : Z;
  mem : memory;
  head : Z;          (* position of the head in half tracks: track t is at 2t *)
  mags : Z -> bool   (* which of the magnets 0..3 are on *)
}.

(** ** The 6502 *)
Definition word (lo hi : Z) : Z := lo + 256 * hi.
Definition ram (a : Z) : bool := (0 <=? a) && (a <? 0xC000).
(** The target of a branch: [b] is signed. *)
Definition branch (pc b : Z) : Z := (pc + 2 + (if b <? 128 then b else b - 256)) mod 65536.
Definition setA (s : machine) (v n : Z) : machine :=
  Mach v (rX s) (rY s) (rS s) (fC s) (v =? 0) (rPC s + n) (mem s) (head s) (mags s).
Definition setAC (s : machine) (v : Z) (c : bool) : machine :=
  Mach v (rX s) (rY s) (rS s) c (v =? 0) (rPC s + 1) (mem s) (head s) (mags s).
Definition setY (s : machine) (v n : Z) : machine :=
  Mach (rA s) (rX s) v (rS s) (fC s) (v =? 0) (rPC s + n) (mem s) (head s) (mags s).
Definition setM (s : machine) (a v n : Z) : machine :=
  Mach (rA s) (rX s) (rY s) (rS s) (fC s) (fZ s) (rPC s + n) (mset (mem s) a v) (head s) (mags s).
Definition setMZ (s : machine) (a v n : Z) : machine :=
  Mach (rA s) (rX s) (rY s) (rS s) (fC s) (v =? 0) (rPC s + n) (mset (mem s) a v) (head s) (mags s).
Definition compare (s : machine) (r v : Z) : machine :=
  Mach (rA s) (rX s) (rY s) (rS s) (v <=? r) (r =? v) (rPC s + 2) (mem s) (head s) (mags s).
Definition jump (s : machine) (pc : Z) : machine :=
  Mach (rA s) (rX s) (rY s) (rS s) (fC s) (fZ s) pc (mem s) (head s) (mags s).
Definition push (s : machine) (v : Z) : machine :=
  Mach (rA s) (rX s) (rY s) ((rS s - 1) mod 256) (fC s) (fZ s) (rPC s) (mset (mem s) (0x100 + rS s) v) (head s) (mags s).
(** RTS: the address on the stack, plus one. *)
Definition return_ (s : machine) : machine :=
  let lo := mem s (0x100 + (rS s + 1) mod 256) in
  let hi := mem s (0x100 + (rS s + 2) mod 256) in
  Mach (rA s) (rX s) (rY s) ((rS s + 2) mod 256) (fC s) (fZ s) ((word lo hi + 1) mod 65536) (mem s) (head s) (mags s).

(** One instruction, [op] and its operand bytes [b1], [b2] having been fetched at [rPC s].
    Only RAM is read or written here. *)
Definition execute (op b1 b2 : Z) (s : machine) : option machine :=
  let zp := mem s b1 in
  let ab := word b1 b2 in
  match op with
  | 0xA8 => Some (setY s (rA s) 1)                                        (* TAY *)
  | 0xC8 => Some (setY s ((rY s + 1) mod 256) 1)                          (* INY *)
  | 0xA0 => Some (setY s b1 2)                                            (* LDY # *)
  | 0x8A => Some (setA s (rX s) 1)                                        (* TXA *)
  | 0xA9 => Some (setA s b1 2)                                            (* LDA # *)
  | 0xA5 => Some (setA s zp 2)                                            (* LDA zp *)
  | 0xAD => if ram ab then Some (setA s (mem s ab) 3) else None           (* LDA abs *)
  | 0xB9 => let a := (ab + rY s) mod 65536 in
            if ram a then Some (setA s (mem s a) 3) else None             (* LDA abs,Y *)
  | 0x09 => Some (setA s (Z.lor (rA s) b1) 2)                             (* ORA # *)
  | 0x05 => Some (setA s (Z.lor (rA s) zp) 2)                             (* ORA zp *)
  | 0x29 => Some (setA s (Z.land (rA s) b1) 2)                            (* AND # *)
  | 0x4A => Some (setAC s (rA s / 2) (negb (rA s mod 2 =? 0)))            (* LSR A *)
  | 0x2A => Some (setAC s ((2 * rA s + (if fC s then 1 else 0)) mod 256)
                        (128 <=? rA s))                                   (* ROL A *)
  | 0x85 => Some (setM s b1 (rA s) 2)                                     (* STA zp *)
  | 0x84 => Some (setM s b1 (rY s) 2)                                     (* STY zp *)
  | 0xE6 => Some (setMZ s b1 ((zp + 1) mod 256) 2)                        (* INC zp *)
  | 0xEE => if ram ab then Some (setMZ s ab ((mem s ab + 1) mod 256) 3)
            else None                                                     (* INC abs *)
  | 0x06 => let s' := setMZ s b1 (2 * zp mod 256) 2 in
            Some (Mach (rA s') (rX s') (rY s') (rS s') (128 <=? zp) (fZ s') (rPC s') (mem s') (head s') (mags s'))
                                                                          (* ASL zp *)
  | 0x2C => if ram ab then
              Some (Mach (rA s) (rX s) (rY s) (rS s) (fC s) (Z.land (rA s) (mem s ab) =? 0) (rPC s + 3)
                         (mem s) (head s) (mags s))
            else None                                                     (* BIT abs *)
  | 0xC9 => Some (compare s (rA s) b1)                                    (* CMP # *)
  | 0xC0 => Some (compare s (rY s) b1)                                    (* CPY # *)
  | 0x18 => Some (Mach (rA s) (rX s) (rY s) (rS s) false (fZ s) (rPC s + 1) (mem s) (head s) (mags s))
                                                                          (* CLC *)
  | 0xF0 => Some (jump s (if fZ s then branch (rPC s) b1 else rPC s + 2)) (* BEQ *)
  | 0x90 => Some (jump s (if fC s then rPC s + 2 else branch (rPC s) b1)) (* BCC *)
  | 0x4C => Some (jump s ab)                                              (* JMP *)
  | 0x20 => let r := rPC s + 2 in
            Some (jump (push (push s (r / 256)) (r mod 256)) ab)          (* JSR *)
  | 0x48 => Some (jump (push s (rA s)) (rPC s + 1))                       (* PHA *)
  | 0x60 => Some (return_ s)                                              (* RTS *)
  | _ => None
  end.

(** ** The drive *)
(** With one magnet on, the head moves to it if it is next to the head; a magnet two steps away
    does not move it.  With no magnet on it stays.  Nothing is said about several. *)
Inductive settle (g : Z -> bool) (h : Z) : Z -> Prop :=
| se_none : (forall p, 0 <= p < 4 -> g p = false) -> settle g h h
| se_one p h' : 0 <= p < 4 -> g p = true -> (forall q, 0 <= q < 4 -> q <> p -> g q = false) ->
    h' = (if p =? (h + 1) mod 4 then h + 1
          else if (p =? (h - 1) mod 4) && (0 <? h) then h - 1 else h) ->
    settle g h h'.

(** ** One step; [d] is the disk in the drive, its sectors in physical order *)
Section Step.
  Context (d : bytes) (slot : Z).

  Inductive step (s : machine) : machine -> Prop :=
  | st_cpu s' : ram (rPC s) = true -> rPC s + 2 < 0xC000 ->
      execute (mem s (rPC s)) (mem s (rPC s + 1)) (mem s (rPC s + 2)) s = Some s' -> step s s'
  (** LDA abs,Y reading one of the eight addresses of the magnets: an even address switches a
      magnet off, the odd one after it switches it on.  The byte read is not known. *)
  | st_magnet q v : ram (rPC s) = true -> rPC s + 2 < 0xC000 -> mem s (rPC s) = 0xB9 ->
      (word (mem s (rPC s + 1)) (mem s (rPC s + 2)) + rY s) mod 65536 = 0xC080 + 16 * slot + q ->
      0 <= q < 8 -> is_byte v ->
      step s (Mach v (rX s) (rY s) (rS s) (fC s) (v =? 0) (rPC s + 3) (mem s) (head s)
                   (fun p => if p =? q / 2 then negb (q mod 2 =? 0) else mags s p))
  (** WAIT: time passes.  It returns with A = 0 and carry set, and leaves the last value it
      pushed below the stack pointer. *)
  | st_wait h' : rPC s = 0xFCA8 -> settle (mags s) (head s) h' ->
      step s (return_ (Mach 0 (rX s) (rY s) (rS s) true true (rPC s) (mset (mem s) (0x100 + rS s) 1) h' (mags s)))
  (** The PROM reads sector (3D) of track (41), under the head, to page (27), uses 3C, 300-355 and
      the stack as scratch space, and notes the track in 40.  Then it advances 27 and 3D, and
      goes on reading as long as 3D is less than the first byte of page 8; then it jumps to 801.
      It has taken its byte off the stack again when it stores the sector, so that all of page 1
      can be read to.  Nothing is said about reading to pages 0 and 3, which it uses itself, or
      above BF. *)
  | st_prom s' : rPC s = 0xC05C + 256 * slot -> rX s = 16 * slot -> mem s 0x2B = 16 * slot -> mem s 0x26 = 0 ->
      1 <= mem s 0x27 < 0xC0 -> mem s 0x27 <> 3 ->
      0 <= mem s 0x3D < 16 -> 0 <= mem s 0x41 < 35 -> head s = 2 * mem s 0x41 ->
      (forall j, 0 <= j < 256 -> mem s' (256 * mem s 0x27 + j) = znth 0 (sector d (mem s 0x41) (mem s 0x3D)) j) ->
      mem s' 0x27 = mem s 0x27 + 1 -> mem s' 0x3D = mem s 0x3D + 1 -> mem s' 0x40 = mem s 0x41 ->
      (forall x, x <> 0x27 -> x <> 0x3C -> x <> 0x3D -> x <> 0x40 -> x <> 0x100 + rS s -> ~ (0x300 <= x < 0x356) ->
         ~ (256 * mem s 0x27 <= x < 256 * mem s 0x27 + 256) -> mem s' x = mem s x) ->
      rA s' = mem s 0x3D + 1 -> rX s' = 16 * slot -> rY s' = 0 -> rS s' = rS s ->
      fC s' = (mem s' 0x800 <=? mem s' 0x3D) ->
      rPC s' = (if mem s' 0x800 <=? mem s' 0x3D then 0x801 else rPC s) ->
      head s' = head s -> mags s' = mags s ->
      step s s'.

  (** Whatever the unknown values are, the machine comes to a state with [P]. *)
  Inductive leads_to (P : machine -> Prop) (s : machine) : Prop :=
  | lt_here : P s -> leads_to P s
  | lt_step : (exists s', step s s') -> (forall s', step s s' -> leads_to P s') -> leads_to P s.

  (** The controller has been started (PR#slot): the head is at track 0, at most magnet 0 is on, and
      the PROM is about to read track 0 sector 0 to page 8. *)
  Definition cold_start (s : machine) : Prop :=
    rPC s = 0xC05C + 256 * slot /\ rX s = 16 * slot /\ 0 <= rS s < 256 /\
    mem s 0x26 = 0 /\ mem s 0x27 = 8 /\ mem s 0x2B = 16 * slot /\ mem s 0x3D = 0 /\ mem s 0x41 = 0 /\
    head s = 0 /\ (forall p, 1 <= p < 4 -> mags s p = false).
End Step.

(** The machine is at [start], and the binary [c] is in memory from [address] on. *)
Definition runs (c : bytes) (address start : Z) (s : machine) : Prop :=
  rPC s = start /\ forall i, 0 <= i < zlen c -> mem s (address + i) = znth 0 c i.

(** Put in a drive in slot 1 to 7 and started, the disk runs the binary. *)
Definition boots_into (d c : bytes) (address start : Z) : Prop :=
  forall slot s, 1 <= slot <= 7 -> cold_start slot s -> leads_to d slot (runs c address start) s.
(** A binary from page [p] on, of [n] pages, is out of the way of the loader and the PROM: it does
    not use the zero page, the PROM's page 3 or the loader's page 8, and the stack, page 1, only
    as its last page. *)
Definition out_of_the_way (p n : Z) : Prop :=
  forall i, 0 <= i < n -> p + i <> 0 /\ p + i <> 3 /\ p + i <> 8 /\ (p + i = 1 -> i = n - 1).
