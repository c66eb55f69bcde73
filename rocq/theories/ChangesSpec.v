(** ChangesSpec.v -- which bytes of a NakedOS disk a command changes. *)
From Verif Require Import GoBase TypesModel SupermonModel SupermonSpec SupermonTableSpec NakedCmdSpec StatusSpec.

(** The sectors that file [f] may get, in increasing order: the free ones and its own. *)
Definition room (d : bytes) (f : Z) : list Z :=
  filter (fun k => (znth 0 (stored_map d) k =? FREE) || (znth 0 (stored_map d) k =? f)) (zrange 560).
(** The sectors it gets for the contents [c]. *)
Definition taken (d : bytes) (f : Z) (c : bytes) : list Z := firstn (Z.to_nat (nsec c)) (room d f).
(** [d'] is the disk [d] with the contents [c] in file [f] (no such file if [c] is empty): the sectors
    taken hold [c], the map says so and the rest of the disk, free sectors included, is as it was. *)
Record placed (d : bytes) (f : Z) (c d' : bytes) : Prop := {
  pl_fits : nsec c <= zlen (room d f);
  pl_size : zlen d' = 143360;
  pl_taken : forall k, In k (taken d f c) -> znth 0 (stored_map d') k = f;
  pl_freed : forall k, 0 <= k < 560 -> ~ In k (taken d f c) -> znth 0 (stored_map d) k = f -> znth 0 (stored_map d') k = FREE;
  pl_others : forall k, 0 <= k < 560 -> ~ In k (taken d f c) -> znth 0 (stored_map d) k <> f -> znth 0 (stored_map d') k = znth 0 (stored_map d) k;
  pl_data : forall i, 0 <= i < nsec c -> sec d' (znth 0 (taken d f c) i) = sub (padded c) (256 * i) (256 * i + 256);
  pl_rest : forall p, 0 <= p < 143360 -> ~ (2512 <= p < 3072) -> ~ In (p / 256) (taken d f c) -> znth 0 d' p = znth 0 d p
}.

(** ** Files 3 and 4, which hold the symbol table *)
(** A name as a number: the first character in the lowest bits, five bits for a letter, six for a
    digit; anything else is left out. *)
Definition char_code (c : Z) : Z :=
  if (65 <=? c) && (c <=? 90) then c - 64
  else if (48 <=? c) && (c <=? 52) then 27 + (c - 48)
  else 59 + (c - 53).
Fixpoint name_code (n : bytes) : Z :=
  match n with
  | [] => 0
  | c :: n' => if is_alnum c then char_code c + 2 ^ char_bits c * name_code n' else name_code n'
  end.
(** Byte [k] of a number. *)
Definition byte_of (v k : Z) : Z := v / 256 ^ k mod 256.
(** Where the link of an entry points: the table is loaded at D000, five bytes an entry. *)
Definition link_addr (l : Z) : Z := if l =? -1 then 0 else 0xD000 + 5 * l.
(** [b1] and [b2] are the two files of the table [t]: address, link and the sixth byte of the name in
    one, the other five bytes of the name in the other; one byte is left over. *)
Record tables (t : list Symbol) (b1 b2 : bytes) : Prop := {
  tb_size : zlen b1 = 4096 /\ zlen b2 = 4096;
  tb_entry : forall i, 0 <= i < 819 ->
    sub b1 (5 * i) (5 * i + 5) =
      [ad t i mod 256; ad t i / 256; link_addr (lk t i) mod 256; link_addr (lk t i) / 256 mod 256; byte_of (name_code (upcase (nm t i))) 5] /\
    sub b2 (5 * i) (5 * i + 5) = map (byte_of (name_code (upcase (nm t i)))) [0; 1; 2; 3; 4];
  tb_last : znth 0 b1 4095 = 0 /\ znth 0 b2 4095 = 0
}.
(** [d'] is [d] with the table [t] in its files 3 and 4. *)
Definition tabled (d : bytes) (t : list Symbol) (d' : bytes) : Prop :=
  exists b1 b2 d1, tables t b1 b2 /\ placed d 3 b1 d1 /\ placed d1 4 b2 d'.

(** ** The table after a symbol is added or deleted *)
Definition first_such (P : Z -> Prop) (n i : Z) : Prop := 0 <= i < n /\ P i /\ forall j, 0 <= j < i -> ~ P j.
(** [t'] is [t] with the link [l] in the first entry that meets [P], if there is one. *)
Definition relinked (P : Z -> Prop) (l : Z) (t t' : list Symbol) : Prop :=
  (exists j, first_such P (zlen t) j /\ t' = zset t j (Sym (ad t j) (nm t j) l)) \/
  ((forall j, 0 <= j < zlen t -> ~ P j) /\ t' = t).
(** The entry with the name is taken out of its chain and cleared; its link stays. *)
Definition deleted (t : list Symbol) (n : bytes) (t' : list Symbol) : Prop :=
  exists i t1, first_named t n i /\ relinked (fun k => k <> i /\ lk t k = i) (lk t i) t t1 /\ t' = zset t1 i (Sym 0 [] (lk t i)).
(** Entry [p] gets the name and the address, and the first end of a chain of that hash links to it. *)
Definition entered (t : list Symbol) (p : Z) (n : bytes) (a : Z) (t' : list Symbol) : Prop :=
  exists t1, relinked (fun k => hash7 (ad t k) = hash7 a /\ lk t k = -1) p t t1 /\ t' = zset t1 p (Sym a n (-1)).
(** A name that is there keeps its entry, and its chain if the hash is the same; another gets the first
    unused entry. *)
Definition added (t : list Symbol) (n : bytes) (a : Z) (t' : list Symbol) : Prop :=
  (exists i, first_named t n i /\ hash7 (ad t i) = hash7 a /\ t' = zset t i (Sym a (nm t i) (lk t i))) \/
  (exists i t1, first_named t n i /\ hash7 (ad t i) <> hash7 a /\ deleted t n t1 /\ entered t1 i n a t') \/
  ((forall i, ~ first_named t n i) /\ exists p, first_such (fun k => ad t k = 0) (zlen t) p /\ entered t p n a t').

(** ** put and rm *)
(** What put makes of the disk [d] with the names [t] (empty: no table): the file, and the table with the
    symbol added if the symbol has yet to be given to the file. *)
Definition put_changes (d : bytes) (t : list Symbol) (n s d' : bytes) : Prop :=
  exists f q e, put_meaning d t n f q e /\
    ((e = true /\ q <> [] /\ exists t' d1, added t q (0xDF00 + f) t' /\ placed d f s d1 /\ tabled d1 t' d') \/
     ((e = false \/ q = []) /\ placed d f s d')).
(** What rm makes of it: the file is gone, and so is the name, if it is in the table. *)
Definition rm_changes (d : bytes) (t : list Symbol) (n d' : bytes) : Prop :=
  exists f, resolves t n f /\
    ((exists t' d1, deleted t n t' /\ placed d f [] d1 /\ tabled d1 t' d') \/
     ((forall i, ~ first_named t n i) /\ placed d f [] d')).
