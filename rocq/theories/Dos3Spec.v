(** Dos3Spec.v -- independent vocabulary for the properties of package dos3.  Only the record
    types of Dos3Model are used, none of its functions. *)
From Verif Require Import GoBase DiskSpec TypesModel Dos3Model.

(** ** Values of the Go struct types *)
Definition arr (n : Z) (l : bytes) : Prop := zlen l = n /\ bytes_ok l.
Record VTOC_wf (v : VTOC) : Prop := {
  vw_ts : is_byte (v_Track v) /\ is_byte (v_Sector v);
  vw_b : Forall is_byte [v_Unused1 v; v_CatalogTrack v; v_CatalogSector v; v_DOSRelease v; v_Volume v;
                         v_TSLMaxSize v; v_LastTrack v; v_NumTracks v; v_NumSectors v];
  vw_u2 : arr 2 (v_Unused2 v); vw_u3 : arr 32 (v_Unused3 v); vw_u4 : arr 8 (v_Unused4 v); vw_u5 : arr 2 (v_Unused5 v);
  vw_dir : -128 <= v_TrackDirection v < 128;
  vw_bps : is_u16 (v_BytesPerSector v);
  vw_free : zlen (v_FreeSectors v) = 50 /\ Forall (arr 4) (v_FreeSectors v)
}.
Record FD_wf (fd : FileDesc) : Prop := {
  fw_b : Forall is_byte [fd_Track fd; fd_Sector fd; fd_Filetype fd];
  fw_name : arr 30 (fd_Filename fd);
  fw_count : is_u16 (fd_SectorCount fd)
}.
Record CS_wf (cs : CatalogSector) : Prop := {
  cw_ts : is_byte (cs_Track cs) /\ is_byte (cs_Sector cs);
  cw_b : Forall is_byte [cs_Unused1 cs; cs_NextTrack cs; cs_NextSector cs];
  cw_u2 : arr 8 (cs_Unused2 cs);
  cw_fds : zlen (cs_FileDescs cs) = 7 /\ Forall FD_wf (cs_FileDescs cs)
}.
Record TSL_wf (l : TrackSectorList) : Prop := {
  tw_ts : is_byte (tsl_Track l) /\ is_byte (tsl_Sector l);
  tw_b : Forall is_byte [tsl_Unused1 l; tsl_NextTrack l; tsl_NextSector l];
  tw_u2 : arr 2 (tsl_Unused2 l); tw_u3 : arr 5 (tsl_Unused3 l);
  tw_off : is_u16 (tsl_SectorOffset l);
  tw_tss : zlen (tsl_TrackSectors l) = 122 /\ Forall (fun p => is_byte (fst p) /\ is_byte (snd p)) (tsl_TrackSectors l)
}.

(** The published layouts (Beneath Apple DOS, chapter 4). *)
Definition word (b : bytes) (a : Z) : Z := znth 0 b a + 256 * znth 0 b (a + 1).
Record VTOC_layout (b : bytes) (v : VTOC) : Prop := {
  vl_catalog : znth 0 b 0x01 = v_CatalogTrack v /\ znth 0 b 0x02 = v_CatalogSector v;
  vl_release : znth 0 b 0x03 = v_DOSRelease v;
  vl_volume : znth 0 b 0x06 = v_Volume v;
  vl_pairs : znth 0 b 0x27 = v_TSLMaxSize v;
  vl_alloc : znth 0 b 0x30 = v_LastTrack v /\
             v_TrackDirection v = (if znth 0 b 0x31 <? 128 then znth 0 b 0x31 else znth 0 b 0x31 - 256);
  vl_geometry : znth 0 b 0x34 = v_NumTracks v /\ znth 0 b 0x35 = v_NumSectors v /\ word b 0x36 = v_BytesPerSector v;
  vl_free : forall t j, 0 <= t < 50 -> 0 <= j < 4 -> znth 0 b (0x38 + 4 * t + j) = znth 0 (znth [] (v_FreeSectors v) t) j
}.
Record FD_layout (b : bytes) (fd : FileDesc) : Prop := {
  fl_ts : znth 0 b 0 = fd_Track fd /\ znth 0 b 1 = fd_Sector fd;
  fl_type : znth 0 b 2 = fd_Filetype fd;
  fl_name : forall j, 0 <= j < 30 -> znth 0 b (3 + j) = znth 0 (fd_Filename fd) j;
  fl_count : word b 0x21 = fd_SectorCount fd
}.
(** Slot [i] (of 7) of a catalog sector. *)
Definition slot (b : bytes) (i : Z) : bytes := sub b (11 + 35 * i) (11 + 35 * i + 35).
Definition slots (b : bytes) : list bytes := map (slot b) [0; 1; 2; 3; 4; 5; 6].
(** Pair [i] (of 122) of a track/sector list. *)
Definition pair_at (b : bytes) (i : Z) : Z * Z := (znth 0 b (12 + 2 * i), znth 0 b (13 + 2 * i)).
Definition pairs (b : bytes) : list (Z * Z) := map (pair_at b) (zrange 122).

(** ** Chains.  [link d t s]: the sector that the list or catalog sector at (t,s) points to. *)
Definition link (d : bytes) (t s : Z) : Z * Z := (znth 0 (sector d t s) 1, znth 0 (sector d t s) 2).
(** [chain good d p l]: following links from [p] visits exactly the sectors at [l] and ends at
    (0,0); every visited sector is [good]. *)
Inductive chain (good : Z -> Z -> Prop) (d : bytes) : Z * Z -> list (Z * Z) -> Prop :=
| chain_end : chain good d (0, 0) []
| chain_next t s l : (t, s) <> (0, 0) -> good t s -> chain good d (link d t s) l -> chain good d (t, s) ((t, s) :: l).
(** [path good d p l q]: the links lead from [p] through the good sectors at [l] to [q]. *)
Inductive path (good : Z -> Z -> Prop) (d : bytes) : Z * Z -> list (Z * Z) -> Z * Z -> Prop :=
| path_nil p : path good d p [] p
| path_cons t s l q : (t, s) <> (0, 0) -> good t s -> path good d (link d t s) l q -> path good d (t, s) ((t, s) :: l) q.

(** ** Catalog *)
(** The documented VTOC values. *)
Record good_vtoc (b : bytes) : Prop := {
  gv_volume : znth 0 b 6 <> 255;
  gv_release : znth 0 b 3 = 3;
  gv_dir : znth 0 b 0x31 = 1 \/ znth 0 b 0x31 = 255;
  gv_tracks : znth 0 b 0x34 = 35;
  gv_sectors : znth 0 b 0x35 = 13 \/ znth 0 b 0x35 = 16;
  gv_bytes : word b 0x36 = 256;
  gv_pairs : znth 0 b 0x27 = 122;
  gv_free : forall t, 0 <= t < 50 -> znth 0 b (0x38 + 4 * t + 2) = 0 /\ znth 0 b (0x38 + 4 * t + 3) = 0
}.
Definition vtoc (d : bytes) : bytes := sector d 17 0.
(** Sectors a catalog may occupy: on the disk described by the VTOC, and inside the image. *)
Definition catalog_place (d : bytes) (t s : Z) : Prop :=
  t < 35 /\ s < znth 0 (vtoc d) 0x35 /\ offset t s + 256 <= zlen d.
Definition catalog_start (d : bytes) : Z * Z := (znth 0 (vtoc d) 1, znth 0 (vtoc d) 2).
Definition is_live (e : bytes) : bool := negb (znth 0 e 0 =? 0) && negb (znth 0 e 0 =? 255).
Definition is_deleted (e : bytes) : bool := znth 0 e 0 =? 255.
(** All 35-byte entries of the catalog sectors at [l], in order. *)
Definition entries (d : bytes) (l : list (Z * Z)) : list bytes := concat (map (fun p => slots (sector d (fst p) (snd p))) l).

(** ** Names *)
(** [trimmed s n]: [n] is [s] without its trailing spaces. *)
Definition trimmed (s n : bytes) : Prop := exists k, s = n ++ repeat 32 k /\ forall m x, n = m ++ [x] -> x <> 32.
Definition clear_high (l : bytes) : bytes := map (fun b => (b + 128) mod 256) l.
(** The name of a live entry. *)
Definition entry_name (e n : bytes) : Prop := trimmed (clear_high (sub e 3 33)) n.

(** ** File bodies *)
(** The entries of a file whose track/sector lists are the sectors at [l]: all 122 of each, the
    last list cut after its last non-zero pair (not cut when all its pairs are zero). *)
Definition hole (p : Z * Z) : Prop := p = (0, 0).
Definition cut_after_last (ps qs : list (Z * Z)) : Prop :=
  (Forall hole ps /\ qs = ps) \/
  (exists q z, ~ hole q /\ Forall hole z /\ (exists p, qs = p ++ [q]) /\ ps = qs ++ z).
Inductive file_pairs (d : bytes) : list (Z * Z) -> list (Z * Z) -> Prop :=
| fp_none : file_pairs d [] []
| fp_last t s ps : cut_after_last (pairs (sector d t s)) ps -> file_pairs d [(t, s)] ps
| fp_more t s l ps : l <> [] -> file_pairs d l ps -> file_pairs d ((t, s) :: l) (pairs (sector d t s) ++ ps).
Definition pair_bytes (d : bytes) (p : Z * Z) : bytes :=
  if (fst p =? 0) && (snd p =? 0) then repeat 0 256 else sector d (fst p) (snd p).
Definition in_image (d : bytes) (t s : Z) : Prop := offset t s + 256 <= zlen d.
Definition pair_ok (d : bytes) (p : Z * Z) : Prop := hole p \/ in_image d (fst p) (snd p).
(** [body d p l data]: the file whose first list is at [p] has its lists at [l] and its body is [data]. *)
Definition body (d : bytes) (p : Z * Z) (l : list (Z * Z)) (data : bytes) : Prop :=
  chain (in_image d) d p l /\ exists ps, file_pairs d l ps /\ Forall (pair_ok d) ps /\ data = concat (map (pair_bytes d) ps).

(** The links from [p] come back to a sector already visited. *)
Definition cyclic (good : Z -> Z -> Prop) (d : bytes) (p : Z * Z) : Prop := exists l q, path good d p l q /\ In q l.

(** ** Descriptors *)
(** The numeric file type (types/filetype.go) that stands for a DOS 3.3 type byte without its
    lock bit: T, I, A, B, S, R, new A, new B, anything else. *)
Definition dos_type (b ty : Z) : Prop :=
  (b = 0x00 /\ ty = 0x04) \/ (b = 0x01 /\ ty = 0xFA) \/ (b = 0x02 /\ ty = 0xFC) \/ (b = 0x04 /\ ty = 0x06) \/
  (b = 0x08 /\ ty = 0x100) \/ (b = 0x10 /\ ty = 0xFE) \/ (b = 0x20 /\ ty = 0x101) \/ (b = 0x40 /\ ty = 0x102) \/
  (~ In b [0x00; 0x01; 0x02; 0x04; 0x08; 0x10; 0x20; 0x40] /\ ty = 0).
(** [describes e n len ds]: [ds] describes the live entry [e] under the name [n] with length [len]. *)
Record describes (e n : bytes) (len : Z) (ds : Descriptor) : Prop := {
  ds_name : entry_name e n /\ d_name ds = n;
  ds_full : d_fullname ds = [];
  ds_sectors : d_sectors ds = word e 33 /\ d_blocks ds = 0;
  ds_len : d_length ds = len;
  ds_locked : d_locked ds = true <-> 128 <= znth 0 e 2;
  ds_type : dos_type (znth 0 e 2 mod 128) (d_type ds)
}.

(** ** What GetFile should make of a body *)
(** A text file: the body without its trailing zeros. *)
Definition text_of (data out : bytes) : Prop := exists k x, data = out ++ repeat 0 k /\ x <> 0 /\ exists m, out = m ++ [x].
(** [pad data n]: [data] followed by zeros up to [n] bytes. *)
Definition pad (data : bytes) (n : Z) : bytes := data ++ repeat 0 (Z.to_nat (n - zlen data)).
(** A file of low-7-bit type [ty] occupying [nl] lists: start address and contents.  The
    returned slice may run past the body into the zeros of the buffer sized for 122 sectors
    per list. *)
Inductive decoded (ty nl : Z) (data : bytes) : Z -> bytes -> Prop :=
| dec_text out : ty = 0 -> text_of data out -> decoded ty nl data 0 out
| dec_applesoft n : ty = 2 -> n = word data 0 -> 2 + n <= 31232 * nl -> decoded ty nl data 0x801 (sub (pad data (31232 * nl)) 2 (2 + n))
| dec_integer n : ty = 1 -> n = word data 0 -> 2 + n <= 31232 * nl -> decoded ty nl data 0 (sub (pad data (31232 * nl)) 2 (2 + n))
| dec_binary n : ty = 4 -> n = word data 2 -> 4 + n <= 31232 * nl -> decoded ty nl data (word data 0) (sub (pad data (31232 * nl)) 4 (4 + n)).
(** The contents that make GetFile panic. *)
Definition fatal (ty nl : Z) (data : bytes) : Prop :=
  (ty = 0 /\ Forall (eq 0) data) \/
  ((ty = 1 \/ ty = 2) /\ 31232 * nl < 2 + word data 0) \/
  (ty = 4 /\ 31232 * nl < 4 + word data 2).

(** ** The catalog as a whole *)
(** [catalog d l]: [d] has a valid VTOC and its catalog occupies the sectors at [l]. *)
Definition catalog (d : bytes) (l : list (Z * Z)) : Prop :=
  in_image d 17 0 /\ good_vtoc (vtoc d) /\ chain (catalog_place d) d (catalog_start d) l.
(** [lookup es n e]: [e] is the first live entry of [es] with the name [n]. *)
Definition lookup (es : list bytes) (n e : bytes) : Prop :=
  exists a b, es = a ++ e :: b /\ is_live e = true /\ entry_name e n /\ forall x, In x a -> is_live x = true -> ~ entry_name x n.
(** A property of the results of a computation given with fuel: it holds for the result
    reached with all large enough fuel. *)
Definition returns {A} (f : nat -> option A) (P : A -> Prop) : Prop := exists n r, P r /\ forall k, (n <= k)%nat -> f k = Some r.
Definition diverges {A} (f : nat -> option A) : Prop := forall k, f k = None.
