(** PropertiesDisk.v -- properties C01-C05, C07-C10 (package disk). *)
From Verif Require Import GoBase GoLemmas DiskModel DiskSpec DiskProofs DiskOpenProofs DiskOpenSpec DiskExProofs TightProofs.
From Coq Require Import Permutation.

(** ** C01 *)
Theorem C01_ReadSector : forall img t s, is_byte t -> is_byte s ->
  (4096 * t + 256 * s + 256 <= zlen img ->
     exists r, ReadSector img t s = Ok r /\ zlen r = 256 /\
       forall i, 0 <= i < 256 -> znth 0 r i = znth 0 img (4096 * t + 256 * s + i)) /\
  (zlen img < 4096 * t + 256 * s + 256 -> exists e, ReadSector img t s = Err e).
Proof. exact C01_lemma. Qed.
Print Assumptions C01_ReadSector.
Example C01_example :
  match ReadSector sample_img 17 15 with Ok r => znth 0 r 3 | _ => -1 end = 52 /\
  match ReadSector sample_img 35 0 with Err _ => true | _ => false end = true.
Proof. exact C01_example_lemma. Qed.

(** ** C02 *)
Theorem C02_WriteSector : forall img t s d img' r, is_byte t -> is_byte s ->
  WriteSector t s d img = (img', r) ->
  (zlen d = 256 /\ 4096 * t + 256 * s + 256 <= zlen img ->
     r = Ok tt /\ zlen img' = zlen img /\
     (forall i, 0 <= i < 256 -> znth 0 img' (4096 * t + 256 * s + i) = znth 0 d i) /\
     (forall j, 0 <= j -> ~ (4096 * t + 256 * s <= j < 4096 * t + 256 * s + 256) ->
        znth 0 img' j = znth 0 img j) /\
     ReadSector img' t s = Ok d /\
     (forall t' s', is_byte t' -> is_byte s' -> 4096 * t' + 256 * s' <> 4096 * t + 256 * s ->
        ReadSector img' t' s' = ReadSector img t' s')) /\
  (~ (zlen d = 256 /\ 4096 * t + 256 * s + 256 <= zlen img) ->
     img' = img /\ exists e, r = Err e).
Proof. exact C02_lemma. Qed.
Print Assumptions C02_WriteSector.
Example C02_example :
  match WriteSector 2 3 (repeat 7 256) (zeros 20480) with
  | (img', Ok _) => [znth 0 img' (8192 + 767); znth 0 img' (8192 + 768); znth 0 img' (8192 + 1023); znth 0 img' (8192 + 1024)]
  | _ => []
  end = [0; 7; 7; 0].
Proof. exact C02_example_lemma. Qed.

(** ** C03 *)
Theorem C03_Swizzle : forall img order,
  ((exists r, Swizzle img order = Ok r) <->
     zlen img = 143360 /\ Permutation order [0;1;2;3;4;5;6;7;8;9;10;11;12;13;14;15]) /\
  ((exists e, Swizzle img order = Err e) <->
     ~ (zlen img = 143360 /\ Permutation order [0;1;2;3;4;5;6;7;8;9;10;11;12;13;14;15])) /\
  (forall r, Swizzle img order = Ok r ->
     zlen r = 143360 /\
     forall t s i, 0 <= t < 35 -> 0 <= s < 16 -> 0 <= i < 256 ->
       znth 0 r (4096 * t + 256 * znth 0 order s + i) = znth 0 img (4096 * t + 256 * s + i)).
Proof. exact C03_lemma. Qed.
Print Assumptions C03_Swizzle.
Example C03_example : zlen sample_img = 143360 /\
  Permutation Dos33LogicalToPhysicalSectorMap [0;1;2;3;4;5;6;7;8;9;10;11;12;13;14;15] /\
  exists r, Swizzle sample_img Dos33LogicalToPhysicalSectorMap = Ok r /\ r <> sample_img.
Proof. exact C03_example_lemma. Qed.

(** ** C04 *)
Theorem C04_tables_inverse : forall o img, (o = s2b "do" \/ o = s2b "po" \/ o = s2b "raw") ->
  zlen img = 143360 ->
  exists l p a b,
    LogicalToPhysicalByName o = Some l /\ PhysicalToLogicalByName o = Some p /\
    Swizzle img l = Ok a /\ Swizzle a p = Ok img /\
    Swizzle img p = Ok b /\ Swizzle b l = Ok img.
Proof. exact C04_lemma. Qed.
Print Assumptions C04_tables_inverse.
Example C04_example : zlen sample_img = 143360.
Proof. exact C04_example_lemma. Qed.

(** ** C05 *)
(** For every list of factories whose operators hand back the bytes they were given and
    report the order of their factory.  (The three registered factories do:
    C05_registered_factories in PropertiesCmd.v.) *)
Theorem C05_open_writeback : forall (Op : Type) (get_bytes : Op -> bytes) (op_order : Op -> bytes)
    (facs : list (factory Op)) img name order system op o,
  (forall f, In f facs -> f_order f = s2b "do" \/ f_order f = s2b "po" \/ f_order f = s2b "raw") ->
  (forall f d op, In f facs -> f_operator f d = Ok op -> get_bytes op = d /\ op_order op = f_order f) ->
  OpenImage img name order system facs = Ok (op, o) ->
  WriteBackBytes (get_bytes op) (op_order op) o = Ok img.
Proof. exact C05_lemma. Qed.
Print Assumptions C05_open_writeback.
(** A factory list meeting the hypotheses; it opens every floppy image when pinned. *)
Example C05_example : forall img, zlen img = 143360 ->
  exists op, OpenImage img (s2b "a.dsk") (s2b "do") (s2b "ex") [ex_fac] = Ok (op, s2b "do") /\
             WriteBackBytes op (s2b "po") (s2b "do") = Ok img.
Proof. exact C05_example_lemma. Qed.

(** ** C07 *)
Theorem C07_OpenImage_first_match : forall (Op : Type) (facs sel : list (factory Op)) img name order system,
  zlen img = 143360 ->
  (forall f, In f facs -> f_order f = s2b "do" \/ f_order f = s2b "po" \/ f_order f = s2b "raw") ->
  selected f_name system facs sel ->
  (* nothing to try: an error *)
  ((forall orders, ~ candidates name order orders) ->
     exists e, OpenImage img name order system facs = Err e) /\
  (forall orders, candidates name order orders ->
     (* searching: the first matching pair, or an error when none matches *)
     ((zlen orders <> 1 \/ system = s2b "auto") ->
        (forall op o, OpenImage img name order system facs = Ok (op, o) <->
           exists l1 f l2, list_prod orders sel = l1 ++ (o, f) :: l2 /\
             Forall (fails_pair img) l1 /\ matches_pair img (o, f) op) /\
        ((exists e, OpenImage img name order system facs = Err e) <->
           Forall (fails_pair img) (list_prod orders sel))) /\
     (* order and system pinned: no matching test *)
     (forall o, orders = [o] -> system <> s2b "auto" ->
        match sel with
        | [] => exists e, OpenImage img name order system facs = Err e
        | f :: _ => exists d, reordered img o (f_order f) d /\
            OpenImage img name order system facs =
              match f_operator f d with Ok op => Ok (op, o) | Err e => Err e | Panic => Panic end
        end)).
Proof. exact C07_lemma. Qed.
Print Assumptions C07_OpenImage_first_match.
Example C07_example : exists l1 f l2,
  list_prod [s2b "do"; s2b "po"] [ex_fac] = l1 ++ (s2b "po", f) :: l2 /\ l1 <> [] /\
  candidates (s2b "a.dsk") (s2b "auto") [s2b "do"; s2b "po"].
Proof. exact C07_example_lemma. Qed.

(** ** C08 *)
Theorem C08_OpenImage_gates : forall (Op : Type) (facs : list (factory Op)) img name order system op o,
  zlen img <> 143360 ->
  OpenImage img name order system facs = Ok (op, o) <->
    zlen img <> 35 * 13 * 256 /\ ext_is name (s2b "hdv") /\
    zlen img mod 512 = 0 /\ zlen img <= 65536 * 512 /\
    (order = s2b "auto" \/ order = s2b "po") /\ (system = s2b "auto" \/ system = s2b "prodos") /\
    o = s2b "po" /\ exists l1 f l2, facs = l1 ++ f :: l2 /\
      (forall g, In g l1 -> f_name g <> s2b "prodos") /\ f_name f = s2b "prodos" /\
      f_operator f img = Ok op.
Proof. exact (fun Op facs img name order system op o => open_hdv img name order system facs op o). Qed.
Print Assumptions C08_OpenImage_gates.
(** Everything else is refused with an error. *)
Theorem C08_OpenImage_refusals : forall (Op : Type) (facs : list (factory Op)) img name order system,
  zlen img <> 143360 ->
  (exists e, OpenImage img name order system facs = Err e) <->
    zlen img = 35 * 13 * 256 \/ ~ ext_is name (s2b "hdv") \/ zlen img mod 512 <> 0 \/ 65536 * 512 < zlen img \/
    (order <> s2b "auto" /\ order <> s2b "po") \/ (system <> s2b "auto" /\ system <> s2b "prodos") \/
    (forall f, In f facs -> f_name f <> s2b "prodos") \/
    exists l1 f l2 e, facs = l1 ++ f :: l2 /\ (forall g, In g l1 -> f_name g <> s2b "prodos") /\
      f_name f = s2b "prodos" /\ f_operator f img = Err e.
Proof. exact C08_refusals_lemma. Qed.
Print Assumptions C08_OpenImage_refusals.
Example C08_example : forall op,
  let f := {| f_name := s2b "prodos"; f_order := s2b "po"; f_seems := fun _ => Some true;
              f_operator := fun d => Ok (zlen d) |} in
  OpenImage (zeros 1024) (s2b "dir.x/disk.HdV") (s2b "po") (s2b "auto") [f] = Ok (op, s2b "po") <-> op = 1024.
Proof. exact C08_example_lemma. Qed.

(** ** C09 *)
Theorem C09_UnmarshalBlock : forall (T : Type) (FromBlock : bytes -> res T) setBlock img i, is_u16 i ->
  (512 * i + 512 <= zlen img ->
     exists blk, zlen blk = 512 /\ (forall j, 0 <= j < 512 -> znth 0 blk j = znth 0 img (512 * i + j)) /\
       UnmarshalBlock FromBlock setBlock img i =
         match FromBlock blk with Ok v => Ok (setBlock i v) | Err e => Err e | Panic => Panic end) /\
  (zlen img < 512 * i + 512 -> exists e, UnmarshalBlock FromBlock setBlock img i = Err e).
Proof. exact C09_unmarshal_lemma. Qed.
Print Assumptions C09_UnmarshalBlock.
Theorem C09_MarshalBlock : forall (T : Type) (ToBlock : T -> res bytes) getBlock (v : T) img img' r,
  is_u16 (getBlock v) -> (forall b, ToBlock v = Ok b -> zlen b = 512) ->
  MarshalBlock ToBlock getBlock v img = (img', r) ->
  (forall b, ToBlock v = Ok b -> 512 * getBlock v + 512 <= zlen img ->
     r = Ok tt /\ zlen img' = zlen img /\
     (forall j, 0 <= j < 512 -> znth 0 img' (512 * getBlock v + j) = znth 0 b j) /\
     (forall j, 0 <= j -> ~ (512 * getBlock v <= j < 512 * getBlock v + 512) ->
        znth 0 img' j = znth 0 img j)) /\
  (r <> Ok tt -> img' = img) /\
  (forall b, ToBlock v = Ok b -> zlen img < 512 * getBlock v + 512 -> exists e, r = Err e) /\
  (forall e, ToBlock v = Err e -> r = Err e).
Proof. exact C09_marshal_tight. Qed.
Print Assumptions C09_MarshalBlock.
Example C09_example :
  match MarshalBlock (fun b : bytes => Ok b) (fun _ => 2) (repeat 9 512) (zeros 2048) with
  | (img', Ok _) => UnmarshalBlock (fun b => Ok (znth 0 b 511)) (fun _ v => v) img' 2
  | _ => Panic
  end = Ok 9.
Proof. exact C09_example_lemma. Qed.

(** ** C10 *)
Theorem C10_OrderFromFilename : forall name dflt,
  (ext_is name (s2b "dsk") \/ ext_is name (s2b "do") -> OrderFromFilename name dflt = s2b "do") /\
  (ext_is name (s2b "po") -> OrderFromFilename name dflt = s2b "po") /\
  (~ ext_is name (s2b "dsk") -> ~ ext_is name (s2b "do") -> ~ ext_is name (s2b "po") ->
     OrderFromFilename name dflt = dflt) /\
  (forall pre x, name = pre ++ 47 :: x -> plain x -> OrderFromFilename name dflt = dflt).
Proof. exact C10_lemma. Qed.
Print Assumptions C10_OrderFromFilename.
Example C10_example : ext_is (s2b "x.dsk/y.Po") (s2b "po") /\ ~ ext_is (s2b "x.dsk/y") (s2b "dsk").
Proof. exact C10_example_lemma. Qed.
