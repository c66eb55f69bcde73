(** ShelfSpec.v -- a session on several NakedOS images, and the shelf of disks that a user may think of
    instead: each disk is a store of numbered files with a row of name cards (NamesSpec). *)
From Verif Require Import GoBase TypesModel SupermonModel SupermonSpec SupermonTableSpec SupermonStoreSpec SupermonChainSpec.
From Verif Require Import SupermonOpProofs CmdModel CmdSpec MainModel NakedCmdSpec SessionSpec NamesSpec RestSpec.
From Verif Require ProdosModel.

(** What the user does: the four commands of SessionSpec on any image, mkhello, reorder (in place if
    [new] is empty), copying an image and saving some other file by other means. *)
Inductive deed :=
| On (order img : bytes) (a : action)
| Hello (order img name : bytes) (address start : Z)
| Reorder (order neworder : bytes) (overwrite : bool) (img new : bytes)
| Copy (img new : bytes)
| Save (file contents : bytes).
Definition deed_command (iter : list (Z * ProdosModel.Subdirectory) -> list (Z * ProdosModel.Subdirectory)) (fuel : nat) (x : deed) : prog unit :=
  match x with
  | On order img a => command iter fuel order img a
  | Hello order img n a s => MkHelloCmd_Run iter fuel order img n a s
  | Reorder a b ow img new => ReorderCmd_Run a b ow img new
  | Copy img new => c <<- FileContentsOrStdIn img ;; PWrite new c PRet
  | Save file c => PWrite file c PRet
  end.

(** ** The shelf *)
(** The disks by the names of their images, each with the order of its sectors; and the other files of
    the computer. *)
Record kept := Kept { kp_order : bytes; kp_store : store; kp_cards : list card }.
Record shelf := Shelf { sh_files : bytes -> node; sh_disks : bytes -> option kept }.
Definition shelve (K : shelf) (img : bytes) (x : kept) : shelf :=
  Shelf (sh_files K) (fun n => if beq n img then Some x else sh_disks K n).
Definition on_kept (x : kept) (k : board) : kept := Kept (kp_order x) (b_store k) (b_cards k).
Definition turned (x : kept) : kept :=
  Kept (if beq (kp_order x) (s2b "do") then s2b "po" else s2b "do") (kp_store x) (kp_cards x).
(** The loader that mkhello makes: it loads file [f] at [a] and jumps to [start]. *)
Definition loader (f a start : Z) : bytes :=
  [0x20; 0x40; 0x03; 0x6D; 0x01; 0xDC; 0x2C; f; 0xDF; 0x2C; 0; a / 256; 0xD8; 0x4C; start mod 256; start / 256].
(** mkhello as a put of a file that holds nothing but the loader. *)
Definition loader_put (img : bytes) : action := APut (s2b "B") true 0 (s2b "DF01:FHELLO") (32 :: img).

(** What the names in a deed amount to: a plan (NamesSpec); for mkhello the file to be loaded, and the
    plan for the loader. *)
Inductive sense := SPlan (p : plan) | SLoad (f : Z) (p : plan).
(** One deed: the new shelf, the exit status, the output. *)
Definition do (x : deed) (m : sense) (K : shelf) : shelf * (Z * bytes) :=
  match x, m with
  | On _ img a, SPlan p =>
      match sh_disks K img with
      | Some x => let '(k, out) := act2 a p (Board (sh_files K) (kp_store x) (kp_cards x)) in (shelve K img (on_kept x k), out)
      | None => (K, (1, []))
      end
  | Hello _ img _ a s0, SLoad f p =>
      let start := if s0 =? 0xFFFF then a else s0 in
      match sh_disks K img with
      | Some x =>
          if (a mod 256 =? 0) && (a <=? start) then
            let '(k, out) := act2 (loader_put img) p (Board (fun _ => NFile (loader f a start) true true) (kp_store x) (kp_cards x)) in
            (shelve K img (on_kept x k), out)
          else (K, (1, []))
      | None => (K, (1, []))
      end
  | Reorder _ _ ow img new, _ =>
      match sh_disks K img with
      | Some x =>
          if beq new [] then (shelve K img (turned x), (0, []))
          else match sh_disks K new, ow with
               | Some _, false => (K, (1, []))
               | _, _ => (shelve K new (turned x), (0, []))
               end
      | None => (K, (1, []))
      end
  | Copy img new, _ =>
      match sh_disks K img with
      | Some x => (shelve K new x, (0, []))
      | None => (K, (1, []))
      end
  | Save file c, _ =>
      if can_write (sh_files K file)
      then (Shelf (fun n => if beq n file then written (sh_files K file) c else sh_files K n) (sh_disks K), (0, []))
      else (K, (1, []))
  | _, _ => (K, (1, []))
  end.
Fixpoint deeds (h : list (deed * sense)) (K : shelf) : shelf * list (Z * bytes) :=
  match h with
  | [] => (K, [])
  | (x, m) :: rest => let '(K1, o) := do x m K in let '(K2, l) := deeds rest K1 in (K2, o :: l)
  end.

(** ** Which deeds, and what they amount to *)
(** The order that a command tries first has to be the one the image is in.  An image is made by
    reorder or by copying, and only where there is no other file; other files are not given
    the name of an image, and what is put comes from a file that is not an image. *)
Definition from_outside (K : shelf) (a : action) : Prop :=
  match a with APut _ _ _ _ src => sh_disks K src = None | ASave _ _ => False | _ => True end.
Definition vacant (K : shelf) (n : bytes) : Prop := sh_disks K n <> None \/ sh_files K n = NMissing.
Inductive sound (K : shelf) : deed -> sense -> Prop :=
| sd_on order img a p x : sh_disks K img = Some x -> img <> s2b "-" -> first_order img order (kp_order x) ->
    planned (kp_cards x) (kp_store x) img a p -> from_outside K a -> sound K (On order img a) (SPlan p)
| sd_hello order img n a s0 f p x : sh_disks K img = Some x -> img <> s2b "-" -> first_order img order (kp_order x) ->
    0 <= a < 65536 -> 0 <= s0 < 65536 -> target (table_of (kp_cards x)) n f -> planned (kp_cards x) (kp_store x) img (loader_put img) p ->
    sound K (Hello order img n a s0) (SLoad f p)
| sd_reorder a b ow img new m x t : sh_disks K img = Some x -> img <> s2b "-" -> new <> s2b "-" ->
    order_flag a -> order_flag b -> orders_in_force img a new b (kp_order x) t ->
    new = [] \/ vacant K new -> sound K (Reorder a b ow img new) m
| sd_copy img new m x : sh_disks K img = Some x -> img <> s2b "-" -> vacant K new -> sound K (Copy img new) m
| sd_save file c m : sh_disks K file = None -> sound K (Save file c) m.
Fixpoint orderly (h : list (deed * sense)) (K : shelf) : Prop :=
  match h with
  | [] => True
  | (x, m) :: rest => sound K x m /\ orderly rest (fst (do x m K))
  end.

(** ** The computer and the shelf *)
(** The image [c] holds the files [s] and the names [l], in a well-formed symbol table (C98). *)
Definition disk_of (c o : bytes) (s : store) (l : list card) : Prop :=
  exists d t ch, naked_image c o d /\ plain_disk (d, stored_map d) t /\ table_ok t /\ names_unique t /\ one_chain t ch /\
    no_numeric_symbols t /\ nm t 0 <> [] /\ same_but_symbols (store_of d (stored_map d)) s /\ cards_of t = l.
Record shows (w : world) (K : shelf) : Prop := {
  sw_disks : forall img x, sh_disks K img = Some x -> exists c, w_fs w img = NFile c true true /\ disk_of c (kp_order x) (kp_store x) (kp_cards x);
  sw_files : forall n, sh_disks K n = None -> w_fs w n = sh_files K n;
  sw_room : w_room w = None;
  sw_out : w_outroom w = None
}.
(** No command finds the mark of DOS 3.3 on the image it is given. *)
Definition unmarked_for (x : deed) (w : world) : Prop :=
  match x with On _ img _ | Hello _ img _ _ _ => unmarked img w | _ => True end.
Fixpoint unnoticed (iter : list (Z * ProdosModel.Subdirectory) -> list (Z * ProdosModel.Subdirectory)) (fuel : nat) (xs : list deed) (w : world) : Prop :=
  match xs with
  | [] => True
  | x :: rest => unmarked_for x w /\ unnoticed iter fuel rest (fst (main_run (deed_command iter fuel x) (quiet w)))
  end.
(** No deed writes or removes file [g] of a disk. *)
Definition file_touched (x : deed) (m : sense) (K : shelf) : option Z :=
  match x, m with
  | On _ img a, SPlan p => match sh_disks K img with Some x => touched a p (kp_store x) | None => None end
  | Hello _ img _ _ _, SLoad _ p => match sh_disks K img with Some x => touched (loader_put img) p (kp_store x) | None => None end
  | _, _ => None
  end.
Fixpoint spare (g : Z) (h : list (deed * sense)) (K : shelf) : Prop :=
  match h with
  | [] => True
  | (x, m) :: rest => file_touched x m K <> Some g /\ spare g rest (fst (do x m K))
  end.
