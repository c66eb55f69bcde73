(** ImageSpec.v -- what the commands come to on any file given as a disk image. *)
From Verif Require Import GoBase DiskSpec SupermonModel SupermonSpec SupermonStoreSpec SupermonTableSpec CmdModel CmdSpec NakedCmdSpec DetectSpec StatusSpec VolumeSpec.
From Verif Require Dos3Spec ProdosSpec.

(** ** Opening *)
(** What a system makes of the bytes [d], in its own order. *)
Inductive answer := Yes | No | Never.
Inductive tested (d : bytes) : bytes -> answer -> Prop :=
| td_dos_yes : dos_disk d -> tested d (s2b "dos3") Yes
| td_dos_no : not_dos d -> tested d (s2b "dos3") No
| td_dos_never : dos_cyclic d -> tested d (s2b "dos3") Never
| td_naked_yes : naked_disk d -> tested d (s2b "nakedos") Yes
| td_naked_no : ~ naked_disk d -> tested d (s2b "nakedos") No
| td_prodos_yes k l : may d [] (Lists k l) -> tested d (s2b "prodos") Yes
| td_prodos_no : may d [] Fails -> tested d (s2b "prodos") No
| td_prodos_never : may d [] Hangs -> tested d (s2b "prodos") Never.
Inductive own_order : bytes -> bytes -> Prop :=
| oo_dos : own_order (s2b "dos3") (s2b "do")
| oo_naked : own_order (s2b "nakedos") (s2b "raw")
| oo_prodos : own_order (s2b "prodos") (s2b "po").
(** The systems that the flag --system selects. *)
Inductive systems : bytes -> list bytes -> Prop :=
| sy_auto : systems (s2b "auto") [s2b "dos3"; s2b "nakedos"; s2b "prodos"]
| sy_one sys so : own_order sys so -> systems sys [sys].
(** Opened as a disk of system [sys] with the bytes [d], the image being in order [o]; refused; or
    opening never ends. *)
Inductive opened_as := Opened (sys d o : bytes) | Refused | Stuck.
(** Pairs of an order and a system are tried in turn. *)
Inductive scan (c : bytes) : list (bytes * bytes) -> opened_as -> Prop :=
| sc_none : scan c [] Refused
| sc_yes o sys so d rest : own_order sys so -> reordered c o so d -> tested d sys Yes -> scan c ((o, sys) :: rest) (Opened sys d o)
| sc_no o sys so d rest r : own_order sys so -> reordered c o so d -> tested d sys No -> scan c rest r -> scan c ((o, sys) :: rest) r
| sc_never o sys so d rest : own_order sys so -> reordered c o so d -> tested d sys Never -> scan c ((o, sys) :: rest) Stuck.
(** Device images. *)
Definition device (img order system c : bytes) : Prop :=
  zlen c <> 116480 /\ ext_is (image_name img) (s2b "hdv") /\ zlen c mod 512 = 0 /\ zlen c <= 65536 * 512 /\
  (order = s2b "auto" \/ order = s2b "po") /\ (system = s2b "auto" \/ system = s2b "prodos").
Inductive opening (img order system c : bytes) : opened_as -> Prop :=
| og_scan orders syss r : zlen c = 143360 -> candidates (image_name img) order orders -> systems system syss ->
    system = s2b "auto" \/ zlen orders <> 1 -> scan c (list_prod orders syss) r -> opening img order system c r
| og_told o so d : zlen c = 143360 -> candidates (image_name img) order [o] -> own_order system so -> reordered c o so d ->
    (system = s2b "nakedos" -> naked_disk d) -> opening img order system c (Opened system d o)
| og_told_wrong o d : zlen c = 143360 -> candidates (image_name img) order [o] -> system = s2b "nakedos" -> reordered c o (s2b "raw") d ->
    ~ naked_disk d -> opening img order system c Refused
| og_no_order : zlen c = 143360 -> (forall orders, ~ candidates (image_name img) order orders) -> opening img order system c Refused
| og_no_system : zlen c = 143360 -> (forall syss, ~ systems system syss) -> opening img order system c Refused
| og_device : zlen c <> 143360 -> device img order system c -> opening img order system c (Opened (s2b "prodos") c (s2b "po"))
| og_no_device : zlen c <> 143360 -> ~ device img order system c -> opening img order system c Refused.

(** ** Commands *)
(** A command succeeds and prints a text; reports an error; crashes or never ends.  No file changes. *)
Inductive ending := Prints (text : bytes) | Errs | Crashes.
Definition crashes (p : prog unit) (w : world) : Prop := exists w', run p w = (w', Panic) /\ same_files w w' /\ w_stdout w' = w_stdout w.
Definition ends_in (p : nat -> prog unit) (w : world) (e : ending) : Prop :=
  match e with
  | Prints text => eventually (fun k => prints (p k) w text)
  | Errs => eventually (fun k => fails_cleanly (p k) w)
  | Crashes => eventually (fun k => crashes (p k) w)
  end.
(** What follows from how the image is opened. *)
Definition afterwards (r : opened_as) (shows : bytes -> bytes -> ending -> Prop) (e : ending) : Prop :=
  match r with Opened sys d o => shows sys d e | Refused => e = Errs | Stuck => e = Crashes end.

(** ls of a directory. *)
Inductive ls_shows (dir : bytes) (short : bool) : bytes -> bytes -> ending -> Prop :=
| ls_flat sys d : sys <> s2b "prodos" -> dir <> [] -> ls_shows dir short sys d Errs
| ls_dos d l names text : dir = [] -> Dos3Spec.catalog d l ->
    Forall2 Dos3Spec.entry_name (filter Dos3Spec.is_live (Dos3Spec.entries d l)) names -> all_lines names text ->
    ls_shows dir short (s2b "dos3") d (Prints text)
| ls_dos_no d : dir = [] -> not_dos d -> ls_shows dir short (s2b "dos3") d Errs
| ls_dos_never d : dir = [] -> dos_cyclic d -> ls_shows dir short (s2b "dos3") d Crashes
| ls_naked d t fs text : dir = [] -> names_on d t -> files_on d fs ->
    all_lines (map (if short then shown t else shown_full t) fs) text -> ls_shows dir short (s2b "nakedos") d (Prints text)
| ls_prodos d k l text : may d dir (Lists k l) ->
    all_lines (map prodos_name_of (filter ProdosSpec.is_live (ProdosSpec.dir_entries d k l))) text ->
    ls_shows dir short (s2b "prodos") d (Prints text)
| ls_prodos_no d : may d dir Fails -> ls_shows dir short (s2b "prodos") d Errs
| ls_prodos_never d : may d dir Hangs -> ls_shows dir short (s2b "prodos") d Crashes.

(** dump of a file. *)
Inductive dump_shows (n : bytes) : bytes -> bytes -> ending -> Prop :=
| du_dos d l e ls data start out : Dos3Spec.catalog d l -> Dos3Spec.lookup (Dos3Spec.entries d l) n e ->
    Dos3Spec.body d (znth 0 e 0, znth 0 e 1) ls data -> Dos3Spec.decoded (znth 0 e 2 mod 128) (zlen ls) data start out ->
    dump_shows n (s2b "dos3") d (Prints out)
| du_dos_fatal d l e ls data : Dos3Spec.catalog d l -> Dos3Spec.lookup (Dos3Spec.entries d l) n e ->
    Dos3Spec.body d (znth 0 e 0, znth 0 e 1) ls data -> Dos3Spec.fatal (znth 0 e 2 mod 128) (zlen ls) data ->
    dump_shows n (s2b "dos3") d Crashes
| du_dos_other d l e : Dos3Spec.catalog d l -> Dos3Spec.lookup (Dos3Spec.entries d l) n e ->
    ~ In (znth 0 e 2 mod 128) [0; 1; 2; 4] \/ (forall ls data, ~ Dos3Spec.body d (znth 0 e 0, znth 0 e 1) ls data) ->
    dump_shows n (s2b "dos3") d Errs
| du_dos_missing d l : Dos3Spec.catalog d l ->
    (forall e, ~ Dos3Spec.lookup (Dos3Spec.entries d l) n e) -> dump_shows n (s2b "dos3") d Errs
| du_dos_no d : not_dos d -> dump_shows n (s2b "dos3") d Errs
| du_dos_never d : dos_cyclic d -> dump_shows n (s2b "dos3") d Crashes
| du_naked d t f : names_on d t -> resolves t n f -> file_on d f <> [] -> dump_shows n (s2b "nakedos") d (Prints (file_on d f))
| du_naked_no d t : names_on d t -> (forall f, resolves t n f -> file_on d f = []) -> dump_shows n (s2b "nakedos") d Errs
| du_prodos d : dump_shows n (s2b "prodos") d Errs.

(** An edit: status 0 if [ok], 2 if [crash], 1 otherwise; only a NakedOS disk can be edited. *)
Inductive edits (ok crash : bytes -> list Symbol -> Prop) : opened_as -> Z -> Prop :=
| ed_ok d o t : names_on d t -> ok d t -> edits ok crash (Opened (s2b "nakedos") d o) 0
| ed_crash d o t : names_on d t -> crash d t -> edits ok crash (Opened (s2b "nakedos") d o) 2
| ed_err d o t : names_on d t -> ~ ok d t -> ~ crash d t -> edits ok crash (Opened (s2b "nakedos") d o) 1
| ed_other sys d o : sys <> s2b "nakedos" -> edits ok crash (Opened sys d o) 1
| ed_refused : edits ok crash Refused 1
| ed_stuck : edits ok crash Stuck 2.
(** Addresses that mkhello accepts. *)
Definition hello_at (address start : Z) : Prop := address mod 256 = 0 /\ (start <> 65535 -> address <= start).
(** A volume on which the order in which Go visits a map decides whether it is found faulty or
    examined for ever. *)
Definition unsettled (c : bytes) : Prop := exists o d, reordered c o (s2b "po") d /\ may d [] Fails /\ may d [] Hangs.
