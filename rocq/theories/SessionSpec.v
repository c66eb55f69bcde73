(** SessionSpec.v -- a session: diskii commands given one after the other on one NakedOS image,
    and the store of numbered files that a user may think of instead. *)
From Verif Require Import GoBase TypesModel SupermonModel SupermonSpec SupermonTableSpec SupermonStoreSpec CmdModel MainModel NakedCmdSpec.
From Verif Require ProdosModel.

(** What the user does: four diskii commands (with --system auto, the default), and saving some other file
    by other means. *)
Inductive action :=
| APut (filetype : bytes) (overwrite : bool) (address : Z) (name source : bytes)
| ARm (force : bool) (name : bytes)
| ADump (name : bytes)
| ALs (short : bool)
| ASave (file contents : bytes).
Definition command (iter : list (Z * ProdosModel.Subdirectory) -> list (Z * ProdosModel.Subdirectory)) (fuel : nat)
    (order img : bytes) (a : action) : prog unit :=
  match a with
  | APut ft ow addr n src => PutCmd_Run iter fuel order (s2b "auto") ft ow addr img n src
  | ARm force n => DeleteCmd_Run iter fuel order (s2b "auto") force img n
  | ADump n => DumpCmd_Run iter fuel order (s2b "auto") img n
  | ALs short => LsCmd_Run iter fuel order (s2b "auto") short img []
  | ASave file c => PWrite file c PRet
  end.

(** Running programs one after the other; of each one sees the exit status and the output. *)
Definition quiet (w : world) : world := World (w_fs w) (w_stdin w) [] (w_room w) (w_outroom w).
Fixpoint session (ps : list (prog unit)) (w : world) : world * list (Z * bytes) :=
  match ps with
  | [] => (w, [])
  | p :: rest =>
      let '(w1, s) := main_run p (quiet w) in
      let '(w2, l) := session rest w1 in (w2, (s, w_stdout w1) :: l)
  end.

(** [P] holds before each of the programs. *)
Fixpoint throughout (P : world -> Prop) (ps : list (prog unit)) (w : world) : Prop :=
  match ps with
  | [] => True
  | p :: rest => P w /\ throughout P rest (fst (main_run p (quiet w)))
  end.
(** Byte 3 of track 17 sector 0 is not 3, so the image is not taken for a DOS 3.3 disk (see C77). *)
Definition unmarked (img : bytes) (w : world) : Prop :=
  forall c r q, w_fs w img = NFile c r q -> release_byte c <> 3.

(** The same with a store: the other files of the computer, and the files on the disk. *)
Record desk := Desk { k_files : bytes -> node; k_store : store }.
Definition in_use (s : store) (f : Z) : bool := negb (beq (st_file s f) []).
Definition lines (names : list bytes) : bytes := concat (map (fun n => n ++ [10]) names).
Definition all_files : list Z := map (fun k => k + 1) (zrange 253).
Definition binary (ft : bytes) : bool :=
  match FiletypeForName ft with Ok x => x =? FiletypeBinary | _ => false end.

(** One action: the new state, the exit status, the output.  [f] is the file that the name in the
    action means, if any.  Status 2 stands for a crash, which an empty file causes. *)
Definition put_status (s : store) (f : Z) (data : bytes) (overwrite : bool) : Z :=
  if st_free s + st_used s f <? nsec data then 1
  else if in_use s f && negb overwrite then 1
  else if beq data [] && (0 <? st_free s + st_used s f) then 2
  else 0.
Definition act (t : list Symbol) (a : action) (f : option Z) (k : desk) : desk * (Z * bytes) :=
  let s := k_store k in
  match a, f with
  | APut ft ow _ _ src, Some f =>
      match k_files k src with
      | NFile data true _ =>
          if binary ft then
            let status := put_status s f data ow in
            (if status =? 0 then Desk (k_files k) (st_set s f (padded data) (st_free s + st_used s f - nsec data)) else k, (status, []))
          else (k, (1, []))
      | _ => (k, (1, []))
      end
  | ARm force _, Some f =>
      if in_use s f || force then (Desk (k_files k) (st_set s f [] (st_free s + st_used s f)), (0, []))
      else (k, (1, []))
  | ADump _, Some f => (k, if in_use s f then (0, st_file s f) else (1, []))
  | ALs short, _ => (k, (0, lines (map (if short then shown t else shown_full t) (filter (in_use s) all_files))))
  | ASave file c, _ =>
      if can_write (k_files k file)
      then (Desk (fun n => if beq n file then written (k_files k file) c else k_files k n) s, (0, []))
      else (k, (1, []))
  | _, None => (k, (1, []))
  end.
Fixpoint acts (t : list Symbol) (h : list (action * option Z)) (k : desk) : desk * list (Z * bytes) :=
  match h with
  | [] => (k, [])
  | (a, f) :: rest => let '(k1, x) := act t a f k in let '(k2, l) := acts t rest k1 in (k2, x :: l)
  end.

(** [meant t img a f]: with the symbols [t] the name in the action [a] means the file [f] (or
    nothing), which is not one of the files 3 and 4 that hold the symbols if [a] changes it.  Put
    may use a symbol; rm of a symbol would change the symbols and is left out. *)
Inductive meant (t : list Symbol) (img : bytes) : action -> option Z -> Prop :=
| mt_put ft ow addr n src f : resolves t n f -> numeric n f \/ valid_name n -> f <> 3 -> f <> 4 ->
    src <> s2b "-" -> src <> img -> meant t img (APut ft ow addr n src) (Some f)
| mt_rm force n f : numeric n f -> f <> 3 -> f <> 4 -> meant t img (ARm force n) (Some f)
| mt_rm_none force n : (forall f, ~ resolves t n f) -> meant t img (ARm force n) None
| mt_dump n f : resolves t n f -> meant t img (ADump n) (Some f)
| mt_dump_none n : (forall f, ~ resolves t n f) -> meant t img (ADump n) None
| mt_ls short : meant t img (ALs short) None
| mt_save file c : file <> img -> meant t img (ASave file c) None.

(** Data that leave no mark wherever they are stored: none of the bytes 3, 259, 515, ... is 3. *)
Definition no_mark (data : bytes) : Prop := forall j, 0 <= j -> znth 0 data (256 * j + 3) <> 3.
Definition calm (files : bytes -> node) (a : action) : Prop :=
  match a with APut _ _ _ _ src => forall data r q, files src = NFile data r q -> no_mark data | _ => True end.
Fixpoint harmless (t : list Symbol) (h : list (action * option Z)) (k : desk) : Prop :=
  match h with
  | [] => True
  | (a, f) :: rest => calm (k_files k) a /\ harmless t rest (fst (act t a f k))
  end.
