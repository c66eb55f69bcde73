(** NamesSpec.v -- a session in which files are given names, and the board that a user may think of
    instead: a store of numbered files and a row of cards, each with a name and an address. *)
From Verif Require Import GoBase TypesModel SupermonModel SupermonSpec SupermonTableSpec SupermonStoreSpec CmdModel SessionSpec.

(** ** Cards *)
(** Address and name; address 0 is a blank card. *)
Definition card : Type := Z * bytes.
Definition cards_of (t : list Symbol) : list card := map (fun s => (s_addr s, s_name s)) t.
(** The row as a table without links, so that [resolves] and [shown] apply to it. *)
Definition table_of (l : list card) : list Symbol := map (fun x => Sym (fst x) (snd x) 0) l.
Definition is_named (n : bytes) (x : card) : bool := equal_fold n (snd x).
(** Write on the first blank card. *)
Fixpoint pin (l : list card) (n : bytes) (a : Z) : option (list card) :=
  match l with
  | [] => None
  | x :: rest => if fst x =? 0 then Some ((a, upcase n) :: rest) else option_map (cons x) (pin rest n a)
  end.
(** Give the name the address: on its own card if it has one, else on the first blank card.  No name,
    no card. *)
Definition bind (l : list card) (n : bytes) (a : Z) : option (list card) :=
  if beq n [] then Some l
  else if existsb (is_named n) l then Some (map (fun x => if is_named n x then (a, upcase n) else x) l)
  else pin l n a.
(** Wipe the card of the name. *)
Definition unpin (l : list card) (n : bytes) : list card := map (fun x => if is_named n x then (0, []) else x) l.

(** ** The board *)
Record board := Board { b_files : bytes -> node; b_store : store; b_cards : list card }.
(** The least number of a file not in use. *)
Definition least_unused (s : store) : option Z := find (fun f => negb (in_use s f)) all_files.
(** What the name in an action amounts to: nothing, a file, a new name (for the least unused number),
    a file and a name. *)
Inductive plan := PlNone | PlFile (f : Z) | PlNew (n : bytes) | PlAt (f : Z) (n : bytes).
Definition goal (p : plan) (s : store) : option (Z * bytes) :=
  match p with
  | PlNone => None
  | PlFile f => Some (f, [])
  | PlNew n => match least_unused s with Some f => Some (f, n) | None => None end
  | PlAt f n => Some (f, n)
  end.

(** One action: the new board, the exit status, the output. *)
Definition act2 (a : action) (p : plan) (k : board) : board * (Z * bytes) :=
  let s := b_store k in
  let l := b_cards k in
  match a with
  | APut ft ow _ _ src =>
      match b_files k src, goal p s with
      | NFile data true _, Some (f, n) =>
          if binary ft then
            let status := put_status s f data ow in
            if status =? 0 then
              match bind l n (0xDF00 + f) with
              | Some l' => (Board (b_files k) (st_set s f (padded data) (st_free s + st_used s f - nsec data)) l', (0, []))
              | None => (k, (1, []))
              end
            else (k, (status, []))
          else (k, (1, []))
      | _, _ => (k, (1, []))
      end
  | ARm force _ =>
      match goal p s with
      | Some (f, n) =>
          if in_use s f || force
          then (Board (b_files k) (st_set s f [] (st_free s + st_used s f)) (if beq n [] then l else unpin l n), (0, []))
          else (k, (1, []))
      | None => (k, (1, []))
      end
  | ADump _ =>
      match goal p s with
      | Some (f, _) => (k, if in_use s f then (0, st_file s f) else (1, []))
      | None => (k, (1, []))
      end
  | ALs short => (k, (0, lines (map (if short then shown (table_of l) else shown_full (table_of l)) (filter (in_use s) all_files))))
  | ASave file c =>
      if can_write (b_files k file)
      then (Board (fun n => if beq n file then written (b_files k file) c else b_files k n) s l, (0, []))
      else (k, (1, []))
  end.
Fixpoint acts2 (h : list (action * plan)) (k : board) : board * list (Z * bytes) :=
  match h with
  | [] => (k, [])
  | (a, p) :: rest => let '(k1, x) := act2 a p k in let '(k2, l) := acts2 rest k1 in (k2, x :: l)
  end.

(** ** Which actions, and what they amount to *)
(** The name is not the one on the first card; and if it is on another card, the file it is for is
    neither 95 nor 223, whose addresses have hash 0. *)
Definition may_bind (l : list card) (n : bytes) (f : Z) : Prop :=
  forall i, 0 <= i < zlen l -> is_named n (znth (0, []) l i) = true -> i <> 0 /\ f <> 95 /\ f <> 223.
(** Names put refuses: malformed compound names, and symbols that are too short or too long. *)
Inductive refused (t : list Symbol) : bytes -> Prop :=
| rf_many p q r : refused t (p ++ 58 :: q ++ 58 :: r)
| rf_compound p q : no_colon p -> no_colon q -> (forall f, ~ numeric p f) \/ (exists g, numeric q g) -> refused t (p ++ 58 :: q)
| rf_plain n : Forall alnum n -> ~ valid_name n -> (forall f, ~ resolves t n f) -> refused t n
| rf_symbol p q f : numeric p f -> Forall alnum q -> ~ valid_name q -> (forall g, ~ numeric q g) -> refused t (p ++ 58 :: q).
Inductive planned (l : list card) (s : store) (img : bytes) : action -> plan -> Prop :=
| pl_put ft ow addr n src f : resolves (table_of l) n f -> numeric n f \/ valid_name n -> f <> 3 -> f <> 4 ->
    src <> s2b "-" -> src <> img -> planned l s img (APut ft ow addr n src) (PlFile f)
| pl_put_new ft ow addr n src : (forall f, ~ resolves (table_of l) n f) -> valid_name n ->
    (n <> [] -> forall f, least_unused s = Some f -> may_bind l n f) ->
    src <> s2b "-" -> src <> img -> planned l s img (APut ft ow addr n src) (PlNew n)
| pl_put_both ft ow addr p q src f : numeric p f -> (forall g, ~ numeric q g) -> valid_name q -> f <> 3 -> f <> 4 ->
    q = [] \/ symbol_file (table_of l) q f ->
    src <> s2b "-" -> src <> img -> planned l s img (APut ft ow addr (p ++ 58 :: q) src) (PlFile f)
| pl_put_at ft ow addr p q src f : numeric p f -> (forall g, ~ numeric q g) -> valid_name q -> f <> 3 -> f <> 4 ->
    q <> [] -> ~ symbol_file (table_of l) q f -> may_bind l q f ->
    src <> s2b "-" -> src <> img -> planned l s img (APut ft ow addr (p ++ 58 :: q) src) (PlAt f q)
| pl_put_refused ft ow addr n src : refused (table_of l) n ->
    src <> s2b "-" -> src <> img -> planned l s img (APut ft ow addr n src) PlNone
| pl_rm force n f : numeric n f -> f <> 3 -> f <> 4 -> planned l s img (ARm force n) (PlFile f)
| pl_rm_symbol force n f : resolves (table_of l) n f -> (forall g, ~ numeric n g) -> n <> [] -> f <> 3 -> f <> 4 ->
    is_named n (znth (0, []) l 0) = false -> planned l s img (ARm force n) (PlAt f n)
| pl_rm_none force n : (forall f, ~ resolves (table_of l) n f) -> planned l s img (ARm force n) PlNone
| pl_dump n f : resolves (table_of l) n f -> f <> 3 -> f <> 4 -> planned l s img (ADump n) (PlFile f)
| pl_dump_none n : (forall f, ~ resolves (table_of l) n f) -> planned l s img (ADump n) PlNone
| pl_ls short : planned l s img (ALs short) PlNone
| pl_save file c : file <> img -> planned l s img (ASave file c) PlNone.
(** Every action of the session has such a meaning when its turn comes. *)
Fixpoint sensible (img : bytes) (h : list (action * plan)) (k : board) : Prop :=
  match h with
  | [] => True
  | (a, p) :: rest => planned (b_cards k) (b_store k) img a p /\ sensible img rest (fst (act2 a p k))
  end.

(** The disk and the board have the same files in use and the same free space; the contents are the
    same but for files 3 and 4, which hold the symbols. *)
Definition same_but_symbols (s s' : store) : Prop :=
  (forall f, legal f -> in_use s f = in_use s' f /\ (f <> 3 -> f <> 4 -> st_file s f = st_file s' f)) /\ st_free s = st_free s'.

(** No action of the session writes or removes file [g]. *)
Definition touched (a : action) (p : plan) (s : store) : option Z :=
  match a with APut _ _ _ _ _ | ARm _ _ => option_map fst (goal p s) | _ => None end.
Fixpoint spares (g : Z) (h : list (action * plan)) (k : board) : Prop :=
  match h with
  | [] => True
  | (a, p) :: rest => touched a p (b_store k) <> Some g /\ spares g rest (fst (act2 a p k))
  end.
(** The file that track 17 sector 0 belongs to. *)
Definition mark_owner (d : bytes) : Z := znth 0 (stored_map d) (17 * 16 + 0).
