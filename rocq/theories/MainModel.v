(** MainModel.v -- model of main.go (how address arguments are read), of the enum tags of the
    flags and of cmd/filetypes.go.
    Not modelled: kong itself (how the arguments are split and handed to the mapper). *)
From Verif Require Import GoBase TypesModel CmdModel.

(** ** main.go:66-91 *)
(** strconv.lower (Go standard library, strconv/atoi.go): [c | ('x' - 'X')]. *)
Definition lower (c : Z) : Z := Z.lor c 32.
Definition is_dec (c : Z) : bool := (48 <=? c) && (c <=? 57).
Definition is_low_letter (c last : Z) : bool := (97 <=? lower c) && (lower c <=? last).

(** The loop of strconv.ParseUint: [base0] says that the base was to be inferred, in which case
    underscores are skipped and remembered.  [maxVal] is [1<<bitSize - 1]; the test against
    [cutoff] and for overflow of uint64 is the test against [maxVal] since [n <= maxVal < 2^16]
    at the head of the loop. *)
Fixpoint ParseUint_loop (base maxVal : Z) (s : bytes) (n : Z) (underscores : bool) : res (Z * bool) :=
  match s with
  | [] => Ok (n, underscores)
  | c :: s' =>
      if c =? 95 then ParseUint_loop base maxVal s' n true
      else
        let digit := if is_dec c then Some (c - 48)
                     else if is_low_letter c 122 then Some (lower c - 97 + 10) else None in
        match digit with
        | None => Err (EOther "strconv.ErrSyntax")
        | Some d =>
            if base <=? d then Err (EOther "strconv.ErrSyntax")
            else let n1 := n * base + d in
                 if maxVal <? n1 then Err (EOther "strconv.ErrRange")
                 else ParseUint_loop base maxVal s' n1 underscores
        end
  end.

(** strconv.underscoreOK.  [saw]: 94 '^' at the start, 48 '0' after a digit or the prefix,
    95 '_' after an underscore, 33 '!' after anything else. *)
Fixpoint underscoreOK_loop (hex : bool) (s : bytes) (saw : Z) : bool :=
  match s with
  | [] => negb (saw =? 95)
  | c :: s' =>
      if (is_dec c || (hex && is_low_letter c 102))%bool then underscoreOK_loop hex s' 48
      else if c =? 95 then (if saw =? 48 then underscoreOK_loop hex s' 95 else false)
      else if saw =? 95 then false
      else underscoreOK_loop hex s' 33
  end.
Definition underscoreOK (s : bytes) : bool :=
  let s := match s with c :: s' => if (c =? 45) || (c =? 43) then s' else s | [] => s end in
  match s with
  | z :: p :: s' =>
      if (z =? 48) && ((lower p =? 98) || (lower p =? 111) || (lower p =? 120))
      then underscoreOK_loop (lower p =? 120) s' 48
      else underscoreOK_loop false s 94
  | _ => underscoreOK_loop false s 94
  end.

(** strconv.ParseUint(s, 0, 16). *)
Definition base_of (s : bytes) : Z * bytes :=
  match s with
  | c :: s1 =>
      if c =? 48 then
        match s1 with
        | p :: ((_ :: _) as s2) =>
            if lower p =? 98 then (2, s2)
            else if lower p =? 111 then (8, s2)
            else if lower p =? 120 then (16, s2)
            else (8, s1)
        | _ => (8, s1)
        end
      else (10, s)
  | [] => (10, s)
  end.
Definition ParseUint_0_16 (s : bytes) : res Z :=
  match s with
  | [] => Err (EOther "strconv.ErrSyntax")
  | _ =>
      let '(base, digits) := base_of s in
      r <- ParseUint_loop base 65535 digits 0 false ;;
      let '(n, underscores) := r in
      if (underscores && negb (underscoreOK s))%bool then Err (EOther "strconv.ErrSyntax") else Ok n
  end.

(** main.go:68-91.  The value of an argument is a string, so the other cases of the type switch
    (main.go:79-83) do not occur. *)
Definition hexUint16Mapper_Decode (sv : bytes) : res Z :=
  match ParseUint_0_16 sv with
  | Ok n => Ok n
  | _ => Err (EOther "expected a valid 16 bit uint")
  end.

(** ** The flags *)
(** The values that kong admits for a flag: those of the enum tag; any other value ends the
    program with an error before the command runs, and a flag that is not given has the value
    "auto" (default tag).  [--order]: cmd/catalog.go:15, put.go:15, delete.go:14, dump.go:14,
    sd.go:17, nakedos.go:29, reorder.go:13-14. *)
Definition order_enum : list bytes := [s2b "auto"; s2b "do"; s2b "po"].
(** [--system] of ls: cmd/catalog.go:16. *)
Definition ls_system_enum : list bytes := [s2b "auto"; s2b "dos3"; s2b "prodos"; s2b "nakedos"].
(** [--system] of put, rm and dump: cmd/put.go:16, delete.go:15, dump.go:15.  mksd, mkhello and
    reorder have no such flag. *)
Definition system_enum : list bytes := [s2b "auto"; s2b "dos3"].

(** main.go:59-65: the exit status.  A run-time panic ends the process with status 2. *)
Definition main_status (r : res unit) : Z := match r with Ok _ => 0 | Err _ => 1 | Panic => 2 end.
(** A run of the program with the command [p]: what it leaves behind, and the exit status. *)
Definition main_run (p : prog unit) (w : world) : world * Z := let '(w', r) := run p w in (w', main_status r).

(** ** cmd/filetypes.go *)
(** text/tabwriter with minwidth 0, tabwidth 0, padding 1, padchar ' ' and no flags, for lines
    that all have the same number of cells (so that each column is one block): every cell but the
    last of a line is padded with blanks to the width of the widest cell of its column plus one.
    Widths are counted in characters; all cells here are ASCII. *)
Definition col_width (rows : list (list bytes)) (j : nat) : Z :=
  fold_right Z.max 0 (map (fun r => zlen (nth j r []) + 1) rows).
Fixpoint tab_line (rows : list (list bytes)) (j : nat) (r : list bytes) : bytes :=
  match r with
  | [] => [10]
  | [c] => c ++ [10]
  | c :: rest => c ++ repeat 32 (Z.to_nat (col_width rows j - zlen c)) ++ tab_line rows (S j) rest
  end.
Definition tab_text (rows : list (list bytes)) : bytes := concat (map (tab_line rows 0) rows).

(** cmd/filetypes.go:19-28.  The tabwriter writes piece by piece when it is flushed; what has
    been written when a write fails is the same as for one write.  The error of Flush is
    ignored. *)
Definition filetypes_rows (all : bool) : list (list bytes) :=
  [s2b "Description"; s2b "Name"; s2b "Three-letter Name"; s2b "One-letter Name"]
  :: [s2b "-----------"; s2b "----"; s2b "-----------------"; s2b "---------------"]
  :: map (fun typ => [fi_desc typ; fi_name typ; fi_three typ; fi_one typ]) (FiletypeInfos all).
Definition FiletypesCmd_Run (all : bool) : prog unit :=
  PStdout (tab_text (filetypes_rows all)) (fun _ => pret tt).
