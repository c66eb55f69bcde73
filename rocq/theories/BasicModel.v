(** BasicModel.v -- model of package basic and its subpackages applesoft and integer
    (basic/basic.go, basic/applesoft/applesoft.go, basic/integer/integer.go).

    A listing is the list of its lines.  The text of error messages is not modelled.  Loops that
    may not end take fuel; [None]: no result with this fuel. *)
From Verif Require Import GoBase.

(** [Line]: basic/applesoft/applesoft.go:127-130, basic/integer/integer.go:153-156 *)
Record Line := mkLine { l_Num : Z; l_Bytes : bytes }.

(** [strconv.Itoa] and [%d] of a non-negative int. *)
Fixpoint digits (fuel : nat) (n : Z) (acc : bytes) : bytes :=
  match fuel with
  | O => acc
  | S fuel => if n <? 10 then (48 + n) :: acc else digits fuel (n / 10) (48 + n mod 10 :: acc)
  end.
Definition itoa (n : Z) : bytes := digits (S (Z.to_nat (Z.log2 n))) n [].
(** [%5d] *)
Definition itoa5 (n : Z) : bytes := repeat 32 (5 - length (itoa n)) ++ itoa n.

(** Both Decode functions start by dropping a length header, if the first two bytes look like
    one: basic/applesoft/applesoft.go:137-142, basic/integer/integer.go:162-167 *)
Definition dropHeader (raw : bytes) : bytes :=
  if 2 <=? zlen raw then
    let size := znth 0 raw 0 + 256 * znth 0 raw 1 in
    if (size =? zlen raw - 2) || (size =? zlen raw - 3) then skipn 2 raw else raw
  else raw.

(** ** Applesoft *)
(** basic/applesoft/applesoft.go:13-121: the texts of 0x80 to 0xEA. *)
Definition applesoftTokens : list bytes :=
  [s2b "END"; s2b "FOR"; s2b "NEXT"; s2b "DATA"; s2b "INPUT"; s2b "DEL"; s2b "DIM"; s2b "READ";
   s2b "GR"; s2b "TEXT"; s2b "PR #"; s2b "IN #"; s2b "CALL"; s2b "PLOT"; s2b "HLIN"; s2b "VLIN";
   s2b "HGR2"; s2b "HGR"; s2b "HCOLOR="; s2b "HPLOT"; s2b "DRAW"; s2b "XDRAW"; s2b "HTAB";
   s2b "HOME"; s2b "ROT="; s2b "SCALE="; s2b "SHLOAD"; s2b "TRACE"; s2b "NOTRACE"; s2b "NORMAL";
   s2b "INVERSE"; s2b "FLASH"; s2b "COLOR="; s2b "POP"; s2b "VTAB"; s2b "HIMEM:"; s2b "LOMEM:";
   s2b "ONERR"; s2b "RESUME"; s2b "RECALL"; s2b "STORE"; s2b "SPEED="; s2b "LET"; s2b "GOTO";
   s2b "RUN"; s2b "IF"; s2b "RESTORE"; s2b "&"; s2b "GOSUB"; s2b "RETURN"; s2b "REM"; s2b "STOP";
   s2b "ON"; s2b "WAIT"; s2b "LOAD"; s2b "SAVE"; s2b "DEF FN"; s2b "POKE"; s2b "PRINT"; s2b "CONT";
   s2b "LIST"; s2b "CLEAR"; s2b "GET"; s2b "NEW"; s2b "TAB"; s2b "TO"; s2b "FN"; s2b "SPC(";
   s2b "THEN"; s2b "AT"; s2b "NOT"; s2b "STEP"; s2b "+"; s2b "-"; s2b "*"; s2b "/"; s2b ";";
   s2b "AND"; s2b "OR"; s2b ">"; s2b "="; s2b "<"; s2b "SGN"; s2b "INT"; s2b "ABS"; s2b "USR";
   s2b "FRE"; s2b "SCRN ("; s2b "PDL"; s2b "POS"; s2b "SQR"; s2b "RND"; s2b "LOG"; s2b "EXP";
   s2b "COS"; s2b "SIN"; s2b "TAN"; s2b "ATN"; s2b "PEEK"; s2b "LEN"; s2b "STR$"; s2b "VAL";
   s2b "ASC"; s2b "CHR$"; s2b "LEFT$"; s2b "RIGHT$"; s2b "MID$"].
(** [TokensByCode[char]]: the empty string for a byte not in the map. *)
Definition applesoftToken (char : Z) : bytes := if char <? 0x80 then [] else znth [] applesoftTokens (char - 0x80).

(** basic/applesoft/applesoft.go:166-184, the inner loop, with the bytes from [ofs] on. *)
Fixpoint lineBytes (rest acc : bytes) : res bytes :=
  match rest with
  | [] => Err (EOther "ran out of input in line")
  | char :: rest =>
      if char =? 0 then Ok acc
      else if char <? 0x80 then lineBytes rest (acc ++ [char])
      else if beq (applesoftToken char) [] then Err (EOther "unknown token")
      else lineBytes rest (acc ++ [char])
  end.
(** basic/applesoft/applesoft.go:152-186, the outer loop; indexing below zero panics. *)
Fixpoint decodeLines (fuel : nat) (raw : bytes) (location next : Z) (listing : list Line) : option (res (list Line)) :=
  match fuel with
  | O => None
  | S fuel =>
      if next =? 0 then Some (Ok listing)
      else
        let ofs := next - location in
        if (ofs <? -1) || (zlen raw <=? ofs + 1) then Some (Err (EOther "next line outside the input range"))
        else if ofs <? 0 then Some Panic
        else
          let next := znth 0 raw ofs + 256 * znth 0 raw (ofs + 1) in
          let ofs := ofs + 2 in
          if next =? 0 then Some (Ok listing)
          else if zlen raw <=? ofs + 1 then Some (Err (EOther "ran out of input trying to read line number"))
          else
            let num := znth 0 raw ofs + 256 * znth 0 raw (ofs + 1) in
            match lineBytes (skipn (Z.to_nat (ofs + 2)) raw) [] with
            | Ok b => decodeLines fuel raw location next (listing ++ [mkLine num b])
            | Err e => Some (Err e)
            | Panic => Some Panic
            end
  end.
(** basic/applesoft/applesoft.go:134-189 *)
Definition applesoft_Decode (fuel : nat) (raw : bytes) (location : Z) : option (res (list Line)) :=
  decodeLines fuel (dropHeader raw) location location [].

(** basic/applesoft/applesoft.go:195-207 *)
Definition applesoft_char (char : Z) : bytes := if char <? 0x80 then [char] else s2b " " ++ applesoftToken char ++ s2b " ".
Definition applesoft_line (l : Line) : bytes := itoa (l_Num l) ++ s2b " " ++ flat_map applesoft_char (l_Bytes l).
(** basic/applesoft/applesoft.go:209-216 *)
Definition applesoft_String (l : list Line) : bytes := flat_map (fun line => applesoft_line line ++ [10]) l.

(** ** Integer BASIC *)
(** basic/integer/integer.go:18-147: the texts of 0x00 to 0x7F. *)
Definition integerTokens : list bytes :=
  [s2b "HIMEM:"; s2b "<token-01>"; s2b "_"; s2b ":"; s2b "LOAD"; s2b "SAVE"; s2b "CON"; s2b "RUN";
   s2b "RUN"; s2b "DEL"; s2b ","; s2b "NEW"; s2b "CLR"; s2b "AUTO"; s2b ","; s2b "MAN";
   s2b "HIMEM:"; s2b "LOMEM:"; s2b "+"; s2b "-"; s2b "*"; s2b "/"; s2b "="; s2b "#"; s2b ">=";
   s2b ">"; s2b "<="; s2b "<>"; s2b "<"; s2b "AND"; s2b "OR"; s2b "MOD"; s2b "^"; s2b "+"; s2b "(";
   s2b ","; s2b "THEN"; s2b "THEN"; s2b ","; s2b ","; s2b """"; s2b """"; s2b "("; s2b "!";
   s2b "!"; s2b "("; s2b "PEEK"; s2b "RND"; s2b "SGN"; s2b "ABS"; s2b "PDL"; s2b "RNDX"; s2b "(";
   s2b "+"; s2b "-"; s2b "NOT"; s2b "("; s2b "="; s2b "#"; s2b "LEN("; s2b "ASC("; s2b "SCRN(";
   s2b ","; s2b "("; s2b "$"; s2b "$"; s2b "("; s2b ","; s2b ","; s2b ";"; s2b ";"; s2b ";";
   s2b ","; s2b ","; s2b ","; s2b "TEXT"; s2b "GR"; s2b "CALL"; s2b "DIM"; s2b "DIM"; s2b "TAB";
   s2b "END"; s2b "INPUT"; s2b "INPUT"; s2b "INPUT"; s2b "FOR"; s2b "="; s2b "TO"; s2b "STEP";
   s2b "NEXT"; s2b ","; s2b "RETURN"; s2b "GOSUB"; s2b "REM"; s2b "LET"; s2b "GOTO"; s2b "IF";
   s2b "PRINT"; s2b "PRINT"; s2b "PRINT"; s2b "POKE"; s2b ","; s2b "COLOR="; s2b "PLOT"; s2b ",";
   s2b "HLIN"; s2b ","; s2b "AT"; s2b "VLIN"; s2b ","; s2b "AT"; s2b "VTAB"; s2b "="; s2b "=";
   s2b ")"; s2b ")"; s2b "LIST"; s2b ","; s2b "LIST"; s2b "POP"; s2b "NODSP"; s2b "DSP";
   s2b "NOTRACE"; s2b "DSP"; s2b "DSP"; s2b "TRACE"; s2b "PR#"; s2b "IN#"].
Definition integerToken (ch : Z) : bytes := znth [] integerTokens ch.

(** basic/integer/integer.go:170-186; each round drops [size] bytes and [size = 0] panics. *)
Fixpoint integerLines (fuel : nat) (raw : bytes) (listing : list Line) : option (res (list Line)) :=
  match fuel with
  | O => None
  | S fuel =>
      if zlen raw <=? 3 then Some (Ok listing)
      else
        let size := znth 0 raw 0 in
        let num := znth 0 raw 1 + 256 * znth 0 raw 2 in
        if zlen raw <? size then Some (Err (EOther "line wants more bytes"))
        else
          match idx raw (size - 1) with
          | Ok last =>
              if negb (last =? 1) then Some (Err (EOther "line not terminated by 0x01"))
              else
                match slice raw 3 (size - 1) with
                | Ok b => integerLines fuel (skipn (Z.to_nat size) raw) (listing ++ [mkLine num b])
                | Err e => Some (Err e)
                | Panic => Some Panic
                end
          | Err e => Some (Err e)
          | Panic => Some Panic
          end
  end.
(** basic/integer/integer.go:159-189 *)
Definition integer_Decode (fuel : nat) (raw : bytes) : option (res (list Line)) := integerLines fuel (dropHeader raw) [].

(** basic/integer/integer.go:199-209 *)
Definition isalnum (b : Z) : bool :=
  ((48 <=? b) && (b <=? 57)) || ((97 <=? b) && (b <=? 122)) || ((65 <=? b) && (b <=? 90)).
(** basic/integer/integer.go:215-245, the loop over the bytes from [i] on. *)
Fixpoint integer_bytes (bs : bytes) (lastAN : bool) : bytes :=
  match bs with
  | [] => []
  | ch :: rest =>
      if ch <? 0x80 then
        let token := integerToken ch in
        token ++ (if 1 <? zlen token then s2b " " else []) ++
        (if beq token (s2b "REM") then map (fun c => u8 (c - 0x80)) rest else integer_bytes rest false)
      else
        let ch := ch - 0x80 in
        if negb lastAN && (48 <=? ch) && (ch <=? 57) then
          match rest with
          | lo :: hi :: rest => itoa (lo + 256 * hi) ++ integer_bytes rest (isalnum ch)
          | _ => s2b "?" ++ integer_bytes rest (isalnum ch)
          end
        else [ch] ++ integer_bytes rest (isalnum ch)
  end.
(** basic/integer/integer.go:211-247 *)
Definition integer_line (l : Line) : bytes := itoa5 (l_Num l) ++ s2b " " ++ integer_bytes (l_Bytes l) false.
(** basic/integer/integer.go:249-256 *)
Definition integer_String (l : list Line) : bytes := flat_map (fun line => integer_line line ++ [10]) l.

(** ** Control codes *)
(** basic/basic.go:11-35 (the same code again in basic/integer/integer.go:262-286).  The regular
    expression matches each byte below 0x20, also in strings that are not valid UTF-8. *)
Definition chevron (c : Z) : bytes :=
  if 0x20 <=? c then [c]
  else if (c =? 10) || (c =? 9) then [c]
  else if (1 <=? c) && (c <=? 0x1a) then [0xC2; 0xAB] ++ s2b "ctrl-" ++ [64 + c] ++ [0xC2; 0xBB]
  else
    let code := if c =? 0 then s2b "NUL" else if c =? 0x1C then s2b "FS" else if c =? 0x1D then s2b "GS"
                else if c =? 0x1E then s2b "RS" else if c =? 0x1F then s2b "US" else s2b "?" in
    [0xC2; 0xAB] ++ code ++ [0xC2; 0xBB].
Definition ChevronControlCodes (s : bytes) : bytes := flat_map chevron s.
