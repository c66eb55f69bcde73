(** ConcModel.v -- several diskii processes at the same time on one file system.

    A process makes the system calls of its command (CmdModel.v, helpers/helpers.go:15-36,
    disk/open.go:16-38 and 210-230); between any two of them other processes may run.
    os.ReadFile opens the file, reads it piece by piece and stops at its end; os.WriteFile opens
    it with O_CREATE|O_TRUNC, after which it is empty, and writes piece by piece (Go standard
    library, os/file.go).  Nothing in diskii locks a file.

    Simplified: a process has its own standard streams, reading standard input and writing
    standard output is one step; a file that was opened stays what it is (no command removes or
    renames a file). *)
From Verif Require Import GoBase CmdModel MainModel.

(** Where a process is: about to make the next system call; reading a file, with what it has
    read so far; writing a file, with the position, what is still to be written, and what it does
    then. *)
Inductive pstate :=
| Running (p : prog unit)
| Reading (name acc : bytes) (k : res bytes -> prog unit)
| Writing (name : bytes) (pos : Z) (rest : bytes) (p : prog unit).
Record process := Process { q_state : pstate; q_stdin : option bytes; q_stdout : bytes; q_outroom : option Z }.

Definition fsystem := bytes -> node.
Definition put_fs (fs : fsystem) (name : bytes) (n : node) : fsystem := fun x => if beq x name then n else fs x.
(** Writing [chunk] at [pos]: a gap behind the end of the file is filled with zeros. *)
Definition pwrite (c : bytes) (pos : Z) (chunk : bytes) : bytes :=
  sub c 0 pos ++ zeros (pos - zlen c) ++ chunk ++ sub c (pos + zlen chunk) (zlen c).

(** One system call (or part of one) of a process.  [room] is the room on the medium, as in
    CmdModel.v. *)
Inductive pstep (room : option Z) : fsystem -> process -> fsystem -> process -> Prop :=
| st_read_open fs n k i o m c wr : fs n = NFile c true wr ->
    pstep room fs (Process (Running (PRead n k)) i o m) fs (Process (Reading n [] k) i o m)
| st_read_fails fs n k i o m e : sys_read (fs n) = Err e ->
    pstep room fs (Process (Running (PRead n k)) i o m) fs (Process (Running (k (Err e))) i o m)
| st_read fs n acc k i o m c rd wr j : fs n = NFile c rd wr -> 0 < j -> zlen acc + j <= zlen c ->
    pstep room fs (Process (Reading n acc k) i o m) fs (Process (Reading n (acc ++ sub c (zlen acc) (zlen acc + j)) k) i o m)
| st_read_end fs n acc k i o m c rd wr : fs n = NFile c rd wr -> zlen c <= zlen acc ->
    pstep room fs (Process (Reading n acc k) i o m) fs (Process (Running (k (Ok acc))) i o m)
| st_stdin fs k i o m : 
    pstep room fs (Process (Running (PStdin k)) i o m) fs
      (match i with Some s => Process (Running (k (Ok s))) (Some []) o m | None => Process (Running (k (Err (EOther "os.Stdin")))) None o m end)
| st_stat fs n k i o m :
    pstep room fs (Process (Running (PStat n k)) i o m) fs (Process (Running (k (sys_notexist (fs n)))) i o m)
| st_write_fails fs n c k i o m : can_write (fs n) = false ->
    pstep room fs (Process (Running (PWrite n c k)) i o m) fs (Process (Running (k (Err (EOther "os.WriteFile")))) i o m)
| st_write_open fs n c k i o m : can_write (fs n) = true ->
    pstep room fs (Process (Running (PWrite n c k)) i o m)
      (put_fs fs n (written (fs n) []))
      (Process (Writing n 0 (cut room c) (k (if fits room c then Ok tt else Err (EOther "os.WriteFile")))) i o m)
| st_write fs n pos rest p i o m c rd wr j : fs n = NFile c rd wr -> 0 < j <= zlen rest ->
    pstep room fs (Process (Writing n pos rest p) i o m)
      (put_fs fs n (NFile (pwrite c pos (sub rest 0 j)) rd wr))
      (Process (Writing n (pos + j) (sub rest j (zlen rest)) p) i o m)
| st_write_end fs n pos p i o m :
    pstep room fs (Process (Writing n pos [] p) i o m) fs (Process (Running p) i o m)
| st_stdout fs c k i o m :
    pstep room fs (Process (Running (PStdout c k)) i o m) fs
      (Process (Running (k (if fits m c then Ok tt else Err (EOther "os.Stdout.Write")))) i (o ++ cut m c) m).

(** Any of the processes takes a step, again and again. *)
Inductive execution (room : option Z) : fsystem -> list process -> fsystem -> list process -> Prop :=
| ex_refl fs qs : execution room fs qs fs qs
| ex_step fs l1 q l2 fs1 q1 fs2 qs : pstep room fs q fs1 q1 ->
    execution room fs1 (l1 ++ q1 :: l2) fs2 qs -> execution room fs (l1 ++ q :: l2) fs2 qs.

(** A command that is started with a standard input and with room on standard output. *)
Definition started (p : prog unit) (stdin : option bytes) (outroom : option Z) : process := Process (Running p) stdin [] outroom.
(** It has ended with an exit status (main.go:59-65). *)
Inductive ended : process -> Z -> Prop :=
| ended_ret r i o m : ended (Process (Running (PRet r)) i o m) (main_status r).
