(** PropertiesVisit.v -- property C112: every visit of a map in an order of its own (prodos/prodos.go:737,
    disk/open.go, cmd/catalog.go, cmd/dump.go, cmd/put.go, cmd/delete.go, cmd/nakedos.go). *)
From Verif Require Import GoBase TypesModel DiskModel DiskSpec SupermonModel SupermonSpec SupermonTableSpec.
From Verif Require ProdosSpec.
From Verif Require Import ProdosModel CmdModel CmdSpec MainModel NakedCmdSpec DetectSpec PrintProofs StatusSpec VolumeSpec VolumeExProofs ImageSpec VisitModel VisitProofs VisitEachProofs.

(** ** C112 *)
(** However Go orders each visit, opening comes to what [opening] says; and it can come to all of that. *)
Theorem C112_opening : forall (vis : DiskOrder -> visiting) img order system c, bytes_ok c -> (forall o, ProdosSpec.an_order (vis o)) ->
  exists r, opening img order system c r /\
  match r with
  | Opened sys d o => eventually (fun k => exists op, OpenImage_v c (image_name img) order system (fun o => DiskOperatorFactories (vis o) k) = Ok (op, o) /\ Op_Name op = sys /\ Op_GetBytes op = d)
  | Refused => eventually (fun k => exists e, OpenImage_v c (image_name img) order system (fun o => DiskOperatorFactories (vis o) k) = Err e)
  | Stuck => eventually (fun k => OpenImage_v c (image_name img) order system (fun o => DiskOperatorFactories (vis o) k) = Panic)
  end.
Proof. exact opening_visits. Qed.
Print Assumptions C112_opening.
Theorem C112_opening_each : forall img order system c r, bytes_ok c -> opening img order system c r ->
  exists vis : DiskOrder -> visiting, (forall o, ProdosSpec.an_order (vis o)) /\
  match r with
  | Opened sys d o => eventually (fun k => exists op, OpenImage_v c (image_name img) order system (fun o => DiskOperatorFactories (vis o) k) = Ok (op, o) /\ Op_Name op = sys /\ Op_GetBytes op = d)
  | Refused => eventually (fun k => exists e, OpenImage_v c (image_name img) order system (fun o => DiskOperatorFactories (vis o) k) = Err e)
  | Stuck => eventually (fun k => OpenImage_v c (image_name img) order system (fun o => DiskOperatorFactories (vis o) k) = Panic)
  end.
Proof. exact opening_reached. Qed.
Print Assumptions C112_opening_each.
(** ls, whose listing visits the map anew: what it can come to, and that it can come to all of that. *)
Theorem C112_ls : forall (vis : DiskOrder -> visiting) (icat : visiting) img order system c short dir w,
  bytes_ok c -> (forall o, ProdosSpec.an_order (vis o)) -> ProdosSpec.an_order icat -> input w img c -> w_outroom w = None ->
  exists r e, opening img order system c r /\ afterwards r (ls_shows dir short) e /\
    ends_in (fun k => LsCmd_Run_v vis icat k order system short img dir) w e.
Proof. exact ls_visits. Qed.
Print Assumptions C112_ls.
Theorem C112_ls_each : forall img order system c short dir w r e, bytes_ok c -> input w img c -> w_outroom w = None ->
  opening img order system c r -> afterwards r (ls_shows dir short) e ->
  exists vis icat, (forall o, ProdosSpec.an_order (vis o)) /\ ProdosSpec.an_order icat /\
    ends_in (fun k => LsCmd_Run_v vis icat k order system short img dir) w e.
Proof. exact ls_reached. Qed.
Print Assumptions C112_ls_each.
(** dump, rm, put and mkhello. *)
Theorem C112_dump : forall (vis : DiskOrder -> visiting) img order system c n w,
  bytes_ok c -> (forall o, ProdosSpec.an_order (vis o)) -> input w img c -> w_outroom w = None ->
  exists r e, opening img order system c r /\ afterwards r (dump_shows n) e /\
    ends_in (fun k => DumpCmd_Run_v vis k order system img n) w e.
Proof. exact dump_visits. Qed.
Print Assumptions C112_dump.
Theorem C112_rm : forall (vis : DiskOrder -> visiting) img order system c force name w,
  bytes_ok c -> (forall o, ProdosSpec.an_order (vis o)) -> input w img c -> can_output w img true -> w_room w = None -> w_outroom w = None ->
  exists r n, opening img order system c r /\ edits (fun d t => rm_succeeds d t force name) (fun _ _ => False) r n /\
    eventually (fun k => exits (DeleteCmd_Run_v vis k order system force img name) w n).
Proof. exact rm_visits. Qed.
Print Assumptions C112_rm.
Theorem C112_put : forall (vis : DiskOrder -> visiting) img order system c ft ow addr tgt src s w,
  bytes_ok c -> (forall o, ProdosSpec.an_order (vis o)) -> input w img c -> input w src s -> ~ (img = s2b "-" /\ src = s2b "-") ->
  can_output w img true -> w_room w = None -> w_outroom w = None -> is_ascii tgt ->
  exists r n, opening img order system c r /\
    edits (fun d t => put_succeeds d t ft ow tgt s) (fun d t => put_crashes d t ft ow tgt s) r n /\
    eventually (fun k => exits (PutCmd_Run_v vis k order system ft ow addr img tgt src) w n).
Proof. exact put_visits. Qed.
Print Assumptions C112_put.
Theorem C112_mkhello : forall (vis : DiskOrder -> visiting) img order c name address start w,
  bytes_ok c -> (forall o, ProdosSpec.an_order (vis o)) -> input w img c -> can_output w img true -> w_room w = None -> w_outroom w = None ->
  exists r n, opening img order (s2b "auto") c r /\
    (~ hello_at address start /\ n = 1 \/
     hello_at address start /\ edits (fun d t => mkhello_succeeds d t name address start) (fun _ _ => False) r n) /\
    eventually (fun k => exits (MkHelloCmd_Run_v vis k order img name address start) w n).
Proof. exact mkhello_visits. Qed.
Print Assumptions C112_mkhello.
(** And these can come to all of that. *)
Theorem C112_dump_each : forall img order system c n w r e, bytes_ok c -> input w img c -> w_outroom w = None ->
  opening img order system c r -> afterwards r (dump_shows n) e ->
  exists vis, (forall o, ProdosSpec.an_order (vis o)) /\ ends_in (fun k => DumpCmd_Run_v vis k order system img n) w e.
Proof. exact dump_reached. Qed.
Print Assumptions C112_dump_each.
Theorem C112_rm_each : forall img order system c force name w r n,
  bytes_ok c -> input w img c -> can_output w img true -> w_room w = None -> w_outroom w = None ->
  opening img order system c r -> edits (fun d t => rm_succeeds d t force name) (fun _ _ => False) r n ->
  exists vis, (forall o, ProdosSpec.an_order (vis o)) /\
    eventually (fun k => exits (DeleteCmd_Run_v vis k order system force img name) w n).
Proof. exact rm_reached. Qed.
Print Assumptions C112_rm_each.
Theorem C112_put_each : forall img order system c ft ow addr tgt src s w r n,
  bytes_ok c -> input w img c -> input w src s -> ~ (img = s2b "-" /\ src = s2b "-") ->
  can_output w img true -> w_room w = None -> w_outroom w = None -> is_ascii tgt ->
  opening img order system c r ->
  edits (fun d t => put_succeeds d t ft ow tgt s) (fun d t => put_crashes d t ft ow tgt s) r n ->
  exists vis, (forall o, ProdosSpec.an_order (vis o)) /\
    eventually (fun k => exits (PutCmd_Run_v vis k order system ft ow addr img tgt src) w n).
Proof. exact put_reached. Qed.
Print Assumptions C112_put_each.
Theorem C112_mkhello_each : forall img order c name address start w r n,
  bytes_ok c -> input w img c -> can_output w img true -> w_room w = None -> w_outroom w = None ->
  opening img order (s2b "auto") c r ->
  ~ hello_at address start /\ n = 1 \/
  hello_at address start /\ edits (fun d t => mkhello_succeeds d t name address start) (fun _ _ => False) r n ->
  exists vis, (forall o, ProdosSpec.an_order (vis o)) /\
    eventually (fun k => exits (MkHelloCmd_Run_v vis k order img name address start) w n).
Proof. exact mkhello_reached. Qed.
Print Assumptions C112_mkhello_each.
(** An image of which rm fails or never ends, depending on the visits. *)
Example C112_rm_each_example : forall force name w,
  input w (s2b "x.po") ex_astray -> can_output w (s2b "x.po") true -> w_room w = None -> w_outroom w = None -> exists vis vis',
  (forall o, ProdosSpec.an_order (vis o)) /\ (forall o, ProdosSpec.an_order (vis' o)) /\
  eventually (fun k => exits (DeleteCmd_Run_v vis k (s2b "auto") (s2b "auto") force (s2b "x.po") name) w 1) /\
  eventually (fun k => exits (DeleteCmd_Run_v vis' k (s2b "auto") (s2b "auto") force (s2b "x.po") name) w 2).
Proof. exact astray_rm. Qed.
(** With one order for all visits these are the programs of the other properties. *)
Theorem C112_one_order : forall iter k w,
  (forall order system force img name, run (DeleteCmd_Run_v (fun _ => iter) k order system force img name) w = run (DeleteCmd_Run iter k order system force img name) w) /\
  (forall order system ft ow addr img tgt src, run (PutCmd_Run_v (fun _ => iter) k order system ft ow addr img tgt src) w = run (PutCmd_Run iter k order system ft ow addr img tgt src) w) /\
  (forall order img name address start, run (MkHelloCmd_Run_v (fun _ => iter) k order img name address start) w = run (MkHelloCmd_Run iter k order img name address start) w) /\
  (forall order system short img dir, run (LsCmd_Run_v (fun _ => iter) iter k order system short img dir) w = run (LsCmd_Run iter k order system short img dir) w) /\
  (forall order system img n, run (DumpCmd_Run_v (fun _ => iter) k order system img n) w = run (DumpCmd_Run iter k order system img n) w).
Proof. exact one_order. Qed.
Print Assumptions C112_one_order.
(** An image whose listing fails or never ends, depending on the last visit only. *)
Example C112_last_visit_example : forall w, input w (s2b "x.po") ex_astray -> w_outroom w = None -> exists vis icat icat',
  (forall o, ProdosSpec.an_order (vis o)) /\ ProdosSpec.an_order icat /\ ProdosSpec.an_order icat' /\
  ends_in (fun k => LsCmd_Run_v vis icat k (s2b "auto") (s2b "prodos") false (s2b "x.po") []) w Errs /\
  ends_in (fun k => LsCmd_Run_v vis icat' k (s2b "auto") (s2b "prodos") false (s2b "x.po") []) w Crashes.
Proof. exact astray_visits. Qed.
