(** PropertiesAgain.v -- property C106, continued: the images on which a command run again does the same,
    also if it crashes, whatever the visits of the maps in either run. *)
From Verif Require Import GoBase TypesModel DiskModel SupermonModel.
From Verif Require ProdosSpec.
From Verif Require Import ProdosModel CmdModel CmdSpec MainModel DetectSpec VolumeSpec ImageSpec VisitModel AgainSpec AgainProofs AgainExProofs.

(** ** C106 *)
(** Unless the image can be taken for a volume of which the listing can both fail and hang, and for ls
    unless two of its subdirectories have the name asked for: same files, same output, same status. *)
Theorem C106_ls_settled : forall (vis vis' : DiskOrder -> visiting) (icat icat' : visiting),
  (forall o, ProdosSpec.an_order (vis o)) -> (forall o, ProdosSpec.an_order (vis' o)) -> ProdosSpec.an_order icat -> ProdosSpec.an_order icat' ->
  forall w order system short img dir, (forall c, input w img c -> bytes_ok c /\ settled c /\ one_called c dir) ->
  eventually (fun k => main_run (LsCmd_Run_v vis icat k order system short img dir) w = main_run (LsCmd_Run_v vis' icat' k order system short img dir) w).
Proof. exact again_ls. Qed.
Print Assumptions C106_ls_settled.
Theorem C106_dump_settled : forall vis vis' : DiskOrder -> visiting, (forall o, ProdosSpec.an_order (vis o)) -> (forall o, ProdosSpec.an_order (vis' o)) ->
  forall w order system img name, (forall c, input w img c -> bytes_ok c /\ settled c) ->
  eventually (fun k => main_run (DumpCmd_Run_v vis k order system img name) w = main_run (DumpCmd_Run_v vis' k order system img name) w).
Proof. exact again_dump. Qed.
Print Assumptions C106_dump_settled.
Theorem C106_rm_settled : forall vis vis' : DiskOrder -> visiting, (forall o, ProdosSpec.an_order (vis o)) -> (forall o, ProdosSpec.an_order (vis' o)) ->
  forall w order system miss img name, (forall c, input w img c -> bytes_ok c /\ settled c) ->
  eventually (fun k => main_run (DeleteCmd_Run_v vis k order system miss img name) w = main_run (DeleteCmd_Run_v vis' k order system miss img name) w).
Proof. exact again_rm. Qed.
Print Assumptions C106_rm_settled.
Theorem C106_put_settled : forall vis vis' : DiskOrder -> visiting, (forall o, ProdosSpec.an_order (vis o)) -> (forall o, ProdosSpec.an_order (vis' o)) ->
  forall w order system ft ow addr img tgt src, (forall c, input w img c -> bytes_ok c /\ settled c) ->
  eventually (fun k => main_run (PutCmd_Run_v vis k order system ft ow addr img tgt src) w = main_run (PutCmd_Run_v vis' k order system ft ow addr img tgt src) w).
Proof. exact again_put. Qed.
Print Assumptions C106_put_settled.
Theorem C106_mkhello_settled : forall vis vis' : DiskOrder -> visiting, (forall o, ProdosSpec.an_order (vis o)) -> (forall o, ProdosSpec.an_order (vis' o)) ->
  forall w order img name addr start, (forall c, input w img c -> bytes_ok c /\ settled c) ->
  eventually (fun k => main_run (MkHelloCmd_Run_v vis k order img name addr start) w = main_run (MkHelloCmd_Run_v vis' k order img name addr start) w).
Proof. exact again_mkhello. Qed.
Print Assumptions C106_mkhello_settled.
(** For ls of a device image: exactly then. *)
Theorem C106_device : forall img order system c w short, bytes_ok c -> zlen c <> 143360 -> device img order system c -> input w img c -> w_outroom w = None ->
  ((forall (vis vis' : DiskOrder -> visiting) (icat icat' : visiting), (forall o, ProdosSpec.an_order (vis o)) -> (forall o, ProdosSpec.an_order (vis' o)) ->
     ProdosSpec.an_order icat -> ProdosSpec.an_order icat' ->
     eventually (fun k => main_run (LsCmd_Run_v vis icat k order system short img []) w = main_run (LsCmd_Run_v vis' icat' k order system short img []) w)) <-> settled c).
Proof. exact device_settled. Qed.
Print Assumptions C106_device.
(** A device with a directory in a directory. *)
Example C106_settled_example : bytes_ok ex_dev /\ zlen ex_dev = 143872 /\ settled ex_dev /\ one_called ex_dev (s2b "SUB/INNER") /\ may ex_dev (s2b "SUB/INNER") (Lists 9 []).
Proof. exact ex_dev_settled. Qed.
