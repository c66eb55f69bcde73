(** TwinSpec.v -- two NakedOS images that differ only where no edit looks, and what edits make of them. *)
From Verif Require Import GoBase DiskSpec SupermonSpec SupermonTableSpec CmdModel CmdSpec NakedCmdSpec SessionSpec ShelfSpec LocalSpec.

(** Two disks with the same sector map and the same symbol table (files 3 and 4), and the same mark
    where DOS 3.3 has its release number.  All else may differ: the contents of the other files, of the
    free sectors and of the system tracks. *)
Record twins (c c' o d d' : bytes) : Prop := {
  tw_first : naked_image c o d;
  tw_second : naked_image c' o d';
  tw_map : stored_map d = stored_map d';
  tw_table : forall k, naked_part d k -> sec d k = sec d' k;
  tw_mark : release_byte c = release_byte c'
}.
(** [d] has become [e], and [d'] has become [e']: each byte is the same in both, or is in both as it
    was. *)
Definition in_step (d d' e e' : bytes) : Prop :=
  forall p, 0 <= p < 143360 -> znth 0 e p = znth 0 e' p \/ (znth 0 e p = znth 0 d p /\ znth 0 e' p = znth 0 d' p).

(** Two computers with room enough on their disks, the same but for one image. *)
Record beside (img : bytes) (w w' : world) : Prop := {
  bs_files : forall n, n <> img -> w_fs w' n = w_fs w n;
  bs_stdin : w_stdin w' = w_stdin w;
  bs_room : w_room w = None /\ w_room w' = None;
  bs_outroom : w_outroom w' = w_outroom w
}.

(** Edits of an image, and listings of it: put (of another file), rm, mkhello and ls; files may be saved
    meanwhile. *)
Inductive edit_of (order img : bytes) : deed -> Prop :=
| eo_put ft ow addr n src : src <> s2b "-" -> src <> img -> edit_of order img (On order img (APut ft ow addr n src))
| eo_rm force n : edit_of order img (On order img (ARm force n))
| eo_ls short : edit_of order img (On order img (ALs short))
| eo_hello n a s : edit_of order img (Hello order img n a s)
| eo_save file c : file <> img -> c <> [] -> edit_of order img (Save file c).
(** No put is of an empty file (see C108). *)
Definition no_empty_source (h : list deed) (w : world) : Prop :=
  forall order img ft ow addr n src s r q, In (On order img (APut ft ow addr n src)) h -> w_fs w src = NFile s r q -> s <> [].
