(** DiskExProofs.v -- the examples of PropertiesDisk.v. *)
From Verif Require Import GoBase GoLemmas DiskModel DiskSpec DiskProofs DiskOpenProofs.
From Coq Require Import Permutation.

(** A concrete, non-constant floppy image used by the examples. *)
Definition sample_img : bytes := map (fun i => (i * 7 + i / 256) mod 256) (zrange 143360).

(** A factory that opens every floppy image when pinned. *)
Definition ex_fac : factory bytes :=
  {| f_name := s2b "ex"; f_order := s2b "po";
     f_seems := fun d => Some (znth 0 d 256 =? 2); f_operator := fun d => Ok d |}.
Lemma C01_example_lemma :
  match ReadSector sample_img 17 15 with Ok r => znth 0 r 3 | _ => -1 end = 52 /\
  match ReadSector sample_img 35 0 with Err _ => true | _ => false end = true.
Proof. split; vm_compute; reflexivity. Qed.
Lemma C02_example_lemma :
  match WriteSector 2 3 (repeat 7 256) (zeros 20480) with
  | (img', Ok _) => [znth 0 img' (8192 + 767); znth 0 img' (8192 + 768); znth 0 img' (8192 + 1023); znth 0 img' (8192 + 1024)]
  | _ => []
  end = [0; 7; 7; 0].
Proof. vm_compute. reflexivity. Qed.
Lemma C03_example_lemma : zlen sample_img = 143360 /\
  Permutation Dos33LogicalToPhysicalSectorMap [0;1;2;3;4;5;6;7;8;9;10;11;12;13;14;15] /\
  exists r, Swizzle sample_img Dos33LogicalToPhysicalSectorMap = Ok r /\ r <> sample_img.
Proof.
  split; [vm_compute; reflexivity|]. split; [apply perm_check; reflexivity|].
  destruct (C03_lemma sample_img Dos33LogicalToPhysicalSectorMap) as (H1 & _ & H2).
  destruct (proj2 H1) as [r Hr].
  { split; [vm_compute; reflexivity | apply perm_check; reflexivity]. }
  exists r. split; [exact Hr|]. destruct (H2 r Hr) as (_ & H3).
  specialize (H3 0 1 0 ltac:(lia) ltac:(lia) ltac:(lia)).
  intros E. rewrite E in H3.
  assert (znth 0 sample_img (4096 * 0 + 256 * 13 + 0) <> znth 0 sample_img (4096 * 0 + 256 * 1 + 0)).
  { vm_compute. discriminate. }
  contradiction.
Qed.
Lemma C04_example_lemma : zlen sample_img = 143360.
Proof. vm_compute. reflexivity. Qed.
Lemma C05_example_lemma : forall img, zlen img = 143360 ->
  exists op, OpenImage img (s2b "a.dsk") (s2b "do") (s2b "ex") [ex_fac] = Ok (op, s2b "do") /\
             WriteBackBytes op (s2b "po") (s2b "do") = Ok img.
Proof.
  intros img Hi.
  assert (Hf : forall f, In f [ex_fac] -> exists l, interleave (f_order f) l).
  { intros f [<-|[]]. eexists. apply il_po. }
  pose proof (open_pinned img (s2b "a.dsk") (s2b "do") (s2b "ex") [ex_fac] [ex_fac] (s2b "do") Hi Hf) as H.
  destruct H as (d & Hd & E).
  - right. split; [discriminate | reflexivity].
  - constructor.
  - discriminate.
  - exists d. split; [exact E|].
    eapply (C05_lemma bytes (fun d => d) (fun _ => s2b "po") [ex_fac]); [| |exact E].
    + intros f [<-|[]]. right; left; reflexivity.
    + intros f d' op [<-|[]] Ho. inversion Ho. split; reflexivity.
Qed.
Lemma C07_example_lemma : exists l1 f l2,
  list_prod [s2b "do"; s2b "po"] [ex_fac] = l1 ++ (s2b "po", f) :: l2 /\ l1 <> [] /\
  candidates (s2b "a.dsk") (s2b "auto") [s2b "do"; s2b "po"].
Proof.
  exists [(s2b "do", ex_fac)], ex_fac, []. split; [reflexivity|]. split; [discriminate|].
  apply cand_auto_both. left. apply ext_is_dec_true; [ascii | reflexivity].
Qed.
Lemma C08_example_lemma : forall op,
  let f := {| f_name := s2b "prodos"; f_order := s2b "po"; f_seems := fun _ => Some true;
              f_operator := fun d => Ok (zlen d) |} in
  OpenImage (zeros 1024) (s2b "dir.x/disk.HdV") (s2b "po") (s2b "auto") [f] = Ok (op, s2b "po") <-> op = 1024.
Proof. intros op f. vm_compute. split; congruence. Qed.
Lemma C09_example_lemma :
  match MarshalBlock (fun b : bytes => Ok b) (fun _ => 2) (repeat 9 512) (zeros 2048) with
  | (img', Ok _) => UnmarshalBlock (fun b => Ok (znth 0 b 511)) (fun _ v => v) img' 2
  | _ => Panic
  end = Ok 9.
Proof. vm_compute. reflexivity. Qed.
