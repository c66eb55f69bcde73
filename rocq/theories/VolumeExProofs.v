(** VolumeExProofs.v -- volumes that are not well-formed; detection; termination. *)
From Verif Require Import GoBase GoLemmas DiskModel DiskSpec TypesModel ProdosModel ProdosSpec ProdosCodecProofs ProdosBitmapProofs ProdosProofs ProdosStmtProofs VolumeSpec VolumeProofs.
From Coq Require Import ZifyBool ZifyNat Permutation.
Ltac Zify.zify_post_hook ::= Z.div_mod_to_equations.

Lemma seems_catalog iter d n : prodos_SeemsToMatch iter n d = match Catalog iter n d [] with Some (Ok _) => Some true | Some (Err _) => Some false | Some Panic => None | None => None end.
Proof. unfold prodos_SeemsToMatch, Catalog. destruct (readVolume iter n d 2) as [[v|e|]|]; reflexivity. Qed.
Lemma detect_lemma d iter v : comes_to d (fun n => Catalog iter n d []) v ->
  match v with
  | Lists _ _ => returns (fun n => prodos_SeemsToMatch iter n d) (fun r => r = true)
  | Fails => returns (fun n => prodos_SeemsToMatch iter n d) (fun r => r = false)
  | Hangs => diverges (fun n => prodos_SeemsToMatch iter n d)
  end.
Proof.
  destruct v as [k l| |]; cbn [comes_to].
  - intros (N & r & (ds & -> & _) & H). exists N, true. split; [reflexivity|]. intros n Hn. rewrite seems_catalog, H by exact Hn. reflexivity.
  - intros (N & r & (e & ->) & H). exists N, false. split; [reflexivity|]. intros n Hn. rewrite seems_catalog, H by exact Hn. reflexivity.
  - intros H n. rewrite seems_catalog, H. reflexivity.
Qed.
Lemma detected_lemma d iter : bytes_ok d -> zlen d <= 65536 * 512 -> an_order iter -> exists v, may d [] v /\
  match v with
  | Lists _ _ => returns (fun n => prodos_SeemsToMatch iter n d) (fun r => r = true)
  | Fails => returns (fun n => prodos_SeemsToMatch iter n d) (fun r => r = false)
  | Hangs => diverges (fun n => prodos_SeemsToMatch iter n d)
  end.
Proof. intros B L Ho. destruct (listing_lemma d [] iter B L Ho) as (v & M & C). exists v. split; [exact M | apply detect_lemma; exact C]. Qed.
Lemma terminates_lemma d p : bytes_ok d -> zlen d <= 65536 * 512 ->
  ((forall iter, an_order iter -> returns (fun n => Catalog iter n d p) (fun r => r <> Panic)) <-> ~ may d p Hangs).
Proof.
  intros B L. split.
  - intros H M. destruct (each_lemma d p Hangs B L M) as (iter & Ho & C). destruct (H iter Ho) as (N & r & _ & E). cbn [comes_to] in C. specialize (E N (le_n N)). rewrite C in E. discriminate E.
  - intros H iter Ho. destruct (listing_lemma d p iter B L Ho) as (v & M & C). destruct v as [k l| |]; cbn [comes_to] in C; [| |contradiction].
    + destruct C as (N & r & (ds & -> & _) & E). exists N, (Ok ds). split; [discriminate | exact E].
    + destruct C as (N & r & (e & ->) & E). exists N, (Err e). split; [discriminate | exact E].
Qed.
Lemma hangs_lemma d p : bytes_ok d -> zlen d <= 65536 * 512 ->
  ((forall iter, an_order iter -> diverges (fun n => Catalog iter n d p)) <-> (may d p Hangs /\ forall v, may d p v -> v = Hangs)).
Proof.
  intros B L. split.
  - intros H. assert (forall v, may d p v -> v = Hangs) as U.
    { intros v M. destruct (each_lemma d p v B L M) as (iter & Ho & C). specialize (H iter Ho). destruct v as [k l| |]; cbn [comes_to] in C; [| |reflexivity];
        destruct C as (N & r & _ & E); specialize (E N (le_n N)); rewrite H in E; discriminate E. }
    split; [|exact U]. assert (an_order (fun m => m)) as Hi by (intros m; apply Permutation_refl). destruct (listing_lemma d p _ B L Hi) as (v & M & _). rewrite <- (U v M). exact M.
  - intros [_ U] iter Ho. destruct (listing_lemma d p iter B L Ho) as (v & M & C). rewrite (U v M) in C. exact C.
Qed.

(** A volume with two subdirectories: A, whose parent pointer is its own block, and B, whose parent pointer is a block of no directory. *)
Definition ex_astray : bytes :=
  let d := zeros 143360 in
  let d := putb d 2 (ex_kb 0 0 0xF4 (s2b "DISK") 0 6 [ex_pd 0xD1 (s2b "A") 0x0F 7 1 [0; 2; 0]; ex_pd 0xD1 (s2b "B") 0x0F 8 1 [0; 2; 0]]) in
  let d := putb d 7 (ex_kb 0 0 0xE1 (s2b "A") 0x75 7 [ex_pd 0x13 (s2b "ONE") 4 20 1 [1; 0; 0]]) in
  putb d 8 (ex_kb 0 0 0xE1 (s2b "B") 0x75 100 [ex_pd 0x13 (s2b "TWO") 4 21 1 [2; 0; 0]]).
(** Subdirectories A, which is on the device, with B in it, and C, whose second block is its first; B is off the device. *)
Definition ex_torn : bytes :=
  let d := zeros 143360 in
  let d := putb d 2 (ex_kb 0 0 0xF4 (s2b "DISK") 0 6 [ex_pd 0xD1 (s2b "A") 0x0F 7 1 [0; 2; 0]; ex_pd 0xD1 (s2b "C") 0x0F 9 1 [0; 2; 0]]) in
  let d := putb d 7 (ex_kb 0 0 0xE1 (s2b "A") 0x75 2 [ex_pd 0xD1 (s2b "B") 0x0F 999 1 [0; 2; 0]]) in
  putb d 9 (ex_kb 0 9 0xE1 (s2b "C") 0x75 2 []).
Ltac one_block := split; [dev|]; match goal with |- bchain ?d (next_block ?d ?k) [] => let E := fresh in assert (next_block d k = 0) as E by (vm_compute; reflexivity); rewrite E; apply bchain_end end.
Lemma ex_astray_ok : bytes_ok ex_astray /\ zlen ex_astray = 143360 /\ bitmap_on_device ex_astray /\ in_order ex_astray [7; 8].
Proof.
  split; [byt|]. assert (zlen ex_astray = 143360) as L by (vm_compute; reflexivity). split; [exact L|]. split; [intros H; lia|].
  assert (is_dir ex_astray 2 []) as D2 by one_block. assert (is_dir ex_astray 7 []) as D7 by one_block. assert (is_dir ex_astray 8 []) as D8 by one_block.
  exists []. split; [exact D2|]. assert (subkeys ex_astray 2 [] = [7; 8]) as -> by (vm_compute; reflexivity).
  change [7; 8] with ([7; 8] ++ []) at 2. apply (levels_next _ _ []); [|apply levels_end].
  assert (subkeys ex_astray 7 [] = []) as E7 by (vm_compute; reflexivity). assert (subkeys ex_astray 8 [] = []) as E8 by (vm_compute; reflexivity).
  pose proof (below_cons ex_astray 7 [] [8] _ D7 (below_cons ex_astray 8 [] [] [] D8 (below_nil _))) as H. rewrite E7, E8 in H. exact H.
Qed.
Lemma astray_owner b k : ~ owner ex_astray [7; 8] b k.
Proof.
  intros (pre & post & l & E & D & I & _). assert (In k [2; 7; 8]) as Ik by (rewrite E; apply in_or_app; right; left; reflexivity).
  assert (is_dir ex_astray k []) as D' by (destruct Ik as [<-|[<-|[<-|[]]]]; one_block). rewrite (is_dir_det _ _ _ _ D D') in I. destruct I.
Qed.
Lemma ex_astray_may p : may ex_astray p Fails /\ may ex_astray p Hangs.
Proof.
  destruct ex_astray_ok as (_ & _ & Hb & O). assert (parent_pointer ex_astray 7 = 7) as P7 by (vm_compute; reflexivity). assert (parent_pointer ex_astray 8 = 100) as P8 by (vm_compute; reflexivity). split.
  - apply (may_lost _ _ [7; 8] 8 Hb O); [right; left; reflexivity|]. exists 8. split; [left; reflexivity|]. rewrite P8. split.
    + intros [H|H]; [lia | exact (astray_owner _ _ H)].
    + unfold above. rewrite P8. intros y [_ [[[H|[H|[]]] _]|[_ H]]]; [lia | lia | exact (astray_owner _ _ H)].
  - apply (may_circular _ _ [7; 8] 7 Hb O); [left; reflexivity|]. exists 7. split; [left; reflexivity|]. apply steps_1. unfold above. rewrite P7. split.
    + intros [H|H]; [lia | exact (astray_owner _ _ H)].
    + left. split; [left; reflexivity | reflexivity].
Qed.
Lemma ex_torn_may p : bytes_ok ex_torn /\ zlen ex_torn = 143360 /\ may ex_torn p Hangs /\ leaves ex_torn 999 /\ steps (child ex_torn) 2 999.
Proof.
  split; [byt|]. assert (zlen ex_torn = 143360) as L by (vm_compute; reflexivity). split; [exact L|].
  assert (is_dir ex_torn 2 []) as D2 by one_block. assert (is_dir ex_torn 7 []) as D7 by one_block.
  assert (loops ex_torn 9) as L9.
  { split; [dev|]. assert (next_block ex_torn 9 = 9) as E by (vm_compute; reflexivity). rewrite E. exists [9], 9. split; [|left; reflexivity]. constructor; [lia | dev|]. rewrite E. constructor. }
  assert (subkeys ex_torn 2 [] = [7; 9]) as E2 by (vm_compute; reflexivity). assert (subkeys ex_torn 7 [] = [999]) as E7 by (vm_compute; reflexivity).
  split; [|split].
  - apply (may_loop _ _ 9); [intros H; lia | dev | right | exact L9]. exists 0%nat, [7], []. split; [cbn [app]; rewrite <- E2; constructor; exact D2|].
    split; [intros x [<-|[]]; exists []; exact D7 | apply loops_not; exact L9].
  - left. unfold in_dev. lia.
  - apply (steps_S _ _ 7); [apply (child_subkeys _ 2 [] 7 D2); rewrite E2; left; reflexivity|]. apply steps_1. apply (child_subkeys _ 7 [] 999 D7). rewrite E7. left. reflexivity.
Qed.
(** The well-formed volume of C51: INNER is found through its parent pointer, a later block of SUB. *)
Lemma ex_vol_may : may ex_vol (s2b "SUB/INNER") (Lists 9 []).
Proof.
  assert (next_block ex_vol 2 = 3) as N2 by (vm_compute; reflexivity). assert (next_block ex_vol 3 = 0) as N3 by (vm_compute; reflexivity).
  assert (next_block ex_vol 7 = 8) as N7 by (vm_compute; reflexivity). assert (next_block ex_vol 8 = 0) as N8 by (vm_compute; reflexivity).
  assert (is_dir ex_vol 2 [3]) as D2 by (split; [dev|]; rewrite N2; apply bchain_next; [lia | dev | rewrite N3; apply bchain_end]).
  assert (is_dir ex_vol 7 [8]) as D7 by (split; [dev|]; rewrite N7; apply bchain_next; [lia | dev | rewrite N8; apply bchain_end]).
  assert (is_dir ex_vol 9 []) as D9 by one_block.
  assert (subkeys ex_vol 2 [3] = [7]) as E2 by (vm_compute; reflexivity). assert (subkeys ex_vol 7 [8] = [9]) as E7 by (vm_compute; reflexivity). assert (subkeys ex_vol 9 [] = []) as E9 by (vm_compute; reflexivity).
  assert (in_order ex_vol [7; 9]) as O.
  { exists [3]. split; [exact D2|]. rewrite E2. change [7; 9] with ([7] ++ [9] ++ []). apply (levels_next _ _ [9]).
    - pose proof (below_cons ex_vol 7 [8] [] [] D7 (below_nil _)) as H. rewrite E7 in H. exact H.
    - apply (levels_next _ _ []); [|apply levels_end]. pose proof (below_cons ex_vol 9 [] [] [] D9 (below_nil _)) as H. rewrite E9 in H. exact H. }
  assert (owner ex_vol [7; 9] 8 7) as Ow.
  { exists [2], [9], [8]. split; [reflexivity|]. split; [exact D7|]. split; [left; reflexivity|]. intros k' l' [<-|[]] D' I. rewrite (is_dir_det _ _ _ _ D' D9) in I. destruct I. }
  assert (~ at_root ex_vol [7; 9] 8) as Nr.
  { intros [H|(pre & post & l & E & D & I & _)]; [lia|]. rewrite (is_dir_det _ _ _ _ D D2) in I. destruct I as [I|[]]. lia. }
  assert (parent_pointer ex_vol 7 = 2) as P7 by (vm_compute; reflexivity). assert (parent_pointer ex_vol 9 = 8) as P9 by (vm_compute; reflexivity).
  assert (path_to ex_vol [7; 9] (parent_pointer ex_vol 7) []) as T7 by (rewrite P7; apply path_root; left; reflexivity).
  assert (path_to ex_vol [7; 9] (parent_pointer ex_vol 9) (s2b "SUB")) as T9.
  { rewrite P9. assert (s2b "SUB" = join [] (header_name ex_vol 7)) as -> by (vm_compute; reflexivity). apply (path_up _ _ 8 7 []); [|exact T7].
    split; [exact Nr|]. right. split; [intros [H|[H|[]]]; lia | exact Ow]. }
  assert (zlen ex_vol = 143360) as L by (vm_compute; reflexivity).
  apply (may_list _ _ [7; 9]); [intros H; lia | exact O | | | exact D9].
  - intros x [<-|[<-|[]]]; eexists; eexists; split; eauto.
  - right. split; [vm_compute; discriminate|]. split; [right; left; reflexivity|]. exists (s2b "SUB"). split; [exact T9 | vm_compute; reflexivity].
Qed.
