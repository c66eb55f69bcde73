(** AgainExProofs.v -- a device image on which no visit matters. *)
From Verif Require AgainProofs.
From Verif Require Import GoBase GoLemmas DiskModel DiskSpec TypesModel ProdosModel ProdosSpec ProdosCodecProofs ProdosBitmapProofs ProdosProofs ProdosStmtProofs VolumeSpec VolumeProofs VolumeExProofs ImageSpec ImageProofs AgainSpec.
From Coq Require Import ZifyBool ZifyNat Permutation.
Ltac Zify.zify_post_hook ::= Z.div_mod_to_equations.

(** The volume of VolumeExProofs.v as a device with one block more: SUB, and INNER in it. *)
Definition ex_dev : bytes := ex_vol ++ zeros 512.
Lemma ex_dev_settled : bytes_ok ex_dev /\ zlen ex_dev = 143872 /\ settled ex_dev /\ one_called ex_dev (s2b "SUB/INNER") /\ may ex_dev (s2b "SUB/INNER") (Lists 9 []).
Proof.
  assert (next_block ex_dev 2 = 3) as N2 by (vm_compute; reflexivity). assert (next_block ex_dev 3 = 0) as N3 by (vm_compute; reflexivity).
  assert (next_block ex_dev 7 = 8) as N7 by (vm_compute; reflexivity). assert (next_block ex_dev 8 = 0) as N8 by (vm_compute; reflexivity).
  assert (is_dir ex_dev 2 [3]) as D2 by (split; [dev|]; rewrite N2; apply bchain_next; [lia | dev | rewrite N3; apply bchain_end]).
  assert (is_dir ex_dev 7 [8]) as D7 by (split; [dev|]; rewrite N7; apply bchain_next; [lia | dev | rewrite N8; apply bchain_end]).
  assert (is_dir ex_dev 9 []) as D9 by one_block.
  assert (subkeys ex_dev 2 [3] = [7]) as E2 by (vm_compute; reflexivity). assert (subkeys ex_dev 7 [8] = [9]) as E7 by (vm_compute; reflexivity). assert (subkeys ex_dev 9 [] = []) as E9 by (vm_compute; reflexivity).
  assert (in_order ex_dev [7; 9]) as O.
  { exists [3]. split; [exact D2|]. rewrite E2. change [7; 9] with ([7] ++ [9] ++ []). apply (levels_next _ _ [9]).
    - pose proof (below_cons ex_dev 7 [8] [] [] D7 (below_nil _)) as H. rewrite E7 in H. exact H.
    - apply (levels_next _ _ []); [|apply levels_end]. pose proof (below_cons ex_dev 9 [] [] [] D9 (below_nil _)) as H. rewrite E9 in H. exact H. }
  assert (owner ex_dev [7; 9] 8 7) as Ow.
  { exists [2], [9], [8]. split; [reflexivity|]. split; [exact D7|]. split; [left; reflexivity|]. intros k' l' [<-|[]] D' I. rewrite (is_dir_det _ _ _ _ D' D9) in I. destruct I. }
  assert (~ at_root ex_dev [7; 9] 8) as Nr.
  { intros [H|(pre & post & l & E & D & I & _)]; [lia|]. rewrite (is_dir_det _ _ _ _ D D2) in I. destruct I as [I|[]]. lia. }
  assert (parent_pointer ex_dev 7 = 2) as P7 by (vm_compute; reflexivity). assert (parent_pointer ex_dev 9 = 8) as P9 by (vm_compute; reflexivity).
  assert (path_to ex_dev [7; 9] (parent_pointer ex_dev 7) []) as T7 by (rewrite P7; apply path_root; left; reflexivity).
  assert (path_to ex_dev [7; 9] (parent_pointer ex_dev 9) (s2b "SUB")) as T9.
  { rewrite P9. assert (s2b "SUB" = join [] (header_name ex_dev 7)) as -> by (vm_compute; reflexivity). apply (path_up _ _ 8 7 []); [|exact T7].
    split; [exact Nr|]. right. split; [intros [H|[H|[]]]; lia | exact Ow]. }
  assert (zlen ex_dev = 143872) as L by (vm_compute; reflexivity).
  assert (bytes_ok ex_dev) as B by byt. assert (bitmap_on_device ex_dev) as Hb by (intros H; lia).
  assert (full_name ex_dev [7; 9] 7 (s2b "SUB")) as F7 by (exists []; split; [exact T7|vm_compute; reflexivity]).
  assert (full_name ex_dev [7; 9] 9 (s2b "SUB/INNER")) as F9 by (exists (s2b "SUB"); split; [exact T9|vm_compute; reflexivity]).
  assert (forall x, In x [7; 9] -> exists n, full_name ex_dev [7; 9] x n) as N by (intros x [<-|[<-|[]]]; eexists; eassumption).
  assert (forall d, as_volume ex_dev d -> d = ex_dev) as V.
  { intros d [[_ ->]|(o & R)]; [reflexivity|]. destruct R as (R & _). lia. }
  split; [exact B|]. split; [exact L|]. split; [|split].
  - intros d Hd [MF MH]. rewrite (V d Hd) in *. pose proof (may_list ex_dev [] [7; 9] 2 [3] Hb O N (or_introl (conj eq_refl eq_refl)) D2) as M.
    pose proof (root_one ex_dev 2 [3] Fails B ltac:(lia) M MF). discriminate.
  - intros d ks k k' _ Hd O' I I' F F'. rewrite (V d Hd) in *. rewrite (AgainProofs.in_order_det ex_dev ks [7; 9] O' O) in *.
    assert (forall x n, full_name ex_dev [7; 9] x n -> forall m, full_name ex_dev [7; 9] x m -> n = m) as FD by (intros x n H m H'; eapply (full_name_det ex_dev [7; 9] B ltac:(lia) Hb O); eassumption).
    destruct I as [<-|[<-|[]]]; destruct I' as [<-|[<-|[]]]; try reflexivity.
    + pose proof (FD _ _ F7 _ F) as X. vm_compute in X. discriminate X.
    + pose proof (FD _ _ F7 _ F') as X. vm_compute in X. discriminate X.
  - apply (may_list _ _ [7; 9] 9 [] Hb O N); [right; split; [discriminate|]; split; [right; left; reflexivity|exact F9]|exact D9].
Qed.
