(** RestProofs.v -- proofs about reorder, mksd and applesoft decode on any file, and about commands
    whose files cannot be read or written. *)
From Verif Require Import GoBase GoLemmas TypesModel DiskModel DiskSpec DiskProofs DiskOpenProofs SupermonModel SupermonSpec.
From Verif Require Import BasicModel BasicSpec CmdModel CmdSpec CmdProofs CmdStmtProofs SdSpec SdProofs MainModel NakedCmdSpec DetectSpec DetectProofs PrintProofs StatusSpec StatusProofs ListingSpec ListingProofs ImageSpec ImageProofs ImageExProofs RestSpec.
From Verif Require BasicProofs BasicStmtProofs ProdosSpec.
From Coq Require Import ZifyBool ZifyNat.
Ltac Zify.zify_post_hook ::= Z.div_mod_to_equations.
Local Opaque zrange zeros sub.

(** ** Reading *)
Lemma contents_unreadable w s : unreadable w s -> exists w1 e, run (FileContentsOrStdIn s) w = (w1, Err e) /\ same_files w w1 /\ w_stdout w1 = w_stdout w.
Proof.
  intros U. unfold FileContentsOrStdIn. destruct (beq s dash) eqn:E; cbn [run].
  - apply beq_eq in E. subst s. unfold sys_stdin. destruct (w_stdin w) as [c|] eqn:Es.
    + contradiction (U c). left. split; [reflexivity|exact Es].
    + cbn [run]. eexists _, _. split; [reflexivity|]. split; [apply same_files_refl|reflexivity].
  - destruct (w_fs w s) as [| |c r wr|] eqn:Ef; cbn [sys_read]; try (eexists _, _; split; [reflexivity|]; split; [apply same_files_refl|reflexivity]).
    destruct r; [|eexists _, _; split; [reflexivity|]; split; [apply same_files_refl|reflexivity]].
    contradiction (U c). right. split; [intros ->; rewrite beq_refl in E; discriminate|]. exists wr. exact Ef.
Qed.
Lemma open_as_contents iter k img order system : OpenFilename iter k img order system =
  pbind (FileContentsOrStdIn img) (fun bb => plift (OpenImage bb (image_name img) order system (DiskOperatorFactories iter k))).
Proof. unfold OpenFilename, FileContentsOrStdIn, image_name. change (s2b "-") with dash. destruct (beq img dash); reflexivity. Qed.
Lemma fails_run (p : prog unit) w w1 e : run p w = (w1, Err e) -> same_files w w1 -> w_stdout w1 = w_stdout w -> fails_cleanly p w.
Proof. intros H1 H2 H3. exists w1, e. split; [exact H1|]. split; [exact H2|exact H3]. Qed.
Lemma fails_now (e : gerror) w : fails_cleanly (perr e) w.
Proof. apply (fails_run _ w w e); [reflexivity|apply same_files_refl|reflexivity]. Qed.
Lemma unreadable_lemma : forall iter k p name w, takes iter k p name -> unreadable w name -> fails_cleanly p w.
Proof.
  intros iter k p name w T U.
  destruct T as [order system short img dir|order system img n|order system f img n|order system ft ow addr img tgt src|order img n addr start|a b ow img new|order img bin addr start|n loc raw];
    destruct (contents_unreadable w _ U) as (w1 & e & E & Hs & Ho).
  - apply (fails_run _ w w1 e); [|exact Hs|exact Ho]. unfold LsCmd_Run. rewrite run_pbind, open_as_contents, run_pbind, E. reflexivity.
  - apply (fails_run _ w w1 e); [|exact Hs|exact Ho]. unfold DumpCmd_Run. rewrite run_pbind, open_as_contents, run_pbind, E. reflexivity.
  - apply (fails_run _ w w1 e); [|exact Hs|exact Ho]. unfold DeleteCmd_Run. rewrite run_pbind, open_as_contents, run_pbind, E. reflexivity.
  - unfold PutCmd_Run. destruct (beq img dash && beq src dash); [apply fails_now|].
    apply (fails_run _ w w1 e); [|exact Hs|exact Ho]. rewrite run_pbind, open_as_contents, run_pbind, E. reflexivity.
  - unfold MkHelloCmd_Run. cbv zeta. destruct (negb (addr mod 256 =? 0)); [apply fails_now|]. destruct ((if start =? 65535 then addr else start) <? addr); [apply fails_now|].
    apply (fails_run _ w w1 e); [|exact Hs|exact Ho]. rewrite run_pbind, open_as_contents, run_pbind, E. reflexivity.
  - unfold ReorderCmd_Run, plift. destruct (getOrders img a new b) as [[f t]|e0|] eqn:G; cbn [pbind].
    + apply (fails_run _ w w1 e); [|exact Hs|exact Ho]. rewrite run_pbind, E. reflexivity.
    + apply fails_now.
    + exfalso. revert G. unfold getOrders. repeat (match goal with |- context [if ?x then _ else _] => destruct x end); discriminate.
  - apply (fails_run _ w w1 e); [|exact Hs|exact Ho]. unfold SDCmd_Run. rewrite run_pbind, E. reflexivity.
  - apply (fails_run _ w w1 e); [|exact Hs|exact Ho]. unfold DecodeCmd_Run. rewrite run_pbind, E. reflexivity.
Qed.

(** ** Writing *)
Lemma locked_run t (p : prog unit) : final_write t p -> forall w w2, locked w w2 t -> w_room w = None ->
  match snd (run p w2) with
  | Panic => exists w', run p w = (w', Panic) /\ same_files w w' /\ w_stdout w' = w_stdout w
  | _ => fails_cleanly p w
  end.
Proof.
  intros F w w2 (Ht & Hnw & Hw2 & Hn & Hno & Hsf & Hin & Hout & Hroom & Hor) Hr.
  assert (Hrd : forall m, sys_read (w_fs w2 m) = sys_read (w_fs w m)).
  { intros m. destruct (list_eq_dec Z.eq_dec m t) as [->|N]; [|rewrite (Hsf m N); reflexivity]. rewrite Hn. destruct (w_fs w t) as [| |c r wr|]; reflexivity. }
  assert (Hex : forall m, sys_notexist (w_fs w2 m) = sys_notexist (w_fs w m)).
  { intros m. destruct (list_eq_dec Z.eq_dec m t) as [->|N]; [|rewrite (Hsf m N); reflexivity]. rewrite Hn. destruct (w_fs w t) as [| |c r wr|]; try reflexivity. contradiction Hno. reflexivity. }
  assert (Hcw : can_write (w_fs w t) = false).
  { destruct (can_write (w_fs w t)) eqn:E; [|reflexivity]. contradiction Hnw. apply writable_iff. exact E. }
  clear Hnw Hw2 Hn Hno Hroom Hor Hsf.
  revert w w2 Hin Hout Hr Hrd Hex Hcw. induction p as [r0|n k IH|k IH|n k IH|n c k IH|c k IH]; cbn [final_write] in F; intros w w2 Hin Hout Hr Hrd Hex Hcw.
  - cbn [run snd]. destruct r0 as [x|e|]; [contradiction| |].
    + apply fails_now.
    + exists w. split; [reflexivity|]. split; [apply same_files_refl|reflexivity].
  - cbn [run]. rewrite Hrd. exact (IH _ (F _) w w2 Hin Hout Hr Hrd Hex Hcw).
  - cbn [run]. unfold fails_cleanly. cbn [run]. unfold sys_stdin. rewrite Hin. destruct (w_stdin w2) as [s|] eqn:Es2.
    + exact (IH _ (F _) (no_stdin w) (no_stdin w2) eq_refl Hout Hr Hrd Hex Hcw).
    + exact (IH _ (F _) w w2 ltac:(congruence) Hout Hr Hrd Hex Hcw).
  - cbn [run]. rewrite Hex. exact (IH _ (F _) w w2 Hin Hout Hr Hrd Hex Hcw).
  - destruct F as (-> & _ & Hk). cbn [run].
    assert (FC : fails_cleanly (PWrite t c k) w).
    { unfold fails_cleanly. cbn [run]. unfold sys_write. rewrite Hcw, Hk. cbn [run]. eexists _, _. split; [reflexivity|]. split; [apply same_files_refl|reflexivity]. }
    destruct (sys_write w2 t c) as [w3 r3] eqn:E3. rewrite Hk. cbn [run snd]. destruct r3; [exact FC|exact FC|].
    revert E3. unfold sys_write. destruct (can_write (w_fs w2 t)); [destruct (fits (w_room w2) c)|]; discriminate.
  - destruct F as (-> & _). contradiction Ht. reflexivity.
Qed.
Lemma unwritable_lemma : forall iter k p t w w2 w2' s, modifies iter k p t -> locked w w2 t -> w_room w = None ->
  main_run p w2 = (w2', s) -> exists w', main_run p w = (w', if s =? 2 then 2 else 1) /\ same_files w w' /\ w_stdout w' = w_stdout w.
Proof.
  intros iter k p t w w2 w2' s M L R E. pose proof (locked_run t p (modifies_final _ _ _ _ M) w w2 L R) as H.
  unfold main_run in *. destruct (run p w2) as [w3 r] eqn:E2. injection E as _ Es. cbn [snd] in H.
  destruct r as [x|e|]; cbn [main_status] in Es; subst s; cbn [Z.eqb Pos.eqb].
  - destruct H as (w' & e & E' & S & O). exists w'. rewrite E'. split; [reflexivity|]. split; assumption.
  - destruct H as (w' & e' & E' & S & O). exists w'. rewrite E'. split; [reflexivity|]. split; assumption.
  - destruct H as (w' & E' & S & O). exists w'. rewrite E'. split; [reflexivity|]. split; assumption.
Qed.

(** ** WriteOutput, in full *)
Lemma output_fails w t c ow : w_room w = None -> w_outroom w = None -> ~ can_output w t ow -> exists e, run (WriteOutput t c ow) w = (w, Err e).
Proof.
  intros R O N. unfold WriteOutput. destruct (beq t dash) eqn:E.
  - apply beq_eq in E. contradiction N. left. exact E.
  - assert (Ht : t <> s2b "-") by (intros ->; discriminate E).
    assert (W : ~ writable w t -> exists e, run (PWrite t c PRet) w = (w, Err e)).
    { intros Hw. cbn [run]. unfold sys_write. destruct (can_write (w_fs w t)) eqn:Ec; [contradiction Hw; apply writable_iff; exact Ec|]. cbn [run]. eexists. reflexivity. }
    destruct ow.
    + apply W. intros Hw. apply N. right. split; [exact Ht|]. split; [exact Hw|left; reflexivity].
    + cbn [run]. destruct (sys_notexist (w_fs w t)) eqn:Ex; cbn [negb]; [|cbn [run perr]; eexists; reflexivity].
      apply W. intros Hw. apply N. right. split; [exact Ht|]. split; [exact Hw|]. right. rewrite exists_iff, Ex. discriminate.
Qed.
Lemma output_dec w t ow : can_output w t ow \/ ~ can_output w t ow.
Proof.
  unfold can_output. destruct (list_eq_dec Z.eq_dec t (s2b "-")) as [E|E]; [left; left; exact E|].
  destruct (can_write (w_fs w t)) eqn:Ew.
  2:{ right. intros [X|(_ & X & _)]; [contradiction|]. apply writable_iff in X. congruence. }
  destruct ow; [left; right; split; [exact E|]; split; [apply writable_iff; exact Ew|left; reflexivity]|].
  destruct (sys_notexist (w_fs w t)) eqn:Ex.
  - left. right. split; [exact E|]. split; [apply writable_iff; exact Ew|]. right. rewrite exists_iff, Ex. discriminate.
  - right. intros [X|(_ & _ & [X|X])]; [contradiction|discriminate|]. apply X. apply exists_iff. exact Ex.
Qed.
Lemma can_output_files w w1 t ow : same_files w w1 -> can_output w t ow <-> can_output w1 t ow.
Proof. intros S. unfold can_output, writable, file_exists. rewrite (S t). reflexivity. Qed.
Lemma input_dec w name : (exists c, input w name c) \/ unreadable w name.
Proof.
  destruct (run (FileContentsOrStdIn name) w) as [w1 [c|e|]] eqn:E.
  - left. exists c. apply (run_contents _ _ _ _ E).
  - right. intros c H. destruct (run_contents_ok w name c H) as (w2 & E' & _). congruence.
  - contradiction (run_contents_not_panic w name). rewrite E. reflexivity.
Qed.
Lemma input_one w name c c' : input w name c -> input w name c' -> c = c'.
Proof. intros H H'. destruct (run_contents_ok w name c H) as (w1 & E & _). destruct (run_contents_ok w name c' H') as (w1' & E' & _). congruence. Qed.

(** ** reorder *)
Definition reorder_force (new : bytes) (ow : bool) : bool := match new with [] => true | _ => ow end.
Lemma reorder_exact : forall a b ow img new w, order_flag a -> order_flag b -> w_room w = None -> w_outroom w = None ->
  (exists c f t d w', input w img c /\ orders_in_force img a new b f t /\ reordered c f t d /\
     can_output w (reorder_target img new) (match new with [] => true | _ => ow end) /\
     run (ReorderCmd_Run a b ow img new) w = (w', Ok tt) /\ output w w' (reorder_target img new) d) \/
  (~ (exists c f t, input w img c /\ orders_in_force img a new b f t /\ zlen c = 143360 /\
      can_output w (reorder_target img new) (match new with [] => true | _ => ow end)) /\
   fails_cleanly (ReorderCmd_Run a b ow img new) w).
Proof.
  intros a b ow img new w Fa Fb R O.
  destruct (input_dec w img) as [[c Hi]|U].
  2:{ right. split; [intros (c & f & t & Hi & _); exact (U c Hi)|]. exact (unreadable_lemma (fun l => l) 0 _ img w (tk_reorder _ _ a b ow img new) U). }
  destruct (C66_lemma img a new b Fa Fb) as (G1 & G2 & G3).
  destruct (getOrders img a new b) as [[f t]|e|] eqn:G.
  - assert (OF : orders_in_force img a new b f t) by (apply (G1 f t); reflexivity). destruct (G3 f t eq_refl) as (Oo & _).
    destruct (Z.eq_dec (zlen c) 143360) as [L|L].
    + destruct (reorder_run_do a b ow img new w f t c G Oo Hi L) as (w1 & d & Hs & Hso & Hr1 & Ho1 & Hd & Er).
      destruct (output_dec w (reorder_target img new) (match new with [] => true | _ => ow end)) as [C|C].
      * left. assert (C1 := proj1 (can_output_files w w1 _ _ Hs) C).
        destruct (run_output_ok w1 (reorder_target img new) d _ ltac:(congruence) ltac:(congruence) C1) as (w' & Ew).
        exists c, f, t, d, w'. split; [exact Hi|]. split; [exact OF|]. split; [exact Hd|]. split; [exact C|]. split; [rewrite Er; exact Ew|].
        apply (output_files _ w1); [exact Hs|exact Hso|]. exact (run_output _ _ _ _ _ Ew).
      * right. split; [intros (c' & f' & t' & _ & _ & _ & X); contradiction|].
        destruct (output_fails w1 (reorder_target img new) d (match new with [] => true | _ => ow end) ltac:(congruence) ltac:(congruence)) as (e & Ee).
        { intros X. apply C. apply (can_output_files w w1 _ _ Hs). exact X. }
        apply (fails_run _ w w1 e); [rewrite Er; exact Ee|exact Hs|exact Hso].
    + right. split; [intros (c' & f' & t' & Hi' & _ & L' & _); rewrite (input_one _ _ _ _ Hi' Hi) in L'; contradiction|].
      destruct (run_contents_ok w img c Hi) as (w1 & Ec & Hs & Hso & _).
      destruct (other_interleave f t Oo) as (la & lb & pa & pb & E1 & E2 & _).
      destruct (Swizzle c la) as [x|e|] eqn:Es.
      * exfalso. apply L. unfold Swizzle in Es. destruct (negb (zlen c =? FloppyDiskBytes)) eqn:Z0; [discriminate|]. unfold FloppyDiskBytes in Z0. cbn in Z0. lia.
      * apply (fails_run _ w w1 e); [|exact Hs|exact Hso]. unfold ReorderCmd_Run. rewrite run_pbind. unfold plift. cbn [run]. rewrite G. rewrite run_pbind, Ec, E1, E2, run_pbind. cbn [run]. rewrite Es. reflexivity.
      * exfalso. revert Es. unfold Swizzle. destruct (negb (zlen c =? FloppyDiskBytes)) eqn:Z0; [discriminate|]. unfold FloppyDiskBytes in Z0. cbn in Z0. lia.
  - right. split.
    + intros (c' & f & t & _ & (x & y & K & Ch) & _). destruct G2 as (G2 & _). exact (G2 (ex_intro _ e eq_refl) x y f t K Ch).
    + apply (fails_run _ w w e); [|apply same_files_refl|reflexivity]. unfold ReorderCmd_Run, plift. rewrite G. reflexivity.
  - exfalso. revert G. unfold getOrders. repeat (match goal with |- context [if ?x then _ else _] => destruct x end); discriminate.
Qed.

(** ** mksd *)
Lemma sd_order_ex order name : order_flag order -> exists o, sd_image_order order name o.
Proof.
  intros F. destruct (list_eq_dec Z.eq_dec order (s2b "auto")) as [E|E]; [|exists order; apply so_flag; exact E].
  destruct (name_order_ex name) as [[o|] H]; [exists o; apply so_name; assumption|exists (s2b "do"); apply so_default; assumption].
Qed.
Lemma mksd_exact : forall order img bin address start w,
  order_flag order -> 0 <= address < 65536 -> 0 <= start < 65536 -> w_room w = None -> w_outroom w = None ->
  (exists c o d raw w', input w bin c /\ sd_accepts c address (sd_start address start) /\ can_output w img true /\
     sd_image_order order img o /\ sd_disk c address (sd_start address start) d /\ reordered d (s2b "raw") o raw /\
     run (SDCmd_Run order img bin address start) w = (w', Ok tt) /\ output w w' img raw) \/
  (~ (exists c, input w bin c /\ sd_accepts c address (sd_start address start) /\ can_output w img true) /\
   fails_cleanly (SDCmd_Run order img bin address start) w).
Proof.
  intros order img bin address start w F Ha Hst R O.
  destruct (input_dec w bin) as [[c Hi]|U].
  2:{ right. split; [intros (c & Hi & _); exact (U c Hi)|]. exact (unreadable_lemma (fun l => l) 0 _ bin w (tk_mksd _ _ order img bin address start) U). }
  destruct (sd_order_ex order img F) as (o & Ho). destruct (C67_lemma order img c address start o F Ho Ha Hst) as (A1 & A2 & A3 & _).
  destruct (run_contents_ok w bin c Hi) as (w1 & E & Hs & Hso & Hr & Hor).
  assert (Er : run (SDCmd_Run order img bin address start) w =
    match sd_image order img c address start with
    | Ok raw => run (WriteOutput img raw true) w1 | Err e => (w1, Err e) | Panic => (w1, Panic) end).
  { unfold SDCmd_Run. rewrite run_pbind, E, run_pbind. unfold plift. cbn [run]. destruct (sd_image order img c address start); reflexivity. }
  destruct (sd_image order img c address start) as [raw|e|] eqn:Ei.
  - assert (Acc := proj1 A1 (ex_intro _ raw eq_refl)). destruct (A3 raw eq_refl) as (d & Hd & Hraw).
    destruct (output_dec w img true) as [C|C].
    + left. destruct (run_output_ok w1 img raw true ltac:(congruence) ltac:(congruence) (proj1 (can_output_files w w1 _ _ Hs) C)) as (w' & Ew).
      exists c, o, d, raw, w'. split; [exact Hi|]. split; [exact Acc|]. split; [exact C|]. split; [exact Ho|]. split; [exact Hd|]. split; [exact Hraw|]. split; [rewrite Er; exact Ew|].
      apply (output_files _ w1); [exact Hs|exact Hso|]. exact (run_output _ _ _ _ _ Ew).
    + right. split; [intros (c' & _ & _ & X); contradiction|].
      destruct (output_fails w1 img raw true ltac:(congruence) ltac:(congruence)) as (e & Ee); [intros X; apply C; apply (can_output_files w w1 _ _ Hs); exact X|].
      apply (fails_run _ w w1 e); [rewrite Er; exact Ee|exact Hs|exact Hso].
  - right. assert (Nacc := proj1 A2 (ex_intro _ e eq_refl)). split; [intros (c' & Hi' & X & _); rewrite (input_one _ _ _ _ Hi' Hi) in X; contradiction|].
    apply (fails_run _ w w1 e); [exact Er|exact Hs|exact Hso].
  - exfalso. assert (N1 : ~ sd_accepts c address (sd_start address start)) by (intros X; apply A1 in X; destruct X; discriminate).
    apply A2 in N1. destruct N1; discriminate.
Qed.

(** ** decode *)
Lemma body_ex f : bytes_ok f -> exists p, body f p.
Proof.
  intros B. unfold body, has_header. destruct (Z_le_dec 2 (zlen f)) as [H2|H2]; [|exists f; right; split; [intros [X _]; contradiction|reflexivity]].
  destruct (Z.eq_dec (word f 0) (zlen f - 2)) as [E|E]; [exists (sub f 2 (zlen f)); left; split; [split; [exact H2|left; exact E]|]|].
  { rewrite <- sub_app_split by lia. rewrite sub_full. reflexivity. }
  destruct (Z.eq_dec (word f 0) (zlen f - 3)) as [E'|E']; [exists (sub f 2 (zlen f)); left; split; [split; [exact H2|right; exact E']|]|].
  { rewrite <- sub_app_split by lia. rewrite sub_full. reflexivity. }
  exists f. right. split; [intros [_ [X|X]]; contradiction|reflexivity].
Qed.
Lemma body_one f p q : body f p -> body f q -> p = q.
Proof.
  intros [[H1 E1]|[H1 E1]] [[H2 E2]|[H2 E2]]; try contradiction; [|congruence].
  apply (app_inv_head (sub f 0 2)). congruence.
Qed.
Lemma follows_lines p loc a ls b : follows p loc a ls b -> bytes_ok p -> Forall line_ok ls.
Proof.
  intros H B. induction H as [|a nx l ls b _ (H1 & H2 & H3 & _ & H4 & _ & _ & H5) _ IH]; [constructor|]. constructor; [|exact IH].
  split; [|exact H5]. rewrite H4. unfold is_u16, word. pose proof (bytes_ok_znth p (a - loc + 2) B) as X1. pose proof (bytes_ok_znth p (a - loc + 2 + 1) B) as X2. unfold is_byte in *. lia.
Qed.
Lemma body_bytes f p : bytes_ok f -> body f p -> bytes_ok p.
Proof. intros B [[_ E]|[_ ->]]; [|exact B]. unfold bytes_ok in B. rewrite E in B. apply Forall_app in B. apply B. Qed.
Lemma decimal_one : forall s n s', decimal n s -> decimal n s' -> s = s'.
Proof.
  assert (Pos : forall s acc, Forall (fun c => 48 <= c <= 57) s -> 0 < acc -> 0 < value s acc).
  { induction s as [|c s IH]; intros acc F H; [exact H|]. inversion F; subst. cbn [value]. apply IH; [assumption|lia]. }
  assert (Pos2 : forall s, Forall (fun c => 48 <= c <= 57) s -> s <> [] -> (hd 0 s = 48 -> s = [48]) -> 1 < zlen s -> 0 < value s 0).
  { intros [|c s] F N Z0 L; [contradiction|]. cbn [hd] in Z0. cbn [value]. inversion F; subst. apply Pos; [assumption|].
    destruct (Z.eq_dec c 48) as [E|E]; [|lia]. specialize (Z0 E). injection Z0 as _ ->. discriminate L. }
  assert (Pos0 : forall s, Forall (fun c => 48 <= c <= 57) s -> s <> [] -> hd 0 s <> 48 -> 0 < value s 0).
  { intros [|c s] F N Z0; [contradiction|]. cbn [hd] in Z0. cbn [value]. inversion F; subst. apply Pos; [assumption|lia]. }
  intros s. induction s as [|c s IH] using rev_ind; intros n s' (N & F & V & Z0) (N' & F' & V' & Z0'); [contradiction|].
  destruct (exists_last N') as (t & c' & ->). rewrite BasicProofs.value_app in V, V'. cbn [value] in V, V'.
  apply Forall_app in F, F'. destruct F as [F Fc], F' as [F' Fc']. inversion Fc; subst. inversion Fc'; subst.
  assert (c = c') as <- by lia. f_equal.
  assert (Ev : value s 0 = value t 0) by lia.
  assert (H0 : s <> [] -> hd 0 s <> 48) by (intros Hs Hh; destruct s as [|x s]; [contradiction|]; cbn [hd app] in *; specialize (Z0 Hh); injection Z0 as _ Z0; destruct s; discriminate).
  assert (H0' : t <> [] -> hd 0 t <> 48) by (intros Hs Hh; destruct t as [|x t]; [contradiction|]; cbn [hd app] in *; specialize (Z0' Hh); injection Z0' as _ Z0'; destruct t; discriminate).
  destruct (list_eq_dec Z.eq_dec s []) as [->|Ns], (list_eq_dec Z.eq_dec t []) as [->|Nt].
  - reflexivity.
  - pose proof (Pos0 t F' Nt (H0' Nt)). cbn [value] in Ev. lia.
  - pose proof (Pos0 s F Ns (H0 Ns)). cbn [value] in Ev. lia.
  - apply (IH (value s 0)); split; try assumption; (split; [assumption|]); (split; [reflexivity || (symmetry; exact Ev)|]); intros Hh; [contradiction (H0 Ns)|contradiction (H0' Nt)].
Qed.
Lemma escaped_one s t t' : escaped s t -> escaped s t' -> t = t'.
Proof. intros H. revert t'. induction H as [|c s t N H IH|c s t N H IH]; intros t' H'; inversion H'; subst; try contradiction; [reflexivity|f_equal; apply IH; assumption|f_equal; apply IH; assumption]. Qed.
Lemma listing_one ls raw t t' : listing ls raw t -> listing ls raw t' -> t = t'.
Proof.
  intros (ts & H & E) (ts' & H' & E'). assert (ts = ts') as <-.
  { clear E E'. revert ts' H'. induction H as [|l x ls ts (s & D & ->) _ IH]; intros ts' H'; inversion H' as [|? x' ? ? (s' & D' & ->) H2]; subst; [reflexivity|].
    rewrite (decimal_one _ _ _ D D'). f_equal. apply IH. assumption. }
  destruct raw; [congruence|]. exact (escaped_one _ _ _ E E').
Qed.
Lemma decode_run k f loc raw file w : input w file f -> w_outroom w = None -> exists w1, same_files w w1 /\ w_stdout w1 = w_stdout w /\
  run (DecodeCmd_Run k file loc raw) w =
  match returned (applesoft_Decode k f loc) with
  | Ok ls => (add_out w1 (text_of_lines ls raw), Ok tt) | Err e => (w1, Err e) | Panic => (w1, Panic) end.
Proof.
  intros Hin Ho. destruct (run_contents_ok w file f Hin) as (w1 & Er & Hsf & Hso & _ & Hor). exists w1. split; [exact Hsf|]. split; [exact Hso|].
  unfold DecodeCmd_Run. rewrite run_pbind, Er, run_pbind. unfold plift. cbn [run]. destruct (returned (applesoft_Decode k f loc)) as [ls|e|]; try reflexivity.
  cbn [run]. unfold sys_stdout. rewrite Hor, Ho. reflexivity.
Qed.
Lemma decode_exact : forall file f loc raw w, bytes_ok f -> is_u16 loc -> input w file f -> w_outroom w = None ->
  (exists e, decode_shows f loc raw e) /\ (forall e, decode_shows f loc raw e -> ends_in (fun k => DecodeCmd_Run k file loc raw) w e).
Proof.
  intros file f loc raw w B U Hin Ho. destruct (body_ex f B) as (p & Hp).
  destruct (BasicProofs.C56_four_outcomes f p loc B U Hp) as (D & P & O & T).
  pose proof (fun k => decode_run k f loc raw file w Hin Ho) as R.
  assert (Fix : forall k r, applesoft_Decode k f loc = Some r -> eventually (fun j => applesoft_Decode j f loc = Some r)).
  { intros k r E. exists k. intros j Hj. exact (BasicProofs.Decode_mono f loc k r E j Hj). }
  assert (Same : forall k r k' r', applesoft_Decode k f loc = Some r -> applesoft_Decode k' f loc = Some r' -> r = r').
  { intros k r k' r' E E'. pose proof (BasicProofs.Decode_mono f loc k r E (Nat.max k k') ltac:(lia)). pose proof (BasicProofs.Decode_mono f loc k' r' E' (Nat.max k k') ltac:(lia)). congruence. }
  assert (NF : forall ls a, follows p loc loc ls a -> ends_at p loc a -> exists k, applesoft_Decode k f loc = Some (Ok ls)).
  { intros ls a H1 H2. apply (O ls). exists a. split; assumption. }
  assert (Er : forall k e, applesoft_Decode k f loc = Some (Err e) -> decode_shows f loc raw Errs).
  { intros k e E. apply (de_lost _ _ _ p Hp).
    - intros ls a H1 H2. destruct (NF ls a H1 H2) as [k' E']. pose proof (Same _ _ _ _ E E') as X. discriminate X.
    - intros ls a ls' H1 H2. destruct ls' as [|x ls']; [reflexivity|]. exfalso.
      assert (X : diverges (fun k => applesoft_Decode k f loc)) by (apply D; exists ls, a, (x :: ls'); split; [exact H1|]; split; [discriminate|exact H2]).
      specialize (X k). cbv beta in X. congruence.
    - intros ls H1. destruct (Z.eq_dec (loc - 1) 0) as [E0|E0]; [left; exact E0|]. destruct (list_eq_dec Z.eq_dec p []) as [E1|E1]; [right; exact E1|].
      exfalso. destruct (proj2 P (ex_intro _ ls (conj H1 (conj E0 E1)))) as [k' E']. pose proof (Same _ _ _ _ E E') as X. discriminate X. }
  split.
  - destruct T as [T|T].
    + pose proof (proj1 D T) as (ls & a & ls' & H1 & H2 & H3). exists Crashes. exact (de_cycle _ _ _ p ls a ls' Hp H1 H2 H3).
    + destruct T as (n & r & _ & T). specialize (T n (le_n n)). destruct r as [ls|e|].
      * pose proof (proj1 (O ls) (ex_intro _ n T)) as (a & H1 & H2). exists (Prints (text_of_lines ls raw)). apply (de_lines _ _ _ p ls a); try assumption.
        apply listing_of. exact (follows_lines _ _ _ _ _ H1 (body_bytes f p B Hp)).
      * exists Errs. exact (Er n e T).
      * pose proof (proj1 P (ex_intro _ n T)) as (ls & H1 & H2 & H3). exists Crashes. exact (de_before _ _ _ p ls Hp H1 H2 H3).
  - intros e H. destruct H as [q ls a out Hq H1 H2 H3|q ls a ls' Hq H1 H2 H3|q ls Hq H1 H2 H3|q Hq H1 H2 H3]; pose proof (body_one _ _ _ Hq Hp); subst q; cbn [ends_in].
    + destruct (NF ls a H1 H2) as [k E]. eapply eventually_impl; [|exact (Fix k _ E)]. intros j Ej. destruct (R j) as (w1 & S & So & Rj). rewrite Ej in Rj. cbn [returned] in Rj.
      exists (add_out w1 (text_of_lines ls raw)). split; [exact Rj|]. split; [intros m; exact (S m)|]. cbn [add_out w_stdout]. rewrite So. f_equal.
      apply (listing_one ls raw); [|exact H3]. apply listing_of. exact (follows_lines _ _ _ _ _ H1 (body_bytes f p B Hp)).
    + exists 0%nat. intros j _. destruct (R j) as (w1 & S & So & Rj).
      assert (X : diverges (fun k => applesoft_Decode k f loc)) by (apply D; exists ls, a, ls'; split; [exact H1|]; split; [exact H2|exact H3]). specialize (X j). cbv beta in X. rewrite X in Rj. cbn [returned] in Rj.
      exists w1. split; [exact Rj|]. split; [exact S|exact So].
    + destruct (proj2 P (ex_intro _ ls (conj H1 (conj H2 H3)))) as [k E]. eapply eventually_impl; [|exact (Fix k _ E)]. intros j Ej. destruct (R j) as (w1 & S & So & Rj). rewrite Ej in Rj. cbn [returned] in Rj.
      exists w1. split; [exact Rj|]. split; [exact S|exact So].
    + destruct T as [T|T].
      { pose proof (proj1 D T) as (ls & a & ls' & G1 & G2 & G3). contradiction (G2 (H2 ls a ls' G1 G3)). }
      destruct T as (n & r & _ & T). specialize (T n (le_n n)). destruct r as [ls|e|].
      * pose proof (proj1 (O ls) (ex_intro _ n T)) as (a & G1 & G2). contradiction (H1 ls a G1 G2).
      * eapply eventually_impl; [|exact (Fix n _ T)]. intros j Ej. destruct (R j) as (w1 & S & So & Rj). rewrite Ej in Rj. cbn [returned] in Rj. exists w1, e. split; [exact Rj|]. split; [exact S|exact So].
      * pose proof (proj1 P (ex_intro _ n T)) as (ls & G1 & G2 & G3). destruct (H3 ls G1); contradiction.
Qed.

(** ** put without contents *)
Lemma put_source_lemma : forall (iter : list (Z * ProdosModel.Subdirectory) -> list (Z * ProdosModel.Subdirectory)) img order system c ft ow addr tgt src w,
  bytes_ok c -> ProdosSpec.an_order iter -> input w img c -> unreadable w src -> img <> s2b "-" \/ src <> s2b "-" ->
  exists r, opening img order system c r /\
    eventually (fun k => exits (PutCmd_Run iter k order system ft ow addr img tgt src) w (match r with Stuck => 2 | _ => 1 end)).
Proof.
  intros iter img order system c ft ow addr tgt src w B Hi Hin U Nd.
  destruct (open_run_gen iter w img order system c Hin) as (w1 & Er & Hsf & Hso & Hor1).
  assert (Edash : beq img dash && beq src dash = false).
  { destruct (beq img dash) eqn:B1; [|reflexivity]. destruct (beq src dash) eqn:B2; [|reflexivity]. apply beq_eq in B1, B2. destruct Nd; contradiction. }
  assert (U1 : unreadable w1 src).
  { intros s [[E H]|[E [wr H]]].
    - subst src. destruct Hin as [[E' _]|[N' [wr' H']]]; [destruct Nd; contradiction|].
      apply (U s). left. split; [reflexivity|].
      specialize (Er 0%nat). rewrite open_as_contents, run_pbind in Er. unfold FileContentsOrStdIn in Er. change dash with (s2b "-") in Er. rewrite (beq_false _ _ N') in Er. cbn [run] in Er. rewrite H' in Er. cbn [sys_read run plift] in Er.
      assert (w = w1) by congruence. congruence.
    - apply (U s). right. split; [exact E|]. exists wr. rewrite <- (Hsf src). exact H. }
  destruct (contents_unreadable w1 src U1) as (w3 & e3 & E3 & S3 & _).
  assert (S : same_files w w3) by (intros m; rewrite (S3 m); apply Hsf).
  destruct (opening_total_lemma iter img order system c B Hi) as (r & O & H). exists r. split; [exact O|].
  destruct r as [sys d o| |]; (eapply eventually_impl; [|exact H]); cbv beta; intros k.
  - intros (op & E & _). apply (exits_err _ _ w3 e3); [|exact S]. unfold PutCmd_Run. rewrite Edash, run_pbind, Er, E, run_pbind, E3. reflexivity.
  - intros (e & E). apply (exits_err _ _ w1 e); [|exact Hsf]. unfold PutCmd_Run. rewrite Edash, run_pbind, Er, E. reflexivity.
  - intros E. apply (exits_panic _ _ w1); [|exact Hsf]. unfold PutCmd_Run. rewrite Edash, run_pbind, Er, E. reflexivity.
Qed.
