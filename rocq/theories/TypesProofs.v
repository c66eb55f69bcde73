(** TypesProofs.v -- lemmas about package types and package errors. *)
From Verif Require Import GoBase GoLemmas TypesModel TypesSpec ErrorsModel.

Definition carries_b (i : FiletypeInfo) (name : bytes) : bool :=
  beq (fi_name i) name || beq (fi_three i) name || beq (fi_one i) name.
Lemma carries_b_iff i name : carries_b i name = true <-> carries i name.
Proof.
  unfold carries_b, carries. rewrite !orb_true_iff, !beq_eq. tauto.
Qed.

Lemma loop_ok l name t : FiletypeForName_loop l name = Ok t <->
  exists i, first_row l name i /\ fi_type i = t.
Proof.
  induction l as [|a l IH]; cbn [FiletypeForName_loop].
  - split; [discriminate|]. intros (i & (b & c & H & _) & _). destruct b; discriminate.
  - change (beq (fi_name a) name || beq (fi_three a) name || beq (fi_one a) name) with (carries_b a name).
    destruct (carries_b a name) eqn:E.
    + apply carries_b_iff in E. split.
      * intros H. injection H as <-. exists a. split; [|reflexivity].
        exists [], l. split; [reflexivity|]. split; [exact E|]. intros j [].
      * intros (i & (b & c & H & H1 & H2) & H3). destruct b as [|b0 b].
        -- injection H as -> _. rewrite H3. reflexivity.
        -- injection H as -> _. exfalso. exact (H2 b0 (or_introl eq_refl) E).
    + assert (E' : ~ carries a name) by (rewrite <- carries_b_iff, E; discriminate).
      rewrite IH. split; intros (i & (b & c & H & H1 & H2) & H3); exists i; (split; [|exact H3]).
      * exists (a :: b), c. rewrite H. split; [reflexivity|]. split; [exact H1|].
        intros j [<-|Hj]; [exact E'|exact (H2 j Hj)].
      * destruct b as [|b0 b].
        -- injection H as -> _. contradiction.
        -- injection H as -> H. exists b, c. split; [exact H|]. split; [exact H1|].
           intros j Hj. exact (H2 j (or_intror Hj)).
Qed.
Lemma loop_err l name : (exists e, FiletypeForName_loop l name = Err e) <-> forall i, In i l -> ~ carries i name.
Proof.
  induction l as [|a l IH]; cbn [FiletypeForName_loop].
  - split; [intros _ i []|]. intros _. eexists. reflexivity.
  - change (beq (fi_name a) name || beq (fi_three a) name || beq (fi_one a) name) with (carries_b a name).
    destruct (carries_b a name) eqn:E.
    + apply carries_b_iff in E. split; [intros [e H]; discriminate|].
      intros H. exfalso. exact (H a (or_introl eq_refl) E).
    + assert (E' : ~ carries a name) by (rewrite <- carries_b_iff, E; discriminate).
      rewrite IH. split.
      * intros H i [<-|Hi]; [exact E'|exact (H i Hi)].
      * intros H i Hi. exact (H i (or_intror Hi)).
Qed.

Fixpoint nodup_b (l : list bytes) : bool :=
  match l with [] => true | a :: l' => negb (existsb (beq a) l') && nodup_b l' end.
Lemma nodup_b_ok l : nodup_b l = true -> NoDup l.
Proof.
  induction l as [|a l IH]; cbn; intros H; [constructor|].
  apply andb_true_iff in H. destruct H as [H1 H2]. constructor; [|exact (IH H2)].
  intros Hi. apply negb_true_iff in H1. assert (existsb (beq a) l = true).
  { apply existsb_exists. exists a. split; [exact Hi|apply beq_refl]. }
  congruence.
Qed.

Lemma full_names_nodup : NoDup (map fi_name filetypeInfos).
Proof. apply nodup_b_ok. vm_compute. reflexivity. Qed.

Lemma full_names_resolve i : In i filetypeInfos -> FiletypeForName (fi_name i) = Ok (fi_type i).
Proof.
  intros H.
  assert (E : forallb (fun i => match FiletypeForName (fi_name i) with Ok t => t =? fi_type i | _ => false end) filetypeInfos = true)
    by (vm_compute; reflexivity).
  rewrite forallb_forall in E. specialize (E i H).
  destruct (FiletypeForName (fi_name i)); try discriminate. apply Z.eqb_eq in E. subst. reflexivity.
Qed.

Lemma byte_types b : 0 <= b < 256 -> (exists i, In i filetypeInfos /\ fi_type i = b) <-> b <> 0xF9.
Proof.
  intros Hb.
  assert (E : forallb (fun b => Bool.eqb (existsb (fun i => fi_type i =? b) filetypeInfos) (negb (b =? 0xF9))) (zrange 256) = true)
    by (vm_compute; reflexivity).
  rewrite forallb_forall in E. specialize (E b). rewrite In_zrange in E. specialize (E Hb).
  apply eqb_prop in E. split.
  - intros (i & Hi & Ht). assert (existsb (fun i => fi_type i =? b) filetypeInfos = true).
    { apply existsb_exists. exists i. split; [exact Hi|]. apply Z.eqb_eq. exact Ht. }
    rewrite H in E. intros ->. discriminate.
  - intros Hn. assert (negb (b =? 0xF9) = true) by (apply negb_true_iff, Z.eqb_neq; exact Hn).
    rewrite H in E. apply existsb_exists in E. destruct E as (i & Hi & Ht).
    exists i. split; [exact Hi|]. apply Z.eqb_eq. exact Ht.
Qed.

Lemma types_nodup : NoDup (map fi_type filetypeInfos).
Proof.
  assert (E : nodup_b (map (fun i => [fi_type i]) filetypeInfos) = true) by (vm_compute; reflexivity).
  apply nodup_b_ok in E. rewrite <- (map_map fi_type (fun t => [t])) in E.
  exact (NoDup_map_inv _ _ E).
Qed.

(** ** C61 *)
Lemma C61_lemma :
  (forall name t, FiletypeForName name = Ok t <->
     exists i, first_row (FiletypeInfos true) name i /\ fi_type i = t) /\
  (forall name, (exists e, FiletypeForName name = Err e) <->
     forall i, In i (FiletypeInfos true) -> ~ carries i name) /\
  (forall name, FiletypeForName name <> Panic) /\
  NoDup (map fi_name (FiletypeInfos true)) /\
  NoDup (map fi_type (FiletypeInfos true)) /\
  (forall i, In i (FiletypeInfos true) -> FiletypeForName (fi_name i) = Ok (fi_type i)) /\
  (forall b, 0 <= b < 256 -> ((exists i, In i (FiletypeInfos true) /\ fi_type i = b) <-> b <> 0xF9)) /\
  (forall i, In i (FiletypeInfos false) <-> In i (FiletypeInfos true) /\ fi_extra i = false).
Proof.
  split; [intros name t; apply loop_ok|].
  split; [intros name; apply loop_err|].
  split.
  { intros name. unfold FiletypeForName. generalize filetypeInfos. intros l.
    induction l as [|a l IH]; cbn [FiletypeForName_loop]; [discriminate|].
    destruct (_ || _); [discriminate|exact IH]. }
  split; [exact full_names_nodup|].
  split; [exact types_nodup|].
  split; [exact full_names_resolve|].
  split; [intros b Hb; apply byte_types; exact Hb|].
  intros i. unfold FiletypeInfos. rewrite filter_In, negb_true_iff. tauto.
Qed.

(** The names in parentheses in the printed description resolve to the type; the
    abbreviations in the table of `diskii filetypes` need not. *)
Definition row_ok (e : FiletypeInfo * bytes * bytes) : bool :=
  let '(info, names, str) := e in
  beq str (fi_desc info ++ s2b " (" ++ names ++ s2b ")") &&
  forallb (fun n => match FiletypeForName n with Ok t => t =? fi_type info | _ => false end) (words names).
Lemma rows_ok : forallb row_ok (annotate [] filetypeInfos) = true.
Proof. vm_compute. reflexivity. Qed.
Lemma row_ok_spec info names str : row_ok (info, names, str) = true ->
  str = fi_desc info ++ s2b " (" ++ names ++ s2b ")" /\
  forall n, In n (words names) -> FiletypeForName n = Ok (fi_type info).
Proof.
  unfold row_ok. intros E. apply andb_true_iff in E. destruct E as [E1 E2].
  apply beq_eq in E1. split; [exact E1|].
  intros n Hn. rewrite forallb_forall in E2. specialize (E2 n Hn).
  destruct (FiletypeForName n); try discriminate. apply Z.eqb_eq in E2. subst. reflexivity.
Qed.
Lemma find_row (l : list (FiletypeInfo * bytes * bytes)) f info names str :
  forallb row_ok l = true -> find (fun e => fi_type (fst (fst e)) =? f) (rev l) = Some (info, names, str) ->
  fi_type info = f /\ row_ok (info, names, str) = true.
Proof.
  intros E H. apply find_some in H. destruct H as [H1 H2]. cbn [fst] in H2. apply Z.eqb_eq in H2.
  rewrite <- in_rev in H1. rewrite forallb_forall in E. split; [exact H2|exact (E _ H1)].
Qed.
Lemma filetypeInfosMap_eq f :
  filetypeInfosMap f = find (fun e => fi_type (fst (fst e)) =? f) (rev (annotate [] filetypeInfos)).
Proof. reflexivity. Qed.
Lemma Filetype_String_eq f :
  Filetype_String f = match filetypeInfosMap f with Some (_, _, s) => Some s | None => None end.
Proof. reflexivity. Qed.
Lemma C73_lemma : forall f info names str,
  filetypeInfosMap f = Some (info, names, str) ->
  fi_type info = f /\ Filetype_String f = Some (fi_desc info ++ s2b " (" ++ names ++ s2b ")") /\
  forall n, In n (words names) -> FiletypeForName n = Ok f.
Proof.
  intros f info names str H. rewrite Filetype_String_eq, H. rewrite filetypeInfosMap_eq in H.
  pose proof (find_row (annotate [] filetypeInfos) f info names str rows_ok H) as [H1 H2].
  apply row_ok_spec in H2. destruct H2 as [H2 H3].
  split; [exact H1|]. split; [rewrite H2; reflexivity|]. intros n Hn. rewrite (H3 n Hn), H1. reflexivity.
Qed.
Lemma C73_table_lemma : exists i, In i (FiletypeInfos false) /\ fi_one i <> [] /\
  FiletypeForName (fi_one i) <> Ok (fi_type i).
Proof.
  exists (FTI FiletypeNewA (s2b "NewA") (s2b "") (s2b "A") (s2b "DOS 3.3 Type ""new A""") false).
  split; [|split; [discriminate|vm_compute; discriminate]].
  unfold FiletypeInfos. apply filter_In. split; [|reflexivity].
  unfold filetypeInfos. apply in_or_app. left. unfold filetypeInfos0.
  do 36 right. left. reflexivity.
Qed.
Lemma C73_abbrev_lemma : forall i, In i (FiletypeInfos true) ->
  (fi_three i <> [] -> FiletypeForName (fi_three i) = Ok (fi_type i)) /\
  (fi_one i <> [] -> FiletypeForName (fi_one i) = Ok (fi_type i) \/ fi_type i = 0x101 \/ fi_type i = 0x102).
Proof.
  intros i Hi. unfold FiletypeInfos in Hi.
  assert (E : forallb (fun i =>
     (beq (fi_three i) [] || match FiletypeForName (fi_three i) with Ok t => t =? fi_type i | _ => false end) &&
     (beq (fi_one i) [] || match FiletypeForName (fi_one i) with Ok t => t =? fi_type i | _ => false end
        || (fi_type i =? 0x101) || (fi_type i =? 0x102))) filetypeInfos = true) by (vm_compute; reflexivity).
  rewrite forallb_forall in E. specialize (E i Hi). apply andb_true_iff in E. destruct E as [E1 E2].
  split; intros Hn.
  - apply orb_true_iff in E1. destruct E1 as [E1|E1]; [apply beq_eq in E1; contradiction|].
    destruct (FiletypeForName (fi_three i)); try discriminate. apply Z.eqb_eq in E1. subst. reflexivity.
  - rewrite !orb_true_iff in E2. destruct E2 as [[[E2|E2]|E2]|E2].
    + apply beq_eq in E2. contradiction.
    + left. destruct (FiletypeForName (fi_one i)); try discriminate. apply Z.eqb_eq in E2. subst. reflexivity.
    + right. left. apply Z.eqb_eq. exact E2.
    + right. right. apply Z.eqb_eq. exact E2.
Qed.

(** ** C62 *)
Lemma C62_lemma : forall e : goerr,
  (V_IsOutOfSpace e = true <-> exists s, e = V_OutOfSpacef s) /\
  (V_IsFileExists e = true <-> exists s, e = V_FileExistsf s) /\
  (V_IsFileNotFound e = true <-> exists s, e = V_FileNotFoundf s) /\
  (forall s, V_IsOutOfSpace (VWrap s e) = false /\ V_IsFileExists (VWrap s e) = false /\
     V_IsFileNotFound (VWrap s e) = false).
Proof.
  intros e. split; [|split; [|split]].
  1-3: destruct e; vm_compute; (split; [intros H; try discriminate; eexists; reflexivity|intros [x H]; try discriminate; reflexivity]).
  intros s. split; [|split]; reflexivity.
Qed.
Lemma C62_model_lemma : forall g v, abstracts g v ->
  IsOutOfSpace g = V_IsOutOfSpace v /\ IsFileExists g = V_IsFileExists v /\ IsFileNotFound g = V_IsFileNotFound v.
Proof.
  intros g v H. destruct v; cbn in H; try contradiction.
  1-3: subst g; split; [|split]; reflexivity.
  all: destruct H as [t ->]; split; [|split]; reflexivity.
Qed.
Lemma short_list_lemma : forall i, In i (FiletypeInfos false) <->
  In i (FiletypeInfos true) /\ (fi_three i <> [] \/ fi_one i <> [] \/ fi_type i = 0 \/ fi_type i = 1).
Proof.
  intros i. unfold FiletypeInfos. rewrite filter_In.
  assert (E : forallb (fun i => Bool.eqb (negb (fi_extra i)) (negb (beq (fi_three i) []) || negb (beq (fi_one i) []) || (fi_type i =? 0) || (fi_type i =? 1))) filetypeInfos = true) by (vm_compute; reflexivity).
  rewrite forallb_forall in E. split; intros [Hi H]; (split; [exact Hi|]); specialize (E i Hi); apply Bool.eqb_prop in E.
  - rewrite H in E. symmetry in E. rewrite !orb_true_iff, !negb_true_iff in E. destruct E as [[[E|E]|E]|E]; [left|right; left|right; right; left; lia|right; right; right; lia]; intros X; rewrite X in E; discriminate E.
  - rewrite E. rewrite !orb_true_iff, !negb_true_iff. destruct H as [H|[H|[H|H]]].
    + left. left. left. destruct (beq (fi_three i) []) eqn:B; [apply beq_eq in B; contradiction|reflexivity].
    + left. left. right. destruct (beq (fi_one i) []) eqn:B; [apply beq_eq in B; contradiction|reflexivity].
    + left. right. lia.
    + right. lia.
Qed.
