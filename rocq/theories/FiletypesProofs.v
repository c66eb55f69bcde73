(** FiletypesProofs.v -- proofs for C86: the columns are no wider than they have to be. *)
From Verif Require Import GoBase GoLemmas TypesModel TypesSpec CmdModel CmdSpec DetectSpec MainModel MainSpec MainProofs.
From Coq Require Import ZifyBool ZifyNat.
Ltac Zify.zify_post_hook ::= Z.div_mod_to_equations.

Lemma fold_max_in l : l <> [] -> Forall (fun x => 0 < x) l -> In (fold_right Z.max 0 l) l.
Proof.
  induction l as [|x l IH]; intros Hn H; [elim Hn; reflexivity|]. inversion H as [|? ? Hx Hl]; subst. cbn [fold_right].
  destruct l as [|y l]; [left; cbn [fold_right]; lia|]. specialize (IH ltac:(discriminate) Hl).
  destruct (Z.max_spec x (fold_right Z.max 0 (y :: l))) as [[_ ->]|[_ ->]]; [right; exact IH|left; reflexivity].
Qed.
Lemma col_width_in rows j : rows <> [] -> exists r, In r rows /\ col_width rows j = zlen (nth j r []) + 1.
Proof.
  intros Hn. assert (H : In (col_width rows j) (map (fun r => zlen (nth j r []) + 1) rows)).
  { apply fold_max_in; [destruct rows; [elim Hn; reflexivity|discriminate]|]. apply Forall_forall. intros x Hx. apply in_map_iff in Hx as (r & <- & _).
    assert (G := zlen_nonneg (nth j r [])). lia. }
  apply in_map_iff in H as (r & E & Hr). exists r. split; [exact Hr|symmetry; exact E].
Qed.
Lemma tab_text_tight rows k : rows <> [] -> Forall (fun r => length r = S k) rows ->
  exists ws ts, length ws = k /\ (forall j, (j < k)%nat -> exists r, In r rows /\ nth j ws 0 = zlen (nth j r []) + 1) /\
    Forall2 (row_in ws) rows ts /\ tab_text rows = concat ts.
Proof.
  intros Hn H. exists (map (fun i => col_width rows (0 + i)) (seq 0 k)), (map (tab_line rows 0) rows).
  split; [rewrite map_length, seq_length; reflexivity|]. split; [|split; [|reflexivity]].
  - intros j Hj. rewrite nth_indep with (d' := col_width rows (0 + O)) by (rewrite map_length, seq_length; exact Hj).
    rewrite map_nth with (f := fun i => col_width rows (0 + i)) (d := O). rewrite seq_nth by exact Hj. apply col_width_in. exact Hn.
  - assert (G : forall l, incl l rows -> Forall2 (row_in (map (fun i => col_width rows (0 + i)) (seq 0 k))) l (map (tab_line rows 0) l)).
    { induction l as [|r l IH]; intros Hl; constructor.
      - assert (Hr : In r rows) by (apply Hl; left; reflexivity). rewrite Forall_forall in H. apply tab_line_in; [exact (H r Hr)|]. intros i Hi. apply col_width_ge. exact Hr.
      - apply IH. intros x Hx. apply Hl. right. exact Hx. }
    apply G. apply incl_refl.
Qed.
Lemma C86_tight (all : bool) w : w_outroom w = None ->
  exists ws ts infos, length ws = 3%nat /\
    (forall j, (j < 3)%nat -> exists r, In r (header :: dashes :: map shown_row infos) /\ nth j ws 0 = zlen (nth j r []) + 1) /\
    Forall2 (row_in ws) (header :: dashes :: map shown_row infos) ts /\
    prints (FiletypesCmd_Run all) w (concat ts) /\
    (exists keep, infos = filter keep filetypeInfos) /\ NoDup (map fi_type infos) /\
    (forall i, In i infos <-> In i filetypeInfos /\ (all = true \/ fi_extra i = false)) /\
    (forall n t, FiletypeForName n = Ok t -> exists i, In i filetypeInfos /\ fi_type i = t /\ In n (tl (shown_row i))).
Proof.
  intros Hw. destruct (tab_text_tight (filetypes_rows all) 3) as (ws & ts & H1 & H4 & H2 & H3).
  { discriminate. }
  { unfold filetypes_rows. constructor; [reflexivity|]. constructor; [reflexivity|]. apply Forall_forall. intros r Hr. apply in_map_iff in Hr as [i [<- _]]. reflexivity. }
  exists ws, ts, (FiletypeInfos all). split; [exact H1|]. split; [exact H4|]. split; [exact H2|]. split; [|split; [|split; [|split]]].
  - unfold prints, FiletypesCmd_Run. cbn [run]. unfold sys_stdout. rewrite Hw. cbn [fits run pret]. rewrite <- H3.
    eexists. split; [reflexivity|]. split; [|reflexivity]. intros x. reflexivity.
  - exists (fun i => all || negb (fi_extra i)). unfold FiletypeInfos. destruct all; [|reflexivity].
    symmetry. apply filter_all. apply Forall_forall. reflexivity.
  - unfold FiletypeInfos. destruct all; [exact TypesProofs.types_nodup|]. apply nodup_map_filter. exact TypesProofs.types_nodup.
  - intros i. unfold FiletypeInfos. destruct all.
    + split; [intros H; split; [exact H|left; reflexivity]|intros [H _]; exact H].
    + rewrite filter_In. split; [intros [A B]; split; [exact A|right; destruct (fi_extra i); [discriminate B|reflexivity]]|].
      intros [A [B|B]]; [discriminate B|]. split; [exact A|rewrite B; reflexivity].
  - destruct (C86_lemma all w Hw) as (_ & _ & _ & _ & _ & _ & _ & _ & _ & G). exact G.
Qed.
