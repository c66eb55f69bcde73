(** KeywordProofs.v -- the keywords in listings. *)
From Coq Require Import ZifyBool ZifyNat.
From Verif Require Import GoBase GoLemmas BasicModel BasicSpec BasicProofs BasicStmtProofs KeywordSpec.
Ltac Zify.zify_post_hook ::= Z.div_mod_to_equations.
Local Opaque zrange zeros sub.

Lemma no_blanks_app a b : no_blanks (a ++ b) = no_blanks a ++ no_blanks b.
Proof. apply filter_app. Qed.
Definition odd_token (c : Z) : bool := (c =? 0xB8) || (c =? 0xC0) || (c =? 0xCC).
Lemma token_check : forallb (fun k => odd_token (128 + k) || beq (no_blanks (applesoft_text (128 + k))) (listed (128 + k)) && beq (no_blanks (listed (128 + k))) (listed (128 + k))) (zrange 107) = true.
Proof. vm_compute. reflexivity. Qed.
Lemma text_listed c : applesoft_byte c -> odd_token c = false -> no_blanks (applesoft_text c) = no_blanks (listed c).
Proof.
  intros Hc Ho. unfold applesoft_byte in Hc. destruct (Z.ltb_spec c 128) as [H|H].
  - unfold applesoft_text, listed. rewrite (proj2 (Z.ltb_lt c 128) H). reflexivity.
  - pose proof token_check as T. rewrite forallb_forall in T. specialize (T (c - 128) ltac:(apply In_zrange; lia)). cbv beta in T.
    replace (128 + (c - 128)) with c in T by lia. rewrite Ho in T. cbn [orb] in T. apply andb_true_iff in T as [T1 T2].
    apply beq_eq in T1, T2. rewrite T1, T2. reflexivity.
Qed.
Lemma texts_listed bs : Forall applesoft_byte bs -> Forall (fun c => odd_token c = false) bs ->
  no_blanks (concat (map applesoft_text bs)) = no_blanks (concat (map listed bs)).
Proof.
  induction 1 as [|c bs H _ IH]; intros Ho; [reflexivity|]. inversion Ho; subst. cbn [map concat]. rewrite !no_blanks_app, IH by assumption.
  rewrite text_listed by assumption. reflexivity.
Qed.
Lemma C84_lemma : forall ls, Forall line_ok ls -> Forall (fun l => Forall (fun c => c <> 0xB8 /\ c <> 0xC0 /\ c <> 0xCC) (l_Bytes l)) ls ->
  exists ts, Forall2 (fun l t => exists s x, decimal (l_Num l) s /\ t = s ++ 32 :: x ++ [10] /\ no_blanks x = shows l) ls ts /\ applesoft_String ls = concat ts.
Proof.
  intros ls H1 H2. destruct (C59_text ls) as (ts & HF & E).
  { eapply Forall_impl; [|exact H1]. intros l [Hn _]. unfold is_u16 in Hn. lia. }
  exists ts. split; [|exact E]. clear E. induction HF as [|l t ls ts (s & D & ->) _ IH]; [constructor|].
  inversion H1 as [|? ? [Hn Hb] H1']; inversion H2 as [|? ? Ho H2']; subst. constructor; [|apply IH; assumption].
  exists s, (concat (map applesoft_text (l_Bytes l))). split; [exact D|]. split; [reflexivity|].
  apply texts_listed; [exact Hb|]. eapply Forall_impl; [|exact Ho]. intros c Hc. cbv beta in Hc. unfold odd_token. lia.
Qed.
(** 10 PRINT 2^3 *)
Definition ex_power : Line := mkLine 10 [0xBA; 50; 0xCC; 51].
Lemma C84_power : line_ok ex_power /\ shows ex_power = s2b "PRINT2^3" /\ applesoft_String [ex_power] = s2b "10  PRINT 2 ; 3" ++ [10].
Proof.
  split; [|split; vm_compute; reflexivity]. split; [vm_compute; split; [discriminate|reflexivity]|].
  repeat constructor; unfold applesoft_byte; cbn; lia.
Qed.
Lemma C84_integer : forall n c w, 0 <= n -> In (c, w) integer_words ->
  exists s b, decimal5 n s /\ integer_line (mkLine n [c]) = s ++ [32] ++ s2b w ++ b /\ (b = [] \/ b = [32]).
Proof.
  intros n c w Hn I.
  assert (forallb (fun p => ((fst p =? 0x5D) && beq (s2b (snd p)) (s2b "REM")) || ((0 <=? fst p) && (fst p <? 128) && beq (znth [] integerTokens (fst p)) (s2b (snd p)))) integer_words = true) as T by (vm_compute; reflexivity).
  rewrite forallb_forall in T. specialize (T (c, w) I). cbn [fst snd] in T.
  destruct (Z.eqb_spec c 0x5D) as [->|Hc].
  - destruct (C72_integer_line_text (mkLine n [0x5D]) [] (Some [])) as (s & ts & D & F & E); [exact Hn|constructor|constructor|reflexivity|].
    inversion F; subst. exists s, [32]. split; [exact D|]. split; [|right; reflexivity].
    cbn [andb] in T. replace (s2b w) with (s2b "REM"). { rewrite E. reflexivity. }
    apply orb_true_iff in T as [T|T]; [apply beq_eq in T; symmetry; exact T|].
    apply andb_true_iff in T as [_ T]. apply beq_eq in T. rewrite <- T. reflexivity.
  - cbn [andb orb] in T. apply andb_true_iff in T as [T1 T]. apply beq_eq in T.
    destruct (C72_integer_line_text (mkLine n [c]) [Token c] None) as (s & ts & D & F & E); [exact Hn|constructor; [lia|exact Hc|constructor]|exact Logic.I|reflexivity|].
    inversion F as [|? ? ? ? It F']; subst. inversion F'; subst. inversion It; subst.
    exists s, (if 1 <? zlen (znth [] integerTokens c) then s2b " " else []). split; [exact D|].
    split; [rewrite E, T; cbn [concat]; rewrite !app_nil_r; reflexivity|]. destruct (1 <? zlen (znth [] integerTokens c)); [right|left]; reflexivity.
Qed.
