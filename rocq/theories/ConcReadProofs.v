(** ConcReadProofs.v -- proofs for C100: a process whose files nobody else writes, and what a
    process sees of an image that another one is writing. *)
From Verif Require Import GoBase GoLemmas TypesModel DiskModel DiskSpec DiskProofs CmdModel CmdSpec CmdProofs CmdStmtProofs MainModel ConcModel ConcSpec ConcProofs ConcExProofs.
From Coq Require Import ZifyBool ZifyNat.
Ltac Zify.zify_post_hook ::= Z.div_mod_to_equations.
Local Opaque zrange zeros sub.

Section Room.
  Context (room : option Z).
  (** ** Which files a process may still use *)
  Definition footprint (R W : list bytes) (q : process) : Prop :=
    match q_state q with
    | Running p => touches2 R W p
    | Reading n _ k => In n R /\ forall r, touches2 R W (k r)
    | Writing n _ _ p => In n W /\ touches2 R W p
    end.
  Lemma foot_step R W fs q fs1 q1 : footprint R W q -> pstep room fs q fs1 q1 ->
    footprint R W q1 /\ forall n, ~ In n W -> fs1 n = fs n.
  Proof.
    assert (HP : forall n x fs0 m, ~ In m W -> In n W -> put_fs fs0 n x m = fs0 m).
    { intros n x fs0 m Hm Hn. unfold put_fs. destruct (beq m n) eqn:Ex; [apply beq_eq in Ex; subst m; contradiction|reflexivity]. }
    intros Hw Hs. destruct Hs as [fs n k i o m c wr E|fs n k i o m e E|fs n acc k i o m c rd wr j E Hj Hl|fs n acc k i o m c rd wr E Hl
      |fs k i o m|fs n k i o m|fs n c k i o m E|fs n c k i o m E|fs n pos rest p i o m c rd wr j E Hj|fs n pos p i o m|fs c k i o m];
      unfold footprint in *; cbn [q_state touches2] in *.
    - split; [exact Hw|reflexivity].
    - split; [apply (proj2 Hw)|reflexivity].
    - split; [exact Hw|reflexivity].
    - split; [apply (proj2 Hw)|reflexivity].
    - split; [destruct i; apply Hw|reflexivity].
    - split; [apply (proj2 Hw)|reflexivity].
    - split; [apply (proj2 Hw)|reflexivity].
    - destruct Hw as [H1 H2]. split; [split; [exact H1|apply H2]|]. intros x Hx. apply HP; assumption.
    - destruct Hw as [H1 H2]. split; [split; assumption|]. intros x Hx. apply HP; assumption.
    - split; [apply (proj2 Hw)|reflexivity].
    - split; [apply Hw|reflexivity].
  Qed.

  Context (fs0 : fsystem).
  (** ** One process that nobody disturbs *)
  Definition feet : list job -> list process -> Prop := Forall2 (fun a q => footprint (j_reads a) (j_writes a) q).
  Definition clear_of (a : job) (js : list job) : Prop :=
    forall b, In b js -> forall n, In n (j_writes b) -> ~ In n (j_reads a) /\ ~ In n (j_writes a).
  Lemma Forall2_elt {A B} (P : A -> B -> Prop) l1 q l2 : forall js, Forall2 P js (l1 ++ q :: l2) ->
    exists js1 a js2, js = js1 ++ a :: js2 /\ Forall2 P js1 l1 /\ P a q /\ Forall2 P js2 l2.
  Proof.
    intros js H. apply Forall2_app_inv_r in H as (js1 & js2' & F1 & F2 & ->). inversion F2 as [|a q' js2 l2' Ia F3]; subst.
    exists js1, a, js2. repeat split; assumption.
  Qed.
  (** Where a step happens in a list with one marked place. *)
  Lemma marked_step {A} (l1 : list A) q l2 m1 p m2 : l1 ++ q :: l2 = m1 ++ p :: m2 ->
    (l1 = m1 /\ q = p /\ l2 = m2) \/ (exists r, m1 = l1 ++ q :: r /\ l2 = r ++ p :: m2) \/ (exists r, l1 = m1 ++ p :: r /\ m2 = r ++ q :: l2).
  Proof.
    revert m1. induction l1 as [|x l1 IH]; intros [|y m1] E; cbn [app] in E.
    - injection E as -> ->. left. repeat split.
    - injection E as -> ->. right. left. exists m1. split; reflexivity.
    - injection E as -> <-. right. right. exists l1. split; reflexivity.
    - injection E as -> E. destruct (IH _ E) as [(-> & -> & ->)|[(r & -> & ->)|(r & -> & ->)]].
      + left. repeat split.
      + right. left. exists r. split; reflexivity.
      + right. right. exists r. split; reflexivity.
  Qed.
  Lemma exec_undisturbed a js1 js2 : clear_of a js1 -> clear_of a js2 -> forall fs qs fs1 qs1, execution room fs qs fs1 qs1 ->
    forall m1 p m2, qs = m1 ++ p :: m2 -> feet js1 m1 -> feet js2 m2 -> inv room fs0 fs a p ->
    exists n1 p1 n2, qs1 = n1 ++ p1 :: n2 /\ feet js1 n1 /\ feet js2 n2 /\ inv room fs0 fs1 a p1.
  Proof.
    intros C1 C2 fs qs fs1 qs1 He. induction He as [fs qs|fs l1 q l2 fs1 q1 fs2 qs Hs He IH]; intros m1 p m2 Eq F1 F2 Hi.
    - exists m1, p, m2. repeat split; try assumption; apply Hi.
    - assert (HO : forall b js, clear_of a js -> In b js -> (forall n, ~ In n (j_writes b) -> fs1 n = fs n) -> inv room fs0 fs1 a p).
      { intros b js Hc Hb Hout. destruct Hi as (Xw & X1 & X2). destruct (other_step room _ _ fs fs1 p Xw) as (Y1 & Y2 & Y3).
        - intros n Hr. apply Hout. intros Hn. destruct (Hc b Hb n Hn) as [N1 N2]. destruct Hr as [Hr|Hr]; contradiction.
        - split; [exact Y1|]. split; [congruence|]. eapply sees_trans; eassumption. }
      destruct (marked_step _ _ _ _ _ _ Eq) as [(-> & -> & ->)|[(r & -> & ->)|(r & -> & ->)]].
      + destruct Hi as (Hw & H1 & H2). destruct (own_step room _ _ _ _ _ _ Hw Hs) as (Hw1 & _ & E1 & E2).
        apply (IH m1 q1 m2 eq_refl F1 F2). split; [exact Hw1|]. split; [congruence|]. eapply sees_trans; eassumption.
      + destruct (Forall2_elt _ _ _ _ _ F1) as (k1 & b & k2 & -> & G1 & G2 & G3). destruct (foot_step _ _ _ _ _ _ G2 Hs) as (H1 & H2).
        apply (IH (l1 ++ q1 :: r) p m2); [rewrite <- app_assoc; reflexivity| |exact F2|apply (HO b _ C1 (in_elt _ _ _) H2)].
        apply Forall2_app; [exact G1|]. constructor; assumption.
      + destruct (Forall2_elt _ _ _ _ _ F2) as (k1 & b & k2 & -> & G1 & G2 & G3). destruct (foot_step _ _ _ _ _ _ G2 Hs) as (H1 & H2).
        apply (IH m1 p (r ++ q1 :: l2)); [rewrite <- app_assoc; reflexivity|exact F1| |apply (HO b _ C2 (in_elt _ _ _) H2)].
        apply Forall2_app; [exact G1|]. constructor; assumption.
  Qed.
  Lemma start_feet iter fuel js : Forall (fun j => uses iter fuel (j_prog j) (j_reads j) (j_writes j)) js -> feet js (map launch js).
  Proof. intros H. induction H as [|a l Ha _ IH]; cbn [map]; constructor; [|exact IH]. apply (uses_touches _ _ _ _ _ Ha). Qed.
  Lemma clear_split js i a : nth_error js i = Some a ->
    (forall i' b, nth_error js i' = Some b -> i' <> i -> forall n, In n (j_writes b) -> ~ In n (j_reads a) /\ ~ In n (j_writes a)) ->
    exists js1 js2, js = js1 ++ a :: js2 /\ length js1 = i /\ clear_of a js1 /\ clear_of a js2.
  Proof.
    intros Hi Hc. apply nth_error_split in Hi as (js1 & js2 & -> & Hl). exists js1, js2. split; [reflexivity|]. split; [exact Hl|]. split; intros b Hb; apply In_nth_error in Hb as [k Hk].
    - assert (k < length js1)%nat as L by (apply nth_error_Some; rewrite Hk; discriminate). apply (Hc k b); [rewrite nth_error_app1 by exact L; exact Hk|lia].
    - apply (Hc (length js1 + S k)%nat b); [|lia]. rewrite nth_error_app2 by lia. replace (length js1 + S k - length js1)%nat with (S k) by lia. exact Hk.
  Qed.
  Lemma inv_ended a fs1 q s w t : inv room fs0 fs1 a q -> ended q s -> alone a fs0 room = (w, t) ->
    s = t /\ q_stdout q = w_stdout w /\ forall n, In n (j_writes a) -> fs1 n = w_fs w n.
  Proof.
    intros (Hw & H1 & H2) Hend Hal. destruct Hend as [r i' o m]. unfold finish, launch, started, wof, alone, main_run in *. cbn [q_state q_stdin q_stdout q_outroom run snd fst] in *.
    destruct (run (j_prog a) _) as [w' r']. cbn [fst snd] in *. injection Hal as <- <-. destruct H2 as (F & _ & O & _). cbn [w_fs w_stdout] in *.
    split; [congruence|]. split; [exact O|]. intros n Hin. apply F. apply in_or_app. right. exact Hin.
  Qed.
  Lemma feet_length js qs : feet js qs -> length js = length qs.
  Proof. intros H. induction H as [|a q js qs _ _ IH]; [reflexivity|cbn; rewrite IH; reflexivity]. Qed.

  Lemma C100_undisturbed_lemma iter fuel js i a fs1 qs q s w t : Forall (fun j => uses iter fuel (j_prog j) (j_reads j) (j_writes j)) js ->
    nth_error js i = Some a ->
    (forall i' b, nth_error js i' = Some b -> i' <> i -> forall n, In n (j_writes b) -> ~ In n (j_reads a) /\ ~ In n (j_writes a)) ->
    execution room fs0 (map launch js) fs1 qs -> nth_error qs i = Some q -> ended q s -> alone a fs0 room = (w, t) ->
    s = t /\ q_stdout q = w_stdout w /\ forall n, In n (j_writes a) -> fs1 n = w_fs w n.
  Proof.
    intros Hu Hi Hc He Hq Hend Hal. destruct (clear_split _ _ _ Hi Hc) as (js1 & js2 & -> & Hl & C1 & C2).
    apply Forall_app in Hu as [U1 U2]. inversion U2 as [|a' l Ua U3]; subst a' l.
    rewrite map_app in He. cbn [map] in He.
    destruct (exec_undisturbed a js1 js2 C1 C2 _ _ _ _ He _ _ _ eq_refl (start_feet _ _ _ U1) (start_feet _ _ _ U3)) as (n1 & p1 & n2 & -> & F1 & F2 & Hv).
    { split; [apply (uses_touches _ _ _ _ _ Ua)|]. split; [reflexivity|apply sees_refl]. }
    apply feet_length in F1. rewrite nth_error_app2 in Hq by lia. replace (i - length n1)%nat with 0%nat in Hq by lia. injection Hq as <-.
    apply (inv_ended a fs1 p1 s w t Hv Hend Hal).
  Qed.

  (** ** The image while it is being written *)
  (** Programs that write [img] at most once, and then end. *)
  Fixpoint once (img : bytes) (p : prog unit) : Prop :=
    match p with
    | PRet _ => True
    | PRead _ k => forall r, once img (k r)
    | PStdin k => forall r, once img (k r)
    | PWrite n _ k => n = img /\ forall r, exists r', k r = PRet r'
    | _ => False
    end.
  Lemma blind_once img p : blind img p -> once img p.
  Proof.
    induction p as [r|n k IH|k IH|n k IH|n c k IH|c k IH]; cbn [blind once]; intros H; try contradiction.
    - exact I.
    - intros r. apply IH. apply H.
    - intros r. apply IH. apply H.
    - split; [apply H|]. intros r. exists r. apply H.
  Qed.
  Lemma in_place_once iter fuel p img : in_place iter fuel p img -> once img p.
  Proof.
    intros H. destruct (in_place_shape _ _ _ _ H) as [(r & -> & _)|(k & -> & Hk & _)]; [exact I|]. intros r. apply blind_once. apply Hk.
  Qed.

  Section Image.
    Context (img c c' : bytes) (x y : job) (w1 : world) (t1 : Z) (ky : res bytes -> prog unit).
    Context (Hc : fs0 img = NFile c true true) (Hx1 : alone x fs0 room = (w1, t1)) (Hc' : w_fs w1 img = NFile c' true true).
    Context (Hin : In img (j_writes x)) (Hky : forall r, prints (ky r)).
    (** The image is still the old one; or it is the first [k] bytes of the new one. *)
    Definition old (fs : fsystem) : Prop := fs img = NFile c true true.
    Definition new (fs : fsystem) : Prop := exists k, 0 <= k <= zlen c' /\ fs img = NFile (sub c' 0 k) true true.
    (** Where the writer is. *)
    Definition writer (fs : fsystem) (q : process) : Prop :=
      match q_state q with
      | Running p => (old fs /\ once img p) \/ (new fs /\ exists r, p = PRet r)
      | Reading n acc k => old fs /\ forall r, once img (k r)
      | Writing n pos rest p => n = img /\ (exists r, p = PRet r) /\ 0 <= pos <= zlen c' /\ fs img = NFile (sub c' 0 pos) true true /\ rest = sub c' pos (zlen c')
      end.
    Lemma finish_img fs q : inv room fs0 fs x q -> w_fs (fst (finish room fs q)) img = NFile c' true true.
    Proof.
      intros (_ & _ & (F & _)). rewrite F by (apply in_or_app; right; exact Hin). rewrite <- Hc'. f_equal.
      unfold finish, launch, started, wof. cbn [q_state q_stdin q_stdout q_outroom]. unfold alone, main_run in Hx1. destruct (run (j_prog x) _). injection Hx1 as <- _. reflexivity.
    Qed.
    Lemma writer_step fs q fs1 q1 : writer fs q -> inv room fs0 fs1 x q1 -> pstep room fs q fs1 q1 ->
      writer fs1 q1 /\ (fs1 img = fs img \/ new fs1).
    Proof.
      intros Hw Hi Hs. pose proof (finish_img _ _ Hi) as HF. clear Hi.
      destruct Hs as [fs n k i o m e wr E|fs n k i o m e E|fs n acc k i o m e rd wr j E Hj Hl|fs n acc k i o m e rd wr E Hl
        |fs k i o m|fs n k i o m|fs n e k i o m E|fs n e k i o m E|fs n pos rest p i o m e rd wr j E Hj|fs n pos p i o m|fs e k i o m];
        unfold writer, finish, wof in *; cbn [q_state q_stdin q_stdout q_outroom once] in *.
      - destruct Hw as [Hw|(_ & r & Er)]; [|discriminate Er]. split; [exact Hw|left; reflexivity].
      - destruct Hw as [[Ho Hw]|(_ & r & Er)]; [|discriminate Er]. split; [left; split; [exact Ho|apply Hw]|left; reflexivity].
      - split; [exact Hw|left; reflexivity].
      - destruct Hw as [Ho Hw]. split; [left; split; [exact Ho|apply Hw]|left; reflexivity].
      - destruct Hw as [[Ho Hw]|(_ & r & Er)]; [|discriminate Er]. split; [|left; reflexivity]. destruct i; left; (split; [exact Ho|apply Hw]).
      - destruct Hw as [[Ho Hw]|(_ & r & Er)]; [contradiction|discriminate Er].
      - destruct Hw as [[Ho [-> Hw]]|(_ & r & Er)]; [|discriminate Er]. unfold old in Ho. rewrite Ho in E. discriminate E.
      - destruct Hw as [[Ho [-> Hw]]|(_ & r & Er)]; [|discriminate Er]. unfold old in Ho. rewrite Ho in *. cbn [written] in *.
        unfold put_fs in HF at 1. rewrite beq_refl in HF. rewrite pwrite_empty in HF. destruct (Hw (if fits room e then Ok tt else Err (EOther "os.WriteFile"))) as [r' Er']. rewrite Er' in *.
        cbn [run fst set_fs w_fs] in HF. rewrite beq_refl in HF. injection HF as HF. pose proof (zlen_nonneg c').
        assert (put_fs fs img (NFile [] true true) img = NFile (sub c' 0 0) true true) as Ep by (unfold put_fs; rewrite beq_refl, (sub_nil c') by lia; reflexivity).
        split; [|right; exists 0; split; [lia|exact Ep]].
        split; [reflexivity|]. split; [exists r'; reflexivity|]. split; [lia|]. split; [exact Ep|]. rewrite sub_full. exact HF.
      - destruct Hw as (-> & (r & ->) & Hp & Ho & Hr). rewrite Ho in E. injection E as <- <- <-. pose proof (zlen_nonneg c').
        assert (zlen rest = zlen c' - pos) as Lr by (rewrite Hr, zlen_sub; lia).
        assert (pwrite (sub c' 0 pos) pos (sub rest 0 j) = sub c' 0 (pos + j)) as Epw.
        { unfold pwrite. rewrite (zlen_sub c' 0 pos) by lia. rewrite zeros_none by lia. rewrite zlen_sub by lia. rewrite (sub_nil (sub c' 0 pos) (pos + (j - 0))) by lia.
          cbn [app]. rewrite app_nil_r. replace (sub (sub c' 0 pos) 0 pos) with (sub c' 0 pos) by (rewrite sub_sub by lia; f_equal; lia).
          rewrite Hr, sub_sub by lia. rewrite Z.add_0_r. rewrite <- sub_app_split by lia. reflexivity. }
        rewrite Epw in *.
        assert (put_fs fs img (NFile (sub c' 0 (pos + j)) true true) img = NFile (sub c' 0 (pos + j)) true true) as Ep by (unfold put_fs; rewrite beq_refl; reflexivity).
        split; [|right; exists (pos + j); split; [lia|exact Ep]].
        split; [reflexivity|]. split; [exists r; reflexivity|]. split; [lia|]. split; [exact Ep|]. rewrite Hr at 1. rewrite sub_sub by (rewrite <- ?Hr; lia). f_equal; lia.
      - destruct Hw as (-> & (r & ->) & Hp & Ho & Hr). split; [|left; reflexivity]. right. split; [exists pos; split; assumption|exists r; reflexivity].
      - destruct Hw as [[Ho Hw]|(_ & r & Er)]; [contradiction|discriminate Er].
    Qed.

    (** Where the reader is. *)
    Definition mix (j m : Z) : bytes := sub c 0 j ++ sub c' j m.
    Definition mixed (j m : Z) : Prop := 0 <= j <= zlen c /\ (m = j \/ j <= m <= zlen c').
    Lemma mix_len j m : mixed j m -> zlen (mix j m) = m.
    Proof.
      intros [H1 H2]. unfold mix. rewrite zlen_app, zlen_sub by lia. pose proof (zlen_nonneg c'). destruct H2 as [->|H2]; [rewrite (sub_nil c') by lia; cbn; lia|]. rewrite zlen_sub by lia. lia.
    Qed.
    Definition there (u : world) (r : res unit) (w : world) (r' : res unit) : Prop := r = r' /\ w_stdout u = w_stdout w.
    Definition reader (fs : fsystem) (q : process) : Prop :=
      match q_state q with
      | Running p => (p = PRead img ky /\ q = Process (Running (PRead img ky)) (j_stdin y) [] (j_outroom y)) \/
          (prints p /\ exists j m, mixed j m /\
             let u := run p (World fs0 (q_stdin q) (q_stdout q) room (q_outroom q)) in
             let v := run (ky (Ok (mix j m))) (World fs0 (j_stdin y) [] room (j_outroom y)) in
             snd u = snd v /\ w_stdout (fst u) = w_stdout (fst v))
      | Reading n acc k => n = img /\ k = ky /\ q = Process (Reading img acc ky) (j_stdin y) [] (j_outroom y) /\
          ((old fs /\ exists j, 0 <= j <= zlen c /\ acc = sub c 0 j) \/ (new fs /\ exists j m, mixed j m /\ acc = mix j m))
      | Writing _ _ _ _ => False
      end.
    (** The image changes under it. *)
    Lemma reader_other fs fs1 q : reader fs q -> fs1 img = fs img \/ new fs1 -> reader fs1 q.
    Proof.
      intros Hr Hf. unfold reader in *. destruct (q_state q) as [p|n acc k|n pos rest p]; [exact Hr| |exact Hr].
      destruct Hr as (-> & -> & Eq & Hr). split; [reflexivity|]. split; [reflexivity|]. split; [exact Eq|]. destruct Hf as [Hf|Hf].
      - destruct Hr as [[Ho Hj]|[(k & Hk & Hn) Hj]]; [left|right]; (split; [|exact Hj]).
        + unfold old. rewrite Hf. exact Ho.
        + exists k. split; [exact Hk|]. rewrite Hf. exact Hn.
      - right. split; [exact Hf|]. destruct Hr as [(_ & j & Hj & ->)|(_ & Hj)]; [|exact Hj]. exists j, j. split; [split; [exact Hj|left; reflexivity]|].
        unfold mix. rewrite (sub_nil c') by lia. symmetry. apply app_nil_r.
    Qed.
    Lemma reader_step fs q fs1 q1 : old fs \/ new fs -> reader fs q -> pstep room fs q fs1 q1 -> reader fs1 q1 /\ fs1 = fs.
    Proof.
      intros Hon Hr Hs. destruct Hs as [fs n k i o m e wr E|fs n k i o m e E|fs n acc k i o m e rd wr j E Hj Hl|fs n acc k i o m e rd wr E Hl
        |fs k i o m|fs n k i o m|fs n e k i o m E|fs n e k i o m E|fs n pos rest p i o m e rd wr j E Hj|fs n pos p i o m|fs e k i o m];
        unfold reader in *; cbn [q_state q_stdin q_stdout q_outroom prints] in *.
      - destruct Hr as [[E1 E2]|[[] _]]. injection E1 as -> ->. injection E2 as -> -> ->. split; [|reflexivity].
        split; [reflexivity|]. split; [reflexivity|]. split; [reflexivity|]. pose proof (zlen_nonneg c). destruct Hon as [Ho|Hn].
        + left. split; [exact Ho|]. exists 0. split; [lia|]. rewrite (sub_nil c) by lia. reflexivity.
        + right. split; [exact Hn|]. exists 0, 0. split; [split; [lia|left; reflexivity]|]. unfold mix. rewrite (sub_nil c), (sub_nil c') by lia. reflexivity.
      - destruct Hr as [[E1 E2]|[[] _]]. injection E1 as -> ->. exfalso. destruct Hon as [Ho|(k' & _ & Hn)]; [unfold old in Ho; rewrite Ho in E; discriminate E|rewrite Hn in E; discriminate E].
      - destruct Hr as (-> & -> & Eq & Hr). injection Eq as -> -> ->. split; [|reflexivity]. split; [reflexivity|]. split; [reflexivity|]. split; [reflexivity|].
        destruct Hr as [(Ho & j' & Hj' & ->)|((k' & Hk' & Hn) & j' & m' & Hm & ->)].
        + left. split; [exact Ho|]. unfold old in Ho. rewrite Ho in E. injection E as <- <- <-. rewrite zlen_sub in * by lia. exists (j' + j).
          split; [lia|]. replace (j' - 0) with j' by lia. rewrite <- sub_app_split by lia. reflexivity.
        + right. split; [exists k'; split; assumption|]. rewrite Hn in E. injection E as <- <- <-. rewrite (mix_len _ _ Hm) in *. rewrite zlen_sub in Hl by lia.
          destruct Hm as [Hm1 Hm2]. exists j', (m' + j). split; [split; [exact Hm1|]; right; lia|]. unfold mix. rewrite sub_sub by lia. rewrite <- app_assoc. f_equal.
          replace (0 + m') with m' by lia. replace (0 + (m' + j)) with (m' + j) by lia. symmetry. apply sub_app_split; lia.
      - destruct Hr as (-> & -> & Eq & Hr). injection Eq as -> -> ->. split; [|reflexivity]. right. split; [apply Hky|].
        destruct Hr as [(Ho & j' & Hj' & ->)|(_ & j' & m' & Hm & ->)].
        + unfold old in Ho. rewrite Ho in E. injection E as <- <- <-. rewrite zlen_sub in Hl by lia. assert (j' = zlen c) by lia. subst j'.
          exists (zlen c), (zlen c). split; [split; [lia|left; reflexivity]|]. unfold mix. rewrite (sub_nil c') by lia. rewrite app_nil_r. split; reflexivity.
        + exists j', m'. split; [exact Hm|]. split; reflexivity.
      - destruct Hr as [[E1 _]|[[] _]]. discriminate E1.
      - destruct Hr as [[E1 _]|[[] _]]. discriminate E1.
      - destruct Hr as [[E1 _]|[[] _]]. discriminate E1.
      - destruct Hr as [[E1 _]|[[] _]]. discriminate E1.
      - contradiction.
      - contradiction.
      - destruct Hr as [[E1 _]|[Hp (j & m' & Hm & H1 & H2)]]; [discriminate E1|]. split; [|reflexivity]. right. split; [apply Hp|]. exists j, m'. split; [exact Hm|].
        cbv zeta in *. cbn [run] in H1, H2. unfold sys_stdout in H1, H2. cbn [w_outroom] in H1, H2. destruct (fits m e) eqn:Ef; [rewrite (cut_fits m e Ef)|]; split; assumption.
    Qed.
    Lemma writer_other fs fs1 q : writer fs q -> fs1 img = fs img -> writer fs1 q.
    Proof.
      intros Hw Hf. unfold writer, old, new in *. destruct (q_state q); rewrite Hf; exact Hw.
    Qed.

    (** ** Both of them, among others *)
    Context (js : list job) (ix iy : nat).
    Context (Hjx : nth_error js ix = Some x) (Hxy : ix <> iy) (Hjy : nth_error js iy = Some y).
    Context (Hclear : forall i b, nth_error js i = Some b -> i <> ix -> forall n, In n (j_writes b) -> ~ In n (j_reads x) /\ ~ In n (j_writes x)).
    Definition both (fs : fsystem) (qs : list process) : Prop :=
      feet js qs /\ (exists q, nth_error qs ix = Some q /\ inv room fs0 fs x q /\ writer fs q) /\
      (exists q, nth_error qs iy = Some q /\ reader fs q) /\ (old fs \/ new fs).
    Lemma nth_other {A} (l1 : list A) q q1 l2 i : i <> length l1 -> nth_error (l1 ++ q1 :: l2) i = nth_error (l1 ++ q :: l2) i.
    Proof.
      intros H. destruct (Nat.lt_ge_cases i (length l1)) as [L|L]; [rewrite !nth_error_app1 by exact L; reflexivity|].
      rewrite !nth_error_app2 by exact L. destruct (i - length l1)%nat eqn:E; [lia|reflexivity].
    Qed.
    Lemma nth_same {A} (l1 : list A) q l2 : nth_error (l1 ++ q :: l2) (length l1) = Some q.
    Proof. rewrite nth_error_app2 by lia. rewrite Nat.sub_diag. reflexivity. Qed.
    Lemma both_step fs l1 q l2 fs1 q1 : both fs (l1 ++ q :: l2) -> pstep room fs q fs1 q1 -> both fs1 (l1 ++ q1 :: l2).
    Proof.
      intros (HF & (qx & Ex & Ix & Wx) & (qy & Ey & Ry) & Hon) Hs.
      destruct (Forall2_elt _ _ _ _ _ HF) as (k1 & b & k2 & Ejs & G1 & G2 & G3). destruct (foot_step _ _ _ _ _ _ G2 Hs) as (H1 & H2).
      assert (feet js (l1 ++ q1 :: l2)) as HF1. { rewrite Ejs. apply Forall2_app; [exact G1|]. constructor; assumption. }
      split; [exact HF1|]. pose proof (feet_length _ _ G1) as Hlen.
      destruct (Nat.eq_dec (length l1) ix) as [Ei|Ni]; [|destruct (Nat.eq_dec (length l1) iy) as [Ei|Ni2]].
      - rewrite <- Ei, nth_same in Ex. injection Ex as <-. destruct Ix as (Xw & X1 & X2). destruct (own_step room _ _ _ _ _ _ Xw Hs) as (Hw1 & _ & E1 & E2).
        assert (inv room fs0 fs1 x q1) as Ix1. { split; [exact Hw1|]. split; [congruence|]. eapply sees_trans; eassumption. }
        destruct (writer_step _ _ _ _ Wx Ix1 Hs) as [W1 Hf]. split; [exists q1; split; [rewrite <- Ei; apply nth_same|split; assumption]|].
        split; [exists qy; split; [rewrite (nth_other l1 q q1 l2 iy) by lia; exact Ey|apply (reader_other fs fs1 qy Ry Hf)]|].
        destruct Hf as [Hf|Hf]; [|right; exact Hf]. unfold old, new. rewrite Hf. exact Hon.
      - rewrite <- Ei, nth_same in Ey. injection Ey as <-. destruct (reader_step _ _ _ _ Hon Ry Hs) as [R1 ->].
        split; [exists qx; split; [rewrite (nth_other l1 q q1 l2 ix) by lia; exact Ex|split; assumption]|].
        split; [exists q1; split; [rewrite <- Ei; apply nth_same|exact R1]|exact Hon].
      - assert (nth_error js (length l1) = Some b) as Hb. { rewrite Ejs, <- Hlen. apply nth_same. }
        assert (forall n, In n (j_reads x) \/ In n (j_writes x) -> fs1 n = fs n) as Hfx.
        { intros n Hn. apply H2. intros Hw. destruct (Hclear _ _ Hb Ni n Hw) as [N1 N2]. destruct Hn; contradiction. }
        assert (fs1 img = fs img) as Hf by (apply Hfx; right; exact Hin).
        destruct Ix as (Xw & X1 & X2). destruct (other_step room _ _ fs fs1 qx Xw Hfx) as (Y1 & Y2 & Y3).
        split. { exists qx. split; [rewrite (nth_other l1 q q1 l2 ix) by lia; exact Ex|]. split; [|apply (writer_other fs fs1 qx Wx Hf)].
          split; [exact Y1|]. split; [congruence|]. eapply sees_trans; eassumption. }
        split; [exists qy; split; [rewrite (nth_other l1 q q1 l2 iy) by lia; exact Ey|apply (reader_other fs fs1 qy Ry); left; exact Hf]|].
        unfold old, new. rewrite Hf. exact Hon.
    Qed.
    Lemma both_exec fs qs fs1 qs1 : execution room fs qs fs1 qs1 -> both fs qs -> both fs1 qs1.
    Proof. intros He. induction He as [fs qs|fs l1 q l2 fs1 q1 fs2 qs Hs He IH]; intros Hi; [exact Hi|]. apply IH. eapply both_step; eassumption. Qed.
  End Image.

  Lemma C100_reader_lemma iter fuel js ix iy x y img c c' w1 t1 fs1 qs q s :
    Forall (fun j => uses iter fuel (j_prog j) (j_reads j) (j_writes j)) js -> nth_error js ix = Some x -> nth_error js iy = Some y -> ix <> iy ->
    in_place iter fuel (j_prog x) img -> looks iter fuel (j_prog y) img -> In img (j_writes x) ->
    (forall i b, nth_error js i = Some b -> i <> ix -> forall n, In n (j_writes b) -> ~ In n (j_reads x) /\ ~ In n (j_writes x)) ->
    fs0 img = NFile c true true -> alone x fs0 room = (w1, t1) -> w_fs w1 img = NFile c' true true ->
    execution room fs0 (map launch js) fs1 qs -> nth_error qs iy = Some q -> ended q s ->
    exists j m w, 0 <= j <= zlen c /\ (m = j \/ j <= m <= zlen c') /\
      alone y (put_fs fs0 img (NFile (sub c 0 j ++ sub c' j m) true true)) room = (w, s) /\ q_stdout q = w_stdout w.
  Proof.
    intros Hu Hjx Hjy Hxy Hx Hy Hin Hcl Hc Hx1 Hc' He Hq Hend. destruct (looks_shape _ _ _ _ Hy) as (ky & Ey & Hp & _).
    assert (both img c c' x y ky js ix iy fs0 (map launch js)) as HB.
    { split; [apply (start_feet _ _ _ Hu)|]. split.
      - exists (launch x). split; [apply map_nth_error; exact Hjx|]. rewrite Forall_forall in Hu. pose proof (Hu x (nth_error_In _ _ Hjx)) as Ux. split.
        + split; [apply (uses_touches _ _ _ _ _ Ux)|]. split; [reflexivity|apply sees_refl].
        + left. split; [exact Hc|apply (in_place_once _ _ _ _ Hx)].
      - split; [|left; exact Hc]. exists (launch y). split; [apply map_nth_error; exact Hjy|]. left. unfold launch, started. rewrite Ey. split; reflexivity. }
    apply (both_exec img c c' x y w1 t1 ky Hx1 Hc' Hin Hp js ix iy Hxy Hjy Hcl _ _ _ _ He) in HB.
    destruct HB as (_ & _ & (q' & Eq & Hr) & _). rewrite Hq in Eq. injection Eq as <-. destruct Hend as [r i o m0].
    unfold reader in Hr. cbn [q_state q_stdin q_stdout q_outroom] in Hr. destruct Hr as [[Er _]|(_ & j & m & [H1 H2] & H3 & H4)]; [discriminate Er|].
    cbv zeta in *. cbn [run fst snd w_stdout] in H3, H4. unfold mix in *. remember (sub c 0 j ++ sub c' j m) as mx eqn:Emx.
    match type of H3 with _ = snd ?t => destruct t as [v rv] eqn:Ev end. cbn [fst snd] in *. subst rv.
    destruct (prints_run _ (Hp (Ok mx)) (World fs0 (j_stdin y) [] room (j_outroom y)) (World (put_fs fs0 img (NFile mx true true)) (j_stdin y) [] room (j_outroom y)) v r eq_refl eq_refl Ev) as (v1 & E4 & E5 & _).
    exists j, m, v1. split; [exact H1|]. split; [exact H2|]. split; [|cbn [q_stdout]; congruence].
    assert (put_fs fs0 img (NFile mx true true) img = NFile mx true true) as Eg by (unfold put_fs; rewrite beq_refl; reflexivity).
    unfold alone, main_run. rewrite <- Emx, Ey. cbn [run w_fs]. rewrite Eg. cbn [sys_read].
    match goal with |- context [run ?p ?w] => replace (run p w) with (v1, r) by (symmetry; exact E4) end. reflexivity.
  Qed.

  (** ** All of these can happen *)
  (** A writer that has opened the image writes from [pos] to [m]. *)
  Lemma write_part l1 l2 fs img new pos m r i o u : fs img = NFile (sub new 0 pos) true true -> 0 <= pos <= m -> m <= zlen new ->
    exists fs1, execution room fs (l1 ++ Process (Writing img pos (sub new pos (zlen new)) (PRet r)) i o u :: l2) fs1
      (l1 ++ Process (Writing img m (sub new m (zlen new)) (PRet r)) i o u :: l2) /\
      fs1 img = NFile (sub new 0 m) true true /\ forall n, n <> img -> fs1 n = fs n.
  Proof.
    intros Ef H1 H2. destruct (Z.eq_dec pos m) as [->|Hne]; [exists fs; split; [constructor|split; [exact Ef|reflexivity]]|].
    remember (sub new pos (zlen new)) as rest eqn:Hr. assert (zlen rest = zlen new - pos) as Lr by (rewrite Hr, zlen_sub; lia).
    assert (pwrite (sub new 0 pos) pos (sub rest 0 (m - pos)) = sub new 0 m) as Epw.
    { unfold pwrite. rewrite (zlen_sub new 0 pos) by lia. rewrite zeros_none by lia. rewrite zlen_sub by lia. rewrite (sub_nil (sub new 0 pos) (pos + (m - pos - 0))) by lia.
      cbn [app]. rewrite app_nil_r. replace (sub (sub new 0 pos) 0 pos) with (sub new 0 pos) by (rewrite sub_sub by lia; f_equal; lia).
      rewrite Hr, sub_sub by lia. rewrite Z.add_0_r. replace (pos + (m - pos)) with m by lia. rewrite <- sub_app_split by lia. reflexivity. }
    exists (put_fs fs img (NFile (sub new 0 m) true true)). split; [|split; [unfold put_fs; rewrite beq_refl; reflexivity|intros n Hn; unfold put_fs; rewrite (beq_false _ _ Hn); reflexivity]].
    eapply ex_step; [eapply (st_write room fs img pos rest (PRet r) _ _ _ (sub new 0 pos) true true (m - pos) Ef); lia|]. rewrite Epw.
    replace (pos + (m - pos)) with m by lia. replace (sub rest (m - pos) (zlen rest)) with (sub new m (zlen new)); [constructor|].
    rewrite Lr. rewrite Hr. rewrite sub_sub by lia. f_equal; lia.
  Qed.
  Lemma C100_any_mix_lemma iter fuel x y img w1 c c' j m w2 s2 : in_place iter fuel (j_prog x) img -> looks iter fuel (j_prog y) img ->
    alone x fs0 room = (w1, 0) -> fs0 img = NFile c true true -> w_fs w1 img = NFile c' true true -> 0 <= j <= zlen c -> m = j \/ j <= m <= zlen c' ->
    alone y (put_fs fs0 img (NFile (sub c 0 j ++ sub c' j m) true true)) room = (w2, s2) ->
    exists fs1 a b, execution room fs0 [launch x; launch y] fs1 [a; b] /\ ended a 0 /\ ended b s2 /\ q_stdout b = w_stdout w2 /\ fs1 img = NFile c' true true.
  Proof.
    intros Hx Hy E1 Ef Ef1 Hj Hm E2. apply alone_run in E1.
    destruct (in_place_shape _ _ _ _ Hx) as [(r & Ex & Hr)|(kx & Ex & Hk & _)]; [rewrite Ex in E1; injection E1 as _ E1; contradiction|].
    destruct (looks_shape _ _ _ _ Hy) as (ky & Ey & Hp & _). pose proof (mix_len c c' j m (conj Hj Hm)) as Lm. unfold mix in Lm.
    remember (sub c 0 j ++ sub c' j m) as mx eqn:Em.
    assert (put_fs fs0 img (NFile mx true true) img = NFile mx true true) as Eg by (unfold put_fs; rewrite beq_refl; reflexivity).
    unfold alone, main_run in E2. rewrite Ey in E2. cbn [run w_fs] in E2. rewrite Eg in E2. cbn [sys_read] in E2.
    match type of E2 with context [run _ ?v] => remember v as v0 eqn:Ev0 end. match type of E2 with context [run ?p v0] => destruct (run p v0) as [w2' r2] eqn:E3 end. cbv iota in E2. injection E2 as <- <-.
    rewrite Ex in E1. cbn [run w_fs] in E1. rewrite Ef in E1. cbn [sys_read] in E1.
    assert (zlen (sub c 0 j) = j) as Lj by (rewrite zlen_sub; lia).
    remember (Process (Reading img (sub c 0 j) ky) (j_stdin y) [] (j_outroom y)) as b0 eqn:Eb0.
    destruct (blind_stop room img [] [b0] _ fs0 (World fs0 (j_stdin x) [] room (j_outroom x)) w1 (Hk _) (fun n => eq_refl) eq_refl E1) as (nw & k & v & Hv & Hr & Er & X1 & Kr). cbn [w_fs w_stdin w_stdout w_outroom app] in *.
    cbn [run] in Er. unfold sys_write in Er. rewrite Hv, Ef, Hr in Er. cbn [can_write written] in Er.
    destruct (fits room nw) eqn:Efit; [|rewrite Kr in Er; discriminate Er]. rewrite Kr in Er. cbn [run] in Er. injection Er as Er.
    assert (nw = c') as ->. { rewrite <- Er in Ef1. cbn [set_fs w_fs] in Ef1. rewrite beq_refl in Ef1. injection Ef1 as Ef1. exact Ef1. }
    remember (put_fs fs0 img (NFile [] true true)) as fsa eqn:Ea. pose proof (zlen_nonneg c') as Hnn.
    assert (fsa img = NFile (sub c' 0 0) true true) as Ea' by (subst fsa; unfold put_fs; rewrite beq_refl, (sub_nil c') by lia; reflexivity).
    remember (if Z_le_dec m (zlen c') then m else 0) as p eqn:Ep. assert (0 <= p <= zlen c') as Hpp by (subst p; destruct (Z_le_dec m (zlen c')); lia).
    destruct (write_part [] [b0] fsa img c' 0 p (Ok tt) (w_stdin v) (w_stdout v) (w_outroom v) Ea' ltac:(lia) ltac:(lia)) as (fsb & X2 & Eb & _).
    remember (Process (Writing img p (sub c' p (zlen c')) (PRet (Ok tt))) (w_stdin v) (w_stdout v) (w_outroom v)) as a1 eqn:Ea1.
    (* the reader ends *)
    assert (execution room fsb [a1; b0] fsb [a1; Process (Running (ky (Ok mx))) (j_stdin y) [] (j_outroom y)]) as X3.
    { rewrite Eb0. destruct (Z.eq_dec m j) as [Emj|Nmj].
      - assert (mx = sub c 0 j) as -> by (rewrite Em, Emj, (sub_nil c') by lia; apply app_nil_r).
        eapply (ex_step room fsb [a1] _ []); [eapply st_read_end; [exact Eb|]|constructor]. rewrite Lj, zlen_sub by lia. subst p. destruct (Z_le_dec m (zlen c')); lia.
      - assert (p = m) as Epm by (subst p; destruct (Z_le_dec m (zlen c')); lia). clear Ep. subst p.
        eapply (ex_step room fsb [a1] _ []); [eapply (st_read room fsb img _ ky _ _ _ (sub c' 0 m) true true (m - j) Eb); rewrite ?zlen_sub; lia|].
        rewrite Lj. replace (j + (m - j)) with m by lia. replace (sub c 0 j ++ sub (sub c' 0 m) j m) with mx by (rewrite Em; f_equal; rewrite sub_sub by lia; f_equal; lia).
        eapply (ex_step room fsb [a1] _ []); [eapply st_read_end; [exact Eb|]|constructor]. rewrite zlen_sub by lia. lia. }
    destruct (prints_run _ (Hp (Ok mx)) v0 (World fsb (j_stdin y) [] room (j_outroom y)) _ _ ltac:(rewrite Ev0; reflexivity) ltac:(rewrite Ev0; reflexivity) E3) as (v1 & E4 & Ev & Evf).
    destruct (run_steps room [a1] [] _ fsb (World fsb (j_stdin y) [] room (j_outroom y)) v1 _ (fun n => eq_refl) eq_refl E4) as (fsc & Y1 & Yf & _).
    cbn [w_stdin w_stdout w_outroom app] in Y1. remember (Process (Running (PRet r2)) (w_stdin v1) (w_stdout v1) (w_outroom v1)) as b1 eqn:Eb1.
    assert (fsc img = NFile (sub c' 0 p) true true) as Ec by (rewrite Yf, Evf; exact Eb).
    destruct (write_part [] [b1] fsc img c' p (zlen c') (Ok tt) (w_stdin v) (w_stdout v) (w_outroom v) Ec ltac:(lia) ltac:(lia)) as (fsd & X4 & Ed & _).
    rewrite sub_full in Ed. rewrite (sub_nil c' (zlen c')) in X4 by lia. cbn [app] in X2, X4.
    eexists fsd, (Process (Running (PRet (Ok tt))) (w_stdin v) (w_stdout v) (w_outroom v)), b1. split; [|split; [|split; [|split]]].
    - unfold launch, started. rewrite Ey, Ex. remember (Process (Running (PRead img kx)) (j_stdin x) [] (j_outroom x)) as a0 eqn:Ea0.
      eapply exec_trans. { eapply (ex_step room fs0 [a0] _ []); [eapply st_read_open; exact Ef|constructor]. }
      eapply exec_trans.
      { instantiate (1 := [a0; b0]). instantiate (1 := fs0). rewrite Eb0.
        destruct (Z.eq_dec j 0) as [->|Hj0]; [rewrite (sub_nil c) by lia; constructor|].
        eapply (ex_step room fs0 [a0] _ []); [eapply (st_read room fs0 img [] ky _ _ _ c true true j Ef); cbn; lia|].
        cbn [app]. change (zlen (@nil Z)) with 0. rewrite Z.add_0_l. constructor. }
      eapply exec_trans; [rewrite Ea0; apply (read_whole room [] [b0] fs0 img kx _ _ _ _ _ Ef)|]. eapply exec_trans; [exact X1|].
      eapply (ex_step room fs0 [] _ [b0]); [apply st_write_open; rewrite Ef; reflexivity|]. rewrite Ef. cbn [written app]. rewrite <- Ea, Efit, (cut_fits _ _ Efit), Kr.
      rewrite sub_full in X2. eapply exec_trans; [exact X2|]. eapply exec_trans; [exact X3|]. eapply exec_trans; [exact Y1|].
      rewrite Ea1. eapply exec_trans; [exact X4|]. eapply (ex_step room fsd [] _ [b1]); [apply st_write_end|constructor].
    - apply (ended_ret (Ok tt)).
    - rewrite Eb1. apply ended_ret.
    - rewrite Eb1. exact Ev.
    - exact Ed.
  Qed.
End Room.

(** ** A case *)
Definition dump_job iter fuel (name : bytes) : job := Job (dump_of iter fuel name) [s2b "x.dsk"] [] None None.
Lemma C100_reader_ex iter fuel : exists fs0 c c' w fs1 a b s, let js := [put_job iter fuel (s2b "DF06"); dump_job iter fuel (s2b "DF06")] in
  Forall (fun j => uses iter fuel (j_prog j) (j_reads j) (j_writes j)) js /\
  in_place iter fuel (j_prog (put_job iter fuel (s2b "DF06"))) (s2b "x.dsk") /\ looks iter fuel (j_prog (dump_job iter fuel (s2b "DF06"))) (s2b "x.dsk") /\
  (forall i b, nth_error js i = Some b -> i <> 0%nat -> forall n, In n (j_writes b) ->
     ~ In n (j_reads (put_job iter fuel (s2b "DF06"))) /\ ~ In n (j_writes (put_job iter fuel (s2b "DF06")))) /\
  fs0 (s2b "x.dsk") = NFile c true true /\ alone (put_job iter fuel (s2b "DF06")) fs0 None = (w, 0) /\ w_fs w (s2b "x.dsk") = NFile c' true true /\
  zlen c = 143360 /\ zlen c' = 143360 /\
  execution None fs0 (map launch js) fs1 [a; b] /\ ended a 0 /\ ended b s.
Proof.
  destruct (C100_put_ex iter fuel) as (fs0 & c & c' & w & E1 & E2 & E3 & L1 & L2 & Hx & Hy & _).
  destruct (alone (dump_job iter fuel (s2b "DF06")) (put_fs fs0 (s2b "x.dsk") (NFile (sub c 0 1000 ++ sub c' 1000 2000) true true)) None) as [w2 s] eqn:E4.
  destruct (C100_any_mix_lemma None fs0 iter fuel _ (dump_job iter fuel (s2b "DF06")) _ w c c' 1000 2000 w2 s Hx Hy E2 E1 E3 ltac:(lia) ltac:(lia) E4) as (fs1 & a & b & X & Ha & Hb & _).
  exists fs0, c, c', w, fs1, a, b, s. cbv zeta. split.
  { apply Forall_cons; [|apply Forall_cons; [|apply Forall_nil]].
    - apply (us_put iter fuel (s2b "do") (s2b "auto") (s2b "B") false 0 (s2b "x.dsk") (s2b "DF06") (s2b "f")).
    - apply (us_dump iter fuel (s2b "do") (s2b "auto") (s2b "x.dsk") (s2b "DF06")). }
  split; [exact Hx|]. split; [exact Hy|]. split.
  { intros [|[|i]] b0 Hb0 Hi n Hn; [contradiction| |destruct i; discriminate Hb0]. injection Hb0 as <-. destruct Hn. }
  repeat (split; [assumption|]). assumption.
Qed.
