(** BootProofs.v -- C88: what the boot loader of a Standard Delivery disk does. *)
From Verif Require Import GoBase GoLemmas DiskModel DiskSpec DiskProofs CmdModel CmdSpec SdSpec SdProofs BootSpec.
From Coq Require Import ZifyBool ZifyNat.
Ltac Zify.zify_post_hook ::= Z.div_mod_to_equations.
Local Opaque zrange zeros sub.

Lemma mset_same m a v : mset m a v a = v.
Proof. unfold mset. rewrite Z.eqb_refl. reflexivity. Qed.
Lemma mset_other m a v x : x <> a -> mset m a v x = m x.
Proof. intros H. unfold mset. destruct (Z.eqb_spec x a); [contradiction|reflexivity]. Qed.

Lemma znth_app_l {A} (dd : A) a b i : 0 <= i < zlen a -> znth dd (a ++ b) i = znth dd a i.
Proof. intros H. rewrite znth_app by lia. replace (i <? zlen a) with true by lia. reflexivity. Qed.
Lemma znth_app_r {A} (dd : A) a b i : 0 <= zlen a <= i -> znth dd (a ++ b) i = znth dd b (i - zlen a).
Proof. intros H. rewrite znth_app by lia. replace (i <? zlen a) with false by lia. reflexivity. Qed.

Section Boot.
  Context (d : bytes) (slot : Z) (P : machine -> Prop).
  Hypothesis Hslot : 1 <= slot <= 7.
  Notation lt := (leads_to d slot P).

  (** An instruction that is not an access to the drive has one successor. *)
  Lemma cpu_step s s' : 0 <= rPC s < 0xBFFE ->
    execute (mem s (rPC s)) (mem s (rPC s + 1)) (mem s (rPC s + 2)) s = Some s' -> lt s' -> lt s.
  Proof.
    intros Hpc He Hl. apply lt_step.
    - exists s'. apply st_cpu; [unfold ram; lia|lia|exact He].
    - intros s2 H. inversion H as [s3 H1 H2 H3 E1|q v H1 H2 H3 H4 H5 H6 E1|h' H1 H2 E1|s3 H1].
      + rewrite He in H3. injection H3 as H3. subst. exact Hl.
      + exfalso. rewrite H3 in He. cbn [execute] in He. rewrite H4 in He.
        replace (ram (49280 + 16 * slot + q)) with false in He by (unfold ram; lia). discriminate.
      + lia.
      + lia.
  Qed.

  (** Step lemmas on explicit states. *)
  Ltac one := intros; subst; eapply cpu_step; cbn [rPC mem]; [lia| |eassumption];
    match goal with H : ?m ?pc = _ |- execute (?m ?pc) _ _ _ = _ => rewrite H end; cbn [execute];
    try match goal with H : ram _ = true |- _ => rewrite H end; reflexivity.

  Lemma x_TAY A X Y S C Z pc m h g : 0 <= pc < 0xBFFE -> m pc = 0xA8 ->
    lt (Mach A X A S C (A =? 0) (pc + 1) m h g) -> lt (Mach A X Y S C Z pc m h g).
  Proof. one. Qed.
  Lemma x_INY A X Y S C Z pc m h g : 0 <= pc < 0xBFFE -> m pc = 0xC8 ->
    lt (Mach A X ((Y + 1) mod 256) S C ((Y + 1) mod 256 =? 0) (pc + 1) m h g) -> lt (Mach A X Y S C Z pc m h g).
  Proof. one. Qed.
  Lemma x_LDYi b A X Y S C Z pc m h g : 0 <= pc < 0xBFFE -> m pc = 0xA0 -> m (pc + 1) = b ->
    lt (Mach A X b S C (b =? 0) (pc + 2) m h g) -> lt (Mach A X Y S C Z pc m h g).
  Proof. one. Qed.
  Lemma x_TXA A X Y S C Z pc m h g : 0 <= pc < 0xBFFE -> m pc = 0x8A ->
    lt (Mach X X Y S C (X =? 0) (pc + 1) m h g) -> lt (Mach A X Y S C Z pc m h g).
  Proof. one. Qed.
  Lemma x_LDAi b A X Y S C Z pc m h g : 0 <= pc < 0xBFFE -> m pc = 0xA9 -> m (pc + 1) = b ->
    lt (Mach b X Y S C (b =? 0) (pc + 2) m h g) -> lt (Mach A X Y S C Z pc m h g).
  Proof. one. Qed.
  Lemma x_LDAz b v A X Y S C Z pc m h g : 0 <= pc < 0xBFFE -> m pc = 0xA5 -> m (pc + 1) = b -> m b = v ->
    lt (Mach v X Y S C (v =? 0) (pc + 2) m h g) -> lt (Mach A X Y S C Z pc m h g).
  Proof. one. Qed.
  Lemma x_LDA b1 b2 v A X Y S C Z pc m h g : 0 <= pc < 0xBFFE -> m pc = 0xAD -> m (pc + 1) = b1 -> m (pc + 2) = b2 ->
    ram (word b1 b2) = true -> m (word b1 b2) = v ->
    lt (Mach v X Y S C (v =? 0) (pc + 3) m h g) -> lt (Mach A X Y S C Z pc m h g).
  Proof. one. Qed.
  Lemma x_ORAi b A X Y S C Z pc m h g : 0 <= pc < 0xBFFE -> m pc = 0x09 -> m (pc + 1) = b ->
    lt (Mach (Z.lor A b) X Y S C (Z.lor A b =? 0) (pc + 2) m h g) -> lt (Mach A X Y S C Z pc m h g).
  Proof. one. Qed.
  Lemma x_ORAz b v A X Y S C Z pc m h g : 0 <= pc < 0xBFFE -> m pc = 0x05 -> m (pc + 1) = b -> m b = v ->
    lt (Mach (Z.lor A v) X Y S C (Z.lor A v =? 0) (pc + 2) m h g) -> lt (Mach A X Y S C Z pc m h g).
  Proof. one. Qed.
  Lemma x_ANDi b A X Y S C Z pc m h g : 0 <= pc < 0xBFFE -> m pc = 0x29 -> m (pc + 1) = b ->
    lt (Mach (Z.land A b) X Y S C (Z.land A b =? 0) (pc + 2) m h g) -> lt (Mach A X Y S C Z pc m h g).
  Proof. one. Qed.
  Lemma x_LSR A X Y S C Z pc m h g : 0 <= pc < 0xBFFE -> m pc = 0x4A ->
    lt (Mach (A / 2) X Y S (negb (A mod 2 =? 0)) (A / 2 =? 0) (pc + 1) m h g) -> lt (Mach A X Y S C Z pc m h g).
  Proof. one. Qed.
  Lemma x_ROL A X Y S C Z pc m h g : 0 <= pc < 0xBFFE -> m pc = 0x2A ->
    let v := (2 * A + (if (C : bool) then 1 else 0)) mod 256 in
    lt (Mach v X Y S (128 <=? A) (v =? 0) (pc + 1) m h g) -> lt (Mach A X Y S C Z pc m h g).
  Proof. one. Qed.
  Lemma x_STAz b A X Y S C Z pc m h g : 0 <= pc < 0xBFFE -> m pc = 0x85 -> m (pc + 1) = b ->
    lt (Mach A X Y S C Z (pc + 2) (mset m b A) h g) -> lt (Mach A X Y S C Z pc m h g).
  Proof. one. Qed.
  Lemma x_STYz b A X Y S C Z pc m h g : 0 <= pc < 0xBFFE -> m pc = 0x84 -> m (pc + 1) = b ->
    lt (Mach A X Y S C Z (pc + 2) (mset m b Y) h g) -> lt (Mach A X Y S C Z pc m h g).
  Proof. one. Qed.
  Lemma x_INCz b v A X Y S C Z pc m h g : 0 <= pc < 0xBFFE -> m pc = 0xE6 -> m (pc + 1) = b -> m b = v ->
    lt (Mach A X Y S C ((v + 1) mod 256 =? 0) (pc + 2) (mset m b ((v + 1) mod 256)) h g) -> lt (Mach A X Y S C Z pc m h g).
  Proof. one. Qed.
  Lemma x_INC b1 b2 v A X Y S C Z pc m h g : 0 <= pc < 0xBFFE -> m pc = 0xEE -> m (pc + 1) = b1 -> m (pc + 2) = b2 ->
    ram (word b1 b2) = true -> m (word b1 b2) = v ->
    lt (Mach A X Y S C ((v + 1) mod 256 =? 0) (pc + 3) (mset m (word b1 b2) ((v + 1) mod 256)) h g) -> lt (Mach A X Y S C Z pc m h g).
  Proof. one. Qed.
  Lemma x_ASLz b v A X Y S C Z pc m h g : 0 <= pc < 0xBFFE -> m pc = 0x06 -> m (pc + 1) = b -> m b = v ->
    lt (Mach A X Y S (128 <=? v) (2 * v mod 256 =? 0) (pc + 2) (mset m b (2 * v mod 256)) h g) -> lt (Mach A X Y S C Z pc m h g).
  Proof. one. Qed.
  Lemma x_BIT b1 b2 A X Y S C Z pc m h g : 0 <= pc < 0xBFFE -> m pc = 0x2C -> m (pc + 1) = b1 -> m (pc + 2) = b2 ->
    ram (word b1 b2) = true -> (forall z, lt (Mach A X Y S C z (pc + 3) m h g)) -> lt (Mach A X Y S C Z pc m h g).
  Proof. intros Hp H1 H2 H3 H4 Hl. eapply cpu_step; cbn [rPC mem]; [lia| |apply Hl]. rewrite H1, H2, H3. cbn [execute]. rewrite H4. reflexivity. Qed.
  Lemma x_CMPi b A X Y S C Z pc m h g : 0 <= pc < 0xBFFE -> m pc = 0xC9 -> m (pc + 1) = b ->
    lt (Mach A X Y S (b <=? A) (A =? b) (pc + 2) m h g) -> lt (Mach A X Y S C Z pc m h g).
  Proof. one. Qed.
  Lemma x_CPYi b A X Y S C Z pc m h g : 0 <= pc < 0xBFFE -> m pc = 0xC0 -> m (pc + 1) = b ->
    lt (Mach A X Y S (b <=? Y) (Y =? b) (pc + 2) m h g) -> lt (Mach A X Y S C Z pc m h g).
  Proof. one. Qed.
  Lemma x_CLC A X Y S C Z pc m h g : 0 <= pc < 0xBFFE -> m pc = 0x18 ->
    lt (Mach A X Y S false Z (pc + 1) m h g) -> lt (Mach A X Y S C Z pc m h g).
  Proof. one. Qed.
  Lemma x_BEQ b A X Y S C (Z : bool) pc m h g : 0 <= pc < 0xBFFE -> m pc = 0xF0 -> m (pc + 1) = b ->
    lt (Mach A X Y S C Z (if Z then branch pc b else pc + 2) m h g) -> lt (Mach A X Y S C Z pc m h g).
  Proof. one. Qed.
  Lemma x_BCC b A X Y S (C : bool) Z pc m h g : 0 <= pc < 0xBFFE -> m pc = 0x90 -> m (pc + 1) = b ->
    lt (Mach A X Y S C Z (if C then pc + 2 else branch pc b) m h g) -> lt (Mach A X Y S C Z pc m h g).
  Proof. one. Qed.
  Lemma x_JMP b1 b2 A X Y S C Z pc m h g : 0 <= pc < 0xBFFE -> m pc = 0x4C -> m (pc + 1) = b1 -> m (pc + 2) = b2 ->
    lt (Mach A X Y S C Z (word b1 b2) m h g) -> lt (Mach A X Y S C Z pc m h g).
  Proof. one. Qed.
  Lemma x_JSR b1 b2 A X Y S C Z pc m h g : 0 <= pc < 0xBFFE -> m pc = 0x20 -> m (pc + 1) = b1 -> m (pc + 2) = b2 ->
    lt (Mach A X Y (((S - 1) mod 256 - 1) mod 256) C Z (word b1 b2)
          (mset (mset m (0x100 + S) ((pc + 2) / 256)) (0x100 + (S - 1) mod 256) ((pc + 2) mod 256)) h g) ->
    lt (Mach A X Y S C Z pc m h g).
  Proof. one. Qed.
  Lemma x_PHA A X Y S C Z pc m h g : 0 <= pc < 0xBFFE -> m pc = 0x48 ->
    lt (Mach A X Y ((S - 1) mod 256) C Z (pc + 1) (mset m (0x100 + S) A) h g) -> lt (Mach A X Y S C Z pc m h g).
  Proof. one. Qed.
  Lemma x_RTS lo hi A X Y S C Z pc m h g : 0 <= pc < 0xBFFE -> m pc = 0x60 ->
    m (0x100 + (S + 1) mod 256) = lo -> m (0x100 + (S + 2) mod 256) = hi ->
    lt (Mach A X Y ((S + 2) mod 256) C Z ((word lo hi + 1) mod 65536) m h g) -> lt (Mach A X Y S C Z pc m h g).
  Proof.
    intros Hp H0 H1 H2 Hl. eapply cpu_step; cbn [rPC mem]; [lia| |exact Hl]. rewrite H0. cbn [execute]. unfold return_.
    cbn [mem rA rX rY rS fC fZ head mags]. rewrite H1, H2. reflexivity.
  Qed.
  (** Switching a magnet. *)
  Lemma x_magnet q A X Y S C Z pc m h g : 0 <= pc < 0xBFFE -> m pc = 0xB9 -> m (pc + 1) = 0x80 -> m (pc + 2) = 0xC0 ->
    0 <= q < 8 -> Y = 16 * slot + q ->
    (forall v, lt (Mach v X Y S C (v =? 0) (pc + 3) m h (fun p => if p =? q / 2 then negb (q mod 2 =? 0) else g p))) ->
    lt (Mach A X Y S C Z pc m h g).
  Proof.
    intros Hp H0 H1 H2 Hq HY Hl. apply lt_step.
    - eexists. eapply (st_magnet d slot _ q 0); cbn [rPC mem rY]; [unfold ram; lia|lia|exact H0| |exact Hq|unfold is_byte; lia].
      rewrite H1, H2, HY. unfold word. lia.
    - intros s2 H. inversion H as [s3 K1 K2 K3 E1|q' v K1 K2 K3 K4 K5 K6 E1|h' K1 K2 E1|s3 K1]; cbn [rPC mem rY] in *.
      + exfalso. rewrite H0, H1, H2 in K3. cbn [execute rY] in K3.
        replace (ram ((word 128 192 + Y) mod 65536)) with false in K3 by (unfold ram, word; lia). discriminate.
      + rewrite H1, H2, HY in K4. unfold word in K4. assert (q' = q) as -> by lia. apply Hl.
      + lia.
      + lia.
  Qed.
  (** WAIT. *)
  Lemma x_wait lo hi h' A X Y S C Z m h g : 0 <= S < 256 ->
    settle g h h' -> (forall h2, settle g h h2 -> h2 = h') ->
    m (0x100 + (S + 1) mod 256) = lo -> m (0x100 + (S + 2) mod 256) = hi ->
    lt (Mach 0 X Y ((S + 2) mod 256) true true ((word lo hi + 1) mod 65536) (mset m (0x100 + S) 1) h' g) ->
    lt (Mach A X Y S C Z 0xFCA8 m h g).
  Proof.
    intros HS Hs Hu H1 H2 Hl. apply lt_step.
    - eexists. apply (st_wait d slot _ h'); [reflexivity|exact Hs].
    - intros s2 H. inversion H as [s3 K1 K2 K3 E1|q' v K1 K2 K3 K4 K5 K6 E1|h2 K1 K2 E1|s3 K1]; cbn [rPC mem rY] in *.
      + unfold ram in K1. lia.
      + unfold ram in K1. lia.
      + cbn [head mags] in K2. rewrite (Hu _ K2). unfold return_. cbn [mem rA rX rY rS fC fZ head mags].
        rewrite !mset_other by lia. rewrite H1, H2. exact Hl.
      + lia.
  Qed.

  (** ** The code of the loader, in page 8 *)
  Definition code (m : memory) : Prop := forall i, 0 <= i < 77 -> i <> 6 -> m (0x800 + i) = znth 0 sd_boot i.
  Lemma code_at m i a v : code m -> a = 0x800 + i -> 0 <= i < 77 -> i <> 6 -> znth 0 sd_boot i = v -> m a = v.
  Proof. intros H -> Hi Hn <-. apply H; assumption. Qed.
  Lemma code_frame m m' : code m -> (forall x, 0x800 <= x < 0x84D -> x <> 0x806 -> m' x = m x) -> code m'.
  Proof. intros H F i Hi Hn. rewrite F by lia. apply H; assumption. Qed.

  Ltac peel := repeat (rewrite mset_same || rewrite mset_other by lia).
  Ltac fetch := peel; match goal with Hc : code ?m |- ?m ?a = _ =>
    let i := eval vm_compute in (a - 0x800) in apply (code_at m i a _ Hc); [reflexivity|lia|lia|reflexivity] end.
  Ltac norm := match goal with |- leads_to _ _ _ (Mach _ _ _ _ _ _ ?pc _ _ _) => let v := eval vm_compute in pc in change pc with v end.

  Lemma lor_slot q : 0 <= q < 8 -> Z.lor q (16 * slot) = 16 * slot + q.
  Proof.
    intros Hq. clear P. assert (slot = 1 \/ slot = 2 \/ slot = 3 \/ slot = 4 \/ slot = 5 \/ slot = 6 \/ slot = 7) as Hs by lia.
    assert (q = 0 \/ q = 1 \/ q = 2 \/ q = 3 \/ q = 4 \/ q = 5 \/ q = 6 \/ q = 7) as Hq' by lia. clear Hslot Hq.
    repeat (destruct Hs as [->|Hs]); try rewrite Hs; repeat (destruct Hq' as [->|Hq']); try rewrite Hq'; reflexivity.
  Qed.
  Lemma lor_C0 : Z.lor slot 0xC0 = 0xC0 + slot.
  Proof.
    clear P. assert (slot = 1 \/ slot = 2 \/ slot = 3 \/ slot = 4 \/ slot = 5 \/ slot = 6 \/ slot = 7) as Hs by lia. clear Hslot.
    repeat (destruct Hs as [->|Hs]); try rewrite Hs; reflexivity.
  Qed.
  Lemma land_3 v : Z.land v 3 = v mod 4.
  Proof. change 3 with (Z.ones 2). rewrite Z.land_ones by lia. reflexivity. Qed.

  (** 083C: switch the magnet (40) mod 4 on or off, as the carry says, wait, and return. *)
  Lemma phase v h' lo hi A X Y S (C : bool) Z m h g :
    code m -> m 0x2B = 16 * slot -> m 0x40 = v -> 0 <= v < 256 -> 0 <= S < 256 ->
    m (0x100 + (S + 1) mod 256) = lo -> m (0x100 + (S + 2) mod 256) = hi ->
    let g' := (fun p => if p =? v mod 4 then C else g p) in
    settle g' h h' -> (forall h2, settle g' h h2 -> h2 = h') ->
    (forall Y', lt (Mach 0 X Y' ((S + 2) mod 256) true true ((word lo hi + 1) mod 65536) (mset m (0x100 + S) 1) h' g')) ->
    lt (Mach A X Y S C Z 0x83C m h g).
  Proof.
    intros Hc H2B H40 Hv HS Hlo Hhi g' Hs Hu Hl.
    eapply (x_LDAz 0x40 v); [lia|fetch|fetch|exact H40|norm].
    eapply (x_ANDi 3); [lia|fetch|fetch|norm].
    eapply x_ROL; [lia|fetch|norm]. rewrite land_3.
    remember (if C then 1 else 0) as cb eqn:Ecb.
    assert (Hcb : 0 <= cb < 2) by (subst cb; destruct C; lia).
    replace ((2 * (v mod 4) + cb) mod 256) with (2 * (v mod 4) + cb) by lia.
    eapply (x_ORAz 0x2B (16 * slot)); [lia|fetch|fetch|exact H2B|norm].
    rewrite lor_slot by lia.
    eapply x_TAY; [lia|fetch|norm].
    eapply (x_magnet (2 * (v mod 4) + cb)); [lia|fetch|fetch|fetch|lia|reflexivity|]. intros w. norm.
    replace ((2 * (v mod 4) + cb) / 2) with (v mod 4) by lia.
    assert (negb ((2 * (v mod 4) + cb) mod 2 =? 0) = C) as -> by (subst cb; destruct C; lia).
    eapply (x_LDAi 0x30); [lia|fetch|fetch|norm].
    eapply (x_JMP 0xA8 0xFC); [lia|fetch|fetch|fetch|]. change (word 0xA8 0xFC) with 0xFCA8.
    eapply (x_wait lo hi h'); [exact HS|exact Hs|exact Hu|exact Hlo|exact Hhi|]. apply Hl.
  Qed.

  (** With the magnet under the head the only one that may be on: switching it off leaves the head
      where it is, switching the next one on moves it there. *)
  Lemma settle_off g h : (forall p, 0 <= p < 4 -> p <> h mod 4 -> g p = false) ->
    let g' := (fun p => if p =? h mod 4 then false else g p) in
    settle g' h h /\ (forall h2, settle g' h h2 -> h2 = h) /\ (forall p, 0 <= p < 4 -> g' p = false).
  Proof.
    intros H g'. assert (Hoff : forall p, 0 <= p < 4 -> g' p = false).
    { intros p Hp. unfold g'. destruct (Z.eqb_spec p (h mod 4)); [reflexivity|]. apply H; assumption. }
    split; [apply se_none; exact Hoff|]. split; [|exact Hoff].
    intros h2 Hs. inversion Hs as [E1 E2|p h3 Hp Hg]; [reflexivity|]. rewrite Hoff in Hg by exact Hp. discriminate.
  Qed.
  Lemma settle_on g h : 0 <= h -> (forall p, 0 <= p < 4 -> g p = false) ->
    let g' := (fun p => if p =? (h + 1) mod 4 then true else g p) in
    settle g' h (h + 1) /\ (forall h2, settle g' h h2 -> h2 = h + 1) /\ (forall p, 0 <= p < 4 -> p <> (h + 1) mod 4 -> g' p = false).
  Proof.
    intros Hh H g'.
    assert (Hon : g' ((h + 1) mod 4) = true) by (unfold g'; rewrite Z.eqb_refl; reflexivity).
    assert (Hoff : forall p, 0 <= p < 4 -> p <> (h + 1) mod 4 -> g' p = false).
    { intros p Hp Hn. unfold g'. destruct (Z.eqb_spec p ((h + 1) mod 4)); [contradiction|]. apply H; assumption. }
    split; [|split; [|exact Hoff]].
    - eapply (se_one _ _ ((h + 1) mod 4)); [lia|exact Hon|exact Hoff|]. rewrite Z.eqb_refl. reflexivity.
    - intros h2 Hs. inversion Hs as [E1 E2|p h3 Hp Hg Ho Eh].
      + rewrite E1 in Hon by lia. discriminate.
      + destruct (Z.eq_dec p ((h + 1) mod 4)) as [->|Hn].
        * rewrite Eh, Z.eqb_refl. reflexivity.
        * rewrite Hoff in Hg by assumption. discriminate.
  Qed.

  (** 0837 with the carry clear: one half track inwards. *)
  Lemma half v lo hi A X Y S Z m g :
    code m -> m 0x2B = 16 * slot -> m 0x40 = v -> 0 <= v < 255 -> 0 <= S < 256 ->
    m (0x100 + (S + 1) mod 256) = lo -> m (0x100 + (S + 2) mod 256) = hi ->
    (forall p, 0 <= p < 4 -> p <> v mod 4 -> g p = false) ->
    (forall Y' m' g', m' 0x40 = v + 1 ->
       (forall x, x <> 0x40 -> (forall j, 0 <= j <= 2 -> x <> 0x100 + (S - j) mod 256) -> m' x = m x) ->
       (forall p, 0 <= p < 4 -> p <> (v + 1) mod 4 -> g' p = false) ->
       lt (Mach 0 X Y' ((S + 2) mod 256) true true ((word lo hi + 1) mod 65536) m' (v + 1) g')) ->
    lt (Mach A X Y S false Z 0x837 m v g).
  Proof.
    intros Hc H2B H40 Hv HS Hlo Hhi Hg Hl.
    eapply (x_JSR 0x3C 0x08); [lia|fetch|fetch|fetch|]. change (word 0x3C 0x08) with 0x83C.
    change ((0x837 + 2) / 256) with 0x08. change ((0x837 + 2) mod 256) with 0x39.
    destruct (settle_off g v Hg) as (S1 & S2 & S3).
    replace (((S - 1) mod 256 - 1) mod 256) with ((S - 2) mod 256) by lia.
    eapply (phase v v 0x39 0x08).
    - apply (code_frame m _ Hc). intros x Hx Hn. rewrite !mset_other by lia. reflexivity.
    - rewrite !mset_other by lia. exact H2B.
    - rewrite !mset_other by lia. exact H40.
    - lia.
    - lia.
    - replace (((S - 2) mod 256 + 1) mod 256) with ((S - 1) mod 256) by lia. apply mset_same.
    - replace (((S - 2) mod 256 + 2) mod 256) with S by lia. rewrite mset_other by lia. apply mset_same.
    - exact S1.
    - exact S2.
    - intros Y1. replace (((S - 2) mod 256 + 2) mod 256) with S by lia. change ((word 0x39 0x08 + 1) mod 65536) with 0x83A.
      remember (fun p => if p =? v mod 4 then false else g p) as g1 eqn:Eg1.
      remember (mset (mset (mset m (256 + S) 8) (256 + (S - 1) mod 256) 57) (256 + (S - 2) mod 256) 1) as m1 eqn:Em1.
      assert (F1 : forall x, (forall j, 0 <= j <= 2 -> x <> 0x100 + (S - j) mod 256) -> m1 x = m x).
      { intros x Hx. pose proof (Hx 0 ltac:(lia)). pose proof (Hx 1 ltac:(lia)). pose proof (Hx 2 ltac:(lia)).
        rewrite Em1. rewrite !mset_other by lia. reflexivity. }
      assert (Hc1 : code m1) by (apply (code_frame m _ Hc); intros x Hx Hn; apply F1; lia).
      eapply (x_INCz 0x40 v); [lia|fetch|fetch|rewrite F1 by lia; exact H40|norm].
      replace ((v + 1) mod 256) with (v + 1) by lia.
      assert (S4 : forall p, 0 <= p < 4 -> g1 p = false) by (rewrite Eg1; exact S3).
      destruct (settle_on g1 v ltac:(lia) S4) as (T1 & T2 & T3).
      assert (Hc2 : code (mset m1 0x40 (v + 1))) by (apply (code_frame m1 _ Hc1); intros x Hx Hn; apply mset_other; lia).
      eapply (phase (v + 1) (v + 1) lo hi); [exact Hc2| | |lia|exact HS| | |exact T1|exact T2|].
      + rewrite mset_other, F1 by lia. exact H2B.
      + apply mset_same.
      + rewrite mset_other, F1 by lia. exact Hlo.
      + rewrite mset_other, F1 by lia. exact Hhi.
      + intros Y2. apply Hl; [rewrite mset_other, mset_same by lia; reflexivity| |exact T3].
        intros x Hx Hj. pose proof (Hj 0 ltac:(lia)). rewrite !mset_other by lia. apply F1. exact Hj.
  Qed.

  (** 082F: to the next track. *)
  Lemma seek t lo hi A X Y S C Z m g :
    code m -> m 0x2B = 16 * slot -> m 0x40 = t -> m 0x41 = t -> 0 <= t < 100 -> 0 <= S < 256 ->
    m (0x100 + (S + 1) mod 256) = lo -> m (0x100 + (S + 2) mod 256) = hi ->
    (forall p, 0 <= p < 4 -> p <> (2 * t) mod 4 -> g p = false) ->
    (forall Y' m' g', m' 0x41 = t + 1 ->
       (forall x, x <> 0x40 -> x <> 0x41 -> ~ (0x100 <= x < 0x200) -> m' x = m x) ->
       (forall p, 0 <= p < 4 -> p <> (2 * (t + 1)) mod 4 -> g' p = false) ->
       lt (Mach 0 X Y' ((S + 2) mod 256) true true ((word lo hi + 1) mod 65536) m' (2 * (t + 1)) g')) ->
    lt (Mach A X Y S C Z 0x82F m (2 * t) g).
  Proof.
    intros Hc H2B H40 H41 Ht HS Hlo Hhi Hg Hl.
    eapply (x_INCz 0x41 t); [lia|fetch|fetch|exact H41|norm]. replace ((t + 1) mod 256) with (t + 1) by lia.
    eapply (x_ASLz 0x40 t); [lia|fetch|fetch|rewrite mset_other by lia; exact H40|norm].
    replace (128 <=? t) with false by lia. replace (2 * t mod 256) with (2 * t) by lia.
    eapply (x_JSR 0x37 0x08); [lia|fetch|fetch|fetch|]. change (word 0x37 0x08) with 0x837.
    change ((0x833 + 2) / 256) with 0x08. change ((0x833 + 2) mod 256) with 0x35.
    replace (((S - 1) mod 256 - 1) mod 256) with ((S - 2) mod 256) by lia.
    remember (mset (mset (mset (mset m 65 (t + 1)) 64 (2 * t)) (256 + S) 8) (256 + (S - 1) mod 256) 53) as m1 eqn:Em1.
    assert (F1 : forall x, x <> 0x40 -> x <> 0x41 -> (forall j, 0 <= j <= 1 -> x <> 0x100 + (S - j) mod 256) -> m1 x = m x).
    { intros x Hx Hx' Hj. pose proof (Hj 0 ltac:(lia)). pose proof (Hj 1 ltac:(lia)). rewrite Em1. rewrite !mset_other by lia. reflexivity. }
    assert (Hc1 : code m1) by (apply (code_frame m _ Hc); intros x Hx Hn; apply F1; lia).
    eapply (half (2 * t) 0x35 0x08); [exact Hc1|rewrite F1 by lia; exact H2B| |lia|lia| | |exact Hg|].
    { rewrite Em1. rewrite !mset_other by lia. apply mset_same. }
    { replace (((S - 2) mod 256 + 1) mod 256) with ((S - 1) mod 256) by lia. rewrite Em1. apply mset_same. }
    { replace (((S - 2) mod 256 + 2) mod 256) with S by lia. rewrite Em1. rewrite mset_other by lia. apply mset_same. }
    intros Y2 m2 g2 H2 F2 Hg2. replace (((S - 2) mod 256 + 2) mod 256) with S by lia. change ((word 0x35 0x08 + 1) mod 65536) with 0x836.
    assert (Hc2 : code m2) by (apply (code_frame m1 _ Hc1); intros x Hx Hn; apply F2; lia).
    eapply x_CLC; [lia|fetch|norm].
    assert (Hst : forall x, x <> 0x40 -> x <> 0x41 -> (forall j, 0 <= j <= 4 -> x <> 0x100 + (S - j) mod 256) -> m2 x = m x).
    { intros x Hx Hx' Hj. rewrite F2; [apply F1; [exact Hx|exact Hx'|]|exact Hx|].
      - intros j Hjj. apply Hj. lia.
      - intros j Hjj. pose proof (Hj (j + 2) ltac:(lia)). replace ((S - 2) mod 256 - j) with ((S - 2) mod 256 - j) by lia.
        intros E. apply H. rewrite E. f_equal. rewrite Zminus_mod_idemp_l. f_equal. lia. }
    eapply (half (2 * t + 1) lo hi); [exact Hc2|rewrite Hst by lia; exact H2B|exact H2|lia|exact HS| | |exact Hg2|].
    { rewrite Hst by lia. exact Hlo. }
    { rewrite Hst by lia. exact Hhi. }
    intros Y3 m3 g3 H3 F3 Hg3. replace (2 * t + 1 + 1) with (2 * (t + 1)) in * by lia.
    apply Hl; [| |exact Hg3].
    - rewrite F3, F2 by lia. rewrite Em1. rewrite !mset_other by lia. apply mset_same.
    - intros x Hx Hx' Hp. rewrite F3, F2, F1 by lia. reflexivity.
  Qed.

  (** The PROM, with page 8 asking for one sector at a time. *)
  Lemma x_prom t sec p A Y S C Z m h g :
    m 0x2B = 16 * slot -> m 0x26 = 0 -> m 0x27 = p -> m 0x3D = sec -> m 0x41 = t ->
    1 <= p < 0xC0 -> p <> 3 -> 0 <= sec < 16 -> 0 <= t < 35 -> h = 2 * t -> 0 <= S < 256 ->
    (if p =? 8 then znth 0 (sector d t sec) 0 else m 0x800) = 1 ->
    (forall m', (forall j, 0 <= j < 256 -> m' (256 * p + j) = znth 0 (sector d t sec) j) ->
       m' 0x40 = t ->
       (forall x, x <> 0x27 -> x <> 0x3C -> x <> 0x3D -> x <> 0x40 -> x <> 0x100 + S -> ~ (0x300 <= x < 0x356) ->
          ~ (256 * p <= x < 256 * p + 256) -> m' x = m x) ->
       forall Z', lt (Mach (sec + 1) (16 * slot) 0 S true Z' 0x801 m' h g)) ->
    lt (Mach A (16 * slot) Y S C Z (0xC05C + 256 * slot) m h g).
  Proof.
    intros H2B H26 H27 H3D H41 Hp Hp3 Hs Ht Hh HS H8 Hl.
    apply lt_step.
    - remember (fun x => if (256 * p <=? x) && (x <? 256 * p + 256) then znth 0 (sector d t sec) (x - 256 * p)
                         else if x =? 0x27 then p + 1 else if x =? 0x3D then sec + 1 else if x =? 0x40 then t else m x) as m' eqn:Em'.
      assert (E8 : m' 0x800 = 1).
      { rewrite Em'. destruct (Z.eqb_spec p 8) as [->|Hn].
        - change (znth 0 (sector d t sec) 0 = 1). exact H8.
        - replace ((256 * p <=? 2048) && (2048 <? 256 * p + 256)) with false by lia. exact H8. }
      assert (E3D : m' 0x3D = sec + 1).
      { rewrite Em'. replace ((256 * p <=? 61) && (61 <? 256 * p + 256)) with false by lia. reflexivity. }
      exists (Mach (sec + 1) (16 * slot) 0 S true false 0x801 m' h g).
      apply st_prom; cbn [rA rX rY rS fC fZ rPC mem head mags]; rewrite ?H27, ?H3D, ?H41, ?E8, ?E3D; try assumption; try reflexivity.
      + intros j Hj. rewrite Em'. replace ((256 * p <=? 256 * p + j) && (256 * p + j <? 256 * p + 256)) with true by lia.
        f_equal. lia.
      + rewrite Em'. replace ((256 * p <=? 39) && (39 <? 256 * p + 256)) with false by lia. reflexivity.
      + rewrite Em'. replace ((256 * p <=? 64) && (64 <? 256 * p + 256)) with false by lia. reflexivity.
      + intros x X1 X2 X3 X4 X5 X6 X7. rewrite Em'.
        replace ((256 * p <=? x) && (x <? 256 * p + 256)) with false by lia.
        replace (x =? 39) with false by lia. replace (x =? 61) with false by lia. replace (x =? 64) with false by lia. reflexivity.
      + replace (1 <=? sec + 1) with true by lia. reflexivity.
      + replace (1 <=? sec + 1) with true by lia. reflexivity.
    - intros s2 Hst. inversion Hst as [s3 H1 H2 H3 E1|q v H1 H2 H3 H4 H5 H6 E1|h' H1 H2 E1|s3 H1 N1 N2 N3 N4 N5 N6 N7 N8 N9 N10 N11 N12 N13 N14 N15 N16 N17 N18 N19 N20 N21 E1].
      + cbn [rPC] in H1. unfold ram in H1. lia.
      + cbn [rPC] in H1. unfold ram in H1. lia.
      + cbn [rPC] in H1. lia.
      + subst s3. destruct s2 as [A2 X2 Y2 S2 C2 Z2 PC2 m2 h2 g2]. cbn [rA rX rY rS fC fZ rPC mem head mags] in *.
        rewrite H27, H3D, H41 in *.
        assert (E8 : m2 0x800 = 1).
        { destruct (Z.eqb_spec p 8) as [->|Hn].
          - rewrite <- H8. apply (N9 0). lia.
          - rewrite N13 by lia. exact H8. }
        rewrite E8, N11 in *. replace (1 <=? sec + 1) with true in * by lia. subst.
        apply Hl; [exact N9|exact N12|exact N13].
  Qed.

  (** 081C: ask the PROM for sector Y. *)
  Lemma ask t sec p A S C Z m h g :
    code m -> m 0x800 = 1 -> m 0x2B = 16 * slot -> m 0x26 = 0 -> m 0x27 = p -> m 0x41 = t ->
    1 <= p < 0xC0 -> p <> 3 -> p <> 8 -> 0 <= sec < 16 -> 0 <= t < 35 -> h = 2 * t -> 0 <= S < 256 ->
    (forall m' Z', (forall j, 0 <= j < 256 -> m' (256 * p + j) = znth 0 (sector d t sec) j) ->
       m' 0x40 = t ->
       (forall x, x <> 0x27 -> x <> 0x3C -> x <> 0x3D -> x <> 0x40 -> ~ (0x100 <= x < 0x200) -> ~ (0x300 <= x < 0x356) ->
          ~ (256 * p <= x < 256 * p + 256) -> m' x = m x) ->
       lt (Mach (sec + 1) (16 * slot) 0 S true Z' 0x801 m' h g)) ->
    lt (Mach A (16 * slot) sec S C Z 0x81C m h g).
  Proof.
    intros Hc H800 H2B H26 H27 H41 Hp Hp3 Hp8 Hs Ht Hh HS Hl.
    eapply (x_STYz 0x3D); [lia|fetch|fetch|norm].
    eapply x_INY; [lia|fetch|norm].
    eapply (x_LDAz 0x27 p); [lia|fetch|fetch|peel; exact H27|norm].
    eapply (x_BEQ 0xDF); [lia|fetch|fetch|]. replace (p =? 0) with false by lia. norm.
    eapply x_TXA; [lia|fetch|norm].
    eapply x_LSR; [lia|fetch|norm].
    eapply x_LSR; [lia|fetch|norm].
    eapply x_LSR; [lia|fetch|norm].
    eapply x_LSR; [lia|fetch|norm].
    replace (16 * slot / 2 / 2 / 2 / 2) with slot by lia.
    eapply (x_ORAi 0xC0); [lia|fetch|fetch|norm]. rewrite lor_C0.
    eapply x_PHA; [lia|fetch|norm].
    eapply (x_LDAi 0x5B); [lia|fetch|fetch|norm].
    eapply x_PHA; [lia|fetch|norm].
    replace (((S - 1) mod 256 - 1) mod 256) with ((S - 2) mod 256) by lia.
    eapply (x_RTS 0x5B (0xC0 + slot)); [lia|fetch| | |].
    { replace (((S - 2) mod 256 + 1) mod 256) with ((S - 1) mod 256) by lia. apply mset_same. }
    { replace (((S - 2) mod 256 + 2) mod 256) with S by lia. rewrite mset_other by lia. apply mset_same. }
    replace (((S - 2) mod 256 + 2) mod 256) with S by lia.
    replace ((word 91 (192 + slot) + 1) mod 65536) with (0xC05C + 256 * slot) by (unfold word; lia).
    eapply (x_prom t sec p).
    - peel. exact H2B.
    - peel. exact H26.
    - peel. exact H27.
    - peel. reflexivity.
    - peel. exact H41.
    - exact Hp.
    - exact Hp3.
    - exact Hs.
    - exact Ht.
    - exact Hh.
    - exact HS.
    - replace (p =? 8) with false by lia. peel. exact H800.
    - intros m' M1 M2 M3 Z'. apply Hl; [exact M1|exact M2|].
      intros x X1 X2 X3 X4 X5 X6 X7. rewrite M3 by lia. peel. reflexivity.
  Qed.
End Boot.

Section Loop.
  Context (d : bytes) (slot : Z) (c : bytes) (address start : Z).
  Hypothesis Hslot : 1 <= slot <= 7.
  Notation lt := (leads_to d slot (runs c address start)).
  Hypothesis Hpage : address mod 256 = 0.
  Hypothesis Hfit : sd_pages c <= 176.
  Hypothesis Hstart : 0 <= start < 65536.
  Hypothesis Htop : forall i, 0 <= i < sd_pages c -> 0 <= address / 256 + i < 0xC0.
  Hypothesis Hfree : out_of_the_way (address / 256) (sd_pages c).
  Hypothesis Hdisk : sd_disk c address start d.

  Definition page8 (m : memory) : Prop :=
    forall i, 0 <= i < 256 -> i <> 6 -> m (0x800 + i) = znth 0 (sd_sector d 0) i.

  Lemma pages_nonneg : 0 <= sd_pages c.
  Proof. unfold sd_pages. pose proof (zlen_nonneg c). lia. Qed.
  Lemma disk_code m : page8 m -> code m.
  Proof.
    intros H i Hi Hn. rewrite H by lia. destruct Hdisk as (_ & (tail & E & _) & _). rewrite E.
    apply znth_app_l. exact Hi.
  Qed.
  Lemma disk_start : znth 0 (sd_sector d 0) 77 = start mod 256 /\ znth 0 (sd_sector d 0) 78 = start / 256.
  Proof.
    destruct Hdisk as (_ & (tail & E & _) & _). rewrite E. split.
    - rewrite znth_app_r by (change (zlen sd_boot) with 77; lia). reflexivity.
    - rewrite znth_app_r by (change (zlen sd_boot) with 77; lia). reflexivity.
  Qed.
  Lemma disk_list i : 0 <= i <= sd_pages c ->
    znth 0 (sd_sector d 0) (79 + i) = if i =? sd_pages c then 0xC0 else address / 256 + i.
  Proof.
    intros Hi. destruct Hdisk as (_ & (tail & E & _) & _). rewrite E.
    rewrite znth_app_r by (change (zlen sd_boot) with 77; lia). change (zlen sd_boot) with 77.
    rewrite znth_app_r by (change (zlen [start mod 256; start / 256]) with 2; lia).
    change (zlen [start mod 256; start / 256]) with 2. replace (79 + i - 77 - 2) with i by lia.
    pose proof pages_nonneg as Hn.
    destruct (Z.eqb_spec i (sd_pages c)) as [->|Hne].
    - rewrite znth_app_r by (rewrite zlen_map, zlen_zrange; lia). rewrite zlen_map, zlen_zrange by lia.
      replace (sd_pages c - sd_pages c) with 0 by lia. reflexivity.
    - rewrite znth_app_l by (rewrite zlen_map, zlen_zrange; lia).
      rewrite (znth_map _ 0) by (rewrite zlen_zrange; lia). rewrite znth_zrange by lia. reflexivity.
  Qed.
  Lemma disk_page i j : 0 <= i < sd_pages c -> 0 <= j < 256 ->
    znth 0 (sd_sector d (i + 1)) j = znth 0 c (256 * i + j).
  Proof. apply Hdisk. Qed.

  (** At 801, after sector [sec] of track [t], with [n] pages of the binary loaded. *)
  Definition at801 (n t sec : Z) (s : machine) : Prop :=
    rPC s = 0x801 /\ rA s = sec + 1 /\ rX s = 16 * slot /\ 0 <= rS s < 256 /\
    mem s 0x26 = 0 /\ mem s 0x2B = 16 * slot /\ mem s 0x40 = t /\ mem s 0x41 = t /\
    head s = 2 * t /\ (forall p, 0 <= p < 4 -> p <> head s mod 4 -> mags s p = false) /\
    page8 (mem s) /\ mem s 0x806 = 0x4E + n /\
    (forall i j, 0 <= i < n -> 0 <= j < 256 -> mem s (256 * (address / 256 + i) + j) = znth 0 c (256 * i + j)).
  (** After [k] sectors have been read. *)
  Definition inv (k : Z) : machine -> Prop := at801 (k - 1) ((k - 1) / 16) (znth 0 sd_order ((k - 1) mod 16)).

  (** One more page. *)
  Lemma ask_next n t sec p A S C Z m m1 m2 g2 : 0 <= n < sd_pages c ->
    p = address / 256 + n -> 0 <= sec < 16 -> 0 <= t < 35 -> 0 <= S < 256 ->
    (forall j, 0 <= j < 256 -> znth 0 (sector d t sec) j = znth 0 c (256 * n + j)) ->
    m 0x26 = 0 -> m 0x2B = 16 * slot -> page8 m ->
    (forall i j, 0 <= i < n -> 0 <= j < 256 -> m (256 * (address / 256 + i) + j) = znth 0 c (256 * i + j)) ->
    m1 = mset m 0x806 (0x4E + (n + 1)) ->
    (forall x, x <> 0x27 -> x <> 0x40 -> x <> 0x41 -> ~ (0x100 <= x < 0x200) -> m2 x = m1 x) ->
    m2 0x27 = p -> m2 0x41 = t -> (forall q, 0 <= q < 4 -> q <> (2 * t) mod 4 -> g2 q = false) ->
    (forall s', at801 (n + 1) t sec s' -> lt s') ->
    lt (Mach A (16 * slot) sec S C Z 0x81C m2 (2 * t) g2).
  Proof.
    intros Hn Ep Hr Ht HS Hsec H26 H2B H8 Hm Em1 F2 H27 H41 Hg Hnext.
    pose proof (Htop n Hn) as Hp. pose proof (Hfree n Hn) as Hpf. rewrite <- Ep in Hp, Hpf.
    assert (Hpl : 1 <= p < 192) by lia. assert (Hp3 : p <> 3) by lia. assert (Hp8 : p <> 8) by lia. clear Hp Hpf.
    pose proof (disk_code m H8) as Hc0.
    assert (F1 : forall x, x <> 0x806 -> m1 x = m x) by (intros x Hx; rewrite Em1; apply mset_other; exact Hx).
    assert (F12 : forall x, x <> 0x806 -> x <> 0x27 -> x <> 0x40 -> x <> 0x41 -> ~ (0x100 <= x < 0x200) -> m2 x = m x)
      by (intros; rewrite F2, F1 by assumption; reflexivity).
    assert (Hc2 : code m2) by (apply (code_frame m _ Hc0); intros; apply F12; lia).
    assert (P26 : m2 0x26 = 0) by (rewrite F12 by lia; exact H26).
    assert (P2B : m2 0x2B = 16 * slot) by (rewrite F12 by lia; exact H2B).
    assert (P800 : m2 0x800 = 1) by (rewrite F12 by lia; apply (code_at m 0 _ _ Hc0); [reflexivity|lia|lia|reflexivity]).
    assert (P8 : page8 m2) by (intros i Hi Hi6; rewrite F12 by (clear - Hi Hi6; lia); apply H8; assumption).
    assert (P806 : m2 0x806 = 0x4E + (n + 1)) by (rewrite F2 by lia; rewrite Em1; apply mset_same).
    assert (Pm : forall i j, 0 <= i < n -> 0 <= j < 256 -> m2 (256 * (address / 256 + i) + j) = znth 0 c (256 * i + j)).
    { intros i j Hi Hj. assert (Hi' : 0 <= i < sd_pages c) by (clear - Hi Hn; lia).
      pose proof (Hfree i Hi') as Hfi. pose proof (Htop i Hi') as Hti.
      assert (H1 : address / 256 + i <> 1) by (clear - Hfi Hi Hn; lia).
      rewrite <- Hm by assumption. clear - Hfi Hti Hj F12 H1. remember (address / 256 + i) as q. clear Heqq. apply F12; lia. }
    eapply (ask d slot _ Hslot t sec p); [exact Hc2|exact P800|exact P2B|exact P26|exact H27|exact H41|exact Hpl|exact Hp3|exact Hp8|exact Hr|exact Ht|reflexivity|exact HS|].
    intros m3 Z3 M1 M2 F3. apply Hnext.
    assert (G : forall x, x <> 0x27 -> x <> 0x3C -> x <> 0x3D -> x <> 0x40 -> (x < 0x100 \/ 0x800 <= x < 0x900) -> m3 x = m2 x)
      by (clear - F3 Hpl Hp8; intros; apply F3; lia).
    unfold at801. cbn [rA rX rY rS fC fZ rPC mem head mags].
    split; [reflexivity|]. split; [reflexivity|]. split; [reflexivity|]. split; [exact HS|].
    split; [rewrite G by lia; exact P26|]. split; [rewrite G by lia; exact P2B|]. split; [exact M2|].
    split; [rewrite G by lia; exact H41|]. split; [reflexivity|]. split; [exact Hg|].
    split; [intros i Hi Hi6; rewrite G by (clear - Hi Hi6; lia); apply P8; assumption|]. split; [rewrite G by lia; exact P806|].
    intros i j Hi Hj. destruct (Z.eq_dec i n) as [->|Hne].
    - rewrite <- Ep. rewrite M1 by exact Hj. apply Hsec. exact Hj.
    - assert (Hi1 : 0 <= i < n) by (clear - Hi Hne; lia). assert (Hi' : 0 <= i < sd_pages c) by (clear - Hi1 Hn; lia).
      rewrite <- Pm by assumption. pose proof (Hfree i Hi') as Hfi. pose proof (Htop i Hi') as Hti.
      assert (Hqp : address / 256 + i < p) by (clear - Hi1 Ep; lia).
      assert (H1 : address / 256 + i <> 1) by (clear - Hfi Hi1 Hn; lia).
      clear - Hfi Hti Hj F3 Hqp H1. remember (address / 256 + i) as q. clear Heqq. apply F3; lia.
  Qed.

  Ltac peel := repeat (rewrite mset_same || rewrite mset_other by lia).
  Ltac fetch := peel; match goal with Hc : code ?m |- ?m ?a = _ =>
    let i := eval vm_compute in (a - 0x800) in apply (code_at m i a _ Hc); [reflexivity|lia|lia|reflexivity] end.
  Ltac norm := match goal with |- leads_to _ _ _ (Mach _ _ _ _ _ _ ?pc _ _ _) => let v := eval vm_compute in pc in change pc with v end.

  (** 801-80A: the next byte of the page list. *)
  Lemma next_page k A S Y C Z m h g : 1 <= k <= sd_pages c + 1 -> page8 m -> m 0x806 = 0x4E + (k - 1) ->
    let p := if k - 1 =? sd_pages c then 0xC0 else address / 256 + (k - 1) in
    lt (Mach p (16 * slot) A S (0xC0 <=? p) (p =? 0xC0) 0x80A (mset m 0x806 (0x4E + k)) h g) ->
    lt (Mach A (16 * slot) Y S C Z 0x801 m h g).
  Proof.
    intros Hk H8 H6 p Hl. pose proof (disk_code m H8) as Hc.
    eapply (x_TAY d slot _ Hslot); [lia|fetch|norm].
    eapply (x_INC d slot _ Hslot 0x06 0x08 (0x4E + (k - 1))); [lia|fetch|fetch|fetch|reflexivity|exact H6|norm].
    replace ((78 + (k - 1) + 1) mod 256) with (0x4E + k) by lia. change (word 6 8) with 0x806.
    eapply (x_LDA d slot _ Hslot (0x4E + k) 0x08 p); [lia|fetch|apply mset_same|fetch|unfold ram, word; lia| |norm].
    { rewrite mset_other by (unfold word; lia). replace (word (78 + k) 8) with (0x800 + (79 + (k - 1))) by (unfold word; lia).
      rewrite H8 by lia. rewrite disk_list by lia. reflexivity. }
    eapply (x_CMPi d slot _ Hslot 0xC0); [lia|fetch|fetch|norm]. exact Hl.
  Qed.

  (** The end of the list: jump to the binary. *)
  Lemma finish s : inv (sd_pages c + 1) s -> lt s.
  Proof.
    destruct s as [A X Y S C Z pc m h g]. unfold inv, at801. cbn [rA rX rY rS fC fZ rPC mem head mags].
    intros (-> & _ & -> & HS & _ & _ & _ & _ & _ & _ & H8 & H6 & Hm).
    pose proof pages_nonneg as Hn. pose proof (disk_code m H8) as Hc0.
    apply (next_page (sd_pages c + 1)); [lia|exact H8|exact H6|].
    replace (sd_pages c + 1 - 1 =? sd_pages c) with true by lia. cbv zeta.
    remember (mset m 0x806 (78 + (sd_pages c + 1))) as m1 eqn:Em1.
    assert (F : forall x, x <> 0x806 -> m1 x = m x) by (intros x Hx; rewrite Em1; apply mset_other; exact Hx).
    assert (Hc : code m1) by (apply (code_frame m _ Hc0); intros; apply F; assumption).
    eapply (x_BEQ d slot _ Hslot 0x40); [lia|fetch|fetch|]. change (192 =? 192) with true. cbv iota. norm.
    destruct disk_start as [D1 D2].
    eapply (x_JMP d slot _ Hslot (start mod 256) (start / 256)); [lia|fetch| | |].
    { rewrite F by lia. rewrite <- D1. apply (H8 77); lia. }
    { rewrite F by lia. rewrite <- D2. apply (H8 78); lia. }
    apply lt_here. split; cbn [rPC mem]; [unfold word; lia|].
    intros i Hi. assert (Hi' : 0 <= i / 256 < sd_pages c) by (unfold sd_pages; lia).
    pose proof (Hfree (i / 256) Hi') as Hf.
    rewrite F by lia.
    replace (address + i) with (256 * (address / 256 + i / 256) + i mod 256) by lia.
    rewrite Hm by lia. f_equal. lia.
  Qed.

  (** The sector after the one just read. *)
  Lemma next_sector k : 1 <= k -> 
    let s0 := znth 0 sd_order ((k - 1) mod 16) in
    znth 0 sd_order (k mod 16) = (if s0 =? 15 then 0 else if s0 =? 14 then 1 else s0 + 2) /\
    k / 16 = (if s0 =? 15 then (k - 1) / 16 + 1 else (k - 1) / 16) /\ 0 <= s0 < 16.
  Proof.
    intros Hk s0. pose proof (sd_order_range ((k - 1) mod 16) ltac:(lia)) as Hr.
    assert (Hm : k mod 16 = ((k - 1) mod 16 + 1) mod 16) by lia.
    assert (Hd : k / 16 = if (k - 1) mod 16 =? 15 then (k - 1) / 16 + 1 else (k - 1) / 16) by (destruct (Z.eqb_spec ((k - 1) mod 16) 15); lia).
    rewrite Hm, Hd. unfold s0. clear s0 Hm Hd. remember ((k - 1) mod 16) as q eqn:Eq. assert (Hq : 0 <= q < 16) by lia.
    split; [|split; [|exact Hr]].
    - clear Eq Hr. revert q Hq.
      intros q Hq. assert (E : forallb (fun q => znth 0 sd_order ((q + 1) mod 16) =? (if znth 0 sd_order q =? 15 then 0 else if znth 0 sd_order q =? 14 then 1 else znth 0 sd_order q + 2))
        [0; 1; 2; 3; 4; 5; 6; 7; 8; 9; 10; 11; 12; 13; 14; 15] = true) by reflexivity.
      rewrite forallb_forall in E. apply Z.eqb_eq. apply E. cbn. lia.
    - clear Eq Hr. assert (E : forallb (fun q => Bool.eqb (znth 0 sd_order q =? 15) (q =? 15)) [0; 1; 2; 3; 4; 5; 6; 7; 8; 9; 10; 11; 12; 13; 14; 15] = true) by reflexivity.
      rewrite forallb_forall in E. rewrite (Bool.eqb_prop _ _ (E q ltac:(cbn; lia))). reflexivity.
  Qed.

  Lemma iterate k s : 1 <= k <= sd_pages c -> (forall s', inv (k + 1) s' -> lt s') -> inv k s -> lt s.
  Proof.
    intros Hk Hnext. destruct s as [A X Y S C Z pc m h g]. unfold inv at 1, at801 at 1. cbn [rA rX rY rS fC fZ rPC mem head mags].
    intros (-> & HA & -> & HS & H26 & H2B & H40 & H41 & Hh & Hg & H8 & H6 & Hm).
    pose proof (disk_code m H8) as Hc0.
    apply (next_page k); [lia|exact H8|exact H6|].
    replace (k - 1 =? sd_pages c) with false by lia. cbv zeta.
    remember (address / 256 + (k - 1)) as p eqn:Ep.
    pose proof (Htop (k - 1) ltac:(lia)) as Hp. rewrite <- Ep in Hp.
    pose proof (Hfree (k - 1) ltac:(lia)) as Hpf. rewrite <- Ep in Hpf.
    replace (192 <=? p) with false by lia. replace (p =? 192) with false by lia.
    remember (mset m 0x806 (0x4E + k)) as m1 eqn:Em1.
    assert (F1 : forall x, x <> 0x806 -> m1 x = m x) by (intros x Hx; rewrite Em1; apply mset_other; exact Hx).
    assert (Hc1 : code m1) by (apply (code_frame m _ Hc0); intros; apply F1; assumption).
    eapply (x_BEQ d slot _ Hslot 0x40); [lia|fetch|fetch|norm].
    eapply (x_STAz d slot _ Hslot 0x27); [lia|fetch|fetch|norm].
    destruct (next_sector k ltac:(lia)) as (Hs1 & Hs2 & Hs0). cbv zeta in Hs1, Hs2, Hs0.
    remember (znth 0 sd_order ((k - 1) mod 16)) as s0 eqn:Es0. subst A.
    eapply (x_INY d slot _ Hslot); [lia|fetch|norm].
    replace ((s0 + 1 + 1) mod 256) with (s0 + 2) by lia.
    eapply (x_CPYi d slot _ Hslot 16); [lia|fetch|fetch|norm].
    eapply (x_BCC d slot _ Hslot 9); [lia|fetch|fetch|].
    (* the rest, once the drive and Y are set for sector number k *)
    assert (Hask : forall A C Z m2 g2, (forall x, x <> 0x27 -> x <> 0x40 -> x <> 0x41 -> ~ (0x100 <= x < 0x200) -> m2 x = m1 x) ->
              m2 0x27 = p -> m2 0x41 = k / 16 -> (forall q, 0 <= q < 4 -> q <> (2 * (k / 16)) mod 4 -> g2 q = false) ->
              lt (Mach A (16 * slot) (znth 0 sd_order (k mod 16)) S C Z 0x81C m2 (2 * (k / 16)) g2)).
    { intros A C2 Z2 m2 g2 F2 H27' H41' Hg2.
      apply (ask_next (k - 1) (k / 16) (znth 0 sd_order (k mod 16)) p A S C2 Z2 m m1 m2 g2);
        [lia|exact Ep|apply sd_order_range; lia|lia|exact HS| |exact H26|exact H2B|exact H8|exact Hm| |exact F2|exact H27'|exact H41'|exact Hg2|].
      - intros j Hj. rewrite <- disk_page by lia. replace (k - 1 + 1) with k by lia. reflexivity.
      - rewrite Em1. f_equal. lia.
      - intros s' Hs'. apply Hnext. unfold inv. replace (k + 1 - 1) with k by lia. replace (k - 1 + 1) with k in Hs' by lia. exact Hs'. }
    destruct (Z.eqb_spec s0 15) as [E15|N15]; [|destruct (Z.eqb_spec s0 14) as [E14|N14]].
    - rewrite E15. change (16 <=? 15 + 2) with true. cbv iota. norm.
      eapply (x_BEQ d slot _ Hslot 5); [lia|fetch|fetch|]. change (15 + 2 =? 16) with false. cbv iota. norm.
      eapply (x_JSR d slot _ Hslot 0x2F 0x08); [lia|fetch|fetch|fetch|]. change (word 0x2F 0x08) with 0x82F.
      change ((0x815 + 2) / 256) with 0x08. change ((0x815 + 2) mod 256) with 0x17.
      replace (((S - 1) mod 256 - 1) mod 256) with ((S - 2) mod 256) by lia.
      remember (mset (mset (mset m1 39 p) (256 + S) 8) (256 + (S - 1) mod 256) 23) as m2 eqn:Em2.
      assert (F2 : forall x, x <> 0x27 -> ~ (0x100 <= x < 0x200) -> m2 x = m1 x) by (intros x Hx Hx'; rewrite Em2, !mset_other by lia; reflexivity).
      assert (Hc2 : code m2) by (apply (code_frame m1 _ Hc1); intros; apply F2; lia).
      rewrite Hh. eapply (seek d slot _ Hslot ((k - 1) / 16) 0x17 0x08); [exact Hc2| | | |lia|lia| | | |].
      + rewrite F2, F1 by lia. exact H2B.
      + rewrite F2, F1 by lia. exact H40.
      + rewrite F2, F1 by lia. exact H41.
      + replace (((S - 2) mod 256 + 1) mod 256) with ((S - 1) mod 256) by lia. rewrite Em2. apply mset_same.
      + replace (((S - 2) mod 256 + 2) mod 256) with S by lia. rewrite Em2. rewrite mset_other by lia. apply mset_same.
      + rewrite <- Hh. exact Hg.
      + intros Y3 m3 g3 H41' F3 Hg3. replace (((S - 2) mod 256 + 2) mod 256) with S by lia. change ((word 23 8 + 1) mod 65536) with 0x818.
        assert (Hc3 : code m3) by (apply (code_frame m2 _ Hc2); intros; apply F3; lia).
        eapply (x_TAY d slot _ Hslot); [lia|fetch|norm].
        eapply (x_BIT d slot _ Hslot 0xA0 0x01); [lia|fetch|fetch|fetch|reflexivity|intros z; norm].
        rewrite <- Hs1. rewrite <- Hs2. apply Hask.
        * intros x X1 X2 X3 X4. rewrite F3, F2 by assumption. reflexivity.
        * rewrite F3 by lia. rewrite Em2, !mset_other by lia. apply mset_same.
        * rewrite H41', Hs2. reflexivity.
        * rewrite Hs2. exact Hg3.
    - rewrite E14. change (16 <=? 14 + 2) with true. cbv iota. norm.
      eapply (x_BEQ d slot _ Hslot 5); [lia|fetch|fetch|]. change (14 + 2 =? 16) with true. cbv iota. norm.
      eapply (x_LDYi d slot _ Hslot 1); [lia|fetch|fetch|norm].
      rewrite <- Hs1. rewrite Hh, <- Hs2. apply Hask.
      + intros x X1 X2 X3 X4. apply mset_other. exact X1.
      + apply mset_same.
      + rewrite mset_other, F1 by lia. rewrite Hs2. exact H41.
      + rewrite Hs2, <- Hh. exact Hg.
    - replace (16 <=? s0 + 2) with false by lia. change (branch (0x811) 9) with 0x81C.
      rewrite <- Hs1. rewrite Hh, <- Hs2. apply Hask.
      + intros x X1 X2 X3 X4. apply mset_other. exact X1.
      + apply mset_same.
      + rewrite mset_other, F1 by lia. rewrite Hs2. exact H41.
      + rewrite Hs2, <- Hh. exact Hg.
  Qed.

  Lemma all_pages : forall (r : nat) k s, 1 <= k -> k + Z.of_nat r = sd_pages c + 1 -> inv k s -> lt s.
  Proof.
    induction r as [|r IH]; intros k s Hk Hr Hi.
    - apply finish. replace (sd_pages c + 1) with k by lia. exact Hi.
    - apply (iterate k); [lia| |exact Hi]. intros s' Hs'. apply (IH (k + 1)); [lia|lia|exact Hs'].
  Qed.

  Lemma boot s : cold_start slot s -> lt s.
  Proof.
    destruct s as [A X Y S C Z pc m h g]. unfold cold_start. cbn [rA rX rY rS fC fZ rPC mem head mags].
    intros (-> & -> & HS & H26 & H27 & H2B & H3D & H41 & -> & Hg).
    assert (E1 : znth 0 (sd_sector d 0) 0 = 1).
    { destruct Hdisk as (_ & (tail & E & _) & _). rewrite E. reflexivity. }
    eapply (x_prom d slot _ Hslot 0 0 8); [exact H2B|exact H26|exact H27|exact H3D|exact H41|lia|lia|lia|lia|reflexivity|exact HS|exact E1|].
    intros m' M1 M2 F Z'. pose proof pages_nonneg as Hn.
    apply (all_pages (Z.to_nat (sd_pages c)) 1); [lia|lia|].
    unfold inv, at801. cbn [rA rX rY rS fC fZ rPC mem head mags]. change ((1 - 1) / 16) with 0. change ((1 - 1) mod 16) with 0.
    repeat split; try lia; try exact M2.
    - rewrite F by lia. exact H26.
    - rewrite F by lia. exact H2B.
    - rewrite F by lia. exact H41.
    - intros p Hp Hp'. apply Hg. lia.
    - intros i Hi Hn6. apply (M1 i Hi).
    - change 2054 with (256 * 8 + 6). rewrite M1 by lia. change (sector d 0 0) with (sd_sector d 0).
      destruct Hdisk as (_ & (tail & E & _) & _). rewrite E. reflexivity.
  Qed.
End Loop.
