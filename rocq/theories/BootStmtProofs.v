(** BootStmtProofs.v -- C88: the statements about the disks written by mksd. *)
From Verif Require Import GoBase GoLemmas DiskModel DiskSpec DiskProofs DiskOpenProofs CmdModel CmdSpec CmdProofs CmdStmtProofs SdSpec SdProofs BootSpec BootProofs.
From Coq Require Import ZifyBool ZifyNat.
Ltac Zify.zify_post_hook ::= Z.div_mod_to_equations.
Local Opaque zrange zeros sub.

Lemma sd_disk_boots d c address start0 : 0 <= address < 65536 -> 0 <= start0 < 65536 ->
  sd_accepts c address (sd_start address start0) -> sd_disk c address (sd_start address start0) d ->
  (forall i, 0 <= i < sd_pages c -> 0 <= address / 256 + i < 0xC0) ->
  out_of_the_way (address / 256) (sd_pages c) ->
  boots_into d c address (sd_start address start0).
Proof.
  intros Ha Hs (A1 & A2 & A3 & A4) Hd Ht Hf slot s Hslot Hc.
  apply (boot d slot c address (sd_start address start0)); try assumption.
  unfold sd_start. destruct (start0 =? 0xFFFF); assumption.
Qed.

Lemma C88_partial_lemma : forall order img bin c address start0 o w w',
  order_flag order -> sd_image_order order img o -> 0 <= address < 65536 -> 0 <= start0 < 65536 ->
  input w bin c -> run (SDCmd_Run order img bin address start0) w = (w', Ok tt) ->
  out_of_the_way (address / 256) (sd_pages c) ->
  exists raw d, output w w' img raw /\ reordered raw o (s2b "raw") d /\
    boots_into d c address (sd_start address start0).
Proof.
  intros order img bin c address start0 o w w' Hf Ho Ha Hs Hin Hrun Hfree.
  destruct (C67_run_lemma order img bin c address start0 w Hin) as (H1 & _ & _).
  destruct (H1 w' Hrun) as (raw & Er & Hout).
  destruct (C67_lemma order img c address start0 o Hf Ho Ha Hs) as (K1 & _ & K3 & K4).
  destruct (K3 raw Er) as (d & Hd & Hre). assert (Hacc : sd_accepts c address (sd_start address start0)) by (apply K1; exists raw; exact Er).
  exists raw, d. split; [exact Hout|]. split; [apply reordered_back; exact Hre|].
  apply sd_disk_boots; try assumption. apply K4. exact Hacc.
Qed.

(** ** Runs that do not get there *)
Section Bad.
  Context (d : bytes) (slot : Z) (P : machine -> Prop).
  Lemma not_yet s s' : ~ P s -> step d slot s s' -> ~ leads_to d slot P s' -> ~ leads_to d slot P s.
  Proof. intros HP Hst Hn H. destruct H as [H|_ H]; [exact (HP H)|]. exact (Hn (H s' Hst)). Qed.
  (** A state that can be its own successor. *)
  Lemma stays s : ~ P s -> step d slot s s -> ~ leads_to d slot P s.
  Proof. intros HP Hst H. revert Hst HP. induction H as [s H|s H0 H IH]; intros Hst HP; [exact (HP H)|]. exact (IH s Hst Hst HP). Qed.

  (** [n] instructions, none of them at [pc0]. *)
  Fixpoint sim (pc0 : Z) (n : nat) (s : machine) : option machine :=
    match n with
    | O => Some s
    | S k => if ram (rPC s) && (rPC s + 2 <? 0xC000) && negb (rPC s =? pc0) then
               match execute (mem s (rPC s)) (mem s (rPC s + 1)) (mem s (rPC s + 2)) s with
               | Some s' => sim pc0 k s'
               | None => None
               end
             else None
    end.
  Lemma sim_path pc0 : (forall s, P s -> rPC s = pc0) ->
    forall n s s', sim pc0 n s = Some s' -> ~ leads_to d slot P s' -> ~ leads_to d slot P s.
  Proof.
    intros HP. induction n as [|n IH]; cbn [sim]; intros s s' H Hn.
    - injection H as ->. exact Hn.
    - destruct (ram (rPC s) && (rPC s + 2 <? 49152) && negb (rPC s =? pc0)) eqn:E; [|discriminate].
      destruct (execute (mem s (rPC s)) (mem s (rPC s + 1)) (mem s (rPC s + 2)) s) as [s1|] eqn:Ex; [|discriminate].
      apply andb_true_iff in E. destruct E as [E E3]. apply andb_true_iff in E. destruct E as [E1 E2].
      apply (not_yet s s1); [intros Hp; apply HP in Hp; lia| |apply (IH s1 s' H Hn)].
      apply st_cpu; [exact E1|lia|exact Ex].
  Qed.
End Bad.

(** The machine after the loader has been read, the PROM's scratch space being left alone. *)
Definition base (x : Z) : Z :=
  if x =? 0x27 then 8 else if x =? 0x2B then 0x60 else 0.
Definition after (m : memory) (p t sec : Z) (l : bytes) : memory := fun x =>
  if (256 * p <=? x) && (x <? 256 * p + 256) then znth 0 l (x - 256 * p)
  else if x =? 0x27 then p + 1 else if x =? 0x3D then sec + 1 else if x =? 0x40 then t else m x.
Lemma prom_step d A Y S C Z m h g p t sec l :
  m 0x2B = 0x60 -> m 0x26 = 0 -> m 0x27 = p -> m 0x3D = sec -> m 0x41 = t ->
  1 <= p < 0xC0 -> p <> 3 -> 0 <= sec < 16 -> 0 <= t < 35 -> h = 2 * t ->
  (forall j, 0 <= j < 256 -> znth 0 (sector d t sec) j = znth 0 l j) -> after m p t sec l 0x800 = 1 ->
  step d 6 (Mach A 0x60 Y S C Z 0xC65C m h g) (Mach (sec + 1) 0x60 0 S true true 0x801 (after m p t sec l) h g).
Proof.
  intros H2B H26 H27 H3D H41 Hp Hp3 Hs Ht Hh Hl H8.
  assert (Z1 : forall x, x < 0x100 -> (256 * p <=? x) && (x <? 256 * p + 256) = false) by lia.
  assert (E3D : after m p t sec l 0x3D = sec + 1) by (unfold after; rewrite Z1 by lia; reflexivity).
  apply st_prom; cbn [rA rX rY rS fC fZ rPC mem head mags]; rewrite ?H27, ?H3D, ?H41, ?H8, ?E3D; try assumption; try reflexivity.
  - intros j Hj. rewrite Hl by exact Hj. unfold after. replace ((256 * p <=? 256 * p + j) && (256 * p + j <? 256 * p + 256)) with true by lia.
    f_equal. lia.
  - unfold after. rewrite Z1 by lia. reflexivity.
  - unfold after. rewrite Z1 by lia. reflexivity.
  - intros x X1 X2 X3 X4 X5 X6 X7. unfold after.
    replace ((256 * p <=? x) && (x <? 256 * p + 256)) with false by lia.
    replace (x =? 39) with false by lia. replace (x =? 61) with false by lia. replace (x =? 64) with false by lia. reflexivity.
  - replace (1 <=? sec + 1) with true by lia. reflexivity.
  - replace (1 <=? sec + 1) with true by lia. reflexivity.
Qed.

(** The loader's sector for a binary of one page. *)
Lemma one_page_loader c address start d : sd_disk c address start d -> sd_pages c = 1 ->
  forall j, 0 <= j < 256 -> znth 0 (sector d 0 0) j = znth 0 (sd_boot ++ [start mod 256; start / 256; address / 256; 0xC0]) j.
Proof.
  intros (_ & (tail & E & Hz) & _) H1 j Hj. change (sector d 0 0) with (sd_sector d 0). rewrite E, H1.
  change (map (fun i => address / 256 + i) (zrange 1)) with [address / 256 + 0]. replace (address / 256 + 0) with (address / 256) by lia.
  change (sd_boot ++ [start mod 256; start / 256] ++ [address / 256] ++ [0xC0] ++ tail)
    with (sd_boot ++ ([start mod 256; start / 256; address / 256; 0xC0] ++ tail)).
  rewrite app_assoc. destruct (Z_lt_dec j 81) as [Hlt|Hge].
  - apply znth_app_l. change (zlen (sd_boot ++ [start mod 256; start / 256; address / 256; 0xC0])) with 81. lia.
  - rewrite znth_app_r by (change (zlen (sd_boot ++ [start mod 256; start / 256; address / 256; 0xC0])) with 81; lia).
    rewrite (znth_overflow _ (sd_boot ++ _)) by (change (zlen (sd_boot ++ [start mod 256; start / 256; address / 256; 0xC0])) with 81; lia).
    match goal with |- znth 0 tail ?i = 0 => destruct (Z_lt_dec i (zlen tail)) as [Hi|Hi] end.
    + apply Hz. apply znth_In. change (zlen (sd_boot ++ [start mod 256; start / 256; address / 256; 0xC0])) with 81 in *. lia.
    + apply znth_overflow. lia.
Qed.

(** A binary for page 8 replaces the loader while it runs: this one, to be started at 800, is
    entered at 801 by the PROM and stays there. *)
Definition bin8 : bytes := [1; 0x4C; 0x01; 0x08].
Definition loaded8 : machine :=
  Mach 1 0x60 0 0xFF true true 0x801 (after base 8 0 0 (sd_boot ++ [0x00; 0x08; 0x08; 0xC0])) 0 (fun _ => false).
Definition asks (s : machine) (p t sec : Z) : bool :=
  (rPC s =? 0xC65C) && (rX s =? 0x60) && (mem s 0x2B =? 0x60) && (mem s 0x26 =? 0) && (mem s 0x27 =? p) && (mem s 0x3D =? sec) &&
  (mem s 0x41 =? t) && (head s =? 2 * t).
Lemma sim8 : exists s, sim 0x800 23 loaded8 = Some s /\ asks s 8 0 2 = true.
Proof.
  assert (E : match sim 0x800 23 loaded8 with Some s => asks s 8 0 2 | None => false end = true) by (vm_compute; reflexivity).
  destruct (sim 0x800 23 loaded8) as [s|]; [|discriminate E]. exists s. split; [reflexivity|exact E].
Qed.
Lemma started : cold_start 6 (Mach 0 0x60 0 0xFF false false 0xC65C base 0 (fun _ => false)).
Proof. unfold cold_start. cbn [rA rX rY rS fC fZ rPC mem head mags]. repeat split; lia. Qed.
Lemma page8_bad d : sd_disk bin8 0x800 0x800 d -> ~ boots_into d bin8 0x800 0x800.
Proof.
  intros Hd H. pose proof (one_page_loader _ _ _ _ Hd eq_refl) as HL.
  assert (HB : forall j, 0 <= j < 256 -> znth 0 (sector d 0 2) j = znth 0 bin8 j).
  { intros j Hj. change (sector d 0 2) with (sd_sector d (0 + 1)). destruct Hd as (_ & _ & Hp & _). apply (Hp 0 j); [change (sd_pages bin8) with 1; lia|exact Hj]. }
  clear Hd. specialize (H 6 _ ltac:(lia) started).
  assert (HP : forall s, runs bin8 0x800 0x800 s -> rPC s = 0x800) by (intros s Hs; apply Hs).
  revert H. eapply not_yet; [intros Hp; apply HP in Hp; discriminate Hp| |].
  { apply (prom_step d _ _ _ _ _ _ _ _ 8 0 0 (sd_boot ++ [0x00; 0x08; 0x08; 0xC0])); try reflexivity; try lia. exact HL. }
  change (~ leads_to d 6 (runs bin8 0x800 0x800) loaded8).
  destruct sim8 as (s2 & Es & Ha). apply (sim_path d 6 _ 0x800 HP 23 loaded8 s2 Es).
  destruct s2 as [A X Y S C Z pc m h g]. unfold asks in Ha. cbn [rA rX rY rS fC fZ rPC mem head mags] in Ha.
  rewrite !andb_true_iff, !Z.eqb_eq in Ha. destruct Ha as (((((((-> & ->) & A1) & A2) & A3) & A4) & A5) & A6).
  eapply not_yet; [intros Hp; apply HP in Hp; discriminate Hp| |].
  { apply (prom_step d _ _ _ _ _ _ _ _ 8 0 2 bin8); try assumption; try lia; try reflexivity. }
  apply stays; [intros Hp; apply HP in Hp; discriminate Hp|].
  apply st_cpu; reflexivity.
Qed.

(** Page 0 in the list means that a sector is skipped: nothing is loaded. *)
Definition bin0 : bytes := [0xEA; 0x4C; 0x00; 0x00].
Definition base0 (x : Z) : Z := if x =? 0 then 0x4C else base x.
Definition loaded0 : machine :=
  Mach 1 0x60 0 0xFF true true 0x801 (after base0 8 0 0 (sd_boot ++ [0x00; 0x00; 0x00; 0xC0])) 0 (fun _ => false).
Lemma sim0 : exists s, sim 0 18 loaded0 = Some s /\ (rPC s =? 0) && (mem s 0 =? 0x4C) && (mem s 1 =? 0) && (mem s 2 =? 0) = true.
Proof.
  assert (E : match sim 0 18 loaded0 with Some s => (rPC s =? 0) && (mem s 0 =? 0x4C) && (mem s 1 =? 0) && (mem s 2 =? 0) | None => false end = true) by (vm_compute; reflexivity).
  destruct (sim 0 18 loaded0) as [s|]; [|discriminate E]. exists s. split; [reflexivity|exact E].
Qed.
Lemma started0 : cold_start 6 (Mach 0 0x60 0 0xFF false false 0xC65C base0 0 (fun _ => false)).
Proof. unfold cold_start. cbn [rA rX rY rS fC fZ rPC mem head mags]. repeat split; lia. Qed.
Lemma page0_bad d : sd_disk bin0 0 0 d -> ~ boots_into d bin0 0 0.
Proof.
  intros Hd H. pose proof (one_page_loader _ _ _ _ Hd eq_refl) as HL.
  clear Hd. specialize (H 6 _ ltac:(lia) started0).
  assert (HP : forall s, runs bin0 0 0 s -> rPC s = 0) by (intros s Hs; apply Hs).
  revert H. eapply not_yet; [intros Hp; apply HP in Hp; discriminate Hp| |].
  { apply (prom_step d _ _ _ _ _ _ _ _ 8 0 0 (sd_boot ++ [0x00; 0x00; 0x00; 0xC0])); try reflexivity; try lia. exact HL. }
  change (~ leads_to d 6 (runs bin0 0 0) loaded0).
  destruct sim0 as (s2 & Es & Ha). apply (sim_path d 6 _ 0 HP 18 loaded0 s2 Es).
  destruct s2 as [A X Y S C Z pc m h g]. cbn [rA rX rY rS fC fZ rPC mem head mags] in Ha.
  rewrite !andb_true_iff, !Z.eqb_eq in Ha. destruct Ha as (((-> & A1) & A2) & A3).
  apply stays.
  - intros Hp. destruct Hp as [_ Hp]. specialize (Hp 0 ltac:(vm_compute; split; congruence)). cbn [mem] in Hp.
    change (0 + 0) with 0 in Hp. rewrite A1 in Hp. discriminate Hp.
  - apply st_cpu; cbn [rPC mem]; [reflexivity|reflexivity|].
    rewrite A1. cbn [execute]. change (0 + 1) with 1. change (0 + 2) with 2. rewrite A2, A3. reflexivity.
Qed.

(** A binary of two pages from page 1 on: loading the second page puts the address of the PROM
    on the stack, over the end of the first.  It jumps to itself. *)
Lemma loader_sector c address start d : sd_disk c address start d ->
  forall j, 0 <= j < 256 -> znth 0 (sector d 0 0) j =
    znth 0 (sd_boot ++ [start mod 256; start / 256] ++ map (fun i => address / 256 + i) (zrange (sd_pages c)) ++ [0xC0]) j.
Proof.
  intros (_ & (tail & E & Hz) & _) j Hj. change (sector d 0 0) with (sd_sector d 0). rewrite E.
  remember (map (fun i => address / 256 + i) (zrange (sd_pages c))) as ps eqn:Eps. clear Eps E.
  replace (sd_boot ++ [start mod 256; start / 256] ++ ps ++ [192] ++ tail) with ((sd_boot ++ [start mod 256; start / 256] ++ ps ++ [192]) ++ tail)
    by (rewrite <- !app_assoc; reflexivity).
  remember (sd_boot ++ [start mod 256; start / 256] ++ ps ++ [192]) as a eqn:Ea. clear Ea. pose proof (zlen_nonneg a) as Ha.
  destruct (Z_lt_dec j (zlen a)) as [Hlt|Hge]; [apply znth_app_l; lia|].
  rewrite znth_app_r, (znth_overflow _ a) by lia. destruct (Z_lt_dec (j - zlen a) (zlen tail)) as [Hi|Hi]; [|apply znth_overflow; lia].
  apply Hz. apply znth_In. lia.
Qed.
Definition bin1 : bytes := [0x4C; 0x00; 0x01] ++ repeat 0 297.
Definition list1 : bytes := sd_boot ++ [0x00; 0x01; 0x01; 0x02; 0xC0].
Definition loaded1 : machine := Mach 1 0x60 0 0xFF true true 0x801 (after base 8 0 0 list1) 0 (fun _ => false).
Definition loaded1' (s : machine) : machine :=
  Mach 3 0x60 0 (rS s) true true 0x801 (after (mem s) 1 0 2 (sub bin1 0 256)) 0 (mags s).
Definition loaded1'' (s : machine) : machine :=
  Mach 5 0x60 0 (rS s) true true 0x801 (after (mem s) 2 0 4 (sub bin1 256 300)) 0 (mags s).
Local Transparent sub zeros zrange.
Lemma sim1 : exists s1 s2 s3, sim 0x100 23 loaded1 = Some s1 /\ asks s1 1 0 2 = true /\ after (mem s1) 1 0 2 (sub bin1 0 256) 0x800 = 1 /\
  sim 0x100 23 (loaded1' s1) = Some s2 /\ asks s2 2 0 4 = true /\ after (mem s2) 2 0 4 (sub bin1 256 300) 0x800 = 1 /\
  sim 0x100 6 (loaded1'' s2) = Some s3 /\
  (rPC s3 =? 0x100) && (mem s3 0x100 =? 0x4C) && (mem s3 0x101 =? 0) && (mem s3 0x102 =? 1) && negb (mem s3 0x1FF =? 0) = true.
Proof.
  assert (E : match sim 0x100 23 loaded1 with
              | Some s1 => asks s1 1 0 2 && (after (mem s1) 1 0 2 (sub bin1 0 256) 0x800 =? 1) &&
                  match sim 0x100 23 (loaded1' s1) with
                  | Some s2 => asks s2 2 0 4 && (after (mem s2) 2 0 4 (sub bin1 256 300) 0x800 =? 1) &&
                      match sim 0x100 6 (loaded1'' s2) with
                      | Some s3 => (rPC s3 =? 0x100) && (mem s3 0x100 =? 0x4C) && (mem s3 0x101 =? 0) && (mem s3 0x102 =? 1) && negb (mem s3 0x1FF =? 0)
                      | None => false
                      end
                  | None => false
                  end
              | None => false
              end = true) by (vm_compute; reflexivity).
  destruct (sim 0x100 23 loaded1) as [s1|]; [|discriminate E]. exists s1. apply andb_true_iff in E as [E1 E]. apply andb_true_iff in E1 as [E1 E1'].
  destruct (sim 0x100 23 (loaded1' s1)) as [s2|]; [|discriminate E]. exists s2. apply andb_true_iff in E as [E2 E]. apply andb_true_iff in E2 as [E2 E2'].
  destruct (sim 0x100 6 (loaded1'' s2)) as [s3|]; [|discriminate E]. exists s3. apply Z.eqb_eq in E1', E2'.
  split; [reflexivity|]. split; [exact E1|]. split; [exact E1'|]. split; [reflexivity|]. split; [exact E2|]. split; [exact E2'|]. split; [reflexivity | exact E].
Qed.
Local Opaque sub zeros zrange.
Lemma page1_bad d : sd_disk bin1 0x100 0x100 d -> ~ boots_into d bin1 0x100 0x100.
Proof.
  intros Hd H. pose proof (loader_sector _ _ _ _ Hd) as HL.
  assert (HB : forall k t s, 0 <= k < 2 -> sector d t s = sd_sector d (k + 1) -> forall j, 0 <= j < 256 -> znth 0 (sector d t s) j = znth 0 bin1 (256 * k + j)).
  { intros k t s Hk E j Hj. rewrite E. destruct Hd as (_ & _ & Hp & _). apply (Hp k j); [change (sd_pages bin1) with 2; lia|exact Hj]. }
  clear Hd. specialize (H 6 _ ltac:(lia) started).
  assert (HP : forall s, runs bin1 0x100 0x100 s -> rPC s = 0x100) by (intros s Hs; apply Hs).
  destruct sim1 as (s1 & s2 & s3 & E1 & A1 & B1 & E2 & A2 & B2 & E3 & A3).
  revert H. eapply not_yet; [intros Hp; apply HP in Hp; discriminate Hp| |].
  { apply (prom_step d _ _ _ _ _ _ _ _ 8 0 0 list1); try reflexivity; try lia. exact HL. }
  change (~ leads_to d 6 (runs bin1 0x100 0x100) loaded1). apply (sim_path d 6 _ 0x100 HP 23 loaded1 s1 E1).
  unfold loaded1', loaded1'' in *. destruct s1 as [A X Y S C Z pc m h g]. unfold asks in A1. cbn [rA rX rY rS fC fZ rPC mem head mags] in *.
  rewrite !andb_true_iff, !Z.eqb_eq in A1. destruct A1 as (((((((-> & ->) & A1) & A1') & A1'') & A4) & A5) & ->).
  eapply not_yet; [intros Hp; apply HP in Hp; discriminate Hp| |].
  { apply (prom_step d _ _ _ _ _ _ _ _ 1 0 2 (sub bin1 0 256)); try assumption; try lia.
    intros j Hj. rewrite (HB 0 0 2 ltac:(lia) eq_refl j Hj). rewrite znth_sub by lia. f_equal; lia. }
  apply (sim_path d 6 _ 0x100 HP 23 _ s2 E2).
  clear A1 A1' A1'' A4 A5 B1 E1 E2. destruct s2 as [A2' X2 Y2 S2 C2 Z2 pc2 m2 h2 g2]. unfold asks in A2. cbn [rA rX rY rS fC fZ rPC mem head mags] in *.
  rewrite !andb_true_iff, !Z.eqb_eq in A2. destruct A2 as (((((((-> & ->) & A1) & A1') & A1'') & A4) & A5) & ->).
  eapply not_yet; [intros Hp; apply HP in Hp; discriminate Hp| |].
  { apply (prom_step d _ _ _ _ _ _ _ _ 2 0 4 (sub bin1 256 300)); try assumption; try lia.
    intros j Hj. rewrite (HB 1 0 4 ltac:(lia) eq_refl j Hj). destruct (Z_lt_dec j 44) as [Hlt|Hge].
    - rewrite znth_sub by lia. f_equal; lia.
    - rewrite !znth_overflow; [reflexivity| |]; [rewrite zlen_sub; change (zlen bin1) with 300; lia | change (zlen bin1) with 300; lia]. }
  apply (sim_path d 6 _ 0x100 HP 6 _ s3 E3).
  clear A1 A1' A1'' A4 A5 B2 E3. destruct s3 as [A3' X3 Y3 S3 C3 Z3 pc3 m3 h3 g3]. cbn [rA rX rY rS fC fZ rPC mem head mags] in *.
  rewrite !andb_true_iff, !Z.eqb_eq in A3. destruct A3 as ((((-> & A1) & A2) & A4) & A5).
  apply stays.
  - intros [_ Hp]. specialize (Hp 255 ltac:(change (zlen bin1) with 300; lia)). cbn [mem] in Hp. change (256 + 255) with 0x1FF in Hp.
    rewrite Hp in A5. discriminate A5.
  - apply st_cpu; cbn [rPC mem]; [reflexivity|reflexivity|].
    rewrite A1. cbn [execute]. change (256 + 1) with 257. change (256 + 2) with 258. rewrite A2, A4. reflexivity.
Qed.

Lemma refuted_by c address : 0 <= address < 65536 -> sd_accepts c address (sd_start address 0xFFFF) ->
  (forall d, sd_disk c address address d -> ~ boots_into d c address address) ->
  forall order img bin o w, order_flag order -> sd_image_order order img o ->
  input w bin c -> w_room w = None -> w_outroom w = None -> can_output w img true ->
  exists w' raw d, run (SDCmd_Run order img bin address 0xFFFF) w = (w', Ok tt) /\
    output w w' img raw /\ reordered raw o (s2b "raw") d /\ ~ boots_into d c address address.
Proof.
  intros Ha Hacc Hbad order img bin o w Hf Ho Hin R1 R2 Hcan.
  destruct (C67_lemma order img c address 0xFFFF o Hf Ho Ha ltac:(lia)) as (K1 & _ & K3 & _).
  destruct (proj2 K1 Hacc) as [raw Er]. destruct (K3 raw Er) as (d & Hd & Hre).
  destruct (C67_run_lemma order img bin c address 0xFFFF w Hin) as (H1 & H2 & _).
  destruct (H2 raw Er R1 R2 Hcan) as [w' Hrun]. destruct (H1 w' Hrun) as (raw' & Er' & Hout).
  rewrite Er in Er'. injection Er' as <-.
  exists w', raw, d. split; [exact Hrun|]. split; [exact Hout|]. split; [apply reordered_back; exact Hre|]. apply Hbad. exact Hd.
Qed.
Lemma C88_page8_lemma : exists c, forall order img bin o w, order_flag order -> sd_image_order order img o ->
  input w bin c -> w_room w = None -> w_outroom w = None -> can_output w img true ->
  exists w' raw d, run (SDCmd_Run order img bin 0x800 0xFFFF) w = (w', Ok tt) /\
    output w w' img raw /\ reordered raw o (s2b "raw") d /\ ~ boots_into d c 0x800 0x800.
Proof. exists bin8. apply refuted_by; [lia|repeat split; vm_compute; congruence|exact page8_bad]. Qed.
Lemma C88_page0_lemma : exists c, forall order img bin o w, order_flag order -> sd_image_order order img o ->
  input w bin c -> w_room w = None -> w_outroom w = None -> can_output w img true ->
  exists w' raw d, run (SDCmd_Run order img bin 0 0xFFFF) w = (w', Ok tt) /\
    output w w' img raw /\ reordered raw o (s2b "raw") d /\ ~ boots_into d c 0 0.
Proof. exists bin0. apply refuted_by; [lia|repeat split; vm_compute; congruence|exact page0_bad]. Qed.

Lemma C88_page1_lemma : exists c, forall order img bin o w, order_flag order -> sd_image_order order img o ->
  input w bin c -> w_room w = None -> w_outroom w = None -> can_output w img true ->
  exists w' raw d, run (SDCmd_Run order img bin 0x100 0xFFFF) w = (w', Ok tt) /\
    output w w' img raw /\ reordered raw o (s2b "raw") d /\ ~ boots_into d c 0x100 0x100.
Proof. exists bin1. apply refuted_by; [lia|repeat split; vm_compute; congruence|exact page1_bad]. Qed.

Lemma C88_example_lemma :
  let c := repeat 7 4000 in let w := one_file (s2b "prog") c None in
  sd_image_order (s2b "auto") (s2b "x.dsk") (s2b "do") /\ input w (s2b "prog") c /\
  (exists w', run (SDCmd_Run (s2b "auto") (s2b "x.dsk") (s2b "prog") 0x2000 0x2100) w = (w', Ok tt)) /\
  sd_pages c = 16 /\ out_of_the_way (0x2000 / 256) (sd_pages c) /\
  cold_start 6 (Mach 0 0x60 0 0xFF false false 0xC65C base 0 (fun _ => false)) /\
  can_output w (s2b "x.dsk") true /\ w_room w = None /\ w_outroom w = None.
Proof.
  intros c w.
  assert (Ho : sd_image_order (s2b "auto") (s2b "x.dsk") (s2b "do")).
  { apply so_name; [reflexivity|]. apply no_dsk. left. apply ext_is_dec_true; [ascii | reflexivity]. }
  assert (Hin : input w (s2b "prog") c) by (right; split; [discriminate|]; exists true; reflexivity).
  assert (Hout : can_output w (s2b "x.dsk") true).
  { right. split; [discriminate|]. split; [|left; reflexivity]. left. reflexivity. }
  assert (Hp : sd_pages c = 16) by (unfold sd_pages, c; rewrite zlen_repeat; reflexivity).
  assert (Hlen : zlen c = 4000) by (unfold c; rewrite zlen_repeat; reflexivity).
  split; [exact Ho|]. split; [exact Hin|]. split.
  { destruct (C67_lemma (s2b "auto") (s2b "x.dsk") c 0x2000 0x2100 (s2b "do") ltac:(constructor) Ho ltac:(lia) ltac:(lia)) as (K1 & _).
    destruct (proj2 K1) as [raw Er]. { unfold sd_accepts. change (sd_start 8192 8448) with 8448. rewrite Hp, Hlen. lia. }
    destruct (C67_run_lemma (s2b "auto") (s2b "x.dsk") (s2b "prog") c 0x2000 0x2100 w Hin) as (_ & H2 & _).
    exact (H2 raw Er eq_refl eq_refl Hout). }
  split; [exact Hp|]. split; [rewrite Hp; unfold out_of_the_way; change (8192 / 256) with 32; lia|].
  split; [exact started|]. split; [exact Hout|]. split; reflexivity.
Qed.
