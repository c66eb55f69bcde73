(** SupermonSymProofs.v -- proofs about symbol names and symbol tables. *)
From Verif Require Import GoBase GoLemmas DiskModel DiskSpec DiskProofs TypesModel
  SupermonModel SupermonSpec SupermonTableSpec SupermonProofs.
From Coq Require Import ZifyBool ZifyNat Permutation.
Ltac Zify.zify_post_hook ::= Z.div_mod_to_equations.
Local Opaque zrange.

(** ** encodeSymbol / decodeSymbol *)

(** Code and width of one upper-case character as written by encode_loop; width 0: dropped. *)
Definition enc_w (c : Z) : Z :=
  if (65 <=? c) && (c <=? 90) then 5 else if (48 <=? c) && (c <=? 57) then 6 else 0.
Definition enc_c (c : Z) : Z :=
  if (65 <=? c) && (c <=? 90) then c - 64
  else if (48 <=? c) && (c <=? 52) then 27 + (c - 48)
  else if (53 <=? c) && (c <=? 57) then 59 + (c - 53) else 0.
Fixpoint enc_val (n : bytes) : Z :=
  match n with [] => 0 | c :: n' => enc_val n' * 2 ^ enc_w c + enc_c c end.
Fixpoint enc_bits (n : bytes) : Z :=
  match n with [] => 0 | c :: n' => enc_w c + enc_bits n' end.

Lemma enc_w_range c : enc_w c = 0 \/ enc_w c = 5 \/ enc_w c = 6.
Proof. unfold enc_w. destruct ((65 <=? c) && _); [lia|]. destruct ((48 <=? c) && _); lia. Qed.
Lemma enc_c_range c : 0 <= enc_c c < 2 ^ enc_w c.
Proof.
  unfold enc_c, enc_w. destruct ((65 <=? c) && (c <=? 90)) eqn:E1; [lia|].
  destruct ((48 <=? c) && (c <=? 52)) eqn:E2.
  { replace ((48 <=? c) && (c <=? 57)) with true by lia. lia. }
  destruct ((53 <=? c) && (c <=? 57)) eqn:E3.
  { replace ((48 <=? c) && (c <=? 57)) with true by lia. lia. }
  replace ((48 <=? c) && (c <=? 57)) with false by lia. lia.
Qed.
Lemma enc_bits_nonneg n : 0 <= enc_bits n.
Proof. induction n; cbn [enc_bits]; [lia|]. pose proof (enc_w_range a). lia. Qed.
Lemma enc_val_range n : 0 <= enc_val n < 2 ^ enc_bits n.
Proof.
  induction n as [|c n IH]; cbn [enc_val enc_bits]; [lia|].
  pose proof (enc_c_range c). pose proof (enc_bits_nonneg n).
  pose proof (enc_w_range c). rewrite Z.pow_add_r by lia.
  assert (0 < 2 ^ enc_w c) by (apply Z.pow_pos_nonneg; lia). nia.
Qed.

Lemma encode_loop_cons c rest v b :
  encode_loop (c :: rest) v b =
    if 48 <? b + enc_w c then None
    else encode_loop rest (if enc_w c =? 0 then v else u64 (v * 2 ^ enc_w c + enc_c c)) (b + enc_w c).
Proof.
  cbn [encode_loop]. unfold enc_w, enc_c.
  destruct ((65 <=? c) && (c <=? 90)) eqn:E1; [reflexivity|].
  destruct ((48 <=? c) && (c <=? 52)) eqn:E2.
  { replace ((48 <=? c) && (c <=? 57)) with true by lia. change (2 ^ 6) with 64.
    change (6 =? 0) with false. cbv iota. rewrite <- Z.add_assoc. reflexivity. }
  destruct ((53 <=? c) && (c <=? 57)) eqn:E3.
  { replace ((48 <=? c) && (c <=? 57)) with true by lia. change (2 ^ 6) with 64.
    change (6 =? 0) with false. cbv iota. rewrite <- Z.add_assoc. reflexivity. }
  replace ((48 <=? c) && (c <=? 57)) with false by lia. rewrite Z.add_0_r. reflexivity.
Qed.

Lemma encode_loop_spec a : forall b,
  enc_bits b <= 48 ->
  encode_loop (rev a) (enc_val b) (enc_bits b) =
    if enc_bits (a ++ b) <=? 48 then Some (enc_val (a ++ b)) else None.
Proof.
  induction a as [|c a IH] using rev_ind; intros b Hb.
  - cbn [rev app encode_loop]. replace (enc_bits b <=? 48) with true by lia. reflexivity.
  - rewrite rev_app_distr. cbn [rev app]. rewrite encode_loop_cons.
    rewrite <- app_assoc. cbn [app].
    assert (enc_bits (c :: b) <= enc_bits (a ++ c :: b)) as Hmono.
    { clear. induction a as [|x a IH]; cbn [app enc_bits]; [lia|]. pose proof (enc_w_range x). cbn [enc_bits] in IH. lia. }
    cbn [enc_bits] in Hmono. rewrite (Z.add_comm (enc_bits b)).
    destruct (Z.ltb_spec 48 (enc_w c + enc_bits b)).
    { replace (enc_bits (a ++ c :: b) <=? 48) with false by lia. reflexivity. }
    specialize (IH (c :: b)). cbn [enc_bits enc_val] in IH. rewrite <- IH by lia. f_equal.
    pose proof (enc_val_range (c :: b)) as Hr. cbn [enc_val enc_bits] in Hr.
    destruct (Z.eqb_spec (enc_w c) 0) as [E|E].
    + pose proof (enc_c_range c) as Hc. rewrite E in *. lia.
    + unfold u64. rewrite Z.mod_small; [reflexivity|]. split; [lia|].
      eapply Z.lt_le_trans; [apply Hr|]. change 18446744073709551616 with (2 ^ 64).
      apply Z.pow_le_mono_r; lia.
Qed.

(** Decoding the value gives back the characters that were kept. *)
Definition kept (n : bytes) : bytes := filter (fun c => negb (enc_w c =? 0)) n.
Lemma enc_val_kept n : enc_val (kept n) = enc_val n /\ enc_bits (kept n) = enc_bits n.
Proof.
  induction n as [|c n [IH1 IH2]]; [split; reflexivity|]. cbn [kept filter].
  destruct (Z.eqb_spec (enc_w c) 0) as [E|E]; cbn [negb enc_val enc_bits]; fold (kept n).
  - pose proof (enc_c_range c) as Hc. rewrite E in *. change (2 ^ 0) with 1 in *. lia.
  - rewrite IH1, IH2. split; reflexivity.
Qed.
Lemma decode_loop_spec n : Forall (fun c => enc_w c <> 0) n -> forall fuel acc,
  (length n < fuel)%nat -> decode_loop fuel (enc_val n) acc = acc ++ n.
Proof.
  intros Hn. induction Hn as [|c n Hc Hn IH]; intros fuel acc Hf.
  - destruct fuel; [lia|]. cbn. rewrite app_nil_r. reflexivity.
  - destruct fuel as [|fuel]; [lia|]. cbn [length] in Hf.
    cbn [decode_loop enc_val].
    assert ((enc_w c = 5 /\ 65 <= c <= 90 /\ enc_c c = c - 64) \/
            (enc_w c = 6 /\ 48 <= c <= 52 /\ enc_c c = 27 + (c - 48)) \/
            (enc_w c = 6 /\ 53 <= c <= 57 /\ enc_c c = 59 + (c - 53))) as [(-> & H & ->)|[(-> & H & ->)|(-> & H & ->)]].
    { unfold enc_w, enc_c in *. destruct ((65 <=? c) && (c <=? 90)) eqn:E1; [left; lia|].
      destruct ((48 <=? c) && (c <=? 57)) eqn:E2; [|lia].
      destruct ((48 <=? c) && (c <=? 52)) eqn:E3; [right; left; lia|].
      replace ((53 <=? c) && (c <=? 57)) with true by lia. right; right; lia. }
    + change (2 ^ 5) with 32. replace ((enc_val n * 32 + (c - 64)) mod 32) with (c - 64) by lia.
      replace (0 <? c - 64) with true by lia. replace (c - 64 <? 27) with true by lia.
      replace ((enc_val n * 32 + (c - 64)) / 32) with (enc_val n) by lia.
      rewrite IH by lia. rewrite <- app_assoc. cbn [app]. do 2 f_equal. lia.
    + change (2 ^ 6) with 64. replace ((enc_val n * 64 + (27 + (c - 48))) mod 32) with (27 + (c - 48)) by lia.
      replace (0 <? 27 + (c - 48)) with true by lia. replace (27 + (c - 48) <? 27) with false by lia.
      replace ((enc_val n * 64 + (27 + (c - 48))) / 32 mod 2 =? 0) with true by lia.
      replace ((enc_val n * 64 + (27 + (c - 48))) / 64) with (enc_val n) by lia.
      rewrite IH by lia. rewrite <- app_assoc. cbn [app]. do 2 f_equal. lia.
    + change (2 ^ 6) with 64. replace ((enc_val n * 64 + (59 + (c - 53))) mod 32) with (27 + (c - 53)) by lia.
      replace (0 <? 27 + (c - 53)) with true by lia. replace (27 + (c - 53) <? 27) with false by lia.
      replace ((enc_val n * 64 + (59 + (c - 53))) / 32 mod 2 =? 0) with false by lia.
      replace ((enc_val n * 64 + (59 + (c - 53))) / 64) with (enc_val n) by lia.
      rewrite IH by lia. rewrite <- app_assoc. cbn [app]. do 2 f_equal. lia.
Qed.

Lemma decode_six v : 0 <= v < 2 ^ 48 ->
  decodeSymbol (sub (six_bytes v) 0 5) (znth 0 (six_bytes v) 5) = decode_loop 13 v [].
Proof.
  intros Hv. change (2 ^ 48) with 281474976710656 in Hv.
  unfold decodeSymbol.
  change (znth 0 (sub (six_bytes v) 0 5) 0) with (v mod 256).
  change (znth 0 (sub (six_bytes v) 0 5) 1) with (v / 256 mod 256).
  change (znth 0 (sub (six_bytes v) 0 5) 2) with (v / 65536 mod 256).
  change (znth 0 (sub (six_bytes v) 0 5) 3) with (v / 16777216 mod 256).
  change (znth 0 (sub (six_bytes v) 0 5) 4) with (v / 4294967296 mod 256).
  change (znth 0 (six_bytes v) 5) with (v / 1099511627776 mod 256).
  change (2 ^ 8) with 256. change (2 ^ 16) with 65536. change (2 ^ 24) with 16777216.
  change (2 ^ 32) with 4294967296. change (2 ^ 40) with 1099511627776.
  f_equal. unfold u64.
  match goal with |- ?x mod _ = _ => assert (x = v) as -> by lia end.
  rewrite Z.mod_small; lia.
Qed.

Lemma length_to_upper n : (length (to_upper n) <= length n)%nat.
Proof.
  assert (forall k n, (length n <= k)%nat -> (length (to_upper n) <= length n)%nat) as H.
  { clear n. induction k as [|k IH]; intros n Hn; [destruct n; [reflexivity | cbn in Hn; lia]|].
    destruct n as [|c [|c2 n]]; [reflexivity|reflexivity|].
    change (to_upper (c :: c2 :: n)) with
      (if (c =? 196) && (c2 =? 177) then 73 :: to_upper n
       else if (c =? 197) && (c2 =? 191) then 83 :: to_upper n
       else up c :: to_upper (c2 :: n)).
    cbn [length] in Hn.
    destruct ((c =? 196) && (c2 =? 177)); [cbn [length]; specialize (IH n); lia|].
    destruct ((c =? 197) && (c2 =? 191)); [cbn [length]; specialize (IH n); lia|].
    specialize (IH (c2 :: n)). cbn [length] in *. lia. }
  apply (H (length n)). lia.
Qed.
Lemma to_upper_ascii n : is_ascii n -> to_upper n = upcase n.
Proof.
  intros Hn. induction Hn as [|c n Hc Hn IH]; [reflexivity|].
  destruct n as [|c2 n].
  - cbn [to_upper upcase map]. unfold up, is_lower. reflexivity.
  - change (to_upper (c :: c2 :: n)) with
      (if (c =? 196) && (c2 =? 177) then 73 :: to_upper n
       else if (c =? 197) && (c2 =? 191) then 83 :: to_upper n
       else up c :: to_upper (c2 :: n)).
    replace ((c =? 196) && _) with false by lia. replace ((c =? 197) && _) with false by lia.
    rewrite IH. unfold upcase. cbn [map]. reflexivity.
Qed.
Lemma zlen_upcase n : zlen (upcase n) = zlen n.
Proof. apply zlen_map. Qed.

Lemma length_kept n : (length (kept n) <= length n)%nat.
Proof. unfold kept. induction n as [|c n IH]; [reflexivity|]. cbn [filter]. destruct (negb _); cbn [length]; lia. Qed.

Lemma encodeSymbol_cases n :
  (n = [] /\ encodeSymbol n = Ok (zeros 6)) \/
  (3 <= zlen n <= 9 /\ enc_bits (to_upper n) <= 48 /\
     encodeSymbol n = Ok (six_bytes (enc_val (to_upper n)))) \/
  (n <> [] /\ ~ (3 <= zlen n <= 9 /\ enc_bits (to_upper n) <= 48) /\ exists e, encodeSymbol n = Err e).
Proof.
  unfold encodeSymbol. destruct (beq n []) eqn:En.
  { left. apply beq_eq in En. split; [exact En | reflexivity]. }
  apply beq_neq in En. right.
  destruct (Z.ltb_spec 9 (zlen n)); [right; split; [exact En|]; split; [lia | eexists; reflexivity]|].
  destruct (Z.ltb_spec (zlen n) 3); [right; split; [exact En|]; split; [lia | eexists; reflexivity]|].
  pose proof (encode_loop_spec (to_upper n) []) as H1. cbn [enc_val enc_bits] in H1.
  rewrite H1 by lia. rewrite app_nil_r.
  destruct (Z.leb_spec (enc_bits (to_upper n)) 48).
  - left. split; [lia|]. split; [lia | reflexivity].
  - right. split; [exact En|]. split; [lia | eexists; reflexivity].
Qed.

(** What decoding the six bytes yields. *)
Notation decode6 six := (decodeSymbol (sub six 0 5) (znth 0 six 5)) (only parsing).
Lemma decode_encode n six : encodeSymbol n = Ok six -> zlen six = 6 /\ bytes_ok six /\ decode6 six = kept (to_upper n).
Proof.
  intros H. destruct (encodeSymbol_cases n) as [(-> & E)|[(Hl & Hb & E)|(_ & _ & e & E)]];
    rewrite E in H; inversion H; subst; clear H.
  - repeat split. apply bytes_ok_zeros.
  - split; [reflexivity|]. pose proof (enc_val_range (to_upper n)) as Hr.
    assert (0 <= enc_val (to_upper n) < 2 ^ 48) as Hv.
    { split; [lia|]. eapply Z.lt_le_trans; [apply Hr|]. apply Z.pow_le_mono_r; lia. }
    split; [unfold six_bytes, bytes_ok, is_byte; repeat constructor; lia|].
    rewrite decode_six by exact Hv.
    destruct (enc_val_kept (to_upper n)) as [Ev _]. rewrite <- Ev.
    rewrite decode_loop_spec; [reflexivity | |].
    + apply Forall_forall. intros c Hc. apply filter_In in Hc. lia.
    + pose proof (length_kept (to_upper n)). pose proof (length_to_upper n). unfold zlen in Hl. lia.
Qed.

Lemma alnum_ascii n : Forall alnum n -> is_ascii n.
Proof. apply Forall_impl. intros c. unfold alnum, letter, digit. lia. Qed.
Lemma alnum_bits n : Forall alnum n -> enc_bits (upcase n) = name_bits n /\ kept (upcase n) = upcase n.
Proof.
  intros H. induction H as [|c n Hc Hn [IH1 IH2]]; [split; reflexivity|].
  unfold upcase in *. cbn [map enc_bits name_bits kept filter].
  unfold kept in IH2. rewrite IH1, IH2.
  set (u := if (97 <=? c) && (c <=? 122) then c - 32 else c).
  assert (enc_w u = char_bits c /\ enc_w u <> 0) as [E1 E2].
  { unfold u, enc_w, char_bits, alnum, letter, digit in *.
    destruct ((97 <=? c) && (c <=? 122)) eqn:E.
    - replace ((65 <=? c - 32) && (c - 32 <=? 90)) with true by lia.
      replace ((48 <=? c) && (c <=? 57)) with false by lia. lia.
    - destruct ((48 <=? c) && (c <=? 57)) eqn:E'.
      + replace ((65 <=? c) && (c <=? 90)) with false by lia. lia.
      + replace ((65 <=? c) && (c <=? 90)) with true by lia. lia. }
  rewrite E1. split; [reflexivity|]. replace (char_bits c =? 0) with false by lia. cbn [negb]. reflexivity.
Qed.

Lemma encode_valid n : valid_name n ->
  exists six, encodeSymbol n = Ok six /\ zlen six = 6 /\ bytes_ok six /\ decode6 six = upcase n.
Proof.
  intros Hv. destruct Hv as [->|(Hl & Ha & Hb)].
  { exists (zeros 6). repeat split. apply bytes_ok_zeros. }
  pose proof (to_upper_ascii n (alnum_ascii n Ha)) as Eu.
  destruct (alnum_bits n Ha) as [Eb Ek].
  destruct (encodeSymbol_cases n) as [(-> & E)|[(_ & _ & E)|(_ & Hn & e & E)]].
  - exfalso. rewrite (@zlen_nil Z) in Hl. lia.
  - eexists. split; [exact E|]. destruct (decode_encode _ _ E) as (H1 & H2 & H3).
    split; [exact H1|]. split; [exact H2|]. rewrite H3, Eu, Ek. reflexivity.
  - exfalso. apply Hn. rewrite Eu, Eb. auto.
Qed.
Lemma encode_invalid n : Forall alnum n -> ~ valid_name n -> exists e, encodeSymbol n = Err e.
Proof.
  intros Ha Hn. pose proof (to_upper_ascii n (alnum_ascii n Ha)) as Eu.
  destruct (alnum_bits n Ha) as [Eb Ek].
  destruct (encodeSymbol_cases n) as [(-> & E)|[(Hl & Hb & E)|(_ & _ & e & E)]].
  - exfalso. apply Hn. left; reflexivity.
  - exfalso. apply Hn. right. rewrite Eu, Eb in Hb. auto.
  - eexists; exact E.
Qed.

(** ** Writing and reading the table *)
Definition linkAddr (s : Symbol) : Z := if negb (s_link s =? -1) then s_link s * 5 + 0xD000 else 0.
Definition enc1 (s : Symbol) (six : bytes) : bytes :=
  [s_addr s mod 256; s_addr s / 256; linkAddr s mod 256; u8 (linkAddr s / 256); znth 0 six 5].
Definition six_of (s : Symbol) : bytes := match encodeSymbol (s_name s) with Ok x => x | _ => [] end.

Lemma fill_tables_spec syms : forall i b1 b2,
  Forall (fun s => valid_name (s_name s)) syms ->
  0 <= i -> 5 * (i + zlen syms) <= 4096 -> zlen b1 = 4096 -> zlen b2 = 4096 ->
  exists c1 c2, fill_tables syms i b1 b2 = Ok (c1, c2) /\ zlen c1 = 4096 /\ zlen c2 = 4096 /\
    (forall x y, 0 <= x -> y <= 5 * i -> sub c1 x y = sub b1 x y /\ sub c2 x y = sub b2 x y) /\
    (forall j, 0 <= j < zlen syms ->
       sub c1 (5 * (i + j)) (5 * (i + j) + 5) = enc1 (znth sym0 syms j) (six_of (znth sym0 syms j)) /\
       sub c2 (5 * (i + j)) (5 * (i + j) + 5) = sub (six_of (znth sym0 syms j)) 0 5).
Proof.
  induction syms as [|s syms IH]; intros i b1 b2 Hv Hi Hlen L1 L2.
  - exists b1, b2. split; [reflexivity|]. split; [exact L1|]. split; [exact L2|]. split; [auto|].
    intros j Hj. rewrite (@zlen_nil Symbol) in Hj. lia.
  - inversion Hv as [|? ? Hs Hv']; subst. rewrite zlen_cons in Hlen. pose proof (zlen_nonneg syms).
    cbn [fill_tables]. destruct (encode_valid _ Hs) as (six & Es & Ls & _ & _).
    rewrite Es. cbn [rbind]. replace (4096 <? i * 5 + 5) with false by lia.
    fold (linkAddr s). fold (enc1 s six).
    assert (zlen (enc1 s six) = 5) as Le by reflexivity.
    assert (zlen (sub six 0 5) = 5) as Le2 by (rewrite zlen_sub; lia).
    destruct (IH (i + 1) (upd b1 (i * 5) (enc1 s six)) (upd b2 (i * 5) (sub six 0 5)))
      as (c1 & c2 & E & Lc1 & Lc2 & Hbefore & Hin); try (rewrite ?zlen_upd; lia); [exact Hv'|].
    exists c1, c2. split; [exact E|]. split; [exact Lc1|]. split; [exact Lc2|].
    assert (six_of s = six) as E6 by (unfold six_of; rewrite Es; reflexivity).
    split.
    + intros x y Hx Hy. destruct (Hbefore x y Hx) as [-> ->]; [lia|].
      split; apply sub_upd_before; lia.
    + intros j Hj. rewrite zlen_cons in Hj. destruct (Z.eq_dec j 0) as [->|Hj0].
      * rewrite !znth_cons_0, E6. destruct (Hbefore (5 * (i + 0)) (5 * (i + 0) + 5)) as [-> ->]; [lia|lia|].
        replace (5 * (i + 0)) with (i * 5) by lia. split; apply sub_upd_same; lia.
      * rewrite znth_cons_S by lia. destruct (Hin (j - 1)) as [H1 H2]; [lia|].
        replace (i + 1 + (j - 1)) with (i + j) in * by lia. auto.
Qed.

Lemma link_parse l : -1 <= l < 819 ->
  let la := if negb (l =? -1) then l * 5 + 0xD000 else 0 in
  0 <= la < 65536 /\
  (if la =? 0 then Ok (-1)
   else if (la <? 0xD000) || (0xDFFF <=? la)
     then Err (EOther "expected symbol table link address between 0xD000 and 0xDFFE")
     else if negb ((la - 0xD000) mod 5 =? 0)
          then Err (EOther "expected symbol table link address to 0xD000+5x")
     else Ok ((la - 0xD000) / 5)) = Ok l.
Proof.
  intros Hl. destruct (Z.eqb_spec l (-1)) as [El|El]; cbn [negb].
  - rewrite El. split; [lia | reflexivity].
  - cbv zeta. split; [lia|].
    replace (l * 5 + 53248 =? 0) with false by lia.
    replace ((l * 5 + 53248 <? 53248) || (57343 <=? l * 5 + 53248)) with false by lia.
    replace ((l * 5 + 53248 - 53248) mod 5 =? 0) with true by lia. cbn [negb]. f_equal. lia.
Qed.

Lemma read_entry_eq b1 b2 i a la ex nm :
  znth 0 b1 i = a mod 256 -> znth 0 b1 (i + 1) = a / 256 ->
  znth 0 b1 (i + 2) = la mod 256 -> znth 0 b1 (i + 3) = u8 (la / 256) ->
  znth 0 b1 (i + 4) = ex -> decodeSymbol (sub b2 i (i + 5)) ex = nm -> 0 <= la < 65536 ->
  read_entry b1 b2 i =
    if a =? 0 then Ok sym0
    else
      link <- (if la =? 0 then Ok (-1)
               else if (la <? 0xD000) || (0xDFFF <=? la)
               then Err (EOther "expected symbol table link address between 0xD000 and 0xDFFE")
               else if negb ((la - 0xD000) mod 5 =? 0)
               then Err (EOther "expected symbol table link address to 0xD000+5x")
               else Ok ((la - 0xD000) / 5)) ;;
      Ok (Sym a nm link).
Proof.
  intros B0 B1 B2 B3 B4 Hn HL. unfold read_entry. rewrite B0, B1, B2, B3, B4, Hn. unfold le16.
  replace (a mod 256 + 256 * (a / 256)) with a by lia.
  assert (la mod 256 + 256 * u8 (la / 256) = la) as -> by (unfold u8; lia).
  reflexivity.
Qed.
Lemma enc1_bytes b1 i s six : 0 <= i -> sub b1 i (i + 5) = enc1 s six ->
  znth 0 b1 i = s_addr s mod 256 /\ znth 0 b1 (i + 1) = s_addr s / 256 /\
  znth 0 b1 (i + 2) = linkAddr s mod 256 /\ znth 0 b1 (i + 3) = u8 (linkAddr s / 256) /\
  znth 0 b1 (i + 4) = znth 0 six 5.
Proof.
  intros Hi H1.
  assert (forall k, 0 <= k < 5 -> znth 0 b1 (i + k) = znth 0 (enc1 s six) k) as Hb.
  { intros k Hk. rewrite <- H1. rewrite znth_sub by lia. reflexivity. }
  rewrite <- (Z.add_0_r i) at 1. rewrite !Hb by lia. repeat split; reflexivity.
Qed.
Lemma read_entry_spec b1 b2 i s :
  0 <= i -> s_ok s ->
  sub b1 i (i + 5) = enc1 s (six_of s) -> sub b2 i (i + 5) = sub (six_of s) 0 5 ->
  read_entry b1 b2 i = Ok (canon s).
Proof.
  intros Hi Hs H1 H2. destruct Hs as (Ha & Hv & Hl).
  destruct (encode_valid _ Hv) as (six & Es & Ls & Bs & Hd).
  assert (six_of s = six) as E6 by (unfold six_of; rewrite Es; reflexivity). rewrite E6 in *.
  destruct (enc1_bytes _ _ _ _ Hi H1) as (B0 & B1 & B2 & B3 & B4).
  unfold canon. destruct (Z.eqb_spec (s_addr s) 0) as [E0|E0].
  - unfold read_entry. rewrite B0, B1, E0. reflexivity.
  - destruct (link_parse (s_link s) (Hl E0)) as [HL HP].
    rewrite (read_entry_eq b1 b2 i (s_addr s) (linkAddr s) (znth 0 six 5) (upcase (s_name s)));
      try assumption.
    + replace (s_addr s =? 0) with false by lia. unfold linkAddr. rewrite HP. reflexivity.
    + rewrite H2. exact Hd.
Qed.

Lemma read_entries_spec b1 b2 (g : Z -> Symbol) ks :
  (forall k, In k ks -> read_entry b1 b2 (5 * k) = Ok (g k)) -> read_entries b1 b2 ks = Ok (map g ks).
Proof.
  induction ks as [|k ks IH]; intros H; [reflexivity|].
  cbn [read_entries map]. rewrite H by (left; reflexivity). cbn [rbind].
  rewrite IH by (intros k' Hk'; apply H; right; exact Hk'). reflexivity.
Qed.

Lemma addrHash_hash7 a : addrHash a = hash7 a.
Proof.
  unfold addrHash, hash7, u8. change 0x7f with (Z.ones 7). rewrite Z.land_ones by lia. reflexivity.
Qed.

Lemma check_links_spec table : forall rest i, (forall j, 0 <= j < zlen rest -> znth sym0 rest j = znth sym0 table (i + j)) ->
  0 <= i -> i + zlen rest = zlen table ->
  (forall j, i <= j < zlen table -> link_ok table j) -> check_links table i rest = Ok tt.
Proof.
  induction rest as [|s rest IH]; intros i Hr Hi Hlen Hok; [reflexivity|].
  rewrite zlen_cons in *. pose proof (zlen_nonneg rest).
  assert (znth sym0 table i = s) as Es.
  { specialize (Hr 0). rewrite znth_cons_0, Z.add_0_r in Hr. rewrite <- Hr by lia. reflexivity. }
  cbn [check_links].
  assert (check_links table (i + 1) rest = Ok tt) as Hrest.
  { apply IH; try lia.
    - intros j Hj. specialize (Hr (j + 1)). rewrite znth_cons_S in Hr by lia.
      replace (j + 1 - 1) with j in Hr by lia. replace (i + 1 + j) with (i + (j + 1)) by lia. apply Hr. lia.
    - intros j Hj. apply Hok. lia. }
  destruct (negb (s_addr s =? 0) && negb (s_link s =? -1)) eqn:E; [|exact Hrest].
  pose proof (Hok i ltac:(lia)) as Hi'. unfold link_ok in Hi'. rewrite Es in Hi'.
  destruct Hi' as (H1 & H2 & H3); [lia | lia |].
  replace (s_link s =? i) with false by lia.
  replace ((s_link s <? 0) || (zlen table <=? s_link s)) with false by lia.
  rewrite !addrHash_hash7, H3, Z.eqb_refl. cbn [negb]. exact Hrest.
Qed.
Lemma check_links_complete table : forall rest i, (forall j, 0 <= j < zlen rest -> znth sym0 rest j = znth sym0 table (i + j)) ->
  0 <= i -> i + zlen rest = zlen table ->
  check_links table i rest = Ok tt -> forall j, i <= j < zlen table -> link_ok table j.
Proof.
  induction rest as [|s rest IH]; intros i Hr Hi Hlen Hok j Hj; [rewrite zlen_nil in *; lia|].
  rewrite zlen_cons in *. pose proof (zlen_nonneg rest).
  assert (znth sym0 table i = s) as Es.
  { specialize (Hr 0). rewrite znth_cons_0, Z.add_0_r in Hr. rewrite <- Hr by lia. reflexivity. }
  cbn [check_links] in Hok.
  assert (check_links table (i + 1) rest = Ok tt -> i + 1 <= j < zlen table -> link_ok table j) as Hrest.
  { intros Hc Hj'. apply (IH (i + 1)); try lia; [|exact Hc].
    intros j' Hj''. specialize (Hr (j' + 1)). rewrite znth_cons_S in Hr by lia.
    replace (j' + 1 - 1) with j' in Hr by lia. replace (i + 1 + j') with (i + (j' + 1)) by lia. apply Hr. lia. }
  destruct (negb (s_addr s =? 0) && negb (s_link s =? -1)) eqn:E.
  - destruct (s_link s =? i) eqn:E1; [discriminate|].
    destruct ((s_link s <? 0) || (zlen table <=? s_link s)) eqn:E2; [discriminate|].
    destruct (addrHash (s_addr s) =? addrHash (s_addr (znth sym0 table (s_link s)))) eqn:E3; [|discriminate].
    cbn [negb] in Hok. destruct (Z.eq_dec j i) as [->|]; [|apply Hrest; [exact Hok | lia]].
    unfold link_ok. rewrite Es, <- !addrHash_hash7. intros _ _. repeat split; lia.
  - destruct (Z.eq_dec j i) as [->|]; [|apply Hrest; [exact Hok | lia]].
    unfold link_ok. rewrite Es. intros; lia.
Qed.

Lemma zlen_zrange819 : zlen (zrange 819) = 819. Proof. apply zlen_zrange; lia. Qed.
Lemma canon_addr s : s_addr (canon s) = s_addr s.
Proof. unfold canon. destruct (Z.eqb_spec (s_addr s) 0); [rewrite e|]; reflexivity. Qed.

(** The bytes written for a well-formed table parse back to its canonical form. *)
Lemma parse_fill t : table_ok t ->
  exists b1 b2, fill_tables t 0 (zeros 0x1000) (zeros 0x1000) = Ok (b1, b2) /\
    zlen b1 = 4096 /\ zlen b2 = 4096 /\
    parseSymbolTable b1 b2 = Ok (map canon t).
Proof.
  intros (Hlen & Hs & Hlink).
  assert (forall j, 0 <= j < 819 -> s_ok (znth sym0 t j)) as Hs'.
  { intros j Hj. rewrite Forall_forall in Hs. apply Hs, znth_In. lia. }
  destruct (fill_tables_spec t 0 (zeros 0x1000) (zeros 0x1000)) as (b1 & b2 & E & L1 & L2 & _ & Hin).
  { eapply Forall_impl; [|exact Hs]. intros s (_ & H & _). exact H. }
  { lia. } { lia. } { reflexivity. } { reflexivity. }
  exists b1, b2. split; [exact E|]. split; [exact L1|]. split; [exact L2|].
  unfold parseSymbolTable.
  assert (map (fun k => canon (znth sym0 t k)) (zrange 819) = map canon t) as Em.
  { transitivity (map canon (map (znth sym0 t) (zrange (zlen t)))).
    - rewrite map_map, Hlen. reflexivity.
    - rewrite <- map_zrange_self. reflexivity. }
  rewrite (read_entries_spec _ _ (fun k => canon (znth sym0 t k))).
  - cbn [rbind]. rewrite Em. rewrite check_links_spec; [reflexivity| | | |].
    + intros j _. reflexivity.
    + lia.
    + lia.
    + intros j Hj. rewrite zlen_map in Hj. unfold link_ok.
      rewrite (znth_map canon sym0) by lia. rewrite canon_addr, zlen_map. intros Hlive Hl.
      assert (s_link (canon (znth sym0 t j)) = s_link (znth sym0 t j)) as El.
      { unfold canon. destruct (Z.eqb_spec (s_addr (znth sym0 t j)) 0); [contradiction | reflexivity]. }
      rewrite El in *. destruct (Hlink j) as (H1 & H2 & H3); [lia | exact Hlive | exact Hl|].
      rewrite (znth_map canon sym0) by lia. rewrite canon_addr. auto.
  - intros k Hk. apply In_zrange in Hk. destruct (Hin k) as [H1 H2]; [lia|]. rewrite Z.add_0_l in *.
    apply read_entry_spec; auto; lia.
Qed.

Lemma WriteSymbolTable_ok t (d sm : bytes) : floppy d sm -> table_ok t ->
  16 <= zlen (owned sm FREE) + zlen (owned sm 3) ->
  32 <= zlen (owned sm FREE) + zlen (owned sm 3) + zlen (owned sm 4) ->
  exists d' sm', WriteSymbolTable t (d, sm) = ((d', sm'), Ok tt) /\ floppy d' sm' /\
    ReadSymbolTable sm' d' = Ok (map canon t) /\
    (forall g, g <> 3 -> g <> 4 -> legal g -> owned sm' g = owned sm g /\ content d' sm' g = content d sm g) /\
    zlen (owned sm' 3) = 16 /\ zlen (owned sm' 4) = 16 /\
    zlen (owned sm' FREE) = zlen (owned sm FREE) + zlen (owned sm 3) + zlen (owned sm 4) - 32.
Proof.
  intros Hfl Ht Hs1 Hs2. destruct (parse_fill t Ht) as (b1 & b2 & E & L1 & L2 & Hp).
  unfold WriteSymbolTable. rewrite E.
  assert (nsec b1 = 16) as N1 by (unfold nsec; rewrite L1; reflexivity).
  assert (nsec b2 = 16) as N2 by (unfold nsec; rewrite L2; reflexivity).
  assert (b1 <> []) as Hb1 by (intros ->; rewrite (@zlen_nil Z) in L1; lia).
  assert (b2 <> []) as Hb2 by (intros ->; rewrite (@zlen_nil Z) in L2; lia).
  assert (padded b1 = b1) as P1 by (unfold padded; rewrite N1, L1; cbn; apply app_nil_r).
  assert (padded b2 = b2) as P2 by (unfold padded; rewrite N2, L2; cbn; apply app_nil_r).
  destruct (WriteFile_step 3 b1 true d sm Hfl) as (d1 & sm1 & E1 & F1 & C1 & O1 & Fr1 & Oth1);
    [unfold legal; lia | exact Hb1 | lia | reflexivity|].
  destruct (WriteFile_step 4 b2 true d1 sm1 F1) as (d2 & sm2 & E2 & F2 & C2 & O2 & Fr2 & Oth2);
    [unfold legal; lia | exact Hb2 | destruct (Oth1 4) as [-> _]; unfold legal; lia | reflexivity|].
  exists d2, sm2. unfold sbind. rewrite E1. cbn [untag]. rewrite E2. cbn [untag sret].
  split; [reflexivity|]. split; [exact F2|].
  destruct (Oth2 3) as [O3 C3]; [lia | unfold legal; lia|].
  destruct (Oth1 4) as [O4 C4]; [lia | unfold legal; lia|].
  split; [|split; [|split; [|split]]].
  - unfold ReadSymbolTable. rewrite !ReadFile_spec by apply (fl_len _ _ F2). cbn [rbind].
    rewrite C3, C1, C2, P1, P2, L1, L2. cbn [negb Z.eqb Pos.eqb rbind]. exact Hp.
  - intros g H3 H4 Hg. destruct (Oth1 g H3 Hg) as [<- <-]. apply Oth2; assumption.
  - rewrite O3, O1. exact N1.
  - rewrite O2. exact N2.
  - rewrite Fr2, Fr1, N1, N2, O4. lia.
Qed.
