(** Dos3Proofs.v -- catalog and file reading of package dos3 (C16-C23). *)
From Verif Require Import GoBase GoLemmas DiskModel DiskSpec DiskProofs TypesModel Dos3Model CodecLemmas Dos3Spec Dos3CodecProofs.
From Coq Require Import ZifyBool ZifyNat Permutation ListDec.
Ltac Zify.zify_post_hook ::= Z.div_mod_to_equations.
Local Opaque zrange zeros sub.

(** ** Chains and paths *)
Section Walk.
  Context (good : Z -> Z -> Prop) (d : bytes).
  Lemma chain_det p l : chain good d p l -> forall l', chain good d p l' -> l = l'.
  Proof.
    induction 1 as [|t s l Hn Hg Hc IH]; intros l' H'; inversion H'; subst; try congruence. f_equal. apply IH. assumption.
  Qed.
  Lemma chain_path p l : chain good d p l -> path good d p l (0, 0).
  Proof. induction 1; constructor; assumption. Qed.
  Lemma path_chain p l : path good d p l (0, 0) -> chain good d p l.
  Proof. intros H. remember (0, 0) as q. induction H; subst; [constructor | constructor; auto]. Qed.
  Lemma path_app p l q l' r : path good d p l q -> path good d q l' r -> path good d p (l ++ l') r.
  Proof. induction 1; intros H'; cbn [app]; [exact H'|]. constructor; auto. Qed.
  Lemma path_split p l1 l2 q : path good d p (l1 ++ l2) q -> exists m, path good d p l1 m /\ path good d m l2 q.
  Proof.
    revert p. induction l1 as [|x l1 IH]; intros p H; cbn [app] in H.
    - exists p. split; [constructor | exact H].
    - inversion H; subst. destruct (IH _ H6) as (m & P1 & P2). exists m. split; [constructor; assumption | exact P2].
  Qed.
  Lemma path_head p x l q : path good d p (x :: l) q -> p = x /\ p <> (0, 0) /\ good (fst p) (snd p) /\ path good d (link d (fst p) (snd p)) l q.
  Proof. intros H. inversion H; subst. auto. Qed.
  Lemma path_good p l q : path good d p l q -> Forall (fun x => good (fst x) (snd x)) l.
  Proof. induction 1; constructor; auto. Qed.
  Lemma chain_suffix p l1 x l2 : chain good d p (l1 ++ x :: l2) -> chain good d x (x :: l2).
  Proof.
    intros H. apply chain_path, path_split in H. destruct H as (m & _ & H). pose proof (path_head _ _ _ _ H) as [-> _]. apply path_chain. exact H.
  Qed.
  Lemma chain_NoDup p l : chain good d p l -> NoDup l.
  Proof.
    induction 1 as [|t s l Hn Hg Hc IH]; constructor; [|exact IH]. intros Hin. apply in_split in Hin. destruct Hin as (l1 & l2 & ->).
    assert (chain good d (t, s) ((t, s) :: l1 ++ (t, s) :: l2)) as H1 by (constructor; assumption).
    pose proof (chain_suffix (t, s) ((t, s) :: l1) (t, s) l2 H1) as H2.
    pose proof (chain_det _ _ H1 _ H2) as E. apply (f_equal (@length _)) in E. cbn in E. rewrite app_length in E. cbn in E. lia.
  Qed.
  Lemma cyclic_step p : cyclic good d p -> p <> (0, 0) /\ good (fst p) (snd p) /\ cyclic good d (link d (fst p) (snd p)).
  Proof.
    intros (l & q & P & Hin). destruct l as [|x l]; [destruct Hin|]. apply path_head in P. destruct P as (<- & Hn & Hg & P).
    split; [exact Hn|]. split; [exact Hg|]. destruct Hin as [<-|Hin]; [|exists l, q; auto].
    exists (l ++ [p]), (link d (fst p) (snd p)). split.
    - eapply path_app; [exact P|]. destruct p as [t s]. constructor; [exact Hn | exact Hg | constructor].
    - destruct l as [|y l]; cbn [app].
      + remember (link d (fst p) (snd p)) as r. inversion P; subst. left. reflexivity.
      + apply path_head in P. destruct P as (-> & _). left. reflexivity.
  Qed.
  Lemma cyclic_path n : forall p, cyclic good d p -> exists l q, path good d p l q /\ length l = n.
  Proof.
    induction n as [|n IH]; intros p C; [exists [], p; split; [constructor | reflexivity]|].
    destruct (cyclic_step p C) as (Hn & Hg & C'). destruct (IH _ C') as (l & q & P & L). exists (p :: l), q.
    split; [destruct p; constructor; assumption | cbn; congruence].
  Qed.
  Context (good_dec : forall t s, {good t s} + {~ good t s}).
  Lemma walk n : forall p,
    (exists l, chain good d p l /\ (length l < n)%nat) \/
    (exists l q, path good d p l q /\ q <> (0, 0) /\ ~ good (fst q) (snd q) /\ (length l < n)%nat) \/
    (exists l q, path good d p l q /\ length l = n).
  Proof.
    induction n as [|n IH]; intros p; [right; right; exists [], p; split; [constructor | reflexivity]|].
    assert ({p = (0, 0)} + {p <> (0, 0)}) as [->|Hn] by (decide equality; apply Z.eq_dec).
    { left. exists []. split; [constructor | cbn; lia]. }
    destruct (good_dec (fst p) (snd p)) as [Hg|Hg].
    2: { right. left. exists [], p. split; [constructor|]. split; [exact Hn|]. split; [exact Hg | cbn; lia]. }
    destruct p as [t s]. cbn [fst snd] in Hg. destruct (IH (link d t s)) as [(l & C & L)|[(l & q & P & Q1 & Q2 & L)|(l & q & P & L)]].
    - left. exists ((t, s) :: l). split; [constructor; assumption | cbn; lia].
    - right. left. exists ((t, s) :: l), q. split; [constructor; assumption|]. split; [exact Q1|]. split; [exact Q2 | cbn; lia].
    - right. right. exists ((t, s) :: l), q. split; [constructor; assumption | cbn; lia].
  Qed.
  Lemma not_NoDup (l : list (Z * Z)) : ~ NoDup l -> exists l1 x l2 l3, l = l1 ++ x :: l2 ++ x :: l3.
  Proof.
    induction l as [|y l IH]; intros H; [destruct H; constructor|].
    assert (forall a b : Z * Z, {a = b} + {a <> b}) as eqd by (decide equality; apply Z.eq_dec).
    destruct (in_dec eqd y l) as [Hin|Hin].
    - apply in_split in Hin. destruct Hin as (l1 & l2 & ->). exists [], y, l1, l2. reflexivity.
    - destruct IH as (l1 & x & l2 & l3 & ->); [intros Hd; apply H; constructor; assumption|]. exists (y :: l1), x, l2, l3. reflexivity.
  Qed.
  Lemma path_pigeon p l q (places : list (Z * Z)) : path good d p l q -> (forall x, In x l -> In x places) ->
    (length places < length l)%nat -> cyclic good d p.
  Proof.
    intros P Hin Hlen. assert (forall a b : Z * Z, {a = b} + {a <> b}) as eqd by (decide equality; apply Z.eq_dec).
    destruct (NoDup_dec eqd l) as [Hd|Hd].
    - pose proof (NoDup_incl_length Hd Hin). lia.
    - apply not_NoDup in Hd. destruct Hd as (l1 & x & l2 & l3 & ->).
      replace (l1 ++ x :: l2 ++ x :: l3) with ((l1 ++ x :: l2) ++ x :: l3) in P by (rewrite <- app_assoc; reflexivity).
      apply path_split in P. destruct P as (m & P1 & P2). apply path_head in P2. destruct P2 as (-> & _).
      exists (l1 ++ x :: l2), x. split; [exact P1|]. apply in_or_app. right. left. reflexivity.
  Qed.
  Lemma cyclic_no_chain p l : cyclic good d p -> ~ chain good d p l.
  Proof. intros C H. induction H as [|t s l Hn Hg Hc IH]; apply cyclic_step in C; [apply (proj1 C); reflexivity | apply IH; apply C]. Qed.
  Lemma cyclic_no_bad p l q : cyclic good d p -> path good d p l q -> q <> (0, 0) /\ good (fst q) (snd q).
  Proof. intros C H. induction H as [p|t s l q Hn Hg Hc IH]; apply cyclic_step in C; [split; apply C | apply IH; apply C]. Qed.
End Walk.

(** ** Sectors *)
Lemma sector_bytes d t s : bytes_ok d -> bytes_ok (sector d t s).
Proof. apply bytes_ok_sub. Qed.
Lemma link_bytes d t s : bytes_ok d -> is_byte (fst (link d t s)) /\ is_byte (snd (link d t s)).
Proof. intros H. split; apply bytes_ok_znth, sector_bytes, H. Qed.
Lemma path_bytes good d p l q : bytes_ok d -> path good d p l q -> is_byte (fst p) /\ is_byte (snd p) ->
  Forall (fun x => is_byte (fst x) /\ is_byte (snd x)) l /\ is_byte (fst q) /\ is_byte (snd q).
Proof.
  intros Hd. induction 1 as [p|t s l q Hn Hg Hp IH]; intros Hb; [split; [constructor | exact Hb]|].
  destruct (IH (link_bytes d t s Hd)) as [H1 H2]. split; [constructor; assumption | exact H2].
Qed.
Lemma Unmarshal_spec {T} (From : bytes -> res T) setTS d t s :
  UnmarshalLogicalSector From setTS d t s =
    if zlen d <? offset t s + 256 then Err (EOther "cannot read track/sector")
    else (v <- From (sector d t s) ;; Ok (setTS t s v)).
Proof. unfold UnmarshalLogicalSector. rewrite ReadSector_spec. destruct (zlen d <? offset t s + 256); reflexivity. Qed.

(** ** The catalog loop *)
Definition mk_cs (d : bytes) (p : Z * Z) : CatalogSector := CS_setTS (fst p) (snd p) (cs_of zeroCS (sector d (fst p) (snd p))).
Lemma loop_step d v t s css fuel : v_NumTracks v = 35 -> v_NumSectors v = znth 0 (vtoc d) 0x35 -> is_byte t -> is_byte s ->
  (t, s) <> (0, 0) -> catalog_place d t s ->
  readCatalog_loop (S fuel) d v t s [] css = readCatalog_loop fuel d v (fst (link d t s)) (snd (link d t s)) [] (css ++ [mk_cs d (t, s)]).
Proof.
  unfold is_byte. intros Ht Hs Bt Bs Hn (P1 & P2 & P3). cbn [readCatalog_loop].
  replace (negb (t =? 0) || negb (s =? 0)) with true.
  2: { symmetry. destruct (Z.eqb_spec t 0); [|reflexivity]. destruct (Z.eqb_spec s 0); [|reflexivity]. subst. congruence. }
  cbn [seen_in existsb]. rewrite Ht, Hs. replace (35 <=? t) with false by lia.
  replace (znth 0 (vtoc d) 53 <=? s) with false by lia. rewrite Unmarshal_spec. replace (zlen d <? offset t s + 256) with false by lia.
  rewrite CS_From by (apply zlen_sector; lia). cbn [rbind]. reflexivity.
Qed.
Lemma loop_bad d v t s css fuel : v_NumTracks v = 35 -> v_NumSectors v = znth 0 (vtoc d) 0x35 ->
  (t, s) <> (0, 0) -> ~ catalog_place d t s -> exists e, readCatalog_loop (S fuel) d v t s [] css = Some (Err e).
Proof.
  intros Ht Hs Hn P. cbn [readCatalog_loop].
  replace (negb (t =? 0) || negb (s =? 0)) with true.
  2: { symmetry. destruct (Z.eqb_spec t 0); [|reflexivity]. destruct (Z.eqb_spec s 0); [|reflexivity]. subst. congruence. }
  cbn [seen_in existsb]. rewrite Ht, Hs. destruct (Z.leb_spec 35 t); [eauto|].
  destruct (Z.leb_spec (znth 0 (vtoc d) 53) s); [eauto|]. rewrite Unmarshal_spec.
  destruct (Z.ltb_spec (zlen d) (offset t s + 256)); [eauto|]. exfalso. apply P. unfold catalog_place. change 0x35 with 53. lia.
Qed.
Lemma loop_path d v p l q : v_NumTracks v = 35 -> v_NumSectors v = znth 0 (vtoc d) 0x35 -> bytes_ok d ->
  is_byte (fst p) /\ is_byte (snd p) -> path (catalog_place d) d p l q -> forall fuel css,
  readCatalog_loop (length l + fuel) d v (fst p) (snd p) [] css = readCatalog_loop fuel d v (fst q) (snd q) [] (css ++ map (mk_cs d) l).
Proof.
  intros Ht Hs Hd Hb P. induction P as [p|t s l q Hn Hg Hp IH]; intros fuel css.
  - cbn [length map Nat.add]. rewrite app_nil_r. reflexivity.
  - cbn [length map Nat.add fst snd]. rewrite loop_step by (try assumption; apply Hb).
    rewrite IH by (apply link_bytes; exact Hd). rewrite <- app_assoc. reflexivity.
Qed.
Lemma catalog_place_dec d t s : {catalog_place d t s} + {~ catalog_place d t s}.
Proof.
  unfold catalog_place. destruct (Z_lt_dec t 35); [|right; lia]. destruct (Z_lt_dec s (znth 0 (vtoc d) 0x35)); [|right; lia].
  destruct (Z_le_dec (offset t s + 256) (zlen d)); [left; lia | right; lia].
Qed.

(** ** VTOC validation *)
Definition vtoc_of (d : bytes) : VTOC := match VTOC_FromSector zeroVTOC (vtoc d) with Ok v => VTOC_setTS 17 0 v | _ => zeroVTOC end.
Lemma Validate_iff v : Validate v = Ok tt <->
  (v_Volume v <> 255 /\ v_DOSRelease v = 3 /\ (v_TrackDirection v = 1 \/ v_TrackDirection v = -1) /\ v_NumTracks v = 35 /\
   (v_NumSectors v = 13 \/ v_NumSectors v = 16) /\ v_BytesPerSector v = 256 /\ v_TSLMaxSize v = 122 /\
   Forall (fun m => znth 0 m 2 = 0 /\ znth 0 m 3 = 0) (v_FreeSectors v)).
Proof.
  unfold Validate. 
  assert (forallb UnusedClear (v_FreeSectors v) = true <-> Forall (fun m => znth 0 m 2 = 0 /\ znth 0 m 3 = 0) (v_FreeSectors v)) as HF.
  { rewrite forallb_forall, Forall_forall. split; intros H m Hm; specialize (H m Hm); unfold UnusedClear in *; lia. }
  destruct (Z.eqb_spec (v_Volume v) 255); [split; [discriminate | intros H; lia]|].
  destruct (Z.eqb_spec (v_DOSRelease v) 3); cbn [negb]; [|split; [discriminate | intros H; lia]].
  destruct (negb (v_TrackDirection v =? 1) && negb (v_TrackDirection v =? -1)) eqn:E1; [split; [discriminate | intros H; lia]|].
  destruct (Z.eqb_spec (v_NumTracks v) 35); cbn [negb]; [|split; [discriminate | intros H; lia]].
  destruct (negb (v_NumSectors v =? 13) && negb (v_NumSectors v =? 16)) eqn:E2; [split; [discriminate | intros H; lia]|].
  destruct (Z.eqb_spec (v_BytesPerSector v) 256); cbn [negb]; [|split; [discriminate | intros H; lia]].
  destruct (Z.eqb_spec (v_TSLMaxSize v) 122); cbn [negb]; [|split; [discriminate | intros H; lia]].
  destruct (forallb UnusedClear (v_FreeSectors v)).
  - split; [|reflexivity]. intros _. repeat split; try assumption; try lia. apply HF. reflexivity.
  - split; [discriminate|]. intros (_ & _ & _ & _ & _ & _ & _ & H). apply HF in H. discriminate.
Qed.
Lemma Validate_total v : Validate v = Ok tt \/ exists e, Validate v = Err e.
Proof.
  unfold Validate. repeat match goal with |- context [if ?c then _ else _] => destruct c end; eauto.
Qed.
Lemma vtoc_valid d : bytes_ok d -> in_image d 17 0 ->
  UnmarshalLogicalSector (VTOC_FromSector zeroVTOC) VTOC_setTS d VTOCTrack VTOCSector = Ok (vtoc_of d) /\
  (v_NumTracks (vtoc_of d) = znth 0 (vtoc d) 0x34 /\ v_NumSectors (vtoc_of d) = znth 0 (vtoc d) 0x35 /\
   (v_CatalogTrack (vtoc_of d), v_CatalogSector (vtoc_of d)) = catalog_start d) /\
  (Validate (vtoc_of d) = Ok tt <-> good_vtoc (vtoc d)).
Proof.
  intros Hd Hi. unfold in_image in Hi. assert (zlen (vtoc d) = 256) as L by (apply zlen_sector; lia).
  rewrite Unmarshal_spec. unfold VTOCTrack, VTOCSector. replace (zlen d <? offset 17 0 + 256) with false by lia. fold (vtoc d).
  unfold vtoc_of. unfold VTOC_FromSector. rewrite L. cbn [negb Z.eqb Pos.eqb rbind]. split; [reflexivity|].
  assert (bytes_ok (vtoc d)) as B by (apply sector_bytes; exact Hd). set (b := vtoc d) in *.
  split; [repeat split|]. rewrite Validate_iff. unfold VTOC_setTS. vproj.
  assert (i8 (znth 0 b 49) = 1 \/ i8 (znth 0 b 49) = -1 <-> znth 0 b 49 = 1 \/ znth 0 b 49 = 255) as HD.
  { pose proof (bytes_ok_znth b 49 B). unfold i8, is_byte in *. lia. }
  assert (get16 b 54 = word b 54) as HW. { unfold get16, le16, word. reflexivity. }
  assert (Forall (fun m => znth 0 m 2 = 0 /\ znth 0 m 3 = 0) (map (fun i => sub b (56 + 4 * i) (56 + 4 * i + 4)) (zrange 50)) <->
          forall t, 0 <= t < 50 -> znth 0 b (0x38 + 4 * t + 2) = 0 /\ znth 0 b (0x38 + 4 * t + 3) = 0) as HF.
  { rewrite Forall_map, Forall_forall. split; intros H t Ht.
    - specialize (H t (proj2 (In_zrange _ _) Ht)). rewrite !znth_sub in H by lia. exact H.
    - apply In_zrange in Ht. rewrite !znth_sub by lia. apply H. exact Ht. }
  split.
  - intros (H1 & H2 & H3 & H4 & H5 & H6 & H7 & H8). split; try assumption; [apply HD; exact H3 | apply HF; exact H8].
  - intros [H1 H2 H3 H4 H5 H6 H7 H8]. repeat (split; [first [assumption | apply HD; exact H3]|]); apply HF; exact H8.
Qed.

Lemma catalog_start_bytes d : bytes_ok d -> is_byte (fst (catalog_start d)) /\ is_byte (snd (catalog_start d)).
Proof. intros H. split; apply bytes_ok_znth, sector_bytes, H. Qed.

Definition places : list (Z * Z) := list_prod (zrange 35) (zrange 16).
Lemma places_length : length places = 560%nat.
Proof.
  unfold places. rewrite prod_length. pose proof (zlen_zrange 35 ltac:(lia)) as E1. pose proof (zlen_zrange 16 ltac:(lia)) as E2. unfold zlen in *. 
  replace (length (zrange 35)) with 35%nat by lia. replace (length (zrange 16)) with 16%nat by lia. reflexivity.
Qed.
Lemma path_places d p l q : bytes_ok d -> good_vtoc (vtoc d) -> is_byte (fst p) /\ is_byte (snd p) -> path (catalog_place d) d p l q ->
  forall x, In x l -> In x places.
Proof.
  intros Hd G Hb P x Hx. destruct (path_bytes _ d p l q Hd P Hb) as [Fb _]. pose proof (path_good _ d p l q P) as Fg.
  rewrite Forall_forall in Fb, Fg. specialize (Fb x Hx). specialize (Fg x Hx). destruct x as [t s]. cbn [fst snd] in *.
  destruct Fg as (P1 & P2 & P3). destruct (gv_sectors _ G) as [E|E]; rewrite E in P2; unfold is_byte in Fb;
  unfold places; apply in_prod; apply In_zrange; lia.
Qed.
Lemma readCatalog_classes d : bytes_ok d -> in_image d 17 0 -> good_vtoc (vtoc d) ->
  (exists l, chain (catalog_place d) d (catalog_start d) l /\ (length l <= 560)%nat) \/
  (exists l q, path (catalog_place d) d (catalog_start d) l q /\ q <> (0, 0) /\ ~ catalog_place d (fst q) (snd q) /\ (length l <= 560)%nat) \/
  cyclic (catalog_place d) d (catalog_start d).
Proof.
  intros Hd Hi G. destruct (walk (catalog_place d) d (catalog_place_dec d) 561 (catalog_start d)) as [(l & C & L)|[(l & q & P & Q1 & Q2 & L)|(l & q & P & L)]].
  - left. exists l. split; [exact C | lia].
  - right. left. exists l, q. repeat split; try assumption. lia.
  - right. right. eapply path_pigeon; [exact P | |].
    + eapply path_places; [exact Hd | exact G | apply catalog_start_bytes; exact Hd | exact P].
    + rewrite places_length, L. lia.
Qed.
Lemma rcs_valid d fuel : bytes_ok d -> in_image d 17 0 -> good_vtoc (vtoc d) ->
  readCatalogSectors fuel d = readCatalog_loop fuel d (vtoc_of d) (fst (catalog_start d)) (snd (catalog_start d)) [] [] /\
  v_NumTracks (vtoc_of d) = 35 /\ v_NumSectors (vtoc_of d) = znth 0 (vtoc d) 0x35.
Proof.
  intros Hd Hi G. destruct (vtoc_valid d Hd Hi) as (E & (N1 & N2 & N3) & V). unfold readCatalogSectors. rewrite E.
  rewrite (proj2 V G). rewrite N1, N2, <- N3. split; [reflexivity|]. split; [apply G | reflexivity].
Qed.
Lemma rcs_chain d l fuel : bytes_ok d -> catalog d l -> (length l < fuel)%nat -> readCatalogSectors fuel d = Some (Ok (map (mk_cs d) l)).
Proof.
  intros Hd (Hi & G & C) Hf. destruct (rcs_valid d fuel Hd Hi G) as (-> & N1 & N2). apply chain_path in C.
  replace fuel with (length l + S (fuel - length l - 1))%nat by lia.
  rewrite (loop_path d _ _ _ _ N1 N2 Hd (catalog_start_bytes d Hd) C). reflexivity.
Qed.
Lemma rcs_bad d l q fuel : bytes_ok d -> in_image d 17 0 -> good_vtoc (vtoc d) -> path (catalog_place d) d (catalog_start d) l q -> q <> (0, 0) ->
  ~ catalog_place d (fst q) (snd q) -> (length l < fuel)%nat -> exists e, readCatalogSectors fuel d = Some (Err e).
Proof.
  intros Hd Hi G P Q1 Q2 Hf. destruct (rcs_valid d fuel Hd Hi G) as (-> & N1 & N2).
  replace fuel with (length l + S (fuel - length l - 1))%nat by lia.
  rewrite (loop_path d _ _ _ _ N1 N2 Hd (catalog_start_bytes d Hd) P). apply loop_bad; try assumption. destruct q; exact Q1.
Qed.
Lemma rcs_cyclic d fuel : bytes_ok d -> in_image d 17 0 -> good_vtoc (vtoc d) -> cyclic (catalog_place d) d (catalog_start d) ->
  readCatalogSectors fuel d = None.
Proof.
  intros Hd Hi G C. destruct (rcs_valid d fuel Hd Hi G) as (-> & N1 & N2).
  destruct (cyclic_path _ d fuel _ C) as (l & q & P & L).
  replace fuel with (length l + 0)%nat by lia.
  rewrite (loop_path d _ _ _ _ N1 N2 Hd (catalog_start_bytes d Hd) P). reflexivity.
Qed.
Lemma rcs_invalid d fuel : bytes_ok d -> ~ (in_image d 17 0 /\ good_vtoc (vtoc d)) -> exists e, readCatalogSectors fuel d = Some (Err e).
Proof.
  intros Hd H. destruct (Z_le_dec (offset 17 0 + 256) (zlen d)) as [Hi|Hi].
  - destruct (vtoc_valid d Hd Hi) as (E & _ & V). unfold readCatalogSectors. rewrite E.
    destruct (Validate_total (vtoc_of d)) as [E'|[e E']]; rewrite E'; [|eauto].
    exfalso. apply H. split; [exact Hi | apply V; exact E'].
  - unfold readCatalogSectors. rewrite Unmarshal_spec. unfold VTOCTrack, VTOCSector.
    replace (zlen d <? offset 17 0 + 256) with true by (unfold in_image in *; lia). eauto.
Qed.

(** ** Entries *)
Lemma slots_range b : slots b = map (slot b) (zrange 7).
Proof. reflexivity. Qed.
Lemma entries_bytes d l : bytes_ok d -> Forall (fun x => 0 <= fst x /\ 0 <= snd x /\ in_image d (fst x) (snd x)) l ->
  Forall (fun e => zlen e = 35 /\ bytes_ok e) (entries d l).
Proof.
  intros Hd H. unfold entries. induction H as [|[t s] l (H0 & H1 & H2) Hl IH]; cbn [map concat fst snd]; [constructor|]. apply Forall_app. split; [|exact IH].
  rewrite slots_range. apply Forall_map, Forall_forall. intros i Hi. apply In_zrange in Hi. cbn [fst snd] in *.
  pose proof (zlen_sector d t s H0 H1 H2). unfold slot. split; [rewrite zlen_sub by lia; lia | apply bytes_ok_sub, sector_bytes, Hd].
Qed.
Lemma catalog_places d l : bytes_ok d -> catalog d l -> Forall (fun x => 0 <= fst x /\ 0 <= snd x /\ in_image d (fst x) (snd x)) l.
Proof.
  intros Hd (Hi & G & C). apply chain_path in C. pose proof (path_good _ _ _ _ _ C) as Fg.
  destruct (path_bytes _ _ _ _ _ Hd C (catalog_start_bytes d Hd)) as [Fb _]. rewrite Forall_forall in *. intros x Hx.
  specialize (Fg x Hx). specialize (Fb x Hx). unfold is_byte, catalog_place, in_image in *. lia.
Qed.
Lemma cs_fds d p : cs_FileDescs (mk_cs d p) = map fd_of (slots (sector d (fst p) (snd p))).
Proof. rewrite slots_range, map_map. reflexivity. Qed.
Lemma all_fds d l : concat (map cs_FileDescs (map (mk_cs d) l)) = map fd_of (entries d l).
Proof.
  unfold entries. induction l as [|p l IH]; [reflexivity|]. cbn [map concat]. rewrite map_app, IH, cs_fds. reflexivity.
Qed.
Lemma splitDescs_spec es : splitDescs (map fd_of es) = (map fd_of (filter is_live es), map fd_of (filter is_deleted es)).
Proof.
  induction es as [|e es IH]; [reflexivity|]. cbn [map splitDescs filter]. rewrite IH. unfold Status, is_live, is_deleted. cbn [fd_of fd_Track].
  destruct (Z.eqb_spec (znth 0 e 0) 0) as [E|E]; [rewrite E; reflexivity|]. cbn [negb andb].
  destruct (Z.eqb_spec (znth 0 e 0) 255) as [E'|E']; reflexivity.
Qed.
Lemma ReadCatalog_chain d l fuel : bytes_ok d -> catalog d l -> (length l < fuel)%nat ->
  ReadCatalog fuel d = Some (Ok (map fd_of (filter is_live (entries d l)), map fd_of (filter is_deleted (entries d l)))).
Proof. intros Hd C Hf. unfold ReadCatalog. rewrite (rcs_chain d l fuel Hd C Hf), all_fds, splitDescs_spec. reflexivity. Qed.
Lemma fd_of_layout e : zlen e = 35 -> FD_layout e (fd_of e).
Proof.
  intros H. split; cbn [fd_of fd_Track fd_Sector fd_Filetype fd_Filename fd_SectorCount]; try (split; reflexivity); try reflexivity.
  intros j Hj. rewrite znth_sub by lia. reflexivity.
Qed.

(** ** Names and descriptors *)
Lemma byte_all (P : Z -> bool) : forallb P (zrange 256) = true -> forall x, is_byte x -> P x = true.
Proof. intros H x Hx. rewrite forallb_forall in H. apply H, In_zrange. exact Hx. Qed.
Lemma trim_rev r : exists k, r = repeat 32 k ++ trim_spaces_rev r /\ forall x m, trim_spaces_rev r = x :: m -> x <> 32.
Proof.
  induction r as [|c r (k & E & H)]; [exists 0%nat; split; [reflexivity | discriminate]|]. cbn [trim_spaces_rev].
  destruct (Z.eqb_spec c 32) as [->|Hc]; [exists (S k); split; [cbn; congruence | exact H] | exists 0%nat; split; [reflexivity|]].
  intros x m Em. congruence.
Qed.
Lemma rev_repeat' {A} (x : A) k : rev (repeat x k) = repeat x k.
Proof.
  induction k as [|k IH]; [reflexivity|]. cbn [repeat rev]. rewrite IH. clear. induction k as [|k IH]; [reflexivity|]. cbn. rewrite IH. reflexivity.
Qed.
Lemma Trim_trimmed s : trimmed s (TrimRightSpaces s).
Proof.
  unfold TrimRightSpaces. destruct (trim_rev (rev s)) as (k & E & H). exists k. split.
  - rewrite <- (rev_involutive s) at 1. rewrite E at 1. rewrite rev_app_distr, rev_repeat'. reflexivity.
  - intros m x Em. apply (f_equal (@rev Z)) in Em. rewrite rev_involutive, rev_app_distr in Em. cbn in Em. eapply H; exact Em.
Qed.
Lemma repeat_app_unique (x : Z) k k' (a b : bytes) : (forall y m, a = y :: m -> y <> x) -> (forall y m, b = y :: m -> y <> x) ->
  repeat x k ++ a = repeat x k' ++ b -> a = b.
Proof.
  revert k'. induction k as [|k IH]; intros [|k'] Ha Hb E; cbn in E.
  - exact E.
  - exfalso. eapply Ha; [exact E | reflexivity].
  - exfalso. eapply Hb; [symmetry; exact E | reflexivity].
  - inversion E. eapply IH; eassumption.
Qed.
Lemma trimmed_unique s n n' : trimmed s n -> trimmed s n' -> n = n'.
Proof.
  intros (k & E & H) (k' & E' & H'). subst s. apply (f_equal (@rev Z)) in E'. rewrite !rev_app_distr, !rev_repeat' in E'.
  rewrite <- (rev_involutive n), <- (rev_involutive n'). f_equal. apply (repeat_app_unique 32 k k'); [| |exact E'].
  - intros y m Em. apply (H (rev m)). rewrite <- (rev_involutive n), Em. reflexivity.
  - intros y m Em. apply (H' (rev m)). rewrite <- (rev_involutive n'), Em. reflexivity.
Qed.
Lemma clear_high_u8 l : map (fun b => u8 (b - 0x80)) l = clear_high l.
Proof. apply map_ext. intros b. unfold u8. lia. Qed.
Lemma live_status e : is_live e = true -> Status (fd_of e) = FileDescStatusNormal.
Proof. unfold is_live, Status. cbn [fd_of fd_Track]. destruct (znth 0 e 0 =? 0); [discriminate|]. destruct (znth 0 e 0 =? 255) eqn:E; [discriminate|]. reflexivity. Qed.
Lemma live_name e : is_live e = true -> entry_name e (FilenameString (fd_of e)).
Proof. intros H. unfold FilenameString. rewrite (live_status e H). cbn [fd_of fd_Filename]. rewrite clear_high_u8. apply Trim_trimmed. Qed.
Lemma live_name_iff e n : is_live e = true -> (FilenameString (fd_of e) = n <-> entry_name e n).
Proof.
  intros H. pose proof (live_name e H) as K. split; [intros <-; exact K|]. intros K'. eapply trimmed_unique; eassumption.
Qed.
Lemma low7 x : is_byte x -> Z.land x 0x7f = x mod 128.
Proof. intros H. change 0x7f with (Z.ones 7). rewrite Z.land_ones by lia. reflexivity. Qed.
Lemma high1 x : is_byte x -> (0 <? Z.land x 0x80) = (128 <=? x).
Proof. intros H. apply eqb_prop. apply (byte_all (fun x => eqb (0 <? Z.land x 0x80) (128 <=? x))); [vm_compute; reflexivity | exact H]. Qed.
Lemma live_desc e : zlen e = 35 -> bytes_ok e -> is_live e = true -> describes e (FilenameString (fd_of e)) (-1) (fd_descriptor (fd_of e)).
Proof.
  intros L B Hl. pose proof (bytes_ok_znth e 2 B) as B2. unfold fd_descriptor. cbn [fd_of fd_Filetype fd_SectorCount]. rewrite (low7 _ B2). split; cbn [d_name d_fullname d_sectors d_blocks d_length d_locked d_type].
  - split; [apply live_name; exact Hl | reflexivity].
  - reflexivity.
  - split; reflexivity.
  - reflexivity.
  - unfold FtLocked. rewrite (high1 _ B2). lia.
  - unfold dos_type. unfold is_byte in B2. set (y := znth 0 e 2 mod 128). cbn [In].
    unfold FtText, FtInteger, FtApplesoft, FtBinary, FtS, FtRelocatable, FtA, FtB.
    unfold FiletypeASCIIText, FiletypeIntegerBASIC, FiletypeApplesoftBASIC, FiletypeBinary, FiletypeS, FiletypeRelocatable, FiletypeNewA, FiletypeNewB.
    assert (0 <= y < 128) by (subst y; apply Z.mod_pos_bound; lia). clearbody y.
    destruct (Z.eqb_spec y 0); [lia|]. destruct (Z.eqb_spec y 1); [lia|]. destruct (Z.eqb_spec y 2); [lia|]. destruct (Z.eqb_spec y 4); [lia|].
    destruct (Z.eqb_spec y 8); [lia|]. destruct (Z.eqb_spec y 16); [lia|]. destruct (Z.eqb_spec y 32); [lia|]. destruct (Z.eqb_spec y 64); lia.
Qed.

(** ** Track/sector lists *)
Definition mk_tsl (d : bytes) (p : Z * Z) : TrackSectorList := TSL_setTS (fst p) (snd p) (tsl_of zeroTSL (sector d (fst p) (snd p))).
Lemma seen_in_iff t s seen : seen_in t s seen = true <-> In (t, s) seen.
Proof.
  unfold seen_in. rewrite existsb_exists. split.
  - intros ([a b] & Hin & E). cbn [fst snd] in E. assert (a = t /\ b = s) as [-> ->] by lia. exact Hin.
  - intros Hin. exists (t, s). split; [exact Hin|]. cbn [fst snd]. lia.
Qed.
Lemma nonzero_pair t s : (t, s) <> (0, 0) -> negb (t =? 0) || negb (s =? 0) = true.
Proof. intros H. destruct (Z.eqb_spec t 0); [|reflexivity]. destruct (Z.eqb_spec s 0); [|reflexivity]. subst. congruence. Qed.
Lemma tsl_step d t s seen acc fuel : 0 <= t -> 0 <= s -> (t, s) <> (0, 0) -> in_image d t s -> ~ In (t, s) seen ->
  readTSLs (S fuel) d t s seen acc = readTSLs fuel d (fst (link d t s)) (snd (link d t s)) ((t, s) :: seen) (acc ++ [mk_tsl d (t, s)]).
Proof.
  intros Ht Hs Hn Hi Hseen. unfold in_image in Hi. cbn [readTSLs]. rewrite (nonzero_pair _ _ Hn).
  destruct (seen_in t s seen) eqn:E; [exfalso; apply Hseen, seen_in_iff; exact E|].
  rewrite Unmarshal_spec. replace (zlen d <? offset t s + 256) with false by lia.
  rewrite TSL_From by (apply zlen_sector; lia). cbn [rbind]. reflexivity.
Qed.
Lemma tsl_stop d t s seen acc fuel : (t, s) <> (0, 0) -> ~ in_image d t s \/ In (t, s) seen ->
  exists e, readTSLs (S fuel) d t s seen acc = Some (Err e).
Proof.
  intros Hn H. cbn [readTSLs]. rewrite (nonzero_pair _ _ Hn). destruct (seen_in t s seen) eqn:E; [eauto|].
  destruct H as [H|H]; [|apply seen_in_iff in H; congruence]. unfold in_image in H. rewrite Unmarshal_spec.
  replace (zlen d <? offset t s + 256) with true by lia. eauto.
Qed.
Lemma tsl_path d p l q : bytes_ok d -> is_byte (fst p) /\ is_byte (snd p) -> path (in_image d) d p l q -> NoDup l ->
  forall fuel seen acc, (forall x, In x l -> ~ In x seen) ->
  readTSLs (length l + fuel) d (fst p) (snd p) seen acc = readTSLs fuel d (fst q) (snd q) (rev l ++ seen) (acc ++ map (mk_tsl d) l).
Proof.
  intros Hd Hb P. induction P as [p|t s l q Hn Hg Hp IH]; intros Nd fuel seen acc Hdis.
  - cbn. rewrite app_nil_r. reflexivity.
  - inversion Nd as [|? ? Hnin Nd']; subst. cbn [length Nat.add fst snd map]. unfold is_byte in Hb. cbn [fst snd] in Hb.
    rewrite tsl_step; try assumption; try lia; [|apply Hdis; left; reflexivity].
    rewrite IH.
    + cbn [rev]. rewrite <- !app_assoc. reflexivity.
    + apply link_bytes; exact Hd.
    + exact Nd'.
    + intros x Hx [<-|Hs]; [exact (Hnin Hx) | apply (Hdis x); [right; exact Hx | exact Hs]].
Qed.
Lemma in_image_dec d t s : {in_image d t s} + {~ in_image d t s}.
Proof. apply Z_le_dec. Qed.
Definition all_pairs : list (Z * Z) := list_prod (zrange 256) (zrange 256).
Definition list_limit : nat := Z.to_nat 65536.
Lemma all_pairs_length : length all_pairs = list_limit.
Proof.
  unfold all_pairs, list_limit. rewrite prod_length. pose proof (zlen_zrange 256 ltac:(lia)) as E1. unfold zlen in E1. 
  apply Nat2Z.inj. rewrite Nat2Z.inj_mul, E1. rewrite Z2Nat.id by lia. reflexivity.
Qed.
Lemma bytes_in_pairs l : Forall (fun x => is_byte (fst x) /\ is_byte (snd x)) l -> incl l all_pairs.
Proof.
  intros H x Hx. rewrite Forall_forall in H. specialize (H x Hx). destruct x as [t s]. apply in_prod; apply In_zrange; apply H.
Qed.
Lemma first_dup (l : list (Z * Z)) : ~ NoDup l -> exists l1 x l2, l = l1 ++ x :: l2 /\ NoDup l1 /\ In x l1.
Proof.
  assert (forall a b : Z * Z, {a = b} + {a <> b}) as eqd by (decide equality; apply Z.eq_dec).
  induction l as [|y l IH] using rev_ind; intros H; [destruct H; constructor|]. destruct (NoDup_dec eqd l) as [Hd|Hd].
  - destruct (in_dec eqd y l) as [Hin|Hin].
    + exists l, y, []. auto.
    + exfalso. apply H. apply (Permutation_NoDup (l := y :: l)); [apply Permutation_cons_append | constructor; assumption].
  - destruct (IH Hd) as (l1 & x & l2 & -> & N & I). exists l1, x, (l2 ++ [y]). split; [rewrite <- app_assoc; reflexivity | auto].
Qed.
Lemma NoDup_limit l : NoDup l -> Forall (fun x => is_byte (fst x) /\ is_byte (snd x)) l -> (length l <= list_limit)%nat.
Proof. intros H B. rewrite <- all_pairs_length. apply NoDup_incl_length; [exact H | apply bytes_in_pairs; exact B]. Qed.
Lemma tsl_classes d p : bytes_ok d -> is_byte (fst p) /\ is_byte (snd p) ->
  (exists l, chain (in_image d) d p l /\ (length l <= list_limit)%nat) \/
  (exists l q, path (in_image d) d p l q /\ NoDup l /\ q <> (0, 0) /\ (~ in_image d (fst q) (snd q) \/ In q l) /\ (length l <= list_limit)%nat /\
     (forall l', ~ chain (in_image d) d p l')).
Proof.
  intros Hd Hb.
  assert (forall a b : Z * Z, {a = b} + {a <> b}) as eqd by (decide equality; apply Z.eq_dec).
  assert (forall l q, path (in_image d) d p l q -> ~ NoDup l -> exists l q, path (in_image d) d p l q /\ NoDup l /\ q <> (0, 0) /\ (~ in_image d (fst q) (snd q) \/ In q l) /\ (length l <= list_limit)%nat /\
     (forall l', ~ chain (in_image d) d p l')) as Hdup.
  { intros l q P Hn. destruct (first_dup l Hn) as (l1 & x & l2 & -> & N & I). apply path_split in P. destruct P as (m & P1 & P2).
    apply path_head in P2. destruct P2 as (-> & Hx & _). exists l1, x. repeat split; auto.
    - apply NoDup_limit; [exact N | apply (path_bytes _ _ _ _ _ Hd P1 Hb)].
    - intros l'. apply cyclic_no_chain. exists l1, x. auto. }
  destruct (walk (in_image d) d (in_image_dec d) (S list_limit) p) as [(l & C & L)|[(l & q & P & Q1 & Q2 & L)|(l & q & P & L)]].
  - left. exists l. split; [exact C | lia].
  - right. destruct (NoDup_dec eqd l) as [N|N]; [|eapply Hdup; eassumption].
    exists l, q. repeat split; auto; [lia|]. intros l' C. 
    clear -P Q1 Q2 C. revert l' C. induction P as [q|t s l q Hn Hg Hp IH]; intros l' C; inversion C; subst; try congruence; [apply Q2; assumption | eapply IH; eassumption].
  - right. eapply Hdup; [exact P|]. intros N. pose proof (NoDup_limit l N (proj1 (path_bytes _ _ _ _ _ Hd P Hb))). lia.
Qed.
Lemma tsl_chain d p l fuel : bytes_ok d -> is_byte (fst p) /\ is_byte (snd p) -> chain (in_image d) d p l -> (length l < fuel)%nat ->
  readTSLs fuel d (fst p) (snd p) [] [] = Some (Ok (map (mk_tsl d) l)).
Proof.
  intros Hd Hb C Hf. pose proof (chain_NoDup _ _ _ _ C) as N. apply chain_path in C.
  replace fuel with (length l + S (fuel - length l - 1))%nat by lia.
  rewrite (tsl_path d p l _ Hd Hb C N) by (intros x _ []). reflexivity.
Qed.
Lemma tsl_no_chain d p fuel : bytes_ok d -> is_byte (fst p) /\ is_byte (snd p) -> (forall l, ~ chain (in_image d) d p l) ->
  (list_limit < fuel)%nat -> exists e, readTSLs fuel d (fst p) (snd p) [] [] = Some (Err e).
Proof.
  intros Hd Hb H Hf. destruct (tsl_classes d p Hd Hb) as [(l & C & _)|(l & q & P & N & Q1 & Q2 & L & _)]; [destruct (H l C)|].
  replace fuel with (length l + S (fuel - length l - 1))%nat by lia.
  rewrite (tsl_path d p l _ Hd Hb P N) by (intros x _ []). destruct q as [t s]. apply tsl_stop; [exact Q1|].
  destruct Q2 as [Q2|Q2]; [left; exact Q2 | right]. rewrite app_nil_r. apply -> in_rev. exact Q2.
Qed.

(** ** File bodies *)
Lemma lnz_holes z : forall j e, Forall hole z -> lastNonZero j z e = e.
Proof.
  induction z as [|p z IH]; intros j e H; [reflexivity|]. inversion H as [|? ? H1 H2]; subst. unfold hole in H1. subst p. cbn. apply IH. exact H2.
Qed.
Lemma lnz_app a : forall b j e, lastNonZero j (a ++ b) e = lastNonZero (j + zlen a) b (lastNonZero j a e).
Proof.
  induction a as [|p a IH]; intros b j e; cbn [app lastNonZero]; [f_equal; unfold zlen; cbn; lia|]. rewrite IH, zlen_cons. f_equal. lia.
Qed.
Lemma lnz_last j a q z e : ~ hole q -> Forall hole z -> lastNonZero j (a ++ q :: z) e = j + zlen a.
Proof.
  intros Hq Hz. rewrite lnz_app. cbn [lastNonZero]. rewrite lnz_holes by exact Hz.
  rewrite (nonzero_pair (fst q) (snd q)); [reflexivity|]. unfold hole in Hq. destruct q; exact Hq.
Qed.
Definition cut (ps : list (Z * Z)) : list (Z * Z) := sub ps 0 (lastNonZero 0 ps (zlen ps - 1) + 1).
Lemma holes_dec (ps : list (Z * Z)) : Forall hole ps \/ exists a q z, ps = a ++ q :: z /\ ~ hole q /\ Forall hole z.
Proof.
  induction ps as [|p ps [H|(a & q & z & -> & Hq & Hz)]]; [left; constructor| |right; exists (p :: a), q, z; auto].
  assert ({p = (0, 0)} + {p <> (0, 0)}) as [E|E] by (decide equality; apply Z.eq_dec).
  - left. constructor; assumption.
  - right. exists [], p, ps. auto.
Qed.
Lemma zlen_snoc {A} (a : list A) q : zlen (a ++ [q]) = zlen a + 1.
Proof. unfold zlen. rewrite app_length. cbn. lia. Qed.
Lemma cut_spec ps : cut_after_last ps (cut ps).
Proof.
  destruct (holes_dec ps) as [H|(a & q & z & E & Hq & Hz)].
  - left. split; [exact H|]. unfold cut. rewrite lnz_holes by exact H. replace (zlen ps - 1 + 1) with (zlen ps) by lia. apply sub_full.
  - right. exists q, z. split; [exact Hq|]. split; [exact Hz|]. subst ps. unfold cut. rewrite lnz_last by assumption.
    replace (sub (a ++ q :: z) 0 (0 + zlen a + 1)) with (a ++ [q]).
    + split; [exists a; reflexivity|]. rewrite <- app_assoc. reflexivity.
    + replace (a ++ q :: z) with ((a ++ [q]) ++ z) by (rewrite <- app_assoc; reflexivity).
      pose proof (zlen_nonneg a). rewrite sub_app_l by (pose proof (zlen_snoc a q); lia).
      replace (0 + zlen a + 1) with (zlen (a ++ [q])) by (pose proof (zlen_snoc a q); lia). symmetry. apply sub_full.
Qed.
Lemma cut_unique ps qs : cut_after_last ps qs -> qs = cut ps.
Proof.
  intros [[H ->]|(q & z & Hq & Hz & (a & ->) & ->)].
  - unfold cut. rewrite lnz_holes by exact H. replace (zlen ps - 1 + 1) with (zlen ps) by lia. symmetry. apply sub_full.
  - unfold cut. rewrite <- app_assoc. cbn [app]. rewrite lnz_last by assumption.
    replace (a ++ q :: z) with ((a ++ [q]) ++ z) by (rewrite <- app_assoc; reflexivity). pose proof (zlen_nonneg a).
    rewrite sub_app_l by (pose proof (zlen_snoc a q); lia).
    replace (0 + zlen a + 1) with (zlen (a ++ [q])) by (pose proof (zlen_snoc a q); lia). symmetry. apply sub_full.
Qed.
Fixpoint fpairs (d : bytes) (l : list (Z * Z)) : list (Z * Z) :=
  match l with
  | [] => []
  | p :: rest => (match rest with [] => cut (pairs (sector d (fst p) (snd p))) | _ => pairs (sector d (fst p) (snd p)) end) ++ fpairs d rest
  end.
Lemma fpairs_spec d l : file_pairs d l (fpairs d l).
Proof.
  induction l as [|[t s] l IH]; [constructor|]. destruct l as [|p l].
  - cbn. rewrite app_nil_r. constructor. apply cut_spec.
  - change (fpairs d ((t, s) :: p :: l)) with (pairs (sector d t s) ++ fpairs d (p :: l)). constructor; [discriminate | exact IH].
Qed.
Lemma fpairs_unique d l ps : file_pairs d l ps -> ps = fpairs d l.
Proof.
  induction 1 as [|t s ps H|t s l ps Hl H IH]; [reflexivity| |].
  - cbn. rewrite app_nil_r. apply cut_unique. exact H.
  - destruct l as [|p l]; [congruence|]. rewrite IH. reflexivity.
Qed.
Lemma append_ok d ps : forall acc, Forall (pair_ok d) ps -> appendSectors d ps acc = Ok (acc ++ concat (map (pair_bytes d) ps)).
Proof.
  induction ps as [|p ps IH]; intros acc H; cbn [appendSectors map concat]; [rewrite app_nil_r; reflexivity|].
  inversion H as [|? ? H1 H2]; subst. unfold pair_bytes at 1. destruct ((fst p =? 0) && (snd p =? 0)) eqn:E.
  - rewrite IH by exact H2. rewrite <- app_assoc. reflexivity.
  - destruct H1 as [H1|H1]; [unfold hole in H1; subst p; discriminate|]. unfold in_image in H1. rewrite ReadSector_spec.
    replace (zlen d <? offset (fst p) (snd p) + 256) with false by lia. cbn [rbind]. rewrite IH by exact H2. rewrite <- app_assoc. reflexivity.
Qed.
Lemma append_bad d ps : forall acc, ~ Forall (pair_ok d) ps -> exists e, appendSectors d ps acc = Err e.
Proof.
  induction ps as [|p ps IH]; intros acc H; cbn [appendSectors]; [destruct H; constructor|].
  destruct ((fst p =? 0) && (snd p =? 0)) eqn:E.
  - apply IH. intros H'. apply H. constructor; [left; unfold hole; destruct p; cbn in E; f_equal; lia | exact H'].
  - rewrite ReadSector_spec. destruct (Z.ltb_spec (zlen d) (offset (fst p) (snd p) + 256)); cbn [rbind]; [eauto|].
    apply IH. intros H'. apply H. constructor; [right; unfold in_image; lia | exact H'].
Qed.
Lemma pair_ok_dec d p : {pair_ok d p} + {~ pair_ok d p}.
Proof.
  unfold pair_ok. assert ({hole p} + {~ hole p}) as [?|?] by (unfold hole; decide equality; apply Z.eq_dec).
  - left. left. assumption.
  - destruct (in_image_dec d (fst p) (snd p)); [left; right; assumption | right; intros [?|?]; contradiction].
Qed.
Lemma tsl_pairs_len d p : zlen (pairs (sector d (fst p) (snd p))) = 122.
Proof. unfold pairs. rewrite zlen_map, zlen_zrange by lia. reflexivity. Qed.
Lemma mk_tsl_pairs d p : tsl_TrackSectors (mk_tsl d p) = pairs (sector d (fst p) (snd p)).
Proof. unfold mk_tsl. exact (TSL_pairs zeroTSL (sector d (fst p) (snd p))). Qed.
Lemma readLists_step d p rest acc : readLists d (map (mk_tsl d) (p :: rest)) acc =
  (data <- appendSectors d (match rest with [] => cut (pairs (sector d (fst p) (snd p))) | _ => pairs (sector d (fst p) (snd p)) end) acc ;;
   readLists d (map (mk_tsl d) rest) data).
Proof.
  cbn [map readLists]. rewrite mk_tsl_pairs. destruct rest as [|q rest]; cbn [map].
  - unfold cut. rewrite tsl_pairs_len. reflexivity.
  - replace (121 + 1) with (zlen (pairs (sector d (fst p) (snd p)))) by (rewrite tsl_pairs_len; lia). rewrite sub_full. reflexivity.
Qed.
Lemma readLists_ok d l : forall acc, Forall (pair_ok d) (fpairs d l) ->
  readLists d (map (mk_tsl d) l) acc = Ok (acc ++ concat (map (pair_bytes d) (fpairs d l))).
Proof.
  induction l as [|p l IH]; intros acc H; [cbn; rewrite app_nil_r; reflexivity|]. rewrite readLists_step. cbn [fpairs] in *.
  apply Forall_app in H. destruct H as [H1 H2]. rewrite append_ok by exact H1. cbn [rbind]. rewrite IH by exact H2.
  rewrite map_app, concat_app, app_assoc. reflexivity.
Qed.
Lemma readLists_bad d l : forall acc, ~ Forall (pair_ok d) (fpairs d l) -> exists e, readLists d (map (mk_tsl d) l) acc = Err e.
Proof.
  induction l as [|p l IH]; intros acc H; [destruct H; constructor|]. rewrite readLists_step. cbn [fpairs] in *. rewrite Forall_app in H.
  match type of H with ~ (Forall _ ?X /\ _) => destruct (Forall_dec (pair_ok d) (pair_ok_dec d) X) as [H1|H1] end.
  - rewrite append_ok by exact H1. cbn [rbind]. apply IH. intros H2. apply H. auto.
  - destruct (append_bad d _ acc H1) as [e ->]. cbn [rbind]. eauto.
Qed.
Lemma Contents_body d fd l data fuel : bytes_ok d -> is_byte (fd_Track fd) -> is_byte (fd_Sector fd) ->
  body d (fd_Track fd, fd_Sector fd) l data -> (length l < fuel)%nat -> Contents fuel fd d = Some (Ok (data, 31232 * zlen l)).
Proof.
  intros Hd B1 B2 (C & ps & Hp & Hok & Ed) Hf. subst data. apply fpairs_unique in Hp. subst ps. unfold Contents.
  pose proof (tsl_chain d (fd_Track fd, fd_Sector fd) l fuel Hd (conj B1 B2) C Hf) as E. cbn [fst snd] in E. rewrite E.
  rewrite readLists_ok by exact Hok. cbn [rbind app]. rewrite zlen_map. reflexivity.
Qed.
Lemma Contents_no_body d fd fuel : bytes_ok d -> is_byte (fd_Track fd) -> is_byte (fd_Sector fd) ->
  (forall l data, ~ body d (fd_Track fd, fd_Sector fd) l data) -> (list_limit < fuel)%nat -> exists e, Contents fuel fd d = Some (Err e).
Proof.
  intros Hd B1 B2 H Hf. unfold Contents. destruct (tsl_classes d (fd_Track fd, fd_Sector fd) Hd (conj B1 B2)) as [(l & C & L)|(_ & _ & _ & _ & _ & _ & _ & Hn)].
  - pose proof (tsl_chain d (fd_Track fd, fd_Sector fd) l fuel Hd (conj B1 B2) C ltac:(lia)) as E. cbn [fst snd] in E. rewrite E.
    destruct (Forall_dec (pair_ok d) (pair_ok_dec d) (fpairs d l)) as [H1|H1].
    + exfalso. apply (H l (concat (map (pair_bytes d) (fpairs d l)))). split; [exact C|]. exists (fpairs d l). split; [apply fpairs_spec | auto].
    + destruct (readLists_bad d l [] H1) as [e ->]. cbn [rbind]. eauto.
  - destruct (tsl_no_chain d (fd_Track fd, fd_Sector fd) fuel Hd (conj B1 B2) Hn Hf) as [e E]. cbn [fst snd] in E. rewrite E. eauto.
Qed.
Lemma body_dec d p : bytes_ok d -> is_byte (fst p) /\ is_byte (snd p) ->
  (exists l data, body d p l data /\ (length l <= list_limit)%nat) \/ (forall l data, ~ body d p l data).
Proof.
  intros Hd Hb. destruct (tsl_classes d p Hd Hb) as [(l & C & L)|(_ & _ & _ & _ & _ & _ & _ & Hn)].
  - destruct (Forall_dec (pair_ok d) (pair_ok_dec d) (fpairs d l)) as [H1|H1].
    + left. exists l, (concat (map (pair_bytes d) (fpairs d l))). split; [|exact L]. split; [exact C|]. exists (fpairs d l). split; [apply fpairs_spec | auto].
    + right. intros l' data (C' & ps & Hp & Hok & _). rewrite <- (chain_det _ _ _ _ C _ C') in Hp. apply fpairs_unique in Hp. subst ps. exact (H1 Hok).
  - right. intros l data (C & _). exact (Hn l C).
Qed.
Lemma body_unique d p l data l' data' : body d p l data -> body d p l' data' -> l = l' /\ data = data'.
Proof.
  intros (C & ps & Hp & _ & ->) (C' & ps' & Hp' & _ & ->). pose proof (chain_det _ _ _ _ C _ C'). subst l'.
  apply fpairs_unique in Hp, Hp'. subst. auto.
Qed.
Lemma pair_bytes_len d ps : Forall (fun p => is_byte (fst p) /\ is_byte (snd p)) ps -> Forall (pair_ok d) ps -> zlen (concat (map (pair_bytes d) ps)) = 256 * zlen ps.
Proof.
  intros B H. erewrite zlen_concat; [rewrite zlen_map; reflexivity|]. apply Forall_map, Forall_forall. intros p Hp. rewrite Forall_forall in B, H.
  specialize (B p Hp). specialize (H p Hp). unfold pair_bytes. destruct ((fst p =? 0) && (snd p =? 0)) eqn:E; [rewrite zlen_repeat; reflexivity|].
  destruct H as [H|H]; [unfold hole in H; subst p; discriminate|]. unfold is_byte in B. apply zlen_sector; try lia. exact H.
Qed.
Lemma pairs_bytes d t s : bytes_ok d -> Forall (fun p => is_byte (fst p) /\ is_byte (snd p)) (pairs (sector d t s)).
Proof.
  intros Hd. unfold pairs. apply Forall_map, Forall_forall. intros i _. split; apply bytes_ok_znth, sector_bytes, Hd.
Qed.
Lemma fpairs_bytes d l : bytes_ok d -> Forall (fun p => is_byte (fst p) /\ is_byte (snd p)) (fpairs d l).
Proof.
  intros Hd. induction l as [|p l IH]; cbn [fpairs]; [constructor|]. apply Forall_app. split; [|exact IH].
  destruct l; [apply Forall_sub|]; apply pairs_bytes; exact Hd.
Qed.
Lemma cut_len ps : 0 < zlen ps -> 1 <= zlen (cut ps) <= zlen ps.
Proof.
  intros H. pose proof (cut_spec ps) as [[_ ->]|(q & z & _ & _ & (a & E) & E')]; [lia|].
  apply (f_equal (@zlen (Z * Z))) in E, E'. rewrite zlen_snoc in E. rewrite zlen_app in E'. pose proof (zlen_nonneg a). pose proof (zlen_nonneg z). lia.
Qed.
Lemma fpairs_len d l : l <> [] -> 1 <= zlen (fpairs d l) <= 122 * zlen l.
Proof.
  induction l as [|p l IH]; intros H; [congruence|]. cbn [fpairs]. rewrite zlen_app, zlen_cons. pose proof (tsl_pairs_len d p) as L. destruct l as [|q l].
  - pose proof (cut_len (pairs (sector d (fst p) (snd p)))). cbn [fpairs]. change (zlen (@nil (Z * Z))) with 0. lia.
  - specialize (IH ltac:(discriminate)). lia.
Qed.
Lemma body_len d p l data : bytes_ok d -> p <> (0, 0) -> body d p l data -> 256 <= zlen data <= 31232 * zlen l.
Proof.
  intros Hd Hp (C & ps & Hf & Hok & ->). apply fpairs_unique in Hf. subst ps. rewrite pair_bytes_len by (try assumption; apply fpairs_bytes; exact Hd).
  assert (l <> []) as Hl by (inversion C; congruence). pose proof (fpairs_len d l Hl). lia.
Qed.

(** ** GetFile *)
Lemma trimZeros_ok out x k : x <> 0 -> trimZeros_rev (rev ((out ++ [x]) ++ repeat 0 k)) = Ok (out ++ [x]).
Proof.
  intros Hx. rewrite rev_app_distr, rev_repeat'. induction k as [|k IH]; cbn [repeat app].
  - rewrite rev_app_distr. cbn [rev app trimZeros_rev]. replace (x =? 0) with false by lia.
    cbn [rev]. rewrite rev_involutive. reflexivity.
  - cbn [trimZeros_rev Z.eqb]. exact IH.
Qed.
Lemma trimZeros_zero r : Forall (eq 0) r -> trimZeros_rev r = Panic.
Proof. induction 1 as [|c r <- H IH]; [reflexivity|]. cbn. exact IH. Qed.
Lemma zero_or_text (data : bytes) : Forall (eq 0) data \/ exists out, text_of data out.
Proof.
  induction data as [|x data IH] using rev_ind; [left; constructor|]. destruct (Z.eq_dec x 0) as [->|Hx].
  - destruct IH as [H|(out & k & y & -> & Hy & m & ->)].
    + left. apply Forall_app. split; [exact H | constructor; [reflexivity | constructor]].
    + right. exists (m ++ [y]), (S k), y. split; [|eauto]. rewrite <- app_assoc. f_equal.
      replace (S k) with (k + 1)%nat by lia. rewrite repeat_app. reflexivity.
  - right. exists (data ++ [x]), 0%nat, x. cbn. rewrite app_nil_r. eauto.
Qed.
Lemma pad_zeros data n : pad data n = data ++ zeros (n - zlen data).
Proof. reflexivity. Qed.
Lemma idx_ok b i : 0 <= i < zlen b -> idx b i = Ok (znth 0 b i).
Proof. intros H. unfold idx. replace ((0 <=? i) && (i <? zlen b)) with true by lia. reflexivity. Qed.
Lemma getProgram_low ty desc data nl : bytes_ok data -> 256 <= zlen data <= 31232 * nl -> ty = 1 \/ ty = 2 ->
  getProgram ty desc data (31232 * nl) =
    if 2 + word data 0 <=? 31232 * nl then
      Ok (FI (Desc (d_name desc) (d_fullname desc) (d_sectors desc) (d_blocks desc) (word data 0) (d_locked desc) (d_type desc))
            (sub (pad data (31232 * nl)) 2 (2 + word data 0)) (if ty =? 2 then 0x801 else 0))
    else Panic.
Proof.
  intros B L Hty. unfold getProgram. pose proof (bytes_ok_znth data 0 B). pose proof (bytes_ok_znth data 1 B). unfold is_byte in *.
  destruct Hty as [->| ->]; cbn [FtApplesoft FtInteger Z.eqb Pos.eqb rbind]; rewrite !idx_ok by lia; cbn [rbind]; unfold slice_cap;
    replace (znth 0 data 0 + znth 0 data 1 * 256) with (word data 0) by (unfold word; rewrite Z.add_0_l; lia);
    replace (word data 0 + 2) with (2 + word data 0) by lia;
    (assert (0 <= word data 0) by (unfold word; rewrite Z.add_0_l; lia));
    destruct (Z.leb_spec (2 + word data 0) (31232 * nl));
    [replace ((0 <=? 2) && (2 <=? 2 + word data 0) && true) with true by lia
    |rewrite andb_false_r
    |replace ((0 <=? 2) && (2 <=? 2 + word data 0) && true) with true by lia
    |rewrite andb_false_r]; cbn [rbind]; reflexivity.
Qed.
Lemma getProgram_bin desc data nl : bytes_ok data -> 256 <= zlen data <= 31232 * nl ->
  getProgram 4 desc data (31232 * nl) =
    if 4 + word data 2 <=? 31232 * nl then
      Ok (FI (Desc (d_name desc) (d_fullname desc) (d_sectors desc) (d_blocks desc) (word data 2) (d_locked desc) (d_type desc))
            (sub (pad data (31232 * nl)) 4 (4 + word data 2)) (word data 0))
    else Panic.
Proof.
  intros B L. unfold getProgram. pose proof (bytes_ok_znth data 0 B). pose proof (bytes_ok_znth data 1 B).
  pose proof (bytes_ok_znth data 2 B). pose proof (bytes_ok_znth data 3 B). unfold is_byte in *.
  change (4 =? FtApplesoft) with false. change (4 =? FtInteger) with false. cbv iota. rewrite !(idx_ok data) by lia. cbn [rbind].
  unfold slice. replace ((0 <=? 2) && (2 <=? zlen data) && (zlen data <=? zlen data)) with true by lia. cbn [rbind].
  assert (zlen (sub data 2 (zlen data)) = zlen data - 2) as L' by (rewrite zlen_sub; lia).
  rewrite !(idx_ok (sub data 2 (zlen data))) by lia. cbn [rbind]. rewrite !znth_sub by lia. change (2 + 0) with 2. change (2 + 1) with 3.
  replace (u16 (znth 0 data 0 + u16 (znth 0 data 1 * 256))) with (word data 0).
  2: { unfold u16, word. rewrite Z.add_0_l. rewrite (Z.mod_small (znth 0 data 1 * 256)) by lia. rewrite Z.mod_small by lia. lia. }
  replace (znth 0 data 2 + znth 0 data 3 * 256) with (word data 2) by (unfold word; change (2 + 1) with 3; lia).
  assert (0 <= word data 2) by (unfold word; change (2 + 1) with 3; lia).
  unfold slice_cap. destruct (Z.leb_spec (4 + word data 2) (31232 * nl)).
  - replace ((0 <=? 2) && (2 <=? word data 2 + 2) && (word data 2 + 2 <=? 31232 * nl - 2)) with true by lia. cbn [rbind]. do 2 f_equal.
    replace (sub data 2 (zlen data) ++ zeros (31232 * nl - 2 - zlen (sub data 2 (zlen data)))) with (sub (pad data (31232 * nl)) 2 (31232 * nl)).
    + rewrite sub_sub by lia. f_equal; lia.
    + rewrite pad_zeros. rewrite L'. replace (31232 * nl - 2 - (zlen data - 2)) with (31232 * nl - zlen data) by lia.
      rewrite (sub_app_split _ 2 (zlen data)) by (rewrite ?zlen_app, ?zlen_zeros; lia). rewrite sub_app_l by lia. f_equal.
      rewrite sub_app_r by lia. rewrite Z.sub_diag. 
      set (m := 31232 * nl - zlen data). assert (zlen (zeros m) = m) as Em by (apply zlen_zeros; lia). rewrite <- Em at 2. apply sub_full.
  - replace ((0 <=? 2) && (2 <=? word data 2 + 2) && (word data 2 + 2 <=? 31232 * nl - 2)) with false by lia. reflexivity.
Qed.

Lemma find_lookup es n : Forall (fun e => zlen e = 35 /\ bytes_ok e) es ->
  match find (fun fd => beq (FilenameString fd) n) (map fd_of (filter is_live es)) with
  | Some fd => exists e, lookup es n e /\ fd = fd_of e
  | None => forall e, ~ lookup es n e
  end.
Proof.
  induction es as [|x es IH]; intros H; cbn [filter map find].
  - intros e (a & b & E & _). destruct a; discriminate.
  - inversion H as [|? ? H1 H2]; subst. specialize (IH H2). destruct (is_live x) eqn:Hx; cbn [map find].
    + destruct (beq (FilenameString (fd_of x)) n) eqn:E.
      * exists x. split; [|reflexivity]. exists [], es. apply beq_eq in E. repeat split; [exact Hx | apply live_name_iff; assumption | intros y []].
      * apply beq_neq in E. assert (~ entry_name x n) as En by (intros K; apply E; apply live_name_iff; assumption).
        destruct (find _ _).
        -- destruct IH as (e & (a & b & -> & L & K & F) & ->). exists e. split; [|reflexivity]. exists (x :: a), b.
           repeat split; auto. intros y [<-|Hy] Ly; [exact En | apply F; assumption].
        -- intros e (a & b & Eq & L & K & F). destruct a as [|y a]; cbn in Eq; inversion Eq; subst; [exact (En K)|].
           apply (IH e). exists a, b. repeat split; auto. intros z Hz. apply F. right. exact Hz.
    + destruct (find _ _).
      * destruct IH as (e & (a & b & -> & L & K & F) & ->). exists e. split; [|reflexivity]. exists (x :: a), b.
        repeat split; auto. intros y [<-|Hy] Ly; [congruence | apply F; assumption].
      * intros e (a & b & Eq & L & K & F). destruct a as [|y a]; cbn in Eq; inversion Eq; subst; [congruence|].
        apply (IH e). exists a, b. repeat split; auto. intros z Hz. apply F. right. exact Hz.
Qed.
Lemma lookup_unique es n e e' : lookup es n e -> lookup es n e' -> e = e'.
Proof.
  revert e e'. induction es as [|x es IH]; intros e e' (a & b & E & L & K & F) (a' & b' & E' & L' & K' & F').
  - destruct a; discriminate.
  - destruct a as [|y a], a' as [|y' a']; cbn in E, E'; inversion E; inversion E'; subst; subst; auto.
    + exfalso. eapply F'; [left; reflexivity | assumption | assumption].
    + exfalso. eapply F; [left; reflexivity | assumption | assumption].
    + apply IH; [exists a, b | exists a', b']; repeat split; auto; intros z Hz; [apply F | apply F']; right; exact Hz.
Qed.
Lemma lookup_In es n e : lookup es n e -> In e es.
Proof. intros (a & b & -> & _). apply in_or_app. right. left. reflexivity. Qed.

Definition the_result (e n : bytes) (nl : Z) (data : bytes) : res FileInfo :=
  let ty := znth 0 e 2 mod 128 in
  let desc := fd_descriptor (fd_of e) in
  if ty =? 0 then
    (data' <- trimZeros_rev (rev data) ;;
     Ok (FI (Desc (d_name desc) (d_fullname desc) (d_sectors desc) (d_blocks desc) (zlen data') (d_locked desc) (d_type desc)) data' 0))
  else if (ty =? 1) || (ty =? 2) || (ty =? 4) then getProgram ty desc data (31232 * nl)
  else Err (EOther "does not yet implement GetFile for filetype").
Lemma GetFile_found d l n e ls data fuel : bytes_ok d -> catalog d l -> lookup (entries d l) n e ->
  body d (znth 0 e 0, znth 0 e 1) ls data -> (length l < fuel)%nat -> (length ls < fuel)%nat ->
  GetFile fuel d n = Some (the_result e n (zlen ls) data).
Proof.
  intros Hd C Hl Hb F1 F2. unfold GetFile, fileForFilename. rewrite (ReadCatalog_chain d l fuel Hd C F1).
  pose proof (entries_bytes d l Hd (catalog_places d l Hd C)) as FE. pose proof (find_lookup _ n FE) as Hfind.
  destruct (find _ _) as [fd|]; [|exfalso; eapply Hfind; exact Hl]. destruct Hfind as (e' & Hl' & ->).
  rewrite (lookup_unique _ _ _ _ Hl' Hl). rewrite Forall_forall in FE. destruct (FE e (lookup_In _ _ _ Hl)) as [L B].
  rewrite (Contents_body d (fd_of e) ls data fuel Hd) by (try assumption; apply bytes_ok_znth; exact B).
  cbn [fd_of fd_Filetype]. rewrite (low7 _ (bytes_ok_znth e 2 B)). reflexivity.
Qed.
Lemma body_bytes d p l data : bytes_ok d -> body d p l data -> bytes_ok data.
Proof.
  intros Hd (_ & ps & _ & _ & ->). induction ps as [|q ps IH]; cbn [map concat]; [constructor|]. apply bytes_ok_app. split; [|exact IH].
  unfold pair_bytes. destruct (_ && _); [apply (bytes_ok_zeros 256) | apply sector_bytes; exact Hd].
Qed.
Lemma live_nonzero e : is_live e = true -> (znth 0 e 0, znth 0 e 1) <> (0, 0).
Proof. unfold is_live. intros H E. inversion E as [[E1 E2]]. rewrite E1 in H. discriminate. Qed.
Lemma desc_len e n len (ds : Descriptor) : describes e n (-1) ds ->
  describes e n len (Desc (d_name ds) (d_fullname ds) (d_sectors ds) (d_blocks ds) len (d_locked ds) (d_type ds)).
Proof. intros [H1 H2 H3 H4 H5 H6]. split; first [assumption | reflexivity]. Qed.
Lemma result_decoded d e n ls data start out : bytes_ok d -> zlen e = 35 -> bytes_ok e -> is_live e = true -> entry_name e n ->
  body d (znth 0 e 0, znth 0 e 1) ls data -> decoded (znth 0 e 2 mod 128) (zlen ls) data start out ->
  exists ds, the_result e n (zlen ls) data = Ok (FI ds out start) /\ describes e n (zlen out) ds.
Proof.
  intros Hd L B Hl Hn Hb Hdec. pose proof (body_len d _ ls data Hd (live_nonzero e Hl) Hb) as Hlen. pose proof (body_bytes _ _ _ _ Hd Hb) as Hbytes.
  pose proof (live_desc e L B Hl) as D. rewrite (proj2 (live_name_iff e n Hl) Hn) in D.
  assert (forall a len, 0 <= a -> 0 <= len -> a + len <= 31232 * zlen ls -> zlen (sub (pad data (31232 * zlen ls)) a (a + len)) = len) as Hz.
  { intros a len Ha H0 H1. assert (zlen (pad data (31232 * zlen ls)) = 31232 * zlen ls) by (rewrite pad_zeros, zlen_app, zlen_zeros by lia; lia). rewrite zlen_sub; lia. }
  assert (forall i, 0 <= word data i) as Hw.
  { intros i. unfold word. pose proof (bytes_ok_znth data i Hbytes). pose proof (bytes_ok_znth data (i + 1) Hbytes). unfold is_byte in *. lia. }
  unfold the_result. set (ty := znth 0 e 2 mod 128) in *. clearbody ty.
  destruct Hdec as [out -> (k & x & -> & Hx & m & ->)|len -> -> Hfit|len -> -> Hfit|len -> -> Hfit].
  - cbn [Z.eqb]. rewrite trimZeros_ok by exact Hx. cbn [rbind]. eexists. split; [reflexivity|]. apply desc_len. exact D.
  - cbn [Z.eqb Pos.eqb orb]. rewrite getProgram_low by (auto; lia). replace (2 + word data 0 <=? 31232 * zlen ls) with true by lia.
    eexists. split; [reflexivity|]. rewrite Hz by (try apply Hw; lia). apply desc_len. exact D.
  - cbn [Z.eqb Pos.eqb orb]. rewrite getProgram_low by (auto; lia). replace (2 + word data 0 <=? 31232 * zlen ls) with true by lia.
    eexists. split; [reflexivity|]. rewrite Hz by (try apply Hw; lia). apply desc_len. exact D.
  - cbn [Z.eqb Pos.eqb orb]. rewrite getProgram_bin by (auto; lia). replace (4 + word data 2 <=? 31232 * zlen ls) with true by lia.
    eexists. split; [reflexivity|]. rewrite Hz by (try apply Hw; lia). apply desc_len. exact D.
Qed.
Lemma result_fatal d e n ls data : bytes_ok d -> is_live e = true -> body d (znth 0 e 0, znth 0 e 1) ls data ->
  fatal (znth 0 e 2 mod 128) (zlen ls) data -> the_result e n (zlen ls) data = Panic.
Proof.
  intros Hd Hl Hb F. pose proof (body_len d _ ls data Hd (live_nonzero e Hl) Hb) as Hlen. pose proof (body_bytes _ _ _ _ Hd Hb) as Hbytes.
  unfold the_result. set (ty := znth 0 e 2 mod 128) in *. clearbody ty. destruct F as [[-> H]|[[H Hf]|[-> Hf]]].
  - cbn [Z.eqb]. rewrite trimZeros_zero; [reflexivity|]. apply Forall_rev. exact H.
  - replace (ty =? 0) with false by lia. replace ((ty =? 1) || (ty =? 2) || (ty =? 4)) with true by lia.
    rewrite getProgram_low by (auto; lia). replace (2 + word data 0 <=? 31232 * zlen ls) with false by lia. reflexivity.
  - cbn [Z.eqb Pos.eqb orb]. rewrite getProgram_bin by (auto; lia). replace (4 + word data 2 <=? 31232 * zlen ls) with false by lia. reflexivity.
Qed.
Lemma result_other e n nl data : ~ In (znth 0 e 2 mod 128) [0; 1; 2; 4] -> exists er, the_result e n nl data = Err er.
Proof.
  intros H. unfold the_result. set (ty := znth 0 e 2 mod 128) in *. clearbody ty. cbn [In] in H.
  replace (ty =? 0) with false by lia. replace ((ty =? 1) || (ty =? 2) || (ty =? 4)) with false by lia. eauto.
Qed.
Lemma kinds e (data : bytes) nl : (exists start out, decoded (znth 0 e 2 mod 128) nl data start out) \/ fatal (znth 0 e 2 mod 128) nl data \/
  ~ In (znth 0 e 2 mod 128) [0; 1; 2; 4].
Proof.
  set (ty := znth 0 e 2 mod 128). clearbody ty. destruct (in_dec Z.eq_dec ty [0; 1; 2; 4]) as [H|H]; [|auto]. cbn [In] in H.
  destruct H as [<-|[<-|[<-|[<-|[]]]]].
  - destruct (zero_or_text data) as [Hz|[out Ho]]; [right; left; left; auto | left; exists 0, out; constructor; auto].
  - destruct (Z_le_dec (2 + word data 0) (31232 * nl)); [left; do 2 eexists; eapply dec_integer; eauto | right; left; right; left; split; [auto|lia]].
  - destruct (Z_le_dec (2 + word data 0) (31232 * nl)); [left; do 2 eexists; eapply dec_applesoft; eauto | right; left; right; left; split; [auto|lia]].
  - destruct (Z_le_dec (4 + word data 2) (31232 * nl)); [left; do 2 eexists; eapply dec_binary; eauto | right; left; right; right; split; [auto|lia]].
Qed.
Lemma GetFile_no_body d l n e fuel : bytes_ok d -> catalog d l -> lookup (entries d l) n e ->
  (forall ls data, ~ body d (znth 0 e 0, znth 0 e 1) ls data) -> (length l < fuel)%nat -> (list_limit < fuel)%nat ->
  exists er, GetFile fuel d n = Some (Err er).
Proof.
  intros Hd C Hl Hb F1 F2. unfold GetFile, fileForFilename. rewrite (ReadCatalog_chain d l fuel Hd C F1).
  pose proof (entries_bytes d l Hd (catalog_places d l Hd C)) as FE. pose proof (find_lookup _ n FE) as Hfind.
  destruct (find _ _) as [fd|]; [|exfalso; eapply Hfind; exact Hl]. destruct Hfind as (e' & Hl' & ->).
  rewrite (lookup_unique _ _ _ _ Hl' Hl). rewrite Forall_forall in FE. destruct (FE e (lookup_In _ _ _ Hl)) as [L B].
  destruct (Contents_no_body d (fd_of e) fuel Hd) as [er ->]; try assumption; try (apply bytes_ok_znth; exact B). eauto.
Qed.
Lemma GetFile_missing d l n fuel : bytes_ok d -> catalog d l -> (forall e, ~ lookup (entries d l) n e) -> (length l < fuel)%nat ->
  exists er, GetFile fuel d n = Some (Err er).
Proof.
  intros Hd C Hl F1. unfold GetFile, fileForFilename. rewrite (ReadCatalog_chain d l fuel Hd C F1).
  pose proof (entries_bytes d l Hd (catalog_places d l Hd C)) as FE. pose proof (find_lookup _ n FE) as Hfind.
  destruct (find _ _) as [fd|]; [|eauto]. destruct Hfind as (e' & Hl' & ->). exfalso. eapply Hl; exact Hl'.
Qed.
Lemma find_lookup_dec es n : Forall (fun e => zlen e = 35 /\ bytes_ok e) es -> (exists e, lookup es n e) \/ forall e, ~ lookup es n e.
Proof.
  intros H. pose proof (find_lookup es n H) as K. destruct (find _ _); [left; destruct K as (e & K & _); eauto | right; exact K].
Qed.
