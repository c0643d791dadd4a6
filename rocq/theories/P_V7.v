(** Lemmas for nl_v7p.c. *)
From Verif Require Import Base M_Node4D M_Mem M_Out M_V7 S_V7 P_Out.
From Coq Require Import Sorted.

Lemma num_len n z : length (num n z) = n.
Proof. revert z. induction n; intros; cbn; auto. Qed.
Lemma lev_num n z : lev (num n z) = z mod 256 ^ Z.of_nat n.
Proof.
  revert z. induction n as [|n IH]; intros z; [cbn; rewrite Z.mod_1_r; reflexivity|].
  cbn [num lev]. rewrite IH. rewrite Nat2Z.inj_succ, Z.pow_succ_r by lia.
  rewrite Z.rem_mul_r by (try lia; apply Z.pow_pos_nonneg; lia). lia.
Qed.
Lemma pow256 n : 256 ^ Z.of_nat n = 2 ^ (8 * Z.of_nat n).
Proof. change 256 with (2 ^ 8). rewrite <- Z.pow_mul_r by lia. reflexivity. Qed.
Lemma sx_num n z : (0 < n)%nat -> - 2 ^ (8 * Z.of_nat n - 1) <= z < 2 ^ (8 * Z.of_nat n - 1) -> sx (num n z) = z.
Proof.
  intros Hn Hz. unfold sx. rewrite num_len, lev_num, pow256.
  assert (E : 2 ^ (8 * Z.of_nat n) = 2 * 2 ^ (8 * Z.of_nat n - 1)) by (rewrite <- Z.pow_succ_r by lia; f_equal; lia).
  rewrite E. set (m := 2 ^ (8 * Z.of_nat n - 1)) in *. clearbody m.
  destruct (Z.ltb_spec z 0).
  - replace (z mod (2 * m)) with (z + 2 * m) by (apply Z.mod_unique with (-1); lia).
    destruct (Z.ltb_spec (z + 2 * m) m); lia.
  - rewrite Z.mod_small by lia. destruct (Z.ltb_spec z m); lia.
Qed.
Lemma lev2 z : is_u16 z -> lev (num 2 z) = z.
Proof. intros H. rewrite lev_num. apply Z.mod_small. exact H. Qed.

Lemma part_len r o bs : part r o bs -> bs <> [] -> (o + length bs <= length r)%nat.
Proof.
  unfold part. intros H N. pose proof (f_equal (@List.length Z) H) as E. rewrite firstn_length, skipn_length in E.
  destruct bs; [congruence|]. cbn [List.length] in *. lia.
Qed.
Lemma part_app r t o bs : part r o bs -> part (r ++ t) o bs.
Proof.
  unfold part. intros H. destruct bs as [|c bs]; [reflexivity|].
  assert (L := part_len _ _ _ H ltac:(discriminate)).
  rewrite skipn_app, firstn_app, H, skipn_length.
  replace (length (c :: bs) - (length r - o))%nat with 0%nat by lia. cbn [firstn]. apply app_nil_r.
Qed.
Lemma part_left r o a b : part r o (a ++ b) -> part r o a.
Proof.
  unfold part. intros H. rewrite app_length in H. apply (f_equal (firstn (length a))) in H.
  rewrite firstn_firstn in H. replace (Nat.min (length a) (length a + length b)) with (length a) in H by lia.
  rewrite H. rewrite firstn_app, Nat.sub_diag, firstn_all. cbn. apply app_nil_r.
Qed.
Lemma skip2 {A} (l : list A) a b : skipn (a + b) l = skipn b (skipn a l).
Proof. revert l. induction a; intros l; [reflexivity|]. destruct l; cbn; [destruct b; reflexivity|apply IHa]. Qed.
Lemma part_right r o a b : part r o (a ++ b) -> part r (o + length a) b.
Proof.
  unfold part. intros H. rewrite app_length in H. apply (f_equal (skipn (length a))) in H.
  rewrite skipn_app, skipn_all, Nat.sub_diag in H. cbn [app skipn] in H.
  rewrite skipn_firstn_comm in H. rewrite skip2. rewrite <- H at 2. f_equal. lia.
Qed.

(** ** The buffer *)
Lemma getb_part r t o bs n : part r o bs -> bs <> [] -> length bs = n -> (length r <= 512)%nat -> getb (r ++ t) (Z.of_nat o) n = Some bs.
Proof.
  intros P N L R. assert (Q := part_len _ _ _ P N). unfold getb, V7P_NDXBUFSIZE.
  destruct (Z.leb_spec 0 (Z.of_nat o)); [|lia]. destruct (Z.leb_spec (Z.of_nat o + Z.of_nat n) 512); [|lia].
  cbn [andb]. rewrite Nat2Z.id. f_equal. rewrite <- L. exact (part_app _ t _ _ P).
Qed.
Lemma first_part r t bs n : part r 0 bs -> length bs = n -> firstn n (r ++ t) = bs.
Proof. intros P L. rewrite <- L. exact (part_app _ t _ _ P). Qed.
Lemma skip_part r t o bs n : part r o bs -> length bs = n -> firstn n (skipn o (r ++ t)) = bs.
Proof. intros P L. rewrite <- L. exact (part_app _ t _ _ P). Qed.

Lemma compare_key r t p bs k nd : part r p bs -> keybytes k bs -> (length r <= 512)%nat ->
  v7p_ndxcompare (r ++ t) (Z.of_nat p) nd (Z.of_nat (length bs)) = Some (Compare4D k nd).
Proof.
  intros P K R. unfold v7p_ndxcompare.
  assert (G : getb (r ++ t) (Z.of_nat p) (length bs) = Some bs).
  { apply getb_part with (bs := bs); auto. destruct K; discriminate. }
  destruct K as [z n m (A1 & A2 & A3 & A4 & A5)|z n m q (A1 & A2 & A3 & A4 & A5)]; cbn [zone net node point] in *.
  - change (length (num 2 z ++ num 2 n ++ num 2 m)) with 6%nat in *. cbn [Z.of_nat Z.eqb negb andb Pos.of_succ_nat Pos.succ Pos.eqb].
    change (Z.to_nat 6) with 6%nat. rewrite G. cbn [obind num app firstn skipn].
    change (lev [z mod 256; z / 256 mod 256]) with (lev (num 2 z)).
    change (lev [n mod 256; n / 256 mod 256]) with (lev (num 2 n)).
    change (lev [m mod 256; m / 256 mod 256]) with (lev (num 2 m)).
    rewrite !lev2 by auto. reflexivity.
  - change (length (num 2 z ++ num 2 n ++ num 2 m ++ num 2 q)) with 8%nat in *. cbn [Z.of_nat Z.eqb negb andb Pos.of_succ_nat Pos.succ Pos.eqb].
    change (Z.to_nat 8) with 8%nat. rewrite G. cbn [obind num app firstn skipn].
    change (lev [z mod 256; z / 256 mod 256]) with (lev (num 2 z)).
    change (lev [n mod 256; n / 256 mod 256]) with (lev (num 2 n)).
    change (lev [m mod 256; m / 256 mod 256]) with (lev (num 2 m)).
    change (lev [q mod 256; q / 256 mod 256]) with (lev (num 2 q)).
    rewrite !lev2 by auto. reflexivity.
Qed.
Lemma keybytes_address k bs : keybytes k bs -> address k.
Proof. intros []; auto. Qed.

Lemma part_ne r o a b : part r o (a ++ b) -> part r o a /\ part r (o + length a) b.
Proof. intros H. split; [eapply part_left|eapply part_right]; eauto. Qed.
Lemma key_read r t o k nd : haskey r o k -> (length r <= 512)%nat ->
  (do ko <- getb (r ++ t) (Z.of_nat o) 2; do kl <- getb (r ++ t) (Z.of_nat o + 2) 2; v7p_ndxcompare (r ++ t) (lev ko) nd (lev kl)) = Some (Compare4D k nd).
Proof.
  intros (p & bs & K & P1 & P2) R. apply part_ne in P1 as [Pa Pb]. rewrite num_len in Pb.
  assert (N : bs <> []) by (destruct K; discriminate). assert (L := part_len _ _ _ P2 N).
  assert (length bs <= 8)%nat by (destruct K; cbn; lia).
  rewrite (getb_part _ t _ _ 2 Pa) by (try discriminate; auto using num_len). cbn [obind].
  replace (Z.of_nat o + 2) with (Z.of_nat (o + 2)) by lia.
  rewrite (getb_part _ t _ _ 2 Pb) by (try discriminate; auto using num_len). cbn [obind].
  rewrite !lev2 by (unfold is_u16; lia). apply compare_key; auto.
Qed.

(** ** Comparing *)
Lemma compare_spec k n : zone k <> 0 -> zone n <> 0 ->
  (Compare4D k n > 0 <-> before n k) /\ (Compare4D k n = 0 <-> k = n) /\ (Compare4D k n < 0 <-> before k n).
Proof.
  intros Hk Hn. unfold Compare4D, before.
  destruct (Z.eqb_spec (zone k) 0); [congruence|]. destruct (Z.eqb_spec (zone n) 0); [congruence|]. cbn [negb andb].
  assert (Q : k = n <-> zone k = zone n /\ net k = net n /\ node k = node n /\ point k = point n).
  { destruct k, n; cbn. split; [intros [= -> -> -> ->]; auto|intros (-> & -> & -> & ->); auto]. }
  rewrite Q. rewrite !Z.gtb_ltb.
  repeat match goal with |- context [if ?a <? ?b then _ else _] => destruct (Z.ltb_spec a b) end; repeat split; try lia.
Qed.
Lemma before_trans a b c : before a b -> before b c -> before a c.
Proof. unfold before. lia. Qed.
Lemma before_irr a : ~ before a a.
Proof. unfold before. lia. Qed.
Lemma before_total a b : ~ before a b -> ~ before b a -> a = b.
Proof. destruct a, b; unfold before; cbn. intros. f_equal; lia. Qed.

(** ** The search *)
Fixpoint depth (t : tree) : nat := match t with Leaf _ => 1 | Branch f ks => S (Nat.max (depth f) (kdepth ks)) end
with kdepth (ks : kids) : nat := match ks with KNil => O | KCons _ t r => Nat.max (depth t) (kdepth r) end.

Lemma kfrom ks : forall prev k t r, ks = KCons k t r -> kordered prev ks -> Forall (fun e => ~ before (fst e) k) (kentries ks).
Proof.
  induction ks as [|k0 t0 r0 IH]; intros prev k t r [=]; subst. cbn [kordered kentries].
  intros (_ & F & _ & O & N). apply Forall_app. split; [exact F|].
  destruct r as [|k2 t2 r2]; [constructor|].
  eapply Forall_impl; [|eapply IH; [reflexivity|exact O]]. cbv beta. intros e He B. apply He.
  eapply before_trans; eauto.
Qed.
Lemma lay_eqs w : szhead w = y_head (laysel w) /\ szikey w = y_ikey (laysel w) /\ szlkey w = y_lkey (laysel w) /\
  o_value w = y_value (laysel w) /\ o_lower w = y_lower (laysel w) /\ szlong w = y_long (laysel w) /\
  o_keycount w = y_count (laysel w) /\ szcontrol w = y_control (laysel w).
Proof. destruct w; repeat split. Qed.

Lemma haskey_zone r o k : haskey r o k -> zone k <> 0.
Proof. intros (p & bs & K & _). apply keybytes_address in K. apply K. Qed.

Lemma route w f rs r t nd ks : forall i prev, zone nd <> 0 -> (length r <= 512)%nat ->
  kordered prev ks -> kstored (laysel w) f rs r i ks ->
  exists j T, indexkeys w (r ++ t) nd (kcount ks) i = Some (i + j)%nat /\
    (j = 0%nat /\ T = prev \/
     exists j' kn, j = S j' /\ part r (y_head (laysel w) + (i + j') * y_ikey (laysel w) + y_lower (laysel w)) (num (y_long (laysel w)) kn) /\
       0 <= kn < 2 ^ 31 /\ stored (laysel w) f rs kn T /\ ordered T) /\
    (depth T <= Nat.max (depth prev) (kdepth ks))%nat /\
    (forall v, In (nd, v) (entries prev ++ kentries ks) <-> In (nd, v) (entries T)).
Proof.
  induction ks as [|k kt m IH]; intros i prev Hz R O S.
  - exists 0%nat, prev. cbn [kcount indexkeys kentries kdepth]. rewrite Nat.add_0_r. split; [auto|]. split; [auto|]. split; [lia|].
    intros v. rewrite app_nil_r. tauto.
  - assert (KF := kfrom _ _ _ _ _ eq_refl O).
    inversion S as [|r' i' k' t' m' kn HK HP Hkn HS HM]; subst r' i' k' t' m'.
    cbn [kordered] in O. destruct O as (Ob & Of & Oo & Om & On).
    assert (Zk := haskey_zone _ _ _ HK). destruct (lay_eqs w) as (E1 & E2 & _ & _ & E5 & E6 & _).
    pose proof (key_read _ t _ _ nd HK R) as G. rewrite <- E1, <- E2 in G.
    destruct (compare_spec k nd Zk Hz) as (C1 & C2 & C3).
    cbn [kcount indexkeys]. cbv zeta.
    destruct (getb (r ++ t) (Z.of_nat (szhead w + i * szikey w)) 2) as [ko|]; [|discriminate]. cbn [obind] in *.
    destruct (getb (r ++ t) (Z.of_nat (szhead w + i * szikey w) + 2) 2) as [kl|]; [|discriminate]. cbn [obind] in *.
    rewrite G. cbn [obind].
    destruct (Compare4D k nd >? 0) eqn:Eg.
    + exists 0%nat, prev. rewrite Nat.add_0_r. split; [auto|]. split; [auto|]. split; [cbn [kdepth]; lia|].
      intros v. rewrite in_app_iff. split; [intros [H|H]; auto|auto]. exfalso.
      rewrite Forall_forall in KF. apply (KF _ H). cbn [fst]. apply C1. apply Z.gtb_lt in Eg. lia.
    + destruct (IH (Datatypes.S i) kt Hz R Om HM) as (j & T & A1 & A2 & A3 & A4).
      exists (Datatypes.S j), T. split; [rewrite A1; f_equal; lia|]. split; [right|split; [cbn [kdepth]; lia|]].
      * destruct A2 as [[-> ->]|(j' & kn' & -> & B1 & B2 & B3 & B4)].
        -- exists 0%nat, kn. rewrite Nat.add_0_r. auto.
        -- exists (Datatypes.S j'), kn'. replace (i + Datatypes.S j')%nat with (Datatypes.S i + j')%nat by lia. auto.
      * intros v. rewrite <- A4. cbn [kentries]. rewrite !in_app_iff. split; [intros [H|H]; auto|auto]. exfalso.
        unfold below in Ob. rewrite Forall_forall in Ob. apply Ob in H. cbn [fst] in H. apply C1 in H.
        rewrite Z.gtb_ltb, Z.ltb_ge in Eg. lia.
Qed.

Lemma leaf_find w r t nd es : forall i, zone nd <> 0 -> (length r <= 512)%nat ->
  StronglySorted (fun a b => before (fst a) (fst b)) es -> leafat (laysel w) r i es ->
  (exists v, In (nd, v) es /\ leafkeys w (r ++ t) nd (length es) i = VYes v) \/
  (forall v, ~ In (nd, v) es) /\ leafkeys w (r ++ t) nd (length es) i = VNo.
Proof.
  induction es as [|[k v] es IH]; intros i Hz R O S; [right; split; [intros v []|reflexivity]|].
  cbn [leafat] in S. destruct S as (HK & Hv & HP & HS). inversion O as [|? ? O1 O2]; subst.
  assert (Zk := haskey_zone _ _ _ HK). destruct (lay_eqs w) as (E1 & _ & E3 & E4 & _ & E6 & _).
  pose proof (key_read _ t _ _ nd HK R) as G. rewrite <- E1, <- E3 in G. rewrite <- E1, <- E3, <- E4, <- E6 in HP.
  destruct (compare_spec k nd Zk Hz) as (C1 & C2 & C3).
  cbn [List.length leafkeys]. cbv zeta. rewrite G.
  assert (Hgt : before nd k -> forall v0, ~ In (nd, v0) ((k, v) :: es)).
  { intros B v0 [H|H]; [injection H as -> ->; exact (before_irr _ B)|].
    rewrite Forall_forall in O2. apply O2 in H. cbn [fst] in H. eapply before_irr, before_trans; eauto. }
  destruct (Compare4D k nd >? 0) eqn:Eg.
  - right. split; [apply Hgt, C1; apply Z.gtb_lt in Eg; lia|reflexivity].
  - destruct (Z.eqb_spec (Compare4D k nd) 0) as [Ee|Ee].
    + apply C2 in Ee. subst k. left. exists v. split; [left; reflexivity|].
      replace (Z.of_nat (szhead w + i * szlkey w) + Z.of_nat (o_value w)) with (Z.of_nat (szhead w + i * szlkey w + o_value w)) by lia.
      rewrite (getb_part _ t _ _ (szlong w) HP); [|destruct w; discriminate|apply num_len|exact R].
      f_equal. rewrite lev_num. unfold u32. destruct w; cbn [szlong]; unfold is_u32 in Hv.
      * change (256 ^ Z.of_nat 8) with 18446744073709551616. rewrite (Z.mod_small v) by lia. apply Z.mod_small; lia.
      * change (256 ^ Z.of_nat 4) with 4294967296. rewrite (Z.mod_small v) by lia. apply Z.mod_small; lia.
    + destruct (IH (Datatypes.S i) Hz R O1 HS) as [(v' & A & B)|[A B]].
      * left. exists v'. split; [right; exact A|exact B].
      * right. split; [|exact B]. intros v0 [H|H]; [|exact (A _ H)]. injection H as -> ->. apply Ee, C2. reflexivity.
Qed.

Lemma readrec_record f rs n r s : record f rs n r ->
  exists p t, readrec f (Z.of_nat rs) n s = (V7S (r ++ t) p, true).
Proof.
  intros (N & F & L). unfold readrec.
  destruct (Z.ltb_spec (n * Z.of_nat rs) 0); [nia|].
  rewrite Nat2Z.id. replace (Z.to_nat (n * Z.of_nat rs)) with (Z.to_nat n * rs)%nat by lia.
  rewrite F, L, Z.eqb_refl. eauto.
Qed.

Lemma signed_long w z : -1 <= z < 2 ^ 31 -> sx (num (szlong w) z) = z.
Proof.
  intros H. change (2 ^ 31) with 2147483648 in H. destruct w; cbn [szlong]; apply sx_num; try lia.
Qed.

Lemma descend_spec w f rs nd : (rs <= 512)%nat -> zone nd <> 0 -> forall fuel n tr s, (depth tr <= fuel)%nat ->
  stored (laysel w) f rs n tr -> ordered tr ->
  exists s', let '(s1, ok) := readrec f (Z.of_nat rs) n s in ok = true /\
    ((exists v, In (nd, v) (entries tr) /\ descend w f (Z.of_nat rs) nd fuel s1 = (s', VYes v)) \/
     (forall v, ~ In (nd, v) (entries tr)) /\ descend w f (Z.of_nat rs) nd fuel s1 = (s', VNo)).
Proof.
  intros Hrs Hz. destruct (lay_eqs w) as (E1 & E2 & E3 & E4 & E5 & E6 & E7 & _).
  induction fuel as [|fuel IH]; intros n tr s D S O; [destruct tr; cbn in D; lia|].
  destruct S as [n r es HR H0 Hc Hl HL|n r fn t ks HR H0 Hf Hc Hl HT HK].
  - destruct (readrec_record _ _ _ _ s HR) as (p & t & E). exists (V7S (r ++ t) p). rewrite E. split; [reflexivity|].
    assert (R : (length r <= 512)%nat) by (destruct HR as (_ & _ & L); lia).
    rewrite <- E6 in H0. rewrite <- E7 in Hc.
    assert (Er : rectype w (r ++ t) = -1).
    { unfold rectype. rewrite (first_part _ t _ _ H0 (num_len _ _)). apply signed_long. lia. }
    assert (Ek : keycount w (r ++ t) = Z.of_nat (length es)).
    { unfold keycount. rewrite (skip_part _ t _ _ 2 Hc (num_len _ _)). apply sx_num; [lia|]. change (2 ^ (8 * Z.of_nat 2 - 1)) with 32768. lia. }
    cbn [descend v_buf]. rewrite Er, Ek. cbn [Z.eqb Pos.eqb]. cbn [entries].
    destruct (Z.leb_spec (Z.of_nat (length es)) 0).
    + right. destruct es; [|cbn [List.length] in *; lia]. split; [intros v []|reflexivity].
    + rewrite Nat2Z.id. destruct (leaf_find w r t nd es 0 Hz R O HL) as [(v & A & B)|[A B]]; rewrite B; eauto.
  - destruct (readrec_record _ _ _ _ s HR) as (p & tl & E). rewrite E.
    assert (R : (length r <= 512)%nat) by (destruct HR as (_ & _ & L); lia).
    rewrite <- E6 in H0. rewrite <- E7 in Hc. cbn [ordered] in O. destruct O as [O1 O2].
    assert (Er : rectype w (r ++ tl) = fn).
    { unfold rectype. rewrite (first_part _ tl _ _ H0 (num_len _ _)). apply signed_long. lia. }
    assert (Ek : keycount w (r ++ tl) = Z.of_nat (kcount ks)).
    { unfold keycount. rewrite (skip_part _ tl _ _ 2 Hc (num_len _ _)). apply sx_num; [lia|]. change (2 ^ (8 * Z.of_nat 2 - 1)) with 32768. lia. }
    destruct (route w f rs r tl nd ks 0 t Hz R O2 HK) as (j & T & A1 & A2 & A3 & A4).
    cbn [descend v_buf]. rewrite Er, Ek.
    destruct (Z.eqb_spec fn (-1)); [lia|]. destruct (Z.ltb_spec (Z.of_nat (kcount ks)) 0); [lia|]. rewrite Nat2Z.id.
    rewrite A1. cbn [Nat.add].
    assert (X : exists m, 0 <= m < 2 ^ 31 /\ stored (laysel w) f rs m T /\ ordered T /\
      match j with O => Some fn | S j0 => do l <- getb (r ++ tl) (Z.of_nat (szhead w + j0 * szikey w + o_lower w)) (szlong w); Some (sx l) end = Some m).
    { destruct A2 as [[-> ->]|(j' & kn & -> & B1 & B2 & B3 & B4)].
      - exists fn. auto.
      - exists kn. split; [auto|]. split; [auto|]. split; [auto|]. cbn [Nat.add] in B1. rewrite <- E1, <- E2, <- E5, <- E6 in B1.
        rewrite (getb_part _ tl _ _ _ B1); [|destruct w; discriminate|apply num_len|exact R]. cbn [obind]. f_equal. apply signed_long. lia. }
    destruct X as (m & M1 & M2 & M3 & M4). rewrite M4.
    cbn [depth] in D. destruct (IH m T (V7S (r ++ tl) p) ltac:(lia) M2 M3) as (s' & Q).
    destruct (readrec f (Z.of_nat rs) m (V7S (r ++ tl) p)) as [s1 ok]. destruct Q as [-> Q].
    exists s'. split; [reflexivity|]. cbn [entries].
    destruct Q as [(v & Q1 & Q2)|[Q1 Q2]]; [left; exists v; split; [apply A4; exact Q1|exact Q2]|right; split; [|exact Q2]].
    intros v H'. apply A4 in H'. exact (Q1 _ H').
Qed.

Lemma findoffset_spec w f rs nd n tr s fuel : (rs <= 512)%nat -> zone nd <> 0 -> (depth tr <= fuel)%nat ->
  stored (laysel w) f rs n tr -> ordered tr ->
  exists s' r, v7p_findoffset w f (Z.of_nat rs) n nd fuel s = (s', r) /\
    ((exists v, In (nd, v) (entries tr) /\ r = VYes v) \/ (forall v, ~ In (nd, v) (entries tr)) /\ r = VNo).
Proof.
  intros H1 H2 H3 H4 H5. destruct (descend_spec w f rs nd H1 H2 fuel n tr s H3 H4 H5) as (s' & Q).
  unfold v7p_findoffset. destruct (readrec f (Z.of_nat rs) n s) as [s1 ok]. destruct Q as [-> Q].
  destruct Q as [(v & Q1 & Q2)|[Q1 Q2]]; exists s'; eexists; (split; [exact Q2|]); [left; eauto|right; auto].
Qed.

(** ** The data *)
Lemma v7char_code i a : nth_error v7chars i = Some a -> (i < 39)%nat /\ nth i v7table 0 = a.
Proof.
  intros H. assert (L : (i < length v7chars)%nat) by (apply nth_error_Some; congruence). change (length v7chars) with 39%nat in L.
  split; [exact L|]. unfold v7table. fold v7chars. rewrite app_nth1 by exact L. apply nth_error_nth with (d := 0) in H. exact H.
Qed.
Lemma unpack_packs t p : packs t p -> tame p -> v7p_unpack p = t.
Proof.
  induction 1 as [|a b c i j k t p Ha Hb Hc HP IH]; [reflexivity|].
  apply v7char_code in Ha as [Li Ha]. apply v7char_code in Hb as [Lj Hb]. apply v7char_code in Hc as [Lk Hc].
  set (x := 1600 * Z.of_nat i + 40 * Z.of_nat j + Z.of_nat k). cbn [num app tame]. intros [T1 T2].
  assert (Ex : u16 (schar (x mod 256) + schar (x / 256 mod 256) * 256) = x).
  { assert (Hx : 0 <= x < 65536) by (unfold x; lia). assert (x / 256 mod 256 = x / 256) by (apply Z.mod_small; zlia).
    unfold u16, schar. destruct (Z.ltb_spec (x mod 256) 128); [|lia]. rewrite H.
    assert (E0 := Z.div_mod x 256 ltac:(lia)).
    destruct (Z.ltb_spec (x / 256) 128).
    - rewrite Z.mod_small; zlia.
    - symmetry. apply Z.mod_unique with (-1); zlia. }
  cbn [v7p_unpack]. cbv zeta. rewrite Ex. rewrite IH by exact T2.
  assert (D1 : x / 40 = 40 * Z.of_nat i + Z.of_nat j) by (unfold x; zlia).
  assert (D0 : x mod 40 = Z.of_nat k) by (unfold x; zlia).
  assert (D2 : x / 40 mod 40 = Z.of_nat j) by (rewrite D1; zlia).
  assert (D3 : x / 40 / 40 mod 40 = Z.of_nat i) by (rewrite D1; zlia).
  rewrite D0, D2, D3, !Nat2Z.id, Ha, Hb, Hc. reflexivity.
Qed.
Lemma packs_len t p : packs t p -> (length p mod 2 = 0)%nat /\ (2 * length t = 3 * length p)%nat.
Proof.
  induction 1 as [|a b c i j k t p _ _ _ HP [IH1 IH2]]; [split; reflexivity|]. rewrite app_length, num_len. cbn [List.length].
  split; [|lia]. replace (2 + length p)%nat with (length p + 1 * 2)%nat by lia. rewrite Nat.mod_add by lia. exact IH1.
Qed.
Lemma hex_lower x z : hexnumber x z -> forallb isxdigit x = true /\ hextodec x = z.
Proof.
  intros (L & Hz & E). split.
  - pose proof (hex_fine 8 z) as F. rewrite <- E in F. rewrite Forall_map in F. rewrite forallb_forall. rewrite Forall_forall in F.
    intros c Hc. apply F in Hc. unfold isxdigit. destruct Hc as [Hc|Hc].
    + apply orb_true_iff. left. unfold isdigit, tolower in *. destruct ((65 <=? c) && (c <=? 90)) eqn:Q; lia.
    + apply orb_true_iff. right. lia.
  - assert (A : forall l v, hextodec_aux (map tolower l) v = hextodec_aux l v).
    { induction l as [|c l IH]; intros v; [reflexivity|]. cbn [map hextodec_aux]. rewrite hexval_lower. destruct (hexval c); auto. }
    unfold hextodec. rewrite <- A, E. rewrite <- (app_nil_r (hex 8 z)). unfold is_u32 in Hz.
    rewrite hextodec_hex by (change (16 ^ Z.of_nat 8) with 4294967296; lia). cbn [hextodec_aux]. change (16 ^ Z.of_nat 8) with 4294967296. lia.
Qed.
(** a number of which the bytes are taken as signed *)
Definition sword (z : Z) : Z := u32 (schar (z mod 256) + schar (z / 256 mod 256) * 256).
Lemma tame_word z : is_u16 z -> tame16 z -> sword z = z.
Proof.
  intros H [T1 T2]. unfold is_u16 in H. assert (z / 256 mod 256 = z / 256) by (apply Z.mod_small; zlia).
  unfold sword, u32, schar. rewrite H0. destruct (Z.ltb_spec (z mod 256) 128); [|lia]. destruct (Z.ltb_spec (z / 256) 128); [|zlia].
  rewrite Z.mod_small; zlia.
Qed.
Lemma schar_small n : (n < 128)%nat -> schar (Z.of_nat n) = Z.of_nat n.
Proof. intros H. unfold schar. destruct (Z.ltb_spec (Z.of_nat n) 128); lia. Qed.

Lemma unpack_len p : (length (v7p_unpack p) = 3 * (length p / 2))%nat.
Proof.
  assert (H : forall n p, (length p < 2 * n)%nat -> (length (v7p_unpack p) = 3 * (length p / 2))%nat).
  { induction n as [|n IH]; intros [|a [|b r]] Hl; cbn [List.length] in Hl; try lia; try reflexivity.
    cbn [v7p_unpack List.length]. cbv zeta. rewrite IH by lia.
    replace (S (S (length r))) with (length r + 1 * 2)%nat by lia. rewrite Nat.div_add by lia. lia. }
  apply (H (S (length p))). lia.
Qed.
Lemma gethub l off z hub region p : 0 <= off -> describes (v_dat l) (v_dtp l) off z hub region p ->
  exists s x, (s + length x <= length (v7p_unpack p))%nat /\ length x = 8%nat /\ hexnumber x z /\
    (exists names more, packs (names ++ x ++ more) p /\ length names = s) /\
    v7p_gethubregion l off = (if forallb isxdigit (firstn 8 (skipn s (v7p_unpack p)))
      then let j := firstn 4 (skipn (Z.to_nat (u32 (hextodec (firstn 8 (skipn s (v7p_unpack p)))))) (v_dtp l)) in
        if negb (Nat.eqb (length j) 4) then HNo
        else HYes (u32 (schar (nth 2 j 0) + schar (nth 3 j 0) * 256)) (u32 (schar (nth 0 j 0) + schar (nth 1 j 0) * 256))
      else HNo) /\
    part (v_dtp l) (Z.to_nat z) (num 2 region ++ num 2 hub).
Proof.
  intros Ho D. destruct D as [h phone pass bn sn cn x more Lh P N15 N16 N17 N18 N19 N20 L1 L2 L3 L4 L5 L6 PK HX PD Hr Hh].
  apply part_ne in P as [P0 P]. apply part_ne in P as [_ P]. apply part_ne in P as [_ P]. rewrite Lh in P.
  assert (Eh : firstn 22 (skipn (Z.to_nat off) (v_dat l)) = h) by (rewrite <- Lh; exact P0).
  destruct (packs_len _ _ PK) as [Pe Pl].
  unfold v7p_gethubregion. rewrite Eh, Lh. cbn [Nat.eqb negb]. cbv zeta.
  rewrite N15, N16, N17, N18, N19, N20, !schar_small by auto.
  destruct (Z.ltb_spec (Z.of_nat (length phone)) 0); [lia|]. destruct (Z.ltb_spec (Z.of_nat (length pass)) 0); [lia|].
  destruct (Z.ltb_spec (Z.of_nat (length p)) 0); [lia|].
  assert (Em : Z.of_nat (length p) mod 2 = 0) by (change 2 with (Z.of_nat 2); rewrite <- Nat2Z.inj_mod, Pe; reflexivity).
  rewrite Em. cbn [Z.eqb negb orb].
  rewrite Nat2Z.id. replace (Z.to_nat (off + 22 + Z.of_nat (length phone) + Z.of_nat (length pass)))
    with (Z.to_nat off + 22 + length phone + length pass)%nat by lia.
  unfold part in P. rewrite P, Z.eqb_refl. cbn [negb].
  assert (Lu := unpack_len p). destruct HX as (Lx & Hz & Ex).
  exists (length (bn ++ sn ++ cn)), x.
  rewrite (u32_id (_ + _ + _)) by (unfold is_u32; lia).
  rewrite !app_length in *. rewrite Lx in *.
  assert (Ld : length (v7p_unpack p) = (length bn + (length sn + (length cn + (8 + length more))))%nat).
  { pose proof (Nat.div_mod (length p) 2 ltac:(lia)). lia. }
  rewrite Ld. split; [lia|]. split; [auto|]. split; [split; [auto|split; auto]|]. split.
  { exists (bn ++ sn ++ cn), more. rewrite <- !app_assoc, !app_length. split; auto. }
  split; [|exact PD].
  rewrite u32_id by (unfold is_u32; lia).
  match goal with |- context [?a <? 8] => destruct (Z.ltb_spec a 8); [lia|] end.
  match goal with |- context [?a <? ?b] => destruct (Z.ltb_spec a b); [lia|] end.
  replace (Z.to_nat (Z.of_nat (length bn) + Z.of_nat (length sn) + Z.of_nat (length cn))) with (length bn + (length sn + length cn))%nat by lia.
  destruct (forallb isxdigit _); reflexivity.
Qed.
Lemma gethub_tame l off z hub region p : 0 <= off -> describes (v_dat l) (v_dtp l) off z hub region p -> tame p ->
  v7p_gethubregion l off = HYes (sword hub) (sword region).
Proof.
  intros Ho D T. destruct (gethub l off z hub region p Ho D) as (s & x & L & Lx & HX & (names & more & PK & Ln) & E & PD). rewrite E. clear E.
  rewrite (unpack_packs _ _ PK T). rewrite skipn_app. rewrite <- Ln, skipn_all, Nat.sub_diag. cbn [skipn app].
  assert (Ef : firstn 8 (x ++ more) = x).
  { rewrite firstn_app, Lx, Nat.sub_diag, firstn_all2 by lia. apply app_nil_r. }
  rewrite Ef. destruct (hex_lower x z HX) as [Q1 Q2]. rewrite Q1, Q2. rewrite u32_id by apply HX.
  unfold part in PD. rewrite app_length, !num_len in PD. cbn [Nat.add] in PD. cbv zeta. rewrite PD.
  cbn [num app List.length Nat.eqb negb nth]. reflexivity.
Qed.

(** a word with the characters 0, 0 and another one *)
Lemma unpack_zeros t p : packs t p -> forall k, nth (3 * k) t 0 = 48 -> nth (3 * k + 1) t 0 = 48 ->
  nth (3 * k + 1) (v7p_unpack p) 0 = 86 \/ nth (3 * k + 1) (v7p_unpack p) 0 = 74.
Proof.
  induction 1 as [|a b c i j m t p Ha Hb Hc HP IH]; intros k H1 H2; [destruct (3 * k)%nat; discriminate|].
  destruct k as [|k].
  - change (3 * 0)%nat with 0%nat in *. change (0 + 1)%nat with 1%nat in *. cbn [nth] in H1, H2. subst a b.
    assert (C : forall i, nth_error v7chars i = Some 48 -> i = 29%nat).
    { intros q Hq. apply v7char_code in Hq as [L Q]. do 39 (destruct q as [|q]; [try reflexivity; vm_compute in Q; discriminate|]). lia. }
    apply C in Ha, Hb. subst i j. apply v7char_code in Hc as [L _].
    cbn [num app v7p_unpack nth]. cbv zeta.
    do 39 (destruct m as [|m]; [vm_compute; auto|]). lia.
  - replace (3 * S k)%nat with (S (S (S (3 * k)))) in * by lia.
    cbn [num app v7p_unpack Nat.add]. cbv zeta.
    change (nth (S (S (S (3 * k)))) (a :: b :: c :: t) 0) with (nth (3 * k) t 0) in H1.
    change (nth (S (S (S (3 * k))) + 1) (a :: b :: c :: t) 0) with (nth (3 * k + 1) t 0) in H2.
    exact (IH k H1 H2).
Qed.
Lemma hex_small4 z : 0 <= z < 65536 -> hex 8 z = [48; 48; 48; 48] ++ hex 4 z.
Proof.
  intros H. cbn [hex app].
  assert (A : z / 16 / 16 / 16 / 16 = 0) by zlia. rewrite !A. reflexivity.
Qed.
Lemma lower48 c : tolower c = 48 -> c = 48.
Proof. unfold tolower. destruct ((65 <=? c) && (c <=? 90)) eqn:E; lia. Qed.
Lemma near_zeros x z : hexnumber x z -> z < 65536 -> exists y, x = 48 :: 48 :: 48 :: 48 :: y.
Proof.
  intros (L & Hz & E) H. rewrite hex_small4 in E by (unfold is_u32 in Hz; lia).
  destruct x as [|a [|b [|c [|d y]]]]; try discriminate. cbn [map app] in E. injection E as E1 E2 E3 E4 _.
  exists y. f_equal; [apply lower48; auto|]. f_equal; [apply lower48; auto|]. f_equal; [apply lower48; auto|]. f_equal. apply lower48; auto.
Qed.
Lemma nth_app {A} (d : A) (a b : list A) i : nth (length a + i) (a ++ b) d = nth i b d.
Proof. rewrite app_nth2 by lia. f_equal. lia. Qed.
Lemma nth_first {A} (d : A) n (l : list A) i : (i < n)%nat -> nth i (firstn n l) d = nth i l d.
Proof. revert l i. induction n; intros [|x l] [|i] H; try lia; auto. cbn. apply IHn. lia. Qed.
Lemma nth_skip {A} (d : A) n (l : list A) i : nth i (skipn n l) d = nth (n + i) l d.
Proof. revert l. induction n; intros [|x l]; auto; [destruct i; reflexivity|]. cbn. apply IHn. Qed.

Lemma gethub_near l off z hub region p : 0 <= off -> describes (v_dat l) (v_dtp l) off z hub region p -> z < 65536 ->
  v7p_gethubregion l off = HNo.
Proof.
  intros Ho D Hz. destruct (gethub l off z hub region p Ho D) as (s & x & L & Lx & HX & (names & more & PK & Ln) & E & PD). rewrite E. clear E.
  destruct (near_zeros x z HX Hz) as (y & Ey).
  assert (X : exists i, (i < 8)%nat /\ (nth (s + i) (v7p_unpack p) 0 = 86 \/ nth (s + i) (v7p_unpack p) 0 = 74)).
  { assert (Y : forall i, (i < 4)%nat -> nth (s + i) (names ++ x ++ more) 0 = 48).
    { intros i Hi. rewrite <- Ln, nth_app, Ey. destruct i as [|[|[|[|i]]]]; cbn; auto. lia. }
    assert (M := Nat.div_mod s 3 ltac:(lia)). assert (B := Nat.mod_upper_bound s 3 ltac:(lia)).
    set (q := (s / 3)%nat) in *. set (m := (s mod 3)%nat) in *. clearbody q m.
    assert (G : exists k i, (i < 3)%nat /\ (s + i = 3 * k)%nat).
    { destruct m as [|[|[|m]]]; [exists q, 0%nat|exists (S q), 2%nat|exists (S q), 1%nat|]; lia. }
    destruct G as (k & i & Hi & Ek). exists (i + 1)%nat. split; [lia|]. rewrite Nat.add_assoc, Ek.
    apply (unpack_zeros _ _ PK); [rewrite <- Ek; apply Y; lia|]. rewrite <- Ek, <- Nat.add_assoc. apply Y. lia. }
  destruct X as (i & Hi & Hc).
  assert (F : forallb isxdigit (firstn 8 (skipn s (v7p_unpack p))) = false).
  { apply not_true_is_false. intros F. rewrite forallb_forall in F.
    assert (I : In (nth i (firstn 8 (skipn s (v7p_unpack p))) 0) (firstn 8 (skipn s (v7p_unpack p)))).
    { apply nth_In. rewrite firstn_length, skipn_length. lia. }
    apply F in I. rewrite nth_first, nth_skip in I by lia. destruct Hc as [Hc|Hc]; rewrite Hc in I; discriminate. }
  rewrite F. reflexivity.
Qed.

Scheme stored_mind := Minimality for stored Sort Prop with kstored_mind := Minimality for kstored Sort Prop.
Lemma leafat_nonneg y r es : forall i, leafat y r i es -> forall n v, In (n, v) es -> 0 <= v.
Proof.
  induction es as [|[k x] es IH]; intros i HL n v; [intros []|].
  cbn [leafat] in HL. destruct HL as (_ & Hx & _ & HL). intros [[= -> ->]|H]; [apply Hx|eapply IH; eauto].
Qed.
Lemma stored_nonneg y f rs m t : stored y f rs m t -> forall n v, In (n, v) (entries t) -> 0 <= v.
Proof.
  apply (stored_mind y f rs (fun _ t => forall n v, In (n, v) (entries t) -> 0 <= v) (fun _ _ ks => forall n v, In (n, v) (kentries ks) -> 0 <= v)).
  - intros n r es _ _ _ _ HL. cbn [entries]. eapply leafat_nonneg; eauto.
  - intros n r fn t0 ks _ _ _ _ _ _ IH1 _ IH2 a v. cbn [entries]. rewrite in_app_iff. intros [H|H]; eauto.
  - intros r i a v [].
  - intros r i k t0 m0 kn _ _ _ _ IH1 _ IH2 a v. cbn [kentries]. rewrite in_app_iff. intros [H|H]; eauto.
Qed.
