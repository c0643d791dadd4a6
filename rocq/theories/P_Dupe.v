(** Lemmas about the duplicate database. *)
From Verif Require Import Base M_Fs P_Fs M_Crc P_Crc M_Mem M_Dupe S_Dupe.

Lemma lastn_all {A} n (l : list A) : (length l <= n)%nat -> lastn n l = l.
Proof. intros H. unfold lastn. replace (length l - n)%nat with O by lia. reflexivity. Qed.
Lemma lastn_drop {A} n (p q : list A) : (n <= length q)%nat -> lastn n (p ++ q) = lastn n q.
Proof.
  intros H. unfold lastn. rewrite app_length, skipn_app. rewrite skipn_all2 by lia. cbn [app]. f_equal. lia.
Qed.
Lemma lastn_app {A} n (a b : list A) : lastn n (lastn n a ++ b) = lastn n (a ++ b).
Proof.
  destruct (Nat.le_gt_cases (length a) n) as [H|H]; [rewrite (lastn_all n a) by auto; reflexivity|].
  symmetry. rewrite <- (firstn_skipn (length a - n) a) at 1. rewrite <- app_assoc. rewrite lastn_drop; [reflexivity|].
  rewrite app_length, skipn_length. lia.
Qed.
Lemma lastn_length {A} n (l : list A) : length (lastn n l) = Nat.min n (length l).
Proof. unfold lastn. rewrite skipn_length. lia. Qed.
Lemma lastn_map {A B} (f : A -> B) n l : lastn n (map f l) = map f (lastn n l).
Proof. unfold lastn. rewrite map_length. apply skipn_map. Qed.
Lemma lastn_incl {A} n (l : list A) : incl (lastn n l) l.
Proof. intros x Hx. unfold lastn in Hx. rewrite <- (firstn_skipn (length l - n) l). apply in_or_app; auto. Qed.

Lemma skipn1 {A} (x : A) l : skipn 1 (x :: l) = l.
Proof. reflexivity. Qed.
(** ** The ring *)
Definition order (ix : list (Z * Z)) (num : nat) := skipn num ix ++ firstn num ix.
Definition ringok (N : nat) (ix : list (Z * Z)) (num : nat) : Prop :=
  (num < N)%nat /\ (num <= length ix <= N)%nat /\ ((length ix < N)%nat -> num = length ix).
Lemma ring_add N ix num off crc : ringok N ix num -> exists ix' num',
  adddupeindex N ix num off crc = Some (ix', num') /\ ringok N ix' num' /\
  order ix' num' = lastn N (order ix num ++ [(off, crc)]).
Proof.
  intros (H1 & [H2 H3] & H4). unfold adddupeindex. destruct (Nat.ltb_spec num N); [|lia].
  destruct (Nat.ltb_spec num (length ix)) as [Hl|Hl].
  - assert (length ix = N) by (destruct (Nat.eq_dec (length ix) N); auto; lia).
    assert (Hlen : length (firstn num ix ++ (off, crc) :: skipn (S num) ix) = N).
    { rewrite app_length, firstn_length. cbn [length]. rewrite skipn_length. lia. }
    assert (Hs : skipn num ix = nth num ix (0, 0) :: skipn (S num) ix).
    { clear -Hl. revert ix Hl; induction num as [|n IH]; intros [|x ix] Hl; cbn [length] in Hl; try lia; [reflexivity|]. cbn. rewrite IH by lia. reflexivity. }
    do 2 eexists. split; [reflexivity|]. unfold order at 2. rewrite Hs. unfold lastn. rewrite !app_length. cbn [length app].
    rewrite skipn_length, firstn_length, Nat.min_l by lia. replace (S (length ix - S num) + num + 1 - N)%nat with 1%nat by lia.
    rewrite skipn1. destruct (Nat.eqb_spec (S num) N) as [E|E].
    + split; [repeat split; rewrite ?Hlen; lia|]. unfold order. rewrite skipn_O, firstn_O, app_nil_r.
      rewrite (skipn_all2 (n := S num)) by lia. rewrite app_nil_l. reflexivity.
    + split; [repeat split; rewrite ?Hlen; lia|]. unfold order.
      rewrite skipn_app, firstn_length, Nat.min_l by lia. rewrite (skipn_all2 (n := S num)) by (rewrite firstn_length; lia).
      replace (S num - num)%nat with 1%nat by lia. rewrite skipn1, app_nil_l.
      rewrite firstn_app, firstn_length, Nat.min_l by lia. replace (S num - num)%nat with 1%nat by lia.
      rewrite (firstn_all2 (firstn num ix)) by (rewrite firstn_length; lia). rewrite firstn_cons, firstn_O. rewrite <- app_assoc. reflexivity.
  - assert (num = length ix) by lia. subst num.
    do 2 eexists. split; [reflexivity|]. unfold order at 2. rewrite skipn_all, firstn_all. cbn [app].
    rewrite lastn_all by (rewrite app_length; cbn [length]; lia).
    destruct (Nat.eqb_spec (S (length ix)) N) as [E|E].
    + split; [repeat split; rewrite ?app_length; cbn [length]; lia|]. unfold order. rewrite skipn_O, firstn_O, app_nil_r. reflexivity.
    + split; [repeat split; rewrite ?app_length; cbn [length]; lia|]. unfold order.
      replace (S (length ix)) with (length (ix ++ [(off, crc)])) by (rewrite app_length; cbn [length]; lia).
      rewrite skipn_all, firstn_all. reflexivity.
Qed.

(** ** Records *)
Lemma get16_le n r : is_u16 n -> get16 (le16 n ++ r) 0 = n.
Proof. unfold is_u16, le16, get16. cbn [app nth]. intros. zlia. Qed.
Lemma get32_le n r : is_u32 n -> get32 (le32 n ++ r) 0 = n.
Proof. unfold is_u32, le32, get32. cbn [app nth]. intros. zlia. Qed.

Definition crcof (k : dkey) : Z := match calcstringcrc (fst k) with Some c => c | None => 0 end.
Definition rec (k : dkey) : list Z := le32 (crcof k) ++ fst k ++ [0] ++ snd k ++ [0].
Definition frec (r : list Z) : list Z := le16 (Z.of_nat (length r)) ++ r.
Lemma rec_length k : length (rec k) = (6 + length (fst k) + length (snd k))%nat.
Proof. unfold rec, le32. rewrite !app_length. cbn [length]. lia. Qed.
Lemma rec_bound k : dkey_ok k -> (6 <= length (rec k) <= 164)%nat.
Proof. intros (_ & H1 & _ & H2). rewrite rec_length. lia. Qed.
Lemma duperec_ok k : dkey_ok k -> duperec (fst k) (snd k) = Some (crcof k, rec k) /\ is_u32 (crcof k).
Proof.
  intros H. pose proof (rec_bound k H) as Hb. destruct H as (H1 & H2 & H3 & H4). unfold duperec, rec, crcof in *.
  destruct (calcstringcrc_ok _ H1) as (v & E & Hv). rewrite E in *. cbn [obind].
  destruct (Nat.ltb_spec 300 (length (le32 v ++ fst k ++ [0] ++ snd k ++ [0]))); [lia|]. auto.
Qed.
Lemma nul_split a b x y : ~ In 0 a -> ~ In 0 b -> a ++ 0 :: x = b ++ 0 :: y -> a = b /\ x = y.
Proof.
  revert b; induction a as [|c a IH]; intros [|d b] Ha Hb E; cbn [app] in E; inversion E; subst; auto.
  - exfalso. apply Hb. left; auto.
  - exfalso. apply Ha. left; auto.
  - destruct (IH b) as [-> ->]; auto; intros Hx; [apply Ha|apply Hb]; right; auto.
Qed.
Lemma nonul l m : Forall (fun c => 1 <= c < m) l -> ~ In 0 l.
Proof. intros H Hx. rewrite Forall_forall in H. apply H in Hx. lia. Qed.
Lemma rec_inj k k' : dkey_ok k -> dkey_ok k' -> rec k = rec k' -> k = k'.
Proof.
  intros (H1 & _ & H2 & _) (H3 & _ & H4 & _) E. unfold rec, le32 in E. cbn [app] in E. injection E as _ _ _ _ E.
  apply nul_split in E as [E1 E2]; eauto using nonul.
  apply nul_split in E2 as [E2 _]; eauto using nonul. destruct k, k'; cbn in *; congruence.
Qed.

Lemma readrec_at pre r rest : (length r <= 300)%nat -> readrec (pre ++ frec r ++ rest) (Z.of_nat (length pre)) = Some (Z.of_nat (length r), r).
Proof.
  intros Hl. unfold readrec. rewrite Nat2Z.id, skipn_app, Nat.sub_diag, skipn_O, skipn_all. cbn [app].
  unfold frec. rewrite <- app_assoc. rewrite get16_le by (unfold is_u16; lia).
  change (Nat.ltb (length (firstn 2 (le16 (Z.of_nat (length r)) ++ r ++ rest))) 2) with false. cbv iota zeta.
  change (skipn 2 (le16 (Z.of_nat (length r)) ++ r ++ rest)) with (r ++ rest).
  rewrite Nat2Z.id, firstn_app, Nat.sub_diag, firstn_O, app_nil_r, firstn_all, Nat.ltb_irrefl. reflexivity.
Qed.

Definition entry_ok (file : list Z) (e : Z * Z) (k : dkey) : Prop := exists pre rest,
  file = pre ++ frec (rec k) ++ rest /\ e = (Z.of_nat (length pre), crcof k).
Lemma entry_ok_app file t e k : entry_ok file e k -> entry_ok (file ++ t) e k.
Proof. intros (pre & rest & -> & E). exists pre, (rest ++ t). rewrite <- !app_assoc. auto. Qed.

Lemma dupehit_ok file e k k' : dkey_ok k -> dkey_ok k' -> entry_ok file e k' ->
  dupehit file (crcof k) (rec k) e = true <-> k = k'.
Proof.
  intros Hk Hk' (pre & rest & -> & ->). unfold dupehit. cbn [fst snd].
  rewrite readrec_at by (pose proof (rec_bound _ Hk'); lia). rewrite !andb_true_iff, !Z.eqb_eq, streq_eq. split.
  - intros (_ & _ & E). symmetry. apply rec_inj; auto.
  - intros ->. auto.
Qed.
Lemma keyin_In k w : keyin k w = true <-> In k w.
Proof.
  unfold keyin. rewrite existsb_exists. split.
  - intros (x & Hx & E). apply andb_true_iff in E as [E1 E2]. apply streq_eq in E1, E2. destruct k, x; cbn in *; subst; auto.
  - intros H. exists k. rewrite !streq_refl. auto.
Qed.

(** ** Reading the index *)
Lemma firstn_exact {A} (a b : list A) n : length a = n -> firstn n (a ++ b) = a.
Proof. intros <-. rewrite firstn_app, Nat.sub_diag, firstn_O, app_nil_r, firstn_all. reflexivity. Qed.
Lemma skipn_exact {A} (a b : list A) n : length a = n -> skipn n (a ++ b) = b.
Proof. intros <-. rewrite skipn_app, Nat.sub_diag, skipn_O, skipn_all. reflexivity. Qed.
Lemma readindex_eq N fuel off buf r s ix num : wfrec r ->
  readindex (S fuel) N off buf (frec r ++ s) ix num =
  match adddupeindex N ix num off (get32 (r ++ skipn (length r) buf) 0) with
  | None => Some None
  | Some (ix', num') => readindex fuel N (u32 (off + Z.of_nat (length r) + 2)) (r ++ skipn (length r) buf) s ix' num'
  end.
Proof.
  intros Hr. unfold wfrec in Hr. unfold frec, le16. cbn [app readindex].
  assert (E : Z.of_nat (length r) mod 256 + 256 * ((Z.of_nat (length r) / 256) mod 256) = Z.of_nat (length r)) by zlia.
  rewrite E, Nat2Z.id.
  destruct (Z.eqb_spec (Z.of_nat (length r)) 0); [lia|]. destruct (Z.ltb_spec 300 (Z.of_nat (length r))); [lia|]. cbn [orb].
  destruct (Nat.ltb_spec (length (r ++ s)) (length r)) as [Hx|_]; [rewrite app_length in Hx; lia|].
  rewrite firstn_exact, skipn_exact by auto. reflexivity.
Qed.
Fixpoint entriesof (off : Z) (buf : list Z) (rs : list (list Z)) : list (Z * Z) :=
  match rs with
  | [] => []
  | r :: rr => let buf' := r ++ skipn (length r) buf in
               (off, get32 buf' 0) :: entriesof (u32 (off + Z.of_nat (length r) + 2)) buf' rr
  end.
Lemma recfile_cons r rs : recfile (r :: rs) = frec r ++ recfile rs.
Proof. reflexivity. Qed.
Lemma readindex_rs N rs t : Forall wfrec rs -> (length t <= 1)%nat -> forall fuel off buf ix num, (length rs < fuel)%nat -> ringok N ix num ->
  exists ix' num', readindex fuel N off buf (recfile rs ++ t) ix num = Some (Some (ix', num')) /\ ringok N ix' num' /\
    order ix' num' = lastn N (order ix num ++ entriesof off buf rs).
Proof.
  intros H Ht. induction H as [|r rs Hr H IH]; intros fuel off buf ix num Hf Hring; (destruct fuel as [|fuel]; [cbn in Hf; lia|]).
  - cbn [recfile map concat app]. exists ix, num. split; [destruct t as [|a [|b t]]; cbn [length] in Ht; try lia; reflexivity|]. split; auto.
    cbn [entriesof]. rewrite app_nil_r. symmetry. apply lastn_all. destruct Hring as (_ & H1 & _). unfold order.
    rewrite app_length, skipn_length, firstn_length. lia.
  - rewrite recfile_cons, <- app_assoc, readindex_eq by auto.
    destruct (ring_add N ix num off (get32 (r ++ skipn (length r) buf) 0) Hring) as (ix1 & num1 & -> & H1 & E1).
    destruct (IH fuel (u32 (off + Z.of_nat (length r) + 2)) (r ++ skipn (length r) buf) ix1 num1) as (ix2 & num2 & E2 & H2 & E3); [cbn [length] in Hf; lia|auto|].
    exists ix2, num2. split; auto. split; auto. rewrite E3, E1, lastn_app, <- app_assoc. reflexivity.
Qed.
(** what a file that is not rejected looks like *)
Lemma readindex_wf N fuel : forall off buf s ix num r, (length s < fuel)%nat -> bytes s -> 
  readindex fuel N off buf s ix num = Some (Some r) -> exists rs t, s = recfile rs ++ t /\ Forall wfrec rs /\ (length t <= 1)%nat.
Proof.
  induction fuel as [|fuel IH]; intros off buf s ix num r Hf Hb; cbn [readindex]; [discriminate|].
  destruct s as [|a [|b s]]; [intros _; exists [], []; auto|intros _; exists [], [a]; cbn; auto|].
  inversion Hb as [|? ? Ha Hb1]; subst. inversion Hb1 as [|? ? Hbb Hb2]; subst. unfold is_u8 in Ha, Hbb.
  destruct (Z.eqb_spec (a + 256 * b) 0) as [|Hn0]; [discriminate|]. destruct (Z.ltb_spec 300 (a + 256 * b)) as [|H300]; [discriminate|]. cbn [orb].
  destruct (Nat.ltb_spec (length s) (Z.to_nat (a + 256 * b))) as [|Hs]; [discriminate|].
  destruct (adddupeindex _ _ _ _ _) as [[ix' num']|]; [|discriminate]. intros E.
  apply IH in E as (rs & t & E & H1 & H2).
  - exists (firstn (Z.to_nat (a + 256 * b)) s :: rs), t. rewrite recfile_cons, <- app_assoc, <- E.
    assert (Hl : length (firstn (Z.to_nat (a + 256 * b)) s) = Z.to_nat (a + 256 * b)) by (rewrite firstn_length; lia).
    split; [|split; auto].
    + unfold frec. rewrite Hl. unfold le16. cbn [app]. rewrite firstn_skipn. f_equal; [zlia|f_equal; zlia].
    + constructor; auto. unfold wfrec. lia.
  - rewrite skipn_length. cbn [length] in Hf. lia.
  - unfold bytes in *. rewrite <- (firstn_skipn (Z.to_nat (a + 256 * b)) s) in Hb2. apply Forall_app in Hb2. tauto.
Qed.

(** ** The invariant *)
Lemma recfile_app a b : recfile (a ++ b) = recfile a ++ recfile b.
Proof. unfold recfile. rewrite map_app, concat_app. reflexivity. Qed.
Lemma frec_length r : length (frec r) = (2 + length r)%nat.
Proof. reflexivity. Qed.

(** index entries of a file of good records *)
Lemma entriesof_ok ks : Forall dkey_ok ks -> forall pre file buf, file = pre ++ recfile (map rec ks) -> Z.of_nat (length file) < 4294967296 ->
  Forall2 (entry_ok file) (entriesof (Z.of_nat (length pre)) buf (map rec ks)) ks.
Proof.
  induction 1 as [|k ks Hk Hks IH]; intros pre file buf E Hl; cbn [map entriesof]; constructor.
  - cbn [map] in E. rewrite recfile_cons in E. exists pre, (recfile (map rec ks)). split; auto. f_equal.
    unfold rec at 1. rewrite <- app_assoc. apply get32_le. apply duperec_ok; auto.
  - cbn [map] in E. rewrite recfile_cons in E.
    assert (El : length file = (length pre + (2 + length (rec k) + length (recfile (map rec ks))))%nat) by (rewrite E, !app_length, frec_length; lia).
    replace (u32 (Z.of_nat (length pre) + Z.of_nat (length (rec k)) + 2)) with (Z.of_nat (length (pre ++ frec (rec k)))).
    + apply IH; auto. rewrite E, <- app_assoc. reflexivity.
    + rewrite app_length, frec_length, u32_id by (unfold is_u32; lia). lia.
Qed.
Lemma Forall2_len {A B} (R : A -> B -> Prop) a b : Forall2 R a b -> length a = length b.
Proof. induction 1; cbn; auto. Qed.
Lemma Forall2_imp {A B} (R S : A -> B -> Prop) : (forall a b, R a b -> S a b) -> forall l m, Forall2 R l m -> Forall2 S l m.
Proof. intros H. induction 1; auto. Qed.
Lemma Forall2_lastn {A B} (R : A -> B -> Prop) n a b : Forall2 R a b -> Forall2 R (lastn n a) (lastn n b).
Proof.
  intros H. unfold lastn. rewrite (Forall2_len _ _ _ H). generalize (length b - n)%nat as m. clear n.
  intros m. revert m. induction H as [|x y a b Hx H IH]; intros [|m]; cbn [skipn]; auto.
Qed.

Definition dinv (N : nat) (m : nat) (w : list dkey) (db : dupedb) : Prop := exists all,
  d_file db = DUPEID ++ recfile (map rec all) /\ w = lastn N all /\ Forall dkey_ok all /\ (length all <= m)%nat /\ 
    ringok N (d_ix db) (d_num db) /\ Forall2 (entry_ok (d_file db)) (order (d_ix db) (d_num db)) w.

Definition MAXOPS : Z := 16777216.
Lemma recfile_bound all : Forall dkey_ok all -> Z.of_nat (length (DUPEID ++ recfile (map rec all))) <= 4 + 166 * Z.of_nat (length all).
Proof.
  intros H. rewrite app_length. change (length DUPEID) with 4%nat. induction H as [|k all Hk H IH]; cbn [map length]; [cbn; lia|].
  rewrite recfile_cons, app_length, frec_length. pose proof (rec_bound _ Hk). lia.
Qed.

Lemma open_inv N m all : (1 <= N)%nat -> Forall dkey_ok all -> (length all <= m)%nat -> Z.of_nat m < MAXOPS ->
  exists db, OpenDupeDB N (DUPEID ++ recfile (map rec all)) = Some (Some db) /\ dinv N m (lastn N all) db /\ d_changed db = false.
Proof.
  intros HN Hall Hm HM. pose proof (recfile_bound all Hall) as Hb. unfold MAXOPS in HM.
  set (file := DUPEID ++ recfile (map rec all)) in *.
  assert (Hw : Forall wfrec (map rec all)).
  { apply Forall_map. eapply Forall_impl; [|exact Hall]. intros k Hk. pose proof (rec_bound k Hk). unfold wfrec. lia. }
  assert (Hlf : (length (map rec all) < S (length file))%nat).
  { clear -Hall. unfold file. rewrite app_length. induction Hall as [|k all Hk H IH]; [cbn; lia|]. cbn [map length] in *. rewrite recfile_cons, app_length, frec_length. lia. }
  destruct (readindex_rs N (map rec all) [] Hw ltac:(cbn; lia) (S (length file)) 4 (DUPEID ++ [0]) [] 0 Hlf) as (ix & num & E & Hr & Eo).
  { repeat split; cbn; lia. }
  rewrite app_nil_r in E. exists (DB ix num file false). split; [|split; [|reflexivity]].
  - unfold OpenDupeDB. change file with (67 :: 68 :: 85 :: 50 :: recfile (map rec all)) at 1. cbv iota.
    replace (firstn 4 file) with DUPEID by reflexivity. rewrite streq_refl. replace (skipn 4 file) with (recfile (map rec all)) by reflexivity.
    rewrite E. reflexivity.
  - exists all. cbn [d_file d_ix d_num]. split; auto. split; auto. split; auto. split; auto. split; auto. rewrite Eo. cbn [order skipn firstn app].
    apply Forall2_lastn. change 4 with (Z.of_nat (length DUPEID)). apply entriesof_ok; auto. lia.
Qed.

Lemma Forall2_order_in {A} (R : Z * Z -> A -> Prop) ix num w : Forall2 R (order ix num) w ->
  (forall e, In e ix -> exists k, In k w /\ R e k) /\ (forall k, In k w -> exists e, In e ix /\ R e k).
Proof.
  intros H. assert (Hi : forall e, In e ix <-> In e (order ix num)).
  { intros e. unfold order. rewrite <- (firstn_skipn num ix) at 1. rewrite !in_app_iff. tauto. }
  split.
  - intros e He. apply Hi in He. clear Hi. induction H as [|x y a b Hx H IH]; [destruct He|].
    destruct He as [->|He]; [exists y; cbn; auto|]. destruct IH as (k & H1 & H2); auto. exists k. cbn. auto.
  - intros k Hk. assert (exists e, In e (order ix num) /\ R e k) as (e & H1 & H2); [|exists e; rewrite Hi; auto]. clear Hi.
    induction H as [|x y a b Hx H IH]; [destruct Hk|]. destruct Hk as [->|Hk]; [exists x; cbn; auto|].
    destruct IH as (e & H1 & H2); auto. exists e. cbn. auto.
Qed.

Lemma check_inv N m w db k : (1 <= N)%nat -> dinv N m w db -> dkey_ok k -> fst k <> [] -> Z.of_nat (S m) < MAXOPS ->
  exists db', CheckDupe N db (fst k) (snd k) = Some (keyin k w, db') /\ 
    dinv N (S m) (if keyin k w then w else lastn N (w ++ [k])) db'.
Proof.
  intros HN (all & Ef & -> & Hall & Hm & Hr & H2) Hk Hne HM. unfold MAXOPS in HM. unfold CheckDupe.
  destruct (fst k) as [|x y] eqn:Ek; [contradiction|]. rewrite <- Ek. clear Ek x y Hne.
  destruct (duperec_ok k Hk) as [-> Hc]. cbn [obind].
  destruct (Forall2_order_in _ _ _ _ H2) as [Hin1 Hin2].
  assert (Hwok : forall k', In k' (lastn N all) -> dkey_ok k').
  { intros k' Hk'. apply lastn_incl in Hk'. rewrite Forall_forall in Hall. auto. }
  assert (Ehit : existsb (dupehit (d_file db) (crcof k) (rec k)) (d_ix db) = keyin k (lastn N all)).
  { apply Bool.eq_true_iff_eq. rewrite existsb_exists, keyin_In. split.
    - intros (e & He & Hh). destruct (Hin1 e He) as (k' & Hk' & Hok). apply (dupehit_ok _ _ _ k') in Hh; auto. subst; auto.
    - intros Hkw. destruct (Hin2 k Hkw) as (e & He & Hok). exists e. split; auto. apply (dupehit_ok _ _ _ k); auto. }
  rewrite Ehit. destruct (keyin k (lastn N all)) eqn:Ein.
  - exists db. split; auto. exists all. split; auto.
  - unfold AddDupeBuf. pose proof (recfile_bound all Hall) as Hb. rewrite <- Ef in Hb.
    rewrite u32_id by (unfold is_u32; lia). unfold rec at 1. rewrite get32_le by auto.
    destruct (ring_add N (d_ix db) (d_num db) (Z.of_nat (length (d_file db))) (crcof k) Hr) as (ix' & num' & -> & Hr' & Eo).
    cbn [obind fst snd]. eexists. split; [reflexivity|]. exists (all ++ [k]). cbn [d_file d_ix d_num].
    assert (Efile : d_file db ++ le16 (Z.of_nat (length (rec k))) ++ rec k = DUPEID ++ recfile (map rec (all ++ [k]))).
    { rewrite Ef, map_app, recfile_app, <- app_assoc. f_equal. f_equal. cbn [map]. rewrite recfile_cons. unfold frec. cbn [recfile map concat]. rewrite app_nil_r. reflexivity. }
    rewrite Efile. split; auto. split; [apply lastn_app|]. split; [apply Forall_app; auto|]. split; [rewrite app_length; cbn [length]; lia|]. split; auto.
    rewrite Eo. rewrite <- Efile. apply Forall2_lastn. apply Forall2_app.
    + eapply Forall2_imp; [|exact H2]. intros e k' Hek. apply entry_ok_app; auto.
    + constructor; [|constructor]. exists (d_file db), []. rewrite app_nil_r. auto.
Qed.

(** closing writes the window *)
Lemma copyall_app ix file a b : copyall ix file (a ++ b) = do x <- copyall ix file a; do y <- copyall ix file b; Some (x ++ y).
Proof.
  induction a as [|c a IH]; cbn [copyall app obind].
  - destruct (copyall ix file b); reflexivity.
  - destruct (copydupe ix file c) as [x|]; auto. cbn [obind]. rewrite IH. destruct (copyall ix file a); cbn [obind]; auto.
    destruct (copyall ix file b); cbn [obind]; auto. rewrite app_assoc. reflexivity.
Qed.
Lemma copyall_ok ix file (n : nat) : Z.of_nat n <= 65536 -> forall es ks s, Forall2 (entry_ok file) es ks -> Forall dkey_ok ks ->
  (forall i, (i < length es)%nat -> nth_error ix (s + i) = nth_error es i) -> (s + length es <= n)%nat ->
  copyall ix file (seq s (length es)) = Some (recfile (map rec ks)).
Proof.
  intros Hn es ks s H. revert s. induction H as [|e k es ks He H IH]; intros s Hok Hnth Hs; [reflexivity|].
  inversion Hok as [|? ? Hk Hok']; subst. cbn [length seq copyall]. unfold copydupe. rewrite u16_id by (unfold is_u16; cbn [length] in Hs; lia). rewrite Nat2Z.id.
  pose proof (Hnth O ltac:(cbn; lia)) as H0. rewrite Nat.add_0_r in H0. rewrite H0. cbn [nth_error].
  destruct He as (pre & rest & Ef & ->). rewrite Ef at 1. pose proof (rec_bound _ Hk) as Hb. rewrite readrec_at by lia.
  destruct (Z.ltb_spec 300 (Z.of_nat (length (rec k)))); [lia|]. cbn [obind].
  rewrite (IH (S s)); [|exact Hok'|intros i Hi; specialize (Hnth (S i) ltac:(cbn [length]; lia)); cbn [nth_error] in Hnth; rewrite <- Hnth; f_equal; lia|cbn [length] in Hs; lia].
  reflexivity.
Qed.
Lemma Forall2_split {A B} (R : A -> B -> Prop) a b w : Forall2 R (a ++ b) w -> exists u v, w = u ++ v /\ Forall2 R a u /\ Forall2 R b v.
Proof. intros H. apply Forall2_app_inv_l in H as (u & v & H1 & H2 & ->). eauto. Qed.
Lemma nth_error_skipn {A} s (l : list A) i : nth_error l (s + i) = nth_error (skipn s l) i.
Proof. revert l; induction s as [|s IH]; intros [|x l]; cbn; auto. destruct i; auto. Qed.
Lemma nth_error_firstn {A} s (l : list A) i : (i < s)%nat -> nth_error l i = nth_error (firstn s l) i.
Proof. revert l i; induction s as [|s IH]; intros [|x l] [|i] H; cbn; auto; try lia. apply IH. lia. Qed.
Lemma newfile_ok N m w db : Z.of_nat N <= 65536 -> dinv N m w db -> newdupefile db = Some (DUPEID ++ recfile (map rec w)).
Proof.
  intros HN (all & Ef & -> & Hall & Hm & (H1 & [H3 H4] & H5) & H2). unfold newdupefile, order in *.
  apply Forall2_split in H2 as (u & v & Ew & Hu & Hv).
  assert (Hok : Forall dkey_ok (lastn N all)).
  { apply Forall_forall. intros k Hk. apply lastn_incl in Hk. rewrite Forall_forall in Hall. auto. }
  rewrite Ew in Hok. apply Forall_app in Hok as [Hok1 Hok2].
  pose proof (copyall_ok (d_ix db) (d_file db) N HN (skipn (d_num db) (d_ix db)) u (d_num db) Hu Hok1) as E1.
  rewrite skipn_length in E1. rewrite E1; [|intros; apply nth_error_skipn|lia]. cbn [obind].
  pose proof (copyall_ok (d_ix db) (d_file db) N HN (firstn (d_num db) (d_ix db)) v 0 Hv Hok2) as E2.
  rewrite firstn_length, Nat.min_l in E2 by lia. rewrite E2; [|intros i Hi; rewrite Nat.add_0_l; apply nth_error_firstn; lia|lia]. cbn [obind].
  rewrite Ew, map_app, recfile_app. reflexivity.
Qed.

Lemma drun_ok N : (1 <= N)%nat -> forall ops m w ans db, dinv N m w db -> Forall dop_ok ops -> (Z.of_nat N <= 65536 \/ ~ In Restart ops) ->
  Z.of_nat (m + length ops) < MAXOPS ->
  exists db', drun N (db, ans) ops = Some (db', snd (fold_left (dspec N) ops (w, ans))) /\ 
    dinv N (m + length ops) (fst (fold_left (dspec N) ops (w, ans))) db'.
Proof.
  intros HN. induction ops as [|op ops IH]; intros m w ans db Hi Hok HR HM.
  - exists db. cbn [length]. rewrite Nat.add_0_r. auto.
  - inversion Hok as [|? ? Ho Hok']; subst. cbn [length] in *. cbn [drun fold_left].
    assert (Hmono : forall w db, dinv N m w db -> dinv N (S m) w db).
    { intros w0 db0 (all & E1 & E2 & E3 & E4 & E5 & E6). exists all. split; auto. }
    assert (Hstep : exists db1, drun1 N (db, ans) op = Some (db1, snd (dspec N (w, ans) op)) /\ dinv N (S m) (fst (dspec N (w, ans) op)) db1).
    { destruct op as [k| |]; cbn [drun1 dspec fst snd dop_ok] in *.
      - destruct (fst k) as [|x y] eqn:Ek.
        + exists db. cbn [CheckDupe fst snd]. auto.
        + rewrite <- Ek. destruct (check_inv N m w db k) as (db' & -> & Hd); [lia|auto|auto|rewrite Ek; discriminate|lia|].
          exists db'. destruct (keyin k w); auto.
      - unfold CloseDupeDB. destruct (d_changed db).
        + destruct HR as [HR|HR]; [|exfalso; apply HR; left; auto]. rewrite (newfile_ok N m w db) by auto. cbn [obind].
          destruct Hi as (all & Ef & -> & Hall & Hm & _).
          destruct (open_inv N m (lastn N all)) as (db' & -> & Hd & _); [lia| |rewrite lastn_length; lia|lia|].
          { apply Forall_forall. intros k Hk. apply lastn_incl in Hk. rewrite Forall_forall in Hall. auto. }
          rewrite (lastn_all N (lastn N all)) in Hd by (rewrite lastn_length; lia). exists db'. auto.
        + cbn [obind]. destruct Hi as (all & Ef & -> & Hall & Hm & _). rewrite Ef.
          destruct (open_inv N m all) as (db' & -> & Hd & _); [lia|auto|auto|lia|]. exists db'. auto.
      - destruct Hi as (all & Ef & -> & Hall & Hm & _). rewrite Ef.
        destruct (open_inv N m all) as (db' & -> & Hd & _); [lia|auto|auto|lia|]. exists db'. auto. }
    destruct Hstep as (db1 & -> & Hd). cbn [obind].
    destruct (IH (S m) (fst (dspec N (w, ans) op)) (snd (dspec N (w, ans) op)) db1 Hd Hok' ltac:(destruct HR as [HR|HR]; [auto|right; intros Hx; apply HR; right; auto]) ltac:(lia)) as (db' & E & Hd').
    exists db'. rewrite <- surjective_pairing in E, Hd'. rewrite E. replace (m + S (length ops))%nat with (S m + length ops)%nat by lia. auto.
Qed.
