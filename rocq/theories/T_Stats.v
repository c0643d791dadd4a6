(** C43: statistics survive restarts. *)
From Coq Require Import Sorted.
From Verif Require Import Base M_Node4D S_Node4D P_Node4D M_Str S_Str P_Str M_Mem M_Cfg M_Stats S_Stats.

(** ** Numbers and records *)
Lemma le32_get z : is_u32 z -> get32 (le32 z) 0 = z.
Proof. apply get32_le32. Qed.
Lemma get64_le64 z r : is_u64 z -> get64 (le64 z ++ r) 0 = z.
Proof.
  intros H. unfold get64, le64. change (get32 ((le32 (z mod 4294967296) ++ le32 (z / 4294967296)) ++ r) 0) with (get32 (le32 (z mod 4294967296)) 0).
  change (get32 ((le32 (z mod 4294967296) ++ le32 (z / 4294967296)) ++ r) (0 + 4)) with (get32 (le32 (z / 4294967296)) 0).
  unfold is_u64 in H. rewrite !get32_le32; unfold is_u32.
  - rewrite (Z.div_mod z 4294967296) at 3 by lia. lia.
  - split; [apply Z.div_pos; lia|apply Z.div_lt_upper_bound; lia].
  - apply Z.mod_pos_bound. lia.
Qed.
Lemma areabytes_split junk a : area_fine a -> exists t r, areabytes junk a = t ++ r /\ length t = 80%nat /\ existsb (fun c => c =? 0) t = true /\ cstr t = as_tag a /\ length r = 56%nat /\
  get32 r 12 = as_texts a /\ map (fun i => get16 r (16 + 2 * i)) (seq 0 8) = as_last8 a /\ get32 r 32 = as_dupes a /\ get64 r 40 = as_first a /\ get64 r 48 = as_last a.
Proof.
  intros [Ht Hl H1 H2 [H3 H4] H5 H6]. exists (as_tag a ++ [0] ++ map junk (seq 0 (79 - length (as_tag a)))). eexists. split; [unfold areabytes; rewrite <- !app_assoc; reflexivity|].
  split; [rewrite !app_length, map_length, seq_length; cbn [length]; lia|]. split; [rewrite existsb_app; cbn; apply orb_true_r|]. split; [apply cstr_app_nul; auto|].
  destruct (as_last8 a) as [|a0 [|a1 [|a2 [|a3 [|a4 [|a5 [|a6 [|a7 [|]]]]]]]]]; try discriminate. split; [reflexivity|].
  split; [etransitivity; [|apply (le32_get _ H1)]; reflexivity|]. split.
  { repeat match goal with H : Forall _ (_ :: _) |- _ => inversion_clear H end. cbn [map seq]. repeat f_equal;
    match goal with H : is_u16 ?x |- _ = ?x => etransitivity; [|apply (get16_le16 _ H)]; reflexivity end. }
  split; [etransitivity; [|apply (le32_get _ H2)]; reflexivity|].
  split; [etransitivity; [|apply (get64_le64 _ (le64 (as_last a)) H5)]; reflexivity|etransitivity; [|apply (get64_le64 _ [] H6)]; rewrite app_nil_r; reflexivity].
Qed.
Lemma areabytes_length junk a : area_fine a -> length (areabytes junk a) = 136%nat.
Proof. intros H. destruct (areabytes_split junk a H) as (t & r & -> & L1 & _ & _ & L2 & _). rewrite app_length. lia. Qed.
Lemma get16_skip t r i : get16 (t ++ r) (length t + i) = get16 r i.
Proof. unfold get16. rewrite <- Nat.add_succ_r, !app_nth2_plus. reflexivity. Qed.
Lemma get32_skip t r i : get32 (t ++ r) (length t + i) = get32 r i.
Proof. unfold get32. rewrite <- !Nat.add_succ_r, ?app_nth2_plus, <- ?Nat.add_assoc, ?app_nth2_plus. reflexivity. Qed.
Definition withw (w a : astat) : astat :=
  AS (as_tag a) (as_type a) (as_flags a) (as_aka a) (as_group a) (as_texts w) (as_last8 w) (as_dupes w) (as_first w) (as_last w) (as_newtexts a) (as_newdupes a).
Definition one (w a : astat) : astat := if streqi (as_tag a) (as_tag w) then withw w a else a.
Lemma setarea_one junk w : area_fine w -> forall l, NoDup (map (fun a => map tolower (as_tag a)) l) ->
  setarea (areabytes junk w) (cstr (firstn 80 (areabytes junk w))) l = map (one w) l /\ existsb (fun c => c =? 0) (firstn 80 (areabytes junk w)) = true.
Proof.
  intros Hw l Hn. destruct (areabytes_split junk w Hw) as (t & r & E & L1 & Ez & Et & L2 & G1 & G2 & G3 & G4 & G5). rewrite E.
  rewrite firstn_app, L1. change (80 - 80)%nat with 0%nat. rewrite firstn_O, app_nil_r, firstn_all2 by lia. rewrite Et. split; auto.
  assert (K : forall a, AS (as_tag a) (as_type a) (as_flags a) (as_aka a) (as_group a)
           (get32 (t ++ r) 92) (map (fun i => get16 (t ++ r) (96 + 2 * i)) (seq 0 8)) (get32 (t ++ r) 112) (get64 (t ++ r) 120) (get64 (t ++ r) 128) (as_newtexts a) (as_newdupes a) = withw w a).
  { intros a. unfold withw. unfold get64.
    assert (S32 : forall i, get32 (t ++ r) (80 + i) = get32 r i) by (intros i; rewrite <- L1; apply get32_skip).
    assert (S16 : forall i, get16 (t ++ r) (80 + i) = get16 r i) by (intros i; rewrite <- L1; apply get16_skip).
    f_equal.
    - rewrite <- G1. apply (S32 12%nat).
    - rewrite <- G2. apply map_ext. intros i. apply (S16 (16 + 2 * i)%nat).
    - rewrite <- G3. apply (S32 32%nat).
    - rewrite <- G4. unfold get64. f_equal; [apply (S32 40%nat)|]. f_equal. apply (S32 44%nat).
    - rewrite <- G5. unfold get64. f_equal; [apply (S32 48%nat)|]. f_equal. apply (S32 52%nat). }
  clear E G1 G2 G3 G4 G5. induction l as [|a l IH]; [reflexivity|]. cbn [setarea map]. unfold one at 1. destruct (streqi (as_tag a) (as_tag w)) eqn:Es.
  - rewrite K. f_equal. symmetry. rewrite <- (map_id l) at 2. apply map_ext_in. intros b Hb. unfold one. destruct (streqi (as_tag b) (as_tag w)) eqn:Eb; auto. exfalso.
    unfold streqi in *. apply streq_eq in Es, Eb. inversion_clear Hn as [|? ? H1 H2]. apply H1. rewrite Es, <- Eb. apply (in_map (fun a => map tolower (as_tag a))). auto.
  - f_equal. apply IH. inversion_clear Hn. auto.
Qed.
Lemma one_tag w a : as_tag (one w a) = as_tag a.
Proof. unfold one. destruct (streqi _ _); reflexivity. Qed.
Lemma map_one_tags w l : map (fun a => map tolower (as_tag a)) (map (one w) l) = map (fun a => map tolower (as_tag a)) l.
Proof. rewrite map_map. apply map_ext. intros a. rewrite one_tag. reflexivity. Qed.
Lemma setareas_all ws rs : Forall2 (fun w r => area_fine w /\ exists j, r = areabytes j w) ws rs -> forall l, NoDup (map (fun a => map tolower (as_tag a)) l) ->
  setareas rs l = Some (map (fun a => fold_left (fun a w => one w a) ws a) l).
Proof.
  induction 1 as [|w r ws rs [Hw (j & ->)] F IH]; intros l Hn; cbn [setareas fold_left]; [rewrite map_id; reflexivity|].
  destruct (setarea_one j w Hw l Hn) as [-> ->]. rewrite IH by (rewrite map_one_tags; auto). rewrite map_map. reflexivity.
Qed.
Lemma area_read_fold ws a : NoDup (map (fun a => map tolower (as_tag a)) ws) ->
  let a' := fold_left (fun a w => one w a) ws a in
  (exists w, In w ws /\ same_tag w a /\ a' = withw w a) \/ ((forall w, In w ws -> ~ same_tag w a) /\ a' = a).
Proof.
  intros Hn. cbv zeta. assert (Hid : forall ws a, (forall w, In w ws -> ~ same_tag w a) -> fold_left (fun a w => one w a) ws a = a).
  { clear. induction ws as [|w ws IH]; intros a H; [reflexivity|]. cbn [fold_left]. replace (one w a) with a; [apply IH; intros v Hv; apply H; right; auto|].
    unfold one. destruct (streqi _ _) eqn:E; auto. unfold streqi in E. apply streq_eq in E. exfalso. apply (H w); [left; auto|]. symmetry. exact E. }
  revert a. induction ws as [|w ws IH]; intros a; cbn [fold_left]; [right; split; auto; intros w []|]. inversion_clear Hn as [|? ? H1 H2].
  destruct (streqi (as_tag a) (as_tag w)) eqn:E.
  - unfold one at 2. rewrite E. left. exists w. unfold streqi in E. apply streq_eq in E. split; [left; auto|]. split; [symmetry; exact E|]. apply Hid.
    intros v Hv Hs. apply H1. unfold same_tag in Hs. cbn [as_tag withw] in Hs. rewrite <- E, <- Hs. apply (in_map (fun a => map tolower (as_tag a))). auto.
  - unfold one at 2 4. rewrite E. destruct (IH H2 a) as [(v & Hv & Hs & Ev)|[Hv Ev]].
    + left. exists v. split; [right; auto|]. auto.
    + right. split; auto. intros v [<-|Hv']; auto. intros Hs. unfold streqi in E. unfold same_tag in Hs. rewrite Hs in E. assert (streq (map tolower (as_tag a)) (map tolower (as_tag a)) = true) by (apply streq_eq; reflexivity). congruence.
Qed.

(** nodes *)
Lemma nodebytes_eq junk n : node_fine n -> let r := nodebytes junk n in length r = 56%nat /\ get4d r 0 = ns_node n /\
  NS (ns_node n) (get32 r 8) (get32 r 12) (get32 r 16) (get32 r 20) (get32 r 24) (get32 r 28) (get32 r 32) (get32 r 36) (get32 r 40) (get64 r 48) = n.
Proof.
  intros [(V1 & V2 & V3 & V4) _ HC HF]. cbv zeta. split; [reflexivity|].
  repeat match goal with H : Forall _ (_ :: _) |- _ => inversion_clear H end. split.
  - unfold get4d. destruct n as [[z ne nd pt] ? ? ? ? ? ? ? ? ? ?]; cbn [ns_node zone net node point] in *. f_equal;
    match goal with |- _ = ?x => etransitivity; [|apply (get16_le16 x); assumption]; reflexivity end.
  - destruct n as [x0 x1 x2 x3 x4 x5 x6 x7 x8 x9 x10]; cbn [ns_gotnet ns_gotnetb ns_sentnet ns_sentnetb ns_gotecho ns_gotechob ns_sentecho ns_sentechob ns_dupes ns_first ns_node] in *. f_equal;
    try (match goal with H : is_u32 ?x |- _ = ?x => etransitivity; [|apply (le32_get _ H)]; reflexivity end).
    etransitivity; [|apply (get64_le64 _ [] HF)]. reflexivity.
Qed.
Definition nodeone (w n : nstat) : nstat := if Compare4D (ns_node w) (ns_node n) =? 0 then w else n.
Lemma compare_eq a b : zone a <> 0 -> zone b <> 0 -> (Compare4D a b =? 0) = true <-> a = b.
Proof. intros Ha Hb. rewrite Z.eqb_eq. apply compare_cases; auto. Qed.
Lemma setnode_one junk w : node_fine w -> forall l, Forall (fun n => zone (ns_node n) <> 0) l -> NoDup (map ns_node l) -> setnode (nodebytes junk w) l = map (nodeone w) l.
Proof.
  intros Hw l Hz Hn. destruct (nodebytes_eq junk w Hw) as (_ & E1 & E2). induction Hz as [|n l Hz1 Hz IH]; [reflexivity|]. cbn [setnode map]. rewrite E1. unfold nodeone at 1.
  destruct (Compare4D (ns_node w) (ns_node n) =? 0) eqn:E.
  - apply compare_eq in E; auto; [|apply Hw]. rewrite <- E, E2. f_equal. symmetry. rewrite <- (map_id l) at 2. apply map_ext_in. intros b Hb. unfold nodeone.
    destruct (Compare4D (ns_node w) (ns_node b) =? 0) eqn:Eb; auto. exfalso. rewrite Forall_forall in Hz. apply compare_eq in Eb; auto; [|apply Hw]. inversion_clear Hn as [|? ? H1 H2]. apply H1. rewrite <- E, Eb. apply in_map. auto.
  - f_equal. apply IH. inversion_clear Hn. auto.
Qed.
Lemma nodeone_node w n : zone (ns_node w) <> 0 -> zone (ns_node n) <> 0 -> ns_node (nodeone w n) = ns_node n.
Proof. intros Hw Hz. unfold nodeone. destruct (_ =? 0) eqn:E; auto. apply compare_eq in E; auto. Qed.
Lemma setnodes_all ws rs : Forall2 (fun w r => node_fine w /\ exists j, r = nodebytes j w) ws rs -> forall l, Forall (fun n => zone (ns_node n) <> 0) l -> NoDup (map ns_node l) ->
  fold_left (fun l r => setnode r l) rs l = map (fun n => fold_left (fun n w => nodeone w n) ws n) l.
Proof.
  induction 1 as [|w r ws rs [Hw (j & ->)] F IH]; intros l Hz Hn; cbn [fold_left]; [rewrite map_id; reflexivity|].
  rewrite setnode_one by auto. assert (E : map ns_node (map (nodeone w) l) = map ns_node l).
  { rewrite map_map. apply map_ext_in. intros n Hi. rewrite Forall_forall in Hz. apply nodeone_node; auto. apply Hw. }
  rewrite IH.
  - rewrite map_map. reflexivity.
  - apply Forall_forall. intros n Hi. apply (in_map ns_node) in Hi. rewrite E in Hi. apply in_map_iff in Hi as (m & <- & Hm). rewrite Forall_forall in Hz. auto.
  - rewrite E. auto.
Qed.
Lemma node_read_fold ws n : Forall node_fine ws -> NoDup (map ns_node ws) -> zone (ns_node n) <> 0 -> node_read ws n (fold_left (fun n w => nodeone w n) ws n).
Proof.
  intros F Hn Hz. assert (Hid : forall ws n, zone (ns_node n) <> 0 -> Forall node_fine ws -> (forall w, In w ws -> ns_node w <> ns_node n) -> fold_left (fun n w => nodeone w n) ws n = n).
  { clear. induction ws as [|w ws IH]; intros n Hz F H; [reflexivity|]. inversion_clear F as [|? ? F1 F2]. cbn [fold_left]. replace (nodeone w n) with n; [apply IH; auto; intros v Hv; apply H; right; auto|].
    unfold nodeone. destruct (_ =? 0) eqn:E; auto. apply compare_eq in E; auto; [|apply F1]. exfalso. apply (H w); [left; auto|auto]. }
  revert n Hz. induction F as [|w ws F1 F IH]; intros n Hz; cbn [fold_left]; [right; split; auto; intros w []|]. inversion_clear Hn as [|? ? H1 H2].
  destruct (Compare4D (ns_node w) (ns_node n) =? 0) eqn:E; unfold nodeone at 2; rewrite E.
  - apply compare_eq in E; auto; [|apply F1]. rewrite Hid; auto; [left; split; auto; left; auto|apply F1|]. intros v Hv Ev. apply H1. rewrite <- Ev. apply in_map. auto.
  - assert (Hne : ns_node w <> ns_node n) by (intros X; apply compare_eq in X; auto; [congruence|apply F1]).
    destruct (IH H2 n Hz) as [[Hv Ev]|[Hv Ev]]; [left; split; auto; right; auto|right; split; auto]. intros v [<-|Hv']; auto.
Qed.

(** ** Reading what was written, or a part of it *)
Lemma records_concat {A} (f : (nat -> Z) -> A -> list Z) junk l : forall k, exists rs, records f junk k l = concat rs /\ Forall2 (fun a r => exists j, r = f j a) l rs.
Proof.
  induction l as [|a l IH]; intros k; cbn [records]; [exists []; split; [reflexivity|constructor]|]. destruct (IH (S k)) as (rs & -> & F). exists (f (junk k) a :: rs). split; [reflexivity|]. constructor; eauto.
Qed.
Lemma firstn_more {A} (k : nat) (a b : list A) : (length a <= k)%nat -> firstn k (a ++ b) = a ++ firstn (k - length a) b.
Proof. intros H. rewrite firstn_app, firstn_all2 by auto. reflexivity. Qed.
Lemma readrecs_prefix size rs rest : (0 < size)%nat -> Forall (fun r => length r = size) rs -> forall fuel k, (length (firstn k (concat rs ++ rest)) < fuel)%nat ->
  exists rs1 rs2, rs = rs1 ++ rs2 /\ fst (readrecs fuel size (Z.of_nat (length rs)) (firstn k (concat rs ++ rest))) = rs1 /\
    ((rs2 = [] /\ (length (concat rs) <= k)%nat /\ snd (readrecs fuel size (Z.of_nat (length rs)) (firstn k (concat rs ++ rest))) = firstn (k - length (concat rs)) rest) \/
     ((k < length (concat rs))%nat /\ snd (readrecs fuel size (Z.of_nat (length rs)) (firstn k (concat rs ++ rest))) = [])).
Proof.
  intros Hs F. induction F as [|r rs Hr F IH]; intros fuel k Hf; (destruct fuel as [|fuel]; [lia|]).
  - exists [], []. split; auto. cbn [readrecs length Z.of_nat]. change (0 <=? 0) with true. cbv iota. split; auto. left. split; auto. split; [cbn; lia|]. cbn [concat app length snd]. rewrite Nat.sub_0_r. reflexivity.
  - cbn [readrecs concat]. destruct (Z.leb_spec (Z.of_nat (length (r :: rs))) 0); [cbn [length] in *; lia|].
    destruct (Nat.ltb_spec (length (firstn k ((r ++ concat rs) ++ rest))) size) as [Hlt|Hge].
    + exists [], (r :: rs). split; auto. split; auto. right. rewrite firstn_length, !app_length in Hlt. rewrite app_length. split; [lia|auto].
    + rewrite firstn_length in Hge. assert (size <= k)%nat by lia. cbn [concat] in Hf. rewrite <- app_assoc in *. rewrite firstn_more in * by lia. rewrite Hr in *. rewrite app_length, Hr in Hf.
      replace (firstn size (r ++ firstn (k - size) (concat rs ++ rest))) with r by (rewrite firstn_app, Hr, Nat.sub_diag, firstn_O, app_nil_r, firstn_all2 by lia; reflexivity).
      replace (skipn size (r ++ firstn (k - size) (concat rs ++ rest))) with (firstn (k - size) (concat rs ++ rest)) by (rewrite skipn_app, Hr, Nat.sub_diag, skipn_O, skipn_all2 by lia; reflexivity).
      replace (Z.of_nat (length (r :: rs)) - 1) with (Z.of_nat (length rs)) by (cbn [length]; lia).
      destruct (IH fuel (k - size)%nat) as (rs1 & rs2 & E & E1 & E2); [lia|]. exists (r :: rs1), rs2. cbn [fst snd]. rewrite E1. split; [cbn; congruence|]. split; auto.
      rewrite app_length, Hr. destruct E2 as [(X1 & X2 & X3)|(X1 & X2)]; [left; split; auto; split; [lia|]; rewrite X3; f_equal; lia|right; split; [lia|auto]].
Qed.
Lemma readrecs_end fuel size num : (0 < size)%nat -> readrecs fuel size num [] = ([], []).
Proof. intros H. destruct fuel; [reflexivity|]. cbn [readrecs]. destruct (num <=? 0); [reflexivity|]. replace (length (@nil Z) <? size)%nat with true; [reflexivity|]. symmetry. apply Nat.ltb_lt. auto. Qed.
Lemma readto_full n old (a b : list Z) k : length a = n -> (n <= k)%nat -> osReadTo n old (firstn k (a ++ b)) = (a ++ skipn n old, firstn (k - n) b).
Proof.
  intros Ha Hk. unfold osReadTo. rewrite firstn_more by lia. rewrite Ha. f_equal.
  - rewrite firstn_app, Ha, Nat.sub_diag, firstn_O, app_nil_r, firstn_all2 by lia. rewrite Ha. reflexivity.
  - rewrite skipn_app, Ha, Nat.sub_diag, skipn_O, skipn_all2 by lia. reflexivity.
Qed.
Lemma readto_short n old (f : list Z) : (length f <= n)%nat -> snd (osReadTo n old f) = [].
Proof. intros H. cbn. apply skipn_all2. auto. Qed.
Lemma counted_iff a : counted a = true <-> has_stats a.
Proof.
  unfold counted, has_stats, flag, AREA_UNCONFIRMED. assert (E : Z.land (as_flags a) 1 = 0 <-> Z.testbit (as_flags a) 0 = false).
  { change 1 with (Z.ones 1). rewrite Z.land_ones by lia. change (2 ^ 1) with 2. rewrite Zmod_odd, Z.bit0_odd. destruct (Z.odd _); split; intros; congruence. }
  rewrite <- E, andb_true_iff, !orb_true_iff, negb_true_iff, negb_false_iff, !Z.eqb_eq. tauto.
Qed.
Lemma Forall2_len {A B} (P : A -> B -> Prop) l r : Forall2 P l r -> length l = length r.
Proof. induction 1; cbn; auto. Qed.
Lemma Forall2_split {A B} (P : A -> B -> Prop) l r1 r2 : Forall2 P l (r1 ++ r2) -> exists l1 l2, l = l1 ++ l2 /\ Forall2 P l1 r1.
Proof. intros H. apply Forall2_app_inv_r in H as (l1 & l2 & H1 & _ & ->). eauto. Qed.
Lemma nodup_left {A} (l1 l2 : list A) : NoDup (l1 ++ l2) -> NoDup l1.
Proof. induction l2 as [|a l2 IH] using rev_ind; [rewrite app_nil_r; auto|]. rewrite app_assoc. intros H. apply NoDup_remove_1 in H. rewrite app_nil_r in H. auto. Qed.
Lemma nodup_filter {A B} (f : A -> B) (p : A -> bool) l : NoDup (map f l) -> NoDup (map f (filter p l)).
Proof.
  induction l as [|a l IH]; intros H; [constructor|]. inversion_clear H as [|? ? H1 H2]. cbn [filter]. destruct (p a); auto. cbn [map]. constructor; auto.
  intros Hi. apply H1. apply in_map_iff in Hi as (b & E & Hb). apply filter_In in Hb as [Hb _]. rewrite <- E. apply in_map. auto.
Qed.
(** what a prefix of the file does: all of a part of the areas, all of a part of the nodes *)
Lemma read_prefix junk day j1 j2 s s0 n : stats_fine s -> is_u32 day -> stats_fine s0 -> (4 <= n)%nat ->
  exists d ws1 ws2 vs1 vs2, filter counted (st_areas s) = ws1 ++ ws2 /\ st_nodes s = vs1 ++ vs2 /\
    ((length (WriteStats junk day s) <= n)%nat -> ws2 = [] /\ vs2 = [] /\ d = if st_day s =? 0 then day else st_day s) /\
    ReadStats j1 j2 (Some (firstn n (WriteStats junk day s))) s0 =
      Some (true, ST d (map (fun a => fold_left (fun a w => one w a) ws1 a) (st_areas s0)) (map (fun n => fold_left (fun n w => nodeone w n) vs1 n) (st_nodes s0))).
Proof.
  intros F Hday F0 Hn. set (ws := filter counted (st_areas s)). set (d := if st_day s =? 0 then day else st_day s).
  assert (Hd : is_u32 d) by (unfold d; destruct (st_day s =? 0); auto; apply F).
  assert (Fw : Forall area_fine ws). { apply Forall_forall. intros a Ha. apply filter_In in Ha as [Ha _]. destruct F as [_ Fa _ _ _ _]. rewrite Forall_forall in Fa. auto. }
  assert (Hlw : (length ws <= length (st_areas s))%nat) by (unfold ws; clear; induction (st_areas s) as [|a l IH]; cbn; [lia|]; destruct (counted a); cbn; lia).
  destruct F as [_ _ Fn _ _ [HA HN]]. destruct F0 as [_ Fa0 Fn0 Ht0 Hn0 _].
  destruct (records_concat areabytes junk ws 0) as (ra & Ea & Fra). destruct (records_concat nodebytes junk (st_nodes s) (length ws)) as (rn & En & Frn).
  assert (Lra : Forall (fun r => length r = 136%nat) ra).
  { clear - Fra Fw. induction Fra as [|a r ws ra (j & ->) Fra IH]; constructor; inversion_clear Fw; auto. apply areabytes_length; auto. }
  assert (Lrn : Forall (fun r => length r = 56%nat) rn).
  { clear - Frn. induction Frn as [|a r ws ra (j & ->) Fra IH]; constructor; auto. }
  assert (Fra' : Forall2 (fun w r => area_fine w /\ exists j, r = areabytes j w) ws ra) by (clear - Fra Fw; induction Fra; inversion_clear Fw; constructor; auto).
  assert (Frn' : Forall2 (fun w r => node_fine w /\ exists j, r = nodebytes j w) (st_nodes s) rn) by (clear - Frn Fn; induction Frn; inversion_clear Fn; constructor; auto).
  assert (EW : WriteStats junk day s = lit "CST3" ++ le32 d ++ le32 (Z.of_nat (length ra)) ++ concat ra ++ le32 (Z.of_nat (length rn)) ++ concat rn).
  { unfold WriteStats. fold ws d. rewrite Ea, En. rewrite (Forall2_len _ _ _ Fra), (Forall2_len _ _ _ Frn). reflexivity. }
  assert (Hra : is_u32 (Z.of_nat (length ra))) by (rewrite <- (Forall2_len _ _ _ Fra); unfold is_u32; lia).
  assert (Hrn : is_u32 (Z.of_nat (length rn))) by (rewrite <- (Forall2_len _ _ _ Frn); unfold is_u32; lia).
  assert (Z0 : Forall (fun n => zone (ns_node n) <> 0) (st_nodes s0)) by (eapply Forall_impl; [|exact Fn0]; intros a Ha; apply Ha).
  rewrite EW. unfold ReadStats. rewrite (readto_full 4 j1 (lit "CST3")) by (auto; reflexivity). cbn [fst snd].
  replace (firstn 4 (lit "CST3" ++ skipn 4 j1)) with (lit "CST3") by (rewrite firstn_app; change (firstn 4 (lit "CST3")) with (lit "CST3"); change (4 - length (lit "CST3"))%nat with 0%nat; rewrite firstn_O, app_nil_r; reflexivity).
  change (negb (streq (cstr (lit "CST3")) (lit "CST3"))) with false. cbv iota.
  set (R := le32 d ++ _). set (m := (n - 4)%nat). set (fuel := S (length (firstn n (lit "CST3" ++ R)))).
  assert (Hfl : (length (firstn m R) < fuel)%nat) by (unfold fuel, m; rewrite !firstn_length, app_length; change (length (lit "CST3")) with 4%nat; lia).
  assert (G32 : forall z o, is_u32 z -> get32 (le32 z ++ o) 0 = z) by (intros z o Hz; etransitivity; [|apply (le32_get _ Hz)]; reflexivity).
  assert (LR : length R = (12 + length (concat ra) + length (concat rn))%nat) by (unfold R; rewrite !app_length; cbn [length le32]; lia).
  assert (LW : length (lit "CST3" ++ R) = (4 + length R)%nat) by (rewrite app_length; reflexivity).
  destruct (Nat.lt_ge_cases m 8) as [Hm|Hm].
  - exists (get32 (fst (osReadTo 4 (le32 (st_day s0)) (firstn m R))) 0), [], ws, [], (st_nodes s). split; [reflexivity|]. split; [reflexivity|]. split; [unfold m in Hm; lia|].
    assert (E0 : snd (osReadTo 4 j2 (snd (osReadTo 4 (le32 (st_day s0)) (firstn m R)))) = []) by (apply readto_short; cbn [osReadTo snd]; rewrite skipn_length, firstn_length; lia).
    rewrite E0, readrecs_end by lia. cbn [fst snd setareas obind]. unfold osReadTo at 1. cbn [firstn skipn snd]. rewrite readrecs_end by lia. cbn [fst fold_left]. rewrite !map_id. reflexivity.
  - unfold R in *. rewrite (readto_full 4 _ (le32 d)) by (auto; lia). cbn [fst snd]. rewrite (readto_full 4 _ (le32 (Z.of_nat (length ra)))) by (auto; lia). cbn [fst snd]. rewrite G32 by auto.
    destruct (readrecs_prefix 136 ra (le32 (Z.of_nat (length rn)) ++ concat rn) ltac:(lia) Lra fuel (m - 4 - 4)%nat) as (ra1 & ra2 & Era & E1 & E2).
    { rewrite firstn_length in *. rewrite !app_length in *. cbn [length le32] in *. lia. }
    rewrite E1. rewrite Era in Fra'. apply Forall2_app_inv_r in Fra' as (ws1 & ws2 & Fw1 & Fw2 & Ew).
    rewrite (setareas_all ws1 ra1 Fw1 _ Ht0). cbn [obind].
    destruct E2 as [(X1 & X2 & X3)|(X1 & X2)].
    + rewrite X3. subst ra2. inversion Fw2; subst ws2. rewrite app_nil_r in *. subst ra1. set (k := (m - 4 - 4 - length (concat ra))%nat).
      destruct (Nat.lt_ge_cases k 4) as [Hk|Hk].
      * exists d, ws1, [], [], (st_nodes s). rewrite app_nil_r. split; auto. split; auto. split; [unfold k, m in Hk; lia|].
        rewrite readto_short by (rewrite firstn_length; lia). rewrite readrecs_end by lia. cbn [fst fold_left]. rewrite map_id. rewrite ?G32, ?le32_get by auto. reflexivity.
      * rewrite (readto_full 4 _ (le32 (Z.of_nat (length rn)))) by (auto; lia). cbn [fst snd]. rewrite G32 by auto.
        replace (firstn (k - 4) (concat rn)) with (firstn (k - 4) (concat rn ++ [])) by (rewrite app_nil_r; reflexivity).
        destruct (readrecs_prefix 56 rn [] ltac:(lia) Lrn fuel (k - 4)%nat) as (rn1 & rn2 & Ern & E3 & E4).
        { rewrite firstn_length in *. rewrite !app_length in *. cbn [length le32] in *. unfold k. lia. }
        rewrite E3. rewrite Ern in Frn'. apply Forall2_app_inv_r in Frn' as (vs1 & vs2 & Fv1 & Fv2 & Ev).
        rewrite (setnodes_all vs1 rn1 Fv1 _ Z0 Hn0). exists d, ws1, [], vs1, vs2. rewrite app_nil_r. split; auto. split; auto. split; [|rewrite ?G32, ?le32_get by auto; reflexivity].
        intros Hfull. split; auto. split; auto. destruct E4 as [(Y1 & _)|(Y1 & _)]; [subst rn2; inversion Fv2; auto|unfold k, m in Y1; lia].
    + rewrite X2. rewrite readto_short by (cbn; lia). rewrite readrecs_end by lia. cbn [fst fold_left]. exists d, ws1, ws2, [], (st_nodes s). split; auto. split; auto.
      split; [unfold m in X1; lia|]. rewrite map_id, ?G32, ?le32_get by auto. reflexivity.
Qed.

(** What was written is read back: each area and node of the configuration gets its numbers
    back, whatever the order, and those that are new keep theirs. *)
Theorem C43_roundtrip : forall junk day j1 j2 s s0, stats_fine s -> is_u32 day -> stats_fine s0 ->
  exists s', ReadStats j1 j2 (Some (WriteStats junk day s)) s0 = Some (true, s') /\ st_day s' = (if st_day s =? 0 then day else st_day s) /\ Forall2 (area_read (st_areas s)) (st_areas s0) (st_areas s') /\ Forall2 (node_read (st_nodes s)) (st_nodes s0) (st_nodes s').
Proof.
  intros junk day j1 j2 s s0 F Hd F0. destruct (read_prefix junk day j1 j2 s s0 (length (WriteStats junk day s)) F Hd F0) as (d & ws1 & ws2 & vs1 & vs2 & E1 & E2 & H & E); [unfold WriteStats; rewrite app_length; cbn [length lit map list_ascii_of_string]; lia|].
  rewrite firstn_all in E. destruct (H ltac:(lia)) as (-> & -> & ->). rewrite app_nil_r in *. eexists. split; [exact E|]. cbn [st_day st_areas st_nodes]. split; auto. split.
  - assert (Hw : NoDup (map (fun a => map tolower (as_tag a)) ws1)) by (rewrite <- E1; apply nodup_filter, F).
    generalize (st_areas s0) as l. intros l. induction l as [|a l IH]; cbn [map]; constructor; auto. destruct (area_read_fold ws1 a Hw) as [(w & Hi & Hs & ->)|[Hno ->]].
    + left. exists w. rewrite <- E1 in Hi. apply filter_In in Hi as [Hi Hc]. apply counted_iff in Hc. split; auto. split; auto. split; auto. repeat split.
    + right. split; auto. intros w Hi Hs. apply Hno. rewrite <- E1. apply filter_In. split; auto. apply counted_iff. auto.
  - destruct F0 as [_ _ Fn _ _ _]. rewrite E2 in *. assert (Fv : Forall node_fine vs1) by (rewrite <- E2; apply F). assert (Hn : NoDup (map ns_node vs1)) by (rewrite <- E2; apply F).
    clear E; induction Fn as [|n l Hn1 Fn IH]; cbn [map]; constructor; auto. apply node_read_fold; auto. apply Hn1.
Qed.
Print Assumptions C43_roundtrip.
(** A file that was cut off (behind the identification) brings no wrong numbers: each area
    and node has its numbers from the file, or keeps the ones it has. *)
Theorem C43_cut : forall junk day j1 j2 s s0 n, stats_fine s -> is_u32 day -> stats_fine s0 -> (4 <= n)%nat ->
  exists s', ReadStats j1 j2 (Some (firstn n (WriteStats junk day s))) s0 = Some (true, s') /\ Forall2 (fun a a' => a' = a \/ area_read (st_areas s) a a') (st_areas s0) (st_areas s') /\ Forall2 (fun n n' => n' = n \/ node_read (st_nodes s) n n') (st_nodes s0) (st_nodes s').
Proof.
  intros junk day j1 j2 s s0 n F Hd F0 Hn. destruct (read_prefix junk day j1 j2 s s0 n F Hd F0 Hn) as (d & ws1 & ws2 & vs1 & vs2 & E1 & E2 & _ & E).
  eexists. split; [exact E|]. cbn [st_areas st_nodes]. split.
  - assert (Hw : NoDup (map (fun a => map tolower (as_tag a)) ws1)). { apply (nodup_left _ (map (fun a => map tolower (as_tag a)) ws2)). rewrite <- map_app, <- E1. apply nodup_filter, F. }
    generalize (st_areas s0) as l. intros l. induction l as [|a l IH]; cbn [map]; constructor; auto. destruct (area_read_fold ws1 a Hw) as [(w & Hi & Hs & ->)|[Hno ->]]; auto.
    right. left. exists w. assert (Hi' : In w (ws1 ++ ws2)) by (apply in_or_app; auto). rewrite <- E1 in Hi'. apply filter_In in Hi' as [Hi' Hc]. apply counted_iff in Hc. split; auto. split; auto. split; auto. repeat split.
  - destruct F0 as [_ _ Fn _ _ _]. assert (Fv : Forall node_fine vs1). { destruct F as [_ _ Fv _ _ _]. rewrite E2 in Fv. apply Forall_app in Fv. tauto. }
    assert (Hnd : NoDup (map ns_node vs1)). { apply (nodup_left _ (map ns_node vs2)). rewrite <- map_app, <- E2. apply F. }
    clear E; induction Fn as [|x l Hn1 Fn IH]; cbn [map]; constructor; auto. destruct (node_read_fold vs1 x Fv Hnd) as [[Hi He]|[_ He]]; auto; [apply Hn1|].
    right. left. split; auto. rewrite E2. apply in_or_app. auto.
Qed.
Print Assumptions C43_cut.
(** A file that does not begin with the identification is refused, and nothing is changed. *)
Theorem C43_foreign : forall j1 j2 f s, (4 <= length f)%nat -> firstn 4 f <> lit "CST3" -> ReadStats j1 j2 (Some f) s = Some (false, s).
Proof.
  intros j1 j2 f s Hl Hf. unfold ReadStats. cbn [osReadTo fst]. rewrite firstn_app. rewrite firstn_firstn, firstn_length. replace (4 - Nat.min 4 (length f))%nat with 0%nat by lia. rewrite firstn_O, app_nil_r. change (Nat.min 4 4) with 4%nat.
  destruct (streq (cstr (firstn 4 f)) (lit "CST3")) eqn:E; [|reflexivity]. exfalso. apply streq_eq in E. apply Hf.
  destruct f as [|a [|b [|c [|d f]]]]; cbn [length] in Hl; try lia. cbn [firstn] in *. cbn [cstr] in E. revert E. change (lit "CST3") with [67; 83; 84; 51].
  destruct (a =? 0); [discriminate|]. destruct (b =? 0); [discriminate|]. destruct (c =? 0); [discriminate|]. destruct (d =? 0); [discriminate|]. auto.
Qed.
Print Assumptions C43_foreign.

(** ** Examples and findings *)
Definition xarea (tag : string) (texts : Z) := AS (lit tag) AREATYPE_ECHOMAIL 0 (N4 2 200 1 0) 65 texts [texts; 1; 2; 3; 4; 5; 6; 7] 5 1000000000 1700000000 0 0.
Definition xnode (p c : Z) := NS (N4 2 200 5 p) c 2 3 4 5 6 7 8 9 1600000000.
Definition xstats := ST 19000 [xarea "TEST.A" 10; xarea "TEST.B" 20; xarea "TEST.C" 30] [xnode 0 1; xnode 1 100].
Definition xfresh := ST 0 [AS (lit "test.c") AREATYPE_ECHOMAIL 0 (N4 2 200 1 0) 66 0 (repeat 0 8) 0 0 0 0 0; AS (lit "NEW") AREATYPE_ECHOMAIL 0 (N4 2 200 1 0) 66 0 (repeat 0 8) 0 0 0 0 0;
  AS (lit "Test.A") AREATYPE_ECHOMAIL 0 (N4 2 200 1 0) 66 0 (repeat 0 8) 0 0 0 0 0] [NS (N4 2 200 5 1) 0 0 0 0 0 0 0 0 0 0; NS (N4 2 200 6 0) 0 0 0 0 0 0 0 0 0 0].
Ltac fineex := repeat match goal with
  | |- stats_fine _ => constructor
  | |- Forall _ _ => constructor
  | |- area_fine _ => constructor
  | |- node_fine _ => constructor
  | |- _ /\ _ => split
  | |- cstring _ => unfold cstring; vm_compute lit; repeat constructor
  | |- NoDup _ => cbn; repeat constructor; cbn; intuition discriminate
  end.
Lemma xstats_fine : stats_fine xstats.
Proof. fineex; try (cbn; lia); try (vm_compute; intuition (congruence || lia)). Qed.
Lemma xfresh_fine : stats_fine xfresh.
Proof. fineex; try (cbn; lia); try (vm_compute; intuition (congruence || lia)). Qed.
Example C43_nonvacuous : stats_fine xstats /\ stats_fine xfresh /\ exists s', ReadStats (repeat 1 4) (repeat 1 4) (Some (WriteStats (fun a b => Z.of_nat b) 19001 xstats)) xfresh = Some (true, s') /\
  map as_texts (st_areas s') = [30; 0; 10] /\ map ns_gotnet (st_nodes s') = [100; 0] /\ st_day s' = 19000.
Proof. split; [apply xstats_fine|]. split; [apply xfresh_fine|]. eexists. split; [vm_compute; reflexivity|]. vm_compute. auto. Qed.
(** Finding: the file is written in place. If writing is interrupted at once, the next run
    refuses the (empty) file and ends. *)
Theorem C43_interrupted_refuted : exists s, stats_fine s /\ ReadStats (repeat 0 4) (repeat 0 4) (Some (firstn 0 (WriteStats (fun _ _ => 0) 19001 s))) s = Some (false, s).
Proof. exists xstats. split; [apply xstats_fine|]. vm_compute. reflexivity. Qed.
Print Assumptions C43_interrupted_refuted.
(** Finding: a damaged file is accepted; the numbers of the areas behind the damage are lost
    without a word. *)
Theorem C43_damaged_refuted : exists n s', stats_fine xstats /\ (4 <= n < length (WriteStats (fun _ _ => 0%Z) 19001 xstats))%nat /\
  ReadStats (repeat 0 4) (repeat 0 4) (Some (firstn n (WriteStats (fun _ _ => 0) 19001 xstats))) xfresh = Some (true, s') /\ map as_texts (st_areas s') = [0; 0; 10].
Proof. exists 200%nat. eexists. split; [apply xstats_fine|]. split; [vm_compute; lia|]. split; [vm_compute; reflexivity|]. vm_compute. reflexivity. Qed.
Print Assumptions C43_damaged_refuted.

(** ** Counting over many runs *)
Lemma nth_firstn_lt {A} n : forall i (l : list A) (d : A), (i < n)%nat -> nth i (firstn n l) d = nth i l d.
Proof. induction n as [|n IH]; intros i l d H; [lia|]. destruct l as [|x l]; [rewrite firstn_nil; reflexivity|]. destruct i as [|i]; cbn; [reflexivity|apply IH; lia]. Qed.
Lemma rotates_spec k : forall l, length l = 8%nat -> length (rotates k l) = 8%nat /\ forall i, (i < 8)%nat -> nth i (rotates k l) 0 = if (i <? k)%nat then 0 else nth (i - k) l 0.
Proof.
  induction k as [|k IH]; intros l Hl; cbn [rotates]; [split; auto; intros i _; rewrite Nat.sub_0_r; reflexivity|].
  assert (H8 : length (rotate l) = 8%nat) by (unfold rotate; cbn [length]; rewrite firstn_length, Hl; reflexivity).
  destruct (IH _ H8) as [H1 H2]. split; auto. intros i Hi. rewrite H2 by auto.
  destruct (i <? k)%nat eqn:E1; destruct (i <? S k)%nat eqn:E2; auto; try (apply Nat.ltb_lt in E1; apply Nat.ltb_ge in E2; lia).
  - apply Nat.ltb_ge in E1. apply Nat.ltb_lt in E2. replace (i - k)%nat with 0%nat by lia. reflexivity.
  - apply Nat.ltb_ge in E1, E2. replace (i - k)%nat with (S (i - S k)) by lia. unfold rotate. cbn [nth]. apply nth_firstn_lt. lia.
Qed.
Lemma texts_on_app d a b : texts_on d (a ++ b) = texts_on d a + texts_on d b.
Proof. induction a as [|[t n] a IH]; cbn [app texts_on]; lia. Qed.
Lemma texts_on_none d a : Forall (fun r => fst r / 86400 <> d) a -> texts_on d a = 0.
Proof. induction 1 as [|[t n] a H _ IH]; cbn [texts_on]; auto. cbn [fst] in H. destruct (Z.eqb_spec (t / 86400) d); lia. Qed.
(** what holds of an area between runs *)
Definition inv (day : Z) (rs : list (Z * Z)) (a : astat) : Prop :=
  length (as_last8 a) = 8%nat /\ (forall i, (i < 8)%nat -> nth i (as_last8 a) 0 = texts_on (day - Z.of_nat i) rs mod 65536) /\
  as_texts a = fold_right (fun r s => snd r + s) 0 rs mod 4294967296.
Lemma sum_app a b : fold_right (fun (r : Z * Z) s => snd r + s) 0 (a ++ b) = fold_right (fun r s => snd r + s) 0 a + fold_right (fun r s => snd r + s) 0 b.
Proof. induction a as [|x a IH]; cbn [app fold_right]; lia. Qed.
Lemma update_inv day rs t n a : inv day rs a -> as_newtexts a = n -> 0 <= n -> 86400 <= t -> t / 86400 < 4294967296 ->
  (rs = [] /\ day = 0 \/ 0 < day <= t / 86400 /\ Forall (fun r => fst r / 86400 <= day) rs) ->
  let d := u32 (t / 86400) in inv d (rs ++ [(t, n)]) (updatearea (if day =? 0 then d else day) d t a).
Proof.
  intros (L & H8 & HT) Hn Hn0 Ht Ht2 Hday. cbv zeta. assert (Hd1 : 1 <= t / 86400) by (apply Z.div_le_lower_bound; lia).
  assert (Ed : u32 (t / 86400) = t / 86400) by (unfold u32; rewrite Z.mod_small; lia). rewrite Ed. set (d := t / 86400) in *. set (from := if day =? 0 then d else day).
  assert (Hl8 : exists l8, l8 = (if d >? from then rotates (Z.to_nat (d - from)) (as_last8 a) else as_last8 a) /\ length l8 = 8%nat /\ forall i, (i < 8)%nat -> nth i l8 0 = texts_on (d - Z.of_nat i) rs mod 65536).
  { eexists. split; [reflexivity|]. destruct Hday as [[-> ->]|[Hday F]].
    - unfold from. cbn [Z.eqb]. rewrite Z.gtb_ltb, Z.ltb_irrefl. split; auto.
    - unfold from. destruct (Z.eqb_spec day 0); [lia|]. rewrite Z.gtb_ltb. destruct (Z.ltb_spec day d) as [Hlt|Hge].
      + destruct (rotates_spec (Z.to_nat (d - day)) _ L) as [L1 L2]. split; auto. intros i Hi. rewrite L2 by auto. destruct (Nat.ltb_spec i (Z.to_nat (d - day))).
        * rewrite texts_on_none; [reflexivity|]. eapply Forall_impl; [|exact F]. intros r Hr. cbn beta in *. lia.
        * rewrite H8 by lia. f_equal. f_equal. lia.
      + assert (day = d) by lia. subst day. split; auto. }
  destruct Hl8 as (l8 & El & L8 & N8). unfold updatearea. fold from. rewrite <- El.
  assert (Tn : forall i, texts_on (d - Z.of_nat i) (rs ++ [(t, n)]) = texts_on (d - Z.of_nat i) rs + if (i =? 0)%nat then n else 0).
  { intros i. rewrite texts_on_app. cbn [texts_on]. fold d. destruct (Z.eqb_spec d (d - Z.of_nat i)), (Nat.eqb_spec i 0); lia. }
  destruct (negb (as_newtexts a =? 0) || negb (as_newdupes a =? 0)) eqn:E; unfold inv; cbn [as_last8 as_texts].
  - destruct l8 as [|x l8]; [discriminate L8|]. split; [exact L8|]. split.
    + intros i Hi. rewrite Tn. specialize (N8 i Hi). destruct i as [|i]; cbn [nth Nat.eqb] in *.
      * unfold u16. rewrite N8, Hn, Zplus_mod_idemp_l. reflexivity.
      * rewrite N8. f_equal. lia.
    + unfold u32. rewrite HT, Hn, Zplus_mod_idemp_l, sum_app. cbn [fold_right snd]. f_equal. lia.
  - apply orb_false_iff in E as [E _]. apply negb_false_iff, Z.eqb_eq in E. assert (Hz : n = 0) by congruence. subst n. rewrite Hz in *. split; auto. split.
    + intros i Hi. rewrite Tn, N8 by auto. f_equal. destruct (i =? 0)%nat; lia.
    + rewrite HT, sum_app. cbn [fold_right snd]. f_equal. lia.
Qed.
Lemma ssorted_snoc {A} (R : A -> A -> Prop) l x : StronglySorted R (l ++ [x]) -> StronglySorted R l /\ Forall (fun y => R y x) l.
Proof.
  induction l as [|y l IH]; intros H; [split; constructor|]. cbn [app] in H. inversion_clear H as [|? ? H1 H2]. destruct (IH H1). apply Forall_app in H2 as [H2 H3]. inversion_clear H3.
  split; constructor; auto.
Qed.
Lemma forall2_map {A B C} (P : A -> C -> Prop) (f : B -> C) (Q : A -> B -> Prop) : (forall a b, Q a b -> P a (f b)) -> forall l m, Forall2 Q l m -> Forall2 P l (map f m).
Proof. induction 2; cbn; constructor; auto. Qed.
(** Runs in the order of time, each with a number of new texts for each tag: the eight counters
    of an area are the texts of the last eight days, and the total is the sum of all. *)
Theorem C43_history : forall runs s0, runs <> [] -> st_day s0 = 0 ->
  Forall (fun a => as_texts a = 0 /\ as_last8 a = repeat 0 8) (st_areas s0) ->
  Forall (fun r => 86400 <= fst r /\ fst r / 86400 < 4294967296 /\ forall tag, 0 <= snd r tag) runs ->
  StronglySorted (fun r r' => fst r <= fst r') runs ->
  Forall2 (fun a a' => as_tag a' = as_tag a /\
      let mine := map (fun r => (fst r, snd r (as_tag a))) runs in
      as_last8 a' = map (fun i => texts_on (fst (last runs (0, fun _ => 0)) / 86400 - Z.of_nat i) mine mod 65536) (seq 0 8) /\
      as_texts a' = fold_right (fun r s => snd r + s) 0 mine mod 4294967296)
    (st_areas s0) (st_areas (fold_left onerun runs s0)).
Proof.
  intros runs s0 Hne Hd0 Hz Hr Hs.
  assert (H : Forall2 (fun a a' => as_tag a' = as_tag a /\ inv (st_day (fold_left onerun runs s0)) (map (fun r => (fst r, snd r (as_tag a))) runs) a') (st_areas s0) (st_areas (fold_left onerun runs s0)) /\
    st_day (fold_left onerun runs s0) = fst (last runs (0, fun _ => 0)) / 86400).
  { clear Hne. induction runs as [|[t f] runs IH] using rev_ind.
    - cbn [fold_left map last]. split; [|exact Hd0]. induction Hz as [|a l [Z1 Z2] Hz IHz]; constructor; auto. split; auto. rewrite Hd0. unfold inv. rewrite Z2. split; [reflexivity|]. split; [|exact Z1].
      intros i Hi. cbn [texts_on]. do 8 (destruct i as [|i]; [reflexivity|]). lia.
    - apply ssorted_snoc in Hs as [Hs Hle]. apply Forall_app in Hr as [Hr Hx]. apply Forall_inv in Hx. cbn [fst snd] in Hx. destruct Hx as (Ht1 & Ht2 & Hf).
      destruct (IH Hr Hs) as [IH1 IH2]. rewrite fold_left_app, last_last. cbn [fold_left fst]. set (s := fold_left onerun runs s0) in *. unfold onerun at 1 2. cbn [fst snd]. unfold UpdateStats. cbn [st_day st_areas].
      assert (Ed : u32 (t / 86400) = t / 86400) by (unfold u32; rewrite Z.mod_small; [reflexivity|]; split; [apply Z.div_pos; lia|lia]). split; [|exact Ed].
      rewrite map_map. eapply forall2_map; [|exact IH1]. cbn beta. intros a b [Hb1 Hb2]. split.
      + transitivity (as_tag b); auto. unfold updatearea, newtexts. cbn [as_newtexts as_newdupes as_tag]. destruct (_ || _); reflexivity.
      + rewrite map_app. cbn [map fst snd]. rewrite <- Hb1. apply (update_inv (st_day s)); auto.
        * rewrite Hb1. exact Hb2.
        * destruct runs as [|r0 runs'] eqn:ER; [left; split; [reflexivity|]; rewrite IH2; reflexivity|]. right. rewrite <- ER in *. assert (Hin : In (last runs (0, fun _ : list Z => 0)) runs).
          { assert (runs <> []) by (rewrite ER; discriminate). destruct (exists_last H) as (l' & x & ->). rewrite last_last. apply in_or_app. right. left. reflexivity. }
          rewrite IH2. split.
          -- rewrite Forall_forall in Hr, Hle. specialize (Hr _ Hin). specialize (Hle _ Hin). split; [|apply Z.div_le_mono; auto; lia]. assert (1 <= fst (last runs (0, fun _ => 0)) / 86400) by (apply Z.div_le_lower_bound; lia). lia.
          -- apply Forall_map. cbn [fst]. apply Forall_forall. intros r Hri. apply Z.div_le_mono; [lia|].
             assert (runs <> []) by (rewrite ER; discriminate). destruct (exists_last H) as (l' & x & El). rewrite El in *. rewrite last_last. apply ssorted_snoc in Hs as [_ Hs]. rewrite Forall_forall in Hs. apply in_app_or in Hri as [Hri|[<-|[]]]; auto. lia. }
  destruct H as [H1 H2]. rewrite <- H2. clear H2. induction H1 as [|a a' l l' [T (I1 & I2 & I3)] H1 IH]; constructor; [|apply IH; inversion_clear Hz; auto].
  split; auto. cbv zeta. split; auto. apply (nth_ext _ _ 0 0); [rewrite map_length, seq_length; exact I1|]. intros i Hi. rewrite I1 in Hi. rewrite I2 by auto.
  do 8 (destruct i as [|i]; [reflexivity|]). lia.
Qed.
Print Assumptions C43_history.
Definition xruns : list (Z * (list Z -> Z)) := [(86400 * 100, fun _ => 5); (86400 * 100 + 50, fun _ => 7); (86400 * 103, fun t => Z.of_nat (length t))].
Example C43_history_nonvacuous : xruns <> [] /\ st_day xfresh = 0 /\ Forall (fun a => as_texts a = 0 /\ as_last8 a = repeat 0 8) (st_areas xfresh) /\
  Forall (fun r => 86400 <= fst r /\ fst r / 86400 < 4294967296 /\ forall tag, 0 <= snd r tag) xruns /\ StronglySorted (fun r r' => fst r <= fst r') xruns /\
  map as_last8 (st_areas (fold_left onerun xruns xfresh)) = [[6; 0; 0; 12; 0; 0; 0; 0]; [3; 0; 0; 12; 0; 0; 0; 0]; [6; 0; 0; 12; 0; 0; 0; 0]].
Proof.
  split; [discriminate|]. split; [reflexivity|]. split; [repeat constructor|]. split; [unfold xruns; repeat constructor; cbn [fst snd]; try lia; vm_compute; congruence|].
  split; [unfold xruns; repeat constructor; cbn [fst]; lia|]. vm_compute. reflexivity.
Qed.

(** Totals and times: over all runs, whatever the clock does, the texts and duplicates of an area
    add up (modulo 2^32), the first time is that of the first run with new texts and the last
    time that of the last one. *)
Lemma updatearea_fields from day now a : let a' := updatearea from day now a in
  as_tag a' = as_tag a /\ as_dupes a' = (if negb (as_newtexts a =? 0) || negb (as_newdupes a =? 0) then u32 (as_dupes a + as_newdupes a) else as_dupes a) /\
  as_texts a' = (if negb (as_newtexts a =? 0) || negb (as_newdupes a =? 0) then u32 (as_texts a + as_newtexts a) else as_texts a) /\
  as_first a' = (if negb (as_newtexts a =? 0) && (as_first a =? 0) then now else as_first a) /\
  as_last a' = (if negb (as_newtexts a =? 0) then now else as_last a).
Proof.
  unfold updatearea. destruct (as_newtexts a =? 0) eqn:E1; destruct (as_newdupes a =? 0) eqn:E2; cbn [negb orb andb as_tag as_dupes as_texts as_first as_last]; repeat split; rewrite ?E1; reflexivity.
Qed.
Lemma total_app a b : total (a ++ b) = total a + total b.
Proof. unfold total. induction a as [|x a IH]; cbn [app fold_right]; lia. Qed.
Lemma total1 x : total [x] = x.
Proof. unfold total. cbn. lia. Qed.
Theorem C43_totals : forall runs s0,
  Forall (fun a => is_u32 (as_texts a) /\ is_u32 (as_dupes a)) (st_areas s0) -> Forall (fun r => 0 < fst (fst r)) runs ->
  Forall2 (fun a a' => as_tag a' = as_tag a /\
      as_texts a' = (as_texts a + total (map (fun r => snd (fst r) (as_tag a)) runs)) mod 4294967296 /\
      as_dupes a' = (as_dupes a + total (map (fun r => snd r (as_tag a)) runs)) mod 4294967296 /\
      as_first a' = (if as_first a =? 0 then hd 0 (busy (as_tag a) runs) else as_first a) /\
      as_last a' = last (busy (as_tag a) runs) (as_last a))
    (st_areas s0) (st_areas (fold_left fullrun runs s0)).
Proof.
  intros runs s0 H32 Ht. induction runs as [|[[t f] g] runs IH] using rev_ind.
  - cbn [fold_left map busy filter last hd total fold_right]. clear Ht. induction H32 as [|a l [H1 H2] _ IHl]; constructor; auto. rewrite !Z.add_0_r, !Z.mod_small by (unfold is_u32 in *; lia). repeat split. destruct (Z.eqb_spec (as_first a) 0); auto.
  - apply Forall_app in Ht as [Ht Hx]. apply Forall_inv in Hx. cbn [fst snd] in Hx. specialize (IH Ht). rewrite fold_left_app. cbn [fold_left]. unfold fullrun at 1. cbn [fst snd]. unfold UpdateStats. cbn [st_areas st_day]. rewrite map_map.
    eapply forall2_map; [|exact IH]. cbn beta. intros a b (B1 & B2 & B3 & B4 & B5). set (b' := newcounts f g b). set (from := if _ =? 0 then _ else _).
    pose proof (updatearea_fields from (u32 (t / 86400)) t b') as F. cbv zeta in F.
    destruct F as (F1 & F2 & F3 & F4 & F5). rewrite F1, F2, F3, F4, F5. unfold b'. cbn [newcounts as_tag as_newtexts as_newdupes as_texts as_dupes as_first as_last]. rewrite B1, !map_app, !total_app. unfold busy. rewrite filter_app, map_app. cbn [map filter fst snd]. rewrite !total1. split; [reflexivity|].
    split. { rewrite B2. generalize (total (map (fun r => snd (fst r) (as_tag a)) runs)) as T. intros T. destruct (Z.eqb_spec (f (as_tag a)) 0) as [E|E]; cbn [negb orb]; [rewrite E; destruct (negb (g (as_tag a) =? 0))|]; unfold u32; rewrite ?Zplus_mod_idemp_l, ?Z.add_0_r, ?Z.add_assoc; reflexivity. }
    split. { rewrite B3. generalize (total (map (fun r => snd r (as_tag a)) runs)) as T. intros T. destruct (Z.eqb_spec (f (as_tag a)) 0) as [E|E]; cbn [negb orb]; [destruct (Z.eqb_spec (g (as_tag a)) 0) as [E2|E2]; cbn [negb]; [rewrite E2|]|]; unfold u32; rewrite ?Zplus_mod_idemp_l, ?Z.add_0_r, ?Z.add_assoc; reflexivity. }
    rewrite B4, B5. fold (busy (as_tag a) runs). split.
    + destruct (Z.eqb_spec (f (as_tag a)) 0) as [E|E]; cbn [negb andb]; [rewrite app_nil_r; reflexivity|]. cbn [map fst].
      destruct (Z.eqb_spec (as_first a) 0) as [E0|E0].
      * destruct (busy (as_tag a) runs) as [|x l] eqn:Eb; cbn [hd app Z.eqb]; [reflexivity|]. assert (0 < x); [|destruct (Z.eqb_spec x 0); [lia|reflexivity]].
        assert (Hin : In x (busy (as_tag a) runs)) by (rewrite Eb; left; reflexivity). unfold busy in Hin. apply in_map_iff in Hin as (r & <- & Hr). apply filter_In in Hr as [Hr _]. rewrite Forall_forall in Ht. apply Ht. exact Hr.
      * destruct (Z.eqb_spec (as_first a) 0); [lia|reflexivity].
    + destruct (Z.eqb_spec (f (as_tag a)) 0) as [E|E]; cbn [negb]; [rewrite app_nil_r; reflexivity|]. cbn [map fst]. rewrite last_last. reflexivity.
Qed.
Print Assumptions C43_totals.
Definition xfull : list (Z * (list Z -> Z) * (list Z -> Z)) := [(86400 * 100, fun _ => 0, fun _ => 2); (86400 * 101, fun _ => 5, fun _ => 1); (86400 * 103, fun _ => 7, fun _ => 0)].
Example C43_totals_nonvacuous : Forall (fun a => is_u32 (as_texts a) /\ is_u32 (as_dupes a)) (st_areas xfresh) /\ Forall (fun r => 0 < fst (fst r)) xfull /\
  map (fun a => (as_texts a, as_dupes a, as_first a, as_last a)) (firstn 1 (st_areas (fold_left fullrun xfull xfresh))) = [(12, 3, 86400 * 101, 86400 * 103)].
Proof. split; [|split; [unfold xfull; repeat constructor|vm_compute; reflexivity]]. repeat constructor; vm_compute; congruence. Qed.
