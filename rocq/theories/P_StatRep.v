(** Lemmas about the model of CrashStats. *)
From Coq Require Import Permutation Sorted.
From Verif Require Import Base M_Node4D S_Node4D P_Node4D M_Str M_Mem M_Cfg M_Stats S_Stats T_Stats M_Date M_List S_List T_List M_Link M_Args M_Main M_AfList S_AfList P_AfList M_StatRep S_StatRep.
From Verif Require M_Export.

(** ** Numbers *)
Lemma intdec_ok z : int31 z -> intdec z = dec z.
Proof.
  intros H. unfold intdec. assert (E : s32 z = z) by (unfold s32, int31 in *; rewrite Z.mod_small by lia; lia). rewrite E.
  replace (z <? 0) with false; [reflexivity|]. symmetry. apply Z.ltb_ge. unfold int31 in H. lia.
Qed.
Lemma fmtd_ok w z : int31 z -> fmtd w z = number w z.
Proof. intros H. unfold fmtd, number. rewrite intdec_ok by auto. reflexivity. Qed.
Lemma total_app a b : total (a ++ b) = total a + total b.
Proof. unfold total. induction a as [|x a IH]; cbn [app fold_right]; lia. Qed.
Lemma total_nonneg l : Forall (fun x => 0 <= x) l -> 0 <= total l.
Proof. unfold total. induction 1; cbn [fold_right]; lia. Qed.
Lemma total_perm a b : Permutation a b -> total a = total b.
Proof. unfold total. induction 1; cbn [fold_right]; lia. Qed.
Lemma total_filter {A} (f : A -> Z) (p : A -> bool) l : Forall (fun a => 0 <= f a) l -> total (map f (filter p l)) <= total (map f l).
Proof. unfold total. induction 1 as [|a l H _ IH]; cbn [filter map fold_right]; [lia|]. destruct (p a); cbn [map fold_right]; lia. Qed.
Lemma sum32_ok l : Forall (fun x => 0 <= x) l -> total l < 4294967296 -> forall s, 0 <= s -> s + total l < 4294967296 -> fold_left (fun s x => u32 (s + x)) l s = s + total l.
Proof.
  intros H _. induction H as [|x l Hx H IH]; intros s Hs Hl; cbn [fold_left]; [unfold total; cbn; lia|].
  pose proof (total_nonneg l H). unfold total in *. cbn [fold_right] in *. rewrite IH; unfold u32; rewrite Z.mod_small; lia.
Qed.
Lemma sumdays_eq l : forall n from s, fold_left (fun s c => u32 (s + nth c l 0)) (seq from n) s = fold_left (fun s x => u32 (s + x)) (map (fun c => nth c l 0) (seq from n)) s.
Proof. induction n as [|n IH]; intros from s; cbn [seq fold_left map]; [reflexivity|]. apply IH. Qed.
Lemma last8_parts (l : list Z) : length l = 8%nat -> exists a b c d e f g h, l = [a; b; c; d; e; f; g; h].
Proof. destruct l as [|a [|b [|c [|d [|e [|f [|g [|h [|]]]]]]]]]; try discriminate. intros _. do 8 eexists. reflexivity. Qed.
Lemma nths_recent l n : length l = 8%nat -> (n <= 7)%nat -> map (fun c => nth c l 0) (seq 1 n) = firstn n (skipn 1 l).
Proof.
  intros H Hn. destruct (last8_parts l H) as (a & b & c & d & e & f & g & h & ->).
  do 8 (destruct n as [|n]; [reflexivity|]). lia.
Qed.
Lemma recent_bounds n l : length l = 8%nat -> Forall is_u16 l -> (n <= 7)%nat -> 0 <= recent n l <= 7 * 65535.
Proof.
  intros H Hf Hn. destruct (last8_parts l H) as (a & b & c & d & e & f & g & h & ->).
  repeat match goal with H : Forall _ (_ :: _) |- _ => inversion_clear H end. unfold is_u16 in *. unfold recent, total.
  do 8 (destruct n as [|n]; [cbn [firstn skipn fold_right]; lia|]). lia.
Qed.
Lemma sumdays_ok l n : length l = 8%nat -> Forall is_u16 l -> (n <= 7)%nat -> sumdays l 1 n = recent n l.
Proof.
  intros H Hf Hn. pose proof (recent_bounds n l H Hf Hn) as B. unfold sumdays. rewrite sumdays_eq, nths_recent by auto. unfold recent in *. rewrite sum32_ok; try lia.
  assert (G : Forall is_u16 (firstn n (skipn 1 l))).
  { destruct (last8_parts l H) as (a & b & c & d & e & f & g & h & ->). repeat match goal with H : Forall _ (_ :: _) |- _ => inversion_clear H end. apply Forall_forall. intros x Hx.
    assert (I : In x [b; c; d; e; f; g; h]) by (change [b; c; d; e; f; g; h] with (skipn 1 [a; b; c; d; e; f; g; h]); rewrite <- (firstn_skipn n (skipn 1 _)); apply in_or_app; left; exact Hx).
    cbn [In] in I. intuition congruence. }
  eapply Forall_impl; [|exact G]. unfold is_u16. intros; lia.
Qed.
Lemma average_ok day l texts first : length l = 8%nat -> Forall is_u16 l -> 0 <= first -> aged day first ->
  CalculateAverage l texts day (first / 86400) = average day l texts first.
Proof.
  intros Hl Hf H0 Ha. unfold CalculateAverage, average. destruct (Z.eqb_spec day 0); [reflexivity|]. cbn [orb].
  destruct (Z.ltb_spec first 86400) as [L|L].
  - rewrite Z.div_small by lia. reflexivity.
  - assert (1 <= first / 86400) by (apply Z.div_le_lower_bound; lia). replace (first / 86400 =? 0) with false by (symmetry; apply Z.eqb_neq; lia).
    destruct Ha as [->|Ha]; [lia|]. set (age := day - first / 86400) in *. assert (E : u16 age = age) by (unfold u16; apply Z.mod_small; lia). rewrite E.
    assert (E7 : (if age >? 7 then 7 else age) = Z.min 7 age) by (destruct (Z.gtb_spec age 7); lia). rewrite E7.
    rewrite sumdays_ok by (auto; lia). 
    replace (if age =? 0 then 1 else age) with (Z.max 1 age) by (destruct (Z.eqb_spec age 0); lia).
    replace (if Z.min 7 age =? 0 then 1 else Z.min 7 age) with (Z.max 1 (Z.min 7 age)) by (destruct (Z.eqb_spec (Z.min 7 age) 0); lia). reflexivity.
Qed.
Lemma average_int day l texts first : length l = 8%nat -> Forall is_u16 l -> int31 texts -> 0 <= first -> aged day first -> int31 (average day l texts first).
Proof.
  intros Hl Hf Ht H0 Ha. unfold average, int31 in *. destruct (_ || _) eqn:E; [lia|]. apply orb_false_iff in E as [_ E]. apply Z.ltb_ge in E. destruct Ha as [->|Ha]; [lia|].
  set (age := day - first / 86400) in *. pose proof (recent_bounds (Z.to_nat (Z.min 7 age)) l Hl Hf ltac:(lia)) as B. set (r := recent _ l) in *.
  destruct ((r =? 0) && negb (texts =? 0)).
  - split; [apply Z.div_pos; lia|]. apply Z.le_lt_trans with texts; [|lia]. apply Z.div_le_upper_bound; [lia|]. nia.
  - split; [apply Z.div_pos; lia|]. apply Z.le_lt_trans with r; [|lia]. apply Z.div_le_upper_bound; [lia|]. nia.
Qed.

(** ** Reading *)
Lemma readto_all n old (a b : list Z) : length a = n -> osReadTo n old (a ++ b) = (a ++ skipn n old, b).
Proof.
  intros H. pose proof (readto_full n old a b (length (a ++ b)) H) as G. rewrite firstn_all, app_length in G. rewrite G by lia.
  f_equal. rewrite firstn_all2; [reflexivity|lia].
Qed.
Lemma readrecs_all size rs rest fuel : (0 < size)%nat -> Forall (fun r => length r = size) rs -> (length (concat rs ++ rest) < fuel)%nat ->
  readrecs fuel size (Z.of_nat (length rs)) (concat rs ++ rest) = (rs, rest).
Proof.
  intros Hs Hr Hf. pose proof (readrecs_prefix size rs rest Hs Hr fuel (length (concat rs ++ rest))) as G. rewrite firstn_all in G. destruct (G Hf) as (rs1 & rs2 & E & G1 & [(-> & _ & G2)|[G2 _]]).
  - rewrite app_nil_r in E. subst rs1. rewrite app_length in G2. rewrite firstn_all2 in G2 by lia. destruct (readrecs _ _ _ _). cbn in *. subst. reflexivity.
  - rewrite app_length in G2. lia.
Qed.
Definition rowof (day : Z) (a : astat) : srow :=
  SR (as_tag a) (CalculateAverage (as_last8 a) (as_texts a) day (as_first a / 86400)) (as_texts a) (as_dupes a) (as_first a) (as_last a) (as_last8 a).
Lemma area_group j a : (length (as_tag a) <= 79)%nat -> nth 88 (areabytes j a) 0 = as_group a.
Proof.
  intros H. unfold areabytes. rewrite app_assoc, app_assoc. set (t := (as_tag a ++ [0]) ++ map j (seq 0 (79 - length (as_tag a)))).
  assert (L : length t = 80%nat) by (unfold t; rewrite !app_length, map_length, seq_length; cbn [length]; lia).
  rewrite app_nth2 by lia. rewrite L. reflexivity.
Qed.
Lemma area_read_ok day j a : S_Stats.area_fine a -> cs_area day (areabytes j a) = Some (rowof day a) /\ get64 (areabytes j a) 120 = as_first a.
Proof.
  intros Fa. destruct (areabytes_split j a Fa) as (t & r & -> & Lt & Hz & Ht & Lr & H1 & H2 & H3 & H4 & H5). unfold cs_area, rowof.
  assert (F80 : firstn 80 (t ++ r) = t) by (rewrite firstn_app, Lt, Nat.sub_diag, firstn_O, app_nil_r; apply firstn_all2; lia).
  rewrite F80, Hz, Ht.
  assert (G : forall i, get16 (t ++ r) (80 + i) = get16 r i) by (intros i; rewrite <- Lt; apply get16_skip).
  assert (G32 : forall i, get32 (t ++ r) (80 + i) = get32 r i) by (intros i; rewrite <- Lt; apply get32_skip).
  assert (G64 : forall i, get64 (t ++ r) (80 + i) = get64 r i) by (intros i; unfold get64; rewrite <- Nat.add_assoc, !G32; reflexivity).
  pose proof (G32 12%nat) as A1. pose proof (G32 32%nat) as A3. pose proof (G64 40%nat) as A4. pose proof (G64 48%nat) as A5.
  rewrite H1 in A1. rewrite H3 in A3. rewrite H4 in A4. rewrite H5 in A5.
  change (80 + 12)%nat with 92%nat in A1. change (80 + 32)%nat with 112%nat in A3. change (80 + 40)%nat with 120%nat in A4. change (80 + 48)%nat with 128%nat in A5. rewrite A1, A3, A4, A5.
  split; [|reflexivity].
  replace (map (fun i => get16 (t ++ r) (96 + 2 * i)) (seq 0 8)) with (as_last8 a); [reflexivity|].
  rewrite <- H2. apply map_ext. intros i. replace (96 + 2 * i)%nat with (80 + (16 + 2 * i))%nat by lia. symmetry. apply G.
Qed.
Definition wantedb (groups : option (list Z)) (a : astat) : bool := match groups with None => true | Some g => M_Export.CheckFlags (as_group a) g end.
Lemma wantedb_ok groups a : wantedb groups a = true <-> in_groups groups a.
Proof.
  unfold wantedb, in_groups. destruct groups as [g|]; [|tauto]. unfold M_Export.CheckFlags. rewrite existsb_exists. split; intros (c & H1 & H2); exists c; split; auto; [apply Z.eqb_eq in H2|apply Z.eqb_eq]; auto.
Qed.
Lemma areas_read_ok groups day ws rs : Forall2 (fun w r => exists j, r = areabytes j w) ws rs -> Forall S_Stats.area_fine ws ->
  cs_areas groups day rs = Some (map (rowof day) (filter (wantedb groups) ws)) /\ map (fun r => get64 r 120) rs = map as_first ws /\ Forall (fun r => length r = 136%nat) rs.
Proof.
  induction 1 as [|w r ws rs (j & ->) F IH]; intros Fw; [repeat split; constructor|]. inversion_clear Fw as [|? ? F1 F2]. destruct (IH F2) as (I1 & I2 & I3).
  destruct (area_read_ok day j w F1) as [A1 A2]. cbn [cs_areas filter map]. rewrite I1. unfold cs_wanted. rewrite area_group by apply F1.
  split; [|split; [rewrite A2, I2; reflexivity|constructor; auto; apply areabytes_length; auto]].
  change (match groups with Some g => M_Export.CheckFlags (as_group w) g | None => true end) with (wantedb groups w).
  destruct (wantedb groups w); [rewrite A1|]; reflexivity.
Qed.
Lemma nodes_read_ok ws rs : Forall2 (fun w r => exists j, r = nodebytes j w) ws rs -> Forall node_fine ws ->
  map cs_node rs = ws /\ map (fun r => get64 r 48) rs = map ns_first ws /\ Forall (fun r => length r = 56%nat) rs.
Proof.
  induction 1 as [|w r ws rs (j & ->) F IH]; intros Fw; [repeat split; constructor|]. inversion_clear Fw as [|? ? F1 F2]. destruct (IH F2) as (I1 & I2 & I3).
  destruct (nodebytes_eq j w F1) as (L & N & E). cbn [map]. unfold cs_node at 1. rewrite N. cbv zeta in E. rewrite E, I1, I2. split; [reflexivity|]. split; [|constructor; auto].
  f_equal. apply (f_equal ns_first) in E. exact E.
Qed.
Lemma earlier_ok ts : Forall (fun t => 0 <= t) ts -> forall ft, 0 <= ft -> first_of (fun x => x = ft \/ In x ts) (fold_left earlier ts ft).
Proof.
  unfold first_of. induction 1 as [|t ts Ht F IH]; intros ft Hft; cbn [fold_left].
  - destruct (Z.eq_dec ft 0) as [->|N]; [left; split; auto; intros x [->|[]]; auto|right; split; auto; split; auto]. intros x [->|[]] _. lia.
  - assert (G : exists ft', earlier ft t = ft' /\ 0 <= ft' /\ (ft' = t \/ ft' = ft) /\ (ft' = 0 -> t = 0 /\ ft = 0) /\ (t <> 0 -> ft' <= t) /\ (ft <> 0 -> ft' <= ft)).
    { eexists. split; [reflexivity|]. unfold earlier. destruct (Z.eqb_spec t 0); cbn [negb andb]; [repeat split; auto; lia|]. destruct (Z.eqb_spec ft 0); cbn [orb]; [repeat split; auto; lia|]. destruct (Z.gtb_spec ft t); repeat split; auto; lia. }
    destruct G as (ft' & -> & P0 & P1 & P2 & P3 & P4). destruct (IH ft' P0) as [[E A]|(A & N & B)].
    + left. split; auto. assert (Z0 : ft' = 0) by (apply A; auto). destruct (P2 Z0) as [-> ->]. intros x [->|[<-|Hx]]; auto.
    + right. set (z := fold_left earlier ts ft') in *. split; [destruct A as [A|A]; [rewrite A; destruct P1 as [-> | ->]; [right; left; auto|left; auto]|right; right; auto]|]. split; auto.
      intros x [->|[<-|Hx]] Hn; [specialize (P4 Hn)|specialize (P3 Hn)|apply B; auto]; (destruct (Z.eq_dec ft' 0) as [E0|E0]; [destruct (P2 E0); congruence|]); specialize (B ft' (or_introl eq_refl) E0); lia.
Qed.

(** ** Sorting *)
Lemma ss_map {A B} (f : A -> B) (R : B -> B -> Prop) l : StronglySorted R (map f l) -> StronglySorted (fun a b => R (f a) (f b)) l.
Proof. induction l as [|a l IH]; cbn [map]; intros H; constructor; inversion_clear H as [|? ? H0 H1]; auto. apply (proj1 (Forall_map f _ l)) in H1. exact H1. Qed.
Lemma ss_impl {A} (R S : A -> A -> Prop) l : (forall a b, In a l -> In b l -> R a b -> S a b) -> StronglySorted R l -> StronglySorted S l.
Proof.
  intros H F. induction F as [|a l F IH G]; constructor.
  - apply IH. intros x y Hx Hy. apply H; right; auto.
  - rewrite Forall_forall in *. intros x Hx. apply H; [left|right|]; auto.
Qed.
Lemma more_le f a b : more f a b <= 0 <-> f b <= f a.
Proof. unfold more. destruct (Z.ltb_spec (f a) (f b)), (Z.gtb_spec (f a) (f b)); lia. Qed.
Lemma more_anti f a b : more f a b = - more f b a.
Proof. unfold more. destruct (Z.ltb_spec (f a) (f b)), (Z.gtb_spec (f a) (f b)), (Z.ltb_spec (f b) (f a)), (Z.gtb_spec (f b) (f a)); lia. Qed.
Definition rbefore (o : order) (a b : srow) : Prop :=
  match o with
  | ByName => name_le (sr_tag a) (sr_tag b) | ByMessages => sr_total b <= sr_total a | ByAverage => sr_avg b <= sr_avg a
  | ByFirst => sr_first b <= sr_first a | ByLast => sr_last b <= sr_last a | ByDupes => sr_dupes b <= sr_dupes a
  end.
Lemma sort_more qs f l : sorts qs -> Permutation (qs (more f) l) l /\ StronglySorted (fun a b => f b <= f a) (qs (more f) l).
Proof.
  intros H. destruct (H (more f) l) as [P S].
  - intros a b _ _. rewrite (more_anti f a b). lia.
  - intros a b c _ _ _. rewrite !more_le. lia.
  - split; auto. eapply ss_impl; [|exact S]. intros a b _ _. apply more_le.
Qed.
Lemma sort_ok E o l : sorts (cs_qsort E) -> Forall (fun r => cstring (sr_tag r)) l ->
  Permutation (SortRows E (hd 0 (letter o)) l) l /\ StronglySorted (rbefore o) (SortRows E (hd 0 (letter o)) l).
Proof.
  intros H F. destruct o; cbn [letter]; [|apply (sort_more _ sr_total l H)|apply (sort_more _ sr_avg l H)|apply (sort_more _ sr_first l H)|apply (sort_more _ sr_last l H)|apply (sort_more _ sr_dupes l H)].
  change (SortRows E (hd 0 (lit "a")) l) with (cs_qsort E CompareAlpha l). rewrite Forall_forall in F. destruct (H CompareAlpha l) as [P S].
  - intros a b _ _. unfold CompareAlpha. rewrite (stricmp_anti (sr_tag a)). lia.
  - unfold CompareAlpha. intros a b c Ha Hb Hc. rewrite !stricmp_le by auto. apply name_le_trans.
  - split; auto. eapply ss_impl; [|exact S]. intros a b Ha Hb. cbn [rbefore]. apply stricmp_le; apply F; eapply Permutation_in; eauto.
Qed.
Lemma compare_before a b : zone a <> 0 -> zone b <> 0 -> Compare4D a b <= 0 <-> node_before a b.
Proof.
  intros Ha Hb. unfold Compare4D, node_before. apply Z.eqb_neq in Ha, Hb. rewrite Ha, Hb. cbn [negb andb].
  destruct (Z.gtb_spec (zone a) (zone b)); [lia|]. destruct (Z.ltb_spec (zone a) (zone b)); [lia|].
  destruct (Z.gtb_spec (net a) (net b)); [lia|]. destruct (Z.ltb_spec (net a) (net b)); [lia|].
  destruct (Z.gtb_spec (node a) (node b)); [lia|]. destruct (Z.ltb_spec (node a) (node b)); [lia|].
  destruct (Z.gtb_spec (point a) (point b)); [lia|]. destruct (Z.ltb_spec (point a) (point b)); lia.
Qed.
Lemma nodesort_ok E l : sorts (cs_nqsort E) -> Forall node_fine l ->
  Permutation (cs_nqsort E CompareNodes l) l /\ StronglySorted (fun a b => node_before (ns_node a) (ns_node b)) (cs_nqsort E CompareNodes l).
Proof.
  intros H F. rewrite Forall_forall in F. assert (Z0 : forall n, In n l -> zone (ns_node n) <> 0) by (intros n Hn; apply F; auto).
  destruct (H CompareNodes l) as [P S]; unfold CompareNodes in *.
  - intros a b _ _. rewrite (compare_antisym (ns_node a)). lia.
  - intros a b c Ha Hb Hc. rewrite !compare_before by auto. unfold node_before. lia.
  - split; auto. eapply ss_impl; [|exact S]. cbv beta. intros a b Ha Hb. apply compare_before; apply Z0; eapply Permutation_in; eauto.
Qed.

(** ** Texts *)
Lemma add8_ok ls : forall t, t = map (fun c => u16 (nth c t 0)) (seq 0 8) ->
  fold_left add8 ls t = map (fun c => u16 (nth c t 0 + total (map (fun l => nth c l 0) ls))) (seq 0 8).
Proof.
  assert (N : forall (g : nat -> Z) c, In c (seq 0 8) -> nth c (map g (seq 0 8)) 0 = g c).
  { intros g c Hc. apply in_seq in Hc. rewrite (nth_indep _ 0 (g 0%nat)) by (rewrite map_length, seq_length; lia). rewrite map_nth, seq_nth by lia. reflexivity. }
  induction ls as [|l ls IH]; intros t Ht; cbn [fold_left].
  - rewrite Ht at 1. apply map_ext. intros c. cbn. rewrite Z.add_0_r. reflexivity.
  - rewrite IH.
    + apply map_ext_in. intros c Hc. unfold add8 at 1. rewrite N by auto. cbn [map]. unfold total. cbn [fold_right]. unfold u16. rewrite Zplus_mod_idemp_l. f_equal. lia.
    + unfold add8 at 1. apply map_ext_in. intros c Hc. unfold add8. rewrite N by auto. unfold u16. rewrite Zmod_mod. reflexivity.
Qed.
Lemma columns_ok rows : (forall i, (i < 8)%nat -> 0 <= columnsum rows i < 65536) -> forall day,
  fold_left add8 (map sr_last8 (map (rowof day) rows)) (repeat 0 8) = map (columnsum rows) (seq 0 8).
Proof.
  intros H day. rewrite add8_ok by reflexivity. apply map_ext_in. intros c Hc. apply in_seq in Hc. rewrite !map_map. cbn [rowof sr_last8].
  replace (nth c (repeat 0 8) 0) with 0 by (symmetry; apply nth_repeat). unfold u16. rewrite Z.add_0_l. apply Z.mod_small. apply H. lia.
Qed.
Lemma lastrow_ok name l : length l = 8%nat -> Forall is_u16 l -> last7row name l = daysrow name (skipn 1 l).
Proof.
  intros H F. unfold last7row, daysrow. rewrite padr_column. rewrite sumdays_ok by auto. pose proof (recent_bounds 7 l H F ltac:(lia)) as B. rewrite fmtd_ok by (unfold int31; lia).
  replace (recent 7 l) with (total (skipn 1 l)) by (unfold recent; rewrite firstn_all2; [reflexivity|rewrite skipn_length; lia]).
  f_equal. f_equal. f_equal.
  assert (G : map (fun c => nth c l 0) (seq 1 7) = skipn 1 l) by (rewrite nths_recent by auto; apply firstn_all2; rewrite skipn_length; lia).
  rewrite <- G, map_map. apply map_ext. intros c. f_equal. apply fmtd_ok.
  destruct (nth_in_or_default c l 0) as [I| ->]; [|unfold int31; lia]. rewrite Forall_forall in F. specialize (F _ I). unfold is_u16, int31 in *. lia.
Qed.
Lemma unit_mb b : is_u32 b -> cs_unit b = megabytes b.
Proof.
  intros H. unfold cs_unit, megabytes. replace (u32 (-10000000)) with 4284967296 by reflexivity.
  replace ((b >? 10000000) || (b <? 4284967296)) with true; [reflexivity|]. destruct (Z.gtb_spec b 10000000), (Z.ltb_spec b 4284967296); try reflexivity. lia.
Qed.
Lemma noderow_ok E n : node_fine n -> noderow E n = nodetext (cs_localtime E) n.
Proof.
  intros [(Hz & Hn & Hf & Hp) _ Hc _]. repeat match goal with H : Forall _ (_ :: _) |- _ => inversion_clear H end.
  unfold noderow, nodetext. cbv zeta. rewrite !unit_mb by auto.
  pose proof (dec_length_u16 _ Hz). pose proof (dec_length_u16 _ Hn). pose proof (dec_length_u16 _ Hf). pose proof (dec_length_u16 _ Hp).
  unfold fmtl, wide. change (dec (zone (ns_node n)) ++ lit ":" ++ dec (net (ns_node n)) ++ lit "/" ++ dec (node (ns_node n)) ++ lit "." ++ dec (point (ns_node n))) with (adr (ns_node n)).
  rewrite (firstn_all2 (n := 40)) by (unfold adr; rewrite !app_length; cbn [length lit map list_ascii_of_string]; lia).
  generalize (megabytes (ns_sentnetb n)) (megabytes (ns_gotnetb n)) (megabytes (ns_sentechob n)) (megabytes (ns_gotechob n)). intros m1 m2 m3 m4.
  generalize (if ns_first n =? 0 then lit "<Never>" else dec (tm_mday (cs_localtime E (ns_first n))) ++ lit "-" ++ nth (Z.to_nat (tm_mon (cs_localtime E (ns_first n)))) monthnames [] ++ lit "-" ++ dec (Z.rem (tm_year (cs_localtime E (ns_first n))) 100)). intros d.
  generalize (dec (ns_sentnet n)) (dec (ns_gotnet n)) (dec (ns_sentecho n)) (dec (ns_gotecho n)) (dec (ns_dupes n)) (adr (ns_node n)). intros d1 d2 d3 d4 d5 a.
  repeat rewrite <- app_assoc. reflexivity.
Qed.
(** areas that are shown *)
Record shown (st : stats) (day : Z) (rows : list astat) : Prop := {
  sh_in : incl rows (st_areas st);
  sh_fine : Forall S_Stats.area_fine rows;
  sh_texts : int31 (total (map as_texts rows)); sh_dupes : int31 (total (map as_dupes rows));
  sh_cols : forall i, (i < 8)%nat -> 0 <= columnsum rows i < 65536;
  sh_each : Forall (fun a => int31 (as_texts a) /\ int31 (as_dupes a) /\ aged day (as_first a)) rows;
  sh_len : Z.of_nat (length rows) < 4294967296 }.
Lemma area_avg day a : S_Stats.area_fine a -> aged day (as_first a) -> CalculateAverage (as_last8 a) (as_texts a) day (as_first a / 86400) = average day (as_last8 a) (as_texts a) (as_first a).
Proof. intros [_ _ _ _ [H1 H2] H3 _] Ha. apply average_ok; auto. unfold is_u64 in H3. lia. Qed.
Lemma neverdate_ok lt t : neverdate lt t = knowndate lt t.
Proof. reflexivity. Qed.
Lemma arearow_ok E day a : S_Stats.area_fine a -> int31 (as_texts a) -> int31 (as_dupes a) -> aged day (as_first a) ->
  arearow E (rowof day a) = wide 29 (firstn 30 (as_tag a)) ++ lit " " ++ column 9 (knowndate (cs_localtime E) (as_first a)) ++ lit " " ++ column 9 (knowndate (cs_localtime E) (as_last a)) ++ lit " " ++
    number 7 (as_texts a) ++ lit "   " ++ number 7 (average day (as_last8 a) (as_texts a) (as_first a)) ++ lit " " ++ number 7 (as_dupes a) ++ [10].
Proof.
  intros F Ht Hd Ha. unfold arearow, rowof. cbn [sr_tag sr_first sr_last sr_total sr_avg sr_dupes]. rewrite area_avg by auto. rewrite !neverdate_ok, !padr_column, !fmtd_ok; auto.
  destruct F as [_ _ _ _ [H1 H2] H3 _]. apply average_int; auto. unfold is_u64 in H3. lia.
Qed.
Lemma areapart_ok E st day first rows : shown st day rows -> 0 <= first -> aged day first ->
  areapart E day first (map (rowof day) rows) = areatable (cs_localtime E) day first rows.
Proof.
  intros [_ Hf Ht Hd Hc He Hl] H0 Ha. unfold areapart, areatable. cbv zeta. rewrite columns_ok by auto. rewrite map_length, !map_map. cbn [rowof sr_total sr_dupes].
  change (map (fun x => as_texts x) rows) with (map as_texts rows). change (map (fun x => as_dupes x) rows) with (map as_dupes rows).
  assert (N1 : Forall (fun x => 0 <= x) (map as_texts rows) /\ Forall (fun x => 0 <= x) (map as_dupes rows)).
  { split; apply Forall_map; (eapply Forall_impl; [|exact He]); unfold int31; cbv beta; intros a H; lia. }
  destruct N1 as [N1 N2]. unfold sum32. rewrite !sum32_ok by (auto; unfold int31 in *; lia). rewrite !Z.add_0_l.
  assert (L8 : length (map (columnsum rows) (seq 0 8)) = 8%nat) by (rewrite map_length, seq_length; reflexivity).
  assert (F8 : Forall is_u16 (map (columnsum rows) (seq 0 8))) by (apply Forall_map, Forall_forall; intros c Hi; apply in_seq in Hi; apply Hc; lia).
  rewrite average_ok by auto. rewrite !fmtd_ok by (auto; apply average_int; auto).
  unfold allareas. replace (u32 (Z.of_nat (length rows))) with (Z.of_nat (length rows)) by (symmetry; unfold u32; apply Z.mod_small; lia).
  replace (concat (map (fun x => arearow E (rowof day x)) rows)) with (concat (map (fun a => wide 29 (firstn 30 (as_tag a)) ++ lit " " ++ column 9 (knowndate (cs_localtime E) (as_first a)) ++ lit " " ++ column 9 (knowndate (cs_localtime E) (as_last a)) ++ lit " " ++
    number 7 (as_texts a) ++ lit "   " ++ number 7 (average day (as_last8 a) (as_texts a) (as_first a)) ++ lit " " ++ number 7 (as_dupes a) ++ [10]) rows)); [reflexivity|].
  f_equal. apply map_ext_in. intros a Hi. rewrite Forall_forall in Hf, He. destruct (He a Hi) as (? & ? & ?). symmetry. apply arearow_ok; auto.
Qed.
Lemma last7part_ok E st day rows : shown st day rows -> 8 <= day -> day * 86400 < 4294967296 ->
  last7part E day (map (rowof day) rows) = daystable (cs_localtime E) day rows.
Proof.
  intros [_ Hf _ _ Hc _ Hl] H8 Hd. unfold last7part, daystable. rewrite columns_ok by auto. rewrite map_length, !map_map. cbn [rowof sr_tag sr_last8].
  assert (L8 : length (map (columnsum rows) (seq 0 8)) = 8%nat) by (rewrite map_length, seq_length; reflexivity).
  assert (F8 : Forall is_u16 (map (columnsum rows) (seq 0 8))) by (apply Forall_map, Forall_forall; intros c Hi; apply in_seq in Hi; apply Hc; lia).
  rewrite lastrow_ok by auto. change (skipn 1 (map (columnsum rows) (seq 0 8))) with (map (columnsum rows) (seq 1 7)).
  replace (u32 (Z.of_nat (length rows))) with (Z.of_nat (length rows)) by (symmetry; unfold u32; apply Z.mod_small; lia).
  fold (allareas rows). replace (concat (map (fun a => last7row (as_tag a) (as_last8 a)) rows)) with (concat (map (fun a => daysrow (as_tag a) (skipn 1 (as_last8 a))) rows)).
  2:{ f_equal. apply map_ext_in. intros a Hi. rewrite Forall_forall in Hf. destruct (Hf a Hi) as [_ _ _ _ [H1 H2] _ _]. symmetry. apply lastrow_ok; auto. }
  replace (map (fun c => lit "   " ++ pad2 (tm_mday (cs_localtime E (u32 (u32 (day - Z.of_nat c) * 86400))))) (seq 1 7)) with (map (fun i => lit "   " ++ pad2 (tm_mday (cs_localtime E ((day - Z.of_nat i) * 86400)))) (seq 1 7)).
  2:{ apply map_ext_in. intros c Hi. apply in_seq in Hi. do 4 f_equal. unfold u32. rewrite (Z.mod_small (day - _)) by lia. symmetry. apply Z.mod_small. lia. }
  generalize (daysrow (allareas rows) (map (columnsum rows) (seq 1 7))) (concat (map (fun a => daysrow (as_tag a) (skipn 1 (as_last8 a))) rows))
    (concat (map (fun i => lit "   " ++ pad2 (tm_mday (cs_localtime E ((day - Z.of_nat i) * 86400)))) (seq 1 7))). intros x y z.
  change (column 33 (lit "Area")) with (lit "Area                             "). change RULE76 with ruler.
  change (repeat 61 77 ++ [10] ++ x) with ((lit "=" ++ ruler) ++ x). repeat rewrite <- app_assoc. reflexivity.
Qed.
