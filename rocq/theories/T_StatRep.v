(** C68: CrashStats. *)
From Coq Require Import Permutation Sorted.
From Verif Require Import Base M_Node4D S_Node4D P_Node4D M_Str M_Mem M_Cfg M_Stats S_Stats T_Stats M_Date M_List S_List T_List M_Link M_Args M_Main M_AfList S_AfList P_AfList M_StatRep S_StatRep P_StatRep.
From Verif Require S_GetNode P_GetNode.

(** ** Command lines *)
Definition nokeyword (w : list Z) : Prop := ~ In (map tolower w) [lit "file"; lit "sort"; lit "last7"; lit "noareas"; lit "nonodes"; lit "group"].
(** file [SORT letter] [LAST7] [NOAREAS] [NONODES] [GROUP letters] *)
Definition cmdline (f : list Z) (sort : option (list Z)) (last7 noareas nonodes : bool) (groups : option (list Z)) : list (list Z) :=
  [f] ++ (match sort with Some w => [lit "SORT"; w] | None => [] end) ++ (if last7 then [lit "LAST7"] else []) ++
  (if noareas then [lit "NOAREAS"] else []) ++ (if nonodes then [lit "NONODES"] else []) ++ (match groups with Some g => [lit "GROUP"; g] | None => [] end).
Lemma file_free f : nokeyword f -> keyfind args_crashstats f = None.
Proof. intros H. apply P_GetNode.key_none. unfold nokeyword in H. cbn [In] in H. unfold args_crashstats. repeat (apply Forall_cons; [cbn [a_name aauto astr abool]; intros E; apply H; rewrite E; vm_compute; tauto|]). constructor. Qed.
Definition sortmode (sort : option (list Z)) : Z := match sort with Some w => tolower (hd 0 w) | None => 97 end.
Lemma command_ok E f sort (last7 noareas nonodes : bool) groups : nokeyword f -> S_GetNode.nohelp f ->
  crashstats E (cmdline f sort last7 noareas nonodes groups) =
  if negb ((sortmode sort =? 0) || existsb (Z.eqb (sortmode sort)) (lit "amtdlu")) then Some (CsBadSort (sortmode sort)) else
  if noareas && nonodes then Some CsNothing else cs_run E f (sortmode sort) last7 noareas nonodes groups.
Proof.
  intros Hk Hh. unfold crashstats, cmdline. cbn [app]. rewrite (P_GetNode.nohelp_false f Hh). unfold parseargs. set (T := args_crashstats).
  cbn [argloop]. replace (keyfind T f) with (@None nat) by (symmetry; apply file_free; auto).
  change (autofind T (repeat None (length T))) with (Some 0%nat). cbv iota beta. change (setd 0 (VWord f) (repeat None (length T))) with [Some (VWord f); None; None; None; None; None].
  assert (K1 : keyfind T (lit "SORT") = Some 1%nat) by reflexivity. assert (K2 : keyfind T (lit "LAST7") = Some 2%nat) by reflexivity. assert (K3 : keyfind T (lit "NOAREAS") = Some 3%nat) by reflexivity.
  assert (K4 : keyfind T (lit "NONODES") = Some 4%nat) by reflexivity. assert (K5 : keyfind T (lit "GROUP") = Some 5%nat) by reflexivity.
  assert (T1 : typeof T 1 = AString) by reflexivity. assert (T2 : typeof T 2 = ABool) by reflexivity. assert (T3 : typeof T 3 = ABool) by reflexivity. assert (T4 : typeof T 4 = ABool) by reflexivity. assert (T5 : typeof T 5 = AString) by reflexivity.
  destruct sort as [w|], last7, noareas, nonodes, groups as [g|]; cbn [app argloop]; rewrite ?K1, ?T1; cbv iota; cbn [argloop]; rewrite ?K2, ?T2; cbv iota; cbn [argloop]; rewrite ?K3, ?T3; cbv iota; cbn [argloop]; rewrite ?K4, ?T4; cbv iota; cbn [argloop]; rewrite ?K5, ?T5; cbv iota; cbn [argloop setd]; reflexivity.
Qed.

(** ** The file *)
Lemma run_file E f junk today st mode (last7 noareas nonodes : bool) groups : stats_fine st -> is_u32 today -> cs_read E f = Some (WriteStats junk today st) ->
  let day := if st_day st =? 0 then today else st_day st in
  let ws := filter counted (st_areas st) in
  let ft1 := if noareas then 0 else fold_left earlier (map as_first ws) 0 in
  let ft := if nonodes then ft1 else fold_left earlier (map ns_first (st_nodes st)) ft1 in
  let rows := SortRows E mode (SortRows E 97 (map (rowof day) (filter (wantedb groups) ws))) in
  cs_run E f mode last7 noareas nonodes groups = Some (CsReport (report (cs_localtime E) day ft
    (if noareas then [] else [10] ++ if last7 then last7part E day rows else areapart E day ft rows)
    (if nonodes then [] else nodepart E (cs_nqsort E CompareNodes (st_nodes st))))).
Proof.
  intros F Hday Hr day ws ft1 ft rows.
  assert (Hd : is_u32 day) by (unfold day; destruct (st_day st =? 0); auto; apply F).
  assert (Fw : Forall S_Stats.area_fine ws). { apply Forall_forall. intros a Ha. apply filter_In in Ha as [Ha _]. destruct F as [_ Fa _ _ _ _]. rewrite Forall_forall in Fa. auto. }
  assert (Hlw : (length ws <= length (st_areas st))%nat) by (unfold ws; clear; induction (st_areas st) as [|a l IH]; cbn; [lia|]; destruct (counted a); cbn; lia).
  destruct F as [_ _ Fn _ _ [HA HN]].
  destruct (records_concat areabytes junk ws 0) as (ra & Ea & Fra). destruct (records_concat nodebytes junk (st_nodes st) (length ws)) as (rn & En & Frn).
  destruct (areas_read_ok groups day ws ra Fra Fw) as (A1 & A2 & A3). destruct (nodes_read_ok _ rn Frn Fn) as (N1 & N2 & N3).
  assert (EW : WriteStats junk today st = lit "CST3" ++ le32 day ++ le32 (Z.of_nat (length ra)) ++ concat ra ++ le32 (Z.of_nat (length rn)) ++ concat rn ++ []).
  { unfold WriteStats. fold ws day. rewrite Ea, En. rewrite (Forall2_len _ _ _ Fra), (Forall2_len _ _ _ Frn), app_nil_r. reflexivity. }
  assert (Hra : is_u32 (Z.of_nat (length ra))) by (rewrite <- (Forall2_len _ _ _ Fra); unfold is_u32; lia).
  assert (Hrn : is_u32 (Z.of_nat (length rn))) by (rewrite <- (Forall2_len _ _ _ Frn); unfold is_u32; lia).
  assert (G32 : forall z o, is_u32 z -> get32 (le32 z ++ o) 0 = z) by (intros z o Hz; etransitivity; [|apply (le32_get _ Hz)]; reflexivity).
  unfold cs_run. rewrite Hr, EW. set (F := lit "CST3" ++ _).
  assert (LF : (length (concat ra ++ le32 (Z.of_nat (length rn)) ++ concat rn ++ []) < S (length F))%nat) by (unfold F; rewrite !app_length; lia).
  assert (LN : (length (concat rn ++ []) < S (length F))%nat) by (unfold F; rewrite !app_length; lia).
  generalize dependent (S (length F)). intros fuel LF LN. unfold F.
  rewrite (readto_all 4 _ (lit "CST3")) by reflexivity. cbn [fst snd].
  replace (firstn 4 (lit "CST3" ++ skipn 4 (cs_junk1 E))) with (lit "CST3") by reflexivity.
  change (negb (streq (cstr (lit "CST3")) (lit "CST3"))) with false. cbv iota.
  rewrite (readto_all 4 _ (le32 day)) by reflexivity. cbn [fst snd]. rewrite (readto_all 4 _ (le32 (Z.of_nat (length ra)))) by reflexivity. cbn [fst snd]. rewrite !G32 by auto.
  rewrite readrecs_all by (auto; lia). cbn [fst snd]. rewrite (readto_all 4 _ (le32 (Z.of_nat (length rn)))) by reflexivity. cbn [fst snd]. rewrite !G32 by auto.
  rewrite readrecs_all by (auto; lia). cbn [fst snd]. rewrite A1, A2, N1, N2.
  unfold report, rows. fold ft1 ft.
  destruct noareas; cbn [obind]; destruct nonodes; reflexivity.
Qed.

(** What is printed about statistics CrashMail wrote: the areas of the groups wanted, in the
    order wanted, with all their numbers and the sums, and the nodes by address. *)
Theorem C68_report : forall E f junk today st sort last7 noareas nonodes groups, sorts (cs_qsort E) -> sorts (cs_nqsort E) ->
  nokeyword f -> S_GetNode.nohelp f -> noareas && nonodes = false ->
  stats_fine st -> is_u32 today -> cs_read E f = Some (WriteStats junk today st) ->
  let day := if st_day st =? 0 then today else st_day st in
  let o := match sort with Some o => o | None => ByName end in
  moderate st day ->
  exists rows nodes first,
    (forall a, In a rows <-> In a (st_areas st) /\ has_stats a /\ in_groups groups a) /\ NoDup rows /\ StronglySorted (before o day) rows /\
    Permutation nodes (st_nodes st) /\ StronglySorted (fun a b => node_before (ns_node a) (ns_node b)) nodes /\
    first_of (fun t => (noareas = false /\ exists a, In a (st_areas st) /\ has_stats a /\ t = as_first a) \/ (nonodes = false /\ exists n, In n (st_nodes st) /\ t = ns_first n)) first /\
    crashstats E (cmdline f (option_map letter sort) last7 noareas nonodes groups) = Some (CsReport (report (cs_localtime E) day first
      (if noareas then [] else [10] ++ if last7 then daystable (cs_localtime E) day rows else areatable (cs_localtime E) day first rows)
      (if nonodes then [] else nodetable (cs_localtime E) nodes))).
Proof.
  intros E f junk today st sort last7 noareas nonodes groups HS HN Hk Hh Hb F Hday Hr day o M.
  rewrite command_ok by auto. rewrite Hb.
  assert (Em : sortmode (option_map letter sort) = hd 0 (letter o)) by (unfold o; destruct sort as [[]|]; reflexivity). rewrite Em.
  replace (negb ((hd 0 (letter o) =? 0) || existsb (Z.eqb (hd 0 (letter o))) (lit "amtdlu"))) with false by (destruct o; reflexivity).
  rewrite (run_file E f junk today st _ last7 noareas nonodes groups F Hday Hr). fold day.
  set (ws := filter counted (st_areas st)). set (sel := filter (wantedb groups) ws).
  set (ft1 := if noareas then 0 else fold_left earlier (map as_first ws) 0). set (ft := if nonodes then ft1 else fold_left earlier (map ns_first (st_nodes st)) ft1).
  destruct F as [Fd Fa Fn Ft Fad [La Ln]]. destruct M as [[M1 M2] [M3 M4] M5 (M6 & M7 & M8)].
  assert (Wi : forall a, In a ws <-> In a (st_areas st) /\ has_stats a) by (intros a; unfold ws; rewrite filter_In, counted_iff; tauto).
  assert (Si : forall a, In a sel <-> In a (st_areas st) /\ has_stats a /\ in_groups groups a) by (intros a; unfold sel; rewrite filter_In, wantedb_ok, Wi; tauto).
  assert (Ff : sel = filter (fun a => counted a && wantedb groups a) (st_areas st)).
  { unfold sel, ws. clear. induction (st_areas st) as [|a l IH]; [reflexivity|]. cbn [filter]. destruct (counted a); cbn [andb filter]; [destruct (wantedb groups a)|]; rewrite ?IH; reflexivity. }
  assert (Fs : Forall S_Stats.area_fine sel) by (apply Forall_forall; intros a Ha; apply Si in Ha as [Ha _]; rewrite Forall_forall in Fa; auto).
  set (R := map (rowof day) sel). set (R1 := SortRows E 97 R).
  assert (CR : Forall (fun r => cstring (sr_tag r)) R) by (unfold R; apply Forall_map; eapply Forall_impl; [|exact Fs]; intros a H; apply H).
  destruct (sort_ok E ByName R HS CR) as [P1 _]. change (hd 0 (letter ByName)) with 97 in P1. fold R1 in P1.
  assert (CR1 : Forall (fun r => cstring (sr_tag r)) R1) by (rewrite Forall_forall in *; intros r Hi; apply CR; eapply Permutation_in; eauto).
  destruct (sort_ok E o R1 HS CR1) as [P2 S2]. set (R2 := SortRows E (hd 0 (letter o)) R1) in *.
  assert (P3 : Permutation (map (rowof day) sel) R2) by (apply Permutation_sym; etransitivity; eauto).
  destruct (Permutation_map_inv _ _ (Permutation_sym P3)) as (rows & E2 & P4). 
  destruct (nodesort_ok E (st_nodes st) HN Fn) as [P5 S5].
  assert (Ri : forall a, In a rows <-> In a sel) by (intros a; split; apply Permutation_in; [apply Permutation_sym|]; exact P4).
  assert (nonneg : Forall (fun t => 0 <= t) (map as_first ws) /\ Forall (fun t => 0 <= t) (map ns_first (st_nodes st))).
  { split; apply Forall_map, Forall_forall.
    - intros a Ha. apply Wi in Ha as [Ha _]. rewrite Forall_forall in Fa. destruct (Fa a Ha) as [_ _ _ _ _ H _]. unfold is_u64 in H. lia.
    - intros n Hn. rewrite Forall_forall in Fn. destruct (Fn n Hn) as [_ _ _ H]. unfold is_u64 in H. lia. }
  destruct nonneg as [NN1 NN2].
  assert (FO1 : first_of (fun t => noareas = false /\ In t (map as_first ws)) ft1 /\ 0 <= ft1).
  { unfold ft1. destruct noareas; [split; [left; split; [reflexivity|intros x [H _]; discriminate]|lia]|].
    pose proof (earlier_ok _ NN1 0 ltac:(lia)) as H. destruct H as [[H1 H2]|(H1 & H2 & H3)].
    - rewrite H1. split; [left; split; auto; intros x [_ Hx]; auto|lia].
    - destruct H1 as [H1|H1]; [contradiction|]. rewrite Forall_forall in NN1. split; [right; split; [split; auto|]; split; auto; intros x [_ Hx]; auto|apply NN1; auto]. }
  destruct FO1 as [FO1 N1].
  assert (FO : first_of (fun t => (noareas = false /\ In t (map as_first ws)) \/ (nonodes = false /\ In t (map ns_first (st_nodes st)))) ft /\ 0 <= ft).
  { unfold ft. destruct nonodes.
    - split; auto. destruct FO1 as [[H1 H2]|(H1 & H2 & H3)]; [left; split; auto; intros x [Hx|[Hx _]]; auto; discriminate|right; split; auto; split; auto; intros x [Hx|[Hx _]]; auto; discriminate].
    - pose proof (earlier_ok _ NN2 ft1 N1) as H. set (z := fold_left earlier _ ft1) in *. destruct H as [[H1 H2]|(H1 & H2 & H3)].
      + assert (Z1 : ft1 = 0) by auto. rewrite H1. split; [|lia]. left. split; auto. intros x [Hx|[_ Hx]]; auto. destruct FO1 as [[_ G]|(_ & G & _)]; auto; contradiction.
      + split; [|destruct H1 as [->|H1]; auto; rewrite Forall_forall in NN2; auto]. right. split; [destruct H1 as [H1|H1]; [|right; auto]; rewrite H1 in *; destruct FO1 as [[G _]|(G & _)]; [contradiction|left; exact G]|].
        split; auto. intros x [Hx|[_ Hx]] Hn; auto. destruct FO1 as [[_ G]|(_ & G1 & G2)]; [exfalso; auto|]. specialize (G2 x Hx Hn). specialize (H3 ft1 (or_introl eq_refl) G1). lia. }
  destruct FO as [FO N0].
  assert (Aft : aged day ft).
  { destruct FO as [[H _]|(H & _)]; [left; auto|]. destruct H as [[_ H]|[_ H]]; apply in_map_iff in H as (x & Hx & Hi); rewrite <- Hx.
    - apply Wi in Hi as [Hi _]. rewrite Forall_forall in M3. apply M3; auto.
    - rewrite Forall_forall in M4. apply M4; auto. }
  assert (PT : forall g : astat -> Z, Forall (fun a => 0 <= g a) (st_areas st) -> 0 <= total (map g rows) <= total (map g (st_areas st))).
  { intros g Hg. split.
    - apply total_nonneg, Forall_map, Forall_forall. intros a Ha. apply Ri, Si in Ha as [Ha _]. rewrite Forall_forall in Hg. auto.
    - rewrite <- (total_perm _ _ (Permutation_map g P4)), Ff. apply total_filter. exact Hg. }
  assert (Lr : (length rows <= length (st_areas st))%nat). { rewrite <- (Permutation_length P4), Ff. clear. induction (st_areas st) as [|a l IH]; cbn [filter]; [lia|]. destruct (_ && _); cbn [length]; lia. }
  assert (SH : shown st day rows).
  { constructor.
    - intros a Ha. apply Ri, Si in Ha. tauto.
    - apply Forall_forall. intros a Ha. rewrite Forall_forall in Fs. apply Fs, Ri, Ha.
    - assert (B : Forall (fun a => 0 <= as_texts a) (st_areas st)) by (eapply Forall_impl; [|exact M5]; unfold int31; cbv beta; intros; lia). specialize (PT _ B). unfold int31 in *. lia.
    - assert (B : Forall (fun a => 0 <= as_dupes a) (st_areas st)) by (eapply Forall_impl; [|exact M5]; unfold int31; cbv beta; intros; lia). specialize (PT _ B). unfold int31 in *. lia.
    - intros i Hi. assert (B : Forall (fun a => 0 <= nth i (as_last8 a) 0) (st_areas st)).
      { eapply Forall_impl; [|exact Fa]. intros a [_ _ _ _ [H1 H2] _ _]. rewrite Forall_forall in H2. destruct (nth_in_or_default i (as_last8 a) 0) as [H| ->]; [|lia]. apply H2 in H. unfold is_u16 in H. lia. }
      specialize (PT _ B). specialize (M8 i Hi). unfold columnsum in *. lia.
    - apply Forall_forall. intros a Ha. apply Ri, Si in Ha as [Ha _]. rewrite Forall_forall in M5, M3. destruct (M5 a Ha). auto.
    - lia. }
  exists rows, (cs_nqsort E CompareNodes (st_nodes st)), ft. split; [intros a; rewrite Ri; apply Si|]. split; [|split; [|split; [exact P5|split; [exact S5|split]]]].
  - eapply Permutation_NoDup; [exact P4|]. rewrite Ff. apply NoDup_filter. exact (NoDup_map_inv _ _ Ft).
  - rewrite E2 in S2. apply ss_map in S2. eapply ss_impl; [|exact S2]. cbv beta. intros a b Ha Hb'.
    apply Ri in Ha, Hb'. pose proof (proj1 (Si a) Ha) as [Ga _]. pose proof (proj1 (Si b) Hb') as [Gb _]. rewrite Forall_forall in Fs, M3.
    unfold rbefore, before, rowof. cbn [sr_tag sr_total sr_avg sr_first sr_last sr_dupes]. rewrite !area_avg by auto. auto.
  - destruct FO as [[H1 H2]|(H1 & H2 & H3)].
    + left. split; auto. intros x Hx. apply H2. destruct Hx as [(Hx & a & Ha & Hs & ->)|(Hx & n & Hi & ->)]; [left|right]; split; auto; apply in_map; auto. apply Wi. auto.
    + right. split; [|split; auto].
      * destruct H1 as [[Hx H]|[Hx H]]; apply in_map_iff in H as (x & He & Hi); [left|right]; split; auto; exists x; [apply Wi in Hi as [? ?]; auto|auto].
      * intros x Hx. apply H3. destruct Hx as [(Hx & a & Ha & Hs & ->)|(Hx & n & Hi & ->)]; [left|right]; split; auto; apply in_map; auto. apply Wi. auto.
  - f_equal. f_equal. f_equal.
    + destruct noareas; [reflexivity|]. f_equal. rewrite E2. destruct last7; [apply (last7part_ok E st); auto|apply (areapart_ok E st); auto].
    + destruct nonodes; [reflexivity|]. unfold nodepart, nodetable. do 5 f_equal. f_equal. apply map_ext_in. intros n Hi. apply noderow_ok. rewrite Forall_forall in Fn. apply Fn. eapply Permutation_in; eauto.
Qed.
Print Assumptions C68_report.
(** Wrong words and files that hold no statistics are refused. *)
Theorem C68_refused : forall E f sort last7 noareas nonodes groups, nokeyword f -> S_GetNode.nohelp f ->
  let run s := crashstats E (cmdline f s last7 noareas nonodes groups) in
  (forall c w, ~ In (tolower c) (lit "amtdlu") -> tolower c <> 0 -> run (Some (c :: w)) = Some (CsBadSort (tolower c))) /\
  (noareas = true -> nonodes = true -> run (option_map letter sort) = Some CsNothing) /\
  (noareas && nonodes = false -> cs_read E f = None -> run (option_map letter sort) = Some CsNoFile) /\
  (noareas && nonodes = false -> forall x, cs_read E f = Some x -> (4 <= length x)%nat -> firstn 4 x <> lit "CST3" -> run (option_map letter sort) = Some CsUnknown) /\
  crashstats E [] = Some CsBadArgs.
Proof.
  intros E f sort last7 noareas nonodes groups Hk Hh run. unfold run. rewrite !command_ok by auto.
  assert (Em : exists o, sortmode (option_map letter sort) = hd 0 (letter o)) by (destruct sort as [o|]; [exists o; destruct o|exists ByName]; reflexivity). destruct Em as [o Em].
  assert (Hm : negb ((sortmode (option_map letter sort) =? 0) || existsb (Z.eqb (sortmode (option_map letter sort))) (lit "amtdlu")) = false) by (rewrite Em; destruct o; reflexivity). rewrite Hm.
  split; [|split; [|split; [|split]]].
  - intros c w Hi H0. rewrite command_ok by auto. cbn [sortmode hd]. replace (tolower c =? 0) with false by (symmetry; apply Z.eqb_neq; auto).
    replace (existsb (Z.eqb (tolower c)) (lit "amtdlu")) with false; [reflexivity|]. symmetry. apply not_true_iff_false. intros H. apply existsb_exists in H as (x & Hx & He). apply Z.eqb_eq in He. subst x. contradiction.
  - intros -> ->. reflexivity.
  - intros -> Hr. unfold cs_run. rewrite Hr. reflexivity.
  - intros -> x Hr Hl Hx. unfold cs_run. rewrite Hr. cbn [osReadTo fst snd]. rewrite firstn_app, firstn_firstn, firstn_length. replace (4 - Nat.min 4 (length x))%nat with 0%nat by lia. rewrite firstn_O, app_nil_r. change (Nat.min 4 4) with 4%nat.
    destruct (streq (cstr (firstn 4 x)) (lit "CST3")) eqn:S; [|reflexivity]. exfalso. apply streq_eq in S. apply Hx.
    destruct x as [|a [|b [|c [|d x]]]]; cbn [length] in Hl; try lia. cbn [firstn] in *. cbn [cstr] in S. revert S. change (lit "CST3") with [67; 83; 84; 51].
    destruct (a =? 0); [discriminate|]. destruct (b =? 0); [discriminate|]. destruct (c =? 0); [discriminate|]. destruct (d =? 0); [discriminate|]. auto.
  - reflexivity.
Qed.
Print Assumptions C68_refused.

(** ** An example *)
Definition xlt (t : Z) : tm := TM 0 0 0 (t / 86400 mod 28 + 1) (t / 86400 mod 12) 124.
Definition xenv (f : list Z) : csenv := CS (fun n => if streq n (lit "cm.stats") then Some f else None) xlt (isort _) (isort _) [] [] [].
Definition xarea (tag : string) (group texts y : Z) := AS (lit tag) AREATYPE_ECHOMAIL 0 (N4 2 200 1 0) group texts [1; y; 0; 0; 0; 0; 0; 0] 3 (19000 * 86400) (19010 * 86400) 0 0.
Definition xnode (p b : Z) := NS (N4 2 200 5 p) 0 0 1 b 0 0 0 0 0 (18990 * 86400).
Definition xst := ST 19011 [xarea "TEST.B" 65 20 7; xarea "TEST.A" 66 30 14] [xnode 1 5000; xnode 0 3000000].
Lemma xst_fine : stats_fine xst.
Proof. fineex; try (cbn; lia); try (vm_compute; intuition (congruence || lia)). Qed.
Lemma xst_moderate : moderate xst 19011.
Proof.
  constructor.
  - lia.
  - split; apply Forall_forall; intros x Hx; cbn [In xst st_areas st_nodes] in Hx; repeat (destruct Hx as [<-|Hx]; [right; vm_compute; split; congruence|]); destruct Hx.
  - repeat constructor; vm_compute; congruence.
  - unfold int31. vm_compute total. split; [lia|]. split; [lia|]. intros i Hi. do 8 (destruct i as [|i]; [vm_compute; reflexivity|]). lia.
Qed.
Definition has (t s : list Z) : Prop := exists a b, t = a ++ s ++ b.
Fixpoint hasb (t s : list Z) : bool := streq (firstn (length s) t) s || match t with [] => false | _ :: r => hasb r s end.
Lemma hasb_ok s : forall t, hasb t s = true -> has t s.
Proof.
  induction t as [|c t IH]; cbn [hasb]; intros H; apply orb_true_iff in H as [H|H]; try discriminate.
  - apply streq_eq in H. exists [], []. rewrite firstn_nil in H. rewrite <- H. reflexivity.
  - apply streq_eq in H. exists [], (skipn (length s) (c :: t)). cbn [app]. transitivity (firstn (length s) (c :: t) ++ skipn (length s) (c :: t)); [rewrite firstn_skipn; reflexivity|rewrite H; reflexivity].
  - destruct (IH H) as (a & b & ->). exists (c :: a), b. reflexivity.
Qed.
Definition shows (o : option csout) (s : list Z) : Prop := exists t, o = Some (CsReport t) /\ has t s.
Definition showsb (o : option csout) (s : list Z) : bool := match o with Some (CsReport t) => hasb t s | _ => false end.
Lemma showsb_ok o s : showsb o s = true -> shows o s.
Proof. destruct o as [[]|]; cbn; try discriminate. intros H. eexists. split; [reflexivity|]. apply hasb_ok, H. Qed.
Example C68_nonvacuous : let E := xenv (WriteStats (fun _ _ => 0) 19011 xst) in
  sorts (cs_qsort E) /\ sorts (cs_nqsort E) /\ nokeyword (lit "cm.stats") /\ S_GetNode.nohelp (lit "cm.stats") /\ stats_fine xst /\ moderate xst 19011 /\
  cs_read E (lit "cm.stats") = Some (WriteStats (fun _ _ => 0) 19011 xst) /\
  shows (crashstats E (cmdline (lit "cm.stats") (Some (lit "t")) false false false None)) (lit "TEST.A                        17-May-24 27-Mar-24      30         2       3" ++ [10] ++ lit "TEST.B  ").
Proof.
  cbv zeta. split; [apply isort_sorts|]. split; [apply isort_sorts|]. split; [vm_compute; intuition discriminate|]. split; [vm_compute; intuition discriminate|]. split; [apply xst_fine|]. split; [apply xst_moderate|].
  split; [reflexivity|]. apply showsb_ok. vm_compute. reflexivity.
Qed.

(** ** Findings *)
Definition run (st : stats) (ws : list (list Z)) := crashstats (xenv (WriteStats (fun _ _ => 0) 19011 st)) (lit "cm.stats" :: ws).
(** Finding: sizes are always shown in megabytes (a bound that is meant to be negative is a
    huge number): 5000 bytes are 0 MB. *)
Theorem C68_sizes_refuted : exists n, In n (st_nodes xst) /\ ns_sentnetb n = 5000 /\
  shows (run xst [lit "NOAREAS"]) (lit "2:200/5.1                      Statistics since: 7-Jul-24" ++ [10; 10] ++ lit "                                  Sent netmails: 1/0 MB" ++ [10]).
Proof. exists (xnode 1 5000). split; [left; reflexivity|]. split; [reflexivity|]. apply showsb_ok. vm_compute. reflexivity. Qed.
Print Assumptions C68_sizes_refuted.
(** Finding: the sums of the days wrap at 65536. *)
Theorem C68_sums_refuted : let st := ST 19011 [xarea "A" 65 40000 40000; xarea "B" 65 40000 40000] [] in
  stats_fine st /\ columnsum (st_areas st) 1 = 80000 /\ shows (run st [lit "LAST7"; lit "NONODES"]) (lit "Totally in all 2 areas            14464    0    0    0    0    0    0 : 14464").
Proof. split; [fineex; try (cbn; lia); try (vm_compute; intuition (congruence || lia))|]. split; [reflexivity|]. apply showsb_ok. vm_compute. reflexivity. Qed.
Print Assumptions C68_sums_refuted.
(** Finding: numbers from 2147483648 on are shown as negative ones. *)
Theorem C68_negative_refuted : let st := ST 19011 [xarea "A" 65 3000000000 1] [] in
  stats_fine st /\ shows (run st [lit "NONODES"]) (lit " -1294967296 ").
Proof. split; [fineex; try (cbn; lia); try (vm_compute; intuition (congruence || lia))|]. apply showsb_ok. vm_compute. reflexivity. Qed.
Print Assumptions C68_negative_refuted.
(** Finding: two areas whose names begin alike have the same name in the list. *)
Theorem C68_names_refuted : let st := ST 19011 [xarea "A.VERY.LONG.NAME.OF.SOME.GROUP.ONE" 65 1 1; xarea "A.VERY.LONG.NAME.OF.SOME.GROUP.TWO" 65 1 1] [] in
  stats_fine st /\ exists row, (10 < length row)%nat /\ shows (run st [lit "NONODES"]) (row ++ [10] ++ row ++ [10]) /\ firstn 31 row = lit "A.VERY.LONG.NAME.OF.SOME.GROUP ".
Proof.
  split; [fineex; try (cbn; lia); try (vm_compute; intuition (congruence || lia))|].
  exists (lit "A.VERY.LONG.NAME.OF.SOME.GROUP 17-May-24 27-Mar-24       1         0       3"). split; [vm_compute; lia|]. split; [|reflexivity]. apply showsb_ok. vm_compute. reflexivity.
Qed.
Print Assumptions C68_names_refuted.
(** Finding: with GROUP, the date the statistics begin with is still that of all areas. *)
Theorem C68_since_refuted : let old := AS (lit "OLD") AREATYPE_ECHOMAIL 0 (N4 2 200 1 0) 66 1 (repeat 0 8) 0 (18000 * 86400) (18000 * 86400) 0 0 in
  let st := ST 19011 [xarea "NEW" 65 1 1; old] [] in
  stats_fine st /\ shows (run st [lit "NONODES"; lit "GROUP"; lit "A"]) (lit "Statistics from " ++ daytext (xlt (as_first old)) ++ lit " to ") /\ shows (run st [lit "NONODES"; lit "GROUP"; lit "A"]) (lit "Totally in all 1 areas").
Proof. split; [fineex; try (cbn; lia); try (vm_compute; intuition (congruence || lia))|]. split; apply showsb_ok; vm_compute; reflexivity. Qed.
Print Assumptions C68_since_refuted.
(** Finding: areas are sorted by name first and then by number with qsort, which need not keep
    the order of equal ones. *)
Theorem C68_ties_refuted : exists E, sorts (cs_qsort E) /\ cs_read E (lit "cm.stats") = Some (WriteStats (fun _ _ => 0) 19011 (ST 19011 [xarea "A" 65 1 1; xarea "B" 65 1 1] [])) /\
  shows (crashstats E [lit "cm.stats"; lit "SORT"; lit "t"; lit "NONODES"]) ([10] ++ column 30 (lit "B") ++ lit "17-May-24 27-Mar-24       1         0       3" ++ [10] ++ lit "A ").
Proof.
  exists (CS (fun _ => Some (WriteStats (fun _ _ => 0) 19011 (ST 19011 [xarea "A" 65 1 1; xarea "B" 65 1 1] []))) xlt (fun cmp l => isort _ cmp (rev l)) (isort _) [] [] []).
  split; [|split; [reflexivity|apply showsb_ok; vm_compute; reflexivity]].
  intros cmp l H1 H2. destruct (isort_sorts _ cmp (rev l)) as [P S].
  - intros a b Ha Hb. apply H1; apply in_rev; auto.
  - intros a b c Ha Hb Hc. apply H2; apply in_rev; auto.
  - cbn [cs_qsort]. split; auto. rewrite P. symmetry. apply Permutation_rev.
Qed.
Print Assumptions C68_ties_refuted.
(** Finding: an empty word for SORT is accepted. *)
Theorem C68_emptysort_refuted : run xst [lit "SORT"; []] = run xst [].
Proof. vm_compute. reflexivity. Qed.
Print Assumptions C68_emptysort_refuted.
