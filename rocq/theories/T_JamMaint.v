(** Maintenance of a JAM area: C39 and C51. *)
From Verif Require Import Base M_Str P_Str M_Mem M_Jam S_Jam P_Jam T_Jam M_JamMaint S_JamMaint P_JamMaint.

Lemma slotsum_steps ops : forall s, slotsum (x_slots (fold_left astep ops s)) <= slotsum (x_slots s) + bytesum ops.
Proof.
  induction ops as [|o ops IH]; intros s; cbn [fold_left bytesum fold_right]; [lia|]. fold (bytesum ops). eapply Z.le_trans; [apply IH|]. clear IH. enough (slotsum (x_slots (astep s o)) <= slotsum (x_slots s) + opsize o) by lia.
  destruct o as [h subs text| |n h|n]; cbn [astep x_slots opsize].
  - rewrite slotsum_app. unfold slotsum at 2. cbn [fold_right]. unfold msize. cbn [a_subs a_text]. lia.
  - rewrite slotsum_app. unfold slotsum at 2. cbn [fold_right]. lia.
  - unfold aread. destruct (nth_error (x_slots s) (Z.to_nat n)) as [[m|]|] eqn:E; try lia. apply nth_error_split in E as (a & b & Es & El). cbn [x_slots]. rewrite Es, setslot_split by auto. rewrite !slotsum_app. unfold slotsum at 2 4. cbn [fold_right]. unfold msize. cbn [a_subs a_text]. lia.
  - unfold aread. destruct (nth_error (x_slots s) (Z.to_nat n)) as [[m|]|] eqn:E; try lia. apply nth_error_split in E as (a & b & Es & El). cbn [x_slots]. rewrite Es, setslot_split by auto. rewrite !slotsum_app. unfold slotsum at 2 4. cbn [fold_right]. pose proof (msize_pos m). lia.
Qed.
Lemma bn_sum keep l : forall a, slotsum (bn keep a l) = slotsum l.
Proof. induction l as [|[m|] l IH]; intros a; cbn [bn]; [reflexivity| |]; [destruct (_ && _)|]; unfold slotsum; cbn [fold_right]; fold (slotsum l); fold (slotsum (bn keep (a - 1) l)); fold (slotsum (bn keep a l)); rewrite IH; reflexivity. Qed.
Lemma bd_sum keep today l : slotsum (map (bd keep today) l) = slotsum l.
Proof. induction l as [|[m|] l IH]; cbn [map bd]; [reflexivity| |]; [destruct (_ && _)|]; unfold slotsum; cbn [fold_right]; fold (slotsum l); fold (slotsum (map (bd keep today) l)); rewrite IH; reflexivity. Qed.
Lemma bn_len keep l : forall a, length (bn keep a l) = length l.
Proof. induction l as [|[m|] l IH]; intros a; cbn [bn]; [reflexivity| |]; [destruct (_ && _)|]; cbn [length]; rewrite IH; reflexivity. Qed.
Lemma bn_nth keep l : forall a i, nth_error (bn keep a l) i = match nth_error l i with
  | Some (Some m) => Some (Some (if negb (gone (a_hdr m)) && (count_live (firstn i l) <? a - keep) then mark m else m)) | x => x end.
Proof.
  induction l as [|x l IH]; intros a i; [destruct i; reflexivity|]. destruct i as [|i].
  - cbn [bn nth_error firstn]. destruct x as [m|]; [|reflexivity]. change (count_live []) with 0. replace (0 <? a - keep) with (keep <? a) by (destruct (Z.ltb_spec keep a), (Z.ltb_spec 0 (a - keep)); auto; lia). destruct (_ && _); reflexivity.
  - cbn [nth_error firstn]. destruct x as [m|]; cbn [bn]; [|cbn [nth_error]; rewrite IH; unfold count_live; cbn [filter live]; reflexivity]. unfold count_live. cbn [filter live].
    destruct (gone (a_hdr m)) eqn:Eg; cbn [negb andb]; [cbn [nth_error]; rewrite IH; reflexivity|]. destruct (Z.ltb_spec keep a) as [Hk|Hk]; cbn [nth_error]; rewrite IH; destruct (nth_error l i) as [[m'|]|]; auto; f_equal; f_equal; unfold count_live; cbn [length].
    + replace (Z.of_nat (S (length (filter live (firstn i l)))) <? a - keep) with (Z.of_nat (length (filter live (firstn i l))) <? a - 1 - keep); [reflexivity|]. destruct (Z.ltb_spec (Z.of_nat (length (filter live (firstn i l)))) (a - 1 - keep)), (Z.ltb_spec (Z.of_nat (S (length (filter live (firstn i l))))) (a - keep)); auto; lia.
    + destruct (Z.ltb_spec (Z.of_nat (length (filter live (firstn i l)))) (a - keep)); [lia|]. destruct (Z.ltb_spec (Z.of_nat (S (length (filter live (firstn i l))))) (a - keep)); [lia|]. reflexivity.
Qed.
Definition maintained (maint : bool) (kn kd today : Z) (l : list (option amsg)) : list (option amsg) :=
  let l := if maint && negb (kn =? 0) then bn kn (count_live l) l else l in
  if maint && negb (kd =? 0) then map (bd kd today) l else l.
Lemma outdated_mark kd today m : outdated kd today (mark m) = outdated kd today m.
Proof. reflexivity. Qed.
Lemma maintained_nth maint kn kd today l i : nth_error (maintained maint kn kd today l) i = match nth_error l i with
  | Some (Some m) => Some (Some (if maint && negb (gone (a_hdr m)) && expires kn kd today l i m then mark m else m)) | x => x end.
Proof.
  unfold maintained, expires, surplus. destruct maint; cbn [andb]; [|destruct (nth_error l i) as [[m|]|]; reflexivity]. destruct (kn =? 0), (kd =? 0); cbn [negb andb orb]; rewrite ?nth_error_map, ?bn_nth; destruct (nth_error l i) as [[m|]|]; cbn [option_map bd]; auto; rewrite ?andb_false_r, ?orb_false_r; auto.
  - destruct (outdated kd today m), (gone (a_hdr m)); reflexivity.
  - destruct (gone (a_hdr m)) eqn:Eg; cbn [negb andb]; [rewrite Eg; cbn [negb]; rewrite andb_false_r; reflexivity|]. destruct (_ <? _); cbn [orb]; [rewrite gone_mark; cbn [negb]; rewrite andb_false_r; reflexivity|]. rewrite Eg. cbn [negb]. rewrite andb_true_r. destruct (outdated kd today m); reflexivity.
Qed.
Lemma maintained_len maint kn kd today l : length (maintained maint kn kd today l) = length l.
Proof. unfold maintained. destruct (maint && negb (kn =? 0)), (maint && negb (kd =? 0)); rewrite ?map_length, ?bn_len; reflexivity. Qed.
Lemma maintained_sum maint kn kd today l : slotsum (maintained maint kn kd today l) = slotsum l.
Proof. unfold maintained. destruct (maint && negb (kn =? 0)), (maint && negb (kd =? 0)); rewrite ?bd_sum, ?bn_sum; reflexivity. Qed.
Lemma rep_size K j s : rep K j s -> Z.of_nat (length (x_slots s)) < 4294967296 -> JAM_GetMBSize j = Z.of_nat (length (x_slots s)).
Proof. intros (b & ps & _ & _ & _ & _ & Hidx & (_ & Hf & _) & _) Hl. unfold JAM_GetMBSize. rewrite Hidx, index_div, <- (Forall2_len _ _ _ Hf). apply u32_id. unfold is_u32. lia. Qed.
Lemma rep_bhok K j num act l : rep K j (AB num act l) -> exists bh, JAM_ReadMBHeader j = Good bh /\ bhok bh num act.
Proof. intros (b & ps & Ha & Hb & Hn & Hact & _). exists b. split; [apply read_base; auto|]. split; auto. Qed.
Lemma rep_lrd K j s x : rep K j s -> rep K (JAM (j_hdr j) (j_txt j) (j_idx j) x) s.
Proof. exact (fun H => H). Qed.

Lemma process_rep crc K j num l maint pack kn kd today now : (forall u, is_u32 (crc u)) -> is_u32 num -> rep K j (AB num (count_live l) l) -> count_live l < 4294967296 -> Z.of_nat (length l) < 4294967296 -> 1024 + slotsum l < 4294967295 ->
  let l2 := maintained maint kn kd today l in
  exists j' K', ProcessAreaJAM crc maint pack kn kd today now j = Some j' /\
    let N' := (num + Z.of_nat (leading l2)) mod 4294967296 in
    rep K' j' (if pack then AB N' (count_live l2) (packs N' (skipn (leading l2) l2)) else AB num (count_live l2) l2).
Proof.
  intros Hcrc Hn HR Hc Hl Hs l2. destruct (rep_bhok _ _ _ _ _ HR) as (bh & Eb & Hbh). unfold ProcessAreaJAM. rewrite Eb, (rep_size _ _ _ HR) by (cbn [x_slots]; lia). cbn [x_slots]. rewrite Nat2Z.id. destruct (Z.eqb_spec (Z.of_nat (length l)) 0) as [E0|E0].
  { assert (l = []) by (destruct l; [reflexivity|cbn in E0; lia]). subst l. assert (E2 : l2 = []) by (unfold l2, maintained; destruct (maint && negb (kn =? 0)), (maint && negb (kd =? 0)); reflexivity). rewrite E2. exists j, K. split; auto. cbv zeta. cbn [leading skipn packs Z.of_nat]. rewrite Z.add_0_r, Z.mod_small by exact Hn. destruct pack; exact HR. }
  set (X := if maint && negb (kn =? 0) then bynumber _ _ _ _ _ _ else _).
  assert (EX : exists j1 bh1 ac, X = (j1, bh1, ac) /\ rep K j1 (AB num (count_live (if maint && negb (kn =? 0) then bn kn (count_live l) l else l)) (if maint && negb (kn =? 0) then bn kn (count_live l) l else l)) /\ bhok bh1 num (count_live (if maint && negb (kn =? 0) then bn kn (count_live l) l else l))).
  { unfold X. destruct (maint && negb (kn =? 0)); [|exists j, bh, (b_active bh); auto]. assert (Ea : b_active bh = count_live l) by (destruct Hbh as (_ & _ & ->); apply Z.mod_small; unfold count_live; unfold count_live in Hc; lia).
    destruct (bynumber_rep K kn l j num (count_live l) [] bh (b_active bh) HR Hbh) as (j1 & bh1 & act' & E & HR1 & Hb1 & Hd). cbn [length] in E. rewrite Ea in *. exists j1, bh1, (count_live l - (count_live l - act')). change (Z.of_nat 0) with 0 in E. assert (act' = count_live (bn kn (count_live l) l)) by lia. subst act'. split; auto. }
  destruct EX as (j1 & bh1 & ac & -> & HR1 & Hb1). set (l1 := if maint && negb (kn =? 0) then bn kn (count_live l) l else l) in *. assert (Ell : length l = length l1) by (unfold l1; destruct (maint && negb (kn =? 0)); [rewrite bn_len|]; reflexivity).
  set (X := if maint && negb (kd =? 0) then bydate _ _ _ _ _ _ else _). assert (EX : exists j2 bh2, X = (j2, bh2) /\ rep K j2 (AB num (count_live l2) l2) /\ bhok bh2 num (count_live l2)).
  { unfold X, l2, maintained. fold l1. destruct (maint && negb (kd =? 0)); [|exists j1, bh1; auto]. destruct (bydate_rep K kd today l1 j1 num (count_live l1) [] bh1 HR1 Hb1) as (j2 & bh2 & act' & E & HR2 & Hb2 & Hd). cbn [length] in E. change (Z.of_nat 0) with 0 in E. rewrite Ell. exists j2, bh2. assert (act' = count_live (map (bd kd today) l1)) by lia. subst act'. split; auto. }
  destruct EX as (j2 & bh2 & -> & HR2 & Hb2). destruct pack; [|exists j2, K; split; auto].
  unfold packed. rewrite (rep_size _ _ _ HR2) by (cbn [x_slots]; unfold l2; rewrite maintained_len; lia). cbn [x_slots]. rewrite Nat2Z.id.
  destruct (copy_first crc K j2 num (count_live l2) Hcrc l2 [] (JAM_CreateMB now 1) (with_active bh2 0) num HR2) as (n' & bh' & E & Hb & HW).
  - exists 1. apply create_rep. unfold is_u32. lia.
  - destruct Hb2 as (B1 & B2 & B3). split; [apply with_active_ok; auto; unfold is_u32; lia|]. split; [|reflexivity]. cbn [with_active b_num]. rewrite B2. symmetry. apply Z.mod_small. exact Hn.
  - unfold l2. rewrite maintained_sum. exact Hs.
  - cbn [length] in E. change (Z.of_nat 0) with 0 in E. rewrite E. cbn [obind]. cbv zeta in *. eexists. exists (1024 + slotsum l2). split; [reflexivity|]. apply rep_lrd. apply HW. destruct Hb as ((H1 & H2 & F) & B2 & B3). split; [|split; auto]. repeat match goal with H : Forall _ (_ :: _) |- _ => inversion_clear H end. split; [exact H1|]. split; [exact H2|]. cbn [b_created b_mod b_active b_pw b_num]. repeat (apply Forall_cons; [auto; try apply u32_range|]). constructor.
Qed.
Lemma leading_le l : (leading l <= length l)%nat.
Proof. induction l as [|x l IH]; cbn [leading length]; [lia|]. destruct (live x); lia. Qed.
Lemma leading_dead l i x : nth_error l i = Some x -> live x = true -> (leading l <= i)%nat.
Proof. revert i. induction l as [|y l IH]; intros i H Hx; [destruct i; discriminate|]. cbn [leading]. destruct i as [|i]; cbn [nth_error] in H; [assert (y = x) by congruence; subst y; rewrite Hx; lia|]. destruct (live y); [lia|]. specialize (IH i H Hx). lia. Qed.
Lemma packs_nth l : forall n i, nth_error (packs n l) i = match nth_error l i with
  | Some (Some m) => Some (if gone (a_hdr m) then None else Some (renum ((n + Z.of_nat i) mod 4294967296) m)) | Some None => Some None | None => None end.
Proof.
  induction l as [|x l IH]; intros n i; [destruct i; reflexivity|]. cbn [packs]. destruct i as [|i]; cbn [nth_error]; [destruct x as [m|]; [|reflexivity]; rewrite Z.add_0_r; destruct (gone _); reflexivity|]. rewrite IH. destruct (nth_error l i) as [[m|]|]; auto. replace (n + 1 + Z.of_nat i) with (n + Z.of_nat (S i)) by lia. reflexivity.
Qed.
Lemma packs_len l : forall n, length (packs n l) = length l.
Proof. induction l as [|x l IH]; intros n; [reflexivity|]. cbn [packs length]. rewrite IH. reflexivity. Qed.
Lemma count_livecount l : count_live l = livecount l.
Proof. unfold count_live, livecount, live. reflexivity. Qed.
Lemma reach crc now base ops : (forall u, is_u32 (crc u)) -> is_u32 base -> Forall op_fine ops -> sizes ops < 4294967295 -> Z.of_nat (length ops) < 4294967296 -> no_undelete (AB base 0 []) ops ->
  let l := x_slots (fold_left astep ops (AB base 0 [])) in
  exists j K, jrun crc (JAM_CreateMB now base) ops = Some j /\ rep K j (AB base (count_live l) l) /\ count_live l < 4294967296 /\ Z.of_nat (length l) < 4294967296 /\ 1024 + slotsum l < 4294967295.
Proof.
  intros Hcrc Hb F Hs Hl Hu l. destruct (run_rep crc ops Hcrc F 1024 _ _ (create_rep now base Hb) Hs) as (j & E & HR). exists j. eexists. split; [exact E|]. pose proof (live_exact ops (AB base 0 []) Hu eq_refl) as Hex. rewrite <- count_livecount in Hex. fold l in Hex.
  assert (Ex : forall s, x_num (fold_left astep ops s) = x_num s) by (clear; induction ops as [|o ops IH]; intros s; [reflexivity|]; cbn [fold_left]; rewrite IH; destruct o; cbn [astep]; try reflexivity; destruct (aread s n); reflexivity).
  assert (Es : fold_left astep ops (AB base 0 []) = AB base (count_live l) l) by (rewrite <- Hex; unfold l; pose proof (Ex (AB base 0 [])) as E1; cbn [x_num] in E1; rewrite <- E1 at 2; destruct (fold_left astep ops (AB base 0 [])); reflexivity). rewrite Es in HR. split; [exact HR|].
  pose proof (livecount_le l) as H1. rewrite <- count_livecount in H1. pose proof (steps_bound ops (AB base 0 [])) as H2. cbn [x_slots filter length] in H2. fold l in H2. pose proof (slots_len ops (AB base 0 [])) as H3. cbn [x_slots length] in H3. fold l in H3. pose proof (slotsum_steps ops (AB base 0 [])) as H4. cbn [x_slots slotsum fold_right] in H4. fold l in H4. unfold sizes in Hs. fold (bytesum ops) in Hs. split; [lia|]. split; lia.
Qed.

(** C51: maintenance marks exactly the oldest messages above the limit of number and those
    above the limit of age, leaves every other message as it was, and keeps the counter. *)
Theorem C51_maintenance crc now base ops keepnum keepdays today now2 :
  (forall u, is_u32 (crc u)) -> is_u32 base -> Forall op_fine ops -> sizes ops < 4294967295 -> Z.of_nat (length ops) < 4294967296 -> no_undelete (AB base 0 []) ops ->
  let l := x_slots (fold_left astep ops (AB base 0 [])) in
  exists j j' b, jrun crc (JAM_CreateMB now base) ops = Some j /\ ProcessAreaJAM crc true false keepnum keepdays today now2 j = Some j' /\
    JAM_ReadMBHeader j' = Good b /\ b_num b = base /\ b_active b = live_number j' /\
    forall i, read_message j' (Z.of_nat i) = match nth_error l i with
      | Some (Some m) => Some (Good (if negb (gone (a_hdr m)) && expires keepnum keepdays today l i m then mark m else m))
      | _ => read_message j (Z.of_nat i)
      end.
Proof.
  intros Hcrc Hb F Hs Hl Hu l. destruct (reach crc now base ops Hcrc Hb F Hs Hl Hu) as (j & K & Ej & HR & H1 & H2 & H3). fold l in HR, H1, H2, H3.
  destruct (process_rep crc K j base l true false keepnum keepdays today now2 Hcrc Hb HR H1 H2 H3) as (j' & K' & E & HR'). cbv zeta in HR'. set (l2 := maintained true keepnum keepdays today l) in *.
  destruct (rep_read _ _ _ HR) as (_ & _ & _ & _ & Hr). destruct (rep_read _ _ _ HR') as (b & Eb & Hn & Ha & Hr'). cbn [x_num x_active x_slots] in *. exists j, j', b. split; auto. split; auto. split; auto. split; auto. split.
  - rewrite Ha. rewrite (live_read _ _ _ HR') by (cbn [x_slots]; unfold l2; rewrite maintained_len; lia). cbn [x_slots]. change (livecount l2) with (count_live l2). apply Z.mod_small. split; [unfold count_live; lia|].
    assert (count_live l2 <= count_live l); [|lia]. unfold l2, maintained. cbn [andb]. assert (Hbn : forall l a, count_live (bn keepnum a l) <= count_live l).
    { clear. unfold count_live. induction l as [|[m|] l IH]; intros a; cbn [bn filter live length]; [lia| |apply IH]. destruct (gone (a_hdr m)) eqn:Eg; cbn [negb andb filter live]; [rewrite Eg; cbn [negb]; apply IH|]. destruct (keepnum <? a); cbn [filter live]; [rewrite gone_mark; cbn [negb length]; specialize (IH (a - 1)); lia|]. rewrite Eg. cbn [negb length]. specialize (IH a). lia. }
    assert (Hbd : forall l, count_live (map (bd keepdays today) l) <= count_live l).
    { clear. unfold count_live. induction l as [|[m|] l IH]; cbn [map bd filter live length]; [lia| |apply IH]. destruct (outdated keepdays today m), (gone (a_hdr m)) eqn:Eg; cbn [negb andb filter live]; rewrite ?gone_mark, ?Eg; cbn [negb length]; lia. }
    destruct (negb (keepnum =? 0)), (negb (keepdays =? 0)); try (eapply Z.le_trans; [apply Hbd|]); auto; try apply Hbn; lia.
  - intros i. rewrite Hr, Hr' by lia. unfold aread. cbn [x_slots]. rewrite Nat2Z.id. unfold l2. rewrite maintained_nth. destruct (nth_error l i) as [[m|]|]; reflexivity.
Qed.

(** C39: packing, alone or behind maintenance. *)
Theorem C39_pack crc now base ops maint keepnum keepdays today now2 :
  (forall u, is_u32 (crc u)) -> is_u32 base -> Forall op_fine ops -> sizes ops < 4294967295 -> Z.of_nat (length ops) < 4294967296 -> no_undelete (AB base 0 []) ops ->
  let l := x_slots (fold_left astep ops (AB base 0 [])) in
  let kept i := match nth_error l i with Some (Some m) => negb (gone (a_hdr m)) && negb (maint && expires keepnum keepdays today l i m) | _ => false end in
  exists j j' b lead, jrun crc (JAM_CreateMB now base) ops = Some j /\ ProcessAreaJAM crc maint true keepnum keepdays today now2 j = Some j' /\
    JAM_ReadMBHeader j' = Good b /\ (lead <= length l)%nat /\ b_num b = (base + Z.of_nat lead) mod 4294967296 /\ b_active b = live_number j' /\
    (forall i m, nth_error l i = Some (Some m) -> kept i = true ->
       (lead <= i)%nat /\ read_message j' (Z.of_nat (i - lead)) = Some (Good (renum ((base + Z.of_nat i) mod 4294967296) m))) /\
    (forall i, (lead <= i < length l)%nat -> kept i = false -> read_message j' (Z.of_nat (i - lead)) = Some (Bad JAM_NO_MESSAGE)) /\
    (forall i, (length l <= i)%nat -> read_message j' (Z.of_nat (i - lead)) = Some (Bad JAM_IO_ERROR)).
Proof.
  intros Hcrc Hb F Hs Hl Hu l kept. destruct (reach crc now base ops Hcrc Hb F Hs Hl Hu) as (j & K & Ej & HR & H1 & H2 & H3). fold l in HR, H1, H2, H3.
  destruct (process_rep crc K j base l maint true keepnum keepdays today now2 Hcrc Hb HR H1 H2 H3) as (j' & K' & E & HR'). cbv zeta in HR'. set (l2 := maintained maint keepnum keepdays today l) in *.
  destruct (rep_read _ _ _ HR') as (b & Eb & Hn & Ha & Hr'). cbn [x_num x_active x_slots] in *. exists j, j', b, (leading l2). assert (Hl2 : length l2 = length l) by apply maintained_len. pose proof (leading_le l2) as Hle. split; auto. split; auto. split; auto. split; [lia|]. split; auto.
  assert (Hk : forall i m, nth_error l i = Some (Some m) -> exists m', nth_error l2 i = Some (Some m') /\ gone (a_hdr m') = negb (kept i) /\ (kept i = true -> m' = m)).
  { intros i m Hm. unfold l2. rewrite maintained_nth, Hm. eexists. split; [reflexivity|]. unfold kept. rewrite Hm. destruct (gone (a_hdr m)) eqn:Eg; cbn [negb andb]; [rewrite andb_false_r; cbn [andb]; split; auto; discriminate|]. destruct maint; cbn [andb negb]; [|auto]. destruct (expires _ _ _ _ _ _); cbn [negb]; [split; [apply gone_mark|discriminate]|auto]. }
  set (N := (base + Z.of_nat (leading l2)) mod 4294967296) in *. split; [|split; [|split]].
  - rewrite Ha. rewrite (live_read _ _ _ HR') by (cbn [x_slots]; rewrite packs_len, skipn_length; lia). cbn [x_slots].
    match goal with |- context[livecount ?x] => change (livecount x) with (count_live x) end. assert (Hp : forall l n, count_live (packs n l) = count_live l) by (clear; unfold count_live; induction l as [|[m|] l IH]; intros n; cbn [packs filter live]; [reflexivity| |apply IH]; destruct (gone (a_hdr m)) eqn:Eg; cbn [negb live filter]; [apply IH|]; change (gone (a_hdr (renum (n mod 4294967296) m))) with (gone (a_hdr m)); rewrite Eg; cbn [negb length]; rewrite !Nat2Z.inj_succ, IH; reflexivity).
    assert (Hd : forall l, count_live (skipn (leading l) l) = count_live l) by (clear; induction l as [|x l IH]; [reflexivity|]; cbn [leading]; destruct (live x) eqn:Ex; [reflexivity|]; cbn [skipn]; rewrite IH; unfold count_live; cbn [filter]; rewrite Ex; reflexivity).
    rewrite Hp, Hd. apply Z.mod_small. split; [unfold count_live; lia|]. assert (count_live l2 <= count_live l); [|lia]. unfold count_live. assert (Hle2 : forall (a b : list (option amsg)), length a = length b -> (forall i, match nth_error a i, nth_error b i with Some x, Some y => live x = true -> live y = true | _, _ => True end) -> (length (filter live a) <= length (filter live b))%nat).
    { clear. induction a as [|x a IH]; intros [|y b] Hlen H; try discriminate; [cbn; lia|]. cbn [filter]. pose proof (H 0%nat) as H0. cbn [nth_error] in H0. specialize (IH b ltac:(cbn in Hlen; lia) (fun i => H (S i))). destruct (live x); [rewrite H0 by auto; cbn [length]; lia|]. destruct (live y); cbn [length]; lia. }
    apply Nat2Z.inj_le. apply Hle2; auto. intros i. unfold l2. rewrite maintained_nth. destruct (nth_error l i) as [[m|]|]; auto. cbn [live]. destruct (maint && negb (gone (a_hdr m)) && expires keepnum keepdays today l i m); [rewrite gone_mark; discriminate|auto].
  - intros i m Hm Hki. destruct (Hk i m Hm) as (m' & E2 & Eg & Em). rewrite Hki in Eg. specialize (Em Hki). subst m'. cbn [negb] in Eg. assert (Hi : (leading l2 <= i)%nat) by (eapply leading_dead; [exact E2|]; cbn [live]; rewrite Eg; reflexivity). split; auto. rewrite Hr' by lia. unfold aread. cbn [x_slots]. rewrite Nat2Z.id, packs_nth, nth_error_skipn'.
    replace (leading l2 + (i - leading l2))%nat with i by lia. rewrite E2, Eg. f_equal. f_equal. f_equal. unfold N. rewrite Zplus_mod_idemp_l. f_equal. lia.
  - intros i Hi Hki. rewrite Hr' by lia. unfold aread. cbn [x_slots]. rewrite Nat2Z.id, packs_nth, nth_error_skipn'. replace (leading l2 + (i - leading l2))%nat with i by lia. destruct (nth_error l i) as [[m|]|] eqn:Em.
    + destruct (Hk i m Em) as (m' & E2 & Eg & _). rewrite E2, Eg, Hki. reflexivity.
    + unfold l2. rewrite maintained_nth, Em. reflexivity.
    + apply nth_error_None in Em. lia.
  - intros i Hi. rewrite Hr' by lia. unfold aread. cbn [x_slots]. rewrite Nat2Z.id, packs_nth, nth_error_skipn'. rewrite (proj2 (nth_error_None _ _)) by lia. reflexivity.
Qed.
(** A message the library numbered is copied as it is. *)
Lemma C39_same n m : h_sig (a_hdr m) = lit "JAM" ++ [0] -> h_rev (a_hdr m) = 1 -> h_num (a_hdr m) = n -> renum n m = m.
Proof. intros H1 H2 H3. destruct m as [h s t]. unfold renum. cbn [a_hdr a_subs a_text] in *. rewrite <- H1, <- H2, <- H3. destruct h. reflexivity. Qed.
(** Of a message that is not from the future, the age is the number of days. *)
Lemma C51_age keep today m : 0 <= day_of (a_hdr m) <= today -> today < 4294967296 -> outdated keep today m = (keep <? today - day_of (a_hdr m)).
Proof. intros H1 H2. unfold outdated. rewrite Z.mod_small by lia. reflexivity. Qed.

(** ** Examples *)
Definition zh (day : Z) : jhdr := JH (lit "JAM" ++ [0]) 1 0 0 0 11 22 0 0 0 (86400 * day) 0 0 0 0 0 0 0 4294967295 0.
Definition zsubs (name : list Z) : list jsub := [SF 2 0 name; SF 3 0 (lit "All")].
Definition zops : list jop :=
  [Add (zh 100) (zsubs (lit "Ann")) (lit "one"); Add (zh 150) (zsubs (lit "Bob")) (lit "two"); Add (zh 50) (zsubs (lit "Cat")) (lit "thr"); Add (zh 170) (zsubs (lit "Dan")) (lit "fou"); Add (zh 180) (zsubs (lit "Eve")) (lit "fiv"); Delete 0].
Lemma zops_fine : Forall op_fine zops /\ no_undelete (AB 5 0 []) zops /\ sizes zops < 4294967295.
Proof.
  assert (H : forall d, is_u32 (86400 * d) -> hdr_fine (zh d)) by (intros a Ha; split; [reflexivity|]; split; [unfold is_u16; cbn; lia|]; split; [unfold is_u16; cbn; lia|]; unfold zh; cbn [h_times h_msgid h_reply h_replyto h_reply1st h_replynext h_written h_received h_processed h_num h_attr h_attr2 h_pw h_cost]; repeat (apply Forall_cons; [first [exact Ha|unfold is_u32; lia]|]); constructor).
  assert (HA : forall d nm text, is_u32 (86400 * d) -> (length nm <= 3)%nat -> Z.of_nat (length text) < 4294967296 -> op_fine (Add (zh d) (zsubs nm) text)).
  { intros d nm text Hd Hn Ht. split; [apply H; auto|]. split; [|split; auto; unfold zsubs, subsize; cbn [fold_right sf_data]; assert (Z.of_nat (length nm) <= 3) by lia; change (length (lit "All")) with 3%nat; lia].
    unfold zsubs. repeat (apply Forall_cons; [split; [unfold is_u16; cbn; lia|]; split; [unfold is_u16; cbn; lia|]; intros _; cbn [sf_data]; try (vm_compute; lia); lia|]). constructor. }
  split; [|split; [repeat (split; try exact I)|reflexivity]]. unfold zops. repeat (apply Forall_cons; [first [apply HA; [unfold is_u32; lia|vm_compute; lia|reflexivity]|cbn [op_fine]; lia]|]). constructor.
Qed.
Definition zbase : jam := match jrun (fun _ => 7) (JAM_CreateMB 12345 5) zops with Some j => j | None => JAM [] [] [] [] end.
Definition zread (o : option jam) : list (option (Z * bool * list Z)) := match o with None => [] | Some j => map (fun i => match read_message j (Z.of_nat i) with Some (Good m) => Some (h_num (a_hdr m), gone (a_hdr m), a_text m) | _ => None end) (seq 0 6) end.
(** Number 5 is deleted before; one of the four others is too many, and "thr" too old. *)
Example C51_nonvacuous :
  zread (Some zbase) = [None; Some (6, false, lit "two"); Some (7, false, lit "thr"); Some (8, false, lit "fou"); Some (9, false, lit "fiv"); None] /\
  zread (ProcessAreaJAM (fun _ => 7) true false 3 30 190 777 zbase) = [None; Some (6, true, lit "two"); Some (7, true, lit "thr"); Some (8, false, lit "fou"); Some (9, false, lit "fiv"); None].
Proof. split; vm_compute; reflexivity. Qed.
Example C39_nonvacuous :
  zread (ProcessAreaJAM (fun _ => 7) false true 3 30 190 777 zbase) = [Some (6, false, lit "two"); Some (7, false, lit "thr"); Some (8, false, lit "fou"); Some (9, false, lit "fiv"); None; None] /\
  zread (ProcessAreaJAM (fun _ => 7) true true 0 130 190 777 zbase) = [Some (6, false, lit "two"); None; Some (8, false, lit "fou"); Some (9, false, lit "fiv"); None; None].
Proof. split; vm_compute; reflexivity. Qed.
(** A message dated one day in the future is the oldest of all: today-day is unsigned. *)
Theorem C51_future_refuted : exists m, day_of (a_hdr m) = 191 /\ outdated 30 190 m = true /\
  zread (option_map snd (JAM_AddMessage (fun _ => 7) nocuts (JAM_CreateMB 12345 5) (zh 191) [] (lit "new"))) = [Some (5, false, lit "new"); None; None; None; None; None] /\
  zread (match JAM_AddMessage (fun _ => 7) nocuts (JAM_CreateMB 12345 5) (zh 191) [] (lit "new") with Some (_, j) => ProcessAreaJAM (fun _ => 7) true false 0 30 190 777 j | None => None end) = [Some (5, true, lit "new"); None; None; None; None; None].
Proof. exists (MSG (zh 191) [] []). split; [vm_compute; reflexivity|]. split; [vm_compute; reflexivity|]. split; vm_compute; reflexivity. Qed.
(** If the program stops when it has put the new header file in place, the message numbers
    of the index show other messages, with the text of yet another. *)
Theorem C39_crash_refuted : exists n hdr txt idx m, packed (fun _ => 7) 777 zbase (match JAM_ReadMBHeader zbase with Good b => b | Bad _ => JB [] 0 0 0 0 0 [] end) = Some (Some n) /\
  In (Some hdr, Some txt, Some idx) (swaps zbase n) /\ read_message (JAM hdr txt idx []) 1 = Some (Good m) /\ a_subs m = zsubs (lit "Cat") /\ a_text m = lit "two" /\
  exists m0, read_message zbase 1 = Some (Good m0) /\ a_subs m0 = zsubs (lit "Bob") /\ a_text m0 = lit "two".
Proof.
  set (n := match packed (fun _ => 7) 777 zbase (match JAM_ReadMBHeader zbase with Good b => b | Bad _ => JB [] 0 0 0 0 0 [] end) with Some (Some n) => n | _ => zbase end).
  set (m := match read_message (JAM (j_hdr n) (j_txt zbase) (j_idx zbase) []) 1 with Some (Good m) => m | _ => MSG (zh 0) [] [] end). set (m0 := match read_message zbase 1 with Some (Good m) => m | _ => MSG (zh 0) [] [] end).
  exists n, (j_hdr n), (j_txt zbase), (j_idx zbase), m. split; [vm_compute; reflexivity|]. split; [right; right; left; reflexivity|]. split; [vm_compute; reflexivity|]. split; [vm_compute; reflexivity|]. split; [vm_compute; reflexivity|]. exists m0. split; [vm_compute; reflexivity|]. split; vm_compute; reflexivity.
Qed.

(** What each reader has read is kept, whatever the files hold: the numbers of the messages
    that stay are the same (C39_pack). *)
Lemma markmsg_lrd j bh num h : j_lrd (fst (markmsg j bh num h)) = j_lrd j.
Proof.
  unfold markmsg, JAM_WriteMBHeader. cbn [fst j_lrd]. unfold JAM_ChangeMsgHeader. destruct (JAM_ReadMBHeader j); [|reflexivity]. destruct (readindex j num) as [e|]; [|reflexivity].
  destruct (freadat (snd e) 76 (j_hdr j)); reflexivity.
Qed.
Lemma bynumber_lrd more keep : forall j bh active num, j_lrd (fst (fst (bynumber more keep j bh active num))) = j_lrd j.
Proof.
  induction more as [|more IH]; intros j bh active num; cbn [bynumber]; [reflexivity|]. destruct (active <=? keep); [reflexivity|]. destruct (JAM_ReadOnlyHeader j num) as [h|]; [|apply IH].
  destruct (deleted h); [apply IH|]. pose proof (markmsg_lrd j bh num h) as E. destruct (markmsg j bh num h) as [j' bh']. rewrite IH. exact E.
Qed.
Lemma bydate_lrd more keep today : forall j bh num, j_lrd (fst (bydate more keep today j bh num)) = j_lrd j.
Proof.
  induction more as [|more IH]; intros j bh num; cbn [bydate]; [reflexivity|]. destruct (JAM_ReadOnlyHeader j num) as [h|]; [|apply IH].
  destruct (_ && _); [|apply IH]. pose proof (markmsg_lrd j bh num h) as E. destruct (markmsg j bh num h) as [j' bh']. rewrite IH. exact E.
Qed.
Theorem C39_lastread crc maint pack keepnum keepdays today now j j' :
  ProcessAreaJAM crc maint pack keepnum keepdays today now j = Some j' -> j_lrd j' = j_lrd j.
Proof.
  unfold ProcessAreaJAM. destruct (JAM_ReadMBHeader j) as [bh|]; [|congruence]. destruct (JAM_GetMBSize j =? 0); [congruence|].
  set (more := Z.to_nat (JAM_GetMBSize j)). set (X := if maint && negb (keepnum =? 0) then _ else _).
  assert (HX : j_lrd (fst (fst X)) = j_lrd j) by (unfold X; destruct (_ && _); [apply bynumber_lrd|reflexivity]). destruct X as [[j1 bh1] act]. cbn [fst] in HX.
  set (Y := if maint && negb (keepdays =? 0) then _ else _).
  assert (HY : j_lrd (fst Y) = j_lrd j) by (unfold Y; destruct (_ && _); [rewrite bydate_lrd|]; exact HX). destruct Y as [j2 bh2]. cbn [fst] in HY.
  destruct pack; [|congruence]. destruct (packed crc now j2 bh2) as [r|]; cbn [obind]; [|discriminate]. intros [= <-]. destruct r; exact HY.
Qed.

Print Assumptions C51_maintenance.
Print Assumptions C39_pack.
Print Assumptions C51_future_refuted.
Print Assumptions C39_crash_refuted.
Print Assumptions C39_lastread.
