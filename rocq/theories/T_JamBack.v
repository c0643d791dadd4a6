(** Rescanning areas in JAM format, and what becomes of imported messages: C55. *)
From Verif Require T_Jam.
From Verif Require Import Base M_Node4D S_Node4D P_Node4D M_Str P_Str M_Mem S_Mem P_Mem M_Cfg M_Pkt S_Pkt P_Pkt M_Net M_Filter M_Msg P_Net M_Jam S_Jam P_Jam P_JamMaint M_Link M_JamMb S_JamMb P_JamMb T_JamMb.
From Verif Require Import S_JamBack P_JamBack P_JamImp.

Section Rescan.
  Context (crc : list Z -> Z) (cfg : jcfg) (fidodate : Z -> list Z) (handle : Z -> memmsg -> jres2) (lock : Z -> bool) (now : Z -> Z) (B : Z).
  Hypothesis Hcrc : forall u, is_u32 (crc u).
  Hypothesis Hh : forall n mm, Forall (storable crc cfg) (jr_imports (handle n mm)) /\ impsizes crc cfg (jr_imports (handle n mm)) <= B.
  Hypothesis Haka : valid4d (jc_aka cfg).
  Hypothesis Htag : jc_net cfg = false -> jc_tag cfg <> [].
  Lemma loop_def ctrlc resc more : forall start K j s hw a, jmade crc K j s -> ja_num a = x_num s -> x_num s <= start -> start + Z.of_nat more <= nextnum s -> start + Z.of_nat more <= 4294967296 -> K + B * Z.of_nat more < 4294967295 ->
    all_fine cfg s (numbers start (start + Z.of_nat more)) ->
    jamloop crc cfg fidodate handle lock now more ctrlc resc start (JS j hw (Some a)) <> None.
  Proof.
    induction more as [|more IH]; intros start K j s hw a HM Ha Hst Hend Hend' HK Hf; cbn [jamloop]; [discriminate|]. destruct (ctrlc start); [discriminate|].
    assert (HB0 : 0 <= B). { destruct (Hh 0 mm0) as [_ H]. pose proof (impsizes_nonneg crc cfg (jr_imports (handle 0 mm0))). lia. }
    assert (HKB : K + B < 4294967295) by nia. assert (HK' : forall K1, K1 <= K + B -> K1 + B * Z.of_nat more < 4294967295) by (intros; nia).
    assert (Hd : forall m, msgat s start = Some m -> gone (a_hdr m) = false -> exists mm oa, jam_memmsg cfg fidodate resc (a_hdr m) (a_subs m) (a_text m) = Some (mm, oa)).
    { intros m H1 H2. destruct (fine_shown cfg fidodate resc m Haka Htag) as (mm & oa & E & _); [apply (Hf start m); auto; apply numbers_in; lia|eauto]. }
    assert (Hnext : forall K1 j1 s1 a1, jmade crc K1 j1 s1 -> K1 <= K + B -> ja_num a1 = x_num s1 -> x_num s1 = x_num s -> nextnum s <= nextnum s1 -> (forall n, start < n < nextnum s -> msgat s1 n = msgat s n) ->
      jamloop crc cfg fidodate handle lock now more ctrlc resc (start + 1) (JS j1 hw (Some a1)) <> None).
    { intros K1 j1 s1 a1 HM1 HK1 Ha1 Hx1 Hn1 Hm1. apply (IH (start + 1) K1 j1 s1 hw a1 HM1); auto; try lia. intros n m H1 H2. apply numbers_in in H1. rewrite Hm1 in H2 by lia. apply (Hf n m); auto. apply numbers_in. lia. }
    assert (Hfin : forall st (g : jst * list (Z * memmsg) * bool -> option (jst * list (Z * memmsg) * bool)), (forall r, g r <> None) -> jamloop crc cfg fidodate handle lock now more ctrlc resc (start + 1) st <> None ->
      obind (jamloop crc cfg fidodate handle lock now more ctrlc resc (start + 1) st) g <> None).
    { intros st g Hg H. destruct (jamloop crc cfg fidodate handle lock now more ctrlc resc (start + 1) st) as [r|]; [apply Hg|contradiction]. }
    Ltac fin H := apply H; [intros [[? ?] ?]; discriminate|].
    destruct resc.
    - pose proof (export_resc crc cfg fidodate handle lock now B Hcrc Hh K j s start hw a HM Ha ltac:(lia) ltac:(lia) HKB) as X. destruct (there s start) eqn:Ew.
      + destruct X as (m & Hm & X). unfold there in Ew. rewrite Hm in Ew. apply negb_true_iff in Ew. destruct (Hd m Hm Ew) as (mm & oa & Emm). rewrite Emm in X. destruct X as (K1 & j1 & s1 & a1 & HM1 & HK1 & Hsa & HL & X). rewrite X.
        destruct (jr_ok (handle start mm)); [|discriminate]. fin Hfin. apply (Hnext K1 j1 s1 a1); auto; [destruct Hsa, HL; congruence|apply HL| |].
        * pose proof (longer_length _ _ HL). destruct HL as [E _]. unfold nextnum. lia.
        * intros n Hn. apply longer_msgat; [exact HL|lia].
      + rewrite X. fin Hfin. apply (Hnext K j s a); auto; lia.
    - pose proof (export_waits crc cfg fidodate handle lock now B Hcrc Hh K j s start hw a HM Ha ltac:(lia) ltac:(lia) HKB) as X. destruct (waiting s start) eqn:Ew.
      + destruct X as (m & Hm & X). unfold waiting in Ew. rewrite Hm in Ew. unfold waits in Ew. apply andb_true_iff in Ew as [_ Ew]. apply negb_true_iff in Ew. destruct (Hd m Hm Ew) as (mm & oa & Emm). rewrite Emm in X.
destruct X as (K1 & j1 & s1 & a1 & HM1 & HK1 & Hsa & (s0 & HL & Es) & X). rewrite X. destruct (jr_ok (handle start mm) && lock start); [|discriminate].
        pose proof (longer_length _ _ HL) as Hlen. assert (Ex := proj1 HL). assert (Hr : 0 <= start - x_num s < Z.of_nat (length (x_slots s0))) by (unfold nextnum in *; lia).
        assert (E1 : x_num s1 = x_num s0 /\ x_slots s1 = setslot (start - x_num s) (Some (as_sent cfg (now start) m)) (x_slots s0)) by (rewrite Es; auto). destruct E1 as [E1 E2].
        fin Hfin. apply (Hnext K1 j1 s1 a1); auto; [destruct Hsa; congruence|congruence| |].
        * unfold nextnum. rewrite E1, E2, setslot_length by exact Hr. lia.
        * intros n Hn. rewrite <- (longer_msgat s s0 n HL) by lia. unfold msgat. rewrite E1, E2. destruct (Z.ltb_spec n (x_num s0)); [reflexivity|]. rewrite nth_setslot by exact Hr. destruct (Nat.eqb_spec (Z.to_nat (n - x_num s0)) (Z.to_nat (start - x_num s))); [lia|reflexivity].
      + rewrite X. fin Hfin. apply (Hnext K j s a); auto; lia.
  Qed.
  (** what handlers do when they import nothing *)
  Lemma export_same resc n s : (forall n mm, jr_imports (handle n mm) = []) -> resc = true ->
    match jam_ExportJAMNum crc cfg fidodate handle lock now n resc s with JUB => True | JOk s' _ | JFalse s' _ => js_base s' = js_base s end.
  Proof.
    intros Hi ->. unfold jam_ExportJAMNum. assert (G : js_base (snd (jam_getarea s)) = js_base s). { unfold jam_getarea. destruct (js_open s); [reflexivity|]. destruct (JAM_ReadMBHeader (js_base s)); reflexivity. }
    destruct (jam_getarea s) as [[a|] s1]; cbn [snd] in G; [|exact G]. destruct (JAM_ReadMsgHeader (js_base s1) _) as [[[h subs]|c]|]; [| exact G | exact I].
    destruct (deleted h); [exact G|]. cbn [negb andb]. destruct (if h_txtlen h =? 0 then _ else _); [|exact G]. destruct (jam_memmsg _ _ _ _ _ _) as [[mm oa]|]; [|exact I]. rewrite Hi. cbn [jam_imports]. destruct (jr_ok (handle n mm)); exact G.
  Qed.
  Lemma loop_same ctrlc more : forall start s st' out ok, (forall n mm, jr_imports (handle n mm) = []) -> jamloop crc cfg fidodate handle lock now more ctrlc true start s = Some (st', out, ok) -> js_base st' = js_base s.
  Proof.
    induction more as [|more IH]; intros start s st' out ok Hi E; cbn [jamloop] in E; [injection E as <- <- <-; reflexivity|]. destruct (ctrlc start); [injection E as <- <- <-; reflexivity|].
    pose proof (export_same true start s Hi eq_refl) as X. destruct (jam_ExportJAMNum crc cfg fidodate handle lock now start true s) as [s1 h|s1 h|]; [|injection E as <- <- <-; exact X|discriminate].
    destruct (jamloop crc cfg fidodate handle lock now more ctrlc true (start + 1) s1) as [[[st2 out2] ok2]|] eqn:E2; cbn [obind] in E; [|discriminate]. injection E as <- <- <-. rewrite (IH _ _ _ _ _ Hi E2). exact X.
  Qed.
  (** a refusal is the end *)
  Lemma loop_stop ctrlc more : forall start s st' out ok, jamloop crc cfg fidodate handle lock now more ctrlc true start s = Some (st', out, ok) ->
    (forall pre x, out = pre ++ x -> x <> [] -> forall n mm, In (n, mm) pre -> jr_ok (handle n mm) = true) /\ (ok = true -> forall n mm, In (n, mm) out -> jr_ok (handle n mm) = true).
  Proof.
    induction more as [|more IH]; intros start s st' out ok E; cbn [jamloop] in E.
    { injection E as <- <- <-. split; [|intros _ n mm []]. intros pre x H _ n mm Hin. destruct pre; [contradiction|discriminate]. }
    destruct (ctrlc start). { injection E as <- <- <-. split; [|discriminate]. intros pre x H _ n mm Hin. destruct pre; [contradiction|discriminate]. }
    destruct (jam_ExportJAMNum crc cfg fidodate handle lock now start true s) as [s1 h|s1 h|] eqn:Ee; [| |discriminate].
    - destruct (jamloop crc cfg fidodate handle lock now more ctrlc true (start + 1) s1) as [[[st2 out2] ok2]|] eqn:E2; cbn [obind] in E; [|discriminate]. injection E as <- <- <-. destruct (IH _ _ _ _ _ E2) as [I1 I2].
      destruct h as [mm|]; [|auto]. assert (Hj : jr_ok (handle start mm) = true).
      { unfold jam_ExportJAMNum in Ee. destruct (jam_getarea s) as [[a|] s3]; [|discriminate]. destruct (JAM_ReadMsgHeader (js_base s3) _) as [[[h subs]|c]|]; [|discriminate|discriminate]. destruct (deleted h); [discriminate|]. cbn [negb andb] in Ee.
        destruct (if h_txtlen h =? 0 then _ else _); [|discriminate]. destruct (jam_memmsg _ _ _ _ _ _) as [[mm1 oa]|]; [|discriminate]. destruct (jam_imports _ _ _ _); [|discriminate]. destruct (jr_ok (handle start mm1)) eqn:Ej; [|discriminate]. injection Ee as _ <-. exact Ej. }
      split.
      + intros pre x H Hx n mm1 Hin. destruct pre as [|p pre]; [contradiction|]. cbn [app] in H. injection H as <- H. destruct Hin as [Hin|Hin]; [injection Hin as <- <-; exact Hj|]. eapply I1; eauto.
      + intros H n mm1 [Hin|Hin]; [injection Hin as <- <-; exact Hj|auto].
    - injection E as <- <- <-. split; [|discriminate]. intros pre x H Hx n mm Hin. destruct h as [mm1|]; [|destruct pre; [contradiction|discriminate]]. destruct pre as [|p pre]; [contradiction|]. destruct pre; [|discriminate]. cbn [app] in H. injection H as _ H. subst x. contradiction.
  Qed.
End Rescan.

Lemma lastnumbers_start max s : is_u32 (x_num s) -> nextnum s < 4294967296 -> 0 <= max ->
  (if negb (max =? 0) && (Z.of_nat (length (x_slots s)) >? max) then u32 (x_num s + Z.of_nat (length (x_slots s)) - max) else x_num s) = (if max =? 0 then x_num s else Z.max (x_num s) (nextnum s - max)).
Proof.
  intros Hx Hn Hm. unfold nextnum in *. destruct (Z.eqb_spec max 0); cbn [negb andb]; [reflexivity|]. destruct (Z.gtb_spec (Z.of_nat (length (x_slots s))) max); [|lia]. rewrite u32_id by (unfold is_u32 in *; lia). lia.
Qed.

(** C55: rescanning hands on the messages of the area that are there, or of the last [max]
    numbers, in order and none left out, as they are stored, and changes none of them. *)
Theorem C55_rescan crc cfg fidodate handle lock now ctrlc B K j s hw max :
  (forall u, is_u32 (crc u)) -> jmade crc K j s -> nextnum s < 4294967296 -> 0 <= max ->
  valid4d (jc_aka cfg) -> (jc_net cfg = false -> jc_tag cfg <> []) -> all_fine cfg s (lastnumbers max s) ->
  (forall n mm, Forall (storable crc cfg) (jr_imports (handle n mm)) /\ impsizes crc cfg (jr_imports (handle n mm)) <= B) ->
  K + B * Z.of_nat (length (x_slots s)) < 4294967295 ->
  exists st' out ok K' s' rest, jam_rescanfunc crc cfg fidodate handle lock now max ctrlc (JS j hw None) = Some (st', out, ok) /\
    jmade crc K' (js_base st') s' /\ K' <= K + B * Z.of_nat (length (x_slots s)) /\
    (* exactly those that are there, in order *)
    filter (present s) (lastnumbers max s) = map fst out ++ rest /\ (ok = true -> rest = []) /\
    (* each of them as it is stored *)
    (forall n mm, In (n, mm) out -> exists m, msgat s n = Some m /\ shown cfg fidodate true m mm) /\
    (* a refusal is the end of it, and there is no other reason to stop than the user *)
    (forall pre x, out = pre ++ x -> x <> [] -> forall n mm, In (n, mm) pre -> jr_ok (handle n mm) = true) /\
    (ok = true -> forall n mm, In (n, mm) out -> jr_ok (handle n mm) = true) /\
    ((forall n, ctrlc n = false) -> (forall n mm, In (n, mm) out -> jr_ok (handle n mm) = true) -> ok = true) /\
    (* nothing is changed *)
    x_num s' = x_num s /\ nextnum s <= nextnum s' /\ (forall n, n < nextnum s -> msgat s' n = msgat s n) /\
    ((forall n mm, jr_imports (handle n mm) = []) -> js_base st' = j) /\ js_hw st' = hw.
Proof.
  intros Hcrc HM Hn Hmax Haka Htag Hf Hh HK. destruct (getarea_new crc K j s hw Hcrc HM Hn) as [Ea Hx]. unfold jam_rescanfunc. rewrite Ea. cbn [ja_num ja_size].
  rewrite (lastnumbers_start max s Hx Hn Hmax). set (first := if max =? 0 then x_num s else Z.max (x_num s) (nextnum s - max)). set (a := JA (x_num s) (Z.of_nat (length (x_slots s))) 0 0 false).
  assert (Ee : jamend a = nextnum s). { unfold jamend, a, nextnum in *. cbn [ja_num ja_size]. apply u32_id. unfold is_u32 in *. lia. } rewrite Ee.
  assert (Hle : x_num s <= first <= nextnum s). { unfold first, nextnum in *. destruct (Z.eqb_spec max 0); lia. }
  assert (En : first + Z.of_nat (Z.to_nat (nextnum s - first)) = nextnum s) by lia.
  assert (HB0 : 0 <= B). { destruct (Hh 0 mm0) as [_ H]. pose proof (impsizes_nonneg crc cfg (jr_imports (handle 0 mm0))). lia. }
  assert (HB : B * Z.of_nat (Z.to_nat (nextnum s - first)) <= B * Z.of_nat (length (x_slots s))) by (apply Z.mul_le_mono_nonneg_l; unfold nextnum in *; lia).
  assert (El : lastnumbers max s = numbers first (nextnum s)) by reflexivity. rewrite El in *.
  pose proof (loop_def crc cfg fidodate handle lock now B Hcrc Hh Haka Htag ctrlc true (Z.to_nat (nextnum s - first)) first K j s hw a HM eq_refl (proj1 Hle) ltac:(lia) ltac:(lia) ltac:(lia) ltac:(rewrite En; exact Hf)) as Hd.
  destruct (jamloop crc cfg fidodate handle lock now (Z.to_nat (nextnum s - first)) ctrlc true first (JS j hw (Some a))) as [[[st' out] ok]|] eqn:E; [|contradiction].
  destruct (loop_resc crc cfg fidodate handle lock now B Hcrc Hh ctrlc (Z.to_nat (nextnum s - first)) first K j s hw a st' out ok HM eq_refl (proj1 Hle) ltac:(lia) ltac:(lia) ltac:(lia) E) as (K' & j' & s' & a' & rest & Est & HM' & HK' & Hsa & HL & Hin & Hfl & Hok & Hct). rewrite En in Hfl.
  destruct (loop_stop crc cfg fidodate handle lock now ctrlc _ _ _ _ _ _ E) as [L1 L2].
  exists st', out, ok, K', s', rest. rewrite Est. cbn [js_base js_hw]. rewrite <- Est. split; [reflexivity|]. split; auto. split; [lia|]. split; [exact Hfl|]. split; auto. split.
  { intros n mm H. destruct (Hin n mm H) as (m & oa & H1 & H2 & H3). exists m. split; auto.
    assert (Hfine : fine_msg cfg m). { apply (Hf n m); auto. assert (Hc : In n (filter (there s) (numbers first (nextnum s)))) by (rewrite Hfl; apply in_or_app; left; apply (in_map fst _ (n, mm)); auto). apply filter_In in Hc. apply Hc. }
    destruct (fine_shown cfg fidodate true m Haka Htag Hfine) as (mm1 & oa1 & E1 & E2 & _). rewrite E1 in H3. injection H3 as -> ->. exact E2. }
  split; auto. split; auto. split; auto. split; [apply HL|]. split; [|split; [|split; [|reflexivity]]].
  - pose proof (longer_length _ _ HL). destruct HL as [E1 _]. unfold nextnum. lia.
  - intros n Hlt. apply longer_msgat; auto.
  - intros Hi. pose proof (loop_same crc cfg fidodate handle lock now ctrlc _ _ _ _ _ _ Hi E) as E1. rewrite Est in E1. exact E1.
Qed.
(** C55: a scan of an area with such messages ends, and hands on what is stored (which
    messages, and what becomes of them, is C53_scan). *)
Theorem C55_scan crc cfg fidodate handle lock now junk ctrlc B K j s hw :
  (forall u, is_u32 (crc u)) -> jmade crc K j s -> nextnum s < 4294967296 -> goodmark hw ->
  valid4d (jc_aka cfg) -> (jc_net cfg = false -> jc_tag cfg <> []) -> all_fine cfg s (numbers (firstnum cfg hw s) (nextnum s)) ->
  (forall n mm, Forall (storable crc cfg) (jr_imports (handle n mm)) /\ impsizes crc cfg (jr_imports (handle n mm)) <= B) ->
  K + B * Z.of_nat (length (x_slots s)) < 4294967295 ->
  exists st' out ok, jam_exportfunc crc cfg fidodate handle lock now junk ctrlc (JS j hw None) = Some (st', out, ok) /\
    (forall n mm, In (n, mm) out -> exists m, msgat s n = Some m /\ shown cfg fidodate false m mm).
Proof.
  intros Hcrc HM Hn Hg Haka Htag Hf Hh HK.
  assert (Hd : jam_exportfunc crc cfg fidodate handle lock now junk ctrlc (JS j hw None) <> None).
  { destruct (getarea_new crc K j s hw Hcrc HM Hn) as [Ea Hx]. unfold jam_exportfunc. rewrite Ea. cbn [js_base js_hw]. change CFG_JAM_HIGHWATER with (2 ^ 0). rewrite flag_pow by lia.
    set (a0 := JA (x_num s) (Z.of_nat (length (x_slots s))) 0 0 false). set (mk := if Z.testbit (jc_jflags cfg) 0 then markof hw else 0). set (a := JA (x_num s) (Z.of_nat (length (x_slots s))) mk mk false).
    assert (Ej : (if Z.testbit (jc_jflags cfg) 0 then jam_gethighwater junk a0 (JS j hw (Some a0)) else a0) = a).
    { unfold a, mk. destruct (Z.testbit (jc_jflags cfg) 0); [|reflexivity]. unfold jam_gethighwater. cbn [js_hw]. destruct hw as [f|]; [|reflexivity]. destruct Hg as (k & -> & Hk). change (firstn 4 (le32 k)) with (le32 k). change (length (le32 k)) with 4%nat.
      rewrite le32_back by auto. cbn [markof]. rewrite get32_le by auto. reflexivity. }
    rewrite Ej. clear Ej.
    assert (Ee : jamend a = nextnum s). { unfold jamend, a, nextnum in *. cbn [ja_num ja_size]. apply u32_id. unfold is_u32 in *. lia. }
    assert (Es : jamstart a = firstnum cfg hw s).
    { unfold jamstart, firstnum, a. cbn [ja_num ja_hw]. unfold mk. destruct (Z.testbit (jc_jflags cfg) 0); cbn [andb negb Z.eqb]; [|rewrite Z.ltb_irrefl; reflexivity]. destruct (Z.eqb_spec (markof hw) 0) as [E0|E0]; cbn [negb]; [rewrite Z.ltb_irrefl; reflexivity|]. unfold u32. destruct (Z.ltb_spec ((markof hw + 1) mod 4294967296) (x_num s)); lia. }
    rewrite Ee, Es. set (first := firstnum cfg hw s) in *. assert (Hfi : x_num s <= first). { unfold first, firstnum. destruct (_ && _); lia. }
    assert (HB0 : 0 <= B). { destruct (Hh 0 mm0) as [_ H]. pose proof (impsizes_nonneg crc cfg (jr_imports (handle 0 mm0))). lia. }
    assert (Hl : jamloop crc cfg fidodate handle lock now (Z.to_nat (nextnum s - first)) ctrlc false first (JS j hw (Some a)) <> None).
    { destruct (Z.le_gt_cases first (nextnum s)) as [Hle|Hgt]; [|replace (Z.to_nat (nextnum s - first)) with 0%nat by lia; discriminate].
      assert (En : first + Z.of_nat (Z.to_nat (nextnum s - first)) = nextnum s) by lia.
      assert (HB : B * Z.of_nat (Z.to_nat (nextnum s - first)) <= B * Z.of_nat (length (x_slots s))) by (apply Z.mul_le_mono_nonneg_l; unfold nextnum in *; lia).
      apply (loop_def crc cfg fidodate handle lock now B Hcrc Hh Haka Htag ctrlc false _ first K j s hw a HM eq_refl Hfi); [lia..|]. rewrite En. exact Hf. }
    destruct (jamloop _ _ _ _ _ _ _ _ _ _ _) as [[[? ?] ?]|]; [discriminate|contradiction]. }
  destruct (jam_exportfunc crc cfg fidodate handle lock now junk ctrlc (JS j hw None)) as [[[st' out] ok]|] eqn:E; [|contradiction]. exists st', out, ok. split; [reflexivity|].
  destruct (C53_scan crc cfg fidodate handle lock now junk ctrlc B K j s hw st' out ok Hcrc HM Hn Hg Hh HK E) as (K1 & s1 & rest & _ & _ & _ & _ & Hfl & _ & Hin & _). intros n mm H. destruct (Hin n mm H) as (m & oa & H1 & H2 & _). exists m. split; auto.
  assert (Hc : In n (filter (waiting s) (numbers (firstnum cfg hw s) (nextnum s)))) by (rewrite Hfl; apply in_or_app; left; apply (in_map fst _ (n, mm)); auto). apply filter_In in Hc as [Hc1 Hc2].
  assert (Hg' : gone (a_hdr m) = false). { unfold waiting in Hc2. rewrite H1 in Hc2. unfold waits in Hc2. apply andb_true_iff in Hc2 as [_ Hc2]. apply negb_true_iff in Hc2. exact Hc2. }
  destruct (fine_shown cfg fidodate false m Haka Htag (Hf n m Hc1 H1 Hg')) as (mm1 & oa1 & E1 & E2 & _). rewrite E1 in H2. injection H2 as -> ->. exact E2.
Qed.

(** ** Imported messages *)
Lemma shown_same cfg fidodate resc m m' mm : same_mail m m' -> shown cfg fidodate resc m' mm -> shown cfg fidodate resc m mm.
Proof. intros (E1 & E2 & E3 & E4 & E5). unfold shown. rewrite E1, E2, E3, E4, E5. auto. Qed.
Lemma fine_same cfg m m' : same_mail m m' -> fine_msg cfg m -> fine_msg cfg m'.
Proof. intros (E1 & E2 & E3 & E4 & E5). unfold fine_msg. rewrite E1, E2, E4. auto. Qed.
Lemma add_last s h subs text : nextnum s < 4294967296 -> is_u32 (x_num s) ->
  let s1 := astep s (Add h subs text) in
  nextnum s1 = nextnum s + 1 /\ (forall n, n < nextnum s -> msgat s1 n = msgat s n) /\ msgat s1 (nextnum s) = Some (MSG (newhdr (nextnum s) h subs text) subs text).
Proof.
  intros Hn Hx. cbn [astep]. unfold nextnum in *. cbn [x_num x_slots]. rewrite app_length. cbn [length]. split; [lia|]. split.
  - intros n H. unfold msgat. cbn [x_num x_slots]. destruct (Z.ltb_spec n (x_num s)); [reflexivity|]. rewrite nth_error_app1 by lia. reflexivity.
  - unfold msgat. cbn [x_num x_slots]. destruct (Z.ltb_spec (x_num s + Z.of_nat (length (x_slots s))) (x_num s)); [lia|]. replace (Z.to_nat (x_num s + Z.of_nat (length (x_slots s)) - x_num s)) with (length (x_slots s)) by lia. rewrite nth_error_app2, Nat.sub_diag by lia. cbn [nth_error].
    rewrite Z.mod_small by (unfold is_u32 in Hx; lia). reflexivity.
Qed.
(** C55: a message that is imported gets the next number, the others stay as they are, and
    whenever the area is rescanned later the message that is handed on says what the
    imported one said. *)
Theorem C55_back crc cfg fidodate K j s hw op i ls :
  (forall u, is_u32 (crc u)) -> jmade crc K j s -> nextnum s < 4294967296 -> valid4d (jc_aka cfg) ->
  jam_ok cfg i ls -> ji_lock i = true -> ji_cut i = nocuts -> impsize crc cfg i < 2147483648 -> K + impsize crc cfg i < 4294967295 ->
  exists st1 s1 m, jam_importfunc crc cfg i (JS j hw op) = Some (st1, true) /\
    jmade crc (K + impsize crc cfg i) (js_base st1) s1 /\ js_hw st1 = hw /\ nextnum s1 = nextnum s + 1 /\
    (forall n, n < nextnum s -> msgat s1 n = msgat s n) /\
    msgat s1 (nextnum s) = Some m /\ gone (a_hdr m) = false /\ fine_msg cfg m /\
    forall K2 j2 s2 m2 hw2 handle lock now max ctrlc B st2 out ok mm',
      jmade crc K2 j2 s2 -> nextnum s2 < 4294967296 -> 0 <= max -> msgat s2 (nextnum s) = Some m2 -> same_mail m m2 ->
      (forall n mm, Forall (storable crc cfg) (jr_imports (handle n mm)) /\ impsizes crc cfg (jr_imports (handle n mm)) <= B) ->
      K2 + B * Z.of_nat (length (x_slots s2)) < 4294967295 ->
      jam_rescanfunc crc cfg fidodate handle lock now max ctrlc (JS j2 hw2 None) = Some (st2, out, ok) ->
      In (nextnum s, mm') out -> jam_back cfg fidodate i ls mm'.
Proof.
  intros Hcrc HM Hn Haka Hok Hl Hc Hsz HK. destruct (jam_message_ok crc cfg i ls Hok) as (gs & Hgs & Hnil & Em).
  assert (Esz : impsize crc cfg i = opsize (Add (stored_hdr crc cfg i) (subs_all (ji_mm i) ls gs) (concat (textual ls)))) by (unfold impsize; rewrite Em; reflexivity).
  assert (Hop := stored_op crc cfg i ls gs Hcrc Hok ltac:(lia)). set (h := stored_hdr crc cfg i) in *. set (subs := subs_all (ji_mm i) ls gs) in *. set (text := concat (textual ls)) in *.
  destruct (getarea_new crc K j s hw Hcrc HM Hn) as [Ea Hx]. destruct (step_rep crc K j s _ Hcrc (made_rep _ _ _ _ Hcrc HM) Hop ltac:(lia)) as (j1 & E1 & _). assert (HM1 := made_op crc K j s _ j1 HM Hop ltac:(lia) E1).
  assert (Hst : exists st, JAM_AddMessage crc nocuts j h subs text = Some (st, j1) /\ st = 0).
  { cbn [jstep] in E1. destruct (JAM_AddMessage crc nocuts j h subs text) as [[st j']|] eqn:Eadd; [|discriminate]. cbn [option_map snd] in E1. injection E1 as ->. exists st. split; [reflexivity|]. destruct (add_any crc nocuts K j s h subs text st j1 Hcrc (made_rep _ _ _ _ Hcrc HM) Hop ltac:(lia) Eadd) as [H _]. apply H. reflexivity. }
  destruct Hst as (st & Eadd & ->). destruct (add_last s h subs text Hn Hx) as (N1 & N2 & N3). set (m := MSG (newhdr (nextnum s) h subs text) subs text) in *.
  assert (Ei : exists op1, jam_importfunc crc cfg i (JS j hw op) = Some (JS j1 hw op1, true)).
  { unfold jam_importfunc. destruct op as [a|].
    - cbn [jam_getarea js_open]. rewrite Em. cbn [obind js_base js_hw]. rewrite Hl, Hc, Eadd. cbn [obind fst snd js_open]. eauto.
    - rewrite Ea, Em. cbn [obind js_base js_hw]. rewrite Hl, Hc, Eadd. cbn [obind fst snd js_open]. eauto. }
  destruct Ei as (op1 & Ei). exists (JS j1 hw op1), (astep s (Add h subs text)), m. split; [exact Ei|]. split; [rewrite Esz; exact HM1|]. split; [reflexivity|]. split; [exact N1|]. split; [exact N2|]. split; [exact N3|].
  assert (Hfine : fine_msg cfg m) by (apply stored_fine; auto). split; [apply jamattr_present|]. split; [exact Hfine|].
  intros K2 j2 s2 m2 hw2 handle lock now max ctrlc B st2 out ok mm' HM2 Hn2 Hmax Hm2 Hsame Hh HK2 E Hin.
  assert (Htag : jc_net cfg = false -> jc_tag cfg <> []). { intros Hnet. destruct Hok as (_ & _ & _ & _ & _ & _ & Hk). rewrite Hnet in Hk. apply Hk. }
  assert (Hmm : exists oa, jam_memmsg cfg fidodate true (a_hdr m2) (a_subs m2) (a_text m2) = Some (mm', oa)).
  { destruct (getarea_new crc K2 j2 s2 hw2 Hcrc HM2 Hn2) as [Ea2 Hx2]. unfold jam_rescanfunc in E. rewrite Ea2 in E. cbn [ja_num ja_size] in E.
    rewrite (lastnumbers_start max s2 Hx2 Hn2 Hmax) in E. set (first := if max =? 0 then x_num s2 else Z.max (x_num s2) (nextnum s2 - max)) in *. set (a := JA (x_num s2) (Z.of_nat (length (x_slots s2))) 0 0 false) in *.
    assert (Ee : jamend a = nextnum s2). { unfold jamend, a, nextnum in *. cbn [ja_num ja_size]. apply u32_id. unfold is_u32 in *. lia. } rewrite Ee in E.
    assert (Hle : x_num s2 <= first <= nextnum s2). { unfold first, nextnum in *. destruct (Z.eqb_spec max 0); lia. }
    assert (HB0 : 0 <= B). { destruct (Hh 0 mm0) as [_ H]. pose proof (impsizes_nonneg crc cfg (jr_imports (handle 0 mm0))). lia. }
    assert (HB : B * Z.of_nat (Z.to_nat (nextnum s2 - first)) <= B * Z.of_nat (length (x_slots s2))) by (apply Z.mul_le_mono_nonneg_l; unfold nextnum in *; lia).
    destruct (loop_resc crc cfg fidodate handle lock now B Hcrc Hh ctrlc (Z.to_nat (nextnum s2 - first)) first K2 j2 s2 hw2 a st2 out ok HM2 eq_refl (proj1 Hle) ltac:(lia) ltac:(lia) ltac:(lia) E) as (_ & _ & _ & _ & _ & _ & _ & _ & _ & _ & Hout & _).
    destruct (Hout _ _ Hin) as (m3 & oa & H1 & _ & H3). rewrite Hm2 in H1. injection H1 as <-. eauto. }
  destruct Hmm as (oa & Emm). destruct (fine_shown cfg fidodate true m2 Haka Htag (fine_same _ _ _ Hsame Hfine)) as (mm1 & oa1 & F1 & F2 & x & F3 & F4). rewrite F1 in Emm. injection Emm as -> ->.
  apply (stored_back crc cfg fidodate i ls gs (nextnum s) mm' x Haka Hok Hgs Hnil); [eapply shown_same; eauto| |exact F4]. fold h subs text. fold m. destruct Hsame as (<- & _). exact F3.
Qed.

(** ** What the conditions say *)
(** C55: control lines in the usual form come back as they were. *)
Theorem C55_usual l : usual l -> norm l = l.
Proof.
  assert (B : forall v, stripleadtrail v = v -> (length v <= 98)%nat -> stripleadtrail (firstn 99 (removelast (32 :: v ++ [13]))) = v).
  { intros v H1 H2. change (32 :: v ++ [13]) with ((32 :: v) ++ [13]). rewrite removelast_last, firstn_all2 by (cbn [length]; lia). exact H1. }
  intros [(k & v & Hk & -> & Hs & Hl)|(v & -> & Hs & Hl & N1 & N2 & N3)].
  - cbn [In] in Hk. destruct Hk as [<-|[<-|[<-|[]]]]; unfold norm, body; litc; cbn [app prefixb skipn Z.eqb Pos.eqb andb]; rewrite B by auto; reflexivity.
  - assert (P : forall p, ~ starts_with p v -> ~ In 13 p -> prefixb (1 :: p) (1 :: v ++ [13]) = false).
    { intros p Hp H13. apply prefixb_false. intros (r & E). cbn [app] in E. injection E as E. destruct (Nat.le_gt_cases (length p) (length v)) as [Hle|Hgt].
      - apply Hp. exists (skipn (length p) v). rewrite <- (firstn_skipn (length p) v) at 1. f_equal. assert (E2 : firstn (length p) (v ++ [13]) = firstn (length p) (p ++ r)) by (f_equal; exact E). rewrite firstn_app in E2. replace (length p - length v)%nat with O in E2 by lia. rewrite firstn_O, app_nil_r in E2. rewrite E2, firstn_app, Nat.sub_diag, firstn_all, firstn_O, app_nil_r. reflexivity.
      - apply H13. assert (El : length (v ++ [13]) = length (p ++ r)) by (f_equal; exact E). rewrite !app_length in El. cbn [length] in El. assert (Er : r = []) by (destruct r; [auto|cbn [length] in El; lia]). subst r. rewrite app_nil_r in E. rewrite <- E. apply in_or_app. right. left. auto. }
    unfold norm. rewrite !P by (auto; litc; cbn; intuition lia). unfold body. change (skipn 1 (1 :: v ++ [13])) with (v ++ [13]). rewrite removelast_last, firstn_all2, Hs by auto. reflexivity.
Qed.
Lemma splitchunk_whole c : (c = [] \/ exists r, c = r ++ [13]) -> splitchunk c = ([], c).
Proof.
  intros [->|(r & ->)]; [reflexivity|]. unfold splitchunk. rewrite app_length. cbn [length]. replace (length r + 1 - 1)%nat with (length r) by lia. rewrite app_nth2, Nat.sub_diag by lia. cbn [nth Z.eqb Pos.eqb negb]. rewrite andb_false_r. reflexivity.
Qed.
Lemma addbuf_whole cs l : (match cs with [] => True | c :: _ => c = [] \/ exists r, c = r ++ [13] end) -> l <> [] -> (length l <= CHUNKLEN)%nat ->
  exists c r, mmAddBuf cs l = Some (c :: r) /\ ((exists c0, cs = c0 :: r /\ c = c0 ++ l) \/ (r = cs /\ c = l)).
Proof.
  intros Hc Hl Hlen. unfold mmAddBuf, mmAddBuf_gen. destruct l as [|x l]; [contradiction|]. set (buf := x :: l) in *.
  assert (G : forall cs, (match cs with [] => True | c :: _ => c = [] \/ exists r, c = r ++ [13] end) -> addchunks CHUNKLEN (length buf) cs buf = Some (buf :: cs)).
  { intros cs' H. replace (length buf) with (S (length l)) at 1 by reflexivity. unfold addchunks. fold addchunks. unfold buf at 1. cbv iota.
    assert (E : (match cs' with [] => ([], []) | old :: r => let '(m, o) := splitchunk old in (m, o :: r) end) = ([], cs')). { destruct cs' as [|c r]; [reflexivity|]. rewrite (splitchunk_whole c H). reflexivity. }
    rewrite E. cbv zeta. rewrite Nat.sub_0_r, Nat.min_l by exact Hlen. cbn [app]. rewrite firstn_all, skipn_all. destruct (length l); reflexivity. }
  destruct cs as [|c r]; [rewrite G by exact I; eauto 9|]. destruct (Nat.leb (length c + length buf) CHUNKLEN); [|rewrite G by exact Hc; eauto 9]. exists (c ++ buf), r. split; [reflexivity|]. left. eauto.
Qed.
(** C55: a message made by adding lines of at most 10000 characters has its lines whole. *)
Theorem C55_lines mm ls l mm' : textlines mm ls -> wholeline l -> (length l <= CHUNKLEN)%nat -> mmAddLine mm l = Some mm' ->
  textlines mm' (ls ++ if negb (isnet mm) && (seenbyb l || pathb l) then [] else [l]).
Proof.
  intros (Hw & css & Ec & El) Hl Hlen E. pose proof Hl as (r & Er & _).
  assert (Hne : l <> []) by (rewrite Er; destruct r; discriminate).
  assert (Keep : TextChunks mm' = TextChunks mm -> textlines mm' (ls ++ [])). { intros H. rewrite app_nil_r. split; [exact Hw|]. exists css. rewrite H. auto. }
  assert (Add : forall mm1, TextChunks mm1 = TextChunks mm -> option_map (set_TextChunks mm1) (mmAddBuf (TextChunks mm1) l) = Some mm' -> textlines mm' (ls ++ [l])).
  { intros mm1 E1 E2. rewrite E1 in E2. split; [apply Forall_app; split; [exact Hw|constructor; [exact Hl|constructor]]|].
    assert (Hlast : match TextChunks mm with [] => True | c :: _ => c = [] \/ exists r, c = r ++ [13] end).
    { destruct (TextChunks mm) as [|c cs]; [exact I|]. cbn [rev] in Ec. assert (Hc : In c (map (@concat Z) css)) by (rewrite <- Ec; apply in_or_app; right; left; reflexivity). apply in_map_iff in Hc as (ws & <- & Hin).
      assert (F : Forall wholeline ws). { apply Forall_forall. intros w Hx. rewrite Forall_forall in Hw. apply Hw. rewrite <- El. apply in_concat. eauto. }
      destruct ws as [|w0 ws]; [left; reflexivity|]. right. destruct (exists_last (l := w0 :: ws) ltac:(discriminate)) as (ws1 & w & Ew). rewrite Ew in *. apply Forall_app in F as [_ F]. inversion F as [|? ? (rr & -> & _) _]; subst. rewrite concat_app. cbn [concat]. rewrite app_nil_r, app_assoc. eauto. }
    destruct (addbuf_whole (TextChunks mm) l Hlast Hne Hlen) as (c & cs & E3 & H3). rewrite E3 in E2. cbn [option_map] in E2. injection E2 as <-. cbn [TextChunks set_TextChunks].
    destruct H3 as [(c0 & H3 & H4)|(H3 & H4)].
    - rewrite H3 in Ec. cbn [rev] in Ec. destruct css as [|w0 css0] eqn:Ecs; [destruct (rev cs); discriminate|]. destruct (exists_last (l := w0 :: css0) ltac:(discriminate)) as (css1 & w & Ew). rewrite Ew in *. clear Ew w0 css0. rewrite map_app in Ec. cbn [map] in Ec. apply app_inj_tail in Ec as [Ec1 Ec2].
      exists (css1 ++ [w ++ [l]]). cbn [rev]. rewrite map_app. cbn [map]. rewrite concat_app, concat_app. cbn [concat]. rewrite !app_nil_r. split; [rewrite Ec1, H4, Ec2; reflexivity|]. rewrite <- El, concat_app. cbn [concat]. rewrite app_nil_r, app_assoc. reflexivity.
    - exists (css ++ [[l]]). cbn [rev]. rewrite H3, Ec, map_app, concat_app. cbn [map concat app]. rewrite app_nil_r, H4, El. auto. }
  unfold mmAddLine in E. cbv zeta in E. unfold isnet, seenbyb, pathb. change (prefixb (SOH ++ lit "PATH:") l) with (prefixb (1 :: lit "PATH:") l) in E. set (echo := match Area mm with [] => false | _ => true end) in *.
  replace (negb match Area mm with [] => true | _ => false end) with echo by (unfold echo; destruct (Area mm); reflexivity).
  destruct echo; cbn [andb] in *.
  - destruct (prefixb (lit "SEEN-BY:") l); cbn [orb].
    { apply Keep. destruct (from l 9); [|discriminate]. destruct (AddSeenby _ _); cbn [option_map] in E; [|discriminate]. injection E as <-. reflexivity. }
    destruct (prefixb (1 :: lit "PATH:") l).
    { apply Keep. destruct (from l 7); cbn [option_map] in E; [|discriminate]. injection E as <-. reflexivity. }
    destruct (prefixb (lit " * Origin: ") l).
    { destruct (ExtractAddress l) as [n| |]; [eapply Add; [|exact E]; reflexivity|apply (Add mm); auto|discriminate]. }
    destruct (match l with c :: _ => c =? 1 | [] => false end); [|apply (Add mm); auto]. destruct (ProcessKludge mm l) as [mm1|] eqn:Ek; [|discriminate]. apply (Add mm1); auto. apply (ProcessKludge_frame _ _ _ Ek).
  - destruct (match l with c :: _ => c =? 1 | [] => false end); [|apply (Add mm); auto]. destruct (ProcessKludge mm l) as [mm1|] eqn:Ek; [|discriminate]. apply (Add mm1); auto. apply (ProcessKludge_frame _ _ _ Ek).
Qed.

Definition zlines : list (list Z) := [1 :: lit "MSGID: 2:201/1 1234abcd" ++ [13]; 1 :: lit "CHRS: LATIN-1 2" ++ [13]; lit "Hello" ++ [13]; lit " * Origin: Here (2:201/1)" ++ [13]].
Definition zsb : nodes2d := addall [(201, 1); (201, 2); (5030, 7)] [].
Definition zimp : jimp := JI (MM (N4 2 201 1 0) (N4 2 201 1 0) (N4 0 0 0 0) (N4 0 0 0 0) (N4 2 201 1 0) (lit "TEST") (lit "Carol") (lit "Dave") (lit "Hello") (lit "01 Jan 70  00:16:40") [] [] 1 3 0 0 [concat zlines] zsb [lit "201/1 2"]) 1000 2000 true nocuts.
Definition zcfg : jcfg := ycfg 64 0 false.
Definition zopt (r : option (jst * list (Z * memmsg) * bool)) : option (list Z * list Z) :=
  match r with Some (_, out, true) => match rev out with (_, mm) :: _ => Some (map fst out, mmtext mm) | [] => None end | _ => None end.
Lemma zimp_ok : jam_ok zcfg zimp zlines.
Proof.
  assert (C : forall l, forallb (fun c => (1 <=? c) && (c <? 256)) l = true -> cstring l). { intros l H. unfold cstring. apply Forall_forall. intros c Hc. rewrite forallb_forall in H. specialize (H c Hc). apply andb_true_iff in H as [H1 H2]. apply Z.leb_le in H1. apply Z.ltb_lt in H2. lia. }
  assert (N : forall c l, existsb (Z.eqb c) l = false -> ~ In c l). { intros c l H Hc. assert (existsb (Z.eqb c) l = true) by (apply existsb_exists; exists c; split; auto; apply Z.eqb_refl). congruence. }
  assert (W : forall r, forallb (fun c => (1 <=? c) && (c <? 256)) r = true -> existsb (Z.eqb 13) r = false -> existsb (Z.eqb 10) r = false -> wholeline (r ++ [13])) by (intros r H1 H2 H3; exists r; auto).
  split; [apply C; reflexivity|]. split; [apply C; reflexivity|]. split; [apply C; reflexivity|]. split.
  { unfold S_Pkt.hdr_ok, S_Pkt.field, valid4d, is_u16. cbn [ji_mm zimp DateTime To From Subject Attr Cost OrigNode DestNode zone net node point]. repeat (split; [first [lia|apply N; reflexivity|vm_compute; lia]|]); lia. }
  split.
  { split; [|exists [zlines]; split; reflexivity]. unfold zlines. repeat (apply Forall_cons; [first [apply (W (1 :: lit "MSGID: 2:201/1 1234abcd")); reflexivity|apply (W (1 :: lit "CHRS: LATIN-1 2")); reflexivity|apply W; reflexivity]|]). constructor. }
  split.
  { split; [discriminate|]. unfold zlines. repeat (apply Forall_cons; [|]); [..|constructor];
    (split; [apply prefixb_false; reflexivity|]; split; [intros _ Ho|intros H1 H2; first [discriminate H1|change (jc_net zcfg) with false; cbv iota; apply prefixb_false; vm_compute; reflexivity]]).
    - apply prefixb_spec in Ho. discriminate.
    - apply prefixb_spec in Ho. discriminate.
    - apply prefixb_spec in Ho. discriminate.
    - split; [vm_compute; lia|]. left. exists (lit " * Origin: Here "), [], (N4 2 201 1 0), [], [13]. split; [reflexivity|]. unfold is_u16. cbn. repeat split; try lia; auto. }
  change (jc_net zcfg) with false. cbv iota. split; [discriminate|]. split; [discriminate|]. split; [unfold valid4d, is_u16; cbn; lia|]. split.
  { cbn [ji_mm zimp SeenBy]. unfold pairs_ok, is_u16. vm_compute entries. repeat constructor; cbn; lia. }
  cbn [ji_mm zimp Path]. constructor; [|constructor]. right. split; [discriminate|]. split; [apply C; reflexivity|]. split; [apply N; reflexivity|]. split; [apply N; reflexivity|]. split; [vm_compute; lia|reflexivity].
Qed.
(** A message imported behind others, and the last two numbers rescanned. *)
Definition zout := match jam_importfunc xcrc zcfg zimp (JS ybase None None) with
  | Some (s, true) => zopt (jam_rescanfunc xcrc zcfg ydate (fun _ _ => JR true []) (fun _ => true) (fun _ => 0) 2 (fun _ => false) (JS (js_base s) None None)) | _ => None end.
Example C55_nonvacuous :
  jam_ok zcfg zimp zlines /\ impsize xcrc zcfg zimp < 1000 /\ Forall usual (controls zlines) /\
  filter (present yabs) (lastnumbers 3 yabs) = [8; 9] /\ nextnum yabs = 10 /\
  zout = Some ([9; 10], 1 :: lit "MSGID: 2:201/1 1234abcd" ++ [13] ++ [1] ++ lit "CHRS: LATIN-1 2" ++ [13] ++ [1] ++ lit "RESCANNED 2:201/1.0" ++ [13] ++ lit "Hello" ++ [13] ++ lit " * Origin: Here (2:201/1)" ++ [13]).
Proof.
  split; [exact zimp_ok|]. split; [vm_compute; reflexivity|]. split; [|split; [vm_compute; reflexivity|]; split; vm_compute; reflexivity].
  change (controls zlines) with [1 :: lit "MSGID: 2:201/1 1234abcd" ++ [13]; 1 :: lit "CHRS: LATIN-1 2" ++ [13]]. constructor; [|constructor; [|constructor]].
  - left. exists (lit "MSGID: "), (lit "2:201/1 1234abcd"). split; [right; left; reflexivity|]. split; [reflexivity|]. split; [reflexivity|vm_compute; lia].
  - right. exists (lit "CHRS: LATIN-1 2"). split; [reflexivity|]. split; [reflexivity|]. split; [vm_compute; lia|]. repeat split; apply prefixb_false; reflexivity.
Qed.
Lemma xsubs_fine : Forall fine_field T_Jam.xsubs.
Proof. unfold T_Jam.xsubs. repeat (apply Forall_cons; [unfold fine_field; cbn [sf_data sf_lo]; split; [litc; unfold cstring; repeat (apply Forall_cons; [lia|]); apply Forall_nil|]; split; [discriminate|]; intros _; vm_compute; lia|]). constructor. Qed.
(** The messages of the base are fine in a netmail area. *)
Example C55_rescan_nonvacuous : all_fine (ycfg 0 0 true) yabs (lastnumbers 0 yabs) /\ filter (present yabs) (lastnumbers 0 yabs) = [5; 6; 8; 9].
Proof.
  split; [|vm_compute; reflexivity]. intros n m Hn Hm _. unfold lastnumbers in Hn. apply numbers_in in Hn. change (5 <= n < 10) in Hn.
  assert (Hc : n = 5 \/ n = 6 \/ n = 7 \/ n = 8 \/ n = 9) by lia.
  destruct Hc as [->|[->|[->|[->| ->]]]]; [| |discriminate Hm| |]; (vm_compute in Hm; injection Hm as <-; split; [exact xsubs_fine|]; split; [repeat constructor|discriminate]).
Qed.

(** ** What goes wrong *)
Definition wimp (attr : Z) (subj : list Z) (chunks : list (list Z)) : jimp :=
  JI (MM (N4 2 201 1 0) (N4 2 201 1 0) (N4 0 0 0 0) (N4 0 0 0 0) (N4 2 201 1 0) (lit "TEST") (lit "Carol") (lit "Dave") subj [] [] [] attr 0 0 0 chunks [] []) 1000 2000 true nocuts.
(** Control lines of more than 99 characters are cut. *)
Theorem C55_cut_refuted : norm (1 :: lit "MSGID: " ++ repeat 65 120 ++ [13]) = 1 :: lit "MSGID: " ++ repeat 65 98 ++ [13] /\
  match jam_message xcrc zcfg (wimp 0 (lit "Hello") [1 :: lit "MSGID: " ++ repeat 65 120 ++ [13]]) with Some (_, subs, _) => lastof 4 subs = repeat 65 98 | None => False end.
Proof. split; vm_compute; reflexivity. Qed.
(** A message that ends with the character 1 makes the import write without bound. *)
Theorem C55_lone_refuted : jam_message xcrc zcfg (wimp 0 (lit "Hello") [lit "Text" ++ [13; 1]]) = None.
Proof. vm_compute. reflexivity. Qed.
(** A FLAGS line with fifty unknown flags of one letter and no blank in front overflows a buffer. *)
Theorem C55_newflags_refuted : jam_message xcrc zcfg (wimp 0 (lit "Hello") [1 :: lit "FLAGS:" ++ concat (repeat (lit "A ") 50) ++ [13]]) = None.
Proof. vm_compute. reflexivity. Qed.
(** A message without text is stored with one NUL as its text. *)
Theorem C55_empty_refuted : match jam_message xcrc zcfg (wimp 0 (lit "Hello") []) with Some (_, _, text) => text = [0] | None => False end.
Proof. vm_compute. reflexivity. Qed.
(** Of the names in the subject of a file attach only the first comes back. *)
Theorem C55_files_refuted : subject_back (ji_mm (wimp 16 (lit "one.zip two.zip") [lit "Text" ++ [13]])) = lit "one.zip".
Proof. reflexivity. Qed.
(** An origin line at the end of a text without end of line: its last character is left out
    and the address is sought behind the end. *)
Theorem C55_origin_refuted : jam_memmsg (ycfg 0 0 false) ydate true (T_Jam.xh 1) T_Jam.xsubs (lit " * Origin: here (2:201/1)") = None.
Proof. vm_compute. reflexivity. Qed.

Print Assumptions C55_rescan.
Print Assumptions C55_scan.
Print Assumptions C55_back.
Print Assumptions C55_usual.
Print Assumptions C55_lines.
