(** C59: dates. *)
From Verif Require Import Base M_Str M_Mem M_Date S_Date P_Date.

(** The date written for a time is the standard text of its local time, and always has 19
    characters. *)
Theorem C59_write : forall localtime t, fields (localtime t) -> 0 <= tm_year (localtime t) ->
  MakeFidoDate localtime t = standard (localtime t) /\ length (MakeFidoDate localtime t) = 19%nat /\ cstring (MakeFidoDate localtime t).
Proof.
  intros lt t Hf Hy. rewrite make_standard by auto. destruct Hf as (H1 & H2 & H3 & H4 & H5). destruct (month3_name _ H5) as (_ & L & C). split; [reflexivity|].
  unfold standard. split; [rewrite !app_length, L; reflexivity|].
  pose proof (Z.mod_pos_bound (tm_year (lt t)) 100 ltac:(lia)).
  repeat (apply cstring_cat; [first [apply cstring_two; lia|exact C|repeat constructor; discriminate]|]). apply cstring_two; lia.
Qed.
Print Assumptions C59_write.

(** Read again, in any time zone, it gives a time with the same local time, and the same
    time unless the clock showed that time twice. *)
Theorem C59_back : forall localtime mktime now t junk, zone_ok localtime mktime -> 80 <= tm_year (localtime t) < 180 ->
  exists t', FidoToTime mktime now (MakeFidoDate localtime t ++ 0 :: junk) = Some t' /\ localtime t' = localtime t /\ MakeFidoDate localtime t' = MakeFidoDate localtime t /\
    ((forall u, localtime u = localtime t -> u = t) -> t' = t).
Proof.
  intros lt mk now t junk Hz Hy. destruct (Hz t Hy) as (Hf & Hm & He). exists (mk (lt t)).
  rewrite make_standard by (auto; lia). rewrite fido_standard by (split; auto). destruct (Z.eqb_spec (mk (lt t)) (-1)); [contradiction|].
  split; [reflexivity|]. split; [exact He|]. split; [|auto].
  rewrite make_standard by (rewrite He; auto; lia). rewrite He. reflexivity.
Qed.
Print Assumptions C59_back.

(** A date of a message, as others write it, with the month in any case, is understood as
    the local time it says. *)
Theorem C59_read : forall localtime mktime now t junk d w y h mi s, zone_ok localtime mktime ->
  80 <= tm_year (localtime t) < 180 -> localtime t = TM s mi h d (tm_mon (localtime t)) y ->
  cstring w -> map tolower w = map tolower (month3 (tm_mon (localtime t))) ->
  exists t', FidoToTime mktime now ((two d ++ lit " " ++ w ++ lit " " ++ two (y mod 100) ++ lit "  " ++ two h ++ lit ":" ++ two mi ++ lit ":" ++ two s) ++ 0 :: junk) = Some t' /\ localtime t' = localtime t.
Proof.
  intros lt mk now t junk d w y h mi s Hz Hy E Hc Hw. destruct (Hz t Hy) as ((H1 & H2 & H3 & H4 & H5) & Hm & He). rewrite E in H1, H2, H3, H4, Hy. cbn [tm_sec tm_min tm_hour tm_mday tm_year] in *.
  pose proof (Z.mod_pos_bound y 100 ltac:(lia)). exists (mk (lt t)). split; [|exact He].
  change (two d ++ _) with (stdtext d w (y mod 100) h mi s).
  rewrite (read_std mk now d (tm_mon (lt t)) w (y mod 100) h mi s junk) by (auto; lia). rewrite century_mod by lia. rewrite <- E. cbn zeta. destruct (Z.eqb_spec (mk (lt t)) (-1)); [contradiction|reflexivity].
Qed.
Print Assumptions C59_read.

(** The other form, with the day of the week and without seconds, is understood as well. *)
Theorem C59_seadog : forall localtime mktime now t junk x1 x2 x3, zone_ok localtime mktime -> 80 <= tm_year (localtime t) < 180 -> tm_sec (localtime t) = 0 ->
  cstring [x1; x2; x3] -> x3 <> 32 ->
  exists t', FidoToTime mktime now (seadog [x1; x2; x3] (localtime t) ++ 0 :: junk) = Some t' /\ localtime t' = localtime t.
Proof.
  intros lt mk now t junk x1 x2 x3 Hz Hy Hs Hx Hx3. destruct (Hz t Hy) as ((H1 & H2 & H3 & H4 & H5) & Hm & He). exists (mk (lt t)). split; [|exact He].
  pose proof (Z.mod_pos_bound (tm_year (lt t)) 100 ltac:(lia)). destruct (month3_name _ H5) as (_ & _ & Hc).
  unfold seadog. change ([x1; x2; x3] ++ _) with (seatext [x1; x2; x3] (if tm_mday (lt t) <? 10 then [32; 48 + tm_mday (lt t)] else two (tm_mday (lt t))) (month3 (tm_mon (lt t))) (tm_year (lt t) mod 100) (tm_hour (lt t)) (tm_min (lt t))).
  rewrite (read_sea mk now x1 x2 x3 (tm_mday (lt t)) _ (tm_mon (lt t))); auto; try lia.
  - rewrite century_mod by lia. replace (TM 0 _ _ _ _ _) with (lt t) by (rewrite <- Hs; destruct (lt t); reflexivity). cbn zeta. destruct (Z.eqb_spec (mk (lt t)) (-1)); [contradiction|reflexivity].
  - split; [lia|]. destruct (Z.ltb_spec (tm_mday (lt t)) 10); [right|left]; auto.
Qed.
Print Assumptions C59_seadog.

(** A text without a month where it belongs means the present time. *)
Theorem C59_nomonth : forall mktime now s junk, cstring s -> (10 <= length s)%nat ->
  (forall m w, 0 <= m < 12 -> (w = firstn 3 (skipn 3 s) \/ w = firstn 3 (skipn 7 s)) -> map tolower w <> map tolower (month3 m)) ->
  FidoToTime mktime now (s ++ 0 :: junk) = Some now.
Proof.
  intros mk now s junk Hs Hl H.
  assert (G : forall i, i = 3%nat \/ i = 7%nat -> monthat (s ++ 0 :: junk) i = None).
  { intros i Hi. unfold monthat. rewrite skip_holds by (destruct Hi; lia). rewrite cstr_holds by (apply cstring_skip; auto).
    destruct (find _ (seq 0 12)) as [k|] eqn:E; [|reflexivity]. apply find_some in E as [Hk E]. apply in_seq in Hk. exfalso.
    apply (H (Z.of_nat k) (firstn 3 (skipn i s))); [lia|destruct Hi as [->| ->]; auto|]. unfold strneqi in E. apply streq_eq in E. rewrite <- E.
    destruct (month3_name (Z.of_nat k) ltac:(lia)) as (<- & L & _). rewrite Nat2Z.id in *. rewrite firstn_all2; [reflexivity|]. 
    assert (C : (k <= 11)%nat) by lia. clear -C. do 12 (destruct k as [|k]; [cbn; lia|]). lia. }
  unfold FidoToTime. destruct ((_ =? 32) && (_ =? 32)); rewrite G by auto; reflexivity.
Qed.
Print Assumptions C59_nomonth.

(** ** The calendar *)
(** The system whose clock is a fixed time ahead of UTC counts the days as the Gregorian
    calendar does: years and months follow each other with their lengths, and 1970-01-01 is
    day 0. *)
Theorem C59_calendar : forall y m d, 0 <= m < 11 ->
  daysto (y + 1) 0 1 = daysto y 11 31 + 1 /\ daysto y (m + 1) 1 = daysto y m (monthlen y m) + 1 /\ daysto y m (d + 1) = daysto y m d + 1 /\ daysto 1970 0 1 = 0.
Proof.
  intros y m d Hm. unfold daysto. split; [|split; [rewrite monthstart_next by lia; lia|split; [lia|reflexivity]]].
  rewrite yearstart_next. pose proof (year_end y) as E. change (monthlen y 11) with 31 in E. assert (Z0 : monthstart (y + 1) 0 = 0) by (unfold monthstart; reflexivity). rewrite Z0. lia.
Qed.
Print Assumptions C59_calendar.
(** localtime gives the date of the day, mktime the time of a date; they are inverses. *)
Lemma sys_fields off t : fields (sys_localtime off t) /\ tm_mday (sys_localtime off t) <= monthlen (tm_year (sys_localtime off t) + 1900) (tm_mon (sys_localtime off t)) /\ tm_sec (sys_localtime off t) < 60.
Proof.
  unfold sys_localtime, fields. cbn [tm_sec tm_min tm_hour tm_mday tm_mon tm_year].
  set (n := (t + off) / 86400). set (s := (t + off) mod 86400). assert (Hs : 0 <= s < 86400) by (apply Z.mod_pos_bound; lia).
  pose proof (yearof_spec n) as Hy. rewrite yearstart_next in Hy. destruct (monthof_spec (yearof n) (n - yearstart (yearof n)) ltac:(lia)) as [H1 H2].
  replace (yearof n - 1900 + 1900) with (yearof n) by lia.
  assert (HL : monthlen (yearof n) (monthof (yearof n) (n - yearstart (yearof n))) <= 31).
  { unfold monthlen. destruct (_ =? 1); [destruct (leapyear _); lia|]. destruct (_ || _); lia. }
  assert (0 <= s mod 60 < 60) by (apply Z.mod_pos_bound; lia). assert (0 <= s / 60 mod 60 < 60) by (apply Z.mod_pos_bound; lia).
  assert (0 <= s / 3600 < 24) by (split; [apply Z.div_pos; lia|apply Z.div_lt_upper_bound; lia]). lia.
Qed.
Theorem C59_inverse : forall off,
  (forall t, sys_mktime off (sys_localtime off t) = t) /\
  (forall x, fields x -> tm_mday x <= monthlen (tm_year x + 1900) (tm_mon x) -> tm_sec x < 60 -> sys_localtime off (sys_mktime off x) = x).
Proof.
  intros off. split.
  - intros t. unfold sys_mktime, sys_localtime. cbn [tm_sec tm_min tm_hour tm_mday tm_mon tm_year]. unfold daysto.
    set (n := (t + off) / 86400). set (s := (t + off) mod 86400). replace (yearof n - 1900 + 1900) with (yearof n) by lia.
    replace (yearstart (yearof n) + monthstart (yearof n) (monthof (yearof n) (n - yearstart (yearof n))) + (n - yearstart (yearof n) - monthstart (yearof n) (monthof (yearof n) (n - yearstart (yearof n))) + 1 - 1)) with n by lia.
    pose proof (Z.div_mod (t + off) 86400 ltac:(lia)). fold n s in H. pose proof (Z.div_mod s 60 ltac:(lia)). pose proof (Z.div_mod (s / 60) 60 ltac:(lia)).
    replace (s / 3600) with (s / 60 / 60) by (rewrite Z.div_div by lia; reflexivity). lia.
  - intros [sec mi h d m y] (H1 & H2 & H3 & H4 & H5) Hd Hs. unfold sys_mktime. cbn [tm_sec tm_min tm_hour tm_mday tm_mon tm_year] in *.
    set (n := daysto (y + 1900) m d). unfold sys_localtime.
    replace (86400 * n + 3600 * h + 60 * mi + sec - off + off) with (n * 86400 + (3600 * h + 60 * mi + sec)) by lia.
    assert (E1 : (n * 86400 + (3600 * h + 60 * mi + sec)) / 86400 = n) by (rewrite Z.div_add_l by lia; rewrite Z.div_small by lia; lia).
    assert (E2 : (n * 86400 + (3600 * h + 60 * mi + sec)) mod 86400 = 3600 * h + 60 * mi + sec) by (rewrite Z.add_comm, Z.mod_add by lia; apply Z.mod_small; lia).
    rewrite E1, E2.
    assert (B : 0 <= monthstart (y + 1900) m /\ monthstart (y + 1900) m + monthlen (y + 1900) m <= if leapyear (y + 1900) then 366 else 365).
    { revert m H5 Hd n E1 E2. intros m H5 _ _ _ _. unfold monthstart, monthlen. destruct (leapyear (y + 1900)); revert m H5; apply month_cases; repeat (apply Forall_cons; [vm_compute; split; intros HH; discriminate HH|]); constructor. }
    assert (Ey : yearof n = y + 1900).
    { apply yearof_unique. rewrite yearstart_next. unfold n, daysto. lia. }
    rewrite Ey. assert (Ek : n - yearstart (y + 1900) = monthstart (y + 1900) m + (d - 1)) by (unfold n, daysto; lia). rewrite Ek.
    assert (Em : monthof (y + 1900) (monthstart (y + 1900) m + (d - 1)) = m).
    { destruct (monthof_spec (y + 1900) (monthstart (y + 1900) m + (d - 1)) ltac:(lia)) as [G1 G2]. set (m' := monthof _ _) in *.
      assert (M : forall a b, 0 <= a -> a < b -> b < 12 -> monthstart (y + 1900) a + monthlen (y + 1900) a <= monthstart (y + 1900) b).
      { intros a b Ha Hab Hb. rewrite <- monthstart_next by lia.
        assert (Hle : a + 1 <= b) by lia. revert Hle Hb. generalize (a + 1) (ltac:(lia) : 0 <= a + 1). clear. intros a Ha Hab Hb.
        pose proof (Z2Nat.id (b - a) ltac:(lia)) as Ek. revert Ek. generalize (Z.to_nat (b - a)). intros k. revert b Hab Hb. induction k as [|k IH]; intros b Hab Hb Ek; [replace b with a by lia; lia|].
        specialize (IH (b - 1) ltac:(lia) ltac:(lia) ltac:(lia)). pose proof (monthstart_next (y + 1900) (b - 1) ltac:(lia)) as HN. replace (b - 1 + 1) with b in HN by lia.
        assert (0 <= monthlen (y + 1900) (b - 1)) by (unfold monthlen; destruct (_ =? 1); [destruct (leapyear _); lia|]; destruct (_ || _); lia). lia. }
      destruct (Z.lt_trichotomy m' m) as [L|[L|L]]; [|exact L|].
      - pose proof (M m' m ltac:(lia) L ltac:(lia)). lia.
      - pose proof (M m m' ltac:(lia) L ltac:(lia)). lia. }
    rewrite Em. f_equal; Z.to_euclidean_division_equations; lia.
Qed.
Print Assumptions C59_inverse.
(** Such a system does what the theorems ask for. *)
Theorem C59_system : forall off, -86400 <= off <= 86400 -> zone_ok (sys_localtime off) (sys_mktime off).
Proof.
  intros off Hoff t Hy. destruct (C59_inverse off) as [I _]. destruct (sys_fields off t) as [F _]. split; [exact F|]. rewrite I. split; [|reflexivity].
  intros ->. unfold sys_localtime in Hy. cbn [tm_year] in Hy. set (n := (-1 + off) / 86400) in *. assert (-2 <= n <= 1) by (subst n; Z.to_euclidean_division_equations; lia).
  pose proof (yearof_spec n). pose proof (yearstart_mono 1980 (yearof n) ltac:(lia)). change (yearstart 1980) with 3652 in *. lia.
Qed.
Print Assumptions C59_system.

(** ** JAM *)
(** A date stored in a JAM base and read back in the same run, or in another one that finds
    the same offset, is the same. *)
Theorem C59_jam : forall localtime off t, 0 <= t < 2 ^ 32 -> 0 <= t - off < 2 ^ 32 ->
  jam_date localtime off (jam_written off t) = MakeFidoDate localtime t.
Proof.
  intros lt off t H1 H2. unfold jam_date, jam_written, u32. change (2 ^ 32) with 4294967296 in *. rewrite (Z.mod_small t), (Z.mod_small (t - off)) by lia. f_equal. lia.
Qed.
Print Assumptions C59_jam.
(** At a fixed offset from UTC the offset of the program is that offset, and what is stored
    is the local time. *)
Theorem C59_offset : forall off t1, utcoffset (sys_localtime 0) (sys_mktime off) t1 = - off.
Proof.
  intros off t1. unfold utcoffset. destruct (C59_inverse 0) as [I _]. specialize (I t1). unfold sys_mktime in *. lia.
Qed.
Print Assumptions C59_offset.

(** ** What is not so *)
(** Dates before 1980 come back a century later. *)
Theorem C59_seventies_refuted : let t := 157766400 in
  MakeFidoDate (sys_localtime 0) t = lit "01 Jan 75  00:00:00" /\
  exists t', FidoToTime (sys_mktime 0) 0 (MakeFidoDate (sys_localtime 0) t ++ [0]) = Some t' /\ tm_year (sys_localtime 0 t') = 175.
Proof. split; [vm_compute; reflexivity|]. eexists. split; [vm_compute; reflexivity|]. vm_compute. reflexivity. Qed.
Print Assumptions C59_seventies_refuted.

(** In a zone with summer time (here, one hour ahead from a time on), a message stored in
    winter and read in summer has a date one hour off. *)
Definition switch : Z := 1711846800.
Definition dst_localtime (t : Z) : tm := sys_localtime (if t <? switch then 3600 else 7200) t.
Definition dst_mktime (x : tm) : Z := if sys_mktime 3600 x <? switch then sys_mktime 3600 x else sys_mktime 7200 x.
Theorem C59_summer_refuted :
  let winter := switch - 1000000 in let summer := switch + 1000000 in
  let off t := utcoffset (sys_localtime 0) dst_mktime t in
  exists t, FidoToTime dst_mktime winter (lit "01 Mar 24  12:00:00" ++ [0]) = Some t /\
  jam_date dst_localtime (off winter) (jam_written (off winter) t) = lit "01 Mar 24  12:00:00" /\
  jam_date dst_localtime (off summer) (jam_written (off winter) t) = lit "01 Mar 24  11:00:00".
Proof. eexists. split; [vm_compute; reflexivity|]. split; vm_compute; reflexivity. Qed.
Print Assumptions C59_summer_refuted.

(** A text too short: what is behind it in the buffer is taken for the rest. *)
Theorem C59_short_refuted : exists s, (length s = 10)%nat /\ forall t, exists junk,
  In t [951782400; 951786000] -> FidoToTime (sys_mktime 0) 0 (s ++ 0 :: junk) = Some t.
Proof.
  exists (lit "29 Feb 00 "). split; [reflexivity|]. intros t. exists (if t =? 951782400 then lit "00:00:00" ++ [0] else lit "01:00:00" ++ [0]).
  intros [<-|[<-|[]]]; vm_compute; reflexivity.
Qed.
Print Assumptions C59_short_refuted.

Example C59_nonvacuous :
  sys_localtime 3600 1709204399 = TM 59 59 11 29 1 124 /\ 80 <= tm_year (sys_localtime 3600 1709204399) < 180 /\
  MakeFidoDate (sys_localtime 3600) 1709204399 = lit "29 Feb 24  11:59:59" /\
  FidoToTime (sys_mktime 3600) 7 (lit "29 fEB 24  11:59:59" ++ [0]) = Some 1709204399 /\
  FidoToTime (sys_mktime 3600) 7 (lit "Thu 29 Feb 24 11:59" ++ [0]) = Some 1709204340 /\
  seadog (lit "Sat") (TM 0 34 2 3 7 96) = lit "Sat  3 Aug 96 02:34" /\
  FidoToTime (sys_mktime 3600) 7 (lit "29.02.2024 11:59:59" ++ [0]) = Some 7.
Proof. repeat split; vm_compute; try reflexivity; intros; discriminate. Qed.
