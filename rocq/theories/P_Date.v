(** Lemmas on dates. *)
From Verif Require Import Base M_Str M_Mem M_Date S_Date.

(** ** Numbers *)
Lemma two_cases (P : Z -> Prop) : Forall P (map Z.of_nat (seq 0 100)) -> forall z, 0 <= z < 100 -> P z.
Proof.
  intros F z Hz. rewrite Forall_forall in F. apply F. apply in_map_iff. exists (Z.to_nat z). split; [lia|]. apply in_seq. lia.
Qed.
Lemma pad2_two z : 0 <= z < 100 -> pad2 z = two z.
Proof. revert z. apply (two_cases (fun z => pad2 z = two z)). cbn [seq map]. repeat (apply Forall_cons; [reflexivity|]). constructor. Qed.
Lemma atoi_two z r : 0 <= z < 100 -> match r with c :: _ => isdigit c = false | [] => True end -> atoi (two z ++ r) = z.
Proof.
  intros Hz Hr. unfold two. cbn [app]. unfold atoi. cbn [skipws].
  assert (H1 : 0 <= z / 10 <= 9) by (split; [apply Z.div_pos; lia|]; assert (z / 10 < 10) by (apply Z.div_lt_upper_bound; lia); lia).
  pose proof (Z.mod_pos_bound z 10 ltac:(lia)) as H2. pose proof (Z.div_mod z 10 ltac:(lia)) as H3.
  set (a := 48 + z / 10) in *. set (b := 48 + z mod 10) in *.
  assert (Ha : 48 <= a <= 57) by lia. assert (Hb : 48 <= b <= 57) by lia.
  assert (E1 : isspace a = false) by (unfold isspace; lia). rewrite E1.
  assert (D : forall s, match a :: s with 45 :: r => - digits_of r 0 | 43 :: r => digits_of r 0 | r => digits_of r 0 end = digits_of (a :: s) 0).
  { intros s. assert (C : a = 48 \/ a = 49 \/ a = 50 \/ a = 51 \/ a = 52 \/ a = 53 \/ a = 54 \/ a = 55 \/ a = 56 \/ a = 57) by lia.
    destruct C as [->|[->|[->|[->|[->|[->|[->|[->|[->| ->]]]]]]]]]; reflexivity. }
  rewrite D. cbn [digits_of]. replace (isdigit a) with true by (unfold isdigit; lia). replace (isdigit b) with true by (unfold isdigit; lia).
  assert (E : forall v, digits_of r v = v) by (intros v; destruct r as [|c r]; [reflexivity|]; cbn [digits_of]; rewrite Hr; reflexivity).
  rewrite E. lia.
Qed.

(** ** A buffer with a text *)
Lemma upto0_holds s junk : cstring s -> upto0 (s ++ 0 :: junk) = Some s.
Proof.
  induction 1 as [|c s Hc Hs IH]; [reflexivity|]. cbn [app upto0]. destruct (Z.eqb_spec c 0); [lia|]. rewrite IH. reflexivity.
Qed.
Lemma cstr_holds s junk : cstring s -> cstr (s ++ 0 :: junk) = s.
Proof.
  induction 1 as [|c s Hc Hs IH]; [reflexivity|]. cbn [app cstr]. destruct (Z.eqb_spec c 0); [lia|]. rewrite IH. reflexivity.
Qed.
Lemma skip_holds i s junk : (i <= length s)%nat -> skipn i (s ++ 0 :: junk) = skipn i s ++ 0 :: junk.
Proof. intros H. rewrite skipn_app. replace (i - length s)%nat with O by lia. reflexivity. Qed.
Lemma cstring_skip i s : cstring s -> cstring (skipn i s).
Proof. intros H. unfold cstring in *. rewrite <- (firstn_skipn i s) in H. apply Forall_app in H. tauto. Qed.
Lemma atoiat_holds i s junk z : cstring s -> (i <= length s)%nat -> atoi (skipn i s) = z -> -2147483648 <= z < 2147483648 -> atoiat (s ++ 0 :: junk) i = Some z.
Proof.
  intros Hs Hi Hz Hr. unfold atoiat. rewrite skip_holds by auto. rewrite upto0_holds by (apply cstring_skip; auto). rewrite Hz.
  destruct (Z.leb_spec (-2147483648) z), (Z.ltb_spec z 2147483648); try lia. reflexivity.
Qed.

(** ** Months *)
Lemma find_ext {A} (f g : A -> bool) : (forall x, f x = g x) -> forall l, find f l = find g l.
Proof. intros H. induction l as [|x l IH]; [reflexivity|]. cbn [find]. rewrite H, IH. reflexivity. Qed.
Lemma month_cases (P : Z -> Prop) : Forall P [0; 1; 2; 3; 4; 5; 6; 7; 8; 9; 10; 11] -> forall m, 0 <= m < 12 -> P m.
Proof.
  intros F m Hm. rewrite Forall_forall in F. apply F. cbn. lia.
Qed.
Lemma month3_name m : 0 <= m < 12 -> nth (Z.to_nat m) monthnames [] = month3 m /\ length (month3 m) = 3%nat /\ cstring (month3 m).
Proof. revert m. apply (month_cases (fun m => nth (Z.to_nat m) monthnames [] = month3 m /\ length (month3 m) = 3%nat /\ cstring (month3 m))). repeat (apply Forall_cons; [split; [reflexivity|split; [reflexivity|repeat constructor; discriminate]]|]). constructor. Qed.
Lemma streq_len a b : streq a b = true -> length a = length b.
Proof. intros H. apply streq_eq in H. congruence. Qed.
Lemma month_find m w r : 0 <= m < 12 -> map tolower w = map tolower (month3 m) ->
  find (fun k => strneqi 3 (nth k monthnames []) (w ++ r)) (seq 0 12) = Some (Z.to_nat m).
Proof.
  intros Hm Hw.
  assert (L : length w = 3%nat) by (apply (f_equal (@length Z)) in Hw; rewrite !map_length in Hw; rewrite Hw; apply month3_name; auto).
  assert (E : forall k, strneqi 3 (nth k monthnames []) (w ++ r) = streq (map tolower (firstn 3 (nth k monthnames []))) (map tolower (month3 m))).
  { intros k. unfold strneqi. rewrite <- Hw. rewrite firstn_app, L, Nat.sub_diag, firstn_O, app_nil_r, (firstn_all2 w) by lia. reflexivity. }
  erewrite (find_ext _ _ E). clear Hw E L. revert m Hm. apply (month_cases (fun m => find (fun k => streq (map tolower (firstn 3 (nth k monthnames []))) (map tolower (month3 m))) (seq 0 12) = Some (Z.to_nat m))). repeat (apply Forall_cons; [reflexivity|]). constructor.
Qed.

(** ** Reading *)
(** the month in upper or lower case *)
Definition stdtext (d : Z) (w : list Z) (y h mi s : Z) : list Z :=
  two d ++ lit " " ++ w ++ lit " " ++ two y ++ lit "  " ++ two h ++ lit ":" ++ two mi ++ lit ":" ++ two s.
Definition seatext (wd day w : list Z) (y h mi : Z) : list Z :=
  wd ++ lit " " ++ day ++ lit " " ++ w ++ lit " " ++ two y ++ lit " " ++ two h ++ lit ":" ++ two mi.
Lemma cstring_two z : 0 <= z < 100 -> cstring (two z).
Proof.
  intros Hz. unfold two, cstring. pose proof (Z.mod_pos_bound z 10 ltac:(lia)). assert (0 <= z / 10 < 10) by (split; [apply Z.div_pos; lia|apply Z.div_lt_upper_bound; lia]).
  constructor; [lia|]. constructor; [lia|constructor].
Qed.
Lemma cstring_cat a b : cstring a -> cstring b -> cstring (a ++ b).
Proof. intros. apply Forall_app. auto. Qed.
Lemma lower_cstring w m : 0 <= m < 12 -> map tolower w = map tolower (month3 m) -> exists a b c, w = [a; b; c].
Proof.
  intros Hm H. apply (f_equal (@length Z)) in H. rewrite !map_length in H. destruct (month3_name m Hm) as (_ & L & _). rewrite L in H.
  destruct w as [|a [|b [|c [|]]]]; try discriminate. eauto.
Qed.
Lemma read_std mk now d m w y h mi s junk : 0 <= d < 100 -> 0 <= m < 12 -> cstring w -> map tolower w = map tolower (month3 m) -> 0 <= y < 100 -> 0 <= h < 100 -> 0 <= mi < 100 -> 0 <= s < 100 ->
  FidoToTime mk now (stdtext d w y h mi s ++ 0 :: junk) =
  (let t := mk (TM s mi h d m (century y)) in Some (if t =? -1 then now else t)).
Proof.
  intros Hd Hm Hcw Hw Hy Hh Hmi Hs.
  assert (Hc : cstring (stdtext d w y h mi s)).
  { unfold stdtext. repeat (apply cstring_cat; [first [apply cstring_two; auto|exact Hcw|repeat constructor; discriminate]|]). apply cstring_two; auto. }
  destruct (lower_cstring w m Hm Hw) as (a & b & c & Ew).
  assert (Hl : length (stdtext d w y h mi s) = 19%nat) by (rewrite Ew; reflexivity).
  assert (A1 : forall i z r, (i <= 17)%nat -> 0 <= z < 100 -> skipn i (stdtext d w y h mi s) = two z ++ r -> match r with c :: _ => isdigit c = false | [] => True end -> atoiat (stdtext d w y h mi s ++ 0 :: junk) i = Some z).
  { intros i z r Hi Hz E Hr. apply atoiat_holds; auto; [lia| |lia]. rewrite E. apply atoi_two; auto. }
  unfold FidoToTime. 
  assert (E2 : nth 2 (stdtext d w y h mi s ++ 0 :: junk) 0 = 32) by (rewrite Ew; reflexivity).
  assert (E6 : nth 6 (stdtext d w y h mi s ++ 0 :: junk) 0 = 32) by (rewrite Ew; reflexivity).
  rewrite E2, E6, Z.eqb_refl. cbn [andb].
  rewrite (A1 17%nat s []), (A1 14%nat mi (lit ":" ++ two s)), (A1 11%nat h (lit ":" ++ two mi ++ lit ":" ++ two s)),
    (A1 0%nat d (skipn 2 (stdtext d w y h mi s))), (A1 7%nat y (skipn 9 (stdtext d w y h mi s))); auto; try lia; try (rewrite Ew; reflexivity); try reflexivity.
  cbn [obind]. unfold monthat. rewrite skip_holds by lia. rewrite cstr_holds by (apply cstring_skip; auto).
  replace (skipn 3 (stdtext d w y h mi s)) with (w ++ skipn 6 (stdtext d w y h mi s)) by (rewrite Ew; reflexivity).
  rewrite (month_find m w _ Hm Hw). rewrite Z2Nat.id by lia. reflexivity.
Qed.
Lemma atoi_space r : atoi (32 :: r) = atoi r.
Proof. reflexivity. Qed.
Definition dayword (d : Z) (w : list Z) : Prop := 0 <= d < 100 /\ (w = two d \/ (d < 10 /\ w = [32; 48 + d])).
Lemma read_sea mk now x1 x2 x3 d day m w y h mi junk : cstring [x1; x2; x3] -> x3 <> 32 -> dayword d day -> 0 <= m < 12 -> cstring w -> map tolower w = map tolower (month3 m) ->
  0 <= y < 100 -> 0 <= h < 100 -> 0 <= mi < 100 ->
  FidoToTime mk now (seatext [x1; x2; x3] day w y h mi ++ 0 :: junk) =
  (let t := mk (TM 0 mi h d m (century y)) in Some (if t =? -1 then now else t)).
Proof.
  intros Hx Hx3 [Hd Hday] Hm Hcw Hw Hy Hh Hmi.
  destruct (lower_cstring w m Hm Hw) as (a & b & c & Ew).
  assert (Hcd : cstring day /\ exists p q, day = [p; q]).
  { destruct Hday as [->|[H ->]]; (split; [|unfold two; eauto]); [apply cstring_two; auto|]. constructor; [lia|]. constructor; [lia|constructor]. }
  destruct Hcd as (Hcd & p & q & Ed).
  assert (Hc : cstring (seatext [x1; x2; x3] day w y h mi)).
  { unfold seatext. repeat (apply cstring_cat; [first [apply cstring_two; auto; fail|exact Hx|exact Hcd|exact Hcw|repeat constructor; discriminate]|]). apply cstring_two; auto. }
  assert (Hl : length (seatext [x1; x2; x3] day w y h mi) = 19%nat) by (rewrite Ew, Ed; reflexivity).
  assert (A0 : forall i z, (i <= 17)%nat -> 0 <= z < 100 -> atoi (skipn i (seatext [x1; x2; x3] day w y h mi)) = z -> atoiat (seatext [x1; x2; x3] day w y h mi ++ 0 :: junk) i = Some z).
  { intros i z Hi Hz E. apply atoiat_holds; auto; lia. }
  assert (A1 : forall i z r, (i <= 17)%nat -> 0 <= z < 100 -> skipn i (seatext [x1; x2; x3] day w y h mi) = two z ++ r -> match r with c :: _ => isdigit c = false | [] => True end -> atoiat (seatext [x1; x2; x3] day w y h mi ++ 0 :: junk) i = Some z).
  { intros i z r Hi Hz E Hr. apply A0; auto. rewrite E. apply atoi_two; auto. }
  unfold FidoToTime.
  assert (E2 : nth 2 (seatext [x1; x2; x3] day w y h mi ++ 0 :: junk) 0 = x3) by (rewrite Ew, Ed; reflexivity).
  rewrite E2. destruct (Z.eqb_spec x3 32); [contradiction|]. cbn [andb].
  assert (AD : atoiat (seatext [x1; x2; x3] day w y h mi ++ 0 :: junk) 4 = Some d).
  { set (r := lit " " ++ w ++ lit " " ++ two y ++ lit " " ++ two h ++ lit ":" ++ two mi).
    assert (Es : skipn 4 (seatext [x1; x2; x3] day w y h mi) = day ++ r) by (unfold r; rewrite Ew, Ed; reflexivity).
    destruct Hday as [Hday|[H Hday]]; [apply (A1 4%nat d r); auto; [lia|rewrite Es, Hday; reflexivity|reflexivity]|].
    apply A0; [lia|lia|]. rewrite Es, Hday. cbn [app]. rewrite atoi_space.
    assert (C : d = 0 \/ d = 1 \/ d = 2 \/ d = 3 \/ d = 4 \/ d = 5 \/ d = 6 \/ d = 7 \/ d = 8 \/ d = 9) by lia.
    clear -C. unfold r. destruct C as [->|[->|[->|[->|[->|[->|[->|[->|[->| ->]]]]]]]]]; reflexivity. }
  rewrite (A1 17%nat mi []), (A1 14%nat h (lit ":" ++ two mi)), AD, (A1 11%nat y (lit " " ++ two h ++ lit ":" ++ two mi)); auto; try lia; try (rewrite Ew, Ed; reflexivity); try reflexivity.
  cbn [obind]. unfold monthat. rewrite skip_holds by lia. rewrite cstr_holds by (apply cstring_skip; auto).
  replace (skipn 7 (seatext [x1; x2; x3] day w y h mi)) with (w ++ skipn 10 (seatext [x1; x2; x3] day w y h mi)) by (rewrite Ew, Ed; reflexivity).
  rewrite (month_find m w _ Hm Hw). rewrite Z2Nat.id by lia. reflexivity.
Qed.

(** ** Writing *)
Lemma make_standard lt t : fields (lt t) -> 0 <= tm_year (lt t) -> MakeFidoDate lt t = standard (lt t).
Proof.
  intros (H1 & H2 & H3 & H4 & H5) Hy. unfold MakeFidoDate, standard. destruct (month3_name _ H5) as (-> & _ & _).
  rewrite Z.rem_mod_nonneg by lia. pose proof (Z.mod_pos_bound (tm_year (lt t)) 100 ltac:(lia)). rewrite !pad2_two by lia. reflexivity.
Qed.
Lemma standard_std x : standard x = stdtext (tm_mday x) (month3 (tm_mon x)) (tm_year x mod 100) (tm_hour x) (tm_min x) (tm_sec x).
Proof. reflexivity. Qed.
Lemma century_mod y : 80 <= y < 180 -> century (y mod 100) = y.
Proof.
  intros H. unfold century. destruct (Z.lt_ge_cases y 100).
  - rewrite Z.mod_small by lia. destruct (Z.ltb_spec y 80); lia.
  - replace (y mod 100) with (y - 100) by (Z.to_euclidean_division_equations; lia). destruct (Z.ltb_spec (y - 100) 80); lia.
Qed.
Lemma fido_standard mk now x junk : inrange x -> FidoToTime mk now (standard x ++ 0 :: junk) = Some (if mk x =? -1 then now else mk x).
Proof.
  intros ((H1 & H2 & H3 & H4 & H5) & Hy). rewrite standard_std.
  pose proof (Z.mod_pos_bound (tm_year x) 100 ltac:(lia)). rewrite (read_std mk now _ (tm_mon x)); try lia; [|apply month3_name; lia|reflexivity].
  rewrite century_mod by lia. destruct x. reflexivity.
Qed.

(** ** The calendar *)
Lemma yearstart_next y : yearstart (y + 1) = yearstart y + (if leapyear y then 366 else 365).
Proof.
  unfold yearstart, leapyear. replace (y + 1 - 1) with y by lia.
  destruct (Z.eqb_spec (y mod 4) 0), (Z.eqb_spec (y mod 100) 0), (Z.eqb_spec (y mod 400) 0); cbn [andb orb negb]; Z.to_euclidean_division_equations; lia.
Qed.
Lemma monthstart_next y m : 0 <= m < 11 -> monthstart y (m + 1) = monthstart y m + monthlen y m.
Proof.
  intros Hm. unfold monthstart, monthlen. destruct (leapyear y);
  (assert (C : m = 0 \/ m = 1 \/ m = 2 \/ m = 3 \/ m = 4 \/ m = 5 \/ m = 6 \/ m = 7 \/ m = 8 \/ m = 9 \/ m = 10) by lia;
  destruct C as [->|[->|[->|[->|[->|[->|[->|[->|[->|[->| ->]]]]]]]]]]; reflexivity).
Qed.
Lemma year_end y : monthstart y 11 + monthlen y 11 = if leapyear y then 366 else 365.
Proof. unfold monthstart, monthlen. destruct (leapyear y); reflexivity. Qed.
Lemma yearof_spec n : yearstart (yearof n) <= n < yearstart (yearof n + 1).
Proof.
  unfold yearof. set (y := (400 * n) / 146097 + 1970).
  assert (H : yearstart (y - 1) <= n < yearstart (y + 2)) by (unfold yearstart; subst y; Z.to_euclidean_division_equations; lia).
  destruct (Z.ltb_spec n (yearstart y)); [replace (y - 1 + 1) with y by lia; lia|].
  destruct (Z.leb_spec (yearstart (y + 1)) n); [replace (y + 1 + 1) with (y + 2) by lia; lia|lia].
Qed.
Lemma yearstart_mono y y' : y <= y' -> yearstart y + 365 * (y' - y) <= yearstart y'.
Proof. intros H. unfold yearstart. Z.to_euclidean_division_equations; lia. Qed.
Lemma yearof_unique n y : yearstart y <= n < yearstart (y + 1) -> yearof n = y.
Proof.
  intros H. pose proof (yearof_spec n) as G. destruct (Z.lt_trichotomy (yearof n) y) as [L|[E|L]]; [|exact E|].
  - pose proof (yearstart_mono (yearof n + 1) y ltac:(lia)). lia.
  - pose proof (yearstart_mono (y + 1) (yearof n) ltac:(lia)). lia.
Qed.
Lemma monthof_spec y k : 0 <= k < (if leapyear y then 366 else 365) ->
  0 <= monthof y k < 12 /\ monthstart y (monthof y k) <= k < monthstart y (monthof y k) + monthlen y (monthof y k).
Proof.
  intros Hk. unfold monthof. cbn [seq find Z.of_nat Pos.of_succ_nat Pos.succ].
  assert (V : forall m, 0 <= m < 12 -> monthstart y m = (if leapyear y then monthstart 2000 m else monthstart 2001 m) /\ monthlen y m = (if leapyear y then monthlen 2000 m else monthlen 2001 m)).
  { intros m Hm. unfold monthstart, monthlen. destruct (leapyear y); auto. }
  assert (W : forall m, 0 <= m < 12 -> (m < 11 -> k < monthstart y (m + 1)) -> monthstart y m <= k -> 0 <= m < 12 /\ monthstart y m <= k < monthstart y m + monthlen y m).
  { intros m Hm H1 H2. split; [exact Hm|]. split; [exact H2|]. destruct (Z.eq_dec m 11) as [->|N]; [rewrite year_end; lia|]. rewrite <- monthstart_next by lia. apply H1. lia. }
  assert (Z0 : monthstart y 0 = 0) by (unfold monthstart; destruct (leapyear y); reflexivity).
  clear V. repeat (match goal with |- context [if ?a <? ?b then _ else _] => destruct (Z.ltb_spec a b) end; [cbv beta iota; cbn [Z.of_nat Pos.of_succ_nat Pos.succ]; apply W; [lia|intros _; cbn [Z.add Pos.add Pos.succ]; assumption|first [assumption|rewrite Z0; lia]]|]).
  apply W; [lia|lia|assumption].
Qed.
