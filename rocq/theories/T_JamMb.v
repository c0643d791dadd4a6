(** Exporting from areas in JAM format: C53. *)
From Verif Require T_Jam.
From Verif Require Import Base M_Node4D M_Str P_Str M_Mem M_Cfg M_Net M_Filter M_Msg P_Net M_Jam S_Jam P_Jam P_JamMaint M_Link M_JamMb S_JamMb P_JamMb.

Lemma get32_le k : is_u32 k -> get32 (le32 k) 0 = k.
Proof. intros H. rewrite <- (app_nil_r (le32 k)). apply le32_back. auto. Qed.
(** C53: a scan of an area, in any configuration, with any handler that may import messages
    into the same area, with locks that fail at any place and stopped at any place, hands on
    messages that wait, in order and none left out; those it hands on with success are marked
    as sent, or deleted if they are kill/sent netmail, and all others are as they were. *)
Theorem C53_scan crc cfg fidodate handle lock now junk ctrlc B K j s hw st' out ok :
  (forall u, is_u32 (crc u)) -> jmade crc K j s -> nextnum s < 4294967296 -> goodmark hw ->
  (forall n mm, Forall (storable crc cfg) (jr_imports (handle n mm)) /\ impsizes crc cfg (jr_imports (handle n mm)) <= B) ->
  K + B * Z.of_nat (length (x_slots s)) < 4294967295 ->
  jam_exportfunc crc cfg fidodate handle lock now junk ctrlc (JS j hw None) = Some (st', out, ok) ->
  exists K' s' rest, jmade crc K' (js_base st') s' /\ K' <= K + B * Z.of_nat (length (x_slots s)) /\
    x_num s' = x_num s /\ nextnum s <= nextnum s' /\
    (* exactly those that wait, in order *)
    filter (waiting s) (numbers (firstnum cfg hw s) (nextnum s)) = map fst out ++ rest /\
    (ok = true -> rest = []) /\
    (* each of them as the message is converted; what becomes of it *)
    (forall n mm, In (n, mm) out -> exists m oldattr, msgat s n = Some m /\
       jam_memmsg cfg fidodate false (a_hdr m) (a_subs m) (a_text m) = Some (mm, oldattr) /\
       msgat s' n = Some (if jr_ok (handle n mm) && lock n then as_sent cfg (now n) m else m)) /\
    (* the others *)
    (forall n, n < nextnum s -> ~ In n (map fst out) -> msgat s' n = msgat s n) /\
    (* a failure is the end of the scan, and there is no other reason to stop than the user *)
    (forall pre x, out = pre ++ x -> x <> [] -> forall n mm, In (n, mm) pre -> jr_ok (handle n mm) && lock n = true) /\
    (ok = true -> forall n mm, In (n, mm) out -> jr_ok (handle n mm) && lock n = true) /\
    ((forall n, ctrlc n = false) -> (forall n mm, In (n, mm) out -> jr_ok (handle n mm) && lock n = true) -> ok = true) /\
    (* the mark *)
    js_hw st' = hw /\
    (exists a, js_open st' = Some a /\ ja_oldhw a = (if Z.testbit (jc_jflags cfg) 0 then markof hw else 0) /\ ja_num a = x_num s /\ ja_size a = Z.of_nat (length (x_slots s)) /\
       ja_hw a = if ok then (nextnum s - 1) mod 4294967296 else ja_oldhw a).
Proof.
  intros Hcrc HM Hn Hg Hh HK E. destruct (getarea_new crc K j s hw Hcrc HM Hn) as [Ea Hx]. unfold jam_exportfunc in E. rewrite Ea in E. cbn [js_base js_hw] in E. change CFG_JAM_HIGHWATER with (2 ^ 0) in E. rewrite flag_pow in E by lia.
  set (a0 := JA (x_num s) (Z.of_nat (length (x_slots s))) 0 0 false) in *. set (mk := if Z.testbit (jc_jflags cfg) 0 then markof hw else 0). set (a := JA (x_num s) (Z.of_nat (length (x_slots s))) mk mk false).
  assert (Ej : (if Z.testbit (jc_jflags cfg) 0 then jam_gethighwater junk a0 (JS j hw (Some a0)) else a0) = a).
  { unfold a, mk. destruct (Z.testbit (jc_jflags cfg) 0); [|reflexivity]. unfold jam_gethighwater. cbn [js_hw]. destruct hw as [f|]; [|reflexivity]. destruct Hg as (k & -> & Hk). change (firstn 4 (le32 k)) with (le32 k). change (length (le32 k)) with 4%nat.
    rewrite le32_back by auto. cbn [markof]. rewrite get32_le by auto. reflexivity. }
  rewrite Ej in E. clear Ej. assert (Em : is_u32 mk). { unfold mk. destruct (Z.testbit _ 0); [|unfold is_u32; lia]. destruct hw as [f|]; [|cbn; unfold is_u32; lia]. destruct Hg as (k & -> & Hk). cbn [markof]. rewrite get32_le; auto. }
  assert (Ee : jamend a = nextnum s). { unfold jamend, a, nextnum in *. cbn [ja_num ja_size]. apply u32_id. unfold is_u32 in *. lia. }
  assert (Es : jamstart a = firstnum cfg hw s).
  { unfold jamstart, firstnum, a. cbn [ja_num ja_hw]. fold mk. unfold mk. destruct (Z.testbit (jc_jflags cfg) 0); cbn [andb negb Z.eqb]; [|rewrite Z.ltb_irrefl; reflexivity]. destruct (Z.eqb_spec (markof hw) 0) as [E0|E0]; cbn [negb]; [rewrite Z.ltb_irrefl; reflexivity|]. unfold u32. destruct (Z.ltb_spec ((markof hw + 1) mod 4294967296) (x_num s)); lia. }
  rewrite Ee, Es in E. set (first := firstnum cfg hw s) in *. assert (Hf : x_num s <= first). { unfold first, firstnum. destruct (_ && _); lia. }
  destruct (jamloop crc cfg fidodate handle lock now (Z.to_nat (nextnum s - first)) ctrlc false first (JS j hw (Some a))) as [[[st1 out1] ok1]|] eqn:El; cbn [obind] in E; [|discriminate]. injection E as <- <- <-.
  assert (HB0 : 0 <= B). { destruct (Hh 0 mm0) as [_ H]. pose proof (impsizes_nonneg crc cfg (jr_imports (handle 0 mm0))). lia. }
  assert (G : exists K' j' s' a' rest, st1 = JS j' hw (Some a') /\ jmade crc K' j' s' /\ K' <= K + B * Z.of_nat (length (x_slots s)) /\ sameja a a' /\ scanned cfg fidodate handle lock now s s' out1 /\
      filter (waiting s) (numbers first (nextnum s)) = map fst out1 ++ rest /\ (ok1 = true -> rest = [] /\ forallb (done handle lock) out1 = true) /\
      (forall pre x, out1 = pre ++ [x] -> forallb (done handle lock) pre = true) /\ ((forall n, ctrlc n = false) -> ok1 = forallb (done handle lock) out1)).
  { destruct (Z.le_gt_cases first (nextnum s)) as [Hle|Hgt].
    - assert (En : first + Z.of_nat (Z.to_nat (nextnum s - first)) = nextnum s) by lia. assert (HB : B * Z.of_nat (Z.to_nat (nextnum s - first)) <= B * Z.of_nat (length (x_slots s))) by (apply Z.mul_le_mono_nonneg_l; unfold nextnum in *; lia).
      destruct (loop_scan crc cfg fidodate handle lock now B Hcrc Hh ctrlc (Z.to_nat (nextnum s - first)) first K j s hw a st1 out1 ok1 HM eq_refl Hf ltac:(lia) ltac:(lia) ltac:(lia) El) as (K' & j' & s' & a' & rest & H1 & H2 & H3 & H4). rewrite En in H4.
      exists K', j', s', a', rest. split; auto. split; auto. split; [lia|exact H4].
    - replace (Z.to_nat (nextnum s - first)) with 0%nat in El by lia. cbn [jamloop] in El. injection El as <- <- <-. exists K, j, s, a, []. split; auto. split; auto. split; [nia|]. split; [apply sameja_refl|]. split; [apply scanned_nil|]. unfold numbers. replace (Z.to_nat (nextnum s - first)) with 0%nat by lia. split; [reflexivity|]. split; [auto|]. split; [intros pre x Ho; destruct pre; discriminate|]. intros ->. reflexivity. }
  destruct G as (K' & j' & s' & a' & rest & -> & HM' & HK' & Hsa & (S1 & S2 & S3 & S4) & Hfl & Hok & Hpre & Hct). exists K', s', rest.
  replace (js_base (if ok1 then set_hw (JS j' hw (Some a')) (u32 (nextnum s - 1)) else JS j' hw (Some a'))) with j' by (destruct ok1; reflexivity).
  assert (Hat : forall n (y : amsg), x_num s <= n -> slotat s' n = Some (Some y) -> msgat s' n = Some y) by (intros n y H1 H2; apply (msgat_slotat s' n y); [lia|exact H2]).
  split; auto. split; auto. split; auto. split; [unfold nextnum; lia|]. split; auto. split; [intros H; apply Hok; auto|]. split; [|split; [|split; [|split; [|split]]]].
  - intros n mm Hin. destruct (S4 n mm Hin) as (H1 & m & oa & H2 & H3 & H4 & H5). exists m, oa. split; auto. split; auto. unfold done in H5. cbn [fst snd] in H5. apply Hat; [lia|]. destruct (jr_ok (handle n mm) && lock n); auto. rewrite H5. apply msgat_slotat; auto. lia.
  - intros n H1 H2. destruct (Z.lt_ge_cases n (x_num s)) as [H|H].
    + unfold msgat. rewrite S1. destruct (Z.ltb_spec n (x_num s)); [reflexivity|lia].
    + specialize (S3 n ltac:(lia) H2). destruct (msgat s n) as [m|] eqn:Emn; [apply msgat_slotat in Emn; auto; apply Hat; auto; congruence|]. destruct (msgat s' n) as [m|] eqn:Emn'; auto. apply msgat_slotat in Emn'; [|lia]. rewrite S3 in Emn'. apply msgat_slotat in Emn'; [congruence|lia].
  - intros pre x Ho Hx' n mm Hin. destruct (exists_last Hx') as (x0 & x1 & ->). rewrite app_assoc in Ho. specialize (Hpre _ _ Ho). rewrite forallb_forall in Hpre. apply (Hpre (n, mm)). apply in_or_app. auto.
  - intros Hk n mm Hin. destruct (Hok Hk) as [_ H]. rewrite forallb_forall in H. apply (H (n, mm) Hin).
  - intros Hc Hd. rewrite (Hct Hc). apply forallb_forall. intros [n mm] Hin. apply (Hd n mm Hin).
  - destruct Hsa as (A1 & A2 & A3 & A4). split; [destruct ok1; reflexivity|]. destruct ok1; cbn [set_hw js_open option_map]; eexists; (split; [reflexivity|]); cbn [ja_oldhw ja_num ja_size ja_hw]; rewrite ?A1, ?A2, ?A3, ?A4; cbn [a ja_oldhw ja_num ja_size ja_hw]; auto.
Qed.

Lemma made_msgat crc K j s K' s' : (forall u, is_u32 (crc u)) -> jmade crc K j s -> jmade crc K' j s' -> forall n, msgat s n = msgat s' n.
Proof.
  intros Hcrc H H' n. destruct (rep_read _ _ _ (made_rep _ _ _ _ Hcrc H)) as (b & B1 & B2 & _ & B3). destruct (rep_read _ _ _ (made_rep _ _ _ _ Hcrc H')) as (b' & C1 & C2 & _ & C3).
  rewrite B1 in C1. injection C1 as <-. unfold msgat. rewrite <- B2, <- C2. destruct (Z.ltb_spec n (b_num b)); [reflexivity|]. specialize (B3 (n - b_num b) ltac:(lia)). specialize (C3 (n - b_num b) ltac:(lia)). rewrite B3 in C3. injection C3 as C3. unfold aread in C3.
  destruct (nth_error (x_slots s) _) as [[m|]|], (nth_error (x_slots s') _) as [[m'|]|]; congruence.
Qed.
Lemma made_waiting crc K j s K' s' n : (forall u, is_u32 (crc u)) -> jmade crc K j s -> jmade crc K' j s' -> waiting s n = waiting s' n.
Proof. intros Hcrc H H'. unfold waiting. rewrite (made_msgat crc K j s K' s' Hcrc H H'). reflexivity. Qed.
Lemma sent_done cfg t m : waits (as_sent cfg t m) = false.
Proof.
  unfold waits, as_sent. cbn [a_hdr h_attr]. replace (Z.testbit (if kills cfg m then Z.setbit (Z.setbit (h_attr (a_hdr m)) 4) 31 else Z.setbit (h_attr (a_hdr m)) 4) 4) with true; [cbn [negb]; rewrite andb_false_r; reflexivity|].
  destruct (kills cfg m); rewrite ?Z.setbit_neq by lia; rewrite Z.setbit_eq by lia; reflexivity.
Qed.
Lemma scan_waiting crc cfg fidodate handle lock now junk ctrlc B K j s hw st' out ok K' s' n :
  (forall u, is_u32 (crc u)) -> jmade crc K j s -> nextnum s < 4294967296 -> goodmark hw ->
  (forall n mm, Forall (storable crc cfg) (jr_imports (handle n mm)) /\ impsizes crc cfg (jr_imports (handle n mm)) <= B) ->
  K + B * Z.of_nat (length (x_slots s)) < 4294967295 ->
  jam_exportfunc crc cfg fidodate handle lock now junk ctrlc (JS j hw None) = Some (st', out, ok) -> jmade crc K' (js_base st') s' -> n < nextnum s ->
  nextnum s <= nextnum s' /\
  (waiting s n = false -> ~ In n (map fst out) /\ waiting s' n = false) /\ (forall mm, In (n, mm) out -> jr_ok (handle n mm) && lock n = true -> waiting s' n = false).
Proof.
  intros Hcrc HM Hn Hg Hh HK E HM' Hlt. destruct (C53_scan crc cfg fidodate handle lock now junk ctrlc B K j s hw st' out ok Hcrc HM Hn Hg Hh HK E) as (K1 & s1 & rest & H1 & _ & Hx & Hnn & Hf & _ & Hin & Hot & _).
  assert (Ew := made_waiting crc K1 _ s1 K' s' n Hcrc H1 HM'). assert (Hmg := made_msgat crc K1 _ s1 K' s' Hcrc H1 HM').
  split.
  { destruct (rep_read _ _ _ (made_rep _ _ _ _ Hcrc H1)) as (b & B1 & B2 & _ & B3). destruct (rep_read _ _ _ (made_rep _ _ _ _ Hcrc HM')) as (b' & C1 & C2 & _ & C3).
    rewrite B1 in C1. injection C1 as <-. assert (El : length (x_slots s1) = length (x_slots s')); [|unfold nextnum in *; lia].
    assert (G : forall a b : abase, (forall k, 0 <= k -> Some (aread a k) = Some (aread b k)) -> (length (x_slots a) <= length (x_slots b))%nat).
    { intros u v Huv. destruct (Nat.le_gt_cases (length (x_slots u)) (length (x_slots v))); auto. exfalso. specialize (Huv (Z.of_nat (length (x_slots v))) ltac:(lia)). injection Huv as Huv. unfold aread in Huv. rewrite Nat2Z.id in Huv.
      destruct (nth_error (x_slots u) (length (x_slots v))) as [[m|]|] eqn:E1; [| |apply nth_error_None in E1; lia]; rewrite (proj2 (nth_error_None (x_slots v) _)) in Huv by lia; discriminate. }
    apply Nat.le_antisymm; apply G; intros k Hk; rewrite <- B3, <- C3 by lia; reflexivity. }
  rewrite <- Ew. split.
  - intros Hw. assert (Hni : ~ In n (map fst out)).
    { intros Hc. assert (Hc' : In n (filter (waiting s) (numbers (firstnum cfg hw s) (nextnum s)))) by (rewrite Hf; apply in_or_app; auto). apply filter_In in Hc' as [_ Hc']. congruence. }
    split; auto. unfold waiting in *. rewrite Hot by auto. exact Hw.
  - intros mm Hi Hd. destruct (Hin n mm Hi) as (m & oa & _ & _ & Hm). rewrite Hd in Hm. unfold waiting. rewrite Hm. apply sent_done.
Qed.
Lemma life_none crc n K j s hw outs : (forall u, is_u32 (crc u)) -> jlife crc n K j s hw outs -> jmade crc K j s -> waiting s n = false -> n < nextnum s -> Forall (fun ns => ~ In n ns) outs.
Proof.
  intros Hcrc HL. induction HL; intros HM Hw Hn.
  - constructor.
  - apply IHHL; auto; [eapply made_op; eauto|]. unfold nextnum in *. rewrite T_Jam.astep_len. enough (x_num (astep s o) = x_num s) by lia. destruct o; cbn [astep]; try reflexivity; destruct (aread s n0); reflexivity.
  - auto.
  - destruct (scan_waiting crc cfg fidodate handle lock now junk ctrlc B K j s hw st' out ok K' s' n Hcrc HM H H0 H1 H2 H3 H4 Hn) as (G0 & G1 & _). destruct (G1 Hw) as [G2 G3]. constructor; auto. apply IHHL; auto. lia.
Qed.
(** C53: a message handed on with success is never handed on again. *)
Theorem C53_once crc cfg fidodate handle lock now junk ctrlc B K j s hw st' out ok K' s' n mm outs :
  (forall u, is_u32 (crc u)) -> jmade crc K j s -> nextnum s < 4294967296 -> goodmark hw ->
  (forall n mm, Forall (storable crc cfg) (jr_imports (handle n mm)) /\ impsizes crc cfg (jr_imports (handle n mm)) <= B) ->
  K + B * Z.of_nat (length (x_slots s)) < 4294967295 ->
  jam_exportfunc crc cfg fidodate handle lock now junk ctrlc (JS j hw None) = Some (st', out, ok) -> jmade crc K' (js_base st') s' ->
  In (n, mm) out -> jr_ok (handle n mm) && lock n = true ->
  jlife crc n K' (js_base st') s' (js_hw st') outs -> Forall (fun ns => ~ In n ns) outs.
Proof.
  intros Hcrc HM Hn Hg Hh HK E HM' Hi Hd HL. destruct (C53_scan crc cfg fidodate handle lock now junk ctrlc B K j s hw st' out ok Hcrc HM Hn Hg Hh HK E) as (K1 & s1 & rest & _ & _ & _ & _ & Hf & _).
  assert (Hlt : n < nextnum s). { assert (Hc : In n (filter (waiting s) (numbers (firstnum cfg hw s) (nextnum s)))) by (rewrite Hf; apply in_or_app; left; apply (in_map fst _ (n, mm)); auto). apply filter_In in Hc as [Hc _]. apply numbers_in in Hc; auto. lia. }
  destruct (scan_waiting crc cfg fidodate handle lock now junk ctrlc B K j s hw st' out ok K' s' n Hcrc HM Hn Hg Hh HK E HM' Hlt) as (G0 & _ & G). eapply life_none; eauto. lia.
Qed.

(** ** The mark *)
Lemma made_same crc K j s K' s' : (forall u, is_u32 (crc u)) -> jmade crc K j s -> jmade crc K' j s' -> x_num s = x_num s' /\ x_slots s = x_slots s'.
Proof.
  intros Hcrc H H'. destruct (rep_read _ _ _ (made_rep _ _ _ _ Hcrc H)) as (b & B1 & B2 & _ & B3). destruct (rep_read _ _ _ (made_rep _ _ _ _ Hcrc H')) as (b' & C1 & C2 & _ & C3).
  rewrite B1 in C1. injection C1 as <-. split; [congruence|]. assert (G : forall i, nth_error (x_slots s) i = nth_error (x_slots s') i).
  { intros i. specialize (B3 (Z.of_nat i) ltac:(lia)). specialize (C3 (Z.of_nat i) ltac:(lia)). rewrite B3 in C3. injection C3 as C3. unfold aread in C3. rewrite Nat2Z.id in C3. destruct (nth_error (x_slots s) i) as [[|]|], (nth_error (x_slots s') i) as [[|]|]; try reflexivity; try congruence; unfold JAM_NO_MESSAGE, JAM_IO_ERROR in C3; discriminate. }
  revert G. generalize (x_slots s), (x_slots s'). induction l as [|x l IH]; intros [|y l'] G; auto; try (specialize (G 0%nat); discriminate). f_equal; [specialize (G 0%nat); cbn in G; congruence|]. apply IH. intros i. apply (G (S i)).
Qed.
Lemma writelinks_made crc old : (forall u, is_u32 (crc u)) -> forall new c K j s, jmade crc K j s -> K < 4294967295 ->
  exists s', jmade crc K (writelinks j c old new) s' /\ x_num s' = x_num s /\ length (x_slots s') = length (x_slots s) /\ forall n, waiting s' n = waiting s n.
Proof.
  intros Hcrc. induction old as [|o old IH]; intros [|n new] c K j s HM HK; cbn [writelinks]; try (exists s; auto; fail).
  destruct (_ && _ && _); [apply IH; auto|]. destruct (JAM_ReadOnlyHeader j (Z.of_nat c)) as [h|] eqn:Eh; [|apply IH; auto].
  assert (HR := made_rep _ _ _ _ Hcrc HM). pose proof (rep_slot _ _ _ (Z.of_nat c) HR ltac:(lia)) as Hs. rewrite Nat2Z.id in Hs. destruct (nth_error (x_slots s) c) as [[m|]|] eqn:En; [|congruence|congruence]. destruct Hs as (A & h' & Eh' & Ep). assert (h' = h) by congruence. subst h'. clear Eh'.
  assert (Fo : op_fine (Change (Z.of_nat c) (with_links h n))). { split; [lia|]. destruct A as ((A1 & A2 & A3 & A4) & _). rewrite <- Ep in A1, A2, A3, A4. split; auto. split; auto. split; auto. cbn [with_links h_times h_msgid h_reply h_replyto h_reply1st h_replynext h_written h_received h_processed h_num h_attr h_attr2 h_pw h_cost].
    cbn [placeless with_layout h_times h_msgid h_reply h_replyto h_reply1st h_replynext h_written h_received h_processed h_num h_attr h_attr2 h_pw h_cost] in A4. repeat match goal with H : Forall _ (_ :: _) |- _ => inversion_clear H end. repeat (apply Forall_cons; [auto using u32_range|]). constructor. }
  pose proof (made_op crc K j s _ (snd (JAM_ChangeMsgHeader j (Z.of_nat c) (with_links h n))) HM Fo ltac:(cbn [opsize]; lia)) as HM1. cbn [jstep opsize] in HM1. rewrite Eh, Z.add_0_r in HM1. replace (with_layout (with_links h n) (h_sublen h) (h_txtoff h) (h_txtlen h)) with (with_links h n) in HM1 by (destruct h; reflexivity). specialize (HM1 eq_refl).
  destruct (IH new (S c) K _ _ HM1 HK) as (s' & H1 & H2 & H3 & H4). exists s'. split; auto.
  assert (Ea : aread s (Z.of_nat c) = Good m) by (unfold aread; rewrite Nat2Z.id, En; reflexivity). assert (Hc : (c < length (x_slots s))%nat) by (apply nth_error_Some; congruence).
  cbn [astep] in H2, H3, H4. rewrite Ea in H2, H3, H4. cbn [x_num x_slots] in H2, H3. rewrite setslot_length in H3 by lia. split; auto. split; auto. intros k. rewrite H4. unfold waiting, msgat. cbn [x_num x_slots]. destruct (Z.ltb_spec k (x_num s)); [reflexivity|]. rewrite nth_setslot by lia. rewrite Nat2Z.id. destruct (Nat.eqb_spec (Z.to_nat (k - x_num s)) c) as [E|E]; [|reflexivity].
  rewrite E, En. unfold waits. cbn [a_hdr]. unfold gone. cbn [with_layout with_links h_attr]. rewrite <- Ep. reflexivity.
Qed.
Lemma firstnum_same cfg hw s s' : x_num s' = x_num s -> firstnum cfg hw s' = firstnum cfg hw s.
Proof. unfold firstnum. intros ->. reflexivity. Qed.
(** After every session the mark is good again. *)
Theorem C53_mark crc cfg fidodate handle lock now junk ctrlc B K j s hw st' out ok quick success st2 K' s' :
  (forall u, is_u32 (crc u)) -> jmade crc K j s -> nextnum s < 4294967296 -> goodmark hw ->
  (forall n mm, Forall (storable crc cfg) (jr_imports (handle n mm)) /\ impsizes crc cfg (jr_imports (handle n mm)) <= B) ->
  K + B * Z.of_nat (length (x_slots s)) < 4294967295 ->
  jam_exportfunc crc cfg fidodate handle lock now junk ctrlc (JS j hw None) = Some (st', out, ok) ->
  jam_afterfunc cfg quick success WOk st' = Some st2 -> jmade crc K' (js_base st2) s' ->
  markok cfg hw s ->
  markok cfg (js_hw st2) s' /\ goodmark (js_hw st2) /\
  (* a complete scan is not repeated *)
  (ok = true -> success = true -> Z.testbit (jc_jflags cfg) 0 = true -> 1 < nextnum s -> firstnum cfg (js_hw st2) s' = nextnum s).
Proof.
  intros Hcrc HM Hn Hg Hh HK E Ea HM' [Hm1 Hm2]. destruct (C53_scan crc cfg fidodate handle lock now junk ctrlc B K j s hw st' out ok Hcrc HM Hn Hg Hh HK E) as (K1 & s1 & rest & H1 & HK1 & Hx & Hnn & Hf & Hr & Hin & Hot & _ & Hdn & _ & Hhw & a & Hop & Ho & _ & _ & Ha).
  assert (Hb : exists s2, jmade crc K1 (js_base st2) s2 /\ x_num s2 = x_num s1 /\ length (x_slots s2) = length (x_slots s1) /\ forall n, waiting s2 n = waiting s1 n).
  { unfold jam_afterfunc in Ea. rewrite Hop in Ea. destruct (success && flag (jc_jflags cfg) CFG_JAM_LINK && ja_new a).
    - unfold jam_linkmb in Ea. destruct (linkall _ _ _ _ _ _) as [new|]; cbn [obind] in Ea; [|discriminate]. injection Ea as <-. cbn [js_base]. apply writelinks_made; auto. lia.
    - cbn [obind] in Ea. injection Ea as <-. cbn [js_base]. exists s1. auto. }
  destruct Hb as (s2 & M2 & X2 & L2 & W2). destruct (made_same crc K1 _ s2 K' s' Hcrc M2 HM') as [X3 L3]. assert (W : forall n, waiting s' n = waiting s1 n) by (intros n; rewrite <- W2; symmetry; apply (made_waiting crc K1 _ s2 K' s' n Hcrc M2 HM')).
  assert (Xs : x_num s' = x_num s) by congruence. assert (Ns : nextnum s <= nextnum s') by (unfold nextnum in *; rewrite <- L3; lia).
  assert (Hw' : js_hw st2 = if success && flag (jc_jflags cfg) CFG_JAM_HIGHWATER && negb (ja_hw a =? ja_oldhw a) then Some (le32 (ja_hw a)) else hw).
  { unfold jam_afterfunc in Ea. rewrite Hop in Ea. destruct (if success && flag (jc_jflags cfg) CFG_JAM_LINK && ja_new a then _ else _); cbn [obind] in Ea; [|discriminate]. injection Ea as <-. cbn [js_hw jam_writehighwater]. rewrite Hhw. reflexivity. }
  change CFG_JAM_HIGHWATER with (2 ^ 0) in Hw'. rewrite flag_pow in Hw' by lia.
  assert (Hold : forall n, waiting s' n = true -> firstnum cfg hw s <= n).
  { intros n Hw. rewrite W in Hw. destruct (Z.lt_ge_cases n (nextnum s)) as [Hlt|Hge]; [|lia]. apply Hm1. destruct (waiting s n) eqn:Ew; auto. destruct (scan_waiting crc cfg fidodate handle lock now junk ctrlc B K j s hw st' out ok K1 s1 n Hcrc HM Hn Hg Hh HK E H1 Hlt) as (_ & G & _). destruct (G Ew). congruence. }
  assert (Hnew : ok = true -> forall n, waiting s' n = true -> nextnum s <= n).
  { intros Hok n Hw. destruct (Z.lt_ge_cases n (nextnum s)) as [Hlt|Hge]; auto. exfalso. destruct (scan_waiting crc cfg fidodate handle lock now junk ctrlc B K j s hw st' out ok K1 s1 n Hcrc HM Hn Hg Hh HK E H1 Hlt) as (_ & G1 & G2). rewrite W in Hw. destruct (waiting s n) eqn:Ew; [|destruct (G1 eq_refl); congruence].
    assert (Hi : In n (map fst out)). { rewrite (Hr Hok), app_nil_r in Hf. rewrite <- Hf. apply filter_In. split; auto. apply numbers_in. split; auto. }
    apply in_map_iff in Hi as ([n' mm] & En & Hi). cbn [fst] in En. subst n'. rewrite (G2 mm Hi (Hdn Hok _ _ Hi)) in Hw. discriminate. }
  assert (Hx0 : is_u32 (x_num s)) by (destruct (getarea_new crc K j s hw Hcrc HM Hn); auto). assert (Hn0 : x_num s <= nextnum s) by (unfold nextnum; lia).
  assert (Hahw : is_u32 (ja_hw a)). { rewrite Ha. destruct ok; [apply u32_range|]. rewrite Ho. destruct (Z.testbit (jc_jflags cfg) 0); [|unfold is_u32; lia]. destruct hw as [f|]; [|cbn; unfold is_u32; lia]. destruct Hg as (k & -> & Hk). cbn [markof]. rewrite get32_le; auto. }
  assert (Hfn : Z.testbit (jc_jflags cfg) 0 = true -> ok = true -> forall hw', markof hw' = ja_hw a -> firstnum cfg hw' s' <= nextnum s /\ (forall n, nextnum s <= n -> firstnum cfg hw' s' <= n) /\ (1 < nextnum s -> firstnum cfg hw' s' = nextnum s)).
  { intros Hb Hok hw' Em. unfold firstnum. rewrite Hb, Em, Ha, Hok, Xs. cbn [andb]. unfold is_u32 in *. destruct (Z.eqb_spec ((nextnum s - 1) mod 4294967296) 0) as [E0|E0]; cbn [negb].
    - split; [lia|]. split; [lia|]. intros Hgt. rewrite Z.mod_small in E0 by lia. lia.
    - assert (Emod : ((nextnum s - 1) mod 4294967296 + 1) mod 4294967296 = nextnum s) by (rewrite Zplus_mod_idemp_l; replace (nextnum s - 1 + 1) with (nextnum s) by lia; apply Z.mod_small; lia). rewrite Emod. split; [lia|]. split; lia. }
  destruct (success && Z.testbit (jc_jflags cfg) 0 && negb (ja_hw a =? ja_oldhw a)) eqn:Ec.
  - rewrite Hw'. apply andb_prop in Ec as [Ec E3]. apply andb_prop in Ec as [E1 E2]. assert (Hok : ok = true). { destruct ok; auto. rewrite Ha, Z.eqb_refl in E3. discriminate. }
    assert (Em : markof (Some (le32 (ja_hw a))) = ja_hw a) by (cbn [markof]; apply get32_le; auto). destruct (Hfn E2 Hok _ Em) as (F1 & F2 & F3).
    split; [split; [intros n Hw; apply F2; auto|lia]|]. split; [exists (ja_hw a); auto|auto].
  - rewrite Hw'. split; [split|split; [exact Hg|]].
    + intros n Hw. rewrite (firstnum_same cfg hw s s') by auto. auto.
    + rewrite (firstnum_same cfg hw s s') by auto. lia.
    + intros Hok -> Hb Hgt. rewrite Hb in Ec, Ho. cbn [andb] in Ec. apply negb_false_iff, Z.eqb_eq in Ec. apply (Hfn Hb Hok hw); [congruence|auto].
Qed.
Lemma reach_all crc cfg K j s hw : (forall u, is_u32 (crc u)) -> jreach crc cfg K j s hw -> jmade crc K j s /\ goodmark hw /\ markok cfg hw s.
Proof.
  intros Hcrc H. induction H as [now base Hb|K j s hw o j' HR IH Ho HK Ej Hw|K j s hw fidodate handle lock now junk ctrlc B st' out ok quick success st2 K' s' HR IH Hn Hh HK E Ea HM'].
  - split; [apply made_new; auto|]. split; [exact I|]. unfold markok, firstnum, nextnum. cbn [markof Z.eqb negb]. rewrite andb_false_r. cbn [x_num x_slots length]. split; [|lia]. intros n Hn. unfold waiting, msgat in Hn. cbn [x_num x_slots] in Hn. destruct (Z.ltb_spec n base); [discriminate|lia].
  - destruct IH as (HM & Hg & Hm1 & Hm2). split; [eapply made_op; eauto|]. split; auto. assert (Ex : x_num (astep s o) = x_num s) by (destruct o; cbn [astep]; try reflexivity; destruct (aread s n); reflexivity).
    assert (El : nextnum s <= nextnum (astep s o)) by (unfold nextnum; rewrite T_Jam.astep_len; lia). unfold markok. rewrite (firstnum_same cfg hw s) by auto. split; [|lia]. intros n Hn. destruct (Z.lt_ge_cases n (nextnum s)) as [H|H]; [auto|lia].
  - destruct IH as (HM & Hg & Hm). destruct (C53_mark crc cfg fidodate handle lock now junk ctrlc B K j s hw st' out ok quick success st2 K' s' Hcrc HM Hn Hg Hh HK E Ea HM' Hm) as (G1 & G2 & _). auto.
Qed.
(** C53: with or without the mark, in every state sessions and other programs lead to, a scan
    that ends well hands on all messages that wait. *)
Theorem C53_complete crc cfg fidodate handle lock now junk ctrlc B K j s hw st' out :
  (forall u, is_u32 (crc u)) -> jreach crc cfg K j s hw -> nextnum s < 4294967296 ->
  (forall n mm, Forall (storable crc cfg) (jr_imports (handle n mm)) /\ impsizes crc cfg (jr_imports (handle n mm)) <= B) ->
  K + B * Z.of_nat (length (x_slots s)) < 4294967295 ->
  jam_exportfunc crc cfg fidodate handle lock now junk ctrlc (JS j hw None) = Some (st', out, true) ->
  map fst out = filter (waiting s) (numbers (x_num s) (nextnum s)).
Proof.
  intros Hcrc HR Hn Hh HK E. destruct (reach_all _ _ _ _ _ _ Hcrc HR) as (HM & Hg & Hm1 & Hm2). destruct (C53_scan crc cfg fidodate handle lock now junk ctrlc B K j s hw st' out true Hcrc HM Hn Hg Hh HK E) as (K1 & s1 & rest & _ & _ & _ & _ & Hf & Hr & _).
  rewrite (Hr eq_refl), app_nil_r in Hf. rewrite <- Hf. assert (Hx : x_num s <= firstnum cfg hw s) by (unfold firstnum; destruct (_ && _); lia).
  assert (Es : numbers (x_num s) (nextnum s) = numbers (x_num s) (firstnum cfg hw s) ++ numbers (firstnum cfg hw s) (nextnum s)).
  { unfold numbers. replace (Z.to_nat (nextnum s - x_num s)) with (Z.to_nat (firstnum cfg hw s - x_num s) + Z.to_nat (nextnum s - firstnum cfg hw s))%nat by lia. rewrite seq_app, map_app. f_equal.
    cbn [Nat.add]. generalize (Z.to_nat (nextnum s - firstnum cfg hw s)). intros k. rewrite <- (Nat.add_0_r (Z.to_nat (firstnum cfg hw s - x_num s))) at 1. rewrite Nat.add_comm. clear -Hx. generalize 0%nat. induction k as [|k IH]; intros i; [reflexivity|]. cbn [seq map]. f_equal; [lia|]. rewrite <- (IH (S i)). reflexivity. }
  rewrite Es, filter_app. replace (filter (waiting s) (numbers (x_num s) (firstnum cfg hw s))) with (@nil Z); [reflexivity|]. symmetry. assert (G : forall n, In n (numbers (x_num s) (firstnum cfg hw s)) -> waiting s n = false).
  { intros n Hi. apply numbers_in in Hi. destruct (waiting s n) eqn:Ew; auto. apply Hm1 in Ew. lia. }
  revert G. generalize (numbers (x_num s) (firstnum cfg hw s)). induction l as [|n l IH]; intros G; [reflexivity|]. cbn [filter]. rewrite G by (left; reflexivity). apply IH. intros k Hk. apply G. right. exact Hk.
Qed.

(** ** Examples *)
Lemma run_made crc ops : forall K j s j', jmade crc K j s -> Forall op_fine ops -> K + fold_right (fun o n => opsize o + n) 0 ops < 4294967295 -> jrun crc j ops = Some j' ->
  jmade crc (K + fold_right (fun o n => opsize o + n) 0 ops) j' (fold_left astep ops s).
Proof.
  assert (H0 : forall o, 0 <= opsize o) by (intros []; cbn [opsize]; try lia; pose proof (subsize_nonneg subs); lia).
  assert (Hn : forall l, 0 <= fold_right (fun o n => opsize o + n) 0 l) by (induction l as [|o l IH]; cbn [fold_right]; [lia|]; specialize (H0 o); lia).
  induction ops as [|o ops IH]; intros K j s j' HM F Hs E; cbn [jrun fold_right fold_left] in *.
  - injection E as <-. rewrite Z.add_0_r. exact HM.
  - inversion_clear F as [|? ? Fo Fr]. destruct (jstep crc j o) as [j1|] eqn:Ej; [|discriminate]. specialize (Hn ops). rewrite Z.add_assoc. apply (IH (K + opsize o) j1 (astep s o) j'); auto; [|lia]. eapply made_op; eauto. lia.
Qed.
Definition xcrc (l : list Z) : Z := 7.
Definition yops : list jop := [Add (T_Jam.xh 1) T_Jam.xsubs (lit "One"); Add (T_Jam.xh 17) T_Jam.xsubs (lit "Sent"); AddEmpty; Add (T_Jam.xh 0) T_Jam.xsubs (lit "Not local"); Add (T_Jam.xh 33) T_Jam.xsubs (lit "Two")].
Definition ybase : jam := match jrun xcrc (JAM_CreateMB 12345 5) yops with Some j => j | None => JAM [] [] [] [] end.
Definition yabs : abase := fold_left astep yops (AB 5 0 []).
Definition ycfg (flags jflags : Z) (net_ : bool) : jcfg := JC flags jflags net_ (lit "TEST") (N4 2 201 1 0) 0.
Definition yimp : jimp := JI (MM (N4 2 201 1 0) (N4 2 201 1 0) (N4 0 0 0 0) (N4 0 0 0 0) (N4 2 201 1 0) (lit "TEST") (lit "Carol") (lit "Dave") (lit "Bounce") [] [] [] 256 0 0 0 [lit "Sorry" ++ [13]] [] []) 1000 2000 true nocuts.
(** a handler that imports a message into the area while it has the first one, and refuses
    the message number bad *)
Definition yhandle (bad n : Z) (mm : memmsg) : jres2 := JR (negb (n =? bad)) (if n =? 5 then [yimp] else []).
Definition ydate (t : Z) : list Z := lit "date".
Definition yscan cfg bad lock hw j := jam_exportfunc xcrc cfg ydate (yhandle bad) lock (fun _ => 5000) [1;2;3;4] (fun _ => false) (JS j hw None).
Definition numsof (r : option (jst * list (Z * memmsg) * bool)) := option_map (fun r => (map fst (snd (fst r)), snd r)) r.
Definition stof (r : option (jst * list (Z * memmsg) * bool)) : jst := match r with Some (s, _, _) => s | None => JS (JAM [] [] [] []) None None end.
Lemma xh_fine a : is_u32 a -> hdr_fine (T_Jam.xh a).
Proof. intros Ha. split; [reflexivity|]. split; [unfold is_u16; cbn; lia|]. split; [unfold is_u16; cbn; lia|]. unfold T_Jam.xh. cbn [h_times h_msgid h_reply h_replyto h_reply1st h_replynext h_written h_received h_processed h_num h_attr h_attr2 h_pw h_cost]. repeat (apply Forall_cons; [first [exact Ha|unfold is_u32; lia]|]). constructor. Qed.
Lemma xadd_fine a text : is_u32 a -> Z.of_nat (length text) < 4294967296 -> op_fine (Add (T_Jam.xh a) T_Jam.xsubs text).
Proof.
  intros Ha Ht. split; [apply xh_fine; auto|]. split; [|split; [reflexivity|auto]].
  repeat (apply Forall_cons; [split; [unfold is_u16; cbn; lia|]; split; [unfold is_u16; cbn; lia|]; intros _; vm_compute; lia|]). constructor.
Qed.
Lemma yops_fine : Forall op_fine yops.
Proof. unfold yops. repeat (apply Forall_cons; [first [exact I|apply xadd_fine; [unfold is_u32; lia|reflexivity]]|]). constructor. Qed.
Lemma ymade : jmade xcrc (1024 + fold_right (fun o n => opsize o + n) 0 yops) ybase yabs.
Proof. apply (run_made xcrc yops 1024 (JAM_CreateMB 12345 5) (AB 5 0 [])); [apply made_new; unfold is_u32; lia|exact yops_fine|reflexivity|vm_compute; reflexivity]. Qed.
Lemma ystorable cfg : In cfg [ycfg 0 0 false; ycfg 0 1 false; ycfg 33554432 0 true] -> forall bad n mm, Forall (storable xcrc cfg) (jr_imports (yhandle bad n mm)) /\ impsizes xcrc cfg (jr_imports (yhandle bad n mm)) <= 200.
Proof.
  intros Hc bad n mm. unfold yhandle. cbn [jr_imports].
  assert (G : Forall (storable xcrc cfg) [yimp] /\ impsizes xcrc cfg [yimp] <= 200).
  { unfold impsizes, impsize. cbn [fold_right].
    destruct Hc as [<-|[<-|[<-|[]]]];
    match goal with |- context [jam_message xcrc ?c yimp] => let v := eval vm_compute in (jam_message xcrc c yimp) in assert (E : jam_message xcrc c yimp = v) by (vm_compute; reflexivity) end;
    (split; [constructor; [|constructor]; split; [reflexivity|]; eexists _, _, _; split; [exact E|]; split; [|split; [|split; reflexivity]];
      [split; [reflexivity|]; split; [unfold is_u16; cbn; lia|]; split; [unfold is_u16; cbn; lia|]; cbn [h_times h_msgid h_reply h_replyto h_reply1st h_replynext h_written h_received h_processed h_num h_attr h_attr2 h_pw h_cost]; repeat (apply Forall_cons; [unfold is_u32; lia|]); constructor
      |repeat (apply Forall_cons; [split; [unfold is_u16; cbn; lia|]; split; [unfold is_u16; cbn; lia|]; first [discriminate|intros _; vm_compute; lia]|]); constructor]
    |rewrite E; vm_compute; discriminate]). }
  destruct (n =? 5); [exact G|]. split; [constructor|vm_compute; discriminate].
Qed.
(** The two that wait are handed on. The message the handler imported meanwhile, a local one,
    waits for the next scan. With kill/sent the second is deleted. *)
Example C53_nonvacuous :
  jmade xcrc (1024 + fold_right (fun o n => opsize o + n) 0 yops) ybase yabs /\ nextnum yabs < 4294967296 /\
  (forall n mm, Forall (storable xcrc (ycfg 33554432 0 true)) (jr_imports (yhandle 0 n mm)) /\ impsizes xcrc (ycfg 33554432 0 true) (jr_imports (yhandle 0 n mm)) <= 200) /\
  filter (waiting yabs) (numbers 5 (nextnum yabs)) = [5; 9] /\
  numsof (yscan (ycfg 33554432 0 true) 0 (fun _ => true) None ybase) = Some ([5; 9], true) /\
  (let j := js_base (stof (yscan (ycfg 33554432 0 true) 0 (fun _ => true) None ybase)) in
   map (fun n => match read_message j n with Some (Good m) => h_attr (a_hdr m) | _ => -1 end) [0; 1; 2; 3; 4; 5] = [17; 17; -1; 0; 2147483648 + 49; 16777217] /\
   numsof (yscan (ycfg 33554432 0 true) 0 (fun _ => true) None j) = Some ([10], true)) /\
  (* message 9 is refused, then not *)
  numsof (yscan (ycfg 33554432 0 true) 9 (fun _ => true) None ybase) = Some ([5; 9], false) /\
  numsof (yscan (ycfg 33554432 0 true) 0 (fun _ => true) None (js_base (stof (yscan (ycfg 33554432 0 true) 9 (fun _ => true) None ybase)))) = Some ([9; 10], true).
Proof.
  split; [exact ymade|]. split; [reflexivity|]. split; [apply ystorable; cbn; auto|]. split; [vm_compute; reflexivity|]. split; [vm_compute; reflexivity|]. split; [split; vm_compute; reflexivity|]. split; vm_compute; reflexivity.
Qed.
(** with the mark: written at the end of the session, and the next scan starts behind it *)
Definition yafter cfg (s : jst) : jst := match jam_afterfunc cfg false true WOk s with Some s => s | None => s end.
Example C53_mark_nonvacuous :
  let s1 := yafter (ycfg 0 1 false) (stof (yscan (ycfg 0 1 false) 0 (fun _ => true) None ybase)) in
  js_hw s1 = Some (le32 9) /\ numsof (yscan (ycfg 0 1 false) 0 (fun _ => true) (js_hw s1) (js_base s1)) = Some ([10], true) /\
  firstnum (ycfg 0 1 false) (js_hw s1) yabs = 10 /\ markok (ycfg 0 1 false) None yabs.
Proof.
  cbv zeta. split; [vm_compute; reflexivity|]. split; [vm_compute; reflexivity|]. split; [vm_compute; reflexivity|]. split; [|vm_compute; discriminate].
  change (firstnum (ycfg 0 1 false) None yabs) with 5. intros n Hn. unfold waiting, msgat in Hn. change (x_num yabs) with 5 in Hn. destruct (Z.ltb_spec n 5); [discriminate|lia].
Qed.

(** ** What goes wrong *)
(** If the base cannot be locked when the message has been handed on, it is handed on again
    by the next scan. *)
Theorem C53_lock_refuted : exists s, jmade xcrc (1024 + fold_right (fun o n => opsize o + n) 0 yops) ybase s /\
  numsof (yscan (ycfg 0 0 false) 0 (fun _ => false) None ybase) = Some ([5], false) /\
  option_map fst (numsof (yscan (ycfg 0 0 false) 0 (fun _ => true) None (js_base (stof (yscan (ycfg 0 0 false) 0 (fun _ => false) None ybase))))) = Some [5; 9; 10].
Proof. exists yabs. split; [exact ymade|]. split; vm_compute; reflexivity. Qed.
(** A mark left from a former base hides the messages of a new one, and the scan reports
    success. *)
Theorem C53_stale_mark_refuted : goodmark (Some (le32 100)) /\ waiting yabs 5 = true /\ numsof (yscan (ycfg 0 1 false) 0 (fun _ => true) (Some (le32 100)) ybase) = Some ([], true).
Proof. split; [exists 100; split; [reflexivity|unfold is_u32; lia]|]. split; vm_compute; reflexivity. Qed.
(** A message whose text cannot be read ends every scan; those behind it are not exported. *)
Definition ydamaged : jam := JAM (j_hdr ybase) [] (j_idx ybase) (j_lrd ybase).
Theorem C53_damaged_refuted : read_message ydamaged 0 = Some (Bad JAM_IO_ERROR) /\ numsof (yscan (ycfg 0 0 false) 0 (fun _ => true) None ydamaged) = Some ([], false) /\
  js_base (stof (yscan (ycfg 0 0 false) 0 (fun _ => true) None ydamaged)) = ydamaged.
Proof. split; [vm_compute; reflexivity|]. split; vm_compute; reflexivity. Qed.
(** Instead of the flags a message has, the last name that was looked at is put into its text. *)
Theorem C53_flags_refuted : option_map (fun r => mmtext (fst r)) (jam_memmsg (ycfg 0 0 false) ydate false (T_Jam.xh 1025) T_Jam.xsubs (lit "Text" ++ [13])) = Some (lit "HelloText" ++ [13]) /\
  (* and that is undefined if there was none *)
  jam_memmsg (ycfg 0 0 false) ydate false (T_Jam.xh 1025) [] (lit "Text" ++ [13]) = None.
Proof. split; vm_compute; reflexivity. Qed.
(** A name of 200 characters in a message of the base overflows a buffer. *)
Theorem C53_long_refuted cfg d : (200 <= length d)%nat -> jam_memmsg cfg ydate false (T_Jam.xh 1) [SF 2 0 d] [] = None.
Proof.
  intros H. assert (E : forall x, jamfields x [SF 2 0 d] = None).
  { intros x. cbn [jamfields]. assert (E : jamfield x (SF 2 0 d) = None); [|rewrite E; reflexivity]. unfold jamfield. cbn [sf_lo sf_data]. assert (E : fieldcpy 200 d = None) by (unfold fieldcpy; destruct (Nat.ltb_spec (length d) 200); [lia|reflexivity]). rewrite E. reflexivity. }
  unfold jam_memmsg. rewrite E. reflexivity.
Qed.
(** An origin line without a number behind the parenthesis: the address is sought behind the
    end of the line. *)
Theorem C53_origin_refuted : jam_memmsg (ycfg 0 0 false) ydate false (T_Jam.xh 1) T_Jam.xsubs (lit "Hi" ++ [13] ++ lit " * Origin: here (nowhere)" ++ [13]) = None.
Proof. vm_compute. reflexivity. Qed.

Print Assumptions C53_scan.
Print Assumptions C53_once.
Print Assumptions C53_mark.
Print Assumptions C53_complete.
