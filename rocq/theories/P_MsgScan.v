(** Lemmas about scanning *.MSG areas again and again. *)
From Coq Require Import Sorting.Sorted.
From Verif Require Import Base M_Node4D S_Node4D P_Node4D M_Cfg M_Str P_Str M_Fs P_Fs M_Mem S_Mem P_Mem M_Pkt S_Pkt P_Pkt M_Msg S_Msg P_Msg P_MsgText.

Lemma import_keeps cfg i s s' ok : msg_importfunc cfg i s = Some (s', ok) -> length (im_junk i) = 190%nat ->
  exists n data, is_u32 n /\ msgfile (ms_dir s) n = None /\ storedmsg cfg (im_junk i) (im_mm i) = Some data /\
    (forall name, name <> msgname n -> fget (ms_dir s') name = fget (ms_dir s) name) /\
    ok = wok (im_w i) /\ msgfile (ms_dir s') n = match im_w i with WOk => Some data | WNoOpen => None | WCut k => Some (firstn k data) end.
Proof.
  unfold msg_importfunc. intros H Hj. destruct (nextfree _ _ _) as [h|] eqn:En; [|discriminate]. cbn [obind] in H.
  unfold msg_WriteMSG in H. destruct (storedmsg cfg (im_junk i) (im_mm i)) as [data|] eqn:E; [|discriminate]. cbn [obind option_map fst snd] in H.
  injection H as <- <-. cbn [ms_dir]. apply nextfree_spec in En as [H1 H2]. exists h, data. repeat split; auto; try apply H1.
  - intros name Hn. apply writenew_other. auto.
  - unfold msgfile. fold (msgname h). destruct (im_w i); cbn [writenew]; rewrite ?fget_put_same; auto.
Qed.
Lemma import_none_waits cfg i s s' ok n : msg_importfunc cfg i s = Some (s', ok) -> imp_ok i -> none_waits (ms_dir s) n -> none_waits (ms_dir s') n.
Proof.
  intros H [Hj Ha] Hn. destruct (import_keeps _ _ _ _ _ H Hj) as (k & data & H1 & H2 & H3 & H4 & _ & H5).
  intros b Hb. unfold msgfile in *. fold (msgname n) (msgname k) in *. destruct (list_eq_dec Z.eq_dec (msgname n) (msgname k)) as [E|E].
  - rewrite E in Hb. rewrite Hb in H5. destruct (storedmsg_attr _ _ _ _ Hj H3) as [_ Hx].
    assert (Hw : forall q, ~ waiting (firstn q data)). { intros q Hw. apply prefix_waiting in Hw as (_ & Hl & _). unfold is_local in Hl. rewrite Hx in Hl by lia. congruence. }
    destruct (im_w i); [|discriminate|]; injection H5 as ->; auto. intros Hw'. apply (Hw (length data)). rewrite firstn_all. auto.
  - rewrite H4 in Hb by auto. apply Hn. auto.
Qed.
Lemma imports_none_waits cfg l : forall s s' n, imports cfg l s = Some s' -> Forall imp_ok l -> none_waits (ms_dir s) n -> none_waits (ms_dir s') n.
Proof.
  induction l as [|i l IH]; intros s s' n H Hi Hn; cbn [imports] in H; [injection H as <-; auto|].
  destruct (msg_importfunc cfg i s) as [[s1 ok]|] eqn:E; [|discriminate]. cbn [obind fst] in H. inversion Hi; subst.
  apply (IH s1); auto. eapply import_none_waits; eauto.
Qed.
Lemma imports_keep cfg l : forall s s' name b, imports cfg l s = Some s' -> Forall imp_ok l -> fget (ms_dir s) name = Some b -> fget (ms_dir s') name = Some b.
Proof.
  induction l as [|i l IH]; intros s s' name b H Hi Hn; cbn [imports] in H; [congruence|].
  destruct (msg_importfunc cfg i s) as [[s1 ok]|] eqn:E; [|discriminate]. cbn [obind fst] in H. inversion Hi as [|? ? [Hj Ha] Hi']; subst.
  apply (IH s1); auto. destruct (import_keeps _ _ _ _ _ E Hj) as (k & data & H1 & H2 & H3 & H4 & _).
  rewrite H4; auto. intros ->. unfold msgfile in H2. fold (msgname k) in H2. congruence.
Qed.

Section Nowait.
  Context (cfg : mcfg) (handle : Z -> memmsg -> hres) (mark : Z -> wres) (junk : list Z).
  Hypothesis Hjunk : length junk = 190%nat.
  Hypothesis Htag : mc_tag cfg <> [].
  Hypothesis Himp : forall n mm, Forall imp_ok (hr_imports (handle n mm)).

  Lemma marksent_other num hdr zs mm s s' : marksent cfg mark junk num hdr zs mm s = Some s' ->
    forall name, name <> msgname num -> fget (ms_dir s') name = fget (ms_dir s) name.
  Proof.
    unfold marksent. cbn zeta. intros H name Hn. destruct (flag _ _ && _ && _).
    - injection H as <-. cbn [ms_dir]. destruct (mark num); auto. apply fget_del_other. auto.
    - destruct (flag (mc_mflags cfg) CFG_MSG_WRITEBACK).
      + unfold msg_WriteMSG in H. destruct (storedmsg _ _ _) as [data|]; [|discriminate]. cbn [option_map obind fst] in H. injection H as <-. cbn [ms_dir]. apply writenew_other. auto.
      + injection H as <-. cbn [ms_dir]. unfold writeover. destruct (fget (ms_dir s) (msgname num)); auto. destruct (mark num); auto; apply fget_put_other; auto.
  Qed.
  Lemma export1_none_waits num s s' h n : is_u32 num -> is_u32 n ->
    msg_ExportMSGNum cfg handle mark junk num false s = EOk s' h \/ msg_ExportMSGNum cfg handle mark junk num false s = EFalse s' h ->
    (none_waits (ms_dir s) n -> none_waits (ms_dir s') n /\ (num = n -> h = None)) /\
    (forall mm, h = Some mm -> num = n -> hr_ok (handle n mm) = true -> mark n = WOk -> none_waits (ms_dir s') n).
  Proof.
    intros Hun Hu H. unfold msg_ExportMSGNum in H. cbn zeta in H. cbn [ms_dir] in H.
    set (s0 := MS (ms_dir s) (Some (msg_getarea s))) in *. change (ms_dir s) with (ms_dir s0) in H |- *.
    assert (Hid : (EOk s0 None = EOk s' h \/ EOk s0 None = EFalse s' h) -> (none_waits (ms_dir s0) n -> none_waits (ms_dir s') n /\ (num = n -> h = None)) /\
      (forall mm, h = Some mm -> num = n -> hr_ok (handle n mm) = true -> mark n = WOk -> none_waits (ms_dir s') n)).
    { intros [E|E]; [|discriminate]. injection E as <- <-. split; auto. intros mm Hx. discriminate. }
    pose proof (readstored_spec (ms_dir s0) num) as Hr. destruct (readstored (ms_dir s0) num) as [[hdr text]|]; [|auto].
    destruct Hr as (b & Hb & Hcb & -> & ->). cbn [negb andb] in H.
    destruct (pending (firstn 190 b)) eqn:Ep; cbn [negb] in H; [|auto]. clear Hid.
    apply (pending_spec b Hcb) in Ep.
    pose proof (exptext_ok cfg false (firstn 190 b) (S (length (skipn 190 b))) false false (exphdr cfg (firstn 190 b)) (skipn 190 b) ltac:(lia)) as Hx.
    destruct (exptext _ cfg false (firstn 190 b) false false (exphdr cfg (firstn 190 b)) (skipn 190 b)) as [m zs| |]; [|destruct H; discriminate|destruct H; discriminate].
    set (mm := set_Flags m (Z.lor (Flags m) MMFLAG_EXPORTED)) in *.
    destruct (imports cfg (hr_imports (handle num mm)) s0) as [s1|] eqn:Ei; [|destruct H; discriminate].
    assert (Hne : none_waits (ms_dir s0) n -> num <> n) by (intros Hq ->; apply (Hq b Hb); auto).
    assert (Hi1 : none_waits (ms_dir s0) n -> none_waits (ms_dir s1) n) by (intros; eapply imports_none_waits; eauto).
    destruct (hr_ok (handle num mm)) eqn:Eok.
    2: { destruct H as [H|H]; [discriminate|]. injection H as <- <-. split; [intros Hq; split; [auto|intros Hq'; exfalso; apply (Hne Hq Hq')]|].
         intros m' E <-. injection E as <-. congruence. }
    destruct (marksent cfg mark junk num (firstn 190 b) zs (hr_mm (handle num mm)) s1) as [s2|] eqn:Es; [|destruct H; discriminate].
    destruct H as [H|H]; [|discriminate]. injection H as <- <-. split.
    - intros Hq. pose proof (Hne Hq) as Hd. split; [|intros; contradiction]. intros b' Hb'. unfold msgfile in Hb'. fold (msgname n) in Hb'.
      rewrite (marksent_other _ _ _ _ _ _ Es) in Hb'. { apply (Hi1 Hq). auto. }
      intros E. apply Hd. symmetry. apply msgname_inj; auto; [apply Hu|apply Hun].
    - intros m' E <- _ Hmk. injection E as <-.
      assert (Hf1 : msgfile (ms_dir s1) num = Some b) by (unfold msgfile in *; eapply imports_keep; eauto).
      assert (Es' : marksent cfg (fun _ => WOk) junk num (firstn 190 b) zs (hr_mm (handle num mm)) s1 = Some s2).
      { revert Es. unfold marksent. rewrite Hmk. auto. }
      destruct (marksent_spec cfg handle (fun _ => WOk) junk (fun _ => eq_refl) Hjunk Himp _ _ _ _ _ _ Es' Hf1 Hcb) as (D & _).
      { intros ->. destruct Hx as [_ Hx]. destruct (Hx eq_refl) as [Hy|Hy]; [discriminate|]. unfold exphdr in Hy. cbn [Area] in Hy.
        destruct (mc_net cfg); auto; contradiction. }
      intros b' Hb' (_ & _ & Hns). destruct D as [[_ D]|(_ & b2 & D & _ & D2 & _)]; [congruence|]. assert (b2 = b') by congruence. subst b2. auto.
  Qed.
  Lemma exploop_none_waits n : is_u32 n -> forall fuel ctrlc start s s' out ok, is_u32 start ->
    exploop cfg handle mark junk fuel ctrlc false start s = Some (s', out, ok) ->
    (none_waits (ms_dir s) n -> none_waits (ms_dir s') n /\ ~ In n (map fst out)) /\
    (forall mm, In (n, mm) out -> hr_ok (handle n mm) = true -> mark n = WOk -> none_waits (ms_dir s') n).
  Proof.
    intros Hu. induction fuel as [|f IH]; intros ctrlc start s s' out ok Hst H; [discriminate|]. cbn [exploop] in H.
    destruct (start <=? ca_high (msg_getarea s)); [|injection H as <- <- <-; split; [auto|intros mm []]].
    destruct (ctrlc start); [injection H as <- <- <-; split; [auto|intros mm []]|].
    destruct (msg_ExportMSGNum cfg handle mark junk start false s) as [s1 h|s1 h|] eqn:E1; [| |discriminate].
    - destruct (export1_none_waits start s s1 h n) as [A B]; auto.
      destruct (exploop cfg handle mark junk f ctrlc false (u32 (start + 1)) s1) as [[[s2 out2] ok2]|] eqn:E2; [|discriminate].
      cbn [obind] in H. injection H as <- Hout ->. destruct (IH _ _ _ _ _ _ (u32_range _) E2) as [C D].
      split.
      + intros Hn. destruct (A Hn) as [A1 A2]. destruct (C A1) as [C1 C2]. split; auto. subst out. destruct h as [mm|]; auto.
        cbn [map fst]. intros [Hq|Hq]; [|auto]. specialize (A2 Hq). discriminate.
      + intros mm Hin Hok Hmk. subst out. destruct h as [m1|]; [|eauto].
        destruct Hin as [Hq|Hq]; [|eauto]. injection Hq as -> ->. destruct C as [C _]; auto. apply (B mm); auto.
    - destruct (export1_none_waits start s s1 h n) as [A B]; auto. injection H as <- <- <-. split.
      + intros Hn. destruct (A Hn) as [A1 A2]. split; auto. destruct h as [mm|]; auto. cbn [map fst]. intros [Hq|[]]. specialize (A2 Hq). discriminate.
      + intros mm Hin Hok Hmk. destruct h as [m1|]; [|destruct Hin]. destruct Hin as [Hq|[]]. injection Hq as -> ->. apply (B mm); auto.
  Qed.

  (** rescanning with a handler that does not import *)
  Hypothesis Hno : forall n mm, hr_imports (handle n mm) = [].
  Lemma rescan1_spec num s s' h c : msg_ExportMSGNum cfg handle mark junk num true s = EOk s' h -> ms_open s = Some c ->
    s' = s /\ match h with
              | None => forall b, msgfile (ms_dir s) num = Some b -> ~ complete_hdr b
              | Some mm => exists b, msgfile (ms_dir s) num = Some b /\ complete_hdr b /\ made cfg true b mm
              end.
  Proof.
    unfold msg_ExportMSGNum. intros H Ho. cbn zeta in H. cbn [ms_dir] in H.
    assert (Hs : MS (ms_dir s) (Some (msg_getarea s)) = s) by (unfold msg_getarea; rewrite Ho; destruct s; cbn in *; congruence). rewrite Hs in H.
    pose proof (readstored_spec (ms_dir s) num) as Hr. destruct (readstored (ms_dir s) num) as [[hdr text]|].
    2: { injection H as <- <-. auto. }
    destruct Hr as (b & Hb & Hcb & -> & ->). cbn [negb andb] in H.
    destruct (exptext _ cfg true (firstn 190 b) false false (exphdr cfg (firstn 190 b)) (skipn 190 b)) as [m zs| |] eqn:Ex; try discriminate.
    rewrite Hno in H. cbn [imports] in H. destruct (hr_ok _); [|discriminate]. injection H as <- <-. split; auto.
    exists b. split; auto. split; auto. exists m, zs. auto.
  Qed.
  Lemma rescan_loop : forall fuel ctrlc start s s' out c,
    exploop cfg handle mark junk fuel ctrlc true start s = Some (s', out, true) -> ms_open s = Some c -> covers (ms_dir s) (ca_high c) ->
    0 <= start <= 4294967295 -> 0 <= ca_high c < 4294967295 ->
    s' = s /\ StronglySorted Z.lt (map fst out) /\ Forall (fun n => start <= n /\ is_u32 n) (map fst out) /\
    (forall n, is_u32 n -> start <= n -> (In n (map fst out) <-> exists b, msgfile (ms_dir s) n = Some b /\ complete_hdr b)) /\
    (forall n mm, In (n, mm) out -> exists b, msgfile (ms_dir s) n = Some b /\ made cfg true b mm).
  Proof.
    induction fuel as [|f IH]; intros ctrlc start s s' out c H Ho Hc Hst Hh; [discriminate|]. cbn [exploop] in H.
    assert (Hg : msg_getarea s = c) by (unfold msg_getarea; rewrite Ho; auto). rewrite Hg in H.
    destruct (Z.leb_spec start (ca_high c)) as [Hle|Hgt].
    2: { injection H as <- <- _. cbn [map]. repeat split; try constructor; auto.
         - intros [].
         - intros (b & Hb & _). assert (Hex : osExists (ms_dir s) (msgname n) = true) by (unfold osExists; unfold msgfile in Hb; unfold msgname; rewrite Hb; auto).
           apply Hc in Hex; auto. unfold is_u32 in *. lia.
         - intros n mm []. }
    destruct (ctrlc start); [discriminate|].
    destruct (msg_ExportMSGNum cfg handle mark junk start true s) as [s1 h|s1 h|] eqn:E1; [|discriminate|discriminate].
    destruct (exploop cfg handle mark junk f ctrlc true (u32 (start + 1)) s1) as [[[s2 out2] ok2]|] eqn:E2; [|discriminate].
    cbn [obind] in H. injection H as <- Hout ->. destruct (rescan1_spec _ _ _ _ _ E1 Ho) as [-> Hx].
    rewrite u32_id in E2 by (unfold is_u32; lia).
    destruct (IH _ _ _ _ _ _ E2 Ho Hc ltac:(lia) Hh) as (A & B & C & D & E). split; auto.
    assert (Hin : forall n, In n (map fst out2) -> start + 1 <= n) by (rewrite Forall_forall in C; intros n Hn; apply C; auto).
    assert (HC : Forall (fun n => start <= n /\ is_u32 n) (map fst out2)) by (eapply Forall_impl; [|exact C]; cbn; intros n [P Q]; split; [lia|auto]).
    destruct h as [mm|]; subst out; cbn [map fst].
    - destruct Hx as (b & X1 & X2 & X3). split; [|split; [|split]].
      + constructor; auto. apply Forall_forall. intros n Hn. apply Hin in Hn. lia.
      + constructor; auto. unfold is_u32. lia.
      + intros n Hn Hs. destruct (Z.eq_dec n start) as [->|Hd].
        * split; [intros _; exists b; auto|left; auto].
        * rewrite <- D by (auto; lia). split; [intros [Hq|Hq]; [congruence|auto]|right; auto].
      + intros n m [Hq|Hq]; [injection Hq as <- <-; exists b; auto|auto].
    - split; auto. split; auto. split; auto.
      intros n Hn Hs. destruct (Z.eq_dec n start) as [->|Hd]; [|apply D; [auto|lia]].
      split; [intros Hq; apply Hin in Hq; lia|]. intros (b & Hb & Hcb). exfalso. apply (Hx b Hb Hcb).
  Qed.
End Nowait.

(** ** A search for a free number ends *)
Lemma nextfree_fails : forall fuel dir h, is_u32 h -> nextfree fuel dir h = None ->
  forall i, (i < fuel)%nat -> osExists dir (msgname (u32 (h + 1 + Z.of_nat i))) = true.
Proof.
  induction fuel as [|f IH]; intros dir h Hh H i Hi; [lia|]. cbn [nextfree] in H. cbn zeta in H.
  destruct (osExists dir (msgname (u32 (h + 1)))) eqn:E; [|discriminate].
  destruct i as [|i]; [rewrite Z.add_0_r; auto|].
  specialize (IH dir (u32 (h + 1)) (u32_range _) H i ltac:(lia)). replace (u32 (h + 1 + Z.of_nat (S i))) with (u32 (u32 (h + 1) + 1 + Z.of_nat i)); auto.
  unfold u32. rewrite <- Z.add_assoc, Zplus_mod_idemp_l. f_equal. lia.
Qed.
Lemma nextfree_total dir h : is_u32 h -> Z.of_nat (length dir) < 4294967296 -> nextfree (S (length dir)) dir h <> None.
Proof.
  intros Hh Hl H. pose proof (nextfree_fails _ _ _ Hh H) as Hall.
  set (names := map (fun i => msgname (u32 (h + 1 + Z.of_nat i))) (seq 0 (S (length dir)))).
  assert (Hnd : NoDup names).
  { unfold names.
    assert (Hgen : forall l, NoDup l -> (forall i, In i l -> (i < S (length dir))%nat) -> NoDup (map (fun i => msgname (u32 (h + 1 + Z.of_nat i))) l)).
    { induction 1 as [|i l Hn Hd IH]; intros Hb; [constructor|]. cbn [map]. constructor; [|apply IH; intros; apply Hb; right; auto].
      intros Hx. apply in_map_iff in Hx as (j & Ej & Hj). apply msgname_inj in Ej; [|apply u32_range|apply u32_range].
      assert (i = j); [|subst; auto]. pose proof (Hb i (or_introl eq_refl)). pose proof (Hb j (or_intror Hj)).
      unfold u32 in Ej. set (a := h + 1) in *. clearbody a.
      assert ((Z.of_nat i - Z.of_nat j) mod 4294967296 = 0).
      { replace (Z.of_nat i - Z.of_nat j) with ((a + Z.of_nat i) - (a + Z.of_nat j)) by lia. rewrite Zminus_mod, Ej, Z.sub_diag. reflexivity. }
      apply Z.mod_divide in H2 as [q Hq]; lia. }
    apply Hgen; [apply seq_NoDup|]. intros i Hi. apply in_seq in Hi. lia. }
  assert (Hin : incl names (map fst dir)).
  { intros x Hx. unfold names in Hx. apply in_map_iff in Hx as (i & <- & Hi). apply in_seq in Hi. apply osExists_In. apply Hall. lia. }
  pose proof (NoDup_incl_length Hnd Hin) as Hlen. unfold names in Hlen. rewrite !map_length, seq_length in Hlen. lia.
Qed.

(** ** The largest number *)
Lemma scan_high names : Forall (fun f => ismsg f = true -> atol f < 4294967295) names -> forall low high,
  0 <= high ->
  let h := snd (fold_left msg_scandirfunc names (low, high)) in
  h = high \/ exists f, In f names /\ ismsg f = true /\ atol f = h.
Proof.
  induction names as [|f r IH]; intros Hs low high Hh; cbn [fold_left]; [left; auto|]. inversion Hs as [|? ? Hf Hr]; subst.
  assert (E : exists low' high', msg_scandirfunc (low, high) f = (low', high') /\ 0 <= high' /\ (high' = high \/ (ismsg f = true /\ atol f = high'))).
  { unfold msg_scandirfunc. destruct (ismsg f) eqn:Ef; [|eauto 8]. eexists _, _. split; [reflexivity|]. cbv zeta.
    destruct (Z.gtb_spec (atol f) high); auto. specialize (Hf eq_refl). rewrite u32_id by (unfold is_u32; lia). split; [lia|auto]. }
  destruct E as (low' & high' & -> & H0 & E).
  destruct (IH Hr low' high' H0) as [H|(g & G1 & G2)].
  - cbv zeta in H |- *. rewrite H. destruct E as [->|[E1 E2]]; [left; auto|]. right. exists f. split; [left; auto|auto].
  - right. exists g. split; [right; auto|auto].
Qed.
Lemma high_attained dir : sane dir -> ca_high (msg_GetHighLowMsg dir) = 1 \/ exists name, In name (map fst dir) /\ msgnum name (ca_high (msg_GetHighLowMsg dir)).
Proof.
  intros Hs. unfold msg_GetHighLowMsg.
  pose proof (scan_high (map fst dir)) as H. assert (Hf : Forall (fun f => ismsg f = true -> atol f < 4294967295) (map fst dir)).
  { apply Forall_forall. intros f Hf Hm. apply (Hs f (atol f) Hf). split; auto. apply ismsg_spec; auto. }
  specialize (H Hf 0 0 ltac:(lia)). cbv zeta in H. destruct (fold_left msg_scandirfunc (map fst dir) (0, 0)) as [low high]. cbn [snd] in H.
  cbn [ca_high]. destruct H as [->|(f & F1 & F2 & F3)]; [left; auto|]. destruct (Z.eqb_spec high 0); [left; auto|].
  right. exists f. split; auto. split; auto. apply ismsg_spec; auto.
Qed.
Lemma high_largest dir : sane dir -> largest dir (ca_high (msg_GetHighLowMsg dir)).
Proof.
  intros Hs name n Hin [Hn <-]. unfold msg_GetHighLowMsg.
  pose proof (okscan_all (map fst dir) [] (0, 0)) as H. cbn [app] in H.
  destruct (fold_left msg_scandirfunc (map fst dir) (0, 0)) as [low high].
  destruct H as (H1 & H2 & H3).
  - split; [lia|]. split; [lia|]. intros f [].
  - apply Forall_forall. intros f Hf Hm. apply (Hs f (atol f) Hf). split; auto. apply ismsg_spec; auto.
  - apply ismsg_spec in Hn. specialize (H3 _ Hin Hn). cbn [ca_high]. destruct (Z.eqb_spec high 0); lia.
Qed.
Lemma low_le names : forall st st', Forall (fun f => ismsg f = true -> atol f < 4294967295) names -> 0 <= snd st -> fst st <= snd st ->
  fold_left msg_scandirfunc names st = st' -> fst st' <= snd st'.
Proof.
  induction names as [|f r IH]; intros [low high] st' Hs H0 Hl; cbn [fold_left fst snd] in *; [intros <-; auto|]. inversion Hs as [|? ? Hf Hr]; subst.
  assert (Hstep : 0 <= snd (msg_scandirfunc (low, high) f) /\ fst (msg_scandirfunc (low, high) f) <= snd (msg_scandirfunc (low, high) f)).
  { unfold msg_scandirfunc. destruct (ismsg f) eqn:Ef; [|cbn [fst snd]; auto]. specialize (Hf eq_refl). cbn zeta. cbn [fst snd].
    destruct (Z.gtb_spec (atol f) high).
    - rewrite (u32_id (atol f)) by (unfold is_u32; lia). destruct (_ && _); lia.
    - split; auto. destruct (((atol f <? low) || (low =? 0) || (low =? 1)) && (atol f >=? 2)) eqn:E; auto.
      apply andb_true_iff in E as [_ E]. rewrite u32_id by (unfold is_u32; lia). lia. }
  apply IH; tauto.
Qed.
Lemma low_high dir : sane dir -> ca_low (msg_GetHighLowMsg dir) <= ca_high (msg_GetHighLowMsg dir) + 1.
Proof.
  intros Hs. unfold msg_GetHighLowMsg.
  assert (Hf : Forall (fun f => ismsg f = true -> atol f < 4294967295) (map fst dir)).
  { apply Forall_forall. intros f Hf Hm. apply (Hs f (atol f) Hf). split; auto. apply ismsg_spec; auto. }
  destruct (fold_left msg_scandirfunc (map fst dir) (0, 0)) as [low high] eqn:E. pose proof (low_le (map fst dir) (0, 0) _ Hf ltac:(cbn; lia) ltac:(cbn; lia) E) as H. cbn [fst snd] in H.
  cbn [ca_low ca_high]. destruct (Z.eqb_spec low 0), (Z.eqb_spec low 1), (Z.eqb_spec high 0); cbn [orb]; lia.
Qed.
