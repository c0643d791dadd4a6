(** CrashMaint: lemmas. *)
From Verif Require Import Base M_Node4D M_Mem M_Str S_Str P_Str M_Cfg M_Fs M_Args M_Main M_Upd S_Upd P_UpdTok P_UpdArea P_UpdCls P_UpdSim P_Export M_Maint S_Maint.

Definition holdsb (a : farea) : bool := match fa_mb a with Some _ => negb (template (fa_tag a)) | None => false end.
Lemma holdsb_spec a : holdsb a = true <-> holds a.
Proof. unfold holdsb, holds. destruct (fa_mb a); [rewrite negb_true_iff|]; split; intros H; try split; try tauto; try discriminate; try easy; tauto. Qed.

(** an area of CrashMaint and the one CrashMail has *)
Record same (a : farea) (m : marea) : Prop := {
  s_tag : ma_tag m = fa_tag a; s_path : ma_path m = fa_path a; s_num : ma_keepnum m = fa_keepnum a; s_days : ma_keepdays m = fa_keepdays a;
  s_mb : (fa_mb a = Some 0%nat /\ kw (ma_mb m) "MSG" = true) \/ (fa_mb a = Some 1%nat /\ kw (ma_mb m) "JAM" = true) }.
Definition agree (c : fconf) (l : list marea) : Prop := Forall2 same (filter holdsb (cf_areas c)) l.

Lemma F2_snoc {A B} (R : A -> B -> Prop) l x m : Forall2 R (l ++ [x]) m -> exists m' y, m = m' ++ [y] /\ Forall2 R l m' /\ R x y.
Proof. intros H. apply Forall2_app_inv_l in H as (m' & n & H1 & H2 & ->). inversion H2 as [|? y ? ? Hy Hn]; subst. inversion Hn; subst. exists m', y. auto. Qed.
Lemma onlast_snoc {A} (g : A -> option A) l x y : g x = Some y -> onlast g (l ++ [x]) = Some (l ++ [y]).
Proof. intros H. induction l as [|z l IH]; cbn; [rewrite H; reflexivity|]. rewrite IH. destruct (l ++ [x]) eqn:E; [destruct l; discriminate|]. reflexivity. Qed.
Lemma filter_snoc {A} (f : A -> bool) l x : filter f (l ++ [x]) = filter f l ++ (if f x then [x] else []).
Proof. rewrite filter_app. cbn. destruct (f x); reflexivity. Qed.

(** other settings of the last area *)
Definition mlike (g : farea -> option farea) : Prop := forall a y, g a = Some y -> fa_tag y = fa_tag a /\ fa_path y = fa_path a /\ fa_mb y = fa_mb a /\ fa_keepnum y = fa_keepnum a /\ fa_keepdays y = fa_keepdays a.
Lemma agree_like c g al l : onlast g (cf_areas c) = Some al -> mlike g -> agree c l -> agree (setareas c al) l.
Proof.
  intros H Hg Ha. apply onlast_inv in H as (l0 & a & y & Ea & Hy & ->). unfold agree in *. cbn [setareas cf_areas]. rewrite Ea in Ha. rewrite filter_snoc in Ha |- *. apply Hg in Hy as (E1 & E2 & E3 & E4 & E5).
  assert (Eh : holdsb y = holdsb a) by (unfold holdsb; rewrite E1, E3; reflexivity). rewrite Eh. destruct (holdsb a); [|exact Ha].
  apply F2_snoc in Ha as (m' & x & -> & F & [S1 S2 S3 S4 S5]). apply Forall2_app; [exact F|]. constructor; [|constructor]. constructor; rewrite ?E1, ?E2, ?E3, ?E4, ?E5; assumption.
Qed.
Definition mkeys : list String.string := ["KEEPDAYS"; "KEEPNUM"; "AREA"; "NETMAIL"; "LOCALAREA"]%string.
Lemma tok20 l w ok src : cstring l -> tok 30 l = (w, ok, src) -> exists w', tok 20 l = (w', ok, src) /\ forall k, (length (lit k) < 19)%nat -> kw w' k = kw w k.
Proof.
  intros Hl H. destruct (tok_both 30 20 _ _ _ _ Hl (two_le _) (two_le _) H) as (t & -> & H'). eexists. split; [exact H'|]. intros k Hk. rewrite !kw_cut by lia. reflexivity.
Qed.
Lemma mline_other l m w ok src : cstring l -> tok 30 l = (w, ok, src) -> forallb (fun k => negb (kw w k)) mkeys = true -> mline m l = m.
Proof.
  intros Hl Et Hk. destruct (tok20 _ _ _ _ Hl Et) as (w' & Et' & Hw). unfold mline. rewrite Et'. unfold mkeys in Hk. cbn [forallb] in Hk. rewrite !andb_true_iff, !negb_true_iff in Hk. destruct Hk as (K1 & K2 & K3 & K4 & K5 & _).
  rewrite !Hw by (cbn; lia). rewrite K1, K2, K3, K4, K5. reflexivity.
Qed.

Lemma marea_step c w src c' m l w' ok : cstring src -> tok 20 l = (w', ok, src) -> kw w' "KEEPDAYS" = false -> kw w' "KEEPNUM" = false -> kw w' "AREA" || kw w' "NETMAIL" || kw w' "LOCALAREA" = true ->
  rdArea w c src = Some c' -> agree c m -> agree c' (mline m l).
Proof.
  intros Hs Et K1 K2 K3 H Ha. unfold mline. rewrite Et, K1, K2, K3. unfold rdArea in H.
  destruct (tok 80 src) as [[tag o1] s1] eqn:T1. destruct o1; [|discriminate].
  assert (Hs1 : cstring s1) by (pose proof (tok_rest_cstring 80 src Hs ltac:(lia)) as X; rewrite T1 in X; exact X).
  destruct (tok 200 s1) as [[b o2] s2] eqn:T2. destruct o2; [|discriminate]. destruct (tok_both 200 80 _ _ _ _ Hs1 ltac:(lia) ltac:(lia) T2) as (t2 & _ & T2'). rewrite T2'.
  assert (Hs2 : cstring s2) by (pose proof (tok_rest_cstring 200 s1 Hs1 ltac:(lia)) as X; rewrite T2 in X; exact X).
  apply obind_some in H as (n & En & H). apply obind_some in H as (ai & Ea & H).
  destruct (tok 200 s2) as [[mb o3] s3] eqn:T3. destruct (tok_both 200 20 _ _ _ _ Hs2 ltac:(lia) ltac:(lia) T3) as (t3 & Et3 & T3'). rewrite T3'.
  apply obind_some in H as (mp & Em & H). apply obind_some in H as (ty & Ety & H). injection H as <-.
  unfold agree. cbn [setareas cf_areas]. rewrite filter_snoc. unfold holdsb at 2. cbn [fa_mb fa_tag]. unfold template. fold (kw tag "DEFAULT").
  replace (negb (kw tag "DEFAULT" || strneqi 8 tag (lit "DEFAULT_"))) with (negb (kw tag "DEFAULT") && negb (strneqi 8 tag (lit "DEFAULT_"))) by (destruct (kw tag "DEFAULT"); reflexivity).
  destruct o3.
  - apply obind_some in Em as (mi & Emi & Em). destruct (tok 80 s3) as [[p o4] s4] eqn:T4. destruct o4; [|discriminate]. injection Em as <-. cbn [fst snd].
    destruct (negb (kw tag "DEFAULT") && negb (strneqi 8 tag (lit "DEFAULT_"))); [|rewrite app_nil_r; exact Ha]. apply Forall2_app; [exact Ha|]. constructor; [|constructor].
    constructor; try reflexivity. cbn [fa_mb ma_mb]. subst mb. apply mbfind in Emi. rewrite !kw_cut in * by (cbn; lia). destruct Emi as [[-> E]|[-> E]]; auto.
  - injection Em as <-. cbn [fst]. rewrite app_nil_r. destruct (negb (kw tag "DEFAULT") && negb (strneqi 8 tag (lit "DEFAULT_"))); exact Ha.
Qed.

Section Step.
  Variable okother : list (list Z) -> list node4d -> list (list Z) -> list node4d -> list Z -> bool.
  Notation rdline := (rdline okother).
  Lemma short_same n (t : list Z) : (length (firstn 199 t) <= 29)%nat -> (29 <= n)%nat -> firstn n t = t.
  Proof using Type. intros H Hn. rewrite firstn_length in H. apply firstn_all2. lia. Qed.
  Ltac like := let x := fresh in let y := fresh in intros x y; 
    unfold areaflag, rdImport, rdBanned, rdExport, rdGroup, rdDescription;
    repeat match goal with
    | |- match ?t with _ => _ end = Some _ -> _ => destruct t
    | |- obind ?o _ = Some _ -> _ => destruct o; cbn [obind]
    | |- None = Some _ -> _ => discriminate
    | |- Some _ = Some _ -> _ => let H := fresh in intros H; injection H as <-; repeat split
    end.
  Lemma mstep c l c' m : cstring l -> (keepline l -> (length (argument l) <= 29)%nat) -> (keepline l -> exists areas a, cf_areas c = areas ++ [a] /\ holds a) ->
    rdline c l = ROk c' -> agree c m -> agree c' (mline m l).
  Proof using Type.
    intros Hl Hshort Hplaced H Ha. destruct (tok 30 l) as [[w ok] src] eqn:Et. assert (Ew : keyword l = w) by (unfold keyword; rewrite Et; reflexivity).
    unfold keepline in *. rewrite Ew in Hshort, Hplaced. fold (kw w "KEEPNUM") (kw w "KEEPDAYS") in Hshort, Hplaced.
    assert (Hsrc : cstring src) by (pose proof (tok_rest_cstring 30 l Hl (two_le _)) as X; rewrite Et in X; exact X).
    assert (Earg : argument l = fst (fst (tok 200 src))) by (unfold argument; rewrite Et; reflexivity). rewrite Earg in Hshort.
    destruct (tok20 _ _ _ _ Hl Et) as (w' & Et' & Hw).
    pose proof H as H0. unfold M_Upd.rdline in H. rewrite Et in H. cbv zeta in H.
    assert (NS : forall k, kw w k = true -> forallb (fun k' => negb (kw (lit k) k')) mkeys = true -> cf_areas c' = cf_areas c -> agree c' (mline m l)).
    { intros k Hk Hx E. rewrite (mline_other _ _ _ _ _ Hl Et); [|eapply kw_all_false; eauto]. unfold agree. rewrite E. exact Ha. }
    assert (NA : forall k g, kw w k = true -> forallb (fun k' => negb (kw (lit k) k')) mkeys = true -> mlike g -> rof (lastarea g c) = ROk c' -> agree c' (mline m l)).
    { intros k g Hk Hx Hg Hc. rewrite (mline_other _ _ _ _ _ Hl Et); [|eapply kw_all_false; eauto]. apply rof_ok in Hc. apply lastarea_inv in Hc as (al & E & ->). eapply agree_like; eauto. }
    destruct (kw w "AKA") eqn:K1.
    { apply (NS _ K1 eq_refl). apply rof_ok in H. unfold rdAka in H. destruct (tok 200 src) as [[b o] r]. destruct o; [|discriminate]. apply obind_some in H as (n & En & H). injection H as <-. reflexivity. }
    destruct (kw w "NODE") eqn:K2.
    { apply (NS _ K2 eq_refl). apply rof_ok in H. unfold rdNode in H. destruct (tok 200 src) as [[b o] r] eqn:E. destruct o; [|discriminate]. apply obind_some in H as (n & En & H).
      destruct (tok 10 r) as [[p o1] r1] eqn:E1. destruct o1; [|discriminate]. apply obind_some in H as (pk & Epk & H).
      destruct (tok 9 r1) as [[pw o2] r2] eqn:E2. destruct o2; [|discriminate]. apply obind_some in H as (x & Ex & H). injection H as <-. reflexivity. }
    destruct (kw w "PKTFROM") eqn:K3; [apply (NS _ K3 eq_refl); eapply nodes_keep; eauto|].
    destruct (kw w "AREAFIXINFO") eqn:K4.
    { apply (NS _ K4 eq_refl). unfold rdAreafixInfo in H. destruct (cf_nodes c) as [|n0 nr] eqn:En; [discriminate|].
      destruct (tok 40 src) as [[pw o] r] eqn:E. destruct o; [|discriminate]. destruct (tokgroups r) as [[[g1|] r1]|] eqn:E1; try discriminate.
      destruct (tokgroups r1) as [[[g2|] r2]|] eqn:E2; try discriminate. destruct (tokgroups r2) as [[[g3|] r3]|] eqn:E3; try discriminate. eapply nodes_keep; eauto. }
    destruct (kw w "DEFAULTGROUP") eqn:K5; [apply (NS _ K5 eq_refl); eapply nodes_keep; eauto|].
    destruct (kw w "AREA" || kw w "NETMAIL" || kw w "LOCALAREA") eqn:K6.
    { apply rof_ok in H. assert (KK : kw w "KEEPDAYS" = false /\ kw w "KEEPNUM" = false).
      { apply orb_true_iff in K6 as [K|K]; [apply orb_true_iff in K as [K|K]|]; rewrite !(kw_kw _ _ _ K); split; reflexivity. }
      destruct KK as [KK1 KK2]. 
      assert (KK1' : kw w' "KEEPDAYS" = false) by (rewrite Hw by (apply Nat.ltb_lt; reflexivity); exact KK1).
      assert (KK2' : kw w' "KEEPNUM" = false) by (rewrite Hw by (apply Nat.ltb_lt; reflexivity); exact KK2).
      assert (K6' : kw w' "AREA" || kw w' "NETMAIL" || kw w' "LOCALAREA" = true) by (rewrite !Hw by (apply Nat.ltb_lt; reflexivity); exact K6).
      refine (marea_step c w src c' m l w' ok Hsrc Et' KK1' KK2' K6' H Ha). }
    assert (KA : kw w "AREA" = false /\ kw w "NETMAIL" = false /\ kw w "LOCALAREA" = false) by (rewrite !orb_false_iff in K6; tauto). destruct KA as (KA1 & KA2 & KA3).
    destruct (kw w "UNCONFIRMED") eqn:K7; [eapply (NA _ _ K7 eq_refl); [|exact H]; like|].
    destruct (kw w "MANDATORY") eqn:K8; [eapply (NA _ _ K8 eq_refl); [|exact H]; like|].
    destruct (kw w "DEFREADONLY") eqn:K9; [eapply (NA _ _ K9 eq_refl); [|exact H]; like|].
    destruct (kw w "IGNOREDUPES") eqn:K10; [eapply (NA _ _ K10 eq_refl); [|exact H]; like|].
    destruct (kw w "IGNORESEENBY") eqn:K11; [eapply (NA _ _ K11 eq_refl); [|exact H]; like|].
    destruct (kw w "EXPORT") eqn:K12; [eapply (NA _ _ K12 eq_refl); [|exact H]; like|].
    destruct (kw w "IMPORT") eqn:K13; [eapply (NA _ _ K13 eq_refl); [|exact H]; like|].
    destruct (kw w "BANNED") eqn:K14; [eapply (NA _ _ K14 eq_refl); [|exact H]; like|].
    destruct (kw w "DESCRIPTION") eqn:K15; [eapply (NA _ _ K15 eq_refl); [|exact H]; like|].
    destruct (kw w "GROUP") eqn:K16; [eapply (NA _ _ K16 eq_refl); [|exact H]; like|].
    destruct (kw w "KEEPNUM") eqn:K17.
    { apply rof_ok in H. apply lastarea_inv in H as (al & E & ->). destruct (Hplaced (or_introl eq_refl)) as (as0 & a & Ea & Hh). specialize (Hshort (or_introl eq_refl)).
      destruct (tok 200 src) as [[b o] r] eqn:T. destruct (tok_both 200 30 _ _ _ _ Hsrc (two_le _) (two_le _) T) as (t & Eb & T30). destruct (tok_both 200 80 _ _ _ _ Hsrc (two_le _) (two_le _) T) as (t' & Eb' & T80).
      cbn [fst] in Hshort. assert (Et1 : firstn 29 t = b) by (rewrite Eb in Hshort |- *; change (200 - 1)%nat with 199%nat in *; rewrite !(short_same _ t Hshort) by (apply Nat.leb_le; reflexivity); reflexivity).
      assert (Et2 : firstn 79 t' = b) by (rewrite Eb' in Hshort |- *; change (200 - 1)%nat with 199%nat in *; rewrite !(short_same _ t' Hshort) by (apply Nat.leb_le; reflexivity); reflexivity).
      change (80 - 1)%nat with 79%nat in T80. change (30 - 1)%nat with 29%nat in T30. rewrite Et1 in T30. rewrite Et2 in T80. clear Eb Eb' Et1 Et2.
      unfold mline. rewrite Et', !Hw by (apply Nat.ltb_lt; reflexivity). rewrite (kw_kw _ _ "KEEPDAYS" K17), K17. change (kw (lit "KEEPNUM") "KEEPDAYS") with false. cbv iota. rewrite T80.
      apply onlast_inv in E as (l0 & a' & y & Ea' & Hy & ->). rewrite Ea in Ea'. apply app_inj_tail in Ea' as [<- <-]. unfold rdKeepNum in Hy. rewrite T30 in Hy. destruct o; [|discriminate]. injection Hy as <-.
      unfold agree in *. cbn [setareas cf_areas]. rewrite Ea, filter_snoc in Ha. rewrite filter_snoc. apply holdsb_spec in Hh. rewrite Hh in Ha. unfold holdsb at 2. cbn [fa_mb fa_tag]. unfold holdsb in Hh. rewrite Hh.
      apply F2_snoc in Ha as (m' & x & -> & F & [S1 S2 S3 S4 S5]). unfold mkeepnum. erewrite onlast_snoc by reflexivity. apply Forall2_app; [exact F|]. constructor; [|constructor].
      constructor; try assumption. cbn [ma_keepnum fa_keepnum]. reflexivity. }
    destruct (kw w "KEEPDAYS") eqn:K18.
    { apply rof_ok in H. apply lastarea_inv in H as (al & E & ->). destruct (Hplaced (or_intror eq_refl)) as (as0 & a & Ea & Hh). specialize (Hshort (or_intror eq_refl)).
      destruct (tok 200 src) as [[b o] r] eqn:T. destruct (tok_both 200 30 _ _ _ _ Hsrc (two_le _) (two_le _) T) as (t & Eb & T30). destruct (tok_both 200 80 _ _ _ _ Hsrc (two_le _) (two_le _) T) as (t' & Eb' & T80).
      cbn [fst] in Hshort. assert (Et1 : firstn 29 t = b) by (rewrite Eb in Hshort |- *; change (200 - 1)%nat with 199%nat in *; rewrite !(short_same _ t Hshort) by (apply Nat.leb_le; reflexivity); reflexivity).
      assert (Et2 : firstn 79 t' = b) by (rewrite Eb' in Hshort |- *; change (200 - 1)%nat with 199%nat in *; rewrite !(short_same _ t' Hshort) by (apply Nat.leb_le; reflexivity); reflexivity).
      change (80 - 1)%nat with 79%nat in T80. change (30 - 1)%nat with 29%nat in T30. rewrite Et1 in T30. rewrite Et2 in T80. clear Eb Eb' Et1 Et2.
      unfold mline. rewrite Et', !Hw by (apply Nat.ltb_lt; reflexivity). rewrite K18. cbv iota. rewrite T80.
      apply onlast_inv in E as (l0 & a' & y & Ea' & Hy & ->). rewrite Ea in Ea'. apply app_inj_tail in Ea' as [<- <-]. unfold rdKeepDays in Hy. rewrite T30 in Hy. destruct o; [|discriminate]. injection Hy as <-.
      unfold agree in *. cbn [setareas cf_areas]. rewrite Ea, filter_snoc in Ha. rewrite filter_snoc. apply holdsb_spec in Hh. rewrite Hh in Ha. unfold holdsb at 2. cbn [fa_mb fa_tag]. unfold holdsb in Hh. rewrite Hh.
      apply F2_snoc in Ha as (m' & x & -> & F & [S1 S2 S3 S4 S5]). unfold mkeepdays. erewrite onlast_snoc by reflexivity. apply Forall2_app; [exact F|]. constructor; [|constructor].
      constructor; try assumption. cbn [ma_keepdays fa_keepdays]. reflexivity. }
    destruct (kw w "PACKER") eqn:K19.
    { apply (NS _ K19 eq_refl). apply rof_ok in H. revert H. unfold rdPacker.
      repeat match goal with
      | |- match ?t with _ => _ end = Some _ -> _ => destruct t
      | |- obind ?o _ = Some _ -> _ => destruct o; cbn [obind]
      | |- None = Some _ -> _ => discriminate
      | |- Some _ = Some _ -> _ => let H := fresh in intros H; injection H as <-; reflexivity
      end. }
    destruct (kw w "REMOTEAF") eqn:K20; [apply (NS _ K20 eq_refl); eapply nodes_keep; eauto|].
    destruct (kw w "REMOTESYSOP") eqn:K21; [apply (NS _ K21 eq_refl); eapply nodes_keep; eauto|].
    rewrite (mline_other _ _ _ _ _ Hl Et); [|unfold mkeys; cbn [forallb]; rewrite KA1, KA2, KA3, K17, K18; reflexivity].
    unfold agree. destruct ((hd 0 w =? 0) || (hd 0 w =? 59)); [injection H as <-; exact Ha|]. destruct (okother _ _ _ _ _); [injection H as <-; exact Ha|discriminate].
  Qed.
  Lemma rdlines_app a b : forall c, rdlines okother (a ++ b) c = match rdlines okother a c with ROk d => rdlines okother b d | e => e end.
  Proof using Type. induction a as [|l a IH]; intros c; [reflexivity|]. cbn [app rdlines]. destruct (rdline c l); auto. Qed.
  Lemma msteps s : Forall cstring (flines s) -> shortnumbers s -> placed okother s -> forall rest before c0 c m, flines s = before ++ rest -> rdlines okother before (FC [] [] [] [] []) = ROk c0 ->
    rdlines okother rest c0 = ROk c -> agree c0 m -> agree c (fold_left mline rest m).
  Proof using Type.
    intros Hb Hs Hp rest. induction rest as [|l r IH]; intros before c0 c m E H0 H Ha; cbn in H.
    - injection H as <-. exact Ha.
    - destruct (rdline c0 l) as [d| |] eqn:El; try discriminate. cbn [fold_left]. apply (IH (before ++ [l]) d c _); [rewrite <- app_assoc; exact E| |exact H|].
      + rewrite rdlines_app, H0. cbn. rewrite El. reflexivity.
      + assert (Hin : In l (flines s)) by (rewrite E; apply in_or_app; right; left; reflexivity). eapply mstep; eauto. eapply Forall_forall in Hb; eauto.
  Qed.
  Lemma mconfig_ok s c : Forall byte s -> shortnumbers s -> placed okother s -> ReadConfig okother s = ROk c -> agree c (mconfig s).
  Proof using Type.
    intros Hb Hs Hp H. unfold mconfig. eapply (msteps s (flines_cstring _ Hb) Hs Hp (flines s) [] (FC [] [] [] [] [])); eauto. constructor.
  Qed.
End Step.

Section Loop.
  Context {W : Type} (ctrlc : W -> bool) (process : bool -> list Z -> Z -> Z -> bool -> bool -> W -> bool * W).
  Lemma mprocess_same maint pack a m w : same a m -> mprocess W process maint pack m w = process (injam a) (fa_path a) (fa_keepnum a) (fa_keepdays a) maint pack w.
  Proof using Type.
    intros [S1 S2 S3 S4 [[E K]|[E K]]]; unfold mprocess, injam; rewrite E.
    - rewrite (kw_kw _ _ "JAM" K), K. change (kw (lit "MSG") "JAM") with false. cbv iota. congruence.
    - rewrite K. congruence.
  Qed.
  Lemma mloop_done pat maint pack areas m : Forall2 same areas m -> forall asked', those (fun a => match pat with None => True | Some p => fmatch p (fa_tag a) end) areas asked' ->
    forall w, eachdone ctrlc (fun a w => process (injam a) (fa_path a) (fa_keepnum a) (fa_keepdays a) maint pack w) asked' w (fst (mloop W ctrlc process pat maint pack m w)) (snd (mloop W ctrlc process pat maint pack m w)).
  Proof using Type.
    induction 1 as [|a x l m Hx F IH]; intros asked' Ht w.
    - inversion Ht; subst. constructor.
    - cbn [mloop]. assert (Em : forall p, M_Str.osMatchPattern p (ma_tag x) = true <-> fmatch p (fa_tag a)) by (intros p; rewrite (s_tag _ _ Hx); apply osMatchPattern_spec).
      destruct (ctrlc w) eqn:Ec; [constructor; exact Ec|]. inversion Ht as [|y l' n Hy Hn|y l' n Hy Hn]; subst.
      + replace (match pat with None => true | Some p => M_Str.osMatchPattern p (ma_tag x) end) with true by (destruct pat; [symmetry; apply Em; exact Hy|reflexivity]).
        rewrite (mprocess_same maint pack a x w Hx). destruct (process _ _ _ _ _ _ w) as [ok w'] eqn:Ep. destruct ok.
        * eapply ed_next; [exact Ec|exact Ep|apply IH; exact Hn].
        * apply ed_failed; assumption.
      + destruct pat as [p|]; [|tauto]. destruct (M_Str.osMatchPattern p (ma_tag x)) eqn:E; [apply Em in E; tauto|]. apply IH. exact Hn.
  Qed.
End Loop.
Lemma those_two pat areas asked' : those (asked pat) areas asked' -> those (fun a => match pat with None => True | Some p => fmatch p (fa_tag a) end) (filter holdsb areas) asked'.
Proof.
  induction 1 as [|x l m Hx H IH|x l m Hx H IH]; cbn [filter]; [constructor| |].
  - destruct Hx as [Hh Hp]. apply holdsb_spec in Hh. rewrite Hh. constructor; assumption.
  - destruct (holdsb x) eqn:E; [|exact IH]. apply those_out; [|exact IH]. intros Hp. apply Hx. split; [apply holdsb_spec; exact E|exact Hp].
Qed.
