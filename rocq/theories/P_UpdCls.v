(** What one line of a configuration file can do. *)
From Verif Require Import Base M_Node4D M_Str M_Mem M_Cfg M_Fs M_Out M_Upd S_Str S_Node4D S_Upd P_UpdTok P_UpdBlk P_UpdNode P_UpdArea.

Lemma streqi_same a b s : streqi a b = true -> streqi a s = streqi b s.
Proof. unfold streqi. intros H. apply streq_eq in H. rewrite H. reflexivity. Qed.
Definition inA (w : list Z) : bool := existsb (streqi w) areakeywords.
Definition inN (w : list Z) : bool := existsb (streqi w) nodekeywords.
Definition isH (w : list Z) : bool := kw w "AREA" || kw w "NETMAIL" || kw w "LOCALAREA".
Lemma kw_all w k : kw w k = true -> forall s, streqi w s = streqi (lit k) s.
Proof. intros H s. apply streqi_same. exact H. Qed.
Lemma inA_kw w k : kw w k = true -> inA w = inA (lit k).
Proof. intros H. unfold inA, areakeywords. cbn [existsb]. rewrite !(kw_all w k H). reflexivity. Qed.
Lemma inN_kw w k : kw w k = true -> inN w = inN (lit k).
Proof. intros H. unfold inN, nodekeywords. cbn [existsb]. rewrite !(kw_all w k H). reflexivity. Qed.
Lemma kw_kw w k k' : kw w k = true -> kw w k' = kw (lit k) k'.
Proof. intros H. unfold kw. apply (kw_all w k H). Qed.
Lemma isH_kw w k : kw w k = true -> isH w = isH (lit k).
Proof. intros H. unfold isH. rewrite !(kw_kw w k _ H). reflexivity. Qed.

Lemma orb_comm4 (a b c d : bool) : a || (b || (c || d)) = a || b || c || d.
Proof. rewrite !orb_assoc. reflexivity. Qed.
Lemma about_area l : aboutarea l = inA (keyword l) || kw (keyword l) "LOCALAREA".
Proof.
  unfold aboutarea, areaheading, inA, areakeywords. cbn [existsb map]. unfold kw.
  apply eq_true_iff_eq. rewrite !orb_true_iff. tauto.
Qed.
Lemma about_node l : aboutnode l = inN (keyword l).
Proof. unfold aboutnode, nodeheading, inN, nodekeywords. cbn [existsb map]. unfold kw. apply eq_true_iff_eq. rewrite !orb_true_iff. tauto. Qed.

Section Cls.
  Variable okother : list (list Z) -> list node4d -> list (list Z) -> list node4d -> list Z -> bool.
  Notation rdline := (rdline okother).

  Definition b2n (b : bool) : nat := if b then 1%nat else O.
  Inductive cls (c : fconf) (l w : list Z) (src : list Z) (c' : fconf) : Prop :=
  | CNeutral ra rp ro : isH w = false -> kw w "NODE" = false -> inA w = false -> inN w = false -> kw w "LOCALAREA" = false ->
      length ra = b2n (kw w "AKA") -> length rp = b2n (kw w "PACKER") ->
      c' = FC (cf_akas c ++ ra) (cf_packers c ++ rp) (cf_nodes c) (cf_areas c) (cf_other c ++ ro) ->
      (w = [] -> ra = [] /\ rp = [] /\ ro = []) ->
      (forall d, cf_akas d = cf_akas c -> cf_packers d = cf_packers c -> cf_other d = cf_other c -> map fn_node (cf_nodes d) = map fn_node (cf_nodes c) ->
         rdline d l = ROk (FC (cf_akas d ++ ra) (cf_packers d ++ rp) (cf_nodes d) (cf_areas d) (cf_other d ++ ro))) -> cls c l w src c'
  | CNode x : kw w "NODE" = true -> c' = setnodes c (cf_nodes c ++ [x]) -> fn_changed x = false ->
      snd (fst (tok 200 src)) = true -> Parse4D (fst (fst (tok 200 src))) = Some (fn_node x) ->
      (forall d, cf_packers d = cf_packers c -> rdline d l = ROk (setnodes d (cf_nodes d ++ [x]))) -> cls c l w src c'
  | CNsub g nl : isH w = false -> kw w "NODE" = false -> inA w = false -> inN w = true -> kw w "LOCALAREA" = false -> kw w "AKA" = false -> kw w "PACKER" = false ->
      onlast g (cf_nodes c) = Some nl -> c' = setnodes c nl -> (forall x y, g x = Some y -> fn_node y = fn_node x /\ fn_changed y = fn_changed x) ->
      (forall d, cf_nodes d <> [] -> rdline d l = rof (lastnode g d)) -> cls c l w src c'
  | CArea x : isH w = true -> c' = setareas c (cf_areas c ++ [x]) -> fa_changed x = false -> snd (fst (tok 80 src)) = true -> fa_tag x = fst (fst (tok 80 src)) ->
      (kw w "LOCALAREA" = true -> fa_type x = AREATYPE_LOCAL) ->
      (forall d, cf_akas d = cf_akas c -> rdline d l = ROk (setareas d (cf_areas d ++ [x]))) -> cls c l w src c'
  | CAsub g al : isH w = false -> kw w "NODE" = false -> inA w = true -> inN w = false -> kw w "LOCALAREA" = false -> kw w "AKA" = false -> kw w "PACKER" = false ->
      onlast g (cf_areas c) = Some al -> c' = setareas c al -> (forall x y, g x = Some y -> fa_tag y = fa_tag x /\ fa_type y = fa_type x /\ fa_changed y = fa_changed x) ->
      (forall d, map fn_node (cf_nodes d) = map fn_node (cf_nodes c) -> rdline d l = rof (lastarea g d)) -> cls c l w src c'.

  Lemma rof_ok o c : rof o = ROk c -> o = Some c.
  Proof. destruct o; cbn; congruence. Qed.
  Lemma obind_some {A B} (o : option A) (f : A -> option B) y : obind o f = Some y -> exists x, o = Some x /\ f x = Some y.
  Proof. destruct o; cbn; [eauto|discriminate]. Qed.
  Lemma lastnode_inv g c c' : lastnode g c = Some c' -> exists l, onlast g (cf_nodes c) = Some l /\ c' = setnodes c l.
  Proof. unfold lastnode. intros H. apply obind_some in H as (l & -> & E). injection E as <-. eauto. Qed.
  Lemma lastarea_inv g c c' : lastarea g c = Some c' -> exists l, onlast g (cf_areas c) = Some l /\ c' = setareas c l.
  Proof. unfold lastarea. intros H. apply obind_some in H as (l & -> & E). injection E as <-. eauto. Qed.

  Ltac keep := let x := fresh in let y := fresh in intros x y; 
    unfold rdPktFrom, rdDefaultGroup, rdRemoteAF, rdRemoteSysop, areaflag, rdExport, rdImport, rdBanned, rdDescription, rdGroup, rdKeepNum, rdKeepDays;
    repeat match goal with
    | |- match ?t with _ => _ end = Some _ -> _ => destruct t
    | |- obind ?o _ = Some _ -> _ => destruct o; cbn [obind]
    | |- None = Some _ -> _ => discriminate
    | |- Some _ = Some _ -> _ => let H := fresh in intros H; injection H as <-; auto
    end.
  Lemma rdline_cls c l w ok src c' : tok 30 l = (w, ok, src) -> rdline c l = ROk c' -> cls c l w src c'.
  Proof.
    intros Et. unfold M_Upd.rdline. rewrite Et. cbv zeta.
    assert (G : forall d, rdline d l = rdline d l) by reflexivity. unfold M_Upd.rdline at 2 in G. rewrite Et in G. cbv zeta in G.
    destruct (kw w "AKA") eqn:K1.
    { intros H. apply rof_ok in H. unfold rdAka in H. destruct (tok 200 src) as [[b o] r] eqn:E. destruct o; [|discriminate]. apply obind_some in H as (n & En & H). injection H as <-.
      apply (CNeutral _ _ _ _ _ [n] [] []); rewrite ?(isH_kw _ _ K1), ?(inA_kw _ _ K1), ?(inN_kw _ _ K1), ?(kw_kw _ _ _ K1); try reflexivity; rewrite ?app_nil_r; try reflexivity.
      - intros ->. discriminate.
      - intros d _ _ _ _. rewrite G. unfold rdAka. rewrite E, En. cbn [obind rof]. rewrite !app_nil_r. reflexivity. }
    destruct (kw w "NODE") eqn:K2.
    { intros H. apply rof_ok in H. unfold rdNode in H. destruct (tok 200 src) as [[b o] r] eqn:E. destruct o; [|discriminate]. apply obind_some in H as (n & En & H).
      destruct (tok 10 r) as [[p o1] r1] eqn:E1. destruct o1; [|discriminate]. apply obind_some in H as (pk & Epk & H).
      destruct (tok 9 r1) as [[pw o2] r2] eqn:E2. destruct o2; [|discriminate]. apply obind_some in H as (x & Ex & H). injection H as <-.
      eapply CNode; [exact K2|reflexivity|reflexivity|rewrite E; reflexivity|rewrite E; exact En|].
      intros d Hd. rewrite G. unfold rdNode. rewrite E, En. cbn [obind]. rewrite E1, Hd, Epk. cbn [obind]. rewrite E2, Ex. reflexivity. }
    destruct (kw w "PKTFROM") eqn:K3.
    { intros H. apply rof_ok in H. apply lastnode_inv in H as (nl & E & ->).
      eapply (CNsub _ _ _ _ _ (rdPktFrom src) nl); rewrite ?(isH_kw _ _ K3), ?(inA_kw _ _ K3), ?(inN_kw _ _ K3), ?(kw_kw _ _ _ K3); try reflexivity; auto. keep. }
    destruct (kw w "AREAFIXINFO") eqn:K4.
    { intros H. unfold rdAreafixInfo in H. destruct (cf_nodes c) as [|n0 nr] eqn:En; [discriminate|].
      destruct (tok 40 src) as [[pw o] r] eqn:E. destruct o; [|discriminate]. destruct (tokgroups r) as [[[g1|] r1]|] eqn:E1; try discriminate.
      destruct (tokgroups r1) as [[[g2|] r2]|] eqn:E2; try discriminate. destruct (tokgroups r2) as [[[g3|] r3]|] eqn:E3; try discriminate.
      apply rof_ok in H. apply lastnode_inv in H as (nl & E4 & ->).
      eapply CNsub; [..|exact E4|reflexivity| |]; rewrite ?(isH_kw _ _ K4), ?(inA_kw _ _ K4), ?(inN_kw _ _ K4), ?(kw_kw _ _ _ K4); try reflexivity; auto.
      - intros x y Hxy. injection Hxy as <-. auto.
      - intros d Hd. rewrite G. unfold rdAreafixInfo. rewrite E, E1, E2, E3. destruct (cf_nodes d); [congruence|reflexivity]. }
    destruct (kw w "DEFAULTGROUP") eqn:K5.
    { intros H. apply rof_ok in H. apply lastnode_inv in H as (nl & E & ->).
      eapply (CNsub _ _ _ _ _ (rdDefaultGroup src) nl); rewrite ?(isH_kw _ _ K5), ?(inA_kw _ _ K5), ?(inN_kw _ _ K5), ?(kw_kw _ _ _ K5); try reflexivity; auto. keep. }
    destruct (kw w "AREA" || kw w "NETMAIL" || kw w "LOCALAREA") eqn:K6.
    { intros H. apply rof_ok in H. unfold rdArea in H. destruct (tok 80 src) as [[tag o] r] eqn:E. destruct o; [|discriminate]. destruct (tok 200 r) as [[b o1] r1] eqn:E1. destruct o1; [|discriminate].
      apply obind_some in H as (n & En & H). apply obind_some in H as (ai & Ea & H). destruct (tok 200 r1) as [[m o2] r2] eqn:E2. apply obind_some in H as (mp & Em & H). apply obind_some in H as (ty & Ety & H). injection H as <-.
      eapply CArea; [exact K6|reflexivity|reflexivity|rewrite E; reflexivity|rewrite E; reflexivity| |].
      - intros Hl. cbn [fa_type]. unfold areatype in Ety. rewrite (kw_kw _ _ "NETMAIL" Hl) in Ety. change (kw (lit "LOCALAREA") "NETMAIL") with false in Ety. cbv iota in Ety. rewrite Hl in Ety.
        destruct (fst mp); [injection Ety as <-; reflexivity|discriminate].
      - intros d Hd. rewrite G. unfold rdArea. rewrite E, E1, En. cbn [obind]. rewrite Hd, Ea. cbn [obind]. rewrite E2, Em. cbn [obind]. rewrite Ety. reflexivity. }
    assert (KL : kw w "LOCALAREA" = false) by (destruct (kw w "LOCALAREA"); auto; rewrite orb_true_r in K6; discriminate).
    Ltac asub K G := let nl := fresh in let E := fresh in let H := fresh in intros H; apply rof_ok in H; apply lastarea_inv in H as (nl & E & ->);
      eapply CAsub; [..|exact E|reflexivity|keep|let d := fresh in let Hd := fresh in intros d Hd; rewrite G, ?Hd; reflexivity];
      rewrite ?(isH_kw _ _ K), ?(inA_kw _ _ K), ?(inN_kw _ _ K), ?(kw_kw _ _ _ K); reflexivity.
    destruct (kw w "UNCONFIRMED") eqn:K7; [asub K7 G|].
    destruct (kw w "MANDATORY") eqn:K8; [asub K8 G|].
    destruct (kw w "DEFREADONLY") eqn:K9; [asub K9 G|].
    destruct (kw w "IGNOREDUPES") eqn:K10; [asub K10 G|].
    destruct (kw w "IGNORESEENBY") eqn:K11; [asub K11 G|].
    destruct (kw w "EXPORT") eqn:K12; [asub K12 G|].
    destruct (kw w "IMPORT") eqn:K13; [asub K13 G|].
    destruct (kw w "BANNED") eqn:K14; [asub K14 G|].
    destruct (kw w "DESCRIPTION") eqn:K15; [asub K15 G|].
    destruct (kw w "GROUP") eqn:K16; [asub K16 G|].
    destruct (kw w "KEEPNUM") eqn:K17; [asub K17 G|].
    destruct (kw w "KEEPDAYS") eqn:K18; [asub K18 G|].
    destruct (kw w "PACKER") eqn:K19.
    { intros H. apply rof_ok in H. unfold rdPacker in H. destruct (tok 10 src) as [[b o] r] eqn:E. destruct o; [|discriminate]. destruct (tok 80 r) as [[b1 o1] r1] eqn:E1. destruct o1; [|discriminate].
      destruct (tok 80 r1) as [[b2 o2] r2] eqn:E2. destruct o2; [|discriminate]. destruct (tok 80 r2) as [[b3 o3] r3] eqn:E3. destruct o3; [|discriminate]. injection H as <-.
      apply (CNeutral _ _ _ _ _ [] [b] []); rewrite ?(isH_kw _ _ K19), ?(inA_kw _ _ K19), ?(inN_kw _ _ K19), ?(kw_kw _ _ _ K19); try reflexivity; rewrite ?app_nil_r; try reflexivity.
      - intros ->. discriminate.
      - intros d _ _ _ _. rewrite G. unfold rdPacker. rewrite E, E1, E2, E3. cbn [rof]. rewrite !app_nil_r. reflexivity. }
    destruct (kw w "REMOTEAF") eqn:K20.
    { intros H. apply rof_ok in H. apply lastnode_inv in H as (nl & E & ->).
      eapply (CNsub _ _ _ _ _ (rdRemoteAF src) nl); rewrite ?(isH_kw _ _ K20), ?(inA_kw _ _ K20), ?(inN_kw _ _ K20), ?(kw_kw _ _ _ K20); try reflexivity; auto. keep. }
    destruct (kw w "REMOTESYSOP") eqn:K21.
    { intros H. apply rof_ok in H. apply lastnode_inv in H as (nl & E & ->).
      eapply (CNsub _ _ _ _ _ (rdRemoteSysop src) nl); rewrite ?(isH_kw _ _ K21), ?(inA_kw _ _ K21), ?(inN_kw _ _ K21), ?(kw_kw _ _ _ K21); try reflexivity; auto. keep. }
    apply orb_false_iff in K6 as [K6 K6c]. apply orb_false_iff in K6 as [K6a K6b].
    assert (HA : inA w = false) by (unfold inA, areakeywords; cbn [existsb]; unfold kw in *; rewrite K11, K10, K9, K8, K7, K17, K18, K16, K15, K14, K12, K13, K6a, K6b; reflexivity).
    assert (HN : inN w = false) by (unfold inN, nodekeywords; cbn [existsb]; unfold kw in *; rewrite K5, K21, K20, K4, K2, K3; reflexivity).
    assert (HH : isH w = false) by (unfold isH; rewrite K6a, K6b, K6c; reflexivity).
    destruct ((hd 0 w =? 0) || (hd 0 w =? 59)) eqn:K22.
    { intros H. injection H as <-. apply (CNeutral _ _ _ _ _ [] [] []); rewrite ?K1, ?K19; auto.
      - rewrite !app_nil_r. destruct c; reflexivity.
      - intros d _ _ _ _. rewrite G, !app_nil_r. destruct d; reflexivity. }
    destruct (okother _ _ _ _ l) eqn:Eo; [|discriminate]. intros H. injection H as <-.
    apply (CNeutral _ _ _ _ _ [] [] [l]); rewrite ?K1, ?K19; auto.
    - rewrite !app_nil_r. reflexivity.
    - intros ->. discriminate.
    - intros d H1 H2 H3 H4. rewrite G, H1, H2, H3, H4, Eo, !app_nil_r. reflexivity.
  Qed.
End Cls.
