(** C69: the check of the configuration. *)
From Verif Require Import Base M_Node4D M_Pat S_Pat M_Mem M_Cfg M_Expr M_Filter M_CfgChk S_CfgChk P_Args.

Lemma andthen_ok a b : andthen a b = Some None <-> a = Some None /\ b = Some None.
Proof. destruct a as [[e|]|]; cbn; split; try tauto; try discriminate; intros [H _]; discriminate. Qed.
Lemma andthen_err a b e : andthen a b = Some (Some e) -> a = Some (Some e) \/ b = Some (Some e).
Proof. destruct a as [[x|]|]; cbn; auto. Qed.
Lemma andthen_def a b : a <> None -> b <> None -> andthen a b <> None.
Proof. destruct a as [[x|]|]; cbn; auto; discriminate. Qed.
Lemma checkall_ok {A} (f : A -> check) l : checkall f l = Some None <-> forall x, In x l -> f x = Some None.
Proof.
  induction l as [|x l IH]; cbn [checkall In]; [split; auto; intros _ y []|]. rewrite andthen_ok, IH. split; [intros [H1 H2] y [<-|H]; auto|intros H; split; auto].
Qed.
Lemma checkall_err {A} (f : A -> check) l e : checkall f l = Some (Some e) -> exists x, In x l /\ f x = Some (Some e).
Proof. induction l as [|x l IH]; cbn [checkall]; [discriminate|]. intros H. apply andthen_err in H as [H|H]; [exists x; split; [left|]; auto|]. destruct (IH H) as (y & Hy & E). exists y. split; [right|]; auto. Qed.
Lemma checkall_def {A} (f : A -> check) l : (forall x, In x l -> f x <> None) -> checkall f l <> None.
Proof. induction l as [|x l IH]; cbn [checkall]; intros H; [discriminate|]. apply andthen_def; [apply H; left; auto|apply IH; intros y Hy; apply H; right; auto]. Qed.
Lemma asks_ok p : Check4DPatNodelist p = true <-> ~ asks_nodelist p.
Proof. unfold Check4DPatNodelist, asks_nodelist. destruct (ptype p); split; try tauto; try discriminate; intros _ [H|H]; discriminate. Qed.
Lemma asks_no p : Check4DPatNodelist p = false -> asks_nodelist p.
Proof. unfold Check4DPatNodelist, asks_nodelist. destruct (ptype p); auto; discriminate. Qed.
Lemma needs_ok w p pr : needs w p pr = Some None <-> ~ asks_nodelist p.
Proof. unfold needs. rewrite <- asks_ok. destruct (Check4DPatNodelist p); [tauto|]. destruct (_ <? _)%nat; split; discriminate. Qed.
Lemma needs_err w p pr e : needs w p pr = Some (Some e) -> asks_nodelist p /\ e = CeText (w ++ lit "odelist needed for pattern """ ++ pr p ++ lit """").
Proof. unfold needs. destruct (Check4DPatNodelist p) eqn:E; [discriminate|]. destruct (_ <? _)%nat; [|discriminate]. intros H. injection H as <-. split; auto. apply asks_no, E. Qed.
Lemma needs_def w p pr : (length (pr p) < 50)%nat -> needs w p pr <> None.
Proof. intros H. unfold needs. destruct (Check4DPatNodelist p); [discriminate|]. apply Nat.ltb_lt in H. rewrite H. discriminate. Qed.
Lemma print_short p : shortpat p -> (length (Print4DPat p) < 50)%nat /\ (length (Print4DDestPat p) < 50)%nat.
Proof. intros (H1 & H2 & H3 & H4). unfold Print4DPat, Print4DDestPat. destruct (ptype p); rewrite ?app_length; cbn [length lit map list_ascii_of_string]; lia. Qed.
Lemma same_ok a b : streqi a b = true <-> same_name a b.
Proof. apply streqi_spec. Qed.
Lemma find_area tag l : match find (fun a => streqi (ka_tag a) tag) l with Some a => first_area tag l a | None => forall a, In a l -> ~ same_name (ka_tag a) tag end.
Proof.
  induction l as [|a l IH]; cbn [find]; [intros a []|]. destruct (streqi (ka_tag a) tag) eqn:E; [constructor; apply same_ok, E|].
  assert (N : ~ same_name (ka_tag a) tag) by (intros H; apply same_ok in H; congruence).
  destruct (find _ l); [constructor; auto|]. intros b [<-|H]; auto.
Qed.
Lemma first_unique tag l a b : first_area tag l a -> first_area tag l b -> a = b.
Proof. intros H. induction H as [a r H|a r x N H IH]; intros G; inversion G; subst; auto; contradiction. Qed.
Lemma first_in tag l a : first_area tag l a -> In a l /\ same_name (ka_tag a) tag.
Proof. induction 1 as [a r H|a r x N H [IH1 IH2]]; split; auto; [left|right]; auto. Qed.
Lemma ownb a : negb (ka_type a =? AREATYPE_DEFAULT) && ka_base a = true <-> own_path a.
Proof. unfold own_path. rewrite andb_true_iff, negb_true_iff, Z.eqb_neq. tauto. Qed.
Lemma paths_ok l : samepath l = Some None <-> forall a b, behind l a b -> own_path a -> ka_base b = true -> ~ same_name (ka_path a) (ka_path b).
Proof.
  induction l as [|x l IH]; cbn [samepath]; [split; auto; intros _ a b (l1 & l2 & l3 & H); destruct l1; discriminate|]. rewrite andthen_ok, IH. clear IH. split.
  - intros [H1 H2] a b ([|y l1] & l2 & l3 & E) Ha Hb S; injection E as <- ->.
    + apply ownb in Ha. rewrite Ha in H1. destruct (find _ _) eqn:F; [discriminate|]. assert (G := find_none _ _ F b ltac:(apply in_or_app; right; left; reflexivity)). cbv beta in G. rewrite Hb in G. apply same_ok in S. cbn [andb] in G. congruence.
    + apply (H2 a b); auto. exists l1, l2, l3. reflexivity.
  - intros H. split.
    + destruct (negb _ && _) eqn:O; auto. apply ownb in O. destruct (find _ l) as [b|] eqn:F; auto. exfalso. apply find_some in F as [F1 F2]. apply andb_true_iff in F2 as [F2 F3].
      apply in_split in F1 as (l2 & l3 & ->). apply (H x b); auto; [exists [], l2, l3; reflexivity|apply same_ok, F3].
    + intros a b (l1 & l2 & l3 & ->) Ha Hb. apply H; auto. exists (x :: l1), l2, l3. reflexivity.
Qed.
Lemma paths_err l e : samepath l = Some (Some e) -> exists a b, behind l a b /\ own_path a /\ ka_base b = true /\ same_name (ka_path a) (ka_path b) /\
  e = CeText (lit "The areas " ++ ka_tag a ++ lit " and " ++ ka_tag b ++ lit " both have the same path").
Proof.
  induction l as [|x l IH]; cbn [samepath]; [discriminate|]. intros H. apply andthen_err in H as [H|H].
  - destruct (negb _ && _) eqn:O; [|discriminate]. apply ownb in O. destruct (find _ l) as [b|] eqn:F; [|discriminate]. apply find_some in F as [F1 F2]. apply andb_true_iff in F2 as [F2 F3].
    apply in_split in F1 as (l2 & l3 & ->). exists x, b. split; [exists [], l2, l3; reflexivity|]. split; auto. split; auto. split; [apply same_ok, F3|]. congruence.
  - destruct (IH H) as (a & b & (l1 & l2 & l3 & ->) & G). exists a, b. split; auto. exists (x :: l1), l2, l3. reflexivity.
Qed.
Lemma paths_def l : samepath l <> None.
Proof. induction l as [|x l IH]; cbn [samepath]; [discriminate|]. apply andthen_def; auto. destruct (_ && _); [|discriminate]. destruct (find _ l); discriminate. Qed.
Lemma command_ok c cmd : checkcommand c cmd = Some None <->
  (forall tag, cmd = CCopy tag -> exists a, first_area tag (ck_areas c) a /\ ka_type a = AREATYPE_LOCAL) /\
  (forall name p, cmd = CRemap name p -> ck_nodelist c = false -> ~ asks_nodelist p).
Proof.
  destruct cmd; cbn [checkcommand]; try (split; [intros _; split; intros; discriminate|reflexivity]).
  - pose proof (find_area tag (ck_areas c)) as F. destruct (find _ _) as [a|].
    + split.
      * intros H. split; [|intros; discriminate]. intros t Ht. injection Ht as <-. exists a. split; auto. destruct (Z.eqb_spec (ka_type a) AREATYPE_LOCAL); [auto|discriminate].
      * intros [H _]. destruct (H tag eq_refl) as (b & Hb & T). rewrite (first_unique _ _ _ _ F Hb), T. reflexivity.
    + split; [discriminate|]. intros [H _]. destruct (H tag eq_refl) as (b & Hb & T). apply first_in in Hb as [Hb1 Hb2]. destruct (F b Hb1 Hb2).
  - destruct (ck_nodelist c).
    + split; [intros _; split; intros; discriminate|reflexivity].
    + rewrite needs_ok. split; [intros H; split; intros; [discriminate|congruence]|intros [_ H]; apply (H name dest); auto].
Qed.
Lemma filter_ok e cond : evalfilter e emptymsg cond <> None -> CheckFilter e cond = Some None <-> ((length cond <= 200)%nat -> ~ malformed e cond).
Proof.
  intros D. unfold CheckFilter, malformed. destruct (evalfilter e emptymsg cond) as [r|]; [|congruence]. cbn [obind]. destruct (Z.eqb_spec r (-1)) as [->|N].
  - destruct (Nat.ltb_spec 200 (length cond)); split; auto; try discriminate; [intros _ H'; lia|]. intros H'. exfalso. apply H'; auto.
  - split; auto. intros _ _ H. congruence.
Qed.

(** Exactly the sound configurations are accepted, and what is reported about others is true. *)
Theorem C69_accepted : forall c, parsed c -> (CheckConfig c = Some None <-> sound c) /\ (forall e, CheckConfig c = Some (Some e) -> fault c e) /\ CheckConfig c <> None.
Proof.
  intros c [PP PF]. split; [|split].
  - unfold CheckConfig. destruct (fe_akas (ck_env c)) as [|a0 ar] eqn:Ea.
    + split; [discriminate|]. intros [S _ _ _ _]. congruence.
    + rewrite !andthen_ok, paths_ok, checkall_ok.
      assert (N : (if ck_nodelist c then Some None else
          andthen (checkall (fun p => needs (lit "N") p Print4DPat) (ck_attach c))
          (andthen (checkall (fun p => needs (lit "N") p Print4DPat) (ck_bounce c))
          (andthen (checkall (fun r => andthen (needs (lit "N") (rt_pat r) Print4DPat) (needs (lit "N") (rt_dest r) Print4DDestPat)) (ck_routes c))
          (checkall (fun p => needs (lit "N") p Print4DPat) (ck_changes c))))) = Some None <->
          (ck_nodelist c = false -> (forall p, In p (patterns c) -> ~ asks_nodelist p) /\ (forall r, In r (ck_routes c) -> ~ asks_nodelist (rt_dest r)))).
      { destruct (ck_nodelist c); [split; [intros _ H; discriminate|reflexivity]|]. rewrite !andthen_ok, !checkall_ok. split.
        - intros (H1 & H2 & H3 & H4) _. split.
          + intros p Hp. unfold patterns in Hp. rewrite !in_app_iff in Hp. destruct Hp as [Hp|[Hp|[Hp|Hp]]]; [specialize (H1 p Hp)|specialize (H2 p Hp)| |specialize (H4 p Hp)]; rewrite ?needs_ok in *; auto.
            apply in_map_iff in Hp as (r & <- & Hr). specialize (H3 r Hr). apply andthen_ok in H3 as [H3 _]. apply needs_ok in H3. exact H3.
          + intros r Hr. specialize (H3 r Hr). apply andthen_ok in H3 as [_ H3]. apply needs_ok in H3. exact H3.
        - intros H. destruct (H eq_refl) as [H1 H2]. unfold patterns in H1. repeat split.
          + intros p Hp. apply needs_ok, H1. rewrite !in_app_iff. auto.
          + intros p Hp. apply needs_ok, H1. rewrite !in_app_iff. auto.
          + intros r Hr. apply andthen_ok. split; apply needs_ok; [apply H1; rewrite !in_app_iff; right; right; left; apply in_map; auto|auto].
          + intros p Hp. apply needs_ok, H1. rewrite !in_app_iff. auto. }
      rewrite N. clear N. fold (ck_nodelist c). split.
      * intros (H1 & H2 & H3).
        assert (FF : forall cond cs, In (cond, cs) (ck_filters c) -> CheckFilter (ck_env c) cond = Some None /\ forall cmd, In cmd cs -> checkcommand c cmd = Some None).
        { intros cond cs Hi. specialize (H3 _ Hi). apply andthen_ok in H3 as [H3 H4]. cbn [fst snd] in *. rewrite checkall_ok in H4. auto. }
        constructor; auto; [congruence| | |].
        -- intros Hn. destruct (H1 Hn) as [G1 G2]. split; auto. intros p [(r & Hr & ->)|(cond & cs & name & Hi & Hc)]; auto. destruct (FF _ _ Hi) as [_ G]. specialize (G _ Hc). apply command_ok in G as [_ G]. apply (G name p); auto.
        -- intros cond cs Hi. destruct (FF _ _ Hi) as [G _]. exact (proj1 (filter_ok (ck_env c) cond (PF _ _ Hi)) G).
        -- intros cond cs tag Hi Hc. destruct (FF _ _ Hi) as [_ G]. specialize (G _ Hc). apply command_ok in G as [G _]. auto.
      * intros [S1 S2 S3 S4 S5]. split; [intros Hn; destruct (S2 Hn) as [G1 G2]; split; auto; intros r Hr; apply G2; left; eauto|]. split; auto.
        intros [cond cs] Hi. apply andthen_ok. cbn [fst snd]. split; [apply filter_ok; eauto|]. apply checkall_ok. intros cmd Hc. apply command_ok. split; [intros tag ->; eauto|].
        intros name p -> Hn. apply (proj2 (S2 Hn)). right. eauto.
  - intros e. unfold CheckConfig. destruct (fe_akas (ck_env c)) as [|a0 ar] eqn:Ea; [intros H; injection H as <-; constructor; auto|]. intros H.
    apply andthen_err in H as [H|H].
    + destruct (ck_nodelist c) eqn:En; [discriminate|].
      assert (PE : forall l, incl l (patterns c) -> checkall (fun p => needs (lit "N") p Print4DPat) l = Some (Some e) -> fault c e).
      { intros l Hl G. apply checkall_err in G as (p & Hp & G). apply needs_err in G as [G ->]. apply (f_pattern c p); auto. }
      unfold patterns in PE. apply andthen_err in H as [H|H]; [apply (PE (ck_attach c)); auto; intros p Hp; rewrite !in_app_iff; auto|].
      apply andthen_err in H as [H|H]; [apply (PE (ck_bounce c)); auto; intros p Hp; rewrite !in_app_iff; auto|].
      apply andthen_err in H as [H|H]; [|apply (PE (ck_changes c)); auto; intros p Hp; rewrite !in_app_iff; auto].
      apply checkall_err in H as (r & Hr & H). apply andthen_err in H as [H|H]; apply needs_err in H as [H ->].
      * apply (f_pattern c (rt_pat r)); auto. unfold patterns. rewrite !in_app_iff. right. right. left. apply in_map. auto.
      * apply (f_route c r); auto.
    + apply andthen_err in H as [H|H].
      * apply paths_err in H as (a & b & H1 & H2 & H3 & H4 & ->). apply f_path; auto.
      * apply checkall_err in H as ([cond cs] & Hi & H). cbn [fst snd] in H. apply andthen_err in H as [H|H].
        -- unfold CheckFilter in H. destruct (evalfilter (ck_env c) emptymsg cond) as [r|] eqn:Er; [|discriminate]. cbn [obind] in H. destruct (Z.eqb_spec r (-1)) as [->|]; [|discriminate].
           destruct (Nat.ltb_spec 200 (length cond)); [discriminate|]. injection H as <-. apply (f_filter c cond cs); auto.
        -- apply checkall_err in H as (cmd & Hc & H). destruct cmd; try discriminate; cbn [checkcommand] in H.
           ++ pose proof (find_area tag (ck_areas c)) as F. destruct (find _ _) as [a|].
              ** destruct (Z.eqb_spec (ka_type a) AREATYPE_LOCAL); [discriminate|]. injection H as <-. apply (f_kind c cond cs tag a); auto.
              ** injection H as <-. apply (f_missing c cond cs tag); auto.
           ++ destruct (ck_nodelist c) eqn:En; [discriminate|]. apply needs_err in H as [H ->]. apply (f_remap c cond cs name dest); auto.
  - unfold CheckConfig. destruct (fe_akas (ck_env c)); [discriminate|].
    assert (PD : forall p, In p (patterns c) -> needs (lit "N") p Print4DPat <> None) by (intros p Hp; apply needs_def, print_short, PP; auto).
    unfold patterns in PD. apply andthen_def; [|apply andthen_def; [apply paths_def|]].
    + destruct (ck_nodelist c); [discriminate|]. apply andthen_def; [apply checkall_def; intros p Hp; apply PD; rewrite !in_app_iff; auto|].
      apply andthen_def; [apply checkall_def; intros p Hp; apply PD; rewrite !in_app_iff; auto|]. apply andthen_def; [|apply checkall_def; intros p Hp; apply PD; rewrite !in_app_iff; auto].
      apply checkall_def. intros r Hr. apply andthen_def; [apply PD; rewrite !in_app_iff; right; right; left; apply in_map; auto|]. apply needs_def, print_short, PP. right. left. eauto.
    + apply checkall_def. intros [cond cs] Hi. cbn [fst snd]. apply andthen_def.
      * unfold CheckFilter. specialize (PF _ _ Hi). destruct (evalfilter _ _ cond); [|congruence]. cbn [obind]. destruct (_ =? _); [|discriminate]. destruct (_ <? _)%nat; discriminate.
      * apply checkall_def. intros cmd Hc. destruct cmd; cbn [checkcommand]; try discriminate.
        -- destruct (find _ _); [destruct (negb _)|]; discriminate.
        -- destruct (ck_nodelist c); [discriminate|]. apply needs_def, print_short, PP. right. right. eauto.
Qed.
Print Assumptions C69_accepted.

(** ** What an accepted configuration promises *)
(** Without a nodelist, no decision depends on one. *)
Theorem C69_independent : forall c nl nl' n p, CheckConfig c = Some None -> nl_has (fe_nl (ck_env c)) = false -> parsed c ->
  (In p (patterns c) -> Compare4DPat nl p n = Compare4DPat nl' p n) /\ (destination c p -> ExpandNodePat nl p n = ExpandNodePat nl' p n).
Proof.
  intros c nl nl' n p A Hn P. apply (proj1 (C69_accepted c P)) in A. destruct A as [_ A _ _ _]. destruct (A Hn) as [A1 A2]. split; intros H.
  - apply A1 in H. unfold asks_nodelist in H. unfold Compare4DPat. destruct (ptype p); try reflexivity; exfalso; apply H; auto.
  - apply A2 in H. unfold asks_nodelist in H. unfold ExpandNodePat. destruct (ptype p); try reflexivity; exfalso; apply H; auto.
Qed.
Print Assumptions C69_independent.
(** whether a statement is malformed does not depend on the message *)
Definition both (a b : option Z) : Prop := forall x y, a = Some x -> b = Some y -> x = -1 <-> y = -1.
Lemma eval_both ev1 ev2 : (forall w, both (ev1 w) (ev2 w)) -> forall f s, both (expr_eval f ev1 s) (expr_eval f ev2 s).
Proof.
  intros H. induction f as [|f IH]; intros s x y; cbn [expr_eval]; [discriminate|].
  destruct (expr_get s) as [[e1 s1]|]; [|intros E1 E2; injection E1 as <-; injection E2 as <-; tauto].
  destruct (expr_get s1) as [[e2 s2]|]; [|intros E1 E2; injection E1 as <-; injection E2 as <-; tauto].
  assert (B : forall (g : Z -> Z -> Z), (forall a b, g a b <> -1) -> forall e3 x y,
     (do r1 <- expr_eval f ev1 e1; if r1 =? -1 then Some (-1) else do r2 <- expr_eval f ev1 e3; if r2 =? -1 then Some (-1) else Some (g r1 r2)) = Some x ->
     (do r1 <- expr_eval f ev2 e1; if r1 =? -1 then Some (-1) else do r2 <- expr_eval f ev2 e3; if r2 =? -1 then Some (-1) else Some (g r1 r2)) = Some y -> x = -1 <-> y = -1).
  { clear x y. intros g Hg e3 x y. pose proof (IH e1) as I1. pose proof (IH e3) as I3. destruct (expr_eval f ev1 e1) as [r1|]; [|discriminate]. destruct (expr_eval f ev2 e1) as [q1|]; [|discriminate].
    cbn [obind]. specialize (I1 _ _ eq_refl eq_refl). destruct (Z.eqb_spec r1 (-1)), (Z.eqb_spec q1 (-1)); try tauto; [intros E1 E2; injection E1 as <-; injection E2 as <-; tauto|].
    destruct (expr_eval f ev1 e3) as [r2|]; [|discriminate]. destruct (expr_eval f ev2 e3) as [q2|]; [|discriminate]. cbn [obind]. specialize (I3 _ _ eq_refl eq_refl).
    destruct (Z.eqb_spec r2 (-1)), (Z.eqb_spec q2 (-1)); try tauto; intros E1 E2; injection E1 as <-; injection E2 as <-; [tauto|]. split; intros G; exfalso; eapply Hg; eauto. }
  destruct e2 as [|c2 e2].
  - destruct (streq e1 s); [|apply IH]. destruct (strneqi 4 e1 (lit "NOT ")); [|apply H].
    specialize (IH (skipn 4 e1)). destruct (expr_eval f ev1 (skipn 4 e1)) as [r1|]; [|discriminate]. destruct (expr_eval f ev2 (skipn 4 e1)) as [q1|]; [|discriminate]. cbn [obind].
    specialize (IH _ _ eq_refl eq_refl). intros E1 E2. injection E1 as <-. injection E2 as <-. destruct (Z.eqb_spec r1 1), (Z.eqb_spec r1 0), (Z.eqb_spec q1 1), (Z.eqb_spec q1 0); lia.
  - destruct (streqi (c2 :: e2) (lit "AND")).
    + destruct (expr_getrest s2); [intros E1 E2; injection E1 as <-; injection E2 as <-; tauto|]. apply (B (fun r1 r2 => if negb (r1 =? 0) && negb (r2 =? 0) then 1 else 0)). intros a b. destruct (_ && _); discriminate.
    + destruct (streqi (c2 :: e2) (lit "OR")); [|intros E1 E2; injection E1 as <-; injection E2 as <-; tauto].
      destruct (expr_getrest s2); [intros E1 E2; injection E1 as <-; injection E2 as <-; tauto|]. apply (B (fun r1 r2 => if negb (r1 =? 0) || negb (r2 =? 0) then 1 else 0)). intros a b. destruct (_ || _); discriminate.
Qed.
(** the same configuration later: a nodelist may have been opened since *)
Definition later (e e' : fenv) : Prop := nl_has (fe_nl e') = nl_has (fe_nl e) /\ (forall n, nl_check (fe_nl e) n = 0 \/ nl_check (fe_nl e) n = 1) /\ (forall n, nl_check (fe_nl e') n = 0 \/ nl_check (fe_nl e') n = 1).
Lemma node_both nl nl' n n' op data : nl_has nl' = nl_has nl -> both (comparenode nl n op data) (comparenode nl' n' op data).
Proof.
  intros H x y. unfold comparenode. rewrite H. destruct op; [intros E1 E2; injection E1 as <-; injection E2 as <-; tauto|]. destruct (negb _); [intros E1 E2; injection E1 as <-; injection E2 as <-; tauto|].
  destruct (Parse4DPat data) as [pat| |]; [|intros E1 E2; injection E1 as <-; injection E2 as <-; tauto|discriminate]. destruct (_ && _); intros E1 E2; injection E1 as <-; injection E2 as <-; [tauto|].
  destruct (_ =? _), (_ =? _); cbn; lia.
Qed.
Lemma string_both s s' op data : both (comparestring s op data) (comparestring s' op data).
Proof.
  intros x y. unfold comparestring. destruct op; [intros E1 E2; injection E1 as <-; injection E2 as <-; tauto|]. destruct (streq _ _).
  - destruct (bmfind data s 0) as [r|]; [|discriminate]. destruct (bmfind data s' 0) as [q|]; [|discriminate]. cbn [obind]. intros E1 E2; injection E1 as <-; injection E2 as <-. destruct r, q; cbn; lia.
  - destruct (streq _ _); intros E1 E2; injection E1 as <-; injection E2 as <-; [|tauto]. destruct (M_Str.osMatchPattern _ _), (M_Str.osMatchPattern _ _); cbn; lia.
Qed.
Lemma bool_both b b' op data : both (comparebool b op data) (comparebool b' op data).
Proof.
  intros x y. unfold comparebool. destruct op; [intros E1 E2; injection E1 as <-; injection E2 as <-; destruct b, b'; cbn; lia|]. destruct (streq _ _); [|intros E1 E2; injection E1 as <-; injection E2 as <-; tauto].
  destruct (streqi _ _); [intros E1 E2; injection E1 as <-; injection E2 as <-; destruct b, b'; cbn; lia|]. destruct (streqi _ _); intros E1 E2; injection E1 as <-; injection E2 as <-; [destruct b, b'; cbn; lia|tauto].
Qed.
Lemma text_both m m' k op data : both (comparetext m k op data) (comparetext m' k op data).
Proof.
  intros x y. unfold comparetext. destruct op; [intros E1 E2; injection E1 as <-; injection E2 as <-; tauto|]. destruct (streq _ _); [|intros E1 E2; injection E1 as <-; injection E2 as <-; tauto].
  destruct (searchchunks data k (rev (TextChunks m))) as [r|]; [|discriminate]. destruct (searchchunks data k (rev (TextChunks m'))) as [q|]; [|discriminate]. cbn [option_map]. intros E1 E2; injection E1 as <-; injection E2 as <-. destruct r, q; cbn; lia.
Qed.
Lemma lookup_both e e' n n' : later e e' -> both (Some (filter_nllookup (fe_nl e) n)) (Some (filter_nllookup (fe_nl e') n')).
Proof.
  intros (H1 & H2 & H3) x y E1 E2. injection E1 as <-. injection E2 as <-. unfold filter_nllookup. rewrite H1. destruct (negb _); [tauto|].
  specialize (H2 n). specialize (H3 n'). destruct (negb (nlopen (nl_nl (fe_nl e)))), (negb (nlopen (nl_nl (fe_nl e')))); lia.
Qed.
Lemma stmt_both e e' m m' w : later e e' -> both (filter_evalfunc e m w) (filter_evalfunc e' m' w).
Proof.
  intros L. unfold filter_evalfunc. destruct (splitstatement w) as [[v op] data].
  repeat match goal with |- both (if ?b then _ else _) (if ?b then _ else _) => destruct b; [first [apply node_both; apply L | apply string_both | apply bool_both | apply text_both | apply lookup_both; exact L]|] end.
  intros x y E1 E2. injection E1 as <-. injection E2 as <-. tauto.
Qed.
(** A condition of at most 200 characters that was accepted is malformed for no message. *)
Theorem C69_filters : forall c e' cond cs mm v, CheckConfig c = Some None -> parsed c -> later (ck_env c) e' ->
  In (cond, cs) (ck_filters c) -> (length cond <= 200)%nat -> evalfilter e' mm cond = Some v -> v <> -1.
Proof.
  intros c e' cond cs mm v A P L Hi Hl Hv ->. apply (proj1 (C69_accepted c P)) in A. destruct A as [_ _ _ A _]. apply (A cond cs Hi Hl). unfold malformed.
  destruct P as [_ P]. specialize (P _ _ Hi). unfold evalfilter, evaluate in *. destruct (expr_eval _ (filter_evalfunc (ck_env c) emptymsg) cond) as [r|] eqn:E; [|congruence].
  f_equal. apply (eval_both (filter_evalfunc (ck_env c) emptymsg) (filter_evalfunc e' mm) (fun w => stmt_both _ _ _ _ w L) _ _ _ _ E Hv). reflexivity.
Qed.
Print Assumptions C69_filters.
(** Directories that were not given *)
Theorem C69_directories : forall c, let '(t, cr, p) := directories c in
  t = (if list_eq_dec Z.eq_dec (ck_temp c) [] then ck_inbound c else ck_temp c) /\ cr = (if list_eq_dec Z.eq_dec (ck_create c) [] then ck_outbound c else ck_create c) /\
  p = (if list_eq_dec Z.eq_dec (ck_packets c) [] then ck_outbound c else ck_packets c).
Proof. intros c. unfold directories. destruct (ck_temp c), (ck_create c), (ck_packets c); repeat split; repeat match goal with |- context [list_eq_dec ?d ?a ?b] => destruct (list_eq_dec d a b); try discriminate; try congruence end. Qed.
Print Assumptions C69_directories.

(** ** An example *)
Definition xenv (nl : bool) : fenv := FE [AKA (N4 2 200 1 0) [] [] []] [] (NLC nl (NL false (fun _ => -1) (fun _ => -1)) (fun _ => 0)).
Definition xstar := NP PAT_PATTERN (lit "*") (lit "*") (lit "*") (lit "*").
Definition xhub := NP PAT_HUB (lit "2") (lit "200") (lit "*") [].
Definition xareas := [KA (lit "DEFAULT") AREATYPE_DEFAULT true (lit "/mail/%s"); KA (lit "NETMAIL") AREATYPE_NETMAIL true (lit "/mail/net"); KA (lit "KEEP") AREATYPE_LOCAL true (lit "/mail/keep")].
Definition xcfg (nl : bool) (areas : list karea) (attach : list npat) (filters : list (list Z * list command)) : ckcfg :=
  CK [] (lit "/in") (lit "/out") [] [] (xenv nl) attach [] [RT xstar xstar (AKA (N4 2 200 1 0) [] [] [])] [] areas filters.
Definition xok := xcfg false xareas [xstar] [(lit "FROMNAME=Bob AND NOT TYPE=NETMAIL", [CCopy (lit "keep"); CKill])].
Lemma xparsed nl areas filters : Forall (fun f => evalfilter (xenv nl) emptymsg (fst f) <> None) filters -> Forall (fun f => Forall (fun c => match c with CRemap _ p => shortpat p | _ => True end) (snd f)) filters ->
  parsed (xcfg nl areas [xstar] filters).
Proof.
  intros F1 F2. constructor; cbn [xcfg ck_filters ck_env].
  - assert (S : shortpat xstar) by (unfold shortpat; vm_compute; repeat split; lia). intros p [H|[(r & [<-|[]] & ->)|(cond & cs & name & H1 & H2)]]; [|exact S|].
    + cbn in H. destruct H as [<-|[<-|[]]]; exact S.
    + rewrite Forall_forall in F2. specialize (F2 _ H1). rewrite Forall_forall in F2. exact (F2 _ H2).
  - intros cond cs H. rewrite Forall_forall in F1. exact (F1 _ H).
Qed.
Example C69_nonvacuous : parsed xok /\ CheckConfig xok = Some None /\ later (ck_env xok) (xenv false) /\
  CheckConfig (xcfg false xareas [xhub] []) = Some (Some (CeText (lit "Nodelist needed for pattern ""HUB 2:200/*"""))) /\ CheckConfig (xcfg true xareas [xhub] []) = Some None /\
  CheckConfig (xcfg false xareas [xstar] [(lit "FROMNAME=Bob AND", [CKill])]) = Some (Some (CeFilter (lit "FROMNAME=Bob AND"))) /\
  CheckConfig (xcfg false xareas [xstar] [(lit "FROMNAME=Bob", [CCopy (lit "netmail")])]) = Some (Some (CeText (lit "Filter: Area netmail for COPY command is not a local area"))).
Proof.
  split; [apply xparsed; repeat constructor; vm_compute; discriminate|]. split; [vm_compute; reflexivity|]. split; [split; [reflexivity|split; intros n; left; reflexivity]|].
  repeat split; vm_compute; reflexivity.
Qed.

(** ** Findings *)
(** Finding: a filter of more than 200 characters is accepted whatever it says. (CheckFilter
    writes a message but returns TRUE.) For every message, it then ends the filtering: the
    rules behind it never apply. *)
Theorem C69_long_refuted : exists cond, (200 < length cond)%nat /\ CheckConfig (xcfg false xareas [xstar] [(cond, [CKill]); (lit "FROMNAME=Bob", [CKill])]) = Some None /\
  forall e mm, evalfilter e mm cond = Some (-1).
Proof.
  exists (repeat 120 201). split; [vm_compute; lia|]. split; [vm_compute; reflexivity|]. intros e mm. unfold evalfilter.
  assert (H : filter_evalfunc e mm (repeat 120 201) = Some (-1)) by (vm_compute; reflexivity). 
  unfold evaluate. change (2 * length (repeat 120 201) + 2)%nat with (S (2 * length (repeat 120 201) + 1)). cbn [expr_eval].
  replace (expr_get (repeat 120 201)) with (Some (repeat 120 201, @nil Z)) by (vm_compute; reflexivity).
  replace (expr_get []) with (Some (@nil Z, @nil Z)) by (vm_compute; reflexivity).
  replace (streq (repeat 120 201) (repeat 120 201)) with true by (vm_compute; reflexivity). replace (strneqi 4 (repeat 120 201) (lit "NOT ")) with false by (vm_compute; reflexivity). exact H.
Qed.
Print Assumptions C69_long_refuted.
(** Finding: the destination of MASQUERADE is not looked at: without a nodelist HUB is
    accepted and then always node 0. *)
Theorem C69_masquerade_refuted : let hub := NP PAT_HUB [] [] [] [] in
  CheckConfig (xcfg false xareas [xstar] [(lit "FROMNAME=Bob", [CMasquerade (lit "*") hub])]) = Some None /\
  ExpandNodePat (nl_nl (fe_nl (xenv false))) hub (N4 2 200 5 0) = N4 2 200 0 0 /\ ExpandNodePat (NL true (fun _ => 20) (fun _ => 7)) hub (N4 2 200 5 0) = N4 2 200 7 0.
Proof. repeat split; vm_compute; reflexivity. Qed.
Print Assumptions C69_masquerade_refuted.
(** Finding: whether the template may have the path of another area depends on the order. *)
Theorem C69_default_refuted : let d := KA (lit "DEFAULT") AREATYPE_DEFAULT true (lit "/mail/x") in let a := KA (lit "A") AREATYPE_ECHOMAIL true (lit "/mail/x") in
  CheckConfig (xcfg false [d; a] [xstar] []) = Some None /\ exists e, CheckConfig (xcfg false [a; d] [xstar] []) = Some (Some e).
Proof. split; [vm_compute; reflexivity|]. eexists. vm_compute. reflexivity. Qed.
Print Assumptions C69_default_refuted.
(** Finding: paths are compared as texts: one directory with two names is not noticed. *)
Theorem C69_slash_refuted : CheckConfig (xcfg false [KA (lit "A") AREATYPE_ECHOMAIL true (lit "/mail/x"); KA (lit "B") AREATYPE_ECHOMAIL true (lit "/mail/x/")] [xstar] []) = Some None.
Proof. vm_compute. reflexivity. Qed.
Print Assumptions C69_slash_refuted.
