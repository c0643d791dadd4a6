(** The answers of AreaFix: theorems. *)
From Verif Require Import Base M_Node4D S_Node4D M_Pat M_Str S_Str M_Mem M_Cfg M_Pkt M_Echo S_Echo M_Filter M_Areafix S_Areafix P_Areafix M_AfList S_AfList T_AfList T_Areafix M_AfText S_AfText.

(** ** Layout *)
Lemma acr_ok buf r : answer_to buf r (AddCommandReply buf r).
Proof.
  unfold AddCommandReply, answer_to, pad30. destruct (Nat.leb_spec (length buf) 30) as [L|L].
  - left. split; [exact L|]. exists (31 - length buf)%nat. split; [lia|]. replace (31 - length buf)%nat with (30 - length buf + 1)%nat by lia. rewrite repeat_app, <- !app_assoc. reflexivity.
  - right. split; [exact L|]. reflexivity.
Qed.
Lemma acr_head buf r : exists x y, AddCommandReply buf r = (buf ++ x) :: y.
Proof.
  unfold AddCommandReply, pad30. destruct (Nat.leb _ _).
  - rewrite <- app_assoc. eauto.
  - exists []. rewrite app_nil_r. eauto.
Qed.
Lemma say_ok w buf l r : said w buf l r (say w buf l r).
Proof. destruct w; [reflexivity|apply acr_ok]. Qed.
Lemma names_parse cmd pat line : names cmd pat line -> exists c r opt, stripleadtrail line = c :: r /\ c <> 1 /\ c <> 37 /\ parsecmd (c :: r) = (cmd, pat, opt).
Proof.
  destruct cmd; cbn [names].
  - intros (Pl & o & Ho & Hl). pose proof (plainname_range _ Pl) as R. pose proof (plainname_comma _ Pl) as Cm. destruct Hl as [->|(-> & c & r & -> & Nc)].
    + destruct (parse_signed 43 pat o Pl Ho ltac:(cbn; auto)) as (r & opt & E1 & E2). exists 43, r, opt. split; [exact E1|]. split; [lia|]. split; [lia|exact E2].
    + destruct (parse_text (c :: r) o) as (o' & E1 & opt & E2); [auto|auto|discriminate|auto|].
      exists c, (r ++ o'), opt. split; [exact E1|]. inversion R; subst. split; [lia|]. split; [intros ->; apply Nc; left; auto|].
      cbn [app] in E2. rewrite E2. cbn [In] in Nc.
      destruct c as [|q|q]; auto. do 6 (try (destruct q as [q|q|]; [| |try reflexivity])); try reflexivity; exfalso; apply Nc; auto 8.
  - intros (Pl & o & Ho & ->). destruct (parse_signed 45 pat o Pl Ho ltac:(cbn; auto)) as (r & opt & E1 & E2). exists 45, r, opt. split; [exact E1|]. split; [lia|]. split; [lia|exact E2].
  - intros (Pl & o & Ho & ->). destruct (parse_signed 61 pat o Pl Ho ltac:(cbn; auto)) as (r & opt & E1 & E2). exists 61, r, opt. split; [exact E1|]. split; [lia|]. split; [lia|exact E2].
Qed.
Lemma linetext_dispatch cfg total i raw s c r : stripleadtrail raw = c :: r -> c <> 1 -> c <> 37 ->
  linetext cfg total i raw s = (do t <- areatext cfg total i (c :: r) s; Some (t, true)).
Proof.
  intros E N1 N2. unfold linetext. rewrite E. destruct c as [|q|q]; auto.
  do 6 (try (destruct q as [q|q|]; [| |try congruence; try reflexivity])); try reflexivity; congruence.
Qed.

(** ** Areas *)
Lemma linked_b i a : linked i a <-> exists t, find (isnode i) (ar_tn (fa_ar a)) = Some t.
Proof.
  unfold linked. rewrite find_own. destruct (own i (ar_tn (fa_ar a))); cbn [hd_error]; split; try congruence; eauto.
  intros (t & H). discriminate.
Qed.
Lemma notlinked i a : find (isnode i) (ar_tn (fa_ar a)) = None -> ~ linked i a.
Proof. intros E H. apply linked_b in H as (t & H). congruence. Qed.
Lemma ro_b c a : flag (ar_flags a) AREA_DEFREADONLY || CheckFlags (ar_group a) (cn_rogroups c) = true <-> readonly_for c a.
Proof. unfold readonly_for. rewrite orb_true_iff, <- has_flag, check_In. tauto. Qed.
Lemma use_b c g : CheckFlags g (cn_groups c) || CheckFlags g (cn_rogroups c) = true <-> mayuse c g.
Proof. unfold mayuse. rewrite orb_true_iff, !check_In. tauto. Qed.
Lemma add_tells c i w buf a p : tells c i w buf a CAdd (fst (add1 c i a p)) (addtext c i w buf a).
Proof.
  unfold add1, addtext. destruct (find (isnode i) (ar_tn (fa_ar a))) as [t|] eqn:F.
  - cbn [fst]. apply t_already; [apply linked_b; eauto|apply say_ok].
  - apply notlinked in F. destruct (_ || _) eqn:U.
    + apply use_b in U. destruct (existsb (Nat.eqb i) (fa_ban a)) eqn:B; cbn [fst].
      * apply t_banned; auto; [apply existsb_eqb; exact B|apply say_ok].
      * assert (M : mayattach c i a). { split; [exact U|]. intros K. apply existsb_eqb in K. congruence. }
        destruct (flag (ar_flags (fa_ar a)) AREA_DEFREADONLY || CheckFlags (ar_group (fa_ar a)) (cn_rogroups c)) eqn:R.
        -- apply t_readonly; auto; [apply ro_b; exact R|apply say_ok].
        -- apply t_attached; auto; [rewrite <- ro_b; congruence|apply say_ok].
    + cbn [fst]. apply t_closed; [exact F|rewrite <- use_b; congruence|]. destruct w; [reflexivity|apply acr_ok].
Qed.
Lemma detach_b a t : flag (ar_flags a) AREA_MANDATORY && negb (flag (tn_flags t) TOSSNODE_FEED) = true <-> ~ maydetach a t.
Proof.
  unfold maydetach, isfeed. rewrite andb_true_iff, negb_true_iff, <- hasnot_flag, <- has_flag. split; [intros (H1 & H2) K; auto|].
  intros H. destruct (flag (ar_flags a) AREA_MANDATORY) eqn:E1; [|apply hasnot_flag in E1; tauto]. destruct (flag (tn_flags t) TOSSNODE_FEED) eqn:E2.
  - apply has_flag in E2. tauto.
  - apply has_flag in E1. apply hasnot_flag in E2. tauto.
Qed.
Lemma rem_tells cfg nodes c i w buf a p a' p' : rem1 cfg nodes i w a p = Some (a', p') -> tells c i w buf a CRemove a' (remtext i w buf a).
Proof.
  unfold rem1, remtext. rewrite find_own. destruct (own i (ar_tn (fa_ar a))) as [|t r] eqn:O; cbn [hd_error].
  - intros E. injection E as <- <-. apply t_notlinked; [unfold linked; congruence|]. destruct w; [reflexivity|apply acr_ok].
  - destruct (remfirst_split _ _ _ _ O) as (l1 & l2 & El & O1 & Nt & Er). destruct (_ && _) eqn:D.
    + intros E. injection E as <- <-. eapply t_bound; eauto; [apply detach_b; exact D|apply say_ok].
    + intros E. assert (X : ar_tag (fa_ar a') = tagof a /\ ar_tn (fa_ar a') = l1 ++ l2).
      { rewrite Er in E. destruct (flag (tn_flags t) TOSSNODE_FEED && flag (fc_flags cfg) CFG_REMOVEWHENFEED).
        - destruct (SendRemoveMessages _ _ _); cbn [obind] in E; [|discriminate]. injection E as <- <-. auto.
        - destruct (flag (fc_flags cfg) CFG_AREAFIXREMOVE); [|injection E as <- <-; auto].
          destruct (l1 ++ l2) as [|u [|v l]] eqn:L; [destruct (ar_mb (fa_ar a)) in E|destruct (_ && _) in E|]; injection E as <- <-; auto. }
      destruct X as [X1 X2]. eapply t_detached; eauto; [|apply say_ok].
      intros Hm. apply has_flag in Hm. unfold isfeed. rewrite has_flag. rewrite Hm in D. cbn [andb] in D. apply negb_false_iff in D. exact D.
Qed.

Lemma upd_tells c i w buf a p : tells c i w buf a CUpdate (fst (upd1 i w a p)) (updtext i w buf a).
Proof.
  unfold upd1, updtext. destruct (find (isnode i) (ar_tn (fa_ar a))) as [t|] eqn:F; cbn [fst].
  - apply t_update; [apply linked_b; eauto|apply say_ok].
  - apply t_noupdate. apply notlinked. exact F.
Qed.
Lemma loop_tells cfg nodes i cmd w buf pat : forall l p l' p', arealoop cfg nodes i cmd w pat l p = Some (l', p') ->
  exists xs, Forall2 (outcome (an_cn (getan nodes i)) i w buf pat cmd) l xs /\ map fst xs = l' /\ map snd xs = map (onetext (an_cn (getan nodes i)) i cmd w buf pat) l.
Proof.
  induction l as [|a r IH]; intros p l' p'; cbn [arealoop].
  - intros E. injection E as <- <-. exists []. repeat split; constructor.
  - destruct (if _ && _ then _ else _) as [[a' q]|] eqn:E; cbn [obind]; [|discriminate]. cbn [fst snd].
    destruct (arealoop cfg nodes i cmd w pat r q) as [[r' q']|] eqn:E2; cbn [obind]; [|discriminate]. intros E3. injection E3 as <- <-. cbn [fst snd].
    destruct (IH _ _ _ E2) as (xs & F & E4 & E5). exists ((a', onetext (an_cn (getan nodes i)) i cmd w buf pat a) :: xs). cbn [map fst snd]. rewrite E4, E5.
    split; [|split; reflexivity]. constructor; [|exact F]. unfold onetext, outcome. destruct (_ && _) eqn:T.
    + left. apply selects_b in T. split; [exact T|]. cbn [fst snd]. destruct cmd.
      * injection E as E. pose proof (add_tells (an_cn (getan nodes i)) i w buf a p) as K. rewrite E in K. exact K.
      * eapply rem_tells. exact E.
      * injection E as E. pose proof (upd_tells (an_cn (getan nodes i)) i w buf a p) as K. rewrite E in K. exact K.
    + right. injection E as <- <-. split; [rewrite <- selects_b; congruence|reflexivity].
Qed.
(** The answer to a line that names areas says about each area it selects what was done to it *)
Theorem C78_areas cfg rescan total i rt cmd pat line s s' t d w : names cmd pat line -> (w = true <-> wild pat) ->
  afline cfg rescan i rt line s = Some (s', true) -> linetext cfg total i line s = Some (t, d) ->
  exists xs more new, Forall2 (outcome (an_cn (getan (fs_nodes s) i)) i w (stripleadtrail line) pat cmd) (fs_areas s) xs /\
    t = (if w then [stripleadtrail line; []] else []) ++ concat (map snd xs) ++ more /\
    fs_areas s' = filter (fun a => negb (ar_type (fa_ar a) =? AREATYPE_DELETED)) (map fst xs ++ new).
Proof.
  intros N Hw Ha Ht. destruct (names_parse _ _ _ N) as (c & r & opt & E1 & N1 & N2 & E2). rewrite (afline_dispatch _ _ _ _ _ _ _ _ E1 N1 N2) in Ha. rewrite (linetext_dispatch _ _ _ _ _ _ _ E1 N1 N2) in Ht.
  assert (W : osIsPattern pat = w). { pose proof (osis_wild pat) as K. destruct (osIsPattern pat), w; try reflexivity; exfalso; intuition congruence. }
  unfold areacmd in Ha. unfold areatext in Ht. rewrite E2, W in Ha, Ht. rewrite E1.
  destruct (arealoop cfg (fs_nodes s) i cmd w pat (fs_areas s) (LP false false None [])) as [[l' p']|] eqn:L; cbn [obind] in Ha, Ht; [|discriminate].
  destruct (loop_tells _ _ _ _ _ (c :: r) _ _ _ _ _ L) as (xs & F & X1 & X2). injection Ht as <- <-. exists xs.
  assert (G : exists new, fs_areas s' = RemoveDeletedAreas (l' ++ new)).
  { destruct (rescanof _ _ _ _ _) as [[tag num]|]; cbn [obind] in Ha.
    - destruct (rescan tag num); [|discriminate]. injection Ha as <-. exists []. rewrite app_nil_r. reflexivity.
    - destruct cmd; try (cbn [obind] in Ha; injection Ha as <-; exists []; rewrite app_nil_r; reflexivity).
      destruct (_ && _); [|cbn [obind] in Ha; injection Ha as <-; exists []; rewrite app_nil_r; reflexivity].
      destruct (forward _ _ _ _ _) as [s2|] eqn:Fw; cbn [obind] in Ha; [|discriminate]. injection Ha as <-. cbn [fs_areas].
      unfold forward in Fw. cbn [fs_nodes fs_areas fs_want fs_global fs_ev] in Fw. destruct (flag _ _); [|injection Fw as <-; exists []; rewrite app_nil_r; reflexivity].
      destruct (FindForward _ _ _); [|injection Fw as <-; exists []; rewrite app_nil_r; reflexivity]. destruct (Nat.ltb _ _); [|discriminate].
      destruct (AddArea _ _ _ _ _ _ _); [|discriminate]. injection Fw as <-. eexists. reflexivity. }
  destruct G as (new & G). eexists _, new. split; [exact F|]. split; [rewrite X2; reflexivity|]. rewrite X1. exact G.
Qed.
Print Assumptions C78_areas.

(** ** Nothing selected *)
Lemma noloop cfg nodes i cmd w pat l p : (forall a, In a l -> ~ selects pat a) -> arealoop cfg nodes i cmd w pat l p = Some (l, p).
Proof.
  induction l as [|a r IH]; intros H; cbn [arealoop]; [reflexivity|]. destruct (_ && _) eqn:T; [apply selects_b in T; exfalso; apply (H a); [left; reflexivity|exact T]|].
  cbn [obind snd]. rewrite IH by (intros b Hb; apply H; right; exact Hb). reflexivity.
Qed.
Lemma notext c i cmd w buf pat l : (forall a, In a l -> ~ selects pat a) -> concat (map (onetext c i cmd w buf pat) l) = [].
Proof.
  induction l as [|a r IH]; intros H; [reflexivity|]. cbn [map concat]. rewrite IH by (intros b Hb; apply H; right; exact Hb). unfold onetext.
  destruct (_ && _) eqn:T; [apply selects_b in T; exfalso; apply (H a); [left; reflexivity|exact T]|reflexivity].
Qed.
Lemma linked_toss l i f : own i (AddTossNode l i f) <> [].
Proof.
  unfold AddTossNode. destruct (existsb _ l) eqn:E.
  - apply existsb_exists in E as (t & Ht & Et). intros K. assert (In t (own i l)) as H by (apply filter_In; split; auto). rewrite K in H. destruct H.
  - rewrite own_app. cbn [own filter tn_node]. rewrite Nat.eqb_refl. destruct (own i l); discriminate.
Qed.
(** A name that selects no area: it is asked for at another system, the new area is linked to the node
    and the answer names that system; or nothing is done and the answer says so *)
Theorem C78_unknown cfg rescan total i rt cmd pat line s s' t d : names cmd pat line -> ~ wild pat -> (forall a, In a (fs_areas s) -> ~ selects pat a) -> live (fs_areas s) ->
  afline cfg rescan i rt line s = Some (s', true) -> linetext cfg total i line s = Some (t, d) ->
  (fs_areas s' = fs_areas s /\ fs_nodes s' = fs_nodes s /\ fs_ev s' = fs_ev s /\
     answer_to (stripleadtrail line) (match cmd with CUpdate => lit "You are not attached to this area" | _ => lit "Unknown area" end) t) \/
  (cmd = CAdd /\ exists al a text, In al (fc_alists cfg) /\ listed al pat /\ linked i a /\ fs_areas s' = fs_areas s ++ [a] /\ tagof a = pat /\
     fs_ev s' = fs_ev s ++ [FRemote (al_node al) text] /\
     answer_to (stripleadtrail line) (lit "Request sent to " ++ full (cn_node (an_cn (getan (fs_nodes s) (al_node al))))) t).
Proof.
  intros N Hw Hn Lv Ha Ht. destruct (names_parse _ _ _ N) as (c & r & opt & E1 & N1 & N2 & E2). rewrite (afline_dispatch _ _ _ _ _ _ _ _ E1 N1 N2) in Ha. rewrite (linetext_dispatch _ _ _ _ _ _ _ E1 N1 N2) in Ht.
  assert (W : osIsPattern pat = false). { pose proof (osis_wild pat) as K. destruct (osIsPattern pat); [exfalso; tauto|reflexivity]. }
  unfold areacmd in Ha. unfold areatext in Ht. rewrite E2, W in Ha, Ht. rewrite E1. rewrite noloop in Ha, Ht by exact Hn. cbn [obind] in Ha, Ht. rewrite notext in Ht by exact Hn.
  cbn [app snd rescantext lp_rescan endtext lp_done lp_exists rescanof] in Ht, Ha. rewrite app_nil_r in Ht. injection Ht as <- <-.
  destruct cmd; cbn [obind negb andb] in Ha.
  2,3: injection Ha as <-; cbn [fs_areas fs_nodes fs_ev lp_ev]; left; rewrite removed_live by exact Lv; rewrite app_nil_r; repeat split; apply acr_ok.
  destruct (forward _ _ _ _ _) as [s2|] eqn:Fw; cbn [obind] in Ha; [|discriminate]. injection Ha as <-. cbn [fs_areas fs_nodes fs_ev].
  unfold forward in Fw. cbn [fs_nodes fs_areas fs_want fs_global fs_ev] in Fw. cbn [endtext lp_done lp_exists].
  destruct (flag _ _) eqn:Fl.
  - destruct (FindForward _ _ _) as [al|] eqn:FF.
    + right. split; [reflexivity|]. destruct (Nat.ltb _ _); [|discriminate]. destruct (AddArea _ _ _ _ _ _ _) as [a|] eqn:AA; [|discriminate]. injection Fw as <-. cbn [fs_areas fs_nodes fs_ev lp_ev].
      pose proof (AddArea_facts _ _ _ _ _ _ _ _ AA) as FX. unfold FindForward in FF. apply find_some in FF as (FI & FB).
      exists al, (FA (set_tn (set_group a (al_group al)) (AddTossNode (ar_tn a) i (if CheckFlags (al_group al) (cn_rogroups (an_cn (getan (fs_nodes s) i))) then TOSSNODE_READONLY else 0))) [] true). eexists. split; [exact FI|]. split.
      { destruct (al_lines al) as [ls|] eqn:AL; [|rewrite !andb_false_r in FB; discriminate]. apply andb_true_iff in FB as (_ & FB). apply existsb_exists in FB as (x & Hx & Sx). exists ls, x. split; [exact AL|]. split; [exact Hx|]. apply samei_streqi. exact Sx. }
      split; [unfold linked; cbn [fa_ar ar_tn set_tn]; apply linked_toss|]. split; [unfold RemoveDeletedAreas; rewrite filter_app; fold (RemoveDeletedAreas (fs_areas s)); rewrite removed_live by exact Lv; cbn [filter fa_ar ar_type set_tn set_group]; rewrite (proj2 FX); reflexivity|].
      split; [exact (proj1 FX)|]. rewrite app_nil_r. split; [reflexivity|]. apply acr_ok.
    + left. injection Fw as <-. cbn [fs_areas fs_nodes fs_ev lp_ev]. rewrite removed_live by exact Lv. rewrite app_nil_r. repeat split. apply acr_ok.
  - left. injection Fw as <-. cbn [fs_areas fs_nodes fs_ev lp_ev]. rewrite removed_live by exact Lv. rewrite app_nil_r. repeat split. apply acr_ok.
Qed.
Print Assumptions C78_unknown.

(** ** Every command is answered *)
Definition headed (buf : list Z) (t : list (list Z)) : Prop := exists x r, t = (buf ++ x) :: r.
Lemma headed_acr buf r m : headed buf (AddCommandReply buf r ++ m).
Proof. destruct (acr_head buf r) as (x & y & ->). exists x, (y ++ m). reflexivity. Qed.
Lemma headed_app buf t m : headed buf t -> headed buf (t ++ m).
Proof. intros (x & r & ->). exists x, (r ++ m). reflexivity. Qed.
Lemma headed_self buf r : headed buf (buf :: r).
Proof. exists [], r. rewrite app_nil_r. reflexivity. Qed.
Lemma acr_headed buf r : headed buf (AddCommandReply buf r).
Proof. rewrite <- (app_nil_r (AddCommandReply buf r)). apply headed_acr. Qed.
Lemma loop_headed cfg nodes i cmd buf pat : forall l p l' p', arealoop cfg nodes i cmd false pat l p = Some (l', p') ->
  let t := concat (map (onetext (an_cn (getan nodes i)) i cmd false buf pat) l) in
  headed buf t \/ (t = [] /\ lp_done p' = lp_done p /\ (cmd = CAdd -> lp_exists p' = lp_exists p)).
Proof.
  induction l as [|a r IH]; intros p l' p'; cbn [arealoop map concat].
  - intros E. injection E as <- <-. right. auto.
  - destruct (if _ && _ then _ else _) as [[a' q]|] eqn:E; cbn [obind]; [|discriminate]. cbn [fst snd].
    destruct (arealoop cfg nodes i cmd false pat r q) as [[r' q']|] eqn:E2; cbn [obind]; [|discriminate]. intros E3. injection E3 as <- <-. cbn [snd].
    assert (X : headed buf (onetext (an_cn (getan nodes i)) i cmd false buf pat a) \/ (onetext (an_cn (getan nodes i)) i cmd false buf pat a = [] /\ lp_done q = lp_done p /\ (cmd = CAdd -> lp_exists q = lp_exists p))).
    { unfold onetext. destruct (_ && _) in E |- *; [|injection E as <- <-; right; auto]. destruct cmd.
      - left. unfold addtext, say. destruct (find _ _); [apply acr_headed|]. destruct (_ || _); [|apply acr_headed]. destruct (existsb _ _); [apply acr_headed|]. destruct (_ || _); apply acr_headed.
      - left. unfold remtext, say. destruct (find _ _); [|apply acr_headed]. destruct (_ && _); apply acr_headed.
      - unfold updtext, upd1, say in *. destruct (find _ _); [left; apply acr_headed|]. injection E as <- <-. right. repeat split; discriminate. }
    destruct X as [X|(-> & X1 & X2)]; [left; apply headed_app; exact X|]. cbn [app].
    destruct (IH _ _ _ E2) as [Y|(-> & Y1 & Y2)]; [left; exact Y|]. right. split; [reflexivity|]. split; [congruence|]. intros C. rewrite Y2, X2; auto.
Qed.
Lemma area_headed cfg total i buf s t : areatext cfg total i buf s = Some t -> headed buf t.
Proof.
  unfold areatext. destruct (parsecmd buf) as [[cmd pat] opt]. destruct (osIsPattern pat).
  - destruct (arealoop _ _ _ _ _ _ _ _) as [x|]; cbn [obind]; [|discriminate]. intros E. injection E as <-. apply headed_self.
  - destruct (arealoop _ _ _ _ _ _ _ _) as [[l' p]|] eqn:L; cbn [obind]; [|discriminate]. intros E. injection E as <-. cbn [app snd].
    destruct (loop_headed _ _ _ _ buf _ _ _ _ _ L) as [X|(-> & D & Ex)]; [apply headed_app; exact X|]. cbn [lp_done] in D. cbn [app].
    unfold rescantext. rewrite D. cbn [negb andb].
    replace (match lp_rescan p with Some _ => [] | None => [] end) with (@nil (list Z)) by (destruct (lp_rescan p); reflexivity). cbn [app].
    apply headed_app. unfold endtext. rewrite D. destruct cmd; try apply acr_headed. rewrite (Ex eq_refl). cbn [lp_exists]. destruct (if flag _ _ then _ else _); apply acr_headed.
Qed.
Lemma pct_answer cfg i buf s t d : pcttext cfg i buf s = Some (t, d) -> exists r m, t = AddCommandReply buf r ++ m.
Proof.
  unfold pcttext. destruct (jbstrcpy (repeat 0 100) buf 100) as [[[b|] g] rest]; [|discriminate].
  assert (Z : forall r, exists r' m, AddCommandReply buf r = AddCommandReply buf r' ++ m) by (intros r; exists r, []; rewrite app_nil_r; reflexivity).
  destruct (streqi _ (lit "%PAUSE")); [destruct (flag _ _); intros E; injection E as <- <-; eauto|].
  destruct (streqi _ (lit "%RESUME")); [destruct (flag _ _); intros E; injection E as <- <-; eauto|].
  destruct (streqi _ (lit "%PWD")); [destruct (jbstrcpy b rest 40) as [[[b2|] []] ?]; try discriminate; intros E; injection E as <- <-; eauto|].
  destruct (streqi _ (lit "%RESCAN")); [destruct (flag _ _); intros E; injection E as <- <-; eauto|].
  destruct (streqi _ (lit "%COMPRESS")).
  { destruct (jbstrcpy b rest 40) as [[[b2|] []] ?]; try discriminate; intros E; injection E as <- <-; eauto.
    destruct (_ =? 63); [eauto|]. destruct (streqi _ _); [eauto|]. destruct (findpacker _ _); eauto. }
  repeat (destruct (streqi _ _); [intros E; injection E as <- <-; eauto|]). intros E; injection E as <- <-; eauto.
Qed.
(** Every line of a request that is not empty and no kludge is answered, and the answer starts with
    the line *)
Theorem C78_answered cfg total i raw s t d c r : stripleadtrail raw = c :: r -> c <> 1 -> linetext cfg total i raw s = Some (t, d) ->
  exists x more, t = ((c :: r) ++ x) :: more.
Proof.
  intros E N H. destruct (Z.eq_dec c 37) as [->|N2].
  - unfold linetext in H. rewrite E in H. apply pct_answer in H as (r' & m & ->). apply headed_acr.
  - rewrite (linetext_dispatch _ _ _ _ _ _ _ E N N2) in H. destruct (areatext _ _ _ _ _) as [t'|] eqn:A; cbn [obind] in H; [|discriminate]. injection H as <- <-. eapply area_headed. exact A.
Qed.
Print Assumptions C78_answered.

(** ** Settings *)
Lemma getan_set s i n : nth_error (fs_nodes s) i <> None -> getan (fs_nodes (set_node s i n)) i = n.
Proof.
  intros H. unfold getan, set_node. cbn [fs_nodes]. revert i H. induction (fs_nodes s) as [|x l IH]; intros i H; [destruct i; exfalso; apply H; reflexivity|].
  destruct i as [|i]; [reflexivity|]. cbn [setnth nth]. apply IH. exact H.
Qed.
Lemma lor_passive f : has (Z.lor f NODE_PASSIVE) NODE_PASSIVE.
Proof. unfold has, NODE_PASSIVE. rewrite Z.land_lor_distr_l. intros K. apply Z.lor_eq_0_iff in K as [_ K]. discriminate. Qed.
Lemma ldiff_passive f : ~ has (Z.ldiff f NODE_PASSIVE) NODE_PASSIVE.
Proof. unfold has. intros K. apply K. rewrite Z.ldiff_land, <- Z.land_assoc, (Z.land_comm (Z.lnot _)), Z.land_lnot_diag. apply Z.land_0_r. Qed.
Lemma notch r : existsb (streq r) changes = false -> ~ In r changes.
Proof. intros E H. assert (existsb (streq r) changes = true) by (apply existsb_exists; exists r; split; [exact H|apply streq_true; reflexivity]). congruence. Qed.
Lemma settled_same r n : existsb (streq r) changes = false -> settled n n r.
Proof.
  intros E. apply notch in E. unfold settled. cbv zeta. split; [intros ->; exfalso; apply E; cbn [changes In]; tauto|]. split; [intros ->; exfalso; apply E; cbn [changes In]; tauto|]. tauto.
Qed.
(** A command that starts with % changes the settings of the node if and only if the answer says so *)
Theorem C78_settings cfg rescan total i rt raw s s' t d r0 : stripleadtrail raw = 37 :: r0 -> nth_error (fs_nodes s) i <> None ->
  afline cfg rescan i rt raw s = Some (s', true) -> linetext cfg total i raw s = Some (t, d) ->
  exists r ls m, answer_to (37 :: r0) r ls /\ t = ls ++ m /\ settled (getan (fs_nodes s) i) (getan (fs_nodes s') i) r.
Proof.
  intros E Hi Ha Ht. unfold afline in Ha. unfold linetext in Ht. rewrite E in Ha, Ht. destruct (pctcmd cfg i (37 :: r0) s) as [s1|] eqn:P; cbn [obind] in Ha; [|discriminate]. injection Ha as <-. cbn [fs_nodes].
  cut (exists r m, t = AddCommandReply (37 :: r0) r ++ m /\ settled (getan (fs_nodes s) i) (getan (fs_nodes s1) i) r).
  { intros (r & m & -> & H). exists r, (AddCommandReply (37 :: r0) r), m. split; [apply acr_ok|]. split; [reflexivity|exact H]. }
  assert (Z : forall r s2, existsb (streq r) changes = false -> fs_nodes s2 = fs_nodes s -> exists r' m, AddCommandReply (37 :: r0) r = AddCommandReply (37 :: r0) r' ++ m /\ settled (getan (fs_nodes s) i) (getan (fs_nodes s2) i) r').
  { intros r s2 H ->. exists r, []. rewrite app_nil_r. split; [reflexivity|]. apply settled_same. exact H. }
  assert (Y : forall r m n, settled (getan (fs_nodes s) i) n r -> exists r' m', AddCommandReply (37 :: r0) r ++ m = AddCommandReply (37 :: r0) r' ++ m' /\ settled (getan (fs_nodes s) i) (getan (fs_nodes (set_node s i n)) i) r').
  { intros r m n H. exists r, m. split; [reflexivity|]. rewrite getan_set by exact Hi. exact H. }
  assert (Y0 : forall r n, settled (getan (fs_nodes s) i) n r -> exists r' m', AddCommandReply (37 :: r0) r = AddCommandReply (37 :: r0) r' ++ m' /\ settled (getan (fs_nodes s) i) (getan (fs_nodes (set_node s i n)) i) r').
  { intros r n H. destruct (Y r [] n H) as (r' & m' & E' & K). rewrite app_nil_r in E'. eauto. }
  unfold pctcmd in P. unfold pcttext in Ht. destruct (jbstrcpy (repeat 0 100) (37 :: r0) 100) as [[[b|] g] rest]; [|discriminate].
  destruct (streqi _ (lit "%PAUSE")).
  { destruct (flag _ _) eqn:F; injection P as <-; injection Ht as <- <-; [apply Z; reflexivity|]. apply Y. unfold settled. cbv zeta. cbn [an_cn an_packer an_changed].
    split; [intros _; split; [apply hasnot_flag; exact F|apply lor_passive]|]. split; [intros K; vm_compute in K; discriminate|]. split; [intros K; exfalso; apply K; left; reflexivity|]. repeat split. }
  destruct (streqi _ (lit "%RESUME")).
  { destruct (flag _ _) eqn:F; injection P as <-; injection Ht as <- <-; [|apply Z; reflexivity]. apply Y0. unfold settled. cbv zeta. cbn [an_cn an_packer an_changed].
    split; [intros K; vm_compute in K; discriminate|]. split; [intros _; split; [apply has_flag; exact F|apply ldiff_passive]|]. split; [intros K; exfalso; apply K; right; left; reflexivity|]. repeat split. }
  destruct (streqi _ (lit "%PWD")).
  { destruct (jbstrcpy b rest 40) as [[[b2|] []] ?]; try discriminate; injection P as <-; injection Ht as <- <-; [|apply Z; reflexivity]. apply Y0. unfold settled. cbv zeta. cbn [an_cn an_packer an_changed].
    split; [intros K; vm_compute in K; discriminate|]. split; [intros K; vm_compute in K; discriminate|]. split; [intros K; exfalso; apply K; do 2 right; left; reflexivity|]. split; [intros K; congruence|]. repeat split. }
  destruct (streqi _ (lit "%RESCAN")).
  { destruct (flag _ _); injection P as <-; injection Ht as <- <-; apply Z; reflexivity. }
  assert (PK : forall k, settled (getan (fs_nodes s) i) (AN (an_cn (getan (fs_nodes s) i)) k true) (lit "Packed changed")).
  { intros k. unfold settled. cbv zeta. cbn [an_cn an_packer an_changed].
    split; [intros K; vm_compute in K; discriminate|]. split; [intros K; vm_compute in K; discriminate|]. split; [intros K; exfalso; apply K; do 3 right; left; reflexivity|]. split; [reflexivity|]. split; [intros K; congruence|reflexivity]. }
  destruct (streqi _ (lit "%COMPRESS")).
  { destruct (jbstrcpy b rest 40) as [[[b2|] []] ?]; try discriminate; [|injection P as <-; injection Ht as <- <-; apply Z; reflexivity].
    destruct (_ =? 63); [injection P as <-; injection Ht as <- <-; eexists _, _; split; [reflexivity|]; apply settled_same; reflexivity|].
    destruct (streqi _ (lit "NONE")); [injection P as <-; injection Ht as <- <-; apply Y0; apply PK|].
    destruct (findpacker _ _); injection P as <-; injection Ht as <- <-; [apply Y0; apply PK|eexists _, _; split; [reflexivity|]; apply settled_same; reflexivity]. }
  repeat (destruct (streqi _ _); [injection P as <-; injection Ht as <- <-; apply Z; reflexivity|]). injection P as <-; injection Ht as <- <-; apply Z; reflexivity.
Qed.
Print Assumptions C78_settings.

(** ** Lengths *)
Definition good (l : list Z) : Prop := (length l <= 198)%nat /\ hd 0 l <> 1.
Lemma acr_good buf r : (length buf <= 99)%nat -> hd 0 buf <> 1 -> (length r <= 160)%nat -> Forall good (AddCommandReply buf r).
Proof.
  intros H1 H2 H3. unfold AddCommandReply, pad30. destruct (Nat.leb_spec (length buf) 30) as [L|L].
  - constructor; [|constructor]. split; [rewrite !app_length, repeat_length; change (length (lit " ")) with 1%nat; lia|]. destruct buf as [|c b]; [cbn; lia|exact H2].
  - constructor; [split; [lia|exact H2]|]. constructor; [|constructor]. split; [rewrite !app_length, repeat_length; change (length (lit " ")) with 1%nat; cbn [length]; lia|cbn; lia].
Qed.
Lemma say_good w buf l r : (length buf <= 99)%nat -> hd 0 buf <> 1 -> (length r <= 160)%nat -> (length l <= 198)%nat -> hd 0 l <> 1 -> Forall good (say w buf l r).
Proof. intros. destruct w; cbn [say]; [constructor; [split; assumption|constructor]|apply acr_good; assumption]. Qed.
Ltac shortlit := let n := fresh in match goal with |- context [length (lit ?s)] => let v := eval vm_compute in (length (lit s)) in change (length (lit s)) with v end.
Ltac sg := apply say_good; [assumption|assumption|rewrite ?app_length; repeat shortlit; lia|rewrite ?app_length; repeat shortlit; lia|cbn; lia].
Lemma one_good c i cmd w buf pat a : (length buf <= 99)%nat -> hd 0 buf <> 1 -> (length (ar_tag (fa_ar a)) <= 79)%nat -> Forall good (onetext c i cmd w buf pat a).
Proof.
  intros H1 H2 H3. unfold onetext. destruct (_ && _); [|constructor]. destruct cmd.
  - unfold addtext. destruct (find _ _); [sg|]. destruct (_ || _); [|destruct w; [constructor|apply acr_good; [assumption|assumption|repeat shortlit; lia]]]. destruct (existsb _ _); [sg|]. destruct (_ || _); sg.
  - unfold remtext. destruct (find _ _); [|destruct w; [constructor|apply acr_good; [assumption|assumption|repeat shortlit; lia]]]. destruct (_ && _); sg.
  - unfold updtext. destruct (find _ _); [sg|constructor].
Qed.
Lemma striplead_len s : (length (striplead s) <= length s)%nat.
Proof. induction s as [|c r IH]; cbn [striplead]; [lia|]. destruct (c =? 32); cbn [length]; lia. Qed.
Lemma striptrail_len s : (length (striptrail s) <= length s)%nat.
Proof. induction s as [|c r IH]; cbn [striptrail]; [lia|]. destruct (striptrail r); [destruct (isstrip c); cbn [length]; lia|cbn [length] in *; lia]. Qed.
Lemma lastcomma_len s a b : lastcomma s = Some (a, b) -> (length b <= length s)%nat.
Proof.
  revert a. induction s as [|c r IH]; intros a; cbn [lastcomma]; [discriminate|]. destruct (lastcomma r) as [[x y]|].
  - intros E. injection E as <- <-. specialize (IH x eq_refl). cbn [length]. lia.
  - destruct (c =? 44); [|discriminate]. intros E. injection E as <- <-. cbn [length]. lia.
Qed.
Lemma parse_len buf cmd name opt : parsecmd buf = (cmd, name, opt) -> (length opt <= length buf)%nat.
Proof.
  unfold parsecmd. set (x := match lastcomma buf with Some (a, b) => (a, striplead b) | None => (buf, []) end).
  assert (L : (length (snd x) <= length buf)%nat). { subst x. destruct (lastcomma buf) as [[a b]|] eqn:E; cbn [snd length]; [|lia]. pose proof (lastcomma_len _ _ _ E). pose proof (striplead_len b). lia. }
  destruct x as [n0 o0]. cbn [snd] in L. pose proof (striptrail_len o0). intros E.
  assert (X : opt = striptrail o0); [|subst; lia].
  destruct (striptrail n0) as [|c r]; [injection E; auto|]. destruct c as [|q|q]; [injection E; auto| |injection E; auto].
  do 6 (try (destruct q as [q|q|]; [| |try (injection E; auto)])); try (injection E; auto).
Qed.
Lemma strneqi_nil2 : strneqi 2 [] (lit "r=") = false.
Proof. reflexivity. Qed.
Lemma blank_good r : (length r <= 160)%nat -> good (pad30 [] ++ r).
Proof. intros H. split; [unfold pad30; rewrite !app_length, repeat_length; cbn [length]; lia|cbn; lia]. Qed.
Lemma full_len n : valid4d n -> (length (four n) <= 23)%nat.
Proof.
  intros (H1 & H2 & H3 & H4). unfold four. rewrite !app_length. pose proof (dec_length_u16 _ H1). pose proof (dec_length_u16 _ H2). pose proof (dec_length_u16 _ H3). pose proof (dec_length_u16 _ H4). repeat shortlit. lia.
Qed.
Lemma getan_valid nodes j : Forall (fun n => valid4d (cn_node (an_cn n))) nodes -> valid4d (cn_node (an_cn (getan nodes j))).
Proof.
  intros H. unfold getan. destruct (Nat.lt_ge_cases j (length nodes)) as [L|L]; [|rewrite nth_overflow by exact L; repeat split; cbn; unfold is_u16; lia].
  rewrite Forall_forall in H. apply H. apply nth_In. exact L.
Qed.
Ltac g1 := apply Forall_cons; [split; [repeat shortlit; cbn [length]; lia|cbn; lia]|apply Forall_nil].
Lemma area_good cfg total i buf s t : (length buf <= 99)%nat -> hd 0 buf <> 1 -> config_fits cfg s -> areatext cfg total i buf s = Some t -> Forall good t.
Proof.
  intros H1 H2 (T1 & T2 & T3). unfold areatext. destruct (parsecmd buf) as [[cmd pat] opt] eqn:P. apply parse_len in P.
  destruct (arealoop _ _ _ _ _ _ _ _) as [[l' p]|] eqn:L; cbn [obind]; [|discriminate]. intros E. injection E as <-. cbn [snd]. rewrite !Forall_app. repeat split.
  - destruct (osIsPattern pat); [|constructor]. apply Forall_cons; [split; [lia|exact H2]|g1].
  - apply Forall_concat, Forall_map. eapply Forall_impl; [|exact T1]. intros a Ha. apply one_good; assumption.
  - unfold rescantext. destruct (lp_rescan p) as [a|]; [|constructor]. destruct (_ && _); [|constructor]. apply Forall_app. split.
    + destruct (strneqi _ _ _); [constructor|]. destruct opt as [|c o]; [constructor|]. constructor; [|constructor]. apply blank_good. rewrite app_length. repeat shortlit. lia.
    + destruct (_ || _); [|constructor]. destruct (flag _ _); [|constructor; [apply blank_good; repeat shortlit; lia|constructor]]. destruct (ar_mb _); (apply Forall_cons; [apply blank_good|apply Forall_nil]); [|repeat shortlit; lia].
      rewrite !app_length. match goal with |- context [dec (u32 ?z)] => pose proof (dec_length_u32 (u32 z) ltac:(unfold is_u32, u32; pose proof (Z.mod_pos_bound z 4294967296 ltac:(lia)); lia)) end. repeat shortlit. lia.
  - unfold endtext. destruct cmd.
    + destruct (lp_done p); [constructor|]. destruct (osIsPattern pat); [g1|]. destruct (lp_exists p); [constructor|].
      destruct (if flag _ _ then _ else _) as [al|]; apply acr_good; try assumption; [|repeat shortlit; lia]. rewrite app_length. pose proof (full_len _ (getan_valid _ (al_node al) T3)). repeat shortlit. lia.
    + destruct (lp_done p); [constructor|]. destruct (osIsPattern pat); [g1|]. apply acr_good; try assumption. repeat shortlit. lia.
    + destruct (lp_done p); [destruct (lp_rescan p); [|constructor]; destruct opt; [|constructor]; destruct (fs_global s); [constructor|]|destruct (osIsPattern pat); [g1|]]; apply acr_good; try assumption; repeat shortlit; lia.
  - destruct (osIsPattern pat); [g1|constructor].
Qed.
Lemma packers_good cfg : Forall (fun p => (length (fst p) <= 9)%nat) (fc_packers cfg) -> Forall good (packerlist cfg).
Proof.
  intros H. unfold packerlist. apply Forall_app. split; [|apply acr_good; cbn; lia]. apply Forall_concat, Forall_map. rewrite Forall_forall in *. intros p Hp. apply filter_In in Hp as [Hp _]. apply acr_good; [cbn; lia|cbn; lia|]. specialize (H _ Hp). lia.
Qed.
Lemma pct_good cfg i buf s t d : (length buf <= 99)%nat -> hd 0 buf <> 1 -> config_fits cfg s -> pcttext cfg i buf s = Some (t, d) -> Forall good t.
Proof.
  intros H1 H2 (_ & T2 & _). pose proof (packers_good _ T2) as PG. unfold pcttext. destruct (jbstrcpy (repeat 0 100) buf 100) as [[[b|] g] rest]; [|discriminate].
  assert (A : forall r, (length r <= 160)%nat -> Forall good (AddCommandReply buf r)) by (intros r Hr; apply acr_good; assumption).
  assert (B : forall r m, (length r <= 160)%nat -> Forall good m -> Forall good (AddCommandReply buf r ++ m)) by (intros r m Hr Hm; apply Forall_app; auto).
  destruct (streqi _ (lit "%PAUSE")); [destruct (flag _ _); intros E; injection E as <- <-; [apply A; repeat shortlit; lia|apply B; [repeat shortlit; lia|apply acr_good; cbn; lia]]|].
  destruct (streqi _ (lit "%RESUME")); [destruct (flag _ _); intros E; injection E as <- <-; apply A; repeat shortlit; lia|].
  destruct (streqi _ (lit "%PWD")); [destruct (jbstrcpy b rest 40) as [[[b2|] []] ?]; try discriminate; intros E; injection E as <- <-; apply A; repeat shortlit; lia|].
  destruct (streqi _ (lit "%RESCAN")); [destruct (flag _ _); intros E; injection E as <- <-; apply A; repeat shortlit; lia|].
  destruct (streqi _ (lit "%COMPRESS")).
  { destruct (jbstrcpy b rest 40) as [[[b2|] []] ?]; try discriminate; intros E; injection E as <- <-; [|apply A; repeat shortlit; lia].
    destruct (_ =? 63); [apply B; [repeat shortlit; lia|exact PG]|]. destruct (streqi _ _); [apply A; repeat shortlit; lia|]. destruct (findpacker _ _); [apply A; repeat shortlit; lia|apply B; [repeat shortlit; lia|exact PG]]. }
  repeat (destruct (streqi _ _); [intros E; injection E as <- <-; apply A; repeat shortlit; lia|]). intros E; injection E as <- <-; apply A; repeat shortlit; lia.
Qed.
Lemma cstr_len s : (length (cstr s) <= length s)%nat.
Proof. induction s as [|c r IH]; cbn [cstr]; [lia|]. destruct (c =? 0); cbn [length]; lia. Qed.
Lemma line_good cfg total i raw s t d : (length raw < 100)%nat -> config_fits cfg s -> linetext cfg total i raw s = Some (t, d) -> Forall good t.
Proof.
  intros Hl Hf. assert (HL : (length (stripleadtrail raw) <= 99)%nat). { unfold stripleadtrail. pose proof (striptrail_len (striplead raw)). pose proof (striplead_len raw). lia. }
  destruct (stripleadtrail raw) as [|c r] eqn:E; [unfold linetext; rewrite E; intros K; injection K as <- <-; constructor|].
  destruct (Z.eq_dec c 1) as [->|N1]; [unfold linetext; rewrite E; intros K; injection K as <- <-; constructor|].
  destruct (Z.eq_dec c 37) as [->|N2]; [unfold linetext; rewrite E; apply pct_good; auto|].
  rewrite (linetext_dispatch _ _ _ _ _ _ _ E N1 N2). destruct (areatext _ _ _ _ _) as [t'|] eqn:A; cbn [obind]; [|discriminate]. intros K. injection K as <- <-. eapply area_good; [| | |exact A]; auto.
Qed.
Lemma tells_tag c i w buf a cmd a' ls : tells c i w buf a cmd a' ls -> tagof a' = tagof a.
Proof. destruct 1; auto. Qed.
Lemma fits_line cfg rescan i rt raw s s' ok : nth_error (fs_nodes s) i <> None -> config_fits cfg s -> afline cfg rescan i rt raw s = Some (s', ok) -> config_fits cfg s' /\ nth_error (fs_nodes s') i <> None.
Proof.
  intros Hi (T1 & T2 & T3) H.
  assert (R : forall l, Forall (fun a => (length (tagof a) <= 79)%nat) l -> Forall (fun a => (length (tagof a) <= 79)%nat) (RemoveDeletedAreas l)).
  { intros l Hl. rewrite Forall_forall in *. intros a Ha. apply filter_In in Ha as [Ha _]. auto. }
  unfold config_fits. destruct (stripleadtrail raw) as [|c r] eqn:E; [unfold afline in H; rewrite E in H; cbn [obind] in H; injection H as <- <-; cbn [fs_areas fs_nodes]; auto|].
  destruct (Z.eq_dec c 1) as [->|N1]; [unfold afline in H; rewrite E in H; cbn [obind] in H; injection H as <- <-; cbn [fs_areas fs_nodes]; auto|].
  destruct (Z.eq_dec c 37) as [->|N2].
  { unfold afline in H. rewrite E in H. destruct (pctcmd cfg i (37 :: r) s) as [s1|] eqn:P; cbn [obind] in H; [|discriminate]. injection H as <- <-. cbn [fs_areas fs_nodes].
    destruct (pctcmd_ok _ _ _ _ _ Hi P) as (-> & K1 & K2 & K3). split.
    - split; [auto|]. split; [exact T2|]. apply Forall_forall. intros n Hn. apply In_nth_error in Hn as (j & Hj). rewrite Forall_forall in T3. destruct (Nat.eq_dec j i) as [->|Nj].
      + destruct (nth_error (fs_nodes s) i) as [n0|] eqn:N0; [|congruence]. destruct (K3 _ eq_refl) as (m & Hm & Sm & _). rewrite Hj in Hm. injection Hm as <-. rewrite Sm. apply T3. eapply nth_error_In. exact N0.
      + rewrite K2 in Hj by exact Nj. apply T3. eapply nth_error_In. exact Hj.
    - apply nth_error_Some. rewrite K1. apply nth_error_Some. exact Hi. }
  rewrite (afline_dispatch _ _ _ _ _ _ _ _ E N1 N2) in H. unfold areacmd in H. destruct (parsecmd (c :: r)) as [[cmd pat] opt].
  destruct (arealoop _ _ _ _ _ _ _ _) as [[l' p']|] eqn:L; cbn [obind] in H; [|discriminate].
  assert (T1' : Forall (fun a => (length (tagof a) <= 79)%nat) l').
  { destruct (loop_tells _ _ _ _ _ (c :: r) _ _ _ _ _ L) as (xs & F & <- & _). clear -F T1. revert T1. induction F as [|a x l xs Ho F IH]; intros T1; cbn [map]; [constructor|]. inversion T1; subst. constructor; [|auto].
    destruct Ho as [[_ Ho]|[_ ->]]; [rewrite (tells_tag _ _ _ _ _ _ _ _ Ho); assumption|assumption]. }
  destruct (rescanof _ _ _ _ _) as [[tag num]|]; cbn [obind] in H.
  - destruct (rescan tag num); injection H as <- <-; cbn [fs_areas fs_nodes]; auto.
  - destruct cmd; try (cbn [obind] in H; injection H as <- <-; cbn [fs_areas fs_nodes]; auto; fail).
    destruct (_ && _); [|cbn [obind] in H; injection H as <- <-; cbn [fs_areas fs_nodes]; auto].
    destruct (forward _ _ _ _ _) as [s2|] eqn:Fw; cbn [obind] in H; [|discriminate]. injection H as <- <-. cbn [fs_areas fs_nodes].
    unfold forward in Fw. cbn [fs_nodes fs_areas fs_want fs_global fs_ev] in Fw. destruct (flag _ _); [|injection Fw as <-; cbn [fs_areas fs_nodes]; auto].
    destruct (FindForward _ _ _) as [al|]; [|injection Fw as <-; cbn [fs_areas fs_nodes]; auto]. destruct (Nat.ltb_spec (length pat) 80) as [LT|]; [|discriminate].
    destruct (AddArea _ _ _ _ _ _ _) as [a|] eqn:AA; [|discriminate]. injection Fw as <-. cbn [fs_areas fs_nodes]. split; [|exact Hi]. split; [|auto]. apply R. apply Forall_app. split; [exact T1'|]. constructor; [|constructor].
    unfold tagof. cbn [fa_ar ar_tag set_tn set_group]. rewrite (proj1 (AddArea_facts _ _ _ _ _ _ _ _ AA)). lia.
Qed.
Lemma chunk_good cfg rescan total i rt : forall fuel l s t s' h t', nth_error (fs_nodes s) i <> None -> config_fits cfg s -> Forall good (tx_lines t) ->
  chunktext cfg rescan total i rt fuel l s t = Some (s', h, t') -> nth_error (fs_nodes s') i <> None /\ config_fits cfg s' /\ Forall good (tx_lines t').
Proof.
  induction fuel as [|f IH]; intros l s t s' h t' Hi Hf Hg; cbn [chunktext]; [destruct l; [|discriminate]; intros E; injection E as <- <- <-; auto|].
  destruct l as [|z l]; [intros E; injection E as <- <- <-; auto|]. destruct (upto 100 (z :: l)) as [d rest]. destruct (Nat.ltb_spec (length d) 100) as [L|L]; [|discriminate].
  destruct (linetext _ _ _ _ _) as [[a da]|] eqn:A; cbn [obind]; [|discriminate]. destruct (afline _ _ _ _ _ _) as [[s1 ok]|] eqn:B; cbn [obind fst snd]; [|discriminate].
  assert (G : Forall good (tx_lines (addtx t (a, da)))). { cbn [addtx tx_lines fst]. apply Forall_app. split; [exact Hg|]. eapply line_good; [|exact Hf|exact A]. pose proof (cstr_len d). lia. }
  destruct (fits_line _ _ _ _ _ _ _ _ Hi Hf B) as [F1 F2].
  destruct ok; [|intros E; injection E as <- <- <-; auto]. destruct (isstop _); [intros E; injection E as <- <- <-; auto|]. apply IH; assumption.
Qed.
Lemma chunks_good cfg rescan total i rt : forall cs s t s' h t', nth_error (fs_nodes s) i <> None -> config_fits cfg s -> Forall good (tx_lines t) ->
  chunkstext cfg rescan total i rt cs s t = Some (s', h, t') -> Forall good (tx_lines t').
Proof.
  induction cs as [|l r IH]; intros s t s' h t' Hi Hf Hg; cbn [chunkstext]; [intros E; injection E as <- <- <-; auto|].
  destruct (chunktext _ _ _ _ _ _ _ _ _) as [[[s1 h1] t1]|] eqn:E; cbn [obind fst snd]; [|discriminate]. destruct (chunk_good _ _ _ _ _ _ _ _ _ _ _ _ Hi Hf Hg E) as (H1 & H2 & H3).
  destruct h1; [apply IH; assumption| |]; intros K; injection K as <- <- <-; assumption.
Qed.
Lemma findidx_some nodes n i : findidx (fun n => cn_node (an_cn n)) n nodes = Some i -> nth_error nodes i <> None.
Proof.
  revert i. induction nodes as [|x l IH]; intros i; cbn [findidx]; [discriminate|]. destruct (_ =? 0); [intros E; injection E as <-; discriminate|].
  destruct (findidx _ n l) as [j|]; cbn [option_map]; [|discriminate]. intros E. injection E as <-. cbn [nth_error]. apply IH. reflexivity.
Qed.
Lemma text_good nl cfg rescan total mm s from ls : config_fits cfg s -> AreaFixText nl cfg rescan total mm s = Some (Some (from, ls)) -> Forall good ls.
Proof.
  intros Hf. unfold AreaFixText. cbn [fs_nodes]. destruct (findroute _ _ _) as [rt|]; [|discriminate]. destruct (findidx _ _ _) as [i|] eqn:Fi; [|intros E; injection E as <- <-; g1].
  apply findidx_some in Fi. destruct (jbstrcpy (repeat 0 100) (Subject mm) 100) as [[[b|] g] rest]; [|discriminate]. destruct (streqi _ _); [|intros E; injection E as <- <-; g1].
  destruct (jbstrcpy b rest 100) as [[[b2|] got] ?]; [|discriminate]. destruct (chunkstext _ _ _ _ _ _ _ _) as [[[s2 h] t]|] eqn:C; cbn [obind]; [|discriminate].
  assert (G : Forall good (tx_lines t)).
  { eapply chunks_good; [| | |exact C].
    - destruct (_ && _); exact Fi.
    - destruct (_ && _); exact Hf.
    - destruct (_ && _) eqn:Q; [|constructor]. cbn [tx_lines]. apply andb_true_iff in Q as (_ & Q).
      assert (X : (length (cstr b2) <= 99)%nat /\ hd 0 (cstr b2) <> 1).
      { apply orb_true_iff in Q as [Q|Q]; apply samei_streqi in Q; unfold samei in Q; destruct (cstr b2) as [|x [|y [|z w]]]; try (vm_compute in Q; discriminate); cbn [length hd]; split; try lia; intros ->; vm_compute in Q; discriminate. }
      apply acr_good; [tauto|tauto|]. repeat shortlit. lia. }
  assert (G' : Forall good (tx_lines t ++ (if tx_done t then [] else [lit "Nothing to do."]))) by (apply Forall_app; split; [exact G|]; destruct (tx_done t); [constructor|g1]).
  destruct h; [| |discriminate]; intros E; injection E as <- <-; exact G'.
Qed.
(** No answer overruns a buffer, and all its lines arrive, in order, in messages to the node *)
Theorem C78_message flags max handle date sysop nl cfg rescan total mm s x : keeps_header handle -> 0 <= max < 4294967296 -> config_fits cfg s ->
  AreaFixText nl cfg rescan total mm s = Some x -> match x with Some (_, ls) => Z.of_nat (length ls) + 4 < 4294967296 | None => True end ->
  exists ms, AreaFixAnswer flags max handle date sysop nl cfg rescan total mm s = Some ms /\
    match x with
    | None => ms = []
    | Some (from, ls) => answer max (Z.testbit flags 3) sysop from (From mm) (OrigNode mm) (lit "AreaFix response") date ls ms
    end.
Proof.
  intros Hk Hm Hf Ht Hn. unfold AreaFixAnswer. rewrite Ht. cbn [obind]. destruct x as [[from ls]|]; [|eauto]. apply C65_parts; auto. apply (text_good _ _ _ _ _ _ _ _ Hf Ht).
Qed.
Print Assumptions C78_message.

(** ** The text belongs to what [AreaFix] does *)
Lemma chunk_same cfg rescan total i rt : forall fuel l s t s' h t', chunktext cfg rescan total i rt fuel l s t = Some (s', h, t') -> chunkloop cfg rescan i rt fuel l s = Some (s', h).
Proof.
  induction fuel as [|f IH]; intros l s t s' h t'; cbn [chunktext chunkloop]; [destruct l; [|discriminate]; intros E; injection E as <- <- <-; auto|].
  destruct l as [|z l]; [intros E; injection E as <- <- <-; auto|]. destruct (upto 100 (z :: l)) as [d rest]. destruct (Nat.ltb _ _); [|discriminate].
  destruct (linetext _ _ _ _ _) as [a|]; cbn [obind]; [|discriminate]. destruct (afline _ _ _ _ _ _) as [[s1 ok]|]; cbn [obind fst snd]; [|discriminate].
  destruct ok; [|intros E; injection E as <- <- <-; auto]. destruct (isstop _); [intros E; injection E as <- <- <-; auto|]. apply IH.
Qed.
Lemma chunks_same cfg rescan total i rt : forall cs s t s' h t', chunkstext cfg rescan total i rt cs s t = Some (s', h, t') -> chunksloop cfg rescan i rt cs s = Some (s', h).
Proof.
  induction cs as [|l r IH]; intros s t s' h t'; cbn [chunkstext chunksloop]; [intros E; injection E as <- <- <-; auto|].
  destruct (chunktext _ _ _ _ _ _ _ _ _) as [[[s1 h1] t1]|] eqn:E; cbn [obind fst snd]; [|discriminate]. rewrite (chunk_same _ _ _ _ _ _ _ _ _ _ _ _ E). cbn [obind fst snd].
  destruct h1; [apply IH| |]; intros K; injection K as <- <- <-; reflexivity.
Qed.
(** There is an answer exactly where the program sends one: always, unless there is no route to the
    node or a rescan failed *)
Theorem C78_sent nl cfg rescan total mm s x s' ok : AreaFixText nl cfg rescan total mm s = Some x -> AreaFix nl cfg rescan mm s = Some (s', ok) ->
  match x with
  | Some _ => ok = true /\ exists e k, fs_ev s' = e ++ FReply (OrigNode mm) :: map FSend k
  | None => ok = false \/ (findroute nl (fc_routes cfg) (OrigNode mm) = None /\ fs_ev s' = fs_ev s)
  end.
Proof.
  unfold AreaFixText, AreaFix. cbn [fs_nodes]. destruct (findroute _ _ _) as [rt|].
  2:{ intros E. injection E as <-. intros E. injection E as <- <-. right. split; reflexivity. }
  destruct (findidx _ _ _) as [i|].
  2:{ intros E. injection E as <-. intros E. injection E as <- <-. split; [reflexivity|]. exists (fs_ev s), []. reflexivity. }
  destruct (jbstrcpy (repeat 0 100) (Subject mm) 100) as [[[b|] g] rest]; [|discriminate]. destruct (streqi _ _).
  2:{ intros E. injection E as <-. intros E. injection E as <- <-. split; [reflexivity|]. exists (fs_ev s), []. reflexivity. }
  destruct (jbstrcpy b rest 100) as [[[b2|] got] ?]; [|discriminate].
  destruct (chunkstext _ _ _ _ _ _ _ _) as [[[s2 h] t]|] eqn:C; cbn [obind]; [|discriminate]. rewrite (chunks_same _ _ _ _ _ _ _ _ _ _ _ C). cbn [obind].
  destruct h; intros E; injection E as <-; intros E; injection E as <- <-; [| |left; reflexivity]; (split; [reflexivity|]; eexists _, _; reflexivity).
Qed.
Print Assumptions C78_sent.

(** The list of packers that is sent holds those that can be chosen *)
Lemma packers_list cfg : exists ns, packerlist cfg = map (fun n => repeat 32 31 ++ n) ns /\ forall n, In n ns <-> n = lit "NONE" \/ In (n, true) (fc_packers cfg).
Proof.
  exists (map fst (filter snd (fc_packers cfg)) ++ [lit "NONE"]). split.
  - unfold packerlist. rewrite map_app. f_equal. induction (filter snd (fc_packers cfg)) as [|p l IH]; [reflexivity|]. cbn [map concat]. rewrite IH. reflexivity.
  - intros n. rewrite in_app_iff, in_map_iff. split.
    + intros [((x, b) & <- & H)|[<-|[]]]; [|left; reflexivity]. apply filter_In in H as (H & B). cbn [snd] in B. subst b. right. exact H.
    + intros [->|H]; [right; left; reflexivity|left]. exists (n, true). split; [reflexivity|]. apply filter_In. auto.
Qed.
Theorem C78_packers cfg total i raw s t d r0 : stripleadtrail raw = 37 :: r0 -> linetext cfg total i raw s = Some (t, d) ->
  exists r ls m, answer_to (37 :: r0) r ls /\ t = ls ++ m /\
    (r = lit "Sending list of packers:" \/ r = lit "Unknown packer. Choose from this list:" ->
     exists ns, m = map (fun n => repeat 32 31 ++ n) ns /\ forall n, In n ns <-> n = lit "NONE" \/ In (n, true) (fc_packers cfg)).
Proof.
  intros E Ht. unfold linetext in Ht. rewrite E in Ht.
  cut (exists r m, t = AddCommandReply (37 :: r0) r ++ m /\ (m = packerlist cfg \/ r <> lit "Sending list of packers:" /\ r <> lit "Unknown packer. Choose from this list:")).
  { intros (r & m & -> & H). exists r, (AddCommandReply (37 :: r0) r), m. split; [apply acr_ok|]. split; [reflexivity|]. intros K. destruct H as [->|(K1 & K2)]; [apply packers_list|tauto]. }
  assert (Z : forall r, streq r (lit "Sending list of packers:") || streq r (lit "Unknown packer. Choose from this list:") = false -> forall m, exists r' m', AddCommandReply (37 :: r0) r ++ m = AddCommandReply (37 :: r0) r' ++ m' /\
    (m' = packerlist cfg \/ r' <> lit "Sending list of packers:" /\ r' <> lit "Unknown packer. Choose from this list:")).
  { intros r H m. exists r, m. split; [reflexivity|]. right. apply orb_false_iff in H as (H1 & H2). split; intros ->; rewrite (proj2 (streq_true _ _) eq_refl) in *; discriminate. }
  assert (Y : forall r, streq r (lit "Sending list of packers:") || streq r (lit "Unknown packer. Choose from this list:") = false -> exists r' m', AddCommandReply (37 :: r0) r = AddCommandReply (37 :: r0) r' ++ m' /\
    (m' = packerlist cfg \/ r' <> lit "Sending list of packers:" /\ r' <> lit "Unknown packer. Choose from this list:")).
  { intros r H. destruct (Z r H []) as (r' & m' & K & L). rewrite app_nil_r in K. eauto. }
  unfold pcttext in Ht. destruct (jbstrcpy (repeat 0 100) (37 :: r0) 100) as [[[b|] g] rest]; [|discriminate].
  destruct (streqi _ (lit "%PAUSE")); [destruct (flag _ _); injection Ht as <- <-; [apply Y|apply Z]; reflexivity|].
  destruct (streqi _ (lit "%RESUME")); [destruct (flag _ _); injection Ht as <- <-; apply Y; reflexivity|].
  destruct (streqi _ (lit "%PWD")); [destruct (jbstrcpy b rest 40) as [[[b2|] []] ?]; try discriminate; injection Ht as <- <-; apply Y; reflexivity|].
  destruct (streqi _ (lit "%RESCAN")); [destruct (flag _ _); injection Ht as <- <-; apply Y; reflexivity|].
  destruct (streqi _ (lit "%COMPRESS")).
  { destruct (jbstrcpy b rest 40) as [[[b2|] []] ?]; try discriminate; injection Ht as <- <-; [|apply Y; reflexivity].
    destruct (_ =? 63); [eexists _, _; split; [reflexivity|left; reflexivity]|]. destruct (streqi _ _); [apply Y; reflexivity|]. destruct (findpacker _ _); [apply Y; reflexivity|]. eexists _, _; split; [reflexivity|left; reflexivity]. }
  repeat (destruct (streqi _ _); [injection Ht as <- <-; apply Y; reflexivity|]). injection Ht as <- <-. apply Y; reflexivity.
Qed.
Print Assumptions C78_packers.
Example C78_packers_nonvacuous :
  linetext (AFC 0 [] [] [(lit "ZIP", true); (lit "OLD", false)] []) (fun _ _ => 0) 0 (lit "%COMPRESS RAR") (AFS [] [] [] false []) =
  Some ([lit "%COMPRESS RAR                  Unknown packer. Choose from this list:"; lit "                               ZIP"; lit "                               NONE"], true).
Proof. vm_compute. reflexivity. Qed.

(** ** Rescans *)
Lemma strip_first raw c r : stripleadtrail raw = c :: r -> c <> 32.
Proof.
  unfold stripleadtrail. induction raw as [|x l IH]; [discriminate|]. cbn [striplead]. destruct (Z.eqb_spec x 32) as [->|N]; [exact IH|].
  cbn [striptrail]. destruct (striptrail l); [destruct (isstrip x); [discriminate|]|]; intros E; injection E as <- _; exact N.
Qed.
Definition notre (l : list Z) : Prop := forall x, l <> rescan_line x.
Lemma notre_first c r : c <> 32 -> notre (c :: r).
Proof. intros N x E. injection E as E _. congruence. Qed.
Lemma acr_notre c r t : c <> 32 -> (forall x, t <> lit "Rescanned " ++ x) -> Forall notre (AddCommandReply (c :: r) t).
Proof.
  intros N T. unfold AddCommandReply. destruct (Nat.leb _ _).
  - apply Forall_cons; [|apply Forall_nil]. unfold pad30. cbn [app]. apply notre_first. exact N.
  - apply Forall_cons; [apply notre_first; exact N|]. apply Forall_cons; [|apply Forall_nil]. intros x E. apply (T x).
    change (pad30 [] ++ lit " " ++ t) with (repeat 32 31 ++ t) in E. unfold rescan_line in E. apply app_inv_head in E. exact E.
Qed.
Ltac nr := intros ? ?NR; vm_compute in NR; discriminate.
Lemma say_notre w c r l t : c <> 32 -> notre l -> (forall x, t <> lit "Rescanned " ++ x) -> Forall notre (say w (c :: r) l t).
Proof. intros N L T. unfold say. destruct w; [apply Forall_cons; [exact L|apply Forall_nil]|apply acr_notre; assumption]. Qed.
Lemma one_notre n i cmd w c r pat a : c <> 32 -> Forall notre (onetext n i cmd w (c :: r) pat a).
Proof.
  intros N. unfold onetext. destruct (_ && _); [|constructor]. destruct cmd.
  - unfold addtext. destruct (find _ _); [apply say_notre; [exact N|nr|nr]|]. destruct (_ || _); [|destruct w; [constructor|apply acr_notre; [exact N|nr]]].
    destruct (existsb _ _); [apply say_notre; [exact N|nr|nr]|]. destruct (_ || _); (apply say_notre; [exact N|nr|nr]).
  - unfold remtext. destruct (find _ _); [|destruct w; [constructor|apply acr_notre; [exact N|nr]]]. destruct (_ && _); (apply say_notre; [exact N|nr|nr]).
  - unfold updtext. destruct (find _ _); [|constructor]. apply say_notre; [exact N|nr|nr].
Qed.
Lemma end_notre cfg nodes i cmd w g c r name opt p : c <> 32 -> Forall notre (endtext cfg nodes i cmd w g (c :: r) name opt p).
Proof.
  intros N. unfold endtext. assert (O : forall l, notre l -> Forall notre [l]) by (intros; apply Forall_cons; [assumption|apply Forall_nil]). destruct cmd; (destruct (lp_done p); [try constructor|destruct w; [apply O; nr|]]).
  - destruct (lp_exists p); [constructor|]. destruct (if flag _ _ then _ else _); (apply acr_notre; [exact N|nr]).
  - apply acr_notre; [exact N|nr].
  - destruct (lp_rescan p); [|constructor]. destruct opt; [|constructor]. destruct g; [constructor|]. apply acr_notre; [exact N|nr].
  - apply acr_notre; [exact N|nr].
Qed.
Lemma rescan_said cfg total w g opt p x : In (rescan_line x) (rescantext cfg total w g opt p) <->
  exists tag num, rescanof cfg w g opt p = Some (tag, num) /\ x = dec (u32 (total tag num)) ++ lit " messages".
Proof.
  unfold rescantext, rescanof. destruct (lp_rescan p) as [a|]; [|split; [intros []|intros (? & ? & E & _); discriminate]].
  destruct (_ && lp_done p); [|split; [intros []|intros (? & ? & E & _); discriminate]]. cbv zeta. set (q := strneqi 2 opt (lit "r=")).
  rewrite in_app_iff. assert (A : ~ In (rescan_line x) (if q then [] else match opt with [] => [] | _ => [pad30 [] ++ lit " Unknown option " ++ opt] end)).
  { destruct q; [intros []|]. destruct opt; [intros []|]. intros [E|[]]. vm_compute in E. discriminate. }
  destruct (g || q); cbn [andb].
  2:{ split; [intros [K|[]]; contradiction|intros (? & ? & E & _); discriminate]. }
  destruct (flag _ _); cbn [andb].
  2:{ split; [intros [K|[E|[]]]; [contradiction|vm_compute in E; discriminate]|intros (? & ? & E & _); discriminate]. }
  destruct (ar_mb _).
  2:{ split; [intros [K|[E|[]]]; [contradiction|vm_compute in E; discriminate]|intros (? & ? & E & _); discriminate]. }
  split.
  - intros [K|[E|[]]]; [contradiction|]. eexists _, _. split; [reflexivity|]. unfold rescan_line in E.
    match type of E with pad30 [] ++ lit " Rescanned " ++ ?z = _ => change (pad30 [] ++ lit " Rescanned " ++ z) with (repeat 32 31 ++ lit "Rescanned " ++ z) in E end.
    do 2 apply app_inv_head in E. symmetry. exact E.
  - intros (tag & num & E & ->). injection E as <- <-. right. left. reflexivity.
Qed.
(** A rescan is reported if and only if it is done, with the number of its messages *)
Theorem C78_rescanned cfg rescan total i rt line s s' ok t d c r x : stripleadtrail line = c :: r -> c <> 1 -> c <> 37 ->
  afline cfg rescan i rt line s = Some (s', ok) -> linetext cfg total i line s = Some (t, d) ->
  exists e, fs_ev s' = fs_ev s ++ e /\
    (In (rescan_line x) t <-> exists tag num, In (FRescan tag num) e /\ x = dec (u32 (total tag num)) ++ lit " messages").
Proof.
  intros E1 N1 N2 Ha Ht. pose proof (strip_first _ _ _ E1) as N3. rewrite (afline_dispatch _ _ _ _ _ _ _ _ E1 N1 N2) in Ha. rewrite (linetext_dispatch _ _ _ _ _ _ _ E1 N1 N2) in Ht.
  unfold areacmd in Ha. unfold areatext in Ht. destruct (parsecmd (c :: r)) as [[cmd pat] opt]. set (w := osIsPattern pat) in *.
  destruct (arealoop cfg (fs_nodes s) i cmd w pat (fs_areas s) (LP false false None [])) as [[l' p]|] eqn:L; cbn [obind snd] in Ha, Ht; [|discriminate]. injection Ht as <- <-.
  destruct (proj2 (loop_rescan _ _ _ _ _ _ _ _ _ _ L)) as (e0 & Ev & Ne). cbn [lp_ev app] in Ev.
  assert (T : In (rescan_line x) ((if w then [c :: r; []] else []) ++ concat (map (onetext (an_cn (getan (fs_nodes s) i)) i cmd w (c :: r) pat) (fs_areas s)) ++
    rescantext cfg total w (fs_global s) opt p ++ endtext cfg (fs_nodes s) i cmd w (fs_global s) (c :: r) pat opt p ++ (if w then [[]] else [])) <->
    exists tag num, rescanof cfg w (fs_global s) opt p = Some (tag, num) /\ x = dec (u32 (total tag num)) ++ lit " messages").
  { rewrite <- rescan_said. rewrite !in_app_iff. split; [|tauto]. assert (B : forall ls, Forall notre ls -> ~ In (rescan_line x) ls) by (intros ls F K; rewrite Forall_forall in F; exact (F _ K x eq_refl)).
    intros [K|[K|[K|[K|K]]]]; [exfalso|exfalso|exact K|exfalso|exfalso]; revert K; apply B.
    - destruct w; [|constructor]. apply Forall_cons; [apply notre_first; exact N3|]. apply Forall_cons; [|apply Forall_nil]. nr.
    - apply Forall_concat, Forall_map, Forall_forall. intros a _. apply one_notre. exact N3.
    - apply end_notre. exact N3.
    - destruct w; [|constructor]. apply Forall_cons; [|apply Forall_nil]. nr. }
  destruct (rescanof cfg w (fs_global s) opt p) as [[tag num]|] eqn:R; cbn [obind] in Ha.
  - exists (e0 ++ [FRescan tag num]). split.
    { destruct (rescan tag num); injection Ha as <- <-; cbn [fs_ev]; rewrite Ev, <- app_assoc; reflexivity. }
    rewrite T. split; intros (tg & nm & K & ->); exists tg, nm; (split; [|reflexivity]).
    + injection K as <- <-. apply in_app_iff. right. left. reflexivity.
    + apply in_app_iff in K as [K|[K|[]]]; [exfalso; exact (Ne _ _ K)|]. injection K as <- <-. reflexivity.
  - assert (G : exists e, fs_ev s' = fs_ev s ++ e /\ forall tag num, ~ In (FRescan tag num) e).
    { destruct cmd; try (cbn [obind] in Ha; injection Ha as <- <-; exists e0; cbn [fs_ev]; rewrite Ev; auto).
      destruct (_ && _); [|cbn [obind] in Ha; injection Ha as <- <-; exists e0; cbn [fs_ev]; rewrite Ev; auto].
      destruct (forward _ _ _ _ _) as [s2|] eqn:Fw; cbn [obind] in Ha; [|discriminate]. injection Ha as <- <-. cbn [fs_ev].
      unfold forward in Fw. cbn [fs_nodes fs_areas fs_want fs_global fs_ev] in Fw. destruct (flag _ _); [|injection Fw as <-; exists e0; cbn [fs_ev]; rewrite Ev; auto].
      destruct (FindForward _ _ _); [|injection Fw as <-; exists e0; cbn [fs_ev]; rewrite Ev; auto]. destruct (Nat.ltb _ _); [|discriminate].
      destruct (AddArea _ _ _ _ _ _ _); [|discriminate]. injection Fw as <-. cbn [fs_ev]. rewrite Ev, <- app_assoc. eexists. split; [reflexivity|].
      intros tag num K. apply in_app_iff in K as [K|[K|[]]]; [exact (Ne _ _ K)|]. unfold RemoteAreafixAdd in K. discriminate. }
    destruct G as (e & G1 & G2). exists e. split; [exact G1|]. rewrite T. split; intros (tg & nm & K & _); [discriminate|exfalso; exact (G2 _ _ K)].
Qed.
Print Assumptions C78_rescanned.

(** ** All answers are sent, in the order of the lines *)
Lemma chunk_dialogue cfg rescan total i rt ls : Forall aline ls -> forall s fuel t s' t', (length (concat (map (fun l => l ++ [13%Z]) ls)) <= fuel)%nat ->
  chunktext cfg rescan total i rt fuel (concat (map (fun l => l ++ [13]) ls)) s t = Some (s', More, t') ->
  exists ts b, dialogue (fun l a a' => afline cfg rescan i rt l a = Some (a', true)) (fun l a x b => linetext cfg total i l a = Some (x, b)) ls s s' ts b /\ t' = TX (tx_lines t ++ ts) (tx_done t || b).
Proof.
  induction 1 as [|l ls (H1 & H2 & H3) F IH]; intros s fuel t s' t' Hf; cbn [map concat].
  - intros E. assert (E' : Some (s, More, t) = Some (s', More, t')) by (destruct fuel; exact E). injection E' as <- <-. exists [], false. split; [constructor|]. rewrite app_nil_r, orb_false_r. destruct t; reflexivity.
  - cbn [map concat] in Hf. rewrite !app_length in Hf. cbn [length] in Hf. destruct fuel as [|f]; [lia|].
    rewrite <- app_assoc. cbn [app]. unfold chunktext; fold chunktext.
    assert (U : upto 100 (l ++ 13 :: concat (map (fun l => l ++ [13]) ls)) = (l, 13 :: concat (map (fun l => l ++ [13]) ls))) by (apply upto_line; auto).
    destruct (l ++ 13 :: concat (map (fun l => l ++ [13]) ls)) as [|x y] eqn:E; [destruct l; discriminate|]. rewrite U.
    replace (Nat.ltb (length l) 100) with true by (symmetry; apply Nat.ltb_lt; auto). rewrite cstr_id by auto.
    destruct (linetext cfg total i l s) as [[a b]|] eqn:A; cbn [obind]; [|discriminate].
    destruct (afline cfg rescan i rt l s) as [[s1 ok]|] eqn:B; cbn [obind fst snd]; [|discriminate]. destruct ok; [|discriminate].
    replace (isstop l) with false. 2:{ unfold isstop. symmetry. apply not_true_is_false. rewrite streq_true. auto. }
    cbn [tl]. intros K. apply IH in K as (ts & bs & D & ->); [|lia]. exists (a ++ ts), (b || bs). split; [econstructor; eassumption|].
    unfold addtx. cbn [tx_lines tx_done fst snd]. rewrite app_assoc, orb_assoc. reflexivity.
Qed.
Lemma chunk_more cfg rescan total i rt ls : Forall aline ls -> forall s fuel t s' h t', (length (concat (map (fun l => l ++ [13%Z]) ls)) <= fuel)%nat ->
  chunktext cfg rescan total i rt fuel (concat (map (fun l => l ++ [13]) ls)) s t = Some (s', h, t') -> h = Stop -> False.
Proof.
  intros F s fuel t s' h t' Hf K ->. apply chunk_same in K. rewrite chunk_lines in K by auto. revert s K. clear. induction ls as [|l ls IH]; intros s; cbn [runs]; [discriminate|].
  destruct (afline _ _ _ _ _ _) as [[s1 ok]|]; cbn [obind fst snd]; [|discriminate]. destruct ok; [apply IH|discriminate].
Qed.
Lemma dialogue_app st an l1 l2 a b c t1 t2 b1 b2 : dialogue st an l1 a b t1 b1 -> dialogue st an l2 b c t2 b2 -> dialogue st an (l1 ++ l2) a c (t1 ++ t2) (b1 || b2).
Proof. induction 1 as [|l r s s1 s2 t x ts xs S A D IH]; intros D2; [exact D2|]. cbn [app]. rewrite <- app_assoc, <- orb_assoc. econstructor; [eassumption|eassumption|]. apply IH. exact D2. Qed.
Definition chunkof (ls : list (list Z)) : list Z := concat (map (fun l => l ++ [13]) ls).
Lemma chunks_dialogue cfg rescan total i rt : forall lss s t s' h t', Forall (Forall aline) lss -> chunkstext cfg rescan total i rt (map chunkof lss) s t = Some (s', h, t') ->
  h = Failed \/ (h = More /\ exists ts b, dialogue (fun l a a' => afline cfg rescan i rt l a = Some (a', true)) (fun l a x b => linetext cfg total i l a = Some (x, b)) (concat lss) s s' ts b /\
    t' = TX (tx_lines t ++ ts) (tx_done t || b)).
Proof.
  induction lss as [|ls lss IH]; intros s t s' h t' F; cbn [map chunkstext concat].
  - intros E. injection E as <- <- <-. right. split; [reflexivity|]. exists [], false. split; [constructor|]. rewrite app_nil_r, orb_false_r. destruct t; reflexivity.
  - inversion F; subst. destruct (chunktext _ _ _ _ _ _ _ _ _) as [[[s1 h1] t1]|] eqn:C; cbn [obind fst snd]; [|discriminate].
    assert (Hh : h1 = More \/ h1 = Stop \/ h1 = Failed) by (destruct h1; auto). destruct Hh as [->|[->| ->]].
    + apply chunk_dialogue in C as (ts & d & D & ->); [|assumption|unfold chunkof; lia]. intros E. apply IH in E as [->|(-> & ts2 & d2 & D2 & ->)]; [left; reflexivity| |assumption].
      right. split; [reflexivity|]. exists (ts ++ ts2), (d || d2). split; [eapply dialogue_app; eassumption|]. cbn [tx_lines tx_done]. rewrite app_assoc, orb_assoc. reflexivity.
    + exfalso. eapply chunk_more; [eassumption| |exact C|reflexivity]. unfold chunkof. lia.
    + intros E. injection E as <- <- <-. left. reflexivity.
Qed.
(** The answer to a request (whose chunks of text consist of whole lines) consists of the answers to its lines, each given for what was
    done when that line was carried out *)
Theorem C78_dialogue nl cfg rescan total mm s rt lss from out : cstring (Subject mm) -> findroute nl (fc_routes cfg) (OrigNode mm) = Some rt ->
  rev (TextChunks mm) = map (fun ls => concat (map (fun l => l ++ [13]) ls)) lss -> Forall (Forall aline) lss -> AreaFixText nl cfg rescan total mm s = Some (Some (from, out)) ->
  from = ak_node (rt_aka rt) /\
  ((forall i, ~ sender (fs_nodes s) mm i) /\ out = [lit "Sorry, your node is not configured here."] \/
   (exists i, sender (fs_nodes s) mm i /\ ~ authorised (fs_nodes s) mm i) /\ out = [lit "Sorry, wrong password."] \/
   exists i s1 s2 q ts b, authorised (fs_nodes s) mm i /\ fs_areas s1 = fs_areas s /\ fs_nodes s1 = fs_nodes s /\ fs_global s1 = false /\ fs_ev s1 = fs_ev s /\
     (q = [] \/ exists o, answer_to o (lit "Sending list of all areas") q /\ (samei o (lit "-q") \/ samei o (lit "-l"))) /\
     dialogue (fun l a a' => afline cfg rescan i rt l a = Some (a', true)) (fun l a x b => linetext cfg total i l a = Some (x, b)) (concat lss) s1 s2 ts b /\
     out = q ++ ts ++ (if b then [] else match q with [] => [lit "Nothing to do."] | _ => [] end)).
Proof.
  intros Hs Hr Hc F. unfold AreaFixText. rewrite Hr. cbn [fs_nodes]. destruct (findidx _ _ _) as [i|] eqn:Fi.
  2:{ intros E. injection E as <- <-. split; [reflexivity|]. left. split; [|reflexivity]. intros i K. apply findidx_sender in K. congruence. }
  apply findidx_sender in Fi as Si. destruct (subject_word _ Hs) as (b & g & rest & -> & Hb & W & Cr). pose proof Si as (n & Sn & _).
  destruct (streqi _ _) eqn:Pw.
  2:{ intros E. injection E as <- <-. split; [reflexivity|]. right. left. split; [|reflexivity]. exists i. split; [exact Si|]. apply (C30_wrong _ _ i n (cstr b)); auto.
      rewrite samei_streqi. rewrite (getan_nth _ _ _ Sn) in Pw. congruence. }
  assert (Au : authorised (fs_nodes s) mm i). { split; [exact Si|]. exists n, (cstr b). split; [exact Sn|]. split; [exact W|]. apply samei_streqi. rewrite <- (getan_nth _ _ _ Sn). exact Pw. }
  destruct (jbstrcpy b rest 100) as [[[b2|] got] ?]; [|discriminate]. cbv zeta. set (q := got && _). rewrite Hc. change (fun ls => concat (map (fun l => l ++ [13]) ls)) with chunkof.
  destruct (chunkstext _ _ _ _ _ _ _ _) as [[[s2 h] t]|] eqn:C; cbn [obind fst snd]; [|discriminate].
  apply (chunks_dialogue _ _ _ _ _ _ _ _ _ _ _ F) in C as [->|(-> & ts & d & D & ->)]; [discriminate|].
  - cbn [obind]. intros E. injection E as <- <-. split; [reflexivity|]. right. right. cbn [tx_lines tx_done].
    exists i. destruct q eqn:Q; cbn [tx_lines tx_done].
    + eexists _, s2. exists (AddCommandReply (cstr b2) (lit "Sending list of all areas")), ts, d. split; [exact Au|]. split; [|split; [|split; [|split; [|split; [|split; [exact D|]]]]]]; try reflexivity.
      * right. exists (cstr b2). split; [apply acr_ok|]. unfold q in Q. apply andb_true_iff in Q as (_ & Q). apply orb_true_iff in Q. rewrite !samei_streqi. exact Q.
      * cbn [orb]. destruct (AddCommandReply (cstr b2) (lit "Sending list of all areas")) eqn:A; [|rewrite <- app_assoc; destruct d; reflexivity].
        exfalso. unfold AddCommandReply in A. destruct (Nat.leb _ _); discriminate.
    + eexists _, s2. exists [], ts, d. split; [exact Au|]. split; [|split; [|split; [|split; [|split; [|split; [exact D|]]]]]]; try reflexivity. left. reflexivity.
Qed.
Print Assumptions C78_dialogue.

Definition null_pat := NP PAT_PATTERN (lit "*") (lit "*") (lit "*") (lit "*").
Definition ytext : list Z :=
  cr (lit "+a.one, r=10") ++ cr (lit "-B.MUST") ++ cr (lit "C.READ") ++ cr (lit "+D.CLOSED") ++ cr (lit "-F.*") ++ cr (lit "X.NEW") ++ cr (lit "=NOWHERE") ++ cr (lit "%PWD new") ++ cr (lit "%BUY").
Definition ylines : list (list Z) :=
  [lit "+a.one, r=10"; lit "-B.MUST"; lit "C.READ"; lit "+D.CLOSED"; lit "-F.*"; lit "X.NEW"; lit "=NOWHERE"; lit "%PWD new"; lit "%BUY"].
Example C78_nonvacuous :
  AreaFixText xnl (xcfg (Z.lor CFG_AREAFIXREMOVE CFG_ALLOWRESCAN)) (fun _ _ => true) (fun _ n => n) (xreq (lit "secret -q") [ytext]) (AFS xareas xnodes [] false []) =
  Some (Some (N4 2 200 1 0,
    [lit "-q                             Sending list of all areas";
     lit "+a.one, r=10                   Attached";
     lit "                               Rescanned 10 messages";
     lit "-B.MUST                        You are not allowed to detach from that area";
     lit "C.READ                         Attached as read-only";
     lit "+D.CLOSED                      You don't have access to that area";
     lit "-F.*"; []; lit "   Detached from F.OLD"; [];
     lit "X.NEW                          Request sent to 2:200/9.0";
     lit "=NOWHERE                       You are not attached to this area";
     lit "%PWD new                       AreaFix password changed";
     lit "%BUY                           Unknown command"])) /\
  config_fits (xcfg 0) (AFS xareas xnodes [] false []) /\ names CAdd (lit "a.one") (lit "+a.one, r=10") /\ ~ wild (lit "a.one") /\ wild (lit "F.*") /\
  ytext = concat (map (fun l => l ++ [13]) ylines) /\ Forall aline ylines.
Proof.
  split; [vm_compute; reflexivity|]. split.
  { split; [unfold xareas; repeat (apply Forall_cons; [cbn; lia|]); constructor|]. split; [constructor|]. unfold xnodes. repeat (apply Forall_cons; [repeat split; cbn; lia|]). constructor. }
  split.
  { split.
    - apply Forall_forall. intros x Hx. vm_compute in Hx. repeat (destruct Hx as [<-|Hx]; [lia|]). contradiction.
    - exists (lit ", r=10"). split; [|left; reflexivity]. right. exists (lit " r=10"). split; [reflexivity|]. vm_compute. lia. }
  split; [unfold wild; vm_compute; lia|]. split; [unfold wild; vm_compute; tauto|]. split; [vm_compute; reflexivity|].
  unfold ylines. repeat (apply Forall_cons; [split; [vm_compute; lia|]; split; [|vm_compute; discriminate]; apply Forall_forall; intros x Hx; vm_compute in Hx; repeat (destruct Hx as [<-|Hx]; [lia|]); contradiction|]). constructor.
Qed.
Print Assumptions C78_nonvacuous.
(** A node that pauses is told to send a command that does not exist: "%%" is not in a format here. Its
    answer to that is "Unknown command", and the node stays passive *)
Theorem C78_resume_refuted : exists cfg s s1 s2, let paused s := has (cn_flags (an_cn (getan (fs_nodes s) 0))) NODE_PASSIVE in
  ~ paused s /\ afline cfg (fun _ _ => true) 0 (RT null_pat null_pat xaka) (lit "%PAUSE") s = Some (s1, true) /\ paused s1 /\
  linetext cfg (fun _ _ => 0) 0 (lit "%PAUSE") s = Some ([lit "%PAUSE                         Your system is marked as passive"; lit "                               Send %%RESUME to get echomail again"], true) /\
  afline cfg (fun _ _ => true) 0 (RT null_pat null_pat xaka) (lit "%%RESUME") s1 = Some (s2, true) /\ paused s2 /\
  linetext cfg (fun _ _ => 0) 0 (lit "%%RESUME") s1 = Some ([lit "%%RESUME                       Unknown command"], true).
Proof.
  exists (xcfg 0), (AFS xareas xnodes [] false []). eexists _, _. cbv zeta. split; [vm_compute; intros K; apply K; reflexivity|]. split; [vm_compute; reflexivity|]. split; [vm_compute; discriminate|].
  split; [vm_compute; reflexivity|]. split; [vm_compute; reflexivity|]. split; [vm_compute; discriminate|vm_compute; reflexivity].
Qed.
Print Assumptions C78_resume_refuted.
(** An update without an option is answered twice, with contradicting texts *)
Theorem C78_update_refuted : exists cfg s t, linetext cfg (fun _ _ => 0) 0 (lit "=B.MUST") s = Some (t, true) /\
  t = [lit "=B.MUST                        Will rescan area"; lit "=B.MUST                        Nothing to do"].
Proof. exists (xcfg 0), (AFS xareas xnodes [] false []). eexists. split; [vm_compute|]; reflexivity. Qed.
Print Assumptions C78_update_refuted.
