(** Lemmas about AreaFix. *)
From Verif Require Import Base M_Node4D M_Pat M_Str S_Str P_Str M_Mem M_Cfg M_Pkt M_Echo S_Echo P_Echo M_Filter M_Areafix S_Areafix.

Lemma has_flag f b : has f b <-> flag f b = true.
Proof. unfold has, flag. rewrite negb_true_iff, Z.eqb_neq. tauto. Qed.
Lemma hasnot_flag f b : ~ has f b <-> flag f b = false.
Proof. rewrite has_flag. destruct (flag f b); split; congruence. Qed.
Lemma mem_In x (l : list Z) : mem x l = true <-> In x l.
Proof.
  unfold mem. rewrite existsb_exists. split.
  - intros (y & H & E). apply Z.eqb_eq in E. subst. auto.
  - intros H. exists x. split; auto. apply Z.eqb_refl.
Qed.
Lemma check_In g l : CheckFlags g l = true <-> In g l.
Proof. apply mem_In. Qed.

(** ** links *)
Lemma own_app i a b : own i (a ++ b) = own i a ++ own i b.
Proof. apply filter_app. Qed.
Lemma others_app i a b : others i (a ++ b) = others i a ++ others i b.
Proof. apply filter_app. Qed.
Lemma find_own i l : find (isnode i) l = hd_error (own i l).
Proof. induction l as [|t r IH]; auto. cbn [find own filter]. fold (own i r). unfold isnode at 1. destruct (Nat.eqb (tn_node t) i); auto. Qed.
Lemma remfirst_own i l : own i (remfirst i l) = tl (own i l).
Proof.
  induction l as [|t r IH]; auto. cbn [remfirst]. unfold isnode. cbn [own filter]. fold (own i r).
  destruct (Nat.eqb (tn_node t) i) eqn:E; auto. cbn [own filter]. rewrite E. exact IH.
Qed.
Lemma remfirst_others i l : others i (remfirst i l) = others i l.
Proof.
  induction l as [|t r IH]; auto. cbn [remfirst]. unfold isnode. cbn [others filter]. fold (others i r).
  destruct (Nat.eqb (tn_node t) i) eqn:E; auto. cbn [others filter negb]. rewrite E. cbn [negb]. f_equal. exact IH.
Qed.

(** ** kept and survive *)
Lemma kept_refl c i a : kept c i a a.
Proof. constructor; auto. exists []. split; [constructor|]. left. reflexivity. Qed.

Lemma newlink_detach c i a t : newlink c i a t -> ~ isfeed t.
Proof.
  intros (_ & H1 & H2) Hf.
  assert (D : readonly_for c a \/ ~ readonly_for c a).
  { unfold readonly_for. destruct (flag (ar_flags a) AREA_DEFREADONLY) eqn:E1.
    - left. left. apply has_flag. auto.
    - destruct (in_dec Z.eq_dec (ar_group a) (cn_rogroups c)); [tauto|]. right. intros [H|H]; auto. apply has_flag in H. congruence. }
  unfold isfeed in Hf. destruct D as [D|D]; [rewrite (H1 D) in Hf | rewrite (H2 D) in Hf]; apply Hf; reflexivity.
Qed.

Lemma kept_trans c i a b d : kept c i a b -> kept c i b d -> kept c i a d.
Proof.
  intros [A1 A2 A3 A4 A5 A6 A7 A8 (ga & Fa & Ca) A10] [B1 B2 B3 B4 B5 B6 B7 B8 (gb & Fb & Cb) B10].
  constructor; try congruence.
  - assert (Fb' : Forall (maydetach (fa_ar a)) gb).
    { eapply Forall_impl; [|exact Fb]. intros t. unfold maydetach. rewrite A3. auto. }
    assert (Mb : mayattach c i b -> mayattach c i a) by (unfold mayattach; rewrite A4, A7; auto).
    assert (Nb : forall t, newlink c i (fa_ar b) t -> newlink c i (fa_ar a) t).
    { intros t. unfold newlink, readonly_for. rewrite A3, A4. auto. }
    destruct Ca as [Ca|(Ca & Ma & t & Nt & Et)]; destruct Cb as [Cb|(Cb & Ma' & t' & Nt' & Et')].
    + exists (ga ++ gb). split; [apply Forall_app; auto|]. left. rewrite Ca, Cb, app_assoc. reflexivity.
    + exists (ga ++ gb). split; [apply Forall_app; auto|]. right. rewrite Ca, Cb. eauto 8.
    + rewrite Et in Cb. destruct gb as [|x gb].
      * exists ga. split; auto. right. split; auto. split; auto. exists t. split; auto.
      * cbn [app] in Cb. injection Cb as E1 E2. symmetry in E2. apply app_eq_nil in E2 as (-> & E2).
        exists ga. split; auto. left. rewrite E2, app_nil_r. auto.
    + exists ga. split; auto. right. eauto 8.
  - destruct A10 as [->|(A10 & A11)]; [exact B10|]. right. destruct B10 as [->|(B10 & B11)]; auto.
Qed.

Lemma vanish_back cfg c i a b : kept c i a b -> mayvanish cfg c i b -> mayvanish cfg c i a.
Proof.
  intros [A1 A2 A3 A4 A5 A6 A7 A8 (ga & Fa & Ca) A10] (T & H). split; [congruence|].
  assert (Mb : mayattach c i b -> mayattach c i a) by (unfold mayattach; rewrite A4, A7; auto).
  assert (Own : forall t, In t (own i (ar_tn (fa_ar b))) ->
     In t (own i (ar_tn (fa_ar a))) \/ (mayattach c i a /\ ~ isfeed t)).
  { intros t Ht. destruct Ca as [Ca|(Ca & Ma & u & Nt & Et)].
    - left. rewrite Ca. apply in_app_iff. auto.
    - right. rewrite Et in Ht. destruct Ht as [<-|[]]. split; auto. eapply newlink_detach; eauto. }
  rewrite A6, A8, A3 in H. destruct H as [(H1 & t & H2 & H3)|(H1 & H2 & H3 & H4)].
  - left. split; auto. exists t. split; auto. destruct (Own t H2) as [H|(_ & H)]; auto. contradiction.
  - right. split; auto. split; auto. split; auto. destruct H4 as [(t & H4 & H5)|(H4 & H5)]; [|right; auto].
    unfold maydetach in H5. rewrite A3 in H5. destruct (Own t H4) as [H|(M & H)]; [left; exists t; auto|].
    right. split; auto.
Qed.

Lemma survive_refl cfg c i l : survive cfg c i l l.
Proof. induction l; constructor; auto. apply kept_refl. Qed.
Lemma survive_trans cfg c i l l' l'' : survive cfg c i l l' -> survive cfg c i l' l'' -> survive cfg c i l l''.
Proof.
  intros H. revert l''. induction H as [|a a' l l' K H IH|a l l' V H IH]; intros l'' S; auto.
  - inversion S; subst.
    + constructor; auto. eapply kept_trans; eauto.
    + apply sv_gone; auto. eapply vanish_back; eauto.
  - apply sv_gone; auto.
Qed.
Lemma survive_app_inv cfg c i l1 l2 k : survive cfg c i (l1 ++ l2) k ->
  exists k1 k2, k = k1 ++ k2 /\ survive cfg c i l1 k1 /\ survive cfg c i l2 k2.
Proof.
  revert k. induction l1 as [|a l1 IH]; intros k H; [exists [], k; split; auto; split; auto; constructor|].
  cbn [app] in H. inversion H; subst.
  - destruct (IH _ H4) as (k1 & k2 & -> & S1 & S2). exists (a' :: k1), k2. split; auto. split; auto. constructor; auto.
  - destruct (IH _ H4) as (k1 & k2 & -> & S1 & S2). exists k1, k2. split; auto. split; auto. apply sv_gone; auto.
Qed.
Lemma forwarded_kept cfg c i a b : kept c i a b -> forwarded cfg c a -> forwarded cfg c b.
Proof.
  intros K (F & T & Ch & al & H1 & H2 & H3 & H4 & H5). destruct K as [A1 A2 A3 A4 A5 A6 A7 A8 A9 A10].
  split; auto. split; [congruence|]. split; [destruct A10 as [->|(A10 & _)]; auto|].
  exists al. rewrite A4, A1. auto 8.
Qed.
Lemma survive_forwarded cfg c i l k : survive cfg c i l k -> Forall (forwarded cfg c) l -> Forall (forwarded cfg c) k.
Proof.
  induction 1; intros F; auto; inversion F; subst; auto. constructor; auto. eapply forwarded_kept; eauto.
Qed.
Lemma areas_ok_refl cfg c i l : areas_ok cfg c i l l.
Proof. exists l, []. rewrite app_nil_r. split; auto. split; [apply survive_refl|constructor]. Qed.
Lemma areas_ok_trans cfg c i l l' l'' : areas_ok cfg c i l l' -> areas_ok cfg c i l' l'' -> areas_ok cfg c i l l''.
Proof.
  intros (k & n & -> & S & F) (k' & n' & -> & S' & F').
  destruct (survive_app_inv _ _ _ _ _ _ S') as (k1 & k2 & -> & S1 & S2).
  exists k1, (k2 ++ n'). split; [rewrite app_assoc; reflexivity|]. split; [eapply survive_trans; eauto|].
  apply Forall_app. split; auto. eapply survive_forwarded; eauto.
Qed.

(** ** one area *)
(** the settings that decide about rights are those of [c0] *)
Definition rights (c c0 : cnode) : Prop :=
  cn_groups c = cn_groups c0 /\ cn_rogroups c = cn_rogroups c0 /\ (has (cn_flags c) NODE_FORWARDREQ -> has (cn_flags c0) NODE_FORWARDREQ).

Lemma existsb_eqb i l : existsb (Nat.eqb i) l = true <-> In i l.
Proof.
  rewrite existsb_exists. split; [intros (x & H & E); apply Nat.eqb_eq in E; subst; auto|].
  intros H. exists i. split; auto. apply Nat.eqb_refl.
Qed.

Lemma add1_kept c c0 i a p : rights c c0 -> ar_type (fa_ar a) = AREATYPE_ECHOMAIL -> kept c0 i a (fst (add1 c i a p)).
Proof.
  intros (G1 & G2 & _) T. unfold add1. rewrite find_own. destruct (own i (ar_tn (fa_ar a))) as [|t r] eqn:O; cbn [hd_error].
  2: apply kept_refl.
  destruct (_ || _) eqn:C; [|apply kept_refl].
  destruct (existsb _ _) eqn:B; [apply kept_refl|]. cbn [fst].
  constructor; cbn [fa_ar fa_ban fa_changed set_tn ar_tag ar_type ar_flags ar_group ar_aka ar_tn ar_mb]; auto.
  - rewrite others_app. cbn. rewrite Nat.eqb_refl. cbn. apply app_nil_r.
  - exists []. split; [constructor|]. right. rewrite own_app, O. cbn. rewrite Nat.eqb_refl. split; auto. split.
    + split.
      * unfold mayuse. rewrite <- G1, <- G2. apply orb_true_iff in C. rewrite !check_In in C. exact C.
      * intros H. apply existsb_eqb in H. congruence.
    + eexists. split; [|reflexivity]. split; [reflexivity|]. unfold readonly_for. cbn [tn_flags]. rewrite <- G2, <- check_In, has_flag, <- orb_true_iff.
      split; intros H; [rewrite H; auto|]. apply not_true_is_false in H. rewrite H. reflexivity.
Qed.

Definition stepok (cfg : afcfg) (c : cnode) (i : nat) (a a' : farea) : Prop :=
  kept c i a a' \/ ar_type (fa_ar a') = AREATYPE_DELETED /\ mayvanish cfg c i a.

Lemma rem1_ok cfg nodes c0 i w a p a' p' : ar_type (fa_ar a) = AREATYPE_ECHOMAIL ->
  rem1 cfg nodes i w a p = Some (a', p') -> stepok cfg c0 i a a'.
Proof.
  intros T. unfold rem1. rewrite find_own. destruct (own i (ar_tn (fa_ar a))) as [|t r] eqn:O; cbn [hd_error].
  { intros E. injection E as <- <-. left. apply kept_refl. }
  destruct (_ && _) eqn:M. { intros E. injection E as <- <-. left. apply kept_refl. }
  assert (MD : maydetach (fa_ar a) t).
  { intros H. apply has_flag in H. rewrite H in M. cbn [andb] in M. apply negb_false_iff in M. apply has_flag. auto. }
  set (l := remfirst i (ar_tn (fa_ar a))).
  assert (K : kept c0 i a (FA (set_tn (fa_ar a) l) (fa_ban a) true)).
  { constructor; cbn [fa_ar fa_ban fa_changed set_tn ar_tag ar_type ar_flags ar_group ar_aka ar_tn ar_mb]; auto.
    - unfold l. apply remfirst_others.
    - exists [t]. split; [constructor; auto|]. left. unfold l. rewrite remfirst_own, O. reflexivity. }
  assert (Lo : others i l = others i (ar_tn (fa_ar a))) by apply remfirst_others.
  destruct (flag (tn_flags t) TOSSNODE_FEED && flag (fc_flags cfg) CFG_REMOVEWHENFEED) eqn:F1.
  - destruct (SendRemoveMessages _ _ _); cbn [obind]; [|discriminate]. intros E. injection E as <- <-.
    right. split; [reflexivity|]. apply andb_prop in F1 as (F1 & F2). split; auto. left.
    split; [apply has_flag; auto|]. exists t. split; [rewrite O; left; auto|apply has_flag; auto].
  - destruct (flag (fc_flags cfg) CFG_AREAFIXREMOVE) eqn:F2.
    2: intros E; injection E as <- <-; left; exact K.
    assert (V : ar_mb (fa_ar a) = false -> (others i l = [] \/ exists u, others i l = [u] /\ isfeed u) -> mayvanish cfg c0 i a).
    { intros Hm Ho. split; auto. right. split; [apply has_flag; auto|]. split; auto. rewrite <- Lo. split; auto.
      left. exists t. split; auto. rewrite O. left. auto. }
    destruct l as [|u [|u2 l2]] eqn:L.
    + destruct (ar_mb (fa_ar a)) eqn:Mb; intros E; injection E as <- <-; [left; exact K|]. right. split; [reflexivity|]. auto.
    + destruct (flag (tn_flags u) TOSSNODE_FEED && negb (ar_mb (fa_ar a))) eqn:F3; intros E; injection E as <- <-; [|left; exact K].
      apply andb_prop in F3 as (F3 & F4). apply negb_true_iff in F4. right. split; [reflexivity|]. apply V; auto.
      cbn. destruct (Nat.eqb (tn_node u) i); cbn; auto. right. exists u. split; auto. apply has_flag. auto.
    + intros E; injection E as <- <-. left. exact K.
Qed.

Lemma arealoop_ok cfg nodes c0 i cmd w name : rights (an_cn (getan nodes i)) c0 ->
  forall l p l' p', arealoop cfg nodes i cmd w name l p = Some (l', p') -> Forall2 (stepok cfg c0 i) l l'.
Proof.
  intros R. induction l as [|a r IH]; intros p l' p'; cbn [arealoop]; [intros E; injection E as <- <-; constructor|].
  destruct (if _ && _ then _ else _) as [[a' q]|] eqn:E; cbn [obind]; [|discriminate].
  destruct (arealoop cfg nodes i cmd w name r (snd (a', q))) as [[r' q']|] eqn:E2; cbn [obind]; [|discriminate].
  intros E3. injection E3 as <- <-. cbn [fst snd] in *. constructor; [|eauto].
  destruct (_ && _) eqn:T in E.
  - apply andb_prop in T as (T & _). apply Z.eqb_eq in T. destruct cmd.
    + injection E as E. left. replace a' with (fst (add1 (an_cn (getan nodes i)) i a p)) by (rewrite E; auto).
      apply add1_kept; auto.
    + eapply rem1_ok; eauto.
    + injection E as E. left. unfold upd1 in E. destruct (find _ _); injection E as <- <-; apply kept_refl.
  - injection E as <- <-. left. apply kept_refl.
Qed.

Definition live (l : list farea) : Prop := Forall (fun a => ar_type (fa_ar a) <> AREATYPE_DELETED) l.
Lemma deleted_ok cfg c i l l' : live l -> Forall2 (stepok cfg c i) l l' -> survive cfg c i l (RemoveDeletedAreas l').
Proof.
  intros L F. induction F as [|a a' l l' H F IH]; [constructor|]. inversion L; subst. cbn [RemoveDeletedAreas filter].
  fold (RemoveDeletedAreas l'). destruct H as [K|(D & V)].
  - pose proof (k_type _ _ _ _ K) as E. rewrite <- E in H2. apply Z.eqb_neq in H2. rewrite H2. cbn [negb]. constructor; auto.
  - rewrite D. cbn. apply sv_gone; auto.
Qed.
Lemma survive_live cfg c i l k : survive cfg c i l k -> live l -> live k.
Proof.
  induction 1 as [|a a' l l' K S IH|a l l' V S IH]; intros F; [exact F| |]; inversion F; subst; [|apply IH; auto].
  constructor; [|apply IH; auto]. rewrite (k_type _ _ _ _ K). auto.
Qed.
Lemma areas_ok_live cfg c i l k : areas_ok cfg c i l k -> live l -> live k.
Proof.
  intros (a & b & -> & S & F) L. apply Forall_app. split; [eapply survive_live; eauto|].
  eapply Forall_impl; [|exact F]. intros x (_ & T & _). rewrite T. discriminate.
Qed.
Lemma removed_live l : live l -> RemoveDeletedAreas l = l.
Proof.
  induction 1; auto. cbn [RemoveDeletedAreas filter]. fold (RemoveDeletedAreas l). apply Z.eqb_neq in H. rewrite H. cbn. f_equal. auto.
Qed.
Lemma removed_app a b : RemoveDeletedAreas (a ++ b) = RemoveDeletedAreas a ++ RemoveDeletedAreas b.
Proof. apply filter_app. Qed.

(** ** forwarded requests *)
Lemma streq_true a b : streq a b = true <-> a = b.
Proof. revert b. induction a as [|x a IH]; destruct b as [|y b]; cbn; try (split; congruence). rewrite andb_true_iff, Z.eqb_eq, IH. split; [intros (-> & ->); auto|]. intros E; injection E; auto. Qed.
Lemma samei_streqi a b : samei a b <-> streqi a b = true.
Proof. unfold samei, streqi. rewrite streq_true. tauto. Qed.

Lemma AddArea_facts cfg areas name nd my act fp a : AddArea cfg areas name nd my act fp = Some a ->
  ar_tag a = name /\ ar_type a = AREATYPE_ECHOMAIL.
Proof.
  unfold AddArea. destruct (match findnode _ _ _ with Some _ => _ | None => _ end); [|discriminate].
  destruct (findidx _ _ _); intros E; injection E as <-; split; reflexivity.
Qed.

Lemma forward_ok cfg c0 i rt name s s' : rights (an_cn (getan (fs_nodes s) i)) c0 -> forward cfg i rt name s = Some s' ->
  (s' = s \/ exists a, fs_areas s' = fs_areas s ++ [a] /\ forwarded cfg c0 a /\ ar_tag (fa_ar a) = name) /\ fs_nodes s' = fs_nodes s.
Proof.
  intros (G1 & G2 & G3). unfold forward. destruct (flag _ NODE_FORWARDREQ) eqn:F; [|intros E; injection E as <-; auto].
  destruct (FindForward _ _ _) as [al|] eqn:FF; [|intros E; injection E as <-; auto].
  destruct (Nat.ltb _ _); [|discriminate]. destruct (AddArea _ _ _ _ _ _ _) as [a|] eqn:AA; [|discriminate].
  intros E; injection E as <-. cbn. split; auto. right. destruct (AddArea_facts _ _ _ _ _ _ _ _ AA) as (T1 & T2).
  eexists. split; [reflexivity|]. split; [|exact T1]. apply find_some in FF as (FF1 & FF2).
  rewrite !andb_true_iff, check_In in FF2. destruct FF2 as ((FF2 & FF3) & FF4).
  split; [apply G3, has_flag; auto|]. split; auto. split; auto. exists al. split; auto. split; [apply has_flag; auto|].
  split; [rewrite <- G1; auto|]. split; auto. destruct (al_lines al) as [ls|] eqn:Ls; [|discriminate].
  apply existsb_exists in FF4 as (x & X1 & X2). exists ls, x. split; auto. split; auto. cbn. rewrite T1. apply samei_streqi. auto.
Qed.

(** ** one line *)
Lemma nth_error_setnth {A} (l : list A) n x m : nth_error (setnth n x l) m =
  if Nat.eqb m n then (if Nat.ltb n (length l) then Some x else None) else nth_error l m.
Proof.
  revert n m. induction l as [|y r IH]; intros n m; destruct n as [|n]; destruct m as [|m]; cbn [setnth nth_error length Nat.eqb]; auto.
  - destruct (Nat.eqb m n); auto.
  - rewrite IH. destruct (Nat.eqb m n); auto.
Qed.
Lemma setnth_length {A} n (x : A) l : length (setnth n x l) = length l.
Proof. revert n. induction l as [|y r IH]; intros [|n]; cbn; auto. Qed.

Lemma sameelse_refl n : sameelse n n.
Proof. repeat (split; [reflexivity|]). auto. Qed.
Lemma sameelse_trans a b c : sameelse a b -> sameelse b c -> sameelse a c.
Proof.
  intros (A1 & A2 & A3 & A4 & A5 & A6 & A7 & A8 & A9 & A10 & A11 & A12) (B1 & B2 & B3 & B4 & B5 & B6 & B7 & B8 & B9 & B10 & B11 & B12).
  repeat (split; [congruence|]). destruct B12 as [->|B12]; auto.
Qed.
Lemma nodes_ok_refl i l : nodes_ok i l l.
Proof. split; auto. split; auto. intros n H. exists n. split; auto. apply sameelse_refl. Qed.
Lemma nodes_ok_trans i a b c : nodes_ok i a b -> nodes_ok i b c -> nodes_ok i a c.
Proof.
  intros (A1 & A2 & A3) (B1 & B2 & B3). split; [congruence|]. split; [intros j H; rewrite B2, A2; auto|].
  intros n H. destruct (A3 n H) as (m & M1 & M2). destruct (B3 m M1) as (q & Q1 & Q2). exists q. split; auto. eapply sameelse_trans; eauto.
Qed.
Lemma set_node_ok i s n : nth_error (fs_nodes s) i <> None -> sameelse (getan (fs_nodes s) i) n -> nodes_ok i (fs_nodes s) (fs_nodes (set_node s i n)).
Proof.
  intros Hi S. cbn. split; [apply setnth_length|]. split.
  - intros j Hj. rewrite nth_error_setnth. apply Nat.eqb_neq in Hj. rewrite Hj. auto.
  - intros m Hm. exists n. rewrite nth_error_setnth, Nat.eqb_refl. apply nth_error_Some in Hi. apply Nat.ltb_lt in Hi. rewrite Hi.
    split; auto. unfold getan in S. erewrite nth_error_nth in S; eauto.
Qed.

Lemma ldiff_lor_passive f : Z.ldiff (Z.lor f NODE_PASSIVE) NODE_PASSIVE = Z.ldiff f NODE_PASSIVE.
Proof. apply Z.bits_inj'. intros n _. rewrite !Z.ldiff_spec, Z.lor_spec. destruct (Z.testbit f n), (Z.testbit NODE_PASSIVE n); auto. Qed.
Lemma ldiff_ldiff_passive f : Z.ldiff (Z.ldiff f NODE_PASSIVE) NODE_PASSIVE = Z.ldiff f NODE_PASSIVE.
Proof. apply Z.bits_inj'. intros n _. rewrite !Z.ldiff_spec. destruct (Z.testbit f n), (Z.testbit NODE_PASSIVE n); auto. Qed.
Lemma ldiff_forward f g : Z.ldiff f NODE_PASSIVE = Z.ldiff g NODE_PASSIVE -> Z.land f NODE_FORWARDREQ = Z.land g NODE_FORWARDREQ.
Proof.
  intros E. replace (Z.land f NODE_FORWARDREQ) with (Z.land (Z.ldiff f NODE_PASSIVE) NODE_FORWARDREQ).
  2:{ apply Z.bits_inj'. intros n _. rewrite !Z.land_spec, Z.ldiff_spec. unfold NODE_PASSIVE, NODE_FORWARDREQ.
      destruct (Z.eqb_spec n 4) as [->|H]; [destruct (Z.testbit f 4); auto|]. change 16 with (2 ^ 4). rewrite (Z.pow2_bits_false 4 n) by auto. rewrite !andb_false_r. auto. }
  rewrite E. apply Z.bits_inj'. intros n _. rewrite !Z.land_spec, Z.ldiff_spec. unfold NODE_PASSIVE, NODE_FORWARDREQ.
  destruct (Z.eqb_spec n 4) as [->|H]; [destruct (Z.testbit g 4); auto|]. change 16 with (2 ^ 4). rewrite (Z.pow2_bits_false 4 n) by auto. rewrite !andb_false_r. auto.
Qed.
Lemma sameelse_rights n m : sameelse n m -> rights (an_cn m) (an_cn n).
Proof.
  intros (A1 & A2 & A3 & A4 & A5 & A6 & A7 & _). split; auto. split; auto. unfold has. rewrite (ldiff_forward _ _ A7). auto.
Qed.

Ltac keepit := first [ repeat (split; [reflexivity|]); auto | idtac ].
Lemma pctcmd_ok cfg i buf s s' : nth_error (fs_nodes s) i <> None -> pctcmd cfg i buf s = Some s' ->
  fs_areas s' = fs_areas s /\ nodes_ok i (fs_nodes s) (fs_nodes s').
Proof.
  intros Hi. unfold pctcmd.
  destruct (jbstrcpy (repeat 0 100) buf 100) as [[[b|] g] rest]; [|discriminate].
  set (n := getan (fs_nodes s) i).
  assert (N0 : nodes_ok i (fs_nodes s) (fs_nodes s)) by apply nodes_ok_refl.
  assert (P1 : forall m, sameelse n m -> fs_areas (set_node s i m) = fs_areas s /\ nodes_ok i (fs_nodes s) (fs_nodes (set_node s i m))).
  { intros m H. split; auto. apply set_node_ok; auto. }
  destruct (streqi _ (lit "%PAUSE")).
  { intros E; injection E as <-. destruct (flag _ _); auto. apply P1. do 6 (split; [reflexivity|]). split; [apply ldiff_lor_passive|]. repeat (split; [reflexivity|]). auto. }
  destruct (streqi _ (lit "%RESUME")).
  { intros E; injection E as <-. destruct (flag _ _); auto. apply P1. do 6 (split; [reflexivity|]). split; [apply ldiff_ldiff_passive|]. repeat (split; [reflexivity|]). auto. }
  destruct (streqi _ (lit "%PWD")).
  { destruct (jbstrcpy b rest 40) as [[[b2|] []] ?]; try discriminate; intros E; injection E as <-; auto. apply P1. repeat (split; [reflexivity|]). auto. }
  destruct (streqi _ (lit "%RESCAN")).
  { intros E; injection E as <-. destruct (flag _ _); auto. }
  destruct (streqi _ (lit "%COMPRESS")).
  { destruct (jbstrcpy b rest 40) as [[[b2|] []] ?]; try discriminate; [|intros E; injection E as <-; auto].
    destruct (_ =? 63); [intros E; injection E as <-; auto|].
    destruct (streqi _ (lit "NONE")). { intros E; injection E as <-. apply P1. repeat (split; [reflexivity|]). auto. }
    destruct (findpacker _ _); intros E; injection E as <-; auto. apply P1. repeat (split; [reflexivity|]). auto. }
  repeat (destruct (streqi _ _); [intros E; injection E as <-; auto|]).
  intros E; injection E as <-; auto.
Qed.

Lemma areacmd_ok cfg rescan c0 i rt buf s s' ok : live (fs_areas s) -> rights (an_cn (getan (fs_nodes s) i)) c0 ->
  areacmd cfg rescan i rt buf s = Some (s', ok) ->
  areas_ok cfg c0 i (fs_areas s) (RemoveDeletedAreas (fs_areas s')) /\ (ok = false -> live (fs_areas s')) /\ fs_nodes s' = fs_nodes s.
Proof.
  intros L R. unfold areacmd. destruct (parsecmd buf) as [[cmd name] opt].
  destruct (arealoop _ _ _ _ _ _ _ _) as [[areas p]|] eqn:AL; cbn [obind]; [|discriminate].
  pose proof (arealoop_ok _ _ _ _ _ _ _ R _ _ _ _ AL) as St. pose proof (deleted_ok _ _ _ _ _ L St) as Sv.
  assert (A0 : areas_ok cfg c0 i (fs_areas s) (RemoveDeletedAreas areas)).
  { exists (RemoveDeletedAreas areas), []. rewrite app_nil_r. auto. }
  destruct (rescanof cfg (osIsPattern name) (fs_global s) opt p) as [[tag num]|] eqn:RO.
  - intros E; injection E as <- <-. cbn. split; auto. split; auto. intros _.
    (* a rescan follows only an addition or an update *)
    assert (NR : cmd <> CRemove).
    { intros ->. unfold rescanof in RO. destruct (lp_rescan p) eqn:Er; [|discriminate].
      assert (X : forall l q l' q', arealoop cfg (fs_nodes s) i CRemove (osIsPattern name) name l q = Some (l', q') -> lp_rescan q' = lp_rescan q).
      { clear. induction l as [|a r IH]; intros q l' q'; cbn [arealoop]; [intros E; injection E as <- <-; auto|].
        destruct (if _ && _ then _ else _) as [[a' q1]|] eqn:E; cbn [obind]; [|discriminate].
        destruct (arealoop _ _ _ _ _ _ r _) as [[r' q2]|] eqn:E2; cbn [obind]; [|discriminate].
        intros E3; injection E3 as <- <-. rewrite (IH _ _ _ E2). cbn [snd].
        destruct (_ && _) in E; [|injection E as <- <-; auto]. unfold rem1 in E.
        destruct (find _ _); [|injection E as <- <-; auto]. destruct (_ && _) in E; [injection E as <- <-; auto|].
        destruct (_ && _) in E. { destruct (SendRemoveMessages _ _ _); cbn [obind] in E; [|discriminate]. injection E as <- <-; auto. }
        destruct (flag _ _) in E; [|injection E as <- <-; auto].
        destruct (remfirst _ _) as [|? [|? ?]]; [destruct (ar_mb _) in E| destruct (_ && _) in E | ]; injection E as <- <-; auto. }
      rewrite (X _ _ _ _ AL) in Er. discriminate. }
    clear RO. revert NR L AL. clear. intros NR L. revert areas p. generalize (LP false false None []) as q. generalize (fs_areas s) L.
    intros l. induction l as [|a r IH]; intros Lv q areas p; cbn [arealoop]; [intros E; injection E as <- <-; constructor|].
    inversion Lv; subst. destruct (if _ && _ then _ else _) as [[a' q1]|] eqn:E; cbn [obind]; [|discriminate].
    destruct (arealoop _ _ _ _ _ _ r _) as [[r' q2]|] eqn:E2; cbn [obind]; [|discriminate].
    intros E3; injection E3 as <- <-. constructor; [|eapply IH; eauto]. cbn [fst].
    destruct (_ && _) in E; [|injection E as <- <-; auto]. destruct cmd; [|congruence|].
    + injection E as E. unfold add1 in E. destruct (find _ _); [injection E as <- <-; auto|].
      destruct (_ || _) in E; [|injection E as <- <-; auto]. destruct (existsb _ _) in E; injection E as <- <-; auto.
    + injection E as E. unfold upd1 in E. destruct (find _ _); injection E as <- <-; auto.
  - destruct cmd.
    2,3: intros E; injection E as <- <-; cbn; split; auto; split; auto; discriminate.
    destruct (_ && _); [|intros E; injection E as <- <-; cbn; split; auto; split; auto; discriminate].
    destruct (forward _ _ _ _ _) as [s2|] eqn:F; cbn [obind]; [|discriminate]. intros E; injection E as <- <-.
    destruct (forward_ok cfg c0 i rt name (AFS areas (fs_nodes s) (fs_want s) (fs_global s) (fs_ev s ++ lp_ev p)) s2 R F) as (H1 & H2). cbn [fs_nodes fs_areas] in *.
    split; [|split; auto; discriminate]. destruct H1 as [->|(a & H1 & H3 & _)]; [exact A0|].
    rewrite H1, removed_app. exists (RemoveDeletedAreas areas), [a]. split.
    + f_equal. destruct H3 as (_ & T & _). cbn [RemoveDeletedAreas filter]. rewrite T. reflexivity.
    + split; auto.
Qed.

Lemma getan_nth nodes i n : nth_error nodes i = Some n -> getan nodes i = n.
Proof. intros H. unfold getan. eapply nth_error_nth; eauto. Qed.

Lemma afline_ok cfg rescan n0 i rt raw s s' ok : live (fs_areas s) ->
  (exists n, nth_error (fs_nodes s) i = Some n /\ sameelse n0 n) ->
  afline cfg rescan i rt raw s = Some (s', ok) ->
  areas_ok cfg (an_cn n0) i (fs_areas s) (fs_areas s') /\ nodes_ok i (fs_nodes s) (fs_nodes s').
Proof.
  intros L (n & Hn & Hs). pose proof (getan_nth _ _ _ Hn) as Hg.
  assert (R : rights (an_cn (getan (fs_nodes s) i)) (an_cn n0)) by (rewrite Hg; apply sameelse_rights; auto).
  assert (Hi : nth_error (fs_nodes s) i <> None) by congruence.
  unfold afline. set (buf := stripleadtrail raw).
  assert (X : forall s1 o1, (match buf with [] => Some (s, true) | 1 :: _ => Some (s, true)
      | 37 :: _ => do s' <- pctcmd cfg i buf s; Some (s', true) | _ => areacmd cfg rescan i rt buf s end) = Some (s1, o1) ->
      areas_ok cfg (an_cn n0) i (fs_areas s) (RemoveDeletedAreas (fs_areas s1)) /\ (o1 = false -> live (fs_areas s1)) /\ nodes_ok i (fs_nodes s) (fs_nodes s1)).
  { intros s1 o1 E.
    assert (E' : (s1 = s /\ o1 = true) \/ (exists s2, pctcmd cfg i buf s = Some s2 /\ s1 = s2 /\ o1 = true) \/ areacmd cfg rescan i rt buf s = Some (s1, o1)).
    { destruct buf as [|c r] eqn:B; [injection E as <- <-; auto|].
      destruct (Z.eq_dec c 1) as [->|N1]; [injection E as <- <-; auto|].
      destruct (Z.eq_dec c 37) as [->|N2].
      - destruct (pctcmd _ _ _ _) as [s2|]; cbn [obind] in E; [|discriminate]. injection E as <- <-. right. left. eauto.
      - right. right. destruct c as [|q|q]; auto. do 6 (try (destruct q as [q|q|]; [| |try congruence; try exact E])); try exact E; congruence. }
    destruct E' as [(-> & ->)|[(s2 & P & -> & ->)|E']].
    - rewrite removed_live by auto. split; [apply areas_ok_refl|]. split; [discriminate|apply nodes_ok_refl].
    - destruct (pctcmd_ok _ _ _ _ _ Hi P) as (-> & P2). rewrite removed_live by auto. split; [apply areas_ok_refl|]. split; [discriminate|auto].
    - destruct (areacmd_ok _ _ (an_cn n0) _ _ _ _ _ _ L R E') as (Q1 & Q2 & ->). split; auto. split; auto. apply nodes_ok_refl. }
  destruct (match buf with [] => _ | _ => _ end) as [[s1 o1]|] eqn:E; cbn [obind]; [|discriminate].
  destruct (X _ _ eq_refl) as (X1 & X2 & X3).
  destruct o1; intros E1; injection E1 as <- <-; cbn; auto. rewrite removed_live in X1 by auto. auto.
Qed.

(** ** the whole text *)
Definition linesok (cfg : afcfg) (n0 : anode) (i : nat) (s s' : afst) : Prop :=
  areas_ok cfg (an_cn n0) i (fs_areas s) (fs_areas s') /\ nodes_ok i (fs_nodes s) (fs_nodes s').
Lemma linesok_carry cfg n0 i s s' : live (fs_areas s) -> (exists n, nth_error (fs_nodes s) i = Some n /\ sameelse n0 n) -> linesok cfg n0 i s s' ->
  live (fs_areas s') /\ (exists n, nth_error (fs_nodes s') i = Some n /\ sameelse n0 n).
Proof.
  intros L (n & Hn & Hs) (A & N). split; [eapply areas_ok_live; eauto|]. destruct N as (_ & _ & N).
  destruct (N n Hn) as (m & Hm & S). exists m. split; auto. eapply sameelse_trans; eauto.
Qed.
Lemma linesok_trans cfg n0 i a b c : linesok cfg n0 i a b -> linesok cfg n0 i b c -> linesok cfg n0 i a c.
Proof. intros (A1 & A2) (B1 & B2). split; [eapply areas_ok_trans; eauto|eapply nodes_ok_trans; eauto]. Qed.
Lemma linesok_refl cfg n0 i s : linesok cfg n0 i s s.
Proof. split; [apply areas_ok_refl|apply nodes_ok_refl]. Qed.

Lemma chunkloop_ok cfg rescan n0 i rt fuel : forall l s s' h, live (fs_areas s) ->
  (exists n, nth_error (fs_nodes s) i = Some n /\ sameelse n0 n) ->
  chunkloop cfg rescan i rt fuel l s = Some (s', h) -> linesok cfg n0 i s s'.
Proof.
  induction fuel as [|f IH]; intros l s s' h L N; cbn [chunkloop]; destruct l as [|c r]; try discriminate.
  1,2: intros E; injection E as <- <-; apply linesok_refl.
  destruct (upto 100 (c :: r)) as [d rest]. destruct (Nat.ltb _ _); [|discriminate].
  destruct (afline cfg rescan i rt (cstr d) s) as [[s1 ok]|] eqn:A; cbn [obind]; [|discriminate]. cbn [fst snd].
  pose proof (afline_ok _ _ _ _ _ _ _ _ _ L N A) as S1. fold (linesok cfg n0 i s s1) in S1.
  destruct ok; [|intros E; injection E as <- <-; auto].
  destruct (isstop _); [intros E; injection E as <- <-; auto|]. intros E.
  destruct (linesok_carry _ _ _ _ _ L N S1) as (L1 & N1). eapply linesok_trans; eauto.
Qed.
Lemma chunksloop_ok cfg rescan n0 i rt cs : forall s s' h, live (fs_areas s) ->
  (exists n, nth_error (fs_nodes s) i = Some n /\ sameelse n0 n) ->
  chunksloop cfg rescan i rt cs s = Some (s', h) -> linesok cfg n0 i s s'.
Proof.
  induction cs as [|l r IH]; intros s s' h L N; cbn [chunksloop]; [intros E; injection E as <- <-; apply linesok_refl|].
  destruct (chunkloop cfg rescan i rt (length l) l s) as [[s1 h1]|] eqn:A; cbn [obind]; [|discriminate]. cbn [fst snd].
  pose proof (chunkloop_ok _ _ _ _ _ _ _ _ _ _ L N A) as S1.
  destruct h1; [|intros E; injection E as <- <-; auto..]. intros E.
  destruct (linesok_carry _ _ _ _ _ L N S1) as (L1 & N1). eapply linesok_trans; eauto.
Qed.

(** ** who is authorised *)
Lemma sameaddr_b a b : sameaddrb a b = true <-> sameaddr a b.
Proof. unfold sameaddrb, sameaddr. lia. Qed.

Lemma findidx_sender nodes mm i : findidx (fun n => cn_node (an_cn n)) (OrigNode mm) nodes = Some i <-> sender nodes mm i.
Proof.
  unfold sender. revert i. induction nodes as [|n r IH]; intros i; cbn [findidx].
  { split; [discriminate|]. intros (x & H & _). destruct i; discriminate. }
  rewrite compare_same. destruct (sameaddrb (cn_node (an_cn n)) (OrigNode mm)) eqn:E.
  - apply sameaddr_b in E. split.
    + intros H; injection H as <-. exists n. split; auto. split; auto. intros j m Hj. lia.
    + intros (x & H1 & H2 & H3). destruct i as [|i]; auto. exfalso. eapply (H3 0%nat n); auto; [lia].
  - assert (E' : ~ sameaddr (cn_node (an_cn n)) (OrigNode mm)) by (rewrite <- sameaddr_b; congruence).
    split.
    + destruct (findidx _ _ r) as [k|] eqn:F; [|discriminate]. cbn. intros H; injection H as <-.
      destruct (proj1 (IH k) eq_refl) as (x & H1 & H2 & H3). exists x. split; auto. split; auto.
      intros [|j] m Hj Hm; [cbn in Hm; injection Hm as <-; auto|]. eapply H3; [|exact Hm]. lia.
    + intros (x & H1 & H2 & H3). destruct i as [|i]; [cbn in H1; injection H1 as <-; tauto|].
      rewrite (proj2 (IH i)); auto. exists x. split; auto. split; auto. intros j m Hj Hm. apply (H3 (S j) m); auto. lia.
Qed.

Lemma skipblank_split s : exists p, s = p ++ skipblank s /\ Forall (fun c => c = 32 \/ c = 9) p /\
  forall c r, skipblank s = c :: r -> c <> 32 /\ c <> 9.
Proof.
  induction s as [|c r IH]; [exists []; split; auto; split; [constructor|discriminate]|]. cbn [skipblank].
  destruct ((c =? 32) || (c =? 9)) eqn:E.
  - destruct IH as (p & H1 & H2 & H3). exists (c :: p). split; [cbn; f_equal; auto|]. split; auto. constructor; auto. lia.
  - exists []. split; auto. split; [constructor|]. intros d t H. injection H as <- <-. lia.
Qed.
Lemma subject_word s : cstring s -> exists b ok rest, jbstrcpy (repeat 0 100) s 100 = (Some b, ok, rest) /\ length b = 100%nat /\ firstword s (cstr b) /\ cstring rest.
Proof.
  intros Hs. destruct (jbstrcpy_spec (repeat 0 100) s 100 (repeat_length _ _) ltac:(lia) Hs) as (b & t & rest & ret & rest' & E & (Hl & _ & Hc) & H & Hr).
  exists b, ret, rest'. split; auto. split; auto. destruct (skipblank_split s) as (p & Hp & Fp & Np).
  assert (Cr : cstring rest -> cstring rest').
  { destruct Hr as [->|(c & ->)]; auto. intros C. inversion C; auto. }
  assert (Tk : forall st x t r, token st x t r -> cstring x -> cstring r).
  { intros st x u r T. induction T; intros C; auto.
    - apply IHT. inversion C as [|? ? C1 C2]. inversion C2; auto.
    - apply IHT. inversion C; auto. }
  pose proof (cstring_skipblank _ Hs) as Hk.
  rewrite Hc. split.
  - rewrite Hp. destruct H as [(body & H1 & H2 & _)|(H1 & H2 & _)].
    + rewrite H1. eapply fw_quoted; eauto.
    + eapply fw_plain; eauto. intros c r Hx. destruct (Np c r Hx) as (N1 & N2). split; auto. split; auto. intros ->. eapply H1; eauto.
  - apply Cr. destruct H as [(body & H1 & H2 & _)|(H1 & H2 & _)].
    + rewrite H1 in Hk. inversion Hk. eapply Tk; eauto.
    + eapply Tk; eauto.
Qed.
Lemma firstword_fun s a b : firstword s a -> firstword s b -> a = b.
Proof.
  assert (X : forall p1 s1 p2 s2, Forall (fun c => c = 32 \/ c = 9) p1 -> Forall (fun c => c = 32 \/ c = 9) p2 ->
     (forall c r, s1 = c :: r -> c <> 32 /\ c <> 9) -> (forall c r, s2 = c :: r -> c <> 32 /\ c <> 9) -> p1 ++ s1 = p2 ++ s2 -> s1 = s2).
  { induction p1 as [|c p1 IH]; intros s1 p2 s2 F1 F2 N1 N2 E; destruct p2 as [|d p2]; cbn [app] in E; auto.
    - inversion F2; subst. destruct (N1 d (p2 ++ s2) eq_refl). lia.
    - inversion F1; subst. destruct (N2 c (p1 ++ s1) eq_refl). lia.
    - injection E as -> E. inversion F1; inversion F2; subst. eapply IH; eauto. }
  assert (Q : forall s c r, 34 :: s = c :: r -> c <> 32 /\ c <> 9) by (intros x c r H; injection H as <- <-; lia).
  intros H1 H2. inversion H1 as [p x t rest F N T E1 E2|p x t rest F T E1 E2]; inversion H2 as [p' x' t' rest' F' N' T' E1' E2'|p' x' t' rest' F' T' E1' E2']; subst.
  - assert (x = x'). { symmetry. eapply X; [exact F'|exact F| | |exact E1']; intros c r H; [destruct (N' c r H)|destruct (N c r H)]; tauto. }
    subst. destruct (token_fun _ _ _ _ _ _ T T'). subst. auto.
  - exfalso. assert (E : 34 :: x' = x). { eapply X; [exact F'|exact F|apply Q| |exact E1']. intros c r H; destruct (N c r H); tauto. }
    destruct (N _ _ (eq_sym E)). tauto.
  - exfalso. assert (E : x' = 34 :: x). { eapply X; [exact F'|exact F| |apply Q|exact E1']. intros c r H; destruct (N' c r H); tauto. }
    destruct (N' _ _ E). tauto.
  - assert (E : 34 :: x = 34 :: x'). { symmetry. eapply X; [exact F'|exact F|apply Q|apply Q|exact E1']. }
    injection E as ->. destruct (token_fun _ _ _ _ _ _ T T'). subst. auto.
Qed.

(** ** reading a line *)
Lemma striptrail_keep x : Forall (fun c => 33 <= c < 128) x -> striptrail x = x.
Proof.
  induction 1 as [|c r H F IH]; auto. cbn [striptrail]. rewrite IH. destruct r; auto. unfold isstrip.
  replace ((c <? 33) || (c >=? 128)) with false by lia. auto.
Qed.
Lemma striptrail_app x c o : 33 <= c < 128 -> striptrail (x ++ c :: o) = x ++ c :: striptrail o.
Proof.
  intros H. induction x as [|d r IH]; cbn [app striptrail].
  - destruct (striptrail o); auto. unfold isstrip. replace ((c <? 33) || (c >=? 128)) with false by lia. auto.
  - rewrite IH. destruct (r ++ c :: striptrail o) eqn:E; auto. destruct r; discriminate.
Qed.
Lemma striptrail_sub o : forall c, In c (striptrail o) -> In c o.
Proof.
  induction o as [|d r IH]; cbn [striptrail]; auto. intros c H. destruct (striptrail r) as [|e t].
  - destruct (isstrip d); [destruct H|]. destruct H as [->|[]]. left. auto.
  - destruct H as [->|H]; [left; auto|right; auto].
Qed.
Lemma lastcomma_none x : ~ In 44 x -> lastcomma x = None.
Proof.
  induction x as [|c r IH]; auto. intros H. cbn [lastcomma]. rewrite IH by (intros K; apply H; right; auto).
  destruct (Z.eqb_spec c 44) as [->|]; auto. exfalso. apply H. left. auto.
Qed.
Lemma lastcomma_some x o : ~ In 44 o -> lastcomma (x ++ 44 :: o) = Some (x, o).
Proof.
  intros H. induction x as [|c r IH]; cbn [app lastcomma]; [rewrite lastcomma_none; auto|]. rewrite IH. auto.
Qed.
Lemma plainname_range pat : plainname pat -> Forall (fun c => 33 <= c < 128) pat.
Proof. apply Forall_impl. tauto. Qed.
Lemma plainname_comma pat : plainname pat -> ~ In 44 pat.
Proof. intros H K. unfold plainname in H. rewrite Forall_forall in H. destruct (H _ K). auto. Qed.

(** the text of a line with its option, as AreaFix takes it apart *)
Lemma strip_text x o : Forall (fun c => 33 <= c < 128) x -> ~ In 44 x -> x <> [] -> option_text o ->
  exists o', stripleadtrail (x ++ o) = x ++ o' /\
    (match lastcomma (x ++ o') with Some (a, b) => (a, striplead b) | None => (x ++ o', []) end) = (x, match o' with [] => [] | _ :: b => striplead b end).
Proof.
  intros F N Ne Ho. unfold stripleadtrail.
  assert (L : forall y, striplead (x ++ y) = x ++ y).
  { intros y. destruct x as [|c r]; [congruence|]. cbn [app striplead]. inversion F; subst. replace (c =? 32) with false by lia. auto. }
  rewrite L. destruct Ho as [->|(r & -> & Hr)].
  - exists []. rewrite app_nil_r, striptrail_keep by auto. split; auto. rewrite lastcomma_none by auto. auto.
  - exists (44 :: striptrail r). rewrite striptrail_app by lia. split; auto. rewrite lastcomma_some; auto.
    intros K. apply Hr. apply striptrail_sub. auto.
Qed.
Lemma parse_text x o : Forall (fun c => 33 <= c < 128) x -> ~ In 44 x -> x <> [] -> option_text o ->
  exists o', stripleadtrail (x ++ o) = x ++ o' /\ exists opt, parsecmd (x ++ o') =
    match x with
    | 45 :: r => (CRemove, r, opt)
    | 61 :: r => (CUpdate, r, opt)
    | 43 :: r => (CAdd, r, opt)
    | _ => (CAdd, x, opt)
    end.
Proof.
  intros F N Ne Ho. destruct (strip_text x o F N Ne Ho) as (o' & H1 & H2). exists o'. split; auto.
  eexists. unfold parsecmd. rewrite H2. rewrite striptrail_keep by auto. reflexivity.
Qed.
Lemma afline_dispatch cfg rescan i rt raw s c r : stripleadtrail raw = c :: r -> c <> 1 -> c <> 37 ->
  afline cfg rescan i rt raw s = (do x <- areacmd cfg rescan i rt (c :: r) s;
    let '(s', ok) := x in
    if ok then Some (AFS (RemoveDeletedAreas (fs_areas s')) (fs_nodes s') (fs_want s') (fs_global s') (fs_ev s'), true) else Some (s', false)).
Proof.
  intros E N1 N2. unfold afline. rewrite E. destruct c as [|q|q]; auto.
  do 6 (try (destruct q as [q|q|]; [| |try congruence; try reflexivity])); try reflexivity; congruence.
Qed.

Lemma osis_wild pat : osIsPattern pat = true <-> wild pat.
Proof. unfold osIsPattern, wild. rewrite orb_true_iff, !mem_In. tauto. Qed.

(** *** additions *)
Lemma newlink_made c i a : newlink c i a (TN i (if flag (ar_flags a) AREA_DEFREADONLY || CheckFlags (ar_group a) (cn_rogroups c) then TOSSNODE_READONLY else 0)).
Proof.
  split; [reflexivity|]. unfold readonly_for. cbn [tn_flags]. rewrite <- check_In, has_flag, <- orb_true_iff.
  split; intros H; [rewrite H; auto|]. apply not_true_is_false in H. rewrite H. reflexivity.
Qed.
Lemma mayattach_b c i a : mayattach c i a <-> (CheckFlags (ar_group (fa_ar a)) (cn_groups c) || CheckFlags (ar_group (fa_ar a)) (cn_rogroups c)) && negb (existsb (Nat.eqb i) (fa_ban a)) = true.
Proof.
  unfold mayattach, mayuse. rewrite andb_true_iff, orb_true_iff, !check_In, negb_true_iff. rewrite <- existsb_eqb.
  destruct (existsb _ _); intuition congruence.
Qed.
Lemma add1_exact c i pat a p : selects pat a -> attached c i pat a (fst (add1 c i a p)) /\ lp_exists (snd (add1 c i a p)) = true.
Proof.
  intros Sel. unfold add1. rewrite find_own. destruct (own i (ar_tn (fa_ar a))) as [|t r] eqn:O; cbn [hd_error].
  2:{ cbn [fst snd]. split; auto. apply at_same. intros (_ & K & _). rewrite O in K. discriminate. }
  destruct (_ || _) eqn:C.
  - destruct (existsb (Nat.eqb i) (fa_ban a)) eqn:B; cbn [fst snd].
    + split; auto. apply at_same. intros (_ & _ & K). apply existsb_eqb in B. apply (proj2 K). auto.
    + split; auto. apply at_new; auto; [|apply newlink_made]. apply mayattach_b. rewrite C, B. auto.
  - cbn [fst snd]. split; auto. apply at_same. intros (_ & _ & K). apply mayattach_b in K. rewrite C in K. discriminate.
Qed.
Lemma selects_b pat a : (ar_type (fa_ar a) =? AREATYPE_ECHOMAIL) && osMatchPattern pat (ar_tag (fa_ar a)) = true <-> selects pat a.
Proof. unfold selects. rewrite andb_true_iff, Z.eqb_eq, osMatchPattern_spec. tauto. Qed.

Lemma addloop cfg nodes i w pat : forall l p, exists l' p', arealoop cfg nodes i CAdd w pat l p = Some (l', p') /\
  Forall2 (attached (an_cn (getan nodes i)) i pat) l l' /\ (lp_exists p' = true <-> lp_exists p = true \/ exists a, In a l /\ selects pat a) /\ lp_ev p' = lp_ev p.
Proof.
  induction l as [|a r IH]; intros p; cbn [arealoop].
  { exists [], p. split; auto. split; auto. split; auto. split; auto. intros [H|(a & [] & _)]; auto. }
  destruct (_ && _) eqn:T.
  - apply selects_b in T. cbn [obind]. destruct (add1 _ i a p) as [a' q] eqn:A. cbn [fst snd].
    pose proof (add1_exact (an_cn (getan nodes i)) i pat a p T) as (X1 & X2). rewrite A in X1, X2. cbn [fst snd] in X1, X2.
    destruct (IH q) as (r' & q' & E & F & Ex & Ev). rewrite E. cbn [obind fst snd]. eexists _, _. split; [reflexivity|].
    split; [constructor; auto|]. split.
    + rewrite Ex, X2. split; [intros _; right; exists a; split; [left; auto|auto]|]. auto.
    + rewrite Ev. unfold add1 in A. destruct (find _ _); [injection A as <- <-; auto|]. destruct (_ || _); [destruct (existsb _ _)|]; injection A as <- <-; auto.
  - assert (T' : ~ selects pat a) by (rewrite <- selects_b; congruence). cbn [obind fst snd].
    destruct (IH p) as (r' & q' & E & F & Ex & Ev). rewrite E. cbn [obind fst snd]. eexists _, _. split; [reflexivity|].
    split; [constructor; auto; apply at_same; tauto|]. split; auto. rewrite Ex. split.
    + intros [H|(b & H1 & H2)]; auto. right. exists b. split; auto. right. auto.
    + intros [H|(b & [<-|H1] & H2)]; [auto|tauto|]. right. eauto.
Qed.

Lemma attached_live c i pat l l' : Forall2 (attached c i pat) l l' -> live l -> live l'.
Proof.
  induction 1 as [|a a' l l' H F IH]; intros L; [constructor|]. inversion L; subst. constructor; [|apply IH; auto]. inversion H; subst; auto.
Qed.

Lemma add_exact cfg rescan i rt pat line s : live (fs_areas s) -> addline pat line -> (wild pat \/ exists a, In a (fs_areas s) /\ selects pat a) ->
  exists s' ok, afline cfg rescan i rt line s = Some (s', ok) /\
    Forall2 (attached (an_cn (getan (fs_nodes s) i)) i pat) (fs_areas s) (fs_areas s') /\ fs_nodes s' = fs_nodes s /\
    (ok = false -> exists tag num, rescan tag num = false).
Proof.
  intros L (Pl & o & Ho & Hl) W.
  assert (X : exists c r opt, stripleadtrail line = c :: r /\ c <> 1 /\ c <> 37 /\ parsecmd (c :: r) = (CAdd, pat, opt)).
  { pose proof (plainname_range _ Pl) as R. pose proof (plainname_comma _ Pl) as Cm. destruct Hl as [->|(-> & c & r & -> & Nc)].
    - destruct (parse_text (43 :: pat) o) as (o' & E1 & opt & E2); [constructor; auto; lia|intros [K|K]; [lia|auto]|discriminate|auto|].
      exists 43, (pat ++ o'), opt. split; [exact E1|]. split; [lia|]. split; [lia|]. exact E2.
    - destruct (parse_text (c :: r) o) as (o' & E1 & opt & E2); [auto|auto|discriminate|auto|].
      exists c, (r ++ o'), opt. split; [exact E1|]. inversion R; subst. split; [lia|]. split; [intros ->; apply Nc; left; auto|].
      cbn [app] in E2. rewrite E2. cbn [In] in Nc.
      destruct c as [|q|q]; auto. do 6 (try (destruct q as [q|q|]; [| |try reflexivity])); try reflexivity; exfalso; apply Nc; auto 8. }
  destruct X as (c & r & opt & E1 & N1 & N2 & E2). rewrite (afline_dispatch _ _ _ _ _ _ _ _ E1 N1 N2).
  unfold areacmd. rewrite E2. destruct (addloop cfg (fs_nodes s) i (osIsPattern pat) pat (fs_areas s) (LP false false None [])) as (l' & p' & EL & F & Ex & Ev).
  rewrite EL. cbn [obind]. pose proof (attached_live _ _ _ _ _ F L) as L'. pose proof (removed_live _ L') as RL.
  destruct (rescanof _ _ _ _ _) as [[tag num]|] eqn:RO.
  - cbn [obind]. destruct (rescan tag num) eqn:Rs.
    + eexists _, true. split; [reflexivity|]. cbn [fs_areas fs_nodes]. rewrite RL. split; auto. split; auto. discriminate.
    + eexists _, false. split; [reflexivity|]. cbn. split; auto. split; auto. intros _. eauto.
  - replace (negb (lp_done p') && negb (osIsPattern pat) && negb (lp_exists p')) with false.
    2:{ destruct W as [W|W]; [apply osis_wild in W; rewrite W; cbn; destruct (negb (lp_done p')); auto|].
        rewrite (proj2 Ex) by (right; exact W). cbn. rewrite andb_false_r. auto. }
    cbn [obind]. eexists _, true. split; [reflexivity|]. cbn [fs_areas fs_nodes]. rewrite RL. split; auto. split; auto. discriminate.
Qed.

(** *** removals *)
Lemma remfirst_split i l t r : own i l = t :: r -> exists l1 l2, l = l1 ++ t :: l2 /\ own i l1 = [] /\ tn_node t = i /\ remfirst i l = l1 ++ l2.
Proof.
  induction l as [|u l IH]; cbn [own filter]; [discriminate|]. fold (own i l). cbn [remfirst]. unfold isnode. destruct (Nat.eqb (tn_node u) i) eqn:E.
  - intros H. injection H as -> _. exists [], l. split; auto. split; auto. split; auto. apply Nat.eqb_eq. auto.
  - intros H. destruct (IH H) as (l1 & l2 & -> & H1 & H2 & H3). exists (u :: l1), l2. split; auto. split; [cbn [own filter]; rewrite E; auto|]. split; auto. rewrite H3. auto.
Qed.
Lemma rem1_exact cfg nodes i w pat a p a' p' : selects pat a -> rem1 cfg nodes i w a p = Some (a', p') ->
  live [a] -> detached cfg i pat a (RemoveDeletedAreas [a']).
Proof.
  intros Sel H L. unfold rem1 in H. rewrite find_own in H. pose proof (removed_live _ L) as RL.
  destruct (own i (ar_tn (fa_ar a))) as [|t r] eqn:O; cbn [hd_error] in H.
  { injection H as <- <-. rewrite RL. apply de_none. auto. }
  destruct (remfirst_split _ _ _ _ O) as (l1 & l2 & E1 & E2 & E3 & E4). rewrite E4 in H.
  destruct (flag (ar_flags (fa_ar a)) AREA_MANDATORY && negb (flag (tn_flags t) TOSSNODE_FEED)) eqn:M.
  { injection H as <- <-. rewrite RL. eapply de_bound; eauto. apply andb_prop in M as (M1 & M2). intros K. apply has_flag in M1. apply K in M1.
    apply has_flag in M1. rewrite M1 in M2. discriminate. }
  assert (MD : maydetach (fa_ar a) t).
  { intros K. apply has_flag in K. rewrite K in M. cbn [andb] in M. apply negb_false_iff in M. apply has_flag. auto. }
  assert (EL : live [FA (set_tn (fa_ar a) (l1 ++ l2)) (fa_ban a) true]). { inversion L; subst. constructor; auto. }
  apply removed_live in EL.
  destruct (flag (tn_flags t) TOSSNODE_FEED && flag (fc_flags cfg) CFG_REMOVEWHENFEED) eqn:F1.
  { destruct (SendRemoveMessages _ _ _); cbn [obind] in H; [|discriminate]. injection H as <- <-. cbn.
    apply andb_prop in F1 as (F1 & F2). eapply de_gone; eauto. left. split; apply has_flag; auto. }
  assert (NV : (has (fc_flags cfg) CFG_AREAFIXREMOVE -> ar_mb (fa_ar a) = false -> (l1 ++ l2 = [] \/ exists u, l1 ++ l2 = [u] /\ isfeed u) -> False) -> ~ vanishes cfg (fa_ar a) t (l1 ++ l2)).
  { intros HK [(V1 & V2)|(V1 & V2 & V3)]; auto. unfold isfeed in V2. apply has_flag in V1, V2. rewrite V1, V2 in F1. discriminate. }
  assert (OFF : ~ vanishes cfg (fa_ar a) t (l1 ++ l2) -> detached cfg i pat a [FA (set_tn (fa_ar a) (l1 ++ l2)) (fa_ban a) true]) by (intros K; eapply de_off; eauto).
  assert (GONE : vanishes cfg (fa_ar a) t (l1 ++ l2) -> detached cfg i pat a []) by (intros K; eapply de_gone; eauto).
  clear E1 E2 E4. destruct (flag (fc_flags cfg) CFG_AREAFIXREMOVE) eqn:F2.
  2:{ injection H as <- <-. rewrite EL. apply OFF, NV. intros K. apply has_flag in K. congruence. }
  apply has_flag in F2. destruct (l1 ++ l2) as [|u [|u2 l3]].
  - destruct (ar_mb (fa_ar a)) eqn:Mb; injection H as <- <-.
    + rewrite EL. apply OFF, NV. congruence.
    + cbn. apply GONE. right. auto.
  - destruct (flag (tn_flags u) TOSSNODE_FEED && negb (ar_mb (fa_ar a))) eqn:F3; injection H as <- <-.
    + apply andb_prop in F3 as (F3 & F4). apply negb_true_iff in F4. cbn. apply GONE. right. split; auto. split; auto. right. exists u. split; auto. apply has_flag. auto.
    + rewrite EL. apply OFF, NV. intros _ K1 [K2|(v & K2 & K3)]; [discriminate|]. injection K2 as <-. apply has_flag in K3. rewrite K1, K3 in F3. discriminate.
  - injection H as <- <-. rewrite EL. apply OFF, NV. intros _ _ [K2|(v & K2 & K3)]; discriminate.
Qed.
Lemma remloop cfg nodes i w pat : forall l p l' p', live l -> arealoop cfg nodes i CRemove w pat l p = Some (l', p') ->
  exists ll, Forall2 (detached cfg i pat) l ll /\ RemoveDeletedAreas l' = concat ll.
Proof.
  induction l as [|a r IH]; intros p l' p' L; cbn [arealoop]. { intros E; injection E as <- <-. exists []. split; auto. }
  inversion L as [|? ? L1 L2]; subst.
  destruct (if _ && _ then _ else _) as [[a' q]|] eqn:E; cbn [obind]; [|discriminate].
  destruct (arealoop cfg nodes i CRemove w pat r (snd (a', q))) as [[r' q']|] eqn:E2; cbn [obind]; [|discriminate].
  intros E3. injection E3 as <- <-. cbn [fst snd]. destruct (IH _ _ _ L2 E2) as (ll & F & Ec).
  exists (RemoveDeletedAreas [a'] :: ll). split; [|cbn [concat]; rewrite <- Ec; change (a' :: r') with ([a'] ++ r'); apply removed_app].
  constructor; auto. destruct (_ && _) eqn:T in E.
  - apply selects_b in T. eapply rem1_exact; eauto. constructor; auto.
  - injection E as <- <-. rewrite removed_live by (constructor; auto). apply de_other. rewrite <- selects_b. congruence.
Qed.
Lemma parse_signed sg pat o : plainname pat -> option_text o -> In sg [43; 45; 61] ->
  exists r opt, stripleadtrail (sg :: pat ++ o) = sg :: r /\ parsecmd (sg :: r) = (if sg =? 45 then CRemove else if sg =? 61 then CUpdate else CAdd, pat, opt).
Proof.
  intros Pl Ho Hs. pose proof (plainname_range _ Pl) as R. pose proof (plainname_comma _ Pl) as Cm.
  destruct (parse_text (sg :: pat) o) as (o' & E1 & opt & E2).
  - constructor; auto. cbn in Hs. lia.
  - intros [K|K]; [cbn in Hs; lia|auto].
  - discriminate.
  - auto.
  - exists (pat ++ o'), opt. split; [exact E1|]. cbn [app] in E2. rewrite E2. cbn in Hs. destruct Hs as [<-|[<-|[<-|[]]]]; reflexivity.
Qed.
Lemma remrescan cfg nodes i w pat : forall l p l' p', arealoop cfg nodes i CRemove w pat l p = Some (l', p') -> lp_rescan p' = lp_rescan p.
Proof.
  induction l as [|a r IH]; intros q l' q'; cbn [arealoop]; [intros E; injection E as <- <-; auto|].
  destruct (if _ && _ then _ else _) as [[a' q1]|] eqn:E; cbn [obind]; [|discriminate].
  destruct (arealoop _ _ _ _ _ _ r _) as [[r' q2]|] eqn:E2; cbn [obind]; [|discriminate].
  intros E3; injection E3 as <- <-. rewrite (IH _ _ _ E2). cbn [snd].
  destruct (_ && _) in E; [|injection E as <- <-; auto]. unfold rem1 in E.
  destruct (find _ _); [|injection E as <- <-; auto]. destruct (_ && _) in E; [injection E as <- <-; auto|].
  destruct (_ && _) in E. { destruct (SendRemoveMessages _ _ _); cbn [obind] in E; [|discriminate]. injection E as <- <-; auto. }
  destruct (flag _ _) in E; [|injection E as <- <-; auto].
  destruct (remfirst _ _) as [|? [|? ?]]; [destruct (ar_mb _) in E| destruct (_ && _) in E | ]; injection E as <- <-; auto.
Qed.
Lemma rem_exact cfg rescan i rt pat line s s' ok : live (fs_areas s) -> remline pat line ->
  afline cfg rescan i rt line s = Some (s', ok) ->
  ok = true /\ fs_nodes s' = fs_nodes s /\ exists ll, Forall2 (detached cfg i pat) (fs_areas s) ll /\ fs_areas s' = concat ll.
Proof.
  intros L (Pl & o & Ho & ->). destruct (parse_signed 45 pat o Pl Ho ltac:(cbn; auto)) as (r & opt & E1 & E2).
  rewrite (afline_dispatch _ _ _ _ _ _ _ _ E1) by lia. unfold areacmd. rewrite E2. change (45 =? 45) with true. cbv iota.
  destruct (arealoop _ _ _ _ _ _ _ _) as [[l' p']|] eqn:A; cbn [obind]; [|discriminate].
  unfold rescanof. rewrite (remrescan _ _ _ _ _ _ _ _ _ A). cbn [lp_rescan obind]. intros E; injection E as <- <-. cbn [fs_areas fs_nodes]. split; auto. split; auto.
  eapply remloop; eauto.
Qed.
Lemma SendRemove_total nodes tag l : (length tag <= 55)%nat -> exists e, SendRemoveMessages nodes tag l = Some e.
Proof.
  intros H. induction l as [|t r (e & IH)]; cbn [SendRemoveMessages]; [eauto|]. rewrite IH.
  replace (Nat.ltb (44 + length tag) 100) with true by (symmetry; apply Nat.ltb_lt; lia). destruct (_ && _); cbn [obind]; eauto.
Qed.
Lemma rem_total cfg rescan i rt pat line s : Forall (fun a => (length (ar_tag (fa_ar a)) <= 55)%nat) (fs_areas s) -> remline pat line ->
  exists s', afline cfg rescan i rt line s = Some (s', true).
Proof.
  intros L (Pl & o & Ho & ->). destruct (parse_signed 45 pat o Pl Ho ltac:(cbn; auto)) as (r & opt & E1 & E2).
  rewrite (afline_dispatch _ _ _ _ _ _ _ _ E1) by lia. unfold areacmd. rewrite E2. change (45 =? 45) with true. cbv iota.
  assert (X : forall w l p, Forall (fun a => (length (ar_tag (fa_ar a)) <= 55)%nat) l -> exists y, arealoop cfg (fs_nodes s) i CRemove w pat l p = Some y).
  { intros w. induction l as [|a l IH]; intros p F; cbn [arealoop]; [eauto|]. inversion F as [|? ? F1 F2]; subst.
    assert (Y : exists y, (if (ar_type (fa_ar a) =? AREATYPE_ECHOMAIL) && osMatchPattern pat (ar_tag (fa_ar a)) then rem1 cfg (fs_nodes s) i w a p else Some (a, p)) = Some y).
    { destruct (_ && _); [|eauto]. unfold rem1. destruct (find _ _); [|eauto]. destruct (_ && _); [eauto|].
      destruct (SendRemove_total (fs_nodes s) (ar_tag (fa_ar a)) (remfirst i (ar_tn (fa_ar a))) F1) as (e & ->).
      destruct (_ && _); cbn [obind]; [eauto|]. destruct (flag _ _); [|eauto].
      destruct (remfirst _ _) as [|? [|? ?]]; [destruct (ar_mb _)|destruct (_ && _)|]; eauto. }
    destruct Y as (y & ->). cbn [obind]. destruct (IH (snd y) F2) as (z & ->). cbn [obind]. eauto. }
  destruct (X (osIsPattern pat) (fs_areas s) (LP false false None []) L) as ((l' & p') & A). rewrite A. cbn [obind].
  unfold rescanof. rewrite (remrescan _ _ _ _ _ _ _ _ _ A). cbn. eauto.
Qed.

(** *** updates *)
Lemma updloop cfg nodes i w pat : forall l p, exists p', arealoop cfg nodes i CUpdate w pat l p = Some (l, p').
Proof.
  induction l as [|a r IH]; intros p; cbn [arealoop]; [eauto|].
  assert (Y : exists q, (if (ar_type (fa_ar a) =? AREATYPE_ECHOMAIL) && osMatchPattern pat (ar_tag (fa_ar a)) then Some (upd1 i w a p) else Some (a, p)) = Some (a, q)).
  { destruct (_ && _); [|eauto]. unfold upd1. destruct (find _ _); eauto. }
  destruct Y as (q & ->). cbn [obind snd]. destruct (IH q) as (p' & ->). cbn [obind]. eauto.
Qed.
Lemma upd_exact cfg rescan i rt pat line s : live (fs_areas s) -> updline pat line ->
  exists s' ok, afline cfg rescan i rt line s = Some (s', ok) /\ fs_areas s' = fs_areas s /\ fs_nodes s' = fs_nodes s.
Proof.
  intros L (Pl & o & Ho & ->). destruct (parse_signed 61 pat o Pl Ho ltac:(cbn; auto)) as (r & opt & E1 & E2).
  rewrite (afline_dispatch _ _ _ _ _ _ _ _ E1) by lia. unfold areacmd. rewrite E2. change (61 =? 45) with false. change (61 =? 61) with true. cbv iota.
  destruct (updloop cfg (fs_nodes s) i (osIsPattern pat) pat (fs_areas s) (LP false false None [])) as (p' & ->). cbn [obind].
  destruct (rescanof _ _ _ _ _) as [[tag num]|]; cbn [obind]; [destruct (rescan tag num)|]; eexists _, _; (split; [reflexivity|]); cbn [fs_areas fs_nodes]; rewrite ?removed_live; auto.
Qed.

(** ** the lines of a message *)
Lemma upto_line n l r : Forall (fun c => c <> 0 /\ c <> 13 /\ c <> 10) l -> (length l < n)%nat -> upto n (l ++ 13 :: r) = (l, 13 :: r).
Proof.
  revert n. induction l as [|c l IH]; intros [|n] F H; cbn [length] in H; try lia; cbn [app upto].
  - reflexivity.
  - inversion F; subst. replace ((c =? 13) || (c =? 10)) with false by lia. rewrite IH by (auto; lia). reflexivity.
Qed.
Lemma cstr_id l : Forall (fun c => c <> 0 /\ c <> 13 /\ c <> 10) l -> cstr l = l.
Proof. induction 1 as [|c l H F IH]; auto. cbn [cstr]. replace (c =? 0) with false by lia. f_equal. auto. Qed.

Fixpoint runs (cfg : afcfg) (rescan : list Z -> Z -> bool) (i : nat) (rt : route) (ls : list (list Z)) (s : afst) : option (afst * how) :=
  match ls with
  | [] => Some (s, More)
  | l :: r => do x <- afline cfg rescan i rt l s; if snd x then runs cfg rescan i rt r (fst x) else Some (fst x, Failed)
  end.
Lemma chunk_lines cfg rescan i rt ls : Forall aline ls -> forall s fuel, (length (concat (map (fun l => l ++ [13%Z]) ls)) <= fuel)%nat ->
  chunkloop cfg rescan i rt fuel (concat (map (fun l => l ++ [13]) ls)) s = runs cfg rescan i rt ls s.
Proof.
  induction 1 as [|l ls (H1 & H2 & H3) F IH]; intros s fuel Hf; cbn [map concat].
  - destruct fuel; reflexivity.
  - cbn [map concat] in Hf. rewrite !app_length in Hf. cbn [length] in Hf. destruct fuel as [|f]; [lia|].
    rewrite <- app_assoc. cbn [app]. unfold chunkloop; fold chunkloop.
    assert (U : upto 100 (l ++ 13 :: concat (map (fun l => l ++ [13]) ls)) = (l, 13 :: concat (map (fun l => l ++ [13]) ls))) by (apply upto_line; auto).
    destruct (l ++ 13 :: concat (map (fun l => l ++ [13]) ls)) as [|x y] eqn:E; [destruct l; discriminate|]. rewrite U.
    replace (Nat.ltb (length l) 100) with true by (symmetry; apply Nat.ltb_lt; auto). rewrite cstr_id by auto. cbn [runs].
    destruct (afline cfg rescan i rt l s) as [[s1 ok]|]; cbn [obind fst snd]; auto. destruct ok; auto.
    replace (isstop l) with false. 2:{ unfold isstop. symmetry. apply not_true_is_false. rewrite streq_true. auto. }
    cbn [tl]. apply IH. lia.
Qed.

(** ** rescans *)
Lemma loop_rescan cfg nodes i cmd w pat : forall l p l' p', arealoop cfg nodes i cmd w pat l p = Some (l', p') ->
  (forall a, lp_rescan p' = Some a -> lp_rescan p = Some a \/ In a l' /\ own i (ar_tn (fa_ar a)) <> []) /\
  exists e, lp_ev p' = lp_ev p ++ e /\ forall tag num, ~ In (FRescan tag num) e.
Proof.
  induction l as [|a r IH]; intros p l' p'; cbn [arealoop].
  { intros E; injection E as <- <-. split; auto. exists []. rewrite app_nil_r. auto. }
  destruct (if _ && _ then _ else _) as [[a' q]|] eqn:E; cbn [obind]; [|discriminate].
  destruct (arealoop cfg nodes i cmd w pat r (snd (a', q))) as [[r' q']|] eqn:E2; cbn [obind]; [|discriminate].
  intros E3. injection E3 as <- <-. cbn [fst snd] in *. destruct (IH _ _ _ E2) as (I1 & e & I2 & I3).
  assert (X : (forall b, lp_rescan q = Some b -> lp_rescan p = Some b \/ b = a' /\ own i (ar_tn (fa_ar b)) <> []) /\ exists e, lp_ev q = lp_ev p ++ e /\ forall tag num, ~ In (FRescan tag num) e).
  { assert (N : exists e, lp_ev p = lp_ev p ++ e /\ forall tag num, ~ In (FRescan tag num) e) by (exists []; rewrite app_nil_r; auto).
    destruct (_ && _) in E; [|injection E as <- <-; auto]. destruct cmd.
    - injection E as E. unfold add1 in E. destruct (find _ _); [injection E as <- <-; auto|]. destruct (_ || _) in E; [|injection E as <- <-; auto].
      destruct (existsb _ _) in E; injection E as <- <-; auto. split; auto. cbn [lp_rescan]. intros b K; injection K as <-. right. split; auto.
      cbn. fold (own i (ar_tn (fa_ar a) ++ [TN i (if flag (ar_flags (fa_ar a)) AREA_DEFREADONLY || CheckFlags (ar_group (fa_ar a)) (cn_rogroups (an_cn (getan nodes i))) then TOSSNODE_READONLY else 0)])).
      rewrite own_app. cbn. rewrite Nat.eqb_refl. intros K. apply app_eq_nil in K. destruct K. discriminate.
    - unfold rem1 in E. destruct (find _ _); [|injection E as <- <-; auto]. destruct (_ && _) in E; [injection E as <- <-; auto|].
      destruct (_ && _) in E.
      { destruct (SendRemoveMessages _ _ _) as [e'|] eqn:SR; cbn [obind] in E; [|discriminate]. injection E as <- <-. split; auto. exists e'. split; auto. clear - SR.
        revert e' SR. generalize (remfirst i (ar_tn (fa_ar a))). induction l as [|x l IH]; intros e'; cbn [SendRemoveMessages]; [intros E; injection E as <-; auto|].
        destruct (if _ && _ then _ else _) as [e2|] eqn:E2; cbn [obind]; [|discriminate]. destruct (SendRemoveMessages _ _ l) as [e3|]; cbn [obind]; [|discriminate].
        intros E; injection E as <-. intros tag num H. rewrite !in_app_iff in H. destruct H as [H|[H|H]].
        - destruct (flag _ _) in H; [destruct H as [H|[]]; discriminate|destruct H].
        - destruct (_ && _) in E2; [destruct (Nat.ltb _ _) in E2; [|discriminate]|]; injection E2 as <-; [destruct H as [H|[]]; discriminate|destruct H].
        - eapply IH; eauto. }
      destruct (flag _ _) in E; [|injection E as <- <-; auto].
      destruct (remfirst _ _) as [|u [|? ?]]; [destruct (ar_mb _) in E| destruct (_ && _) in E | ]; injection E as <- <-; auto.
      split; auto. eexists. split; [reflexivity|]. intros tag num [H|[]]. discriminate.
    - injection E as E. unfold upd1 in E. rewrite find_own in E. destruct (own i (ar_tn (fa_ar a))) as [|t ts] eqn:O; cbn [hd_error] in E; injection E as <- <-; auto.
      split; auto. cbn [lp_rescan]. intros b. destruct w; auto. intros K; injection K as <-. right. split; auto. rewrite O. discriminate. }
  destruct X as (X1 & e0 & X2 & X3). split.
  - intros b Hb. destruct (I1 b Hb) as [H|(H1 & H2)]; [|right; split; auto; right; auto]. destruct (X1 b H) as [H'|(-> & H')]; auto. right. split; auto. left. auto.
  - exists (e0 ++ e). rewrite I2, X2, app_assoc. split; auto. intros tag num H. rewrite in_app_iff in H. destruct H; [eapply X3|eapply I3]; eauto.
Qed.

Lemma afline_rescan cfg rescan i rt raw s s' ok : live (fs_areas s) -> afline cfg rescan i rt raw s = Some (s', ok) ->
  exists e, fs_ev s' = fs_ev s ++ e /\ forall tag num, In (FRescan tag num) e -> has (fc_flags cfg) CFG_ALLOWRESCAN /\
    exists a, In a (fs_areas s') /\ ar_tag (fa_ar a) = tag /\ ar_mb (fa_ar a) = true /\ own i (ar_tn (fa_ar a)) <> [].
Proof.
  intros L. unfold afline. set (buf := stripleadtrail raw).
  destruct (match buf with [] => _ | _ => _ end) as [[s1 o1]|] eqn:E; cbn [obind]; [|discriminate].
  assert (E' : fs_ev s1 = fs_ev s \/ areacmd cfg rescan i rt buf s = Some (s1, o1)).
  { destruct buf as [|c r] eqn:B; [injection E as <- <-; auto|].
    destruct (Z.eq_dec c 1) as [->|N1]; [injection E as <- <-; auto|].
    destruct (Z.eq_dec c 37) as [->|N2].
    - left. destruct (pctcmd _ _ _ _) as [s2|] eqn:P; cbn [obind] in E; [|discriminate]. injection E as <- <-.
      unfold pctcmd in P. destruct (jbstrcpy _ _ 100) as [[[b|] g] rest]; [|discriminate].
      destruct (streqi _ _) in P; [injection P as <-; destruct (flag _ _); auto|].
      destruct (streqi _ _) in P; [injection P as <-; destruct (flag _ _); auto|].
      destruct (streqi _ _) in P; [destruct (jbstrcpy _ _ 40) as [[[b2|] []] ?]; try discriminate; injection P as <-; auto|].
      destruct (streqi _ _) in P; [injection P as <-; destruct (flag _ _); auto|].
      destruct (streqi _ _) in P.
      { destruct (jbstrcpy _ _ 40) as [[[b2|] []] ?]; try discriminate; [|injection P as <-; auto].
        destruct (_ =? 63) in P; [injection P as <-; auto|]. destruct (streqi _ _) in P; [injection P as <-; auto|]. destruct (findpacker _ _) in P; injection P as <-; auto. }
      repeat (destruct (streqi _ _) in P; [injection P as <-; auto|]). injection P as <-; auto.
    - right. destruct c as [|q|q]; auto. do 6 (try (destruct q as [q|q|]; [| |try congruence; try exact E])); try exact E; congruence. }
  assert (X : exists e, fs_ev s1 = fs_ev s ++ e /\ forall tag num, In (FRescan tag num) e -> has (fc_flags cfg) CFG_ALLOWRESCAN /\
     exists a, In a (fs_areas s1) /\ ar_type (fa_ar a) <> AREATYPE_DELETED /\ ar_tag (fa_ar a) = tag /\ ar_mb (fa_ar a) = true /\ own i (ar_tn (fa_ar a)) <> []).
  { destruct E' as [E'|E']; [exists []; rewrite app_nil_r; split; auto; intros ? ? []|].
    pose proof E' as EA. unfold areacmd in E'. destruct (parsecmd buf) as [[cmd name] opt] eqn:PC.
    destruct (arealoop _ _ _ _ _ _ _ _) as [[l p]|] eqn:AL; cbn [obind] in E'; [|discriminate].
    destruct (loop_rescan _ _ _ _ _ _ _ _ _ _ AL) as (R1 & e & R2 & R3). cbn [lp_ev lp_rescan app] in R1, R2.
    destruct (rescanof _ _ _ _ _) as [[tag num]|] eqn:RO.
    - injection E' as <- <-. cbn [fs_ev fs_areas]. exists (e ++ [FRescan tag num]). rewrite R2, app_assoc. split; auto.
      intros tag' num' H. rewrite in_app_iff in H. destruct H as [H|[H|[]]]; [exfalso; eapply R3; eauto|]. injection H as <- <-.
      unfold rescanof in RO. destruct (lp_rescan p) as [a|] eqn:LR; [|discriminate]. destruct (_ && _) in RO; [|discriminate].
      destruct ((fs_global s || _) && _ && _) eqn:C in RO; [|discriminate]. injection RO as <- _. apply andb_prop in C as (C & C2). apply andb_prop in C as (_ & C).
      split; [apply has_flag; auto|]. destruct (R1 a eq_refl) as [K|(K1 & K2)]; [discriminate|]. exists a. split; auto. split; [|auto].
      (* the rescanned area is not a removed one *)
      assert (NR : cmd <> CRemove). { intros ->. rewrite (remrescan _ _ _ _ _ _ _ _ _ AL) in LR. discriminate. }
      assert (LV : live l).
      { revert NR L AL. clear. intros NR L. revert l p. generalize (LP false false None []) as q. generalize (fs_areas s) L.
        intros l0. induction l0 as [|a r IH]; intros Lv q areas p; cbn [arealoop]; [intros E; injection E as <- <-; constructor|].
        inversion Lv; subst. destruct (if _ && _ then _ else _) as [[a' q1]|] eqn:E; cbn [obind]; [|discriminate].
        destruct (arealoop _ _ _ _ _ _ r _) as [[r' q2]|] eqn:E2; cbn [obind]; [|discriminate].
        intros E3; injection E3 as <- <-. constructor; [|eapply IH; eauto]. cbn [fst].
        destruct (_ && _) in E; [|injection E as <- <-; auto]. destruct cmd; [|congruence|].
        + injection E as E. unfold add1 in E. destruct (find _ _); [injection E as <- <-; auto|].
          destruct (_ || _) in E; [|injection E as <- <-; auto]. destruct (existsb _ _) in E; injection E as <- <-; auto.
        + injection E as E. unfold upd1 in E. destruct (find _ _); injection E as <- <-; auto. }
      unfold live in LV. rewrite Forall_forall in LV. auto.
    - assert (D : fs_ev s1 = fs_ev s ++ e \/ exists j c, fs_ev s1 = fs_ev s ++ e ++ [FRemote j c]).
      { destruct cmd; [|injection E' as <- <-; cbn; rewrite R2; auto..].
        destruct (_ && _) in E'; [|injection E' as <- <-; cbn; rewrite R2; auto].
        destruct (forward _ _ _ _ _) as [s2|] eqn:FW; cbn [obind] in E'; [|discriminate]. injection E' as <- <-.
        unfold forward in FW. destruct (flag _ _) in FW; [|injection FW as <-; cbn; rewrite R2; auto].
        destruct (FindForward _ _ _) in FW; [|injection FW as <-; cbn; rewrite R2; auto]. destruct (Nat.ltb _ _) in FW; [|discriminate].
        destruct (AddArea _ _ _ _ _ _ _) in FW; [|discriminate]. injection FW as <-. cbn [fs_ev]. rewrite R2. right. unfold RemoteAreafixAdd. eexists _, _. rewrite app_assoc. reflexivity. }
      destruct D as [D|(j & c & D)].
      + exists e. split; auto. intros tag num H. exfalso. eapply R3; eauto.
      + exists (e ++ [FRemote j c]). split; auto. intros tag num H. rewrite in_app_iff in H. destruct H as [H|[H|[]]]; [exfalso; eapply R3; eauto|discriminate]. }
  destruct X as (e & X1 & X2).
  destruct o1; intros EE; injection EE as <- <-; cbn [fs_ev fs_areas]; exists e; (split; [auto|]); intros tag num H; destruct (X2 tag num H) as (Y1 & a & Y2 & Y3 & Y4); split; auto; exists a; split; auto.
  apply filter_In. split; auto. apply Z.eqb_neq in Y3. rewrite Y3. auto.
Qed.
