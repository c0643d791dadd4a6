(** Files attached to netmail: lemmas. *)
From Verif Require Import Base M_Str S_Str P_Str M_Mem M_Fs P_Fs M_Cfg M_Upd M_Out M_Filter M_Net M_Toss S_Toss P_Toss P_UpdTok P_Settings M_Attach S_Attach.

Lemma pair3 {A B C} (a a' : A) (b b' : B) (c c' : C) : (a, b, c) = (a', b', c') -> a = a' /\ b = b' /\ c = c'.
Proof. intros H. injection H. auto. Qed.

(** ** Copying *)
Lemma buf_pos : (0 < COPYBUFSIZE)%nat.
Proof. unfold COPYBUFSIZE. lia. Qed.
Global Opaque COPYBUFSIZE.
Lemma firstn_nil_iff {A} n (l : list A) : (0 < n)%nat -> firstn n l = [] -> l = [].
Proof. destruct n; [lia|]. destruct l; [auto|discriminate]. Qed.
Lemma copyloop_ok fuel : forall e i data io acc w, (length data < fuel)%nat -> copyloop fuel e i data io acc = (w, false) -> io = false /\ w = acc ++ data.
Proof.
  induction fuel as [|f IH]; intros e i data io acc w Hl H; [lia|]. cbn [copyloop] in H. destruct (firstn COPYBUFSIZE data) as [|z ch] eqn:E.
  - apply firstn_nil_iff in E; [|exact buf_pos]. subst data. injection H as <- ->. rewrite app_nil_r. auto.
  - assert (Hk : (length (skipn COPYBUFSIZE data) < f)%nat). { rewrite skipn_length. pose proof buf_pos. destruct data; [rewrite firstn_nil in E; discriminate|]. cbn [length] in *. lia. }
    destruct io; [discriminate|]. destruct (ce_write e i).
    + apply IH in H as [_ H]; [|exact Hk]. split; [reflexivity|]. rewrite H, <- app_assoc, <- E, firstn_skipn. reflexivity.
    + apply IH in H as [H _]; [discriminate|exact Hk].
Qed.
Lemma copyloop_works fuel : forall e i data acc, (length data < fuel)%nat -> (forall j, ce_write e j = true) -> copyloop fuel e i data false acc = (acc ++ data, false).
Proof.
  induction fuel as [|f IH]; intros e i data acc Hl Hw; [lia|]. cbn [copyloop]. destruct (firstn COPYBUFSIZE data) as [|z ch] eqn:E.
  - apply firstn_nil_iff in E; [|exact buf_pos]. subst data. rewrite app_nil_r. auto.
  - rewrite Hw. rewrite IH; [rewrite <- app_assoc, <- E, firstn_skipn; reflexivity| |exact Hw]. rewrite skipn_length. pose proof buf_pos. destruct data; [rewrite firstn_nil in E; discriminate|]. cbn [length] in *. lia.
Qed.
Lemma copyloop_fails fuel : forall e i j data io acc, (length data < fuel)%nat -> ce_write e (i + j) = false -> (j * COPYBUFSIZE < length data)%nat -> snd (copyloop fuel e i data io acc) = true.
Proof.
  induction fuel as [|f IH]; intros e i j data io acc Hl Hw Hj; [lia|]. cbn [copyloop]. destruct (firstn COPYBUFSIZE data) as [|z ch] eqn:E.
  - apply firstn_nil_iff in E; [|exact buf_pos]. subst data. cbn in Hj. lia.
  - assert (Hk : (length (skipn COPYBUFSIZE data) < f)%nat). { rewrite skipn_length. pose proof buf_pos. destruct data; [rewrite firstn_nil in E; discriminate|]. cbn [length] in *. lia. }
    destruct io; [reflexivity|]. destruct j as [|j].
    + rewrite Nat.add_0_r in Hw. rewrite Hw. destruct (snd (copyloop f e (S i) (skipn COPYBUFSIZE data) true acc)) eqn:Es; [reflexivity|].
      destruct (copyloop f e (S i) (skipn COPYBUFSIZE data) true acc) as [w io'] eqn:Ec. cbn in Es. subst io'. apply copyloop_ok in Ec as [Ec _]; [discriminate|exact Hk].
    + assert (Hs : (j * COPYBUFSIZE < length (skipn COPYBUFSIZE data))%nat) by (rewrite skipn_length; cbn in Hj; lia). destruct (ce_write e i); apply (IH e (S i) j); auto; rewrite Nat.add_succ_l, <- Nat.add_succ_r; exact Hw.
Qed.
Lemma copy_spec e fs io file new fs' io' ok : copyfile e fs io file new = (fs', io', ok) ->
  (forall n, n <> new -> fget fs' n = fget fs n) /\ (io = true -> io' = true) /\ (ok = true -> io = false /\ io' = false) /\
  (ok = true -> file <> new -> faithful e -> exists c, fget fs file = Some c /\ fget fs' new = Some c) /\
  (ok = false -> io' = io \/ io' = true /\ fget fs' new = None).
Proof.
  unfold copyfile. destruct (ce_in e && osExists fs file) eqn:E1; cbn [negb]; [|intros H; apply pair3 in H as (<- & <- & <-); repeat split; auto; discriminate].
  destruct (ce_out e); cbn [negb]; [|intros H; apply pair3 in H as (<- & <- & <-); repeat split; auto; discriminate].
  set (data := match fget (fput fs new []) file with Some c => upto (ce_read e) c | None => [] end).
  destruct (copyloop (S (length data)) e 0 data io []) as [w io1] eqn:El.
  assert (O : forall n c, n <> new -> fget (fput (fput fs new []) new c) n = fget fs n) by (intros n c Hn; rewrite !fget_put_other by auto; reflexivity).
  destruct io1.
  - intros H. apply pair3 in H as (<- & <- & <-). split; [intros n Hn; rewrite fget_del_other by auto; apply O; auto|]. split; [auto|]. split; [discriminate|]. split; [discriminate|]. intros _. right. split; [reflexivity|apply fget_del_same].
  - destruct (copyloop_ok _ _ _ _ _ _ _ (Nat.lt_succ_diag_r _) El) as [-> ->]. intros H. apply pair3 in H as (<- & <- & <-). split; [intros n Hn; apply O; auto|]. split; [discriminate|]. split; [auto|]. split; [|discriminate].
    intros _ Hd [Hr Hc]. apply andb_true_iff in E1 as [_ E1]. unfold osExists in E1. destruct (fget fs file) as [c|] eqn:Ef; [|discriminate]. exists c. split; [reflexivity|].
    rewrite fget_put_same. rewrite Hc. cbn [upto app]. unfold data. rewrite fget_put_other by auto. rewrite Ef, Hr. reflexivity.
Qed.
Lemma copy_works e fs file new c : fget fs file = Some c -> file <> new -> opens e -> faithful e -> (forall i, ce_write e i = true) ->
  exists fs', copyfile e fs false file new = (fs', false, true).
Proof.
  intros Ef Hd [Hi Ho] [Hr Hc] Hw. unfold copyfile. unfold osExists. rewrite Hi, Ho, Ef. cbn [andb negb]. rewrite fget_put_other by auto. rewrite Ef, Hr. cbn [upto]. rewrite copyloop_works by auto. eexists. reflexivity.
Qed.
Lemma copy_fails e fs io file new c j : fget fs file = Some c -> file <> new -> opens e -> ce_read e = None -> ce_write e j = false -> (j * COPYBUFSIZE < length c)%nat ->
  exists fs', copyfile e fs io file new = (fs', true, false) /\ fget fs' new = None.
Proof.
  intros Ef Hd [Hi Ho] Hr Hw Hj. unfold copyfile. unfold osExists. rewrite Hi, Ho, Ef. cbn [andb negb]. rewrite fget_put_other by auto. rewrite Ef, Hr. cbn [upto].
  pose proof (copyloop_fails (S (length c)) e 0 j c io [] (Nat.lt_succ_diag_r _) Hw Hj) as F. destruct (copyloop (S (length c)) e 0 c io []) as [w io']. cbn in F. subst io'. eexists. split; [reflexivity|apply fget_del_same].
Qed.
Lemma move_spec e fs io file new fs' io' ok : movefile e fs io file new = (fs', io', ok) -> file <> new ->
  (forall n, n <> file -> n <> new -> fget fs' n = fget fs n) /\
  (ok = false -> fget fs' file = fget fs file) /\
  (ok = true -> fget fs' file = None /\ fget fs file <> None) /\
  (ok = true -> faithful e -> fget fs' new = fget fs file).
Proof.
  intros H Hd. unfold movefile in H. destruct (if ce_rename e then osRename fs file new else None) as [fr|] eqn:Er.
  - destruct (ce_rename e); [|discriminate]. unfold osRename in Er. destruct (fget fs file) as [c|] eqn:Ef; [|discriminate]. assert (Es : streq file new = false) by (destruct (streq file new) eqn:Q; [apply streq_eq in Q; congruence|reflexivity]). rewrite Es in Er. injection Er as <-. apply pair3 in H as (<- & <- & <-).
    split; [intros n H1 H2; rewrite fget_put_other by auto; rewrite fget_del_other by auto; reflexivity|]. split; [discriminate|]. split; [intros _; split; [rewrite fget_put_other by auto; apply fget_del_same|discriminate]|]. intros _ _. apply fget_put_same.
  - destruct (copyfile e fs io file new) as [[fc ioc] okc] eqn:Ec. destruct (copy_spec _ _ _ _ _ _ _ _ Ec) as (C1 & _ & _ & C4 & _). destruct okc; apply pair3 in H as (<- & <- & <-).
    + assert (Ef : fget fs file <> None). { unfold copyfile in Ec. unfold osExists in Ec. destruct (fget fs file); [discriminate|]. rewrite andb_false_r in Ec. cbn [negb] in Ec. discriminate. }
      split; [intros n H1 H2; rewrite fget_del_other by auto; auto|]. split; [discriminate|]. split; [intros _; split; [apply fget_del_same|exact Ef]|]. intros _ F. rewrite fget_del_other by auto. destruct (C4 eq_refl Hd F) as (c & E1 & E2). congruence.
    + split; [intros n H1 H2; auto|]. split; [intros _; apply C1; auto|]. split; discriminate.
Qed.

(** ** Names *)
Lemma token_word w rest : Forall (fun c => c <> 32 /\ c <> 9 /\ c <> 10 /\ c <> 92) w -> (rest = [] \/ exists c r, rest = c :: r /\ (c = 32 \/ c = 9)) -> token stop_plain (w ++ rest) w rest.
Proof.
  intros Hw Hr. induction w as [|c w IH]; cbn [app].
  - destruct Hr as [->|(c & r & -> & Hc)]; [constructor|]. apply tok_stop. unfold stop_plain. tauto.
  - inversion Hw as [|? ? (? & ? & ? & ?) Hw']; subst. apply tok_chr; [unfold stop_plain; lia|lia|auto].
Qed.
Lemma skipblank_word s w r : Forall (fun c => c = 32 \/ c = 9) s -> match w with c :: _ => c <> 32 /\ c <> 9 | [] => False end -> skipblank (s ++ w ++ r) = w ++ r.
Proof.
  intros Hs Hw. induction Hs as [|c s Hc _ IH]; cbn [app skipblank].
  - destruct w as [|c w]; [contradiction|]. cbn [app skipblank]. replace ((c =? 32) || (c =? 9)) with false by lia. reflexivity.
  - replace ((c =? 32) || (c =? 9)) with true by lia. exact IH.
Qed.
Lemma skipblank_all s : Forall (fun c => c = 32 \/ c = 9) s -> skipblank s = [].
Proof. intros Hs. induction Hs as [|c s Hc _ IH]; cbn [skipblank]; [reflexivity|]. replace ((c =? 32) || (c =? 9)) with true by lia. exact IH. Qed.
Lemma allwords_skip c r : c = 32 \/ c = 9 -> cstring (c :: r) -> allwords 80 (c :: r) = allwords 80 r.
Proof.
  intros Hc Hs. pose proof (tok_skip 80 c r Hc) as Et. destruct (tok 80 r) as [[b ok] rest] eqn:E. inversion Hs; subst. destruct ok.
  - destruct (allwords_step 80 r b rest ltac:(lia) ltac:(assumption) E) as [-> _]. destruct (allwords_step 80 (c :: r) b rest ltac:(lia) Hs Et) as [-> _]. reflexivity.
  - rewrite (allwords_stop 80 r b rest E), (allwords_stop 80 (c :: r) b rest Et). reflexivity.
Qed.
Lemma fix_sep s : Forall sepch s -> Forall (fun c => c = 32 \/ c = 9) (fixsubj s).
Proof. intros H. unfold fixsubj. apply Forall_map. eapply Forall_impl; [|exact H]. intros c Hc. cbv beta. unfold sepch in Hc. destruct Hc as [->|[->| ->]]; cbn; auto. Qed.
Lemma fix_word w : Forall wordch w -> fixsubj w = map slash w /\ Forall (fun c => c <> 32 /\ c <> 9 /\ c <> 10 /\ c <> 92 /\ c <> 34 /\ 0 < c < 256) (map slash w).
Proof.
  intros H. split.
  - unfold fixsubj. apply map_ext_in. intros c Hc. rewrite Forall_forall in H. destruct (H c Hc) as (_ & Hs & _). unfold sepch in Hs. unfold slash. replace (c =? 44) with false by lia. reflexivity.
  - apply Forall_map. eapply Forall_impl; [|exact H]. intros c (Hb & Hs & H1 & H2). unfold sepch in Hs. unfold slash. destruct (Z.eqb_spec c 92); lia.
Qed.
Lemma att_cstring s ws : attached s ws -> cstring (fixsubj s).
Proof.
  intros H. induction H as [s Hs|s w rest ws Hs Hn Hw Hl Hr H IH].
  - unfold cstring. eapply Forall_impl; [|apply (fix_sep _ Hs)]. cbn. lia.
  - unfold fixsubj. rewrite !map_app. unfold cstring. rewrite !Forall_app. split; [eapply Forall_impl; [|apply (fix_sep _ Hs)]; cbn; lia|]. split; [|exact IH].
    fold (fixsubj w). destruct (fix_word w Hw) as [-> F]. eapply Forall_impl; [|exact F]. cbn. lia.
Qed.
Lemma names_ok s ws : attached s ws -> allwords 80 (fixsubj s) = ws.
Proof.
  intros H. induction H as [s Hs|s w rest ws Hs Hn Hw Hl Hr H IH].
  - assert (Hf : first_word (fixsubj s) false [] []). { cbn [first_word]. rewrite (skipblank_all _ (fix_sep _ Hs)). split; [discriminate|constructor]. }
    pose proof (tok_gen _ _ _ _ 80 (att_cstring s [] (at_none s Hs)) Hf ltac:(lia)) as E. cbn in E. exact (allwords_stop 80 _ _ _ E).
  - pose proof (att_cstring _ _ (at_word s w rest ws Hs Hn Hw Hl Hr H)) as Hc. pose proof (att_cstring _ _ H) as Hcr. assert (Ef : fixsubj (s ++ w ++ rest) = fixsubj s ++ map slash w ++ fixsubj rest).
    { unfold fixsubj. rewrite !map_app. f_equal. f_equal. fold (fixsubj w). apply (fix_word w Hw). }
    rewrite Ef in *. destruct (fix_word w Hw) as [_ Fw].
    assert (Hr' : fixsubj rest = [] \/ exists c r, fixsubj rest = c :: r /\ (c = 32 \/ c = 9)).
    { destruct Hr as [->|(c & r & -> & Sc)]; [left; reflexivity|right]. cbn [fixsubj map]. eexists. eexists. split; [reflexivity|]. destruct Sc as [->|[->| ->]]; cbn; auto. }
    assert (Hf : first_word (fixsubj s ++ map slash w ++ fixsubj rest) false (map slash w) (fixsubj rest)).
    { cbn [first_word]. rewrite skipblank_word; [|apply (fix_sep _ Hs)|destruct w as [|c w]; [congruence|]; cbn [map] in *; inversion Fw; subst; lia]. split.
      - intros body E. destruct w as [|c w]; [congruence|]. cbn [map app] in *. inversion Fw; subst. injection E as E _. lia.
      - apply token_word; [|exact Hr']. eapply Forall_impl; [|exact Fw]. cbn. tauto. }
    pose proof (tok_gen _ _ _ _ 80 Hc Hf ltac:(lia)) as E. rewrite firstn_all2 in E by (rewrite map_length; lia). assert (En : ne (map slash w) = true) by (destruct w; [congruence|reflexivity]). rewrite En in E. cbn [orb] in E.
    destruct (allwords_step 80 _ _ _ ltac:(lia) Hc E) as [-> _]. f_equal. rewrite <- IH. destruct Hr' as [->|(c & r & Er & Sc)]; [reflexivity|]. rewrite Er in *. unfold dropsep. replace ((c =? 9) || (c =? 32) || (c =? 34)) with true by lia. symmetry. apply allwords_skip; auto.
Qed.
Lemma att_names s ws : attached s ws -> Forall (fun w => cstring w /\ (length w <= 79)%nat) ws.
Proof.
  intros H. induction H as [s Hs|s w rest ws Hs Hn Hw Hl Hr H IH]; constructor; auto. destruct (fix_word w Hw) as [_ F]. split; [|rewrite map_length; exact Hl]. eapply Forall_impl; [|exact F]. cbn. lia.
Qed.

(** ** Directories *)
Lemma slashed_with d s : dirname d -> withslash d s -> slashed d = s /\ exists p, s = p ++ [47].
Proof.
  intros [_ Hl] H. destruct d as [|x d0] using rev_ind; [cbn in Hl; lia|]. clear IHd0. unfold slashed. rewrite rev_app_distr. cbn [rev app]. unfold PATHCHAR. unfold withslash in H. rewrite last_last in H.
  destruct H as [[-> H]|[-> ->]].
  - replace (x =? 47) with false by lia. split; [reflexivity|]. exists (d0 ++ [x]). reflexivity.
  - rewrite Z.eqb_refl. split; [reflexivity|]. exists d0. reflexivity.
Qed.
Lemma part_last name : lastpart name (GetFilePart name).
Proof. destruct (GetFilePart_spec name) as [H1 [[_ H2]|(d & H2)]]; split; auto. right. exists d. exact H2. Qed.
Lemma slash_unique a b p q : ~ In 47 p -> ~ In 47 q -> a ++ [47] ++ p = b ++ [47] ++ q -> a = b /\ p = q.
Proof.
  revert b. induction a as [|x a IH]; intros b Hp Hq E.
  - destruct b as [|y b]; cbn in E; [injection E as ->; auto|]. injection E as <- E. exfalso. apply Hp. rewrite E. apply in_or_app. right. left. reflexivity.
  - destruct b as [|y b]; cbn in E; injection E as -> E; [exfalso; apply Hq; rewrite <- E; apply in_or_app; right; left; reflexivity|]. destruct (IH b Hp Hq E) as [-> ->]. auto.
Qed.
Lemma lastpart_fun name p q : lastpart name p -> lastpart name q -> p = q.
Proof.
  intros [Hp Ep] [Hq Eq]. destruct Ep as [->|(d & ->)], Eq as [Eq|(d' & Eq)]; auto.
  - exfalso. apply Hp. rewrite Eq. apply in_or_app. right. left. reflexivity.
  - exfalso. apply Hq. rewrite Eq. apply in_or_app. right. left. reflexivity.
  - change (d ++ [47] ++ p = d' ++ [47] ++ q) in Eq. apply slash_unique in Eq; tauto.
Qed.
Lemma part_ok name : cstring name -> (length name <= 79)%nat -> cstring (GetFilePart name) /\ (length (GetFilePart name) <= 79)%nat.
Proof.
  intros Hc Hl. destruct (GetFilePart_spec name) as [_ [[_ ->]|(d & E)]]; [auto|]. rewrite E in Hc, Hl. unfold cstring in Hc. rewrite !Forall_app in Hc. rewrite !app_length in Hl. split; [apply Hc|lia].
Qed.
Lemma dir_good d : dirname d -> dir_ok d.
Proof. intros [H1 H2]. split; [|lia]. eapply Forall_impl; [|exact H1]. cbn. lia. Qed.

(** ** Mail from others *)
Section Move.
Variables inbound packetdir i p : list Z.
Hypothesis Hi : dirname inbound. Hypothesis Hp : dirname packetdir.
Hypothesis Wi : withslash inbound i. Hypothesis Wp : withslash packetdir p.
Hypothesis Hd : i <> p.
Lemma apart a b : ~ In 47 a -> ~ In 47 b -> i ++ a <> p ++ b.
Proof.
  intros Ha Hb E. destruct (slashed_with _ _ Hi Wi) as [_ (x & ->)]. destruct (slashed_with _ _ Hp Wp) as [_ (y & ->)]. rewrite <- !app_assoc in E. apply slash_unique in E as [-> _]; auto.
Qed.
Lemma one_in e fs io name : cstring name -> (length name <= 79)%nat -> let part := GetFilePart name in
  exists fs' io' x, attachone false inbound packetdir e fs io name = Some (fs', io', [(x, true)], true) /\
    (forall n, n <> i ++ part -> n <> p ++ part -> fget fs' n = fget fs n) /\ (x = i ++ part \/ x = p ++ part) /\
    (faithful e -> match fget fs (i ++ part) with
      | Some c => (x = p ++ part /\ fget fs' (p ++ part) = Some c /\ fget fs' (i ++ part) = None) \/ (x = i ++ part /\ fget fs' (i ++ part) = Some c)
      | None => x = i ++ part end).
Proof.
  intros Hc Hl part. destruct (part_ok name Hc Hl) as [Pc Pl]. unfold attachone. fold part.
  rewrite (path200_short inbound part (dir_good _ Hi) Pc ltac:(fold part in Pl; lia)), (path200_short packetdir part (dir_good _ Hp) Pc ltac:(fold part in Pl; lia)). cbn [obind].
  destruct (slashed_with _ _ Hi Wi) as [-> _]. destruct (slashed_with _ _ Hp Wp) as [-> _]. destruct (movefile e fs io (i ++ part) (p ++ part)) as [[fs' io'] ok] eqn:Em.
  destruct (part_last name) as [Ns _]. fold part in Ns. destruct (move_spec _ _ _ _ _ _ _ _ Em (apart part part Ns Ns)) as (M1 & M2 & M3 & M4).
  exists fs', io', (if ok then p ++ part else i ++ part). split; [reflexivity|]. split; [exact M1|]. split; [destruct ok; auto|]. intros F. destruct ok.
  - destruct (M3 eq_refl) as [N1 N2]. specialize (M4 eq_refl F). destruct (fget fs (i ++ part)) as [c|]; [left; auto|congruence].
  - specialize (M2 eq_refl). destruct (fget fs (i ++ part)) as [c|]; auto.
Qed.
Lemma all_in envs names : Forall (fun w => cstring w /\ (length w <= 79)%nat) names -> forall k fs io,
  exists fs' io' fl, attachall false inbound packetdir envs k fs io names = Some (fs', io', fl, true) /\
    (forall n, (forall name, In name names -> n <> i ++ GetFilePart name /\ n <> p ++ GetFilePart name) -> fget fs' n = fget fs n) /\
    Forall2 (fun name f => snd f = true /\ (fst f = i ++ GetFilePart name \/ fst f = p ++ GetFilePart name)) names fl /\
    (NoDup (map GetFilePart names) -> (forall j, faithful (envs j)) -> Forall2 (handed fs fs' i p) names fl).
Proof.
  induction names as [|name names IH]; intros Hn k fs io; cbn [attachall].
  - exists fs, io, []. repeat split; auto; constructor.
  - inversion Hn as [|? ? [Hc Hl] Hn']; subst. destruct (one_in (envs k) fs io name Hc Hl) as (fs1 & io1 & x & E1 & O1 & X1 & F1). rewrite E1. cbn [obind].
    destruct (IH Hn' (S k) fs1 io1) as (fs2 & io2 & fl & E2 & O2 & X2 & F2). rewrite E2. cbn [obind]. exists fs2, io2, ((x, true) :: fl). split; [reflexivity|].
    split; [intros n H; rewrite O2 by (intros nm I; apply H; right; exact I); apply O1; apply (H name); left; reflexivity|]. split; [constructor; auto|].
    intros Hd' Hf. cbn [map] in Hd'. inversion Hd' as [|? ? Nin Nd]; subst. assert (K : forall nm, In nm names -> GetFilePart nm <> GetFilePart name) by (intros nm I E; apply Nin; rewrite <- E; apply in_map; exact I).
    assert (NS : forall nm, ~ In 47 (GetFilePart nm)) by (intros nm; apply (part_last nm)).
    assert (P2 : fget fs2 (i ++ GetFilePart name) = fget fs1 (i ++ GetFilePart name) /\ fget fs2 (p ++ GetFilePart name) = fget fs1 (p ++ GetFilePart name)).
    { split; apply O2; intros nm I; split.
      - intros E. apply app_inv_head in E. exact (K nm I (eq_sym E)).
      - apply apart; apply NS.
      - intros E. symmetry in E. revert E. apply apart; apply NS.
      - intros E. apply app_inv_head in E. exact (K nm I (eq_sym E)). }
    destruct P2 as [P2 P3]. constructor.
    + exists (GetFilePart name). split; [apply part_last|]. split; [reflexivity|]. cbn [fst]. specialize (F1 (Hf k)). rewrite P2, P3. exact F1.
    + specialize (F2 Nd Hf). clear - F2 O1 K NS Hd Hi Hp Wi Wp. revert K. induction F2 as [|nm f nms fls Hh _ IHf]; intros K; constructor.
      * destruct Hh as (part & L & S1 & Hm). exists part. split; [exact L|]. split; [exact S1|]. rewrite <- (O1 (i ++ part)); [exact Hm| |].
        { intros E. apply app_inv_head in E. apply (K nm (or_introl eq_refl)). rewrite <- E. symmetry. apply (lastpart_fun nm); [exact L|apply part_last]. }
        { apply apart; [apply L|apply NS]. }
      * apply IHf. intros nm' I. apply K. right. exact I.
Qed.
End Move.

(** ** Mail of this system *)
Section Copy.
Variables packetdir p : list Z.
Hypothesis Hp : dirname packetdir.
Hypothesis Wp : withslash packetdir p.
Lemma one_out e fs io name inbound : cstring name -> (length name <= 79)%nat -> opens e -> let part := GetFilePart name in name <> p ++ part ->
  exists fs' io' fl b, attachone true inbound packetdir e fs io name = Some (fs', io', fl, b) /\
    (forall n, n <> p ++ part -> fget fs' n = fget fs n) /\ (io = false -> b = negb io') /\
    (b = true -> faithful e -> exists f, fl = [f] /\ match fget fs name with Some c => f = (p ++ part, true) /\ fget fs' (p ++ part) = Some c | None => f = (name, false) /\ fs' = fs end).
Proof.
  intros Hc Hl [Oi Oo] part Hd. destruct (part_ok name Hc Hl) as [Pc Pl]. unfold attachone. fold part. unfold osExists. destruct (fget fs name) as [c|] eqn:Ef.
  - rewrite (path200_short packetdir part (dir_good _ Hp) Pc ltac:(fold part in Pl; lia)). cbn [obind]. destruct (slashed_with _ _ Hp Wp) as [-> _].
    destruct (copyfile e fs io name (p ++ part)) as [[fs' io'] ok] eqn:Ec. destruct (copy_spec _ _ _ _ _ _ _ _ Ec) as (C1 & _ & C3 & C4 & C5). destruct io'.
    + exists fs', true, [], false. split; [reflexivity|]. split; [exact C1|]. split; [reflexivity|discriminate].
    + exists fs', false, [(p ++ part, true)], true. split; [reflexivity|]. split; [exact C1|]. split; [reflexivity|]. intros _ F. eexists. split; [reflexivity|]. split; [reflexivity|].
      destruct ok; [destruct (C4 eq_refl Hd F) as (c' & E1 & E2); congruence|].
      exfalso. unfold copyfile in Ec. unfold osExists in Ec. rewrite Ef, Oi, Oo in Ec. cbn [andb negb] in Ec. destruct (copyloop _ _ _ _ _ _) as [w iow]. destruct iow; apply pair3 in Ec as (_ & E1 & E2); discriminate.
  - exists fs, io, [(name, false)], true. split; [reflexivity|]. split; [auto|]. split; [intros ->; reflexivity|]. intros _ _. exists (name, false). auto.
Qed.
Lemma all_out envs inbound names : Forall (fun w => cstring w /\ (length w <= 79)%nat) names -> (forall j, opens (envs j)) -> (forall a b, In a names -> In b names -> a <> p ++ GetFilePart b) -> forall k fs,
  exists fs' io' fl b, attachall true inbound packetdir envs k fs false names = Some (fs', io', fl, b) /\
    (forall n, (forall name, In name names -> n <> p ++ GetFilePart name) -> fget fs' n = fget fs n) /\ b = negb io' /\
    (b = true -> NoDup (map GetFilePart names) -> (forall j, faithful (envs j)) -> Forall2 (copied fs fs' p) names fl).
Proof.
  induction names as [|name names IH]; intros Hn Ho Ha k fs; cbn [attachall].
  - exists fs, false, [], true. split; [reflexivity|]. split; [auto|]. split; [reflexivity|]. constructor.
  - inversion Hn as [|? ? [Hc Hl] Hn']; subst. destruct (one_out (envs k) fs false name inbound Hc Hl (Ho k) (Ha name name (or_introl eq_refl) (or_introl eq_refl))) as (fs1 & io1 & fl1 & b1 & E1 & O1 & B1 & F1). rewrite E1. cbn [obind]. specialize (B1 eq_refl).
    destruct b1.
    2:{ exists fs1, io1, fl1, false. split; [reflexivity|]. split; [intros n H; apply O1; apply H; left; reflexivity|]. split; [exact B1|discriminate]. }
    destruct io1; [discriminate|]. destruct (IH Hn' Ho ltac:(intros a b Ia Ib; apply Ha; right; assumption) (S k) fs1) as (fs2 & io2 & fl & b & E2 & O2 & B2 & F2). rewrite E2. cbn [obind].
    exists fs2, io2, (fl1 ++ fl), b. split; [reflexivity|]. split; [intros n H; rewrite O2 by (intros nm I; apply H; right; exact I); apply O1; apply H; left; reflexivity|]. split; [exact B2|].
    intros Hb Hd' Hf. cbn [map] in Hd'. inversion Hd' as [|? ? Nin Nd]; subst. assert (K : forall nm, In nm names -> GetFilePart nm <> GetFilePart name) by (intros nm I E; apply Nin; rewrite <- E; apply in_map; exact I).
    destruct (F1 eq_refl (Hf k)) as (f & -> & Hm). cbn [app]. constructor.
    + exists (GetFilePart name). split; [apply part_last|]. destruct (fget fs name) as [c|]; [|apply Hm]. destruct Hm as [-> Hm]. split; [reflexivity|]. rewrite O2; [exact Hm|]. intros nm I E. apply app_inv_head in E. exact (K nm I (eq_sym E)).
    + specialize (F2 Hb Nd Hf). assert (Q : forall nm, In nm names -> nm <> p ++ GetFilePart name) by (intros nm I; apply Ha; [right; exact I|left; reflexivity]). clear - F2 O1 Q. induction F2 as [|nm f' nms fls Hh _ IHf]; constructor.
      * destruct Hh as (part & L & Hm). exists part. split; [exact L|]. rewrite <- (O1 nm); [exact Hm|]. apply Q. left. reflexivity.
      * apply IHf. intros nm' I. apply Q. right. exact I.
Qed.
End Copy.
Lemma move_works e fs file new c : fget fs file = Some c -> file <> new -> (ce_rename e = true \/ opens e /\ faithful e /\ (forall i, ce_write e i = true)) ->
  exists fs', movefile e fs false file new = (fs', false, true).
Proof.
  intros Ef Hd H. unfold movefile. destruct (ce_rename e) eqn:Er.
  - unfold osRename. rewrite Ef. eexists. reflexivity.
  - destruct H as [H|(H1 & H2 & H3)]; [discriminate|]. destruct (copy_works e fs file new c Ef Hd H1 H2 H3) as (fs' & ->). eexists. reflexivity.
Qed.
Lemma parts_nodup names : (forall a b part, In a names -> In b names -> lastpart a part -> lastpart b part -> a = b) -> NoDup names -> NoDup (map GetFilePart names).
Proof.
  intros Hu Hn. induction Hn as [|a l Hni Hn IH]; cbn [map]; constructor.
  - intros I. apply in_map_iff in I as (b & E & I). apply Hni. rewrite <- (Hu b a (GetFilePart a)); [exact I|right; exact I|left; reflexivity| |apply part_last]. rewrite <- E. apply part_last.
  - apply IH. intros x y part Ix Iy. apply Hu; right; assumption.
Qed.
Section Done.
Variables packetdir p : list Z.
Hypothesis Hp : dirname packetdir.
Hypothesis Wp : withslash packetdir p.
Lemma all_out_done envs inbound names : Forall (fun w => cstring w /\ (length w <= 79)%nat) names -> (forall j, opens (envs j)) -> (forall j, faithful (envs j)) -> (forall j i, ce_write (envs j) i = true) ->
  (forall a b, In a names -> In b names -> a <> p ++ GetFilePart b) -> forall k fs, exists fs' fl, attachall true inbound packetdir envs k fs false names = Some (fs', false, fl, true).
Proof.
  intros Hn Ho Hf Hw. induction Hn as [|name names [Hc Hl] Hn IH]; intros Ha k fs; cbn [attachall]; [eauto|].
  assert (E1 : exists fs1 fl1, attachone true inbound packetdir (envs k) fs false name = Some (fs1, false, fl1, true)).
  { destruct (part_ok name Hc Hl) as [Pc Pl]. unfold attachone, osExists. destruct (fget fs name) as [c|] eqn:Ef; [|eauto]. rewrite (path200_short packetdir _ (dir_good _ Hp) Pc) by lia. cbn [obind]. destruct (slashed_with _ _ Hp Wp) as [-> _].
    destruct (copy_works (envs k) fs name (p ++ GetFilePart name) c Ef (Ha name name (or_introl eq_refl) (or_introl eq_refl)) (Ho k) (Hf k) (Hw k)) as (fs' & ->). eauto. }
  destruct E1 as (fs1 & fl1 & ->). cbn [obind]. destruct (IH ltac:(intros a b Ia Ib; apply Ha; right; assumption) (S k) fs1) as (fs2 & fl2 & ->). cbn [obind]. eauto.
Qed.
End Done.
