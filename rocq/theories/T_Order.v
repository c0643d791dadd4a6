(** C47: packets and bundles of the inbound are tossed oldest first, each once. *)
From Coq Require Import Permutation Sorted.
From Verif Require Import Base M_Node4D S_Node4D M_Pat M_Str S_Str P_Str M_Mem M_Cfg M_Pkt M_Fs P_Fs M_Expr M_Filter M_Out S_Out P_Out M_Toss S_Toss P_Toss P_Arch P_Run T_Toss M_List S_List T_List.

(** what SortFEList does to a directory (see C47_sorted), the files having the dates [date] *)
Definition sorts (date : list Z -> Z) (sort : list (list Z * Z) -> list (list Z * Z)) : Prop :=
  forall l, Permutation (sort l) l /\ StronglySorted (fun a b => before (FE (date (fst a)) (fst a)) (FE (date (fst b)) (fst b))) (sort l).
(** the names are those of the files of the directory that are [kind], oldest first *)
Definition oldest_first (date : list Z -> Z) (kind : list Z -> bool) (dir : list Z) (fs : fsys) (names : list (list Z)) : Prop :=
  NoDup names /\ StronglySorted (fun a b => before (FE (date a) a) (FE (date b) b)) names /\
  forall n, In n names <-> cstring n /\ ~ In PATHCHAR n /\ kind n = true /\ fget fs (slashed dir ++ n) <> None.
(** reading packets one after the other leads from one state of the handler to the other *)
Inductive reads {S} (readpkt : S -> list Z -> pktres S) : S -> list (list Z) -> S -> Prop :=
| rd_nil st : reads readpkt st [] st
| rd_good st c st1 cs st2 : readpkt st c = PkDone st1 -> reads readpkt st1 cs st2 -> reads readpkt st (c :: cs) st2
| rd_bad st c why st1 cs st2 : readpkt st c = PkBad why st1 -> reads readpkt st1 cs st2 -> reads readpkt st (c :: cs) st2.

Lemma nodup_readdir fs dir acc : (forall n, acc n = true -> length n = 12%nat) -> NoDup (map fst fs) -> NoDup (map fst (osReadDir fs dir acc)).
Proof.
  intros Ha. induction fs as [|[p c] fs IH]; intros Hn; cbn [osReadDir]; [constructor|]. inversion_clear Hn as [|? ? H1 H2].
  destruct (behindprefix _ p) as [n|] eqn:E; auto. destruct (namechars n && acc n) eqn:Ea; auto. cbn [map fst]. constructor; auto.
  apply andb_true_iff in Ea as [_ Ea]. apply Ha in Ea. rewrite firstn_all2 by lia. intros Hi. apply in_map_iff in Hi as ([m z] & Em & Hi). cbn in Em. subst m.
  apply readdir_In in Hi as (m & c' & Em & Hi & _ & _ & _ & Hm). apply Ha in Hm. rewrite firstn_all2 in Em by lia. subst m. apply behindprefix_iff in E. subst p.
  apply H1. apply (in_map fst) in Hi. exact Hi.
Qed.
Lemma In_fget fs f c : NoDup (map fst fs) -> In (f, c) fs -> fget fs f = Some c.
Proof.
  induction fs as [|[k v] l IH]; intros Hn Hi; [destruct Hi|]. cbn [map fst fget] in *. inversion_clear Hn as [|? ? H1 H2]. destruct Hi as [H|H].
  - assert (k = f) by congruence. subst k. rewrite streq_refl. congruence.
  - destruct (streq f k) eqn:Es; [|auto]. apply streq_eq in Es. subst k. exfalso. apply H1. apply (in_map fst) in H. exact H.
Qed.
Lemma sorted_map {A B} (R : B -> B -> Prop) (f : A -> B) l : StronglySorted (fun a b => R (f a) (f b)) l -> StronglySorted R (map f l).
Proof. induction 1; cbn; constructor; auto. rewrite Forall_map. auto. Qed.
Lemma oldest_sorted date sort kind dir fs : sorts date sort -> (forall n, kind n = true -> length n = 12%nat) -> NoDup (map fst fs) ->
  oldest_first date kind dir fs (map fst (sort (osReadDir fs dir kind))).
Proof.
  intros Hs Hk Hn. destruct (Hs (osReadDir fs dir kind)) as [Hp Ho]. split; [|split].
  - apply (Permutation_NoDup (Permutation_map fst (Permutation_sym Hp))). apply nodup_readdir; auto.
  - apply sorted_map. exact Ho.
  - intros n. rewrite in_map_iff. split.
    + intros ([m z] & E & Hi). cbn in E. subst m. apply (Permutation_in _ Hp) in Hi. apply readdir_In in Hi as (m & c & E & Hi & _ & H1 & H2 & H3).
      assert (n = m) by (rewrite E; apply firstn_all2; apply Hk in H3; lia). subst m. split; auto. split; auto. split; auto. rewrite (In_fget _ _ _ Hn Hi). discriminate.
    + intros (H1 & H2 & H3 & H4). destruct (fget fs (slashed dir ++ n)) as [c|] eqn:E; [|contradiction]. apply fget_In in E.
      exists (n, Z.of_nat (length c)). split; auto. apply (Permutation_in _ (Permutation_sym Hp)). rewrite <- (firstn_all2 (n := 99) n) at 1 by (apply Hk in H3; lia). apply In_readdir; auto.
Qed.
Lemma dels_keep exec inbound o fs f : (forall x, In x o -> exists p, x = Del p) -> Forall (foreign_op inbound) o -> indir inbound f -> fget (run exec fs o) f = fget fs f.
Proof.
  intros H F Hi. revert fs. induction o as [|x o IH]; intros fs; [reflexivity|]. inversion_clear F as [|? ? F1 F2]. cbn [run fold_left].
  change (fold_left (apply exec) o (apply exec fs x)) with (run exec (apply exec fs x) o). rewrite IH; auto; [|intros y Hy; apply H; right; auto].
  destruct (H x) as (p & ->); [left; auto|]. cbn [apply]. apply fget_del_other. intros ->. apply (F1 f); [reflexivity|auto].
Qed.
Lemma foreign_keep exec inbound o : (forall cmd fs f, indir inbound f -> fget (fst (exec cmd fs)) f = fget fs f) -> Forall (foreign_op inbound) o ->
  forall fs f, indir inbound f -> fget (run exec fs o) f = fget fs f.
Proof.
  intros Hx F. induction F as [|x o F1 F IH]; intros fs f Hi; [reflexivity|]. cbn [run fold_left].
  change (fold_left (apply exec) o (apply exec fs x)) with (run exec (apply exec fs x) o). rewrite IH by auto.
  destruct x as [n y|n|a b|cmd]; cbn [apply].
  - apply fget_put_other. intros ->. eapply F1; [reflexivity|auto].
  - apply fget_del_other. intros ->. eapply F1; [reflexivity|auto].
  - apply tryrename_other; intros ->; eapply F1; try eassumption; cbn; auto.
  - apply Hx. auto.
Qed.

Section Order.
  Context (exec : list Z -> fsys -> fsys * Z).
  Context {St : Type} (readpkt : St -> list Z -> pktres St) (side : St -> list Z -> list fop).
  Context (inbound : list Z) (noread : list Z -> bool).
  Context (Hin : cstring inbound) (Hlen : (length inbound <= 75)%nat) (Hread : forall f, noread f = false).
  Context (Hx : forall cmd fs f, indir inbound f -> fget (fst (exec cmd fs)) f = fget fs f).
  Context (Hside : forall st c, Forall (foreign_op inbound) (side st c)).
  Context (content : list Z -> list Z).
  Lemma tosspkts_order l : twelve l -> NoDup (map fst l) -> forall st fs del st' o del',
    (forall n, In n (map fst l) -> fget fs (slashed inbound ++ n) = Some (content n)) ->
    tosspkts exec readpkt side inbound noread l st fs del = Some (st', o, del', true) -> reads readpkt st (map content (map fst l)) st'.
  Proof.
    intros F. induction F as [|[n z] l (F1 & F2 & F3) F IH]; intros Hn st fs del st' o del' Hg; cbn [tosspkts].
    - intros E. assert (st' = st) by congruence. subst st'. constructor.
    - cbn [fst map] in *. inversion_clear Hn as [|? ? Hn1 Hn2]. assert (Hdi : dir_ok inbound) by (split; auto; lia). rewrite (path200_short inbound n Hdi F2) by lia. cbn [obind].
      unfold tosspkt. rewrite Hread, (Hg n) by (left; auto).
      assert (K : forall o1, Forall (foreign_op inbound) o1 \/ (exists a dest, o1 = a ++ [Ren (slashed inbound ++ n) dest] /\ Forall (foreign_op inbound) a /\ fget (run exec fs a) dest = None) ->
        forall m, In m (map fst l) -> fget (run exec fs o1) (slashed inbound ++ m) = Some (content m)).
      { intros o1 Ho m Hm. assert (Hi : indir inbound (slashed inbound ++ m)).
        { exists m. split; auto. apply in_map_iff in Hm as ([m' z'] & E & Hm). cbn in E. subst m'. unfold twelve in F. rewrite Forall_forall in F. apply F in Hm. cbn in Hm. tauto. }
        destruct Ho as [Ho|(a & dest & -> & Ha & Hd)].
        - rewrite (foreign_keep exec inbound o1 Hx Ho) by auto. apply Hg. right. auto.
        - rewrite run_app, run_one. cbn [apply]. assert (Hg' : fget (run exec fs a) (slashed inbound ++ m) = Some (content m)) by (rewrite (foreign_keep exec inbound a Hx Ha) by auto; apply Hg; right; auto).
          rewrite tryrename_other; auto; [intros E; apply app_inv_head in E; subst m; contradiction|]. intros E. rewrite E in Hg'. congruence. }
      destruct (readpkt st (content n)) as [st1|why st1|st1| |] eqn:Er; cbn [obind].
      + destruct (tosspkts _ _ _ _ _ l _ _ _) as [[[[st2 o2] del2] ok2]|] eqn:E2; [|discriminate]. cbn [obind]. intros E. assert (st' = st2) by congruence. assert (ok2 = true) by congruence. subst st' ok2.
        eapply rd_good; [exact Er|]. eapply IH; [auto| |exact E2]. apply K. left. apply Hside.
      + destruct (badops _ _ _) as [o1|] eqn:Eb; [|discriminate]. cbn [obind].
        destruct (tosspkts _ _ _ _ _ l _ _ _) as [[[[st2 o2] del2] ok2]|] eqn:E2; [|discriminate]. cbn [obind]. intros E. assert (st' = st2) by congruence. assert (ok2 = true) by congruence. subst st' ok2.
        eapply rd_bad; [exact Er|]. eapply IH; [auto| |exact E2]. apply K. right.
        destruct (badops_spec (fun _ fs => (fs, 0)) (fun _ _ _ => False) inbound Hin Hlen (fun _ _ _ _ => eq_refl) (fun _ _ _ _ (H : False) _ => match H with end) [] n F1 (run exec fs (side st (content n))) (slashed inbound ++ n) n o1) as (dest & -> & Hd & _); auto;
          [exists (slashed inbound); split; [apply slashed_dir|reflexivity]|].
        exists (side st (content n)), dest. auto.
      + discriminate.
      + discriminate.
      + discriminate.
  Qed.
End Order.

(** The message handler gets the packets of the inbound oldest first, each once, unless a
    packet ends the run; the bundles are unpacked after that. *)
Theorem C47_packets : forall exec env sort S readpkt side packets inbound tempdir unpack noread date (st : S) fs last r,
  layout env inbound tempdir -> sorts date sort -> (forall cmd fs f, indir inbound f -> fget (fst (exec cmd fs)) f = fget fs f) ->
  (forall st c, Forall (fun o => forall n, names o n -> ~ indir inbound n) (side st c)) -> NoDup (map fst fs) -> (forall f, noread f = false) ->
  TossDir exec env sort readpkt side packets inbound tempdir unpack noread st fs last = Some r -> tr_ok r = true ->
  exists names st1, oldest_first date IsPkt inbound fs names /\
    reads readpkt st (map (fun n => match fget fs (slashed inbound ++ n) with Some c => c | None => [] end) names) st1 /\
    ((forall n, IsArc n = true -> fget fs (slashed inbound ++ n) = None) -> tr_state r = st1).
Proof.
  intros exec env sort S readpkt side packets inbound tempdir unpack noread date st fs last r L Hsort Hx Hside Hnd Hread E Hok.
  destruct L as [Hpd [Hpc Hpcl] Htd [Hin Hinl] Htemp Hout]. assert (Hpc' : dir_ok (oe_packetcreate env)) by (split; auto; lia).
  unfold TossDir in E. destruct (beforeops _ _) as [o0|] eqn:E0; [|discriminate]. cbn [obind] in E.
  assert (W0 := before_within _ _ _ Hpc' (readdir_fine fs (oe_packetcreate env) IsNewPkt) E0).
  assert (F0 : Forall (foreign_op inbound) o0) by (destruct W0 as [W0 _]; eapply Forall_impl; [|exact W0]; intros x Hx' m Hm; apply Hout; auto).
  assert (Hnd0 : NoDup (map fst (run exec fs o0))) by (apply dels_nodup; [apply W0|auto]).
  assert (Hg0 : forall f, indir inbound f -> fget (run exec fs o0) f = fget fs f) by (intros f Hf; eapply dels_keep; [apply W0|exact F0|auto]).
  set (fs0 := run exec fs o0) in *.
  assert (O0 : forall kind, (forall n, kind n = true -> length n = 12%nat) -> oldest_first date kind inbound fs (map fst (sort (osReadDir fs0 inbound kind)))).
  { intros kind Hk. destruct (oldest_sorted date sort kind inbound fs0 Hsort Hk Hnd0) as (A & B & C). split; auto. split; auto. intros n. rewrite C.
    split; intros (H1 & H2 & H3 & H4); (split; auto; split; auto; split; auto); [rewrite Hg0 in H4; auto|rewrite Hg0; auto]; exists n; auto. }
  destruct (tosspkts _ _ _ _ _ _ st fs0 []) as [[[[st1 o1] del1] ok1]|] eqn:E1; [|discriminate]. cbn [obind] in E.
  exists (map fst (sort (osReadDir fs0 inbound IsPkt))), st1. pose proof (O0 IsPkt IsPkt_12) as O1. split; [exact O1|].
  assert (ok1 = true). { destruct ok1; auto. cbn [obind] in E. destruct (closeops _ _) as [o3|]; [|discriminate]. cbn [obind] in E. assert (tr_ok r = false) by (injection E as <-; reflexivity). congruence. }
  subst ok1. destruct O1 as (ON & _ & OC). split.
  - assert (T : twelve (sort (osReadDir fs0 inbound IsPkt))) by (apply sort_Forall; [intros l; apply Hsort|]; apply readdir_twelve, IsPkt_12).
    refine (tosspkts_order exec readpkt side inbound noread Hin Hinl Hread Hx Hside _ _ T ON _ _ _ _ _ _ _ E1).
    intros n Hn. pose proof Hn as Hn'. apply OC in Hn' as (H1 & H2 & _ & H4). rewrite Hg0 by (exists n; auto). destruct (fget fs (slashed inbound ++ n)); [reflexivity|contradiction].
  - intros Harc. assert (sort (osReadDir fs0 inbound IsArc) = []) as Ea.
    { destruct (O0 IsArc IsArc_12) as (_ & _ & C). destruct (sort (osReadDir fs0 inbound IsArc)) as [|[n z] l]; auto. exfalso. assert (In n (map fst ((n, z) :: l))) as Hn by (left; auto).
      apply C in Hn as (_ & _ & H3 & H4). apply H4. auto. }
    rewrite Ea in E. cbn [tossarcs obind] in E. destruct (closeops _ _) as [o3|]; [|discriminate]. cbn [obind] in E.
    destruct (ArchiveOutbound _ _ _ _ _) as [[[st' o4] b]|] eqn:E4; [|discriminate]. cbn [obind] in E. injection E as <-. reflexivity.
Qed.
Print Assumptions C47_packets.

(** ** Bundles *)
Definition is_exec (o : fop) : bool := match o with Exec _ => true | _ => false end.
Definition noexecs (o : list fop) : Prop := filter is_exec o = [].
Lemma noexecs_app a b : noexecs a -> noexecs b -> noexecs (a ++ b).
Proof. unfold noexecs. rewrite filter_app. intros -> ->. reflexivity. Qed.
Lemma bad_noexecs inbound fs file o : badops inbound fs file = Some o -> noexecs o.
Proof.
  unfold badops. destruct (badname _ _ _); [|discriminate]. cbn [obind]. destruct (firstfree _ _ _ _); [|discriminate]. cbn [obind]. intros E. injection E as <-. reflexivity.
Qed.
Lemma dels_noexecs o : (forall x, In x o -> exists p, x = Del p) -> noexecs o.
Proof. unfold noexecs. induction o as [|x o IH]; intros H; [reflexivity|]. destruct (H x) as (p & ->); [left; auto|]. cbn. apply IH. intros y Hy. apply H. right. auto. Qed.
Lemma close_noexecs env l o : closeops env l = Some o -> noexecs o.
Proof.
  revert o. induction l as [|p l IH]; intros o; cbn [closeops]; [intros E; injection E as <-; reflexivity|].
  destruct (path100 _ _); [|discriminate]. cbn [obind]. destruct (path200 _ _); [|discriminate]. cbn [obind]. destruct (finalname _ _ _); [|discriminate]. cbn [obind].
  destruct (path200 _ _); [|discriminate]. cbn [obind]. destruct (closeops env l) as [o'|]; [|discriminate]. cbn [obind]. intros E. injection E as <-.
  unfold noexecs. cbn [filter is_exec]. destruct (op_hex p =? 0); cbn [app filter is_exec]; apply IH; auto.
Qed.
Section Bundles.
  Context (exec : list Z -> fsys -> fsys * Z) (sort : list (list Z * Z) -> list (list Z * Z)).
  Context {St : Type} (readpkt : St -> list Z -> pktres St) (side : St -> list Z -> list fop).
  Context (inbound tempdir : list Z) (noread : list Z -> bool) (command : list Z -> list Z).
  Context (Hside : forall st c, noexecs (side st c)).
  Notation unpack := (fun (_ : fsys) f => Some (command f)).
  Lemma tosspkt_noexecs st fs f st' o ok : tosspkt exec readpkt side inbound noread st fs f = Some (st', o, ok) -> noexecs o.
  Proof.
    unfold tosspkt. destruct (if noread f then _ else _) as [c|]; [|intros E; injection E as <- <- <-; reflexivity].
    destruct (readpkt st c); try discriminate.
    - intros E. injection E as <- <- <-. auto.
    - destruct (badops _ _ _) as [o1|] eqn:Eb; [|discriminate]. cbn [obind]. intros E. injection E as <- <- <-. apply noexecs_app; auto. eapply bad_noexecs; eauto.
    - intros E. injection E as <- <- <-. auto.
  Qed.
  Lemma tosspkts_noexecs l : forall st fs del st' o del' ok, tosspkts exec readpkt side inbound noread l st fs del = Some (st', o, del', ok) -> noexecs o.
  Proof.
    induction l as [|[n z] l IH]; intros st fs del st' o del' ok; cbn [tosspkts]; [intros E; injection E as <- <- <- <-; reflexivity|].
    destruct (path200 _ _); [|discriminate]. cbn [obind]. destruct (tosspkt _ _ _ _ _ _ _ _) as [[[st1 o1] ok1]|] eqn:E1; [|discriminate]. cbn [obind]. apply tosspkt_noexecs in E1.
    destruct ok1; [|intros E; injection E as <- <- <- <-; auto].
    destruct (tosspkts _ _ _ _ _ _ _ _ _) as [[[[st2 o2] del2] ok2]|] eqn:E2; [|discriminate]. cbn [obind]. intros E. injection E as <- <- <- <-. apply noexecs_app; eauto.
  Qed.
  Lemma tosstemp_noexecs l : forall st fs del st' o ok, tosstemp exec readpkt side inbound tempdir noread l st fs del = Some (st', o, ok) -> noexecs o.
  Proof.
    induction l as [|[n z] l IH]; intros st fs del st' o ok; cbn [tosstemp]; [intros E; injection E as <- <- <-; reflexivity|].
    destruct (path200 _ _); [|discriminate]. cbn [obind]. destruct (existsb _ del); [eauto|].
    destruct (tosspkt _ _ _ _ _ _ _ _) as [[[st1 o1] ok1]|] eqn:E1; [|discriminate]. cbn [obind]. apply tosspkt_noexecs in E1.
    destruct ok1; [|intros E; injection E as <- <- <-; auto].
    destruct (tosstemp _ _ _ _ _ _ _ _ _ _) as [[[st2 o2] ok2]|] eqn:E2; [|discriminate]. cbn [obind]. intros E. injection E as <- <- <-. apply noexecs_app; auto. unfold noexecs. cbn. eapply IH. exact E2.
  Qed.
  Lemma tossarcs_execs l : cstring inbound -> (length inbound <= 75)%nat -> twelve l -> forall st fs del st' o del',
    tossarcs exec sort readpkt side inbound tempdir unpack noread l st fs del = Some (st', o, del', true) ->
    filter is_exec o = map (fun e => Exec (command (slashed inbound ++ fst e))) (filter (fun e => negb (snd e =? 0)) l).
  Proof.
    intros Hin Hlen F. assert (Hdi : dir_ok inbound) by (split; auto; lia).
    induction F as [|[n z] l (F1 & F2 & F3) F IH]; intros st fs del st' o del'; cbn [tossarcs]; [intros E; injection E as <- <- <-; reflexivity|].
    cbn [fst] in *. rewrite (path200_short inbound n Hdi F2) by lia. cbn [obind].
    destruct (TossBundle _ _ _ _ _ _ _ _ st fs _ z del) as [[[st1 o1] ok1]|] eqn:E1; [|discriminate]. cbn [obind].
    destruct ok1; [|discriminate]. destruct (tossarcs _ _ _ _ _ _ _ _ l _ _ _) as [[[[st2 o2] del2] ok2]|] eqn:E2; [|discriminate]. cbn [obind].
    intros E. assert (ok2 = true) by congruence. assert (o = o1 ++ o2) by congruence. subst ok2 o. rewrite filter_app, (IH _ _ _ _ _ _ E2). cbn [filter snd].
    unfold TossBundle in E1. destruct (z =? 0); cbn [negb map fst].
    - injection E1 as <- <-. reflexivity.
    - destruct (snd (exec _ _) =? -1); [discriminate|].
      destruct (if snd (exec _ _) =? 0 then _ else _) as [ob|] eqn:Eb; [|discriminate]. cbn [obind] in E1.
      destruct (tosstemp _ _ _ _ _ _ _ _ _ _) as [[[st3 o3] ok3]|] eqn:E3; [|discriminate]. cbn [obind] in E1. injection E1 as <- <- ->.
      apply tosstemp_noexecs in E3. cbn [app filter is_exec]. rewrite filter_app, E3, app_nil_r.
      assert (Nb : noexecs ob) by (destruct (_ =? 0); [injection Eb as <-; reflexivity|eapply bad_noexecs; eauto]). rewrite Nb. reflexivity.
  Qed.
End Bundles.
(** The bundles of the inbound are unpacked oldest first, each that is not empty once, and
    no other program is run before archiving. *)
Theorem C47_bundles : forall exec env sort S readpkt side packets inbound tempdir command noread date (st : S) fs last r,
  layout env inbound tempdir -> sorts date sort -> (forall st c, noexecs (side st c)) -> NoDup (map fst fs) ->
  TossDir exec env sort readpkt side packets inbound tempdir (fun _ f => Some (command f)) noread st fs last = Some r -> tr_ok r = true ->
  exists names, oldest_first date IsArc inbound fs names /\
    filter is_exec (tr_read r) = map (fun n => Exec (command (slashed inbound ++ n))) (filter (fun n => match fget fs (slashed inbound ++ n) with Some [] => false | _ => true end) names).
Proof.
  intros exec env sort S readpkt side packets inbound tempdir command noread date st fs last r L Hsort Hside Hnd E Hok.
  destruct L as [Hpd [Hpc Hpcl] Htd [Hin Hinl] Htemp Hout]. assert (Hpc' : dir_ok (oe_packetcreate env)) by (split; auto; lia).
  unfold TossDir in E. destruct (beforeops _ _) as [o0|] eqn:E0; [|discriminate]. cbn [obind] in E.
  assert (W0 := before_within _ _ _ Hpc' (readdir_fine fs (oe_packetcreate env) IsNewPkt) E0).
  assert (F0 : Forall (foreign_op inbound) o0) by (destruct W0 as [W0 _]; eapply Forall_impl; [|exact W0]; intros x Hx' m Hm; apply Hout; auto).
  assert (Hnd0 : NoDup (map fst (run exec fs o0))) by (apply dels_nodup; [apply W0|auto]).
  assert (Hg0 : forall f, indir inbound f -> fget (run exec fs o0) f = fget fs f) by (intros f Hf; eapply dels_keep; [apply W0|exact F0|auto]).
  set (fs0 := run exec fs o0) in *.
  destruct (tosspkts _ _ _ _ _ _ st fs0 []) as [[[[st1 o1] del1] ok1]|] eqn:E1; [|discriminate]. cbn [obind] in E.
  destruct (if ok1 then _ else _) as [[[[st2 o2] del2] ok2]|] eqn:E2; [|discriminate]. cbn [obind] in E.
  destruct (closeops env (packets st2)) as [o3|] eqn:E3; [|discriminate]. cbn [obind] in E.
  destruct ok2; [|injection E as <-; discriminate]. destruct ok1; [|discriminate].
  destruct (ArchiveOutbound _ _ _ _ _) as [[[st' o4] b]|] eqn:E4; [|discriminate]. cbn [obind] in E. injection E as <-. cbn [tr_read].
  assert (T : twelve (sort (osReadDir fs0 inbound IsArc))) by (apply sort_Forall; [intros l; apply Hsort|]; apply readdir_twelve, IsArc_12).
  exists (map fst (sort (osReadDir fs0 inbound IsArc))). split.
  - destruct (oldest_sorted date sort IsArc inbound fs0 Hsort IsArc_12 Hnd0) as (A & B & C). split; auto. split; auto. intros n. rewrite C.
    split; intros (H1 & H2 & H3 & H4); (split; auto; split; auto; split; auto); [rewrite Hg0 in H4; auto|rewrite Hg0; auto]; exists n; auto.
  - rewrite !filter_app, (close_noexecs _ _ _ E3), app_nil_r, (dels_noexecs o0) by apply W0. apply tosspkts_noexecs in E1; auto. rewrite E1. cbn [app].
    apply tossarcs_execs in E2; auto. rewrite E2. clear - Hsort Hnd0 Hg0 T.
    assert (Hz : forall e, In e (sort (osReadDir fs0 inbound IsArc)) -> negb (snd e =? 0) = match fget fs (slashed inbound ++ fst e) with Some [] => false | _ => true end).
    { intros [n z] Hi. apply (Permutation_in _ (proj1 (Hsort _))) in Hi. apply readdir_In in Hi as (m & c & E & Hi & -> & H1 & H2 & H3). cbn [fst snd].
      assert (n = m) by (rewrite E; apply firstn_all2; apply IsArc_12 in H3; lia). subst m. rewrite <- Hg0 by (exists n; auto). rewrite (In_fget _ _ _ Hnd0 Hi). destruct c; [reflexivity|]. cbn [length]. lia. }
    revert Hz. generalize (sort (osReadDir fs0 inbound IsArc)) as l. induction l as [|e l IH]; intros Hz; [reflexivity|]. cbn [filter map]. rewrite (Hz e) by (left; auto).
    destruct (fget fs (slashed inbound ++ fst e)) as [[|]|]; cbn [map]; rewrite IH by (intros x Hx; apply Hz; right; auto); reflexivity.
Qed.
Print Assumptions C47_bundles.

(** ** A run: two packets and two bundles, in the order of their dates *)
Fixpoint nameleb (a b : list Z) : bool :=
  match a, b with
  | [], _ => true
  | _, [] => false
  | x :: a', y :: b' => (tolower x <? tolower y) || ((tolower x =? tolower y) && nameleb a' b')
  end.
Definition beforeb (a b : fentry) : bool := (fe_date a <? fe_date b) || ((fe_date a =? fe_date b) && nameleb (fe_name a) (fe_name b)).
Lemma nameleb_iff a : forall b, nameleb a b = true <-> name_le a b.
Proof.
  induction a as [|x a IH]; intros [|y b]; cbn [nameleb].
  - split; [constructor|auto].
  - split; [constructor|auto].
  - split; [discriminate|]. intros H. inversion H.
  - rewrite orb_true_iff, andb_true_iff, IH. split.
    + intros [H|[H H']]; [apply nl_less; lia|apply nl_same; [lia|auto]].
    + intros H. inversion H; subst; [left; lia|right; split; auto; lia].
Qed.
Lemma name_le_total a : forall b, name_le a b \/ name_le b a.
Proof.
  induction a as [|x a IH]; intros [|y b]; [left; constructor|left; constructor|right; constructor|].
  destruct (Z.lt_trichotomy (tolower x) (tolower y)) as [H|[H|H]]; [left; apply nl_less; auto| |right; apply nl_less; auto].
  destruct (IH b); [left; apply nl_same; auto|right; apply nl_same; auto].
Qed.
Lemma beforeb_iff a b : beforeb a b = true <-> before a b.
Proof. unfold beforeb, before. rewrite orb_true_iff, andb_true_iff, nameleb_iff. split; (intros [H|[H H']]; [left; lia|right; split; auto; lia]). Qed.
Lemma before_total a b : before a b \/ before b a.
Proof. unfold before. destruct (Z.lt_trichotomy (fe_date a) (fe_date b)) as [H|[H|H]]; auto. destruct (name_le_total (fe_name a) (fe_name b)); auto. Qed.
Section Dsort.
  Context (date : list Z -> Z).
  Definition fent (e : list Z * Z) : fentry := FE (date (fst e)) (fst e).
  Fixpoint dins (e : list Z * Z) (l : list (list Z * Z)) : list (list Z * Z) :=
    match l with [] => [e] | x :: r => if beforeb (fent e) (fent x) then e :: l else x :: dins e r end.
  Definition dsort (l : list (list Z * Z)) : list (list Z * Z) := fold_right dins [] l.
  Lemma dins_perm e l : Permutation (dins e l) (e :: l).
  Proof. induction l as [|x l IH]; cbn; auto. destruct (beforeb _ _); auto. rewrite IH. apply perm_swap. Qed.
  Lemma dsort_sorts : sorts date dsort.
  Proof.
    intros l. induction l as [|e l [IH1 IH2]]; cbn [dsort fold_right]; [split; constructor|]. split; [rewrite dins_perm; fold (dsort l); rewrite IH1; reflexivity|].
    fold (dsort l). clear IH1. induction IH2 as [|x r Hr IHr Hx]; cbn [dins]; [repeat constructor|]. destruct (beforeb (fent e) (fent x)) eqn:E.
    - apply beforeb_iff in E. constructor; [constructor; auto|]. constructor; auto. eapply Forall_impl; [|exact Hx]. cbn beta. intros y Hy. eapply before_trans; eauto.
    - constructor; auto. assert (Hxe : before (fent x) (fent e)) by (destruct (before_total (fent x) (fent e)) as [|H]; auto; apply beforeb_iff in H; congruence).
      rewrite Forall_forall in *. intros y Hy. apply (Permutation_in _ (dins_perm e r)) in Hy. destruct Hy as [<-|Hy]; auto.
  Qed.
End Dsort.
Definition ydate (n : list Z) : Z := if streqi n (lit "00000002.PKT") then 50 else if streqi n (lit "00000009.su1") then 70 else 80.
Definition yfs47 := [(lit "/fido/inbound/00000003.pkt", [3]); (lit "/fido/inbound/00000001.tu0", [4]); (lit "/fido/inbound/00000001.pkt", [1]);
  (lit "/fido/inbound/00000002.pkt", [2]); (lit "/fido/inbound/00000009.su1", [9]); (lit "/fido/inbound/00000000.mo1", [])].
Definition ylog (l : list (list Z)) (c : list Z) : pktres (list (list Z)) := PkDone (l ++ [c]).
Example C47_run_nonvacuous : let env := yenv ycreate None (fun _ => false) in
  layout env yin ytmp /\ sorts ydate (dsort ydate) /\ NoDup (map fst yfs47) /\ (forall st c, noexecs ((fun (_ : list (list Z)) (_ : list Z) => []) st c)) /\
  exists r, TossDir noexec env (dsort ydate) ylog (fun _ _ => []) (fun _ => []) yin ytmp (fun _ f => Some (lit "unzip " ++ f)) (fun _ => false) [] yfs47 [[]] = Some r /\ tr_ok r = true /\
    tr_state r = [[2]; [1]; [3]] /\
    filter is_exec (tr_read r) = [Exec (lit "unzip /fido/inbound/00000009.su1"); Exec (lit "unzip /fido/inbound/00000001.tu0")].
Proof.
  cbv zeta. split; [apply y_layout|]. split; [apply dsort_sorts|]. split; [repeat constructor; cbn; intuition discriminate|]. split; [reflexivity|].
  eexists. split; [vm_compute; reflexivity|]. vm_compute. auto.
Qed.
