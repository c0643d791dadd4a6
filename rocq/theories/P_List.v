(** Lemmas about lists in memory. *)
From Coq Require Import Permutation Sorted.
From Verif Require Import Base M_Str M_Mem M_List S_List.

Lemma upd_same h a v : upd h a v a = v.
Proof. unfold upd. rewrite Z.eqb_refl. reflexivity. Qed.
Lemma upd_other h a v x : x <> a -> upd h a v x = h x.
Proof. unfold upd. intros H. destruct (Z.eqb_spec x a); [contradiction|reflexivity]. Qed.

Lemma NoDup_left {A} (l1 l2 : list A) : NoDup (l1 ++ l2) -> NoDup l1.
Proof. induction l2 as [|a l2 IH] using rev_ind; [rewrite app_nil_r; auto|]. rewrite app_assoc. intros H. apply NoDup_remove_1 in H. rewrite app_nil_r in H. auto. Qed.

(** following Next from [p] through [l] leads to [q] *)
Fixpoint seg (h : heap) (p : option Z) (l : list Z) (q : option Z) : Prop :=
  match l with
  | [] => p = q
  | a :: r => p = Some a /\ exists n, h a = Some n /\ seg h n r q
  end.
Lemma chain_seg h l : forall p, chain h p l <-> seg h p l None.
Proof.
  induction l as [|a l IH]; intros p; [reflexivity|]. cbn. split; intros (-> & n & Hn & H); split; auto; exists n; split; auto; apply IH; auto.
Qed.
Lemma seg_app h l1 l2 : forall p q, seg h p (l1 ++ l2) q <-> exists m, seg h p l1 m /\ seg h m l2 q.
Proof.
  induction l1 as [|a l1 IH]; intros p q; cbn.
  - split; [intros H; exists p; auto|intros (m & -> & H); auto].
  - split.
    + intros (-> & n & Hn & H). apply IH in H. destruct H as (m & H1 & H2). exists m. split; auto. split; auto. exists n. auto.
    + intros (m & (-> & n & Hn & H1) & H2). split; auto. exists n. split; auto. apply IH. exists m. auto.
Qed.
Lemma seg_frame h h' l : forall p q, (forall a, In a l -> h' a = h a) -> seg h p l q -> seg h' p l q.
Proof.
  induction l as [|a l IH]; intros p q Hf H; [exact H|]. destruct H as (-> & n & Hn & H). split; auto. exists n.
  split; [rewrite Hf; auto; left; auto|]. apply IH; auto. intros b Hb. apply Hf. right. auto.
Qed.
Lemma seg_alloc h l : forall p q a, seg h p l q -> In a l -> h a <> None.
Proof. induction l as [|b l IH]; intros p q a H Hin; [destruct Hin|]. destruct H as (-> & n & Hn & H). destruct Hin as [->|Hin]; [congruence|eauto]. Qed.
Lemma lastof_app l a : lastof (l ++ [a]) = Some a.
Proof. unfold lastof. rewrite rev_app_distr. reflexivity. Qed.
Lemma lastof_app2 l1 l2 : l2 <> [] -> lastof (l1 ++ l2) = lastof l2.
Proof. intros H. destruct (exists_last H) as (l & a & ->). rewrite app_assoc, !lastof_app. reflexivity. Qed.
Lemma lastof_none l : lastof l = None -> l = [].
Proof. destruct l as [|x l] using rev_ind; [reflexivity|]. rewrite lastof_app. discriminate. Qed.
Lemma lastof_some l : l <> [] -> exists l' o, l = l' ++ [o] /\ lastof l = Some o.
Proof. intros H. destruct (exists_last H) as (l' & o & E). subst l. exists l', o. split; auto. apply lastof_app. Qed.
Lemma seg_setlast h l a p q q' : NoDup (l ++ [a]) -> seg h p (l ++ [a]) q -> seg (upd h a (Some q')) p (l ++ [a]) q'.
Proof.
  intros Hn H. apply seg_app in H. destruct H as (m & H1 & -> & n & Ha & <-). apply NoDup_remove_2 in Hn. rewrite app_nil_r in Hn.
  apply seg_app. exists (Some a). split; [|split; auto; exists q'; rewrite upd_same; split; auto; reflexivity].
  eapply seg_frame; [|exact H1]. intros b Hb. apply upd_other. intros ->. contradiction.
Qed.

Lemma add_ok h j l n : represents h j l -> ~ In n l -> h n <> None ->
  exists h' j', jbAddNode h j n = Some (h', j') /\ represents h' j' (l ++ [n]) /\ forall a, ~ In a (l ++ [n]) -> h' a = h a.
Proof.
  intros (Hc & Hl & Hn) Hin Hal. apply chain_seg in Hc. unfold jbAddNode.
  assert (Hnd : NoDup (l ++ [n])).
  { apply (Permutation_NoDup (Permutation_cons_append l n)). constructor; auto. }
  destruct l as [|x l] using rev_ind.
  - cbn in Hc. rewrite Hc. cbn. destruct (h n) as [g|] eqn:E; [|contradiction]. cbn. do 2 eexists. split; [reflexivity|]. split.
    + split; [|split]; auto. cbn. split; auto. exists None. rewrite upd_same. auto.
    + intros a Ha. apply upd_other. intros ->. apply Ha. left. auto.
  - clear IHl. rewrite lastof_app in Hl. assert (Hf : exists f, First j = Some f).
    { destruct l as [|y l]; cbn in Hc; destruct Hc as (E & _); eauto. }
    destruct Hf as (f & Ef). rewrite Ef, Hl. cbn. assert (Hx : h x <> None) by (eapply seg_alloc; [exact Hc|apply in_or_app; right; left; auto]).
    assert (Hxn : n <> x) by (intros ->; apply Hin; apply in_or_app; right; left; auto).
    destruct (h x) as [gx|] eqn:Ex; [|contradiction]. cbn. rewrite upd_other by auto. destruct (h n) as [g|] eqn:E; [|contradiction]. cbn.
    do 2 eexists. split; [reflexivity|]. split.
    + split; [|split]; auto; cbn; [|rewrite lastof_app; auto]. apply chain_seg. apply seg_app. exists (Some n). split.
      * eapply seg_frame; [|rewrite <- Ef; eapply (seg_setlast _ _ _ _ _ (Some n) Hn Hc)]. intros a Ha. apply upd_other. intros ->. contradiction.
      * split; auto. exists None. rewrite upd_same. split; reflexivity.
    + intros a Ha. rewrite !upd_other; auto; intros ->; apply Ha; apply in_or_app; [left; apply in_or_app; right|right]; left; auto.
Qed.

Lemma unlink_ok h j l1 a l2 first : represents h j (l1 ++ a :: l2) -> first = match l1 with [] => true | _ => false end ->
  exists h' j', unlink h j (Some a) (lastof l1) first = Some (h', j') /\ represents h' j' (l1 ++ l2) /\ h' a = None /\ (forall b, ~ In b (l1 ++ a :: l2) -> h' b = h b).
Proof.
  intros (Hc & Hl & Hn) ->. apply chain_seg in Hc. apply seg_app in Hc. destruct Hc as (m & H1 & -> & n & Ha & H2).
  pose proof (NoDup_remove_1 _ _ _ Hn) as Hn'. pose proof (NoDup_remove_2 _ _ _ Hn) as Ha'. unfold unlink. cbn [obind].
  assert (Hnn : n = None <-> l2 = []). { destruct l2 as [|b l2]; cbn in H2; split; auto; try discriminate. destruct H2 as (-> & _). discriminate. }
  assert (Hlast : match n with Some _ => Last j | None => lastof l1 end = lastof (l1 ++ l2)).
  { destruct n as [z|].
    - rewrite Hl. assert (l2 <> []) by (intros E; apply Hnn in E; discriminate). rewrite lastof_app2 by discriminate. rewrite lastof_app2 by auto.
      change (a :: l2) with ([a] ++ l2). apply lastof_app2; auto.
    - destruct Hnn as [Hnn _]. rewrite (Hnn eq_refl), app_nil_r. reflexivity. }
  destruct l1 as [|x l1 _] using rev_ind.
  - cbn [lastof rev obind]. rewrite Ha. cbn [obind]. do 2 eexists. split; [reflexivity|]. cbn in Hlast. split; [|split].
    + split; [|split]; auto. cbn [First app]. apply chain_seg. eapply seg_frame; [|exact H2]. intros b Hb. apply upd_other. intros ->. contradiction.
    + apply upd_same.
    + intros b Hb. apply upd_other. intros ->. apply Hb. left. auto.
  - rewrite lastof_app in *. rewrite Ha. cbn [obind].
    assert (Hx : h x <> None). { eapply seg_alloc; [exact H1|]. apply in_or_app; right; left; auto. }
    unfold setnext. destruct (h x) as [gx|] eqn:Ex; [|contradiction]. cbn [obind].
    assert (Hxa : a <> x). { intros ->. apply Ha'. apply in_or_app. left. apply in_or_app. right. left. auto. }
    rewrite upd_other by auto. rewrite Ha. cbn [obind].
    assert (Hb : (match l1 ++ [x] with [] => true | _ => false end) = false) by (destruct l1; reflexivity). rewrite Hb.
    do 2 eexists. split; [reflexivity|]. split; [|split].
    + split; [|split]; auto. cbn [First]. apply chain_seg. apply seg_app. exists n. assert (Hnd1 : NoDup (l1 ++ [x])) by (eapply NoDup_left; exact Hn'). split.
      * eapply seg_frame; [|apply (seg_setlast _ _ _ _ _ n Hnd1 H1)]. intros b Hbb. apply upd_other. intros ->. apply Ha'. apply in_or_app. auto.
      * eapply seg_frame; [|exact H2]. intros b Hbb. unfold free. rewrite !upd_other; auto.
        -- intros ->. rewrite <- app_assoc in Hn'. cbn in Hn'. apply NoDup_remove_2 in Hn'. apply Hn'. apply in_or_app. auto.
        -- intros ->. apply Ha'. apply in_or_app. auto.
    + apply upd_same.
    + intros b Hbb. unfold free. rewrite !upd_other; auto.
      * intros ->. apply Hbb. apply in_or_app. left. apply in_or_app. right. left. auto.
      * intros ->. apply Hbb. apply in_or_app. right. left. auto.
Qed.

Lemma walknum_in h a l2 q : forall l1 p old, seg h p (l1 ++ a :: l2) q ->
  walknum (length l1) h p old = Some (Some a, match lastof l1 with Some o => Some o | None => old end, true).
Proof.
  induction l1 as [|b l1 IH]; intros p old H.
  - destruct H as (-> & _). reflexivity.
  - destruct H as (-> & n & Hn & H). cbn [length walknum]. rewrite Hn. cbn [obind]. rewrite (IH _ _ H).
    destruct l1 as [|c l1]; [reflexivity|]. change (b :: c :: l1) with ([b] ++ c :: l1). rewrite (lastof_app2 [b]) by discriminate.
    destruct (lastof (c :: l1)) eqn:E; [reflexivity|]. apply lastof_none in E. discriminate.
Qed.
Lemma walknum_end h l : forall p old, seg h p l None -> exists old', walknum (length l) h p old = Some (None, old', true).
Proof.
  induction l as [|b l IH]; intros p old H; [cbn in *; subst; eauto|].
  destruct H as (-> & n & Hn & H). cbn [length walknum]. rewrite Hn. cbn [obind]. apply IH. auto.
Qed.
Lemma walknum_past h l : forall p old k, seg h p l None -> (length l < k)%nat -> exists old', walknum k h p old = Some (None, old', false).
Proof.
  induction l as [|b l IH]; intros p old k H Hk; (destruct k as [|k]; [cbn in Hk; lia|]).
  - cbn in H. subst. cbn. eauto.
  - destruct H as (-> & n & Hn & H). cbn [walknum]. rewrite Hn. cbn [obind]. apply IH; auto. cbn in Hk. lia.
Qed.

Lemma walknode_in h n l2 q : forall l1 fuel p old, (length l1 < fuel)%nat -> NoDup (l1 ++ n :: l2) -> seg h p (l1 ++ n :: l2) q -> q <> Some n ->
  walknode fuel h p n old = Some (Some n, match lastof l1 with Some o => Some o | None => old end).
Proof.
  induction l1 as [|b l1 IH]; intros fuel p old Hf Hn H Hq; (destruct fuel as [|f]; [cbn in Hf; lia|]).
  - destruct H as (-> & nx & Hx & H). cbn [walknode]. rewrite Hx. cbn [obind]. rewrite Z.eqb_refl.
    replace (ptreq nx (Some n)) with false; [reflexivity|]. destruct nx as [z|]; [|reflexivity]. cbn. symmetry. apply Z.eqb_neq. intros ->.
    destruct l2 as [|c l2]; cbn in H; [congruence|]. destruct H as (E & _). inversion E; subst. inversion Hn; subst. apply H1. left. auto.
  - destruct H as (-> & nx & Hx & H). cbn [walknode]. rewrite Hx. cbn [obind]. inversion Hn as [|? ? Hb Hn']; subst.
    assert (b <> n) by (intros ->; apply Hb; apply in_or_app; right; left; auto). destruct (Z.eqb_spec b n); [contradiction|].
    rewrite (IH f nx _); auto; [|cbn in Hf; lia]. destruct l1 as [|c l1].
    + destruct H as (-> & _). cbn. rewrite Z.eqb_refl. reflexivity.
    + change (b :: c :: l1) with ([b] ++ c :: l1). rewrite (lastof_app2 [b]) by discriminate.
      destruct (lastof (c :: l1)) eqn:E; [reflexivity|]. apply lastof_none in E. discriminate.
Qed.
Lemma walknode_out h n : forall l fuel p old, (length l < fuel)%nat -> ~ In n l -> seg h p l None -> walknode fuel h p n old = Some (None, old).
Proof.
  induction l as [|b l IH]; intros fuel p old Hf Hin H; (destruct fuel as [|f]; [cbn in Hf; lia|]).
  - cbn in H. subst. reflexivity.
  - destruct H as (-> & nx & Hx & H). cbn [walknode]. rewrite Hx. cbn [obind].
    destruct (Z.eqb_spec b n) as [->|Hb]; [exfalso; apply Hin; left; auto|].
    replace (ptreq nx (Some n)) with false.
    + apply IH; auto; [cbn in Hf; lia|]. intros Hx'. apply Hin. right. auto.
    + destruct nx as [z|]; [|reflexivity]. cbn. symmetry. apply Z.eqb_neq. intros ->. destruct l as [|c l]; cbn in H; [discriminate|].
      destruct H as (E & _). inversion E; subst. apply Hin. right. left. auto.
Qed.
Lemma freeall_ok : forall l fuel h p, (length l < fuel)%nat -> NoDup l -> seg h p l None ->
  exists h', freeall fuel h p = Some h' /\ (forall a, In a l -> h' a = None) /\ (forall a, ~ In a l -> h' a = h a).
Proof.
  induction l as [|b l IH]; intros fuel h p Hf Hn H; (destruct fuel as [|f]; [cbn in Hf; lia|]).
  - cbn in H. subst. exists h. cbn. split; auto. split; [intros a []|auto].
  - destruct H as (-> & nx & Hx & H). cbn [freeall]. rewrite Hx. cbn [obind]. inversion Hn as [|? ? Hb Hn2]; subst.
    destruct (IH f (free h b) nx) as (h' & E & H1 & H2); auto; [cbn in Hf; lia| |].
    + eapply seg_frame; [|exact H]. intros a Ha. apply upd_other. intros ->. contradiction.
    + exists h'. split; auto. split.
      * intros a [->|Ha]; auto. rewrite H2 by auto. apply upd_same.
      * intros a Ha. rewrite H2 by (intros Hx'; apply Ha; right; auto). apply upd_other. intros ->. apply Ha. left. auto.
Qed.
Lemma collect_ok h : forall l fuel p, (length l < fuel)%nat -> seg h p l None -> collect fuel h p = Some l.
Proof.
  induction l as [|b l IH]; intros fuel p Hf H; (destruct fuel as [|f]; [cbn in Hf; lia|]).
  - cbn in H. subst. reflexivity.
  - destruct H as (-> & nx & Hx & H). cbn [collect]. rewrite Hx. cbn [obind]. rewrite (IH f nx); auto. cbn in Hf. lia.
Qed.
Lemma addall_ok : forall ns h j l, represents h j l -> NoDup (l ++ ns) -> (forall a, In a ns -> h a <> None) ->
  exists h' j', addall h j ns = Some (h', j') /\ represents h' j' (l ++ ns) /\ forall a, ~ In a (l ++ ns) -> h' a = h a.
Proof.
  induction ns as [|n ns IH]; intros h j l Hr Hn Ha.
  - rewrite app_nil_r. exists h, j. auto.
  - cbn [addall]. pose proof (NoDup_remove_2 _ _ _ Hn) as Hn2.
    destruct (add_ok h j l n Hr) as (h1 & j1 & E & Hr1 & Hf1); [intros H; apply Hn2; apply in_or_app; auto|apply Ha; left; auto|].
    rewrite E. cbn [obind fst snd]. replace (l ++ n :: ns) with ((l ++ [n]) ++ ns) in * by (rewrite <- app_assoc; reflexivity).
    destruct (IH h1 j1 (l ++ [n]) Hr1 Hn) as (h' & j' & E' & Hr' & Hf').
    + intros a Hin. rewrite Hf1.
      * apply Ha. right. auto.
      * intros H. apply in_split in Hin. destruct Hin as (x & y & ->). rewrite app_assoc in Hn. apply NoDup_remove_2 in Hn. apply Hn. apply in_or_app. left. apply in_or_app. left. auto.
    + exists h', j'. split; auto. split; auto. intros a Hin. rewrite Hf' by auto. apply Hf1. intros H. apply Hin. apply in_or_app. auto.
Qed.
