(** Lemmas about the maintenance of *.MSG areas. *)
From Coq Require Import Sorting.Sorted Sorting.Permutation.
From Verif Require Import Base M_Mem M_Fs P_Fs M_Msg S_Msg P_Msg M_MsgMaint S_MsgMaint.

Definition alive (msgs : list mmsg) : list mmsg := filter (fun m => negb (m_num m =? 0)) msgs.
Definition dels (l : list mmsg) : list mop := map (fun m => ODel (msgname (m_num m))) l.

Lemma delnum_spec keep : 0 <= keep -> forall k msgs hw, Forall (fun m => m_num m <> 0) msgs -> (k <= length msgs)%nat ->
  exists msgs', delnum keep (keep + Z.of_nat k) msgs hw =
    Some (dels (firstn k msgs), msgs', if existsb (fun m => m_num m =? hw) (firstn k msgs) then 0 else hw) /\
  alive msgs' = skipn k msgs.
Proof.
  intros Hk. induction k as [|k IH]; intros msgs hw Hn Hl.
  - exists msgs. split.
    + destruct msgs; cbn [delnum]; rewrite Z.add_0_r, Z.gtb_ltb, Z.ltb_irrefl; reflexivity.
    + cbn [skipn]. unfold alive. induction Hn as [|m r Hm _ IH']; cbn [filter]; auto. destruct (Z.eqb_spec (m_num m) 0); [contradiction|]. cbn [negb].
      f_equal. apply IH'. cbn. lia.
  - destruct msgs as [|m r]; cbn [length] in Hl; [lia|]. inversion Hn as [|? ? Hm Hr]; subst. cbn [delnum].
    destruct (Z.gtb_spec (keep + Z.of_nat (S k)) keep); [|lia]. destruct (Z.eqb_spec (m_num m) 0); [contradiction|].
    replace (keep + Z.of_nat (S k) - 1) with (keep + Z.of_nat k) by lia.
    destruct (IH r (if m_num m =? hw then 0 else hw) Hr ltac:(lia)) as (msgs' & E & Ha). rewrite E. cbn [obind].
    exists (Msg 0 (m_day m) :: msgs'). split; [|cbn [skipn alive filter m_num Z.eqb negb]; exact Ha].
    cbn [firstn dels map existsb]. do 2 f_equal. destruct (Z.eqb_spec (m_num m) hw); cbn [orb]; auto.
    destruct (existsb _ _); auto.
Qed.
Definition old (keep today : Z) (m : mmsg) : bool := u32 (today - m_day m) >? keep.
Lemma deldays_spec keep today : forall msgs hw o l h, deldays keep today msgs hw = (o, l, h) ->
  o = dels (filter (old keep today) (alive msgs)) /\ alive l = filter (fun m => negb (old keep today m)) (alive msgs) /\
  h = if existsb (fun m => m_num m =? hw) (filter (old keep today) (alive msgs)) then 0 else hw.
Proof.
  induction msgs as [|m r IH]; intros hw o l h H; cbn [deldays] in H.
  - injection H as <- <- <-. auto.
  - change (u32 (today - m_day m) >? keep) with (old keep today m) in H. cbn [alive filter]. fold (alive r). 
    destruct (Z.eqb_spec (m_num m) 0) as [Em|Em]; cbn [negb] in *.
    + rewrite andb_false_r in H. destruct (deldays keep today r hw) as [[o' l'] h'] eqn:E. injection H as <- <- <-.
      destruct (IH _ _ _ _ E) as (A & B & C). cbn [alive filter]. rewrite Em. cbn [Z.eqb negb]. auto.
    + rewrite andb_true_r in H. destruct (old keep today m) eqn:Eo.
      * destruct (deldays keep today r _) as [[o' l'] h'] eqn:E. injection H as <- <- <-. destruct (IH _ _ _ _ E) as (A & B & C).
        cbn [filter]. rewrite Eo. cbn [negb dels map existsb]. split; [f_equal; exact A|]. split; [exact B|].
        subst h'. destruct (Z.eqb_spec (m_num m) hw); cbn [orb]; auto. destruct (existsb _ _); auto.
      * destruct (deldays keep today r hw) as [[o' l'] h'] eqn:E. injection H as <- <- <-. destruct (IH _ _ _ _ E) as (A & B & C).
        cbn [filter]. rewrite Eo. cbn [negb alive filter]. destruct (Z.eqb_spec (m_num m) 0); [contradiction|]. cbn [negb]. split; auto. split; auto. f_equal. exact B.
Qed.
Lemma renum_alive : forall msgs num hw, renum num msgs hw = renum num (alive msgs) hw.
Proof.
  induction msgs as [|m r IH]; intros num hw; cbn [renum alive filter]; auto. fold (alive r).
  destruct (Z.eqb_spec (m_num m) 0) as [E|E]; cbn [negb]; auto. cbn [renum]. destruct (Z.eqb_spec (m_num m) 0); [contradiction|].
  rewrite !IH. reflexivity.
Qed.

(** renumbering, in terms of the numbers *)
Fixpoint renops (num : Z) (K : list Z) : list mop :=
  match K with
  | [] => []
  | n :: r => if n =? num then renops (num + 1) r else ORen (msgname n) (msgname num) :: renops (num + 1) r
  end.
Fixpoint newmark (num : Z) (K : list Z) (hw : Z) : Z :=
  match K with [] => hw | n :: r => if n =? hw then num else newmark (num + 1) r hw end.
Lemma newmark_notin : forall K num hw, ~ In hw K -> newmark num K hw = hw.
Proof.
  induction K as [|n r IH]; intros num hw H; cbn [newmark]; auto. destruct (Z.eqb_spec n hw); [subst; exfalso; apply H; left; auto|].
  apply IH. intros Hi. apply H. right. auto.
Qed.
Lemma newmark_nth : forall K num p, NoDup K -> (p < length K)%nat -> newmark num K (nth p K 0) = num + Z.of_nat p.
Proof.
  induction K as [|n r IH]; intros num p Hd Hp; cbn [length] in Hp; [lia|]. inversion Hd as [|? ? Hn Hr]; subst. destruct p as [|p]; cbn [nth newmark].
  - rewrite Z.eqb_refl. lia.
  - destruct (Z.eqb_spec n (nth p r 0)) as [E|E]; [exfalso; apply Hn; rewrite E; apply nth_In; lia|]. rewrite IH by (auto; lia). lia.
Qed.
Lemma renum_spec : forall msgs num hw, StronglySorted Z.lt (map m_num msgs) -> Forall (fun n => num <= n < 4294967296) (map m_num msgs) -> 2 <= num ->
  renum num msgs hw = (renops num (map m_num msgs), newmark num (map m_num msgs) hw).
Proof.
  induction msgs as [|m r IH]; intros num hw Hs Hf H2; cbn [renum map renops newmark]; auto. cbn [map] in Hs, Hf.
  inversion Hs as [|? ? Hs' Hlt]; subst. inversion Hf as [|? ? Hm Hf']; subst.
  destruct (Z.eqb_spec (m_num m) 0); [lia|].
  assert (Hnext : forall h, renum (u32 (num + 1)) r h = renum (num + 1) r h).
  { intros h. destruct r as [|m' r']; [reflexivity|]. cbn [map] in *. inversion Hlt; subst. inversion Hf'; subst. rewrite u32_id; [auto|]. unfold is_u32. lia. }
  assert (Hf2 : Forall (fun n => num + 1 <= n < 4294967296) (map m_num r)).
  { rewrite Forall_forall in *. intros x Hx. specialize (Hlt x Hx). specialize (Hf' x Hx). lia. }
  rewrite !Hnext, !IH by (auto; lia). destruct (Z.eqb_spec (m_num m) num) as [E|E].
  - destruct (Z.eqb_spec (m_num m) hw) as [E2|E2]; auto. f_equal. rewrite newmark_notin; [lia|].
    intros Hi. rewrite Forall_forall in Hlt. specialize (Hlt _ Hi). lia.
  - rewrite Z.eqb_sym. destruct (Z.eqb_spec (m_num m) hw) as [E2|E2]; auto. f_equal. rewrite newmark_notin; auto.
    intros Hi. rewrite Forall_forall in Hf2. specialize (Hf2 _ Hi). lia.
Qed.

(** ** Effects *)
Lemma maintained_app w dir a b : maintained w dir (a ++ b) = maintained w (maintained w dir a) b.
Proof. apply fold_left_app. Qed.
Lemma dels_fget w : forall l dir name, fget (maintained w dir (dels l)) name = if existsb (fun m => streq (msgname (m_num m)) name) l then None else fget dir name.
Proof.
  induction l as [|m r IH]; intros dir name; cbn [dels map maintained fold_left existsb mrun]; auto.
  change (fold_left (mrun w) (map _ r) (osDelete dir (msgname (m_num m)))) with (maintained w (osDelete dir (msgname (m_num m))) (dels r)).
  rewrite IH. destruct (streq (msgname (m_num m)) name) eqn:E; cbn [orb].
  - apply streq_eq in E. subst. rewrite fget_del_same. destruct (existsb _ _); auto.
  - destruct (existsb _ _); auto. apply fget_del_other. apply streq_neq; auto.
Qed.
Lemma dels_msgfile w l dir n : is_u32 n -> Forall (fun m => 0 <= m_num m) l ->
  msgfile (maintained w dir (dels l)) n = if existsb (Z.eqb n) (map m_num l) then None else msgfile dir n.
Proof.
  intros Hn Hl. unfold msgfile. fold (msgname n). rewrite dels_fget.
  replace (existsb (fun m => streq (msgname (m_num m)) (msgname n)) l) with (existsb (Z.eqb n) (map m_num l)); auto.
  unfold is_u32 in Hn. induction Hl as [|m r Hm _ IH]; cbn [map existsb]; auto. rewrite IH. f_equal.
  destruct (Z.eqb_spec n (m_num m)) as [->|E]; [symmetry; apply streq_refl|]. symmetry. apply streq_neq. intros Eq. apply msgname_inj in Eq; lia.
Qed.

(** the directory while it is renumbered: [i] messages have their new numbers *)
Definition placed (num : Z) (K : list Z) (i p : nat) : Z := if (p <? i)%nat then num + Z.of_nat p else nth p K 0.
Lemma ren_prefix w : forall K num dir j, StronglySorted Z.lt K -> Forall (fun n => num <= n < 4294967296) K -> 2 <= num ->
  (forall n, num <= n < 4294967296 -> (msgfile dir n <> None <-> In n K)) ->
  exists i, (length (renops num K) <= j -> i = length K)%nat /\
    (forall p, (p < length K)%nat -> msgfile (maintained w dir (firstn j (renops num K))) (placed num K i p) = msgfile dir (nth p K 0)) /\
    (forall n, num <= n < 4294967296 -> msgfile (maintained w dir (firstn j (renops num K))) n <> None -> exists p, (p < length K)%nat /\ n = placed num K i p) /\
    (forall name, (forall n, num <= n < 4294967296 -> name <> msgname n) -> fget (maintained w dir (firstn j (renops num K))) name = fget dir name).
Proof.
  induction K as [|n r IH]; intros num dir j Hs Hf H2 Hd.
  - exists O. cbn [renops length]. rewrite firstn_nil. cbn [maintained fold_left]. split; auto. split; [intros p Hp; lia|]. split; auto.
    intros n Hn Hx. apply Hd in Hx; auto. contradiction.
  - inversion Hs as [|? ? Hs' Hlt]; subst. inversion Hf as [|? ? Hm Hf']; subst.
    assert (Hf2 : Forall (fun x => num + 1 <= x < 4294967296) r).
    { rewrite Forall_forall in *. intros x Hx. specialize (Hlt x Hx). specialize (Hf' x Hx). lia. }
    assert (Hnr : ~ In num r) by (intros Hi; rewrite Forall_forall in Hf2; specialize (Hf2 _ Hi); lia).
    assert (Hnn : ~ In n r) by (intros Hi; rewrite Forall_forall in Hlt; specialize (Hlt _ Hi); lia).
    assert (Hpl : forall i p, placed (num + 1) r i p = placed num (n :: r) (S i) (S p)).
    { intros i p. unfold placed. change (S p <? S i)%nat with (p <? i)%nat. destruct (p <? i)%nat; [lia|reflexivity]. }
    cbn [renops]. destruct (Z.eqb_spec n num) as [->|E].
    + destruct (IH (num + 1) dir j Hs' Hf2 ltac:(lia)) as (i & A0 & A & B & C).
      { intros x Hx. rewrite Hd by lia. cbn [In]. split; [intros [->|]; [lia|auto]|auto]. }
      exists (S i). split; [intros Hl; cbn [length]; rewrite A0; auto|]. split; [|split].
      * intros [|p] Hp; cbn [length] in Hp.
        -- unfold placed. cbn [nth Nat.ltb Nat.leb]. rewrite Z.add_0_r. unfold msgfile at 1. rewrite C; [reflexivity|].
           intros x Hx Eq. apply msgname_inj in Eq; lia.
        -- rewrite <- Hpl, A by lia. reflexivity.
      * intros x Hx Hex. destruct (Z.eq_dec x num) as [->|Hne].
        -- exists O. split; [cbn [length]; lia|]. unfold placed. cbn [Nat.ltb Nat.leb]. lia.
        -- destruct (B x ltac:(lia) Hex) as (p & P1 & P2). exists (S p). split; [cbn [length]; lia|]. rewrite <- Hpl. auto.
      * intros name Hn. apply C. intros x Hx. apply Hn. lia.
    + destruct j as [|j].
      { exists O. cbn [firstn maintained fold_left length]. split; [lia|]. split; [reflexivity|]. split; [|auto].
        intros x Hx Hex. apply Hd in Hex; auto. apply (In_nth _ _ 0) in Hex as (p & P1 & P2). exists p. split; auto. }
      cbn [firstn maintained fold_left mrun]. 
      assert (Hnone : msgfile dir num = None).
      { destruct (msgfile dir num) eqn:Ex; auto. exfalso. assert (In num (n :: r)) as [Hi|Hi]; auto. apply Hd; [lia|congruence]. }
      assert (Hsome : exists b, msgfile dir n = Some b).
      { destruct (msgfile dir n) eqn:Ex; eauto. exfalso. assert (Hx : msgfile dir n <> None) by (apply Hd; [lia|left; auto]). auto. }
      destruct Hsome as (b & Hb). unfold osRename. unfold msgfile in Hb. fold (msgname n) in Hb. rewrite Hb.
      assert (Hne : msgname n <> msgname num) by (intros Eq; apply msgname_inj in Eq; lia).
      rewrite (proj2 (streq_neq _ _) Hne).
      set (dir1 := fput (osDelete dir (msgname n)) (msgname num) b).
      assert (Hd1 : forall name, fget dir1 name = if streq (msgname num) name then Some b else if streq (msgname n) name then None else fget dir name).
      { intros name. unfold dir1. destruct (streq (msgname num) name) eqn:E1.
        - apply streq_eq in E1. subst. apply fget_put_same.
        - rewrite fget_put_other by (apply streq_neq; auto). destruct (streq (msgname n) name) eqn:E2.
          + apply streq_eq in E2. subst. apply fget_del_same.
          + apply fget_del_other. apply streq_neq; auto. }
      assert (Hm1 : forall x, 0 <= x < 4294967296 -> msgfile dir1 x = if num =? x then Some b else if n =? x then None else msgfile dir x).
      { intros x Hx. unfold msgfile. fold (msgname x). rewrite Hd1.
        destruct (Z.eqb_spec num x) as [->|E1]; [rewrite streq_refl; auto|]. rewrite (proj2 (streq_neq (msgname num) (msgname x))) by (intros Eq; apply msgname_inj in Eq; lia).
        destruct (Z.eqb_spec n x) as [->|E2]; [rewrite streq_refl; auto|]. rewrite (proj2 (streq_neq (msgname n) (msgname x))) by (intros Eq; apply msgname_inj in Eq; lia). reflexivity. }
      destruct (IH (num + 1) dir1 j Hs' Hf2 ltac:(lia)) as (i & A0 & A & B & C).
      { intros x Hx. rewrite Hm1 by lia. destruct (Z.eqb_spec num x); [lia|]. destruct (Z.eqb_spec n x) as [->|E2].
        - split; [congruence|]. intros Hi. contradiction.
        - rewrite Hd by lia. cbn [In]. split; [intros [?|?]; [contradiction|auto]|auto]. }
      change (fold_left (mrun w) (firstn j (renops (num + 1) r)) dir1) with (maintained w dir1 (firstn j (renops (num + 1) r))).
      assert (Cn : msgfile (maintained w dir1 (firstn j (renops (num + 1) r))) num = Some b).
      { unfold msgfile. fold (msgname num). rewrite C by (intros x Hx Eq; apply msgname_inj in Eq; lia).
        rewrite Hd1, streq_refl. reflexivity. }
      exists (S i). split; [cbn [length]; intros Hl; rewrite A0; auto; lia|]. split; [|split].
      * intros [|p] Hp; cbn [length] in Hp.
        -- unfold placed. cbn [nth Nat.ltb Nat.leb]. rewrite Z.add_0_r, Cn. symmetry. exact Hb.
        -- rewrite <- Hpl, A by lia. cbn [nth]. assert (Hin : In (nth p r 0) r) by (apply nth_In; lia).
           rewrite Forall_forall in Hf2. specialize (Hf2 _ Hin). rewrite Hm1 by lia.
           destruct (Z.eqb_spec num (nth p r 0)); [lia|]. destruct (Z.eqb_spec n (nth p r 0)) as [E2|E2]; auto. exfalso. apply Hnn. rewrite E2. auto.
      * intros x Hx Hex. destruct (Z.eq_dec x num) as [->|Hne'].
        -- exists O. split; [cbn [length]; lia|]. unfold placed. cbn [Nat.ltb Nat.leb]. lia.
        -- destruct (B x ltac:(lia) Hex) as (p & P1 & P2). exists (S p). split; [cbn [length]; lia|]. rewrite <- Hpl. auto.
      * intros name Hn. rewrite C by (intros x Hx; apply Hn; lia). rewrite Hd1.
        rewrite (proj2 (streq_neq (msgname num) name)) by (intros <-; apply (Hn num); [lia|auto]).
        rewrite (proj2 (streq_neq (msgname n) name)) by (intros <-; apply (Hn n); [lia|auto]). reflexivity.
Qed.

(** ** Finding the messages *)
Lemma scan_in day (dir : fsys) m : In m (concat (map (scanfunc day) (map fst dir))) <->
  exists name d, In name (map fst dir) /\ msgnum name (atol name) /\ 2 <= atol name /\ day name = Some d /\ m = Msg (u32 (atol name)) (u32 d).
Proof.
  rewrite in_concat. split.
  - intros (l & Hl & Hm). apply in_map_iff in Hl as (name & <- & Hn). unfold scanfunc in Hm. destruct (ismsg name && (atol name >=? 2)) eqn:E; [|destruct Hm].
    apply andb_true_iff in E as [E1 E2]. destruct (day name) as [d|] eqn:Ed; [|destruct Hm]. destruct Hm as [<-|[]].
    exists name, d. split; auto. split; [split; auto; apply ismsg_spec; auto|]. split; [lia|]. auto.
  - intros (name & d & H1 & [H2 _] & H3 & H4 & ->). eexists. split; [apply in_map_iff; exists name; split; [reflexivity|auto]|].
    unfold scanfunc. apply ismsg_spec in H2. rewrite H2, H4. destruct (Z.geb_spec (atol name) 2); [|lia]. left. reflexivity.
Qed.
Lemma sorted_perm_unique l1 l2 : StronglySorted Z.lt l1 -> StronglySorted Z.lt l2 -> (forall x, In x l1 <-> In x l2) -> l1 = l2.
Proof.
  revert l2. induction l1 as [|a l1 IH]; intros [|b l2] H1 H2 H.
  - auto.
  - exfalso. apply (proj2 (H b)). left; auto.
  - exfalso. apply (proj1 (H a)). left; auto.
  - inversion H1 as [|? ? S1 F1]; inversion H2 as [|? ? S2 F2]; subst. rewrite Forall_forall in F1, F2.
    assert (a = b).
    { destruct (proj1 (H a) ltac:(left; auto)) as [|Ha]; auto. destruct (proj2 (H b) ltac:(left; auto)) as [|Hb]; auto.
      specialize (F1 _ Hb). specialize (F2 _ Ha). lia. }
    subst b. f_equal. apply IH; auto. intros x. specialize (F1 x). specialize (F2 x). specialize (H x). cbn [In] in H.
    split; intros Hx.
    + destruct (proj1 H (or_intror Hx)) as [->|]; auto. specialize (F1 Hx). lia.
    + destruct (proj2 H (or_intror Hx)) as [->|]; auto. specialize (F2 Hx). lia.
Qed.
Lemma strict_sorted {A} (f : A -> Z) l : NoDup (map f l) -> StronglySorted (fun a b => f a <= f b) l -> StronglySorted Z.lt (map f l).
Proof.
  intros Hd Hs. induction Hs as [|a l Hs IH Hf]; cbn [map] in *; [constructor|]. inversion Hd as [|? ? Hn Hd']; subst. constructor; auto.
  apply Forall_forall. intros x Hx. rewrite Forall_forall in Hf. apply in_map_iff in Hx as (b & <- & Hb). specialize (Hf _ Hb).
  assert (f a <> f b) by (intros E; apply Hn; rewrite E; apply in_map; auto). lia.
Qed.
Lemma scan_messages day sort dir ns dayof : canonical dir -> NoDup (map fst dir) -> messages dir ns -> num_sort sort ->
  (forall n, In n ns -> day (msgname n) = Some (dayof n) /\ is_u32 (dayof n)) ->
  sort (concat (map (scanfunc day) (map fst dir))) = map (fun n => Msg n (dayof n)) ns.
Proof.
  intros Hc Hnd [Hss Hns] Hsort Hday. set (L := concat (map (scanfunc day) (map fst dir))).
  assert (HL : forall m, In m L <-> In (m_num m) ns /\ m = Msg (m_num m) (dayof (m_num m))).
  { intros m. unfold L. rewrite scan_in. split.
    - intros (name & d & H1 & H2 & H3 & H4 & ->). destruct (Hc name (atol name) H1 H2 H3) as [E Hlt]. fold (msgname (atol name)) in E.
      rewrite u32_id by (unfold is_u32; lia). cbn [m_num]. assert (Hin : In (atol name) ns).
      { apply Hns. split; [lia|]. unfold msgfile. fold (msgname (atol name)). rewrite <- E.
        clear - H1. induction dir as [|[k c] r IH]; cbn [fget map fst In] in *; [contradiction|]. destruct (streq name k) eqn:E; [discriminate|].
        apply IH. destruct H1 as [<-|]; auto. rewrite streq_refl in E. discriminate. }
      destruct (Hday _ Hin) as [D1 D2]. rewrite E in H4 at 1. assert (d = dayof (atol name)) by congruence. subst d.
      split; auto. rewrite (u32_id (dayof _)) by auto. reflexivity.
    - intros [Hin ->]. cbn [m_num] in *. destruct (Hday _ Hin) as [D1 D2]. apply Hns in Hin as [Hr Hf].
      exists (msgname (m_num m)), (dayof (m_num m)). assert (Ha : atol (msgname (m_num m)) = m_num m) by (apply atol_msgname; unfold is_u32; lia). rewrite Ha.
      assert (Hin : In (msgname (m_num m)) (map fst dir)) by (apply osExists_In; unfold osExists; unfold msgfile in Hf; fold (msgname (m_num m)) in Hf; destruct (fget _ _); auto; contradiction).
      split; auto. split; [split; auto; apply ismsg_spec, ismsg_msgname; lia|]. split; [lia|]. split; auto. rewrite !u32_id; auto. unfold is_u32. lia. }
  assert (Hd : NoDup (map m_num L)).
  { assert (Hg : forall names, NoDup names -> (forall x, In x names -> In x (map fst dir)) -> NoDup (map m_num (concat (map (scanfunc day) names)))).
    { induction names as [|a r IH]; intros Hn Hi; cbn [map concat]; [constructor|]. inversion Hn as [|? ? Ha Hr]; subst.
      assert (Hrest : NoDup (map m_num (concat (map (scanfunc day) r)))) by (apply IH; auto; intros x Hx; apply Hi; right; auto).
      unfold scanfunc at 1. destruct (ismsg a && (atol a >=? 2)) eqn:E; [|exact Hrest]. destruct (day a) as [d|]; [|exact Hrest].
      cbn [app map m_num]. constructor; auto. intros Hx. apply in_map_iff in Hx as (m & M1 & M2).
      apply in_concat in M2 as (l & Hl & Hm). apply in_map_iff in Hl as (b & <- & Hb). unfold scanfunc in Hm.
      destruct (ismsg b && (atol b >=? 2)) eqn:Eb; [|destruct Hm]. destruct (day b); [|destruct Hm]. destruct Hm as [<-|[]]. cbn [m_num] in M1.
      apply andb_true_iff in E as [E1 E2]. apply andb_true_iff in Eb as [E3 E4].
      destruct (Hc a (atol a)) as [Ea La]; [apply Hi; left; auto|split; auto; apply ismsg_spec; auto|lia|].
      destruct (Hc b (atol b)) as [Eb Lb]; [apply Hi; right; auto|split; auto; apply ismsg_spec; auto|lia|].
      rewrite !u32_id in M1 by (unfold is_u32; lia). apply Ha. rewrite Ea, <- M1, <- Eb. auto. }
    apply Hg; auto. }
  destruct (Hsort L) as [Hp Hs]. 
  assert (Hnums : map m_num (sort L) = ns).
  { apply sorted_perm_unique; auto.
    - apply strict_sorted; auto. apply (Permutation_NoDup (Permutation_map m_num (Permutation_sym Hp))). auto.
    - intros x. rewrite in_map_iff. split.
      + intros (m & <- & Hm). apply (Permutation_in _ Hp) in Hm. apply HL in Hm. tauto.
      + intros Hx. exists (Msg x (dayof x)). split; auto. apply (Permutation_in _ (Permutation_sym Hp)). apply HL. auto. }
  assert (Hall : Forall (fun m => m = Msg (m_num m) (dayof (m_num m))) (sort L)).
  { apply Forall_forall. intros m Hm. apply (Permutation_in _ Hp) in Hm. apply HL in Hm. tauto. }
  rewrite <- Hnums. rewrite map_map. clear - Hall. induction Hall as [|m r Hm _ IH]; cbn [map]; auto. f_equal; auto.
Qed.

(** ** The calls *)
Definition ndels (D : list Z) : list mop := map (fun n => ODel (msgname n)) D.
Definition inb (n : Z) (D : list Z) : bool := existsb (Z.eqb n) D.
Lemma inb_In n D : inb n D = true <-> In n D.
Proof. unfold inb. rewrite existsb_exists. split; [intros (x & H & E); apply Z.eqb_eq in E; subst; auto|]. intros H. exists n. split; auto. apply Z.eqb_refl. Qed.
Lemma existsb_map {A B} (f : A -> B) g l : existsb g (map f l) = existsb (fun x => g (f x)) l.
Proof. induction l; cbn; auto. rewrite IHl. auto. Qed.
Lemma filter_map {A B} (f : A -> B) g l : filter g (map f l) = map f (filter (fun x => g (f x)) l).
Proof. induction l as [|a l IH]; cbn; auto. destruct (g (f a)); cbn; rewrite IH; auto. Qed.
Lemma inb_eqb n l : existsb (fun x => x =? n) l = inb n l.
Proof. unfold inb. induction l; cbn; auto. rewrite IHl, Z.eqb_sym. auto. Qed.
Lemma filter_all {A} (f : A -> bool) l : Forall (fun x => f x = true) l -> filter f l = l.
Proof. intros H. induction H as [|a l Ha _ IH]; cbn; auto. rewrite Ha, IH. auto. Qed.

Lemma sorted_skipn l : StronglySorted Z.lt l -> forall k, StronglySorted Z.lt (skipn k l).
Proof. intros H. induction H as [|a l Hs IH Hf]; intros [|k]; cbn [skipn]; try constructor; auto. Qed.
Lemma sorted_NoDup l : StronglySorted Z.lt l -> NoDup l.
Proof. intros H. induction H as [|a l Hs IH Hf]; constructor; auto. intros Hi. rewrite Forall_forall in Hf. specialize (Hf _ Hi). lia. Qed.
Lemma sorted_nth : forall l lo, StronglySorted Z.lt l -> (forall x, In x l -> lo <= x) -> forall p, (p < length l)%nat -> lo + Z.of_nat p <= nth p l 0.
Proof.
  induction l as [|a l IH]; intros lo Hs Hl q Hq; cbn [length] in Hq; [lia|]. inversion Hs as [|? ? Hs' Hf]; subst. destruct q as [|q]; cbn [nth].
  - specialize (Hl a ltac:(left; auto)). lia.
  - specialize (IH (lo + 1) Hs'). rewrite Forall_forall in Hf. rewrite Nat2Z.inj_succ. enough (lo + 1 + Z.of_nat q <= nth q l 0) by lia. apply IH; [|lia].
    intros x Hx. specialize (Hf x Hx). specialize (Hl a ltac:(left; auto)). lia.
Qed.
Section Process.
  Context (day : list Z -> option Z) (sort : list mmsg -> list mmsg) (maint pack : bool) (keepnum keepdays now : Z) (date : list Z).
  Context (dir : fsys) (ns : list Z) (dayof : Z -> Z).
  Hypothesis Hc : canonical dir.
  Hypothesis Hnd : NoDup (map fst dir).
  Hypothesis Hm : messages dir ns.
  Hypothesis Hsort : num_sort sort.
  Hypothesis Hday : forall n, In n ns -> day (dec n ++ lit ".msg") = Some (dayof n) /\ is_u32 (dayof n).
  Hypothesis Hkn : 0 <= keepnum.
  Let today := (now / 86400) mod 4294967296.
  Let K := kept maint keepnum keepdays today dayof ns.
  Let hw := match readstored dir 1 with Some (h, _) => get16 h O_REPLYTO | None => 0 end.
  Let hdr := match readstored dir 1 with Some (h, _) => h | None => [] end.

  Lemma ns_range : Forall (fun n => 2 <= n < 4294967296) ns.
  Proof. apply Forall_forall. intros n Hn. destruct Hm as [_ H]. apply H in Hn. tauto. Qed.
  Lemma process_spec : exists D hw', ProcessAreaMSG day sort maint pack keepnum keepdays now date dir =
      Some (ndels D ++ (if pack then renops 2 K else []) ++ (if hw' =? hw then [] else [OWrite (msgname 1) (hwmsg hdr date hw')])) /\
    (forall n, In n D <-> In n ns /\ ~ In n K) /\ StronglySorted Z.lt K /\ (forall n, In n K -> In n ns) /\
    hw' = (if inb hw D then 0 else if pack then newmark 2 K hw else hw).
  Proof.
    unfold ProcessAreaMSG. rewrite (scan_messages day sort dir ns dayof) by auto. fold hw hdr.
    pose proof ns_range as Hr. destruct Hm as [Hss Hns].
    set (f := fun n => Msg n (dayof n)). 
    set (k := if maint && negb (keepnum =? 0) then Z.to_nat (Z.of_nat (length ns) - keepnum) else O).
    set (oldb := fun n => if maint && negb (keepdays =? 0) then u32 (today - dayof n) >? keepdays else false).
    assert (Hk : (k <= length ns)%nat) by (unfold k; destruct (_ && _); lia).
    assert (EK : K = filter (fun n => negb (oldb n)) (skipn k ns)).
    { unfold K, kept, by_days, by_number, k, oldb. destruct maint; cbn [andb].
      - destruct (keepdays =? 0); cbn [negb].
        + rewrite filter_all by (apply Forall_forall; auto). destruct (keepnum =? 0); reflexivity.
        + destruct (keepnum =? 0); cbn [negb skipn]; apply filter_ext; intros n; change ((today - dayof n) mod 4294967296) with (u32 (today - dayof n)); rewrite Z.gtb_ltb; apply Z.leb_antisym.
      - cbn [skipn]. rewrite filter_all by (apply Forall_forall; auto). reflexivity. }
    set (D := firstn k ns ++ filter oldb (skipn k ns)).
    exists D, (if inb hw D then 0 else if pack then newmark 2 K hw else hw).
    assert (HD : forall n, In n D <-> In n ns /\ ~ In n K).
    { intros n. unfold D. rewrite EK. rewrite in_app_iff, !filter_In.
      assert (Hsp : In n ns <-> In n (firstn k ns) \/ In n (skipn k ns)) by (rewrite <- in_app_iff, firstn_skipn; tauto).
      assert (Hex : In n (firstn k ns) -> ~ In n (skipn k ns)).
      { assert (Hnd' : NoDup (firstn k ns ++ skipn k ns)).
        { rewrite firstn_skipn. apply sorted_NoDup. auto. }
        revert Hnd'. generalize (firstn k ns) (skipn k ns). clear. intros A B Hnd'. induction A as [|a l IH]; cbn [app In] in *; [tauto|]. inversion Hnd' as [|? ? Ha Hl]; subst.
        intros [->|Hi] Hx; [apply Ha; apply in_app_iff; auto|]. apply IH; auto. }
      rewrite Hsp. destruct (oldb n); cbn [negb]; split; intuition congruence. }
    assert (HsK : StronglySorted Z.lt K).
    { rewrite EK. assert (Hsk : StronglySorted Z.lt (skipn k ns)).
      { apply sorted_skipn. auto. }
      generalize (fun n => negb (oldb n)). intros g. revert Hsk. generalize (skipn k ns). clear. intros A Hsk. induction Hsk as [|a l Hs IH Hf]; cbn [filter]; [constructor|]. destruct (g a); auto. constructor; auto.
      rewrite Forall_forall in *. intros x Hx. apply filter_In in Hx. apply Hf. tauto. }
    assert (HKn : forall n, In n K -> In n ns).
    { intros n. rewrite EK. intros Hi. apply filter_In in Hi as [Hi _]. rewrite <- (firstn_skipn k ns). apply in_app_iff. auto. }
    split; [|split; [exact HD|split; [exact HsK|split; [exact HKn|reflexivity]]]].
    assert (Hnil : ns = [] -> (Some [] : option (list mop)) = Some (ndels D ++ (if pack then renops 2 K else []) ++ (if (if inb hw D then 0 else if pack then newmark 2 K hw else hw) =? hw then [] else [OWrite (msgname 1) (hwmsg hdr date (if inb hw D then 0 else if pack then newmark 2 K hw else hw))]))).
    { intros E. assert (D = []) as -> by (unfold D; rewrite E, firstn_nil, skipn_nil; auto).
      assert (K = []) as -> by (rewrite EK, E, skipn_nil; auto). cbn [inb existsb newmark renops ndels map app]. destruct pack; rewrite Z.eqb_refl; reflexivity. }
    destruct (map f ns) as [|m0 mr] eqn:Em; [destruct ns; [apply Hnil; auto|discriminate]|]. rewrite <- Em. clear Hnil Em m0 mr.
    assert (Hnz : Forall (fun m => m_num m <> 0) (map f ns)).
    { apply Forall_map. eapply Forall_impl; [|exact Hr]. cbn. intros; lia. }
    assert (H1 : exists msgs1, (if maint && negb (keepnum =? 0) then delnum keepnum (Z.of_nat (length (map f ns))) (map f ns) hw else Some ([], map f ns, hw)) =
        Some (dels (firstn k (map f ns)), msgs1, if inb hw (firstn k ns) then 0 else hw) /\ alive msgs1 = skipn k (map f ns)).
    { assert (Hal : alive (map f ns) = map f ns) by (apply filter_all; eapply Forall_impl; [|exact Hnz]; cbn; intros a Ha; destruct (Z.eqb_spec (m_num a) 0); auto).
      unfold k. destruct (maint && negb (keepnum =? 0)) eqn:E.
      - rewrite map_length. destruct (Z_le_gt_dec keepnum (Z.of_nat (length ns))) as [Hle|Hgt].
        + set (k' := Z.to_nat (Z.of_nat (length ns) - keepnum)). replace (Z.of_nat (length ns)) with (keepnum + Z.of_nat k') by (unfold k'; lia).
          destruct (delnum_spec keepnum Hkn k' (map f ns) hw Hnz) as (msgs1 & E1 & E2); [rewrite map_length; unfold k'; lia|].
          exists msgs1. rewrite E1. split; [|auto]. do 2 f_equal. rewrite firstn_map, existsb_map. cbn [f m_num]. rewrite inb_eqb. reflexivity.
        + replace (Z.to_nat (Z.of_nat (length ns) - keepnum)) with O by lia. exists (map f ns). split; [|auto].
          destruct (map f ns); cbn [delnum]; destruct (Z.gtb_spec (Z.of_nat (length ns)) keepnum); try lia; reflexivity.
      - exists (map f ns). split; auto. }
    destruct H1 as (msgs1 & E1 & A1). rewrite E1. cbn [obind].
    set (hw1 := if inb hw (firstn k ns) then 0 else hw) in *.
    assert (H2 : exists msgs2, (if maint && negb (keepdays =? 0) then deldays keepdays (u32 (now / 86400)) msgs1 hw1 else ([], msgs1, hw1)) =
        (dels (map f (filter oldb (skipn k ns))), msgs2, if inb hw D then 0 else hw) /\ alive msgs2 = map f K).
    { assert (Hhw : (if inb hw1 (filter oldb (skipn k ns)) then 0 else hw1) = if inb hw D then 0 else hw).
      { unfold D, inb, hw1. rewrite existsb_app. change (existsb (Z.eqb hw)) with (inb hw). destruct (inb hw (firstn k ns)); cbn [orb].
        - destruct (existsb _ _); auto.
        - reflexivity. }
      rewrite <- Hhw. unfold oldb. rewrite EK. unfold oldb. destruct (maint && negb (keepdays =? 0)).
      - change (u32 (now / 86400)) with today. destruct (deldays keepdays today msgs1 hw1) as [[o l] h] eqn:Ed.
        destruct (deldays_spec _ _ _ _ _ _ _ Ed) as (B1 & B2 & B3). rewrite A1, skipn_map in B1, B2, B3. rewrite filter_map in B1, B2, B3.
        exists l. rewrite existsb_map in B3. cbn [f m_num] in B3. rewrite inb_eqb in B3. split; [|exact B2].
        rewrite B3. rewrite B1. reflexivity.
      - exists msgs1. rewrite A1, skipn_map. rewrite (filter_all (fun _ : Z => negb false)) by (apply Forall_forall; auto). split; [|reflexivity].
        assert (Hfn : forall l : list Z, filter (fun _ => false) l = []) by (induction l; auto). rewrite Hfn. reflexivity. }
    destruct H2 as (msgs2 & E2 & A2). rewrite E2.
    assert (HmK : map m_num (map f K) = K) by (rewrite map_map; cbn [f m_num]; apply map_id).
    assert (HK2 : Forall (fun n => 2 <= n < 4294967296) K) by (apply Forall_forall; intros n Hn; rewrite Forall_forall in Hr; auto).
    assert (H3 : (if pack then renum 2 msgs2 (if inb hw D then 0 else hw) else ([], if inb hw D then 0 else hw)) =
                 (if pack then renops 2 K else [], if inb hw D then 0 else if pack then newmark 2 K hw else hw)).
    { destruct pack.
      - rewrite renum_alive, A2, renum_spec by (rewrite ?HmK; auto; lia). rewrite HmK. f_equal. destruct (inb hw D); auto.
        apply newmark_notin. intros Hi. rewrite Forall_forall in HK2. specialize (HK2 _ Hi). lia.
      - destruct (inb hw D); auto. }
    rewrite H3. f_equal. rewrite app_assoc. f_equal.
    unfold ndels, dels, D. rewrite map_app, firstn_map, !map_map. reflexivity.
  Qed.

  Lemma ndels_msgfile w D d n : is_u32 n -> Forall (fun x => 0 <= x) D -> msgfile (maintained w d (ndels D)) n = if inb n D then None else msgfile d n.
  Proof.
    intros Hn HD. replace (ndels D) with (dels (map (fun x => Msg x 0) D)) by (unfold dels, ndels; rewrite map_map; auto).
    rewrite dels_msgfile; auto; [|apply Forall_map; auto]. rewrite map_map. cbn [m_num]. rewrite map_id. reflexivity.
  Qed.
  Lemma ndels_other w D d name : (forall n, In n D -> name <> msgname n) -> fget (maintained w d (ndels D)) name = fget d name.
  Proof.
    revert d. induction D as [|n r IH]; intros d H; cbn [ndels map maintained fold_left mrun]; auto.
    change (fold_left (mrun w) (map _ r) (osDelete d (msgname n))) with (maintained w (osDelete d (msgname n)) (ndels r)).
    rewrite IH by (intros x Hx; apply H; right; auto). apply fget_del_other. intros E. apply (H n); [left|]; auto.
  Qed.

  (** the directory after any number of calls *)
  Lemma process_prefix w ops j : ProcessAreaMSG day sort maint pack keepnum keepdays now date dir = Some ops ->
    exists i, (pack = false -> i = O) /\ (length ops <= j -> i = if pack then length K else O)%nat /\
    (forall p, (p < length K)%nat -> msgfile (maintained w dir (firstn j ops)) (underway K i p) = msgfile dir (nth p K 0)) /\
    (forall n, 2 <= n < 4294967296 -> msgfile (maintained w dir (firstn j ops)) n <> None ->
       (exists p, (p < length K)%nat /\ n = underway K i p) \/
       ((j < length ops)%nat /\ In n ns /\ ~ In n K /\ msgfile (maintained w dir (firstn j ops)) n = msgfile dir n)) /\
    (forall name, (forall n, 1 <= n < 4294967296 -> name <> dec n ++ lit ".msg") -> fget (maintained w dir (firstn j ops)) name = fget dir name).
  Proof.
    intros Hp. destruct process_spec as (D & hw' & E & HD & HsK & HKn & Ehw). rewrite E in Hp. injection Hp as <-.
    set (W := if hw' =? hw then [] else [OWrite (msgname 1) (hwmsg hdr date hw')]) in *.
    set (R := if pack then renops 2 K else []) in *.
    pose proof ns_range as Hr. rewrite Forall_forall in Hr. destruct Hm as [Hss Hns].
    assert (HDr : Forall (fun x => 0 <= x) D) by (apply Forall_forall; intros x Hx; apply HD in Hx as [Hx _]; specialize (Hr x Hx); lia).
    assert (HKr : Forall (fun n => 2 <= n < 4294967296) K) by (apply Forall_forall; auto).
    assert (HnthK : forall p, (p < length K)%nat -> In (nth p K 0) K) by (intros; apply nth_In; auto).
    assert (Hmf : forall n, 2 <= n < 4294967296 -> msgfile dir n <> None -> In n K \/ In n D).
    { intros n Hn Hx. destruct (in_dec Z.eq_dec n K); auto. right. apply HD. split; auto. apply Hns. auto. }
    destruct (le_lt_dec (length (ndels D)) j) as [Hle|Hlt].
    - rewrite firstn_app. rewrite (firstn_all2 (ndels D)) by lia. rewrite maintained_app. set (dir1 := maintained w dir (ndels D)).
      set (j1 := (j - length (ndels D))%nat).
      assert (Hd1 : forall n, is_u32 n -> msgfile dir1 n = if inb n D then None else msgfile dir n) by (intros; apply ndels_msgfile; auto).
      assert (HKd : forall n, 2 <= n < 4294967296 -> (msgfile dir1 n <> None <-> In n K)).
      { intros n Hn. rewrite Hd1 by (unfold is_u32; lia). destruct (inb n D) eqn:Ei.
        - apply inb_In in Ei. apply HD in Ei. split; [congruence|tauto].
        - split; [intros Hx; destruct (Hmf n Hn Hx) as [|Hx']; auto; apply inb_In in Hx'; congruence|]. intros Hi. apply HKn in Hi. apply Hns in Hi. tauto. }
      assert (HK1 : forall p, (p < length K)%nat -> msgfile dir1 (nth p K 0) = msgfile dir (nth p K 0)).
      { intros p Hp. specialize (HnthK p Hp). rewrite Hd1 by (rewrite Forall_forall in HKr; specialize (HKr _ HnthK); unfold is_u32; lia).
        destruct (inb (nth p K 0) D) eqn:Ei; auto. apply inb_In in Ei. apply HD in Ei. tauto. }
      assert (Hoth : forall name, (forall n, 1 <= n < 4294967296 -> name <> msgname n) -> fget dir1 name = fget dir name).
      { intros name Hn. apply ndels_other. intros n Hi. apply Hn. apply HD in Hi as [Hi _]. specialize (Hr n Hi). lia. }
      rewrite firstn_app. rewrite maintained_app.
      assert (HR : exists i, (pack = false -> i = O) /\ (length R <= j1 -> i = if pack then length K else O)%nat /\
        (forall p, (p < length K)%nat -> msgfile (maintained w dir1 (firstn j1 R)) (underway K i p) = msgfile dir1 (nth p K 0)) /\
        (forall n, 2 <= n < 4294967296 -> msgfile (maintained w dir1 (firstn j1 R)) n <> None -> exists p, (p < length K)%nat /\ n = underway K i p) /\
        (forall name, (forall n, 2 <= n < 4294967296 -> name <> msgname n) -> fget (maintained w dir1 (firstn j1 R)) name = fget dir1 name)).
      { unfold R. destruct pack.
        - destruct (ren_prefix w K 2 dir1 j1 HsK HKr ltac:(lia) HKd) as (i & I0 & I1 & I2 & I3). exists i. split; [discriminate|]. auto.
        - exists O. rewrite firstn_nil. cbn [maintained fold_left]. split; auto. split; auto. split; [reflexivity|]. split; auto.
          intros n Hn Hx. apply HKd in Hx; auto. apply (In_nth _ _ 0) in Hx as (p & P1 & P2). exists p. auto. }
      destruct HR as (i & I0 & I1 & I2 & I3 & I4). set (dir2 := maintained w dir1 (firstn j1 R)) in *.
      assert (HW : forall name, name <> msgname 1 -> fget (maintained w dir2 (firstn (j1 - length R) W)) name = fget dir2 name).
      { intros name Hn. unfold W. destruct (hw' =? hw); [rewrite firstn_nil; reflexivity|]. destruct (j1 - length R)%nat; cbn [firstn maintained fold_left mrun]; auto.
        rewrite firstn_nil. cbn [fold_left]. apply writenew_other. auto. }
      assert (HW2 : forall n, 2 <= n < 4294967296 -> msgfile (maintained w dir2 (firstn (j1 - length R) W)) n = msgfile dir2 n).
      { intros n Hn. apply HW. fold (msgname n). intros Eq. apply msgname_inj in Eq; lia. }
      assert (Hu : forall p, (p < length K)%nat -> 2 <= underway K i p < 4294967296).
      { intros p Hp. unfold underway. rewrite Forall_forall in HKr. pose proof (HKr _ (HnthK p Hp)) as Hx. destruct (Nat.ltb p i); auto.
        assert (Hge : 2 + Z.of_nat p <= nth p K 0); [|lia].
        apply sorted_nth; auto. intros x Hin. specialize (HKr x Hin). lia. }
      exists i. split; auto. split; [intros Hl; apply I1; rewrite !app_length in Hl; unfold j1; lia|]. split; [|split].
      + intros p Hp. rewrite HW2 by (apply Hu; auto). rewrite I2 by auto. auto.
      + intros n Hn Hx. rewrite HW2 in Hx by auto. left. auto.
      + intros name Hn. rewrite HW by (apply Hn; lia). rewrite I4 by (intros n Hx; apply Hn; lia). apply Hoth. auto.
    - exists O. rewrite firstn_app. replace (j - length (ndels D))%nat with O by lia. cbn [firstn]. rewrite app_nil_r.
      replace (firstn j (ndels D)) with (ndels (firstn j D)) by (unfold ndels; symmetry; apply firstn_map).
      assert (Hl0 : (j < length (ndels D ++ R ++ W))%nat) by (rewrite app_length; lia).
      assert (HD' : forall n, In n (firstn j D) -> In n D) by (intros n Hi; rewrite <- (firstn_skipn j D); apply in_app_iff; auto).
      assert (HDr' : Forall (fun x => 0 <= x) (firstn j D)) by (apply Forall_forall; rewrite Forall_forall in HDr; auto).
      split; auto. split; [lia|]. split; [|split].
      + intros p Hp. unfold underway. cbn [Nat.ltb Nat.leb]. specialize (HnthK p Hp). rewrite ndels_msgfile; auto; [|rewrite Forall_forall in HKr; specialize (HKr _ HnthK); unfold is_u32; lia].
        destruct (inb (nth p K 0) (firstn j D)) eqn:Ei; auto. apply inb_In in Ei. apply HD' in Ei. apply HD in Ei. tauto.
      + intros n Hn Hx. rewrite ndels_msgfile in Hx |- * by (auto; unfold is_u32; lia). destruct (inb n (firstn j D)) eqn:Ei; [congruence|].
        destruct (Hmf n Hn Hx) as [Hi|Hi].
        * left. apply (In_nth _ _ 0) in Hi as (p & P1 & P2). exists p. auto.
        * right. split; [exact Hl0|]. apply HD in Hi as [Hi1 Hi2]. auto.
      + intros name Hn. apply ndels_other. intros n Hi. apply Hn. apply HD', HD in Hi as [Hi _]. specialize (Hr n Hi). lia.
  Qed.

  (** the high water mark afterwards *)
  Lemma process_mark ops : (forall b, msgfile dir 1 = Some b -> bytes b) -> ProcessAreaMSG day sort maint pack keepnum keepdays now date dir = Some ops ->
    mark_of (maintained WOk dir ops) =
      (if inb (mark_of dir) ns then if inb (mark_of dir) K then if pack then newmark 2 K (mark_of dir) else mark_of dir else 0 else mark_of dir) /\
    (mark_of (maintained WOk dir ops) = mark_of dir -> msgfile (maintained WOk dir ops) 1 = msgfile dir 1).
  Proof.
    intros Hb1 Hp. destruct process_spec as (D & hw' & E & HD & HsK & HKn & Ehw). rewrite E in Hp. injection Hp as <-.
    set (W := if hw' =? hw then [] else [OWrite (msgname 1) (hwmsg hdr date hw')]).
    set (R := if pack then renops 2 K else []).
    pose proof ns_range as Hr. rewrite Forall_forall in Hr. destruct Hm as [Hss Hns].
    assert (Hmk : mark_of dir = hw).
    { unfold mark_of, hw, readstored, replyto_of. unfold msgfile. fold (msgname 1). destruct (fget dir (msgname 1)) as [b|]; auto.
      destruct (Nat.ltb_spec (length b) STOREDMSG), (Nat.leb_spec 190 (length b)); unfold STOREDMSG in *; try lia.
      rewrite P_Msg.get16_firstn by (unfold O_REPLYTO; lia). reflexivity. }
    rewrite Hmk.
    assert (Ehw2 : hw' = if inb hw ns then if inb hw K then if pack then newmark 2 K hw else hw else 0 else hw).
    { rewrite Ehw. destruct (inb hw D) eqn:E1, (inb hw ns) eqn:E2, (inb hw K) eqn:E3; auto.
      - apply inb_In in E1, E2, E3. apply HD in E1. tauto.
      - apply inb_In in E1. apply HD in E1 as [E1 _]. apply inb_In in E1. congruence.
      - apply inb_In in E1. apply HD in E1 as [E1 _]. apply inb_In in E1. congruence.
      - exfalso. assert (Hx : In hw D); [|apply inb_In in Hx; congruence]. apply HD. split; [apply inb_In; auto|]. intros Hx. apply inb_In in Hx. congruence.
      - apply inb_In in E3. apply HKn in E3. apply inb_In in E3. congruence.
      - destruct pack; auto. apply newmark_notin. intros Hx. apply inb_In in Hx. congruence. }
    rewrite <- Ehw2.
    assert (Hdr : forall n, In n D -> 2 <= n < 4294967296) by (intros n Hi; apply HD in Hi as [Hi _]; apply Hr; auto).
    assert (H1 : fget (maintained WOk dir (ndels D ++ R)) (msgname 1) = fget dir (msgname 1)).
    { rewrite maintained_app. assert (Hn1 : forall n, 2 <= n < 4294967296 -> msgname 1 <> msgname n) by (intros n Hn Eq; apply msgname_inj in Eq; lia).
      assert (HRo : forall d, fget (maintained WOk d R) (msgname 1) = fget d (msgname 1)).
      { unfold R. destruct pack; [|reflexivity]. assert (HKr : Forall (fun n => 2 <= n < 4294967296) K) by (apply Forall_forall; auto).
        assert (Hg : forall l num, Forall (fun n => num <= n < 4294967296) l -> StronglySorted Z.lt l -> 2 <= num -> forall d, fget (maintained WOk d (renops num l)) (msgname 1) = fget d (msgname 1)).
        { clear - Hn1. induction l as [|a l IH]; intros num Hf Hs Hnum d; cbn [renops]; auto. inversion Hf as [|? ? Ha Hf']; subst. inversion Hs as [|? ? Hs' Hlt]; subst.
          assert (Hf2 : Forall (fun n => num + 1 <= n < 4294967296) l) by (rewrite Forall_forall in *; intros x Hx; specialize (Hf' x Hx); specialize (Hlt x Hx); lia).
          destruct (Z.eqb_spec a num); [apply IH; auto; lia|]. cbn [maintained fold_left mrun].
          change (fget (maintained WOk (match osRename d (msgname a) (msgname num) with Some d0 => d0 | None => d end) (renops (num + 1) l)) (msgname 1) = fget d (msgname 1)).
          rewrite IH by (auto; lia). destruct (osRename d (msgname a) (msgname num)) as [d0|] eqn:Er; auto. apply (rename_other _ _ _ _ _ Er); apply Hn1; lia. }
        apply Hg; auto; lia. }
      rewrite HRo. apply ndels_other. auto. }
    assert (Hu : 0 <= hw < 65536).
    { rewrite <- Hmk. unfold mark_of. destruct (msgfile dir 1) as [b|] eqn:Eb; [|lia]. destruct (Nat.leb _ _); [|lia].
      specialize (Hb1 b eq_refl). unfold replyto_of, get16.
      assert (G : forall i, 0 <= nth i b 0 <= 255).
      { intros i. destruct (nth_in_or_default i b 0) as [Hi| ->]; [|lia]. unfold bytes in Hb1. rewrite Forall_forall in Hb1. apply Hb1 in Hi. unfold is_u8 in Hi. lia. }
      pose proof (G 184%nat). pose proof (G 185%nat). change (S 184) with 185%nat. lia. }
    assert (Hle : 0 <= hw' < 65536).
    { rewrite Ehw2. destruct (inb hw ns); [|lia]. destruct (inb hw K) eqn:EK'; [|lia]. destruct pack; [|lia]. apply inb_In in EK'. apply (In_nth _ _ 0) in EK' as (p & P1 & P2).
      assert (HdK : NoDup K) by (apply sorted_NoDup; auto).
      rewrite <- P2 at 2. rewrite <- P2. rewrite newmark_nth by auto. split; [lia|].
      pose proof (sorted_nth K 2 HsK ltac:(intros x Hx; apply HKn, Hr in Hx; lia) p P1). lia. }
    rewrite app_assoc, maintained_app. set (dir2 := maintained WOk dir (ndels D ++ R)) in *.
    assert (Hm2 : mark_of dir2 = hw) by (rewrite <- Hmk; unfold mark_of, msgfile; fold (msgname 1); rewrite H1; auto).
    unfold W. destruct (Z.eqb_spec hw' hw) as [Eq|Ne].
    - cbn [maintained fold_left]. split; [congruence|]. intros _. exact H1.
    - cbn [maintained fold_left mrun writenew]. 
      assert (Hl : length hdr = 190%nat).
      { unfold hdr. unfold hw in Ne, Ehw2. unfold readstored in *. destruct (fget dir (msgname 1)) as [b|].
        - destruct (Nat.ltb_spec (length b) STOREDMSG); unfold STOREDMSG in *; [|rewrite firstn_length; lia].
          exfalso. apply Ne. rewrite Ehw2. assert (inb 0 ns = false) as ->; [|auto]. destruct (inb 0 ns) eqn:Ei; auto. apply inb_In in Ei. apply Hr in Ei. lia.
        - exfalso. apply Ne. rewrite Ehw2. assert (inb 0 ns = false) as ->; [|auto]. destruct (inb 0 ns) eqn:Ei; auto. apply inb_In in Ei. apply Hr in Ei. lia. }
      assert (Em : mark_of (fput dir2 (msgname 1) (hwmsg hdr date hw')) = hw').
      { unfold mark_of, msgfile. fold (msgname 1). rewrite fget_put_same. unfold hwmsg. rewrite app_length, mkstored_length by auto.
        change (190 <=? 190 + length [0])%nat with true. cbv iota. unfold replyto_of. change 184%nat with (164 + 2 * 10)%nat. rewrite mkstored_word by (auto; cbn; lia).
        cbn [nth]. apply Z.mod_small. lia. }
      split; [auto|]. rewrite Em. intros Eq. contradiction.
  Qed.
End Process.
