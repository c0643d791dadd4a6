(** C46: lists in memory are sequences. C47: files are tossed oldest first. *)
From Coq Require Import Permutation Sorted.
From Verif Require Import Base M_Str M_Mem M_List S_List P_List.

(** ** C46 *)

Lemma freenode_seq l n : NoDup l -> In n l -> exists l1 l2, l = l1 ++ n :: l2 /\ ~ In n l1 /\ remove Z.eq_dec n l = l1 ++ l2.
Proof.
  intros Hn Hi. apply in_split in Hi. destruct Hi as (l1 & l2 & ->). exists l1, l2. pose proof (NoDup_remove_2 _ _ _ Hn) as H.
  assert (~ In n l1 /\ ~ In n l2) as [H1 H2] by (split; intros X; apply H; apply in_or_app; auto). split; auto. split; auto.
  rewrite remove_app. cbn. destruct (Z.eq_dec n n); [|contradiction]. rewrite !notin_remove by auto. reflexivity.
Qed.
(** Each operation that is allowed does to the list in memory what it does to the sequence,
    and neither loses memory nor uses memory it does not have. *)
Theorem C46_step : forall s l o l' fuel, holds s l -> seqop l o = Some l' -> (length l < fuel)%nat ->
  exists s', memop s o fuel = Some s' /\ holds s' l'.
Proof.
  intros [h j] l o l' fuel [Hr Hf] Ho Hfu. cbn [fst snd] in *. destruct o as [n g|k|n|]; cbn [seqop memop fst snd] in *.
  - destruct (in_dec Z.eq_dec n l) as [|Hin]; [discriminate|]. assert (l' = l ++ [n]) by congruence. subst l'.
    destruct (add_ok (upd h n (Some g)) j l n) as (h' & j' & E & Hr' & Hf'); auto.
    + destruct Hr as (Hc & Hl & Hn). split; auto. apply chain_seg. apply chain_seg in Hc. eapply seg_frame; [|exact Hc]. intros a Ha. apply upd_other. intros ->. contradiction.
    + rewrite upd_same. discriminate.
    + exists (h', j'). split; auto. split; auto. intros a Ha. cbn. rewrite Hf' by auto.
      assert (a <> n) by (intros ->; apply Ha; apply in_or_app; right; left; auto). rewrite upd_other by auto. apply Hf. intros H'. apply Ha. apply in_or_app. auto.
  - destruct (Nat.eqb_spec k (length l)) as [|Hk]; [discriminate|]. assert (l' = firstn k l ++ skipn (S k) l) by congruence. subst l'. unfold jbFreeNum.
    destruct (Nat.lt_ge_cases k (length l)) as [Hlt|Hge].
    + assert (exists a, l = firstn k l ++ a :: skipn (S k) l) as (a & El).
      { clear - Hlt. revert k Hlt. induction l as [|x l IH]; intros k Hlt; [cbn in Hlt; lia|]. destruct k as [|k]; [exists x; reflexivity|].
        cbn in Hlt. destruct (IH k) as (a & E); [lia|]. exists a. change (skipn (S (S k)) (x :: l)) with (skipn (S k) l). cbn [firstn app]. f_equal. exact E. }
      assert (Hlen : length (firstn k l) = k) by (apply firstn_length_le; lia).
      set (l1 := firstn k l) in *. set (l2 := skipn (S k) l) in *. clearbody l1 l2. rewrite El in Hr.
      pose proof Hr as (Hc & _). apply chain_seg in Hc. pose proof (walknum_in _ _ _ _ _ _ None Hc) as Ew. rewrite Hlen in Ew. rewrite Ew. cbn [obind].
      replace (match lastof l1 with Some o => Some o | None => None end) with (lastof l1) by (destruct (lastof l1); reflexivity).
      destruct (unlink_ok h j l1 a l2 (Nat.eqb k 0) Hr) as (h' & j' & E & Hr' & Ha & Hf'); [rewrite <- Hlen; destruct l1; reflexivity|].
      exists (h', j'). split; auto. split; auto. intros b Hb. cbn. destruct (Z.eq_dec b a) as [->|Hba]; auto.
      assert (Hbl : ~ In b (l1 ++ a :: l2)). { intros X. apply Hb. apply in_app_or in X. apply in_or_app. destruct X as [X|[X|X]]; auto. congruence. }
      rewrite Hf' by auto. apply Hf. rewrite El. auto.
    + pose proof Hr as (Hc & _). apply chain_seg in Hc. destruct (walknum_past h l (First j) None k Hc) as (old & E); [lia|]. rewrite E. cbn [obind].
      exists (h, j). rewrite firstn_all2, skipn_all2, app_nil_r by lia. split; auto. split; auto.
  - assert (l' = remove Z.eq_dec n l) by congruence. subst l'. unfold jbFreeNode. pose proof Hr as (Hc & Hl & Hn). apply chain_seg in Hc.
    destruct (in_dec Z.eq_dec n l) as [Hin|Hin].
    + destruct (freenode_seq l n Hn Hin) as (l1 & l2 & -> & Hn1 & ->).
      rewrite (walknode_in h n l2 None l1 fuel (First j) None) by (auto; rewrite app_length in Hfu; try lia; discriminate). cbn [obind fst snd].
      replace (match lastof l1 with Some o => Some o | None => None end) with (lastof l1) by (destruct (lastof l1); reflexivity).
      destruct (unlink_ok h j l1 n l2 (ptreq (First j) (Some n)) Hr) as (h' & j' & E & Hr' & Ha & Hf').
      { destruct l1 as [|x l1]; cbn in Hc; destruct Hc as (-> & _); cbn; [apply Z.eqb_refl|]. apply Z.eqb_neq. intros ->. apply Hn1. left. auto. }
      exists (h', j'). split; auto. split; auto. intros b Hb. cbn. destruct (Z.eq_dec b n) as [->|Hba]; auto.
      assert (Hbl : ~ In b (l1 ++ n :: l2)). { intros X. apply Hb. apply in_app_or in X. apply in_or_app. destruct X as [X|[X|X]]; auto. congruence. }
      rewrite Hf' by auto. apply Hf. auto.
    + rewrite (walknode_out h n l fuel (First j) None) by auto. cbn [obind fst]. rewrite notin_remove by auto. exists (h, j). split; auto. split; auto.
  - assert (l' = []) by congruence. subst l'. unfold jbFreeList. pose proof Hr as (Hc & Hl & Hn). apply chain_seg in Hc.
    destruct (freeall_ok l fuel h (First j)) as (h' & E & H1 & H2); auto. rewrite E. cbn [obind]. exists (h', JL None None). split; auto. split.
    + split; [reflexivity|split; [reflexivity|constructor]].
    + intros a _. cbn. destruct (in_dec Z.eq_dec a l); auto. rewrite H2 by auto. apply Hf. auto.
Qed.
Print Assumptions C46_step.

(** Every history, from the empty list on. *)
Fixpoint seqops (l : list Z) (os : list lop) : option (list Z) :=
  match os with [] => Some l | o :: r => match seqop l o with Some l' => seqops l' r | None => None end end.
Fixpoint memops (s : heap * jblist) (os : list lop) (fuel : nat) : option (heap * jblist) :=
  match os with [] => Some s | o :: r => match memop s o fuel with Some s' => memops s' r fuel | None => None end end.
Lemma remove_length_le (l : list Z) n : (length (remove Z.eq_dec n l) <= length l)%nat.
Proof. induction l as [|x l IH]; cbn; [lia|]. destruct (Z.eq_dec n x); cbn; lia. Qed.
Lemma seqop_length l o l' : seqop l o = Some l' -> (length l' <= S (length l))%nat.
Proof.
  destruct o as [n g|k|n|]; cbn [seqop].
  - destruct (in_dec _ _ _); [discriminate|]. intros E. assert (l' = l ++ [n]) by congruence. subst. rewrite app_length. cbn. lia.
  - destruct (Nat.eqb _ _); [discriminate|]. intros E. assert (l' = firstn k l ++ skipn (S k) l) by congruence. subst. rewrite app_length, firstn_length, skipn_length. lia.
  - intros E. assert (l' = remove Z.eq_dec n l) by congruence. subst. pose proof (remove_length_le l n). lia.
  - intros E. assert (l' = []) by congruence. subst. cbn. lia.
Qed.
Theorem C46_history : forall os l' fuel, seqops [] os = Some l' -> (length os < fuel)%nat ->
  exists s', memops ((fun _ => None), jbNewList) os fuel = Some s' /\ holds s' l'.
Proof.
  intros os l' fuel. assert (H0 : holds ((fun _ => None), jbNewList) []) by (split; [split; [reflexivity|split; [reflexivity|constructor]]|reflexivity]).
  revert H0. generalize ((fun _ : Z => @None (option Z)), jbNewList) as s.
  intros s H0 E Hf. assert (Hl : (length (@nil Z) + length os < fuel)%nat) by (cbn; lia). clear Hf. revert s H0 E Hl. generalize (@nil Z) as l.
  induction os as [|o os IH]; intros l s H0 E Hl; cbn [seqops memops] in *.
  - assert (l' = l) by congruence. subst. eauto.
  - destruct (seqop l o) as [l1|] eqn:E1; [|discriminate]. destruct (C46_step s l o l1 fuel H0 E1) as (s1 & Em & H1); [lia|]. rewrite Em.
    apply (IH l1); auto. pose proof (seqop_length _ _ _ E1). cbn [length] in Hl. lia.
Qed.
Print Assumptions C46_history.
(** Removing the entry just behind the last uses the NULL pointer; removing one further
    behind does nothing. *)
Theorem C46_behind_refuted : forall s l fuel, holds s l -> memop s (FreeNum (length l)) fuel = None.
Proof.
  intros [h j] l fuel [(Hc & _) _]. cbn [memop fst snd] in *. apply chain_seg in Hc. unfold jbFreeNum.
  destruct (walknum_end h l (First j) None Hc) as (old & ->). reflexivity.
Qed.
Print Assumptions C46_behind_refuted.
Example C46_nonvacuous : seqops [] [Add 5 (Some 7); Add 3 None; Add 9 (Some 5); FreeNum 0; FreeNum 7; Add 5 None; FreeNode 9; FreeNode 4; Add 8 None; FreeNum 2] = Some [3; 5] /\
  exists s', memops ((fun _ => None), jbNewList) [Add 5 (Some 7); Add 3 None; Add 9 (Some 5); FreeNum 0; FreeNum 7; Add 5 None; FreeNode 9; FreeNode 4; Add 8 None; FreeNum 2] 20 = Some s' /\
    fst s' 3 = Some (Some 5) /\ fst s' 5 = Some None /\ fst s' 8 = None /\ snd s' = JL (Some 3) (Some 5).
Proof. split; [reflexivity|]. eexists. split; [reflexivity|]. vm_compute. auto. Qed.

(** ** C47 *)

Definition cname (e : fentry) : Prop := cstring (fe_name e).
Lemma tolower_pos x : 1 <= x < 256 -> 0 < tolower x.
Proof. unfold tolower. intros H. destruct (_ && _) eqn:E; lia. Qed.
Lemma stricmp_anti : forall a b, stricmp a b = - stricmp b a.
Proof.
  induction a as [|x a IH]; intros [|y b]; cbn [stricmp]; try lia.
  rewrite (Z.eqb_sym (tolower y)). destruct (Z.eqb_spec (tolower x) (tolower y)); [apply IH|lia].
Qed.
Lemma stricmp_le : forall a b, cstring a -> cstring b -> stricmp a b <= 0 <-> name_le a b.
Proof.
  induction a as [|x a IH]; intros [|y b] Ha Hb; cbn [stricmp].
  - split; [constructor|lia].
  - apply Forall_inv in Hb. apply tolower_pos in Hb. split; [constructor|lia].
  - apply Forall_inv in Ha. apply tolower_pos in Ha. split; [lia|]. intros H. inversion H.
  - destruct (Z.eqb_spec (tolower x) (tolower y)) as [E|E].
    + rewrite IH by (eapply Forall_inv_tail; eauto). split; [intros H; apply nl_same; auto|]. intros H. inversion H; subst; auto; lia.
    + split; [intros H; apply nl_less; lia|]. intros H. inversion H; subst; lia.
Qed.
Lemma name_le_trans a b c : name_le a b -> name_le b c -> name_le a c.
Proof.
  intros H. revert c. induction H as [b|x a y b H|x a y b H H' IH]; intros c Hc; [constructor| |]; inversion Hc; subst.
  - apply nl_less. lia.
  - apply nl_less. lia.
  - apply nl_less. lia.
  - apply nl_same; [lia|auto].
Qed.
Lemma compare_before a b : cname a -> cname b -> DateCompareFE a b <= 0 <-> before a b.
Proof.
  intros Ha Hb. unfold DateCompareFE, before. destruct (fe_date a >? fe_date b) eqn:E1; [split; [lia|]; intros [H|[H _]]; lia|].
  destruct (fe_date a <? fe_date b) eqn:E2; [split; lia|]. rewrite (stricmp_le _ _ Ha Hb). split; [right; split; auto; lia|]. intros [H|[_ H]]; [lia|auto].
Qed.
Lemma before_trans a b c : before a b -> before b c -> before a c.
Proof. unfold before. intros [H|[H1 H2]] [H'|[H1' H2']]; [left; lia|left; lia|left; lia|right; split; [lia|]; eapply name_le_trans; eauto]. Qed.
Lemma compare_consistent (entry : Z -> fentry) l : (forall a, In a l -> cname (entry a)) -> consistent (fun a b => DateCompareFE (entry a) (entry b)) l.
Proof.
  intros H. split.
  - intros a b Ha Hb. assert (DateCompareFE (entry a) (entry b) = - DateCompareFE (entry b) (entry a)); [|lia].
    unfold DateCompareFE. destruct (fe_date (entry a) >? fe_date (entry b)) eqn:E1, (fe_date (entry b) >? fe_date (entry a)) eqn:E2, (fe_date (entry a) <? fe_date (entry b)) eqn:E3, (fe_date (entry b) <? fe_date (entry a)) eqn:E4; try lia. apply stricmp_anti.
  - intros a b c Ha Hb Hc H1 H2. rewrite compare_before in * by auto. eapply before_trans; eauto.
Qed.
(** SortFEList rearranges the list so that older files come first, files with one date in
    the order of their names; no file is lost or doubled. *)
Theorem C47_sorted : forall qsort entry fuel s l, qsort_ok qsort -> holds s l -> (forall a, In a l -> cname (entry a)) -> (length l < fuel)%nat ->
  exists s' l', SortFEList qsort entry fuel (fst s) (snd s) = Some s' /\ holds s' l' /\ Permutation l' l /\
    StronglySorted (fun a b => before (entry a) (entry b)) l'.
Proof.
  intros qsort entry fuel [h j] l Hq [Hr Hf] Hn Hfu. cbn [fst snd] in *. unfold SortFEList. pose proof Hr as (Hc & Hl & Hnd). apply chain_seg in Hc.
  rewrite (collect_ok h l fuel (First j)) by auto. cbn [obind]. destruct (Hq _ l (compare_consistent entry l Hn)) as [Hp Hs].
  destruct l as [|x l0] eqn:El; [exists (h, j), []; split; [reflexivity|]; split; [split; auto|]; split; constructor|]. rewrite <- El in *. clear El x l0.
  set (l' := qsort _ l) in *. destruct (addall_ok l' h jbNewList []) as (h' & j' & E & Hr' & Hf').
  - split; [reflexivity|split; [reflexivity|constructor]].
  - cbn. apply (Permutation_NoDup (Permutation_sym Hp)). auto.
  - intros a Ha. eapply seg_alloc; [exact Hc|]. apply (Permutation_in _ Hp). auto.
  - exists (h', j'), l'. split; [exact E|]. split; [split; auto|].
    + intros a Ha. cbn [fst app] in *. rewrite Hf' by auto. apply Hf. intros X. apply Ha. apply (Permutation_in _ (Permutation_sym Hp)). auto.
    + split; auto. assert (Hn' : forall a, In a l' -> cname (entry a)) by (intros a Ha; apply Hn; apply (Permutation_in _ Hp); auto).
      clear - Hs Hn'. clearbody l'. induction Hs as [|a l' Hs IH Hfa]; constructor.
      * apply IH. intros b Hb. apply Hn'. right. auto.
      * rewrite Forall_forall in *. intros b Hb. apply compare_before; [apply Hn'; left; auto|apply Hn'; right; auto|]. apply Hfa. auto.
Qed.
Print Assumptions C47_sorted.

(** a sorting function that keeps the promise *)
Fixpoint insert (cmp : Z -> Z -> Z) (a : Z) (l : list Z) : list Z :=
  match l with [] => [a] | b :: r => if cmp a b <=? 0 then a :: l else b :: insert cmp a r end.
Fixpoint isort (cmp : Z -> Z -> Z) (l : list Z) : list Z := match l with [] => [] | a :: r => insert cmp a (isort cmp r) end.
Lemma insert_perm cmp a l : Permutation (insert cmp a l) (a :: l).
Proof. induction l as [|b l IH]; cbn; auto. destruct (_ <=? _); auto. rewrite IH. apply perm_swap. Qed.
Lemma isort_ok : qsort_ok isort.
Proof.
  intros cmp l [H1 H2]. assert (HP : forall l, Permutation (isort cmp l) l) by (clear; induction l as [|a l IH]; cbn; auto; rewrite insert_perm, IH; reflexivity).
  split; auto. assert (Hin : forall a, In a l -> In a l) by auto. revert Hin. generalize l at 1 3 as m. intros m. induction m as [|a m IH]; intros Hin; cbn; [constructor|].
  assert (IH' := IH (fun b Hb => Hin b (or_intror Hb))). assert (Ha : In a l) by (apply Hin; left; auto).
  assert (Hm : forall b, In b (isort cmp m) -> In b l) by (intros b Hb; apply Hin; right; apply (Permutation_in _ (HP m)); auto).
  clear IH. revert Hm. induction IH' as [|b r Hr IHr Hb]; intros Hm; cbn; [repeat constructor|].
  destruct (cmp a b <=? 0) eqn:E.
  - constructor; [constructor; auto|]. constructor; [lia|]. rewrite Forall_forall in *. intros c Hc. apply (H2 a b c); auto; [apply Hm; left; auto|apply Hm; right; auto|lia].
  - constructor; [apply IHr; intros c Hc; apply Hm; right; auto|]. rewrite Forall_forall in *. intros c Hc. apply (Permutation_in _ (insert_perm cmp a r)) in Hc. destruct Hc as [->|Hc]; auto.
    assert (Hcb : In b l) by (apply Hm; left; auto). destruct (H1 c b Ha Hcb) as [_ H3]. destruct (Z.le_gt_cases (cmp b c) 0); auto. assert (cmp c b <= 0); [|lia]. apply H3. lia.
Qed.
Definition zentry (a : Z) : fentry :=
  if a =? 1 then FE 300 (lit "A.PKT") else if a =? 2 then FE 100 (lit "z.pkt") else if a =? 3 then FE 300 (lit "B.PKT") else if a =? 4 then FE 200 (lit "x.pkt") else FE 300 (lit "a.bkt").
Example C47_nonvacuous : exists s s', memops ((fun _ => None), jbNewList) [Add 3 None; Add 1 None; Add 4 None; Add 5 None; Add 2 None] 9 = Some s /\
  SortFEList isort zentry 9 (fst s) (snd s) = Some s' /\ collect 9 (fst s') (First (snd s')) = Some [2; 4; 5; 1; 3].
Proof. eexists. eexists. split; [reflexivity|]. split; [reflexivity|]. vm_compute. reflexivity. Qed.
