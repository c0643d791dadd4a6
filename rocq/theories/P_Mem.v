(** Proofs about message text and SEEN-BY lists. *)
From Coq Require Import Sorting.Sorted Sorting.Permutation.
From Verif Require Import Base M_Node4D S_Node4D P_Node4D M_Pat S_Pat P_Pat M_Mem S_Mem M_Str P_Str.

Local Arguments NUM2D : simpl never.
Local Arguments CHUNKLEN : simpl never.

(** ** Text chunks *)
Lemma lastcr_le old d : (lastcr old d <= d)%nat.
Proof. induction d as [|d IH]; [simpl; lia|]. cbn [lastcr]. destruct (nth (S d) old 0 =? 13); lia. Qed.
Lemma splitchunk_spec old m o : splitchunk old = (m, o) ->
  o ++ m = old /\ (m = [] \/ (length m + 2 <= length old)%nat) /\ (length o <= length old)%nat.
Proof.
  unfold splitchunk. destruct (negb _ && _) eqn:E.
  - destruct (Nat.eqb_spec (lastcr old (length old - 1)) 0) as [H|H].
    + intros Hx; injection Hx as <- <-. rewrite app_nil_r. auto.
    + intros Hx; injection Hx as <- <-. rewrite firstn_skipn. split; auto.
      pose proof (lastcr_le old (length old - 1)). rewrite skipn_length, firstn_length. split; [right|]; lia.
  - intros Hx; injection Hx as <- <-. rewrite app_nil_r. auto.
Qed.

Lemma addchunks_spec CH : (1 <= CH)%nat -> forall fuel cs buf,
  (length buf <= fuel)%nat -> Forall (fun c => (length c <= CH)%nat) cs ->
  exists cs', addchunks CH fuel cs buf = Some cs' /\
    concat (rev cs') = concat (rev cs) ++ buf /\ Forall (fun c => (length c <= CH)%nat) cs'.
Proof.
  intros HC. induction fuel as [|f IH]; intros cs buf Hf Hcs.
  - destruct buf; [|simpl in Hf; lia]. exists cs. simpl. rewrite app_nil_r. auto.
  - destruct buf as [|c0 b0] eqn:Eb. { exists cs. simpl. rewrite app_nil_r. auto. }
    rewrite <- Eb in *. assert (Hbl : (1 <= length buf)%nat) by (subst; simpl; lia).
    replace (addchunks CH (S f) cs buf) with
      (let '(moved, cs1) := match cs with
                           | [] => ([], [])
                           | old :: r => let '(m, o) := splitchunk old in (m, o :: r)
                           end in
      let copylen := Nat.min (length buf) (CH - length moved) in
      addchunks CH f ((moved ++ firstn copylen buf) :: cs1) (skipn copylen buf)) by (subst; reflexivity).
    assert (Hstep : exists moved cs1, match cs with
                           | [] => ([], [])
                           | old :: r => let '(m, o) := splitchunk old in (m, o :: r)
                           end = (moved, cs1) /\ concat (rev cs1) ++ moved = concat (rev cs) /\
        Forall (fun c => (length c <= CH)%nat) cs1 /\ (length moved < CH)%nat).
    { destruct cs as [|old r]; [exists [], []; simpl; repeat split; auto; lia|].
      destruct (splitchunk old) as [m o] eqn:Es. destruct (splitchunk_spec _ _ _ Es) as (H1 & H2 & H3).
      pose proof (Forall_inv Hcs) as Ho. cbv beta in Ho. pose proof (Forall_inv_tail Hcs) as Hr.
      exists m, (o :: r). split; [reflexivity|]. simpl. rewrite !concat_app. simpl. rewrite !app_nil_r.
      rewrite <- app_assoc, H1. split; auto. split; [constructor; auto; lia|].
      destruct H2 as [->|H2]; simpl; lia. }
    destruct Hstep as (moved & cs1 & -> & Hcat & Hl & Hm). cbv zeta.
    set (k := Nat.min (length buf) (CH - length moved)).
    destruct (IH ((moved ++ firstn k buf) :: cs1) (skipn k buf)) as (cs' & E & Hc' & Hl').
    + rewrite skipn_length. unfold k. lia.
    + constructor; auto. rewrite app_length, firstn_length. unfold k. lia.
    + exists cs'. split; [exact E|]. split; auto. rewrite Hc'. simpl. rewrite concat_app. simpl.
      rewrite app_nil_r. rewrite app_assoc, Hcat. rewrite <- app_assoc, firstn_skipn. reflexivity.
Qed.

Lemma mmAddBuf_gen_spec CH cs buf : (1 <= CH)%nat -> Forall (fun c => (length c <= CH)%nat) cs ->
  exists cs', mmAddBuf_gen CH cs buf = Some cs' /\
    concat (rev cs') = concat (rev cs) ++ buf /\ Forall (fun c => (length c <= CH)%nat) cs'.
Proof.
  intros HC Hcs. unfold mmAddBuf_gen. destruct buf as [|c0 b0] eqn:Eb.
  { exists cs. rewrite app_nil_r. auto. }
  rewrite <- Eb. destruct cs as [|c r]; [apply addchunks_spec; auto|].
  destruct (Nat.leb_spec (length c + length buf) CH).
  - eexists; split; [reflexivity|]. simpl. rewrite !concat_app. simpl. rewrite !app_nil_r, <- app_assoc.
    split; auto. inversion Hcs; subst. constructor; auto. rewrite app_length. auto.
  - apply addchunks_spec; auto.
Qed.

Definition chunks_ok (cs : list (list Z)) : Prop := Forall (fun c => (length c <= CHUNKLEN)%nat) cs.
Lemma mmAddBuf_spec cs buf : chunks_ok cs ->
  exists cs', mmAddBuf cs buf = Some cs' /\ concat (rev cs') = concat (rev cs) ++ buf /\ chunks_ok cs'.
Proof. apply mmAddBuf_gen_spec. unfold CHUNKLEN. lia. Qed.

Lemma addbufs_spec bufs cs : chunks_ok cs -> exists cs', addbufs cs bufs = Some cs' /\
  concat (rev cs') = concat (rev cs) ++ concat bufs /\ chunks_ok cs'.
Proof.
  revert cs; induction bufs as [|b r IH]; intros cs H; simpl.
  - exists cs. rewrite app_nil_r. auto.
  - destruct (mmAddBuf_spec cs b H) as (cs1 & -> & E1 & H1).
    destruct (IH cs1 H1) as (cs2 & -> & E2 & H2). exists cs2. rewrite E2, E1, <- app_assoc. auto.
Qed.

(** ** SEEN-BY lists *)
Lemma n2eqb_eq a b : n2eqb a b = true <-> a = b.
Proof.
  destruct a as [a1 a2], b as [b1 b2]. unfold n2eqb; simpl. rewrite andb_true_iff, !Z.eqb_eq.
  split; [intros [-> ->]; auto|intros H; inversion H; auto].
Qed.
Lemma existsb_n2 x l : existsb (n2eqb x) l = true <-> In x l.
Proof.
  rewrite existsb_exists. split.
  - intros (y & Hy & E). apply n2eqb_eq in E. congruence.
  - intros H. exists x. split; auto. apply n2eqb_eq; auto.
Qed.
Lemma addlast_entries l x : entries (addlast l x) = entries l ++ [x].
Proof.
  unfold entries. induction l as [|b r IH]; simpl; auto. destruct r as [|b' r'].
  - destruct (Nat.eqb (length b) NUM2D); simpl; rewrite ?app_nil_r; reflexivity.
  - change (concat (b :: addlast (b' :: r') x)) with (b ++ concat (addlast (b' :: r') x)).
    rewrite IH. rewrite <- app_assoc. reflexivity.
Qed.
Lemma add_entries l n f : entries (mmAddNodes2DList l n f) =
  if existsb (n2eqb (n, f)) (entries l) then entries l else entries l ++ [(n, f)].
Proof.
  unfold mmAddNodes2DList. destruct (existsb (n2eqb (n, f)) (entries l)); auto. apply addlast_entries.
Qed.
Lemma add_in l n f x : In x (entries (mmAddNodes2DList l n f)) <-> In x (entries l) \/ x = (n, f).
Proof.
  rewrite add_entries. destruct (existsb (n2eqb (n, f)) (entries l)) eqn:E.
  - apply existsb_n2 in E. split; auto. intros [H| ->]; auto.
  - rewrite in_app_iff. simpl. intuition congruence.
Qed.
Lemma rempat_entries l p : entries (mmRemNodes2DListPat l p) =
  map (fun x => if Compare2DPat p (fst x) (snd x) =? 0 then (0, 0) else x) (entries l).
Proof. unfold entries, mmRemNodes2DListPat. rewrite concat_map. reflexivity. Qed.

Lemma is_mark_spec x : is_mark x = true <-> x = (0, 0).
Proof.
  destruct x as [a b]. unfold is_mark; simpl. rewrite andb_true_iff, !Z.eqb_eq.
  split; [intros [-> ->]; auto|intros H; inversion H; auto].
Qed.
Lemma live_in l x : In x (live l) <-> In x (entries l) /\ x <> (0, 0).
Proof.
  unfold live. rewrite filter_In. rewrite negb_true_iff. rewrite <- not_true_iff_false, is_mark_spec. tauto.
Qed.

Lemma NoDup_map_mark (q : node2d -> bool) es :
  NoDup (filter (fun x => negb (is_mark x)) es) ->
  NoDup (filter (fun x => negb (is_mark x)) (map (fun x => if q x then (0, 0) else x) es)).
Proof.
  induction es as [|x es IH]; simpl; intros H; auto.
  assert (Hsub : forall y, In y (filter (fun x => negb (is_mark x)) (map (fun x => if q x then (0, 0) else x) es)) ->
            In y (filter (fun x => negb (is_mark x)) es)).
  { intros y Hy. apply filter_In in Hy as [Hy1 Hy2]. apply in_map_iff in Hy1 as (z & Ez & Hz).
    apply filter_In. destruct (q z); [subst y; discriminate|subst; auto]. }
  destruct (q x).
  - change (negb (is_mark (0, 0))) with false. cbv iota. apply IH.
    destruct (negb (is_mark x)); [inversion H|]; auto.
  - destruct (negb (is_mark x)); auto. inversion H; subst. constructor; auto.
Qed.

Lemma sbsteps_spec ops : Forall sbop_ok ops -> forall l (s : node2d -> Prop),
  pairs_ok (entries l) ->
  (forall x, x <> (0, 0) -> (In x (entries l) <-> s x)) -> NoDup (live l) ->
  let l' := fold_left sbstep ops l in
  (forall x, x <> (0, 0) -> (In x (entries l') <-> fold_left setstep ops s x)) /\
  NoDup (live l') /\ pairs_ok (entries l').
Proof.
  induction 1 as [|o ops Ho Hops IH]; intros l s Hu Hs Hn; simpl; [auto|].
  apply IH.
  - destruct o as [n f|p]; simpl.
    + apply Forall_forall. intros x Hx. apply add_in in Hx as [Hx|Hx].
      * unfold pairs_ok in Hu. rewrite Forall_forall in Hu. auto.
      * subst. exact Ho.
    + unfold pairs_ok. rewrite rempat_entries. apply Forall_forall. intros x Hx.
      apply in_map_iff in Hx as (y & Ey & Hy). unfold pairs_ok in Hu. rewrite Forall_forall in Hu.
      destruct (Compare2DPat p (fst y) (snd y) =? 0); subst; auto. unfold is_u16; simpl. lia.
  - intros x Hx. destruct o as [n f|p]; simpl.
    + rewrite add_in, Hs by auto. tauto.
    + rewrite rempat_entries, in_map_iff. rewrite <- Hs by auto. unfold pairs_ok in Hu. rewrite Forall_forall in Hu.
      split.
      * intros (y & Ey & Hy). destruct (Z.eqb_spec (Compare2DPat p (fst y) (snd y)) 0) as [E|E]; [congruence|].
        subst y. split; auto. unfold matches2d. intros Hm. apply E.
        destruct (Hu _ Hy). apply Compare2DPat_spec; auto.
      * intros [Hin Hnm]. exists x. split; auto.
        destruct (Z.eqb_spec (Compare2DPat p (fst x) (snd x)) 0) as [E|E]; auto.
        exfalso. apply Hnm. destruct (Hu _ Hin). apply Compare2DPat_spec in E; auto.
  - destruct o as [n f|p]; simpl.
    + unfold live. rewrite add_entries. destruct (existsb (n2eqb (n, f)) (entries l)) eqn:E; auto.
      rewrite filter_app. simpl. destruct (negb (is_mark (n, f))) eqn:Em; [|rewrite app_nil_r; auto].
      apply NoDup_rev in Hn. rewrite <- (rev_involutive (_ ++ _)). apply NoDup_rev.
      rewrite rev_app_distr. simpl. constructor; auto. rewrite <- in_rev. fold (live l).
      intros Hin. apply live_in in Hin as [Hin _]. apply existsb_n2 in Hin. congruence.
    + unfold live. rewrite rempat_entries. apply NoDup_map_mark. auto.
Qed.

(** ** Blocks and sorting *)
Lemma addlast_wf l x : wfblocks l -> wfblocks (addlast l x).
Proof.
  induction l as [|b r IH]; simpl; intros H; [unfold NUM2D; lia|].
  destruct r as [|b' r'].
  - destruct (Nat.eqb_spec (length b) NUM2D) as [E|E]; simpl; unfold NUM2D in *.
    + split; auto. lia.
    + rewrite app_length. simpl. lia.
  - destruct H as [H1 H2]. specialize (IH H2).
    destruct (addlast (b' :: r') x) eqn:E.
    + simpl in E. destruct r'; [destruct (Nat.eqb _ _)|]; discriminate.
    + split; [exact H1|exact IH].
Qed.
Lemma add_wf l n f : wfblocks l -> wfblocks (mmAddNodes2DList l n f).
Proof. unfold mmAddNodes2DList. destruct (existsb _ _); auto using addlast_wf. Qed.
Lemma map_wf (g : list node2d -> list node2d) l : (forall b, length (g b) = length b) -> wfblocks l -> wfblocks (map g l).
Proof.
  intros Hg. induction l as [|b r IH]; simpl; auto. destruct r as [|b' r']; simpl in *.
  - rewrite Hg. auto.
  - rewrite Hg. intros [H1 H2]. split; [auto|exact (IH H2)].
Qed.
Lemma sbsteps_wf ops l : wfblocks l -> wfblocks (fold_left sbstep ops l).
Proof.
  revert l; induction ops as [|o ops IH]; intros l H; simpl; auto. apply IH.
  destruct o; simpl; [apply add_wf; auto|]. apply map_wf; auto. intros; apply map_length.
Qed.

Lemma n2le_spec a b : n2le a b = true <-> n2order a b.
Proof.
  destruct a as [a1 a2], b as [b1 b2]. unfold n2le, n2order, n2lt. simpl.
  destruct (Z.gtb_spec a1 b1), (Z.ltb_spec a1 b1), (Z.gtb_spec a2 b2); split; intros Hx; try discriminate; auto;
  try (destruct Hx as [[?|[? ?]]|Hx]; [lia|lia|inversion Hx; lia]).
  - assert (a1 = b1) by lia. assert (a2 < b2 \/ a2 = b2) as [?|?] by lia; [left; right; auto|right; congruence].
Qed.
Lemma n2le_false a b : n2le a b = false -> n2order b a.
Proof.
  destruct a as [a1 a2], b as [b1 b2]. unfold n2le, n2order, n2lt. simpl.
  destruct (Z.gtb_spec a1 b1), (Z.ltb_spec a1 b1), (Z.gtb_spec a2 b2); intros; try discriminate; lia.
Qed.
Lemma n2order_trans a b c : n2order a b -> n2order b c -> n2order a c.
Proof.
  unfold n2order, n2lt. intros [H|H] [H'|H']; subst; auto.
  left. lia.
Qed.
Lemma insert2d_perm x l : Permutation (x :: l) (insert2d x l).
Proof.
  induction l as [|y l IH]; simpl; auto. destruct (n2le x y); auto.
  eapply perm_trans; [apply perm_swap|]. constructor. auto.
Qed.
Lemma qsort2d_perm l : Permutation l (qsort2d l).
Proof.
  induction l as [|x l IH]; simpl; auto. eapply perm_trans; [|apply insert2d_perm]. constructor; auto.
Qed.
Lemma insert2d_sorted x l : StronglySorted n2order l -> StronglySorted n2order (insert2d x l).
Proof.
  induction l as [|y l IH]; simpl; intros H; [repeat constructor|].
  inversion H; subst. destruct (n2le x y) eqn:E.
  - apply n2le_spec in E. constructor; auto. constructor; auto.
    eapply Forall_impl; [|exact H3]. intros z Hz. eapply n2order_trans; eauto.
  - constructor; auto. apply n2le_false in E.
    assert (Hp : Permutation (x :: l) (insert2d x l)) by apply insert2d_perm.
    eapply Permutation_Forall; [exact Hp|]. constructor; auto.
Qed.
Lemma qsort2d_sorted l : StronglySorted n2order (qsort2d l).
Proof. induction l as [|x l IH]; simpl; [constructor|]. apply insert2d_sorted; auto. Qed.

Lemma wfblocks_tail b r : wfblocks (b :: r) -> wfblocks r.
Proof. destruct r; simpl; tauto. Qed.
Lemma wfblocks_cons_full b r : wfblocks (b :: r) -> r <> [] -> length b = NUM2D.
Proof. destruct r; simpl; [congruence|tauto]. Qed.
Lemma entries_nonempty l : wfblocks l -> l <> [] -> (1 <= length (entries l))%nat.
Proof.
  intros H Hn. destruct l as [|b r]; [congruence|]. unfold entries. simpl. rewrite app_length.
  destruct r; simpl in H; unfold NUM2D in *; lia.
Qed.

Lemma refill_spec blocks s : wfblocks blocks -> length s = length (entries blocks) ->
  exists l', refill blocks s = Some l' /\ entries l' = s /\ wfblocks l'.
Proof.
  revert s; induction blocks as [|b r IH]; intros s Hw Hl.
  - destruct s; [|discriminate]. exists []. auto.
  - cbn [refill]. unfold entries in Hl. simpl in Hl. rewrite app_length in Hl.
    destruct r as [|b' r'].
    + simpl in Hw, Hl. destruct (Nat.leb_spec (length s) NUM2D); [|lia].
      eexists; split; [reflexivity|]. unfold entries; simpl. rewrite app_nil_r. split; auto. lia.
    + pose proof (wfblocks_cons_full _ _ Hw ltac:(discriminate)) as Hb.
      pose proof (wfblocks_tail _ _ Hw) as Hr.
      pose proof (entries_nonempty _ Hr ltac:(discriminate)) as He. unfold entries in He.
      destruct (Nat.leb_spec (length s) NUM2D) as [H|H]; [lia|].
      destruct (IH (skipn NUM2D s)) as (l' & -> & E & Hw').
      { auto. } { rewrite skipn_length. unfold entries. lia. }
      eexists; split; [reflexivity|]. split.
      * unfold entries in *. cbn [concat]. rewrite E. apply firstn_skipn.
      * assert (Hf : length (firstn NUM2D s) = NUM2D) by (rewrite firstn_length; lia).
        destruct l' as [|x l']; simpl; auto.
        exfalso. unfold entries in E. cbn [concat] in E. apply (f_equal (@length node2d)) in E.
        rewrite skipn_length in E. cbn [length] in E. lia.
Qed.

Lemma mmSort_spec l : wfblocks l -> exists l', mmSortNodes2D l = Some l' /\
  Permutation (entries l) (entries l') /\ StronglySorted n2order (entries l') /\ wfblocks l'.
Proof.
  intros Hw. unfold mmSortNodes2D. destruct (entries l) as [|x es] eqn:E.
  - exists l. rewrite E. repeat split; auto. constructor.
  - rewrite <- E. destruct (refill_spec l (qsort2d (entries l)) Hw) as (l' & -> & E' & Hw').
    + symmetry. apply Permutation_length, qsort2d_perm.
    + exists l'. rewrite E'. repeat split; auto; [apply qsort2d_perm|apply qsort2d_sorted].
Qed.

(** ** AddSeenby *)
Lemma sbtoken_app n t rest : (length t <= n)%nat ->
  Forall (fun c => c <> 13 /\ c <> 32) t ->
  (exists c r, rest = c :: r /\ (c = 13 \/ c = 32)) -> sbtoken n (t ++ rest) = (t, rest).
Proof.
  intros Hl Ht (c & r & -> & Hc). revert n Hl; induction Ht as [|x t Hx Ht IH]; intros n Hl; simpl.
  - destruct n; [reflexivity|]. cbn [sbtoken]. replace ((c =? 13) || (c =? 32)) with true by lia. reflexivity.
  - simpl in Hl. destruct n as [|n]; [lia|]. simpl.
    replace ((x =? 13) || (x =? 32)) with false by lia. rewrite IH by lia. reflexivity.
Qed.
Lemma skipspaces_le s : (length (skipspaces s) <= length s)%nat.
Proof. induction s as [|c s IH]; simpl; auto. destruct (c =? 32); simpl; lia. Qed.
Lemma sbtoken_length n s : let '(t, r) := sbtoken n s in (length t + length r = length s)%nat.
Proof.
  revert s; induction n as [|n IH]; intros [|c s]; simpl; auto.
  destruct ((c =? 13) || (c =? 32)); simpl; auto. specialize (IH s). destruct (sbtoken n s). simpl. lia.
Qed.
Lemma sbround_decr_gen n c s t rest : (c =? 13) = false -> sbtoken (S n) (c :: s) = (t, rest) ->
  (length (skipspaces rest) <= length s)%nat.
Proof.
  intros Hc E. cbn [sbtoken] in E. rewrite Hc in E. cbn [orb] in E.
  destruct (Z.eqb_spec c 32) as [->|H32].
  - injection E as <- <-. simpl. apply skipspaces_le.
  - destruct (sbtoken n s) as [t' r'] eqn:Es. injection E as <- <-.
    pose proof (sbtoken_length n s) as H. rewrite Es in H. pose proof (skipspaces_le r'). lia.
Qed.
Lemma sbround_decr c s t rest : (c =? 13) = false -> sbtoken 59 (c :: s) = (t, rest) ->
  (length (skipspaces rest) <= length s)%nat.
Proof. apply sbround_decr_gen. Qed.
Lemma sbloop_total fuel s last l : (length s <= fuel)%nat -> exists l', sbloop fuel s last l = Some l'.
Proof.
  revert s last l; induction fuel as [|f IH]; intros [|c s] last l H; simpl in H; try (simpl; eauto; fail); [lia|].
  cbn [sbloop]. destruct (c =? 13) eqn:Ec; eauto.
  destruct (sbtoken 59 (c :: s)) as [t rest] eqn:Et. destruct (sbadd t last l) as [last' l1].
  apply IH. pose proof (sbround_decr _ _ _ _ Ec Et). lia.
Qed.
Lemma sbloop_fuel f g s last l : (length s <= f)%nat -> (length s <= g)%nat -> sbloop f s last l = sbloop g s last l.
Proof.
  revert g s last l; induction f as [|f IH]; intros g [|c s] last l Hf Hg; simpl in Hf, Hg; try lia.
  - destruct g; reflexivity.
  - destruct g; reflexivity.
  - destruct g as [|g]; [lia|]. cbn [sbloop]. destruct (c =? 13) eqn:Ec; auto.
    destruct (sbtoken 59 (c :: s)) as [t rest] eqn:Et. destruct (sbadd t last l) as [last' l1].
    pose proof (sbround_decr _ _ _ _ Ec Et). apply IH; lia.
Qed.
Lemma AddSeenby_total s l : exists l', AddSeenby s l = Some l'.
Proof. apply sbloop_total. auto. Qed.

Lemma sbnum_step num l rest : Forall digit l -> 0 <= num -> fold_left (fun v c => 10 * v + (c - 48)) l num < 65536 ->
  (match rest with c :: _ => isdigit c = false | [] => True end) ->
  sbnum num (l ++ rest) = (fold_left (fun v c => 10 * v + (c - 48)) l num, rest).
Proof.
  intros Hl. revert num. induction Hl as [|c l Hc Hl IH]; intros num Hn Hlt Hr; cbn [app fold_left] in *.
  - destruct rest as [|c r]; simpl; auto. rewrite Hr. reflexivity.
  - cbn [sbnum]. assert (Hd := Hc). apply isdigit_spec in Hc. rewrite Hc. unfold digit in Hd.
    assert (Hmono : forall l v, Forall digit l -> 0 <= v -> v <= fold_left (fun v c => 10 * v + (c - 48)) l v).
    { clear. intros l v Hl. revert v; induction Hl as [|c l Hc Hl IH]; intros v Hv; simpl; [lia|].
      unfold digit in Hc. specialize (IH (10 * v + (c - 48))). lia. }
    pose proof (Hmono l (10 * num + (c - 48)) Hl ltac:(lia)).
    replace (u16 (u16 (num * 10) + (c - 48))) with (10 * num + (c - 48)).
    + apply IH; auto. lia.
    + rewrite (u16_id (num * 10)) by (unfold is_u16; lia). rewrite u16_id by (unfold is_u16; lia). lia.
Qed.
Lemma sbnum_dec n rest : is_u16 n -> (match rest with c :: _ => isdigit c = false | [] => True end) ->
  sbnum 0 (dec n ++ rest) = (n, rest).
Proof.
  intros Hn Hr. assert (E : fold_left (fun v c => 10 * v + (c - 48)) (dec n) 0 = n).
  { apply (dec_val_dec n). apply Hn. }
  rewrite sbnum_step; rewrite ?E; auto; unfold is_u16 in Hn; try lia. apply dec_digits; lia.
Qed.

Lemma dec_cons n : 0 <= n -> exists c r, dec n = c :: r /\ digit c.
Proof.
  intros H. pose proof (dec_nonempty n H). pose proof (dec_digits n H) as Hd.
  destruct (dec n) as [|c r]; [congruence|]. inversion Hd; eauto.
Qed.

Lemma sbadd_short last f l : is_u16 f -> sbadd (dec f) last l = (last, mmAddNodes2DList l last f).
Proof.
  intros Hf. unfold sbadd. destruct (dec_cons f) as (c & r & E & _); [apply Hf|].
  pose proof (sbnum_dec f [] Hf I) as Hn. rewrite app_nil_r in Hn. rewrite Hn. rewrite E. reflexivity.
Qed.
Lemma sbadd_full last n f l : is_u16 n -> is_u16 f ->
  sbadd (dec n ++ lit "/" ++ dec f) last l = (n, mmAddNodes2DList l n f).
Proof.
  intros Hn Hf. unfold sbadd. change (lit "/") with [47]. cbn [app].
  destruct (dec_cons n) as (c & r & E & _); [apply Hn|].
  rewrite sbnum_dec by auto. rewrite E. cbn [app]. change (47 =? 47) with true. cbv iota.
  rewrite atoi_dec by apply Hf. rewrite u16_id by auto. reflexivity.
Qed.

(** ** Printing *)
Definition lastnet (last : Z) (es : list node2d) : Z := fold_left (fun _ x => fst x) es last.

Lemma tokseq_snoc last es ts n f t : tokseq last es ts ->
  (t = dec f /\ n = lastnet last es) \/ t = dec n ++ lit "/" ++ dec f ->
  tokseq last (es ++ [(n, f)]) (ts ++ [t]).
Proof.
  induction 1; simpl; intros Ht.
  - destruct Ht as [[-> ->]| ->]; repeat constructor.
  - apply ts_short. apply IHtokseq. exact Ht.
  - apply ts_full. apply IHtokseq. exact Ht.
Qed.
Lemma tokseq_tokens last es ts : tokseq last es ts -> pairs_ok es ->
  Forall (fun t => (1 <= length t <= 11)%nat /\ Forall (fun c => c <> 13 /\ c <> 32 /\ 1 <= c < 256) t) ts.
Proof.
  assert (Hd : forall f, is_u16 f -> Forall (fun c => c <> 13 /\ c <> 32 /\ 1 <= c < 256) (dec f)).
  { intros f Hf. eapply Forall_impl; [|apply dec_digits; apply Hf]. unfold digit. intros; lia. }
  induction 1; intros Hp; constructor; inversion Hp; subst; simpl in *; auto; destruct H2 as [Hn Hf].
  - pose proof (dec_length_u16 f Hf). split; [lia|auto].
  - pose proof (dec_length_u16 f Hf). pose proof (dec_length_u16 n Hn). split.
    + rewrite !app_length. simpl. lia.
    + apply Forall_app; split; auto. change (lit "/") with [47]. constructor; auto. lia.
Qed.

Definition body (ts : list (list Z)) : list Z := concat (map (fun t => 32 :: t) ts).

Definition tokok (t : list Z) : Prop :=
  (1 <= length t <= 11)%nat /\ Forall (fun c => c <> 13 /\ c <> 32 /\ 1 <= c < 256) t.
Lemma body_cons t ts : body (t :: ts) = 32 :: t ++ body ts.
Proof. reflexivity. Qed.
Lemma body_rest ts : exists c r, body ts ++ [13] = c :: r /\ (c = 13 \/ c = 32).
Proof. destruct ts; [exists 13, []; auto|]. rewrite body_cons. cbn [app]. eauto. Qed.
Lemma body_skip ts : Forall tokok ts -> skipspaces (body ts ++ [13]) = tl (body ts) ++ [13].
Proof.
  intros H. destruct ts as [|t ts]; [reflexivity|]. rewrite body_cons. cbn [app tl skipspaces].
  change (32 =? 32) with true. cbv iota.
  inversion H as [|? ? [Hl Hc] ?]; subst. destruct t as [|c t]; [simpl in Hl; lia|].
  inversion Hc as [|? ? Hc1 ?]; subst. cbn [app skipspaces]. destruct (Z.eqb_spec c 32) as [e|e]; [lia|reflexivity].
Qed.
Lemma sbloop_token fuel t ts last l : tokok t -> Forall tokok ts ->
  sbloop (S fuel) (tl (body (t :: ts)) ++ [13]) last l =
  (let '(last', l') := sbadd t last l in sbloop fuel (tl (body ts) ++ [13]) last' l').
Proof.
  intros [Hl Hc] Hts. rewrite body_cons. cbn [tl]. rewrite <- app_assoc.
  pose proof (body_rest ts) as Hr. pose proof (body_skip ts Hts) as Hs.
  assert (Etok : sbtoken 59 (t ++ body ts ++ [13]) = (t, body ts ++ [13])).
  { apply sbtoken_app; auto; [lia|]. eapply Forall_impl; [|exact Hc]. simpl. intros; lia. }
  destruct t as [|c t]; [simpl in Hl; lia|]. inversion Hc as [|? ? Hc1 ?]; subst.
  cbn [app] in *. cbn [sbloop]. destruct (Z.eqb_spec c 13) as [e|e]; [lia|].
  rewrite Etok, Hs. reflexivity.
Qed.
Lemma tl_body_length t ts : tokok t -> (length (tl (body ts) ++ [13%Z]) < length (tl (body (t :: ts)) ++ [13%Z]))%nat.
Proof.
  intros [Hl _]. rewrite body_cons. cbn [tl]. rewrite !app_length.
  destruct (body ts); simpl; lia.
Qed.
Lemma parse_tokens fuel es : forall last ts l, tokseq last es ts -> pairs_ok es ->
  (length (tl (body ts) ++ [13%Z]) <= fuel)%nat ->
  sbloop fuel (tl (body ts) ++ [13]) last l = Some (addall es l).
Proof.
  intros last ts l H. revert fuel l. induction H as [last|n f r ts H IH|last n f r ts H IH]; intros fuel l Hp Hfuel.
  - simpl. destruct fuel; reflexivity.
  - pose proof (tokseq_tokens _ _ _ (ts_short n f r ts H) Hp) as Ht.
    pose proof (Forall_inv Ht) as Ht1. pose proof (Forall_inv_tail Ht) as Ht2.
    pose proof (Forall_inv Hp) as [Hn Hf]. pose proof (Forall_inv_tail Hp) as Hr. simpl in Hn, Hf.
    pose proof (tl_body_length (dec f) ts Ht1). destruct fuel as [|fuel]; [lia|].
    rewrite sbloop_token by auto. rewrite sbadd_short by auto. apply IH; auto. lia.
  - pose proof (tokseq_tokens _ _ _ (ts_full last n f r ts H) Hp) as Ht.
    pose proof (Forall_inv Ht) as Ht1. pose proof (Forall_inv_tail Ht) as Ht2.
    pose proof (Forall_inv Hp) as [Hn Hf]. pose proof (Forall_inv_tail Hp) as Hr. simpl in Hn, Hf.
    pose proof (tl_body_length _ ts Ht1). destruct fuel as [|fuel]; [lia|].
    rewrite sbloop_token by auto. rewrite sbadd_full by auto. apply IH; auto. lia.
Qed.

(** a printed line (without CR) together with the entries on it *)
Definition sbline (es : list node2d) (line : list Z) : Prop :=
  exists ts, tokseq 0 es ts /\ es <> [] /\ line = lit "SEEN-BY:" ++ body ts.

Lemma sbline_parse es line l : sbline es line -> pairs_ok es ->
  AddSeenby (skipn 9 (line ++ [13])) l = Some (addall es l).
Proof.
  intros (ts & Ht & Hne & ->) Hp. unfold AddSeenby.
  destruct ts as [|t ts]; [inversion Ht; congruence|].
  replace (skipn 9 ((lit "SEEN-BY:" ++ body (t :: ts)) ++ [13])) with (tl (body (t :: ts)) ++ [13]).
  - apply parse_tokens; auto.
  - litc. reflexivity.
Qed.

Lemma obind_scat cap s t {B} (f : list Z -> option B) : (length s + length t < cap)%nat ->
  obind (scat cap s t) f = f (s ++ t).
Proof. intros H. unfold scat. destruct (Nat.ltb_spec (length s + length t) cap); [reflexivity|lia]. Qed.

Lemma lastnet_app last es x : lastnet last (es ++ [x]) = fst x.
Proof. unfold lastnet. rewrite fold_left_app. reflexivity. Qed.
Lemma body_app a b : body (a ++ b) = body a ++ body b.
Proof. unfold body. rewrite map_app, concat_app. reflexivity. Qed.

(** invariant of the printing loop: finished groups, current group *)
Record sbinv (N : nat) (gs : list (list node2d * list Z)) (cur : list node2d) (st : list Z * list Z * Z) : Prop := {
  si_text : fst (fst st) = concat (map (fun g => snd g ++ [13]) gs);
  si_lines : Forall (fun g => sbline (fst g) (snd g) /\ (length (snd g) <= 77)%nat /\ (5 <= length (fst g))%nat) gs;
  si_buf : exists ts, tokseq 0 cur ts /\ snd (fst st) = lit "SEEN-BY:" ++ body ts;
  si_last : snd st = lastnet 0 cur;
  si_len : (length (snd (fst st)) <= 77)%nat /\ (length (snd (fst st)) <= 8 + 12 * length cur)%nat;
  si_count : (5 * length gs + length cur <= N)%nat }.

Lemma concat_bound gs : Forall (fun g : list node2d * list Z => sbline (fst g) (snd g) /\ (length (snd g) <= 77)%nat /\ (5 <= length (fst g))%nat) gs ->
  (length (concat (map (fun g => snd g ++ [13%Z]) gs)) <= 78 * length gs)%nat.
Proof.
  induction 1 as [|g gs (_ & Hg & _) Hgs IH]; simpl; auto. rewrite !app_length. simpl. lia.
Qed.

Lemma sbprint1_inv Ntot gs cur st x done_ : sbinv done_ gs cur st -> (done_ < Ntot)%nat ->
  is_u16 (fst x) -> is_u16 (snd x) ->
  exists st' gs' cur', sbprint1 (sbsize Ntot) st x = Some st' /\
    sbinv (S done_) gs' cur' st' /\
    concat (map fst gs') ++ cur' = (concat (map fst gs) ++ cur) ++ (if is_mark x then [] else [x]).
Proof.
  intros [H1 H2 (ts & Hts & H3) H4 [H5a H5b] H6] Hlt Hn Hf.
  destruct st as [[text buf] last]. destruct x as [n f]. cbn [fst snd] in *. unfold is_mark; cbn [fst snd].
  destruct ((n =? 0) && (f =? 0)) eqn:Em.
  { exists (text, buf, last), gs, cur. rewrite app_nil_r. split; [unfold sbprint1; rewrite Em; reflexivity|].
    split; [|reflexivity]. constructor; cbn [fst snd]; eauto. }
  unfold sbprint1. rewrite Em.
  pose proof (dec_length_u16 n Hn) as Ln. pose proof (dec_length_u16 f Hf) as Lf.
  pose proof (concat_bound gs H2) as Htl.
  assert (Hdiv : (5 * (done_ / 5) <= done_)%nat) by (apply Nat.mul_div_le; lia).
  assert (Hg : (length gs <= Ntot / 5)%nat).
  { apply Nat.div_le_lower_bound; lia. }
  (* buf2 *)
  assert (Hb2 : exists tk, ((tk = dec f /\ n = last) \/ tk = dec n ++ lit "/" ++ dec f) /\ (length tk <= 11)%nat /\
    (do buf2 <- (if n =? last then Some (lit " ")
              else do buf3 <- scat 20 [] (dec n ++ lit "/"); scat 50 (lit " ") buf3);
     do buf3 <- scat 20 [] (dec f); scat 50 buf2 buf3) = Some (32 :: tk)).
  { destruct (Z.eqb_spec n last) as [E|E].
    - exists (dec f). split; [auto|]. split; [lia|]. cbn [obind].
      rewrite obind_scat by (simpl; lia). cbn [app]. unfold scat. litc.
      destruct (Nat.ltb_spec (length [32] + length (dec f)) 50); [reflexivity|simpl in *; lia].
    - exists (dec n ++ lit "/" ++ dec f). split; [auto|].
      split; [rewrite !app_length; simpl; lia|].
      rewrite obind_scat by (rewrite app_length; simpl; lia). cbn [app].
      unfold scat at 1. rewrite app_length. litc. cbn [length].
      destruct (Nat.ltb_spec (1 + (length (dec n) + 1)) 50); [|lia]. cbn [obind].
      rewrite obind_scat by (simpl; lia). cbn [app]. unfold scat. cbn [length]. rewrite app_length. cbn [length].
      destruct (Nat.ltb_spec (S (length (dec n) + 1) + length (dec f)) 50); [|lia].
      cbn [app]; rewrite <- app_assoc. reflexivity. }
  destruct Hb2 as (tk & Htk & Ltk & Eb2).
  assert (Hassoc : forall {A} (a : option (list Z)) (b : list Z -> option (list Z)) (c : list Z -> list Z -> option (list Z)) (k : list Z -> option A),
     (do buf2 <- a; do buf3 <- b buf2; do buf2' <- c buf2 buf3; k buf2') =
     (do y <- (do buf2 <- a; do buf3 <- b buf2; c buf2 buf3); k y)).
  { intros A a b c k. destruct a as [a0|]; simpl; auto. destruct (b a0); simpl; auto. }
  rewrite (Hassoc _ _ (fun _ => scat 20 [] (dec f)) (fun b2 b3 => scat 50 b2 b3)).
  rewrite Eb2. cbn [obind]. cbn [length].
  assert (Hbuf8 : (8 <= length buf)%nat) by (rewrite H3, app_length; simpl; lia).
  destruct (Nat.ltb_spec 77 (length buf + S (length tk))) as [Hfl|Hfl].
  - (* flush *)
    assert (Hcur : (5 <= length cur)%nat) by lia.
    assert (HS : (S (length gs) <= Ntot / 5)%nat) by (apply Nat.div_le_lower_bound; lia).
    rewrite obind_scat by (rewrite H1; unfold sbsize; lia).
    rewrite obind_scat by (rewrite app_length, H1; simpl; unfold sbsize; lia).
    rewrite obind_scat by (rewrite !app_length; simpl; lia).
    rewrite obind_scat by (rewrite !app_length; simpl; lia).
    exists ((text ++ buf) ++ [13], lit "SEEN-BY:" ++ ([] ++ lit " " ++ dec n ++ lit "/" ++ dec f), n),
      (gs ++ [(cur, buf)]), [(n, f)].
    split; [reflexivity|]. split.
    + constructor; cbn [fst snd].
      * rewrite map_app, concat_app, <- H1. simpl. rewrite app_nil_r, app_assoc. reflexivity.
      * apply Forall_app; split; auto. constructor; auto. cbn [fst snd]. split; [|lia].
        exists ts. split; auto. split; auto. destruct cur; [simpl in Hcur; lia|discriminate].
      * exists [dec n ++ lit "/" ++ dec f]. split; [apply ts_full; constructor|].
        unfold body. simpl. rewrite app_nil_r. reflexivity.
      * reflexivity.
      * rewrite !app_length. simpl. lia.
      * rewrite app_length. simpl. lia.
    + rewrite map_app, concat_app. simpl. rewrite app_nil_r. reflexivity.
  - rewrite obind_scat by (simpl; lia).
    exists (text, buf ++ 32 :: tk, n), gs, (cur ++ [(n, f)]). split; [reflexivity|]. split.
    + constructor; cbn [fst snd]; auto.
      * exists (ts ++ [tk]). split; [apply tokseq_snoc; auto; subst last; auto|].
        rewrite body_app, app_assoc, <- H3. unfold body. simpl. rewrite app_nil_r. reflexivity.
      * rewrite lastnet_app. reflexivity.
      * rewrite !app_length. simpl. lia.
      * rewrite app_length. simpl. lia.
    + rewrite app_assoc. reflexivity.
Qed.

Lemma sbprint_inv Ntot l : pairs_ok l -> forall gs cur st done_, sbinv done_ gs cur st -> (done_ + length l <= Ntot)%nat ->
  exists st' gs' cur', sbprint (sbsize Ntot) st l = Some st' /\ sbinv (done_ + length l) gs' cur' st' /\
    concat (map fst gs') ++ cur' = (concat (map fst gs) ++ cur) ++ filter (fun x => negb (is_mark x)) l.
Proof.
  induction 1 as [|x l [Hn Hf] Hl IH]; intros gs cur st d Hi Hd; simpl in *.
  - exists st, gs, cur. rewrite Nat.add_0_r, app_nil_r. auto.
  - destruct (sbprint1_inv Ntot gs cur st x d Hi) as (st1 & gs1 & cur1 & -> & Hi1 & E1); [lia|auto|auto|].
    destruct (IH gs1 cur1 st1 (S d) Hi1) as (st2 & gs2 & cur2 & E2 & Hi2 & E2'); [lia|].
    exists st2, gs2, cur2. split; [exact E2|]. split; [rewrite Nat.add_succ_r; exact Hi2|].
    rewrite E2', E1, <- app_assoc. f_equal. destruct (is_mark x); reflexivity.
Qed.

Lemma mmMakeSeenByBuf_spec l : pairs_ok (entries l) ->
  exists text (gs : list (list node2d * list Z)), mmMakeSeenByBuf l = Some text /\
    text = concat (map (fun g => snd g ++ [13]) gs) /\
    Forall (fun g => sbline (fst g) (snd g) /\ (length (snd g) <= 77)%nat) gs /\
    concat (map fst gs) = live l.
Proof.
  intros Hp. unfold mmMakeSeenByBuf. set (N := length (entries l)).
  destruct (sbprint_inv N (entries l) Hp [] [] ([], lit "SEEN-BY:", 0) 0) as (st & gs & cur & E & Hi & Ec).
  - constructor; simpl; auto; try (litc; simpl; lia). exists []. split; [constructor|reflexivity].
  - simpl; auto.
  - rewrite E. cbn [obind]. destruct Hi as [H1 H2 (ts & Hts & H3) H4 [H5a H5b] H6].
    destruct st as [[text buf] last]. cbn [fst snd] in *.
    pose proof (concat_bound gs H2) as Htl.
    assert (Hg : (length gs <= N / 5)%nat) by (apply Nat.div_le_lower_bound; unfold N; lia).
    destruct (Nat.ltb_spec 8 (length buf)) as [Hb|Hb].
    + rewrite obind_scat by (rewrite H1; unfold sbsize; lia).
      unfold scat. rewrite app_length. destruct (Nat.ltb_spec (length text + length buf + length [13]) (sbsize N)) as [_|Hx].
      2:{ exfalso. rewrite H1 in Hx. unfold sbsize in Hx. cbn [length] in Hx. lia. }
      exists ((text ++ buf) ++ [13]), (gs ++ [(cur, buf)]). split; [reflexivity|]. split.
      * rewrite map_app, concat_app, <- H1. simpl. rewrite app_nil_r, app_assoc. reflexivity.
      * split.
        -- apply Forall_app; split; [eapply Forall_impl; [|exact H2]; simpl; tauto|].
           constructor; auto. simpl. split; auto. exists ts. split; auto. split; auto.
           intros ->. inversion Hts; subst. simpl in Hb. lia.
        -- rewrite map_app, concat_app. simpl. rewrite app_nil_r. exact Ec.
    + exists text, gs. split; [reflexivity|]. split; auto. split; [eapply Forall_impl; [|exact H2]; simpl; tauto|].
      assert (cur = []).
      { destruct cur; auto. inversion Hts; subst; rewrite app_length in Hb; unfold body in Hb; simpl in Hb; lia. }
      subst. rewrite app_nil_r in Ec. exact Ec.
Qed.

(** ** Line classification *)
Lemma prefixb_spec p s : prefixb p s = true <-> starts_with p s.
Proof.
  unfold prefixb, strneq, starts_with. rewrite streq_eq. split.
  - intros H. exists (skipn (length p) s). rewrite firstn_all in H.
    rewrite <- H at 1. symmetry. apply firstn_skipn.
  - intros (r & ->). rewrite firstn_app, Nat.sub_diag, firstn_O, app_nil_r. reflexivity.
Qed.
Lemma prefixb_false p s : prefixb p s = false <-> ~ starts_with p s.
Proof. rewrite <- prefixb_spec. destruct (prefixb p s); split; intros; congruence. Qed.

Lemma from_ok s i : (i <= length s)%nat -> from s i = Some (skipn i s).
Proof. intros H. unfold from. destruct (Nat.leb_spec i (length s)); [auto|lia]. Qed.
Definition linefree (p : list Z) : Prop := Forall (fun c => c <> 13 /\ c <> 10) p /\ (length p < 100)%nat.
Lemma starts_cr p s : starts_with p s -> crline s -> linefree p -> (length p < length s)%nat.
Proof.
  intros (r & ->) (Hc & [(q & c & E & Hcc)|H]) (Hn & Hl); rewrite app_length in *; [|lia].
  destruct r; [|simpl; lia]. exfalso. rewrite app_nil_r in E. rewrite Forall_forall in Hn.
  specialize (Hn c). rewrite E in Hn. rewrite in_app_iff in Hn. simpl in Hn. lia.
Qed.

(** kludges other than addressing leave an echomail message's structure alone *)
Ltac nocr := split; [repeat (apply Forall_cons; [lia|]); apply Forall_nil|simpl; lia].

Lemma ProcessKludge_defined mm k : crline k -> exists mm', ProcessKludge mm k = Some mm'.
Proof.
  intros Hk. unfold ProcessKludge.
  assert (Hlen : forall p i, linefree p -> (i <= S (length p))%nat -> starts_with p k -> from k i = Some (skipn i k)).
  { intros p i Hp Hi Hs. apply from_ok. pose proof (starts_cr _ _ Hs Hk Hp). lia. }
  assert (H1 : forall m, exists m', pk_msgid m k = Some m').
  { intros m. unfold pk_msgid. destruct (prefixb _ k) eqn:E; [|eauto]. apply prefixb_spec in E.
    rewrite (Hlen (SOH ++ lit "MSGID:") 8%nat); [simpl; eauto|litc; nocr|simpl; lia|auto]. }
  assert (H2 : forall m, exists m', pk_reply m k = Some m').
  { intros m. unfold pk_reply. destruct (prefixb _ k) eqn:E; [|eauto]. apply prefixb_spec in E.
    rewrite (Hlen (SOH ++ lit "REPLY:") 8%nat); [simpl; eauto|litc; nocr|simpl; lia|auto]. }
  assert (H3 : forall m, exists m', pk_fmpt m k = Some m').
  { intros m. unfold pk_fmpt. destruct (prefixb _ k) eqn:E; [|eauto]. apply prefixb_spec in E.
    rewrite (Hlen (SOH ++ lit "FMPT") 6%nat); [simpl; eauto|litc; nocr|simpl; lia|auto]. }
  assert (H4 : forall m, exists m', pk_topt m k = Some m').
  { intros m. unfold pk_topt. destruct (prefixb _ k) eqn:E; [|eauto]. apply prefixb_spec in E.
    rewrite (Hlen (SOH ++ lit "TOPT") 6%nat); [simpl; eauto|litc; nocr|simpl; lia|auto]. }
  assert (H5 : forall m, exists m', pk_intl m k = Some m').
  { intros m. unfold pk_intl. destruct (prefixb _ k) eqn:E; [|eauto]. apply prefixb_spec in E.
    assert (Hf : exists i, (if nth 5 k 0 =? 58 then 7%nat else 6%nat) = i /\ from k i = Some (skipn i k)).
    { destruct (nth 5 k 0 =? 58) eqn:E5.
      - exists 7%nat. split; auto. apply (Hlen (SOH ++ lit "INTL" ++ [58])); [litc; nocr|simpl; lia|].
        destruct E as (r & Er). destruct r as [|c r].
        + rewrite app_nil_r in Er. rewrite Er in E5. discriminate.
        + exists r. rewrite Er in E5. litc. simpl in E5. apply Z.eqb_eq in E5. subst c. rewrite Er. reflexivity.
      - exists 6%nat. split; auto. apply (Hlen (SOH ++ lit "INTL")); [litc; nocr|simpl; lia|auto]. }
    destruct Hf as (i & -> & ->).
    destruct (takeuntil (fun c => c =? 32) 59 (skipn i k)) as [b r].
    destruct (takeuntil _ 59 _) as [b2 r2]. eauto. }
  destruct (H1 (pk_rescanned mm k)) as (m1 & ->). cbn [obind].
  destruct (H2 m1) as (m2 & ->). cbn [obind]. destruct (Area m2); [|eauto].
  destruct (H3 m2) as (m3 & ->). cbn [obind]. destruct (H4 m3) as (m4 & ->). cbn [obind]. apply H5.
Qed.

Lemma ProcessKludge_frame mm k mm' : ProcessKludge mm k = Some mm' ->
  Area mm' = Area mm /\ TextChunks mm' = TextChunks mm /\ SeenBy mm' = SeenBy mm /\ Path mm' = Path mm /\
  To mm' = To mm /\ From mm' = From mm /\ Subject mm' = Subject mm /\ DateTime mm' = DateTime mm /\
  Attr mm' = Attr mm /\ PktOrig mm' = PktOrig mm /\ PktDest mm' = PktDest mm /\ Origin4D mm' = Origin4D mm.
Proof.
  set (P := fun m' m => Area m' = Area m /\ TextChunks m' = TextChunks m /\ SeenBy m' = SeenBy m /\ Path m' = Path m /\
  To m' = To m /\ From m' = From m /\ Subject m' = Subject m /\ DateTime m' = DateTime m /\
  Attr m' = Attr m /\ PktOrig m' = PktOrig m /\ PktDest m' = PktDest m /\ Origin4D m' = Origin4D m).
  change (ProcessKludge mm k = Some mm' -> P mm' mm).
  assert (Hrefl : forall m, P m m) by (intros; unfold P; repeat split).
  assert (Htr : forall a b c, P a b -> P b c -> P a c) by (unfold P; intuition congruence).
  assert (H0 : P (pk_rescanned mm k) mm).
  { unfold pk_rescanned. destruct (prefixb _ k); auto. unfold P; simpl; repeat split. }
  assert (Hom : forall {A} (o : option A) (g : A -> memmsg) m m', (forall s, P (g s) m) -> option_map g o = Some m' -> P m' m).
  { intros A [a|] g m m' Hg; simpl; intros E; inversion E; auto. }
  assert (H1 : forall m m', pk_msgid m k = Some m' -> P m' m).
  { intros m m'. unfold pk_msgid. destruct (prefixb _ k); [|intros E; inversion E; auto].
    apply Hom. intros; unfold P; simpl; repeat split. }
  assert (H2 : forall m m', pk_reply m k = Some m' -> P m' m).
  { intros m m'. unfold pk_reply. destruct (prefixb _ k); [|intros E; inversion E; auto].
    apply Hom. intros; unfold P; simpl; repeat split. }
  assert (H3 : forall m m', pk_fmpt m k = Some m' -> P m' m).
  { intros m m'. unfold pk_fmpt. destruct (prefixb _ k); [|intros E; inversion E; auto].
    apply Hom. intros; unfold P; simpl; repeat split. }
  assert (H4 : forall m m', pk_topt m k = Some m' -> P m' m).
  { intros m m'. unfold pk_topt. destruct (prefixb _ k); [|intros E; inversion E; auto].
    apply Hom. intros; unfold P; simpl; repeat split. }
  assert (H5 : forall m m', pk_intl m k = Some m' -> P m' m).
  { intros m m'. unfold pk_intl. destruct (prefixb _ k); [|intros E; inversion E; auto].
    destruct (from k _) as [s|]; [|discriminate].
    destruct (takeuntil (fun c => c =? 32) 59 s) as [b r].
    destruct (takeuntil _ 59 _) as [b2 r2]. intros E; inversion E.
    destruct (Parse4D b), (Parse4D b2); unfold P; simpl; repeat split. }
  intros E. unfold ProcessKludge in E.
  destruct (pk_msgid (pk_rescanned mm k) k) as [m1|] eqn:E1; [|discriminate]. cbn [obind] in E.
  destruct (pk_reply m1 k) as [m2|] eqn:E2; [|discriminate]. cbn [obind] in E.
  apply H1 in E1. apply H2 in E2.
  assert (P m2 mm) by eauto.
  destruct (Area m2); [|inversion E; subst; auto].
  destruct (pk_fmpt m2 k) as [m3|] eqn:E3; [|discriminate]. cbn [obind] in E.
  destruct (pk_topt m3 k) as [m4|] eqn:E4; [|discriminate]. cbn [obind] in E.
  apply H3 in E3. apply H4 in E4. apply H5 in E. eauto.
Qed.

Definition is_echo (mm : memmsg) : Prop := Area mm <> [].

Lemma mmAddLine_seenby mm line : is_echo mm -> is_seenby_line line -> crline line ->
  exists l', AddSeenby (skipn 9 line) (SeenBy mm) = Some l' /\ mmAddLine mm line = Some (set_SeenBy mm l').
Proof.
  intros He Hs Hc. destruct (AddSeenby_total (skipn 9 line) (SeenBy mm)) as (l' & E). exists l'. split; auto.
  unfold mmAddLine. unfold is_echo in He. destruct (Area mm) eqn:Ea; [congruence|]. cbn [andb].
  replace (prefixb (lit "SEEN-BY:") line) with true by (symmetry; apply prefixb_spec; auto).
  rewrite from_ok. 2:{ assert (length (lit "SEEN-BY:") < length line)%nat; [|simpl in *; lia].
    apply starts_cr; auto. litc. nocr. }
  rewrite E. reflexivity.
Qed.
Lemma mmAddLine_path mm line : is_echo mm -> is_path_line line -> crline line ->
  mmAddLine mm line = Some (set_Path mm (mmAddPath (skipn 7 line) (Path mm))).
Proof.
  intros He Hs Hc. unfold mmAddLine. unfold is_echo in He. destruct (Area mm) eqn:Ea; [congruence|]. cbn [andb].
  assert (Hns : prefixb (lit "SEEN-BY:") line = false).
  { apply prefixb_false. intros (r & Hr). destruct Hs as (r' & Hr'). rewrite Hr in Hr'. discriminate. }
  rewrite Hns. replace (prefixb (SOH ++ lit "PATH:") line) with true by (symmetry; apply prefixb_spec; exact Hs).
  rewrite from_ok. 2:{ assert (length (1%Z :: lit "PATH:") < length line)%nat; [|simpl in *; lia].
    apply starts_cr; auto. litc. nocr. }
  reflexivity.
Qed.

(** an origin line for which ExtractAddress stays inside the line *)
Definition origin_ok (line : list Z) : Prop := is_origin_line line -> ExtractAddress line <> PUB.

Lemma mmAddLine_text mm line : chunks_ok (TextChunks mm) -> crline line ->
  (is_echo mm -> ~ is_seenby_line line /\ ~ is_path_line line /\ origin_ok line) ->
  exists mm', mmAddLine mm line = Some mm' /\ mmtext mm' = mmtext mm ++ line /\ chunks_ok (TextChunks mm') /\
    SeenBy mm' = SeenBy mm /\ Path mm' = Path mm /\ Area mm' = Area mm /\
    To mm' = To mm /\ From mm' = From mm /\ Subject mm' = Subject mm /\ DateTime mm' = DateTime mm /\ Attr mm' = Attr mm.
Proof.
  intros Hch Hc Hx. unfold mmAddLine.
  destruct (mmAddBuf_spec (TextChunks mm) line Hch) as (cs' & Eb & Ecat & Hch').
  assert (Haddtext : forall m, TextChunks m = TextChunks mm -> SeenBy m = SeenBy mm -> Path m = Path mm -> Area m = Area mm ->
     To m = To mm -> From m = From mm -> Subject m = Subject mm -> DateTime m = DateTime mm -> Attr m = Attr mm ->
     exists mm', option_map (set_TextChunks m) (mmAddBuf (TextChunks m) line) = Some mm' /\
       mmtext mm' = mmtext mm ++ line /\ chunks_ok (TextChunks mm') /\
    SeenBy mm' = SeenBy mm /\ Path mm' = Path mm /\ Area mm' = Area mm /\
    To mm' = To mm /\ From mm' = From mm /\ Subject mm' = Subject mm /\ DateTime mm' = DateTime mm /\ Attr mm' = Attr mm).
  { intros m H1. intros. rewrite H1, Eb. eexists; split; [reflexivity|]. unfold mmtext. simpl. rewrite Ecat.
    repeat (split; auto). }
  assert (Hecho : match Area mm with [] => false | _ => true end = true -> is_echo mm).
  { unfold is_echo. destruct (Area mm); congruence. }
  set (echo := match Area mm with [] => false | _ => true end) in *. clearbody echo.
  assert (Hsb : echo && prefixb (lit "SEEN-BY:") line = false).
  { destruct echo; auto. destruct (Hx (Hecho eq_refl)) as (H1 & _). apply prefixb_false. auto. }
  assert (Hpa : echo && prefixb (SOH ++ lit "PATH:") line = false).
  { destruct echo; auto. destruct (Hx (Hecho eq_refl)) as (_ & H1 & _). apply prefixb_false. auto. }
  rewrite Hsb, Hpa.
  destruct (echo && prefixb (lit " * Origin: ") line) eqn:Eo.
  { apply andb_true_iff in Eo as [Ee Eo]. destruct (Hx (Hecho Ee)) as (_ & _ & Ho).
    apply prefixb_spec in Eo. specialize (Ho Eo). destruct (ExtractAddress line); [| |congruence].
    - apply Haddtext; reflexivity.
    - apply Haddtext; reflexivity. }
  destruct (match line with [] => false | c :: _ => c =? 1 end).
  - destruct (ProcessKludge_defined mm line Hc) as (m & Em). rewrite Em.
    destruct (ProcessKludge_frame _ _ _ Em) as (? & ? & ? & ? & ? & ? & ? & ? & ? & ?).
    apply Haddtext; auto.
  - apply Haddtext; reflexivity.
Qed.

(** lines printed by mmMakeSeenByBuf go back through mmAddLine *)
Lemma sbline_crline es line : sbline es line -> pairs_ok es -> crline (line ++ [13]) /\ is_seenby_line (line ++ [13]).
Proof.
  intros (ts & Ht & _ & ->) Hp. split.
  - split; [|left; eexists; exists 13; split; [reflexivity|auto]]. apply cstring_app; split; [apply cstring_app; split|].
    + litc. repeat constructor; lia.
    + pose proof (tokseq_tokens _ _ _ Ht Hp) as H. clear Ht. unfold body.
      induction H as [|t ts [_ Hc] H IH]; simpl; [constructor|]. constructor; [lia|].
      apply cstring_app; split; auto. eapply Forall_impl; [|exact Hc]. simpl. intros; lia.
    + repeat constructor; lia.
  - exists (body ts ++ [13]). rewrite <- app_assoc. reflexivity.
Qed.

Lemma addlines_seenby (gs : list (list node2d * list Z)) : forall mm, is_echo mm ->
  Forall (fun g => sbline (fst g) (snd g)) gs -> Forall (fun g => pairs_ok (fst g)) gs ->
  addlines mm (map (fun g => snd g ++ [13]) gs) = Some (set_SeenBy mm (addall (concat (map fst gs)) (SeenBy mm))).
Proof.
  induction gs as [|g gs IH]; intros mm He Hs Hp; simpl.
  - destruct mm; reflexivity.
  - inversion Hs; inversion Hp; subst. destruct (sbline_crline _ _ H1 H5) as [Hc Hb].
    destruct (mmAddLine_seenby mm _ He Hb Hc) as (l' & El & Em). rewrite Em.
    rewrite (sbline_parse _ _ _ H1 H5) in El. inversion El; subst l'.
    rewrite IH; auto. unfold set_SeenBy; simpl. unfold addall. rewrite fold_left_app. reflexivity.
Qed.

(** adding all entries of a duplicate free list *)
Lemma addall_in es l x : In x (entries (addall es l)) <-> In x (entries l) \/ In x es.
Proof.
  revert l; induction es as [|e es IH]; intros l; simpl; [tauto|].
  rewrite IH, add_in. destruct e as [n f]; simpl. intuition congruence.
Qed.
Lemma addall_fresh es l : NoDup es -> (forall x, In x es -> ~ In x (entries l)) -> entries (addall es l) = entries l ++ es.
Proof.
  revert l; induction es as [|[n f] es IH]; intros l Hn Hd; simpl; [rewrite app_nil_r; auto|].
  inversion Hn; subst. assert (Ea : entries (mmAddNodes2DList l n f) = entries l ++ [(n, f)]).
  { rewrite add_entries. destruct (existsb (n2eqb (n, f)) (entries l)) eqn:E; auto.
    apply existsb_n2 in E. exfalso. apply (Hd (n, f)); [left|]; auto. }
  rewrite IH; auto.
  - rewrite Ea. rewrite <- app_assoc. reflexivity.
  - intros x Hx. rewrite Ea. intros Hin. apply in_app_or in Hin as [Hin|[<-|[]]]; [|contradiction].
    apply (Hd x); [right|]; auto.
Qed.

(** ** Origin lines *)
Lemma lastparen_app a b x : lastparen b = Some x -> lastparen (a ++ b) = Some x.
Proof. intros H. induction a as [|c a IH]; cbn [app lastparen]; auto. rewrite IH. reflexivity. Qed.
Lemma lastparen_none b : ~ In 40 b -> lastparen b = None.
Proof.
  induction b as [|c b IH]; cbn [lastparen]; intros H; auto. rewrite IH by (intros Hx; apply H; right; auto).
  destruct (Z.eqb_spec c 40) as [e|e]; auto. exfalso. apply H. left; auto.
Qed.
Lemma lastparen_here a b : ~ In 40 b -> lastparen (a ++ 40 :: b) = Some b.
Proof.
  intros H. apply lastparen_app. cbn [lastparen]. rewrite lastparen_none by auto. reflexivity.
Qed.
Lemma skiptodigit_app p c r : Forall (fun x => x <> 13 /\ isdigit x = false) p -> isdigit c = true ->
  skiptodigit (p ++ c :: r) = Some (c :: r).
Proof.
  intros Hp Hc. induction Hp as [|x p [Hx1 Hx2] Hp IH]; cbn [app skiptodigit].
  - rewrite Hc, orb_true_r. reflexivity.
  - rewrite Hx2. replace (x =? 13) with false by lia. exact IH.
Qed.
Lemma toparen_app n a r : (length a < n)%nat -> ~ In 41 a -> toparen n (a ++ 41 :: r) = Some a.
Proof.
  revert n; induction a as [|c a IH]; intros [|n] Hl Hn; simpl in Hl; try lia; cbn [app toparen].
  - reflexivity.
  - destruct (Z.eqb_spec c 41) as [e|e]; [exfalso; apply Hn; left; auto|].
    rewrite IH; [reflexivity|lia|intros Hx; apply Hn; right; auto].
Qed.
Lemma cutat_none s : ~ In 64 s -> cutat s = (s, []).
Proof.
  induction s as [|c s IH]; cbn [cutat]; intros H; auto.
  destruct (Z.eqb_spec c 64) as [e|e]; [exfalso; apply H; left; auto|].
  rewrite IH by (intros Hx; apply H; right; auto). reflexivity.
Qed.
Lemma cutat_at s d : ~ In 64 s -> cutat (s ++ 64 :: d) = (s, d).
Proof.
  induction s as [|c s IH]; cbn [cutat app]; intros H; auto.
  destruct (Z.eqb_spec c 64) as [e|e]; [exfalso; apply H; left; auto|].
  rewrite IH by (intros Hx; apply H; right; auto). reflexivity.
Qed.
Lemma Print4D_chars n : valid4d n -> Forall (fun c => digit c \/ c = 58 \/ c = 47 \/ c = 46) (Print4D n) /\
  (length (Print4D n) <= 23)%nat /\ exists c r, Print4D n = c :: r /\ digit c.
Proof.
  intros (Hz & Hn & Hf & Hp).
  assert (Hd : forall v, is_u16 v -> Forall (fun c => digit c \/ c = 58 \/ c = 47 \/ c = 46) (dec v)).
  { intros v Hv. eapply Forall_impl; [|apply dec_digits; apply Hv]. auto. }
  pose proof (dec_length_u16 _ Hz). pose proof (dec_length_u16 _ Hn). pose proof (dec_length_u16 _ Hf). pose proof (dec_length_u16 _ Hp).
  destruct (dec_cons (zone n)) as (c & r & E & Hc); [apply Hz|].
  unfold Print4D. destruct (negb (point n =? 0)).
  - split; [|split].
    + repeat (apply Forall_app; split); auto; litc; (constructor; [lia|constructor]).
    + rewrite !app_length. simpl. lia.
    + rewrite E. cbn [app]. eauto.
  - split; [|split].
    + repeat (apply Forall_app; split); auto; litc; (constructor; [lia|constructor]).
    + rewrite !app_length. simpl. lia.
    + rewrite E. cbn [app]. eauto.
Qed.
Lemma ExtractAddress_ok pre junk n dom tail : valid4d n ->
  Forall (fun x => x <> 13 /\ x <> 40 /\ isdigit x = false) junk -> ~ In 40 tail ->
  (dom = [] \/ exists d, dom = 64 :: d /\ ~ In 41 d /\ ~ In 40 d /\ (length d <= 24)%nat) ->
  ExtractAddress (pre ++ 40 :: junk ++ Print4D n ++ dom ++ 41 :: tail) = POk n.
Proof.
  intros Hn Hj Ht Hdom. destruct (Print4D_chars n Hn) as (Hc & Hl & c & r & E & Hcd).
  assert (Hno : forall k, ~ (48 <= k <= 58) -> k <> 47 -> k <> 46 -> ~ In k (Print4D n)).
  { intros k H1 H2 H3 Hin. rewrite Forall_forall in Hc. apply Hc in Hin. unfold digit in Hin. lia. }
  unfold ExtractAddress. rewrite lastparen_here.
  2:{ rewrite !in_app_iff. intros [Hx|[Hx|[Hx|[Hx|Hx]]]]; try discriminate; auto.
      - rewrite Forall_forall in Hj. apply Hj in Hx. lia.
      - revert Hx. apply Hno; lia.
      - destruct Hdom as [->|(d & -> & _ & Hd & _)]; [destruct Hx|]. destruct Hx as [Hx|Hx]; [discriminate|auto]. }
  rewrite E. cbn [app]. rewrite skiptodigit_app.
  2:{ eapply Forall_impl; [|exact Hj]. simpl. tauto. }
  2:{ apply isdigit_spec; auto. }
  replace (c :: r ++ dom ++ 41 :: tail) with ((Print4D n ++ dom) ++ 41 :: tail).
  2:{ rewrite E. cbn [app]. rewrite <- app_assoc. reflexivity. }
  rewrite toparen_app.
  2:{ rewrite app_length. destruct Hdom as [->|(d & -> & _ & _ & Hd)]; simpl; lia. }
  2:{ rewrite in_app_iff. intros [Hx|Hx]; [revert Hx; apply Hno; lia|].
      destruct Hdom as [->|(d & -> & Hd & _)]; [destruct Hx|]. destruct Hx as [Hx|Hx]; [discriminate|auto]. }
  unfold Parse5D. rewrite firstn_all2.
  2:{ rewrite app_length. destruct Hdom as [->|(d & -> & _ & _ & Hd)]; simpl; lia. }
  destruct Hdom as [->|(d & -> & _)].
  - rewrite app_nil_r. rewrite cutat_none by (apply Hno; lia). rewrite print_parse by auto. reflexivity.
  - rewrite cutat_at by (apply Hno; lia). rewrite print_parse by auto. reflexivity.
Qed.

Lemma wf_origin_ok l : wf_origin l -> exists n, ExtractAddress l = POk n.
Proof.
  intros (pre & junk & n & dom & tail & -> & H1 & H2 & H3 & H4 & Hj & Ht & Hd). exists n.
  apply ExtractAddress_ok; auto. repeat split; apply H1 || apply H2 || apply H3 || apply H4.
Qed.

Definition sbfold (o : option nodes2d) (l : list Z) : option nodes2d := obind o (AddSeenby (skipn 9 l)).
Lemma addlines_spec ls : forall mm, is_echo mm -> chunks_ok (TextChunks mm) -> Forall crline ls ->
  Forall (fun l => is_origin_line l -> wf_origin l \/ ~ In 40 l) ls ->
  exists mm', addlines mm ls = Some mm' /\ mmtext mm' = mmtext mm ++ concat (plain_lines ls) /\
    Path mm' = Path mm ++ map (fun l => striptrail (firstn 99 (skipn 7 l))) (path_lines ls) /\
    fold_left sbfold (filter seenbyb ls) (Some (SeenBy mm)) = Some (SeenBy mm') /\
    Area mm' = Area mm /\ To mm' = To mm /\ From mm' = From mm /\ Subject mm' = Subject mm /\
    DateTime mm' = DateTime mm /\ Attr mm' = Attr mm.
Proof.
  induction ls as [|l ls IH]; intros mm He Hch Hcr Ho.
  - exists mm. simpl. rewrite !app_nil_r. repeat (split; auto).
  - inversion Hcr as [|? ? Hc Hcr']; subst. inversion Ho as [|? ? Hol Ho']; subst.
    cbn [addlines]. unfold plain_lines, path_lines. cbn [filter].
    destruct (seenbyb l) eqn:Es; cbn [negb andb].
    + assert (Hnp : pathb l = false).
      { apply prefixb_false. apply prefixb_spec in Es. intros (r & Hr). destruct Es as (r' & Hr'). rewrite Hr in Hr'. discriminate. }
      rewrite Hnp. cbn [andb].
      apply prefixb_spec in Es. destruct (mmAddLine_seenby mm l He Es Hc) as (l' & El & ->).
      destruct (IH (set_SeenBy mm l')) as (mm' & E' & H1 & H2 & H3 & H4); auto.
      exists mm'. split; [exact E'|]. split; [exact H1|]. split; [exact H2|]. split; [|exact H4].
      cbn [fold_left]. unfold sbfold at 2. cbn [obind]. rewrite El. exact H3.
    + destruct (pathb l) eqn:Ep; cbn [negb andb].
      * apply prefixb_spec in Ep. rewrite (mmAddLine_path mm l He Ep Hc).
        assert (Hp : mmAddPath (skipn 7 l) (Path mm) = Path mm ++
          map (fun l => striptrail (firstn 99 (skipn 7 l))) (if Nat.ltb 7 (length l) then [l] else [])).
        { unfold mmAddPath. destruct (Nat.ltb_spec 7 (length l)) as [H7|H7].
          - destruct (skipn 7 l) eqn:Ek; [|cbn [map]; rewrite Ek; reflexivity].
            exfalso. apply (f_equal (@length Z)) in Ek. rewrite skipn_length in Ek. simpl in Ek. lia.
          - rewrite skipn_all2 by lia. cbn [map]. rewrite app_nil_r. reflexivity. }
        destruct (IH (set_Path mm (mmAddPath (skipn 7 l) (Path mm)))) as (mm' & E' & H1 & H2 & H3 & H4); auto.
        exists mm'. split; [exact E'|]. split; [exact H1|].
        split; [rewrite H2; cbn [Path set_Path]; rewrite Hp, <- app_assoc; destruct (Nat.ltb 7 (length l)); reflexivity|]. split; [exact H3|exact H4].
      * apply prefixb_false in Es. apply prefixb_false in Ep.
        destruct (mmAddLine_text mm l Hch Hc) as (m & Em & Ht & Hch' & Hsb & Hpa & Har & Hrest).
        { intros _. split; [exact Es|]. split; [exact Ep|]. intros Hori. destruct (Hol Hori) as [Hw|Hn].
          - destruct (wf_origin_ok l Hw) as (n & ->). discriminate.
          - unfold ExtractAddress. rewrite lastparen_none by auto. discriminate. }
        rewrite Em. destruct (IH m) as (mm' & E' & H1 & H2 & H3 & H4); auto.
        { unfold is_echo. rewrite Har. exact He. }
        exists mm'. split; [exact E'|]. split; [rewrite H1, Ht; cbn [concat]; rewrite <- app_assoc; reflexivity|].
        split; [rewrite H2, Hpa; reflexivity|]. split; [rewrite <- Hsb; exact H3|].
        destruct Hrest as (?&?&?&?&?). destruct H4 as (?&?&?&?&?&?). repeat split; congruence.
Qed.

Lemma sbline_shape es line : sbline es line -> pairs_ok es -> ~ In 13 line /\ is_seenby_line line.
Proof.
  intros (ts & Ht & _ & ->) Hp. split; [|eexists; reflexivity].
  pose proof (tokseq_tokens _ _ _ Ht Hp) as H. clear Ht. rewrite in_app_iff. intros [Hx|Hx].
  - revert Hx. litc. simpl. lia.
  - revert Hx. induction H as [|t ts [_ Hc] H IH]; [intros []|]. rewrite body_cons.
    intros [Hx|Hx]; [discriminate|]. apply in_app_or in Hx as [Hx|Hx]; auto.
    rewrite Forall_forall in Hc. apply Hc in Hx. lia.
Qed.
