From Coq Require Import Permutation Sorted.
From Verif Require Import Base M_Fs M_Jam M_Base S_Base.

Definition used (s : slot) : bool := negb (s_use s =? 0).
Definition mini (s : slot) : Z * Z := (s_area s, s_base s).

Lemma findslot_some P l c k : findslot P l c = Some k -> exists j, k = (c + j)%nat /\ (j < length l)%nat /\ P (nth j l noslot) = true.
Proof.
  revert c. induction l as [|s l IH]; intros c; cbn [findslot]; [discriminate|].
  destruct (P s) eqn:E.
  - intros [= <-]. exists 0%nat. cbn. split; [lia|]. split; [lia|exact E].
  - intros H. destruct (IH _ H) as (j & -> & Hj & Hp). exists (S j). cbn. split; [lia|]. split; [lia|exact Hp].
Qed.
Lemma findslot_none P l c : findslot P l c = None -> Forall (fun s => P s = false) l.
Proof.
  revert c. induction l as [|s l IH]; intros c; cbn [findslot]; [constructor|].
  destruct (P s) eqn:E; [discriminate|]. intros H. constructor; eauto.
Qed.
Lemma lowest_spec l : forall pre best u, (best < length pre)%nat -> s_use (nth best (pre ++ l) noslot) = u -> Forall (fun s => u <= s_use s) pre ->
  let k := lowest l (length pre) best u in (k < length (pre ++ l))%nat /\ Forall (fun s => s_use (nth k (pre ++ l) noslot) <= s_use s) (pre ++ l).
Proof.
  induction l as [|s l IH]; intros pre best u Hb Hu Hf; cbn [lowest].
  - rewrite app_nil_r in *. split; [exact Hb|]. rewrite Hu. exact Hf.
  - assert (E : pre ++ s :: l = (pre ++ [s]) ++ l) by (rewrite <- app_assoc; reflexivity).
    replace (S (length pre)) with (length (pre ++ [s])) by (rewrite app_length; cbn; lia).
    destruct (Z.ltb_spec (s_use s) u); rewrite E; apply IH; try (rewrite app_length; cbn; lia).
    + rewrite <- E, app_nth2, Nat.sub_diag by lia. reflexivity.
    + apply Forall_app. split; [|repeat constructor; lia]. eapply Forall_impl; [|exact Hf]. cbn. intros; lia.
    + rewrite <- E. exact Hu.
    + apply Forall_app. split; [exact Hf|repeat constructor; lia].
Qed.

Definition others (k : nat) (l : list slot) : list slot := firstn k l ++ skipn (S k) l.
Lemma perm_nth k l : (k < length l)%nat -> Permutation l (nth k l noslot :: others k l).
Proof.
  revert l. induction k; intros [|x l] H; cbn [length] in H; try lia; [reflexivity|].
  change (Permutation (x :: l) (nth k l noslot :: x :: others k l)).
  transitivity (x :: nth k l noslot :: others k l); [constructor; apply IHk; lia|apply perm_swap].
Qed.
Lemma perm_set k s l : Permutation (setslot k s l) (s :: others k l).
Proof. unfold setslot, others. symmetry. apply Permutation_middle. Qed.
Lemma others_set k s l : (k < length l)%nat -> others k (setslot k s l) = others k l.
Proof.
  intros H. unfold others, setslot. assert (E : length (firstn k l) = k) by (rewrite firstn_length; lia).
  rewrite firstn_app, E, Nat.sub_diag, firstn_firstn, Nat.min_id. cbn [firstn]. rewrite app_nil_r. f_equal.
  rewrite skipn_app, E, skipn_all2 by lia. replace (S k - k)%nat with 1%nat by lia. reflexivity.
Qed.
Lemma set_length k s l : (k < length l)%nat -> length (setslot k s l) = length l.
Proof. intros H. rewrite (Permutation_length (perm_set k s l)), (Permutation_length (perm_nth k l H)). reflexivity. Qed.
Lemma filter_perm {A} (P : A -> bool) l l' : Permutation l l' -> Permutation (filter P l) (filter P l').
Proof.
  induction 1; cbn; auto.
  - destruct (P x); auto.
  - destruct (P x), (P y); auto. apply perm_swap.
  - etransitivity; eauto.
Qed.
Lemma filter_all {A} (P : A -> bool) l : Forall (fun x => P x = true) l -> filter P l = l.
Proof. induction 1; cbn; auto. rewrite H. f_equal. auto. Qed.

Lemma filter_le {A} (P : A -> bool) l : (length (filter P l) <= length l)%nat.
Proof. induction l as [|x l IH]; cbn; [lia|]. destruct (P x); cbn; lia. Qed.

Definition desc (x y : slot) : Prop := s_use y < s_use x.
Record tbl (max : nat) (slots : list slot) (last : Z) (L : list slot) : Prop := TBL {
  t_len : length slots = max;
  t_perm : Permutation (filter used slots) L;
  t_sort : StronglySorted desc L;
  t_dist : NoDup (map s_area L);
  t_rng : Forall (fun s => 0 < s_use s < last) L }.

Lemma hasbase_in a L : NoDup (map s_area L) -> forall s, In s L -> s_area s = a -> hasbase a (map mini L) = Some (s_base s).
Proof.
  induction L as [|x L IH]; intros Hn s Hs Ha; [destruct Hs|]. destruct Hs as [ -> |Hi]; inversion Hn; subst; cbn.
  - rewrite Z.eqb_refl. reflexivity.
  - destruct (Z.eqb_spec (s_area x) (s_area s)); [|auto]. exfalso. apply H1. rewrite e. apply in_map, Hi.
Qed.
Lemma hasbase_none a L : (forall s, In s L -> s_area s <> a) -> hasbase a (map mini L) = None.
Proof.
  induction L as [|x L IH]; intros H; cbn; auto. destruct (Z.eqb_spec (s_area x) a); [exfalso; apply (H x); cbn; auto|]. apply IH. intros; apply H; cbn; auto.
Qed.
Lemma without_none a c : hasbase a c = None -> without a c = c.
Proof.
  induction c as [|[b h] c IH]; cbn; auto. destruct (b =? a); [discriminate|]. intros H. cbn. f_equal. apply IH, H.
Qed.
Lemma without_mid a L1 x L2 : s_area x = a -> NoDup (map s_area (L1 ++ x :: L2)) -> without a (map mini (L1 ++ x :: L2)) = map mini (L1 ++ L2).
Proof.
  intros Ha Hn. rewrite map_app in Hn. cbn in Hn. pose proof (NoDup_remove_2 _ _ _ Hn) as H2. rewrite in_app_iff in H2.
  assert (F : forall L, ~ In (s_area x) (map s_area L) -> without a (map mini L) = map mini L).
  { intros L HL. apply without_none, hasbase_none. intros s Hs <-. subst. apply HL. rewrite Ha. apply in_map, Hs. }
  unfold without in *. rewrite map_app, filter_app. cbn [map filter mini fst]. rewrite Ha, Z.eqb_refl. cbn [negb].
  rewrite map_app, !F by tauto. reflexivity.
Qed.
Lemma sorted_mid L1 x L2 : StronglySorted desc (L1 ++ x :: L2) -> StronglySorted desc (L1 ++ L2).
Proof.
  induction L1 as [|y L1 IH]; cbn; intros H; inversion H; subst; auto. constructor; auto.
  apply Forall_app in H3. destruct H3 as [A B]. inversion B; subst. apply Forall_app. auto.
Qed.
Lemma sorted_last L x : StronglySorted desc (L ++ [x]) -> Forall (fun s => s_use x < s_use s) L.
Proof.
  induction L as [|y L IH]; cbn; intros H; inversion H; subst; constructor; auto.
  apply Forall_app in H3. destruct H3 as [A B]. inversion B; subst. exact H3.
Qed.
Lemma used_iff s : used s = true <-> s_use s <> 0.
Proof. unfold used. rewrite negb_true_iff, Z.eqb_neq. reflexivity. Qed.

Lemma cons_tbl L u last x : StronglySorted desc L -> NoDup (map s_area L) -> Forall (fun s => 0 < s_use s < last) L -> s_use x = last ->
  ~ In (s_area x) (map s_area L) -> 0 < last < u -> StronglySorted desc (x :: L) /\ NoDup (map s_area (x :: L)) /\ Forall (fun s => 0 < s_use s < u) (x :: L).
Proof.
  intros H1 H2 H3 H4 H5 H6. split; [|split].
  - constructor; auto. eapply Forall_impl; [|exact H3]. unfold desc. cbn. intros; lia.
  - cbn. constructor; auto.
  - constructor; [lia|]. eapply Forall_impl; [|exact H3]. cbn. intros; lia.
Qed.

Section Step.
  Variable (path : Z -> list Z) (max : nat).
  Hypothesis Hmax : (0 < max)%nat.

  Lemma step i st a L : tbl max (b_slots st) (b_last st) L -> 0 < b_last st < 4294967295 ->
    let '(st', r) := jam_openbase path i st a in
    let '(c', t) := lru max a (match r with Some _ => true | None => false end) (b_next st) (map mini L) in
    exists L', tbl max (b_slots st') (b_last st') L' /\ map mini L' = c' /\ b_log st' = b_log st ++ t /\
      b_last st <= b_last st' <= b_last st + 1 /\
      b_next st' = match hasbase a (map mini L) with Some _ => b_next st | None => if match r with Some _ => true | None => false end then b_next st + 1 else b_next st end /\
      r = match hasbase a (map mini L) with Some h => Some h | None => if fst (openfiles i (b_files st) (path a)) then Some (b_next st) else None end /\
      b_files st' = match hasbase a (map mini L) with Some h => b_files st | None => snd (openfiles i (b_files st) (path a)) end.
  Proof using Hmax.
    intros [Hl Hp Hs Hd Hr] Hlast. unfold jam_openbase.
    assert (Eu : u32 (b_last st + 1) = b_last st + 1) by (unfold u32; apply Z.mod_small; lia). rewrite Eu. clear Eu.
    destruct (findslot _ (b_slots st) 0) as [k|] eqn:E1.
    - apply findslot_some in E1. destruct E1 as (j & -> & Hj & HP). cbn [Nat.add] in *. apply andb_prop in HP. destruct HP as [Ha Hu].
      apply Z.eqb_eq in Ha. change (negb (s_use (nth j (b_slots st) noslot) =? 0)) with (used (nth j (b_slots st) noslot)) in Hu.
      set (x := nth j (b_slots st) noslot) in *.
      pose proof (perm_nth j (b_slots st) Hj) as P1. fold x in P1.
      pose proof (filter_perm used _ _ P1) as P2. cbn [filter] in P2. rewrite Hu in P2. rewrite Hp in P2.
      assert (Hx : In x L) by (eapply Permutation_in; [symmetry; exact P2|]; cbn; auto).
      pose proof (hasbase_in a L Hd x Hx Ha) as Hb.
      unfold lru. rewrite Hb. destruct (in_split _ _ Hx) as (L1 & L2 & ->).
      rewrite <- Permutation_middle in P2. apply Permutation_cons_inv in P2.
      exists (SL (b_last st) (s_base x) (s_area x) :: L1 ++ L2). cbn [b_slots b_last b_next b_log b_files].
      assert (Hd' : NoDup (map s_area (L1 ++ L2)) /\ ~ In (s_area x) (map s_area (L1 ++ L2))).
      { rewrite map_app in *. cbn in Hd. split; [eapply NoDup_remove_1; eauto|eapply NoDup_remove_2; eauto]. }
      assert (Hr' : Forall (fun s => 0 < s_use s < b_last st) (L1 ++ L2)) by (apply Forall_app in Hr; destruct Hr as [A B]; inversion B; subst; apply Forall_app; auto).
      destruct (cons_tbl (L1 ++ L2) (b_last st + 1) (b_last st) (SL (b_last st) (s_base x) (s_area x)) (sorted_mid _ _ _ Hs) (proj1 Hd') Hr' eq_refl (proj2 Hd') ltac:(lia)) as (C1 & C2 & C3).
      split; [constructor; auto|].
      + rewrite set_length; auto.
      + rewrite (filter_perm used _ _ (perm_set j _ _)). cbn [filter].
        assert (U : used (SL (b_last st) (s_base x) (s_area x)) = true) by (apply used_iff; cbn; lia). rewrite U. constructor. symmetry. exact P2.
      + cbn [map mini s_area s_base]. rewrite (without_mid a) by auto. unfold mini at 1; cbn [s_area s_base]. rewrite Ha. repeat split; auto; lia.
    - pose proof (findslot_none _ _ _ E1) as N1.
      assert (Hno : forall s, In s L -> s_area s <> a).
      { intros s Hi Ha. assert (In s (filter used (b_slots st))) as Hi2 by (eapply Permutation_in; [symmetry; exact Hp|exact Hi]).
        apply filter_In in Hi2. destruct Hi2 as [Hi2 Hu]. rewrite Forall_forall in N1. specialize (N1 s Hi2). cbn in N1.
        change (negb (s_use s =? 0)) with (used s) in N1. rewrite Hu, Ha, Z.eqb_refl in N1. discriminate. }
      pose proof (hasbase_none a L Hno) as Hb. unfold lru. rewrite Hb.
      assert (Hna : ~ In a (map s_area L)) by (intros Hi; apply in_map_iff in Hi; destruct Hi as (s & <- & Hi); apply (Hno s Hi); reflexivity).
      destruct (findslot (fun s => s_use s =? 0) (b_slots st) 0) as [k|] eqn:E2.
      + apply findslot_some in E2. destruct E2 as (j & -> & Hj & HP). cbn [Nat.add] in *.
        pose proof (perm_nth j (b_slots st) Hj) as P1. pose proof (filter_perm used _ _ P1) as P2. cbn [filter] in P2.
        assert (U0 : used (nth j (b_slots st) noslot) = false) by (unfold used; rewrite HP; reflexivity). rewrite U0 in P2.
        assert (Hlt : (length (map mini L) < max)%nat).
        { rewrite map_length, <- (Permutation_length Hp), (Permutation_length P2). pose proof (Permutation_length P1) as Q. cbn in Q.
          assert (length (filter used (others j (b_slots st))) <= length (others j (b_slots st)))%nat by apply filter_le. lia. }
        assert (Elt : Nat.ltb (length (map mini L)) max = true) by (apply Nat.ltb_lt; exact Hlt). rewrite Elt. clear Elt.
        destruct (openfiles i (b_files st) (path a)) as [ok fs]. destruct ok; cbn [fst snd].
        * exists (SL (b_last st) (b_next st) a :: L). cbn [b_slots b_last b_next b_log b_files].
          destruct (cons_tbl L (b_last st + 1) (b_last st) (SL (b_last st) (b_next st) a) Hs Hd Hr eq_refl Hna ltac:(lia)) as (C1 & C2 & C3).
          split; [constructor; auto|repeat split; auto; lia].
          -- rewrite set_length; auto.
          -- rewrite (filter_perm used _ _ (perm_set j _ _)). cbn [filter].
             assert (U : used (SL (b_last st) (b_next st) a) = true) by (apply used_iff; cbn; lia). rewrite U. constructor. rewrite <- P2. exact Hp.
        * exists L. cbn [b_slots b_last b_next b_log b_files]. split; [constructor; auto|]. rewrite app_nil_r. repeat split; auto; lia.
      + pose proof (findslot_none _ _ _ E2) as N2.
        assert (All : filter used (b_slots st) = b_slots st).
        { apply filter_all. eapply Forall_impl; [|exact N2]. intros s Hz. unfold used. cbn in Hz. rewrite Hz. reflexivity. }
        rewrite All in Hp.
        assert (LL : length L = max) by (rewrite <- (Permutation_length Hp); exact Hl).
        assert (Elt : Nat.ltb (length (map mini L)) max = false) by (apply Nat.ltb_ge; rewrite map_length; lia). rewrite Elt. clear Elt.
        destruct (b_slots st) as [|s0 sl] eqn:Esl; [cbn in Hl; lia|].
        pose proof (lowest_spec sl [s0] 0%nat (s_use s0) ltac:(cbn; lia) eq_refl ltac:(repeat constructor; lia)) as HL.
        change (nth 0 (s0 :: sl) noslot) with s0. cbn [lowest]. rewrite Z.ltb_irrefl. cbn [length app] in HL. cbv zeta in HL.
        set (j := lowest sl 1 0 (s_use s0)) in *. destruct HL as [Hj Hmin]. rewrite <- Esl in *.
        set (x := nth j (b_slots st) noslot) in *.
        assert (Hx : In x L) by (eapply Permutation_in; [exact Hp|]; apply nth_In; rewrite Esl; exact Hj).
        assert (HminL : forall s, In s L -> s_use x <= s_use s).
        { intros s Hi. rewrite Forall_forall in Hmin. apply Hmin. eapply Permutation_in; [symmetry; exact Hp|exact Hi]. }
        destruct (exists_last (l := L)) as (L0 & y & EL); [intros ->; cbn in LL; lia|].
        assert (Exy : x = y).
        { rewrite EL in Hx. apply in_app_iff in Hx. destruct Hx as [Hx|[ -> |[]]]; [|reflexivity]. exfalso.
          rewrite EL in Hs. pose proof (sorted_last _ _ Hs) as F. rewrite Forall_forall in F. specialize (F x Hx).
          specialize (HminL y). rewrite EL in HminL. specialize (HminL ltac:(apply in_app_iff; cbn; auto)). lia. }
        assert (Ec : removelast (map mini L) = map mini L0) by (rewrite EL, map_app; cbn; apply removelast_last).
        assert (El : last (map mini L) (0, 0) = mini x) by (rewrite EL, map_app; cbn; rewrite last_last, Exy; reflexivity).
        rewrite Ec, El. cbn [snd mini].
        assert (Hjl : (j < length (b_slots st))%nat) by (rewrite Esl; exact Hj).
        pose proof (perm_nth j (b_slots st) Hjl) as P1. fold x in P1.
        assert (P0 : Permutation (others j (b_slots st)) L0).
        { rewrite P1 in Hp. rewrite EL, <- Permutation_cons_append, <- Exy in Hp. apply Permutation_cons_inv in Hp. exact Hp. }
        assert (P3 : Permutation (filter used (others j (b_slots st))) L0).
        { rewrite filter_all; [exact P0|]. apply Forall_forall. intros s Hi. assert (In s (b_slots st)) by (eapply Permutation_in; [symmetry; exact P1|]; cbn; auto).
          rewrite <- All in H. apply filter_In in H. tauto. }
        assert (Hs0 : StronglySorted desc L0) by (rewrite EL in Hs; apply sorted_mid in Hs; rewrite app_nil_r in Hs; exact Hs).
        assert (Hd0 : NoDup (map s_area L0)) by (rewrite EL, map_app in Hd; cbn in Hd; apply NoDup_remove_1 in Hd; rewrite app_nil_r in Hd; exact Hd).
        assert (Hr0 : Forall (fun s => 0 < s_use s < b_last st) L0) by (rewrite EL in Hr; apply Forall_app in Hr; tauto).
        assert (Hna0 : ~ In a (map s_area L0)) by (intros Hi; apply Hna; rewrite EL, map_app; apply in_app_iff; auto).
        destruct (openfiles i (b_files st) (path a)) as [ok fs]. destruct ok; cbn [fst snd].
        * exists (SL (b_last st) (b_next st) a :: L0). cbn [b_slots b_last b_next b_log b_files].
          destruct (cons_tbl L0 (b_last st + 1) (b_last st) (SL (b_last st) (b_next st) a) Hs0 Hd0 Hr0 eq_refl Hna0 ltac:(lia)) as (C1 & C2 & C3).
          split; [constructor; auto|split; [reflexivity|split; [rewrite <- app_assoc; reflexivity|split; [lia|auto]]]].
          -- rewrite !set_length; auto. rewrite set_length; auto.
          -- rewrite (filter_perm used _ _ (perm_set j _ _)). cbn [filter].
             assert (U : used (SL (b_last st) (b_next st) a) = true) by (apply used_iff; cbn; lia). rewrite U. constructor. rewrite others_set by auto. exact P3.
        * exists L0. cbn [b_slots b_last b_next b_log b_files]. split; [constructor; auto|split; [reflexivity|split; [reflexivity|split; [lia|auto]]]].
          -- rewrite set_length; auto.
          -- rewrite (filter_perm used _ _ (perm_set j _ _)). cbn [filter]. exact P3.
  Qed.
End Step.

Definition some {A} (o : option A) : bool := match o with Some _ => true | None => false end.
Definition swap (x : Z * Z) : Z * Z := (snd x, fst x).

Lemma tbl_le max slots last L : tbl max slots last L -> (length L <= max)%nat.
Proof. intros [Hl Hp _ _ _]. rewrite <- (Permutation_length Hp), <- Hl. apply filter_le. Qed.

Lemma orderly_perm max t : forall o o', Permutation o o' -> orderly max o t -> orderly max o' t.
Proof.
  induction t as [|e t IH]; intros o o' H; cbn [orderly].
  - intros ->. apply Permutation_nil, H.
  - destruct e as [h a|h a|h]; intros Hx.
    + destruct Hx as (A & B & C). split; [|split].
      * intros Hi. apply A. eapply Permutation_in; [|exact Hi]. apply Permutation_map. symmetry. exact H.
      * rewrite <- (Permutation_length H). exact B.
      * eapply IH; [|exact C]. constructor. exact H.
    + destruct Hx as (A & B). split; [eapply Permutation_in; [exact H|exact A]|]. eapply IH; [exact H|exact B].
    + destruct Hx as (A & B). split; [eapply Permutation_in; [apply Permutation_map, H|exact A]|]. eapply IH; [apply filter_perm, H|exact B].
Qed.
Lemma filter_out {A} (P : A -> bool) l : (forall x, In x l -> P x = true) -> filter P l = l.
Proof. intros H. apply filter_all. apply Forall_forall. exact H. Qed.

Lemma orderly_closeall max l : forall o, Permutation o (map (fun s => swap (mini s)) l) -> NoDup (map s_base l) -> orderly max o (map (fun s => EClose (s_base s)) l).
Proof.
  induction l as [|s l IH]; intros o H Hn; cbn [map orderly].
  - apply Permutation_nil. symmetry. exact H.
  - cbn in H. inversion Hn; subst. split.
    + eapply Permutation_in; [apply Permutation_map; symmetry; exact H|]. cbn. auto.
    + apply IH; auto. rewrite (filter_perm _ _ _ H). cbn [filter swap mini snd fst]. rewrite Z.eqb_refl. cbn [negb].
      rewrite filter_out; [reflexivity|]. intros x Hi. apply in_map_iff in Hi. destruct Hi as (y & <- & Hy). cbn.
      rewrite negb_true_iff, Z.eqb_neq. intros E. apply H2. rewrite <- E. apply in_map, Hy.
Qed.

(** what holds of the store besides *)
Record store (max : nat) (next : Z) (c : list (Z * Z)) : Prop := STORE {
  c_len : (length c <= max)%nat; c_area : NoDup (map fst c); c_base : NoDup (map snd c); c_next : Forall (fun x => snd x < next) c }.

Lemma hasbase_some a c h : hasbase a c = Some h -> exists c1 c2, c = c1 ++ (a, h) :: c2 /\ ~ In a (map fst c1).
Proof.
  induction c as [|[b k] c IH]; cbn; [discriminate|]. destruct (Z.eqb_spec b a).
  - intros [= ->]. subst. exists [], c. cbn. auto.
  - intros H. destruct (IH H) as (c1 & c2 & -> & Hn). exists ((b, k) :: c1), c2. cbn. split; auto. intros [ -> |Hi]; auto.
Qed.
Lemma hasbase_miss a c : hasbase a c = None -> ~ In a (map fst c).
Proof.
  induction c as [|[b k] c IH]; cbn; [auto|]. destruct (Z.eqb_spec b a); [discriminate|]. intros H [E|Hi]; auto. apply IH; auto.
Qed.
Lemma without_out a c : ~ In a (map fst c) -> without a c = c.
Proof.
  intros H. unfold without. apply filter_out. intros [b k] Hi. cbn. rewrite negb_true_iff, Z.eqb_neq. intros ->. apply H. apply in_map_iff. exists (a, k). auto.
Qed.
Lemma without_split a h c1 c2 : NoDup (map fst (c1 ++ (a, h) :: c2)) -> without a (c1 ++ (a, h) :: c2) = c1 ++ c2.
Proof.
  rewrite map_app. cbn. intros H. pose proof (NoDup_remove_2 _ _ _ H) as N. rewrite in_app_iff in N.
  unfold without. rewrite filter_app. cbn. rewrite Z.eqb_refl. cbn. fold (without a c1) (without a c2). rewrite !without_out by tauto. reflexivity.
Qed.
Lemma perm_area (a h : Z) (c1 c2 : list (Z * Z)) : Permutation (c1 ++ (a, h) :: c2) ((a, h) :: c1 ++ c2).
Proof. symmetry. apply Permutation_middle. Qed.
Lemma store_perm max next c c' : Permutation c c' -> store max next c -> store max next c'.
Proof.
  intros H [A B C D]. constructor.
  - rewrite <- (Permutation_length H). exact A.
  - eapply Permutation_NoDup; [apply Permutation_map, H|exact B].
  - eapply Permutation_NoDup; [apply Permutation_map, H|exact C].
  - rewrite Forall_forall in *. intros x Hx. apply D. eapply Permutation_in; [symmetry; exact H|exact Hx].
Qed.

Lemma lru_orderly max a ok next c : (0 < max)%nat -> store max next c ->
  let '(c', t) := lru max a ok next c in
  let next' := match hasbase a c with Some _ => next | None => if ok then next + 1 else next end in
  store max next' c' /\
  (forall t2, (forall o, Permutation o (map swap c') -> orderly max o t2) -> forall o, Permutation o (map swap c) -> orderly max o (t ++ t2)) /\
  opened t = match hasbase a c with Some _ => [] | None => if ok then [next] else [] end.
Proof.
  intros Hm Hc. unfold lru. destruct (hasbase a c) as [h|] eqn:E.
  - destruct (hasbase_some _ _ _ E) as (c1 & c2 & -> & Hn). rewrite without_split by apply Hc. split; [|split].
    + eapply store_perm; [apply perm_area|exact Hc].
    + intros t2 H o Ho. cbn [app orderly]. split.
      * eapply Permutation_in; [symmetry; exact Ho|]. rewrite map_app. apply in_app_iff. right. left. reflexivity.
      * apply H. rewrite Ho. apply Permutation_map. apply perm_area.
    + reflexivity.
  - pose proof (hasbase_miss _ _ E) as Hmiss.
    assert (Grow : forall c1 t1, incl c1 c -> store max next c1 -> (length c1 < max)%nat -> opened t1 = [] ->
      (forall t2, (forall o, Permutation o (map swap c1) -> orderly max o t2) -> forall o, Permutation o (map swap c) -> orderly max o (t1 ++ t2)) ->
      let '(c', t) := if ok then ((a, next) :: c1, t1 ++ [EOpen next a; EGive next a]) else (c1, t1) in
      store max (if ok then next + 1 else next) c' /\
      (forall t2, (forall o, Permutation o (map swap c') -> orderly max o t2) -> forall o, Permutation o (map swap c) -> orderly max o (t ++ t2)) /\
      opened t = (if ok then [next] else [])).
    { intros c1 t1 Hi H1 Hl Ho Ht. destruct ok; [|split; [exact H1|split; [exact Ht|exact Ho]]].
      destruct H1 as [A B C D]. split; [|split].
      - constructor; cbn.
        + lia.
        + constructor; auto. intros Hx. apply Hmiss. apply in_map_iff in Hx. destruct Hx as (y & <- & Hy). apply in_map, Hi, Hy.
        + constructor; auto. intros Hx. apply in_map_iff in Hx. destruct Hx as (y & Ey & Hy). rewrite Forall_forall in D. specialize (D y Hy). lia.
        + constructor; [cbn; lia|]. eapply Forall_impl; [|exact D]. cbn. intros; lia.
      - intros t2 H2 o Hperm. rewrite <- app_assoc. apply Ht; [|exact Hperm]. intros o1 Ho1. cbn [app orderly]. split; [|split; [|split]].
        + intros Hx. assert (In next (map snd c1)).
          { apply (Permutation_in (l' := map fst (map swap c1))) in Hx; [|apply Permutation_map, Ho1]. rewrite map_map in Hx. cbn in Hx. exact Hx. }
          apply in_map_iff in H. destruct H as (y & Ey & Hy). rewrite Forall_forall in D. specialize (D y Hy). lia.
        + rewrite (Permutation_length Ho1), map_length. exact Hl.
        + cbn. auto.
        + apply H2. cbn [map swap fst snd]. constructor. exact Ho1.
      - assert (forall x y, opened (x ++ y) = opened x ++ opened y) as App.
        { intros x y. induction x as [|[| |] x IH]; cbn; auto. f_equal. exact IH. }
        rewrite App, Ho. reflexivity. }
    destruct (Nat.ltb_spec (length c) max) as [Hl|Hl].
    + apply (Grow c []); auto. apply incl_refl.
    + destruct (exists_last (l := c)) as (c0 & [b h] & Ec); [intros ->; cbn in *; lia|].
      assert (R : removelast c = c0) by (rewrite Ec; apply removelast_last). assert (La : last c (0, 0) = (b, h)) by (rewrite Ec; apply last_last).
      rewrite R, La. cbn [snd]. destruct Hc as [A B C D]. rewrite Ec in A, B, C, D. rewrite app_length in A. cbn in A. rewrite map_app in B, C. cbn in B, C.
      assert (C2 : ~ In h (map snd c0)) by (apply NoDup_remove_2 in C; rewrite app_nil_r in C; exact C).
      apply Grow; auto.
      * rewrite Ec. intros x Hx. apply in_app_iff. auto.
      * constructor; [lia| | |].
        -- apply NoDup_remove_1 in B. rewrite app_nil_r in B. exact B.
        -- apply NoDup_remove_1 in C. rewrite app_nil_r in C. exact C.
        -- apply Forall_app in D. tauto.
      * lia.
      * intros t2 H2 o Ho. cbn [app orderly]. rewrite Ec, map_app in Ho. cbn [map swap snd fst] in Ho. split.
        -- eapply Permutation_in; [apply Permutation_map; symmetry; exact Ho|]. rewrite map_app. apply in_app_iff. right. left. reflexivity.
        -- apply H2. rewrite (filter_perm _ _ _ Ho), filter_app. cbn [filter fst]. rewrite Z.eqb_refl. cbn [negb]. rewrite app_nil_r, filter_out; [reflexivity|].
           intros x Hx. apply in_map_iff in Hx. destruct Hx as (y & <- & Hy). cbn. rewrite negb_true_iff, Z.eqb_neq. intros Eh. apply C2. rewrite <- Eh. apply in_map, Hy.
Qed.

Section Calls.
  Variable (path : Z -> list Z) (max : nat).
  Hypothesis Hmax : (0 < max)%nat.

  Lemma calls cs : forall st L, tbl max (b_slots st) (b_last st) L -> store max (b_next st) (map mini L) -> 0 < b_last st -> b_last st + Z.of_nat (length cs) <= 4294967295 ->
    let '(st', hs) := jam_calls path cs st in
    let rs := combine (map snd cs) hs in
    length hs = length cs /\
    exists t, b_log st' = b_log st ++ t /\ t = lrulog max rs (b_next st) (map mini L) /\
    given t = flat_map (fun r => match snd r with Some h => [(fst r, h)] | None => [] end) rs /\
    (exists L', tbl max (b_slots st') (b_last st') L' /\ store max (b_next st') (map mini L') /\
      (forall t2, (forall o, Permutation o (map swap (map mini L')) -> orderly max o t2) -> forall o, Permutation o (map swap (map mini L)) -> orderly max o (t ++ t2))) /\
    NoDup (opened t) /\ Forall (fun h => b_next st <= h) (opened t).
  Proof using Hmax.
    induction cs as [|[i a] cs IH]; intros st L Ht Hc Hl Hb; cbn [jam_calls].
    - cbn. split; [reflexivity|]. exists []. cbn. rewrite app_nil_r. split; [reflexivity|]. split; [reflexivity|]. split; [reflexivity|]. split; [|split; constructor].
      exists L. repeat split; try apply Hc; try apply Ht. intros t2 H. exact H.
    - cbn [length] in Hb. pose proof (step path max Hmax i st a L Ht ltac:(lia)) as S1. destruct (jam_openbase path i st a) as [st1 r] eqn:E1.
      pose proof (lru_orderly max a (some r) (b_next st) (map mini L) Hmax Hc) as S2. unfold some in S2.
      destruct (lru max a _ (b_next st) (map mini L)) as [c1 t1] eqn:El.
      destruct S1 as (L1 & T1 & M1 & Log1 & Last1 & Next1 & R1 & F1). destruct S2 as (Sc1 & So1 & Op1). subst c1. rewrite <- Next1 in Sc1.
      specialize (IH st1 L1 T1 Sc1 ltac:(lia) ltac:(lia)). destruct (jam_calls path cs st1) as [st2 hs].
      cbv zeta in IH |- *. destruct IH as (Hlen & t & Log2 & Et & Gt & (L2 & T2 & Sc2 & So2) & Nd & Fa).
      split; [cbn; lia|]. exists (t1 ++ t). split; [rewrite Log2, Log1, app_assoc; reflexivity|].
      assert (App : forall x y, opened (x ++ y) = opened x ++ opened y) by (intros x y; induction x as [|[| |] x IHx]; cbn; auto; f_equal; exact IHx).
      assert (AppG : forall x y, given (x ++ y) = given x ++ given y) by (intros x y; induction x as [|[| |] x IHx]; cbn; auto; f_equal; exact IHx).
      split; [|split; [|split; [|split]]].
      + cbn [map combine lrulog snd]. rewrite El. f_equal. rewrite Et, Next1. reflexivity.
      + rewrite AppG, Gt. cbn [map combine flat_map snd fst]. f_equal. clear - El R1.
        unfold lru in El. destruct (hasbase a (map mini L)); [injection El as _ <-; subst r; reflexivity|].
        destruct (Nat.ltb (length (map mini L)) max); destruct r as [h|]; injection El as _ <-; try reflexivity;
          destruct (fst (openfiles i (b_files st) (path a))); try discriminate; injection R1 as ->; reflexivity.
      + exists L2. split; [exact T2|]. split; [exact Sc2|]. intros t2 H2 o Ho. rewrite <- app_assoc. apply So1; [|exact Ho]. intros o1 Ho1. apply So2; auto.
      + rewrite App, Op1. destruct (hasbase a (map mini L)); [exact Nd|]. destruct r as [h|]; [|exact Nd]. cbn [app]. constructor; [|exact Nd].
        intros Hi. rewrite Forall_forall in Fa. specialize (Fa _ Hi). lia.
      + rewrite App, Op1. destruct (hasbase a (map mini L)); [rewrite <- Next1; exact Fa|]. destruct r as [h|].
        * cbn [app]. constructor; [lia|]. eapply Forall_impl; [|exact Fa]. cbn. intros; lia.
        * rewrite <- Next1. exact Fa.
  Qed.
End Calls.

Lemma start n fs : tbl (places n) (b_slots (jam_before n fs)) 1 [] /\ store (places n) 1 [].
Proof.
  split; constructor; cbn [length map]; try constructor; try lia.
  - cbn. rewrite repeat_length. destruct n; reflexivity.
  - unfold jam_before. cbn [b_slots]. match goal with |- Permutation (filter used (repeat noslot ?k)) [] => induction k as [|m IHm]; cbn; [constructor|exact IHm] end.
Qed.
Lemma places_pos n : (0 < places n)%nat.
Proof. destruct n; cbn; lia. Qed.

(** an area stays in the store while few others are asked for *)
Definition kept (a h : Z) (S : list Z) (c : list (Z * Z)) : Prop :=
  exists pre post, c = pre ++ (a, h) :: post /\ ~ In a (map fst pre) /\ incl (map fst pre) S.
Lemma kept_has a h S c : kept a h S c -> hasbase a c = Some h.
Proof.
  intros (pre & post & -> & Hn & _). induction pre as [|[b k] pre IH]; cbn; [rewrite Z.eqb_refl; reflexivity|].
  cbn in Hn. destruct (Z.eqb_spec b a); [tauto|]. apply IH. tauto.
Qed.
Lemma kept_step max a h S b ok next c : (0 < max)%nat -> store max next c -> (length S < max)%nat -> NoDup S -> In b (a :: S) -> kept a h S c ->
  kept a h S (fst (lru max b ok next c)).
Proof.
  intros Hm Hc Hl Hd Hb Hk. pose proof (kept_has _ _ _ _ Hk) as Hh. destruct Hk as (pre & post & Ec & Hn & Hi).
  destruct (Z.eq_dec b a) as [ -> |Hne].
  - unfold lru. rewrite Hh. cbn [fst]. exists [], (without a c). cbn. repeat split; auto. intros x [].
  - assert (HbS : In b S) by (destruct Hb; [congruence|auto]).
    unfold lru. destruct (hasbase b c) as [k|] eqn:E.
    + cbn [fst]. exists ((b, k) :: without b pre), (without b post). split; [|split].
      * rewrite Ec. unfold without. rewrite filter_app. cbn. destruct (Z.eqb_spec a b); [congruence|]. reflexivity.
      * cbn. intros [ -> |Hx]; [congruence|]. apply Hn. apply in_map_iff in Hx. destruct Hx as (y & <- & Hy). apply filter_In in Hy. apply in_map, Hy.
      * cbn. intros x [ <- |Hx]; [auto|]. apply Hi. apply in_map_iff in Hx. destruct Hx as (y & <- & Hy). apply filter_In in Hy. apply in_map, Hy.
    + assert (Out : forall c1 t1, kept a h S c1 -> kept a h S (fst (if ok then ((b, next) :: c1, t1 ++ [EOpen next b; EGive next b]) else (c1, t1)))).
      { intros c1 t1 (p & q & -> & A & B). destruct ok; cbn [fst]; [|exists p, q; auto].
        exists ((b, next) :: p), q. cbn. split; [reflexivity|]. split; [intros [ -> |Hx]; auto|]. intros x [ <- |Hx]; auto. }
      destruct (Nat.ltb_spec (length c) max) as [Hlt|Hge]; [apply Out; exists pre, post; auto|].
      destruct post as [|y post].
      * exfalso. pose proof (hasbase_miss _ _ E) as Hmiss. destruct Hc as [_ Hca _ _]. rewrite Ec in *. rewrite map_app in *. cbn in *.
        assert (Hnd : NoDup (b :: map fst pre)).
        { constructor; [intros Hx; apply Hmiss, in_app_iff; auto|]. apply NoDup_remove_1 in Hca. rewrite app_nil_r in Hca. exact Hca. }
        assert (Hincl : incl (b :: map fst pre) S) by (intros x [ <- |Hx]; auto).
        pose proof (NoDup_incl_length Hnd Hincl) as Q. cbn in Q. rewrite map_length in Q. rewrite app_length in Hge. cbn in Hge. lia.
      * apply Out. exists pre, (removelast (y :: post)). split; [|auto]. rewrite Ec. rewrite removelast_app by discriminate. reflexivity.
Qed.
Lemma calls_app path cs cs' st : jam_calls path (cs ++ cs') st =
  let '(st1, hs) := jam_calls path cs st in let '(st2, hs') := jam_calls path cs' st1 in (st2, hs ++ hs').
Proof.
  revert st. induction cs as [|[i a] cs IH]; intros st; cbn [app jam_calls].
  - destruct (jam_calls path cs' st). reflexivity.
  - destruct (jam_openbase path i st a) as [st1 h]. rewrite IH. destruct (jam_calls path cs st1) as [st2 hs]. destruct (jam_calls path cs' st2). reflexivity.
Qed.
Lemma kept_calls path max a h S cs : (0 < max)%nat -> (length S < max)%nat -> NoDup S -> incl (map snd cs) (a :: S) -> forall st L,
  tbl max (b_slots st) (b_last st) L -> store max (b_next st) (map mini L) -> 0 < b_last st -> b_last st + Z.of_nat (length cs) <= 4294967295 -> kept a h S (map mini L) ->
  exists L', tbl max (b_slots (fst (jam_calls path cs st))) (b_last (fst (jam_calls path cs st))) L' /\
    b_last (fst (jam_calls path cs st)) <= b_last st + Z.of_nat (length cs) /\ 0 < b_last (fst (jam_calls path cs st)) /\ kept a h S (map mini L').
Proof.
  intros Hm HlS HdS. induction cs as [|[i b] cs IH]; intros Hi st L Ht Hc Hl Hb Hk; cbn [jam_calls].
  - cbn. exists L. repeat split; auto; try apply Ht; lia.
  - cbn [length map] in *. pose proof (step path max Hm i st b L Ht ltac:(lia)) as S1. destruct (jam_openbase path i st b) as [st1 r] eqn:E1.
    pose proof (lru_orderly max b (some r) (b_next st) (map mini L) Hm Hc) as S2. unfold some in S2.
    pose proof (kept_step max a h S b (some r) (b_next st) (map mini L) Hm Hc HlS HdS ltac:(apply Hi; cbn; auto) Hk) as S3. unfold some in S3.
    destruct (lru max b _ (b_next st) (map mini L)) as [c1 t1] eqn:El.
    destruct S1 as (L1 & T1 & M1 & Log1 & Last1 & Next1 & R1 & F1). destruct S2 as (Sc1 & _ & _). cbn [fst] in S3. subst c1. rewrite <- Next1 in Sc1.
    destruct (IH ltac:(intros x Hx; apply Hi; cbn; auto) st1 L1 T1 Sc1 ltac:(lia) ltac:(lia) S3) as (L2 & A & B & C & D).
    destruct (jam_calls path cs st1) as [st2 hs]. cbn [fst] in *. exists L2. repeat split; auto; try apply A; lia.
Qed.
