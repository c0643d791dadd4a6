(** Reading the new configuration file follows reading the old one. *)
From Verif Require P_Echo.
From Verif Require Import Base M_Node4D M_Str M_Mem M_Cfg M_Fs M_Out M_Upd S_Str S_Node4D S_Upd P_UpdTok P_UpdBlk P_UpdNode P_UpdArea P_UpdCls.

(** ** What reading leaves alone *)
Definition ext {A} (a b : list A) : Prop := exists r, b = a ++ r.
Lemma ext_refl {A} (a : list A) : ext a a.
Proof. exists []. rewrite app_nil_r. reflexivity. Qed.
Lemma ext_trans {A} (a b c : list A) : ext a b -> ext b c -> ext a c.
Proof. intros (r & ->) (r' & ->). exists (r ++ r'). rewrite app_assoc. reflexivity. Qed.
Lemma ext_app {A} (a b : list A) : ext a (a ++ b).
Proof. exists b. reflexivity. Qed.
Lemma ext_nth {A} (a b : list A) i x : ext a b -> nth_error a i = Some x -> nth_error b i = Some x.
Proof. intros (r & ->) H. rewrite nth_error_app1; auto. apply nth_error_Some. congruence. Qed.
Lemma ext_nth' {A} (a b : list A) i x : ext a b -> (i < length a)%nat -> nth_error b i = Some x -> nth_error a i = Some x.
Proof. intros (r & ->) H. rewrite nth_error_app1; auto. Qed.
Definition akey (a : farea) : list Z * Z := (fa_tag a, fa_type a).
Definition pfx (s c : fconf) : Prop :=
  ext (cf_akas s) (cf_akas c) /\ ext (cf_packers s) (cf_packers c) /\ ext (map fn_node (cf_nodes s)) (map fn_node (cf_nodes c)) /\
  ext (map akey (cf_areas s)) (map akey (cf_areas c)).
Lemma pfx_refl s : pfx s s.
Proof. repeat split; apply ext_refl. Qed.
Lemma pfx_trans a b c : pfx a b -> pfx b c -> pfx a c.
Proof. intros (A1 & A2 & A3 & A4) (B1 & B2 & B3 & B4). repeat split; eapply ext_trans; eauto. Qed.
Lemma onlast_inv {A} (g : A -> option A) l nl : onlast g l = Some nl -> exists l0 x y, l = l0 ++ [x] /\ g x = Some y /\ nl = l0 ++ [y].
Proof.
  destruct l as [|a l _] using rev_ind; [discriminate|]. rewrite onlast_app. intros H. apply obind_some in H as (y & Ey & H). injection H as <-. exists l, a, y. auto.
Qed.

Section Pfx.
  Variable okother : list (list Z) -> list node4d -> list (list Z) -> list node4d -> list Z -> bool.
  Notation rdline := (rdline okother).
  Notation rdlines := (rdlines okother).
  Lemma rdline_pfx c l c' : rdline c l = ROk c' -> pfx c c'.
  Proof using Type.
    intros H. destruct (tok 30 l) as [[w ok] src] eqn:Et. apply (rdline_cls _ _ _ _ _ _ _ Et) in H. destruct H; subst c'; unfold pfx; cbn [cf_akas cf_packers cf_nodes cf_areas setnodes setareas].
    - repeat split; try apply ext_app; apply ext_refl.
    - rewrite map_app. repeat split; try apply ext_refl. apply ext_app.
    - apply onlast_inv in H6 as (l0 & x & y & -> & Hg & ->). rewrite !map_app. cbn [map]. apply H8 in Hg as [-> _]. repeat split; apply ext_refl.
    - rewrite map_app. repeat split; try apply ext_refl. apply ext_app.
    - apply onlast_inv in H6 as (l0 & x & y & -> & Hg & ->). rewrite !map_app. cbn [map]. apply H8 in Hg as (E1 & E2 & _). unfold akey at 4. rewrite E1, E2. repeat split; apply ext_refl.
  Qed.
  Lemma rdlines_pfx ls : forall c c', rdlines ls c = ROk c' -> pfx c c'.
  Proof using Type.
    induction ls as [|l r IH]; intros c c' H; cbn in H; [injection H as <-; apply pfx_refl|]. destruct (rdline c l) eqn:E; try discriminate. eapply pfx_trans; [eapply rdline_pfx; eauto|auto].
  Qed.
  Lemma count_cons k l r : count k (l :: r) = (b2n (kw (keyword l) k) + count k r)%nat.
  Proof using Type. unfold count. cbn [filter]. destruct (kw (keyword l) k); reflexivity. Qed.
  Lemma rdline_counts c l c' : rdline c l = ROk c' ->
    length (cf_akas c') = (length (cf_akas c) + b2n (kw (keyword l) "AKA"))%nat /\
    length (cf_packers c') = (length (cf_packers c) + b2n (kw (keyword l) "PACKER"))%nat /\
    length (cf_nodes c') = (length (cf_nodes c) + b2n (kw (keyword l) "NODE"))%nat.
  Proof using Type.
    intros H. destruct (tok 30 l) as [[w ok] src] eqn:Et. unfold keyword. rewrite Et. cbn [fst]. apply (rdline_cls _ _ _ _ _ _ _ Et) in H. destruct H; subst c'; cbn [cf_akas cf_packers cf_nodes cf_areas setnodes setareas].
    - rewrite !app_length, H4, H5, H0. cbn [b2n]. lia.
    - rewrite (kw_kw _ _ "AKA" H), (kw_kw _ _ "PACKER" H), H, app_length. change (kw (lit "NODE") "AKA") with false. change (kw (lit "NODE") "PACKER") with false. cbn [b2n length]. lia.
    - rewrite H0, H4, H5. apply onlast_inv in H6 as (l0 & x & y & -> & Hg & ->). rewrite !app_length. cbn. lia.
    - assert (X : kw w "AKA" = false /\ kw w "PACKER" = false /\ kw w "NODE" = false).
      { unfold isH in H. apply orb_true_iff in H as [H|H]; [apply orb_true_iff in H as [H|H]|]; rewrite !(kw_kw _ _ _ H); repeat split. }
      destruct X as (-> & -> & ->). cbn [b2n]. lia.
    - rewrite H0, H4, H5. cbn [b2n]. lia.
  Qed.
  Lemma rdlines_counts ls : forall c c', rdlines ls c = ROk c' ->
    length (cf_akas c') = (length (cf_akas c) + count "AKA" ls)%nat /\ length (cf_packers c') = (length (cf_packers c) + count "PACKER" ls)%nat /\
    length (cf_nodes c') = (length (cf_nodes c) + count "NODE" ls)%nat.
  Proof using Type.
    induction ls as [|l r IH]; intros c c' H; cbn in H; [injection H as <-; unfold count; cbn; lia|]. destruct (rdline c l) as [d| |] eqn:E; try discriminate.
    apply rdline_counts in E. apply IH in H. rewrite !count_cons. lia.
  Qed.
End Pfx.

(** ** Images *)
Fixpoint imgN (s n1 : list fnode) : list fnode :=
  match s, n1 with x :: r, y :: q => (if fn_changed y then doneN y else x) :: imgN r q | _, _ => [] end.
Definition imgA1 (x : farea) (ft : option farea) : list farea :=
  match ft with None => [] | Some a => if fa_changed a then [doneA a] else [x] end.
Fixpoint imgA (s : list farea) (fs : list (option farea)) : list farea :=
  match s, fs with x :: r, y :: q => imgA1 x y ++ imgA r q | _, _ => [] end.
Lemma imgN_snoc s x y : forall n1, nth_error n1 (length s) = Some y -> imgN (s ++ [x]) n1 = imgN s n1 ++ [if fn_changed y then doneN y else x].
Proof.
  induction s as [|a s IH]; intros [|b n1] H; try discriminate; cbn [length nth_error] in H.
  - injection H as ->. cbn. destruct n1; reflexivity.
  - cbn [app imgN]. rewrite (IH n1 H). reflexivity.
Qed.
Lemma imgA_snoc s x y : forall fs, nth_error fs (length s) = Some y -> imgA (s ++ [x]) fs = imgA s fs ++ imgA1 x y.
Proof.
  induction s as [|a s IH]; intros [|b n1] H; try discriminate; cbn [length nth_error] in H.
  - injection H as ->. cbn [app imgA]. destruct n1; apply app_nil_r.
  - cbn [app imgA]. rewrite (IH n1 H), app_assoc. reflexivity.
Qed.
Lemma imgN_addr s : forall n1, (length s <= length n1)%nat -> (forall i x y, nth_error s i = Some x -> nth_error n1 i = Some y -> fn_node y = fn_node x) ->
  map fn_node (imgN s n1) = map fn_node s.
Proof.
  induction s as [|a s IH]; intros [|b n1] Hl H; try reflexivity; cbn in Hl; [lia|]. cbn [imgN map]. rewrite IH; [|lia|intros i x y; apply (H (S i))].
  f_equal. specialize (H O a b eq_refl eq_refl). destruct (fn_changed b); [exact H|reflexivity].
Qed.
Lemma skipn_nth {A} (l : list A) k x : nth_error l k = Some x -> skipn k l = x :: skipn (S k) l /\ firstn (S k) l = firstn k l ++ [x].
Proof.
  revert k. induction l as [|a l IH]; intros [|k] H; try discriminate.
  - cbn in H. injection H as ->. auto.
  - cbn [nth_error] in H. destruct (IH k H) as [E1 E2]. split; [exact E1|]. cbn [firstn app] in *. rewrite E2. reflexivity.
Qed.
Lemma findpos_none {A} (f : A -> bool) l : Forall (fun x => f x = false) l -> findpos f l = None.
Proof. induction 1 as [|x l Hx Hl IH]; cbn [findpos]; [reflexivity|]. rewrite Hx, IH. reflexivity. Qed.
Lemma findpos_at {A} (f : A -> bool) l x r : Forall (fun x => f x = false) l -> f x = true -> findpos f (l ++ x :: r) = Some (length l).
Proof. intros H Hx. induction H as [|y l Hy Hl IH]; cbn [findpos app length]; [rewrite Hx; reflexivity|]. rewrite Hy, IH. reflexivity. Qed.
Lemma updnth_at {A} (f : A -> A) l x r : updnth f (length l) (l ++ x :: r) = l ++ f x :: r.
Proof. induction l as [|y l IH]; cbn [length app updnth]; [reflexivity|]. rewrite IH. reflexivity. Qed.
Lemma nth_at {A} (l : list A) x r : nth_error (l ++ x :: r) (length l) = Some x.
Proof. rewrite nth_error_app2, Nat.sub_diag by lia. reflexivity. Qed.
Lemma doneA_same a : fa_changed a = false -> doneA a = a.
Proof. destruct a; cbn; intros ->; reflexivity. Qed.
Lemma doneN_same a : fn_changed a = false -> doneN a = a.
Proof. destruct a; cbn; intros ->; reflexivity. Qed.
Lemma nth_error_Some_lt {A} (l : list A) i x : nth_error l i = Some x -> (i < length l)%nat.
Proof. intros H. apply nth_error_Some. congruence. Qed.
Lemma nth_skipn {A} n (l : list A) i : nth_error (skipn n l) i = nth_error l (n + i).
Proof. revert l. induction n as [|n IH]; intros [|x l]; cbn [skipn Nat.add nth_error]; auto. destruct i; reflexivity. Qed.
Lemma F2_len {A B} (R : A -> B -> Prop) l m : Forall2 R l m -> length l = length m.
Proof. induction 1; cbn; congruence. Qed.
Lemma F2_nth {A B} (R : A -> B -> Prop) l m : Forall2 R l m -> forall i x, nth_error l i = Some x -> exists y, nth_error m i = Some y /\ R x y.
Proof. induction 1; intros [|i] z Hz; try discriminate; cbn in *; [injection Hz as <-; eauto|auto]. Qed.
Lemma F2_nth' {A B} (R : A -> B -> Prop) l m : Forall2 R l m -> forall i y, nth_error m i = Some y -> exists x, nth_error l i = Some x /\ R x y.
Proof. induction 1; intros [|i] z Hz; try discriminate; cbn in *; [injection Hz as <-; eauto|auto]. Qed.
Lemma F2_map {A B C} (R : A -> B -> Prop) (f : B -> C) (g : A -> C) l m : Forall2 R l m -> (forall x y, R x y -> f y = g x) -> map f m = map g l.
Proof. intros H Hf. induction H; cbn [map]; [reflexivity|]. rewrite IHForall2. f_equal. auto. Qed.
Lemma tok_word n l w ok src : cstring l -> (2 <= n)%nat -> tok n l = (w, ok, src) -> w <> [] -> ok = true.
Proof.
  intros Hl Hn E Hw. destruct (first_word_ex l Hl) as (q & t & rest & Hf). rewrite (tok_gen _ _ _ _ n Hl Hf Hn) in E. injection E as <- <- _. destruct t; [rewrite firstn_nil in Hw; congruence|reflexivity].
Qed.
Lemma wline_cstring l : wline l -> cstring l.
Proof. intros (b & -> & Hb & _). apply cs_nl. auto. Qed.
Lemma tok_rest_cstring n l : cstring l -> (2 <= n)%nat -> cstring (snd (tok n l)).
Proof. intros Hl Hn. unfold tok. destruct (P_Echo.jbstrcpy_consumes l n Hn Hl) as (b' & ok & r' & -> & Hr & _). exact Hr. Qed.
Lemma tok30_cstring l w ok src : wline l -> tok 30 l = (w, ok, src) -> cstring src.
Proof. intros Hl Et. pose proof (tok_rest_cstring 30 l (wline_cstring _ Hl) ltac:(lia)) as Hs. rewrite Et in Hs. exact Hs. Qed.
Lemma tok100 src : cstring src -> (length (fst (fst (tok 200 src))) <= 98)%nat -> tok 100 src = tok 200 src.
Proof. intros. apply tok_agree; auto; lia. Qed.
Lemma tok80 src : cstring src -> (length (fst (fst (tok 200 src))) <= 79)%nat -> tok 100 src = tok 200 src /\ tok 80 src = tok 200 src.
Proof. intros. split; apply tok_agree; auto; lia. Qed.

Section Sim.
  Variable okother : list (list Z) -> list node4d -> list (list Z) -> list node4d -> list Z -> bool.
  Notation rdline := (rdline okother).
  Notation rdlines := (rdlines okother).
  Variable ls : list (list Z).
  Variables c0 c1 : fconf.
  Variable fates : list (option farea).
  Variable news : list farea.
  Let nodes0 := map fn_node (cf_nodes c0).
  Let N1 := cf_nodes c1.
  Definition empty : fconf := FC [] [] [] [] [].

  Hypothesis Hread : rdlines ls empty = ROk c0.
  Hypothesis Hw : Forall wline ls.
  Hypothesis Hshort : short_names ls.
  Hypothesis Habove : defined_above ls c1.
  Hypothesis Hakas : cf_akas c1 = cf_akas c0.
  Hypothesis Hpackers : cf_packers c1 = cf_packers c0.
  Hypothesis Hareas : cf_areas c1 = flat_map olist fates ++ news.
  Hypothesis Hnodes : Forall2 (fun n0 n1 => (n1 = n0 /\ fn_changed n1 = false) \/
                        (fn_changed n1 = true /\ fn_node n1 = fn_node n0 /\ goodnode (cf_packers c0) n1)) (cf_nodes c0) (cf_nodes c1).
  Hypothesis Hdn : distinct_nodes (cf_nodes c0).
  Hypothesis Hfates : Forall2 (fun a ft => (ft = Some a /\ fa_changed a = false) \/
       (exists a', ft = Some a' /\ fa_changed a' = true /\ fa_tag a' = fa_tag a /\ goodarea (cf_akas c0) nodes0 a' /\ fa_type a <> AREATYPE_LOCAL) \/
       (ft = None /\ fa_type a <> AREATYPE_LOCAL)) (cf_areas c0) fates.
  Hypothesis Hnews : Forall (fun a => fa_changed a = true /\ goodarea (cf_akas c0) nodes0 a) news.
  Hypothesis Hdt : distinct_tags (cf_areas c0 ++ news).

  Definition skA (k : nat) : bool :=
    match k with O => false | S j => match nth_error fates j with Some (Some a) => fa_changed a | _ => true end end.
  Definition skN (k : nat) : bool :=
    match k with O => false | S j => match nth_error N1 j with Some n => fn_changed n | None => false end end.
  Record sim (s t : fconf) (u : ustate) : Prop := {
    s_akas : cf_akas t = cf_akas s; s_pk : cf_packers t = cf_packers s; s_other : cf_other t = cf_other s;
    s_nodes : cf_nodes t = imgN (cf_nodes s) N1; s_areas : cf_areas t = imgA (cf_areas s) fates;
    s_uakas : cf_akas (us_conf u) = cf_akas c0; s_upk : cf_packers (us_conf u) = cf_packers c0;
    s_unodes : cf_nodes (us_conf u) = map doneN (firstn (length (cf_nodes s)) N1) ++ skipn (length (cf_nodes s)) N1;
    s_uareas : cf_areas (us_conf u) = map doneA (flat_map olist (firstn (length (cf_areas s)) fates)) ++ flat_map olist (skipn (length (cf_areas s)) fates) ++ news;
    s_skA : us_skiparea u = skA (length (cf_areas s)); s_skN : us_skipnode u = skN (length (cf_nodes s)) }.

  (** output of some lines *)
  Definition blk2 (t : fconf) (out : list Z) (t' : fconf) (fl : list (list Z)) : Prop :=
    exists o, out = concat o /\ Forall wline o /\ rdlines o t = ROk t' /\ filter foreign o = fl.
  Lemma blk2_nil t : blk2 t [] t [].
  Proof using Type. exists []. repeat split; constructor. Qed.
  Lemma blk2_blk t out t' : blk okother t out t' -> blk2 t out t' [].
  Proof using Type.
    intros (o & -> & H1 & H2 & H3). exists o. repeat split; auto. clear -H2. induction H2 as [|x l Hx Hl IH]; [reflexivity|]. cbn [filter]. rewrite Hx. exact IH.
  Qed.
  Lemma blk2_line t l t' : wline l -> rdline t l = ROk t' -> blk2 t l t' (filter foreign [l]).
  Proof using Type.
    intros H1 H2. exists [l]. cbn [concat]. rewrite app_nil_r. split; auto. split; [constructor; auto|]. cbn [M_Upd.rdlines]. rewrite H2. auto.
  Qed.
  Lemma blk2_app t o1 t1 f1 o2 t2 f2 : blk2 t o1 t1 f1 -> blk2 t1 o2 t2 f2 -> blk2 t (o1 ++ o2) t2 (f1 ++ f2).
  Proof using Type.
    intros (a & -> & A1 & A2 & <-) (b & -> & B1 & B2 & <-). exists (a ++ b). rewrite concat_app, filter_app. split; auto. split; [apply Forall_app; auto|]. rewrite rdlines_app, A2. auto.
  Qed.

  Definition allsame : Prop := Forall (fun ft => exists a, ft = Some a /\ fa_changed a = false) fates /\ Forall (fun n => fn_changed n = false) N1.
  Lemma same_skA : allsame -> forall k, (k <= length fates)%nat -> skA k = false.
  Proof using Type.
    intros [H _] [|k] Hk; [reflexivity|]. cbn [skA]. destruct (nth_error fates k) as [ft|] eqn:E; [|apply nth_error_None in E; lia].
    apply nth_error_In in E. rewrite Forall_forall in H. destruct (H _ E) as (a & -> & ->). reflexivity.
  Qed.
  Lemma same_skN : allsame -> forall k, skN k = false.
  Proof using Type.
    intros [_ H] [|k]; [reflexivity|]. cbn [skN]. destruct (nth_error N1 k) as [n|] eqn:E; [|reflexivity].
    apply nth_error_In in E. rewrite Forall_forall in H. auto.
  Qed.

  Lemma len_fates : length fates = length (cf_areas c0).
  Proof using Hfates. clear -Hfates. symmetry. apply (F2_len _ _ _ Hfates). Qed.
  Lemma len_N1 : length N1 = length (cf_nodes c0).
  Proof using Hnodes. clear -Hnodes. symmetry. apply (F2_len _ _ _ Hnodes). Qed.

  (** positions below the final ones *)
  Lemma node_at s i x : pfx s c0 -> nth_error (cf_nodes s) i = Some x -> exists n0 n1, nth_error (cf_nodes c0) i = Some n0 /\ nth_error N1 i = Some n1 /\ fn_node n0 = fn_node x /\ fn_node n1 = fn_node x /\
    (n1 = n0 /\ fn_changed n1 = false \/ fn_changed n1 = true /\ goodnode (cf_packers c0) n1).
  Proof using Hnodes.
    intros (_ & _ & P & _) H. assert (E : nth_error (map fn_node (cf_nodes s)) i = Some (fn_node x)) by (rewrite nth_error_map, H; reflexivity).
    apply (ext_nth _ _ _ _ P) in E. rewrite nth_error_map in E. destruct (nth_error (cf_nodes c0) i) as [n0|] eqn:E0; [|discriminate]. cbn in E. injection E as E.
    destruct (F2_nth _ _ _ Hnodes i n0 E0) as (n1 & E1 & Hc). exists n0, n1. split; auto. split; auto. split; auto. destruct Hc as [[-> Hc]|(Hc & He & Hg)]; [auto|]. split; [congruence|auto].
  Qed.
  Lemma area_at s i x : pfx s c0 -> nth_error (cf_areas s) i = Some x -> exists a0 ft, nth_error (cf_areas c0) i = Some a0 /\ nth_error fates i = Some ft /\ fa_tag a0 = fa_tag x /\ fa_type a0 = fa_type x /\
    ((ft = Some a0 /\ fa_changed a0 = false) \/
       (exists a', ft = Some a' /\ fa_changed a' = true /\ fa_tag a' = fa_tag a0 /\ goodarea (cf_akas c0) nodes0 a' /\ fa_type a0 <> AREATYPE_LOCAL) \/
       (ft = None /\ fa_type a0 <> AREATYPE_LOCAL)).
  Proof using Hfates.
    intros (_ & _ & _ & P) H. assert (E : nth_error (map akey (cf_areas s)) i = Some (akey x)) by (rewrite nth_error_map, H; reflexivity).
    apply (ext_nth _ _ _ _ P) in E. rewrite nth_error_map in E. destruct (nth_error (cf_areas c0) i) as [a0|] eqn:E0; [|discriminate]. cbn in E. injection E as Ea Eb.
    destruct (F2_nth _ _ _ Hfates i a0 E0) as (ft & E1 & Hc). exists a0, ft. auto.
  Qed.
  Lemma sim_addr s t u : pfx s c0 -> sim s t u -> map fn_node (cf_nodes t) = map fn_node (cf_nodes s).
  Proof using Hnodes.
    intros P H. rewrite (s_nodes _ _ _ H). apply imgN_addr.
    - rewrite len_N1. destruct P as (_ & _ & (r & E) & _). apply (f_equal (@length _)) in E. rewrite app_length, !map_length in E. lia.
    - intros i x y Hx Hy. destruct (node_at s i x P Hx) as (n0 & n1 & _ & E1 & _ & E2 & _). congruence.
  Qed.
  Lemma u_addr s t u : sim s t u -> map fn_node (cf_nodes (us_conf u)) = nodes0.
  Proof using Hnodes.
    intros H. rewrite (s_unodes _ _ _ H), map_app, map_map. cbn [doneN fn_node]. rewrite <- map_app, firstn_skipn. unfold nodes0, N1.
    apply (F2_map _ _ _ _ _ Hnodes). intros x y [[-> _]|(_ & E & _)]; auto.
  Qed.

  Definition step (s' t : fconf) (u : ustate) (l : list Z) : Prop :=
    exists u' out t', updline u l = Some (u', out) /\ blk2 t out t' (filter foreign [l]) /\ sim s' t' u' /\ (allsame -> out = l).
  Lemma foreign_cls l w ok src : tok 30 l = (w, ok, src) -> foreign l = ok && negb (inA w || kw w "LOCALAREA") && negb (inN w).
  Proof using Type. intros E. unfold foreign. rewrite about_area, about_node. unfold blank, keyword. rewrite E. cbn [fst snd]. rewrite negb_involutive. reflexivity. Qed.

  Lemma step_neutral s t u l w ok src s' ra rp ro : pfx s c0 -> sim s t u -> wline l -> tok 30 l = (w, ok, src) ->
    isH w = false -> kw w "NODE" = false -> inA w = false -> inN w = false -> kw w "LOCALAREA" = false ->
    s' = FC (cf_akas s ++ ra) (cf_packers s ++ rp) (cf_nodes s) (cf_areas s) (cf_other s ++ ro) -> (w = [] -> ra = [] /\ rp = [] /\ ro = []) ->
    (forall d, cf_akas d = cf_akas s -> cf_packers d = cf_packers s -> cf_other d = cf_other s -> map fn_node (cf_nodes d) = map fn_node (cf_nodes s) ->
         rdline d l = ROk (FC (cf_akas d ++ ra) (cf_packers d ++ rp) (cf_nodes d) (cf_areas d) (cf_other d ++ ro))) -> step s' t u l.
  Proof using Hnodes Hfates.
    intros P H Hl Et K1 K2 K3 K4 K5 -> K6 K7. unfold step, updline. rewrite Et. fold (isH w). rewrite K1, K2. cbn [obind fst snd]. fold (inA w) (inN w). rewrite K3, K4. cbn [orb app].
    pose proof (sim_addr s t u P H) as Ha.
    destruct ((us_skiparea u && negb ok) || (us_skipnode u && negb ok)) eqn:Ed.
    - assert (ok = false) as -> by (destruct ok; auto; cbn in Ed; rewrite !andb_false_r in Ed; discriminate).
      assert (w = []) as ->. { destruct w as [|z w']; auto. exfalso. pose proof (tok_word 30 l _ _ _ (wline_cstring _ Hl) ltac:(lia) Et ltac:(discriminate)). discriminate. }
      destruct (K6 eq_refl) as (-> & -> & ->). exists u, [], t. split; auto. split; [|split].
      + cbn [filter]. rewrite (foreign_cls l _ _ _ Et). cbn [andb]. apply blk2_nil.
      + rewrite !app_nil_r. destruct H. constructor; cbn [cf_akas cf_packers cf_nodes cf_areas cf_other]; auto.
      + intros Hs. exfalso. rewrite (s_skA _ _ _ H), (s_skN _ _ _ H), (same_skN Hs), (same_skA Hs) in Ed; [discriminate|].
        rewrite len_fates. destruct P as (_ & _ & _ & (r & E)). apply (f_equal (@length _)) in E. rewrite app_length, !map_length in E. lia.
    - exists u, l. eexists. split; [reflexivity|]. split; [apply blk2_line; auto; apply K7; destruct H; auto|]. split; auto.
      destruct H. constructor; cbn [cf_akas cf_packers cf_nodes cf_areas cf_other]; auto; congruence.
  Qed.

  Lemma word_ok l w ok src k : wline l -> tok 30 l = (w, ok, src) -> kw w k = true -> lit k <> [] -> ok = true.
  Proof using Type.
    intros Hl Et Hk Hn. eapply tok_word; [apply wline_cstring, Hl| |exact Et|]; [lia|]. intros ->. unfold kw, streqi in Hk. apply streq_eq in Hk. destruct (lit k); [congruence|discriminate].
  Qed.
  Lemma inN_ok l w ok src : wline l -> tok 30 l = (w, ok, src) -> inN w = true -> ok = true.
  Proof using Type.
    intros Hl Et Hk. eapply tok_word; [apply wline_cstring, Hl| |exact Et|]; [lia|]. intros ->. discriminate.
  Qed.
  Lemma inA_ok l w ok src : wline l -> tok 30 l = (w, ok, src) -> inA w = true -> ok = true.
  Proof using Type.
    intros Hl Et Hk. eapply tok_word; [apply wline_cstring, Hl| |exact Et|]; [lia|]. intros ->. discriminate.
  Qed.
  Lemma isH_ok l w ok src : wline l -> tok 30 l = (w, ok, src) -> isH w = true -> ok = true.
  Proof using Type.
    intros Hl Et Hk. eapply tok_word; [apply wline_cstring, Hl| |exact Et|]; [lia|]. intros ->. discriminate.
  Qed.
  Lemma len_s s : pfx s c0 -> (length (cf_areas s) <= length fates)%nat.
  Proof using Hfates.
    intros (_ & _ & _ & (r & E)). rewrite len_fates. apply (f_equal (@length _)) in E. rewrite app_length, !map_length in E. lia.
  Qed.
  Lemma pfx_areas s d : pfx s c0 -> cf_areas d = cf_areas s -> cf_akas d = cf_akas s -> cf_packers d = cf_packers s -> map fn_node (cf_nodes d) = map fn_node (cf_nodes s) -> pfx d c0.
  Proof using Type. unfold pfx. intros H -> -> -> ->. exact H. Qed.

  Lemma step_nsub s t u l w ok src s' g nl : pfx s c0 -> sim s t u -> wline l -> tok 30 l = (w, ok, src) ->
    isH w = false -> kw w "NODE" = false -> inA w = false -> inN w = true -> kw w "LOCALAREA" = false ->
    onlast g (cf_nodes s) = Some nl -> s' = setnodes s nl -> (forall x y, g x = Some y -> fn_node y = fn_node x /\ fn_changed y = fn_changed x) ->
    (forall d, cf_nodes d <> [] -> rdline d l = rof (lastnode g d)) -> step s' t u l.
  Proof using Hnodes Hfates.
    intros P H Hl Et K1 K2 K3 K4 K5 Ho -> Hg K7. unfold step, updline. rewrite Et. fold (isH w). rewrite K1, K2. cbn [obind fst snd]. fold (inA w) (inN w). rewrite K3, K4. cbn [orb app].
    rewrite (inN_ok _ _ _ _ Hl Et K4) in *. cbn [negb]. rewrite andb_false_r, andb_true_r. cbn [orb].
    assert (Ef : filter foreign [l] = []) by (cbn [filter]; rewrite (foreign_cls l _ _ _ Et), K4, andb_false_r; reflexivity). rewrite Ef.
    apply onlast_inv in Ho as (l0 & x & y & El & Hx & ->).
    destruct (node_at s (length l0) x P) as (n0 & n1 & _ & E1 & _ & _ & _); [rewrite El; apply nth_at|].
    pose proof (s_nodes _ _ _ H) as Hn. rewrite El in Hn. rewrite (imgN_snoc l0 x n1 N1 E1) in Hn.
    assert (Hsk : us_skipnode u = fn_changed n1). { rewrite (s_skN _ _ _ H), El, app_length, Nat.add_comm. cbn [length Nat.add skN]. rewrite E1. reflexivity. }
    rewrite Hsk. destruct (fn_changed n1) eqn:Ec.
    - exists u, [], t. split; auto. split; [apply blk2_nil|]. split.
      + destruct H. constructor; cbn [cf_akas cf_packers cf_nodes cf_areas cf_other setnodes]; auto.
        * rewrite (imgN_snoc l0 y n1 N1 E1), Ec. exact Hn.
        * rewrite s_unodes0, El, !app_length. reflexivity.
        * rewrite s_skN0, El, !app_length. reflexivity.
      + intros Hs. exfalso. rewrite (s_skN _ _ _ H), (same_skN Hs) in Hsk. discriminate.
    - exists u, l. eexists. split; [reflexivity|]. split.
      + rewrite <- Ef. apply blk2_line; auto. rewrite K7 by (rewrite Hn; destruct (imgN l0 N1); discriminate). unfold lastnode. rewrite Hn, onlast_app, Hx. cbn [obind rof]. reflexivity.
      + split; auto. destruct H. constructor; cbn [cf_akas cf_packers cf_nodes cf_areas cf_other setnodes]; auto.
        * rewrite (imgN_snoc l0 y n1 N1 E1), Ec. reflexivity.
        * rewrite s_unodes0, El, !app_length. reflexivity.
        * rewrite s_skN0, El, !app_length. reflexivity.
  Qed.
  Lemma step_asub s t u l w ok src s' g al : pfx s c0 -> sim s t u -> wline l -> tok 30 l = (w, ok, src) ->
    isH w = false -> kw w "NODE" = false -> inA w = true -> inN w = false -> kw w "LOCALAREA" = false ->
    onlast g (cf_areas s) = Some al -> s' = setareas s al -> (forall x y, g x = Some y -> fa_tag y = fa_tag x /\ fa_type y = fa_type x /\ fa_changed y = fa_changed x) ->
    (forall d, map fn_node (cf_nodes d) = map fn_node (cf_nodes s) -> rdline d l = rof (lastarea g d)) -> step s' t u l.
  Proof using Hnodes Hfates.
    intros P H Hl Et K1 K2 K3 K4 K5 Ho -> Hg K7. unfold step, updline. rewrite Et. fold (isH w). rewrite K1, K2. cbn [obind fst snd]. fold (inA w) (inN w). rewrite K3, K4. cbn [orb app].
    rewrite (inA_ok _ _ _ _ Hl Et K3) in *. cbn [negb]. rewrite andb_false_r, andb_true_r, orb_false_r.
    assert (Ef : filter foreign [l] = []) by (cbn [filter]; rewrite (foreign_cls l _ _ _ Et), K3; cbn [orb negb]; rewrite andb_false_r; reflexivity). rewrite Ef.
    pose proof (sim_addr s t u P H) as Ha.
    apply onlast_inv in Ho as (l0 & x & y & El & Hx & ->).
    destruct (area_at s (length l0) x P) as (a0 & ft & E0 & E1 & _ & _ & Hft); [rewrite El; apply nth_at|].
    pose proof (s_areas _ _ _ H) as Hn. rewrite El in Hn. rewrite (imgA_snoc l0 x ft fates E1) in Hn.
    assert (Hsk : us_skiparea u = match ft with Some a => fa_changed a | None => true end). { rewrite (s_skA _ _ _ H), El, app_length, Nat.add_comm. cbn [length Nat.add skA]. rewrite E1. reflexivity. }
    rewrite Hsk. destruct (match ft with Some a => fa_changed a | None => true end) eqn:Ec.
    - exists u, [], t. split; auto. split; [apply blk2_nil|]. split.
      + destruct H. constructor; cbn [cf_akas cf_packers cf_nodes cf_areas cf_other setareas]; auto.
        * rewrite (imgA_snoc l0 y ft fates E1), Hn. f_equal. destruct ft as [a|]; cbn [imgA1]; [rewrite Ec|]; reflexivity.
        * rewrite s_uareas0, El, !app_length. reflexivity.
        * rewrite s_skA0, El, !app_length. reflexivity.
      + intros Hs. exfalso. rewrite (s_skA _ _ _ H), (same_skA Hs) in Hsk; [discriminate|]. apply len_s; auto.
    - destruct ft as [a|]; [|discriminate]. cbn [imgA1] in Hn. rewrite Ec in Hn.
      exists u, l. eexists. split; [reflexivity|]. split.
      + rewrite <- Ef. apply blk2_line; auto. rewrite K7 by auto. unfold lastarea. rewrite Hn, onlast_app, Hx. cbn [obind rof]. reflexivity.
      + split; auto. destruct H. constructor; cbn [cf_akas cf_packers cf_nodes cf_areas cf_other setareas]; auto.
        * rewrite (imgA_snoc l0 y _ fates E1). cbn [imgA1]. rewrite Ec. reflexivity.
        * rewrite s_uareas0, El, !app_length. reflexivity.
        * rewrite s_skA0, El, !app_length. reflexivity.
  Qed.

  Lemma step_node s t u l w ok src s' x pre post : pfx s' c0 -> sim s t u -> wline l -> ls = pre ++ l :: post -> rdlines pre empty = ROk s -> tok 30 l = (w, ok, src) ->
    kw w "NODE" = true -> s' = setnodes s (cf_nodes s ++ [x]) -> fn_changed x = false ->
    snd (fst (tok 200 src)) = true -> Parse4D (fst (fst (tok 200 src))) = Some (fn_node x) ->
    (forall d, cf_packers d = cf_packers s -> rdline d l = ROk (setnodes d (cf_nodes d ++ [x]))) -> step s' t u l.
  Proof using Hnodes Hfates Hshort Habove Hdn Hpackers.
    intros P H Hl El Hpre Et K -> Hx Hok Hp K7. unfold step, updline. rewrite Et. fold (isH w). rewrite (isH_kw _ _ K), K. change (isH (lit "NODE")) with false. cbv iota. cbn [obind fst snd].
    set (k := length (cf_nodes s)).
    destruct (node_at _ k x P) as (n0 & n1 & E0 & E1 & A0 & A1 & Hc); [cbn [cf_nodes setnodes]; apply nth_at|].
    assert (Harg : argument l = fst (fst (tok 200 src))) by (unfold argument; rewrite Et; reflexivity).
    assert (Hkey : keyword l = w) by (unfold keyword; rewrite Et; reflexivity).
    assert (Hnh : nodeheading l = true) by (unfold nodeheading; rewrite Hkey; exact K).
    assert (Hlen : (length (fst (fst (tok 200 src))) <= 98)%nat). { rewrite <- Harg. apply (Hshort l); [rewrite El; apply in_or_app; right; left; reflexivity|exact Hnh]. }
    pose proof (tok30_cstring _ _ _ _ Hl Et) as Hsrc.
    pose proof (tok100 src Hsrc Hlen) as E100.
    assert (Ef : filter foreign [l] = []). { cbn [filter]. rewrite (foreign_cls l _ _ _ Et). rewrite (inN_kw _ _ K). change (inN (lit "NODE")) with true. cbn [negb]. rewrite andb_false_r. reflexivity. }
    rewrite Ef. destruct (tok 200 src) as [[b o] r] eqn:E2. cbn [fst snd] in *. subst o.
    destruct (skipn_nth _ _ _ E1) as [Esk Efn].
    assert (Lk : length (map doneN (firstn k N1)) = k). { rewrite map_length, firstn_length. assert (k < length N1)%nat by (apply nth_error_Some; congruence). lia. }
    assert (Hu : cf_nodes (us_conf u) = map doneN (firstn k N1) ++ n1 :: skipn (S k) N1) by (rewrite (s_unodes _ _ _ H); fold k; rewrite Esk; reflexivity).
    assert (Hfind : findpos (fun z => Compare4D (fn_node x) (fn_node z) =? 0) (cf_nodes (us_conf u)) = Some k).
    { rewrite Hu. rewrite <- Lk at 3. apply findpos_at; [|rewrite A1, compare_refl; reflexivity].
      apply Forall_forall. intros z Hz. apply in_map_iff in Hz as (z0 & <- & Hz). cbn [doneN fn_node]. apply In_nth_error in Hz as (j & Hj).
      assert (Hjk : (j < k)%nat). { apply nth_error_Some_lt in Hj. rewrite firstn_length in Hj. lia. }
      assert (Hj' : nth_error N1 j = Some z0). { rewrite <- (firstn_skipn k N1). rewrite nth_error_app1; [exact Hj|]. apply nth_error_Some. congruence. }
      destruct (F2_nth' _ _ _ Hnodes j z0 Hj') as (z1 & Hz1 & Hcz). assert (fn_node z0 = fn_node z1) as -> by (destruct Hcz as [[-> _]|(_ & -> & _)]; reflexivity).
      destruct (Z.eqb_spec (Compare4D (fn_node x) (fn_node z1)) 0) as [Ez|]; [|reflexivity]. exfalso. rewrite <- A0 in Ez. pose proof (Hdn k j n0 z1 E0 Hz1 Ez). lia. }
    assert (Hnth : nth_error (cf_nodes (us_conf u)) k = Some n1) by (rewrite Hu; rewrite <- Lk at 3; apply nth_at).
    assert (Hupd : updnth doneN k (cf_nodes (us_conf u)) = map doneN (firstn (S k) N1) ++ skipn (S k) N1).
    { rewrite Hu. rewrite <- Lk at 1. rewrite updnth_at, Efn, map_app, <- app_assoc. reflexivity. }
    unfold updnode. rewrite E100. cbv beta iota. rewrite Hp, Hfind, Hnth. cbn [obind].
    destruct (fn_changed n1) eqn:Ec.
    - destruct Hc as [[_ Hc]|[_ Hgood]]; [congruence|]. rewrite (s_upk _ _ _ H).
      destruct (node_block okother (cf_packers c0) n1 t Hgood) as (tx & Etx & B).
      { intros i sp Hi Hsp. rewrite (s_pk _ _ _ H).
        assert (Hlt : (i < length (cf_packers s))%nat).
        { destruct (rdlines_counts okother pre _ _ Hpre) as (_ & -> & _). cbn [empty cf_packers length Nat.add].
          destruct (Habove pre l post El) as [_ Hab]. eapply (Hab Hnh n1 i); auto; [apply nth_error_In in E1; exact E1|]. rewrite Harg, A1. exact Hp. }
        destruct P as (_ & Ppk & _). cbn [cf_packers setnodes] in Ppk. split; [eapply ext_nth'; eauto|].
        intros j tj Hj Htj. destruct Hgood as (_ & _ & Hpk & _). rewrite Hi in Hpk. cbn [packer_ok] in Hpk. destruct Hpk as (sp' & Esp & _ & _ & Huq). rewrite Hsp in Esp. injection Esp as <-.
        eapply Huq; [exact Hj|]. eapply ext_nth; eauto. }
      rewrite Etx. cbn [obind fst snd us_skiparea us_skipnode app]. fold (inA w) (inN w). rewrite (inN_kw _ _ K). change (inN (lit "NODE")) with true. cbn [orb andb]. rewrite orb_true_r, app_nil_r.
      eexists _, _, _. split; [reflexivity|]. split; [apply blk2_blk; eapply blk_app; [exact B|apply blk_empty]|]. split.
      + destruct H. constructor; cbn [cf_akas cf_packers cf_nodes cf_areas cf_other setnodes us_conf us_skiparea us_skipnode]; auto.
        * rewrite (imgN_snoc _ x n1 N1 E1), Ec, s_nodes0. reflexivity.
        * rewrite Hupd, app_length, Nat.add_comm. reflexivity.
        * rewrite app_length, Nat.add_comm. cbn [length Nat.add skN]. fold k. rewrite E1. auto.
      + intros [_ Hs]. rewrite Forall_forall in Hs. apply nth_error_In in E1. rewrite (Hs _ E1) in Ec. discriminate.
    - destruct Hc as [[-> _]|[Hc _]]; [|congruence].
      cbn [obind fst snd us_skiparea us_skipnode app]. fold (inA w). rewrite (inA_kw _ _ K). change (inA (lit "NODE")) with false. rewrite (word_ok _ _ _ _ _ Hl Et K) by discriminate. cbn [orb andb negb]. rewrite andb_false_r. cbn [orb].
      eexists _, l, _. split; [reflexivity|]. split; [rewrite <- Ef; apply blk2_line; auto; apply K7; apply (s_pk _ _ _ H)|]. split; auto.
      destruct H. constructor; cbn [cf_akas cf_packers cf_nodes cf_areas cf_other setnodes us_conf us_skiparea us_skipnode]; auto.
      + rewrite (imgN_snoc _ x n0 N1 E1), Ec, s_nodes0. reflexivity.
      + rewrite Hu, app_length, Nat.add_comm. cbn [length Nat.add]. fold k. rewrite Efn, map_app, <- app_assoc. cbn [map app]. rewrite (doneN_same _ Ec). reflexivity.
      + rewrite app_length, Nat.add_comm. cbn [length Nat.add skN]. fold k. rewrite E1. auto.
  Qed.

  Lemma isH_more w : isH w = true -> kw w "NODE" = false /\ inN w = false /\ (kw w "LOCALAREA" = false -> inA w = true) /\ inA w || kw w "LOCALAREA" = true.
  Proof using Type.
    unfold isH. intros H. apply orb_true_iff in H as [H|H]; [apply orb_true_iff in H as [H|H]|]; rewrite ?(kw_kw _ _ "NODE" H), ?(inN_kw _ _ H), ?(inA_kw _ _ H), ?H; repeat split; auto.
  Qed.
  (** the tags of the areas in front and behind *)
  Lemma tag_others k a0 : nth_error (cf_areas c0) k = Some a0 ->
    Forall (fun a => streqi (fa_tag a0) (fa_tag a) = false) (map doneA (flat_map olist (firstn k fates))) /\
    Forall (fun a => streqi (fa_tag a0) (fa_tag a) = false) (flat_map olist (skipn (S k) fates) ++ news).
  Proof using Hfates Hdt.
    intros Ha. assert (Hlt : (k < length (cf_areas c0))%nat) by (eapply nth_error_Some_lt; eauto).
    assert (X : forall j a, j <> k -> nth_error fates j = Some (Some a) -> streqi (fa_tag a0) (fa_tag a) = false).
    { intros j a Hj E. destruct (F2_nth' _ _ _ Hfates j _ E) as (b & Eb & Hb). assert (fa_tag a = fa_tag b) as ->.
      { destruct Hb as [[Hb _]|[(a' & Hb & _ & Ht & _)|[Hb _]]]; [congruence|congruence|discriminate]. }
      destruct (streqi (fa_tag a0) (fa_tag b)) eqn:Es; [|reflexivity]. exfalso. apply Hj. symmetry. apply (Hdt k j a0 b); auto; rewrite nth_error_app1; auto. eapply nth_error_Some_lt; eauto. }
    split; [|apply Forall_app; split]; apply Forall_forall; intros z Hz.
    - apply in_map_iff in Hz as (z0 & <- & Hz). cbn [doneA fa_tag]. apply in_flat_map in Hz as (ft & Hft & Hz). destruct ft as [a|]; [|destruct Hz]. destruct Hz as [->|[]].
      apply In_nth_error in Hft as (j & Hj). pose proof (nth_error_Some_lt _ _ _ Hj) as Hjl. rewrite firstn_length in Hjl. apply (X j); [lia|]. rewrite <- (firstn_skipn k fates), nth_error_app1; [exact Hj|]. eapply nth_error_Some_lt; eauto.
    - apply in_flat_map in Hz as (ft & Hft & Hz). destruct ft as [a|]; [|destruct Hz]. destruct Hz as [->|[]].
      apply In_nth_error in Hft as (j & Hj). rewrite nth_skipn in Hj. apply (X (S k + j)%nat); [lia|exact Hj].
    - apply In_nth_error in Hz as (j & Hj). destruct (streqi (fa_tag a0) (fa_tag z)) eqn:Es; [|reflexivity]. exfalso.
      assert (k = length (cf_areas c0) + j)%nat; [|lia]. apply (Hdt k _ a0 z); auto; [rewrite nth_error_app1; auto|]. rewrite nth_error_app2 by lia. rewrite Nat.add_comm, Nat.add_sub. exact Hj.
  Qed.
  Lemma found_ext n a b i : ext a b -> (i < length a)%nat -> found n b i -> found n a i.
  Proof using Type.
    intros He Hi (F1 & F2 & F3). split; [eapply ext_nth'; eauto|]. split; auto. intros j m Hj Hm. apply (F3 j m Hj). eapply ext_nth; eauto.
  Qed.

  Lemma step_area s t u l w ok src s' x pre post : pfx s' c0 -> sim s t u -> wline l -> ls = pre ++ l :: post -> rdlines pre empty = ROk s -> tok 30 l = (w, ok, src) ->
    isH w = true -> s' = setareas s (cf_areas s ++ [x]) -> fa_changed x = false -> snd (fst (tok 80 src)) = true -> fa_tag x = fst (fst (tok 80 src)) ->
    (kw w "LOCALAREA" = true -> fa_type x = AREATYPE_LOCAL) ->
    (forall d, cf_akas d = cf_akas s -> rdline d l = ROk (setareas d (cf_areas d ++ [x]))) -> step s' t u l.
  Proof using Hnodes Hfates Hshort Habove Hdt Hakas Hareas.
    intros P H Hl El Hpre Et K -> Hx Hok Htag Hloc K7. unfold step, updline. rewrite Et. fold (isH w). rewrite K. destruct (isH_more w K) as (K1 & K2 & K3 & K4). rewrite K1.
    set (k := length (cf_areas s)).
    assert (Ps : pfx s c0).
    { destruct P as (P1 & P2 & P3 & P4). cbn [cf_areas cf_akas cf_packers cf_nodes setareas] in *. repeat split; auto. eapply ext_trans; [|exact P4]. rewrite map_app. apply ext_app. }
    destruct (area_at _ k x P) as (a0 & ft & E0 & E1 & T0 & T1 & Hc); [cbn [cf_areas setareas]; apply nth_at|].
    assert (Harg : argument l = fst (fst (tok 200 src))) by (unfold argument; rewrite Et; reflexivity).
    assert (Hkey : keyword l = w) by (unfold keyword; rewrite Et; reflexivity).
    assert (Hnh : areaheading l = true) by (unfold areaheading; rewrite Hkey; exact K).
    assert (Hlen : (length (fst (fst (tok 200 src))) <= 79)%nat). { rewrite <- Harg. apply (Hshort l); [rewrite El; apply in_or_app; right; left; reflexivity|exact Hnh]. }
    pose proof (tok30_cstring _ _ _ _ Hl Et) as Hsrc.
    destruct (tok80 src Hsrc Hlen) as [E100 E80]. rewrite E80 in *. clear E80.
    assert (Ef : filter foreign [l] = []). { cbn [filter]. rewrite (foreign_cls l _ _ _ Et), K4. cbn [negb]. rewrite andb_false_r. reflexivity. }
    rewrite Ef. destruct (tok 200 src) as [[b o] r] eqn:E2. cbn [fst snd] in *. subst o. subst b.
    destruct (skipn_nth _ _ _ E1) as [Esk Efn].
    destruct (tag_others k a0 E0) as [O1 O2]. rewrite T0 in O1, O2.
    assert (Hu : cf_areas (us_conf u) = map doneA (flat_map olist (firstn k fates)) ++ olist ft ++ flat_map olist (skipn (S k) fates) ++ news).
    { rewrite (s_uareas _ _ _ H); fold k; rewrite Esk. cbn [flat_map]. rewrite <- app_assoc. reflexivity. }
    unfold updarea. rewrite E100. cbv beta iota. fold (inA w) (inN w). rewrite K2. rewrite (isH_ok _ _ _ _ Hl Et K). cbn [negb orb]. rewrite orb_false_r.
    assert (Hsk : length (cf_areas s ++ [x]) = S k) by (rewrite app_length, Nat.add_comm; reflexivity).
    assert (Hnl : fa_type a0 <> AREATYPE_LOCAL -> inA w = true).
    { intros Hn. apply K3. destruct (kw w "LOCALAREA") eqn:E; [|reflexivity]. exfalso. apply Hn. rewrite T1. auto. }
    destruct Hc as [[-> Hc]|[(a' & -> & Hc & Ht & Hgood & Hty)|[-> Hty]]].
    - (* unchanged *)
      cbn [olist app] in Hu. rewrite Hu, findpos_at, nth_at by (auto; rewrite T0; apply streqi_refl). cbn [obind]. rewrite Hc. cbn [obind fst snd us_skiparea us_skipnode app andb orb]. rewrite andb_false_r.
      eexists _, l, _. split; [reflexivity|]. split; [rewrite <- Ef; apply blk2_line; auto; apply K7; apply (s_akas _ _ _ H)|]. split; auto.
      destruct H. constructor; cbn [cf_akas cf_packers cf_nodes cf_areas cf_other setareas us_conf us_skiparea us_skipnode]; auto.
      + rewrite (imgA_snoc _ x _ fates E1), s_areas0. cbn [imgA1]. rewrite Hc. reflexivity.
      + rewrite Hu, Hsk, Efn, flat_map_app, map_app, <- app_assoc. cbn [flat_map olist map app]. rewrite (doneA_same _ Hc). reflexivity.
      + rewrite Hsk. cbn [skA]. rewrite E1. auto.
    - (* changed *)
      cbn [olist app] in Hu. rewrite Hu, findpos_at, nth_at by (auto; rewrite Ht, T0; apply streqi_refl). cbn [obind]. rewrite Hc. rewrite (s_uakas _ _ _ H), (u_addr _ _ _ H).
      destruct (area_block okother (cf_akas c0) nodes0 a' t Hgood) as (tx & Etx & B).
      { destruct (rdlines_counts okother pre _ _ Hpre) as (C1 & _ & C3). cbn [empty cf_akas cf_nodes length Nat.add] in C1, C3.
        destruct (Habove pre l post El) as [Hab _]. destruct (Hab Hnh a') as (B1 & B2 & B3); auto.
        - rewrite Hareas. apply in_or_app. left. apply in_flat_map. exists (Some a'). split; [eapply nth_error_In; eauto|left; reflexivity].
        - rewrite Harg, Ht, T0. apply streqi_refl.
        - unfold knows. rewrite (s_akas _ _ _ H), (sim_addr s t u Ps H). destruct Ps as (P1 & _ & P3 & _). split; [|split].
          + intros n. apply found_ext; auto. rewrite C1. exact B1.
          + intros i f n Hi. apply found_ext; auto. rewrite map_length. rewrite C3. exact (B2 i f Hi).
          + intros i n Hi. apply found_ext; auto. rewrite map_length. rewrite C3. exact (B3 i Hi). }
      rewrite Etx. cbn [obind fst snd us_skiparea us_skipnode app]. rewrite (Hnl Hty). cbn [andb orb]. rewrite app_nil_r.
      eexists _, _, _. split; [reflexivity|]. split; [apply blk2_blk; eapply blk_app; [exact B|apply blk_empty]|]. split.
      + destruct H. constructor; cbn [cf_akas cf_packers cf_nodes cf_areas cf_other setareas us_conf us_skiparea us_skipnode]; auto.
        * rewrite (imgA_snoc _ x _ fates E1), s_areas0. cbn [imgA1]. rewrite Hc. reflexivity.
        * rewrite updnth_at, Hsk, Efn, flat_map_app, map_app, <- app_assoc. reflexivity.
        * rewrite Hsk. cbn [skA]. rewrite E1. auto.
      + intros [Hs _]. rewrite Forall_forall in Hs. apply nth_error_In in E1. destruct (Hs _ E1) as (a & Ea & Hca). injection Ea as <-. congruence.
    - (* removed *)
      cbn [olist app] in Hu. rewrite Hu, findpos_none by (apply Forall_app; auto). cbn [obind fst snd us_skiparea us_skipnode app andb]. rewrite (Hnl Hty). cbn [andb orb].
      eexists _, [], t. split; [reflexivity|]. split; [apply blk2_nil|]. split.
      + destruct H. constructor; cbn [cf_akas cf_packers cf_nodes cf_areas cf_other setareas us_conf us_skiparea us_skipnode]; auto.
        * rewrite (imgA_snoc _ x _ fates E1), s_areas0. cbn [imgA1]. rewrite app_nil_r. reflexivity.
        * rewrite Hu, Hsk, Efn, flat_map_app, map_app, <- app_assoc. reflexivity.
        * rewrite Hsk. cbn [skA]. rewrite E1. auto.
      + intros [Hs _]. rewrite Forall_forall in Hs. apply nth_error_In in E1. destruct (Hs _ E1) as (a & Ea & _). discriminate.
  Qed.

  Lemma step_any s t u l s' pre post : sim s t u -> ls = pre ++ l :: post -> rdlines pre empty = ROk s -> rdline s l = ROk s' -> pfx s' c0 -> step s' t u l.
  Proof using Hnodes Hfates Hshort Habove Hdt Hakas Hareas Hdn Hpackers Hw.
    intros H El Hpre Hr P. assert (Ps : pfx s c0) by (eapply pfx_trans; [eapply rdline_pfx; eauto|auto]).
    assert (Hl : wline l) by (rewrite Forall_forall in Hw; apply Hw; rewrite El; apply in_or_app; right; left; reflexivity).
    destruct (tok 30 l) as [[w ok] src] eqn:Et. pose proof (rdline_cls okother s l w ok src s' Et Hr) as C. destruct C.
    - eapply step_neutral; eauto.
    - eapply step_node; eauto.
    - eapply step_nsub; eauto.
    - eapply step_area; eauto.
    - eapply step_asub; eauto.
  Qed.
  Lemma sim_lines post : forall pre s t u, sim s t u -> ls = pre ++ post -> rdlines pre empty = ROk s -> rdlines post s = ROk c0 ->
    exists u' out t', updlines u post = Some (u', out) /\ blk2 t out t' (filter foreign post) /\ sim c0 t' u' /\ (allsame -> out = concat post).
  Proof using Hnodes Hfates Hshort Habove Hdt Hakas Hareas Hdn Hpackers Hw.
    induction post as [|l post IH]; intros pre s t u H El Hpre Hr.
    - cbn in Hr. injection Hr as ->. exists u, [], t. split; [reflexivity|]. split; [apply blk2_nil|]. auto.
    - cbn [M_Upd.rdlines] in Hr. destruct (rdline s l) as [s'| |] eqn:E; try discriminate.
      destruct (step_any s t u l s' pre post H El Hpre E (rdlines_pfx _ _ _ _ Hr)) as (u1 & o1 & t1 & U1 & B1 & S1 & Z1).
      destruct (IH (pre ++ [l]) s' t1 u1 S1) as (u2 & o2 & t2 & U2 & B2 & S2 & Z2); auto; [rewrite <- app_assoc; exact El|rewrite rdlines_app, Hpre; cbn; rewrite E; reflexivity|].
      exists u2, (o1 ++ o2), t2. cbn [updlines]. rewrite U1. cbn [obind fst snd]. rewrite U2. cbn [obind fst snd]. split; auto. split.
      + replace (filter foreign (l :: post)) with (filter foreign [l] ++ filter foreign post) by (cbn [filter]; destruct (foreign l); reflexivity). eapply blk2_app; eauto.
      + split; auto. intros Ha. cbn [concat]. rewrite Z1, Z2 by auto. reflexivity.
  Qed.
  Lemma updnew_done akas nodes l : forall r, updnew akas nodes (map doneA l ++ r) = updnew akas nodes r.
  Proof using Type. induction l as [|a l IH]; intros r; cbn [map app updnew]; [reflexivity|]. cbn [doneA fa_changed obind]. rewrite IH. destruct (updnew akas nodes r); reflexivity. Qed.
  Lemma new_areas l : forall t, Forall (fun a => fa_changed a = true /\ goodarea (cf_akas c0) nodes0 a) l -> cf_akas t = cf_akas c0 -> map fn_node (cf_nodes t) = nodes0 ->
    exists out, updnew (cf_akas c0) nodes0 l = Some out /\ blk2 t out (setareas t (cf_areas t ++ map doneA l)) [].
  Proof using Type.
    induction l as [|a l IH]; intros t H Ea En; cbn [updnew].
    - exists []. split; auto. rewrite app_nil_r. destruct t; apply blk2_nil.
    - inversion H as [|? ? [Hc Hg] Hr]; subst. rewrite Hc. destruct (area_block okother (cf_akas c0) nodes0 a t Hg) as (tx & Etx & B).
      { unfold knows. rewrite Ea, En. split; [|split]; auto. }
      destruct (IH (setareas t (cf_areas t ++ [doneA a])) Hr Ea En) as (out & Eo & B2). rewrite Etx. cbn [obind]. rewrite Eo. cbn [obind]. eexists. split; [reflexivity|].
      replace (@nil (list Z)) with (@nil (list Z) ++ []) by reflexivity. eapply blk2_app.
      + apply blk2_blk. apply (blk_app okother t [10] t tx); [apply blk_empty|exact B].
      + cbn [cf_areas setareas] in B2. rewrite <- app_assoc in B2. exact B2.
  Qed.
  Lemma imgN_all s : forall n1, Forall2 (fun n0 n1 => (n1 = n0 /\ fn_changed n1 = false) \/
                        (fn_changed n1 = true /\ fn_node n1 = fn_node n0 /\ goodnode (cf_packers c0) n1)) s n1 -> imgN s n1 = map doneN n1.
  Proof using Type.
    intros n1 H. induction H as [|a b l m Hab _ IH]; cbn [imgN map]; [reflexivity|]. rewrite IH. f_equal. destruct Hab as [[-> Hc]|(Hc & _)]; rewrite Hc; [symmetry; apply doneN_same; auto|reflexivity].
  Qed.
  Lemma imgA_all s : forall fs, Forall2 (fun a ft => (ft = Some a /\ fa_changed a = false) \/
       (exists a', ft = Some a' /\ fa_changed a' = true /\ fa_tag a' = fa_tag a /\ goodarea (cf_akas c0) nodes0 a' /\ fa_type a <> AREATYPE_LOCAL) \/
       (ft = None /\ fa_type a <> AREATYPE_LOCAL)) s fs -> imgA s fs = map doneA (flat_map olist fs).
  Proof using Type.
    intros fs H. induction H as [|a b l m Hab _ IH]; cbn [imgA flat_map map]; [reflexivity|]. rewrite IH, map_app. f_equal.
    destruct Hab as [[-> Hc]|[(a' & -> & Hc & _)|[-> _]]]; cbn [imgA1 olist map]; [rewrite Hc, doneA_same by auto; reflexivity|rewrite Hc; reflexivity|reflexivity].
  Qed.

  Theorem update_ok : cf_other c1 = cf_other c0 -> exists u out, updlines (US c1 false false) ls = Some (u, out) /\
    exists tail, updnew (cf_akas (us_conf u)) (map fn_node (cf_nodes (us_conf u))) (cf_areas (us_conf u)) = Some tail /\
      blk2 empty (out ++ tail) (done c1) (filter foreign ls) /\ (allsame -> out = concat ls) /\ (news = [] -> tail = []).
  Proof using Hnodes Hfates Hshort Habove Hdt Hakas Hareas Hdn Hpackers Hw Hread Hnews.
    intros Hother. destruct (sim_lines ls [] empty empty (US c1 false false)) as (u & out & t & U & B & S & Z); auto.
    { constructor; auto. }
    exists u, out. split; auto. rewrite (s_uakas _ _ _ S), (u_addr _ _ _ S), (s_uareas _ _ _ S).
    rewrite <- len_fates, firstn_all, skipn_all. cbn [flat_map app]. rewrite updnew_done.
    destruct (new_areas news t Hnews) as (tail & E & B2); [apply (s_akas _ _ _ S)|apply (sim_addr c0 t u); auto; apply pfx_refl|].
    exists tail. split; auto. split; [|split; [auto|intros ->; cbn in E; congruence]]. rewrite <- (app_nil_r (filter foreign ls)). replace (done c1) with (setareas t (cf_areas t ++ map doneA news)); [eapply blk2_app; eauto|].
    unfold done, setareas. rewrite (s_akas _ _ _ S), (s_pk _ _ _ S), (s_other _ _ _ S), (s_nodes _ _ _ S), (s_areas _ _ _ S), Hakas, Hpackers, Hother, Hareas.
    unfold N1. rewrite (imgN_all _ _ Hnodes), (imgA_all _ _ Hfates), map_app. reflexivity.
  Qed.
End Sim.
