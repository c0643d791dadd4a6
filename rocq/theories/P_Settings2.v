(** The settings of the configuration file: AKAs, filters and whole files. *)
From Verif Require Import Base M_Node4D M_Pat M_Str S_Str P_Str M_Mem M_Cfg M_Upd S_Upd P_UpdTok P_UpdCls P_UpdSim P_Export M_Filter M_Net M_Settings S_Settings P_Settings.

(** ** Blocks *)
Lemma blocks_head head ls bs h : blocks head ls bs -> head h = true -> blocks head (ls ++ [h]) (bs ++ [(h, [])]).
Proof.
  intros H Hh. induction H as [|h0 l0 rest bs H0 H1 H2 IH].
  - apply (bl_cons head h [] [] []); auto. constructor.
  - cbn [app]. rewrite <- app_assoc. apply bl_cons; auto.
Qed.
Lemma blocks_tail head ls bs h t l : blocks head ls (bs ++ [(h, t)]) -> head l = false -> blocks head (ls ++ [l]) (bs ++ [(h, t ++ [l])]).
Proof.
  intros H Hl. remember (bs ++ [(h, t)]) as all eqn:E. revert bs E. induction H as [|h0 l0 rest bs0 H0 H1 H2 IH]; intros bs E; [destruct bs; discriminate|].
  destruct bs as [|b bs]; cbn [app] in *.
  - injection E as -> -> ->. inversion H2; subst. rewrite app_nil_r. replace (h :: t ++ [l]) with (h :: (t ++ [l]) ++ []) by (rewrite app_nil_r; reflexivity). apply bl_cons; [exact H0|apply Forall_app; split; auto|constructor].
  - injection E as <- ->. rewrite <- app_assoc. apply bl_cons; auto.
Qed.
Lemma F2_snoc_inv {A B} (R : A -> B -> Prop) l x m : Forall2 R (l ++ [x]) m -> exists m' y, m = m' ++ [y] /\ Forall2 R l m' /\ R x y.
Proof. intros H. apply Forall2_app_inv_l in H as (m' & n & H1 & H2 & ->). inversion H2 as [|? y ? ? Hy Hn]; subst. inversion Hn; subst. exists m', y. auto. Qed.
(** a list whose last element the lines behind a heading change *)
Inductive bstep {A} (head about : list Z -> bool) (new : A -> list Z -> Prop) (chg : list Z -> A -> A -> Prop) (l : list Z) (a b : list A) : Prop :=
| bs_new x : head l = true -> about l = true -> b = a ++ [x] -> new x l -> bstep head about new chg l a b
| bs_chg l0 x y : head l = false -> about l = true -> a = l0 ++ [x] -> b = l0 ++ [y] -> chg l x y -> bstep head about new chg l a b
| bs_not : about l = false -> b = a -> bstep head about new chg l a b.
Lemma blocks_gen {A} (proj : sconf -> list A) head about (new : A -> list Z -> Prop) chg (V : A -> list Z * list (list Z) -> Prop) x0 : proj (snd x0) = [] ->
  (forall x l y, cstring l -> fullline x l = POk y -> bstep head about new chg l (proj (snd x)) (proj (snd y))) ->
  (forall x l, new x l -> V x (l, [])) -> (forall l x y h t, chg l x y -> V x (h, t) -> V y (h, t ++ [l])) ->
  forall ls z, Forall cstring ls -> fulllines ls x0 = POk z -> exists bs, blocks head (filter about ls) bs /\ Forall2 V (proj (snd z)) bs.
Proof.
  intros H0 Hs Hnew Hchg ls. induction ls as [|l ls IH] using rev_ind; intros z Hc H; [injection H as <-; exists []; rewrite H0; split; constructor|]. apply Forall_app in Hc as [Hc Hl].
  apply fulllines_snoc in H as (y & H1 & H2). destruct (IH _ Hc H1) as (bs & Hb & F). rewrite filter_app. cbn [filter].
  destruct (Hs _ _ _ (Forall_inv Hl) H2) as [x Hh Ha -> Hn|l0 x x' Hh Ha Ea -> Hx|Ha ->]; rewrite Ha.
  - exists (bs ++ [(l, [])]). split; [apply blocks_head; auto|]. apply Forall2_app; auto.
  - rewrite Ea in F. apply F2_snoc_inv in F as (m & [h t] & -> & F1 & F2). exists (m ++ [(h, t ++ [l])]). split; [apply blocks_tail; auto|]. apply Forall2_app; auto. constructor; [|constructor]. eauto.
  - exists bs. rewrite app_nil_r. auto.
Qed.

(** ** AKAs *)
Lemma not_base K l k : existsb (kw (lit K)) basekeys = false -> In k basekeys -> kw (keyword l) k = true -> says K l = false.
Proof. intros H Hi Hw. destruct (says K l) eqn:E; auto. change (kw (keyword l) K = true) in E. rewrite (kw_kw _ _ k E) in Hw. assert (existsb (kw (lit K)) basekeys = true) by (apply existsb_exists; eauto). congruence. Qed.
Lemma akas_step x l y : cstring l -> fullline x l = POk y ->
  bstep (says "AKA") aboutaka (fun a l => exists n w r, a = AKA n [] [] [] /\ args l = w :: r /\ Parse4D w = Some n) akaadd l (sc_akas (snd x)) (sc_akas (snd y)).
Proof.
  intros Hl H. assert (Hs : cstring (snd (tok 30 l))) by (apply tok_rest_cstring; auto; apply two_le). destruct (line_cases x l y Hl H) as [k Hi Hw Hna Hr Ey|n w r Hw Hr Hargs Hn Ey|k kd Hi Hw Hnb Hset Hsb|Hnone _ ->].
  - apply bs_not; [|rewrite Ey; reflexivity]. unfold aboutaka. rewrite (not_base "ADDNODE" l k), (not_base "REMNODE" l k), (not_base "DOMAIN" l k) by (auto; reflexivity). rewrite !orb_false_r. change (kw (keyword l) "AKA" = false). rewrite (kw_kw _ _ _ Hw). exact Hna.
  - eapply bs_new; [exact Hw|unfold aboutaka; change (says "AKA" l) with (kw (keyword l) "AKA"); rewrite Hw; reflexivity|rewrite Ey; reflexivity|eauto 6].
  - pose proof (akas_kind_step _ _ _ _ _ _ Hi Hw Hs Hset) as G.
    assert (Hh : says "AKA" l = false) by (change (kw (keyword l) "AKA" = false); exact (existsb_none _ _ Hnb "AKA"%string (or_introl eq_refl))).
    assert (Ha : aboutaka l = isaka kd).
    { unfold aboutaka. rewrite Hh. rewrite (kind_is "ADDNODE" (fun kd => match kd with CAdd => true | _ => false end) k kd l eq_refl Hi Hw), (kind_is "REMNODE" (fun kd => match kd with CRem => true | _ => false end) k kd l eq_refl Hi Hw), (kind_is "DOMAIN" (fun kd => match kd with CDomain => true | _ => false end) k kd l eq_refl Hi Hw). destruct kd; reflexivity. }
    destruct (isaka kd).
    + destruct G as (l0 & a & a' & E1 & E2 & E3). eapply bs_chg; eauto.
    + apply bs_not; auto.
  - apply bs_not; [|reflexivity]. assert (N : forall K, In K allkeys -> says K l = false) by (intros K HK; exact (Hnone K HK)). unfold aboutaka. rewrite !N; [reflexivity|..]; apply in_or_app; [right|right|right|left]; cbn; tauto.
Qed.
Lemma wordsof_snoc K t l : wordsof K (t ++ [l]) = wordsof K t ++ (if says K l then args l else []).
Proof. unfold wordsof. rewrite filter_app, flat_map_app. cbn [filter]. destruct (says K l); cbn [flat_map]; rewrite ?app_nil_r; reflexivity. Qed.
Lemma lastof_snoc P t l : lastof P (t ++ [l]) = if P l then Some l else lastof P t.
Proof. unfold lastof. rewrite rev_app_distr. reflexivity. Qed.
Lemma says_other K K' l : says K l = true -> kw (lit K) K' = false -> says K' l = false.
Proof. intros H E. change (kw (keyword l) K' = false). rewrite (kw_kw _ K _ H). exact E. Qed.
Lemma akablock_chg l a a' h t : akaadd l a a' -> akablock a (h, t) -> akablock a' (h, t ++ [l]).
Proof.
  intros H (B1 & B2 & B3 & B4). cbn [fst snd] in *. destruct H as [(K & it & -> & F)|[(K & it & -> & F)|(K & w & r & Ea & ->)]]; unfold akablock; cbn [fst snd ak_node ak_add ak_rem ak_domain]; rewrite !wordsof_snoc, lastof_snoc.
  - rewrite K, (says_other _ "REMNODE" l K eq_refl), (says_other _ "DOMAIN" l K eq_refl), !app_nil_r. split; [exact B1|]. split; [apply Forall2_app; auto|]. auto.
  - rewrite K, (says_other _ "ADDNODE" l K eq_refl), (says_other _ "DOMAIN" l K eq_refl), !app_nil_r. split; [exact B1|]. split; [auto|]. split; [apply Forall2_app; auto|]. auto.
  - rewrite K, (says_other _ "ADDNODE" l K eq_refl), (says_other _ "REMNODE" l K eq_refl), !app_nil_r. split; [exact B1|]. split; [auto|]. split; [auto|]. eauto.
Qed.

(** ** Filters *)
Definition cmdlist : list (String.string * Z) :=
  [("KILL", 1); ("TWIT", 2); ("COPY", 3); ("EXECUTE", 4); ("WRITELOG", 5); ("WRITEBAD", 6); ("BOUNCEMSG", 7); ("BOUNCEHEADER", 8); ("REMAPMSG", 9); ("MASQUERADE", 10)]%string.
Lemma cmd_entry k n : In (k, CCmd n) keytable -> In (k, n) cmdlist.
Proof.
  intros H. assert (E : forallb (fun e => match snd e with CCmd n => existsb (fun c => String.eqb (fst e) (fst c) && (n =? snd c)) cmdlist | _ => true end) keytable = true) by (vm_compute; reflexivity).
  rewrite forallb_forall in E. specialize (E _ H). cbn [fst snd] in E. apply existsb_exists in E as ([k' n'] & Hc & E). apply andb_true_iff in E as [E1 E2]. apply String.eqb_eq in E1. apply Z.eqb_eq in E2. cbn [fst snd] in *. subst. exact Hc.
Qed.
Lemma rdCmd_ok k n l c : In (k, n) cmdlist -> says k l = true -> cstring (snd (tok 30 l)) -> rdCmd n (snd (tok 30 l)) = POk c -> commandline c l.
Proof.
  intros Hi Hk Hs H. unfold cmdlist in Hi. cbn [In] in Hi.
  assert (P1 : forall k f, In (k, f) plaincommands -> says k l = true -> (try x <- arg 200 (snd (tok 30 l)); POk (f (fst x))) = POk c -> commandline c l).
  { intros k0 f Hf Hk0 G. pinv G. injection G as <-. destruct (arg_two _ _ Hs E) as [A1 _]. right. right. left. exists k0, f, (fst x), (allwords 200 (snd x)). auto. }
  assert (P2 : forall f, (forall w d, commandline (f w d) l \/ True) -> (try x <- arg 200 (snd (tok 30 l)); try y <- arg 200 (snd x); try d <- Parse4DDestPat (fst y); POk (f (fst x) d)) = POk c -> exists w p r d, args l = w :: p :: r /\ Parse4DDestPat p = POk d /\ c = f w d).
  { intros f _ G. pinv G. destruct (arg_two _ _ Hs E) as [A1 S1]. pinv G. destruct (arg_two _ _ S1 E0) as [A2 _]. pinv G. injection G as <-. exists (fst x), (fst x0), (allwords 200 (snd x0)), x1. unfold args. rewrite A1, A2. auto. }
  destruct Hi as [E|[E|[E|[E|[E|[E|[E|[E|[E|[E|[]]]]]]]]]]]; injection E as <- <-; unfold rdCmd in H; cbn [Z.eqb Pos.eqb] in H.
  - injection H as <-. left. auto.
  - injection H as <-. right. left. auto.
  - eapply P1; [|exact Hk|exact H]. cbn; tauto.
  - eapply P1; [|exact Hk|exact H]. cbn; tauto.
  - eapply P1; [|exact Hk|exact H]. cbn; tauto.
  - eapply P1; [|exact Hk|exact H]. cbn; tauto.
  - eapply P1; [|exact Hk|exact H]. cbn; tauto.
  - eapply P1; [|exact Hk|exact H]. cbn; tauto.
  - destruct (P2 CRemap (fun _ _ => or_intror I) H) as (w & p & r & d & A & D & ->). right. right. right. exists w, p, r, d. auto.
  - destruct (P2 CMasquerade (fun _ _ => or_intror I) H) as (w & p & r & d & A & D & ->). right. right. right. exists w, p, r, d. auto.
Qed.
Definition isfilter (kd : ckind) : bool := match kd with CFilter => true | _ => false end.
Definition iscmd (kd : ckind) : bool := match kd with CCmd _ => true | _ => false end.
Lemma filters_step x l y : cstring l -> fullline x l = POk y ->
  bstep (says "FILTER") aboutfilter (fun f l => resttext l <> [] /\ f = (firstn 399 (resttext l), [])) (fun l f f' => exists c, f' = (fst f, snd f ++ [c]) /\ commandline c l) l (sc_filters (snd x)) (sc_filters (snd y)).
Proof.
  intros Hl H. assert (Hs : cstring (snd (tok 30 l))) by (apply tok_rest_cstring; auto; apply two_le).
  assert (NB : forall k, In k basekeys -> kw (keyword l) k = true -> aboutfilter l = false).
  { intros k Hi Hw. unfold aboutfilter. rewrite (not_base "FILTER" l k) by (auto; reflexivity). cbn [orb]. destruct (existsb (fun k0 => says k0 l) commandkeys) eqn:E; auto. apply existsb_exists in E as (k0 & Hk0 & E).
    assert (B : forallb (fun k => negb (existsb (kw (lit k)) basekeys)) commandkeys = true) by (vm_compute; reflexivity). rewrite forallb_forall in B. specialize (B _ Hk0). apply negb_true_iff in B. rewrite (not_base k0 l k B Hi Hw) in E. discriminate. }
  destruct (line_cases x l y Hl H) as [k Hi Hw Hna Hr Ey|n w r Hw Hr Hargs Hn Ey|k kd Hi Hw Hnb Hset Hsb|Hnone _ ->].
  - apply bs_not; [eauto|rewrite Ey; reflexivity].
  - apply bs_not; [apply (NB "AKA"%string); [left; reflexivity|exact Hw]|rewrite Ey; reflexivity].
  - assert (Hh : says "FILTER" l = isfilter kd) by (apply (kind_is "FILTER" isfilter k kd l); [vm_compute; reflexivity|exact Hi|exact Hw]).
    assert (Hc : existsb (fun k0 => says k0 l) commandkeys = iscmd kd).
    { transitivity (existsb (fun k0 => kw (lit k) k0) commandkeys); [|].
      - apply eq_true_iff_eq. rewrite !existsb_exists. split; intros (k0 & I0 & E0); exists k0; (split; [exact I0|]); [rewrite <- (kw_kw _ _ k0 Hw); exact E0|change (kw (keyword l) k0 = true); rewrite (kw_kw _ _ k0 Hw); exact E0].
      - assert (B : forallb (fun e => Bool.eqb (existsb (fun k0 => kw (lit (fst e)) k0) commandkeys) (iscmd (snd e))) keytable = true) by (vm_compute; reflexivity). rewrite forallb_forall in B. specialize (B _ Hi). apply Bool.eqb_prop in B. exact B. }
    assert (Ha : aboutfilter l = isfilter kd || iscmd kd) by (unfold aboutfilter; rewrite Hh, Hc; reflexivity).
    destruct kd; cbn [isfilter iscmd orb] in *; cbn [setkind] in Hset; try (apply bs_not; [exact Ha|]; unfold lastaka, rdGroupName, rdNodelist, rdDupeFile, rdRoute, rdChange, rdArealist in Hset; revert Hset; generalize (snd y); intros sy Hset; sk Hset; reflexivity).
    + unfold rdFilter in Hset. destruct (jbstrcpyrest_spec (repeat 0 400) (snd (tok 30 l)) 400 (repeat_length _ _) ltac:(apply Nat.leb_le; reflexivity) Hs) as (b & E & (_ & _ & Hb)). rewrite E in Hset. fold (resttext l) in Hset, Hb.
      destruct (negb (Nat.eqb (Nat.min (400 - 1) (length (resttext l))) 0)) eqn:En; [|discriminate]. injection Hset as Es. eapply bs_new; [exact Hh|exact Ha|rewrite <- Es; reflexivity|]. split; [|rewrite Hb; reflexivity].
      intros E0. rewrite E0 in En. discriminate.
    + unfold lastfilter in Hset. destruct (rev (sc_filters (snd x))) as [|f r] eqn:Er; [discriminate|]. apply rev_snoc in Er. pinv Hset. pinv E. injection E as <-. injection Hset as Es. eapply bs_chg; [exact Hh|exact Ha|exact Er|rewrite <- Es; reflexivity|]. exists x1. split; [reflexivity|].
      eapply rdCmd_ok; [exact (cmd_entry _ _ Hi)|exact Hw|exact Hs|exact E0].
  - apply bs_not; [|reflexivity]. assert (N : forall K, In K allkeys -> says K l = false) by (intros K HK; exact (Hnone K HK)). unfold aboutfilter. rewrite (N "FILTER"%string) by (apply in_or_app; right; cbn; tauto). cbn [orb].
    destruct (existsb (fun k0 => says k0 l) commandkeys) eqn:E; auto. apply existsb_exists in E as (k0 & Hk0 & E). assert (B : forallb (fun k => existsb (String.eqb k) allkeys) commandkeys = true) by (vm_compute; reflexivity). rewrite forallb_forall in B. specialize (B _ Hk0).
    apply existsb_exists in B as (k1 & Hk1 & B). apply String.eqb_eq in B. subst k1. rewrite (N _ Hk1) in E. discriminate.
Qed.
