(** The settings of the configuration file: whole files. *)
From Verif Require Import Base M_Node4D M_Pat M_Str S_Str P_Str M_Mem M_Cfg M_Upd S_Upd P_UpdTok P_UpdCls P_UpdSim P_Export M_Filter M_Net M_Settings S_Settings P_Settings P_Settings2.

Lemma akas_grow x l y : cstring l -> fullline x l = POk y -> exists m, map ak_node (sc_akas (snd y)) = map ak_node (sc_akas (snd x)) ++ m.
Proof.
  intros Hl H. destruct (akas_step x l y Hl H) as [a _ _ -> _|l0 a a' _ _ -> -> Ha|_ ->].
  - exists [ak_node a]. rewrite map_app. reflexivity.
  - exists []. rewrite !map_app, app_nil_r. cbn [map]. f_equal. f_equal. destruct Ha as [(_ & it & -> & _)|[(_ & it & -> & _)|(_ & w & r & _ & ->)]]; reflexivity.
  - exists []. rewrite app_nil_r. reflexivity.
Qed.
(** one element for each line *)
Lemma single_gen {A} (R : A -> list Z -> Prop) ls its : Forall2 (fun l it => exists a, it = [a] /\ R a l) ls its -> Forall2 R (concat its) ls.
Proof. induction 1 as [|l it ls its (a & -> & Ha) _ IH]; cbn [concat app]; constructor; auto. Qed.
Lemma words_gen {A} (R : A -> list Z -> Prop) ls its : Forall2 (fun l it => Forall2 R it (args l)) ls its -> Forall2 R (concat its) (flat_map args ls).
Proof. induction 1 as [|l it ls its H _ IH]; cbn [concat flat_map]; [constructor|]. apply Forall2_app; auto. Qed.

Lemma nl_step : forall x l y, cstring l -> fullline x l = POk y ->
  if says "NODELIST" l then exists w f r i, args l = w :: f :: r /\ sc_nl (snd y) = Some i /\ nth_error [lit "CMNL"; lit "V7+"] i <> None /\ forall n, nth_error [lit "CMNL"; lit "V7+"] i = Some n -> streqi (firstn 39 f) n = true
  else sc_nl (snd y) = sc_nl (snd x).
Proof.
  apply (step_key (says "NODELIST") (fun b l a a' => if b then exists w f r i, args l = w :: f :: r /\ a' = Some i /\ nth_error [lit "CMNL"; lit "V7+"] i <> None /\ forall n, nth_error [lit "CMNL"; lit "V7+"] i = Some n -> streqi (firstn 39 f) n = true else a' = a) sc_nl "NODELIST"); auto.
  intros k kd l nodes s s' Hi Hw Hl Hs H. rewrite (kind_is "NODELIST" (fun kd => match kd with CNodelist => true | _ => false end) k kd l eq_refl Hi Hw).
  destruct kd; cbn [setkind] in *; unfold lastaka, lastfilter, rdGroupName, rdDupeFile, rdRoute, rdChange, rdArealist, rdFilter in H; try (sk H; reflexivity).
  unfold rdNodelist in H. pinv H. pinv H. pinv H. injection H as <-. destruct (arg_first 100 _ _ Hs (leb2 100 eq_refl) E) as (w & Ew & _ & Hs1 & _). destruct (arg_first 40 _ _ Hs1 (leb2 40 eq_refl) E0) as (f & Ef & Eg & _).
  apply need_ok in E1. unfold args. rewrite Ew, Ef. exists w, f, (allwords 200 (snd x0)), x1. split; [reflexivity|]. split; [reflexivity|].
  destruct (findpos_first (streqi (fst x0)) (fun n => streqi (fst x0) n = true) nlnames x1 ltac:(intros; tauto) E1) as [(n & Hn & Hp) _]. unfold nlnames in Hn. rewrite Hn. split; [discriminate|]. intros m Hm. injection Hm as <-. change (40 - 1)%nat with 39%nat in Eg. rewrite <- Eg. exact Hp.
Qed.

(** ** The part that M_Upd reads *)
Lemma rdline_any c l c' : rdline (fun _ _ _ _ _ => false) c l = ROk c' -> rdline (fun _ _ _ _ _ => true) c l = ROk c'.
Proof.
  unfold rdline. destruct (tok 30 l) as [[w ok] src]. cbv zeta.
  repeat (match goal with |- (if ?b then _ else _) = _ -> _ => destruct b; [exact (fun H => H)|] end). discriminate.
Qed.
Lemma key_hd w k : kw w k = true -> In k (map fst keytable) -> (hd 0 w =? 0) || (hd 0 w =? 59) = false.
Proof.
  intros Hw Hi. assert (B : forallb (fun k => match lit k with c :: _ => negb (tolower c =? 0) && negb (tolower c =? 59) | [] => false end) (map fst keytable) = true) by (vm_compute; reflexivity). rewrite forallb_forall in B. specialize (B _ Hi).
  unfold kw, streqi in Hw. destruct (lit k) as [|c t]; [discriminate|]. destruct w as [|d w]; [discriminate|]. cbn [map streq] in Hw. apply andb_true_iff in Hw as [Hw _]. apply Z.eqb_eq in Hw. cbn [hd]. apply andb_true_iff in B as [B1 B2]. apply negb_true_iff in B1, B2. apply Z.eqb_neq in B1, B2.
  apply orb_false_iff. split; apply Z.eqb_neq; intros ->; [apply B1|apply B2]; rewrite <- Hw; reflexivity.
Qed.
Lemma fullline_base x l y : cstring l -> fullline x l = POk y -> rdline (fun _ _ _ _ _ => true) (fst x) l = ROk (fst y).
Proof.
  intros Hl H. destruct (line_cases x l y Hl H) as [k Hi Hw Hna Hr Ey|n w r Hw Hr Hargs Hn Ey|k kd Hi Hw Hnb Hset Hsb|Hnone Hz ->].
  - apply rdline_any; auto.
  - apply rdline_any; auto.
  - destruct Hsb as [->]. unfold rdline. unfold keyword in *. destruct (tok 30 l) as [[w ok] src]. cbn [fst snd] in *. cbv zeta.
    assert (N : forall k, In k basekeys -> kw w k = false) by exact (existsb_none _ _ Hnb). rewrite !N by (repeat (first [left; reflexivity|right])). cbn [orb]. rewrite (key_hd w k Hw) by (apply in_map_iff; exists (k, kd); auto). reflexivity.
  - unfold rdline. unfold keyword in *. destruct (tok 30 l) as [[w ok] src]. cbn [fst snd] in *. cbv zeta.
    assert (N : forall k, In k basekeys -> kw w k = false) by (intros k Hk; apply Hnone; apply in_or_app; auto). rewrite !N by (repeat (first [left; reflexivity|right])). cbn [orb]. replace ((hd 0 w =? 0) || (hd 0 w =? 59)) with true; [reflexivity|]. symmetry. apply orb_true_iff. destruct Hz as [->| ->]; auto.
Qed.
Lemma fulllines_base ls : forall x y, Forall cstring ls -> fulllines ls x = POk y -> rdlines (fun _ _ _ _ _ => true) ls (fst x) = ROk (fst y).
Proof.
  induction ls as [|l ls IH]; intros x y Hc H; [injection H as <-; reflexivity|]. cbn [fulllines rdlines] in *. pinv H. rewrite (fullline_base _ _ _ (Forall_inv Hc) E). apply IH; auto. exact (Forall_inv_tail Hc).
Qed.
Lemma fulllines_each ls : forall x y l, fulllines ls x = POk y -> In l ls -> exists a b, fullline a l = POk b.
Proof. induction ls as [|l0 ls IH]; intros x y l H Hi; [destruct Hi|]. cbn [fulllines] in H. pinv H. destruct Hi as [<-|Hi]; eauto. Qed.
(** the AKAs are those of M_Upd *)
Lemma akas_same x l y : cstring l -> fullline x l = POk y -> map ak_node (sc_akas (snd x)) = cf_akas (fst x) -> map ak_node (sc_akas (snd y)) = cf_akas (fst y).
Proof.
  intros Hl H E. destruct (akas_grow x l y Hl H) as [m Hm]. destruct (line_cases x l y Hl H) as [k Hi Hw Hna Hr Ey|n w r Hw Hr Hargs Hn Ey|k kd Hi Hw Hnb Hset Hsb|Hnone Hz ->].
  - rewrite Ey, E. assert (K : kw (keyword l) "AKA" = false) by (rewrite (kw_kw _ _ _ Hw); exact Hna). destruct (tok 30 l) as [[w ok] src] eqn:Et. replace (keyword l) with w in * by (unfold keyword; rewrite Et; reflexivity).
    destruct (rdline_cls _ _ _ _ _ _ _ Et Hr) as [ra rp ro _ _ _ _ _ Hra _ -> _ _|z _ -> _ _ _ _|g nl _ _ _ _ _ _ _ _ -> _ _|z _ -> _ _ _ _ _|g al _ _ _ _ _ _ _ _ -> _ _]; cbn [cf_akas setnodes setareas]; try reflexivity.
    rewrite K in Hra. destruct ra; [|discriminate]. rewrite app_nil_r. reflexivity.
  - rewrite Ey. cbn [set_akas sc_akas]. rewrite map_app, E. cbn [map ak_node]. unfold rdline, keyword, args in *. destruct (tok 30 l) as [[w0 ok] src] eqn:Et. cbn [fst snd] in *. cbv zeta in Hr. rewrite Hw in Hr. apply rof_ok in Hr. unfold rdAka in Hr.
    assert (Hsrc : cstring src) by (pose proof (tok_rest_cstring 30 l Hl (two_le _)) as X; rewrite Et in X; exact X).
    destruct (tok 200 src) as [[b o] rr] eqn:Et2. destruct o; [|discriminate]. destruct (allwords_step 200 src _ rr (two_le _) Hsrc Et2) as [Ha _]. rewrite Ha in Hargs. injection Hargs as -> _. rewrite Hn in Hr. cbn [obind] in Hr. injection Hr as <-. reflexivity.
  - destruct Hsb as [->]. cbn [cf_akas]. rewrite <- E. pose proof (akas_kind_step _ _ _ _ _ _ Hi Hw ltac:(apply tok_rest_cstring; auto; apply two_le) Hset) as G. destruct (isaka kd).
    + destruct G as (l0 & a & a' & -> & -> & Ha). rewrite !map_app. cbn [map]. f_equal. f_equal. destruct Ha as [(_ & it & -> & _)|[(_ & it & -> & _)|(_ & w & r & _ & ->)]]; reflexivity.
    + rewrite G. reflexivity.
  - exact E.
Qed.

(** ** Lines that are accepted *)
Lemma kindof_key k l : kw (keyword l) k = true -> kindof (keyword l) = kindof (lit k).
Proof. intros H. unfold kindof. f_equal. induction keytable as [|e t IH]; cbn [find]; [reflexivity|]. rewrite (kw_kw _ _ (fst e) H), IH. reflexivity. Qed.
Lemma accept_key k kd x l : kw (keyword l) k = true -> existsb (kw (lit k)) basekeys = false -> kindof (lit k) = Some kd ->
  (exists s', setkind kd (map fn_node (cf_nodes (fst x))) (snd (tok 30 l)) (snd x) = POk s') -> exists y, fullline x l = POk y.
Proof.
  intros Hw Hb Hk (s' & Hs). unfold fullline. pose proof (kindof_key k l Hw) as Hk2. rewrite Hk in Hk2.
  assert (Hb2 : existsb (kw (keyword l)) basekeys = false).
  { destruct (existsb (kw (keyword l)) basekeys) eqn:E; auto. apply existsb_kw in E as (k' & Hi & Hw'). rewrite (kw_kw _ _ k' Hw) in Hw'. assert (existsb (kw (lit k)) basekeys = true) by (apply existsb_exists; eauto). congruence. }
  unfold keyword in *. destruct (tok 30 l) as [[w ok] src]. cbn [fst snd] in *. rewrite Hb2, Hk2, Hs. eexists. reflexivity.
Qed.
Lemma args_arg n src w r : cstring src -> (2 <= n <= 200)%nat -> allwords 200 src = w :: r -> exists rest, arg n src = POk (firstn (n - 1) w, rest).
Proof.
  intros Hs Hn Ha. unfold arg. destruct (tok n src) as [[b ok] rest] eqn:Et. destruct (tok_cut n src b ok rest Hs Hn Et) as (v & -> & Hv & _). destruct ok.
  - destruct (allwords_step 200 src _ _ (two_le _) Hs Hv) as [E _]. rewrite Ha in E. injection E as -> _. eauto.
  - rewrite (allwords_stop _ _ _ _ Hv) in Ha. discriminate.
Qed.
Lemma parseall_made {A} (p : list Z -> pres A) l ws : Forall2 (fun a w => p w = POk a) l ws -> parseall p ws = POk l.
Proof. induction 1 as [|a w l ws Ha _ IH]; cbn [parseall]; [reflexivity|]. rewrite Ha. cbn [pbind]. rewrite IH. reflexivity. Qed.
Lemma wellformed_ok x l : cstring l -> wellformed l -> exists y, fullline x l = POk y.
Proof.
  intros Hl H. assert (Hs : cstring (snd (tok 30 l))) by (apply tok_rest_cstring; auto; apply two_le).
  destruct H as [H|[H|[(k & f & b & Hi & Hw)|[(k & f & n & Hi & N1 & N2 & Hw & Ha)|[(k & f & n & mean & w & r & v & Hi & Hw & Ha & Hm & Hv)|[(Hw & Ha)|[(Hw & ps & Hp)|(Hw & Ha)]]]]]]].
  - exists x. unfold fullline. unfold keyword in H. destruct (tok 30 l) as [[w ok] src]. cbn [fst] in H. subst w. reflexivity.
  - exists x. unfold fullline. unfold keyword in H. destruct (tok 30 l) as [[w ok] src]. cbn [fst] in H. destruct w as [|c w]; [discriminate|]. cbn [hd] in H. subst c.
    assert (N : forall k, match lit k with d :: _ => negb (tolower d =? 59) | [] => true end = true -> kw (59 :: w) k = false).
    { intros k E. unfold kw, streqi. destruct (lit k) as [|d t]; [reflexivity|]. apply negb_true_iff, Z.eqb_neq in E. cbn [map]. change (tolower 59) with 59. destruct (streq (59 :: map tolower w) (tolower d :: map tolower t)) eqn:Es; auto. exfalso. revert Es. unfold streq. cbn. destruct (Z.eqb_spec 59 (tolower d)); [congruence|discriminate]. }
    replace (existsb (kw (59 :: w)) basekeys) with false.
    2:{ symmetry. apply not_true_iff_false. intros Hx. apply existsb_exists in Hx as (k & Hk & Hx). rewrite N in Hx; [discriminate|]. assert (B : forallb (fun k => match lit k with d :: _ => negb (tolower d =? 59) | [] => true end) basekeys = true) by (vm_compute; reflexivity). rewrite forallb_forall in B. auto. }
    replace (kindof (59 :: w)) with (@None ckind); [reflexivity|]. symmetry. unfold kindof. destruct (find _ _) as [e|] eqn:Ef; [|reflexivity]. apply find_some in Ef as [He Hx]. rewrite N in Hx; [discriminate|].
    assert (B : forallb (fun e => match lit (fst e) with d :: _ => negb (tolower d =? 59) | [] => true end) keytable = true) by (vm_compute; reflexivity). rewrite forallb_forall in B. exact (B _ He).
  - assert (T : existsb (kw (lit k)) basekeys = false /\ exists f b, kindof (lit k) = Some (CFlag f b)).
    { clear - Hi. unfold switches in Hi. cbn [In] in Hi. repeat (destruct Hi as [E|Hi]; [injection E as <- <- <-; split; [vm_compute; reflexivity|do 2 eexists; vm_compute; reflexivity]|]). destruct Hi. }
    destruct T as (T1 & f' & b' & T2). eapply (accept_key k); [exact Hw|exact T1|exact T2|]. cbn [setkind]. eexists. reflexivity.
  - assert (T : existsb (kw (lit k)) basekeys = false /\ exists f m, kindof (lit k) = Some (CText f m) /\ (2 <=? m)%nat && (m <=? 200)%nat = true).
    { clear - Hi N1 N2. unfold texts in Hi. cbn [In] in Hi. repeat (destruct Hi as [E|Hi]; [injection E as <- <- <-; first [congruence | split; [vm_compute; reflexivity|eexists; eexists; split; [vm_compute; reflexivity|reflexivity]]]|]). destruct Hi. }
    destruct T as (T1 & f' & m & T2 & T3). eapply (accept_key k); [exact Hw|exact T1|exact T2|]. cbn [setkind]. destruct (args l) as [|w r] eqn:Ea; [congruence|]. destruct (args_arg m _ _ _ Hs (leb2 _ T3) Ea) as (rest & ->). cbn [pbind]. eexists. reflexivity.
  - assert (T : existsb (kw (lit k)) basekeys = false /\ kindof (lit k) = Some (CNum f (S n)) /\ (2 <=? S n)%nat && (S n <=? 200)%nat = true /\ exists u, numval f (firstn n w) = POk u).
    { clear - Hi Hm Hv. unfold numbers in Hi. cbn [In] in Hi.
      assert (I : forall b, -2147483648 <= atoi b < 2147483648 -> intof b = POk (atoi b)) by (intros b Hb; unfold intof; replace (isint (atoi b)) with true; [reflexivity|unfold isint; lia]).
      repeat (destruct Hi as [E|Hi]; [first [exfalso; congruence|injection E as <- <- <- <-; split; [vm_compute; reflexivity|split; [vm_compute; reflexivity|split; [vm_compute; reflexivity|cbn [numval]]]]]|]); [..|destruct Hi].
      - destruct Hm as [-> Hm]. rewrite I by lia. cbn [pbind]. replace ((atoi (firstn 99 w) <? 1) || (atoi (firstn 99 w) >? 6)) with false by lia. eauto.
      - destruct Hm as (nm & Hn & Hq). cbn [In] in Hn. unfold kw. destruct Hn as [En|[En|[En|[]]]]; injection En as <- <-; repeat (match goal with |- context[if ?b then _ else _] => destruct b eqn:? end); try congruence; eexists; reflexivity.
      - destruct Hm as (nm & Hn & Hq). cbn [In] in Hn. unfold kw. destruct Hn as [En|[En|[En|[]]]]; injection En as <- <-; repeat (match goal with |- context[if ?b then _ else _] => destruct b eqn:? end); try congruence; eexists; reflexivity.
      - destruct Hm as [Hm _]. rewrite I by lia. cbn [pbind]. replace (isint (atoi (firstn 199 w) * 1024)) with true by (unfold isint; lia). eauto.
      - destruct Hm as [Hm _]. rewrite I by lia. cbn [pbind]. replace (isint (atoi (firstn 199 w) * 1024)) with true by (unfold isint; lia). eauto.
      - destruct Hm as [Hm _]. rewrite I by lia. cbn [pbind]. eauto.
      - destruct Hm as [Hm _]. rewrite I by lia. cbn [pbind]. eauto.
      - destruct Hm as [Hm _]. rewrite I by lia. cbn [pbind]. eauto. }
    destruct T as (T1 & T2 & T3 & u & T4). eapply (accept_key k); [exact Hw|exact T1|exact T2|]. cbn [setkind]. destruct (args_arg (S n) _ _ _ Hs (leb2 _ T3) Ha) as (rest & ->). cbn [pbind fst]. replace (S n - 1)%nat with n by lia. rewrite T4. cbn [pbind]. eexists. reflexivity.
  - eapply (accept_key "AREAFIXNAME"); [exact Hw|vm_compute; reflexivity|vm_compute; reflexivity|]. cbn [setkind]. destruct (args l) as [|w r] eqn:Ea; [congruence|]. destruct (args_arg 36 _ _ _ Hs (leb2 36 eq_refl) Ea) as (rest & ->). cbn [pbind]. eexists. reflexivity.
  - assert (P : parseall Parse4DPat (allwords 100 (snd (tok 30 l))) = POk ps).
    { apply parseall_made. rewrite (allwords_cut 100) by (auto; apply leb2; reflexivity). clear - Hp. unfold args in Hp. induction Hp; cbn [map]; constructor; auto. }
    destruct Hw as [Hw|Hw]; (eapply accept_key; [exact Hw|vm_compute; reflexivity|vm_compute; reflexivity|]; cbn [setkind]; rewrite P; cbn [pbind]; eexists; reflexivity).
  - eapply (accept_key "FILTER"); [exact Hw|vm_compute; reflexivity|vm_compute; reflexivity|]. cbn [setkind]. unfold rdFilter. destruct (jbstrcpyrest_spec (repeat 0 400) (snd (tok 30 l)) 400 (repeat_length _ _) ltac:(apply Nat.leb_le; reflexivity) Hs) as (b & E & _). rewrite E. fold (resttext l).
    destruct (resttext l) as [|c t]; [congruence|]. cbn [length]. replace (negb (Nat.eqb (Nat.min (400 - 1) (S (length t))) 0)) with true; [eexists; reflexivity|]. symmetry. apply negb_true_iff, Nat.eqb_neq. lia.
Qed.
