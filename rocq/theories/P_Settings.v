(** The settings of the configuration file: lemmas. *)
From Verif Require P_Echo.
From Verif Require Import Base M_Node4D M_Pat M_Str S_Str P_Str M_Mem M_Cfg M_Upd S_Upd P_UpdTok P_UpdCls P_UpdSim P_Export M_Filter M_Net M_Settings S_Settings.

Lemma pbind_ok {A B} (r : pres A) (f : A -> pres B) y : pbind r f = POk y -> exists x, r = POk x /\ f x = POk y.
Proof. destruct r; cbn; try discriminate. eauto. Qed.
Lemma need_ok {A} (o : option A) x : need o = POk x -> o = Some x.
Proof. destruct o; cbn; congruence. Qed.
Ltac pinv H := let x := fresh "x" in let E := fresh "E" in apply pbind_ok in H as (x & E & H).

(** ** Words *)
Lemma allwords_step n src b rest : (2 <= n)%nat -> cstring src -> tok n src = (b, true, rest) -> allwords n src = b :: allwords n rest /\ cstring rest.
Proof.
  intros Hn Hs E. destruct (tok_shorter n src Hn Hs _ _ E) as [H1 H2]. split; [|assumption || (pose proof (tok_rest_cstring n src Hs Hn) as X; rewrite E in X; exact X)].
  unfold allwords at 1. cbn [words]. rewrite E. f_equal. apply words_fuel; auto; lia.
Qed.
Lemma allwords_stop n src b rest : tok n src = (b, false, rest) -> allwords n src = [].
Proof. intros E. unfold allwords. cbn [words]. rewrite E. reflexivity. Qed.
Lemma firstn_firstn_le {A} (a b : nat) (l : list A) : (a <= b)%nat -> firstn a (firstn b l) = firstn a l.
Proof. intros H. rewrite firstn_firstn. f_equal. lia. Qed.
Lemma tok_cut n src a ok r : cstring src -> (2 <= n <= 200)%nat -> tok n src = (a, ok, r) -> exists w, a = firstn (n - 1) w /\ tok 200 src = (w, ok, r) /\ (length w <= 199)%nat.
Proof.
  intros Hs Hn E. destruct (tok_both n 200 src a ok r Hs) as (t & Ea & Et); auto; [apply Nat.leb_le; reflexivity|lia|]. exists (firstn (200 - 1) t). split; [|split; auto].
  - rewrite firstn_firstn_le by lia. exact Ea.
  - rewrite firstn_length. lia.
Qed.
Lemma arg_ok n src b rest : cstring src -> (2 <= n <= 200)%nat -> arg n src = POk (b, rest) ->
  exists w, allwords 200 src = w :: allwords 200 rest /\ b = firstn (n - 1) w /\ cstring rest /\ (length w <= 199)%nat.
Proof.
  intros Hs Hn H. unfold arg in H. destruct (tok n src) as [[a ok] r] eqn:E. destruct ok; [|discriminate]. injection H as -> ->.
  destruct (tok_cut n src _ _ _ Hs Hn E) as (w & Ew & Et & Hw). destruct (allwords_step 200 src w rest (two_le _) Hs Et) as [H1 H2]. exists w. auto.
Qed.
Lemma arg200 src b rest : cstring src -> arg 200 src = POk (b, rest) -> allwords 200 src = b :: allwords 200 rest /\ cstring rest.
Proof.
  intros Hs H. unfold arg in H. destruct (tok 200 src) as [[a ok] r] eqn:E. destruct ok; [|discriminate]. injection H as -> ->. apply (allwords_step 200 src b rest (two_le _) Hs E).
Qed.
Lemma allwords_cut n src : (2 <= n <= 200)%nat -> cstring src -> allwords n src = map (firstn (n - 1)) (allwords 200 src).
Proof.
  intros Hn. remember (length src) as m eqn:Em. revert src Em. induction m as [m IH] using lt_wf_ind. intros src -> Hs. destruct (tok n src) as [[b ok] r] eqn:E.
  destruct (tok_cut n src _ _ _ Hs Hn E) as (w & Ew & Et & Hw). destruct ok.
  - destruct (allwords_step n src b r ltac:(lia) Hs E) as [-> Hr]. destruct (allwords_step 200 src w r (two_le _) Hs Et) as [-> _]. cbn [map]. rewrite Ew. f_equal.
    destruct (tok_shorter n src ltac:(lia) Hs _ _ E) as [H1 H2]. eapply IH; [|reflexivity|]; auto; lia.
  - rewrite (allwords_stop _ _ _ _ E), (allwords_stop _ _ _ _ Et). reflexivity.
Qed.

(** ** The cases of a line *)
Definition allkeys : list String.string := (basekeys ++ map fst keytable)%list.
Lemma existsb_kw w ks : existsb (kw w) ks = true -> exists k, In k ks /\ kw w k = true.
Proof. intros H. apply existsb_exists in H. exact H. Qed.
Lemma existsb_none {A} (f : A -> bool) l : existsb f l = false -> forall x, In x l -> f x = false.
Proof. intros H x Hx. destruct (f x) eqn:E; auto. assert (existsb f l = true) by (apply existsb_exists; eauto). congruence. Qed.

Record same_but (x y : fconf * sconf) (l : list Z) : Prop := { sb_c : fst y = FC (cf_akas (fst x)) (cf_packers (fst x)) (cf_nodes (fst x)) (cf_areas (fst x)) (cf_other (fst x) ++ [l]) }.
Inductive lcase (x : fconf * sconf) (l : list Z) (y : fconf * sconf) : Prop :=
| LBase k : In k basekeys -> kw (keyword l) k = true -> kw (lit k) "AKA" = false -> rdline (fun _ _ _ _ _ => false) (fst x) l = ROk (fst y) -> snd y = snd x -> lcase x l y
| LAka n w r : kw (keyword l) "AKA" = true -> rdline (fun _ _ _ _ _ => false) (fst x) l = ROk (fst y) -> args l = w :: r -> Parse4D w = Some n ->
    snd y = set_akas (snd x) (sc_akas (snd x) ++ [AKA n [] [] []]) -> lcase x l y
| LKey k kd : In (k, kd) keytable -> kw (keyword l) k = true -> existsb (kw (keyword l)) basekeys = false -> setkind kd (map fn_node (cf_nodes (fst x))) (snd (tok 30 l)) (snd x) = POk (snd y) -> same_but x y l -> lcase x l y
| LNone : (forall k, In k allkeys -> kw (keyword l) k = false) -> hd 0 (keyword l) = 0 \/ hd 0 (keyword l) = 59 -> y = x -> lcase x l y.
Lemma line_cases x l y : cstring l -> fullline x l = POk y -> lcase x l y.
Proof.
  intros Hl. unfold fullline. destruct (tok 30 l) as [[w ok] src] eqn:Et. assert (Ew : keyword l = w) by (unfold keyword; rewrite Et; reflexivity).
  assert (Hsrc : cstring src) by (pose proof (tok_rest_cstring 30 l Hl (two_le _)) as X; rewrite Et in X; exact X).
  destruct (existsb (kw w) basekeys) eqn:Eb.
  - destruct (rdline _ (fst x) l) as [c| |] eqn:Er; try discriminate. destruct (kw w "AKA") eqn:Ka.
    + intros H. pinv H. apply need_ok in E. injection H as <-.
      assert (Hok : exists r, tok 200 src = (fst (fst (tok 200 src)), true, r)).
      { pose proof Er as H. unfold M_Upd.rdline in H. rewrite Et in H. cbv zeta in H. rewrite Ka in H. apply rof_ok in H. unfold rdAka in H. destruct (tok 200 src) as [[b o] r]. destruct o; [|discriminate]. exists r. reflexivity. }
      destruct Hok as (r & Hok). destruct (allwords_step 200 src _ r (two_le _) Hsrc Hok) as [Ha _]. eapply LAka; try reflexivity; [rewrite Ew; exact Ka|exact Er|unfold args; rewrite Et; cbn [snd]; exact Ha|exact E].
    + intros H. injection H as <-. destruct (existsb_kw _ _ Eb) as (k & Hk & Hw). eapply LBase; try reflexivity; [exact Hk|rewrite Ew; exact Hw| |exact Er]. rewrite <- (kw_kw w k "AKA" Hw). exact Ka.
  - unfold kindof. destruct (find (fun e => kw w (fst e)) keytable) as [[k kd]|] eqn:Ef; cbn [option_map].
    + intros H. pinv H. injection H as <-. apply find_some in Ef as [Hi Hw]. cbn [fst snd] in *. eapply LKey; [exact Hi|rewrite Ew; exact Hw|rewrite Ew; exact Eb|rewrite Et; cbn [snd fst]; exact E|]. constructor. reflexivity.
    + destruct ((hd 0 w =? 0) || (hd 0 w =? 59)) eqn:Eh; [|discriminate]. intros H. injection H as <-. apply LNone; auto.
      * intros k Hk. rewrite Ew. unfold allkeys in Hk. apply in_app_or in Hk as [Hk|Hk]; [exact (existsb_none _ _ Eb k Hk)|]. apply in_map_iff in Hk as (e & <- & He). exact (find_none _ _ Ef e He).
      * rewrite Ew. apply orb_true_iff in Eh as [Eh|Eh]; apply Z.eqb_eq in Eh; auto.
Qed.

(** ** From lines to files *)
Lemma fulllines_app a b x : fulllines (a ++ b) x = pbind (fulllines a x) (fulllines b).
Proof. revert x. induction a as [|l a IH]; intros x; cbn [app fulllines]; [reflexivity|]. destruct (fullline x l); cbn [pbind]; auto. Qed.
Lemma fulllines_snoc a l x z : fulllines (a ++ [l]) x = POk z -> exists y, fulllines a x = POk y /\ fullline y l = POk z.
Proof. rewrite fulllines_app. intros H. pinv H. exists x0. split; auto. cbn [fulllines] in H. pinv H. congruence. Qed.
(** a setting that the last line with a property gives *)
Lemma last_gen {A} (P : list Z -> bool) (V : list Z -> A -> Prop) (proj : sconf -> A) x0 :
  (forall x l y, cstring l -> fullline x l = POk y -> if P l then V l (proj (snd y)) else proj (snd y) = proj (snd x)) ->
  forall ls z, Forall cstring ls -> fulllines ls x0 = POk z -> match lastof P ls with None => proj (snd z) = proj (snd x0) | Some l => V l (proj (snd z)) end.
Proof.
  intros Hs ls. induction ls as [|l ls IH] using rev_ind; intros z Hc H; [injection H as <-; reflexivity|]. apply Forall_app in Hc as [Hc Hl].
  apply fulllines_snoc in H as (y & H1 & H2). specialize (Hs _ _ _ (Forall_inv Hl) H2). unfold lastof. rewrite rev_app_distr. cbn [rev app find]. destruct (P l); auto.
  specialize (IH _ Hc H1). unfold lastof in IH. destruct (find P (rev ls)); congruence || (rewrite Hs; exact IH).
Qed.
(** a list that the lines with a property extend *)
Lemma list_gen {A} (P : list Z -> bool) (V : fconf * sconf -> list Z -> list A -> Prop) (proj : sconf -> list A) x0 :
  proj (snd x0) = [] ->
  (forall x l y, cstring l -> fullline x l = POk y -> if P l then exists it, proj (snd y) = proj (snd x) ++ it /\ V y l it else proj (snd y) = proj (snd x)) ->
  (forall x l y l0 it, cstring l -> fullline x l = POk y -> V x l0 it -> V y l0 it) ->
  forall ls z, Forall cstring ls -> fulllines ls x0 = POk z -> exists its, proj (snd z) = concat its /\ Forall2 (V z) (filter P ls) its.
Proof.
  intros H0 Hs Hm ls. induction ls as [|l ls IH] using rev_ind; intros z Hc H; [injection H as <-; exists []; split; [exact H0|constructor]|]. apply Forall_app in Hc as [Hc Hl].
  apply fulllines_snoc in H as (y & H1 & H2). destruct (IH _ Hc H1) as (its & E & F). specialize (Hs _ _ _ (Forall_inv Hl) H2). rewrite filter_app. cbn [filter].
  assert (F' : Forall2 (V z) (filter P ls) its) by (clear - F Hm H2 Hl; induction F; constructor; auto; eapply Hm; eauto; exact (Forall_inv Hl)).
  destruct (P l).
  - destruct Hs as (it & Es & Hv). exists (its ++ [it]). split; [rewrite Es, E, concat_app; cbn [concat]; rewrite app_nil_r; reflexivity|]. apply Forall2_app; auto.
  - exists its. rewrite Hs, app_nil_r. auto.
Qed.

(** ** What a keyword changes *)
Definition okkind (kd : ckind) : bool := match kd with CText _ n => (2 <=? n)%nat && (n <=? 200)%nat | CNum _ n => (2 <=? n)%nat && (n <=? 200)%nat | _ => true end.
Lemma table_ok k kd : In (k, kd) keytable -> okkind kd = true.
Proof. intros H. assert (E : forallb (fun e => okkind (snd e)) keytable = true) by (vm_compute; reflexivity). rewrite forallb_forall in E. exact (E _ H). Qed.
(** what is true of every keyword and every entry of another list *)
Lemma table_with {A} (f : String.string * ckind -> A -> bool) (l : list A) k kd a :
  forallb (fun e => forallb (f e) l) keytable = true -> In (k, kd) keytable -> In a l -> f (k, kd) a = true.
Proof. intros H Hk Ha. rewrite forallb_forall in H. specialize (H _ Hk). rewrite forallb_forall in H. auto. Qed.
Lemma base_with {A} (f : String.string -> A -> bool) (l : list A) k a :
  forallb (fun e => forallb (f e) l) ("AKA"%string :: basekeys) = true -> In k basekeys \/ k = "AKA"%string -> In a l -> f k a = true.
Proof. intros H Hk Ha. rewrite forallb_forall in H. assert (Hk' : In k ("AKA"%string :: basekeys)) by (destruct Hk as [Hk| ->]; [right; exact Hk|left; reflexivity]). specialize (H _ Hk'). rewrite forallb_forall in H. auto. Qed.

Ltac sk H := repeat (match type of H with
  | pbind _ _ = POk _ => pinv H; cbv beta zeta in H
  | (match ?t with _ => _ end) = POk _ => destruct t eqn:?; try discriminate H
  | POk _ = POk _ => injection H as <-
  | PFail = POk _ => discriminate H
  | PUB = POk _ => discriminate H
  end).
Definition textof (kd : ckind) (f : sfield) : option nat :=
  match kd with
  | CText g n => if sfield_eqb f g then Some (n - 1)%nat else None
  | CNodelist => if sfield_eqb f FNodelist then Some 99%nat else None
  | CDupeFile => if sfield_eqb f FDupeFile then Some 99%nat else None
  | _ => None
  end.
Lemma arg_first n src x : cstring src -> (2 <= n <= 200)%nat -> arg n src = POk x -> exists w, allwords 200 src = w :: allwords 200 (snd x) /\ fst x = firstn (n - 1) w /\ cstring (snd x) /\ (length w <= 199)%nat.
Proof. destruct x as [b r]. apply arg_ok. Qed.
Ltac leb := apply andb_true_iff; cbn; auto.
Lemma leb2 n : (2 <=? n)%nat && (n <=? 200)%nat = true -> (2 <= n <= 200)%nat.
Proof. intros H. apply andb_true_iff in H as [H1 H2]. apply Nat.leb_le in H1, H2. auto. Qed.
Lemma setkind_str kd nodes src s s' f : okkind kd = true -> cstring src -> setkind kd nodes src s = POk s' ->
  match textof kd f with
  | Some n => exists w r, allwords 200 src = w :: r /\ sc_str s' f = firstn n w
  | None => sc_str s' f = sc_str s f
  end.
Proof.
  intros Hk Hs H. destruct kd; cbn [setkind textof okkind] in *; unfold lastaka, lastfilter, rdGroupName, rdNodelist, rdDupeFile, rdRoute, rdChange, rdArealist, rdFilter in H; sk H; try reflexivity.
  - destruct (arg_first _ _ _ Hs (leb2 _ Hk) E) as (w & Ew & Ef & _). cbn [set_str sc_str]. destruct (sfield_eqb f f0); [|reflexivity]. eauto.
  - destruct (arg_first 100 _ _ Hs (leb2 100 eq_refl) E) as (w & Ew & Ef & _). cbn [set_nl set_str sc_str]. destruct (sfield_eqb f FNodelist); [|reflexivity]. exists w, (allwords 200 (snd x)). split; [exact Ew|]. rewrite Ef. reflexivity.
  - destruct (arg_first 100 _ _ Hs (leb2 100 eq_refl) E) as (w & Ew & Ef & _). cbn [set_num set_str sc_str]. destruct (sfield_eqb f FDupeFile); [|reflexivity]. exists w, (allwords 200 (snd x)). split; [exact Ew|]. rewrite Ef. reflexivity.
Qed.
(** what a line does to a setting, given what its keyword does *)
Lemma step_gen {A} (P : list Z -> bool) (Q : bool -> list Z -> A -> A -> Prop) (proj : sconf -> A) key :
  (forall a l, Q false l a a) -> (forall s v, proj (set_akas s v) = proj s) ->
  (forall l, P l = true -> says key l = true) -> In key allkeys -> existsb (kw (lit key)) basekeys = false ->
  (forall k kd l nodes s s', In (k, kd) keytable -> kw (keyword l) k = true -> cstring l -> cstring (snd (tok 30 l)) -> setkind kd nodes (snd (tok 30 l)) s = POk s' -> Q (P l) l (proj s) (proj s')) ->
  forall x l y, cstring l -> fullline x l = POk y -> Q (P l) l (proj (snd x)) (proj (snd y)).
Proof.
  intros Qr Ha Hp Hin Hb Hk x l y Hl H. assert (Hs : cstring (snd (tok 30 l))) by (apply tok_rest_cstring; auto; apply two_le).
  assert (NoP : forall k, kw (keyword l) k = true -> In k basekeys -> P l = false).
  { intros k Hw Hi. destruct (P l) eqn:E; auto. apply Hp in E. unfold says in E. change (kw (keyword l) key = true) in E. rewrite (kw_kw _ _ k E) in Hw.
    assert (existsb (kw (lit key)) basekeys = true) by (apply existsb_exists; eauto). congruence. }
  destruct (line_cases x l y Hl H) as [k Hi Hw Hna Hr Ey|n w r Hw Hr Hargs Hn Ey|k kd Hi Hw Hnb Hset Hsb|Hnone _ Ey].
  - rewrite Ey, (NoP _ Hw Hi). apply Qr.
  - rewrite Ey, Ha, (NoP _ Hw); [apply Qr|]. left. reflexivity.
  - eapply Hk; eauto.
  - subst y. replace (P l) with false; [apply Qr|]. destruct (P l) eqn:E; auto. apply Hp in E. change (kw (keyword l) key = true) in E. rewrite (Hnone _ Hin) in E. discriminate.
Qed.
Definition agreeb {A} (b : bool) (o : option A) (P : A -> bool) : bool := match o with Some a => b && P a | None => negb b end.

Lemma texts_step k f n : In (k, f, n) texts -> forall x l y, cstring l -> fullline x l = POk y ->
  if says k l then exists w r, args l = w :: r /\ sc_str (snd y) f = firstn n w else sc_str (snd y) f = sc_str (snd x) f.
Proof.
  intros Hin. apply (step_gen (says k) (fun b l a a' => if b then exists w r, args l = w :: r /\ a' = firstn n w else a' = a) (fun s => sc_str s f) k); auto.
  - assert (E : forallb (fun t => existsb (fun k' => String.eqb k' (fst (fst t))) allkeys) texts = true) by (vm_compute; reflexivity). rewrite forallb_forall in E. specialize (E _ Hin). apply existsb_exists in E as (k' & Hk' & E). apply String.eqb_eq in E. cbn [fst] in E. subst k'. exact Hk'.
  - assert (E : forallb (fun t => negb (existsb (kw (lit (fst (fst t)))) basekeys)) texts = true) by (vm_compute; reflexivity). rewrite forallb_forall in E. specialize (E _ Hin). apply negb_true_iff in E. exact E.
  - intros k' kd l nodes s s' Hi Hw Hl Hs H. pose proof (setkind_str kd _ _ _ _ f (table_ok _ _ Hi) Hs H) as G.
    assert (E : forallb (fun e => forallb (fun t : String.string * sfield * nat => agreeb (kw (lit (fst e)) (fst (fst t))) (textof (snd e) (snd (fst t))) (fun m => Nat.eqb m (snd t))) texts) keytable = true) by (vm_compute; reflexivity).
    pose proof (table_with _ _ _ _ _ E Hi Hin) as B. cbn [fst snd] in B. unfold says. change (streqi (keyword l) (lit k)) with (kw (keyword l) k). rewrite (kw_kw _ _ k Hw). unfold agreeb in B. destruct (textof kd f) as [m|].
    + apply andb_true_iff in B as [B1 B2]. rewrite B1. apply Nat.eqb_eq in B2. subst m. exact G.
    + apply negb_true_iff in B. rewrite B. exact G.
Qed.

Definition othkey (k : String.string) : bool := existsb (fun k' => String.eqb k' k) (map fst keytable) && negb (existsb (kw (lit k)) basekeys).
Lemma step_key {A} (P : list Z -> bool) (Q : bool -> list Z -> A -> A -> Prop) (proj : sconf -> A) key :
  (forall a l, Q false l a a) -> (forall s v, proj (set_akas s v) = proj s) ->
  (forall l, P l = true -> says key l = true) -> othkey key = true ->
  (forall k kd l nodes s s', In (k, kd) keytable -> kw (keyword l) k = true -> cstring l -> cstring (snd (tok 30 l)) -> setkind kd nodes (snd (tok 30 l)) s = POk s' -> Q (P l) l (proj s) (proj s')) ->
  forall x l y, cstring l -> fullline x l = POk y -> Q (P l) l (proj (snd x)) (proj (snd y)).
Proof.
  intros Qr Ha Hp Ho. apply andb_true_iff in Ho as [H1 H2]. apply negb_true_iff in H2. apply (step_gen P Q proj key Qr Ha Hp); auto.
  apply existsb_exists in H1 as (k' & Hk' & E). apply String.eqb_eq in E. subst k'. unfold allkeys. apply in_or_app. right. exact Hk'.
Qed.

Inductive numact := NSet (i n : nat) | NOr (b : Z) | NKeep.
Definition numof (kd : ckind) (f : nfield) : numact :=
  match kd with
  | CNum g n => if nfield_eqb f g then NSet 0 (n - 1)%nat else NKeep
  | CDupeFile => if nfield_eqb f NDupeSize then NSet 1 199 else NKeep
  | CFlag g b => if nfield_eqb f g then NOr b else NKeep
  | _ => NKeep
  end.
Lemma nfield_eqb_eq f g : nfield_eqb f g = true -> f = g.
Proof. destruct f, g; cbn; congruence. Qed.
Lemma setkind_num kd nodes src s s' f : okkind kd = true -> cstring src -> setkind kd nodes src s = POk s' ->
  match numof kd f with
  | NSet i n => exists w, nth_error (allwords 200 src) i = Some w /\ numval f (firstn n w) = POk (sc_num s' f)
  | NOr b => sc_num s' f = Z.lor (sc_num s f) b
  | NKeep => sc_num s' f = sc_num s f
  end.
Proof.
  intros Hk Hs H. destruct kd; cbn [setkind numof okkind] in *; unfold lastaka, lastfilter, rdGroupName, rdNodelist, rdDupeFile, rdRoute, rdChange, rdArealist, rdFilter in H; sk H; try reflexivity.
  - destruct (arg_first _ _ _ Hs (leb2 _ Hk) E) as (w & Ew & Ef & _). cbn [set_num sc_num]. destruct (nfield_eqb f f0) eqn:Ee; [|reflexivity]. apply nfield_eqb_eq in Ee. subst f0. rewrite Ew. exists w. split; [reflexivity|]. rewrite <- Ef. exact E0.
  - destruct (arg_first 100 _ _ Hs (leb2 100 eq_refl) E) as (w & Ew & Ef & Hs1 & _). destruct (arg_first 200 _ _ Hs1 (leb2 200 eq_refl) E0) as (w1 & Ew1 & Ef1 & _). cbn [set_num sc_num]. destruct (nfield_eqb f NDupeSize) eqn:Ee; [|reflexivity]. apply nfield_eqb_eq in Ee. subst f.
    rewrite Ew, Ew1. exists w1. split; [reflexivity|]. cbn [numval]. change 199%nat with (200 - 1)%nat. rewrite <- Ef1, E1. reflexivity.
  - cbn [set_num sc_num]. destruct (nfield_eqb f f0) eqn:Ee; [|reflexivity]. apply nfield_eqb_eq in Ee. subst f0. reflexivity.
Qed.
Lemma intof_ok b n : intof b = POk n -> -2147483648 <= atoi b < 2147483648 /\ n = atoi b.
Proof. unfold intof, isint. destruct (Z.leb_spec (-2147483648) (atoi b)), (Z.ltb_spec (atoi b) 2147483648); cbn [andb]; intros H1; try discriminate. injection H1 as <-. auto. Qed.
Lemma numval_ok k f i n mean b v : In (k, f, i, n, mean) numbers -> numval f b = POk v -> mean b v.
Proof.
  intros Hin H. unfold numbers in Hin. cbn [In] in Hin.
  assert (N : (try m <- intof b; POk (u32 m)) = POk v -> number b v).
  { intros G. pinv G. apply intof_ok in E as [Hr ->]. injection G as <-. split; auto. }
  assert (K : (try m <- intof b; if isint (m * 1024) then POk (u32 (m * 1024)) else PUB) = POk v -> kilobytes b v).
  { intros G. pinv G. apply intof_ok in E as [Hr ->]. unfold isint in G. destruct (Z.leb_spec (-2147483648) (atoi b * 1024)), (Z.ltb_spec (atoi b * 1024) 2147483648); cbn [andb] in G; try discriminate. injection G as <-. split; [lia|reflexivity]. }
  assert (O1 : forall names, (exists n0, In (n0, v) names /\ kw b n0 = true) -> oneof names b v) by (intros ? X; exact X).
  destruct Hin as [E|[E|[E|[E|[E|[E|[E|[E|[E|[]]]]]]]]]]; injection E as <- <- <- <- <-; cbn [numval] in H; auto.
  - pinv H. apply intof_ok in E as [Hr ->]. destruct ((atoi b <? 1) || (atoi b >? 6)) eqn:Eb; [discriminate|]. injection H as <-. apply orb_false_iff in Eb as [B1 B2]. unfold level. split; [reflexivity|]. lia.
  - apply O1. destruct (kw b "IGNORE") eqn:K1; [|destruct (kw b "KILL") eqn:K2; [|destruct (kw b "BAD") eqn:K3; [|discriminate]]]; injection H as <-; eexists; (split; [|eassumption]); cbn; auto.
  - apply O1. destruct (kw b "IGNORE") eqn:K1; [|destruct (kw b "LOG") eqn:K2; [|destruct (kw b "LOG+BAD") eqn:K3; [|discriminate]]]; injection H as <-; eexists; (split; [|eassumption]); cbn; auto.
Qed.
Lemma numbers_step k f i n mean : In (k, f, i, n, mean) numbers -> forall x l y, cstring l -> fullline x l = POk y ->
  if says k l then exists w, nth_error (args l) i = Some w /\ mean (firstn n w) (sc_num (snd y) f) else sc_num (snd y) f = sc_num (snd x) f.
Proof.
  intros Hin. apply (step_key (says k) (fun b l a a' => if b then exists w, nth_error (args l) i = Some w /\ mean (firstn n w) a' else a' = a) (fun s => sc_num s f) k); auto.
  - assert (E : forallb (fun t => othkey (fst (fst (fst (fst t))))) numbers = true) by (vm_compute; reflexivity). rewrite forallb_forall in E. exact (E _ Hin).
  - intros k' kd l nodes s s' Hi Hw Hl Hs H. pose proof (setkind_num kd _ _ _ _ f (table_ok _ _ Hi) Hs H) as G.
    assert (E : forallb (fun e => forallb (fun t : String.string * nfield * nat * nat * (list Z -> Z -> Prop) =>
        let '(tk, tf, ti, tn, _) := t in match numof (snd e) tf with NSet i' n' => kw (lit (fst e)) tk && Nat.eqb i' ti && Nat.eqb n' tn | NKeep => negb (kw (lit (fst e)) tk) | NOr _ => false end) numbers) keytable = true) by (vm_compute; reflexivity).
    pose proof (table_with _ _ _ _ _ E Hi Hin) as B. cbn [fst snd] in B. unfold says. change (streqi (keyword l) (lit k)) with (kw (keyword l) k). rewrite (kw_kw _ _ k Hw). destruct (numof kd f) as [i' n'|b|]; [|discriminate|].
    + apply andb_true_iff in B as [B B3]. apply andb_true_iff in B as [B1 B2]. rewrite B1. apply Nat.eqb_eq in B2, B3. subst i' n'. destruct G as (w & G1 & G2). exists w. split; [exact G1|]. eapply numval_ok; eauto.
    + apply negb_true_iff in B. rewrite B. exact G.
Qed.
Lemma switches_step k f b : In (k, f, b) switches -> forall x l y, cstring l -> fullline x l = POk y ->
  Z.testbit (sc_num (snd y) f) b = Z.testbit (sc_num (snd x) f) b || says k l.
Proof.
  intros Hin. apply (step_key (says k) (fun v l a a' => Z.testbit a' b = Z.testbit a b || v) (fun s => sc_num s f) k); auto.
  - intros a _. rewrite orb_false_r. reflexivity.
  - assert (E : forallb (fun t => othkey (fst (fst t))) switches = true) by (vm_compute; reflexivity). rewrite forallb_forall in E. exact (E _ Hin).
  - intros k' kd l nodes s s' Hi Hw Hl Hs H. pose proof (setkind_num kd _ _ _ _ f (table_ok _ _ Hi) Hs H) as G.
    assert (E : forallb (fun e => forallb (fun t : String.string * nfield * Z =>
        let '(tk, tf, tb) := t in match numof (snd e) tf with NSet i' n' => false | NKeep => negb (kw (lit (fst e)) tk) | NOr v => Bool.eqb (Z.testbit v tb) (kw (lit (fst e)) tk) end) switches) keytable = true) by (vm_compute; reflexivity).
    pose proof (table_with _ _ _ _ _ E Hi Hin) as B. cbn [fst snd] in B. unfold says. change (streqi (keyword l) (lit k)) with (kw (keyword l) k). rewrite (kw_kw _ _ k Hw). destruct (numof kd f) as [i' n'|v|]; [discriminate| |].
    + apply Bool.eqb_prop in B. rewrite G, Z.lor_spec, B. reflexivity.
    + apply negb_true_iff in B. rewrite B, G, orb_false_r. reflexivity.
Qed.
Lemma exists_gen (P : list Z -> bool) (proj : sconf -> bool) x0 : proj (snd x0) = false ->
  (forall x l y, cstring l -> fullline x l = POk y -> proj (snd y) = proj (snd x) || P l) ->
  forall ls z, Forall cstring ls -> fulllines ls x0 = POk z -> proj (snd z) = existsb P ls.
Proof.
  intros H0 Hs ls. induction ls as [|l ls IH] using rev_ind; intros z Hc H; [injection H as <-; exact H0|]. apply Forall_app in Hc as [Hc Hl].
  apply fulllines_snoc in H as (y & H1 & H2). rewrite (Hs _ _ _ (Forall_inv Hl) H2), (IH _ Hc H1), existsb_app. cbn [existsb]. rewrite orb_false_r. reflexivity.
Qed.

(** ** Names of groups, lists *)
Lemma kind_is K (test : ckind -> bool) k kd l : forallb (fun e => Bool.eqb (kw (lit (fst e)) K) (test (snd e))) keytable = true -> In (k, kd) keytable -> kw (keyword l) k = true -> says K l = test kd.
Proof. intros H Hi Hw. rewrite forallb_forall in H. specialize (H _ Hi). apply Bool.eqb_prop in H. cbn [fst snd] in H. rewrite <- H. unfold says. change (kw (keyword l) K = kw (lit k) K). apply kw_kw. exact Hw. Qed.
Lemma CorrectFlags_ok b u : CorrectFlags b = Some u -> u = map upper b /\ Forall letter u.
Proof.
  unfold CorrectFlags. destruct (forallb _ _) eqn:E; [|discriminate]. intros H. injection H as <-. split; [reflexivity|]. rewrite forallb_forall in E. apply Forall_forall. intros c Hc. specialize (E c Hc). unfold letter. lia.
Qed.
Lemma groups_step i : forall x l y, cstring l -> fullline x l = POk y ->
  if namesgroup i l then exists w n r, args l = w :: n :: r /\ sc_group (snd y) i = firstn 79 n else sc_group (snd y) i = sc_group (snd x) i.
Proof.
  apply (step_key (namesgroup i) (fun b l a a' => if b then exists w n r, args l = w :: n :: r /\ a' = firstn 79 n else a' = a) (fun s => sc_group s i) "GROUPNAME"); auto.
  - unfold namesgroup. intros l H. apply andb_true_iff in H. tauto.
  - intros k kd l nodes s s' Hi Hw Hl Hs H. unfold namesgroup. rewrite (kind_is "GROUPNAME" (fun kd => match kd with CGroupName => true | _ => false end) k kd l eq_refl Hi Hw).
    destruct kd; cbn [setkind andb] in *; unfold lastaka, lastfilter, rdNodelist, rdDupeFile, rdRoute, rdChange, rdArealist, rdFilter in H; try (sk H; reflexivity).
    unfold rdGroupName in H. pinv H. pinv H. destruct (arg_first 2 _ _ Hs (leb2 2 eq_refl) E) as (w & Ew & Ef & Hs1 & _). change (2 - 1)%nat with 1%nat in Ef. apply need_ok in E0. apply CorrectFlags_ok in E0 as [-> Hf].
    destruct ((0 <=? hd 0 (map upper (fst x)) - 65) && (hd 0 (map upper (fst x)) - 65 <? 30)) eqn:Er; [|discriminate]. pinv H. injection H as <-.
    destruct (arg_first 80 _ _ Hs1 (leb2 80 eq_refl) E0) as (n & En & Eg & _). unfold args. rewrite Ew. rewrite Ef in *. destruct w as [|c w]; [cbn in Er; discriminate|]. cbn [firstn map hd] in Er |- *. cbn [set_group sc_group].
    destruct (Z.eqb_spec (upper c) (65 + i)) as [Hc|Hc].
    + replace (i =? upper c - 65) with true by (symmetry; apply Z.eqb_eq; lia). exists (c :: w), n, (allwords 200 (snd x0)). rewrite En. split; [reflexivity|exact Eg].
    + replace (i =? upper c - 65) with false by (symmetry; apply Z.eqb_neq; lia). reflexivity.
Qed.

(** a list that the lines with one keyword extend *)
Lemma list_step {A} (proj : sconf -> list A) (V : list node4d -> sconf -> list Z -> list A -> Prop) K (test : ckind -> bool) :
  (forall s v, proj (set_akas s v) = proj s) -> othkey K = true ->
  forallb (fun e => Bool.eqb (kw (lit (fst e)) K) (test (snd e))) keytable = true ->
  (forall kd l nodes s s', cstring (snd (tok 30 l)) -> okkind kd = true -> setkind kd nodes (snd (tok 30 l)) s = POk s' ->
     if test kd then exists it, proj s' = proj s ++ it /\ V nodes s l it else proj s' = proj s) ->
  forall x l y, cstring l -> fullline x l = POk y ->
  if says K l then exists it, proj (snd y) = proj (snd x) ++ it /\ V (map fn_node (cf_nodes (fst y))) (snd x) l it else proj (snd y) = proj (snd x).
Proof.
  intros Ha Ho Ht Hk x l y Hl H. assert (Hs : cstring (snd (tok 30 l))) by (apply tok_rest_cstring; auto; apply two_le).
  apply andb_true_iff in Ho as [Ho1 Ho2]. apply negb_true_iff in Ho2.
  assert (NoP : forall k, kw (keyword l) k = true -> In k basekeys -> says K l = false).
  { intros k Hw Hi. destruct (says K l) eqn:E; auto. change (kw (keyword l) K = true) in E. rewrite (kw_kw _ _ k E) in Hw. assert (existsb (kw (lit K)) basekeys = true) by (apply existsb_exists; eauto). congruence. }
  destruct (line_cases x l y Hl H) as [k Hi Hw Hna Hr Ey|n w r Hw Hr Hargs Hn Ey|k kd Hi Hw Hnb Hset Hsb|Hnone _ Ey].
  - rewrite Ey, (NoP _ Hw Hi). reflexivity.
  - rewrite Ey, Ha, (NoP _ Hw); [reflexivity|]. left. reflexivity.
  - rewrite (kind_is K test k kd l Ht Hi Hw). destruct Hsb as [Hsb]. rewrite Hsb. cbn [cf_nodes]. apply Hk; auto. eapply table_ok; eauto.
  - subst y. replace (says K l) with false; [reflexivity|]. symmetry. apply (Hnone K). apply existsb_exists in Ho1 as (k' & Hk' & E). apply String.eqb_eq in E. subst k'. unfold allkeys. apply in_or_app. right. exact Hk'.
Qed.
Lemma parseall_ok {A} (p : list Z -> pres A) ws l : parseall p ws = POk l -> Forall2 (fun a w => p w = POk a) l ws.
Proof. revert l. induction ws as [|w ws IH]; intros l H; cbn [parseall] in H; [injection H as <-; constructor|]. pinv H. pinv H. injection H as <-. constructor; auto. Qed.
Lemma F2_mapr {A B C} (R : A -> C -> Prop) (f : B -> C) l m : Forall2 R l (map f m) -> Forall2 (fun a b => R a (f b)) l m.
Proof. revert l. induction m as [|b m IH]; intros l H; inversion H; subst; constructor; auto. Qed.
Lemma parse100 {A} (p : list Z -> pres A) src l : cstring src -> parseall p (allwords 100 src) = POk l -> Forall2 (fun a w => p (firstn 99 w) = POk a) l (allwords 200 src).
Proof. intros Hs H. rewrite (allwords_cut 100 src (leb2 100 eq_refl) Hs) in H. apply parseall_ok in H. apply F2_mapr in H. exact H. Qed.

Ltac others H := unfold lastaka, lastfilter, rdGroupName, rdNodelist, rdDupeFile, rdRoute, rdChange, rdArealist, rdFilter in H; sk H; reflexivity.
Lemma attach_step : forall x l y, cstring l -> fullline x l = POk y ->
  if says "FILEATTACH" l then exists it, sc_attach (snd y) = sc_attach (snd x) ++ it /\ Forall2 patword it (args l) else sc_attach (snd y) = sc_attach (snd x).
Proof.
  apply (list_step sc_attach (fun _ _ l it => Forall2 patword it (args l)) "FILEATTACH" (fun kd => match kd with CAttach => true | _ => false end)); [reflexivity|vm_compute; reflexivity|vm_compute; reflexivity|].
  intros kd l nodes s s' Hs Hk H. destruct kd; cbn [setkind] in H; try (others H). pinv H. injection H as <-. exists x. split; [reflexivity|]. exact (parse100 _ _ _ Hs E).
Qed.
Lemma bounce_step : forall x l y, cstring l -> fullline x l = POk y ->
  if says "BOUNCE" l then exists it, sc_bounce (snd y) = sc_bounce (snd x) ++ it /\ Forall2 patword it (args l) else sc_bounce (snd y) = sc_bounce (snd x).
Proof.
  apply (list_step sc_bounce (fun _ _ l it => Forall2 patword it (args l)) "BOUNCE" (fun kd => match kd with CBounce => true | _ => false end)); [reflexivity|vm_compute; reflexivity|vm_compute; reflexivity|].
  intros kd l nodes s s' Hs Hk H. destruct kd; cbn [setkind] in H; try (others H). pinv H. injection H as <-. exists x. split; [reflexivity|]. exact (parse100 _ _ _ Hs E).
Qed.
Lemma afnames_step : forall x l y, cstring l -> fullline x l = POk y ->
  if says "AREAFIXNAME" l then exists it, sc_afnames (snd y) = sc_afnames (snd x) ++ it /\ exists n, it = [n] /\ nameline n l else sc_afnames (snd y) = sc_afnames (snd x).
Proof.
  apply (list_step sc_afnames (fun _ _ l it => exists n, it = [n] /\ nameline n l) "AREAFIXNAME" (fun kd => match kd with CAfName => true | _ => false end)); [reflexivity|vm_compute; reflexivity|vm_compute; reflexivity|].
  intros kd l nodes s s' Hs Hk H. destruct kd; cbn [setkind] in H; try (others H). pinv H. injection H as <-. destruct (arg_first 36 _ _ Hs (leb2 36 eq_refl) E) as (w & Ew & Ef & _).
  exists [fst x]. split; [reflexivity|]. exists (fst x). split; [reflexivity|]. exists w, (allwords 200 (snd x)). split; [exact Ew|exact Ef].
Qed.
Lemma arg_two src x : cstring src -> arg 200 src = POk x -> allwords 200 src = fst x :: allwords 200 (snd x) /\ cstring (snd x).
Proof. destruct x as [b r]. apply arg200. Qed.
Lemma findpos_first {A} (f : A -> bool) (P : A -> Prop) l i : (forall a, f a = true <-> P a) -> findpos f l = Some i -> firstat P l i.
Proof.
  intros Hf. revert i. induction l as [|a l IH]; intros i H; cbn [findpos] in H; [discriminate|]. destruct (f a) eqn:E.
  - injection H as <-. split; [exists a; split; [reflexivity|]; apply Hf; exact E|]. intros j y Hj. lia.
  - destruct (findpos f l) as [j|] eqn:Ej; [|discriminate]. injection H as <-. destruct (IH _ eq_refl) as [(z & Hz & Pz) Hlt]. split; [exists z; auto|]. intros [|m] y Hm Hy; cbn [nth_error] in Hy.
    + injection Hy as <-. intros P1. apply Hf in P1. congruence.
    + eapply Hlt; [|exact Hy]. lia.
Qed.
Lemma firstat_app {A} (P : A -> Prop) l m i : firstat P l i -> firstat P (l ++ m) i.
Proof.
  intros [(x & Hx & Px) Hlt]. assert (Hi : (i < length l)%nat) by (apply nth_error_Some; congruence). split.
  - exists x. rewrite nth_error_app1 by exact Hi. auto.
  - intros j y Hj Hy. rewrite nth_error_app1 in Hy by lia. eauto.
Qed.
Lemma firstat_map {A B} (f : A -> B) (P : B -> Prop) l i : firstat (fun a => P (f a)) l i -> firstat P (map f l) i.
Proof.
  intros [(x & Hx & Px) Hlt]. split.
  - exists (f x). rewrite nth_error_map, Hx. auto.
  - intros j y Hj Hy. rewrite nth_error_map in Hy. destruct (nth_error l j) as [z|] eqn:E; [|discriminate]. injection Hy as <-. eauto.
Qed.
Lemma routes_step : forall x l y, cstring l -> fullline x l = POk y ->
  if says "ROUTE" l then exists it, sc_routes (snd y) = sc_routes (snd x) ++ it /\ exists t, it = [t] /\ routeline (map ak_node (sc_akas (snd x))) t l else sc_routes (snd y) = sc_routes (snd x).
Proof.
  apply (list_step sc_routes (fun _ s l it => exists t, it = [t] /\ routeline (map ak_node (sc_akas s)) t l) "ROUTE" (fun kd => match kd with CRoute => true | _ => false end)); [reflexivity|vm_compute; reflexivity|vm_compute; reflexivity|].
  intros kd l nodes s s' Hs Hk H. destruct kd; cbn [setkind] in H; try (others H). unfold rdRoute in H.
  pinv H. destruct (arg_two _ _ Hs E) as [A1 S1]. pinv H. pinv H. destruct (arg_two _ _ S1 E1) as [A2 S2]. pinv H. pinv H. destruct (arg_two _ _ S2 E3) as [A3 S3]. pinv H. apply need_ok in E4. pinv H. apply need_ok in E5. injection H as <-.
  eexists. split; [reflexivity|]. eexists. split; [reflexivity|]. exists (fst x), (fst x1), (fst x3), (allwords 200 (snd x3)), x4. cbn [srt_pat srt_dest srt_aka]. unfold args. rewrite A1, A2, A3. split; [reflexivity|]. split; [exact E0|]. split; [exact E2|]. split; [exact E4|].
  apply firstat_map. apply (findpos_first (fun a => Compare4D x4 (ak_node a) =? 0)); [intros a; apply Z.eqb_eq|exact E5].
Qed.
Lemma upcomma_spec s : forall a b, upcomma s = (a, b) -> ~ In 44 a /\ (s = a /\ b = [] \/ s = a ++ 44 :: b).
Proof.
  induction s as [|c s IH]; intros a b H; cbn [upcomma] in H; [injection H as <- <-; auto|]. destruct (Z.eqb_spec c 44) as [->|Hc].
  - injection H as <- <-. split; auto.
  - destruct (upcomma s) as [a' b'] eqn:E. injection H as <- <-. destruct (IH _ _ eq_refl) as [H1 H2]. split; [cbn; intuition congruence|]. destruct H2 as [[-> ->]| ->]; auto.
Qed.
Definition hasflav (x : bool * bool * bool * bool) (ws : list (list Z)) : bool * bool * bool * bool :=
  let '(n, c, d, h) := x in (n || among "NORMAL" ws, c || among "CRASH" ws, d || among "DIRECT" ws, h || among "HOLD" ws).
Lemma flavour_ok w x y : flavour w x = Some y -> existsb (fun k => streqi w (lit k)) kinds = true /\ forall ws, hasflav y ws = hasflav x (w :: ws).
Proof.
  destruct x as [[[n c] d] h]. unfold flavour. change (streqi w (lit "NORMAL")) with (kw w "NORMAL").
  assert (K : existsb (fun k => streqi w (lit k)) kinds = kw w "NORMAL" || (kw w "CRASH" || (kw w "HOLD" || (kw w "DIRECT" || false)))) by reflexivity. rewrite K. clear K.
  assert (A : forall k ws, among k (w :: ws) = kw w k || among k ws) by reflexivity.
  destruct (kw w "NORMAL") eqn:K1; [|destruct (kw w "CRASH") eqn:K2; [|destruct (kw w "HOLD") eqn:K3; [|destruct (kw w "DIRECT") eqn:K4; [|discriminate]]]]; intros H; injection H as <-; (split; [reflexivity|]); intros ws; cbn [hasflav]; rewrite !A.
  - rewrite (kw_kw _ _ "CRASH" K1), (kw_kw _ _ "DIRECT" K1), (kw_kw _ _ "HOLD" K1), K1. cbn. rewrite orb_true_r. reflexivity.
  - rewrite (kw_kw _ _ "DIRECT" K2), (kw_kw _ _ "HOLD" K2), K1, K2. cbn. rewrite orb_true_r. reflexivity.
  - rewrite (kw_kw _ _ "DIRECT" K3), K1, K2, K3. cbn. rewrite orb_true_r. reflexivity.
  - rewrite K1, K2, K3, K4. cbn. rewrite orb_true_r. reflexivity.
Qed.
Lemma flavours_ok fuel : forall s x y, flavours fuel s x = Some y -> exists ws, (s = commas ws \/ s = commas ws ++ [44]) /\ Forall (fun w => existsb (fun k => streqi w (lit k)) kinds = true) ws /\ y = hasflav x ws.
Proof.
  assert (Hn : forall x, hasflav x [] = x) by (intros [[[n c] d] h]; cbn; rewrite !orb_false_r; reflexivity).
  induction fuel as [|f IH]; intros s x y H.
  - destruct s; cbn in H; [|discriminate]. injection H as <-. exists []. rewrite Hn. split; [left; reflexivity|]. split; [constructor|reflexivity].
  - destruct s as [|c s]; [cbn in H; injection H as <-; exists []; rewrite Hn; split; [left; reflexivity|]; split; [constructor|reflexivity]|].
    cbn [flavours] in H. destruct (upcomma (c :: s)) as [a b] eqn:E. apply upcomma_spec in E as [Ha Es]. apply obind_some in H as (z & Ez & H). apply flavour_ok in Ez as [Hk Hz].
    destruct (IH _ _ _ H) as (ws & Hc & Hf & ->). exists (a :: ws). split; [|split; [constructor; auto|apply Hz]].
    destruct Es as [[Es ->]|Es].
    + destruct ws as [|w ws].
      * left. exact Es.
      * exfalso. pose proof (Forall_inv Hf) as Hw. cbn beta in Hw. assert (w <> []) by (intros ->; discriminate Hw). destruct Hc as [Hc|Hc]; destruct ws; cbn [commas] in Hc; try (destruct w; [congruence|discriminate Hc]).
    + rewrite Es. destruct ws as [|w ws].
      * destruct Hc as [-> | ->]; [right; reflexivity|]. exfalso. cbn [commas app] in H. destruct f; cbn in H; [discriminate|]. destruct x as [[[? ?] ?] ?]. destruct z as [[[? ?] ?] ?]. discriminate H.
      * destruct Hc as [-> | ->]; [left; reflexivity|]. right. cbn [commas]. rewrite <- app_assoc. reflexivity.
Qed.
Lemma changes_step : forall x l y, cstring l -> fullline x l = POk y ->
  if says "CHANGE" l then exists it, sc_changes (snd y) = sc_changes (snd x) ++ it /\ exists t, it = [t] /\ changeline t l else sc_changes (snd y) = sc_changes (snd x).
Proof.
  apply (list_step sc_changes (fun _ _ l it => exists t, it = [t] /\ changeline t l) "CHANGE" (fun kd => match kd with CChange => true | _ => false end)); [reflexivity|vm_compute; reflexivity|vm_compute; reflexivity|].
  intros kd l nodes s s' Hs Hk H. destruct kd; cbn [setkind] in H; try (others H). unfold rdChange in H.
  pinv H. destruct (arg_two _ _ Hs E) as [A1 S1]. pinv H. pinv H. destruct (arg_two _ _ S1 E1) as [A2 S2]. pinv H. pinv H. destruct (arg_two _ _ S2 E3) as [A3 S3]. pinv H. apply need_ok in E4. destruct x0 as [[[n c] d] h]. injection H as <-.
  eexists. split; [reflexivity|]. eexists. split; [reflexivity|]. exists (fst x), (fst x1), (fst x3), (allwords 200 (snd x3)). cbn [ch_pat ch_pri ch_normal ch_crash ch_hold ch_direct]. unfold args. rewrite A1, A2, A3. split; [reflexivity|]. split; [exact E2|]. split.
  - unfold flavourpri in E4. destruct (kw (fst x3) "NORMAL") eqn:K1; [|destruct (kw (fst x3) "CRASH") eqn:K2; [|destruct (kw (fst x3) "HOLD") eqn:K3; [|destruct (kw (fst x3) "DIRECT") eqn:K4; [|discriminate]]]]; injection E4 as <-; eexists; (split; [|eassumption]); cbn; auto.
  - destruct (hd 0 (fst x) =? 42).
    + injection E0 as <- <- <- <-. auto.
    + apply need_ok in E0. apply flavours_ok in E0 as (ws & Hc & Hf & Hy). cbn [hasflav orb] in Hy. injection Hy as -> -> -> ->. exists ws. auto 8.
Qed.
Definition fz (fw ds : bool) : Z := (if ds then 1 else 0) + (if fw then 2 else 0).
Lemma alswitches_ok n : forall ws pre a a' fw ds, (length ws <= n)%nat -> listswitches pre fw ds (sal_group a) -> sal_flags a = fz fw ds -> alswitches ws a = Some a' ->
  sal_node a' = sal_node a /\ sal_file a' = sal_file a /\ exists fw' ds', listswitches (pre ++ ws) fw' ds' (sal_group a') /\ sal_flags a' = fz fw' ds'.
Proof.
  induction n as [|n IH]; intros ws pre a a' fw ds Hn Hp Hf H.
  - destruct ws; [|cbn in Hn; lia]. cbn in H. injection H as <-. rewrite app_nil_r. eauto 6.
  - destruct ws as [|w ws]; [cbn in H; injection H as <-; rewrite app_nil_r; eauto 6|]. cbn [alswitches length] in *. assert (Hw : (length ws <= n)%nat) by lia. destruct (kw w "FORWARD") eqn:K1; [|destruct (kw w "DESC") eqn:K2; [|destruct (kw w "GROUP") eqn:K3; [|discriminate]]].
    + destruct (IH ws (pre ++ [w]) (SAL (sal_node a) (sal_file a) (Z.lor (sal_flags a) SAL_FORWARD) (sal_group a)) a' true ds Hw) as (G1 & G2 & G3); [apply (ls_forward _ _ _ _ _ Hp K1)|cbn [sal_flags]; rewrite Hf; destruct fw, ds; reflexivity|exact H|].
      rewrite <- app_assoc in G3. auto.
    + destruct (IH ws (pre ++ [w]) (SAL (sal_node a) (sal_file a) (Z.lor (sal_flags a) SAL_DESC) (sal_group a)) a' fw true Hw) as (G1 & G2 & G3); [apply (ls_desc _ _ _ _ _ Hp K2)|cbn [sal_flags]; rewrite Hf; destruct fw, ds; reflexivity|exact H|].
      rewrite <- app_assoc in G3. auto.
    + destruct ws as [|g ws]; [discriminate|]. apply obind_some in H as (c & Ec & H). unfold firstflag in Ec. apply obind_some in Ec as (u & Eu & Ec). injection Ec as <-. apply CorrectFlags_ok in Eu as [-> Hu].
      destruct (IH ws (pre ++ [w; g]) (SAL (sal_node a) (sal_file a) (sal_flags a) (hd 0 (map upper g))) a' fw ds) as (G1 & G2 & G3); [cbn in Hw; lia| |exact Hf|exact H|rewrite <- app_assoc in G3; auto].
      cbn [sal_group]. replace (hd 0 (map upper g)) with (upper (hd 0 g)) by (destruct g; reflexivity). apply (ls_group _ _ _ _ _ _ Hp K3). rewrite Forall_forall in Hu |- *. intros z Hz. apply Hu. apply in_map. exact Hz.
Qed.
Lemma arealists_step : forall x l y, cstring l -> fullline x l = POk y ->
  if says "AREALIST" l then exists it, sc_arealists (snd y) = sc_arealists (snd x) ++ it /\ exists t, it = [t] /\ arealistline (map fn_node (cf_nodes (fst y))) t l else sc_arealists (snd y) = sc_arealists (snd x).
Proof.
  apply (list_step sc_arealists (fun nodes _ l it => exists t, it = [t] /\ arealistline nodes t l) "AREALIST" (fun kd => match kd with CArealist => true | _ => false end)); [reflexivity|vm_compute; reflexivity|vm_compute; reflexivity|].
  intros kd l nodes s s' Hs Hk H. destruct kd; cbn [setkind] in H; try (others H). unfold rdArealist in H.
  pinv H. destruct (arg_two _ _ Hs E) as [A1 S1]. pinv H. apply need_ok in E0. pinv H. apply need_ok in E1. pinv H. destruct (arg_first 80 _ _ S1 (leb2 80 eq_refl) E2) as (w & Ew & Ef & S2 & _). pinv H. apply need_ok in E3. injection H as <-.
  eexists. split; [reflexivity|]. eexists. split; [reflexivity|]. destruct (alswitches_ok _ _ [] (SAL x1 (fst x2) 0 0) _ false false (le_n _) ls_none eq_refl E3) as (G1 & G2 & fw & ds & G3 & G4). cbn [sal_node sal_file app] in *.
  exists (fst x), w, (allwords 200 (snd x2)), x0. unfold args. rewrite A1, Ew. split; [reflexivity|]. split; [exact E0|]. split; [|split; [rewrite G2; exact Ef|exists fw, ds; split; [exact G3|exact G4]]].
  rewrite G1. apply (findpos_first (fun m => Compare4D x0 m =? 0)); [intros a; apply Z.eqb_eq|exact E1].
Qed.

(** ** The nodes and AKAs that are known *)
Lemma rdline_nodes c l c' : rdline (fun _ _ _ _ _ => false) c l = ROk c' -> exists m, map fn_node (cf_nodes c') = map fn_node (cf_nodes c) ++ m.
Proof.
  intros H. destruct (tok 30 l) as [[w ok] src] eqn:Et. destruct (rdline_cls _ _ _ _ _ _ _ Et H) as [ra rp ro _ _ _ _ _ _ _ -> _ _|x _ -> _ _ _ _|g nl _ _ _ _ _ _ _ Hg -> Hk _|x _ -> _ _ _ _ _|g al _ _ _ _ _ _ _ _ -> _ _]; cbn [cf_nodes setnodes setareas]; try (exists []; rewrite app_nil_r; reflexivity).
  - exists [fn_node x]. rewrite map_app. reflexivity.
  - exists []. rewrite app_nil_r. apply onlast_inv in Hg as (l0 & x & y & -> & Hx & ->). rewrite !map_app. cbn [map]. destruct (Hk _ _ Hx) as [-> _]. reflexivity.
Qed.
Lemma nodes_grow x l y : cstring l -> fullline x l = POk y -> exists m, map fn_node (cf_nodes (fst y)) = map fn_node (cf_nodes (fst x)) ++ m.
Proof.
  intros Hl H. destruct (line_cases x l y Hl H) as [k Hi Hw Hna Hr Ey|n w r Hw Hr Hargs Hn Ey|k kd Hi Hw Hnb Hset Hsb|Hnone _ ->].
  - exact (rdline_nodes _ _ _ Hr).
  - exact (rdline_nodes _ _ _ Hr).
  - destruct Hsb as [->]. exists []. rewrite app_nil_r. reflexivity.
  - exists []. rewrite app_nil_r. reflexivity.
Qed.
Lemma rev_snoc {A} (l r : list A) a : rev l = a :: r -> l = rev r ++ [a].
Proof. intros H. rewrite <- (rev_involutive l), H. reflexivity. Qed.
(** what a line does to the AKAs *)
Definition akaadd (l : list Z) (a a' : aka) : Prop :=
  (says "ADDNODE" l = true /\ exists it, a' = AKA (ak_node a) (ak_domain a) (ak_add a ++ it) (ak_rem a) /\ Forall2 (fun n w => Parse4D (firstn 99 w) = Some n) it (args l)) \/
  (says "REMNODE" l = true /\ exists it, a' = AKA (ak_node a) (ak_domain a) (ak_add a) (ak_rem a ++ it) /\ Forall2 (fun p w => Parse2DPat (firstn 99 w) = POk p) it (args l)) \/
  (says "DOMAIN" l = true /\ exists w r, args l = w :: r /\ a' = AKA (ak_node a) w (ak_add a) (ak_rem a)).
Lemma emit_over n m t : (S m < n)%nat -> forall b d, length b = m -> (d <= m)%nat -> (m <= d + length t)%nat -> let '(b', d') := fold_left (emit n) t (Some b, d) in wr b' d' 0 = None.
Proof.
  assert (Hnone : forall t d, fst (fold_left (emit n) t (@None (list Z), d)) = None).
  { induction t0 as [|c t0 IH]; intros d; [reflexivity|]. cbn [fold_left]. unfold emit at 2. destruct (Nat.ltb d (n - 1)); apply IH. }
  intros Hnm. induction t as [|c t IH]; intros b d Hb Hd Ht; cbn [fold_left].
  - cbn [length] in Ht. unfold wr. destruct (Nat.ltb_spec d (length b)); [lia|reflexivity].
  - cbn [length] in Ht. unfold emit at 2. destruct (Nat.ltb_spec d (n - 1)) as [Hx|Hx]; [|lia]. destruct (Nat.ltb_spec d (length b)) as [Hy|Hy].
    + replace (wr (Some b) d c) with (Some (upd b d c)) by (unfold wr; destruct (Nat.ltb_spec d (length b)); [reflexivity|lia]). apply IH; [|lia|lia]. rewrite <- Hb. clear. revert d. induction b; intros [|d]; cbn; auto.
    + replace (wr (Some b) d c) with (@None (list Z)) by (unfold wr; destruct (Nat.ltb_spec d (length b)); [lia|reflexivity]). pose proof (Hnone t (S d)) as G. destruct (fold_left (emit n) t (None, S d)) as [b' d']. cbn [fst] in G. subst b'. reflexivity.
Qed.
Lemma jb_small src m n b r : cstring src -> (2 <= m)%nat -> (S m < n)%nat -> jbstrcpy (repeat 0 m) src n = (Some b, true, r) -> exists w, tok n src = (w, true, r) /\ cstr b = w /\ (length w < m)%nat.
Proof.
  intros Hs Hm Hn H. destruct (first_word_ex src Hs) as (q & t & rest & Hf). destruct (jb_gen src q t rest (repeat 0 m) n Hs Hf) as (E & Hct). rewrite E in H.
  destruct (Nat.lt_ge_cases (length t) m) as [Hl|Hl].
  - rewrite (tok_gen _ _ _ _ n Hs Hf) by lia. exists (firstn (n - 1) t). rewrite (emit_small m n t) in H by lia. destruct (finish m t (repeat 0 m) (repeat_length _ _) ltac:(lia) Hct) as (b' & E' & (_ & _ & Hb) & Hd).
    destruct (fold_left (emit m) t (Some (repeat 0 m), 0%nat)) as [b1 d]. rewrite E' in H. cbn [snd] in Hd. injection H as -> Hq <-. split; [|split].
    + f_equal. f_equal. rewrite <- Hq. subst d. destruct t as [|c t]; [rewrite Nat.min_0_r; reflexivity|]. cbn [length ne]. destruct (Nat.eqb_spec (Nat.min (m - 1) (S (length t))) 0); [lia|reflexivity].
    + rewrite Hb. rewrite !firstn_all2 by lia. reflexivity.
    + rewrite firstn_length. lia.
  - pose proof (emit_over n m t Hn (repeat 0 m) 0 (repeat_length _ _) ltac:(lia) ltac:(lia)) as G. destruct (fold_left (emit n) t (Some (repeat 0 m), 0%nat)) as [b1 d]. rewrite G in H. discriminate.
Qed.
Definition isaka (kd : ckind) : bool := match kd with CAdd | CRem | CDomain => true | _ => false end.
Lemma aka_kind K k kd l : In (k, kd) keytable -> kw (keyword l) k = true -> match kd with CAdd => K = "ADDNODE" | CRem => K = "REMNODE" | CDomain => K = "DOMAIN" | _ => False end%string -> says K l = true.
Proof.
  intros Hi Hw HK. destruct kd; try contradiction; subst K.
  - rewrite (kind_is "ADDNODE" (fun kd => match kd with CAdd => true | _ => false end) k _ l eq_refl Hi Hw). reflexivity.
  - rewrite (kind_is "REMNODE" (fun kd => match kd with CRem => true | _ => false end) k _ l eq_refl Hi Hw). reflexivity.
  - rewrite (kind_is "DOMAIN" (fun kd => match kd with CDomain => true | _ => false end) k _ l eq_refl Hi Hw). reflexivity.
Qed.
Lemma akas_kind_step k kd l nodes s s' : In (k, kd) keytable -> kw (keyword l) k = true -> cstring (snd (tok 30 l)) -> setkind kd nodes (snd (tok 30 l)) s = POk s' ->
  if isaka kd then exists l0 a a', sc_akas s = l0 ++ [a] /\ sc_akas s' = l0 ++ [a'] /\ akaadd l a a' else sc_akas s' = sc_akas s.
Proof.
  intros Hi Hw Hs H. pose proof (fun K => aka_kind K k kd l Hi Hw) as HK. destruct kd; cbn [setkind isaka] in *; try (unfold lastfilter, rdGroupName, rdNodelist, rdDupeFile, rdRoute, rdChange, rdArealist, rdFilter in H; sk H; reflexivity).
  - unfold lastaka in H. destruct (rev (sc_akas s)) as [|a r] eqn:Er; [discriminate|]. apply rev_snoc in Er. pinv H. pinv E. injection E as <-. injection H as <-. exists (rev r), a. eexists. split; [exact Er|]. split; [reflexivity|].
    left. split; [apply HK; reflexivity|]. exists x0. split; [reflexivity|]. apply parse100 in E0; auto. clear - E0. unfold args. revert E0. generalize (allwords 200 (snd (tok 30 l))). intros ws F. induction F; constructor; auto. apply need_ok. assumption.
  - unfold lastaka in H. destruct (rev (sc_akas s)) as [|a r] eqn:Er; [discriminate|]. apply rev_snoc in Er. pinv H. pinv E. injection E as <-. injection H as <-. exists (rev r), a. eexists. split; [exact Er|]. split; [reflexivity|].
    right. left. split; [apply HK; reflexivity|]. exists x0. split; [reflexivity|]. apply parse100 in E0; auto.
  - unfold lastaka in H. destruct (rev (sc_akas s)) as [|a r] eqn:Er; [discriminate|]. apply rev_snoc in Er. pinv H. injection H as <-. exists (rev r), a, x. split; [exact Er|]. split; [reflexivity|].
    right. right. split; [apply HK; reflexivity|]. unfold rdDomain in E. destruct (jbstrcpy (repeat 0 20) (snd (tok 30 l)) 200) as [[[b|] ok] rest] eqn:Ej; [|discriminate]. destruct ok; [|discriminate]. injection E as <-.
    destruct (jb_small _ 20 200 _ _ Hs ltac:(apply Nat.leb_le; reflexivity) ltac:(apply Nat.ltb_lt; reflexivity) Ej) as (w & Ew & Eb & _). destruct (allwords_step 200 _ _ _ (two_le _) Hs Ew) as [Ha _]. exists w, (allwords 200 rest). split; [exact Ha|]. rewrite Eb. reflexivity.
Qed.
