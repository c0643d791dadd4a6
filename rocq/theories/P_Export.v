(** CrashExport: lemmas. *)
From Verif Require P_Echo.
From Verif Require Import Base M_Node4D S_Node4D P_Node4D M_Mem M_Str S_Str P_Str M_Cfg M_Fs P_Fs M_Args M_Main M_Out P_Out M_Upd S_Upd P_UpdTok P_UpdBlk P_UpdNode P_UpdArea P_UpdCls P_UpdSim M_Export S_Export.

(** ** Lines *)
Lemma fgets_bytes (P : Z -> Prop) n : forall s, Forall P s -> Forall P (fst (fgets n s)) /\ Forall P (snd (fgets n s)).
Proof.
  induction n as [|n IH]; intros s H; [cbn; auto|]. destruct s as [|c r]; [cbn; auto|]. inversion H; subst. cbn [fgets]. destruct (c =? 10); [cbn; auto|].
  specialize (IH r ltac:(auto)). destruct (fgets n r) as [l r']. cbn [fst snd] in *. destruct IH. auto.
Qed.
Definition byte (c : Z) : Prop := 0 <= c < 256.
Lemma cstr_bytes l : Forall byte l -> cstring (cstr l).
Proof. induction l as [|c l IH]; intros H; [constructor|]. inversion H as [|? ? Hc Hl]; subst. cbn [cstr]. destruct (Z.eqb_spec c 0); [constructor|]. constructor; [unfold byte in Hc; lia|exact (IH Hl)]. Qed.
Lemma crlf_cstring l : cstring l -> cstring (crlf l).
Proof.
  intros H. unfold crlf. destruct (rev l) as [|a [|b r]] eqn:E; auto. destruct ((a =? 10) && (b =? 13)); auto.
  assert (El : l = rev r ++ [b; a]) by (rewrite <- (rev_involutive l), E; cbn [rev]; rewrite <- app_assoc; reflexivity). rewrite El in H. apply cstring_app in H as [H _].
  apply cstring_app. split; [exact H|]. repeat constructor; lia.
Qed.
Lemma flines_cstring s : Forall byte s -> Forall cstring (flines s).
Proof.
  unfold flines. generalize (length s). intros n. revert s. induction n as [|n IH]; intros s H; [constructor|]. cbn [flines_]. unfold osFGets. destruct s as [|c r]; [constructor|].
  destruct (fgets_bytes byte (4000 - 1) (c :: r) H) as [H1 H2]. destruct (fgets (4000 - 1) (c :: r)) as [l r']. cbn [fst snd] in *.
  pose proof (crlf_cstring _ (cstr_bytes _ H1)) as Hc. destruct (crlf (cstr l)) as [|z l'] eqn:El; [constructor|]. constructor; [exact Hc|]. apply IH. exact H2.
Qed.

(** ** Words *)
Lemma toks m n src : cstring src -> (2 <= n)%nat -> (2 <= m)%nat -> exists t, fst (fst (tok m src)) = firstn (m - 1) t /\ fst (fst (tok n src)) = firstn (n - 1) t.
Proof. intros Hs Hn Hm. destruct (first_word_ex src Hs) as (q & t & rest & Hf). exists t. rewrite (tok_gen _ _ _ _ m Hs Hf Hm), (tok_gen _ _ _ _ n Hs Hf Hn). auto. Qed.
Lemma tok_both m n src a ok r : cstring src -> (2 <= n)%nat -> (2 <= m)%nat -> tok m src = (a, ok, r) -> exists t, a = firstn (m - 1) t /\ tok n src = (firstn (n - 1) t, ok, r).
Proof.
  intros Hs Hn Hm H. destruct (first_word_ex src Hs) as (q & t & rest & Hf). exists t. rewrite (tok_gen _ _ _ _ m Hs Hf Hm) in H. injection H as <- <- <-. rewrite (tok_gen _ _ _ _ n Hs Hf Hn). auto.
Qed.
Lemma shown_cut t : shown (firstn 99 t) (firstn 79 t).
Proof.
  split; [rewrite firstn_firstn; reflexivity|]. split; [rewrite firstn_length; lia|]. intros H. rewrite firstn_length in H. rewrite !firstn_all2 by lia. reflexivity.
Qed.
Lemma shown_nil : shown [] [].
Proof. repeat split; cbn; lia. Qed.
Lemma shown_ne t t' : shown t t' -> ne t = ne t'.
Proof. intros (<- & _). destruct t; reflexivity. Qed.
Lemma kw_cut n t s : (length (lit s) < n)%nat -> kw (firstn n t) s = kw t s.
Proof.
  intros H. unfold kw, streqi. rewrite <- firstn_map. rewrite <- (map_length tolower (lit s)) in H. revert H. generalize (map tolower (lit s)). generalize (map tolower t). clear.
  intros t s H. revert t s H. induction n as [|n IH]; intros t s H; [lia|]. destruct t as [|c t]; [reflexivity|]. cbn [firstn]. destruct s as [|d s]; [reflexivity|]. cbn [length] in H.
  unfold streq. cbn. destruct (c =? d); [|reflexivity]. cbn. apply IH. lia.
Qed.
Lemma strneqi_cut n k t s : (k <= n)%nat -> strneqi k (firstn n t) s = strneqi k t s.
Proof. intros H. unfold strneqi. rewrite firstn_firstn, Nat.min_l by lia. reflexivity. Qed.
Lemma ftype_cut w t mb path ty : areatype w (firstn 79 t) mb path = Some ty -> xtype w (firstn 99 t) = ty.
Proof.
  unfold areatype, xtype. rewrite !kw_cut by (cbn; lia). rewrite !strneqi_cut by lia. destruct (kw w "NETMAIL"); [destruct mb; congruence|]. destruct (kw w "LOCALAREA"); [destruct mb; congruence|].
  destruct (kw t "BAD"); [destruct path; congruence|]. destruct (kw t "DEFAULT" || strneqi 8 t (lit "DEFAULT_")); congruence.
Qed.

(** at the end of a line there are no more words *)
Lemma skipblank_head s : match skipblank s with c :: _ => c <> 32 /\ c <> 9 | [] => True end.
Proof. induction s as [|c r IH]; cbn; [auto|]. destruct (Z.eqb_spec c 32); [subst; exact IH|]. destruct (Z.eqb_spec c 9); [subst; exact IH|]. cbn. auto. Qed.
Lemma skipblank_idem s : skipblank (skipblank s) = skipblank s.
Proof. pose proof (skipblank_head s) as H. destruct (skipblank s) as [|c r]; [reflexivity|]. destruct H. apply skip_nonblank; auto. Qed.
Lemma tok_no_more n m src a r : cstring src -> (2 <= n)%nat -> (2 <= m)%nat -> tok n src = (a, false, r) -> a = [] /\ exists r', tok m r = ([], false, r').
Proof.
  intros Hs Hn Hm H. destruct (first_word_ex src Hs) as (q & t & rest & Hf). rewrite (tok_gen _ _ _ _ n Hs Hf Hn) in H. injection H as <- Hok <-.
  apply orb_false_iff in Hok as [Ht Hq]. destruct t; [|discriminate]. subst q. split; [rewrite firstn_nil; reflexivity|]. destruct Hf as (Hnq & Htok).
  pose proof (cstring_skipblank _ Hs) as Hsk. pose proof (skipblank_head src) as Hh.
  assert (E : rest = skipblank src) by (inversion Htok; subst; reflexivity).
  assert (Hd : dropsep rest = rest).
  { rewrite E. destruct (skipblank src) as [|c s]; [reflexivity|]. destruct Hh. cbn [dropsep]. destruct (Z.eqb_spec c 9); [congruence|]. destruct (Z.eqb_spec c 32); [congruence|].
    destruct (Z.eqb_spec c 34); [subst c; exfalso; eapply Hnq; eauto|reflexivity]. }
  rewrite Hd, E. exists (dropsep rest). assert (Hf' : first_word (skipblank src) false [] rest) by (cbn [first_word]; rewrite skipblank_idem; split; assumption).
  rewrite (tok_gen _ _ _ _ m Hsk Hf' Hm). rewrite firstn_nil. reflexivity.
Qed.

(** ** The nodes an area is sent to *)

Lemma print_ne n : valid4d n -> Print4D n <> [].
Proof. intros (Hz & _). unfold Print4D. pose proof (dec_nonempty (zone n) ltac:(unfold is_u16 in Hz; lia)). destruct (negb (point n =? 0)); intros E; apply app_eq_nil in E as [E _]; contradiction. Qed.
Lemma dec5 v : is_u16 v -> (length (dec v) <= 5)%nat.
Proof.
  intros H. unfold is_u16 in H. unfold dec. remember (S (Z.to_nat (Z.log2 v))) as f eqn:Hf.
  assert (G : forall f z acc k, 0 <= z < 10 ^ Z.of_nat k -> (1 <= k)%nat -> (length (dec_aux f z acc) <= k + length acc)%nat).
  { clear. induction f as [|f IH]; intros z acc k Hz Hk; cbn [dec_aux]; [lia|]. destruct (Z.ltb_spec z 10); [cbn [length]; lia|]. destruct k as [|k]; [lia|].
    destruct k as [|k]; [change (10 ^ Z.of_nat 1) with 10 in Hz; lia|]. specialize (IH (z / 10) ((48 + z mod 10) :: acc) (S k)). cbn [length] in *.
    rewrite Nat2Z.inj_succ, Z.pow_succ_r in Hz by lia. etransitivity; [apply IH; [|lia]|lia].
    split; [apply Z.div_pos; lia|apply Z.div_lt_upper_bound; lia]. }
  specialize (G f v [] 5%nat). cbn [length] in G. rewrite Nat.add_0_r in G. apply G; [change (10 ^ Z.of_nat 5) with 100000; lia|lia].
Qed.
Lemma print_len n : valid4d n -> (length (Print4D n) <= 23)%nat.
Proof.
  intros (H1 & H2 & H3 & H4). apply dec5 in H1, H2, H3, H4. unfold Print4D. destruct (negb (point n =? 0)); rewrite !app_length; cbn [lit String.list_ascii_of_string map length]; change (length (lit ":")) with 1%nat; change (length (lit "/")) with 1%nat; try change (length (lit ".")) with 1%nat; lia.
Qed.
Lemma joined_snoc ns n : joined (ns ++ [n]) = (if match ns with [] => true | _ => false end then joined ns else joined ns ++ lit " ") ++ Print4D n.
Proof.
  induction ns as [|a ns IH]; [reflexivity|]. cbn [app]. destruct ns as [|b ns]; [cbn [app joined]; rewrite <- app_assoc; reflexivity|].
  change (joined (a :: (b :: ns) ++ [n])) with (Print4D a ++ lit " " ++ joined ((b :: ns) ++ [n])). rewrite IH. change (joined (a :: b :: ns)) with (Print4D a ++ lit " " ++ joined (b :: ns)). rewrite <- !app_assoc. reflexivity.
Qed.
Lemma joined_ne ns : Forall valid4d ns -> ne (joined ns) = match ns with [] => false | _ => true end.
Proof.
  intros H. destruct ns as [|a ns]; [reflexivity|]. inversion H; subst. pose proof (print_ne a ltac:(auto)). cbn [joined]. destruct ns; destruct (Print4D a); try congruence; reflexivity.
Qed.
Lemma joined_len ns : Forall valid4d ns -> (length (joined ns) <= 24 * length ns - 1)%nat.
Proof.
  induction ns as [|a ns IH] using rev_ind; intros H; [cbn; lia|]. apply Forall_app in H as [H1 H2]. inversion H2; subst. rewrite joined_snoc, !app_length. cbn [length]. specialize (IH H1). pose proof (print_len a ltac:(auto)).
  destruct ns as [|b ns]; [cbn [joined length] in *; lia|]. rewrite app_length. change (length (lit " ")) with 1%nat. cbn [length] in *. lia.
Qed.
Definition hdnot (k : Z) (b : list Z) : Prop := match b with x :: _ => x <> k | [] => True end.
Lemma m33 b : hdnot 33 b -> match b with 33 :: r => (TOSSNODE_READONLY, r) | _ => (0, b) end = (0, b).
Proof. destruct b as [|x t]; [reflexivity|]. cbn [hdnot]. intros Hx. destruct x as [|p|p]; auto. do 6 (destruct p as [p|p|]; auto). congruence. Qed.
Lemma m64 f b : hdnot 64 b -> match b with 64 :: r => (TOSSNODE_WRITEONLY, r) | _ => (f, b) end = (f, b).
Proof. destruct b as [|x t]; [reflexivity|]. cbn [hdnot]. intros Hx. destruct x as [|p|p]; auto. do 7 (destruct p as [p|p|]; auto). congruence. Qed.
Lemma m37 (f : Z) b : hdnot 37 b -> match b with 37 :: r => (TOSSNODE_FEED, r) | _ => (f, b) end = (f, b).
Proof. destruct b as [|x t]; [reflexivity|]. cbn [hdnot]. intros Hx. destruct x as [|p|p]; auto. do 6 (destruct p as [p|p|]; auto). congruence. Qed.
Lemma prefix_one w : onesign w -> xprefix w = snd (exportprefix w).
Proof.
  intros H. unfold exportprefix. destruct w as [|c r]; [reflexivity|].
  assert (Hr : sign c -> hdnot 33 r /\ hdnot 64 r /\ hdnot 37 r).
  { intros Hc. destruct r as [|x l]; [cbn; auto|]. specialize (H c x l eq_refl Hc). unfold sign in H. cbn [hdnot]. intuition. }
  unfold xprefix. destruct (Z.eqb_spec c 33) as [->|N33].
  { destruct (Hr ltac:(unfold sign; auto)) as (H1 & H2 & H3). cbv beta iota. rewrite (m64 _ r H2). rewrite (m37 _ r H3). reflexivity. }
  rewrite (m33 (c :: r)) by exact N33. destruct (Z.eqb_spec c 64) as [->|N64].
  { destruct (Hr ltac:(unfold sign; auto)) as (H1 & H2 & H3). cbv beta iota. rewrite (m37 _ r H3). reflexivity. }
  rewrite (m64 _ (c :: r)) by exact N64. destruct (Z.eqb_spec c 37) as [->|N37]; [reflexivity|].
  rewrite (m37 _ (c :: r)) by exact N37. reflexivity.
Qed.
Definition linked (nodes : list node4d) (n : node4d) (x : nat * Z) : Prop := exists k, nth_error nodes (fst x) = Some k /\ Compare4D n k = 0.
Lemma findpos_spec {A} (f : A -> bool) l i : findpos f l = Some i -> exists x, nth_error l i = Some x /\ f x = true.
Proof.
  revert i. induction l as [|a l IH]; intros i H; [discriminate|]. cbn [findpos] in H. destruct (f a) eqn:E; [injection H as <-; exists a; auto|].
  destruct (findpos f l) as [j|]; [|discriminate]. injection H as <-. cbn. apply IH. reflexivity.
Qed.
Lemma exports_ok nodes ws : Forall onesign ws -> forall tpl l ns, valid4d tpl -> Forall valid4d ns -> exports nodes tpl ws = Some l -> (length ns + length l <= 41)%nat ->
  exists ms, xexports (joined ns) tpl ws = Some (joined (ns ++ ms)) /\ Forall2 (linked nodes) ms l /\ Forall valid4d ms.
Proof.
  induction 1 as [|w r Hw _ IH]; intros tpl l ns Ht Hns H Hlen.
  { injection H as <-. exists []. rewrite app_nil_r. auto. }
  cbn [exports] in H. pose proof (prefix_one w Hw) as Hp. destruct (exportprefix w) as [f b]. cbn [snd] in Hp. apply obind_some in H as (n & En & H). apply obind_some in H as (i & Ei & H).
  apply obind_some in H as (l' & El & H). injection H as <-. cbn [xexports]. rewrite Hp, En. cbv zeta. pose proof (parse_valid _ _ _ Ht En) as Hn.
  pose proof (joined_len ns Hns) as HL. cbn [length] in Hlen. destruct (Nat.ltb_spec (length (joined ns)) 980); [|lia].
  assert (E : (if ne (joined ns) then joined ns ++ lit " " else joined ns) ++ Print4D n = joined (ns ++ [n])) by (rewrite joined_snoc, (joined_ne _ Hns); destruct ns; reflexivity).
  rewrite E. assert (Hns' : Forall valid4d (ns ++ [n])) by (apply Forall_app; split; auto). pose proof (joined_len _ Hns') as HL'. rewrite app_length in HL'. cbn [length] in HL'.
  destruct (Nat.ltb_spec (length (joined (ns ++ [n]))) 1000); [|lia].
  assert (Ht' : valid4d (N4 (zone n) (net n) (node n) 0)) by (clear - Hn; unfold valid4d, is_u16 in *; cbn [zone net node point]; lia).
  destruct (IH _ l' (ns ++ [n]) Ht' Hns' El ltac:(rewrite app_length; cbn [length]; lia)) as (ms & E1 & E2 & E3).
  exists (n :: ms). rewrite E1, <- app_assoc. cbn [app]. repeat split; auto. constructor; auto. apply findpos_spec in Ei as (k & Ek & Hk). exists k. cbn [fst]. split; auto. apply Z.eqb_eq. exact Hk.
Qed.

(** ** The variables of CrashExport and an area of the configuration *)
Record rel (akas nodes : list node4d) (a : farea) (x : xarea) : Prop := REL {
  r_tag : shown (x_tag x) (fa_tag a);
  r_desc : shown (x_desc x) (fa_desc a);
  r_path : shown (x_path x) (fa_path a);
  r_aka : exists k, nth_error akas (fa_aka a) = Some k /\ akatext k (x_aka x);
  r_group : toupper (x_group x) = fa_group a;
  r_links : exists ns, x_export x = joined ns /\ Forall valid4d ns /\ Forall2 (linked nodes) ns (fa_toss a);
  r_type : x_type x = fa_type a;
  r_unconf : x_unconf x = flag (fa_flags a) AREA_UNCONFIRMED;
  r_mb : (fa_mb a = None /\ x_mb x = [] /\ fa_path a = []) \/ (fa_mb a = Some 0%nat /\ kw (x_mb x) "MSG" = true) \/ (fa_mb a = Some 1%nat /\ kw (x_mb x) "JAM" = true) }.
Lemma linked_ext nodes nodes' n x : ext nodes nodes' -> linked nodes n x -> linked nodes' n x.
Proof. intros H (k & E & C). exists k. split; auto. eapply ext_nth; eauto. Qed.
Lemma F2_impl {A B} (R S : A -> B -> Prop) l m : (forall x y, R x y -> S x y) -> Forall2 R l m -> Forall2 S l m.
Proof. intros H. induction 1; constructor; auto. Qed.
Lemma rel_ext akas nodes akas' nodes' a x : ext akas akas' -> ext nodes nodes' -> rel akas nodes a x -> rel akas' nodes' a x.
Proof.
  intros Ha Hn [R1 R2 R3 (k & Ek & Hk) R5 (ns & E1 & E2 & E3) R7 R8 R9]. constructor; auto.
  - exists k. split; auto. eapply ext_nth; eauto.
  - exists ns. repeat split; auto. eapply F2_impl; [|exact E3]. intros n y. apply linked_ext. exact Hn.
Qed.
Lemma ingroup_check g grp a : toupper g = fa_group a -> match grp with Some s => negb (CheckFlags g s) | None => false end = negb (ingroup grp a).
Proof.
  intros E. destruct grp as [s|]; [|reflexivity]. unfold CheckFlags, ingroup. f_equal. rewrite E. induction s as [|c s IH]; [reflexivity|]. cbn [existsb]. rewrite IH, (Z.eqb_sym (fa_group a)). reflexivity.
Qed.
Lemma write_rel akas nodes f grp a x : rel akas nodes a x ->
  if wanted f grp a then exists t, xwrite f grp x = t /\ describes akas nodes f a t else xwrite f grp x = [].
Proof.
  intros R. unfold wanted, xwrite. rewrite (shown_ne _ _ (r_tag _ _ _ _ R)). destruct (ne (fa_tag a)); [|reflexivity]. unfold writearea. rewrite (r_unconf _ _ _ _ R). cbn [andb].
  destruct (flag (fa_flags a) AREA_UNCONFIRMED); [reflexivity|]. rewrite (r_type _ _ _ _ R). cbn [andb negb]. destruct (fa_type a =? AREATYPE_DEFAULT); [reflexivity|]. cbn [andb negb].
  rewrite (ingroup_check _ _ _ (r_group _ _ _ _ R)). destruct (ingroup grp a); [|reflexivity]. cbn [andb negb].
  destruct (r_links _ _ _ _ R) as (ns & Ens & Hv & HF). pose proof (r_mb _ _ _ _ R) as Hm. pose proof (r_path _ _ _ _ R) as Hp.
  assert (D : forall t, t = entry f (fa_type a) (isjam a) (pass a) (x_tag x) (x_desc x) (x_path x) (x_aka x) (x_group x) ns -> describes akas nodes f a t).
  { intros t ->. exists (x_tag x), (x_desc x), (x_path x), (x_aka x), (x_group x), ns. destruct R. repeat split; auto; apply r_tag0 || apply r_desc0 || apply r_path0. }
  unfold included.
  assert (K : forall k k', kw (x_mb x) k = true -> kw (x_mb x) k' = kw (lit k) k') by (intros; apply kw_kw; assumption).
  destruct f; unfold entry in D.
  - destruct (negb (fa_type a =? AREATYPE_NETMAIL) && negb (fa_type a =? AREATYPE_LOCAL)); [|reflexivity]. eexists. split; [reflexivity|]. apply D. unfold isjam, pass. rewrite Ens.
    destruct Hm as [(E1 & E2 & E3)|[(E1 & E2)|(E1 & E2)]]; rewrite E1.
    + rewrite E2. reflexivity.
    + rewrite E2. reflexivity.
    + rewrite (K _ "MSG"%string E2), E2. reflexivity.
  - destruct (fa_type a =? AREATYPE_ECHOMAIL); [|reflexivity]. eexists. split; [reflexivity|]. apply D. destruct (ne (x_desc x)); [|reflexivity]. rewrite <- !app_assoc. reflexivity.
  - destruct (fa_type a =? AREATYPE_ECHOMAIL); [|reflexivity]. eexists. split; [reflexivity|]. apply D. reflexivity.
  - rewrite (shown_ne _ _ Hp). destruct (ne (fa_path a)) eqn:Ep; [|reflexivity]. eexists. split; [reflexivity|]. apply D. unfold isjam.
    destruct Hm as [(E1 & E2 & E3)|[(E1 & E2)|(E1 & E2)]]; [rewrite E3 in Ep; discriminate| |]; rewrite E1.
    + rewrite E2. reflexivity.
    + rewrite (K _ "MSG"%string E2), E2. reflexivity.
  - rewrite (shown_ne _ _ Hp). destruct (ne (fa_path a)) eqn:Ep; [|reflexivity]. eexists. split; [reflexivity|]. apply D. unfold isjam.
    destruct Hm as [(E1 & E2 & E3)|[(E1 & E2)|(E1 & E2)]]; [rewrite E3 in Ep; discriminate| |]; rewrite E1.
    + rewrite E2. reflexivity.
    + rewrite (K _ "MSG"%string E2), E2. reflexivity.
Qed.

(** ** Line by line *)
Lemma describes_ext akas nodes akas' nodes' f a t : ext akas akas' -> ext nodes nodes' -> describes akas nodes f a t -> describes akas' nodes' f a t.
Proof.
  intros Ha Hn (tag & desc & path & aka & g & links & H1 & H2 & H3 & (k & Ek & Hk) & H5 & H6 & H7). exists tag, desc, path, aka, g, links.
  split; [exact H1|]. split; [exact H2|]. split; [exact H3|]. split; [exists k; split; auto; eapply ext_nth; eauto|]. split; [exact H5|]. split; [|exact H7].
  eapply F2_impl; [|exact H6]. intros n x (k' & E & C). exists k'. split; auto. eapply ext_nth; eauto.
Qed.
Definition nodesof (c : fconf) : list node4d := map fn_node (cf_nodes c).
Definition inv (f : xformat) (grp : option (list Z)) (c : fconf) (s : list Z * xarea) : Prop :=
  (cf_areas c = [] /\ s = ([], xempty)) \/
  (exists l0 a ts, cf_areas c = l0 ++ [a] /\ rel (cf_akas c) (nodesof c) a (snd s) /\
     Forall2 (describes (cf_akas c) (nodesof c) f) (filter (wanted f grp) l0) ts /\ fst s = concat ts).
Definition few (c : fconf) : Prop := Forall (fun a => (length (fa_toss a) <= 41)%nat) (cf_areas c).
Lemma inv_same f grp c c' s : cf_areas c' = cf_areas c -> pfx c c' -> inv f grp c s -> inv f grp c' s.
Proof.
  intros E (P1 & _ & P3 & _) [[H1 H2]|(l0 & a & ts & H1 & H2 & H3 & H4)]; [left; rewrite E; auto|]. right. exists l0, a, ts. rewrite E. split; [exact H1|]. split; [eapply rel_ext; eauto|]. split; [|exact H4].
  eapply F2_impl; [|exact H3]. intros ? ?. apply describes_ext; auto.
Qed.
Lemma inv_last f grp c out x g al x' : inv f grp c (out, x) -> onlast g (cf_areas c) = Some al ->
  (forall a y, In y al -> g a = Some y -> rel (cf_akas c) (nodesof c) a x -> rel (cf_akas c) (nodesof c) y x') -> inv f grp (setareas c al) (out, x').
Proof.
  intros [[H1 H2]|(l0 & a & ts & H1 & H2 & H3 & H4)] H G; [rewrite H1 in H; discriminate|]. apply onlast_inv in H as (l1 & a1 & y & E & Hg & ->). rewrite H1 in E. apply app_inj_tail in E as [<- <-].
  right. exists l0, y, ts. cbn [setareas cf_areas cf_akas cf_nodes fst snd]. split; [reflexivity|]. split; [|split; [exact H3|exact H4]]. apply (G a y); auto. apply in_or_app. right. left. reflexivity.
Qed.
Lemma inv_more f grp c out x : inv f grp c (out, x) -> exists ts, Forall2 (describes (cf_akas c) (nodesof c) f) (filter (wanted f grp) (cf_areas c)) ts /\ out ++ xwrite f grp x = concat ts.
Proof.
  intros [[H1 H2]|(l0 & a & ts & H1 & H2 & H3 & H4)]; cbn [fst snd] in *.
  - injection H2 as -> ->. rewrite H1. exists []. split; [constructor|reflexivity].
  - rewrite H1, filter_app. subst out. pose proof (write_rel _ _ f grp _ _ H2) as W. cbn [filter]. destruct (wanted f grp a).
    + destruct W as (t & -> & Hd). exists (ts ++ [t]). split; [apply Forall2_app; [exact H3|constructor; auto]|]. rewrite concat_app. cbn [concat]. rewrite app_nil_r. reflexivity.
    + rewrite W. exists ts. rewrite !app_nil_r. auto.
Qed.
Lemma kw_all_false w k ks : kw w k = true -> forallb (fun k' => negb (kw (lit k) k')) ks = true -> forallb (fun k' => negb (kw w k')) ks = true.
Proof. intros H. rewrite !forallb_forall. intros G x Hx. rewrite (kw_kw _ _ _ H). auto. Qed.
Definition xkeys : list String.string := ["AREA"; "NETMAIL"; "LOCALAREA"; "EXPORT"; "UNCONFIRMED"; "DESCRIPTION"; "GROUP"]%string.
Lemma xline_other f grp s l w ok src : tok 30 l = (w, ok, src) -> forallb (fun k' => negb (kw w k')) xkeys = true -> xline f grp s l = Some s.
Proof.
  intros Et H. unfold xline. destruct s as [out a]. rewrite Et. unfold xkeys in H. cbn [forallb] in H. rewrite !andb_true_iff, !negb_true_iff in H. destruct H as (-> & -> & -> & -> & -> & -> & -> & _). reflexivity.
Qed.
Lemma few_last c g al : onlast g (cf_areas c) = Some al -> (forall a y, g a = Some y -> (length (fa_toss a) <= length (fa_toss y))%nat) -> few (setareas c al) -> few c.
Proof.
  intros H G. apply onlast_inv in H as (l1 & a1 & y & E & Hg & ->). unfold few. cbn [setareas cf_areas]. rewrite E. rewrite !Forall_app. intros [H1 H2]. split; [exact H1|]. inversion H2; subst. constructor; [|constructor]. apply G in Hg. lia.
Qed.
Lemma hd_toupper b g : firstflag b = Some g -> toupper (hd 0 b) = g.
Proof. unfold firstflag. intros H. apply obind_some in H as (u & Hu & E). injection E as <-. unfold CorrectFlags in Hu. destruct (forallb _ _); [|discriminate]. injection Hu as <-. destruct b; reflexivity. Qed.
Lemma hd_firstn n (t : list Z) : (0 < n)%nat -> hd 0 (firstn n t) = hd 0 t.
Proof. destruct n; [lia|]. destruct t; reflexivity. Qed.
Lemma mbfind m mi : findpos (streqi m) mbnames = Some mi -> (mi = 0%nat /\ kw m "MSG" = true) \/ (mi = 1%nat /\ kw m "JAM" = true).
Proof. unfold mbnames, kw. cbn [findpos]. destruct (streqi m (lit "MSG")); [intros H; injection H as <-; auto|]. destruct (streqi m (lit "JAM")); [intros H; injection H as <-; auto|discriminate]. Qed.
Lemma kw_length m k : kw m k = true -> length m = length (lit k).
Proof. unfold kw, streqi. intros H. apply streq_eq in H. apply (f_equal (@length Z)) in H. rewrite !map_length in H. exact H. Qed.

Lemma area_step c w src c' tag xa xm xp o1 o2 o3 o4 s1 s2 s3 s4 : cstring src -> rdArea w c src = Some c' ->
  tok 100 src = (tag, o1, s1) -> tok 50 s1 = (xa, o2, s2) -> tok 10 s2 = (xm, o3, s3) -> tok 100 s3 = (xp, o4, s4) ->
  exists a, c' = setareas c (cf_areas c ++ [a]) /\ rel (cf_akas c) (nodesof c) a (XA tag xa xm xp [] [] 0 (xtype w tag) false).
Proof.
  intros Hs H T1 T2 T3 T4. unfold rdArea in H. destruct (tok_both 100 80 _ _ _ _ Hs ltac:(lia) ltac:(lia) T1) as (t1 & Et1 & T1'). rewrite T1' in H. destruct o1; [|discriminate].
  assert (Hs1 : cstring s1) by (pose proof (tok_rest_cstring 100 src Hs ltac:(lia)) as X; rewrite T1 in X; exact X).
  destruct (tok_both 50 200 _ _ _ _ Hs1 ltac:(lia) ltac:(lia) T2) as (t2 & Et2 & T2'). rewrite T2' in H. destruct o2; [|discriminate].
  assert (Hs2 : cstring s2) by (pose proof (tok_rest_cstring 50 s1 Hs1 ltac:(lia)) as X; rewrite T2 in X; exact X).
  apply obind_some in H as (n & En & H). apply obind_some in H as (ai & Ea & H).
  destruct (tok_both 10 200 _ _ _ _ Hs2 ltac:(lia) ltac:(lia) T3) as (t3 & Et3 & T3'). rewrite T3' in H.
  assert (Hs3 : cstring s3) by (pose proof (tok_rest_cstring 10 s2 Hs2 ltac:(lia)) as X; rewrite T3 in X; exact X).
  apply obind_some in H as (mp & Em & H). apply obind_some in H as (ty & Ety & H). injection H as <-. eexists. split; [reflexivity|].
  apply findpos_spec in Ea as (k & Ek & Hk). apply Z.eqb_eq in Hk.
  assert (Hm : (fst mp = None /\ snd mp = [] /\ xm = [] /\ xp = []) \/ (shown xp (snd mp) /\ ((fst mp = Some 0%nat /\ kw xm "MSG" = true) \/ (fst mp = Some 1%nat /\ kw xm "JAM" = true)))).
  { destruct o3.
    - right. apply obind_some in Em as (mi & Emi & Em). destruct (tok_both 100 80 _ _ _ _ Hs3 ltac:(lia) ltac:(lia) T4) as (t4 & Et4 & T4'). rewrite T4' in Em. destruct o4; [|discriminate].
      injection Em as <-. cbn [fst snd]. split; [rewrite Et4; apply shown_cut|]. apply mbfind in Emi.
      assert (Ex : forall k, kw (firstn 199 t3) k = true -> length (lit k) = 3%nat -> xm = firstn 199 t3).
      { intros k0 Hk0 Hl. apply kw_length in Hk0. rewrite Hl, firstn_length in Hk0. rewrite Et3. rewrite !firstn_all2 by lia. reflexivity. }
      destruct Emi as [[-> Hk0]|[-> Hk0]]; [left|right]; split; auto; rewrite (Ex _ Hk0 eq_refl); exact Hk0.
    - left. injection Em as <-. destruct (tok_no_more 10 100 _ _ _ Hs2 ltac:(lia) ltac:(lia) T3) as (Exm & r' & T4'). rewrite T4 in T4'. injection T4' as -> _ _. auto. }
  constructor; cbn [x_tag x_desc x_path x_aka x_group x_export x_type x_unconf x_mb fa_tag fa_desc fa_path fa_aka fa_group fa_toss fa_type fa_flags fa_mb].
  - rewrite Et1. apply shown_cut.
  - apply shown_nil.
  - destruct Hm as [(_ & -> & _ & ->)|[Hp _]]; [apply shown_nil|exact Hp].
  - exists k. split; [exact Ek|]. exists (firstn 199 t2), n. split; [rewrite firstn_firstn; rewrite Et2; f_equal; lia|]. split; [exact En|exact Hk].
  - reflexivity.
  - exists []. repeat split; constructor.
  - rewrite Et1. eapply ftype_cut. exact Ety.
  - reflexivity.
  - destruct Hm as [(H1 & H2 & H3 & _)|[_ [H1|H1]]]; auto.
Qed.

Lemma zero_valid : valid4d (N4 0 0 0 0).
Proof. unfold valid4d, is_u16. cbn. lia. Qed.
Lemma two_le n : (2 <= S (S n))%nat.
Proof. lia. Qed.
Section Step.
  Variable okother : list (list Z) -> list node4d -> list (list Z) -> list node4d -> list Z -> bool.
  Notation rdline := (rdline okother).
  Variables (f : xformat) (grp : option (list Z)).

  Definition good (c : fconf) (l : list Z) (c' : fconf) : Prop :=
    (few c' -> few c) /\ (few c' -> forall s, inv f grp c s -> exists s', xline f grp s l = Some s' /\ inv f grp c' s').
  Lemma good_same c l c' w ok src : tok 30 l = (w, ok, src) -> forallb (fun k' => negb (kw w k')) xkeys = true -> rdline c l = ROk c' -> cf_areas c' = cf_areas c -> good c l c'.
  Proof using Type.
    intros Et Hk H E. split; [unfold few; rewrite E; auto|]. intros _ s Hi. exists s. split; [eapply xline_other; eauto|]. eapply inv_same; eauto. eapply rdline_pfx; eauto.
  Qed.
  Definition like (g : farea -> option farea) : Prop := forall a y, g a = Some y -> fa_tag y = fa_tag a /\ fa_desc y = fa_desc a /\ fa_path y = fa_path a /\ fa_aka y = fa_aka a /\ fa_group y = fa_group a /\
    fa_toss y = fa_toss a /\ fa_type y = fa_type a /\ fa_mb y = fa_mb a /\ flag (fa_flags y) AREA_UNCONFIRMED = flag (fa_flags a) AREA_UNCONFIRMED.
  Lemma good_like c l g al w ok src : tok 30 l = (w, ok, src) -> forallb (fun k' => negb (kw w k')) xkeys = true -> onlast g (cf_areas c) = Some al -> like g -> good c l (setareas c al).
  Proof using Type.
    intros Et Hk H Hg. split; [eapply few_last; eauto; intros a y E; apply Hg in E as (_ & _ & _ & _ & _ & -> & _); lia|]. intros _ [out x] Hi. exists (out, x). split; [eapply xline_other; eauto|].
    eapply inv_last; eauto. intros a y _ E [R1 R2 R3 R4 R5 R6 R7 R8 R9]. apply Hg in E as (E1 & E2 & E3 & E4 & E5 & E6 & E7 & E8 & E9).
    constructor; rewrite ?E1, ?E2, ?E3, ?E4, ?E5, ?E6, ?E7, ?E8, ?E9; assumption.
  Qed.
  Ltac keep := let x := fresh in let y := fresh in intros x y; 
    unfold areaflag, rdImport, rdBanned, rdKeepNum, rdKeepDays;
    repeat match goal with
    | |- match ?t with _ => _ end = Some _ -> _ => destruct t
    | |- obind ?o _ = Some _ -> _ => destruct o; cbn [obind]
    | |- None = Some _ -> _ => discriminate
    | |- Some _ = Some _ -> _ => let H := fresh in intros H; injection H as <-; repeat split
    end.
  Lemma rof_area c l g c' w ok src k : tok 30 l = (w, ok, src) -> kw w k = true -> forallb (fun k' => negb (kw (lit k) k')) xkeys = true -> like g -> rof (lastarea g c) = ROk c' -> good c l c'.
  Proof using Type. intros Et Hk Hx Hg H. apply rof_ok in H. apply lastarea_inv in H as (al & E & ->). eapply good_like; eauto. eapply kw_all_false; eauto. Qed.
  Lemma flag_like b : Z.land b AREA_UNCONFIRMED = 0 -> like (areaflag b).
  Proof using Type. intros Hb a y E. unfold areaflag in E. injection E as <-. repeat split. cbn [fa_flags]. unfold flag. rewrite Z.land_lor_distr_l, Hb, Z.lor_0_r. reflexivity. Qed.
  Lemma nodes_keep g c c' : rof (lastnode g c) = ROk c' -> cf_areas c' = cf_areas c.
  Proof using Type. intros H. apply rof_ok in H. apply lastnode_inv in H as (l & _ & ->). reflexivity. Qed.

  Lemma step_good c l c' : cstring l -> (kw (keyword l) "EXPORT" = true -> Forall onesign (allwords 100 (snd (tok 30 l)))) -> rdline c l = ROk c' -> good c l c'.
  Proof using Type.
    intros Hl Hone H. destruct (tok 30 l) as [[w ok] src] eqn:Et. assert (Ew : keyword l = w) by (unfold keyword; rewrite Et; reflexivity). rewrite Ew in Hone. cbn [snd] in Hone.
    assert (Hsrc : cstring src) by (pose proof (tok_rest_cstring 30 l Hl (two_le _)) as X; rewrite Et in X; exact X).
    pose proof H as H0. unfold M_Upd.rdline in H. rewrite Et in H. cbv zeta in H.
    assert (NS : forall k, kw w k = true -> forallb (fun k' => negb (kw (lit k) k')) xkeys = true -> cf_areas c' = cf_areas c -> good c l c').
    { intros k Hk Hx E. eapply good_same; eauto. eapply kw_all_false; eauto. }
    destruct (kw w "AKA") eqn:K1.
    { apply (NS _ K1 eq_refl). apply rof_ok in H. unfold rdAka in H. destruct (tok 200 src) as [[b o] r]. destruct o; [|discriminate]. apply obind_some in H as (n & En & H). injection H as <-. reflexivity. }
    destruct (kw w "NODE") eqn:K2.
    { apply (NS _ K2 eq_refl). apply rof_ok in H. unfold rdNode in H. destruct (tok 200 src) as [[b o] r] eqn:E. destruct o; [|discriminate]. apply obind_some in H as (n & En & H).
      destruct (tok 10 r) as [[p o1] r1] eqn:E1. destruct o1; [|discriminate]. apply obind_some in H as (pk & Epk & H).
      destruct (tok 9 r1) as [[pw o2] r2] eqn:E2. destruct o2; [|discriminate]. apply obind_some in H as (x & Ex & H). injection H as <-. reflexivity. }
    destruct (kw w "PKTFROM") eqn:K3; [apply (NS _ K3 eq_refl); eapply nodes_keep; eauto|].
    destruct (kw w "AREAFIXINFO") eqn:K4.
    { apply (NS _ K4 eq_refl). unfold rdAreafixInfo in H. destruct (cf_nodes c) as [|n0 nr] eqn:En; [discriminate|].
      destruct (tok 40 src) as [[pw o] r] eqn:E. destruct o; [|discriminate]. destruct (tokgroups r) as [[[g1|] r1]|] eqn:E1; try discriminate.
      destruct (tokgroups r1) as [[[g2|] r2]|] eqn:E2; try discriminate. destruct (tokgroups r2) as [[[g3|] r3]|] eqn:E3; try discriminate. eapply nodes_keep; eauto. }
    destruct (kw w "DEFAULTGROUP") eqn:K5; [apply (NS _ K5 eq_refl); eapply nodes_keep; eauto|].
    destruct (kw w "AREA" || kw w "NETMAIL" || kw w "LOCALAREA") eqn:K6.
    { apply rof_ok in H. destruct (tok 100 src) as [[tag o1] s1] eqn:T1. destruct (tok 50 s1) as [[xa o2] s2] eqn:T2. destruct (tok 10 s2) as [[xm o3] s3] eqn:T3. destruct (tok 100 s3) as [[xp o4] s4] eqn:T4.
      destruct (area_step _ _ _ _ _ _ _ _ _ _ _ _ _ _ _ _ Hsrc H T1 T2 T3 T4) as (a & -> & R). split.
      - unfold few. cbn [setareas cf_areas]. rewrite Forall_app. intros [G _]. exact G.
      - intros _ [out x] Hi. unfold xline. rewrite Et, K6, T1, T2, T3, T4. eexists. split; [reflexivity|]. destruct (inv_more _ _ _ _ _ Hi) as (ts & F & E). right. exists (cf_areas c), a, ts.
        cbn [setareas cf_areas cf_akas fst snd]. change (nodesof (setareas c (cf_areas c ++ [a]))) with (nodesof c). auto. }
    assert (KA : kw w "AREA" = false /\ kw w "NETMAIL" = false /\ kw w "LOCALAREA" = false) by (rewrite !orb_false_iff in K6; tauto). destruct KA as (KA1 & KA2 & KA3).
    destruct (kw w "UNCONFIRMED") eqn:K7.
    { apply rof_ok in H. apply lastarea_inv in H as (al & E & ->). split; [eapply few_last; eauto; intros a y X; injection X as <-; reflexivity|]. intros _ [out x] Hi. unfold xline. rewrite Et, K6, (kw_kw _ _ "EXPORT" K7), K7. change (kw (lit "UNCONFIRMED") "EXPORT") with false. cbv iota.
      eexists. split; [reflexivity|]. eapply inv_last; eauto. intros a y _ X [R1 R2 R3 R4 R5 R6 R7 R8 R9]. injection X as <-. constructor; try assumption. cbn [x_unconf fa_flags]. unfold flag.
      symmetry. apply negb_true_iff. apply Z.eqb_neq. intros X. apply (f_equal (fun z => Z.testbit z 0)) in X. rewrite Z.land_spec, Z.lor_spec in X. change (Z.testbit AREA_UNCONFIRMED 0) with true in X. rewrite orb_true_r in X. discriminate. }
    destruct (kw w "MANDATORY") eqn:K8; [eapply (rof_area _ _ _ _ _ _ _ _ Et K8 eq_refl); [|exact H]; apply flag_like; reflexivity|].
    destruct (kw w "DEFREADONLY") eqn:K9; [eapply (rof_area _ _ _ _ _ _ _ _ Et K9 eq_refl); [|exact H]; apply flag_like; reflexivity|].
    destruct (kw w "IGNOREDUPES") eqn:K10; [eapply (rof_area _ _ _ _ _ _ _ _ Et K10 eq_refl); [|exact H]; apply flag_like; reflexivity|].
    destruct (kw w "IGNORESEENBY") eqn:K11; [eapply (rof_area _ _ _ _ _ _ _ _ Et K11 eq_refl); [|exact H]; apply flag_like; reflexivity|].
    destruct (kw w "EXPORT") eqn:K12.
    { apply rof_ok in H. apply lastarea_inv in H as (al & E & ->). split.
      - eapply few_last; eauto. intros a y X. unfold rdExport in X. destruct ((fa_type a =? AREATYPE_ECHOMAIL) || (fa_type a =? AREATYPE_DEFAULT)); [|discriminate]. apply obind_some in X as (l' & _ & X). injection X as <-. cbn [fa_toss]. rewrite app_length. apply Nat.le_add_r.
      - intros Hf [out x] Hi. unfold xline. rewrite Et, K6, K12.
        assert (Hx : exists e, xexports (x_export x) (N4 0 0 0 0) (allwords 100 src) = Some e /\ inv f grp (setareas c al) (out, XA (x_tag x) (x_aka x) (x_mb x) (x_path x) (x_desc x) e (x_group x) (x_type x) (x_unconf x))).
        { pose proof E as E'. apply onlast_inv in E' as (l0 & a & y & Ea & Hy & Eal). destruct Hi as [[Hi _]|(l1 & a1 & ts & E1 & R & F & Eo)]; [rewrite Hi in Ea; destruct l0; discriminate|].
          rewrite Ea in E1. apply app_inj_tail in E1 as [<- <-]. unfold rdExport in Hy. destruct ((fa_type a =? AREATYPE_ECHOMAIL) || (fa_type a =? AREATYPE_DEFAULT)); [|discriminate]. apply obind_some in Hy as (l' & El & Hy).
          destruct R as [R1 R2 R3 R4 R5 (ns & Ens & Hv & HF) R7 R8 R9]. cbn [snd fst] in *.
          assert (Hy' : (length (fa_toss y) <= 41)%nat) by (unfold few in Hf; cbn [setareas cf_areas] in Hf; rewrite Eal, Forall_app in Hf; destruct Hf as [_ Hf]; inversion Hf; assumption).
          injection Hy as <-. cbn [fa_toss] in Hy'. rewrite app_length, <- (F2_len _ _ _ HF) in Hy'.
          destruct (exports_ok _ _ (Hone eq_refl) _ _ ns zero_valid Hv El Hy') as (ms & Ex & Fm & Vm). rewrite Ens. exists (joined (ns ++ ms)). split; [exact Ex|].
          right. eexists l0, _, ts. cbn [setareas cf_areas cf_akas fst snd]. split; [rewrite Eal; reflexivity|]. split; [|split; [exact F|exact Eo]].
          constructor; try assumption. cbn [x_export fa_toss]. exists (ns ++ ms). split; [reflexivity|]. split; [apply Forall_app; auto|]. apply Forall2_app; assumption. }
        destruct Hx as (e & -> & Hi'). cbn [obind]. eexists. split; [reflexivity|exact Hi']. }
    destruct (kw w "IMPORT") eqn:K13; [eapply (rof_area _ _ _ _ _ _ _ _ Et K13 eq_refl); [|exact H]; keep|].
    destruct (kw w "BANNED") eqn:K14; [eapply (rof_area _ _ _ _ _ _ _ _ Et K14 eq_refl); [|exact H]; keep|].
    destruct (kw w "DESCRIPTION") eqn:K15.
    { apply rof_ok in H. apply lastarea_inv in H as (al & E & ->). destruct (tok 100 src) as [[d o] r] eqn:T1. destruct (tok_both 100 80 _ _ _ _ Hsrc (two_le _) (two_le _) T1) as (t1 & Et1 & T1').
      split; [eapply few_last; eauto; intros a y X; unfold rdDescription in X; rewrite T1' in X; destruct o; [injection X as <-; reflexivity|discriminate]|].
      intros _ [out x] Hi. unfold xline. rewrite Et, K6, K12, K7, K15, T1. eexists. split; [reflexivity|]. eapply inv_last; eauto. intros a y _ X [R1 R2 R3 R4 R5 R6 R7 R8 R9].
      unfold rdDescription in X. rewrite T1' in X. destruct o; [injection X as <-|discriminate]. constructor; try assumption. cbn [x_desc fa_desc]. rewrite Et1. apply shown_cut. }
    destruct (kw w "GROUP") eqn:K16.
    { apply rof_ok in H. apply lastarea_inv in H as (al & E & ->). destruct (tok 100 src) as [[d o] r] eqn:T1. destruct (tok_both 100 30 _ _ _ _ Hsrc (two_le _) (two_le _) T1) as (t1 & Et1 & T1').
      split; [eapply few_last; eauto; intros a y X; unfold rdGroup in X; rewrite T1' in X; destruct o; [apply obind_some in X as (g & _ & X); injection X as <-; reflexivity|discriminate]|].
      intros _ [out x] Hi. unfold xline. rewrite Et, K6, K12, K7, K15, K16, T1. eexists. split; [reflexivity|]. eapply inv_last; eauto. intros a y _ X [R1 R2 R3 R4 R5 R6 R7 R8 R9].
      unfold rdGroup in X. rewrite T1' in X. destruct o; [apply obind_some in X as (g & Eg & X); injection X as <-|discriminate]. constructor; try assumption. cbn [x_group fa_group].
      apply hd_toupper in Eg. rewrite hd_firstn in Eg by (apply Nat.lt_0_succ). rewrite Et1, hd_firstn by (apply Nat.lt_0_succ). exact Eg. }
    destruct (kw w "KEEPNUM") eqn:K17; [eapply (rof_area _ _ _ _ _ _ _ _ Et K17 eq_refl); [|exact H]; keep|].
    destruct (kw w "KEEPDAYS") eqn:K18; [eapply (rof_area _ _ _ _ _ _ _ _ Et K18 eq_refl); [|exact H]; keep|].
    destruct (kw w "PACKER") eqn:K19.
    { apply (NS _ K19 eq_refl). apply rof_ok in H. revert H. unfold rdPacker.
      repeat match goal with
      | |- match ?t with _ => _ end = Some _ -> _ => destruct t
      | |- obind ?o _ = Some _ -> _ => destruct o; cbn [obind]
      | |- None = Some _ -> _ => discriminate
      | |- Some _ = Some _ -> _ => let H := fresh in intros H; injection H as <-; reflexivity
      end. }
    destruct (kw w "REMOTEAF") eqn:K20; [apply (NS _ K20 eq_refl); eapply nodes_keep; eauto|].
    destruct (kw w "REMOTESYSOP") eqn:K21; [apply (NS _ K21 eq_refl); eapply nodes_keep; eauto|].
    eapply good_same; eauto.
    - unfold xkeys. cbn [forallb]. rewrite KA1, KA2, KA3, K12, K7, K15, K16. reflexivity.
    - destruct ((hd 0 w =? 0) || (hd 0 w =? 59)); [congruence|]. destruct (okother _ _ _ _ _); [injection H as <-; reflexivity|discriminate].
  Qed.
End Step.

(** ** The whole file *)
Ltac branches := repeat match goal with
  | |- match ?t with _ => _ end = _ -> _ => destruct t
  | |- obind ?o _ = Some _ -> _ => destruct o; cbn [obind]
  | |- None = Some _ -> _ => discriminate
  | |- RErr = ROk _ -> _ => discriminate
  | |- Some _ = Some _ -> _ => let H := fresh in intros H; injection H as <-; reflexivity
  end.
Lemma other_node g c c' : rof (lastnode g c) = ROk c' -> cf_other c' = cf_other c.
Proof. intros H. apply rof_ok in H. apply lastnode_inv in H as (l & _ & ->). reflexivity. Qed.
Lemma other_area g c c' : rof (lastarea g c) = ROk c' -> cf_other c' = cf_other c.
Proof. intros H. apply rof_ok in H. apply lastarea_inv in H as (l & _ & ->). reflexivity. Qed.
Lemma other_aka src c c' : rof (rdAka c src) = ROk c' -> cf_other c' = cf_other c.
Proof. intros H. apply rof_ok in H. revert H. unfold rdAka. branches. Qed.
Lemma other_rdnode src c c' : rof (rdNode c src) = ROk c' -> cf_other c' = cf_other c.
Proof. intros H. apply rof_ok in H. revert H. unfold rdNode. branches. Qed.
Lemma other_packer src c c' : rof (rdPacker c src) = ROk c' -> cf_other c' = cf_other c.
Proof. intros H. apply rof_ok in H. revert H. unfold rdPacker. branches. Qed.
Lemma other_rdarea w src c c' : rof (rdArea w c src) = ROk c' -> cf_other c' = cf_other c.
Proof.
  intros H. apply rof_ok in H. unfold rdArea in H. destruct (tok 80 src) as [[tag o] r]. destruct o; [|discriminate]. destruct (tok 200 r) as [[b o1] r1]. destruct o1; [|discriminate].
  apply obind_some in H as (n & _ & H). apply obind_some in H as (ai & _ & H). destruct (tok 200 r1) as [[m o2] r2]. apply obind_some in H as (mp & _ & H). apply obind_some in H as (ty & _ & H). injection H as <-. reflexivity.
Qed.
Lemma other_info src c c' : rdAreafixInfo c src = ROk c' -> cf_other c' = cf_other c.
Proof.
  intros H. unfold rdAreafixInfo in H. destruct (cf_nodes c) as [|n0 nr] eqn:En; [discriminate|].
  destruct (tok 40 src) as [[pw o] r] eqn:E. destruct o; [|discriminate]. destruct (tokgroups r) as [[[g1|] r1]|] eqn:E1; try discriminate.
  destruct (tokgroups r1) as [[[g2|] r2]|] eqn:E2; try discriminate. destruct (tokgroups r2) as [[[g3|] r3]|] eqn:E3; try discriminate. eapply other_node; eauto.
Qed.
Section Whole.
  Variable okother : list (list Z) -> list node4d -> list (list Z) -> list node4d -> list Z -> bool.
  Notation rdline := (rdline okother).
  Notation rdlines := (rdlines okother).
  Lemma other_line c l c' : rdline c l = ROk c' -> cf_other c' = cf_other c \/ cf_other c' = cf_other c ++ [l].
  Proof using Type.
    unfold M_Upd.rdline. destruct (tok 30 l) as [[w ok] src]. cbv zeta. intros H.
    repeat match type of H with
    | (if ?b then rof (rdAka _ _) else _) = _ => destruct b; [left; eapply other_aka; eauto|]
    | (if ?b then rof (rdNode _ _) else _) = _ => destruct b; [left; eapply other_rdnode; eauto|]
    | (if ?b then rof (rdPacker _ _) else _) = _ => destruct b; [left; eapply other_packer; eauto|]
    | (if ?b then rof (rdArea _ _ _) else _) = _ => destruct b; [left; eapply other_rdarea; eauto|]
    | (if ?b then rof (lastnode _ _) else _) = _ => destruct b; [left; eapply other_node; eauto|]
    | (if ?b then rof (lastarea _ _) else _) = _ => destruct b; [left; eapply other_area; eauto|]
    | (if ?b then rdAreafixInfo _ _ else _) = _ => destruct b; [left; eapply other_info; eauto|]
    end.
    destruct ((hd 0 w =? 0) || (hd 0 w =? 59)); [left; congruence|]. destruct (okother _ _ _ _ _); [injection H as <-; right; reflexivity|discriminate].
  Qed.
  Lemma sysop_line c l c' : rdline c l = ROk c' -> kw (keyword l) "SYSOP" = true -> cf_other c' = cf_other c ++ [l].
  Proof using Type.
    unfold M_Upd.rdline, keyword. destruct (tok 30 l) as [[w ok] src]. cbv zeta. cbn [fst]. intros H K.
    assert (N : forall k, kw (lit "SYSOP") k = false -> kw w k = false) by (intros k E; rewrite (kw_kw _ _ k K); exact E).
    rewrite !N in H by reflexivity. cbn [orb] in H. destruct w as [|z w]; [discriminate|]. cbn [hd] in H.
    destruct ((z =? 0) || (z =? 59)) eqn:E; [|destruct (okother _ _ _ _ _); [injection H as <-; reflexivity|discriminate]].
    exfalso. apply orb_true_iff in E as [E|E]; apply Z.eqb_eq in E; subst z; discriminate.
  Qed.
  Lemma sysop_lines ls : forall c c', rdlines ls c = ROk c' ->
    fold_left (fun s l => let '(w, _, src) := tok 30 l in if kw w "SYSOP" then fst (fst (tok 100 src)) else s) ls (sysopof c) = sysopof c'.
  Proof using Type.
    induction ls as [|l r IH]; intros c c' H; cbn in H; [injection H as <-; reflexivity|]. destruct (rdline c l) as [d| |] eqn:E; try discriminate. cbn [fold_left]. rewrite <- (IH _ _ H). f_equal.
    pose proof (sysop_line _ _ _ E) as HS. unfold keyword in HS. destruct (kw (keyword l) "SYSOP") eqn:K.
    - unfold keyword in K. destruct (tok 30 l) as [[w ok] src] eqn:Et. cbn [fst] in *. specialize (HS K). rewrite K. unfold sysopof. rewrite HS, rev_app_distr. cbn [rev app find]. unfold keyword. rewrite Et. cbn [fst snd]. rewrite K, Et. reflexivity.
    - pose proof K as K'. unfold keyword in K. destruct (tok 30 l) as [[w ok] src] eqn:Et. cbn [fst] in *. rewrite K. unfold sysopof. destruct (other_line _ _ _ E) as [->| ->]; [reflexivity|]. rewrite rev_app_distr. cbn [rev app find]. rewrite K'. reflexivity.
  Qed.
  Lemma good_lines f grp ls : Forall cstring ls -> Forall (fun l => kw (keyword l) "EXPORT" = true -> Forall onesign (allwords 100 (snd (tok 30 l)))) ls ->
    forall c c', rdlines ls c = ROk c' -> (few c' -> few c) /\ (few c' -> forall s, inv f grp c s -> exists s', xlines f grp s ls = Some s' /\ inv f grp c' s').
  Proof using Type.
    induction ls as [|l r IH]; intros H1 H2 c c' H; cbn in H.
    { injection H as <-. split; auto. intros _ s Hi. exists s. split; [reflexivity|exact Hi]. }
    inversion H1 as [|? ? H1a H1b]; inversion H2 as [|? ? H2a H2b]; subst. destruct (rdline c l) as [d| |] eqn:E; try discriminate. destruct (IH H1b H2b _ _ H) as [F1 F2]. destruct (step_good _ f grp _ _ _ H1a H2a E) as [G1 G2].
    split; [auto|]. intros Hf s Hi. destruct (G2 (F1 Hf) s Hi) as (s' & E' & Hi'). destruct (F2 Hf s' Hi') as (s'' & E'' & Hi''). exists s''. split; [cbn [xlines]; rewrite E'; exact E''|exact Hi''].
  Qed.
  Lemma xtext_ok time f grp s c : Forall byte s -> ReadConfig okother s = ROk c -> onesigns s -> few c -> exists t, xtext time f grp s = Some t /\ exported time f grp c t.
  Proof using Type.
    intros Hb H Ho Hf. unfold ReadConfig in H. destruct (good_lines f grp _ (flines_cstring _ Hb) Ho _ _ H) as [_ G].
    destruct (G Hf ([], xempty)) as ([out x] & E & Hi); [left; auto|]. unfold xtext. rewrite E. cbn [obind fst snd]. eexists. split; [reflexivity|].
    destruct (inv_more _ _ _ _ _ Hi) as (ts & F & Ec). exists ts. split; [exact F|]. rewrite <- Ec. unfold xsysop. pose proof (sysop_lines _ _ _ H) as Hs. change (sysopof (FC [] [] [] [] [])) with (lit "Sysop") in Hs. rewrite Hs. reflexivity.
  Qed.
End Whole.
