(** C45, C54: rewriting the configuration file. *)
From Verif Require P_Out P_Fs.
From Verif Require Import Base M_Node4D M_Str M_Mem M_Cfg M_Fs M_Out M_Upd S_Str S_Node4D S_Upd P_UpdTok P_UpdBlk P_UpdNode P_UpdArea P_UpdCls P_UpdSim.

(** ** The lines of a file *)
Lemma crlf_lf b : last b 0 <> 13 -> crlf (b ++ [10]) = b ++ [10].
Proof.
  intros H. unfold crlf. rewrite rev_app_distr. cbn [rev app]. destruct b as [|x b _] using rev_ind; [reflexivity|]. rewrite last_last in H. rewrite rev_app_distr. cbn [rev app].
  destruct (Z.eqb_spec x 13); [congruence|]. rewrite andb_false_r. reflexivity.
Qed.
Lemma crlf_crlf b : crlf ((b ++ [13]) ++ [10]) = b ++ [10].
Proof. unfold crlf. rewrite !rev_app_distr. cbn [rev app]. change ((10 =? 10) && (13 =? 13)) with true. cbv iota. rewrite rev_involutive. reflexivity. Qed.
Lemma cstring_no0 s : cstring s -> ~ In 0 s.
Proof. unfold cstring. intros H Hi. rewrite Forall_forall in H. specialize (H _ Hi). lia. Qed.
Lemma flines_step fuel b r l : osFGets 4000 (b ++ r) = Some (l, r) -> b <> [] -> (length (b ++ r) <= S fuel)%nat -> flines_ (S fuel) (b ++ r) = l :: flines_ fuel r /\ (length r <= fuel)%nat.
Proof.
  intros E Hb Hl. cbn [flines_]. rewrite E. split; [reflexivity|]. rewrite app_length in Hl. destruct b; [congruence|]. cbn [length] in Hl. lia.
Qed.
Lemma flines_concat o : Forall wline o -> forall fuel, (length (concat o) <= fuel)%nat -> flines_ fuel (concat o) = o.
Proof.
  induction 1 as [|l o (b & -> & (Hc & Hn & H13) & Hlen) Ho IH]; intros fuel Hf; [destruct fuel; reflexivity|]. cbn [concat] in *.
  destruct fuel as [|fuel]; [rewrite !app_length in Hf; cbn in Hf; lia|].
  assert (E : osFGets 4000 ((b ++ [10]) ++ concat o) = Some (b ++ [10], concat o)).
  { rewrite <- app_assoc. cbn [app]. rewrite P_Out.osFGets_line; [rewrite crlf_lf by auto; reflexivity|auto|apply cstring_no0; auto|lia]. }
  destruct (flines_step _ _ _ _ E ltac:(destruct b; discriminate) Hf) as [-> Hr]. f_equal. apply IH. auto.
Qed.
Lemma flines_filetext_app ls t r : Forall goodline ls -> (forall fuel, (length t <= fuel)%nat -> flines_ fuel t = r) ->
  forall fuel, (length (filetext ls ++ t) <= fuel)%nat -> flines_ fuel (filetext ls ++ t) = seen ls ++ r.
Proof.
  intros Hls Ht. induction Hls as [|[b e] ls (Hc & Hn & Hlen & H13) Hls IH]; intros fuel Hf; [apply Ht; exact Hf|]. cbn [filetext flat_map seen map fst snd app] in *. fold (filetext ls) in *. fold (seen ls).
  rewrite <- app_assoc in *. set (rest := filetext ls ++ t) in *.
  assert (E : osFGets 4000 ((b ++ (if e then [13; 10] else [10])) ++ rest) = Some (b ++ [10], rest)).
  { rewrite <- app_assoc. destruct e; cbn [app].
    - change (13 :: 10 :: rest) with ([13] ++ 10 :: rest). rewrite app_assoc. rewrite P_Out.osFGets_line; [rewrite crlf_crlf; reflexivity| | |rewrite app_length; cbn [length]; lia].
      + intros Hi. apply in_app_or in Hi as [Hi|[Hi|[]]]; [auto|discriminate].
      + intros Hi. apply in_app_or in Hi as [Hi|[Hi|[]]]; [apply (cstring_no0 _ Hc Hi)|discriminate].
    - rewrite P_Out.osFGets_line; [rewrite crlf_lf by auto; reflexivity|auto|apply cstring_no0; auto|lia]. }
  destruct fuel as [|fuel]; [rewrite !app_length in Hf; destruct e; cbn in Hf; lia|].
  destruct (flines_step _ _ _ _ E ltac:(destruct b, e; discriminate) Hf) as [-> Hr]. f_equal. apply IH. auto.
Qed.
Lemma flines_filetext ls : Forall goodline ls -> forall fuel, (length (filetext ls) <= fuel)%nat -> flines_ fuel (filetext ls) = seen ls.
Proof.
  intros H fuel Hf. pose proof (flines_filetext_app ls [] [] H) as E. rewrite !app_nil_r in E. apply E; auto. intros [|]; reflexivity.
Qed.
Lemma seen_wline ls : Forall goodline ls -> Forall wline (seen ls).
Proof.
  induction 1 as [|[b e] ls (Hc & Hn & Hlen & H13) Hls IH]; [constructor|]. constructor; [|exact IH]. exists b. split; auto. split; [split; auto|auto].
Qed.

(** ** The new file *)
Lemma edit_fates c0 f : (forall a, In a (cf_areas c0) ->
       (f a = Some a /\ fa_changed a = false) \/
       (exists a', f a = Some a' /\ fa_changed a' = true /\ fa_tag a' = fa_tag a /\ goodarea (cf_akas c0) (map fn_node (cf_nodes c0)) a' /\ fa_type a <> AREATYPE_LOCAL) \/
       (f a = None /\ fa_type a <> AREATYPE_LOCAL)) ->
  Forall2 (fun a ft => (ft = Some a /\ fa_changed a = false) \/
       (exists a', ft = Some a' /\ fa_changed a' = true /\ fa_tag a' = fa_tag a /\ goodarea (cf_akas c0) (map fn_node (cf_nodes c0)) a' /\ fa_type a <> AREATYPE_LOCAL) \/
       (ft = None /\ fa_type a <> AREATYPE_LOCAL)) (cf_areas c0) (map f (cf_areas c0)).
Proof. intros H. induction (cf_areas c0) as [|a l IH]; cbn [map]; constructor; [apply H; left; reflexivity|]. apply IH. intros b Hb. apply H. right. exact Hb. Qed.
Lemma flat_map_map {A B C} (g : B -> list C) (f : A -> B) l : flat_map g (map f l) = flat_map (fun a => g (f a)) l.
Proof. induction l; cbn; congruence. Qed.

Lemma update_edit okother old c0 c1 : Forall goodline old -> ReadConfig okother (filetext old) = ROk c0 -> edit c0 c1 -> defined_above (seen old) c1 -> short_names (seen old) ->
  exists new, newtext c1 (filetext old) = Some new /\ ReadConfig okother new = ROk (done c1) /\ filter foreign (flines new) = filter foreign (seen old) /\
    (c1 = c0 -> Forall (fun a => fa_changed a = false) (cf_areas c0) -> Forall (fun n => fn_changed n = false) (cf_nodes c0) -> new = concat (seen old)).
Proof.
  intros Hg Hr (E1 & E2 & E3 & E4 & E5 & f & news & E6 & E7 & E8 & E9) Hab Hsh. unfold ReadConfig, flines in Hr. rewrite flines_filetext in Hr by auto.
  destruct (update_ok okother (seen old) c0 c1 (map f (cf_areas c0)) news) as (u & out & U & tail & T & (o & Eo & Ow & Or & Of) & Z & Y); auto.
  - apply seen_wline. auto.
  - rewrite E6, flat_map_map. reflexivity.
  - apply edit_fates. exact E7.
  - exists (out ++ tail). unfold newtext, flines. rewrite flines_filetext by auto. rewrite U. cbn [obind fst snd]. rewrite T. cbn [obind]. split; auto. rewrite Eo.
    unfold ReadConfig, flines. rewrite flines_concat by auto. split; [exact Or|]. split; auto. intros -> Ha Hn. rewrite <- Eo.
    assert (news = []) as ->.
    { destruct news as [|a news]; auto. exfalso. apply Forall_inv in E8 as [Hc _]. rewrite Forall_forall in Ha. rewrite (Ha a) in Hc; [discriminate|]. rewrite E6. apply in_or_app. right. left. reflexivity. }
    assert (Hx : allsame c0 (map f (cf_areas c0))).
    { split; auto. apply Forall_forall. intros ft Hft. apply in_map_iff in Hft as (a & <- & Hi). rewrite app_nil_r in E6. destruct (E7 a Hi) as [[-> Hc]|[(a' & Ea & Hc & _)|[Ea _]]]; [eauto| |].
      - exfalso. rewrite Forall_forall in Ha. assert (Hi' : In a' (cf_areas c0)). { rewrite E6. apply in_flat_map. exists a. rewrite Ea. split; auto. left. reflexivity. } rewrite (Ha _ Hi') in Hc. discriminate.
      - exfalso. assert (L : (length (flat_map (fun a => olist (f a)) (cf_areas c0)) < length (cf_areas c0))%nat); [|rewrite <- E6 in L; lia].
        clear -Ea Hi. induction (cf_areas c0) as [|b l IH]; [destruct Hi|]. cbn [flat_map]. rewrite app_length. cbn [length].
        assert (Lb : (length (olist (f b)) <= 1)%nat) by (destruct (f b); cbn; lia). destruct Hi as [->|Hi].
        + rewrite Ea. cbn [olist length]. assert (length (flat_map (fun a => olist (f a)) l) <= length l)%nat; [|lia]. clear. induction l as [|c l IH]; cbn [flat_map length]; [lia|]. rewrite app_length. destruct (f c); cbn; lia.
        + specialize (IH Hi). lia. }
    rewrite (Z Hx), (Y eq_refl), app_nil_r. reflexivity.
Qed.

(** ** Lines that are kept *)
Lemma findpos_spec {A} (f : A -> bool) l : match findpos f l with Some i => exists x, nth_error l i = Some x /\ f x = true | None => forall x, In x l -> f x = false end.
Proof.
  induction l as [|a l IH]; cbn [findpos]; [intros x []|]. destruct (f a) eqn:E; [exists a; auto|]. destruct (findpos f l) as [i|]; [exact IH|]. intros x [<-|H]; auto.
Qed.
Lemma lastsuch_snoc p pre l : lastsuch p (pre ++ [l]) = if p l then Some l else lastsuch p pre.
Proof. unfold lastsuch. rewrite rev_app_distr. cbn [rev app filter]. destruct (p l); reflexivity. Qed.
Lemma updnth_in {A} (f : A -> A) l : forall i x, In x (updnth f i l) -> In x l \/ exists y, In y l /\ x = f y.
Proof.
  induction l as [|a l IH]; intros i x H; [destruct i; destruct H|]. destruct i as [|i]; cbn [updnth In] in H |- *.
  - destruct H as [<-|H]; [right; exists a; auto|auto].
  - destruct H as [<-|H]; [auto|]. apply IH in H as [H|(y & H & ->)]; [auto|right; exists y; auto].
Qed.
Lemma updnth_keep {A} (f : A -> A) l : forall i x, In x l -> In x (updnth f i l) \/ In (f x) (updnth f i l).
Proof.
  induction l as [|a l IH]; intros i x H; [destruct H|]. destruct i as [|i]; cbn [updnth In] in H |- *.
  - destruct H as [<-|H]; auto.
  - destruct H as [<-|H]; [auto|]. destruct (IH i x H); auto.
Qed.

(** what is known of the state: every area and node is one of [c], possibly with its mark cleared *)
Record since (c : fconf) (u : ustate) (pre : list (list Z)) : Prop := Since {
  sc_back : forall b, In b (cf_areas (us_conf u)) -> exists a, In a (cf_areas c) /\ (b = a \/ b = doneA a);
  sc_forw : forall a, In a (cf_areas c) -> exists b, In b (cf_areas (us_conf u)) /\ (b = a \/ b = doneA a);
  sc_node : forall b, In b (cf_nodes (us_conf u)) -> exists a, In a (cf_nodes c) /\ (b = a \/ b = doneN a);
  sc_ska : us_skiparea u = true -> exists h, lastsuch areaheading pre = Some h /\ ~ settledA c (argument h);
  sc_skn : us_skipnode u = true -> exists h, lastsuch nodeheading pre = Some h /\ ~ settledN c (argument h) }.

Lemma updarea_kept c u pre src u' out : cstring src -> (length (fst (fst (tok 200 src))) <= 79)%nat ->
  since c u pre -> updarea u src = Some (u', out) ->
  (forall b, In b (cf_areas (us_conf u')) -> exists a, In a (cf_areas c) /\ (b = a \/ b = doneA a)) /\
  (forall a, In a (cf_areas c) -> exists b, In b (cf_areas (us_conf u')) /\ (b = a \/ b = doneA a)) /\
  cf_nodes (us_conf u') = cf_nodes (us_conf u) /\ us_skipnode u' = us_skipnode u /\
  (settledA c (fst (fst (tok 200 src))) -> us_skiparea u' = false /\ out = []).
Proof.
  intros Hc Hl S. unfold updarea. destruct (tok80 src Hc Hl) as [-> _]. destruct (tok 200 src) as [[b ok] rest]. cbn [fst] in *. destruct ok; [|intros [= <- <-]; cbn [us_conf us_skiparea us_skipnode]; repeat split; [apply S|apply S]].
  pose proof (findpos_spec (fun a => streqi b (fa_tag a)) (cf_areas (us_conf u))) as F. destruct (findpos _ _) as [i|].
  - destruct F as (x & Ex & Hx). rewrite Ex. cbn [obind]. destruct (fa_changed x) eqn:Ec.
    + intros H. apply obind_some in H as (t & _ & [= <- <-]). cbn [us_conf us_skiparea us_skipnode setareas cf_areas cf_nodes]. split; [|split; [|repeat split]].
      * intros y Hy. apply updnth_in in Hy as [Hy|(z & Hy & ->)]; [apply S; auto|]. destruct (sc_back _ _ _ S z Hy) as (a & Ha & [->| ->]); exists a; auto.
      * intros a Ha. destruct (sc_forw _ _ _ S a Ha) as (y & Hy & E). destruct (updnth_keep doneA _ i y Hy) as [K|K]; [exists y; auto|]. exists (doneA y). split; auto. right. destruct E as [->| ->]; reflexivity.
      * exfalso. destruct (sc_back _ _ _ S x (nth_error_In _ _ Ex)) as (a & Ha & [->| ->]); [|discriminate]. destruct H as [_ H]. rewrite (H a Ha Hx) in Ec. discriminate.
      * exfalso. destruct (sc_back _ _ _ S x (nth_error_In _ _ Ex)) as (a & Ha & [->| ->]); [|discriminate]. destruct H as [_ H]. rewrite (H a Ha Hx) in Ec. discriminate.
    + intros [= <- <-]. cbn [us_conf us_skiparea us_skipnode]. repeat split; apply S.
  - intros [= <- <-]. cbn [us_conf us_skiparea us_skipnode]. split; [apply S|]. split; [apply S|]. repeat split.
    + exfalso. destruct H as [(a & Ha & E) _]. destruct (sc_forw _ _ _ S a Ha) as (y & Hy & Ey). specialize (F y Hy). destruct Ey as [->| ->]; cbn [doneA fa_tag] in F; congruence.
Qed.
Lemma updnode_kept c u pre src u' out : cstring src -> (length (fst (fst (tok 200 src))) <= 98)%nat ->
  since c u pre -> updnode u src = Some (u', out) ->
  (forall b, In b (cf_nodes (us_conf u')) -> exists a, In a (cf_nodes c) /\ (b = a \/ b = doneN a)) /\
  cf_areas (us_conf u') = cf_areas (us_conf u) /\ us_skiparea u' = us_skiparea u /\
  (settledN c (fst (fst (tok 200 src))) -> us_skipnode u' = false /\ out = []).
Proof.
  intros Hc Hl S. unfold updnode. rewrite (tok100 src Hc Hl). destruct (tok 200 src) as [[b ok] rest]. cbn [fst] in *.
  assert (D : (forall b, In b (cf_nodes (us_conf u)) -> exists a, In a (cf_nodes c) /\ (b = a \/ b = doneN a)) /\ cf_areas (us_conf u) = cf_areas (us_conf u) /\ us_skiparea u = us_skiparea u /\ (settledN c b -> false = false /\ @nil Z = [])).
  { repeat split. apply S. }
  destruct ok; [|intros [= <- <-]; exact D]. destruct (Parse4D b) as [n|] eqn:Ep; [|intros [= <- <-]; exact D].
  pose proof (findpos_spec (fun k => Compare4D n (fn_node k) =? 0) (cf_nodes (us_conf u))) as F. destruct (findpos _ _) as [i|]; [|intros [= <- <-]; exact D].
  destruct F as (x & Ex & Hx). rewrite Ex. cbn [obind]. destruct (fn_changed x) eqn:Ec; [|intros [= <- <-]; exact D].
  intros H. apply obind_some in H as (t & _ & [= <- <-]). cbn [us_conf us_skiparea us_skipnode setnodes cf_areas cf_nodes]. split; [|repeat split].
  - intros y Hy. apply updnth_in in Hy as [Hy|(z & Hy & ->)]; [apply S; auto|]. destruct (sc_node _ _ _ S z Hy) as (a & Ha & [->| ->]); exists a; auto.
  - exfalso. destruct (sc_node _ _ _ S x (nth_error_In _ _ Ex)) as (a & Ha & [->| ->]); [|discriminate]. apply Z.eqb_eq in Hx. rewrite (H n a Ep Ha Hx) in Ec. discriminate.
  - exfalso. destruct (sc_node _ _ _ S x (nth_error_In _ _ Ex)) as (a & Ha & [->| ->]); [|discriminate]. apply Z.eqb_eq in Hx. rewrite (H n a Ep Ha Hx) in Ec. discriminate.
Qed.
Lemma kw_excl w : isH w = true -> kw w "NODE" = false.
Proof.
  unfold isH. intros H. apply orb_true_iff in H as [H|H]; [apply orb_true_iff in H as [H|H]|]; rewrite (kw_kw _ _ "NODE" H); reflexivity.
Qed.
Lemma updline_kept c u pre l u' out : wline l -> short_names [l] -> since c u pre -> updline u l = Some (u', out) ->
  since c u' (pre ++ [l]) /\ (untouched c pre l -> out = l).
Proof.
  intros Hl Hsh S. destruct (Hsh l (or_introl eq_refl)) as [SA SN]. unfold untouched. rewrite !lastsuch_snoc. unfold areaheading, nodeheading, argument, keyword in *. unfold updline. destruct (tok 30 l) as [[w ok] src] eqn:Et. cbn [fst snd] in *.
  pose proof (tok30_cstring _ _ _ _ Hl Et) as Hc. fold (isH w) in *.
  destruct (isH w) eqn:EH.
  - rewrite (kw_excl _ EH) in *. intros H. apply obind_some in H as ([u1 o1] & U & H). cbn [obind fst snd app] in H. destruct (updarea_kept _ _ _ _ _ _ Hc (SA eq_refl) S U) as (B & F & N & K & Z).
    injection H as <- <-. split.
    + constructor; auto.
      * rewrite N. apply S.
      * intros E. exists l. rewrite lastsuch_snoc. unfold areaheading, argument, keyword. rewrite Et. cbn [fst snd]. fold (isH w). rewrite EH. split; auto. intros Hs. destruct (Z Hs). congruence.
      * rewrite K. intros E. destruct (sc_skn _ _ _ S E) as (h & Hh & Hs). exists h. rewrite lastsuch_snoc. unfold nodeheading, keyword. rewrite Et. cbn [fst snd]. rewrite (kw_excl _ EH). auto.
    + intros [Ha Hn]. specialize (Ha l eq_refl). rewrite Et in Ha. cbn [fst snd] in Ha. destruct (Z Ha) as [-> ->]. cbn [app andb orb]. rewrite K.
      destruct (us_skipnode u) eqn:E; [|reflexivity]. destruct (sc_skn _ _ _ S E) as (h & Hh & Hs). destruct (Hs (Hn h Hh)).
  - cbn [obind fst snd app]. destruct (kw w "NODE") eqn:EN.
    + intros H. apply obind_some in H as ([u1 o1] & U & H). cbn [fst snd] in H. destruct (updnode_kept _ _ _ _ _ _ Hc (SN eq_refl) S U) as (B & F & K & Z).
      injection H as <- <-. split.
      * constructor; auto; try (rewrite F; apply S).
        -- rewrite K. intros E. destruct (sc_ska _ _ _ S E) as (h & Hh & Hs). exists h. rewrite lastsuch_snoc. unfold areaheading, keyword. rewrite Et. cbn [fst snd]. fold (isH w). rewrite EH. auto.
        -- intros E. exists l. rewrite lastsuch_snoc. unfold nodeheading, argument, keyword. rewrite Et. cbn [fst snd]. rewrite EN. split; auto. intros Hs. destruct (Z Hs). congruence.
      * intros [Ha Hn]. specialize (Hn l eq_refl). rewrite Et in Hn. cbn [fst snd] in Hn. destruct (Z Hn) as [-> ->]. cbn [app andb orb]. rewrite orb_false_r, K.
        destruct (us_skiparea u) eqn:E; [|reflexivity]. destruct (sc_ska _ _ _ S E) as (h & Hh & Hs). destruct (Hs (Ha h Hh)).
    + cbn [obind fst snd app]. intros [= <- <-]. split.
      * constructor; try apply S.
        -- intros E. destruct (sc_ska _ _ _ S E) as (h & Hh & Hs). exists h. rewrite lastsuch_snoc. unfold areaheading, keyword. rewrite Et. cbn [fst snd]. fold (isH w). rewrite EH. auto.
        -- intros E. destruct (sc_skn _ _ _ S E) as (h & Hh & Hs). exists h. rewrite lastsuch_snoc. unfold nodeheading, keyword. rewrite Et. cbn [fst snd]. rewrite EN. auto.
      * intros [Ha Hn]. destruct (us_skiparea u) eqn:E; [destruct (sc_ska _ _ _ S E) as (h & Hh & Hs); destruct (Hs (Ha h Hh))|].
        destruct (us_skipnode u) eqn:E2; [destruct (sc_skn _ _ _ S E2) as (h & Hh & Hs); destruct (Hs (Hn h Hh))|]. reflexivity.
Qed.
Lemma updlines_kept c post : forall u pre u' out, Forall wline post -> short_names post -> since c u pre -> updlines u post = Some (u', out) ->
  exists parts, out = concat parts /\ length parts = length post /\
    forall k l, nth_error post k = Some l -> untouched c (pre ++ firstn k post) l -> nth_error parts k = Some l.
Proof.
  induction post as [|l post IH]; intros u pre u' out Hw Hs S H; cbn [updlines] in H.
  - injection H as <- <-. exists []. repeat split. intros [|k] l; discriminate.
  - apply obind_some in H as ([u1 o1] & U & H). apply obind_some in H as ([u2 o2] & U2 & [= <- <-]). cbn [fst snd] in *. inversion Hw as [|? ? Hl Hr]; subst.
    destruct (updline_kept c u pre l u1 o1 Hl) as [S1 Z]; auto; [intros x [<-|[]]; apply Hs; left; reflexivity|].
    destruct (IH u1 (pre ++ [l]) u2 o2 Hr) as (parts & -> & Hlen & P); auto; [intros x Hx; apply Hs; right; exact Hx|].
    exists (o1 :: parts). split; [reflexivity|]. split; [cbn; lia|]. intros [|k] x Hx Hu; cbn [nth_error firstn] in *.
    + injection Hx as <-. rewrite app_nil_r in Hu. rewrite (Z Hu). reflexivity.
    + apply P; auto. rewrite <- app_assoc. exact Hu.
Qed.

(** ** C45 *)

(** The new file, read again, gives the configuration that was written. *)
Theorem C45_reread okother old c0 c1 : Forall goodline old -> ReadConfig okother (filetext old) = ROk c0 ->
  edit c0 c1 -> defined_above (seen old) c1 -> short_names (seen old) ->
  exists new, newtext c1 (filetext old) = Some new /\ ReadConfig okother new = ROk (done c1).
Proof. intros H1 H2 H3 H4 H5. destruct (update_edit okother old c0 c1 H1 H2 H3 H4 H5) as (new & E & R & _). eauto. Qed.

(** All other settings and comments are in it, verbatim and in order, and nothing else is
    added to them. *)
Theorem C45_others_kept okother old c0 c1 new : Forall goodline old -> ReadConfig okother (filetext old) = ROk c0 ->
  edit c0 c1 -> defined_above (seen old) c1 -> short_names (seen old) ->
  newtext c1 (filetext old) = Some new -> filter foreign (flines new) = filter foreign (seen old).
Proof. intros H1 H2 H3 H4 H5 H6. destruct (update_edit okother old c0 c1 H1 H2 H3 H4 H5) as (n & E & _ & F & _). congruence. Qed.

(** So is every line below the heading of an area or a node that has not changed: line [k] of
    the old file is part [k] of the new one. This holds of every configuration. *)
Theorem C45_lines_kept old c1 new : Forall goodline old -> short_names (seen old) ->
  newtext c1 (filetext old) = Some new ->
  exists parts tail, new = concat parts ++ tail /\ length parts = length old /\
    forall k l, nth_error (seen old) k = Some l -> untouched c1 (firstn k (seen old)) l -> nth_error parts k = Some l.
Proof.
  intros Hg Hs H. unfold newtext, flines in H. rewrite flines_filetext in H by auto. apply obind_some in H as ([u out] & U & H). apply obind_some in H as (t & _ & [= <-]). cbn [fst snd].
  destruct (updlines_kept c1 (seen old) (US c1 false false) [] u out (seen_wline _ Hg) Hs) as (parts & -> & Hl & P); auto.
  - constructor; cbn [us_conf us_skiparea us_skipnode]; try discriminate; intros b Hb; exists b; auto.
  - exists parts, t. split; auto. split; [rewrite Hl; unfold seen; apply map_length|]. exact P.
Qed.

(** If nothing has changed the new file has the lines of the old one. *)
Lemma onlast_all {A} (P : A -> Prop) (g : A -> option A) l l' : (forall x y, g x = Some y -> P x -> P y) -> onlast g l = Some l' -> Forall P l -> Forall P l'.
Proof.
  intros Hg H HP. apply onlast_inv in H as (r & x & y & -> & E & ->). apply Forall_app in HP as [HP Hx]. apply Forall_app. split; auto. constructor; [|constructor]. eapply Hg; eauto. apply Forall_inv in Hx. exact Hx.
Qed.
Definition unmarked (c : fconf) : Prop := Forall (fun a => fa_changed a = false) (cf_areas c) /\ Forall (fun n => fn_changed n = false) (cf_nodes c).
Lemma rdlines_unmarked okother ls : forall c c', rdlines okother ls c = ROk c' -> unmarked c -> unmarked c'.
Proof.
  induction ls as [|l ls IH]; intros c c' H [Ha Hn]; cbn [rdlines] in H; [injection H as <-; split; auto|]. destruct (rdline okother c l) as [d| |] eqn:E; try discriminate. apply (IH _ _ H). clear IH H.
  destruct (tok 30 l) as [[w ok] src] eqn:Et. apply (rdline_cls _ _ _ _ _ _ _ Et) in E. unfold unmarked. destruct E; subst d; cbn [cf_areas cf_nodes setareas setnodes]; (split; auto).
  - apply Forall_app. auto.
  - eapply onlast_all; eauto. intros x y Hg. apply H8 in Hg as [_ ->]. auto.
  - apply Forall_app. auto.
  - eapply onlast_all; eauto. intros x y Hg. apply H8 in Hg as (_ & _ & ->). auto.
Qed.
Theorem C45_unchanged okother old c : Forall goodline old -> ReadConfig okother (filetext old) = ROk c ->
  distinct_tags (cf_areas c) -> distinct_nodes (cf_nodes c) -> short_names (seen old) ->
  newtext c (filetext old) = Some (concat (seen old)).
Proof.
  intros Hg Hr Ht Hn Hs. assert (U : unmarked c). { unfold ReadConfig in Hr. eapply rdlines_unmarked; eauto. split; constructor. } destruct U as [Ua Un].
  destruct (update_edit okother old c c Hg Hr) as (new & E & _ & _ & Z); auto.
  - unfold edit. repeat split; auto.
    + clear -Un. induction Un; constructor; auto.
    + exists (fun a => Some a), []. repeat split; auto.
      * rewrite app_nil_r. clear. generalize (cf_areas c) as l. induction l as [|a l IH]; [reflexivity|]. change (a :: l = a :: flat_map (fun a => olist (Some a)) l). f_equal. exact IH.
      * intros a Ha. left. split; auto. rewrite Forall_forall in Ua. auto.
      * rewrite app_nil_r. auto.
  - intros pre l post _. split; intros _ x; rewrite Forall_forall in *; [intros Hi E; rewrite (Ua x Hi) in E; discriminate|intros i Hi E; rewrite (Un x Hi) in E; discriminate].
  - rewrite E, Z by auto. reflexivity.
Qed.

(** At every step of the update the old file is there, under its name or with ".bak" appended;
    when no file has its name the new text is complete under the name with ".tmp" appended; at the
    end the new text has the name; no other file is touched. [got]: as much of the new text as
    could be written. *)
Theorem C45_crash fs f old new got : fget fs f = Some old ->
  (forall st, In st (updsteps fs f new got) ->
     (fget st f = Some old \/ fget st (bakname f) = Some old) /\
     (fget st f = None -> fget st (tmpname f) = Some (firstn got new)) /\
     (forall n, n <> f -> n <> tmpname f -> n <> bakname f -> fget st n = fget fs n)) /\
  fget (last (updsteps fs f new got) fs) f = Some (firstn got new) /\
  fget (last (updsteps fs f new got) fs) (bakname f) = Some old.
Proof.
  intros H.
  assert (N1 : f <> tmpname f) by (unfold tmpname; intros E; apply (f_equal (@length Z)) in E; rewrite app_length in E; cbn in E; lia).
  assert (N2 : f <> bakname f) by (unfold bakname; intros E; apply (f_equal (@length Z)) in E; rewrite app_length in E; cbn in E; lia).
  assert (N3 : tmpname f <> bakname f) by (unfold tmpname, bakname; intros E; apply app_inv_head in E; discriminate).
  unfold updsteps. rewrite app_assoc.
  set (fs1 := fput fs (tmpname f) (firstn got new)). set (fs2 := osDelete fs1 (bakname f)). set (fs3 := renamed fs2 f (bakname f)). set (fs4 := renamed fs3 (tmpname f) f).
  assert (A1 : fget fs2 f = Some old). { unfold fs2, fs1. rewrite P_Fs.fget_del_other, P_Fs.fget_put_other; auto. }
  assert (A2 : fget fs2 (tmpname f) = Some (firstn got new)). { unfold fs2, fs1. rewrite P_Fs.fget_del_other, P_Fs.fget_put_same; auto. }
  assert (E3 : fs3 = fput (osDelete fs2 f) (bakname f) old). { unfold fs3, renamed, osRename. rewrite A1. apply streq_neq in N2. rewrite N2. reflexivity. }
  assert (B1 : fget fs3 f = None). { rewrite E3, P_Fs.fget_put_other, P_Fs.fget_del_same; auto. }
  assert (B2 : fget fs3 (bakname f) = Some old). { rewrite E3, P_Fs.fget_put_same; auto. }
  assert (B3 : fget fs3 (tmpname f) = Some (firstn got new)). { rewrite E3, P_Fs.fget_put_other, P_Fs.fget_del_other; auto. }
  assert (E4 : fs4 = fput (osDelete fs3 (tmpname f)) f (firstn got new)). { unfold fs4, renamed, osRename. rewrite B3. assert (N4 : tmpname f <> f) by congruence. apply streq_neq in N4. rewrite N4. reflexivity. }
  assert (D1 : fget fs4 f = Some (firstn got new)). { rewrite E4, P_Fs.fget_put_same; auto. }
  assert (D2 : fget fs4 (bakname f) = Some old). { rewrite E4, P_Fs.fget_put_other, P_Fs.fget_del_other; auto. }
  assert (O2 : forall n, n <> f -> n <> tmpname f -> n <> bakname f -> fget fs2 n = fget fs n). { intros n M1 M2 M3. unfold fs2, fs1. rewrite P_Fs.fget_del_other, P_Fs.fget_put_other; auto. }
  assert (O3 : forall n, n <> f -> n <> tmpname f -> n <> bakname f -> fget fs3 n = fget fs n). { intros n M1 M2 M3. rewrite E3, P_Fs.fget_put_other, P_Fs.fget_del_other; auto. }
  assert (O4 : forall n, n <> f -> n <> tmpname f -> n <> bakname f -> fget fs4 n = fget fs n). { intros n M1 M2 M3. rewrite E4, P_Fs.fget_put_other, P_Fs.fget_del_other; auto. }
  split.
  - intros st Hst. apply in_app_or in Hst as [Hst|Hst]; [apply in_app_or in Hst as [[<-|[]]|Hst]|].
    + rewrite H. split; [auto|]. split; [discriminate|auto].
    + apply in_map_iff in Hst as (k & <- & _). rewrite P_Fs.fget_put_other, H by auto. split; [auto|]. split; [discriminate|]. intros n M1 M2 M3. rewrite P_Fs.fget_put_other; auto.
    + destruct Hst as [<-|[<-|[<-|[]]]]; (split; [auto|]); (split; [|auto]); auto. rewrite D1. discriminate.
  - replace (([fs] ++ map (fun k => fput fs (tmpname f) (firstn k new)) (seq 0 (S (Nat.min got (length new))))) ++ [fs2; fs3; fs4]) with ((([fs] ++ map (fun k => fput fs (tmpname f) (firstn k new)) (seq 0 (S (Nat.min got (length new))))) ++ [fs2; fs3]) ++ [fs4]) by (rewrite <- app_assoc; reflexivity).
    rewrite last_last. auto.
Qed.

(** ** C54: what is written is read back *)
Lemma read_app okother old c t c' : Forall goodline old -> ReadConfig okother (filetext old) = ROk c -> blk okother c t c' -> ReadConfig okother (filetext old ++ t) = ROk c'.
Proof.
  intros Hg Hr (ls & -> & Hw & _ & R). unfold ReadConfig, flines in *. rewrite flines_filetext in Hr by auto. rewrite (flines_filetext_app _ _ ls) by (auto; apply flines_concat; auto).
  rewrite rdlines_app, Hr. exact R.
Qed.
(** Below any configuration file that defines what the area or the node refers to, the text
    written for it defines it again: the same one, only no longer marked as changed. *)
Theorem C54_area okother old c a : Forall goodline old -> ReadConfig okother (filetext old) = ROk c ->
  goodarea (cf_akas c) (map fn_node (cf_nodes c)) a ->
  exists t, WriteArea (cf_akas c) (map fn_node (cf_nodes c)) a = Some t /\
    ReadConfig okother (filetext old ++ t) =
      ROk (FC (cf_akas c) (cf_packers c) (cf_nodes c) (cf_areas c ++ [doneA a]) (cf_other c)).
Proof.
  intros Hg Hr Ha. destruct (area_block okother _ _ a c Ha) as (t & E & B); [unfold knows; auto|]. exists t. split; auto. apply (read_app okother old c); auto.
Qed.
Theorem C54_node okother old c n : Forall goodline old -> ReadConfig okother (filetext old) = ROk c ->
  goodnode (cf_packers c) n ->
  exists t, WriteNode (cf_packers c) n = Some t /\
    ReadConfig okother (filetext old ++ t) =
      ROk (FC (cf_akas c) (cf_packers c) (cf_nodes c ++ [doneN n]) (cf_areas c) (cf_other c)).
Proof.
  intros Hg Hr Hn. destruct (node_block okother (cf_packers c) n c Hn) as (t & E & B).
  - intros i s Hi Hs. split; auto. destruct Hn as (_ & _ & Hp & _). rewrite Hi in Hp. destruct Hp as (s' & Hs' & _ & _ & Hf). replace s with s' by congruence. exact Hf.
  - exists t. split; auto. apply (read_app okother old c); auto.
Qed.

(** ** An example *)
Definition anyother : list (list Z) -> list node4d -> list (list Z) -> list node4d -> list Z -> bool := fun _ _ _ _ _ => true.
Definition exold : list (list Z * bool) :=
  [(lit "AKA 2:200/1", true); (lit "; mine", false); (lit "NODE 2:200/2 """" """"", false); (lit "AREA A 2:200/1 MSG ""a""", false);
   (lit "EXPORT 2:200/2", false); (lit "AREA B 2:200/1", false); (lit "MAXPKTSIZE 100", false)].
Definition exaddr (n : Z) : node4d := N4 2 200 n 0.
Definition exnode (ch : bool) (sysop : list Z) : fnode :=
  FN ch (exaddr 2) [] None [] [] [] [] 0 0 sysop 2 (N4 0 0 0 0) [] [].
Definition exarea (ch : bool) (tag : list Z) (mb : option nat) (path desc : list Z) (toss : list (nat * Z)) (keep : Z) : farea :=
  FA ch 0 0 AREATYPE_ECHOMAIL tag desc mb path 0 toss [] [] keep 0.
Definition exA : farea := exarea false (lit "A") (Some 0%nat) (lit "a") [] [(0%nat, 0)] 0.
Definition exB : farea := exarea false (lit "B") None [] [] [] 0.
Definition exA' : farea := exarea true (lit "A") (Some 0%nat) (lit "a") (lit "say ""hi""") [(0%nat, 1)] 5.
Definition exC : farea := exarea true (lit "C") None [] [] [(0%nat, 0)] 0.
Definition exc0 : fconf := FC [exaddr 1] [] [exnode false []] [exA; exB] [lit "MAXPKTSIZE 100" ++ [10]].
Definition exc1 : fconf := FC [exaddr 1] [] [exnode true (lit "Joe")] [exA'; exC] [lit "MAXPKTSIZE 100" ++ [10]].

Lemma ex_good : Forall goodline exold.
Proof.
  unfold exold. repeat (apply Forall_cons; [|]); [..|apply Forall_nil]; unfold goodline; cbn [fst]; (split; [unfold cstring; repeat constructor; cbn; lia|]); (split; [cbn; lia|]); (split; [cbn; lia|cbn; lia]).
Qed.
Lemma ex_read : ReadConfig anyother (filetext exold) = ROk exc0.
Proof. vm_compute. reflexivity. Qed.
Lemma ex_found l n i : valid4d n -> nth_error l i = Some n -> i = O -> found n l i.
Proof. intros H1 H2 ->. split; auto. split; auto. intros j m Hj. lia. Qed.
Lemma ex_field n s : forallb (fun c => (1 <=? c) && (c <=? 255) && negb (c =? 10)) s = true -> (length s < n)%nat -> field n s.
Proof.
  intros H Hl. rewrite forallb_forall in H. split; [|split; auto].
  - apply Forall_forall. intros x Hx. specialize (H x Hx). lia.
  - intros Hi. specialize (H 10 Hi). discriminate.
Qed.
Lemma ex_area ch tag mb path desc toss keep : (tag = lit "A" \/ tag = lit "C") -> (mb = None /\ path = [] \/ mb = Some O /\ path = lit "a") ->
  (desc = [] \/ desc = lit "say ""hi""") -> (toss = [(0%nat, 0)] \/ toss = [(0%nat, 1)]) -> is_u32 keep ->
  goodarea [exaddr 1] [exaddr 2] (exarea ch tag mb path desc toss keep).
Proof.
  intros Ht Hm Hd Hto Hk. unfold goodarea, exarea. cbn [fa_tag fa_aka fa_flags fa_desc fa_mb fa_path fa_group fa_import fa_toss fa_banned fa_keepnum fa_keepdays fa_type].
  assert (V : forall n, 0 <= n < 100 -> valid4d (exaddr n)) by (intros n Hn; unfold valid4d, exaddr; cbn; unfold is_u16; lia).
  split; [destruct Ht as [->| ->]; apply ex_field; [reflexivity|cbn; lia|reflexivity|cbn; lia]|].
  split; [exists (exaddr 1); apply ex_found; auto; apply V; lia|]. split; [lia|]. split; [destruct Hd as [->| ->]; apply ex_field; [reflexivity|cbn; lia|reflexivity|cbn; lia]|].
  split; [destruct Hm as [[-> ->]|[-> ->]]; [reflexivity|split; [cbn; lia|apply ex_field; [reflexivity|cbn; lia]]]|].
  split; [left; reflexivity|]. split; [reflexivity|]. split.
  { intros i f Hi. assert (i = O /\ (f = 0 \/ f = 1)) as [-> Hf] by (destruct Hto as [->| ->]; destruct Hi as [[= <- <-]|[]]; auto). split; [exists (exaddr 2); apply ex_found; auto; apply V; lia|lia]. }
  split; [intros i []|]. split; [exact Hk|]. split; [unfold is_u32; lia|]. split; [left; left; reflexivity|]. right. split; [|discriminate].
  destruct Ht as [->| ->]; reflexivity.
Qed.
Lemma ex_node : goodnode [] (exnode true (lit "Joe")).
Proof.
  unfold goodnode, exnode. cbn [fn_node fn_pw fn_packer fn_afpw fn_groups fn_rogroups fn_addgroups fn_defgroup fn_flags fn_sysop fn_pri fn_pktfrom fn_rafname fn_rafpw].
  assert (F : forall n, (0 < n)%nat -> field n []) by (intros n Hn; apply ex_field; [reflexivity|exact Hn]).
  assert (G : groups []) by (split; [constructor|cbn; lia]).
  assert (V : valid4d (exaddr 2)) by (unfold valid4d, exaddr; cbn; unfold is_u16; lia).
  split; [exact V|]. split; [apply F; lia|]. split; [exact I|]. split; [apply F; lia|]. split; [exact G|]. split; [exact G|]. split; [exact G|]. split; [left; reflexivity|].
  split; [lia|]. split; [apply ex_field; [reflexivity|cbn; lia]|]. split; [lia|]. split; [reflexivity|]. split; [apply F; lia|]. split; [apply F; lia|]. intros _. split; reflexivity.
Qed.
Lemma ex_edit : edit exc0 exc1.
Proof.
  unfold edit. cbn [exc0 exc1 cf_akas cf_packers cf_other cf_nodes cf_areas map fn_node exnode]. split; [reflexivity|]. split; [reflexivity|]. split; [reflexivity|]. split.
  { constructor; [|constructor]. right. split; [reflexivity|]. split; [reflexivity|apply ex_node]. }
  split. { intros [|i] [|j] a b; cbn [nth_error]; [auto|destruct j; discriminate|destruct i; discriminate|destruct i; discriminate]. }
  exists (fun a => if streqi (fa_tag a) (lit "A") then Some exA' else None), [exC]. split; [reflexivity|]. split.
  { intros a [<-|[<-|[]]].
    - right. left. exists exA'. split; [reflexivity|]. split; [reflexivity|]. split; [reflexivity|]. split; [|discriminate]. apply ex_area; auto. unfold is_u32. lia.
    - right. right. split; [reflexivity|discriminate]. }
  split. { constructor; [|constructor]. split; [reflexivity|]. apply ex_area; auto. unfold is_u32. lia. }
  intros i j a b Ha Hb E. cbn [app] in Ha, Hb.
  destruct i as [|[|[|i]]]; cbn [nth_error] in Ha; try (destruct i; discriminate Ha); injection Ha as <-;
    (destruct j as [|[|[|j]]]; cbn [nth_error] in Hb; try (destruct j; discriminate Hb); injection Hb as <-); try reflexivity; vm_compute in E; discriminate E.
Qed.
Lemma ex_above : defined_above (seen exold) exc1.
Proof.
  intros pre l post E. cbn [seen exold map fst] in E.
  do 7 try (destruct pre as [|? pre]; cbn [app] in E; [injection E as <- _; clear post; split; intros H; [try (vm_compute in H; discriminate)|try (vm_compute in H; discriminate)]|injection E as <- E]).
  all: try (destruct pre; discriminate).
  - intros n i [<-|[]] _ _ Hi. discriminate.
  - intros a [<-|[<-|[]]] _ E2; [|vm_compute in E2; discriminate]. split; [vm_compute; lia|]. split; [intros i f [[= <- <-]|[]]; vm_compute; lia|intros i []].
  - intros a [<-|[<-|[]]] _ E2; vm_compute in E2; discriminate.
Qed.
Lemma ex_short : short_names (seen exold).
Proof.
  intros l H. cbn [seen exold map fst] in H. repeat (destruct H as [<-|H]; [split; intros _; vm_compute; lia|]). destruct H.
Qed.
Example C45_nonvacuous : Forall goodline exold /\ ReadConfig anyother (filetext exold) = ROk exc0 /\ edit exc0 exc1 /\
  defined_above (seen exold) exc1 /\ short_names (seen exold) /\
  newtext exc1 (filetext exold) = Some (lit "AKA 2:200/1" ++ [10] ++ lit "; mine" ++ [10] ++ lit "NODE 2:200/2.0 """" """"" ++ [10] ++ lit "REMOTESYSOP ""Joe""" ++ [10; 10] ++
    lit "AREA ""A"" 2:200/1.0 MSG ""a""" ++ [10] ++ lit "EXPORT !2:200/2.0" ++ [10] ++ lit "DESCRIPTION ""say \""hi\""""" ++ [10] ++ lit "KEEPNUM 5" ++ [10; 10] ++
    lit "MAXPKTSIZE 100" ++ [10; 10] ++ lit "AREA ""C"" 2:200/1.0" ++ [10] ++ lit "EXPORT 2:200/2.0" ++ [10]).
Proof.
  split; [apply ex_good|]. split; [apply ex_read|]. split; [apply ex_edit|]. split; [apply ex_above|]. split; [apply ex_short|]. vm_compute. reflexivity.
Qed.
Example C54_nonvacuous : Forall goodline exold /\ ReadConfig anyother (filetext exold) = ROk exc0 /\
  goodarea (cf_akas exc0) (map fn_node (cf_nodes exc0)) exC /\ goodnode (cf_packers exc0) (exnode true (lit "Joe")).
Proof. split; [apply ex_good|]. split; [apply ex_read|]. split; [apply ex_area; auto; unfold is_u32; lia|apply ex_node]. Qed.

(** ** Where the program falls short *)

(** When a node that is defined below an area is connected to it, the new file cannot be read:
    the area is written where it was, before the node. *)
Definition exbelow : list (list Z * bool) := [(lit "AKA 2:200/1", false); (lit "AREA C 2:200/1", false); (lit "NODE 2:200/2 """" """"", false)].
Theorem C45_order_refuted : exists c0 c1 new, Forall goodline exbelow /\ ReadConfig anyother (filetext exbelow) = ROk c0 /\ edit c0 c1 /\ short_names (seen exbelow) /\
  newtext c1 (filetext exbelow) = Some new /\ ReadConfig anyother new = RErr.
Proof.
  exists (FC [exaddr 1] [] [exnode false []] [exarea false (lit "C") None [] [] [] 0] []), (FC [exaddr 1] [] [exnode false []] [exC] []). eexists.
  split. { unfold exbelow. repeat (apply Forall_cons; [|]); [..|apply Forall_nil]; unfold goodline; cbn [fst]; (split; [unfold cstring; repeat constructor; cbn; lia|]); (split; [cbn; lia|]); (split; [cbn; lia|cbn; lia]). }
  split; [vm_compute; reflexivity|]. split.
  { unfold edit. cbn [cf_akas cf_packers cf_other cf_nodes cf_areas map fn_node exnode]. split; [reflexivity|]. split; [reflexivity|]. split; [reflexivity|]. split; [constructor; [left; auto|constructor]|].
    split. { intros [|i] [|j] a b; cbn [nth_error]; [auto|destruct j; discriminate|destruct i; discriminate|destruct i; discriminate]. }
    exists (fun _ => Some exC), []. split; [reflexivity|]. split.
    { intros a [<-|[]]. right. left. exists exC. split; [reflexivity|]. split; [reflexivity|]. split; [reflexivity|]. split; [|discriminate]. apply ex_area; auto. unfold is_u32. lia. }
    split; [constructor|]. intros [|i] [|j] a b; cbn [nth_error app]; [auto|destruct j; discriminate|destruct i; discriminate|destruct i; discriminate]. }
  split. { intros l H. cbn [seen exbelow map fst] in H. repeat (destruct H as [<-|H]; [split; intros _; vm_compute; lia|]). destruct H. }
  split; [vm_compute; reflexivity|]. vm_compute. reflexivity.
Qed.

(** An area whose name has 80 characters or more is lost with the first update of the file,
    although nothing has changed: the name is cut when the file is read, but not when it is
    looked up. *)
Definition exlong : list (list Z * bool) := [(lit "AKA 2:200/1", false); (lit "AREA " ++ repeat 88 85 ++ lit " 2:200/1", false)].
Theorem C45_longname_refuted : exists c new, Forall goodline exlong /\ ReadConfig anyother (filetext exlong) = ROk c /\ length (cf_areas c) = 1%nat /\
  newtext c (filetext exlong) = Some new /\ new = lit "AKA 2:200/1" ++ [10].
Proof.
  eexists; eexists. split. { unfold exlong. repeat (apply Forall_cons; [|]); [..|apply Forall_nil]; unfold goodline; cbn [fst]; (split; [unfold cstring; repeat constructor; cbn; lia|]); (split; [cbn; lia|]); (split; [cbn; lia|cbn; lia]). }
  split; [vm_compute; reflexivity|]. split; [reflexivity|]. split; [vm_compute; reflexivity|reflexivity].
Qed.

(** Writing errors are not noticed: on a full disk what could be written of the new text
    replaces the file, whose old text is then found under the name of the backup only. *)
Theorem C45_diskfull_refuted : exists fs f old new got, fget fs f = Some old /\
  fget (last (updsteps fs f new got) fs) f <> Some old /\ fget (last (updsteps fs f new got) fs) f <> Some new.
Proof.
  exists [(lit "c", lit "old")], (lit "c"), (lit "old"), (lit "new"), 1%nat. split; [reflexivity|]. split; vm_compute; discriminate.
Qed.
(** Between the two renamings no file has the name of the configuration file. *)
Theorem C45_noname_refuted : exists fs f old new st, fget fs f = Some old /\ In st (updsteps fs f new (length new)) /\ fget st f = None.
Proof.
  exists [(lit "c", lit "old")], (lit "c"), (lit "old"), (lit "new"). eexists. split; [reflexivity|]. unfold updsteps. split; [apply in_or_app; right; apply in_or_app; right; right; left; reflexivity|]. vm_compute. reflexivity.
Qed.

Print Assumptions C45_reread.
Print Assumptions C45_others_kept.
Print Assumptions C45_lines_kept.
Print Assumptions C45_unchanged.
Print Assumptions C45_crash.
Print Assumptions C45_order_refuted.
Print Assumptions C45_longname_refuted.
Print Assumptions C45_diskfull_refuted.
Print Assumptions C45_noname_refuted.
Print Assumptions C54_area.
Print Assumptions C54_node.
