From Verif Require Import Base M_Node4D S_Node4D M_Pat S_Pat.
From Coq Require Import ZifyBool.

Lemma nodecmp_01 p b : nodecmp p b = 0 \/ nodecmp p b = 1.
Proof.
  revert b; induction p as [|c p IH]; intros b; simpl.
  - destruct b; auto.
  - destruct (c =? 42); auto. destruct b as [|x b]; auto.
    destruct (negb (c =? x) && negb (c =? 63)); auto.
Qed.

Lemma nodecmp_glob p b : (forall c, In c b -> digit c) -> nodecmp p b = 0 <-> glob p b.
Proof.
  revert b; induction p as [|c p IH]; intros b Hb; simpl.
  - destruct b; split; intros H; try constructor; try lia; inversion H.
  - destruct (Z.eqb_spec c 42) as [->|Hc].
    + split; auto. intros _. constructor.
    + destruct b as [|x b].
      * split; intros H; [lia|]. inversion H; subst; congruence.
      * destruct (Z.eqb_spec c x) as [->|Hx]; simpl.
        { rewrite IH by (intros; apply Hb; right; auto).
          split; intros H; [apply glob_lit; auto|]. inversion H; subst; auto; congruence. }
        destruct (Z.eqb_spec c 63) as [->|Hq]; simpl.
        { rewrite IH by (intros; apply Hb; right; auto).
          split; intros H; [apply glob_any; auto|]. inversion H; subst; auto; congruence. }
        split; intros H; [lia|]. inversion H; subst; congruence.
Qed.

Lemma dec_In_digit v c : 0 <= v -> In c (dec v) -> digit c.
Proof. intros Hv Hi. pose proof (dec_digits v Hv) as H. rewrite Forall_forall in H. auto. Qed.

Lemma NodeCompare_spec pat num : is_u16 num -> NodeCompare pat num = 0 <-> compmatch pat num.
Proof.
  intros Hn. unfold NodeCompare, compmatch. rewrite u16_id by auto.
  destruct pat as [|c p].
  - split; auto.
  - rewrite nodecmp_glob.
    + split; auto. intros [H|H]; [discriminate|auto].
    + intros x Hx. apply (dec_In_digit num); auto. unfold is_u16 in Hn; lia.
Qed.

Lemma neqb_if (x : Z) (P : Prop) (a b : Z) :
  (x = 0 <-> P) -> a <> 0 -> ((if negb (x =? 0) then a else b) = 0 <-> P /\ b = 0).
Proof. intros H Ha. destruct (Z.eqb_spec x 0); simpl; intuition. Qed.

Lemma zonediff_if p n a b : is_u16 (zone n) -> a <> 0 ->
  ((if zonediff p n then a else b) = 0 <-> zonematch (pzone p) (zone n) /\ b = 0).
Proof.
  intros Hz Ha. unfold zonediff, zonematch.
  pose proof (NodeCompare_spec (pzone p) (zone n) Hz) as H.
  destruct (Z.eqb_spec (zone n) 0); simpl; [intuition|].
  destruct (Z.eqb_spec (NodeCompare (pzone p) (zone n)) 0); simpl; intuition.
Qed.

Lemma Compare4DPat_spec nl p n : nl_ok nl -> valid4d n ->
  Compare4DPat nl p n = 0 <-> patmatch nl p n.
Proof.
  intros Hnl (Hz & Hn & Hf & Hp). unfold Compare4DPat, patmatch.
  pose proof (NodeCompare_spec (pzone p) _ Hz) as Cz.
  pose proof (NodeCompare_spec (pnet p) _ Hn) as Cn.
  pose proof (NodeCompare_spec (pnode p) _ Hf) as Cf.
  pose proof (NodeCompare_spec (ppoint p) _ Hp) as Cp.
  change (set_point n 0) with (N4 (zone n) (net n) (node n) 0).
  destruct (Hnl (N4 (zone n) (net n) (node n) 0)) as [Hr Hh].
  destruct (ptype p).
  - rewrite zonediff_if by (auto; lia). rewrite (neqb_if _ _ _ _ Cn) by lia.
    rewrite (neqb_if _ _ _ _ Cf) by lia. rewrite (neqb_if _ _ _ _ Cp) by lia. intuition.
  - rewrite (neqb_if _ _ _ _ Cz) by lia. intuition.
  - destruct (nlopen nl); simpl; [|intuition congruence].
    destruct (Z.eqb_spec (nlGetRegion nl (N4 (zone n) (net n) (node n) 0)) (-1)); [intuition lia|].
    destruct Hr as [Hr|Hr]; [contradiction|].
    rewrite zonediff_if by (auto; lia).
    rewrite (neqb_if _ _ _ _ (NodeCompare_spec (pnet p) _ Hr)) by lia. intuition.
  - rewrite zonediff_if by (auto; lia). rewrite (neqb_if _ _ _ _ Cn) by lia. intuition.
  - destruct (nlopen nl); simpl; [|intuition congruence].
    destruct (Z.eqb_spec (nlGetHub nl (N4 (zone n) (net n) (node n) 0)) (-1)); [intuition lia|].
    destruct Hh as [Hh|Hh]; [contradiction|].
    rewrite zonediff_if by (auto; lia). rewrite (neqb_if _ _ _ _ Cn) by lia.
    rewrite (neqb_if _ _ _ _ (NodeCompare_spec (pnode p) _ Hh)) by lia. intuition.
  - rewrite zonediff_if by (auto; lia). rewrite (neqb_if _ _ _ _ Cn) by lia.
    rewrite (neqb_if _ _ _ _ Cf) by lia. intuition.
Qed.

Lemma Compare4DPat_01 nl p n : Compare4DPat nl p n = 0 \/ Compare4DPat nl p n = 1.
Proof.
  unfold Compare4DPat. destruct (ptype p);
  repeat match goal with |- context [if ?b then _ else _] => destruct b end; auto.
Qed.

Lemma Compare2DPat_spec p n f : is_u16 n -> is_u16 f ->
  Compare2DPat p n f = 0 <-> compmatch (p2net p) n /\ compmatch (p2node p) f.
Proof.
  intros Hn Hf. unfold Compare2DPat.
  rewrite (neqb_if _ _ _ _ (NodeCompare_spec (p2net p) _ Hn)) by lia.
  rewrite (neqb_if _ _ _ _ (NodeCompare_spec (p2node p) _ Hf)) by lia. intuition.
Qed.

(** The glob relation in terms of the whole text: a star-free pattern matches texts of
    the same length only. *)
Lemma glob_length p s : glob p s -> ~ In 42 p -> length p = length s.
Proof. induction 1; intros Hn; simpl in *; auto; try tauto; f_equal; tauto. Qed.

Lemma glob_literal p s : (forall c, In c p -> digit c) -> glob p s <-> p = s.
Proof.
  revert s. induction p as [|c p IH]; intros s Hp.
  - split; intros H; [inversion H; auto|subst; constructor].
  - assert (digit c) by (apply Hp; left; auto). unfold digit in *.
    split; intros Hg.
    + inversion Hg; subst; try lia. f_equal. apply IH; auto. intros; apply Hp; right; auto.
    + subst. apply glob_lit; [lia|]. apply IH; auto. intros; apply Hp; right; auto.
Qed.

(** ** Parsing *)
Lemma patchar_spec c : patchar c = true <-> (digit c \/ c = 42 \/ c = 63).
Proof. unfold patchar. rewrite !orb_true_iff, isdigit_spec, !Z.eqb_eq. unfold digit. lia. Qed.

Definition patchars (l : list Z) := Forall (fun c => digit c \/ c = 42 \/ c = 63) l.

Lemma rstep_char s c : digit c \/ c = 42 \/ c = 63 ->
  rstep s c = if Nat.ltb (r_tempc s) 9
    then POk (RS (r_pat s) (r_gz s) (r_gn s) (r_gf s) (puttemp (r_temp s) (r_tempc s) c) (S (r_tempc s)))
    else POk s.
Proof.
  intros Hc. unfold rstep. unfold digit in Hc.
  destruct (Z.eqb_spec c 58); [lia|]. destruct (Z.eqb_spec c 47); [lia|].
  destruct (Z.eqb_spec c 46); [lia|].
  assert (patchar c = true) as -> by (apply patchar_spec; unfold digit; auto). reflexivity.
Qed.

(** Scanning a component from a position with exactly [tempc] characters of it read. *)
Lemma rloop_comp l s r k : patchars l -> (r_tempc s + length l <= 9)%nat ->
  firstn (r_tempc s) (match r_temp s with Some t => t | None => [] end) = k ->
  length k = r_tempc s ->
  l <> [] ->
  rloop s (l ++ r) =
  rloop (RS (r_pat s) (r_gz s) (r_gn s) (r_gf s) (Some (k ++ l)) (r_tempc s + length l)) r.
Proof.
  intros Hl. revert s k. induction Hl as [|c l Hc Hl IH]; intros s k Hlen Hk Hlk Hne; [congruence|].
  cbn [app rloop]. rewrite rstep_char by auto. simpl in Hlen.
  assert (Nat.ltb (r_tempc s) 9 = true) as -> by (apply Nat.ltb_lt; lia).
  unfold puttemp. rewrite Hk.
  destruct l as [|c' l'].
  - simpl. f_equal. f_equal. lia.
  - rewrite (IH _ (k ++ [c])).
    + cbn [r_pat r_gz r_gn r_gf r_tempc]. rewrite <- app_assoc.
      change ([c] ++ c' :: l') with (c :: c' :: l').
      replace (S (r_tempc s) + length (c' :: l'))%nat with (r_tempc s + length (c :: c' :: l'))%nat
        by (simpl; lia). reflexivity.
    + simpl in *. lia.
    + cbn [r_tempc r_temp]. rewrite firstn_all2; auto. rewrite app_length; simpl; lia.
    + rewrite app_length; simpl; lia.
    + discriminate.
Qed.

Lemma rloop_comp0 l s r : patchars l -> (length l <= 9)%nat -> l <> [] -> r_tempc s = 0%nat ->
  rloop s (l ++ r) = rloop (RS (r_pat s) (r_gz s) (r_gn s) (r_gf s) (Some l) (length l)) r.
Proof.
  intros H1 H2 H3 H4. rewrite (rloop_comp l s r []); auto; rewrite ?H4; simpl; auto; try lia.
Qed.

Lemma rloop_comp0_end l s : patchars l -> (length l <= 9)%nat -> l <> [] -> r_tempc s = 0%nat ->
  rloop s l = POk (RS (r_pat s) (r_gz s) (r_gn s) (r_gf s) (Some l) (length l)).
Proof. intros. rewrite <- (app_nil_r l) at 1. rewrite rloop_comp0; auto. Qed.

Lemma r_colon s t r : r_gz s = false -> r_gn s = false -> r_gf s = false -> r_temp s = Some t ->
  rloop s (58 :: r) = rloop (RS (npset_zone (r_pat s) t) true false false (Some t) 0) r.
Proof. intros H1 H2 H3 H4. simpl. unfold rstep. simpl. rewrite H1, H2, H3, H4. reflexivity. Qed.
Lemma r_slash s t r : r_gn s = false -> r_gf s = false -> r_temp s = Some t ->
  rloop s (47 :: r) = rloop (RS (npset_net (r_pat s) t) (r_gz s) true false (Some t) 0) r.
Proof. intros H2 H3 H4. simpl. unfold rstep. simpl. rewrite H2, H3, H4. reflexivity. Qed.
Lemma r_dot s t r : r_gf s = false -> r_temp s = Some t ->
  rloop s (46 :: r) = rloop (RS (npset_point (npset_node (r_pat s) t) []) (r_gz s) (r_gn s) true (Some t) 0) r.
Proof. intros H3 H4. simpl. unfold rstep. simpl. rewrite H3, H4. reflexivity. Qed.

Lemma wfcomp_ne l : wfcomp l -> l <> [].
Proof. intros [[H _] _]. destruct l; simpl in H; [lia|discriminate]. Qed.

Ltac parse_tac :=
  repeat (first [ rewrite rloop_comp0 by (simpl; (assumption || lia || reflexivity))
    | erewrite r_colon by reflexivity
    | erewrite r_slash by reflexivity | erewrite r_dot by reflexivity
    | rewrite rloop_comp0_end by (simpl; (assumption || lia || reflexivity)) ];
    cbn [r_pat r_gz r_gn r_gf r_temp r_tempc]).

Lemma streq_star_cons c l : l <> [] -> streq (c :: l) (lit "*") = false.
Proof. intros H. destruct l; [congruence|]. simpl. apply andb_false_r. Qed.

Lemma streq_star_app l c r : l <> [] -> streq (l ++ c :: r) (lit "*") = false.
Proof.
  intros H. destruct l as [|x l]; [congruence|]. cbn [app]. apply streq_star_cons.
  destruct l; discriminate.
Qed.

(** The accepted forms of a plain pattern and what they mean. *)
Lemma raw_full ty z n f p : wfcomp z -> wfcomp n -> wfcomp f -> wfcomp p ->
  rawParse4DPat ty (z ++ lit ":" ++ n ++ lit "/" ++ f ++ lit "." ++ p) = POk (NP ty z n f p).
Proof.
  intros Hz Hn Hf Hp. pose proof (wfcomp_ne _ Hz). pose proof (wfcomp_ne _ Hn).
  pose proof (wfcomp_ne _ Hf). pose proof (wfcomp_ne _ Hp).
  destruct Hz as [? ?], Hn as [? ?], Hf as [? ?], Hp as [? ?].
  unfold rawParse4DPat.
  change (lit ":") with [58]. change (lit "/") with [47]. change (lit ".") with [46]. cbn [app].
  rewrite streq_star_app by auto. parse_tac. reflexivity.
Qed.
Lemma raw_znf ty z n f : wfcomp z -> wfcomp n -> wfcomp f ->
  rawParse4DPat ty (z ++ lit ":" ++ n ++ lit "/" ++ f) = POk (NP ty z n f (lit "0")).
Proof.
  intros Hz Hn Hf. pose proof (wfcomp_ne _ Hz). pose proof (wfcomp_ne _ Hn).
  pose proof (wfcomp_ne _ Hf).
  destruct Hz as [? ?], Hn as [? ?], Hf as [? ?].
  unfold rawParse4DPat.
  change (lit ":") with [58]. change (lit "/") with [47]. cbn [app].
  rewrite streq_star_app by auto. parse_tac. reflexivity.
Qed.
Lemma raw_zn ty z n : wfcomp z -> wfcomp n ->
  rawParse4DPat ty (z ++ lit ":" ++ n) = POk (NP ty z n (lit "*") (lit "*")).
Proof.
  intros Hz Hn. pose proof (wfcomp_ne _ Hz). pose proof (wfcomp_ne _ Hn).
  destruct Hz as [? ?], Hn as [? ?].
  unfold rawParse4DPat.
  change (lit ":") with [58]. cbn [app].
  rewrite streq_star_app by auto. parse_tac. reflexivity.
Qed.
Lemma raw_nf ty n f : wfcomp n -> wfcomp f ->
  rawParse4DPat ty (n ++ lit "/" ++ f) = POk (NP ty (lit "*") n f (lit "0")).
Proof.
  intros Hn Hf. pose proof (wfcomp_ne _ Hn). pose proof (wfcomp_ne _ Hf).
  destruct Hf as [? ?], Hn as [? ?].
  unfold rawParse4DPat.
  change (lit "/") with [47]. cbn [app].
  rewrite streq_star_app by auto. parse_tac. reflexivity.
Qed.
Lemma raw_f ty f : wfcomp f -> f <> lit "*" ->
  rawParse4DPat ty f = POk (NP ty (lit "*") (lit "*") f (lit "0")).
Proof.
  intros Hf Hs. pose proof (wfcomp_ne _ Hf). destruct Hf as [? ?].
  unfold rawParse4DPat. apply streq_neq in Hs. rewrite Hs. parse_tac. reflexivity.
Qed.
Lemma raw_star ty : rawParse4DPat ty (lit "*") = POk (NP ty (lit "*") (lit "*") (lit "*") (lit "*")).
Proof. reflexivity. Qed.

Lemma strneqi_pat n l r w : wfcomp l -> (1 <= n)%nat -> 97 <= tolower (hd 0 w) ->
  strneqi n (l ++ r) w = false.
Proof.
  intros Hl Hn Hx. destruct w as [|x y]; [vm_compute in Hx; congruence|]. simpl in Hx. pose proof (wfcomp_ne _ Hl). destruct Hl as [_ Hl].
  destruct l as [|c l]; [congruence|]. destruct n as [|n]; [lia|].
  unfold strneqi. cbn [app firstn map streq].
  inversion Hl as [|? ? Hc _]; subst. unfold digit in Hc.
  assert (tolower c <> tolower x).
  { assert (tolower c = c) as ->. { unfold tolower. destruct (Z.leb_spec 65 c); simpl; auto. lia. } lia. }
  apply Z.eqb_neq in H0. rewrite H0. reflexivity.
Qed.

Lemma print_parse_pat p : wfpat p -> Parse4DPat (Print4DPat p) = POk p.
Proof.
  destruct p as [ty z n f pt]. unfold wfpat, Print4DPat; simpl.
  destruct ty; intros (H1 & H2 & H3 & H4); subst.
  - unfold Parse4DPat.
    rewrite !strneqi_pat by (auto; try lia; vm_compute; discriminate).
    apply raw_full; auto.
  - change (lit "ZONE " ++ z) with ((lit "ZONE ") ++ z). unfold Parse4DPat, strneqi. simpl.
    destruct (list_eq_dec Z.eq_dec z (lit "*")) as [->|Hs]; [reflexivity|].
    rewrite raw_f by auto. reflexivity.
  - unfold Parse4DPat, strneqi. simpl.
    change (z ++ 58 :: n) with (z ++ lit ":" ++ n). rewrite raw_zn by auto. reflexivity.
  - unfold Parse4DPat, strneqi. simpl.
    change (z ++ 58 :: n) with (z ++ lit ":" ++ n). rewrite raw_zn by auto. reflexivity.
  - unfold Parse4DPat, strneqi. simpl.
    change (z ++ 58 :: n ++ 47 :: f) with (z ++ lit ":" ++ n ++ lit "/" ++ f).
    rewrite raw_znf by auto. reflexivity.
  - unfold Parse4DPat, strneqi. simpl.
    change (z ++ 58 :: n ++ 47 :: f) with (z ++ lit ":" ++ n ++ lit "/" ++ f).
    rewrite raw_znf by auto. reflexivity.
Qed.

Lemma streqi_pat l r w : wfcomp l -> 97 <= tolower (hd 0 w) -> streqi (l ++ r) w = false.
Proof.
  intros Hl Hx. destruct w as [|x y]; [vm_compute in Hx; congruence|]. simpl in Hx.
  pose proof (wfcomp_ne _ Hl). unfold streqi. destruct Hl as [_ Hl].
  destruct l as [|c l]; [congruence|]. cbn [app map streq].
  inversion Hl as [|? ? Hc _]; subst. unfold digit in Hc.
  assert (tolower c <> tolower x).
  { assert (tolower c = c) as ->. { unfold tolower. destruct (Z.leb_spec 65 c); simpl; auto. lia. } lia. }
  apply Z.eqb_neq in H0. rewrite H0. reflexivity.
Qed.

Lemma print_parse_destpat p :
  match ptype p with PAT_PATTERN => wfpat p
  | _ => pzone p = [] /\ pnet p = [] /\ pnode p = [] /\ ppoint p = [] end ->
  Parse4DDestPat (Print4DDestPat p) = POk p.
Proof.
  destruct p as [ty z n f pt]. unfold wfpat, Print4DDestPat; simpl.
  destruct ty; intros (H1 & H2 & H3 & H4); subst; try reflexivity.
  unfold Parse4DDestPat.
  rewrite !streqi_pat by (auto; try lia; vm_compute; discriminate).
  apply raw_full; auto.
Qed.

(** ** Components never overflow the 10 byte fields. *)
Definition tshort (s : rstate) :=
  (match r_temp s with Some t => (length t <= 9)%nat | None => True end) /\
  (length (pzone (r_pat s)) <= 9 /\ length (pnet (r_pat s)) <= 9 /\
   length (pnode (r_pat s)) <= 9 /\ length (ppoint (r_pat s)) <= 9)%nat.

Lemma rstep_short s c s' : rstep s c = POk s' -> tshort s -> tshort s'.
Proof.
  unfold rstep, tshort. intros H (Ht & H1 & H2 & H3 & H4).
  destruct (c =? 58).
  { destruct (r_gz s || r_gn s || r_gf s); [discriminate|]. destruct (r_temp s) eqn:E; [|discriminate].
    inversion H; subst; simpl. auto. }
  destruct (c =? 47).
  { destruct (r_gn s || r_gf s); [discriminate|]. destruct (r_temp s) eqn:E; [|discriminate].
    inversion H; subst; simpl. auto. }
  destruct (c =? 46).
  { destruct (r_gf s); [discriminate|]. destruct (r_temp s) eqn:E; [|discriminate].
    inversion H; subst; simpl. repeat split; auto; lia. }
  destruct (patchar c); [|discriminate].
  destruct (Nat.ltb_spec (r_tempc s) 9); inversion H; subst; simpl; auto.
  split; auto. rewrite app_length, firstn_length. simpl. lia.
Qed.

Lemma rloop_short buf s s' : rloop s buf = POk s' -> tshort s -> tshort s'.
Proof.
  revert s; induction buf as [|c buf IH]; intros s H Hs; simpl in H.
  - inversion H; subst; auto.
  - destruct (rstep s c) eqn:E; try discriminate. eapply IH; eauto. eapply rstep_short; eauto.
Qed.

Lemma raw_short ty buf p : rawParse4DPat ty buf = POk p ->
  (length (pzone p) <= 9 /\ length (pnet p) <= 9 /\ length (pnode p) <= 9 /\ length (ppoint p) <= 9)%nat.
Proof.
  unfold rawParse4DPat. destruct (streq buf (lit "*")).
  - intros H; inversion H; subst; simpl; lia.
  - destruct (rloop _ buf) as [s| |] eqn:E; try discriminate.
    apply rloop_short in E.
    2:{ unfold tshort; simpl; lia. }
    destruct E as (Ht & H1 & H2 & H3 & H4).
    destruct (r_temp s) as [t|]; [|discriminate].
    destruct (r_gz s && negb (r_gn s)); [|destruct (r_gf s)];
      intros H; inversion H; subst; simpl; repeat split; auto; lia.
Qed.

Lemma Parse4DPat_short buf p : Parse4DPat buf = POk p ->
  (length (pzone p) <= 9 /\ length (pnet p) <= 9 /\ length (pnode p) <= 9 /\ length (ppoint p) <= 9)%nat.
Proof.
  unfold Parse4DPat.
  repeat match goal with |- context [if strneqi ?a ?b ?c then _ else _] => destruct (strneqi a b c) end;
  try apply raw_short;
  unfold pmap;
  match goal with |- context [rawParse4DPat ?t ?b] => destruct (rawParse4DPat t b) eqn:E end;
  try discriminate; apply raw_short in E; intros H; inversion H; subst; simpl in *; repeat split; lia.
Qed.

(** ** Expansion *)
Lemma iswildcard_spec l : iswildcard l = true <-> wild l.
Proof.
  unfold iswildcard, wild. rewrite existsb_exists. split.
  - intros (c & Hi & Hc). destruct (Z.eqb_spec c 42); [subst; auto|].
    destruct (Z.eqb_spec c 63); [subst; auto|]. discriminate.
  - intros [H|H]; eexists; split; eauto.
Qed.

Lemma pick_spec tpl d : wild tpl \/ (exists v, is_u16 v /\ tpl = dec v) ->
  comp_expands tpl d (if iswildcard tpl then d else u16 (atoi tpl)).
Proof.
  unfold comp_expands. destruct (iswildcard tpl) eqn:E.
  - intros _. left. split; auto. apply iswildcard_spec; auto.
  - intros [H|(v & Hv & ->)].
    + apply iswildcard_spec in H. congruence.
    + right. exists v. repeat split; try apply Hv. rewrite atoi_dec by (unfold is_u16 in Hv; lia).
      apply u16_id; auto.
Qed.

Definition expandable (l : list Z) := wild l \/ (exists v, is_u16 v /\ l = dec v).

Lemma expand_pattern nl p dest : ptype p = PAT_PATTERN ->
  expandable (pzone p) -> expandable (pnet p) -> expandable (pnode p) -> expandable (ppoint p) ->
  let r := ExpandNodePat nl p dest in
  comp_expands (pzone p) (zone dest) (zone r) /\ comp_expands (pnet p) (net dest) (net r) /\
  comp_expands (pnode p) (node dest) (node r) /\ comp_expands (ppoint p) (point dest) (point r).
Proof.
  intros Ht Hz Hn Hf Hp. unfold ExpandNodePat. rewrite Ht. simpl.
  repeat split; apply pick_spec; auto.
Qed.

Lemma comp_expands_match tpl d r : is_u16 d ->
  comp_expands tpl d r -> (wild tpl -> compmatch tpl d) -> compmatch tpl r.
Proof.
  intros Hd [(Hw & ->)|(v & Hv & -> & ->)] H; auto.
  right. apply glob_literal; auto. intros c. apply dec_In_digit. unfold is_u16 in Hv; lia.
Qed.

(** With templates whose wildcards are plain '*', or whose wildcards match the
    destination, the expansion matches the template. *)
Lemma expand_matches nl nl' p dest : valid4d dest -> ptype p = PAT_PATTERN ->
  expandable (pzone p) -> expandable (pnet p) -> expandable (pnode p) -> expandable (ppoint p) ->
  (wild (pzone p) -> zone dest = 0 \/ compmatch (pzone p) (zone dest)) ->
  (wild (pnet p) -> compmatch (pnet p) (net dest)) ->
  (wild (pnode p) -> compmatch (pnode p) (node dest)) ->
  (wild (ppoint p) -> compmatch (ppoint p) (point dest)) ->
  patmatch nl' p (ExpandNodePat nl p dest).
Proof.
  intros Hv Ht Hz Hn Hf Hp Wz Wn Wf Wp.
  pose proof Hv as (Vz & Vn & Vf & Vp).
  destruct (expand_pattern nl p dest Ht Hz Hn Hf Hp) as (Ez & En & Ef & Ep).
  unfold patmatch. rewrite Ht. unfold zonematch.
  repeat split.
  - destruct Ez as [(Hw & E)|Ez].
    + rewrite E. auto.
    + right. eapply comp_expands_match; eauto. right; eauto.
      destruct Ez as (v & Hv' & Ev & _). intros [Hw|Hw]; rewrite Ev in Hw;
        apply dec_In_digit in Hw; unfold digit, is_u16 in *; lia.
  - eapply (comp_expands_match _ _ _ Vn); eauto.
  - eapply (comp_expands_match _ _ _ Vf); eauto.
  - eapply (comp_expands_match _ _ _ Vp); eauto.
Qed.

Lemma expand_valid nl p dest : valid4d dest -> valid4d (ExpandNodePat nl p dest).
Proof.
  intros (Vz & Vn & Vf & Vp). unfold ExpandNodePat, valid4d.
  assert (H0 : is_u16 0) by (unfold is_u16; lia).
  destruct (ptype p); simpl; (split; [|split; [|split]]); auto using u16_range;
  repeat match goal with |- context [if ?b then _ else _] => destruct b end; auto using u16_range.
Qed.

(** ** When the parser reads uninitialised memory *)
Lemma rstep_temp s c t : r_temp s = Some t ->
  match rstep s c with POk s' => r_temp s' <> None | PFail => True | PUB => False end.
Proof.
  intros H. unfold rstep. rewrite H.
  destruct (c =? 58); [destruct (_ || _ || _); simpl; first [exact I|congruence]|].
  destruct (c =? 47); [destruct (_ || _); simpl; first [exact I|congruence]|].
  destruct (c =? 46); [destruct (r_gf s); simpl; first [exact I|congruence]|].
  destruct (patchar c); auto. destruct (Nat.ltb _ _); unfold puttemp; simpl; first [exact I|congruence].
Qed.
Lemma rloop_temp buf s : r_temp s <> None ->
  match rloop s buf with POk s' => r_temp s' <> None | PFail => True | PUB => False end.
Proof.
  revert s; induction buf as [|c buf IH]; intros s H; simpl; [exact H|].
  destruct (r_temp s) as [t|] eqn:E; [|congruence].
  pose proof (rstep_temp s c t E). destruct (rstep s c); [apply IH|exact I|]; auto.
Qed.

Lemma raw_ub ty buf : rawParse4DPat ty buf = PUB <->
  buf = [] \/ exists c r, buf = c :: r /\ (c = 58 \/ c = 47 \/ c = 46).
Proof.
  unfold rawParse4DPat. destruct buf as [|c r].
  - simpl. split; auto.
  - destruct (streq (c :: r) (lit "*")) eqn:Es.
    { apply streq_eq in Es. split; [discriminate|]. intros [H|(c' & r' & H & Hc)]; [discriminate|].
      rewrite Es in H. injection H as E1 E2. lia. }
    cbn [rloop]. unfold rstep at 1. cbn [r_gz r_gn r_gf r_temp r_tempc orb].
    destruct (Z.eqb_spec c 58) as [E58|E58]; [split; [intros _; right; exists c, r; auto|auto]|].
    destruct (Z.eqb_spec c 47) as [E47|E47]; [split; [intros _; right; exists c, r; auto|auto]|].
    destruct (Z.eqb_spec c 46) as [E46|E46]; [split; [intros _; right; exists c, r; auto|auto]|].
    assert (Hn : ~ (c :: r = [] \/ exists c' r', c :: r = c' :: r' /\ (c' = 58 \/ c' = 47 \/ c' = 46))).
    { intros [H|(c' & r' & H & Hc)]; [discriminate|]. injection H as E1 E2. lia. }
    destruct (patchar c); [|split; [discriminate|tauto]].
    change (Nat.ltb 0 9) with true. cbv iota.
    match goal with |- context [rloop ?s r] => pose proof (rloop_temp r s) as H end.
    destruct (rloop _ r) as [s'| |].
    + destruct (r_temp s') eqn:Et; [|exfalso; apply H; [discriminate|auto]].
      destruct (r_gz s' && negb (r_gn s')); [|destruct (r_gf s')]; split; try discriminate; tauto.
    + split; [discriminate|tauto].
    + exfalso. apply H. discriminate.
Qed.

Lemma rloop_badchar buf s : (exists c, In c buf /\ ~ digit c /\ c <> 42 /\ c <> 63 /\ c <> 58 /\ c <> 47 /\ c <> 46) ->
  match rloop s buf with POk _ => False | _ => True end.
Proof.
  revert s; induction buf as [|x buf IH]; intros s (c & Hi & H); [destruct Hi|].
  cbn [rloop]. destruct Hi as [->|Hi].
  - unfold rstep. destruct (Z.eqb_spec c 58); [tauto|]. destruct (Z.eqb_spec c 47); [tauto|].
    destruct (Z.eqb_spec c 46); [tauto|].
    destruct (patchar c) eqn:E; [|exact I]. apply patchar_spec in E. tauto.
  - destruct (rstep s x); auto. apply IH. eauto.
Qed.
Lemma raw_badchar ty buf p : rawParse4DPat ty buf = POk p ->
  Forall (fun c => digit c \/ c = 42 \/ c = 63 \/ c = 58 \/ c = 47 \/ c = 46) buf.
Proof.
  intros H. apply Forall_forall. intros c Hc.
  destruct (mem c [42; 63; 58; 47; 46] || isdigit c) eqn:E.
  { unfold mem in E; simpl in E. rewrite <- isdigit_spec. lia. }
  exfalso.
  assert (Hb : ~ digit c /\ c <> 42 /\ c <> 63 /\ c <> 58 /\ c <> 47 /\ c <> 46).
  { unfold mem in E; simpl in E. rewrite <- isdigit_spec. destruct (isdigit c); lia. }
  unfold rawParse4DPat in H. destruct (streq buf (lit "*")) eqn:Es.
  - apply streq_eq in Es. subst. destruct Hc as [Hc|[]]. change (42 = c) in Hc. lia.
  - pose proof (rloop_badchar buf (RS (NP ty (lit "*") (lit "*") (lit "*") (lit "*")) false false false None 0)
      (ex_intro _ c (conj Hc Hb))) as Hx.
    destruct (rloop _ buf); try discriminate. auto.
Qed.
