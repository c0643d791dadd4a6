(** Lemmas on filter expressions. *)
From Verif Require Import Base M_Node4D M_Pat M_Mem M_Expr S_Expr.

Lemma skipspaces_len s : (length (skipspaces s) <= length s)%nat.
Proof. induction s as [|c s IH]; simpl; auto. destruct (c =? 32); simpl; lia. Qed.

Lemma parenscan_len s : forall k i r, parenscan k s = Some (i, r) -> (length i + length r + 1 = length s)%nat.
Proof.
  induction s as [|c s IH]; intros k i r; simpl; [discriminate|].
  destruct (c =? 40).
  { destruct (parenscan (S k) s) as [[i' r']|] eqn:E; simpl; [|discriminate]. intros H; injection H as <- <-.
    apply IH in E. simpl. lia. }
  destruct (c =? 41).
  { destruct k as [|k].
    - intros H; injection H as <- <-. simpl. lia.
    - destruct (parenscan k s) as [[i' r']|] eqn:E; simpl; [|discriminate]. intros H; injection H as <- <-.
      apply IH in E. simpl. lia. }
  destruct (parenscan k s) as [[i' r']|] eqn:E; simpl; [|discriminate]. intros H; injection H as <- <-.
  apply IH in E. simpl. lia.
Qed.

Lemma exword_app s : forall q, let '(w, r) := exword q s in s = w ++ r.
Proof.
  induction s as [|c s IH]; intros q; simpl; auto.
  destruct ((c =? 32) && negb q); auto. destruct ((c =? 34) && q); auto.
  specialize (IH (q || (c =? 34))). destruct (exword (q || (c =? 34)) s) as [w r]. simpl. congruence.
Qed.

Lemma strneqi4_len s : strneqi 4 s (lit "NOT ") = true -> (4 <= length s)%nat.
Proof.
  unfold strneqi. intros H. apply streq_eq in H. apply (f_equal (@length Z)) in H.
  rewrite !map_length, !firstn_length in H. change (length (lit "NOT ")) with 4%nat in H. lia.
Qed.

(** what [expr_get] does, case by case *)
Lemma expr_get_inv s e r : expr_get s = Some (e, r) ->
  exists pre body, skipspaces s = pre ++ body /\
    ((strneqi 4 (skipspaces s) (lit "NOT ") = true /\ length pre = 4%nat /\
       exists w, e = lit "NOT " ++ w /\
         ((exists b, body = 40 :: b /\ parenscan 0 b = Some (w, r)) \/
          (hd 0 body <> 40 /\ exword false body = (w, r))))
     \/ (strneqi 4 (skipspaces s) (lit "NOT ") = false /\ pre = [] /\
         ((exists b, body = 40 :: b /\ parenscan 0 b = Some (e, r)) \/
          (hd 0 body <> 40 /\ exword false body = (e, r))))).
Proof.
  unfold expr_get. destruct (strneqi 4 (skipspaces s) (lit "NOT ")) eqn:E.
  - pose proof (strneqi4_len _ E) as L. intros H.
    exists (firstn 4 (skipspaces s)), (skipn 4 (skipspaces s)). split; [symmetry; apply firstn_skipn|].
    left. split; auto. split; [rewrite firstn_length; lia|].
    destruct (skipn 4 (skipspaces s)) as [|c b] eqn:Eb.
    { simpl in H. injection H as <- <-. exists []. split; auto. right. simpl. split; [lia|auto]. }
    destruct (Z.eqb_spec c 40) as [->|Hc].
    + destruct (parenscan 0 b) as [[i r']|] eqn:Ep; [|discriminate].
      assert (e = lit "NOT " ++ i) by congruence. assert (r' = r) by congruence. subst.
      exists i. split; auto. left. exists b. auto.
    + destruct (exword false (c :: b)) as [w r'] eqn:Ew.
      assert (e = lit "NOT " ++ w) by congruence. assert (r' = r) by congruence. subst.
      exists w. split; auto.
  - intros H. exists [], (skipspaces s). split; auto. right. split; auto. split; auto.
    destruct (skipspaces s) as [|c b].
    { simpl in H. injection H as <- <-. right. simpl. split; [lia|auto]. }
    destruct (Z.eqb_spec c 40) as [->|Hc].
    + destruct (parenscan 0 b) as [[i r']|] eqn:Ep; [|discriminate].
      simpl in H. injection H as <- <-. left. exists b. auto.
    + destruct (exword false (c :: b)) as [w r'] eqn:Ew. simpl in H. injection H as <- <-. right. auto.
Qed.

Lemma expr_get_len s e r : expr_get s = Some (e, r) -> (length e + length r <= length s)%nat.
Proof.
  intros H. apply expr_get_inv in H as (pre & body & Hs & H).
  pose proof (skipspaces_len s) as L. rewrite Hs, app_length in L.
  destruct H as [(_ & Lp & w & -> & H) | (_ & -> & H)].
  - rewrite app_length. change (length (lit "NOT ")) with 4%nat.
    destruct H as [(b & -> & H)|(_ & H)].
    + apply parenscan_len in H. simpl in L. lia.
    + pose proof (exword_app body false) as A. rewrite H in A. apply (f_equal (@length Z)) in A.
      rewrite app_length in A. lia.
  - simpl in L. destruct H as [(b & -> & H)|(_ & H)].
    + apply parenscan_len in H. simpl in L. lia.
    + pose proof (exword_app body false) as A. rewrite H in A. apply (f_equal (@length Z)) in A.
      rewrite app_length in A. lia.
Qed.

Lemma expr_get_nil : expr_get [] = Some ([], []).
Proof. reflexivity. Qed.

Lemma skipspaces_same s : length (skipspaces s) = length s -> skipspaces s = s.
Proof.
  destruct s as [|c s]; simpl; auto. destruct (c =? 32); auto.
  pose proof (skipspaces_len s). lia.
Qed.

Lemma skipspaces_not x : skipspaces (lit "NOT " ++ x) = lit "NOT " ++ x.
Proof. reflexivity. Qed.
Lemma strneqi_not x : strneqi 4 (lit "NOT " ++ x) (lit "NOT ") = true.
Proof. unfold strneqi. simpl. reflexivity. Qed.
Lemma skipn_not x : skipn 4 (lit "NOT " ++ x) = x.
Proof. reflexivity. Qed.

Lemma expr_get_not x : expr_get (lit "NOT " ++ x) =
  match x with
  | c :: r => if c =? 40 then match parenscan 0 r with Some (i, rest) => Some (lit "NOT " ++ i, rest) | None => None end
              else let '(w, rest) := exword false x in Some (lit "NOT " ++ w, rest)
  | [] => Some (lit "NOT ", [])
  end.
Proof.
  unfold expr_get. rewrite skipspaces_not, strneqi_not, skipn_not.
  destruct x as [|c r]; [reflexivity|]. destruct (c =? 40); reflexivity.
Qed.

(** a term that is as long as the text but differs from it only has its NOT written in
    lower case; it is not changed again *)
Lemma expr_get_same s e r : expr_get s = Some (e, r) -> length e = length s -> e <> s ->
  strneqi 4 e (lit "NOT ") = true /\ expr_get e = Some (e, []).
Proof.
  intros H HL Hne. pose proof (expr_get_len _ _ _ H) as L.
  assert (r = []) by (destruct r; auto; simpl in L; lia). subst r.
  apply expr_get_inv in H as (pre & body & Hs & H).
  pose proof (skipspaces_len s) as L2.
  destruct H as [(_ & Lp & w & -> & H) | (_ & -> & H)].
  - split; [apply strneqi_not|]. rewrite expr_get_not.
    rewrite app_length in HL. change (length (lit "NOT ")) with 4%nat in HL.
    rewrite Hs, app_length in L2.
    destruct H as [(b & -> & H)|(Hh & H)].
    { apply parenscan_len in H. simpl in L2, H. lia. }
    pose proof (exword_app body false) as A. rewrite H, app_nil_r in A. subst body.
    destruct w as [|c w]; auto. simpl in Hh. destruct (Z.eqb_spec c 40); [lia|].
    rewrite H. reflexivity.
  - exfalso. simpl in Hs. destruct H as [(b & Hb & H)|(Hh & H)].
    { apply parenscan_len in H. rewrite Hs, Hb in L2. simpl in L2, H. lia. }
    pose proof (exword_app body false) as A. rewrite H, app_nil_r in A. rewrite A in Hs.
    apply Hne. rewrite <- Hs. apply skipspaces_same. rewrite Hs. lia.
Qed.

Lemma expr_total ev : (forall w, ev w <> None) -> forall n s f, (length s <= n)%nat -> (2 * length s + 2 <= f)%nat -> exists r, expr_eval f ev s = Some r.
Proof.
  intros Hev. induction n as [n IH] using lt_wf_ind. intros s f Hn Hf.
  destruct f as [|f]; [lia|]. cbn [expr_eval].
  destruct (expr_get s) as [[e1 s1]|] eqn:E1; [|eauto].
  destruct (expr_get s1) as [[e2 s2]|] eqn:E2; [|eauto].
  pose proof (expr_get_len _ _ _ E1) as L1. pose proof (expr_get_len _ _ _ E2) as L2.
  destruct e2 as [|c e2].
  - destruct (streq e1 s) eqn:Es.
    + apply streq_eq in Es. subst e1.
      destruct (strneqi 4 s (lit "NOT ")) eqn:En; [|specialize (Hev s); destruct (ev s); [eauto|congruence]].
      apply strneqi4_len in En.
      assert (Lk : length (skipn 4 s) = (length s - 4)%nat) by apply skipn_length.
      destruct (IH (length (skipn 4 s)) ltac:(lia) (skipn 4 s) f ltac:(lia) ltac:(lia)) as [r ->]. simpl. eauto.
    + apply streq_neq in Es.
      destruct (Nat.eq_dec (length e1) (length s)) as [Heq|Hlt].
      * destruct (expr_get_same _ _ _ E1 Heq Es) as [Hn1 Hg].
        destruct f as [|f]; [lia|]. cbn [expr_eval]. rewrite Hg, expr_get_nil, streq_refl, Hn1.
        apply strneqi4_len in Hn1.
        assert (Lk : length (skipn 4 e1) = (length e1 - 4)%nat) by apply skipn_length.
        destruct (IH (length (skipn 4 e1)) ltac:(lia) (skipn 4 e1) f ltac:(lia) ltac:(lia)) as [r ->]. simpl. eauto.
      * apply (IH (length e1)); lia.
  - simpl in L2. pose proof (skipspaces_len s2) as L3. fold (expr_getrest s2) in L3.
    destruct (IH (length e1) ltac:(lia) e1 f ltac:(lia) ltac:(lia)) as [x1 Hx1].
    destruct (IH (length (expr_getrest s2)) ltac:(lia) (expr_getrest s2) f ltac:(lia) ltac:(lia)) as [x2 Hx2].
    rewrite Hx1, Hx2. simpl.
    destruct (streqi (c :: e2) (lit "AND")).
    { destruct (expr_getrest s2); [eauto|]. destruct (x1 =? -1); [eauto|]. destruct (x2 =? -1); eauto. }
    destruct (streqi (c :: e2) (lit "OR")); [|eauto].
    destruct (expr_getrest s2); [eauto|]. destruct (x1 =? -1); [eauto|]. destruct (x2 =? -1); eauto.
Qed.

Lemma expr_mono ev : forall f g s r, expr_eval f ev s = Some r -> (f <= g)%nat -> expr_eval g ev s = Some r.
Proof.
  induction f as [|f IH]; intros g s r H Hg; [discriminate|].
  destruct g as [|g]; [lia|]. cbn [expr_eval] in H |- *.
  destruct (expr_get s) as [[e1 s1]|]; auto. destruct (expr_get s1) as [[e2 s2]|]; auto.
  assert (M : forall s r, expr_eval f ev s = Some r -> expr_eval g ev s = Some r) by (intros; apply IH; auto; lia).
  destruct e2 as [|c e2].
  - destruct (streq e1 s); [|auto]. destruct (strneqi 4 e1 (lit "NOT ")); auto.
    destruct (expr_eval f ev (skipn 4 e1)) as [x|] eqn:E; [|discriminate]. rewrite (M _ _ E). exact H.
  - destruct (streqi (c :: e2) (lit "AND")).
    { destruct (expr_getrest s2) as [|c3 e3]; auto.
      destruct (expr_eval f ev e1) as [x|] eqn:E; [|discriminate]. rewrite (M _ _ E). simpl in H |- *.
      destruct (x =? -1); auto.
      destruct (expr_eval f ev (c3 :: e3)) as [y|] eqn:E2; [|discriminate]. rewrite (M _ _ E2). exact H. }
    destruct (streqi (c :: e2) (lit "OR")); auto.
    destruct (expr_getrest s2) as [|c3 e3]; auto.
    destruct (expr_eval f ev e1) as [x|] eqn:E; [|discriminate]. rewrite (M _ _ E). simpl in H |- *.
    destruct (x =? -1); auto.
    destruct (expr_eval f ev (c3 :: e3)) as [y|] eqn:E2; [|discriminate]. rewrite (M _ _ E2). exact H.
Qed.

(** enough fuel is enough *)
Lemma expr_fuel ev : forall n s f g, (length s <= n)%nat -> (2 * length s + 2 <= f)%nat -> (2 * length s + 2 <= g)%nat ->
  expr_eval f ev s = expr_eval g ev s.
Proof.
  induction n as [n IH] using lt_wf_ind. intros s f g Hn Hf Hg.
  destruct f as [|f]; [lia|]. destruct g as [|g]; [lia|]. cbn [expr_eval].
  destruct (expr_get s) as [[e1 s1]|] eqn:E1; [|eauto].
  destruct (expr_get s1) as [[e2 s2]|] eqn:E2; [|eauto].
  pose proof (expr_get_len _ _ _ E1) as L1. pose proof (expr_get_len _ _ _ E2) as L2.
  destruct e2 as [|c e2].
  - destruct (streq e1 s) eqn:Es.
    + apply streq_eq in Es. subst e1.
      destruct (strneqi 4 s (lit "NOT ")) eqn:En; auto.
      apply strneqi4_len in En.
      assert (Lk : length (skipn 4 s) = (length s - 4)%nat) by apply skipn_length.
      rewrite (IH (length (skipn 4 s)) ltac:(lia) (skipn 4 s) f g) by lia. reflexivity.
    + apply streq_neq in Es.
      destruct (Nat.eq_dec (length e1) (length s)) as [Heq|Hlt].
      * destruct (expr_get_same _ _ _ E1 Heq Es) as [Hn1 Hg1].
        destruct f as [|f]; [lia|]. destruct g as [|g]; [lia|]. cbn [expr_eval]. rewrite Hg1, expr_get_nil, streq_refl, Hn1.
        apply strneqi4_len in Hn1.
        assert (Lk : length (skipn 4 e1) = (length e1 - 4)%nat) by apply skipn_length.
        rewrite (IH (length (skipn 4 e1)) ltac:(lia) (skipn 4 e1) f g) by lia. reflexivity.
      * apply (IH (length e1)); lia.
  - simpl in L2. pose proof (skipspaces_len s2) as L3. fold (expr_getrest s2) in L3. cbv zeta.
    rewrite (IH (length e1) ltac:(lia) e1 f g) by lia.
    destruct (expr_getrest s2) as [|c3 e3]; auto.
    rewrite (IH (length (c3 :: e3)) ltac:(lia) (c3 :: e3) f g) by lia. reflexivity.
Qed.

(** one step, with [evaluate] in place of the recursive calls *)
Lemma evaluate_step ev s :
  evaluate ev s =
    match expr_get s with
    | None => Some (-1)
    | Some (e1, s1) =>
      match expr_get s1 with
      | None => Some (-1)
      | Some (e2, s2) =>
        let e3 := expr_getrest s2 in
        match e2 with
        | [] =>
          if streq e1 s then
            if strneqi 4 e1 (lit "NOT ") then
              do r <- evaluate ev (skipn 4 e1);
              Some (if r =? 1 then 0 else if r =? 0 then 1 else r)
            else ev e1
          else evaluate ev e1
        | _ =>
          if streqi e2 (lit "AND") then
            match e3 with
            | [] => Some (-1)
            | _ =>
              do r1 <- evaluate ev e1;
              if r1 =? -1 then Some (-1) else
              do r2 <- evaluate ev e3;
              if r2 =? -1 then Some (-1) else
              Some (if negb (r1 =? 0) && negb (r2 =? 0) then 1 else 0)
            end
          else if streqi e2 (lit "OR") then
            match e3 with
            | [] => Some (-1)
            | _ =>
              do r1 <- evaluate ev e1;
              if r1 =? -1 then Some (-1) else
              do r2 <- evaluate ev e3;
              if r2 =? -1 then Some (-1) else
              Some (if negb (r1 =? 0) || negb (r2 =? 0) then 1 else 0)
            end
          else Some (-1)
        end
      end
    end.
Proof.
  set (g := (2 * length s + 2 + 2 * length s + 20)%nat).
  unfold evaluate at 1. rewrite (expr_fuel ev (length s) s _ (S g)) by (unfold g; lia). cbn [expr_eval].
  destruct (expr_get s) as [[e1 s1]|] eqn:E1; auto. destruct (expr_get s1) as [[e2 s2]|] eqn:E2; auto.
  pose proof (expr_get_len _ _ _ E1) as L1. pose proof (expr_get_len _ _ _ E2) as L2.
  assert (G : forall x, (length x <= length s)%nat -> expr_eval g ev x = evaluate ev x).
  { intros x Hx. unfold evaluate. apply (expr_fuel ev (length x)); unfold g; lia. }
  cbv zeta. pose proof (skipspaces_len s2) as L3. fold (expr_getrest s2) in L3.
  rewrite (G e1) by lia. rewrite (G (skipn 4 e1)) by (rewrite skipn_length; lia).
  destruct (expr_getrest s2) as [|c3 e3]; auto. rewrite (G (c3 :: e3)) by lia. auto.
Qed.

(** ** the value *)

Lemma skipspaces_blanks b x : blanks b -> hd 0 x <> 32 -> skipspaces (b ++ x) = x.
Proof.
  induction 1 as [|c b -> _ IH]; intros Hx; simpl.
  - destruct x as [|c x]; auto. simpl in *. destruct (Z.eqb_spec c 32); [lia|auto].
  - apply IH, Hx.
Qed.

Lemma exword_plain w x : Forall (fun c => c <> 32 /\ c <> 34) w -> (x = [] \/ hd 0 x = 32) -> exword false (w ++ x) = (w, x).
Proof.
  induction 1 as [|c w [H1 H2] _ IH]; intros Hx; simpl.
  - destruct Hx as [->|Hx]; auto. destruct x as [|c x]; auto. simpl in Hx. subst c. reflexivity.
  - destruct (Z.eqb_spec c 32); [lia|]. destruct (Z.eqb_spec c 34); [lia|]. simpl. rewrite IH by auto. reflexivity.
Qed.
Lemma exword_q q x : Forall (fun c => c <> 34) q -> exword true (q ++ 34 :: x) = (q ++ [34], x).
Proof.
  induction 1 as [|c q H _ IH]; simpl; auto.
  rewrite andb_false_r. destruct (Z.eqb_spec c 34); [lia|]. simpl. rewrite IH. reflexivity.
Qed.
Lemma exword_quoted p q x : Forall (fun c => c <> 32 /\ c <> 34) p -> Forall (fun c => c <> 34) q ->
  exword false ((p ++ [34] ++ q ++ [34]) ++ x) = (p ++ [34] ++ q ++ [34], x).
Proof.
  intros Hp Hq. rewrite <- !app_assoc. induction Hp as [|c p [H1 H2] _ IH]; simpl.
  - rewrite exword_q by auto. reflexivity.
  - destruct (Z.eqb_spec c 32); [lia|]. destruct (Z.eqb_spec c 34); [lia|]. simpl in *. rewrite IH. reflexivity.
Qed.

Lemma statement_word w x : statement w -> (x = [] \/ hd 0 x = 32) -> exword false (w ++ x) = (w, x).
Proof. intros [w' H1 H2 H3 H4 H5|p q H1 H2 H3 H4] Hx; [apply exword_plain|apply exword_quoted]; auto. Qed.

Lemma statement_hd w : statement w -> w <> [] /\ hd 0 w <> 40 /\ hd 0 w <> 32 /\ forall x, hd 0 (w ++ x) = hd 0 w.
Proof.
  intros [w' H1 H2 H3 H4 H5|p q H1 H2 H3 H4].
  - destruct w' as [|c w']; [congruence|]. inversion H2; subst. simpl in *. split; [discriminate|]. split; [auto|]. split; [tauto|auto].
  - destruct p as [|c p]; simpl in *; (split; [discriminate|]); (split; [auto; lia|]); (split; [|auto]); [lia|].
    inversion H1; subst. tauto.
Qed.

Lemma tolower_32 c : tolower c = 32 -> c = 32.
Proof. unfold tolower. destruct ((65 <=? c) && (c <=? 90)) eqn:E; lia. Qed.

(** a statement is not read as NOT *)
Lemma statement_not w x : statement w -> (x = [] \/ hd 0 x = 32) -> strneqi 4 (w ++ x) (lit "NOT ") = false.
Proof.
  intros Hw Hx. destruct (strneqi 4 (w ++ x) (lit "NOT ")) eqn:E; auto. exfalso.
  unfold strneqi in E. apply streq_eq in E. change (map tolower (firstn 4 (lit "NOT "))) with (lit "not ") in E.
  change (lit "not ") with [110; 111; 116; 32] in E.
  assert (A : forall c, 32 <> tolower c -> c <> 32) by (intros c H ->; apply H; reflexivity).
  destruct Hw as [w' H1 H2 H3 H4 H5|p q H1 H2 H3 H4].
  - destruct w' as [|a [|b [|c [|d w']]]]; [congruence| | | |].
    + destruct Hx as [->|Hx]; [discriminate E|]. destruct x as [|y x]; [discriminate E|]. simpl in Hx. subst y. simpl in E. discriminate E.
    + destruct Hx as [->|Hx]; [discriminate E|]. destruct x as [|y x]; [discriminate E|]. simpl in Hx. subst y. simpl in E. discriminate E.
    + apply H3. unfold anycase. simpl in E. change (map tolower (lit "NOT")) with [110; 111; 116].
      simpl. congruence.
    + simpl in E. assert (tolower d = 32) by congruence. apply tolower_32 in H. subst d.
      inversion H2 as [|? ? _ H6]; subst. inversion H6 as [|? ? _ H7]; subst. inversion H7 as [|? ? _ H8]; subst.
      inversion H8 as [|? ? H9 _]; subst. lia.
  - destruct p as [|a [|b [|c [|d w']]]]; simpl in E; try discriminate E.
    assert (tolower d = 32) by congruence. apply tolower_32 in H. subst d.
    inversion H1 as [|? ? _ H6]; subst. inversion H6 as [|? ? _ H7]; subst. inversion H7 as [|? ? _ H8]; subst.
    inversion H8 as [|? ? H9 _]; subst. lia.
Qed.

Lemma hd_app_ne {A} (d : A) x y : x <> [] -> hd d (x ++ y) = hd d x.
Proof. destruct x; [congruence|reflexivity]. Qed.

Lemma get_statement b w x : blanks b -> statement w -> (x = [] \/ hd 0 x = 32) -> expr_get (b ++ w ++ x) = Some (w, x).
Proof.
  intros Hb Hw Hx. destruct (statement_hd w Hw) as (Hn & H40 & H32 & Hh).
  unfold expr_get. rewrite skipspaces_blanks by (auto; rewrite Hh; auto).
  rewrite statement_not by auto. cbv zeta. rewrite statement_word by auto.
  destruct (w ++ x) as [|c r] eqn:E; [reflexivity|].
  assert (c <> 40). { specialize (Hh x). rewrite E in Hh. simpl in Hh. congruence. }
  destruct (Z.eqb_spec c 40); [lia|]. reflexivity.
Qed.

(** scanning past balanced text *)
Lemma parenscan_balanced s : balanced s -> forall k x,
  parenscan k (s ++ x) = option_map (fun p => (s ++ fst p, snd p)) (parenscan k x).
Proof.
  induction 1 as [|c s H1 H2 _ IH|s t _ IHs _ IHt]; intros k x.
  - simpl. destruct (parenscan k x) as [[? ?]|]; reflexivity.
  - simpl. destruct (Z.eqb_spec c 40); [lia|]. destruct (Z.eqb_spec c 41); [lia|]. rewrite IH.
    destruct (parenscan k x) as [[? ?]|]; reflexivity.
  - cbn [app parenscan]. change (40 =? 40) with true. cbv iota. rewrite <- app_assoc. cbn [app].
    rewrite IHs. cbn [parenscan]. change (41 =? 40) with false. change (41 =? 41) with true. cbv iota.
    rewrite IHt. destruct (parenscan k x) as [[? ?]|]; simpl; auto. rewrite <- app_assoc. reflexivity.
Qed.
Lemma parenscan_close s x : balanced s -> parenscan 0 (s ++ 41 :: x) = Some (s, x).
Proof. intros H. rewrite parenscan_balanced by auto. simpl. rewrite app_nil_r. reflexivity. Qed.

Lemma balanced_app s t : balanced s -> balanced t -> balanced (s ++ t).
Proof.
  induction 1 as [|c s H1 H2 _ IH|s t' Hs _ _ IHt]; intros Ht; simpl; auto.
  - constructor; auto.
  - rewrite <- app_assoc. simpl. apply bal_par; auto.
Qed.
Lemma balanced_blanks b : blanks b -> balanced b.
Proof. induction 1; constructor; auto; lia. Qed.
Lemma balanced_letters s : Forall (fun c => c <> 40 /\ c <> 41) s -> balanced s.
Proof. induction 1 as [|c s [? ?] ? IH]; constructor; auto. Qed.
Lemma tolower_paren c : tolower c <> 40 -> tolower c <> 41 -> c <> 40 /\ c <> 41.
Proof. intros H1 H2. split; intros ->; [apply H1|apply H2]; reflexivity. Qed.
Lemma anycase_forall (P : Z -> Prop) w s : anycase w s -> Forall (fun c => forall c', tolower c' = tolower c -> P c') w -> Forall P s.
Proof.
  unfold anycase. revert s. induction w as [|a w IH]; intros s E F; destruct s as [|c s]; try discriminate E; auto.
  inversion F; subst. simpl in E. assert (tolower c = tolower a) by congruence. assert (map tolower s = map tolower w) by congruence.
  constructor; auto.
Qed.
Lemma balanced_anycase w s : anycase w s -> Forall (fun c => 65 <= c <= 90) w -> balanced s.
Proof.
  intros H F. apply balanced_letters. eapply anycase_forall; eauto.
  eapply Forall_impl; [|exact F]. intros a Ha c' Hc. cbv beta in Ha. unfold tolower in Hc.
  destruct ((65 <=? a) && (a <=? 90)) eqn:E1; [|lia]. destruct ((65 <=? c') && (c' <=? 90)) eqn:E2; lia.
Qed.
Lemma balanced_parens k w : balanced w -> balanced (repeat 40 k ++ w ++ repeat 41 k).
Proof.
  intros Hw. induction k as [|k IH]; cbn [repeat app]; [rewrite app_nil_r; auto|].
  replace (repeat 40 k ++ w ++ 41 :: repeat 41 k) with ((repeat 40 k ++ w ++ repeat 41 k) ++ [41]).
  - apply bal_par; [exact IH|constructor].
  - rewrite <- !app_assoc. do 2 f_equal. change [41] with (repeat 41 1). rewrite <- repeat_app.
    change (41 :: repeat 41 k) with (repeat 41 (S k)). f_equal. lia.
Qed.

Lemma statement_balanced w : statement w -> balanced w.
Proof. destruct 1; auto. Qed.

Ltac letters := litc; repeat (apply Forall_cons; [lia|]); apply Forall_nil.

Section Value.
  Context (env : list Z -> tri) (ev : list Z -> option Z) (Hev : forall w, ev w = Some (code (env w))).

  Lemma eval_statement w : statement w -> evaluate ev w = Some (code (env w)).
  Proof.
    intros Hw. rewrite evaluate_step.
    pose proof (get_statement [] w [] ltac:(constructor) Hw (or_introl eq_refl)) as G. simpl in G. rewrite app_nil_r in G.
    rewrite G, expr_get_nil, streq_refl.
    pose proof (statement_not w [] Hw (or_introl eq_refl)) as N. rewrite app_nil_r in N. rewrite N, Hev. reflexivity.
  Qed.

  Lemma repeat_close k x : repeat 41 (S k) ++ x = repeat 41 k ++ 41 :: x.
  Proof. induction k as [|k IH]; cbn [repeat app]; [reflexivity|]. f_equal. exact IH. Qed.

  Lemma get_not_parens k w x : statement w -> (x = [] \/ hd 0 x = 32) ->
    expr_get (lit "NOT " ++ (repeat 40 k ++ w ++ repeat 41 k) ++ x) =
    Some (lit "NOT " ++ repeat 40 (pred k) ++ w ++ repeat 41 (pred k), x).
  Proof.
    intros Hw Hx. rewrite expr_get_not. destruct k as [|k].
    - cbn [repeat app pred]. rewrite app_nil_r. destruct (statement_hd w Hw) as (Hn & H40 & H32 & Hh).
      destruct (w ++ x) as [|c r] eqn:E. { destruct w; [congruence|discriminate]. }
      assert (c <> 40). { specialize (Hh x). rewrite E in Hh. simpl in Hh. congruence. }
      destruct (Z.eqb_spec c 40); [lia|]. rewrite <- E, statement_word by auto. reflexivity.
    - cbn [pred]. cbn [repeat app]. change (40 =? 40) with true. cbv iota.
      rewrite <- !app_assoc. change ((41 :: repeat 41 k) ++ x) with (repeat 41 (S k) ++ x). rewrite repeat_close.
      replace (repeat 40 k ++ w ++ repeat 41 k ++ 41 :: x) with ((repeat 40 k ++ w ++ repeat 41 k) ++ 41 :: x) by (rewrite <- !app_assoc; reflexivity).
      rewrite parenscan_close by (apply balanced_parens, statement_balanced, Hw). reflexivity.
  Qed.

  Lemma eval_not k w : statement w -> evaluate ev (lit "NOT " ++ repeat 40 k ++ w ++ repeat 41 k) = Some (code (tri_not (env w))).
  Proof.
    intros Hw. induction k as [|k IH].
    - rewrite evaluate_step.
      pose proof (get_not_parens 0 w [] Hw (or_introl eq_refl)) as G. cbn [pred] in G. rewrite app_nil_r in G. rewrite G.
      rewrite expr_get_nil, streq_refl, strneqi_not, skipn_not. cbn [repeat app]. rewrite app_nil_r.
      rewrite eval_statement by auto. simpl. destruct (env w) as [[]|]; reflexivity.
    - rewrite evaluate_step.
      pose proof (get_not_parens (S k) w [] Hw (or_introl eq_refl)) as G. cbn [pred] in G. rewrite app_nil_r in G. rewrite G.
      rewrite expr_get_nil. cbv zeta.
      replace (streq (lit "NOT " ++ repeat 40 k ++ w ++ repeat 41 k) (lit "NOT " ++ repeat 40 (S k) ++ w ++ repeat 41 (S k))) with false.
      + exact IH.
      + symmetry. apply streq_neq. intros E. apply (f_equal (@length Z)) in E.
        rewrite !app_length, !repeat_length in E. lia.
  Qed.

  Lemma term_balanced : (forall t v, term env t v -> balanced t) /\ (forall s v, expression env s v -> balanced s).
  Proof.
    apply term_expression_ind; intros.
    - apply statement_balanced; auto.
    - apply balanced_app; [eapply balanced_anycase; eauto; letters|].
      apply balanced_app; [apply balanced_blanks; repeat constructor|]. apply balanced_parens, statement_balanced; auto.
    - apply (bal_par s []); [auto|constructor].
    - apply balanced_app; [apply balanced_blanks; auto|]. apply balanced_app; auto. apply balanced_blanks; auto.
    - assert (balanced op) by (eapply balanced_anycase; eauto; letters).
      assert (balanced [32]) by (apply balanced_blanks; repeat constructor).
      repeat apply balanced_app; auto using balanced_blanks.
    - assert (balanced op) by (eapply balanced_anycase; eauto; letters).
      assert (balanced [32]) by (apply balanced_blanks; repeat constructor).
      repeat apply balanced_app; auto using balanced_blanks.
  Qed.

  Lemma anycase_not n : anycase (lit "NOT") n -> forall x, hd 0 (n ++ x) <> 32 /\
     strneqi 4 (n ++ 32 :: x) (lit "NOT ") = true /\ skipn 4 (n ++ 32 :: x) = x.
  Proof.
    unfold anycase. change (map tolower (lit "NOT")) with [110; 111; 116]. intros H x.
    destruct n as [|a [|b [|c [|d n]]]]; try discriminate H. simpl in H.
    assert (tolower a = 110) by congruence. split.
    { simpl. intros ->. discriminate. }
    split; [|reflexivity].
    assert (tolower b = 111) by congruence. assert (tolower c = 116) by congruence.
    unfold strneqi. simpl. rewrite H0, H1, H2. reflexivity.
  Qed.

  Lemma expression_ne s v : expression env s v -> s <> [].
  Proof.
    assert (T : forall t v, term env t v -> t <> []).
    { intros t v' [w H|n w k H H0|s' v0 H].
      - apply statement_hd in H. tauto.
      - destruct n; discriminate.
      - discriminate. }
    intros [b1 b2 t v' H H0 H1|b1 b2 t op s' v1 v2 H H0 H1 H2 H3 H4|b1 b2 t op s' v1 v2 H H0 H1 H2 H3 H4]; intros E;
      apply app_eq_nil in E as [_ E]; apply app_eq_nil in E as [E _]; eapply T; eauto.
  Qed.

  Lemma get_term : forall t v, term env t v -> exists e, e <> [] /\
      forall b x, blanks b -> (x = [] \/ hd 0 x = 32) -> expr_get (b ++ t ++ x) = Some (e, x).
  Proof.
    intros t v [w H|n w k H H0|s v' H].
    - exists w. split; [apply statement_hd; auto|]. intros. apply get_statement; auto.
    - exists (lit "NOT " ++ repeat 40 (pred k) ++ w ++ repeat 41 (pred k)). split; [discriminate|].
      intros b x Hb Hx. rewrite <- (get_not_parens k w x) by auto.
      pose proof (anycase_not n H) as A.
      unfold expr_get. rewrite skipspaces_not, strneqi_not, skipn_not.
      rewrite skipspaces_blanks by (auto; rewrite <- app_assoc; apply A).
      rewrite <- !app_assoc. cbn [app].
      destruct (A (repeat 40 k ++ w ++ repeat 41 k ++ x)) as (_ & A2 & A3). rewrite A2, A3.
      rewrite <- ?app_assoc. reflexivity.
    - exists s. split; [eapply expression_ne; eauto|]. intros b x Hb Hx.
      unfold expr_get. rewrite skipspaces_blanks by (auto; simpl; lia).
      rewrite <- !app_assoc. cbn [app].
      change (strneqi 4 (40 :: s ++ 41 :: x) (lit "NOT ")) with false. cbv iota zeta.
      change (40 =? 40) with true. cbv iota.
      rewrite parenscan_close by (eapply term_balanced; eauto). reflexivity.
  Qed.

  Lemma get_op op b x : anycase op b -> Forall (fun c => 65 <= c <= 90) op -> op <> [] -> streqi op (lit "NOT") = false ->
    expr_get (b ++ 32 :: x) = Some (b, 32 :: x).
  Proof.
    intros H F Hn Hnot.
    assert (S : statement b).
    { apply st_word.
      - intros ->. destruct op; [congruence|discriminate H].
      - eapply anycase_forall; eauto. eapply Forall_impl; [|exact F]. intros a Ha c' Hc. cbv beta in Ha. unfold tolower in Hc.
        destruct ((65 <=? a) && (a <=? 90)) eqn:E1; [|lia]. destruct ((65 <=? c') && (c' <=? 90)) eqn:E2; lia.
      - intros Hb. unfold anycase in *. unfold streqi in Hnot. apply streq_neq in Hnot. congruence.
      - destruct b as [|c b]; [simpl; lia|]. simpl. destruct op as [|a op]; [discriminate H|].
        unfold anycase in H. simpl in H. assert (tolower c = tolower a) by congruence. inversion F; subst.
        intros ->. unfold tolower in H0. destruct ((65 <=? a) && (a <=? 90)) eqn:E; simpl in H0; lia.
      - eapply balanced_anycase; eauto. }
    change (b ++ 32 :: x) with ([] ++ b ++ 32 :: x). apply get_statement; auto. constructor.
  Qed.

  Lemma expr_get_lead b x : blanks b -> expr_get (b ++ x) = expr_get x.
  Proof. intros Hb. unfold expr_get. replace (skipspaces (b ++ x)) with (skipspaces x); auto. induction Hb; simpl; auto. subst. simpl. auto. Qed.
  Lemma expr_get_blank b : blanks b -> expr_get b = Some ([], []).
  Proof. intros H. rewrite <- (app_nil_r b), expr_get_lead by auto. reflexivity. Qed.
  Lemma getrest_lead b x : blanks b -> expr_getrest (b ++ x) = expr_getrest x.
  Proof. intros Hb. unfold expr_getrest. induction Hb; simpl; auto. subst. simpl. auto. Qed.
  Lemma hd_blanks b x : blanks b -> b <> [] -> hd 0 (b ++ x) = 32.
  Proof. intros [|c b' -> _]; [congruence|reflexivity]. Qed.

  Theorem values : (forall t v, term env t v -> forall e x, expr_get (t ++ x) = Some (e, x) -> (x = [] \/ hd 0 x = 32) -> evaluate ev e = Some (code v))
                /\ (forall s v, expression env s v -> evaluate ev s = Some (code v) /\ evaluate ev (expr_getrest s) = Some (code v)).
  Proof.
    assert (GR : forall b t x v, blanks b -> term env t v -> expr_getrest (b ++ t ++ x) = t ++ x).
    { intros b t x v Hb Ht. unfold expr_getrest. rewrite skipspaces_blanks; auto.
      destruct Ht as [w H|n w k H H0|s' v0 H].
      - apply statement_hd in H as (_ & _ & H & Hh). rewrite Hh. auto.
      - rewrite <- !app_assoc. apply anycase_not; auto.
      - simpl. lia. }
    apply term_expression_ind.
    - intros w H e x E Hx. pose proof (get_statement [] w x ltac:(constructor) H Hx) as G. simpl in G.
      assert (e = w) by congruence. subst e. apply eval_statement, H.
    - intros n w k H H0 e x E Hx.
      assert (T : term env (n ++ [32] ++ repeat 40 k ++ w ++ repeat 41 k) (tri_not (env w))) by (constructor; auto).
      assert (e = lit "NOT " ++ repeat 40 (pred k) ++ w ++ repeat 41 (pred k)).
      { pose proof (get_not_parens k w x H0 Hx) as G2.
        assert (expr_get ((n ++ [32] ++ repeat 40 k ++ w ++ repeat 41 k) ++ x) = expr_get (lit "NOT " ++ (repeat 40 k ++ w ++ repeat 41 k) ++ x)).
        { pose proof (anycase_not n H) as A.
          unfold expr_get. rewrite skipspaces_not, strneqi_not, skipn_not.
          replace (skipspaces ((n ++ [32] ++ repeat 40 k ++ w ++ repeat 41 k) ++ x)) with ((n ++ [32] ++ repeat 40 k ++ w ++ repeat 41 k) ++ x).
          2:{ symmetry. apply (skipspaces_blanks []); [constructor|]. rewrite <- app_assoc. apply A. }
          rewrite <- !app_assoc. cbn [app].
          destruct (A (repeat 40 k ++ w ++ repeat 41 k ++ x)) as (_ & A2 & A3). rewrite A2, A3.
          rewrite <- ?app_assoc. reflexivity. }
        congruence. }
      subst e. apply eval_not, H0.
    - intros s v Hs [IH _] e x E Hx.
      unfold expr_get in E. rewrite <- !app_assoc in E. cbn [app] in E. change (skipspaces (40 :: s ++ 41 :: x)) with (40 :: s ++ 41 :: x) in E.
      change (strneqi 4 (40 :: s ++ 41 :: x) (lit "NOT ")) with false in E. cbv iota zeta in E.
      change (40 =? 40) with true in E. cbv iota in E.
      rewrite parenscan_close in E by (eapply term_balanced; eauto).
      assert (e = s) by (simpl in E; congruence). subst e. exact IH.
    - intros b1 b2 t v Hb1 Hb2 Ht IH.
      destruct (get_term t v Ht) as (e & Hne & G).
      assert (Hx : b2 = [] \/ hd 0 b2 = 32) by (destruct Hb2 as [|? ? -> _]; auto).
      assert (Ge : expr_get (t ++ b2) = Some (e, b2)) by (specialize (G [] b2); simpl in G; apply G; auto; constructor).
      specialize (IH e b2 Ge Hx).
      assert (X : forall b, blanks b -> evaluate ev (b ++ t ++ b2) = Some (code v)).
      { intros b Hb. rewrite evaluate_step, G, expr_get_blank by auto. cbv zeta.
        destruct (streq e (b ++ t ++ b2)) eqn:Es; [|exact IH].
        apply streq_eq in Es. rewrite evaluate_step in IH. rewrite Es in IH at 1.
        rewrite G, expr_get_blank in IH by auto. cbv zeta in IH. rewrite streq_refl in IH. exact IH. }
      split; [apply X, Hb1|]. rewrite (GR b1 t b2 v) by auto. apply (X []). constructor.
    - intros b1 b2 t op s v1 v2 Hb1 Hb2 Hn Hop Ht IHt Hs [_ IHs].
      destruct (get_term t v1 Ht) as (e & Hne & G).
      set (x := b2 ++ op ++ [32] ++ s).
      assert (Hx : x = [] \/ hd 0 x = 32) by (right; apply hd_blanks; auto).
      assert (Ge : expr_get (t ++ x) = Some (e, x)) by (specialize (G [] x); simpl in G; apply G; auto; constructor).
      specialize (IHt e x Ge Hx).
      assert (X : forall b, blanks b -> evaluate ev (b ++ t ++ x) = Some (code (tri2 andb v1 v2))).
      { intros b Hb. rewrite evaluate_step, G by auto. unfold x at 1. rewrite expr_get_lead by auto.
        cbn [app]. erewrite get_op; [|exact Hop|letters|discriminate|reflexivity].
        cbv zeta. rewrite IHt. change (32 :: s) with ([32] ++ s). rewrite getrest_lead by (repeat constructor). rewrite IHs.
        destruct op as [|c op]; [discriminate Hop|].
        assert (A : streqi (c :: op) (lit "AND") = true) by (unfold streqi; apply streq_eq; exact Hop). rewrite A.
        assert (Hr : expr_getrest s <> []).
        { destruct Hs as [b1' b2' t' v' ? ? Ht'|b1' b2' t' op' s' w1 w2 ? ? ? ? Ht' ?|b1' b2' t' op' s' w1 w2 ? ? ? ? Ht' ?];
            erewrite GR by eauto; intros E; apply app_eq_nil in E as [E _]; subst t';
            (pose proof (ex_term env [] [] [] _ ltac:(constructor) ltac:(constructor) Ht') as N; apply expression_ne in N; apply N; reflexivity). }
        destruct (expr_getrest s) as [|c3 e3] eqn:Er; [congruence|].
        destruct v1 as [[]|]; destruct v2 as [[]|]; reflexivity. }
      split; [apply X, Hb1|]. fold x. rewrite (GR b1 t x v1) by auto. apply (X []). constructor.
    - intros b1 b2 t op s v1 v2 Hb1 Hb2 Hn Hop Ht IHt Hs [_ IHs].
      destruct (get_term t v1 Ht) as (e & Hne & G).
      set (x := b2 ++ op ++ [32] ++ s).
      assert (Hx : x = [] \/ hd 0 x = 32) by (right; apply hd_blanks; auto).
      assert (Ge : expr_get (t ++ x) = Some (e, x)) by (specialize (G [] x); simpl in G; apply G; auto; constructor).
      specialize (IHt e x Ge Hx).
      assert (X : forall b, blanks b -> evaluate ev (b ++ t ++ x) = Some (code (tri2 orb v1 v2))).
      { intros b Hb. rewrite evaluate_step, G by auto. unfold x at 1. rewrite expr_get_lead by auto.
        cbn [app]. erewrite get_op; [|exact Hop|letters|discriminate|reflexivity].
        cbv zeta. rewrite IHt. change (32 :: s) with ([32] ++ s). rewrite getrest_lead by (repeat constructor). rewrite IHs.
        destruct op as [|c op]; [discriminate Hop|].
        assert (A : streqi (c :: op) (lit "OR") = true) by (unfold streqi; apply streq_eq; exact Hop).
        assert (A0 : streqi (c :: op) (lit "AND") = false).
        { unfold streqi, anycase in *. rewrite Hop. reflexivity. }
        rewrite A0, A.
        assert (Hr : expr_getrest s <> []).
        { destruct Hs as [b1' b2' t' v' ? ? Ht'|b1' b2' t' op' s' w1 w2 ? ? ? ? Ht' ?|b1' b2' t' op' s' w1 w2 ? ? ? ? Ht' ?];
            erewrite GR by eauto; intros E; apply app_eq_nil in E as [E _]; subst t';
            (pose proof (ex_term env [] [] [] _ ltac:(constructor) ltac:(constructor) Ht') as N; apply expression_ne in N; apply N; reflexivity). }
        destruct (expr_getrest s) as [|c3 e3] eqn:Er; [congruence|].
        destruct v1 as [[]|]; destruct v2 as [[]|]; reflexivity. }
      split; [apply X, Hb1|]. fold x. rewrite (GR b1 t x v1) by auto. apply (X []). constructor.
  Qed.
End Value.

(** only the values of the statements matter *)
Lemma expr_eval_ext ev1 ev2 : (forall w, ev1 w = ev2 w) -> forall f s, expr_eval f ev1 s = expr_eval f ev2 s.
Proof.
  intros H. induction f as [|f IH]; intros s; simpl; auto.
  destruct (expr_get s) as [[e1 s1]|]; auto. destruct (expr_get s1) as [[e2 s2]|]; auto.
  rewrite !IH, H. reflexivity.
Qed.
Lemma evaluate_ext ev1 ev2 s : (forall w, ev1 w = ev2 w) -> evaluate ev1 s = evaluate ev2 s.
Proof. intros H. apply expr_eval_ext, H. Qed.
