From Verif Require Import Base M_Node4D S_Node4D.
From Coq Require Import ZifyBool.

Definition accum (v : option Z) (c : Z) : option Z :=
  Some (u32 (u32 ((match v with Some v => v | None => 0 end) * 10) + (c - 48))).

Lemma p4step_digit s c : digit c ->
  p4step s c = Some (PS (p_node s) (gotzone s) (gotnet s) (gotnode s) (accum (val s) c)).
Proof.
  intros Hc. unfold p4step. pose proof Hc as Hc'. unfold digit in Hc'.
  destruct (Z.eqb_spec c 58); [lia|]. destruct (Z.eqb_spec c 47); [lia|].
  destruct (Z.eqb_spec c 46); [lia|]. apply isdigit_spec in Hc. rewrite Hc. reflexivity.
Qed.

Lemma p4loop_digits l s r : Forall digit l ->
  p4loop s (l ++ r) =
  p4loop (PS (p_node s) (gotzone s) (gotnet s) (gotnode s) (fold_left accum l (val s))) r.
Proof.
  intros H. revert s. induction H as [|c l Hc Hl IH]; intros s; cbn [app p4loop fold_left].
  - destruct s; reflexivity.
  - rewrite p4step_digit by auto. rewrite IH. reflexivity.
Qed.

Lemma accum_val l v : 
  fold_left accum l (Some (u32 v)) =
  Some (u32 (fold_left (fun v c => 10 * v + (c - 48)) l v)).
Proof.
  revert v; induction l as [|c l IH]; intros v; simpl; auto.
  unfold accum at 2. rewrite <- IH. f_equal. f_equal. unfold u32.
  rewrite Z.mul_mod_idemp_l by lia. rewrite Z.add_mod_idemp_l by lia. f_equal. lia.
Qed.

Lemma accum_digits l : fold_left accum l None =
  match l with [] => None | _ => Some (u32 (dec_val l)) end.
Proof.
  destruct l as [|c l]; auto.
  change (fold_left accum (c :: l) None) with (fold_left accum (c :: l) (Some (u32 0))).
  rewrite accum_val. reflexivity.
Qed.

Lemma u16_u32 x : u16 (u32 x) = x mod 65536.
Proof.
  unfold u16, u32. rewrite <- Znumtheory.Zmod_div_mod; try lia.
  exists 65536. reflexivity.
Qed.

Lemma store_part f n l : (forall n v, f n v = f n v) ->
  store f n (fold_left accum l None) =
  match l with [] => n | _ => f n (dec_val l mod 65536) end.
Proof.
  intros _. rewrite accum_digits. destruct l; auto. simpl. rewrite u16_u32. reflexivity.
Qed.

Lemma p4_colon s r : gotzone s = false -> gotnet s = false -> gotnode s = false ->
  p4loop s (58 :: r) = p4loop (PS (store set_zone (p_node s) (val s)) true false false None) r.
Proof. intros H1 H2 H3. simpl. unfold p4step. simpl. rewrite H1, H2, H3. reflexivity. Qed.
Lemma p4_slash s r : gotnet s = false -> gotnode s = false ->
  p4loop s (47 :: r) = p4loop (PS (store set_net (p_node s) (val s)) (gotzone s) true false None) r.
Proof. intros H2 H3. simpl. unfold p4step. simpl. rewrite H2, H3. reflexivity. Qed.
Lemma p4_dot s r : gotnode s = false ->
  p4loop s (46 :: r) = p4loop (PS (store set_node (p_node s) (val s)) (gotzone s) (gotnet s) true None) r.
Proof. intros H3. simpl. unfold p4step. simpl. rewrite H3. reflexivity. Qed.

Lemma p4_end s l : Forall digit l ->
  p4loop s l = Some (PS (p_node s) (gotzone s) (gotnet s) (gotnode s) (fold_left accum l (val s))).
Proof. intros. rewrite <- (app_nil_r l) at 1. rewrite p4loop_digits by auto. reflexivity. Qed.

Lemma parse_render t tpl : addrtext_ok t ->
  Parse4DTemplate (render t) tpl = Some (denote t tpl).
Proof.
  destruct t as [tz tn tf tp]. unfold addrtext_ok, render, denote, Parse4DTemplate; simpl.
  intros (Hz & Hn & Hf & Hp). destruct tpl as [z0 n0 f0 p0].
  destruct tz as [z|], tn as [n|], tp as [p|]; simpl in *; rewrite <- ?app_assoc; cbn [app];
    repeat (first [ rewrite p4loop_digits by assumption | rewrite p4_colon by reflexivity
      | rewrite p4_slash by reflexivity | rewrite p4_dot by reflexivity
      | rewrite p4_end by assumption | rewrite app_nil_r ]; cbn [val p_node gotzone gotnet gotnode]);
    cbn [p4loop];
    unfold p4finish; cbn [val p_node gotzone gotnet gotnode andb negb];
    rewrite !store_part by reflexivity;
    unfold part; 
    repeat match goal with |- context [match ?l with [] => _ | _ :: _ => _ end] => destruct l end;
    reflexivity.
Qed.

Local Ltac fin := simpl; repeat split; intros; simpl in *; try tauto; try congruence; intuition congruence.
(** Conversely every accepted text has that form. *)
Lemma p4loop_inv buf s s' : p4loop s buf = Some s' ->
  exists t, addrtext_ok t /\ buf = render t /\
    (t_zone t <> None -> gotzone s = false /\ gotnet s = false /\ gotnode s = false) /\
    (t_net t <> None -> gotnet s = false /\ gotnode s = false) /\
    (t_point t <> None -> gotnode s = false).
Proof.
  revert s. induction buf as [|c buf IH]; intros s H.
  - exists (AT None None [] None). split; [repeat split; constructor|]. simpl.
    split; [reflexivity|]. repeat split; congruence.
  - cbn [p4loop] in H. destruct (p4step s c) as [s1|] eqn:Es; [|discriminate].
    specialize (IH _ H). destruct IH as (t & Ht & Hb & Hz & Hn & Hp). clear H.
    unfold p4step in Es. destruct t as [tz tn tf tp]. simpl in *.
    destruct Ht as (Oz & On & Of & Op). simpl in Oz, On, Of, Op.
    destruct (Z.eqb_spec c 58) as [->|].
    { destruct (gotzone s) eqn:Gz; [discriminate|]. destruct (gotnet s) eqn:Gn; [discriminate|].
      destruct (gotnode s) eqn:Gf; [discriminate|]. inversion Es; subst; clear Es. simpl in *.
      destruct tz; [destruct Hz; congruence|].
      exists (AT (Some []) tn tf tp). split; [repeat split; auto; constructor|].
      split; [reflexivity|]. fin. }
    destruct (Z.eqb_spec c 47) as [->|].
    { destruct (gotnet s) eqn:Gn; [discriminate|].
      destruct (gotnode s) eqn:Gf; [discriminate|]. inversion Es; subst; clear Es. simpl in *.
      destruct tz; [destruct Hz as (?&?&?); congruence|].
      destruct tn; [destruct Hn; congruence|].
      exists (AT None (Some []) tf tp). split; [repeat split; auto; constructor|].
      split; [reflexivity|]. fin. }
    destruct (Z.eqb_spec c 46) as [->|].
    { destruct (gotnode s) eqn:Gf; [discriminate|]. inversion Es; subst; clear Es. simpl in *.
      destruct tz; [destruct Hz as (?&?&?); congruence|].
      destruct tn; [destruct Hn; congruence|].
      destruct tp; [specialize (Hp ltac:(congruence)); congruence|].
      exists (AT None None [] (Some tf)). split; [repeat split; auto; constructor|].
      unfold render; simpl. rewrite app_nil_r.
      split; [reflexivity|]. fin. }
    destruct (isdigit c) eqn:Ed; [|discriminate]. inversion Es; subst; clear Es. simpl in *.
    apply isdigit_spec in Ed.
    destruct tz as [z|].
    { exists (AT (Some (c :: z)) tn tf tp). split; [repeat split; auto; constructor; auto|].
      split; [reflexivity|]. fin. }
    destruct tn as [n'|].
    { exists (AT None (Some (c :: n')) tf tp). split; [repeat split; auto; constructor; auto|].
      split; [reflexivity|]. fin. }
    exists (AT None None (c :: tf) tp). split; [repeat split; auto; constructor; auto|].
    split; [reflexivity|]. fin.
Qed.

Lemma parse_iff buf tpl n :
  Parse4DTemplate buf tpl = Some n <->
  exists t, addrtext_ok t /\ buf = render t /\ n = denote t tpl.
Proof.
  split.
  - intros H. unfold Parse4DTemplate in H.
    destruct (p4loop _ buf) as [s|] eqn:E; [|discriminate].
    pose proof E as E'. apply p4loop_inv in E as (t & Ht & Hb & _).
    exists t. split; [exact Ht|]. split; [exact Hb|].
    pose proof (parse_render t tpl Ht) as Hr. rewrite <- Hb in Hr. unfold Parse4DTemplate in Hr.
    rewrite E' in Hr. congruence.
  - intros (t & Ht & -> & ->). apply parse_render; auto.
Qed.

Lemma part_valid l d : is_u16 d -> is_u16 (part l d).
Proof. unfold part. destruct l; auto. intros _. unfold is_u16. apply Z.mod_pos_bound. lia. Qed.

Lemma denote_valid t tpl : valid4d tpl -> valid4d (denote t tpl).
Proof.
  intros (H1 & H2 & H3 & H4). unfold denote, opart.
  destruct t as [[z|] [n|] f [p|]]; unfold valid4d; simpl;
    (split; [|split; [|split]]); auto using part_valid.
Qed.

Lemma parse_valid buf tpl n : valid4d tpl -> Parse4DTemplate buf tpl = Some n -> valid4d n.
Proof. intros Hv H. apply parse_iff in H as (t & _ & _ & ->). apply denote_valid; auto. Qed.

Lemma part_dec v d : is_u16 v -> part (dec v) d = v.
Proof.
  intros H. unfold part. pose proof (dec_nonempty v ltac:(unfold is_u16 in H; lia)).
  destruct (dec v) eqn:E; [contradiction|]. rewrite <- E. rewrite dec_val_dec by (unfold is_u16 in H; lia).
  apply u16_id; auto.
Qed.

Lemma write_parse n tpl : valid4d n -> Parse4DTemplate (WriteNode4D n) tpl = Some n.
Proof.
  intros (H1 & H2 & H3 & H4).
  assert (E : WriteNode4D n = render (AT (Some (dec (zone n))) (Some (dec (net n))) (dec (node n)) (Some (dec (point n))))).
  { unfold WriteNode4D, render, lit; simpl. rewrite <- !app_assoc. reflexivity. }
  rewrite E, parse_render.
  - unfold denote; simpl. rewrite !part_dec by auto. destruct n; reflexivity.
  - unfold is_u16 in *. repeat split; simpl; apply dec_digits; lia.
Qed.

Lemma print_parse_tpl n tpl : valid4d n ->
  Parse4DTemplate (Print4D n) tpl =
  Some (N4 (zone n) (net n) (node n) (if point n =? 0 then point tpl else point n)).
Proof.
  intros Hv. pose proof Hv as (H1 & H2 & H3 & H4). unfold Print4D.
  destruct (Z.eqb_spec (point n) 0) as [E|E]; cbn [negb].
  - assert (E' : dec (zone n) ++ lit ":" ++ dec (net n) ++ lit "/" ++ dec (node n) =
      render (AT (Some (dec (zone n))) (Some (dec (net n))) (dec (node n)) None)).
    { unfold render, lit; simpl. rewrite <- !app_assoc, app_nil_r. reflexivity. }
    rewrite E', parse_render.
    + unfold denote; simpl. rewrite !part_dec by auto. reflexivity.
    + unfold is_u16 in *. repeat split; simpl; try apply dec_digits; auto; lia.
  - etransitivity; [apply (write_parse n tpl Hv)|]. destruct n; reflexivity.
Qed.

Lemma print_parse n : valid4d n -> Parse4D (Print4D n) = Some n.
Proof.
  intros Hv. unfold Parse4D. rewrite print_parse_tpl by auto. simpl.
  destruct (Z.eqb_spec (point n) 0) as [E|E]; destruct n; simpl in *; congruence.
Qed.

(** Compare4D *)
Lemma compare_cases a b :
  zone a <> 0 -> zone b <> 0 ->
  (Compare4D a b = 0 <-> a = b) /\ (Compare4D a b = -1 <-> lt4d a b) /\ (Compare4D a b = 1 <-> lt4d b a).
Proof.
  intros Ha Hb. unfold Compare4D, lt4d.
  destruct a as [az an af ap], b as [bz bn bf bp]; simpl in *.
  destruct (Z.eqb_spec az 0); [lia|]. destruct (Z.eqb_spec bz 0); [lia|]. simpl.
  assert (E : N4 az an af ap = N4 bz bn bf bp <-> az = bz /\ an = bn /\ af = bf /\ ap = bp).
  { split; [intros H; inversion H; auto | intros (->&->&->&->); reflexivity]. }
  rewrite E. clear E.
  repeat match goal with
  | |- context [?x >? ?y] => destruct (Z.gtb_spec x y)
  | |- context [?x <? ?y] => destruct (Z.ltb_spec x y)
  end; lia.
Qed.

Lemma compare_range a b : Compare4D a b = -1 \/ Compare4D a b = 0 \/ Compare4D a b = 1.
Proof.
  unfold Compare4D.
  repeat match goal with |- context [if ?b then _ else _] => destruct b end; auto.
Qed.

Lemma compare_antisym a b : Compare4D a b = - Compare4D b a.
Proof.
  unfold Compare4D. rewrite (andb_comm (negb (zone b =? 0))).
  destruct (negb (zone a =? 0) && negb (zone b =? 0));
  repeat match goal with
  | |- context [?x >? ?y] => destruct (Z.gtb_spec x y)
  | |- context [?x <? ?y] => destruct (Z.ltb_spec x y)
  end; lia.
Qed.

Lemma compare_zero_iff a b :
  Compare4D a b = 0 <->
  net a = net b /\ node a = node b /\ point a = point b /\
  (zone a = zone b \/ zone a = 0 \/ zone b = 0).
Proof.
  unfold Compare4D.
  destruct (Z.eqb_spec (zone a) 0), (Z.eqb_spec (zone b) 0); simpl;
  repeat match goal with
  | |- context [?x >? ?y] => destruct (Z.gtb_spec x y)
  | |- context [?x <? ?y] => destruct (Z.ltb_spec x y)
  end; lia.
Qed.

Lemma lt4d_trans a b c : lt4d a b -> lt4d b c -> lt4d a c.
Proof. unfold lt4d. lia. Qed.
Lemma lt4d_irrefl a : ~ lt4d a a.
Proof. unfold lt4d. lia. Qed.
Lemma lt4d_total a b : lt4d a b \/ a = b \/ lt4d b a.
Proof.
  destruct a as [az an af ap], b as [bz bn bf bp]. unfold lt4d; simpl.
  destruct (Z.lt_trichotomy az bz) as [|[->|]]; try lia.
  destruct (Z.lt_trichotomy an bn) as [|[->|]]; try lia.
  destruct (Z.lt_trichotomy af bf) as [|[->|]]; try lia.
  destruct (Z.lt_trichotomy ap bp) as [|[->|]]; try lia. auto.
Qed.
