(** Lemmas about echomail processing. *)
From Coq Require Import Sorting.Permutation.
From Verif Require Import Base M_Node4D S_Node4D P_Node4D M_Pat S_Pat P_Pat M_Str S_Str P_Str M_Mem S_Mem P_Mem M_Cfg M_Pkt S_Pkt P_Pkt M_Dupe M_Echo S_Echo.

Lemma streqi_refl s : streqi s s = true.
Proof. unfold streqi. apply streq_eq. reflexivity. Qed.
Lemma sameaddrb_spec a b : sameaddrb a b = true <-> sameaddr a b.
Proof. unfold sameaddrb, sameaddr. rewrite !andb_true_iff, !orb_true_iff, !Z.eqb_eq. tauto. Qed.
Lemma compare_same a b : (Compare4D a b =? 0) = sameaddrb a b.
Proof.
  apply eq_true_iff_eq. rewrite Z.eqb_eq, compare_zero_iff, sameaddrb_spec. unfold sameaddr. tauto.
Qed.
Lemma area_of_find areas tag a : area_of areas tag a <-> find (fun a => streqi (ar_tag a) tag) areas = Some a.
Proof.
  split.
  - intros (pre & post & -> & H & Hp). induction Hp as [|x pre Hx Hp IH]; cbn [app find]; [rewrite H; auto|]. rewrite Hx. auto.
  - induction areas as [|x areas IH]; cbn [find]; [discriminate|]. destruct (streqi (ar_tag x) tag) eqn:E.
    + intros H. injection H as <-. exists [], areas. repeat split; auto.
    + intros H. destruct (IH H) as (pre & post & -> & H1 & H2). exists (x :: pre), post. repeat split; auto.
Qed.
Lemma no_area_find areas tag : no_area areas tag <-> find (fun a => streqi (ar_tag a) tag) areas = None.
Proof.
  unfold no_area. induction areas as [|x areas IH]; cbn [find]; [split; auto|]. destruct (streqi (ar_tag x) tag) eqn:E.
  - split; [|discriminate]. intros H. inversion H. congruence.
  - rewrite <- IH. split; intros H; [inversion H; auto|constructor; auto].
Qed.

(** ** PATH *)
Lemma token_len stop src t rest : token stop src t rest -> (length rest <= length src)%nat /\ (t <> [] -> (length rest < length src)%nat).
Proof. induction 1; cbn [length]; try (split; [lia|intros; try congruence; lia]). Qed.
Lemma token_suffix stop src t rest : token stop src t rest -> exists p, src = p ++ rest.
Proof.
  induction 1 as [|c r Hc|e r t rest H1 H2 H3 (p & ->)|c r t rest H1 H2 H3 (p & ->)].
  - exists []; auto.
  - exists []; auto.
  - exists (92 :: e :: p); auto.
  - exists (c :: p); auto.
Qed.
Lemma jbstrcpy_consumes s n : (2 <= n)%nat -> cstring s -> exists b ok rest, jbstrcpy (repeat 0 n) s n = (Some b, ok, rest) /\ cstring rest /\
  (ok = true -> (length rest < length s)%nat).
Proof.
  intros Hn Hs. destruct (jbstrcpy_spec (repeat 0 n) s n (repeat_length _ _) ltac:(lia) Hs) as (b & t & rest & ret & rest' & E & _ & Hc & Hr).
  exists b, ret, rest'. split; auto. destruct (skipblank_suffix s) as (p & Es & _).
  assert (Hsuf : exists q, s = q ++ rest /\ (ret = true -> (length rest < length s)%nat)).
  { destruct Hc as [(body & Eb & Ht & ->)|(Hb & Ht & ->)].
    - destruct (token_suffix _ _ _ _ Ht) as (q & Eq). exists (p ++ 34 :: q). rewrite Eb in Es. split.
      + rewrite Es, Eq, <- app_assoc. reflexivity.
      + intros _. rewrite Es, app_length, Eq. cbn [length]. rewrite app_length. lia.
    - destruct (token_suffix _ _ _ _ Ht) as (q & Eq). exists (p ++ q). split; [rewrite Es at 1; rewrite Eq at 1; rewrite app_assoc; auto|].
      intros Hx. destruct (token_len _ _ _ _ Ht) as [_ Hl]. destruct t as [|c t]; [cbn in Hx; rewrite Nat.min_0_r in Hx; discriminate|].
      specialize (Hl ltac:(discriminate)). rewrite Es, app_length. lia. }
  destruct Hsuf as (q & Eq & Hl). assert (Hcr : cstring rest) by (rewrite Eq in Hs; eapply cstring_suffix; eauto).
  destruct Hr as [->|(c & ->)]; [auto|]. split; [inversion Hcr; auto|]. intros Hx. specialize (Hl Hx). cbn [length] in Hl. lia.
Qed.
Lemma lastpath_total fuel : forall s ln cur, cstring s -> (length s < fuel)%nat -> exists r, lastpath fuel s ln cur = Some r.
Proof.
  induction fuel as [|f IH]; intros s ln cur Hs Hf; [lia|]. cbn [lastpath].
  destruct (jbstrcpy_consumes s 40 ltac:(lia) Hs) as (b & ok & rest & -> & Hr & Hl). destruct ok; [|eauto]. specialize (Hl eq_refl).
  destruct (Parse4D (cstr b)) as [n|]; [destruct (net n =? 0)|]; apply IH; auto; lia.
Qed.
Lemma AddNodePath_total path n : Forall cstring path -> exists path', AddNodePath path n = Some path'.
Proof.
  intros H. unfold AddNodePath. destruct (rev path) as [|line before] eqn:E; [eauto|].
  assert (Hl : cstring line). { rewrite Forall_forall in H. apply H. apply in_rev. rewrite E. left; auto. }
  destruct (lastpath_total (S (length line)) line 0 None Hl ltac:(lia)) as (r & ->). cbn [obind].
  destruct (match r with Some m => _ | None => false end); [eauto|].
  set (buf := match r with Some m => if net m =? net n then _ else _ | None => _ end). destruct (Nat.leb_spec (length buf + length line) 70) as [Hb|Hb]; [|eauto].
  rewrite obind_scat; [eauto|]. rewrite app_length. cbn [length lit map]. change (length (lit " ")) with 1%nat. lia.
Qed.

Definition n4p (x : paddr) (z : Z) : node4d := let '(n, f, p) := x in N4 z n f p.
Lemma lastpath_blank f s ln cur : lastpath (S f) (32 :: s) ln cur = lastpath (S f) s ln cur.
Proof.
  cbn [lastpath]. pose proof (jbstrcpy_blanks (repeat 0 40) [32] s 40 ltac:(constructor; auto)) as E. cbn [app] in E. rewrite E. reflexivity.
Qed.
Definition pw_char (c : Z) : Prop := digit c \/ c = 47 \/ c = 46.
Lemma jbword w rest : w <> [] -> Forall pw_char w -> (length w <= 39)%nat -> cstring rest -> (rest = [] \/ exists r, rest = 32 :: r) ->
  exists b rest', jbstrcpy (repeat 0 40) (w ++ rest) 40 = (Some b, true, rest') /\ cstr b = w /\ (rest' = rest \/ exists c, rest = c :: rest').
Proof.
  intros Hne Hw Hl Hcr Hr.
  assert (Hc : cstring w). { eapply Forall_impl; [|exact Hw]. unfold pw_char, digit, cstring; cbv beta; intros; lia. }
  destruct (jbstrcpy_spec (repeat 0 40) (w ++ rest) 40 (repeat_length _ _) ltac:(lia)) as (b & t & rst & ret & rest' & E & Hh & Hcase & Hrr).
  { apply cstring_app; auto. }
  assert (Esk : skipblank (w ++ rest) = w ++ rest).
  { destruct w as [|c w]; [contradiction|]. cbn [app skipblank]. inversion Hw as [|? ? H1 _]; subst. unfold pw_char, digit in H1.
    destruct ((c =? 32) || (c =? 9)) eqn:Ex; auto. lia. }
  rewrite Esk in Hcase.
  assert (Ht : token stop_plain (w ++ rest) w rest).
  { apply token_word; auto.
    - eapply Forall_impl; [|exact Hw]. unfold pw_char, digit; cbv beta; intros; lia.
    - destruct Hr as [->|(r & ->)]; auto. right. exists 32, r. unfold stop_plain. auto. }
  destruct Hcase as [(body & Eb & _)|(_ & Ht' & ->)].
  - destruct w as [|c w]; [contradiction|]. cbn [app] in Eb. injection Eb as Ec _. inversion Hw as [|? ? H1 _]; subst. unfold pw_char, digit in H1. lia.
  - destruct (token_fun _ _ _ _ _ _ Ht Ht') as [<- <-]. exists b, rest'. rewrite E. destruct Hh as (_ & _ & Hb).
    rewrite firstn_all2 in Hb by lia. split; [|split; auto]. do 2 f_equal. destruct w; [contradiction|]. reflexivity.
Qed.
Lemma ptext_chars p : is_u16 p -> Forall pw_char (ptext p) /\ (length (ptext p) <= 6)%nat.
Proof.
  intros H. unfold ptext. destruct (p =? 0); [split; [constructor|cbn; lia]|]. pose proof (dec_length_u16 p H). split.
  - litc. constructor; [unfold pw_char; auto|]. unfold is_u16 in H. eapply Forall_impl; [|apply dec_digits; lia]. unfold pw_char; auto.
  - litc. cbn [length app]. lia.
Qed.
Lemma dec_chars z : 0 <= z -> Forall pw_char (dec z).
Proof. intros H. eapply Forall_impl; [|apply dec_digits; auto]. unfold pw_char; auto. Qed.
Lemma parse_short f p : is_u16 f -> is_u16 p -> Parse4D (dec f ++ ptext p) = Some (N4 0 0 f p).
Proof.
  intros Hf Hp. unfold Parse4D. pose proof (dec_digits f ltac:(unfold is_u16 in Hf; lia)) as Df. pose proof (dec_digits p ltac:(unfold is_u16 in Hp; lia)) as Dp.
  unfold ptext. destruct (Z.eqb_spec p 0) as [->|Hp0].
  - pose proof (parse_render (AT None None (dec f) None) (N4 0 0 0 0)) as E. unfold render in E. cbn [t_zone t_net t_node t_point app] in E.
    rewrite E; [|unfold addrtext_ok, opt_all; cbn; auto]. unfold denote. cbn -[dec part]. rewrite part_dec by auto. reflexivity.
  - pose proof (parse_render (AT None None (dec f) (Some (dec p))) (N4 0 0 0 0)) as E. unfold render in E. cbn [t_zone t_net t_node t_point app] in E.
    change (lit "." ++ dec p) with (46 :: dec p). rewrite E; [|unfold addrtext_ok, opt_all; cbn; auto]. unfold denote. cbn -[dec part]. rewrite !part_dec by auto. reflexivity.
Qed.
Lemma parse_full n f p : is_u16 n -> is_u16 f -> is_u16 p -> Parse4D (dec n ++ lit "/" ++ dec f ++ ptext p) = Some (N4 0 n f p).
Proof.
  intros Hn Hf Hp. unfold Parse4D. pose proof (dec_digits f ltac:(unfold is_u16 in Hf; lia)) as Df. pose proof (dec_digits p ltac:(unfold is_u16 in Hp; lia)) as Dp.
  pose proof (dec_digits n ltac:(unfold is_u16 in Hn; lia)) as Dn.
  unfold ptext. destruct (Z.eqb_spec p 0) as [->|Hp0].
  - pose proof (parse_render (AT None (Some (dec n)) (dec f) None) (N4 0 0 0 0)) as E. unfold render in E. cbn [t_zone t_net t_node t_point app] in E.
    rewrite <- app_assoc in E. change (lit "/") with [47]. rewrite E; [|unfold addrtext_ok, opt_all; cbn; auto]. unfold denote. cbn -[dec part]. rewrite !part_dec by auto. reflexivity.
  - pose proof (parse_render (AT None (Some (dec n)) (dec f) (Some (dec p))) (N4 0 0 0 0)) as E. unfold render in E. cbn [t_zone t_net t_node t_point app] in E.
    rewrite <- app_assoc in E. change (lit "/") with [47]. change (lit "." ++ dec p) with (46 :: dec p). rewrite E; [|unfold addrtext_ok, opt_all; cbn; auto]. unfold denote. cbn -[dec part]. rewrite !part_dec by auto. reflexivity.
Qed.
Lemma paddr_cons n f p r : Forall paddr_ok ((n, f, p) :: r) -> 1 <= n < 65536 /\ is_u16 f /\ is_u16 p /\ Forall paddr_ok r.
Proof. intros H. inversion H as [|? ? H1 H2]; subst. destruct H1 as (H1 & H3 & H4). auto. Qed.
Lemma pathseq_word last es ts : pathseq last es ts -> Forall paddr_ok es -> Forall (fun t => t <> [] /\ Forall pw_char t /\ (length t <= 39)%nat) ts.
Proof.
  induction 1 as [|n f p r ts H IH|last n f p r ts H IH]; intros Hok; [constructor| |].
  - apply paddr_cons in Hok as (H1 & H2 & H3 & H4). constructor; auto.
    destruct (ptext_chars p H3) as [Hc Hl]. pose proof (dec_length_u16 f H2) as H0. repeat split.
    + intros E. apply app_eq_nil in E as [E _]. rewrite E in H0. cbn in H0. lia.
    + apply Forall_app; split; auto. apply dec_chars. unfold is_u16 in H2. lia.
    + rewrite app_length. lia.
  - apply paddr_cons in Hok as (H1 & H2 & H3 & H4). constructor; auto.
    destruct (ptext_chars p H3) as [Hc Hl]. pose proof (dec_length_u16 f H2) as H0. pose proof (dec_length_u16 n ltac:(unfold is_u16; lia)) as H5. repeat split.
    + intros E. apply app_eq_nil in E as [E _]. rewrite E in H5. cbn in H5. lia.
    + apply Forall_app; split; [apply dec_chars; lia|]. litc. constructor; [unfold pw_char; auto|]. apply Forall_app; split; auto. apply dec_chars. unfold is_u16 in H2. lia.
    + litc. cbn [app]. rewrite app_length. cbn [length]. rewrite app_length. lia.
Qed.
Lemma words_cons t ts : words (t :: ts) = t ++ match ts with [] => [] | _ => 32 :: words ts end.
Proof. cbn [words]. destruct ts; [rewrite app_nil_r|]; reflexivity. Qed.
Lemma words_chars ts : Forall (fun t => t <> [] /\ Forall pw_char t /\ (length t <= 39)%nat) ts -> cstring (words ts).
Proof.
  induction 1 as [|t ts (_ & H & _) _ IH]; [constructor|]. rewrite words_cons. apply cstring_app. split.
  - eapply Forall_impl; [|exact H]. unfold pw_char, digit; cbv beta; intros; lia.
  - destruct ts; [constructor|]. constructor; [lia|exact IH].
Qed.
(** the last address of a well formed line *)
Lemma lastpath_seq last es ts : pathseq last es ts -> Forall paddr_ok es -> forall fuel cur, (length (words ts) < fuel)%nat ->
  lastpath fuel (words ts) last cur = Some (match rev es with [] => cur | x :: _ => Some (n4p x 0) end).
Proof.
  intros Hs Hok. pose proof (pathseq_word _ _ _ Hs Hok) as Hw. revert Hok Hw.
  assert (Hstep : forall t ts fuel ln cur n, t <> [] -> Forall pw_char t -> (length t <= 39)%nat ->
    Forall (fun t => t <> [] /\ Forall pw_char t /\ (length t <= 39)%nat) ts -> (length (words (t :: ts)) < fuel)%nat -> Parse4D t = Some n ->
    exists f', (length (words ts) < S f')%nat /\ lastpath fuel (words (t :: ts)) ln cur =
      if net n =? 0 then lastpath (S f') (words ts) ln (Some (set_net n ln)) else lastpath (S f') (words ts) (net n) (Some n)).
  { clear. intros t ts fuel ln cur n Hne Hc Hl Hts Hf Hp. rewrite words_cons in *. set (rest := match ts with [] => [] | _ => 32 :: words ts end) in *.
    destruct fuel as [|f]; [lia|].
    assert (Hcr : cstring rest). { unfold rest. destruct ts; [constructor|]. constructor; [lia|]. apply words_chars; auto. }
    destruct (jbword t rest Hne Hc Hl Hcr) as (b & rest' & E & Eb & Hr).
    { unfold rest. destruct ts; eauto. }
    rewrite app_length in Hf. destruct f as [|f]; [destruct t; [contradiction|cbn [length] in Hf; lia]|].
    exists f. split; [unfold rest in Hf; destruct ts; [cbn; lia|]; cbn [length] in Hf; destruct t; [contradiction|]; cbn [length] in Hf; lia|].
    assert (Hrest : forall ln cur, lastpath (S f) rest' ln cur = lastpath (S f) (words ts) ln cur).
    { intros ln' cur'. unfold rest in Hr. destruct ts as [|t' ts].
      - destruct Hr as [->|(c & Hx)]; [reflexivity|discriminate].
      - destruct Hr as [->|(c & Hx)]; [apply lastpath_blank|]. assert (Hx2 : words (t' :: ts) = rest') by congruence. rewrite Hx2. reflexivity. }
    rewrite <- !Hrest. change (lastpath (S (S f)) (t ++ rest) ln cur) with
      (match jbstrcpy (repeat 0 40) (t ++ rest) 40 with
       | (None, _, _) => None
       | (Some b, false, _) => Some cur
       | (Some b, true, rest) =>
         match Parse4D (cstr b) with
         | Some n => if net n =? 0 then lastpath (S f) rest ln (Some (set_net n ln)) else lastpath (S f) rest (net n) (Some n)
         | None => lastpath (S f) rest ln None
         end
       end). rewrite E, Eb, Hp. reflexivity. }
  induction Hs as [last|n f p r ts Hs IH|last n f p r ts Hs IH]; intros Hok Hw fuel cur Hf.
  - destruct fuel; [cbn in Hf; lia|]. reflexivity.
  - apply paddr_cons in Hok as (H1 & H2 & H3 & H4). inversion Hw as [|? ? (W1 & W2 & W3) W4]; subst.
    destruct (Hstep _ ts fuel n cur _ W1 W2 W3 W4 Hf (parse_short f p H2 H3)) as (f' & Hf' & ->). cbn [net]. change (0 =? 0) with true. cbv iota.
    rewrite IH; auto. cbn [rev]. destruct (rev r); reflexivity.
  - apply paddr_cons in Hok as (H1 & H2 & H3 & H4). inversion Hw as [|? ? (W1 & W2 & W3) W4]; subst.
    destruct (Hstep (dec n ++ lit "/" ++ dec f ++ ptext p) ts fuel last cur _ W1 W2 W3 W4 Hf (parse_full n f p ltac:(unfold is_u16; lia) H2 H3)) as (f' & Hf' & ->). cbn [net].
    destruct (Z.eqb_spec n 0); [lia|]. rewrite IH; auto. cbn [rev]. destruct (rev r); reflexivity.
Qed.
Lemma pathseq_snoc_full last es ts n f p : pathseq last es ts -> pathseq last (es ++ [(n, f, p)]) (ts ++ [dec n ++ lit "/" ++ dec f ++ ptext p]).
Proof. induction 1; cbn [app]; repeat constructor; auto. Qed.
Lemma pathseq_snoc_short last es ts f p : pathseq last es ts -> forall es0 m g q, es = es0 ++ [(m, g, q)] -> pathseq last (es ++ [(m, f, p)]) (ts ++ [dec f ++ ptext p]).
Proof.
  induction 1 as [|n f0 p0 r ts H IH|last n f0 p0 r ts H IH]; intros es0 m g q E; [destruct es0; discriminate| |]; destruct es0 as [|x es0];
    try (cbn [app] in E; injection E as <- <- <- ->; inversion H; subst; cbn [app]; repeat constructor);
    cbn [app] in E; injection E as <- ->; cbn [app]; constructor; eapply IH; reflexivity.
Qed.
Lemma words_snoc ts t : ts <> [] -> words (ts ++ [t]) = words ts ++ lit " " ++ t.
Proof.
  induction ts as [|a ts IH]; [contradiction|]. intros _. cbn [app]. rewrite !words_cons. destruct ts as [|b ts]; [rewrite app_nil_r; reflexivity|].
  change ((b :: ts) ++ [t]) with (b :: (ts ++ [t])) in *. rewrite <- app_assoc. f_equal. rewrite IH by discriminate. reflexivity.
Qed.
Lemma ptstr_ptext n : ptstr n = ptext (point n). Proof. reflexivity. Qed.
Lemma Forall2_rev {A B} (R : A -> B -> Prop) l m : Forall2 R l m -> Forall2 R (rev l) (rev m).
Proof. induction 1; cbn [rev]; [constructor|]. apply Forall2_app; auto. Qed.
Lemma pathseq_nonempty last es ts : pathseq last es ts -> ts <> [] -> es <> [].
Proof. destruct 1; congruence. Qed.
Definition paddr_eqb (a b : paddr) : bool := let '(n, f, p) := a in let '(n', f', p') := b in (n =? n') && (f =? f') && (p =? p').
Lemma paddr_eqb_eq a b : paddr_eqb a b = true <-> a = b.
Proof.
  destruct a as [[n f] p], b as [[n' f'] p']. unfold paddr_eqb. rewrite !andb_true_iff, !Z.eqb_eq. split; [intros [[-> ->] ->]; auto|].
  intros E. injection E as -> -> ->. auto.
Qed.
(** appending to a PATH *)
Lemma AddNodePath_spec path ass own : Forall2 pathline path ass -> Forall paddr_ok (concat ass) -> paddr_ok (own_paddr own) ->
  exists path' ass', AddNodePath path own = Some path' /\ Forall2 pathline path' ass' /\
    concat ass' = (if existsb (paddr_eqb (own_paddr own)) (firstn 1 (rev (concat ass))) then concat ass else concat ass ++ [own_paddr own]) /\
    (Forall (fun l => (length l <= 78)%nat) path -> Forall (fun l => (length l <= 78)%nat) path').
Proof.
  intros H2 Hok Hown. set (full := dec (net own) ++ lit "/" ++ dec (node own) ++ ptstr own).
  assert (Hfull : pathline full [own_paddr own]). { exists [full]. repeat split; [|discriminate]. apply ps_full. constructor. }
  assert (Hfl : (length full <= 78)%nat).
  { destruct Hown as (H1 & H3 & H4). unfold full. pose proof (dec_length_u16 _ H3) as D1. pose proof (dec_length_u16 (net own) ltac:(unfold is_u16; lia)) as D2.
    pose proof (proj2 (ptext_chars _ H4)) as D3. litc. rewrite !app_length. rewrite ?ptstr_ptext. cbn [length]. lia. }
  unfold AddNodePath. fold full. pose proof (Forall2_rev _ _ _ H2) as Hr. destruct (rev path) as [|line before] eqn:Er.
  - apply (f_equal (@rev _)) in Er. rewrite rev_involutive in Er. cbn in Er. subst path. inversion H2; subst. exists [full], [[own_paddr own]].
    repeat split; auto.
  - assert (Ep : path = rev before ++ [line]). { apply (f_equal (@rev _)) in Er. rewrite rev_involutive in Er. exact Er. }
    inversion Hr as [|? es ? rass Hl Hb E1 E2]; subst. assert (Ea : ass = rev rass ++ [es]). { apply (f_equal (@rev _)) in E2. rewrite rev_involutive in E2. auto. }
    subst ass. rewrite concat_app in Hok. cbn [concat] in Hok. rewrite app_nil_r in Hok. apply Forall_app in Hok as [Hok1 Hok2].
    destruct Hl as (ts & Hts & El & Hne). subst line.
    assert (Hlast : exists es0 x, es = es0 ++ [x]). { pose proof (pathseq_nonempty _ _ _ Hts Hne). exists (removelast es), (last es (0, 0, 0)). apply app_removelast_last; auto. }
    destruct Hlast as (es0 & x & ->).
    rewrite (lastpath_seq _ _ _ Hts Hok2) by lia. cbn [obind]. rewrite rev_app_distr. cbn [rev app].
    rewrite !concat_app. cbn [concat]. rewrite app_nil_r. rewrite !rev_app_distr. cbn [rev app firstn existsb]. rewrite orb_false_r.
    destruct x as [[m g] q]. cbn [n4p net node point].
    assert (Es : (m =? net own) && (g =? node own) && (q =? point own) = paddr_eqb (own_paddr own) (m, g, q)).
    { unfold paddr_eqb, own_paddr. rewrite !(Z.eqb_sym m), !(Z.eqb_sym g), !(Z.eqb_sym q). reflexivity. }
    rewrite Es. destruct (paddr_eqb (own_paddr own) (m, g, q)) eqn:Eeq.
    + exists (rev before ++ [words ts]), (rev rass ++ [es0 ++ [(m, g, q)]]). repeat split; auto. rewrite concat_app. cbn [concat]. rewrite app_nil_r. reflexivity.
    + set (w := if m =? net own then dec (node own) ++ ptstr own else full).
      assert (Hw : pathseq 0 ((es0 ++ [(m, g, q)]) ++ [own_paddr own]) (ts ++ [w])).
      { unfold w. destruct (Z.eqb_spec m (net own)) as [->|_].
        - unfold own_paddr. eapply pathseq_snoc_short; eauto.
        - apply pathseq_snoc_full; auto. }
      destruct (Nat.leb_spec (length w + length (words ts)) 70) as [Hle|Hgt].
      * rewrite obind_scat; [|litc; cbn [length app]; lia].
        exists (rev before ++ [words ts ++ lit " " ++ w]), (rev rass ++ [(es0 ++ [(m, g, q)]) ++ [own_paddr own]]). split; [reflexivity|]. split; [|split].
        -- apply Forall2_app; [rewrite <- (rev_involutive rass); apply Forall2_rev; rewrite rev_involutive; auto|]. constructor; [|constructor].
           exists (ts ++ [w]). split; auto. split; [symmetry; apply words_snoc; auto|destruct ts; discriminate].
        -- rewrite concat_app. cbn [concat]. rewrite app_nil_r, !app_assoc. reflexivity.
        -- intros Hf. apply Forall_app in Hf as [Hf1 Hf2]. apply Forall_app; split; auto. constructor; [|constructor]. rewrite !app_length. change (length (lit " ")) with 1%nat. lia.
      * exists ((rev before ++ [words ts]) ++ [full]), ((rev rass ++ [es0 ++ [(m, g, q)]]) ++ [[own_paddr own]]). split; [reflexivity|]. split; [|split].
        -- apply Forall2_app; auto.
        -- rewrite !concat_app. cbn [concat]. rewrite !app_nil_r, !app_assoc. reflexivity.
        -- intros Hf. apply Forall_app; split; auto.
Qed.

(** ** SEEN-BY *)
Definition sblinks (cfg : ecfg) (a : area) : list tossnode :=
  filter (fun t => (point (tnnode cfg t) =? 0) && (zone (ak_node (ar_aka a)) =? zone (tnnode cfg t)) &&
         negb (flag (cn_flags (getcn cfg (tn_node t))) NODE_PASSIVE) && negb (flag (tn_flags t) TOSSNODE_WRITEONLY)) (ar_tn a).
Definition sbops (cfg : ecfg) (a : area) : list sbop :=
  map (fun t => SbAdd (net (tnnode cfg t)) (node (tnnode cfg t))) (sblinks cfg a) ++ map SbRemPat (ak_rem (ar_aka a)) ++
  map (fun n => SbAdd (net n) (node n)) (ak_add (ar_aka a)) ++
  (if point (ak_node (ar_aka a)) =? 0 then [SbAdd (net (ak_node (ar_aka a))) (node (ak_node (ar_aka a)))] else []).
Lemma newseenby_ops cfg a mm sb : newseenby cfg a mm sb = fold_left sbstep (sbops cfg a) sb.
Proof.
  unfold newseenby, sbops. rewrite !fold_left_app.
  assert (E1 : forall l sb, fold_left (fun sb t =>
      if (point (tnnode cfg t) =? 0) && (zone (ak_node (ar_aka a)) =? zone (tnnode cfg t)) &&
         negb (flag (cn_flags (getcn cfg (tn_node t))) NODE_PASSIVE) && negb (flag (tn_flags t) TOSSNODE_WRITEONLY)
      then mmAddNodes2DList sb (net (tnnode cfg t)) (node (tnnode cfg t)) else sb) l sb =
    fold_left sbstep (map (fun t => SbAdd (net (tnnode cfg t)) (node (tnnode cfg t))) (filter (fun t => (point (tnnode cfg t) =? 0) && (zone (ak_node (ar_aka a)) =? zone (tnnode cfg t)) &&
         negb (flag (cn_flags (getcn cfg (tn_node t))) NODE_PASSIVE) && negb (flag (tn_flags t) TOSSNODE_WRITEONLY)) l)) sb).
  { induction l as [|t l IH]; intros s; [reflexivity|]. cbn [fold_left filter]. destruct (_ && _); [cbn [map fold_left sbstep]|]; apply IH. }
  unfold addlinks, sblinks. rewrite E1.
  assert (E2 : forall l sb, fold_left mmRemNodes2DListPat l sb = fold_left sbstep (map SbRemPat l) sb).
  { induction l as [|t l IH]; intros s; [reflexivity|]. cbn [fold_left map sbstep]. apply IH. }
  rewrite E2.
  assert (E3 : forall l sb, fold_left (fun sb n => mmAddNodes2DList sb (net n) (node n)) l sb = fold_left sbstep (map (fun n => SbAdd (net n) (node n)) l) sb).
  { induction l as [|t l IH]; intros s; [reflexivity|]. cbn [fold_left map sbstep]. apply IH. }
  rewrite E3. destruct (point (ak_node (ar_aka a)) =? 0); reflexivity.
Qed.
(** as [sbsteps_spec], without the absence of duplicates *)
Lemma sbstep_in o l (s : node2d -> Prop) : sbop_ok o -> pairs_ok (entries l) -> (forall x, x <> (0, 0) -> (In x (entries l) <-> s x)) ->
  (forall x, x <> (0, 0) -> (In x (entries (sbstep l o)) <-> setstep s o x)) /\ pairs_ok (entries (sbstep l o)).
Proof.
  intros Ho Hu Hs. split.
  - intros x Hx. destruct o as [n f|p]; simpl.
    + rewrite add_in, Hs by auto. tauto.
    + rewrite rempat_entries, in_map_iff. rewrite <- Hs by auto. unfold pairs_ok in Hu. rewrite Forall_forall in Hu.
      split.
      * intros (y & Ey & Hy). destruct (Z.eqb_spec (Compare2DPat p (fst y) (snd y)) 0) as [E|E]; [congruence|].
        subst y. split; auto. unfold matches2d. intros Hm. apply E.
        destruct (Hu _ Hy). apply Compare2DPat_spec; auto.
      * intros [Hin Hnm]. exists x. split; auto.
        destruct (Z.eqb_spec (Compare2DPat p (fst x) (snd x)) 0) as [E|E]; auto.
        exfalso. apply Hnm. destruct (Hu _ Hin). apply Compare2DPat_spec in E; auto.
  - destruct o as [n f|p]; simpl.
    + apply Forall_forall. intros x Hx. apply add_in in Hx as [Hx|Hx].
      * unfold pairs_ok in Hu. rewrite Forall_forall in Hu. auto.
      * subst. exact Ho.
    + unfold pairs_ok. rewrite rempat_entries. apply Forall_forall. intros x Hx.
      apply in_map_iff in Hx as (y & Ey & Hy). unfold pairs_ok in Hu. rewrite Forall_forall in Hu.
      destruct (Compare2DPat p (fst y) (snd y) =? 0); subst; auto. unfold is_u16; simpl. lia.
Qed.
Lemma sbsteps_in ops : Forall sbop_ok ops -> forall l (s : node2d -> Prop), pairs_ok (entries l) -> (forall x, x <> (0, 0) -> (In x (entries l) <-> s x)) ->
  (forall x, x <> (0, 0) -> (In x (entries (fold_left sbstep ops l)) <-> fold_left setstep ops s x)) /\ pairs_ok (entries (fold_left sbstep ops l)).
Proof.
  induction 1 as [|o ops Ho Hops IH]; intros l s Hu Hs; cbn [fold_left]; [auto|]. destruct (sbstep_in o l s Ho Hu Hs) as [H1 H2]. apply IH; auto.
Qed.
Lemma setadds_in {A} (f : A -> node2d) l : forall (s : node2d -> Prop) x,
  fold_left setstep (map (fun t => SbAdd (fst (f t)) (snd (f t))) l) s x <-> s x \/ exists t, In t l /\ x = f t.
Proof.
  induction l as [|t l IH]; intros s x; cbn [map fold_left setstep].
  - split; auto. intros [H|(t & [] & _)]; auto.
  - rewrite IH. rewrite <- surjective_pairing. split.
    + intros [[H|H]|(t' & H & E)]; [auto| |]; right; [exists t|exists t']; cbn; auto.
    + intros [H|(t' & [H|H] & E)]; [auto| |]; [subst; auto|right; eauto].
Qed.
Lemma setrems_in l : forall (s : node2d -> Prop) x, fold_left setstep (map SbRemPat l) s x <-> s x /\ forall p, In p l -> ~ matches2d p x.
Proof.
  induction l as [|p l IH]; intros s x; cbn [map fold_left setstep].
  - split; [intros H; split; auto; intros ? []|tauto].
  - rewrite IH. cbn [In]. split.
    + intros [[H1 H2] H3]. split; auto. intros q [->|Hq]; auto.
    + intros [H1 H2]. repeat split; auto.
Qed.
Definition cfg_ok (cfg : ecfg) (a : area) : Prop :=
  Forall (fun c => valid4d (cn_node c)) (ec_nodes cfg) /\ valid4d (ak_node (ar_aka a)) /\ Forall valid4d (ak_add (ar_aka a)).
Lemma tnnode_valid cfg a t : cfg_ok cfg a -> valid4d (tnnode cfg t).
Proof.
  intros (H & _). unfold tnnode, getcn. destruct (Nat.lt_ge_cases (tn_node t) (length (ec_nodes cfg))) as [Hl|Hl].
  - rewrite Forall_forall in H. apply H. apply nth_In; auto.
  - rewrite nth_overflow by auto. unfold cn0, null4d, valid4d, is_u16. cbn. lia.
Qed.
Lemma sbops_ok cfg a : cfg_ok cfg a -> Forall sbop_ok (sbops cfg a).
Proof.
  intros H. unfold sbops. rewrite !Forall_app. repeat split.
  - apply Forall_map, Forall_forall. intros t _. pose proof (tnnode_valid cfg a t H) as (_ & H1 & H2 & _). split; auto.
  - apply Forall_map, Forall_forall. intros p _. exact I.
  - apply Forall_map. destruct H as (_ & _ & H). eapply Forall_impl; [|exact H]. intros n (_ & H1 & H2 & _). split; auto.
  - destruct H as (_ & (_ & H1 & H2 & _) & _). destruct (point _ =? 0); repeat constructor; auto; apply H1 || apply H2.
Qed.
Lemma newseenby_spec cfg a mm : cfg_ok cfg a -> pairs_ok (entries (SeenBy mm)) -> wfblocks (SeenBy mm) ->
  let sb := if negb (zone (ak_node (ar_aka a)) =? zone (PktOrig mm)) then [] else SeenBy mm in
  let sb' := newseenby cfg a mm sb in
  pairs_ok (entries sb') /\ wfblocks sb' /\ forall x, x <> (0, 0) -> (In x (entries sb') <-> sb_full cfg a mm x).
Proof.
  intros Hc Hp Hw sb sb'.
  assert (Hsb : pairs_ok (entries sb) /\ wfblocks sb /\ entries sb = incoming a mm).
  { unfold sb, incoming. destruct (_ =? _); cbn [negb]; repeat split; auto. constructor. }
  destruct Hsb as (Hp1 & Hw1 & Ei). unfold sb'. rewrite newseenby_ops.
  destruct (sbsteps_in (sbops cfg a) (sbops_ok cfg a Hc) sb (fun x => In x (incoming a mm)) Hp1) as [H1 H2].
  { intros x _. rewrite Ei. tauto. }
  split; auto. split; [apply sbsteps_wf; auto|]. intros x Hx. rewrite (H1 x Hx). unfold sb_full, sbops. rewrite !fold_left_app.
  set (own := ak_node (ar_aka a)).
  assert (Hlast : forall s, fold_left setstep (if point own =? 0 then [SbAdd (net own) (node own)] else []) s x <-> s x \/ entry_of own x).
  { intros s. unfold entry_of. destruct (Z.eqb_spec (point own) 0) as [E|E]; cbn [fold_left setstep]; [|tauto]. rewrite E. tauto. }
  rewrite Hlast. rewrite (setadds_in (fun n => (net n, node n))). rewrite setrems_in.
  rewrite (setadds_in (fun t => (net (tnnode cfg t), node (tnnode cfg t)))).
  assert (Hl : (exists t, In t (sblinks cfg a) /\ x = (net (tnnode cfg t), node (tnnode cfg t))) <->
    exists t, In t (ar_tn a) /\ silent cfg t = false /\ zone (tnnode cfg t) = zone (ak_node (ar_aka a)) /\ entry_of (tnnode cfg t) x).
  { unfold sblinks, entry_of, silent. split; intros (t & H).
    - destruct H as (H & ->). apply filter_In in H as [H3 H4]. rewrite !andb_true_iff, !negb_true_iff, !Z.eqb_eq in H4. exists t.
      destruct H4 as [[[E1 E2] E3] E4]. rewrite E3, E4. auto.
    - destruct H as (H3 & H4 & H5 & H6 & ->). exists t. split; auto. apply filter_In. split; auto. apply orb_false_iff in H4 as [H4 H7].
      rewrite H4, H7, H6, H5, !Z.eqb_refl. reflexivity. }
  rewrite Hl. tauto.
Qed.

(** ** Sending *)
(** equal but for what WriteEchoMail changes *)
Definition strip4 (m : memmsg) : memmsg := set_SeenBy (set_OrigNode (set_DestNode (set_Type m 0) null4d) null4d) [].
Lemma strip4_eq m m' : strip4 m = strip4 m' -> Area m = Area m' /\ Attr m = Attr m' /\ Cost m = Cost m' /\ DateTime m = DateTime m' /\ To m = To m' /\
  From m = From m' /\ Subject m = Subject m' /\ TextChunks m = TextChunks m' /\ Path m = Path m' /\ Flags m = Flags m'.
Proof. unfold strip4, set_SeenBy, set_OrigNode, set_DestNode, set_Type. cbn. intros E. injection E. intros. subst. repeat split; auto. Qed.
Lemma sb_reads_ok l (s : node2d -> Prop) : pairs_ok (entries l) -> (forall x, x <> (0, 0) -> (In x (entries l) <-> s x)) -> (forall x, s x -> x <> (0, 0)) ->
  exists t, mmMakeSeenByBuf l = Some t /\ sb_reads t s.
Proof.
  intros Hp Hs H0. destruct (mmMakeSeenByBuf_spec l Hp) as (text & gs & E & Ht & Hg & Hc). exists text. split; auto.
  assert (Hpg : Forall (fun g => pairs_ok (fst g)) gs).
  { apply Forall_forall. intros g Hin. apply Forall_forall. intros x Hx.
    assert (Hxl : In x (live l)) by (rewrite <- Hc; apply in_concat; exists (fst g); split; auto; apply in_map; auto).
    apply live_in in Hxl as [Hxl _]. unfold pairs_ok in Hp. rewrite Forall_forall in Hp. auto. }
  exists (map snd gs). split; [rewrite map_map; exact Ht|]. split.
  - apply Forall_map. apply Forall_forall. intros g Hin. rewrite Forall_forall in Hg, Hpg. destruct (Hg g Hin) as (H1 & H2). split; [lia|].
    apply (sbline_shape (fst g)); auto.
  - intros mm Ha Hsb. exists (set_SeenBy mm (addall (concat (map fst gs)) (SeenBy mm))). split.
    + rewrite map_map. apply addlines_seenby; auto. eapply Forall_impl; [|exact Hg]; simpl; tauto.
    + intros x. rewrite Hc, Hsb. cbn [SeenBy set_SeenBy]. rewrite addall_in, live_in. cbn. split.
      * intros [[]|[H1 H2]]. apply Hs; auto.
      * intros H. right. split; [apply Hs; auto|auto].
Qed.
Lemma echobytes_spec cfg a mm0 mm path t : cfg_ok cfg a -> strip4 mm = strip4 (set_Path mm0 path) ->
  pairs_ok (entries (SeenBy mm)) -> wfblocks (SeenBy mm) -> (forall x, x <> (0, 0) -> (In x (entries (SeenBy mm)) <-> sb_full cfg a mm0 x)) ->
  exists data mm', echobytes mm (getcn cfg (tn_node t)) (ar_aka a) = Some (data, mm') /\ copy_for cfg a mm0 path (getcn cfg (tn_node t)) data /\
    strip4 mm' = strip4 mm /\ pairs_ok (entries (SeenBy mm')) /\ wfblocks (SeenBy mm') /\
    (forall x, x <> (0, 0) -> (In x (entries (SeenBy mm')) <-> sb_full cfg a mm0 x)).
Proof.
  intros Hc He Hp Hw Hs. unfold echobytes. set (cn := getcn cfg (tn_node t)). set (m1 := set_OrigNode _ _).
  destruct (sb_for_spec m1 cn (ar_aka a)) as (sb & mm' & E & Hsb & Hm); auto.
  { apply (tnnode_valid cfg a t Hc). }
  { apply Hc. }
  rewrite E. cbn [obind].
  assert (Htext : exists tx, match sb with Some l => mmMakeSeenByBuf l | None => Some [] end = Some tx /\ sb_reads tx (sb_copy cfg a mm0 cn)).
  { assert (Hiff : forall x, x <> (0, 0) -> (sb_sent m1 cn (ar_aka a) x <-> sb_copy cfg a mm0 cn x)).
    { intros x Hx. unfold sb_sent, sb_copy, sb_tiny, entry_of. destruct (_ || _); [tauto|]. destruct (flag _ _); [tauto|]. apply Hs; auto. }
    assert (Hnz : forall x, sb_copy cfg a mm0 cn x -> x <> (0, 0)).
    { intros x. unfold sb_copy, sb_tiny, sb_full. destruct (_ || _); [tauto|]. destruct (flag _ _); tauto. }
    destruct sb as [l|].
    - destruct Hsb as [Hpl Hin]. apply sb_reads_ok; auto. intros x Hx. rewrite Hin. auto.
    - exists []. split; auto. exists []. split; auto. split; auto. intros m Ha Hm0. exists m. split; auto. intros x. rewrite Hm0. cbn.
      split; [intros []|]. intros H. apply (Hsb x). apply Hiff; auto. }
  destruct Htext as (tx & Etx & Hr). rewrite Etx. cbn [obind]. eexists _, mm'. split; [reflexivity|].
  destruct (strip4_eq _ _ He) as (E1 & E2 & E3 & E4 & E5 & E6 & E7 & E8 & E9 & E10). split; [|].
  - exists tx. split; auto. unfold msgheader, mmtext, m1. cbn [OrigNode DestNode Area Attr Cost DateTime To From Subject TextChunks Path set_OrigNode set_DestNode set_Type set_Path] in *.
    rewrite E1, E2, E3, E4, E5, E6, E7, E8, E9, pathbytes_eq, <- !app_assoc. reflexivity.
  - destruct Hm as [->|(l & -> & HP & Hwl)].
    + split; [reflexivity|]. split; [auto|]. split; [auto|]. exact Hs.
    + cbn [SeenBy set_SeenBy]. assert (Hin : forall x, In x (entries l) <-> In x (entries (SeenBy mm))).
      { intros x. split; apply Permutation_in; auto. apply Permutation_sym; auto. }
      split; [reflexivity|]. split; [|split; [auto|]].
      * apply pairs_ok_in. intros x Hx. apply Hin in Hx. rewrite pairs_ok_in in Hp. auto.
      * intros x Hx. rewrite Hin. apply Hs; auto.
Qed.
Lemma sendall_spec cfg a mm0 path l : cfg_ok cfg a -> forall mm, strip4 mm = strip4 (set_Path mm0 path) ->
  pairs_ok (entries (SeenBy mm)) -> wfblocks (SeenBy mm) -> (forall x, x <> (0, 0) -> (In x (entries (SeenBy mm)) <-> sb_full cfg a mm0 x)) ->
  exists mm' evs, sendall cfg a mm l = Some (mm', evs) /\ strip4 mm' = strip4 mm /\
    Forall2 (fun t e => exists data, e = EvSend (tn_node t) data /\ copy_for cfg a mm0 path (getcn cfg (tn_node t)) data) l evs.
Proof.
  intros Hc. induction l as [|t l IH]; intros mm He Hp Hw Hs; cbn [sendall]; [eauto|].
  destruct (echobytes_spec cfg a mm0 mm path t Hc He Hp Hw Hs) as (data & m1 & E & Hcopy & He1 & Hp1 & Hw1 & Hs1).
  rewrite E. cbn [obind fst snd]. destruct (IH m1) as (mm' & evs & E2 & He2 & HF); auto; [congruence|]. rewrite E2. cbn [obind fst snd].
  eexists _, _. split; [reflexivity|]. split; [congruence|]. constructor; eauto.
Qed.
Lemma setinsb_spec cfg a sb insb t : In t (ar_tn a) -> setinsb cfg a sb insb (tn_node t) =
  (zone (tnnode cfg t) =? zone (ak_node (ar_aka a))) && (point (tnnode cfg t) =? 0) && FindNodes2D sb (tnnode cfg t).
Proof.
  unfold setinsb. set (g := fun i => (zone (cn_node (getcn cfg i)) =? zone (ak_node (ar_aka a))) && (point (cn_node (getcn cfg i)) =? 0) && FindNodes2D sb (cn_node (getcn cfg i))).
  assert (H : forall l f, fold_left (fun f t => fun i => if Nat.eqb i (tn_node t) then
        (zone (tnnode cfg t) =? zone (ak_node (ar_aka a))) && (point (tnnode cfg t) =? 0) && FindNodes2D sb (tnnode cfg t) else f i) l f (tn_node t) =
        if existsb (fun t' => Nat.eqb (tn_node t) (tn_node t')) l then g (tn_node t) else f (tn_node t)).
  { induction l as [|t' l IH]; intros f; cbn [fold_left existsb]; [reflexivity|]. rewrite IH. destruct (Nat.eqb_spec (tn_node t) (tn_node t')) as [E|E].
    - cbn [orb]. destruct (existsb _ l); [reflexivity|]. unfold g, tnnode. rewrite E. reflexivity.
    - reflexivity. }
  intros Hin. rewrite H. replace (existsb _ (ar_tn a)) with true; [reflexivity|]. symmetry. apply existsb_exists. exists t. rewrite Nat.eqb_refl. auto.
Qed.
Lemma sends_app a b : sends (a ++ b) = sends a ++ sends b.
Proof. induction a as [|[i d|t m] a IH]; cbn; rewrite ?IH; reflexivity. Qed.
Lemma imports_app a b : imports (a ++ b) = imports a ++ imports b.
Proof. induction a as [|[i d|t m] a IH]; cbn; rewrite ?IH; reflexivity. Qed.
Lemma sends_F2 (P : tossnode -> list Z -> Prop) l evs : Forall2 (fun t e => exists data, e = EvSend (tn_node t) data /\ P t data) l evs ->
  sends evs = map tn_node l /\ imports evs = [].
Proof. induction 1 as [|t e l evs (d & -> & _) _ [IH1 IH2]]; cbn; [auto|]. rewrite IH1, IH2. auto. Qed.

(** ** The whole of HandleEchomail *)
Lemma WriteBad_spec areas mm reason : bad_events areas mm (WriteBad areas mm reason) /\
  ((exists b, In b areas /\ ar_type b = AREATYPE_BAD) -> (forall b, In b areas -> ar_type b = AREATYPE_BAD -> ar_mb b = true) ->
   bad_import areas mm (WriteBad areas mm reason)).
Proof.
  unfold WriteBad, bad_events. destruct (find (fun a => ar_type a =? AREATYPE_BAD) areas) as [b|] eqn:E.
  - apply find_some in E as [H1 H2]. apply Z.eqb_eq in H2.
    assert (Hb : ar_mb b = true -> bad_import areas mm (if ar_mb b then [EvImport (ar_tag b) (set_TextChunks mm (TextChunks mm ++ [badinfo mm reason]))] else [])).
    { intros ->. eexists b, _. repeat split; auto. exists (badinfo mm reason). unfold mmtext. cbn [TextChunks set_TextChunks]. rewrite rev_app_distr. reflexivity. }
    split; [destruct (ar_mb b) eqn:Em; auto|]. intros _ Hall. apply Hb. apply Hall; auto.
  - split; auto. intros (b & Hb1 & Hb2) _. pose proof (find_none _ _ E b Hb1) as Hx. cbv beta in Hx. rewrite Hb2 in Hx. discriminate.
Qed.
Lemma find_link cfg a mm : find (fun t => Compare4D (tnnode cfg t) (PktOrig mm) =? 0) (ar_tn a) = find (fun t => sameaddrb (tnnode cfg t) (PktOrig mm)) (ar_tn a).
Proof. induction (ar_tn a) as [|t l IH]; cbn [find]; [reflexivity|]. rewrite compare_same. destruct (sameaddrb _ _); auto. Qed.
Lemma accepted_tossecho cfg flt st mm a : area_of (es_areas st) (Area mm) a -> accepted cfg a mm ->
  HandleEchomail cfg flt st mm = tossecho cfg flt st a (set_Type mm PKTS_ECHOMAIL).
Proof.
  intros Ha (Hconf & Hacc). unfold HandleEchomail, getarea. cbn [Area PktOrig PktDest Flags set_Type]. apply area_of_find in Ha. rewrite Ha. cbn [obind].
  rewrite Hconf. destruct Hacc as [[->| ->]|[(t & Hin & Hs & Hro) Hall]].
  - reflexivity.
  - rewrite andb_false_r. reflexivity.
  - destruct (negb (flag (Flags mm) MMFLAG_EXPORTED) && _); [|reflexivity]. change (PktOrig (set_Type mm PKTS_ECHOMAIL)) with (PktOrig mm).
    pose proof (find_link cfg a mm) as Ef. cbn [PktOrig set_Type]. rewrite Ef. clear Ef. destruct (find (fun t => sameaddrb _ _) (ar_tn a)) as [t'|] eqn:E.
    + apply find_some in E as [H1 H2]. apply sameaddrb_spec in H2. rewrite (Hall t' H1 H2). reflexivity.
    + pose proof (find_none _ _ E t Hin) as Hx. cbv beta in Hx. apply sameaddrb_spec in Hs. congruence.
Qed.
Definition ownpath (cfg : ecfg) (a : area) : bool := (point (ak_node (ar_aka a)) =? 0) || flag (ec_flags cfg) CFG_PATH3D.
Definition strip_ok (cfg : ecfg) (mm : memmsg) : Prop :=
  flag (ec_flags cfg) CFG_STRIPRE = false \/ exists s, StripRe (S (length (Subject mm))) (Subject mm) = Some s.
Lemma deliver_sent cfg flt a mm0 path mm insb : cfg_ok cfg a -> passes flt -> strip_ok cfg mm0 ->
  flag (Flags mm0) MMFLAG_KILL = false -> flag (Flags mm0) MMFLAG_RESCANNED = false ->
  strip4 mm = strip4 (set_Path mm0 path) -> PktOrig mm = PktOrig mm0 ->
  pairs_ok (entries (SeenBy mm)) -> wfblocks (SeenBy mm) -> (forall x, x <> (0, 0) -> (In x (entries (SeenBy mm)) <-> sb_full cfg a mm0 x)) ->
  exists fev sent imp, deliver cfg flt a mm insb = Some (fev ++ sent ++ imp, true) /\ sends fev = [] /\ imports fev = [] /\
    Forall2 (fun t e => exists data, e = EvSend (tn_node t) data /\ copy_for cfg a mm0 path (getcn cfg (tn_node t)) data) (filter (sendto cfg a (PktOrig mm0) insb) (ar_tn a)) sent /\
    (if negb (flag (Flags mm0) MMFLAG_TWIT) && negb (flag (Flags mm0) MMFLAG_EXPORTED) && ar_mb a
     then exists m, imp = [EvImport (ar_tag a) m] /\ From m = From mm0 /\ To m = To mm0 /\ DateTime m = DateTime mm0 /\ mmtext m = mmtext mm0 /\
       (flag (ec_flags cfg) CFG_STRIPRE = false -> Subject m = Subject mm0) else imp = []).
Proof.
  intros Hc Hf Hst Hk Hr He Hpo Hp Hw Hs. unfold deliver. destruct (mmSort_spec _ Hw) as (sb & Es & HP & _ & Hwl). rewrite Es. cbn [obind].
  destruct (Hf (set_SeenBy mm sb)) as (fev & Ef & Hf1 & Hf2). rewrite Ef. cbn [Flags PktOrig set_SeenBy]. destruct (strip4_eq _ _ He) as (E1 & E2 & E3 & E4 & E5 & E6 & E7 & E8 & E9 & E10).
  cbn [Flags set_Path] in E10. rewrite E10, Hk, Hr, Hpo.
  assert (Hin : forall x, In x (entries sb) <-> In x (entries (SeenBy mm))).
  { intros x. split; apply Permutation_in; auto. apply Permutation_sym; auto. }
  destruct (sendall_spec cfg a mm0 path (filter (sendto cfg a (PktOrig mm0) insb) (ar_tn a)) Hc (set_SeenBy mm sb)) as (mm' & sent & Ea & He' & HF); auto.
  { cbn [SeenBy set_SeenBy]. apply pairs_ok_in. intros x Hx. apply Hin in Hx. rewrite pairs_ok_in in Hp. auto. }
  { cbn [SeenBy set_SeenBy]. intros x Hx. rewrite Hin. apply Hs; auto. }
  rewrite Ea. cbn [obind]. destruct (strip4_eq _ _ He') as (F1 & F2 & F3 & F4 & F5 & F6 & F7 & F8 & F9 & F10). cbn [Flags Subject From To DateTime TextChunks set_SeenBy set_Path] in *.
  rewrite F10, E10. destruct (flag (Flags mm0) MMFLAG_TWIT); cbn [negb andb].
  { exists fev, sent, []. rewrite app_nil_r. repeat split; auto. }
  destruct (negb (flag (Flags mm0) MMFLAG_EXPORTED) && ar_mb a).
  - assert (Hi : exists m, importmsg cfg a mm' = Some m /\ From m = From mm0 /\ To m = To mm0 /\ DateTime m = DateTime mm0 /\ mmtext m = mmtext mm0 /\ (flag (ec_flags cfg) CFG_STRIPRE = false -> Subject m = Subject mm0)).
    { unfold importmsg. rewrite F7, E7. destruct (flag (ec_flags cfg) CFG_STRIPRE) eqn:Est.
      - destruct Hst as [Hx|(s & Hx)]; [congruence|]. rewrite Hx. cbn [obind]. eexists. split; [reflexivity|]. unfold mmtext. cbn. rewrite F8, E8. repeat split; congruence.
      - cbn [obind]. eexists. split; [reflexivity|]. unfold mmtext. cbn. rewrite F8, E8. repeat split; congruence. }
    destruct Hi as (m & Em & Hm). rewrite Em. cbn [obind]. exists fev, sent, [EvImport (ar_tag a) m]. repeat split; auto. exists m. auto.
  - exists fev, sent, []. rewrite app_nil_r. repeat split; auto.
Qed.
Lemma tossecho_sent cfg flt st a mm path : cfg_ok cfg a -> passes flt -> strip_ok cfg mm ->
  flag (Flags mm) MMFLAG_KILL = false -> flag (Flags mm) MMFLAG_RESCANNED = false -> not_dupe cfg st a mm ->
  pairs_ok (entries (SeenBy mm)) -> wfblocks (SeenBy mm) ->
  (if ownpath cfg a then AddNodePath (Path mm) (ak_node (ar_aka a)) else Some (Path mm)) = Some path ->
  exists st' fev sent imp insb, tossecho cfg flt st a (set_Type mm PKTS_ECHOMAIL) = Some (st', true) /\ es_out st' = es_out st ++ fev ++ sent ++ imp /\ es_areas st' = es_areas st /\
    insb = (if flag (ec_flags cfg) CFG_CHECKSEENBY && negb (flag (ar_flags a) AREA_IGNORESEENBY)
            then setinsb cfg a (if negb (zone (ak_node (ar_aka a)) =? zone (PktOrig mm)) then [] else SeenBy mm) (es_insb st) else es_insb st) /\
    sends fev = [] /\ imports fev = [] /\
    Forall2 (fun t e => exists data, e = EvSend (tn_node t) data /\ copy_for cfg a mm path (getcn cfg (tn_node t)) data) (filter (sendto cfg a (PktOrig mm) insb) (ar_tn a)) sent /\
    (if negb (flag (Flags mm) MMFLAG_TWIT) && negb (flag (Flags mm) MMFLAG_EXPORTED) && ar_mb a
     then exists m, imp = [EvImport (ar_tag a) m] /\ From m = From mm /\ To m = To mm /\ DateTime m = DateTime mm /\ mmtext m = mmtext mm /\
       (flag (ec_flags cfg) CFG_STRIPRE = false -> Subject m = Subject mm) else imp = []).
Proof.
  intros Hc Hf Hst Hk Hr Hd Hp Hw Epath. unfold tossecho. cbn [PktOrig SeenBy Path set_Type set_SeenBy]. fold (ownpath cfg a). rewrite Epath. cbn [obind].
  set (insb := if flag (ec_flags cfg) CFG_CHECKSEENBY && _ then _ else _).
  cbn [Flags set_Type set_Path set_SeenBy MSGID Area].
  assert (Edup : exists db, (if negb (ec_dupemode cfg =? DUPE_IGNORE) && flag (Flags mm) MMFLAG_TOSSED && negb (flag (ar_flags a) AREA_IGNOREDUPES)
      then CheckDupe (ec_dupesize cfg) (es_dupes st) (MSGID mm) (Area mm) else Some (false, es_dupes st)) = Some (false, db)).
  { destruct Hd as [Hd|(db & Hd)]; [|destruct (negb (ec_dupemode cfg =? DUPE_IGNORE) && _ && _); eauto].
    destruct (negb (ec_dupemode cfg =? DUPE_IGNORE) && _ && _) eqn:E; eauto. exfalso. apply Hd. rewrite !andb_true_iff, !negb_true_iff, Z.eqb_neq in E. unfold dupechecked. tauto. }
  destruct Edup as (db & ->). cbn [obind].
  set (m1 := set_Path _ _). destruct (newseenby_spec cfg a mm Hc Hp Hw) as (Hp1 & Hw1 & Hs1).
  destruct (deliver_sent cfg flt a mm path m1 insb Hc Hf Hst Hk Hr) as (fev & sent & imp & E & H1 & H2 & H3 & H4); auto.
  rewrite E. cbn [obind fst snd]. exists (ES (es_areas st) insb db (es_out st ++ fev ++ sent ++ imp)), fev, sent, imp, insb. repeat split; auto.
Qed.
