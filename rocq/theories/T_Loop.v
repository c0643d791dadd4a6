(** C50: looping netmail is detected by the program's own Via lines. *)
From Verif Require Import Base M_Node4D S_Node4D P_Node4D M_Pat M_Str P_Str M_Mem S_Mem P_Mem M_Cfg M_Expr M_Filter M_Net S_Loop.

Lemma chunklines_nil t : chunklines t = [] -> t = [].
Proof. destruct t as [|c t]; auto. cbn [chunklines]. destruct (c =? 13); [discriminate|]. destruct (chunklines t); discriminate. Qed.
Lemma chunklines_first t x ls : chunklines t = x :: ls -> exists b, t = x ++ b /\ chunklines b = ls /\ ((exists x', x = x' ++ [13] /\ ~ In 13 x') \/ (x <> [] /\ ~ In 13 x /\ b = [])).
Proof.
  revert x ls. induction t as [|c t IH]; intros x ls; [discriminate|]. cbn [chunklines]. destruct (Z.eqb_spec c 13) as [->|Hc].
  - intros E. assert (x = [13]) by congruence. assert (ls = chunklines t) by congruence. subst. exists t. repeat split; auto. left. exists []. auto.
  - destruct (chunklines t) as [|y r] eqn:E; intros H.
    + apply chunklines_nil in E. subst t. assert (x = [c]) by congruence. assert (ls = []) by congruence. subst. exists []. repeat split; auto. right. repeat split; [discriminate|]. intros [K|[]]. congruence.
    + assert (x = c :: y) by congruence. assert (r = ls) by congruence. subst. destruct (IH y ls eq_refl) as (b & -> & Hb & [(x' & -> & Hn)|(H1 & H2 & ->)]).
      * exists b. repeat split; auto. left. exists (c :: x'). split; auto. intros [K|K]; [congruence|auto].
      * exists []. repeat split; auto. right. repeat split; [discriminate|]. intros [K|K]; [congruence|auto].
Qed.
Lemma chunklines_cr l t : ~ In 13 l -> chunklines (l ++ 13 :: t) = (l ++ [13]) :: chunklines t.
Proof.
  induction l as [|c l IH]; intros Hn; [reflexivity|]. cbn [app chunklines]. destruct (Z.eqb_spec c 13) as [->|_]; [exfalso; apply Hn; left; auto|].
  rewrite IH by (intros K; apply Hn; right; auto). reflexivity.
Qed.
Lemma chunklines_one l : ~ In 13 l -> l <> [] -> chunklines l = [l].
Proof.
  induction l as [|c l IH]; intros Hn Hl; [congruence|]. cbn [chunklines]. destruct (Z.eqb_spec c 13) as [->|_]; [exfalso; apply Hn; left; auto|].
  destruct l as [|d l]; [reflexivity|]. rewrite IH; [reflexivity| |discriminate]. intros K; apply Hn; right; auto.
Qed.
Lemma chunklines_app a t : chunklines (a ++ 13 :: t) = chunklines (a ++ [13]) ++ chunklines t.
Proof.
  induction a as [|c a IH]; [reflexivity|]. cbn [app chunklines]. destruct (c =? 13); [rewrite IH; reflexivity|]. rewrite IH.
  destruct (chunklines (a ++ [13])) as [|x r] eqn:E; [apply chunklines_nil in E; destruct a; discriminate|reflexivity].
Qed.
Lemma chunklines_iff t l : In l (chunklines t) <-> line_of l t.
Proof.
  split.
  - remember (chunklines t) as ls eqn:E. symmetry in E. revert t E. induction ls as [|x ls IH]; intros t E Hin; [destruct Hin|].
    apply chunklines_first in E as (b & -> & Eb & He). destruct Hin as [->|Hin].
    + exists [], b. split; auto.
    + destruct (IH b Eb Hin) as (a & d & -> & Ha & Hl). exists (x ++ a), d. rewrite app_assoc. split; auto. split; auto. right.
      destruct He as [(x' & -> & _)|(_ & _ & He)].
      * destruct Ha as [->|(a' & ->)]; [exists x'; rewrite app_nil_r; auto|exists ((x' ++ [13]) ++ a'); rewrite app_assoc; auto].
      * apply app_eq_nil in He as [-> He]. exfalso. destruct Hl as [(l' & -> & _)|(Hl & _)]; [destruct l'; discriminate|]. apply app_eq_nil in He as [He _]. auto.
  - intros (a & b & -> & Ha & Hl).
    assert (H : In l (chunklines (l ++ b))).
    { destruct Hl as [(l' & -> & Hn)|(H1 & H2 & ->)]; [rewrite <- app_assoc; cbn [app]; rewrite chunklines_cr by auto; left; auto|rewrite app_nil_r, chunklines_one by auto; left; auto]. }
    destruct Ha as [->|(a' & ->)]; auto. rewrite <- app_assoc. cbn [app]. rewrite chunklines_app. apply in_or_app. auto.
Qed.

Lemma addrchar_iff c : addrchar c = true <-> isaddr c.
Proof. unfold addrchar, isaddr, isdigit. rewrite !orb_true_iff, !Z.eqb_eq, andb_true_iff, !Z.leb_le. tauto. Qed.
Lemma addrchar_not c : addrchar c = false <-> ~ isaddr c.
Proof. rewrite <- addrchar_iff. destruct (addrchar c); intuition congruence. Qed.
Definition ends (b : list Z) : Prop := b = [] \/ exists c b', b = c :: b' /\ ~ isaddr c.
Lemma firstn_snoc19 (w : list Z) c : (if Nat.ltb (length (firstn 19 w)) 19 then firstn 19 w ++ [c] else firstn 19 w) = firstn 19 (w ++ [c]).
Proof.
  destruct (Nat.ltb_spec (length (firstn 19 w)) 19) as [H|H].
  - rewrite firstn_length in H. assert (length w < 19)%nat by lia. rewrite !firstn_all2; auto; rewrite ?app_length; cbn; lia.
  - rewrite firstn_length in H. rewrite firstn_app. replace (19 - length w)%nat with 0%nat by lia. rewrite firstn_O, app_nil_r. reflexivity.
Qed.
Lemma addrruns_iff s : forall w x, Forall isaddr w ->
  In x (addrruns (firstn 19 w) s) <->
  (exists w' b, s = w' ++ b /\ Forall isaddr w' /\ w ++ w' <> [] /\ ends b /\ x = firstn 19 (w ++ w')) \/
  (exists a c w' b, s = (a ++ [c]) ++ w' ++ b /\ ~ isaddr c /\ Forall isaddr w' /\ w' <> [] /\ ends b /\ x = firstn 19 w').
Proof.
  induction s as [|c s IH]; intros w x Hw.
  - cbn [addrruns]. split.
    + intros H. left. exists [], []. rewrite app_nil_r. destruct w as [|d w]; [destruct H|]. change (firstn 19 (d :: w)) with (d :: firstn 18 w) in *. destruct H as [<-|[]]. split; auto. split; auto. split; [discriminate|]. rewrite app_nil_r. split; [left|]; reflexivity.
    + intros [(w' & b & E & _ & Hn & _ & ->)|(a & c & w' & b & E & _)]; [|destruct a; discriminate].
      symmetry in E. apply app_eq_nil in E as [-> ->]. rewrite app_nil_r in *. destruct w; [congruence|]. left. reflexivity.
  - cbn [addrruns]. destruct (addrchar c) eqn:Ec.
    + rewrite firstn_snoc19. apply addrchar_iff in Ec. rewrite IH by (apply Forall_app; auto). split; (intros [(w' & b & E & F & Hn & Hb & ->)|(a & d & w' & b & E & Hd & F & Hn & Hb & ->)]).
      * left. exists (c :: w'), b. subst s. rewrite <- app_assoc in *. repeat split; auto.
      * right. exists (c :: a), d, w', b. subst s. repeat split; auto.
      * destruct w' as [|y w']; cbn [app] in E.
        -- destruct Hb as [->|(y & b' & -> & Hy)]; [discriminate|]. assert (c = y) by congruence. subst y. contradiction.
        -- assert (c = y) by congruence. assert (s = w' ++ b) by congruence. subst. left. exists w', b. rewrite <- app_assoc. repeat split; auto. apply Forall_inv_tail in F. auto.
      * destruct a as [|y a]; cbn [app] in E; [assert (c = d) by congruence; subst d; contradiction|]. assert (s = (a ++ [d]) ++ w' ++ b) by congruence. right. exists a, d, w', b. repeat split; auto.
    + assert (Nc : ~ isaddr c) by (apply addrchar_not; auto).
      assert (IH' := IH [] x (Forall_nil _)). cbn [firstn app] in IH'.
      assert (K : In x (addrruns [] s) <-> (exists a d w' b, c :: s = (a ++ [d]) ++ w' ++ b /\ ~ isaddr d /\ Forall isaddr w' /\ w' <> [] /\ ends b /\ x = firstn 19 w')).
      { rewrite IH'. split.
        - intros [(w' & b & -> & F & Hn & Hb & ->)|(a & d & w' & b & -> & Hd & F & Hn & Hb & ->)]; [exists [], c, w', b|exists (c :: a), d, w', b]; repeat split; auto.
        - intros (a & d & w' & b & E & Hd & F & Hn & Hb & ->). destruct a as [|y a]; cbn [app] in E.
          + left. exists w', b. assert (s = w' ++ b) by congruence. repeat split; auto.
          + right. assert (s = (a ++ [d]) ++ w' ++ b) by congruence. exists a, d, w', b. repeat split; auto. }
      assert (K1 : forall P : Prop, (w = [] -> ~ P) -> (w <> [] -> (P <-> x = firstn 19 w)) -> (In x (match firstn 19 w with [] => addrruns [] s | _ => firstn 19 w :: addrruns [] s end) <-> P \/ (exists a d w' b, c :: s = (a ++ [d]) ++ w' ++ b /\ ~ isaddr d /\ Forall isaddr w' /\ w' <> [] /\ ends b /\ x = firstn 19 w'))).
      { intros P P1 P2. rewrite <- K. destruct w as [|d w]; [change (firstn 19 (@nil Z)) with (@nil Z); specialize (P1 eq_refl); tauto|]. rewrite (P2 ltac:(discriminate)). change (firstn 19 (d :: w)) with (d :: firstn 18 w). cbn [In]. intuition congruence. }
      apply K1.
      * intros -> (w' & b & E & F & Hn & _). destruct w' as [|y w']; [apply Hn; reflexivity|]. cbn [app] in E. assert (c = y) by congruence. subst y. apply Forall_inv in F. contradiction.
      * intros Hn. split.
        -- intros (w' & b & E & F & _ & _ & ->). destruct w' as [|y w']; [rewrite app_nil_r; auto|]. cbn [app] in E. assert (c = y) by congruence. subst y. apply Forall_inv in F. contradiction.
        -- intros ->. exists [], (c :: s). rewrite app_nil_r. repeat split; auto. right. eauto.
Qed.
Lemma addrruns_word l x : In x (addrruns [] l) <-> address_word x l.
Proof.
  rewrite (addrruns_iff l [] x (Forall_nil _)). split.
  - intros [(w & b & -> & F & Hn & Hb & ->)|(a & c & w & b & -> & Hc & F & Hn & Hb & ->)].
    + exists [], w, b. repeat split; auto.
    + exists (a ++ [c]), w, b. repeat split; auto. right. eauto.
  - intros (a & w & b & -> & Hn & F & [->|(a' & c & -> & Hc)] & Hb & ->); [left; exists w, b|right; exists a', c, w, b]; repeat split; auto.
Qed.
Lemma contains_iff p s : contains p s = true <-> exists a b, s = a ++ p ++ b.
Proof.
  induction s as [|c s IH]; cbn [contains]; rewrite orb_true_iff, prefixb_spec; unfold starts_with.
  - split; [intros [(r & ->)|H]; [exists [], r; auto|discriminate]|]. intros (a & b & E). symmetry in E. apply app_eq_nil in E as [_ E]. apply app_eq_nil in E as [-> ->]. left. exists []. auto.
  - rewrite IH. split.
    + intros [(r & E)|(a & b & ->)]; [exists [], r; auto|exists (c :: a), b; auto].
    + intros (a & b & E). destruct a as [|x a]; [left; exists b; auto|]. right. cbn [app] in E. exists a, b. congruence.
Qed.
Lemma mem_In c s : mem c s = true <-> In c s.
Proof. unfold mem. rewrite existsb_exists. split; [intros (x & H & E); apply Z.eqb_eq in E; subst; auto|intros H; exists c; split; auto; apply Z.eqb_refl]. Qed.
Lemma found_iff akas s : Forall (fun k => zone (ak_node k) <> 0) akas ->
  CheckFoundAka akas s = true <-> In 58 s /\ In 47 s /\ exists n k, Parse4D s = Some n /\ zone n <> 0 /\ net n <> 0 /\ In k akas /\ ak_node k = n.
Proof.
  intros F. rewrite Forall_forall in F. unfold CheckFoundAka. rewrite !andb_true_iff, !mem_In. destruct (Parse4D s) as [n|].
  - rewrite !andb_true_iff, !negb_true_iff, !Z.eqb_neq, existsb_exists. split.
    + intros ((H1 & H2) & (H3 & H4) & k & Hk & E). split; auto. split; auto. exists n, k. repeat split; auto. apply Z.eqb_eq in E. apply compare_cases in E; auto.
    + intros (H1 & H2 & n' & k & E & H3 & H4 & Hk & En). assert (Hn : n = n') by congruence. rewrite Hn. split; [auto|]. split; [auto|]. exists k. split; auto. apply Z.eqb_eq. rewrite En. apply compare_cases; auto.
  - split; [intros (_ & H); discriminate|]. intros (_ & _ & n & k & H & _). discriminate.
Qed.

(** Exactly the messages with such a line count as looping. *)
Theorem C50_exact : forall akas mm, Forall (fun k => zone (ak_node k) <> 0) akas ->
  IsLoopMail akas mm = true <-> exists c l, In c (TextChunks mm) /\ line_of l c /\ names_own akas l.
Proof.
  intros akas mm F. unfold IsLoopMail. rewrite existsb_exists. split.
  - intros (l & Hl & H). apply in_concat in Hl as (ls & Hls & Hl). apply in_map_iff in Hls as (c & <- & Hc). apply in_rev in Hc. apply chunklines_iff in Hl.
    exists c, l. repeat (split; auto). all: unfold isvialoop in H; apply andb_true_iff in H as [H1 H2]; apply andb_true_iff in H2 as [H2 H3].
    + apply prefixb_spec in H1 as (r & ->). exists r. reflexivity.
    + apply contains_iff in H2. exact H2.
    + apply existsb_exists in H3 as (s & Hs & H3). apply addrruns_word in Hs. apply found_iff in H3 as (A & B & n & k & C); auto. exists s, n, k. tauto.
  - intros (c & l & Hc & Hl & (r & H1) & H2 & s & n & k & Hs & H3). exists l. split.
    + apply in_concat. exists (chunklines c). split; [apply in_map, in_rev; rewrite rev_involutive; auto|apply chunklines_iff; auto].
    + unfold isvialoop. rewrite !andb_true_iff. split; [apply prefixb_spec; exists r; rewrite H1; reflexivity|]. split; [apply contains_iff; auto|]. apply existsb_exists. exists s. split; [apply addrruns_word; auto|].
      apply found_iff; auto. destruct H3 as (A & B & C). eauto 10.
Qed.
Print Assumptions C50_exact.

(** The Via line the program itself adds is one of them, whatever stands before and after it. *)
Theorem C50_own : forall akas mm c k d v, Forall (fun k => zone (ak_node k) <> 0) akas ->
  In k akas -> valid4d (ak_node k) -> net (ak_node k) <> 0 -> (length (Print4D (ak_node k)) <= 19)%nat -> (length d <= 100)%nat ->
  In c (TextChunks mm) -> line_of (own_via (ak_node k) d v) c -> IsLoopMail akas mm = true.
Proof.
  intros akas mm c k d v F Hk Hv Hn Hl Hd Hc Hline. apply C50_exact; auto. exists c, (own_via (ak_node k) d v). split; auto. split; auto.
  set (a := Print4D (ak_node k)) in *.
  assert (E : exists t, firstn 150 (own_via (ak_node k) d v) = (1 :: lit "Via ") ++ a ++ lit " @" ++ d ++ lit " CrashMail" ++ t).
  { unfold own_via. fold a. exists (firstn (150 - (5 + length a + 2 + length d + 10)) v).
    replace (1 :: lit "Via " ++ a ++ lit " @" ++ d ++ lit " CrashMail" ++ v) with (((1 :: lit "Via ") ++ a ++ lit " @" ++ d ++ lit " CrashMail") ++ v) by (cbn [app]; rewrite <- !app_assoc; reflexivity).
    rewrite firstn_app, firstn_all2 by (rewrite !app_length; change (length (lit " @")) with 2%nat; change (length (lit " CrashMail")) with 10%nat; change (length (1 :: lit "Via ")) with 5%nat; lia).
    rewrite <- !app_assoc. do 5 f_equal. f_equal. rewrite !app_length. change (length (lit " @")) with 2%nat. change (length (lit " CrashMail")) with 10%nat. change (length (1 :: lit "Via ")) with 5%nat. lia. }
  destruct E as (t & E). split; [eexists; reflexivity|]. split.
  - exists ((1 :: lit "Via ") ++ a ++ lit " @" ++ d ++ lit " "), t. rewrite E. rewrite <- !app_assoc. reflexivity.
  - rewrite Forall_forall in F. pose proof (F k Hk) as Hz. destruct Hv as (V1 & V2 & V3 & V4). unfold is_u16 in *.
    exists a, (ak_node k), k. split; [|split; [|split; [|split; [apply print_parse; repeat split; unfold is_u16; lia|auto]]]].
    + exists (1 :: lit "Via "), a, (lit " @" ++ d ++ lit " CrashMail" ++ t). split; auto.
      assert (Fd : forall z, 0 <= z -> Forall isaddr (dec z)) by (intros z Hz0; eapply Forall_impl; [|apply (dec_digits z Hz0)]; unfold digit, isdigit, isaddr; intros x Hx; lia).
      assert (Fl : forall x, x = lit ":" \/ x = lit "/" \/ x = lit "." -> Forall isaddr x) by (intros x [->|[->| ->]]; constructor; auto; unfold isaddr; cbn; lia).
      split; [|split; [|split; [|split]]].
      * unfold a, Print4D. pose proof (dec_nonempty (zone (ak_node k)) ltac:(lia)). destruct (negb _); intros K; apply app_eq_nil in K as [K _]; auto.
      * unfold a, Print4D. destruct (negb _); repeat (apply Forall_app; split); auto; try apply Fd; try apply Fl; auto; lia.
      * right. exists (1 :: lit "Via"), 32. split; [reflexivity|]. unfold isaddr. lia.
      * right. exists 32, (lit "@" ++ d ++ lit " CrashMail" ++ t). split; [reflexivity|]. unfold isaddr. lia.
      * rewrite firstn_all2; auto.
    + unfold a, Print4D. destruct (negb _); rewrite !in_app_iff; right; left; left; reflexivity.
    + unfold a, Print4D. destruct (negb _); rewrite !in_app_iff; right; right; right; left; left; reflexivity.
Qed.
Print Assumptions C50_own.

(** Finding: longer addresses are cut, and the line is not recognised. *)
Theorem C50_long_refuted : exists akas mm c k d v, Forall (fun k => zone (ak_node k) <> 0) akas /\ In k akas /\ valid4d (ak_node k) /\ net (ak_node k) <> 0 /\
  (length d <= 100)%nat /\ TextChunks mm = [c] /\ line_of (own_via (ak_node k) d v) c /\ IsLoopMail akas mm = false.
Proof.
  set (k := AKA (N4 10000 10000 10000 10000) [] [] []).
  exists [k], (set_TextChunks mm0 [own_via (ak_node k) (lit "20240102.030405") (lit " II" ++ [13])]). do 2 eexists. exists (lit "20240102.030405"), (lit " II" ++ [13]).
  split; [repeat constructor; discriminate|]. split; [left; reflexivity|]. split; [repeat split; cbn; lia|]. split; [discriminate|]. split; [vm_compute; lia|]. split; [reflexivity|].
  split; [|vm_compute; reflexivity]. exists [], []. split; [rewrite app_nil_r; reflexivity|]. split; auto. left. exists (own_via (ak_node k) (lit "20240102.030405") (lit " II")). split; [vm_compute; reflexivity|]. vm_compute. intuition discriminate.
Qed.
Print Assumptions C50_long_refuted.

Example C50_nonvacuous :
  let k := AKA (N4 2 201 505 3) [] [] [] in
  let v := own_via (ak_node k) (lit "20240102.030405") (lit " II/Linux" ++ [13]) in
  let other := own_via (N4 2 201 506 3) (lit "20240102.030405") (lit " II/Linux" ++ [13]) in
  let text := lit "Hello" ++ [13] ++ other ++ v ++ lit "--" in
  line_of v text /\ (length (Print4D (ak_node k)) <= 19)%nat /\ IsLoopMail [k] (set_TextChunks mm0 [lit "x"; text]) = true /\
  IsLoopMail [k] (set_TextChunks mm0 [lit "Hello" ++ [13] ++ other ++ lit "Via 2:201/505.3 CrashMail" ++ [13]]) = false.
Proof.
  cbv zeta. split; [|split; [vm_compute; lia|split; vm_compute; reflexivity]].
  exists (lit "Hello" ++ [13] ++ own_via (N4 2 201 506 3) (lit "20240102.030405") (lit " II/Linux" ++ [13])), (lit "--"). split; [rewrite <- !app_assoc; reflexivity|].
  split; [right; exists (lit "Hello" ++ [13] ++ own_via (N4 2 201 506 3) (lit "20240102.030405") (lit " II/Linux")); vm_compute; reflexivity|].
  left. exists (own_via (N4 2 201 505 3) (lit "20240102.030405") (lit " II/Linux")). split; [vm_compute; reflexivity|]. vm_compute. intuition discriminate.
Qed.
