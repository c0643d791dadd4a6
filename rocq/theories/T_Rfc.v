(** C70: external filter commands get the message and decide what becomes of it. *)
From Verif Require Import Base M_Node4D S_Node4D P_Node4D M_Str P_Str M_Args P_Args M_Mem M_Cfg M_Fs P_Fs M_Pkt S_Pkt M_Net M_Echo M_Filter S_Filter T_Filter M_Msg S_Msg P_Msg P_MsgText T_Loop M_Rfc S_Rfc.

(** ** Control lines *)
Definition cr (l : list Z) : list Z := l ++ [13].
Lemma tillend_line l r : ~ In 13 l -> ~ In 10 l -> tillend (l ++ 13 :: r) = l.
Proof.
  induction l as [|c l IH]; intros H1 H2; [reflexivity|]. cbn [app tillend]. unfold isend. destruct (Z.eqb_spec c 13); [subst; exfalso; apply H1; left; auto|].
  destruct (Z.eqb_spec c 10); [subst; exfalso; apply H2; left; auto|]. cbn [orb]. rewrite IH; auto; intros G; [apply H1|apply H2]; right; auto.
Qed.
Lemma nth_mid (l : list Z) c r : nth_error (l ++ c :: r) (length l) = Some c.
Proof. rewrite nth_error_app2, Nat.sub_diag by lia. reflexivity. Qed.
Lemma skipn_mid (l : list Z) c r : skipn (S (length l)) (l ++ c :: r) = r.
Proof. induction l; [reflexivity|]. cbn [length app]. change (skipn (S (S (length l))) (a :: l ++ c :: r)) with (skipn (S (length l)) (l ++ c :: r)). auto. Qed.
Definition good (l : list Z) : Prop := ~ In 13 l /\ ~ In 10 l /\ ~ In 0 l /\ ~ In 1 (tl l) /\ (control l = true -> (length l <= 77)%nat).
Lemma kludges_ok ls : Forall good ls -> forall f mem, (length (concat (map cr ls)) < f)%nat -> rfckludges f (concat (map cr ls)) mem = Some (textfile (map as_header (control_lines ls))).
Proof.
  induction ls as [|l ls IH]; intros F f mem Hf; [destruct f; reflexivity|]. inversion F as [|? ? (G1 & G2 & G3 & G4 & G5) F']; subst. clear F.
  assert (E : concat (map cr (l :: ls)) = l ++ 13 :: concat (map cr ls)) by (cbn [map concat]; unfold cr at 1; rewrite <- app_assoc; reflexivity). rewrite E in *. clear E.
  rewrite app_length in Hf. cbn [length] in Hf. destruct f as [|f]; [lia|]. specialize (IH F' f mem ltac:(lia)). set (rest := concat (map cr ls)) in *. clearbody rest.
  assert (T : tillend (l ++ 13 :: rest) = l) by (apply tillend_line; auto).
  assert (N : nth_error ((l ++ 13 :: rest) ++ mem) (length l) = Some 13) by (rewrite <- app_assoc; apply nth_mid).
  destruct (l ++ 13 :: rest) as [|x t] eqn:E; [destruct l; discriminate|]. cbn [rfckludges]. rewrite T, N. cbn [obind]. change (isend 13) with true. cbn [app].
  replace (skipn (S (length l)) (x :: t)) with rest by (rewrite <- E; symmetry; apply skipn_mid). rewrite IH.
  destruct l as [|y l].
  - cbn [app] in E. injection E as <- <-. cbn. rewrite ?app_nil_r. unfold control_lines. reflexivity.
  - cbn [app] in E. injection E as <- <-. cbn [app] in N. destruct (Z.eqb_spec y 1) as [->|Ny].
    + specialize (G5 eq_refl). cbn [length] in *. unfold u32. rewrite Z.mod_small by lia. replace (Z.of_nat (S (S (length l))) - 2) with (Z.of_nat (length l)) by lia.
      destruct (Z.eqb_spec (Z.of_nat (length l)) 0) as [E0|E0].
      * destruct l; [|cbn [length] in E0; lia]. cbn [andb negb obind app]. unfold control_lines. cbn [filter control Z.eqb]. reflexivity.
      * cbn [andb negb app tl]. match goal with |- context [?u <=? ?v] => destruct (Z.leb_spec u v) as [L|L] end.
        2:{ rewrite !app_length in L. lia. }
        cbn [obind]. rewrite Nat2Z.id. replace (firstn (length l) ((l ++ 13 :: rest) ++ mem)) with l by (rewrite <- app_assoc, firstn_app, Nat.sub_diag, firstn_all, firstn_O, app_nil_r; reflexivity). unfold control_lines. cbn [filter control].
        change (1 =? 1) with true. cbn iota. cbn [filter]. destruct l as [|z l]; [cbn in E0; lia|]. cbn [map]. unfold textfile. cbn [map concat]. unfold as_header at 2. cbn [tl]. rewrite <- !app_assoc. reflexivity.
    + cbn [andb obind app]. unfold control_lines. cbn [filter control]. destruct (Z.eqb_spec y 1); [contradiction|]. reflexivity.
Qed.

(** ** Text *)
Lemma lastblank_spec s : forall i fd, (~ In 32 s /\ lastblank i s fd = fd) \/ exists a b, s = a ++ 32 :: b /\ ~ In 32 b /\ lastblank i s fd = (i + length a)%nat.
Proof.
  induction s as [|c s IH]; intros i fd; [left; auto|]. cbn [lastblank]. destruct (IH (S i) (if c =? 32 then i else fd)) as [(N & E)|(a & b & -> & N & E)].
  - destruct (Z.eqb_spec c 32) as [->|Nc].
    + right. exists [], s. split; [reflexivity|]. split; auto. rewrite E. cbn [length]. lia.
    + left. split; auto. intros [H|H]; auto.
  - right. exists (c :: a), b. split; [reflexivity|]. split; auto. rewrite E. cbn [length]. lia.
Qed.
Lemma tillcr_short l r n : ~ In 13 l -> (length l < n)%nat -> tillcr n (l ++ 13 :: r) = l.
Proof. revert n. induction l as [|c l IH]; intros [|n] H L; cbn [length] in L; try lia; try reflexivity. cbn [app tillcr]. destruct (Z.eqb_spec c 13); [subst; exfalso; apply H; left; auto|]. rewrite IH; auto; [intros G; apply H; right; auto|lia]. Qed.
Lemma tillcr_long l r n : ~ In 13 l -> (n <= length l)%nat -> tillcr n (l ++ r) = firstn n l.
Proof. revert n. induction l as [|c l IH]; intros [|n] H L; cbn [length] in L; try lia; try reflexivity. cbn [app tillcr firstn]. destruct (Z.eqb_spec c 13); [subst; exfalso; apply H; left; auto|]. rewrite IH; auto; [intros G; apply H; right; auto|lia]. Qed.
Lemma cstr_id l : ~ In 0 l -> cstr l = l.
Proof. induction l as [|c l IH]; intros H; [reflexivity|]. cbn [cstr]. destruct (Z.eqb_spec c 0); [subst; exfalso; apply H; left; auto|]. rewrite IH; auto. intros G; apply H; right; auto. Qed.
Lemma leadlf_line l r : ~ In 10 l -> leadlf (l ++ 13 :: r) = O.
Proof. intros H. destruct l as [|c l]; [reflexivity|]. cbn [app leadlf]. destruct (Z.eqb_spec c 10); [subst; exfalso; apply H; left; auto|reflexivity]. Qed.
Lemma notin_part (x : Z) l a b : l = a ++ b -> ~ In x l -> ~ In x a /\ ~ In x b.
Proof. intros -> H. split; intros G; apply H, in_or_app; auto. Qed.
Definition shown (l : list Z) : list Z := match l with 1 :: _ => [] | _ => l ++ [10] end.
(** one round *)
Lemma body_round f l rest mem : ~ In 13 l -> ~ In 10 l ->
  rfcbody (S f) (l ++ 13 :: rest) mem =
  let line := tillcr 78 (l ++ 13 :: rest) in let sp := lastblank 0 line 0 in
  do st <- (if Nat.eqb (length line) 78 && negb (Nat.eqb sp 0) then Some (firstn sp line, S sp)
            else do e <- nth_error ((l ++ 13 :: rest) ++ mem) (length line); Some (line, if e =? 13 then S (length line) else length line));
  do r <- rfcbody f (skipn (snd st) (l ++ 13 :: rest)) mem; Some (shown (cstr (fst st)) ++ r).
Proof.
  intros H1 H2. assert (K : leadlf ((l ++ 13 :: rest) ++ mem) = O) by (rewrite <- app_assoc; apply leadlf_line; auto).
  destruct (l ++ 13 :: rest) as [|x t] eqn:E; [destruct l; discriminate|]. cbn [rfcbody]. rewrite K. cbn [app nth_error obind skipn Nat.sub]. reflexivity.
Qed.
Lemma shown_text l : ~ In 1 l -> shown l = l ++ [10].
Proof. destruct l as [|c l]; intros H; [reflexivity|]. unfold shown. destruct c as [|[| |]|]; try reflexivity. exfalso. apply H. left. auto. Qed.
Lemma body_control (l rest mem : list Z) f R : good l -> control l = true -> Nat.lt (length (l ++ 13 :: rest)) (S f) -> rfcbody f rest mem = Some R -> rfcbody (S f) (l ++ 13 :: rest) mem = Some R.
Proof.
  intros (G1 & G2 & G3 & G4 & G5) Hc Hf HR. specialize (G5 Hc). rewrite body_round by auto. cbn zeta. rewrite tillcr_short by (auto; lia).
  destruct (Nat.eqb_spec (length l) 78); [lia|]. cbn [andb]. rewrite <- app_assoc. cbn [app]. rewrite nth_mid. cbn [obind fst snd]. change (13 =? 13) with true. cbn iota.
  rewrite skipn_mid, HR. cbn [obind]. rewrite cstr_id by auto. destruct l as [|c l]; [discriminate|]. cbn [control] in Hc. apply Z.eqb_eq in Hc as ->. reflexivity.
Qed.
Lemma body_text n : forall l rest mem R, (length l <= n)%nat -> ~ In 13 l -> ~ In 10 l -> ~ In 0 l -> ~ In 1 l ->
  (forall f, (length rest < f)%nat -> rfcbody f rest mem = Some R) -> exists ps, broken_line l ps /\ forall f, Nat.lt (length (l ++ 13 :: rest)) f -> rfcbody f (l ++ 13 :: rest) mem = Some (textfile ps ++ R).
Proof.
  induction n as [n IH] using lt_wf_ind. intros l rest mem R Hn G1 G2 G3 G4 HR. destruct (le_lt_dec 78 (length l)) as [L|L].
  2:{ exists [l]. split; [split; [apply br_whole; lia|auto]|]. intros [|f] Hf; [lia|]. rewrite body_round by auto. cbn zeta.
      rewrite tillcr_short by (auto; lia). destruct (Nat.eqb_spec (length l) 78); [lia|]. cbn [andb]. rewrite <- app_assoc. cbn [app]. rewrite nth_mid. cbn [obind fst snd]. change (13 =? 13) with true. cbn iota.
      rewrite skipn_mid, HR by (rewrite app_length in Hf; cbn [length] in Hf; lia). cbn [obind]. rewrite cstr_id, shown_text by auto. unfold textfile. cbn [map concat]. rewrite app_nil_r. reflexivity. }
  assert (Hl : length (firstn 78 l) = 78%nat) by (rewrite firstn_length; lia).
  assert (Hsplit : l = firstn 78 l ++ skipn 78 l) by (symmetry; apply firstn_skipn).
  assert (Hard : lastblank 0 (firstn 78 l) 0 = O -> ~ In 32 (tl (firstn 78 l)) -> exists ps, broken_line l ps /\ forall f, Nat.lt (length (l ++ 13 :: rest)) f -> rfcbody f (l ++ 13 :: rest) mem = Some (textfile ps ++ R)).
  { intros Hb Nt. destruct (notin_part 13 l _ _ Hsplit G1) as [_ P1]. destruct (notin_part 10 l _ _ Hsplit G2) as [_ P2]. destruct (notin_part 0 l _ _ Hsplit G3) as [Q3 P3]. destruct (notin_part 1 l _ _ Hsplit G4) as [Q4 P4].
    destruct (skipn 78 l) as [|e t] eqn:Et.
    - assert (El : length l = 78%nat) by (apply (f_equal (@length Z)) in Et; rewrite skipn_length in Et; cbn [length] in Et; lia). rewrite app_nil_r in Hsplit.
      exists [l]. split; [split; [apply br_whole; lia|lia]|]. intros [|f] Hf; [lia|]. rewrite body_round by auto. cbn zeta. rewrite tillcr_long by (auto; lia). rewrite Hb, Hl, Nat.eqb_refl. cbn [andb Nat.eqb negb].
      rewrite <- El at 1. rewrite <- app_assoc. cbn [app]. rewrite nth_mid. cbn [obind fst snd]. change (13 =? 13) with true. cbn iota. rewrite <- El, skipn_mid, HR by (rewrite app_length in Hf; cbn [length] in Hf; lia).
      cbn [obind]. rewrite firstn_all, cstr_id, shown_text by auto. unfold textfile. cbn [map concat]. rewrite app_nil_r. reflexivity.
    - assert (Lt : (length l = 78 + length (e :: t))%nat) by (rewrite <- Et, skipn_length; lia). cbn [length] in Lt.
      destruct (IH (length (e :: t)) ltac:(cbn [length]; lia) (e :: t) rest mem R) as (ps & B & Hr); auto.
      exists (firstn 78 l :: ps). split; [split; [rewrite Hsplit at 1; apply br_hard; auto; apply B|lia]|]. intros [|f] Hf; [lia|]. rewrite body_round by auto. cbn zeta. rewrite tillcr_long by (auto; lia). rewrite Hb, Hl, Nat.eqb_refl. cbn [andb Nat.eqb negb].
      assert (Ne : nth_error ((l ++ 13 :: rest) ++ mem) 78 = Some e). { rewrite Hsplit, <- !app_assoc. rewrite nth_error_app2 by lia. rewrite Hl, Nat.sub_diag. reflexivity. }
      rewrite Ne. cbn [obind fst snd]. destruct (Z.eqb_spec e 13); [subst; exfalso; apply P1; left; auto|].
      assert (Es : skipn 78 (l ++ 13 :: rest) = (e :: t) ++ 13 :: rest) by (rewrite skipn_app, Et; replace (78 - length l)%nat with O by lia; reflexivity). rewrite Es.
      rewrite Hr by (rewrite app_length in Hf |- *; cbn [length] in Hf |- *; lia). cbn [obind]. rewrite cstr_id, shown_text by auto. unfold textfile. cbn [map concat]. rewrite <- !app_assoc. reflexivity. }
  destruct (lastblank_spec (firstn 78 l) 0 0) as [(N & Hb)|(a & b & E & N & Hb)].
  - apply Hard; auto. intros G. apply N. destruct (firstn 78 l); [destruct G|right; exact G].
  - destruct (Nat.eqb_spec (length a) 0) as [Ea|Ea]; [apply Hard; [lia|destruct a; [|cbn in Ea; lia]; rewrite E; exact N]|].
    assert (El : l = a ++ 32 :: (b ++ skipn 78 l)) by (rewrite Hsplit at 1; rewrite E, <- app_assoc; reflexivity). set (t := b ++ skipn 78 l) in *. clearbody t.
    assert (La : (length a <= 77)%nat) by (rewrite E, app_length in Hl; cbn [length] in Hl; lia).
    assert (Es : skipn (S (length a)) (l ++ 13 :: rest) = t ++ 13 :: rest) by (rewrite El, <- app_assoc; cbn [app]; apply skipn_mid).
    destruct (notin_part 13 l _ _ El G1) as [_ P1]. destruct (notin_part 10 l _ _ El G2) as [_ P2]. destruct (notin_part 0 l _ _ El G3) as [Q3 P3]. destruct (notin_part 1 l _ _ El G4) as [Q4 P4].
    assert (Lt : (length l = length a + S (length t))%nat) by (rewrite El at 1; rewrite app_length; reflexivity).
    destruct (IH (length t) ltac:(lia) t rest mem R) as (ps & B & Hr); auto; try (intros G; solve [apply P1; right; exact G | apply P2; right; exact G | apply P3; right; exact G | apply P4; right; exact G]).
    exists (a :: ps). split; [split; [rewrite El; apply br_blank; auto; apply B|lia]|]. intros [|f] Hf; [lia|]. rewrite body_round by auto. cbn zeta. rewrite tillcr_long by (auto; lia). rewrite Hl, Nat.eqb_refl, Hb. cbn [Nat.add].
    destruct (Nat.eqb_spec (length a) 0); [lia|]. cbn [andb negb obind fst snd]. rewrite E, firstn_app, Nat.sub_diag, firstn_all. cbn [firstn]. rewrite app_nil_r, Es.
    rewrite Hr by (rewrite app_length in Hf |- *; cbn [length] in Hf |- *; lia). cbn [obind]. rewrite cstr_id, shown_text by auto. unfold textfile. cbn [map concat]. rewrite <- !app_assoc. reflexivity.
Qed.
Lemma body_ok ls : Forall good ls -> forall mem, exists pss, Forall2 broken_line (text_lines ls) pss /\ forall f, (length (concat (map cr ls)) < f)%nat -> rfcbody f (concat (map cr ls)) mem = Some (textfile (concat pss)).
Proof.
  induction ls as [|l ls IH]; intros F mem; [exists []; split; [constructor|intros [|f] _; reflexivity]|]. inversion F as [|? ? G F']; subst. clear F.
  assert (E : concat (map cr (l :: ls)) = l ++ 13 :: concat (map cr ls)) by (cbn [map concat]; unfold cr at 1; rewrite <- app_assoc; reflexivity). rewrite E. clear E.
  destruct (IH F' mem) as (pss & B & Hr). set (rest := concat (map cr ls)) in *. clearbody rest. unfold text_lines in *. cbn [filter]. destruct (control l) eqn:Ec.
  - cbn [negb]. exists pss. split; auto. intros [|f] Hf; [lia|]. apply body_control; auto. apply Hr. rewrite app_length in Hf. cbn [length] in Hf. lia.
  - cbn [negb]. destruct G as (G1 & G2 & G3 & G4 & _). assert (N1 : ~ In 1 l). { destruct l as [|c l]; [auto|]. cbn [control] in Ec. apply Z.eqb_neq in Ec. intros [H|H]; [congruence|auto]. }
    destruct (body_text (length l) l rest mem (textfile (concat pss))) as (ps & B1 & H1); auto. exists (ps :: pss). split; [constructor; auto|]. intros f Hf. rewrite H1 by auto. f_equal.
    unfold textfile. cbn [concat]. rewrite map_app, concat_app. reflexivity.
Qed.

(** ** All chunks *)
Lemma lines_chunks mm ls : lines_of mm ls -> exists lss, rev (TextChunks mm) = map (fun l => concat (map cr l)) lss /\ concat lss = ls.
Proof.
  intros (lss & (E & _) & C). rewrite E. clear E. revert ls C. induction lss as [|x lss IH]; intros ls C; [destruct ls; [exists []; auto|discriminate]|].
  cbn [concat map] in C |- *. destruct (map_eq_app _ _ _ _ (eq_sym C)) as (l1 & l2 & -> & E1 & E2). destruct (IH l2 (eq_sym E2)) as (r & Er & Ec). exists (l1 :: r). cbn [map concat]. rewrite Er, Ec. subst x. auto.
Qed.
Lemma chunks_kludges behind lss : Forall good (concat lss) -> overchunks (fun c => rfckludges (S (length c)) c (behind c)) (map (fun l => concat (map cr l)) lss) = Some (textfile (map as_header (control_lines (concat lss)))).
Proof.
  induction lss as [|x lss IH]; intros F; [reflexivity|]. cbn [map overchunks concat] in *. apply Forall_app in F as [F1 F2]. rewrite kludges_ok by (auto; lia). cbn [obind]. rewrite IH by auto. cbn [obind].
  f_equal. unfold control_lines. rewrite !filter_app, map_app. unfold textfile. rewrite map_app, concat_app. reflexivity.
Qed.
Lemma chunks_body behind lss : Forall good (concat lss) -> exists pss, Forall2 broken_line (text_lines (concat lss)) pss /\ overchunks (fun c => rfcbody (S (length c)) c (behind c)) (map (fun l => concat (map cr l)) lss) = Some (textfile (concat pss)).
Proof.
  induction lss as [|x lss IH]; intros F; [exists []; split; [constructor|reflexivity]|]. cbn [map overchunks concat] in *. apply Forall_app in F as [F1 F2]. destruct (IH F2) as (pss & B & Hr).
  destruct (body_ok x F1 (behind (concat (map cr x)))) as (ps & B1 & H1). rewrite H1 by lia. cbn [obind]. rewrite Hr. cbn [obind]. exists (ps ++ pss). split.
  - unfold text_lines in *. rewrite filter_app. apply Forall2_app; auto.
  - rewrite concat_app. unfold textfile. rewrite map_app, concat_app. reflexivity.
Qed.

(** ** Addresses *)
Lemma domain_ok akas dest : domain_for akas dest (rfcdomain akas dest).
Proof.
  unfold rfcdomain. assert (C : forall a, (Compare4D dest (ak_node a) =? 0) = true <-> same_node dest (ak_node a)). { intros a. rewrite Z.eqb_eq, compare_zero_iff. unfold same_node. tauto. }
  assert (D : match find (fun a => Compare4D dest (ak_node a) =? 0) akas with
    | Some a => exists l1 l2, akas = l1 ++ a :: l2 /\ same_node dest (ak_node a) /\ forall b, In b l1 -> ~ same_node dest (ak_node b) | None => forall a, In a akas -> ~ same_node dest (ak_node a) end).
  { induction akas as [|a r IH]; [intros b []|]. cbn [find]. destruct (Compare4D dest (ak_node a) =? 0) eqn:E.
    - exists [], r. split; [reflexivity|]. split; [apply C; auto|intros b []].
    - assert (N : ~ same_node dest (ak_node a)) by (rewrite <- C; congruence). destruct (find _ r) as [b|].
      + destruct IH as (l1 & l2 & -> & S & F). exists (a :: l1), l2. split; [reflexivity|]. split; auto. intros x [<-|Hx]; auto.
      + intros x [<-|Hx]; auto. }
  destruct (find _ akas) as [a|]; [|apply df_other; auto]. destruct D as (l1 & l2 & E & S & F). destruct (ak_domain a) as [|c d] eqn:Ed; [eapply df_none; eauto|]. rewrite <- Ed. eapply df_own; eauto. congruence.
Qed.
Definition short_domains (akas : list aka) : Prop := Forall (fun a => (length (ak_domain a) <= 19)%nat) akas.
Lemma domain_short akas dest : short_domains akas -> (length (rfcdomain akas dest) <= 19)%nat.
Proof.
  intros F. unfold rfcdomain. destruct (find _ akas) as [a|] eqn:E; [|cbn; lia]. apply find_some in E as [E _]. unfold short_domains in F. rewrite Forall_forall in F. specialize (F _ E). destruct (ak_domain a); [cbn; lia|auto].
Qed.
Lemma tolower_idem c : tolower (tolower c) = tolower c.
Proof. unfold tolower. destruct ((65 <=? c) && (c <=? 90)) eqn:E; [|rewrite E; reflexivity]. destruct ((65 <=? c + 32) && (c + 32 <=? 90)) eqn:E2; auto. apply andb_true_iff in E as [E1 E3]. apply andb_true_iff in E2 as [E4 E5]. lia. Qed.
Lemma inet_ok d : (if streqi (map tolower d) (lit "fidonet") then lit "fidonet.org" else map tolower d) = inet_domain d.
Proof.
  unfold inet_domain. destruct (streqi (map tolower d) (lit "fidonet")) eqn:E.
  - apply streqi_spec in E. rewrite map_map in E. rewrite (map_ext _ tolower tolower_idem) in E. destruct (list_eq_dec Z.eq_dec _ _); auto. exfalso. apply n. exact E.
  - destruct (list_eq_dec Z.eq_dec _ _) as [Ed|]; auto. assert (T : streqi (map tolower d) (lit "fidonet") = true) by (apply streqi_spec; rewrite Ed; reflexivity). congruence.
Qed.
Lemma fits_ok n s : (length s < n)%nat -> fits n s = Some s.
Proof. intros H. unfold fits. destruct (Nat.ltb_spec (length s) n); [reflexivity|lia]. Qed.
Lemma inet_short d : (length d <= 19)%nat -> (length (inet_domain d) <= 19)%nat.
Proof. intros H. unfold inet_domain. destruct (list_eq_dec _ _ _); [cbn; lia|rewrite map_length; auto]. Qed.
Lemma addr_ok inet name n d : (length name <= 35)%nat -> (length d <= 19)%nat -> valid4d n ->
  (if inet : bool then MakeRFCAddr name n d else fits 100 (addr4 n ++ lit "@" ++ d)) = Some (address inet name n d).
Proof.
  intros Hn Hd (V1 & V2 & V3 & V4). pose proof (dec_length_u16 _ V1). pose proof (dec_length_u16 _ V2). pose proof (dec_length_u16 _ V3). pose proof (dec_length_u16 _ V4). pose proof (inet_short d Hd). destruct inet.
  - unfold MakeRFCAddr. rewrite (fits_ok 50 d), (fits_ok 50 name) by lia. cbn [obind]. rewrite inet_ok. unfold address, inet_addr. fold (under name).
    assert (Lu : length (under name) = length name) by apply map_length.
    replace (if negb (point n =? 0) then lit "p" ++ dec (point n) ++ lit "." else []) with (if point n =? 0 then [] else lit "p" ++ dec (point n) ++ lit ".") by (destruct (point n =? 0); reflexivity).
    apply fits_ok. rewrite !app_length. rewrite Lu. assert (Lp : Nat.le (length (if point n =? 0 then [] else lit "p" ++ dec (point n) ++ lit ".")) 7) by (destruct (point n =? 0); [cbn; lia|rewrite !app_length; change (length (lit "p")) with 1%nat; change (length (lit ".")) with 1%nat; lia]).
    change (length (lit "@")) with 1%nat. change (length (lit "f")) with 1%nat. change (length (lit ".n")) with 2%nat. change (length (lit ".z")) with 2%nat. change (length (lit ".")) with 1%nat. lia.
  - unfold address, fido_addr, addr4. rewrite <- !app_assoc. apply fits_ok. rewrite !app_length.
    change (length (lit "@")) with 1%nat. change (length (lit ":")) with 1%nat. change (length (lit "/")) with 1%nat. change (length (lit ".")) with 1%nat. lia.
Qed.

(** ** The files *)
(** the message a command can get: fields as long as they can be, lines without LF and NUL,
    control lines of at most 77 characters *)
Record handed (cfg : excfg) (mm : memmsg) (ls : list (list Z)) : Prop := {
  ha_hdr : hdr_ok mm;
  ha_domains : short_domains (ex_akas cfg);
  ha_lines : lines_of mm ls;
  ha_good : Forall (fun l => ~ In 10 l /\ ~ In 0 l /\ (control l = true -> (length l <= 77)%nat)) ls }.
Lemma handed_good cfg mm ls : handed cfg mm ls -> Forall good ls.
Proof.
  intros [_ _ (lss & (_ & W) & C) G]. assert (I : Forall isline (map (fun l => l ++ [13]) ls)).
  { rewrite <- C. clear -W. induction W; cbn [concat]; [constructor|apply Forall_app; auto]. }
  rewrite Forall_forall in *. intros l Hl. destruct (G _ Hl) as (G1 & G2 & G3). destruct (I (l ++ [13])) as (b & E & B1 & B2); [apply in_map_iff; eauto|]. apply app_inj_tail in E as [<- _]. repeat split; auto.
Qed.
Theorem C70_rfc : forall cfg behind mm ls inet, handed cfg mm ls -> exists d pss, domain_for (ex_akas cfg) (DestNode mm) d /\ Forall2 broken_line (text_lines ls) pss /\
  rfcbytes cfg behind mm inet = Some (textfile (headers inet d mm ++ map as_header (control_lines ls) ++ [[]] ++ concat pss)).
Proof.
  intros cfg behind mm ls inet H. pose proof (handed_good _ _ _ H) as G. destruct H as [Hh Hd Hl _]. destruct (lines_chunks _ _ Hl) as (lss & E & <-).
  exists (rfcdomain (ex_akas cfg) (DestNode mm)). destruct (chunks_body behind lss G) as (pss & B & Hb). exists pss. split; [apply domain_ok|]. split; auto.
  unfold rfcbytes. cbn zeta. destruct Hh as (_ & (_ & H1) & (_ & H2) & _ & _ & _ & V1 & V2).
  rewrite !addr_ok; auto; try (apply domain_short; auto). cbn [obind]. rewrite E, chunks_kludges by auto. cbn [obind]. rewrite Hb. cbn [obind]. f_equal.
  unfold headers, textfile. rewrite !map_app, !concat_app. cbn [map concat app]. rewrite <- !app_assoc. cbn [app].
  destruct (MSGID mm), (REPLY mm); cbn [map concat app]; repeat (cbn [app]; rewrite <- ?app_assoc); reflexivity.
Qed.
Print Assumptions C70_rfc.

(** The stored message: its fields and text, marked as sent *)
Theorem C70_msg : forall cfg junk mm data, length junk = 190%nat -> hdr_ok mm -> WriteMSG_bytes cfg junk mm = Some data ->
  fieldtext data 0 36 = From mm /\ fieldtext data 36 36 = To mm /\ fieldtext data 72 72 = Subject mm /\ fieldtext data 144 20 = DateTime mm /\
  get16 data 170 = Cost mm /\ attr_of data = Z.lor (Attr mm) 8 /\ exists rest, skipn 190 data = mmtext mm ++ rest.
Proof.
  intros cfg junk mm data Hj Hh H. unfold WriteMSG_bytes in H. set (m2 := set_Attr mm (Z.lor (Attr mm) FLAG_SENT)) in *.
  assert (H2 : hdr_ok m2).
  { destruct Hh as (A1 & A2 & A3 & A4 & A5 & A6 & A7 & A8). repeat split; try apply A1; try apply A2; try apply A3; try apply A4; try apply A6; try apply A7; try apply A8; cbn [m2 set_Attr Attr]; unfold is_u16 in *; change FLAG_SENT with 8.
    - apply Z.lor_nonneg. lia.
    - destruct (Z.eq_dec (Z.lor (Attr mm) 8) 0) as [E|E]; [lia|]. apply Z.log2_lt_cancel. assert (B : 0 <= Attr mm) by lia. rewrite Z.log2_lor by lia. change (Z.log2 65536) with 16. change (Z.log2 8) with 3. apply Z.max_lub_lt; [|lia].
      destruct (Z.eq_dec (Attr mm) 0) as [->|E2]; [reflexivity|]. apply Z.log2_lt_pow2; lia. }
  destruct (stored_fields _ _ _ _ Hj H2 H) as (F1 & F2 & F3 & F4 & F5 & F6). repeat (split; [assumption|]).
  unfold storedmsg in H. destruct (if flag _ _ && _ then mmMakeSeenByBuf (SeenBy m2) else Some []); [|discriminate]. injection H as <-.
  rewrite <- (mkstored_length junk (From m2) (To m2) (Subject m2) (DateTime m2) (words_of m2) Hj eq_refl), skipn_exact. eexists. reflexivity.
Qed.
Print Assumptions C70_msg.

(** ** The command *)
Lemma lor32 : forallb (fun x => forallb (fun y => Bool.eqb (Z.lor x 32 =? y) ((x =? y) || (x =? y - 32))) [109; 115; 120; 102; 116; 111; 100]) (map Z.of_nat (seq 0 256)) = true.
Proof. vm_compute. reflexivity. Qed.
Lemma lor32_byte x y : 0 <= x < 256 -> In y [109; 115; 120; 102; 116; 111; 100] -> (Z.lor x 32 =? y) = (x =? y) || (x =? y - 32).
Proof.
  intros Hx Hy. pose proof lor32 as H. rewrite forallb_forall in H. specialize (H x). assert (I : In x (map Z.of_nat (seq 0 256))) by (apply in_map_iff; exists (Z.to_nat x); split; [lia|apply in_seq; lia]).
  specialize (H I). rewrite forallb_forall in H. apply Bool.eqb_prop, H, Hy.
Qed.
Definition lookup (tab : list (list Z * list Z)) (x : Z) : option (list Z) := option_map snd (find (fun p => existsb (Z.eqb x) (fst p)) tab).
Lemma letter_lookup mm fr fR fm x : 0 <= x < 256 -> expandletter mm fr fR fm x = lookup (letters mm fr fR fm) x.
Proof.
  intros Hx. unfold expandletter, lookup, letters. rewrite !lor32_byte by (auto; cbn; tauto). cbn [find fst snd existsb lit Z.sub].
  change (map (fun c => Z.of_nat (nat_of_ascii c))) with (map (fun c => Z.of_nat (nat_of_ascii c))).
  repeat match goal with |- context [existsb (Z.eqb x) ?l] => let l' := eval vm_compute in l in change l with l'; cbn [existsb] end.
  rewrite ?orb_false_r. change (109 - 32) with 77. change (115 - 32) with 83. change (120 - 32) with 88. change (102 - 32) with 70. change (116 - 32) with 84. change (111 - 32) with 79. change (100 - 32) with 68.
  repeat match goal with |- context [if ?b then _ else _] => destruct b; [reflexivity|] end. reflexivity.
Qed.
Lemma lookup_in tab x t : lookup tab x = Some t -> exists cs, In (cs, t) tab /\ In x cs.
Proof. unfold lookup. destruct (find _ tab) as [[cs u]|] eqn:E; [|discriminate]. cbn. intros H. injection H as <-. apply find_some in E as [I E]. cbn [fst] in E. apply existsb_exists in E as (y & Hy & Ey). apply Z.eqb_eq in Ey as ->. eauto. Qed.
Lemma letters_lookup mm fr fR fm x cs t : In (cs, t) (letters mm fr fR fm) -> In x cs -> lookup (letters mm fr fR fm) x = Some t.
Proof.
  unfold letters. intros H Hx. repeat (destruct H as [H|H]; [injection H as <- <-; vm_compute in Hx; repeat (destruct Hx as [<-|Hx]; [reflexivity|]); destruct Hx|]). destruct H.
Qed.
Lemma lookup_none tab x : (forall cs t, In (cs, t) tab -> ~ In x cs) -> lookup tab x = None.
Proof. intros H. destruct (lookup tab x) as [t|] eqn:E; auto. apply lookup_in in E as (cs & I & J). exfalso. exact (H _ _ I J). Qed.
Lemma mentions_tl c x r : mentions x r -> mentions x (c :: r).
Proof. intros (a & b & ->). exists (c :: a), b. reflexivity. Qed.
Lemma expand_ok mm fr fR fm letter cmd out : expanded (letters mm fr fR fm) cmd out -> (forall x, mentions x cmd -> letter x = lookup (letters mm fr fR fm) x) ->
  forall dest, (length dest + length out <= 399)%nat -> expandloop 400 letter cmd dest = Some (dest ++ out).
Proof.
  set (tab := letters mm fr fR fm). induction 1 as [| |c r o Nc E IH|x r o cs t I J E IH|x r o N E IH]; intros HL dest Hd.
  - cbn [length] in Hd. cbn [expandloop]. destruct (Nat.ltb_spec (length dest) 400); [rewrite app_nil_r; reflexivity|lia].
  - cbn [length] in Hd. cbn [expandloop]. rewrite app_length. cbn [length]. destruct (Nat.ltb_spec (length dest) 400); [|lia]. destruct (Nat.ltb_spec (length dest + 1) 400); [reflexivity|lia].
  - cbn [length] in Hd. assert (K : expandloop 400 letter r (dest ++ [c]) = Some (dest ++ c :: o)).
    { rewrite IH; [rewrite <- app_assoc; reflexivity|intros x Hx; apply HL, mentions_tl; auto|rewrite app_length; cbn [length]; lia]. }
    cbn [expandloop]. destruct (Nat.ltb_spec (length dest) 400); [|lia]. apply Z.eqb_neq in Nc. rewrite Nc. destruct r; exact K.
  - rewrite app_length in Hd. cbn [expandloop]. change (37 =? 37) with true. cbn iota. rewrite HL by (exists [], r; reflexivity). unfold tab. rewrite (letters_lookup _ _ _ _ _ _ _ I J). destruct (Nat.ltb_spec (length dest) 400); [|lia].
    rewrite firstn_all2 by (rewrite app_length; change (400 - 1)%nat with 399%nat; lia). rewrite IH; [rewrite <- app_assoc; reflexivity|intros y Hy; apply HL; do 2 apply mentions_tl; auto|rewrite app_length; lia].
  - cbn [length] in Hd. cbn [expandloop]. change (37 =? 37) with true. cbn iota. rewrite HL by (exists [], r; reflexivity). rewrite (lookup_none _ _ N). destruct (Nat.ltb_spec (length dest) 400); [|lia].
    rewrite IH; [rewrite <- app_assoc; reflexivity|intros y Hy; apply HL; do 2 apply mentions_tl; auto|rewrite app_length; cbn [length]; lia].
Qed.
Lemma mentions_contains x cmd : contains [37; x] cmd = true <-> mentions x cmd.
Proof. rewrite contains_iff. unfold mentions. cbn [app]. tauto. Qed.
Lemma letter_tmp mm sys cmd x : cstring cmd -> ~ mentions 77 cmd -> mentions x cmd ->
  expandletter mm (tmp (contains (lit "%r") cmd) (es_r sys)) (tmp (contains (lit "%R") cmd) (es_R sys)) (tmp (contains (lit "%m") cmd) (es_m sys)) x = lookup (letters mm (es_r sys) (es_R sys) (es_m sys)) x.
Proof.
  intros Hc NM Hx. assert (Bx : 0 <= x < 256). { destruct Hx as (a & b & ->). apply Forall_app in Hc as [_ Hc]. apply Forall_inv_tail, Forall_inv in Hc. lia. }
  rewrite letter_lookup by auto. change (lit "%r") with [37; 114]. change (lit "%R") with [37; 82]. change (lit "%m") with [37; 109].
  destruct (lookup (letters mm (es_r sys) (es_R sys) (es_m sys)) x) as [t|] eqn:E.
  - apply lookup_in in E as (cs & I & J).
    assert (K : exists t', In (cs, t') (letters mm (tmp (contains [37; 114] cmd) (es_r sys)) (tmp (contains [37; 82] cmd) (es_R sys)) (tmp (contains [37; 109] cmd) (es_m sys))) /\ t' = t).
    { unfold letters in I |- *. repeat (destruct I as [I|I]; [injection I as <- <-|]); try destruct I.
      all: try (eexists; split; [|reflexivity]; cbn [In]; tauto).
      - vm_compute in J. destruct J as [<-|[]]. rewrite (proj2 (mentions_contains 114 cmd) Hx). eexists; split; [|reflexivity]; cbn [In tmp]; tauto.
      - vm_compute in J. destruct J as [<-|[]]. rewrite (proj2 (mentions_contains 82 cmd) Hx). eexists; split; [|reflexivity]; cbn [In tmp]; tauto.
      - vm_compute in J. destruct J as [<-|[<-|[]]]; [|contradiction]. rewrite (proj2 (mentions_contains 109 cmd) Hx). eexists; split; [|reflexivity]; cbn [In tmp]; tauto. }
    destruct K as (t' & I' & ->). eapply letters_lookup; eauto.
  - apply lookup_none. intros cs t I J.
    assert (K : exists t', In (cs, t') (letters mm (es_r sys) (es_R sys) (es_m sys))).
    { unfold letters in I |- *. repeat (destruct I as [I|I]; [injection I as <- <-; eexists; cbn [In]; repeat first [left; reflexivity | right] |]). destruct I. }
    destruct K as (t' & I'). rewrite (letters_lookup _ _ _ _ _ _ _ I' J) in E. discriminate.
Qed.

(** what the system does: names that are not used twice, and room for the files *)
Record willing (sys : exsys) : Prop := {
  wi_rR : es_r sys <> es_R sys; wi_rm : es_r sys <> es_m sys; wi_Rm : es_R sys <> es_m sys;
  wi_wr : es_wr sys = WOk; wi_wR : es_wR sys = WOk; wi_wm : es_wm sys = WOk; wi_junk : length (es_junk sys) = 190%nat }.
(** The command is run once, with every %x replaced; where it names files these hold the
    message; no other file is touched, and the files are gone afterwards. The message
    stays as it is, but it is killed exactly if the command's exit status is 0, and the work
    goes on exactly if it is below 20. *)
Theorem C70_run : forall cfg behind sys run fs mm ls cmd out msg, handed cfg mm ls -> willing sys -> cstring cmd -> ~ mentions 77 cmd ->
  expanded (letters mm (es_r sys) (es_R sys) (es_m sys)) cmd out -> (length out <= 399)%nat -> WriteMSG_bytes cfg (es_junk sys) mm = Some msg ->
  exists r rfc inet, Filter_Execute cfg behind sys run fs mm cmd = Some r /\ xr_cmd r = out /\
    rfcbytes cfg behind mm false = Some rfc /\ rfcbytes cfg behind mm true = Some inet /\
    (mentions 114 cmd -> fget (xr_before r) (es_r sys) = Some rfc) /\ (mentions 82 cmd -> fget (xr_before r) (es_R sys) = Some inet) /\ (mentions 109 cmd -> fget (xr_before r) (es_m sys) = Some msg) /\
    (forall name, let temp := (mentions 114 cmd /\ name = es_r sys) \/ (mentions 82 cmd /\ name = es_R sys) \/ (mentions 109 cmd /\ name = es_m sys) in
       (~ temp -> fget (xr_before r) name = fget fs name /\ fget (xr_disk r) name = fget (fst (run (xr_before r) out)) name) /\ (temp -> fget (xr_disk r) name = None)) /\
    (let status := Z.shiftr (snd (run (xr_before r) out)) 8 mod 256 in
      xr_mm r = (if status =? 0 then set_Flags mm (Z.lor (Flags mm) 64) else mm) /\ (xr_on r = true <-> status < 20)).
Proof.
  intros cfg behind sys run fs mm ls cmd out msg Hh [W1 W2 W3 W4 W5 W6 W7] Hc NM Hx Hl Hm.
  destruct (C70_rfc cfg behind mm ls false Hh) as (d1 & p1 & _ & _ & R1). destruct (C70_rfc cfg behind mm ls true Hh) as (d2 & p2 & _ & _ & R2).
  set (rfc := textfile _) in R1. set (inet := textfile _) in R2. clearbody rfc inet. clear d1 p1 d2 p2.
  unfold Filter_Execute. rewrite (expand_ok mm (es_r sys) (es_R sys) (es_m sys) _ cmd out Hx) by (cbn [length]; auto; intros x Hx'; apply letter_tmp; auto). cbn [obind app].
  rewrite R1, R2, Hm, W4, W5, W6. change (lit "%m") with [37; 109]. change (lit "%r") with [37; 114]. change (lit "%R") with [37; 82].
  pose proof (mentions_contains 109 cmd) as Mm. pose proof (mentions_contains 114 cmd) as Mr. pose proof (mentions_contains 82 cmd) as MR.
  set (m := contains [37; 109] cmd) in *. set (r1 := contains [37; 114] cmd) in *. set (r2 := contains [37; 82] cmd) in *. clearbody m r1 r2.
  unfold puttmp. cbn [obind writenew].
  set (f1 := if r1 then fput fs (es_r sys) rfc else fs). replace (if r1 then Some (fput fs (es_r sys) rfc) else Some fs) with (Some f1) by (unfold f1; destruct r1; reflexivity). cbn [obind].
  set (f2 := if r2 then fput f1 (es_R sys) inet else f1). replace (if r2 then Some (fput f1 (es_R sys) inet) else Some f1) with (Some f2) by (unfold f2; destruct r2; reflexivity). cbn [obind].
  set (f3 := if m then fput f2 (es_m sys) msg else f2). replace (if m then Some (fput f2 (es_m sys) msg) else Some f2) with (Some f3) by (unfold f3; destruct m; reflexivity). cbn [obind].
  destruct (run f3 out) as [f4 st] eqn:Er. set (f5 := deltmp m (deltmp r2 (deltmp r1 f4 (es_r sys)) (es_R sys)) (es_m sys)).
  assert (O : forall fs n d x, x <> n -> fget (fput fs n d) x = fget fs x) by (intros; apply fget_put_other; congruence).
  assert (F : forall n, let temp := (mentions 114 cmd /\ n = es_r sys) \/ (mentions 82 cmd /\ n = es_R sys) \/ (mentions 109 cmd /\ n = es_m sys) in
     (~ temp -> fget f3 n = fget fs n /\ fget f5 n = fget f4 n) /\ (temp -> fget f5 n = None)).
  { intros n temp. split.
    - intros N. assert (N1 : r1 = true -> n <> es_r sys) by (intros E G; apply N; left; split; [apply Mr|]; auto). assert (N2 : r2 = true -> n <> es_R sys) by (intros E G; apply N; right; left; split; [apply MR|]; auto).
      assert (N3 : m = true -> n <> es_m sys) by (intros E G; apply N; right; right; split; [apply Mm|]; auto). unfold f3, f2, f1, f5, deltmp. split.
      + destruct m; [rewrite O by auto|]; (destruct r2; [rewrite O by auto|]; (destruct r1; [rewrite O by auto|]; reflexivity)).
      + destruct m; [rewrite fget_del_other by (intros G; apply (N3 eq_refl); congruence)|]; (destruct r2; [rewrite fget_del_other by (intros G; apply (N2 eq_refl); congruence)|];
        (destruct r1; [rewrite fget_del_other by (intros G; apply (N1 eq_refl); congruence)|]; reflexivity)).
    - assert (D : forall b n g, fget g n = None -> forall k, fget (deltmp b g k) n = None). { intros b k g E k'. unfold deltmp. destruct b; auto. destruct (list_eq_dec Z.eq_dec k' k) as [->|Nk]; [apply fget_del_same|rewrite fget_del_other; auto]. }
      unfold f5. intros [(T & ->)|[(T & ->)|(T & ->)]].
      + apply Mr in T. rewrite T. do 2 apply D. apply fget_del_same.
      + apply MR in T. rewrite T. apply D. apply fget_del_same.
      + apply Mm in T. rewrite T. apply fget_del_same. }
  assert (St : WEXITSTATUS st = Z.shiftr st 8 mod 256) by (unfold WEXITSTATUS; rewrite (Z.land_ones _ 8) by lia; reflexivity). rewrite St.
  set (status := Z.shiftr st 8 mod 256) in *.
  exists (XR f5 f3 out (if status =? 0 then set_Flags mm (Z.lor (Flags mm) 64) else mm) (if status =? 0 then true else negb (20 <=? status))), rfc, inet. cbn [xr_disk xr_before xr_cmd xr_mm xr_on]. rewrite Er. cbn [fst snd].
  split; [destruct (status =? 0); reflexivity|]. repeat (split; [reflexivity|]).
  split; [intros H; apply Mr in H; unfold f3, f2, f1; rewrite H; destruct m; [rewrite O by auto|]; (destruct r2; [rewrite O by auto|]); apply fget_put_same|].
  split; [intros H; apply MR in H; unfold f3, f2; rewrite H; destruct m; [rewrite O by auto|]; apply fget_put_same|].
  split; [intros H; apply Mm in H; unfold f3; rewrite H; apply fget_put_same|].
  split; [exact F|]. fold status. split; [reflexivity|]. destruct (Z.eqb_spec status 0) as [->|Ns]; [split; [lia|auto]|]. destruct (Z.leb_spec 20 status); cbn [negb]; split; intros; try lia; try discriminate; auto.
Qed.
Print Assumptions C70_run.
(** Texts made line by line have the form asked for. *)
Theorem C70_lines : forall mm ls l, lines_of mm ls -> ~ In 13 l -> ~ In 1 (tl l) -> Z.of_nat (length l) < 10000 ->
  exists cs, mmAddBuf (TextChunks mm) (l ++ [13]) = Some cs /\ lines_of (set_TextChunks mm cs) (ls ++ [l]).
Proof.
  intros mm ls l (lss & W & C) H1 H2 H3. destruct (C33_lines_stay_whole (TextChunks mm) lss (l ++ [13]) W) as (cs' & lss' & E & W' & C'); [exists l; auto|rewrite app_length; cbn [length]; lia|].
  exists cs'. split; auto. exists lss'. split; [exact W'|]. rewrite C', C, map_app. reflexivity.
Qed.
Print Assumptions C70_lines.

(** ** An example *)
Definition xcfg := EX 0 [AKA (N4 2 200 1 0) (lit "fidonet") [] []].
Definition xmsg (subject : list Z) (text : list Z) : memmsg :=
  set_TextChunks (set_MSGID (set_Subject (set_From (set_To (set_DestNode (set_OrigNode mm0 (N4 2 201 5 3)) (N4 2 200 1 0)) (lit "Al Bo")) (lit "Cy Do")) subject) (lit "2:201/5 1234")) [text].
Definition xtext : list Z := [1] ++ lit "TZUTC: 0100" ++ [13] ++ lit "Hello" ++ [13] ++ [13] ++ repeat 120 40 ++ lit " " ++ repeat 121 40 ++ [13].
Definition xlines : list (list Z) := [[1] ++ lit "TZUTC: 0100"; lit "Hello"; []; repeat 120 40 ++ lit " " ++ repeat 121 40].
Definition xsys := ES (lit "/tmp/a") (lit "/tmp/b") (lit "/tmp/c") WOk WOk WOk (repeat 7 190).
Definition xcmd := lit "deliver %r %R %f %%".
Definition xrun (st : Z) (fs : fsys) (cmd : list Z) : fsys * Z := (fput fs (lit "/box") cmd, st).
Definition xfile : list Z := textfile
  [lit "From: 2:201/5.3@fidonet (Cy Do)"; lit "To: 2:200/1.0@fidonet (Al Bo)"; lit "Subject: Hi"; lit "Date: "; lit "Message-ID: <2:201/5 1234>"; lit "X-Fido-TZUTC: 0100"; []; lit "Hello"; []; repeat 120 40; repeat 121 40].
Definition xinet : list Z := textfile
  [lit "From: Cy_Do@p3.f5.n201.z2.fidonet.org (Cy Do)"; lit "To: Al_Bo@f1.n200.z2.fidonet.org (Al Bo)"; lit "Subject: Hi"; lit "Date: "; lit "Message-ID: <2:201/5 1234>"; lit "X-Fido-TZUTC: 0100"; []; lit "Hello"; []; repeat 120 40; repeat 121 40].
Lemma xhanded : handed xcfg (xmsg (lit "Hi") xtext) xlines.
Proof.
  assert (V : forall a, is_u16 a <-> 0 <= a < 65536) by (intros; unfold is_u16; tauto). constructor.
  - unfold hdr_ok, field, valid4d. rewrite !V. vm_compute. repeat split; try lia; try discriminate; intros H; repeat (destruct H as [H|H]; [discriminate|]); destruct H.
  - repeat constructor.
  - exists [map (fun l => l ++ [13]) xlines]. split; [|cbn [concat]; rewrite app_nil_r; reflexivity]. split; [vm_compute; reflexivity|]. constructor; [|constructor]. apply Forall_map. unfold xlines.
    repeat constructor; eexists; (split; [reflexivity|]); split; intros H; vm_compute in H; repeat (destruct H as [H|H]; [discriminate|]); destruct H.
  - unfold xlines. repeat (apply Forall_cons; [split; [|split]|]); try apply Forall_nil; intros H; vm_compute in H |- *; try lia; repeat (destruct H as [H|H]; [discriminate|]); destruct H.
Qed.
Example C70_nonvacuous : handed xcfg (xmsg (lit "Hi") xtext) xlines /\ willing xsys /\ ~ mentions 77 xcmd /\
  expanded (letters (xmsg (lit "Hi") xtext) (es_r xsys) (es_R xsys) (es_m xsys)) xcmd (lit "deliver /tmp/a /tmp/b Cy Do %") /\
  (exists m, WriteMSG_bytes xcfg (es_junk xsys) (xmsg (lit "Hi") xtext) = Some m) /\
  exists r, Filter_Execute xcfg (fun _ => []) xsys (xrun 256) [] (xmsg (lit "Hi") xtext) xcmd = Some r /\ fget (xr_before r) (lit "/tmp/a") = Some xfile /\ fget (xr_before r) (lit "/tmp/b") = Some xinet /\
    xr_disk r = [(lit "/box", lit "deliver /tmp/a /tmp/b Cy Do %")] /\ xr_on r = true.
Proof.
  split; [apply xhanded|]. split; [constructor; try reflexivity; discriminate|].
  split; [rewrite <- mentions_contains; vm_compute; discriminate|]. split.
  - assert (C : forall tab a b o, ~ In 37 a -> expanded tab b o -> expanded tab (a ++ b) (a ++ o)).
    { intros tab a b o N E. induction a as [|c a IH]; [exact E|]. cbn [app]. apply ex_char; [intros ->; apply N; left; auto|apply IH; intros G; apply N; right; auto]. }
    change xcmd with (lit "deliver " ++ 37 :: 114 :: lit " " ++ 37 :: 82 :: lit " " ++ 37 :: 102 :: lit " " ++ [37; 37]).
    change (lit "deliver /tmp/a /tmp/b Cy Do %") with (lit "deliver " ++ es_r xsys ++ lit " " ++ es_R xsys ++ lit " " ++ lit "Cy Do" ++ lit " " ++ [37]).
    assert (N : forall s, In s [lit "deliver "; lit " "] -> ~ In 37 s) by (intros s [<-|[<-|[]]] H; vm_compute in H; repeat (destruct H as [H|H]; [discriminate|]); destruct H).
    apply C; [apply N; cbn; tauto|]. eapply ex_letter; [right; left; reflexivity|left; reflexivity|]. apply C; [apply N; cbn; tauto|].
    eapply ex_letter; [right; right; left; reflexivity|left; reflexivity|]. apply C; [apply N; cbn; tauto|].
    eapply ex_letter; [do 6 right; left; reflexivity|left; reflexivity|]. apply C; [apply N; cbn; tauto|].
    apply ex_other; [|constructor]. unfold letters. intros cs t H J. repeat (destruct H as [H|H]; [injection H as <- _; vm_compute in J; repeat (destruct J as [J|J]; [discriminate|]); destruct J|]). destruct H.
  - split; [eexists; vm_compute; reflexivity|]. eexists. split; [vm_compute; reflexivity|]. repeat split; vm_compute; reflexivity.
Qed.

(** ** Findings *)
(** Finding: what a message says goes into the command line as it is. With %s in the command,
    the author of a message lets the system run any command. *)
Theorem C70_shell_refuted : exists r, Filter_Execute xcfg (fun _ => []) xsys (xrun 256) [] (xmsg (lit "x;reboot") (lit "Hi" ++ [13])) (lit "log %s") = Some r /\ xr_cmd r = lit "log x;reboot".
Proof. eexists. split; [vm_compute; reflexivity|]. reflexivity. Qed.
Print Assumptions C70_shell_refuted.
(** Finding: a command killed by a signal (here 9) has the exit status 0 for the program, and
    the message is killed. *)
Theorem C70_signal_refuted : exists r, Filter_Execute xcfg (fun _ => []) xsys (xrun 9) [] (xmsg (lit "Hi") xtext) xcmd = Some r /\ flag (Flags (xr_mm r)) MMFLAG_KILL = true.
Proof. eexists. split; [vm_compute; reflexivity|]. reflexivity. Qed.
Print Assumptions C70_signal_refuted.
(** Finding: the command is run even if its file could not be written, and the message killed
    if it succeeds: the message is lost. *)
Theorem C70_unwritten_refuted : exists r, Filter_Execute xcfg (fun _ => []) (ES (lit "/tmp/a") (lit "/tmp/b") (lit "/tmp/c") WNoOpen WNoOpen WNoOpen (repeat 7 190)) (xrun 0) [] (xmsg (lit "Hi") xtext) (lit "deliver %r") = Some r /\
  xr_cmd r = lit "deliver /tmp/a" /\ fget (xr_before r) (lit "/tmp/a") = None /\ flag (Flags (xr_mm r)) MMFLAG_KILL = true.
Proof. eexists. split; [vm_compute; reflexivity|]. repeat split; reflexivity. Qed.
Print Assumptions C70_unwritten_refuted.
(** Finding: %M stands for a file that is not written and has no name. *)
Theorem C70_upper_refuted : exists r, Filter_Execute xcfg (fun _ => []) xsys (xrun 256) [] (xmsg (lit "Hi") xtext) (lit "deliver %M") = Some r /\ xr_cmd r = lit "deliver " /\ xr_before r = [].
Proof. eexists. split; [vm_compute; reflexivity|]. repeat split; reflexivity. Qed.
Print Assumptions C70_upper_refuted.
(** Finding: a text that ends with a lone ^A (no CR behind it) makes the program write 4 GB from
    memory, which ends in a crash when there is less of it. *)
Theorem C70_control_refuted : forall cfg behind, (forall c, match behind c with x :: _ => x <> 13 /\ x <> 10 | [] => False end) -> (forall c, Z.of_nat (length (behind c)) < 4294967290) ->
  short_domains (ex_akas cfg) -> rfcbytes cfg behind (xmsg (lit "Hi") [1]) false = None.
Proof.
  intros cfg behind H1 H2 H3. unfold rfcbytes. cbn zeta. assert (L := domain_short _ (DestNode (xmsg (lit "Hi") [1])) H3).
  assert (V : forall n, n = OrigNode (xmsg (lit "Hi") [1]) \/ n = DestNode (xmsg (lit "Hi") [1]) -> valid4d n) by (intros n [-> | ->]; unfold valid4d, is_u16; cbn; lia).
  rewrite (addr_ok false []), (addr_ok false []) by (auto; cbn; lia). cbn [obind].
  change (rev (TextChunks (xmsg (lit "Hi") [1]))) with [[1]]. cbn [overchunks]. specialize (H1 [1]). specialize (H2 [1]). destruct (behind [1]) as [|x r] eqn:E; [destruct H1|].
  cbn [rfckludges tillend isend length app nth_error obind]. change (isend 1) with false. cbn iota. cbn [length app nth_error obind]. unfold isend. destruct H1 as [N1 N2]. apply Z.eqb_neq in N1, N2. rewrite N1, N2. cbn [orb].
  change (u32 (Z.of_nat 1 - 2)) with 4294967295. change (1 =? 1) with true. change (4294967295 =? 0) with false. cbn [andb negb tl]. cbn [length] in H2.
  destruct (Z.leb_spec 4294967295 (Z.of_nat (length (x :: r)))) as [G|G]; [cbn [length] in G; lia|reflexivity].
Qed.
Print Assumptions C70_control_refuted.
(** Finding: what is behind the first 78 characters of a control line becomes text. *)
Theorem C70_longcontrol_refuted : exists k, rfcbytes xcfg (fun _ => []) (xmsg (lit "Hi") ([1] ++ lit "Via " ++ repeat 120 80 ++ [13])) false = Some (k ++ [10; 10] ++ repeat 120 78 ++ [10] ++ lit "xx" ++ [10]).
Proof.
  pose (v := rfcbytes xcfg (fun _ => []) (xmsg (lit "Hi") ([1] ++ lit "Via " ++ repeat 120 80 ++ [13])) false).
  exists (match v with Some l => firstn (length l - 84) l | None => [] end). vm_compute. reflexivity.
Qed.
Print Assumptions C70_longcontrol_refuted.
(** Finding: a subject with a line feed makes further header lines. *)
Theorem C70_header_refuted : exists a b, rfcbytes xcfg (fun _ => []) (xmsg (lit "Hi" ++ [10] ++ lit "Bcc: all") xtext) false = Some (a ++ [10] ++ lit "Bcc: all" ++ [10] ++ lit "Date: " ++ b).
Proof.
  pose (v := match rfcbytes xcfg (fun _ => []) (xmsg (lit "Hi" ++ [10] ++ lit "Bcc: all") xtext) false with Some l => l | None => [] end).
  exists (firstn 73 v), (skipn 89 v). vm_compute. reflexivity.
Qed.
Print Assumptions C70_header_refuted.
