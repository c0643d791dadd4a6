(** C33, C34: text search and filters. *)
From Verif Require Import Base M_Node4D M_Pat M_Str M_Mem P_Mem M_Cfg M_Pkt M_Dupe M_Echo M_Expr M_Filter S_Filter P_Filter.

(** C33: whatever the search finds is an occurrence of the pattern, ignoring case, at or
    behind the starting position. *)
Theorem C33_sound : forall pat text start i, bmfind pat text start = Some (Some i) ->
  (start <= i)%nat /\ occurs_at pat text i.
Proof. intros. apply bmfind_unfold, bmloop_sound in H. auto. Qed.
Print Assumptions C33_sound.

(** The search of 7-bit text ends and stays within its table. *)
Theorem C33_ends : forall pat text start, pat <> [] -> Z.of_nat (length pat) < 65536 -> ascii7 pat -> ascii7 text ->
  exists r, bmfind pat text start = Some r.
Proof. exact bmfind_total. Qed.
Print Assumptions C33_ends.

(** It finds the first occurrence if the pattern has no blind spot. *)
Theorem C33_first : forall pat text start r, Z.of_nat (length pat) < 65536 -> ~ blindspot (map tolower pat) ->
  bmfind pat text start = Some r ->
  match r with
  | Some i => forall k, (start <= k < i)%nat -> ~ occurs_at pat text k
  | None => forall k, (start <= k)%nat -> ~ occurs_at pat text k
  end.
Proof. intros pat text start r Hl Ho H. apply bmfind_unfold in H. exact (bmloop_complete pat text Hl Ho _ _ _ H). Qed.
Print Assumptions C33_first.

(** A pattern is missed in some text which contains it exactly if it has a blind spot: it
    ends as it begins (aba in xxaba), or the like (abb in aabb, see blindspot). *)
Theorem C33_exact : forall pat, Z.of_nat (length pat) < 65536 -> ascii7 pat ->
  (exists text k, ascii7 text /\ occurs_at pat text k /\ bmfind pat text 0 = Some None) <-> blindspot (map tolower pat).
Proof.
  intros pat Hl Hp. split.
  - intros (text & k & _ & Ho & Hm). apply bmfind_unfold in Hm. apply blindn_list.
    exact (bmloop_missed pat text Hl _ _ _ Hm k (Nat.le_0_l k) I Ho).
  - intros H. apply blind_nth in H. destruct (blind_missed pat Hl Hp H) as (u & Hu & E).
    exists (u ++ pat), (length u). split; [apply Forall_app; auto|]. split; auto.
    exists u, pat, []. rewrite app_nil_r. auto.
Qed.
Print Assumptions C33_exact.

(** A pattern whose last character is unique in it has none. *)
Theorem C33_unique : forall pat, last_once pat -> ~ blindspot (map tolower pat).
Proof. exact once_noblind. Qed.
Print Assumptions C33_unique.

(** Other patterns may have none, too; and one that ends as it begins has one. *)
Example C33_first_nonvacuous : ~ blindspot (map tolower (lit "xbxyb")) /\ ~ last_once (lit "xbxyb") /\
  bmfind (lit "xbxyb") (lit "xbxbxyb") 0 = Some (Some 2%nat) /\
  blindspot (map tolower (lit "aBa")) /\ bmfind (lit "aba") (lit "xxaba") 0 = Some None.
Proof.
  split; [|split; [|split; [|split]]].
  - intros H. apply blind_nth in H as (q & l & Hq & Hl & Hag & H). change (length (lit "xbxyb")) with 5%nat in *.
    pose proof (Hag O ltac:(lia)) as H0.
    destruct q as [|[|[|[|q]]]]; [| | | |lia]; try (vm_compute in H0; discriminate).
    destruct l as [|[|[|l]]]; try lia.
    + destruct H as [H|(_ & _ & [H|H])]; [lia|vm_compute in H; discriminate|].
      apply (H 2%nat); [lia|reflexivity].
    + pose proof (Hag 1%nat ltac:(lia)) as H1. vm_compute in H1. discriminate.
  - intros (p & c & E & H). change (lit "xbxyb") with (lit "xbxy" ++ [98]) in E. apply app_inj_tail in E as [<- <-].
    inversion H as [|? ? _ H1]; subst. inversion H1 as [|? ? H2 _]; subst. apply H2. reflexivity.
  - vm_compute. reflexivity.
  - exists (lit "a"), (lit "ba"). split; [discriminate|]. split; [discriminate|]. left. split; [reflexivity|].
    exists (lit "ab"). reflexivity.
  - vm_compute. reflexivity.
Qed.

(** Thus an occurrence can be missed: "abb" is in "aabb". *)
Theorem C33_first_refuted : exists pat text, ascii7 pat /\ ascii7 text /\ occurs_at pat text 1 /\
  bmfind pat text 0 = Some None.
Proof.
  exists (lit "abb"), (lit "aabb"). split; [|split; [|split]].
  - repeat constructor; lia.
  - repeat constructor; lia.
  - exists (lit "a"), (lit "abb"), []. auto.
  - vm_compute. reflexivity.
Qed.
Print Assumptions C33_first_refuted.

(** A character above 127 in the text or in the pattern is a table index out of range. *)
Theorem C33_eightbit_refuted : bmfind (lit "ab") [97; 229; 97; 98] 0 = None /\ forall c text, 128 <= c -> bmfind [c] text 0 = None.
Proof.
  split; [vm_compute; reflexivity|]. intros c text H. unfold bmfind, forallb, is7bit.
  destruct (Z.ltb_spec c 128); [lia|reflexivity].
Qed.
Print Assumptions C33_eightbit_refuted.

(** Adding lines to a message keeps its chunks made of whole lines, in order. *)
Lemma lastch13 ls : Forall isline ls -> concat ls = [] \/ nth (length (concat ls) - 1) (concat ls) 0 = 13.
Proof.
  intros H. destruct ls as [|l ls] using rev_ind; [left; reflexivity|]. right. clear IHls.
  apply Forall_app in H as [_ H]. inversion H as [|? ? (b & -> & _) _]; subst.
  rewrite concat_app. simpl. rewrite app_nil_r, app_assoc, app_length. simpl. rewrite app_nth2 by lia.
  replace (length (concat ls ++ b) + 1 - 1 - length (concat ls ++ b))%nat with O by lia. reflexivity.
Qed.
Theorem C33_lines_stay_whole : forall cs lss line, wholelines (rev cs) lss -> isline line -> Z.of_nat (length line) <= 10000 ->
  exists cs' lss', mmAddBuf cs line = Some cs' /\ wholelines (rev cs') lss' /\ concat lss' = concat lss ++ [line].
Proof.
  intros cs lss line (EC & HL) Hl Hlen.
  assert (HCH : Z.of_nat CHUNKLEN = 10000) by (unfold CHUNKLEN; lia).
  assert (Hnl : (length line <= CHUNKLEN)%nat) by lia.
  assert (Hne : line <> []) by (destruct Hl as (b & -> & _); destruct b; discriminate).
  unfold mmAddBuf, mmAddBuf_gen. destruct line as [|l0 lr] eqn:Eline; [congruence|]. rewrite <- Eline in *.
  assert (Hnew : forall cs1 lss1 moved, wholelines (rev cs1) lss1 -> moved = [] ->
     exists cs' lss', addchunks CHUNKLEN (length line - 1) ((moved ++ firstn (Nat.min (length line) (CHUNKLEN - length moved)) line) :: cs1)
        (skipn (Nat.min (length line) (CHUNKLEN - length moved)) line) = Some cs' /\ wholelines (rev cs') lss' /\ concat lss' = concat lss1 ++ [line]).
  { intros cs1 lss1 moved (E1 & H1) ->. cbn [length app]. rewrite Nat.sub_0_r, Nat.min_l by auto.
    rewrite firstn_all, skipn_all. exists (line :: cs1), (lss1 ++ [[line]]). split; [destruct (length line - 1)%nat; reflexivity|].
    split; [|rewrite concat_app; reflexivity]. split.
    - cbn [rev]. rewrite E1, map_app. simpl. rewrite app_nil_r. reflexivity.
    - apply Forall_app. split; auto. }
  assert (Hf : length line = S (length line - 1)) by (rewrite Eline; simpl; lia).
  assert (HM : forall (A : Type) (x y : A), match line with [] => x | _ :: _ => y end = y) by (intros; rewrite Eline; reflexivity).
  destruct cs as [|c r].
  - rewrite Hf. cbn [addchunks]. rewrite HM, <- ?Hf. apply Hnew; [split; auto|reflexivity].
  - cbn [rev] in EC.
    destruct lss as [|ls lss] using rev_ind; [destruct (rev r); discriminate|]. clear IHlss.
    rewrite map_app in EC. cbn [map] in EC. apply app_inj_tail in EC as [EC1 EC2].
    apply Forall_app in HL as [HL1 HL2]. inversion HL2 as [|? ? HLs _]. rewrite EC2. clear HL2 EC2.
    destruct (Nat.leb_spec (length (concat ls) + length line) CHUNKLEN).
    + exists ((concat ls ++ line) :: r), (lss ++ [ls ++ [line]]). split; [reflexivity|]. split.
      * split.
        -- cbn [rev]. rewrite EC1, map_app. cbn [map]. rewrite concat_app. simpl. rewrite app_nil_r. reflexivity.
        -- apply Forall_app. split; auto. constructor; auto. apply Forall_app. auto.
      * rewrite !concat_app. simpl. rewrite !app_nil_r, <- app_assoc. reflexivity.
    + rewrite Hf. cbn [addchunks]. rewrite HM, <- ?Hf.
      assert (ES : splitchunk (concat ls) = ([], concat ls)).
      { unfold splitchunk. destruct (lastch13 ls HLs) as [E|E]; [rewrite E; reflexivity|]. rewrite E. simpl. rewrite andb_false_r. reflexivity. }
      rewrite ES. apply Hnew; [|reflexivity]. split.
      * cbn [rev]. rewrite EC1, map_app. reflexivity.
      * apply Forall_app. auto.
Qed.
Print Assumptions C33_lines_stay_whole.

Lemma searchchunks_sound pat kludge : forall cs, searchchunks pat kludge cs = Some true -> exists c i, In c cs /\ hitat pat c kludge i.
Proof.
  induction cs as [|c cs IH]; simpl; [discriminate|].
  destruct (searchchunk (length c + 2) pat c kludge 0) as [[|]|] eqn:E; simpl; try discriminate.
  - intros _. apply searchchunk_sound in E as [i Hi]. exists c, i. auto.
  - intros H. destruct (IH H) as (c' & i & Hin & Hi). exists c', i. auto.
Qed.
Lemma searchchunks_complete pat kludge : Z.of_nat (length pat) < 65536 -> ~ blindspot (map tolower pat) -> forall cs, searchchunks pat kludge cs = Some false ->
  forall c i, In c cs -> ~ hitat pat c kludge i.
Proof.
  intros Hl Ho. induction cs as [|c cs IH]; simpl; [intros _ c i []|].
  destruct (searchchunk (length c + 2) pat c kludge 0) as [[|]|] eqn:E; simpl; try discriminate.
  intros H c' i [<-|Hin]; [|apply IH; auto].
  apply (searchchunk_complete pat c kludge Hl Ho _ _ E). lia.
Qed.
Lemma searchchunks_total pat kludge : pat <> [] -> Z.of_nat (length pat) < 65536 -> ascii7 pat -> forall cs, Forall ascii7 cs ->
  exists b, searchchunks pat kludge cs = Some b.
Proof.
  intros H0 H1 Hp. induction cs as [|c cs IH]; intros Hcs; simpl; [eauto|].
  inversion Hcs as [|? ? H2 H3]; subst.
  destruct (searchchunk_total pat c kludge H0 H1 Hp H2 (length c + 2) 0 ltac:(lia) ltac:(lia)) as [b E]. rewrite E. simpl.
  destruct b; [eauto|auto].
Qed.

Lemma dropquote_app p : dropquote (p ++ [34]) = p.
Proof. unfold dropquote. rewrite rev_app_distr. simpl. apply rev_involutive. Qed.
Lemma firstn_short (n : nat) (l : list Z) : (length l <= n)%nat -> firstn n l = l.
Proof. apply firstn_all2. Qed.
Lemma statement_text e mm (pat : list Z) (kludge : bool) : (length pat <= 98)%nat ->
  filter_evalfunc e mm ((if kludge then lit "KLUDGES|" else lit "TEXT|") ++ [34] ++ pat ++ [34]) = comparetext mm kludge (lit "|") pat.
Proof.
  intros H. unfold filter_evalfunc.
  assert (E : splitstatement ((if kludge then lit "KLUDGES|" else lit "TEXT|") ++ [34] ++ pat ++ [34])
     = (if kludge then lit "KLUDGES" else lit "TEXT", lit "|", pat)).
  { unfold splitstatement.
    assert (EV : varname 99 ((if kludge then lit "KLUDGES|" else lit "TEXT|") ++ [34] ++ pat ++ [34])
      = (if kludge then lit "KLUDGES" else lit "TEXT", lit "|" ++ [34] ++ pat ++ [34])) by (destruct kludge; reflexivity).
    rewrite EV. change (lit "|" ++ [34] ++ pat ++ [34]) with (124 :: 34 :: pat ++ [34]). cbv iota beta. rewrite (firstn_short 99) by (rewrite app_length; simpl; lia).
    rewrite dropquote_app. reflexivity. }
  rewrite E. destruct kludge; reflexivity.
Qed.

(** C33: TEXT|"pat" (KLUDGES|"pat") is true exactly if a text line (a kludge line) of the
    message contains the pattern, for 7-bit text in lines and a pattern without
    blind spot. *)
Theorem C33_text_filter : forall e mm lss pat (kludge : bool),
  wholelines (rev (TextChunks mm)) lss -> Forall (Forall ascii7) lss ->
  pat <> [] -> (length pat <= 98)%nat -> ascii7 pat -> ~ In 13 pat -> ~ blindspot (map tolower pat) ->
  exists v, filter_evalfunc e mm ((if kludge then lit "KLUDGES|" else lit "TEXT|") ++ [34] ++ pat ++ [34]) = Some v /\
    (v = 0 \/ v = 1) /\
    (v = 1 <-> exists l k, In l (concat lss) /\ (iskludge l <-> kludge = true) /\ occurs_at pat l k).
Proof.
  intros e mm lss pat kludge (EC & HL) Ha H0 Hlen Hp H13 Ho.
  rewrite statement_text by auto. change (lit "|") with [124]. unfold comparetext.
  assert (Ha' : Forall ascii7 (rev (TextChunks mm))).
  { rewrite EC. apply Forall_map. eapply Forall_impl; [|exact Ha]. intros ls Hls. clear -Hls.
    unfold ascii7. induction Hls; simpl; [constructor|]. apply Forall_app. auto. }
  destruct (searchchunks_total pat kludge H0 ltac:(lia) Hp _ Ha') as [b E].
  assert (HX : (exists c i, In c (rev (TextChunks mm)) /\ hitat pat c kludge i) <->
               exists l k, In l (concat lss) /\ (iskludge l <-> kludge = true) /\ occurs_at pat l k).
  { rewrite EC. split.
    - intros (c & i & Hin & Hh). apply in_map_iff in Hin as (ls & <- & Hls).
      rewrite Forall_forall in HL. destruct (proj1 (hit_lines pat kludge ls H13 H0 (HL ls Hls)) ltac:(eauto)) as (l & k & A & B & C).
      exists l, k. split; [|auto]. apply in_concat. eauto.
    - intros (l & k & Hin & B & C). apply in_concat in Hin as (ls & Hls & Hin).
      rewrite Forall_forall in HL. destruct (proj2 (hit_lines pat kludge ls H13 H0 (HL ls Hls)) ltac:(eauto)) as (i & Hh).
      exists (concat ls), i. split; auto. apply in_map. auto. }
  exists (b2z b). cbn. rewrite E. split; [reflexivity|]. split; [destruct b; auto|]. rewrite <- HX. destruct b; cbn.
  - split; auto. intros _. apply searchchunks_sound; auto.
  - split; [discriminate|]. intros (c & i & Hin & Hh). exfalso.
    eapply (searchchunks_complete pat kludge ltac:(lia) Ho _ E); eauto.
Qed.
Print Assumptions C33_text_filter.

Example C33_nonvacuous :
  bmfind (lit "world") (lit "Hello World") 0 = Some (Some 6%nat) /\
  last_once (lit "world") /\
  let mm := set_TextChunks mm0 [SOH ++ lit "MSGID: foo" ++ [13] ++ lit "Hi Foo" ++ [13]] in
  let e := FE [] [] (NLC false (NL false (fun _ => 0) (fun _ => 0)) (fun _ => 0)) in
  filter_evalfunc e mm (lit "TEXT|" ++ [34] ++ lit "hi f" ++ [34]) = Some 1 /\
  filter_evalfunc e mm (lit "KLUDGES|" ++ [34] ++ lit "hi f" ++ [34]) = Some 0 /\
  filter_evalfunc e mm (lit "KLUDGES|" ++ [34] ++ lit "msgid" ++ [34]) = Some 1.
Proof.
  split; [vm_compute; reflexivity|]. split.
  - exists (lit "worl"), 100. split; [reflexivity|]. repeat constructor; vm_compute; discriminate.
  - vm_compute. auto.
Qed.

(** ** C34: filters *)
Section C34.
  Context {St : Type} (e : fenv) (flags : Z) (rs : list route)
    (copy writebad : St -> memmsg -> list Z -> option (St * bool))
    (bounce : St -> memmsg -> list Z -> bool -> option (St * bool))
    (exec : memmsg -> list Z -> Z) (masq : memmsg -> list Z -> npat -> option memmsg).
  Notation filt := (Filter e flags rs copy writebad bounce exec masq).
  Notation runr := (runrules e flags rs copy writebad bounce exec masq).
  Notation runc := (runcommands e flags rs copy writebad bounce exec masq).

  Lemma runr_none rules : forall st mm, Forall (fun r => evalfilter e mm (fst r) = Some 0) rules -> runr st mm rules = Some (st, mm, Go).
  Proof.
    induction rules as [|[c cs] rules IH]; intros st mm H; simpl; auto.
    inversion H as [|? ? H1 H2]; subst. simpl in H1. rewrite H1. simpl. apply IH, H2.
  Qed.
  Lemma runc_kill cs : forall st mm st' mm' n, runc st mm cs = Some (st', mm', n) -> flag (Flags mm) MMFLAG_KILL = false ->
    flag (Flags mm') MMFLAG_KILL = true -> n <> Go.
  Proof.
    induction cs as [|c cs IH]; intros st mm st' mm' n; simpl.
    - intros E H1 H2. injection E as -> -> ->. congruence.
    - destruct (runcommand e flags rs copy writebad bounce exec masq st mm c) as [[[st1 mm1] ok]|]; simpl; [|discriminate].
      destruct ok; simpl; [|intros E; injection E as <- <- <-; discriminate].
      destruct (flag (Flags mm1) MMFLAG_KILL) eqn:EK; [intros E; injection E as <- <- <-; discriminate|].
      intros E _ H2. eapply IH; eauto.
  Qed.
  Lemma runc_more cs more : forall st mm x st' mm', runc st mm cs = Some (st', mm', x) -> x <> Go -> runc st mm (cs ++ more) = Some (st', mm', x).
  Proof.
    induction cs as [|c cs IH]; intros st mm x st' mm'; simpl.
    - intros E H. congruence.
    - destruct (runcommand e flags rs copy writebad bounce exec masq st mm c) as [[[st1 mm1] ok]|]; simpl; [|discriminate].
      destruct ok; simpl; auto. destruct (flag (Flags mm1) MMFLAG_KILL); auto.
  Qed.
  Lemma runc_go cs : forall st mm st' mm', runc st mm cs = Some (st', mm', Go) -> flag (Flags mm) MMFLAG_KILL = false -> flag (Flags mm') MMFLAG_KILL = false.
  Proof.
    intros st mm st' mm' H H1. destruct (flag (Flags mm') MMFLAG_KILL) eqn:E; auto. exfalso. eapply runc_kill; eauto.
  Qed.
  Lemma runr_kill rules : forall st mm st' mm' n, runr st mm rules = Some (st', mm', n) -> flag (Flags mm) MMFLAG_KILL = false ->
    flag (Flags mm') MMFLAG_KILL = true -> n <> Go.
  Proof.
    induction rules as [|[c cs] rules IH]; intros st mm st' mm' n; simpl.
    - intros E H1 H2. injection E as -> -> ->. congruence.
    - destruct (evalfilter e mm c) as [v|]; simpl; [|discriminate].
      destruct (v =? -1); [intros E; injection E as <- <- <-; discriminate|].
      destruct (v =? 1); [|apply IH].
      destruct (runc st mm cs) as [[[st1 mm1] x]|] eqn:ER; simpl; [|discriminate].
      destruct x; [|intros E; injection E as <- <- <-; discriminate].
      intros E H1 H2. eapply IH; eauto. eapply runc_go; eauto.
  Qed.
  Lemma runr_more rules more : forall st mm x st' mm', runr st mm rules = Some (st', mm', x) -> x <> Go -> runr st mm (rules ++ more) = Some (st', mm', x).
  Proof.
    induction rules as [|[c cs] rules IH]; intros st mm x st' mm'; simpl.
    - intros E H. congruence.
    - destruct (evalfilter e mm c) as [v|]; simpl; [|discriminate].
      destruct (v =? -1); auto. destruct (v =? 1); [|apply IH].
      destruct (runc st mm cs) as [[[st1 mm1] y]|]; simpl; [|discriminate]. destruct y; auto.
  Qed.
  Lemma runr_app rules more : forall st mm st' mm', runr st mm rules = Some (st', mm', Go) -> runr st mm (rules ++ more) = runr st' mm' more.
  Proof.
    induction rules as [|[c cs] rules IH]; intros st mm st' mm'; simpl.
    - intros E. injection E as -> ->. reflexivity.
    - destruct (evalfilter e mm c) as [v|]; simpl; [|discriminate].
      destruct (v =? -1); [discriminate|]. destruct (v =? 1); [|apply IH].
      destruct (runc st mm cs) as [[[st1 mm1] y]|]; simpl; [|discriminate]. destruct y; [apply IH|discriminate].
  Qed.
  Lemma runr_last_more r1 cond c1 more r2 : forall st mm x st' mm', runr st mm (r1 ++ [(cond, c1)]) = Some (st', mm', x) ->
    flag (Flags mm) MMFLAG_KILL = false -> flag (Flags mm') MMFLAG_KILL = true ->
    runr st mm (r1 ++ (cond, c1 ++ more) :: r2) = Some (st', mm', x).
  Proof.
    induction r1 as [|[c cs] r1 IH]; intros st mm x st' mm'; simpl.
    - destruct (evalfilter e mm cond) as [v|]; simpl; [|discriminate].
      destruct (v =? -1); auto. destruct (v =? 1); [|intros E H1 H2; assert (mm = mm') by congruence; congruence].
      destruct (runc st mm c1) as [[[st1 mm1] y]|] eqn:E1; simpl; [|discriminate]. intros E H1 H2.
      assert (mm1 = mm') by (destruct y; congruence). subst mm1.
      assert (Hy : y <> Go) by (eapply runc_kill; eauto).
      rewrite (runc_more _ more _ _ _ _ _ E1 Hy). simpl. destruct y; [congruence|auto].
    - destruct (evalfilter e mm c) as [v|]; simpl; [|discriminate].
      destruct (v =? -1); auto. destruct (v =? 1); [|apply IH].
      destruct (runc st mm cs) as [[[st1 mm1] y]|] eqn:E1; simpl; [|discriminate]. destruct y; auto.
      intros E H1 H2. apply IH; auto. eapply runc_go; eauto.
  Qed.

  (** A message to which no rule applies is not changed and nothing happens. *)
  Theorem C34_no_rule_applies : forall rules st mm,
    Forall (fun r => evalfilter e mm (fst r) = Some 0) rules -> filt rules st mm = Some (st, mm, true).
  Proof. intros rules st mm H. unfold Filter. rewrite runr_none by auto. reflexivity. Qed.

  (** Once a message is killed, further rules and further commands make no difference. *)
  Theorem C34_kill_is_final : forall rules cond cs st mm st' mm' b,
    flag (Flags mm) MMFLAG_KILL = false ->
    filt (rules ++ [(cond, cs)]) st mm = Some (st', mm', b) -> flag (Flags mm') MMFLAG_KILL = true ->
    forall more_commands more_rules,
    filt (rules ++ (cond, cs ++ more_commands) :: more_rules) st mm = Some (st', mm', b).
  Proof.
    intros rules cond cs st mm st' mm' b Hk H Hk' mc mr. unfold Filter in *.
    destruct (runr st mm (rules ++ [(cond, cs)])) as [[[st1 mm1] x]|] eqn:E; simpl in H; [|discriminate].
    assert (mm1 = mm') by congruence. subst mm1.
    rewrite (runr_last_more _ _ _ mc mr _ _ _ _ _ E Hk Hk'). exact H.
  Qed.

  (** Rules apply one after the other: the second half sees the message as the first half
      left it. *)
  Theorem C34_in_order : forall r1 r2 st mm st1 mm1,
    (forall r m v, In r r1 -> evalfilter e m (fst r) = Some v -> v <> -1) ->
    flag (Flags mm) MMFLAG_KILL = false ->
    filt r1 st mm = Some (st1, mm1, true) -> flag (Flags mm1) MMFLAG_KILL = false ->
    filt (r1 ++ r2) st mm = filt r2 st1 mm1.
  Proof.
    intros r1 r2 st mm st1 mm1 Hwf Hk H Hk1. unfold Filter in *.
    destruct (runr st mm r1) as [[[st2 mm2] x]|] eqn:E; simpl in H; [|discriminate].
    assert (E2 : st2 = st1 /\ mm2 = mm1 /\ (x = Go \/ x = Stop true)) by (destruct x as [|[]]; injection H as <- <-; auto; discriminate).
    destruct E2 as (-> & -> & [->| ->]); [rewrite (runr_app _ r2 _ _ _ _ E); reflexivity|].
    exfalso. clear H. revert st mm Hk E. induction r1 as [|[c cs] r1 IH]; intros st mm Hk E; simpl in E; [discriminate|].
    destruct (evalfilter e mm c) as [v|] eqn:EV; simpl in E; [|discriminate].
    destruct (Z.eqb_spec v (-1)) as [->|]; [eapply (Hwf (c, cs) mm (-1)); simpl; auto|].
    assert (IH' := fun st mm => IH (fun r m v Hin => Hwf r m v (or_intror Hin)) st mm).
    destruct (v =? 1); [|eapply IH'; eauto].
    destruct (runc st mm cs) as [[[st2 mm2] y]|] eqn:ER; simpl in E; [|discriminate].
    destruct y as [|b]; [eapply IH'; [|exact E]; eapply runc_go; eauto|].
    injection E as -> -> ->.
    clear -ER Hk1. revert st mm ER. induction cs as [|c' cs IHc]; intros st mm ER; simpl in ER; [discriminate|].
    destruct (runcommand e flags rs copy writebad bounce exec masq st mm c') as [[[st2 mm2] ok]|]; simpl in ER; [|discriminate].
    destruct ok; simpl in ER; [|discriminate].
    destruct (flag (Flags mm2) MMFLAG_KILL) eqn:EK; [injection ER as -> ->; congruence|]. eapply IHc; eauto.
  Qed.

  (** Finding: a rule that cannot be evaluated for a message ends the filtering of that
      message successfully, although later rules apply. *)
  Theorem C34_malformed_rule_refuted : forall bad cs rules st mm, evalfilter e mm bad = Some (-1) ->
    filt ((bad, cs) :: rules) st mm = Some (st, mm, true).
  Proof. intros. unfold Filter. simpl. rewrite H. reflexivity. Qed.

  (** COPY hands a copy with the area's name in front to the message base and leaves the
      message as it was. *)
  Theorem C34_copy : forall cond tag st st' mm, chunks_ok (TextChunks mm) -> flag (Flags mm) MMFLAG_KILL = false ->
    evalfilter e mm cond = Some 1 ->
    exists m', set_TextChunks m' (TextChunks mm) = mm /\
      mmtext m' = match Area mm with [] => [] | a => lit "AREA:" ++ a ++ [13] end ++ mmtext mm /\
      (copy st m' tag = Some (st', true) -> filt [(cond, [CCopy tag])] st mm = Some (st', mm, true)) /\
      (copy st m' tag = Some (st', false) -> filt [(cond, [CCopy tag])] st mm = Some (st', m', true)).
  Proof.
    intros cond tag st st' mm Hc Hk HE. destruct (copymsg_spec mm Hc) as (m' & E1 & E2 & E3).
    exists m'. split; auto. split; auto.
    assert (Hk' : flag (Flags m') MMFLAG_KILL = false) by (rewrite <- E3 in Hk; exact Hk).
    split; intros H; unfold Filter; simpl; rewrite HE; simpl; unfold Filter_Copy; rewrite E1; simpl; rewrite H; simpl; rewrite ?Hk, ?Hk'; reflexivity.
  Qed.
End C34.
Print Assumptions C34_no_rule_applies.
Print Assumptions C34_kill_is_final.
Print Assumptions C34_in_order.
Print Assumptions C34_malformed_rule_refuted.
Print Assumptions C34_copy.

(** What a list of rules does, when nothing fails: exactly the commands of the rules that
    apply, in the order of the configuration, up to the first KILL. *)
Section Ordered.
  Context {St : Type} (e : fenv) (flags : Z) (rs : list route)
    (docopy dobad : St -> memmsg -> list Z -> St) (dobounce : St -> memmsg -> list Z -> bool -> St)
    (exec : memmsg -> list Z -> Z) (masq : memmsg -> list Z -> npat -> option memmsg).
  Definition mark (mm : memmsg) (f : Z) : memmsg := set_Flags mm (Z.lor (Flags mm) f).
  Definition orelse {A} (d : A) (o : option A) : A := match o with Some x => x | None => d end.
  Definition perform (s : St * memmsg) (c : command) : St * memmsg :=
    let (st, mm) := s in
    match c with
    | CKill => (st, mark mm MMFLAG_KILL)
    | CTwit => (st, mark mm MMFLAG_TWIT)
    | CCopy tag => (docopy st (orelse mm (copymsg mm)) tag, mm)
    | CWriteBad reason => (dobad st mm reason, mm)
    | CBounceMsg reason => (dobounce st mm (orelse reason (ExpandFilter mm reason)) false, mm)
    | CBounceHeader reason => (dobounce st mm (orelse reason (ExpandFilter mm reason)) true, mm)
    | _ => s
    end.
  Notation filt := (Filter e flags rs (fun st m t => Some (docopy st m t, true)) (fun st m t => Some (dobad st m t, true))
                      (fun st m t h => Some (dobounce st m t h, true)) exec masq).
  Definition fits (mm : memmsg) (c : command) : Prop :=
    match c with CWriteLog f | CBounceMsg f | CBounceHeader f => ExpandFilter mm f <> None | _ => True end.

  Lemma perform_run : forall cs st mm m0, (exists f, mm = set_Flags m0 f /\ sameflags f (Flags m0)) ->
    chunks_ok (TextChunks m0) -> Forall simple cs -> Forall (fits m0) cs -> flag (Flags mm) MMFLAG_KILL = false ->
    let s := fold_left perform (upto_kill cs) (st, mm) in
    (exists f, snd s = set_Flags m0 f /\ sameflags f (Flags m0)) /\
    flag (Flags (snd s)) MMFLAG_KILL = existsb (fun c => match c with CKill => true | _ => false end) cs /\
    runcommands e flags rs (fun st m t => Some (docopy st m t, true)) (fun st m t => Some (dobad st m t, true))
                      (fun st m t h => Some (dobounce st m t h, true)) exec masq st mm cs
    = Some (fst s, snd s, if existsb (fun c => match c with CKill => true | _ => false end) cs then Stop true else Go).
  Proof.
    induction cs as [|c cs IH]; intros st mm m0 (f & -> & Hf) Hc Hs Hfit Hk; [simpl; eauto 6|].
    inversion Hs as [|? ? Hs1 Hs2]; inversion Hfit as [|? ? Hf1 Hf2]; subst.
    assert (HX : forall r, ExpandFilter (set_Flags m0 f) r = ExpandFilter m0 r) by reflexivity.
    destruct (copymsg_spec (set_Flags m0 f) Hc) as (m' & E1 & _).
    destruct c; simpl in Hs1; try contradiction; cbn [upto_kill fold_left existsb orb]; cbn [runcommands runcommand].
    - (* KILL *) cbn [obind perform fst snd negb]. cbn [Flags set_Flags mark]. rewrite kill_kill. split; [|auto].
      exists (Z.lor f MMFLAG_KILL). split; [reflexivity|]. apply sameflags_lor; auto.
    - (* TWIT *) cbn [obind perform negb]. cbn [Flags set_Flags]. rewrite kill_twit. cbn [Flags set_Flags] in Hk. rewrite Hk.
      apply (IH st (mark (set_Flags m0 f) MMFLAG_TWIT) m0); auto.
      + exists (Z.lor f MMFLAG_TWIT). split; [reflexivity|]. apply sameflags_lor; auto.
      + cbn [Flags set_Flags mark]. rewrite kill_twit. auto.
    - (* COPY *) unfold Filter_Copy. rewrite E1. cbn [obind perform orelse fst snd negb]. rewrite Hk. rewrite E1. cbn [orelse].
      apply (IH _ (set_Flags m0 f) m0); eauto.
    - (* WRITELOG *) unfold fits in Hf1. rewrite HX. destruct (ExpandFilter m0 fmt); [|congruence]. cbn [obind option_map perform negb]. rewrite Hk.
      apply (IH _ (set_Flags m0 f) m0); eauto.
    - (* WRITEBAD *) cbn [obind option_map keep perform fst snd negb]. rewrite Hk. apply (IH _ (set_Flags m0 f) m0); eauto.
    - unfold fits in Hf1. rewrite HX. cbn [perform]. rewrite HX. destruct (ExpandFilter m0 reason); [|congruence].
      cbn [obind option_map keep orelse fst snd negb]. rewrite Hk. apply (IH _ (set_Flags m0 f) m0); eauto.
    - unfold fits in Hf1. rewrite HX. cbn [perform]. rewrite HX. destruct (ExpandFilter m0 reason); [|congruence].
      cbn [obind option_map keep orelse fst snd negb]. rewrite Hk. apply (IH _ (set_Flags m0 f) m0); eauto.
  Qed.

  Lemma upto_kill_app a b : upto_kill (a ++ b) =
    if existsb (fun c => match c with CKill => true | _ => false end) a then upto_kill a else upto_kill a ++ upto_kill b.
  Proof.
    induction a as [|c a IH]; simpl; auto. destruct c; simpl; auto; rewrite IH; destruct (existsb _ a); reflexivity.
  Qed.

  Theorem C34_exactly_the_commands : forall rules st mm,
    chunks_ok (TextChunks mm) -> flag (Flags mm) MMFLAG_KILL = false ->
    Forall (fun r => (evalfilter e mm (fst r) = Some 0 \/ evalfilter e mm (fst r) = Some 1) /\
                     Forall simple (snd r) /\ Forall (fits mm) (snd r)) rules ->
    let s := fold_left perform (upto_kill (firing e mm rules)) (st, mm) in
    filt rules st mm = Some (fst s, snd s, true).
  Proof.
    intros rules st mm Hc Hk Hr.
    assert (G : forall m, (exists f, m = set_Flags mm f /\ sameflags f (Flags mm)) -> flag (Flags m) MMFLAG_KILL = false ->
      let s := fold_left perform (upto_kill (firing e mm rules)) (st, m) in
      exists x, runrules e flags rs (fun st m t => Some (docopy st m t, true)) (fun st m t => Some (dobad st m t, true))
                      (fun st m t h => Some (dobounce st m t h, true)) exec masq st m rules = Some (fst s, snd s, x) /\ (x = Go \/ x = Stop true)).
    { clear Hk. revert st. induction Hr as [|[cond cs] rules (HE & Hs & Hf) Hr IH]; intros st m Hm Hk.
      - exists Go. simpl. auto.
      - cbn [runrules]. unfold firing. cbn [filter map concat fst snd].
        assert (HE' : evalfilter e m cond = evalfilter e mm cond) by (destruct Hm as (f & -> & Hf'); apply evalfilter_flags; auto).
        rewrite HE'. cbn [fst] in HE. cbn [snd] in Hs, Hf. destruct HE as [HE|HE]; rewrite HE; cbn [obind Z.eqb].
        + apply (IH st m Hm Hk).
        + cbn [map concat snd]. fold (firing e mm rules). change (concat (map snd (filter _ rules))) with (firing e mm rules).
          pose proof (perform_run cs st m mm Hm Hc Hs Hf Hk) as (Hm' & Hk' & HR). cbv zeta.
          change (Pos.eqb 1 1) with true. cbv iota. rewrite HR. cbn [obind]. rewrite upto_kill_app.
          destruct (existsb _ cs) eqn:EX.
          * eexists. split; [reflexivity|auto].
          * rewrite fold_left_app. destruct (fold_left perform (upto_kill cs) (st, m)) as [st1 m1]. cbn [fst snd] in *.
            apply (IH st1 m1 Hm' Hk'). }
    intros s. destruct (G mm) as (x & E & Hx); [exists (Flags mm); split; [symmetry; apply set_Flags_id|repeat split]|auto|].
    unfold Filter. fold s in E. rewrite E. cbn [obind fst snd]. destruct Hx as [->| ->]; reflexivity.
  Qed.
End Ordered.
Print Assumptions C34_exactly_the_commands.

(** Three rules, the second of which kills: the third has no effect. *)
Example C34_nonvacuous :
  let e := FE [] [] (NLC false (NL false (fun _ => 0) (fun _ => 0)) (fun _ => 0)) in
  let log (st : list (list Z)) (m : memmsg) (t : list Z) := st ++ [t] in
  let mm := set_Subject (set_TextChunks mm0 [lit "Hi" ++ [13]]) (lit "test") in
  let rules := [(lit "SUBJECT=""foo""", [CWriteBad (lit "a")]);
                (lit "TYPE=""NETMAIL""", [CTwit; CWriteBad (lit "b"); CKill; CWriteBad (lit "c")]);
                (lit "SUBJECT=""test""", [CWriteBad (lit "d")])] in
  firing e mm rules = [CTwit; CWriteBad (lit "b"); CKill; CWriteBad (lit "c"); CWriteBad (lit "d")] /\
  Forall (fun r => (evalfilter e mm (fst r) = Some 0 \/ evalfilter e mm (fst r) = Some 1) /\
                     Forall simple (snd r) /\ Forall (fits mm) (snd r)) rules /\
  option_map (fun x => (fst (fst x), Flags (snd (fst x))))
    (Filter e 0 [] (fun st m t => Some (log st m t, true)) (fun st m t => Some (log st m t, true))
                      (fun st m t h => Some (log st m t, true)) (fun _ _ => 1) (fun m _ _ => Some m) rules [] mm)
  = Some ([lit "b"], 96).
Proof.
  split; [vm_compute; reflexivity|]. split; [|vm_compute; reflexivity].
  repeat match goal with |- _ /\ _ => split | |- Forall _ _ => constructor | |- _ \/ _ => vm_compute; auto | |- _ => vm_compute; first [exact I|discriminate] end.
Qed.
