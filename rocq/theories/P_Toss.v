(** Lemmas about toss runs. *)
From Coq Require Import Permutation.
From Verif Require Import Base M_Node4D S_Node4D M_Pat M_Str S_Str P_Str M_Mem M_Cfg M_Pkt M_Fs P_Fs M_Expr M_Filter M_Out S_Out P_Out M_Toss S_Toss.

Ltac lits := match goal with |- cstring ?l => let l' := eval vm_compute in l in change l with l' end; unfold cstring; repeat constructor; lia.
(** ** Paths *)
Lemma joinpath_slashed d n : joinpath d n = slashed d ++ n.
Proof. unfold joinpath, slashed. destruct (rev d) as [|c r]; [reflexivity|]. destruct (c =? PATHCHAR); [reflexivity|]. rewrite <- app_assoc. reflexivity. Qed.
Lemma slashed_length d : (length (slashed d) <= length d + 1)%nat.
Proof. unfold slashed. destruct (rev d) as [|c r]; [simpl; lia|]. destruct (c =? PATHCHAR); rewrite ?app_length; simpl; lia. Qed.
Lemma slashed_dir d : slashed d = [] \/ exists p, slashed d = p ++ [PATHCHAR].
Proof.
  unfold slashed. destruct (rev d) as [|c r] eqn:E; [left; reflexivity|right]. destruct (Z.eqb_spec c PATHCHAR) as [->|]; [|eauto].
  exists (rev r). rewrite <- (rev_involutive d), E. reflexivity.
Qed.
Lemma path200_eq d n : cstring d -> (length d <= 99)%nat -> cstring n -> path200 d n = Some (firstn 198 (slashed d ++ n)).
Proof.
  intros Hd Hl Hn. unfold path200. destruct (MakeFullPath_cut d n (repeat 0 200) 200) as (b & t & E & (_ & _ & Hc) & _ & Ht); auto; [lia|].
  rewrite E. cbn [option_map]. rewrite Hc, Ht, joinpath_slashed by lia. reflexivity.
Qed.
Lemma path200_indir d n p : dir_ok d -> cstring n -> ~ In PATHCHAR n -> path200 d n = Some p -> indir d p.
Proof.
  intros [Hd Hl] Hn Hs E. rewrite path200_eq in E by auto. apply some_eq in E. subst p.
  pose proof (slashed_length d). rewrite firstn_app, firstn_all2 by lia. eexists. split; [reflexivity|].
  split; [apply cstring_firstn; auto|]. intros H'. apply Hs. rewrite <- (firstn_skipn (198 - length (slashed d)) n). apply in_or_app. auto.
Qed.
Lemma path200_short d n : dir_ok d -> cstring n -> (length n <= 98)%nat -> path200 d n = Some (slashed d ++ n).
Proof.
  intros [Hd Hl] Hn Hs. rewrite path200_eq by auto. pose proof (slashed_length d). rewrite firstn_all2 by (rewrite app_length; lia). reflexivity.
Qed.
Lemma indir_part d f : indir d f -> f = slashed d ++ GetFilePart f.
Proof. intros (n & -> & Hn & Hs). rewrite GetFilePart_dir by (auto using slashed_dir). reflexivity. Qed.
Lemma indir_dirpart d f : indir d f -> dirpart f = slashed d.
Proof.
  intros H. pose proof (indir_part d f H) as E. unfold dirpart. rewrite E at 3.
  assert (length f = length (slashed d) + length (GetFilePart f))%nat by (rewrite E at 1; apply app_length).
  replace (length f - length (GetFilePart f))%nat with (length (slashed d)) by lia.
  rewrite firstn_app, Nat.sub_diag, firstn_O, app_nil_r, firstn_all. reflexivity.
Qed.
Lemma indir_name d f : indir d f -> cstring (GetFilePart f) /\ ~ In PATHCHAR (GetFilePart f).
Proof. intros (n & -> & Hn & Hs). rewrite GetFilePart_dir by (auto using slashed_dir). auto. Qed.
Lemma indir_pktfile d f : indir d f -> indir d (pktfile f).
Proof.
  intros H. unfold pktfile. rewrite (indir_dirpart _ _ H). destruct (indir_name _ _ H) as [H1 H2].
  eexists. split; [reflexivity|]. split.
  - apply cstring_app. split; [apply cstring_firstn; auto|]. lits.
  - intros Hi. apply in_app_or in Hi as [Hi|Hi]; [apply H2; rewrite <- (firstn_skipn 8 (GetFilePart f)); apply in_or_app; auto|]. vm_compute in Hi. intuition discriminate.
Qed.
Lemma indir_app d f x : indir d f -> cstring x -> ~ In PATHCHAR x -> indir d (f ++ x).
Proof.
  intros (n & -> & Hn & Hs) Hx Hp. exists (n ++ x). rewrite app_assoc. split; [reflexivity|]. split; [apply cstring_app; auto|].
  intros H. apply in_app_or in H as [H|H]; auto.
Qed.

(** ** Directories *)
Lemma behindprefix_iff pre s r : behindprefix pre s = Some r <-> s = pre ++ r.
Proof.
  revert s; induction pre as [|a pre IH]; intros s; simpl; [split; congruence|]. destruct s as [|b s]; [split; discriminate|].
  destruct (Z.eqb_spec a b) as [->|Hn]; [rewrite IH; split; congruence|split; [discriminate|congruence]].
Qed.
Lemma namechars_iff n : namechars n = true <-> cstring n /\ ~ In PATHCHAR n.
Proof.
  unfold namechars, cstring. rewrite forallb_forall, Forall_forall. split.
  - intros H. split; [intros c Hc; specialize (H c Hc); lia|]. intros Hc. specialize (H _ Hc). unfold PATHCHAR in H. lia.
  - intros [H1 H2] c Hc. specialize (H1 c Hc). destruct (Z.eqb_spec c PATHCHAR) as [->|]; [tauto|]. lia.
Qed.
Lemma readdir_In fs dir acc n size : In (n, size) (osReadDir fs dir acc) ->
  exists m c, n = firstn 99 m /\ In (slashed dir ++ m, c) fs /\ size = Z.of_nat (length c) /\ cstring m /\ ~ In PATHCHAR m /\ acc m = true.
Proof.
  induction fs as [|[p c] fs IH]; cbn [osReadDir]; [intros []|].
  destruct (behindprefix (slashed dir) p) as [m|] eqn:E; [|intros H; destruct (IH H) as (m & c' & A & B & C); exists m, c'; split; auto; split; [right|]; auto].
  apply behindprefix_iff in E. subst p. destruct (namechars m && acc m) eqn:Ea.
  - intros [H|H]; [|destruct (IH H) as (m' & c' & A & B & C); exists m', c'; split; auto; split; [right|]; auto].
    apply andb_true_iff in Ea as [Ea1 Ea2]. apply namechars_iff in Ea1. assert (n = firstn 99 m) by congruence. assert (size = Z.of_nat (length c)) by congruence.
    exists m, c. split; [auto|]. split; [left; reflexivity|]. tauto.
  - intros H; destruct (IH H) as (m' & c' & A & B & C); exists m', c'; split; auto; split; [right|]; auto.
Qed.
Lemma In_readdir fs dir acc m c : In (slashed dir ++ m, c) fs -> cstring m -> ~ In PATHCHAR m -> acc m = true ->
  In (firstn 99 m, Z.of_nat (length c)) (osReadDir fs dir acc).
Proof.
  intros H Hm Hs Ha. induction fs as [|[p c'] fs IH]; [destruct H|]. cbn [osReadDir]. destruct H as [H|H].
  - assert (p = slashed dir ++ m) by congruence. assert (c' = c) by congruence. subst p c'.
    replace (behindprefix (slashed dir) (slashed dir ++ m)) with (Some m) by (symmetry; apply behindprefix_iff; reflexivity).
    replace (namechars m) with true by (symmetry; apply namechars_iff; auto). rewrite Ha. left. reflexivity.
  - destruct (behindprefix (slashed dir) p); [destruct (namechars l && acc l)|]; try right; auto.
Qed.
Definition fine_names (l : list (list Z * Z)) : Prop := Forall (fun e => cstring (fst e) /\ ~ In PATHCHAR (fst e)) l.
Lemma readdir_fine fs dir acc : fine_names (osReadDir fs dir acc).
Proof.
  apply Forall_forall. intros [n size] H. apply readdir_In in H as (m & c & -> & _ & _ & H1 & H2 & _). cbn [fst].
  split; [apply cstring_firstn; auto|]. intros H. apply H2. rewrite <- (firstn_skipn 99 m). apply in_or_app; auto.
Qed.

(** ** Interruptions *)
Section Int.
  Context (exec : list Z -> fsys -> fsys * Z) (during : list Z -> fsys -> fsys -> Prop).
  Notation run := (run exec).
  Notation interrupted := (interrupted exec during).
  Lemma run_app fs a b : run fs (a ++ b) = run (run fs a) b.
  Proof. apply fold_left_app. Qed.
  Definition keeps (P : fsys -> Prop) (fs : fsys) (ops : list fop) : Prop := forall fs', interrupted fs ops fs' -> P fs'.
  Lemma int_end fs ops : interrupted fs ops (run fs ops).
  Proof. revert fs; induction ops as [|o ops IH]; intros fs; [apply int_here|]. apply int_next, IH. Qed.
  Lemma int_app fs a b fs' : interrupted fs (a ++ b) fs' -> interrupted fs a fs' \/ interrupted (run fs a) b fs'.
  Proof.
    revert fs; induction a as [|o a IH]; intros fs H; [right; exact H|]. inversion H; subst.
    - left. apply int_here.
    - left. apply int_put.
    - left. apply int_exec. auto.
    - destruct (IH _ H4) as [H'|H']; [left; apply int_next; auto|right; auto].
  Qed.
  Lemma keeps_app P fs a b : keeps P fs a -> keeps P (run fs a) b -> keeps P fs (a ++ b).
  Proof. intros Ha Hb fs' H. apply int_app in H as [H|H]; auto. Qed.
  Lemma keeps_end P fs a : keeps P fs a -> P (run fs a).
  Proof. intros H. apply H, int_end. Qed.
  Lemma keeps_nil (P : fsys -> Prop) fs : P fs -> keeps P fs [].
  Proof. intros H fs' Hi. inversion Hi; subst; auto. Qed.
  (** steps that preserve P, one at a time *)
  Definition keeps1 (P : fsys -> Prop) (o : fop) : Prop := forall fs, P fs -> keeps P fs [o].
  Lemma keeps_all (P : fsys -> Prop) ops fs : P fs -> Forall (keeps1 P) ops -> keeps P fs ops.
  Proof.
    intros H F. revert fs H. induction F as [|o ops Ho F IH]; intros fs H; [apply keeps_nil; auto|].
    change (o :: ops) with ([o] ++ ops). apply keeps_app; [apply Ho; auto|]. apply IH. apply keeps_end. apply Ho; auto.
  Qed.
  Lemma keeps_ren (P : fsys -> Prop) fs a b : P fs -> P (tryrename fs a b) -> keeps P fs [Ren a b].
  Proof. intros H1 H2 fs' H. inversion H; subst; auto. match goal with H' : S_Toss.interrupted _ _ _ [] _ |- _ => inversion H'; subst; auto end. Qed.
  Lemma keeps_del (P : fsys -> Prop) fs n : P fs -> P (osDelete fs n) -> keeps P fs [Del n].
  Proof. intros H1 H2 fs' H. inversion H; subst; auto. match goal with H' : S_Toss.interrupted _ _ _ [] _ |- _ => inversion H'; subst; auto end. Qed.
  Lemma keeps_put (P : fsys -> Prop) fs n c : P fs -> (forall x, P (fput fs n x)) -> keeps P fs [Put n c].
  Proof. intros H1 H2 fs' H. inversion H; subst; auto. match goal with H' : S_Toss.interrupted _ _ _ [] _ |- _ => inversion H'; subst; apply H2 end. Qed.
  Lemma keeps_exec (P : fsys -> Prop) fs cmd : P fs -> (forall fs', during cmd fs fs' -> P fs') -> P (fst (exec cmd fs)) -> keeps P fs [Exec cmd].
  Proof. intros H1 H2 H3 fs' H. inversion H; subst; auto. match goal with H' : S_Toss.interrupted _ _ _ [] _ |- _ => inversion H'; subst; auto end. Qed.
End Int.

Lemma tryrename_other fs a b m : m <> a -> m <> b -> fget (tryrename fs a b) m = fget fs m.
Proof. intros H1 H2. unfold tryrename. destruct (osRename fs a b) eqn:E; [eapply rename_other; eauto|reflexivity]. Qed.

(** ** The outbound side stays in its own files *)
Lemma bundlename_chars b k n : bundlename b k = Some n -> cstring n /\ ~ In PATHCHAR n.
Proof.
  unfold bundlename. destruct (nth_error daynames (Z.to_nat (k / 10))) as [d|] eqn:E; [|discriminate]. intros H. apply some_eq in H. subst n.
  assert (Hm : 0 <= k mod 10 < 10) by (apply Z.mod_pos_bound; lia).
  assert (F : Forall (fun c => 1 <= c < 256 /\ c <> PATHCHAR) (hex 8 b ++ lit "." ++ d ++ dec (k mod 10))).
  { apply Forall_app. split; [|apply Forall_app; split; [|apply Forall_app; split]].
    - eapply Forall_impl; [|apply (hex_fine 8 b)]. cbv beta. unfold PATHCHAR. intros c Hc. lia.
    - litc. repeat constructor; unfold PATHCHAR; lia.
    - apply nth_error_In in E. cbn in E. repeat destruct E as [E|E]; try (subst d; repeat constructor; unfold PATHCHAR; lia). destruct E.
    - eapply Forall_impl; [|apply dec_digits; lia]. cbv beta. unfold digit, isdigit, PATHCHAR. intros c Hc. lia. }
  split; [eapply Forall_impl; [|exact F]; intros c Hc; apply Hc|].
  rewrite Forall_forall in F. intros H. apply F in H. tauto.
Qed.
Lemma MakeArcName_chars env arcs last i n l ch : MakeArcName env arcs last i = Some (n, l, ch) -> cstring n /\ ~ In PATHCHAR n.
Proof.
  unfold MakeArcName. destruct (match nth i last [] with [] => _ | _ => _ end) as [[b s]|]; [|discriminate]. cbn [obind].
  destruct (if s =? NOSUFFIX then _ else _) as [k|]; [|discriminate]. cbn [obind]. destruct (bundlename b k) as [m|] eqn:E; [|discriminate]. cbn [obind].
  apply bundlename_chars in E. destruct (streqi _ m); intros H; assert (n = m) by congruence; subst; auto.
Qed.

Section Within.
  Context (exec : list Z -> fsys -> fsys * Z) (env : oenv) (Hpd : dir_ok (oe_packetdir env)) (Hpc : dir_ok (oe_packetcreate env)).
  Notation run := (run exec).
  Definition own (n : list Z) : Prop := indir (oe_packetdir env) n \/ indir (oe_packetcreate env) n.
  Definition within (ops : list fop) : Prop := Forall (fun o => forall n, names o n -> outbound_file env n) ops.
  Lemma own_out n : own n -> outbound_file env n.
  Proof. intros [H|H]; [left|right; left]; auto. Qed.
  Lemma base_out d base x : MakeBaseName env d = Some base -> outbound_file env (base ++ lit "." ++ x).
  Proof. intros H. right. right. eauto. Qed.
  Lemma within_app a b : within a -> within b -> within (a ++ b).
  Proof. intros. apply Forall_app; auto. Qed.
  Lemma within_put n c : outbound_file env n -> within [Put n c].
  Proof. intros H. constructor; [|constructor]. cbn. intros m ->. auto. Qed.
  Lemma within_del n : outbound_file env n -> within [Del n].
  Proof. intros H. constructor; [|constructor]. cbn. intros m ->. auto. Qed.
  Lemma within_ren a b : outbound_file env a -> outbound_file env b -> within [Ren a b].
  Proof. intros Ha Hb. constructor; [|constructor]. cbn. intros m [->| ->]; auto. Qed.
  Lemma within_exec c : within [Exec c].
  Proof. constructor; [|constructor]. cbn. intros m []. Qed.
  Lemma within_nil : within [].
  Proof. constructor. Qed.
  Hint Resolve own_out within_app within_put within_del within_ren within_exec within_nil : core.
  Lemma orphan_own f : own f -> own (orphanname f).
  Proof. intros [H|H]; [left|right]; apply indir_app; auto; try lits; vm_compute; intuition discriminate. Qed.
  Lemma pkt_own f : own f -> own (pktfile f).
  Proof. intros [H|H]; [left|right]; apply indir_pktfile; auto. Qed.
  Lemma attach_within fs file d base n type mode o : own file -> MakeBaseName env d = Some base -> attachops env fs file base n type mode = Some o -> within o.
  Proof.
    intros Hf Hb. unfold attachops, flowops. destruct (oe_noopen env _).
    - unfold orphanops. destruct (Nat.ltb _ _); [|discriminate]. destruct (oe_noopen env _); [intros E; apply some_eq in E; subst; auto|].
      destruct (orphantext type n mode); [|discriminate]. cbn [obind]. intros E. apply some_eq in E. subst. apply within_put, own_out, orphan_own; auto.
    - intros E. apply some_eq in E. subst. apply within_put. unfold flowfile. eapply base_out; eauto.
  Qed.
  Lemma index_within last o : indexops env last = Some o -> within o.
  Proof.
    unfold indexops. destruct (path200 _ _) as [p|] eqn:E; [|discriminate]. cbn [obind]. intros H. apply some_eq in H. subst o.
    destruct (oe_noopen env p); auto. apply within_put, own_out. left. eapply path200_indir; eauto; [lits|vm_compute; intuition discriminate].
  Qed.
  Lemma run_one fs a : run fs [a] = apply exec fs a.
  Proof. reflexivity. Qed.
  Lemma packecho_within st file d base i c packer n st' o ok : own file -> (length file <= 199)%nat -> MakeBaseName env d = Some base ->
    packecho exec env st file base i c packer n = Some (st', o, ok) -> within o /\ os_fs st' = run (os_fs st) o.
  Proof.
    intros Hf Hl Hb. unfold packecho. destruct (MakeArcName _ _ _ i) as [[[name last] ch]|] eqn:Ea; [|discriminate]. cbn [obind].
    apply MakeArcName_chars in Ea as [Ha1 Ha2].
    destruct (if ch then _ else _) as [o1|] eqn:E1; [|discriminate]. cbn [obind].
    assert (W1 : within o1) by (destruct ch; [eapply index_within; eauto|apply some_eq in E1; subst; auto]).
    destruct (path200 _ name) as [arc|] eqn:E2; [|discriminate]. cbn [obind].
    assert (Harc : own arc) by (left; eapply path200_indir; eauto). rewrite (firstn_all2 file) by lia.
    assert (Hpkt : own (pktfile file)) by (apply pkt_own; auto). set (pkt := pktfile file) in *.
    destruct (match oe_beforepack env with [] => _ | _ => _ end) as [[o2 res]|] eqn:E3; [|discriminate]. cbn [obind].
    assert (W2 : within o2).
    { destruct (oe_beforepack env); [assert (o2 = []) by congruence; subst; auto|]. destruct (ExpandPacker _ arc pkt); [|discriminate]. cbn [obind] in E3.
      assert (o2 = [Exec l0]) by congruence. subst. auto. }
    destruct (negb (res =? 0)).
    - intros E. assert (o = (o1 ++ [Ren file pkt]) ++ o2 ++ [Ren pkt file]) by congruence. subst o.
      split; [auto 10|]. assert (E' : st' = doing exec (doing exec (doing exec (OS (os_fs st) last (os_arcs st)) (o1 ++ [Ren file pkt])) o2) [Ren pkt file]) by congruence.
      subst st'. cbn [doing os_fs set_fs]. rewrite !run_app. reflexivity.
    - destruct (ExpandPacker packer arc pkt) as [cmd|]; [|discriminate]. cbn [obind].
      destruct (_ =? 0).
      + destruct (attachops _ _ _ _ _ _ _) as [o3|] eqn:E4; [|discriminate]. cbn [obind]. intros E.
        assert (o = (o1 ++ [Ren file pkt]) ++ o2 ++ [Exec cmd; Del pkt] ++ o3) by congruence. subst o.
        pose proof (attach_within _ _ _ _ _ _ _ _ Harc Hb E4).
        split; [change [Exec cmd; Del pkt] with ([Exec cmd] ++ [Del pkt]); auto 10|].
        apply (f_equal (fun x => match x with Some (s, _, _) => os_fs s | None => [] end)) in E. rewrite <- E.
        cbn [doing os_fs set_fs]. unfold UpdateFile. destruct (fget _ arc); cbn [doing os_fs set_fs]; rewrite !run_app; reflexivity.
      + intros E. assert (o = (o1 ++ [Ren file pkt]) ++ o2 ++ [Exec cmd; Ren pkt file]) by congruence. subst o.
        split; [change [Exec cmd; Ren pkt file] with ([Exec cmd] ++ [Ren pkt file]); auto 10|].
        apply (f_equal (fun x => match x with Some (s, _, _) => os_fs s | None => [] end)) in E. rewrite <- E.
        cbn [doing os_fs set_fs]. rewrite !run_app. reflexivity.
  Qed.
  Lemma sendecho_within fs file d base c n o ok : own file -> MakeBaseName env d = Some base -> sendecho env fs file base c n = Some (o, ok) -> within o.
  Proof.
    intros Hf Hb. unfold sendecho. destruct (path200 _ _) as [p|] eqn:E; [|discriminate]. cbn [obind]. destruct c as [c|]; [|discriminate]. cbn [obind].
    assert (Hp : own (pktfile p)).
    { apply pkt_own. left. assert (cstring (GetFilePart file) /\ ~ In PATHCHAR (GetFilePart file)) as [H1 H2] by (destruct Hf as [Hf|Hf]; eapply indir_name; eauto).
      eapply path200_indir; eauto. }
    destruct (osRename fs file (pktfile p)); [|intros E'; assert (o = []) by congruence; subst; auto].
    destruct (attachops _ _ _ _ _ _ _) as [o3|] eqn:E4; [|discriminate]. cbn [obind]. intros E'. assert (o = [Ren file (pktfile p)] ++ o3) by congruence. subst o.
    pose proof (attach_within _ _ _ _ _ _ _ _ Hp Hb E4). auto.
  Qed.
  Lemma PackFile_within st file st' o ok : own file -> (length file <= 199)%nat -> PackFile exec env st file = Some (st', o, ok) ->
    within o /\ os_fs st' = run (os_fs st) o.
  Proof.
    intros Hf Hl. unfold PackFile. destruct (parsepktname file) as [p|]; [|discriminate]. cbn [obind]. destruct p as [[type n]|].
    2:{ intros E. assert (o = []) by congruence. assert (st' = st) by congruence. subst. auto. }
    destruct (MakeBaseName env n) as [base|] eqn:Eb; [|discriminate]. cbn [obind].
    destruct (LockBasename env (os_fs st) base); [|intros E; assert (o = []) by congruence; assert (st' = st) by congruence; subst; auto].
    assert (Hbsy : outbound_file env (bsyname base)) by (apply (base_out n); auto).
    set (st0 := doing exec st _).
    destruct (if type =? PKTS_ECHOMAIL then _ else _) as [[[st1 o1] ok1]|] eqn:E1; [|discriminate]. cbn [obind]. intros E.
    assert (o = [Put (bsyname base) []] ++ o1 ++ [Del (bsyname base)]) by congruence. subst o.
    assert (Est : st' = doing exec st1 [Del (bsyname base)]) by congruence. subst st'.
    enough (within o1 /\ os_fs st1 = run (os_fs st0) o1) as [W Ef].
    { split; [auto|]. cbn [doing os_fs set_fs]. rewrite Ef, !run_app. reflexivity. }
    destruct (type =? PKTS_ECHOMAIL).
    - destruct (nodeindex _ n 0) as [[i c]|].
      + destruct (on_packer c) as [packer|]; [eapply packecho_within; eauto|].
        destruct (sendecho _ _ _ _ _ _) as [[o2 ok2]|] eqn:E2; [|discriminate]. cbn [obind fst snd] in E1.
        assert (o1 = o2) by congruence. assert (st1 = doing exec st0 o2) by congruence. subst. split; [eapply sendecho_within; eauto|reflexivity].
      + destruct (sendecho _ _ _ _ _ _) as [[o2 ok2]|] eqn:E2; [|discriminate]. cbn [obind fst snd] in E1.
        assert (o1 = o2) by congruence. assert (st1 = doing exec st0 o2) by congruence. subst. split; [eapply sendecho_within; eauto|reflexivity].
    - destruct (sendnet _ _ _ _ _) as [o2 ok2] eqn:E2. assert (o1 = o2) by congruence. assert (st1 = doing exec st0 o2) by congruence. subst.
      split; [|reflexivity]. unfold sendnet in E2. destruct (fget _ file) as [new|]; [|assert (o2 = []) by congruence; subst; auto].
      destruct (oe_noopen env _); [assert (o2 = []) by congruence; subst; auto|].
      apply (f_equal fst) in E2. cbn [fst] in E2. subst o2. constructor; [cbn; intros m ->; eapply (base_out n); eauto|apply within_del; auto].
  Qed.
End Within.

Lemma path200_length d n p : dir_ok d -> cstring n -> path200 d n = Some p -> (length p <= 198)%nat.
Proof. intros [H1 H2] Hn E. rewrite path200_eq in E by auto. apply some_eq in E. subst p. rewrite firstn_length. lia. Qed.
Lemma readdir_newpkt fs dir : Forall (fun e => (7 <= length (fst e))%nat) (osReadDir fs dir IsNewPkt).
Proof.
  apply Forall_forall. intros [n size] H. apply readdir_In in H as (m & c & -> & _ & _ & _ & _ & H). cbn [fst].
  unfold IsNewPkt, hassuffix in H. rewrite firstn_length. apply andb_true_iff in H as [H _]. apply negb_true_iff in H. apply Nat.ltb_ge in H.
  change (length (lit ".newpkt")) with 7%nat in H. lia.
Qed.

Section Archive.
  Context (exec : list Z -> fsys -> fsys * Z) (env : oenv) (sort : list (list Z * Z) -> list (list Z * Z)).
  Context (Hpd : dir_ok (oe_packetdir env)) (Hpc : dir_ok (oe_packetcreate env)) (Hsort : forall l, Permutation (sort l) l).
  Notation run := (run exec).
  Notation within := (within env).
  Lemma sort_Forall {P : list Z * Z -> Prop} l : Forall P l -> Forall P (sort l).
  Proof. intros F. rewrite Forall_forall in *. intros x Hx. apply F. eapply Permutation_in; [apply Hsort|auto]. Qed.
  Lemma orphanretry_within fs name o : own env name -> orphanretry env fs name = Some o -> within o.
  Proof.
    intros Hn. unfold orphanretry. destruct (fget fs name) as [s|]; [|intros E; apply some_eq in E; subst; constructor].
    destruct (osFGets 100 s) as [[l r]|]; [|intros E; apply some_eq in E; subst; constructor].
    destruct (token200 100 l) as [a|]; [|discriminate]. cbn [obind]. destruct (flavour (fst a)) as [type|]; [|intros E; apply some_eq in E; subst; constructor].
    destruct (token200 100 (snd a)) as [b|]; [|discriminate]. cbn [obind]. destruct (Parse4D (fst b)) as [n|]; [|intros E; apply some_eq in E; subst; constructor].
    destruct (token200 100 (snd b)) as [c|]; [|discriminate]. cbn [obind]. destruct (MakeBaseName env n) as [base|] eqn:Eb; [|discriminate]. cbn [obind].
    destruct (LockBasename env fs base) as [fs1|]; [|intros E; apply some_eq in E; subst; constructor].
    unfold flowops. destruct (oe_noopen env _); intros E; apply some_eq in E; subst o;
      repeat (constructor; [cbn; intros m ->; first [apply own_out; assumption|eapply base_out; eassumption]|]); constructor.
  Qed.
  Lemma orphanloop_within l fs o : fine_names l -> orphanloop exec env l fs = Some o -> within o.
  Proof.
    intros F. revert fs o. induction F as [|[n z] l [F1 F2] F IH]; intros fs o; cbn [orphanloop]; [intros E; apply some_eq in E; subst; constructor|].
    destruct (path200 _ n) as [p|] eqn:E; [|discriminate]. cbn [obind]. destruct (orphanretry env fs p) as [o1|] eqn:E1; [|discriminate]. cbn [obind].
    destruct (orphanloop exec env l _) as [o2|] eqn:E2; [|discriminate]. cbn [obind]. intros E'. apply some_eq in E'. subst o.
    apply Forall_app. split; [|eapply IH; eauto]. eapply orphanretry_within; [|eauto]. left. eapply path200_indir; eauto.
  Qed.
  Lemma zero_within l o : fine_names l -> zeroops env l = Some o -> within o.
  Proof.
    intros F. revert o. induction F as [|[n z] l [F1 F2] F IH]; intros o; cbn [zeroops]; [intros E; apply some_eq in E; subst; constructor|].
    destruct (zeroops env l) as [o1|] eqn:E1; [|discriminate]. cbn [obind]. destruct (z =? 0); [|intros E; apply some_eq in E; subst; auto].
    destruct (path200 _ n) as [p|] eqn:E; [|discriminate]. cbn [obind]. intros E'. apply some_eq in E'. subst o. constructor; [|apply (IH o1 eq_refl)].
    cbn. intros m ->. left. eapply path200_indir; eauto.
  Qed.
  Lemma packold_within l st st' o : fine_names l -> packold exec env l st = Some (st', o) -> within o /\ os_fs st' = run (os_fs st) o.
  Proof.
    intros F. revert st st' o. induction F as [|[n z] l [F1 F2] F IH]; intros st st' o; cbn [packold].
    - intros E. assert (o = []) by congruence. assert (st' = st) by congruence. subst. split; [constructor|reflexivity].
    - destruct (path200 _ n) as [p|] eqn:E; [|discriminate]. cbn [obind]. destruct (PackFile exec env st p) as [[[st1 o1] ok]|] eqn:E1; [|discriminate]. cbn [obind fst snd].
      destruct (packold exec env l st1) as [[st2 o2]|] eqn:E2; [|discriminate]. cbn [obind fst snd]. intros E'.
      assert (st' = st2) by congruence. assert (o = o1 ++ o2) by congruence. subst.
      destruct (IH _ _ _ E2) as [W Ef]. cbn [fst] in F1, F2.
      assert (Hown : own env p) by (left; eapply path200_indir; eauto).
      assert (Hlen : (length p <= 199)%nat) by (eapply path200_length in E; eauto; lia).
      destruct (PackFile_within exec env Hpd st p _ _ _ Hown Hlen E1) as [W1 Ef1].
      split; [apply Forall_app; auto|]. rewrite run_app, <- Ef1. auto.
  Qed.
  Lemma tmpname_own p b : own env p -> (6 <= length (GetFilePart p))%nat -> tmpname env p = Some b -> own env b.
  Proof.
    intros Hp Hl. unfold tmpname. destruct (path200 _ _) as [q|] eqn:E; [|discriminate]. cbn [obind]. destruct (Nat.ltb (length q) 6); [discriminate|].
    intros E'. apply some_eq in E'. subst b. left.
    assert (cstring (GetFilePart p) /\ ~ In PATHCHAR (GetFilePart p)) as [H1 H2] by (destruct Hp as [Hp|Hp]; eapply indir_name; eauto).
    destruct Hpd as [Hd Hd']. rewrite path200_eq in E by auto. apply some_eq in E. subst q. pose proof (slashed_length (oe_packetdir env)).
    rewrite (firstn_app 198), (firstn_all2 (n := 198) (slashed (oe_packetdir env))) by lia. set (k := (198 - length (slashed (oe_packetdir env)))%nat). set (m := firstn k (GetFilePart p)).
    assert (6 <= length m)%nat by (unfold m; rewrite firstn_length; lia).
    rewrite app_length. rewrite firstn_app. rewrite (firstn_all2 (slashed (oe_packetdir env))) by lia. rewrite <- app_assoc. eexists. split; [reflexivity|]. split.
    - apply cstring_app. split; [apply cstring_firstn; unfold m; apply cstring_firstn; auto|]. lits.
    - intros Hi. apply in_app_or in Hi as [Hi|Hi]; [|vm_compute in Hi; intuition discriminate]. apply H2.
      rewrite <- (firstn_skipn k (GetFilePart p)). apply in_or_app. left. fold m. rewrite <- (firstn_skipn (length (slashed (oe_packetdir env)) + length m - 6 - length (slashed (oe_packetdir env))) m).
      apply in_or_app. auto.
  Qed.
  Lemma packnew_within l st st' o ok : fine_names l -> Forall (fun e => (7 <= length (fst e))%nat) l -> packnew exec env l st = Some (st', o, ok) ->
    within o /\ os_fs st' = run (os_fs st) o.
  Proof.
    intros F. revert st st' o ok. induction F as [|[n z] l [F1 F2] F IH]; intros st st' o ok F7; cbn [packnew].
    - intros E. assert (o = []) by congruence. assert (st' = st) by congruence. subst. split; [constructor|reflexivity].
    - inversion_clear F7 as [|? ? Hn7 F7']. cbn [fst] in *. destruct (path200 _ n) as [p|] eqn:E; [|discriminate]. cbn [obind].
      destruct (PackFile exec env st p) as [[[st1 o1] ok1]|] eqn:E1; [|discriminate]. cbn [obind].
      assert (Hown : own env p) by (right; eapply path200_indir; eauto).
      assert (Hlen : (length p <= 199)%nat) by (eapply path200_length in E; eauto; lia).
      destruct (PackFile_within exec env Hpd st p _ _ _ Hown Hlen E1) as [W1 Ef1].
      destruct ok1.
      + destruct (packnew exec env l st1) as [[[st2 o2] ok2]|] eqn:E2; [|discriminate]. cbn [obind]. intros E'.
        assert (st' = st2) by congruence. assert (o = o1 ++ o2) by congruence. subst. destruct (IH _ _ _ _ F7' E2) as [W Ef].
        split; [apply Forall_app; auto|]. rewrite run_app, <- Ef1. auto.
      + destruct (tmpname env p) as [b|] eqn:Et; [|discriminate]. cbn [obind].
        destruct (osExists _ p && _); [|intros E'; assert (st' = st1) by congruence; assert (o = o1) by congruence; subst; auto].
        destruct (packnew exec env l _) as [[[st2 o2] ok2]|] eqn:E2; [|discriminate]. cbn [obind]. intros E'.
        assert (st' = st2) by congruence. assert (o = o1 ++ [Ren p b] ++ o2) by congruence. subst. destruct (IH _ _ _ _ F7' E2) as [W Ef].
        assert (own env b).
        { eapply tmpname_own; [exact Hown| |exact Et]. destruct Hpc as [Hc Hc']. rewrite path200_eq in E by auto. apply some_eq in E. subst p.
          pose proof (slashed_length (oe_packetcreate env)). rewrite firstn_app, firstn_all2 by lia. rewrite GetFilePart_dir.
          - rewrite firstn_length. lia.
          - apply slashed_dir.
          - intros Hi. apply F2. rewrite <- (firstn_skipn (198 - length (slashed (oe_packetcreate env))) n). apply in_or_app. auto. }
        split; [apply Forall_app; split; auto; constructor; [cbn; intros m [->| ->]; apply own_out; auto|auto]|].
        rewrite !run_app, <- Ef1. exact Ef.
  Qed.
  Lemma Archive_within fs last st' o ok : ArchiveOutbound exec env sort fs last = Some (st', o, ok) -> within o /\ os_fs st' = run fs o.
  Proof.
    unfold ArchiveOutbound. destruct (orphanloop _ _ _ fs) as [o1|] eqn:E1; [|discriminate]. cbn [obind].
    destruct (zeroops _ _) as [o2|] eqn:E2; [|discriminate]. cbn [obind]. destruct (path200 _ _) as [idx|]; [|discriminate]. cbn [obind].
    destruct (ReadIndex _ _ _) as [[last1 ch]|]; [|discriminate]. cbn [obind]. destruct (if ch then _ else _) as [o3|] eqn:E3; [|discriminate]. cbn [obind].
    destruct (packold _ _ _ _) as [[st4 o4]|] eqn:E4; [|discriminate]. cbn [obind].
    destruct (packnew _ _ _ _) as [[[st5 o5] ok5]|] eqn:E5; [|discriminate]. cbn [obind]. intros E.
    assert (st' = st5) by congruence. assert (o = o1 ++ o2 ++ o3 ++ o4 ++ o5) by congruence. subst.
    apply orphanloop_within in E1; [|apply sort_Forall, readdir_fine]. apply zero_within in E2; [|apply readdir_fine].
    assert (W3 : within o3) by (destruct ch; [eapply index_within; eauto|apply some_eq in E3; subst; constructor]).
    apply packold_within in E4 as [W4 F4]; [|apply sort_Forall, readdir_fine].
    apply packnew_within in E5 as [W5 F5]; [|apply sort_Forall, readdir_fine|apply sort_Forall, readdir_newpkt].
    split; [repeat (apply Forall_app; split; auto)|]. rewrite F5, F4. cbn [os_fs]. rewrite !run_app. reflexivity.
  Qed.
End Archive.

(** ** The inbound *)
Lemma badname_indir f f' d : indir d f -> bad_name f f' -> indir d f'.
Proof.
  intros H (k & Hk & ->). apply indir_app; auto.
  - apply cstring_app. split; [lits|]. destruct (k =? 0); [constructor|]. apply cstring_app. split; [lits|].
    eapply Forall_impl; [|apply dec_digits; lia]. unfold digit, isdigit. intros c Hc. lia.
  - intros Hi. apply in_app_or in Hi as [Hi|Hi]; [vm_compute in Hi; intuition discriminate|]. destruct (k =? 0); [destruct Hi|].
    apply in_app_or in Hi as [Hi|Hi]; [vm_compute in Hi; intuition discriminate|].
    pose proof (dec_digits k Hk) as F. rewrite Forall_forall in F. apply F in Hi. unfold digit, isdigit, PATHCHAR in Hi. lia.
Qed.
Section Kept.
  Context (exec : list Z -> fsys -> fsys * Z) (during : list Z -> fsys -> fsys -> Prop) (inbound : list Z).
  Context (Hin : cstring inbound) (Hlen : (length inbound <= 75)%nat).
  Context (Hex : forall cmd fs f, indir inbound f -> fget (fst (exec cmd fs)) f = fget fs f).
  Context (Hdu : forall cmd fs fs' f, during cmd fs fs' -> indir inbound f -> fget fs' f = fget fs f).
  Context (f c m : list Z) (Hf : f = slashed inbound ++ m) (Hm : length m = 12%nat) (Hmc : cstring m) (Hms : ~ In PATHCHAR m).
  Notation keeps := (keeps exec during).
  Lemma f_in : indir inbound f.
  Proof. exists m. auto. Qed.
  Lemma loc_in f' : f' = f \/ bad_name f f' -> indir inbound f'.
  Proof. intros [->|H]; [apply f_in|]. eapply badname_indir; [apply f_in|auto]. Qed.
  Definition foreign_op (o : fop) : Prop := forall n, names o n -> ~ indir inbound n.
  Lemma keeps_foreign fs o : kept f c fs -> foreign_op o -> keeps (kept f c) fs [o].
  Proof.
    intros (f' & Hg & Hl) Ho. pose proof (loc_in _ Hl) as Hi.
    assert (K : forall fs', fget fs' f' = fget fs f' -> kept f c fs') by (intros fs' H; exists f'; rewrite H; auto).
    destruct o as [n x|n|a b|cmd].
    - apply keeps_put; [apply K; auto|]. intros y. apply K, fget_put_other. intros ->. eapply Ho; [reflexivity|auto].
    - apply keeps_del; [apply K; auto|]. apply K, fget_del_other. intros ->. eapply Ho; [reflexivity|auto].
    - apply keeps_ren; [apply K; auto|]. apply K, tryrename_other; intros ->; eapply Ho; try eassumption; cbn; auto.
    - apply keeps_exec; [apply K; auto| |]; [intros fs' Hd; apply K; eapply Hdu; eauto|apply K, Hex; auto].
  Qed.
  Lemma keeps_foreigns ops fs : kept f c fs -> Forall foreign_op ops -> keeps (kept f c) fs ops.
  Proof. intros H F. apply keeps_all; auto. eapply Forall_impl; [|exact F]. intros o Ho fs1 H1. apply keeps_foreign; auto. Qed.
  Lemma badops_spec fs file n o : (exists d, (d = [] \/ exists p, d = p ++ [PATHCHAR]) /\ file = d ++ n) -> length n = 12%nat -> cstring n -> ~ In PATHCHAR n ->
    badops inbound fs file = Some o -> exists dest, o = [Ren file dest] /\ fget fs dest = None /\ bad_name (slashed inbound ++ n) dest.
  Proof.
    intros (d & Hd & ->) Hl Hn Hs. unfold badops, badname. rewrite GetFilePart_dir by auto.
    destruct (MakeFullPath_spec inbound n (repeat 0 90) 90) as (b & t & E & (_ & _ & Hc) & Ht & _); auto; [lia|]. rewrite E. cbn [obind].
    rewrite Hc, Ht, joinpath_slashed by (rewrite joinpath_slashed, app_length; pose proof (slashed_length inbound); lia). clear Ht.
    rewrite app_nil_r. cbv beta iota. change (0 =? 0) with true. cbv iota. rewrite ?app_nil_r.
    set (base := (slashed inbound ++ n) ++ lit ".bad").
    destruct (firstfree _ fs _ 0) as [k|] eqn:Ek; [|discriminate]. cbn [obind]. intros H. apply some_eq in H. subst o.
    eexists. split; [reflexivity|].
    assert (forall fuel a, 0 <= a -> forall k, firstfree fuel fs (fun n0 => base ++ (if n0 =? 0 then [] else lit "," ++ dec n0)) a = Some k ->
      0 <= k /\ osExists fs (base ++ (if k =? 0 then [] else lit "," ++ dec k)) = false) as HH.
    { induction fuel as [|fuel IH]; intros a Ha k0; cbn [firstfree]; [discriminate|].
      destruct (osExists fs _) eqn:Eo; [apply IH; lia|]. intros H. apply some_eq in H. subst a. auto. }
    destruct (HH _ 0 ltac:(lia) k Ek) as [Hk Hno]. split.
    - unfold osExists in Hno. destruct (fget fs _); [discriminate|reflexivity].
    - exists k. split; auto. unfold base. rewrite <- !app_assoc. reflexivity.
  Qed.
  (** a bad file is set aside *)
  Lemma keeps_bad fs file n o : kept f c fs -> (file = slashed inbound ++ n \/ (exists d, (d = [] \/ exists p, d = p ++ [PATHCHAR]) /\ file = d ++ n) /\ ~ indir inbound file) ->
    length n = 12%nat -> cstring n -> ~ In PATHCHAR n -> badops inbound fs file = Some o -> keeps (kept f c) fs o.
  Proof.
    intros Hk Hfile Hl Hn Hs Eo.
    destruct (badops_spec fs file n o) as (dest & -> & Hno & Hbad); auto.
    { destruct Hfile as [->|[H _]]; auto. exists (slashed inbound). split; [apply slashed_dir|reflexivity]. }
    apply keeps_ren; [exact Hk|]. destruct Hk as (f' & Hg & Hloc).
    assert (Hd : f' <> dest) by (intros ->; congruence).
    destruct (list_eq_dec Z.eq_dec f' file) as [E|E].
    - subst file. destruct Hfile as [Hfile|[_ Hfile]]; [|exfalso; apply Hfile, loc_in; auto].
      destruct Hloc as [->|(k & _ & Hk)].
      + assert (n = m) by (rewrite Hf in Hfile; apply app_inv_head in Hfile; auto). subst n. rewrite Hf.
        exists dest. split; [|right; auto].
        unfold tryrename. destruct (osRename fs (slashed inbound ++ m) dest) eqn:Er.
        * rewrite (rename_same _ _ _ _ Er), <- Hf. auto.
        * unfold osRename in Er. rewrite <- Hf, Hg in Er. discriminate.
      + exfalso. rewrite Hk, Hf, <- app_assoc in Hfile. apply app_inv_head in Hfile. apply (f_equal (@List.length Z)) in Hfile. rewrite app_length in Hfile.
        cbn [List.length app lit] in Hfile. rewrite app_length in Hfile. change (length (lit ".bad")) with 4%nat in Hfile. lia.
    - exists f'. split; auto. rewrite tryrename_other; auto.
  Qed.
End Kept.

Definition twelve (l : list (list Z * Z)) : Prop := Forall (fun e => length (fst e) = 12%nat /\ cstring (fst e) /\ ~ In PATHCHAR (fst e)) l.
Lemma readdir_twelve fs dir acc : (forall n, acc n = true -> length n = 12%nat) -> twelve (osReadDir fs dir acc).
Proof.
  intros Ha. apply Forall_forall. intros [n size] H. apply readdir_In in H as (m & c & -> & _ & _ & H1 & H2 & H3). cbn [fst].
  apply Ha in H3. rewrite firstn_all2 by lia. auto.
Qed.
Lemma IsPkt_12 n : IsPkt n = true -> length n = 12%nat.
Proof. unfold IsPkt. intros H. apply andb_true_iff in H as [H _]. apply andb_true_iff in H as [H _]. apply Nat.eqb_eq in H. auto. Qed.
Lemma IsArc_12 n : IsArc n = true -> length n = 12%nat.
Proof. unfold IsArc. intros H. apply andb_true_iff in H as [H _]. apply andb_true_iff in H as [H _]. apply andb_true_iff in H as [H _]. apply Nat.eqb_eq in H. auto. Qed.

Section KeptRun.
  Context (exec : list Z -> fsys -> fsys * Z) (during : list Z -> fsys -> fsys -> Prop) (env : oenv) (sort : list (list Z * Z) -> list (list Z * Z)).
  Context {St : Type} (readpkt : St -> list Z -> pktres St) (side : St -> list Z -> list fop) (packets : St -> list opkt).
  Context (inbound tempdir : list Z) (unpack : fsys -> list Z -> option (list Z)) (noread : list Z -> bool).
  Context (Hpd : dir_ok (oe_packetdir env)) (Hpc : dir_ok (oe_packetcreate env)) (Htd : dir_ok tempdir) (Hsort : forall l, Permutation (sort l) l).
  Context (Hin : cstring inbound) (Hlen : (length inbound <= 75)%nat).
  Context (Hex : forall cmd fs f, indir inbound f -> fget (fst (exec cmd fs)) f = fget fs f).
  Context (Hdu : forall cmd fs fs' f, during cmd fs fs' -> indir inbound f -> fget fs' f = fget fs f).
  Context (Hside : forall st c, Forall (foreign_op inbound) (side st c)).
  Context (Htemp : forall n, indir tempdir n -> ~ indir inbound n).
  Context (Hout : forall n, outbound_file env n -> ~ indir inbound n).
  Context (f c m : list Z) (Hf : f = slashed inbound ++ m) (Hm : length m = 12%nat) (Hmc : cstring m) (Hms : ~ In PATHCHAR m).
  Notation keeps := (keeps exec during (kept f c)).
  Notation run := (run exec).

  Lemma inb_ok : dir_ok inbound.
  Proof. split; auto. lia. Qed.
  Lemma foreigns ops fs : kept f c fs -> Forall (foreign_op inbound) ops -> keeps fs ops.
  Proof. intros. eapply keeps_foreigns; eauto. Qed.
  Lemma kbad fs file n o : kept f c fs -> (file = slashed inbound ++ n \/ (exists d, (d = [] \/ exists p, d = p ++ [PATHCHAR]) /\ file = d ++ n) /\ ~ indir inbound file) ->
    length n = 12%nat -> cstring n -> ~ In PATHCHAR n -> badops inbound fs file = Some o -> keeps fs o.
  Proof. intros H1 H2 H3 H4 H5 H6. eapply (keeps_bad exec during inbound) with (m := m) (n := n); eauto. Qed.
  Lemma tosspkt_keeps st fs file n st' o ok : kept f c fs ->
    (file = slashed inbound ++ n \/ (exists d, (d = [] \/ exists p, d = p ++ [PATHCHAR]) /\ file = d ++ n) /\ ~ indir inbound file) ->
    length n = 12%nat -> cstring n -> ~ In PATHCHAR n ->
    tosspkt exec readpkt side inbound noread st fs file = Some (st', o, ok) -> keeps fs o.
  Proof.
    intros Hk Hfile Hl Hn Hs. unfold tosspkt. destruct (if noread file then _ else _) as [x|]; [|intros E; assert (o = []) by congruence; subst o; apply keeps_nil; auto].
    destruct (readpkt st x) as [s1|r s1|s1| |]; try discriminate.
    - intros E. assert (o = side st x) by congruence. subst o. apply foreigns; auto.
    - destruct (badops inbound _ file) as [o1|] eqn:Eb; [|discriminate]. cbn [obind]. intros E. assert (o = side st x ++ o1) by congruence. subst o.
      assert (K1 : keeps fs (side st x)) by (apply foreigns; auto). apply keeps_app; auto.
      eapply kbad; eauto. apply keeps_end in K1. auto.
    - intros E. assert (o = side st x) by congruence. subst o. apply foreigns; auto.
  Qed.
  Lemma tosspkts_keeps l : twelve l -> forall st fs del st' o del' ok, kept f c fs ->
    tosspkts exec readpkt side inbound noread l st fs del = Some (st', o, del', ok) -> keeps fs o.
  Proof.
    intros F. induction F as [|[n z] l (F1 & F2 & F3) F IH]; intros st fs del st' o del' ok Hk; cbn [tosspkts].
    - intros E. assert (o = []) by congruence. subst o. apply keeps_nil; auto.
    - cbn [fst] in *. rewrite path200_short by (auto using inb_ok; lia). cbn [obind].
      destruct (tosspkt _ _ _ _ _ st fs _) as [[[st1 o1] ok1]|] eqn:E1; [|discriminate]. cbn [obind].
      eapply tosspkt_keeps in E1; eauto. destruct ok1.
      + destruct (tosspkts _ _ _ _ _ l _ _ _) as [[[[st2 o2] del2] ok2]|] eqn:E2; [|discriminate]. cbn [obind]. intros E. assert (o = o1 ++ o2) by congruence. subst o.
        apply keeps_app; auto. eapply IH; eauto. apply keeps_end in E1. auto.
      + intros E. assert (o = o1) by congruence. subst o. auto.
  Qed.
  Lemma tosstemp_keeps l : twelve l -> forall st fs del st' o ok, kept f c fs ->
    tosstemp exec readpkt side inbound tempdir noread l st fs del = Some (st', o, ok) -> keeps fs o.
  Proof.
    intros F. induction F as [|[n z] l (F1 & F2 & F3) F IH]; intros st fs del st' o ok Hk; cbn [tosstemp].
    - intros E. assert (o = []) by congruence. subst o. apply keeps_nil; auto.
    - cbn [fst] in *. rewrite path200_short by (auto; lia). cbn [obind].
      destruct (existsb _ del); [eapply IH; eauto|].
      assert (Hnt : ~ indir inbound (slashed tempdir ++ n)) by (apply Htemp; exists n; auto).
      destruct (tosspkt _ _ _ _ _ st fs _) as [[[st1 o1] ok1]|] eqn:E1; [|discriminate]. cbn [obind].
      eapply tosspkt_keeps in E1; eauto; [|right; split; auto; exists (slashed tempdir); split; [apply slashed_dir|reflexivity]]. destruct ok1.
      + assert (K : keeps fs (o1 ++ [Del (slashed tempdir ++ n)])).
        { apply keeps_app; auto. apply foreigns; [apply keeps_end in E1; auto|]. constructor; [|constructor]. cbn. intros x ->. auto. }
        destruct (tosstemp _ _ _ _ _ _ l _ _ _) as [[[st2 o2] ok2]|] eqn:E2; [|discriminate]. cbn [obind]. intros E.
        assert (o = o1 ++ [Del (slashed tempdir ++ n)] ++ o2) by congruence. subst o. rewrite app_assoc.
        apply keeps_app; auto. eapply IH; eauto. apply keeps_end in K. auto.
      + intros E. assert (o = o1) by congruence. subst o. auto.
  Qed.
  Lemma bundle_keeps st fs n size del st' o ok : kept f c fs -> length n = 12%nat -> cstring n -> ~ In PATHCHAR n -> (slashed inbound ++ n = f -> size <> 0) ->
    TossBundle exec sort readpkt side inbound tempdir unpack noread st fs (slashed inbound ++ n) size del = Some (st', o, ok) -> keeps fs o.
  Proof.
    intros Hk Hl Hn Hs Hsz. unfold TossBundle. destruct (Z.eqb_spec size 0) as [Ez|Ez].
    - intros E. assert (o = [Del (slashed inbound ++ n)]) by congruence. subst o. apply keeps_del; auto.
      destruct Hk as (f' & Hg & Hloc). exists f'. split; auto. rewrite fget_del_other; auto. intros E'.
      destruct Hloc as [->|(k & _ & Hk)]; [apply Hsz; auto|]. rewrite Hk, Hf, <- app_assoc in E'. apply app_inv_head in E'. apply (f_equal (@List.length Z)) in E'.
      rewrite !app_length in E'. change (length (lit ".bad")) with 4%nat in E'. lia.
    - destruct (unpack fs _) as [cmd|].
      + destruct (_ =? -1).
        * intros E. assert (o = [Exec cmd]) by congruence. subst o. apply foreigns; auto. constructor; [|constructor]. cbn. intros x [].
        * assert (K1 : keeps fs [Exec cmd]) by (apply foreigns; auto; constructor; [cbn; intros x []|constructor]).
          destruct (if _ =? 0 then _ else _) as [o1|] eqn:E1; [|discriminate]. cbn [obind].
          assert (K2 : keeps fs ([Exec cmd] ++ o1)).
          { apply keeps_app; auto. apply keeps_end in K1. destruct (_ =? 0); [apply some_eq in E1; subst o1; apply keeps_nil; auto|]. eapply (kbad _ (slashed inbound ++ n) n); eauto. }
          destruct (tosstemp _ _ _ _ _ _ _ _ _ _) as [[[st2 o2] ok2]|] eqn:E2; [|discriminate]. cbn [obind]. intros E.
          assert (o = [Exec cmd] ++ o1 ++ o2) by congruence. subst o. rewrite app_assoc. apply keeps_app; auto.
          rewrite run_app. eapply tosstemp_keeps; [| |exact E2].
          -- apply sort_Forall; auto. apply readdir_twelve, IsPkt_12.
          -- apply keeps_end in K2. rewrite run_app in K2. auto.
      + destruct (badops _ _ _) as [o1|] eqn:Eb; [|discriminate]. cbn [obind]. intros E. assert (o = o1) by congruence. subst o. eapply (kbad _ (slashed inbound ++ n) n); eauto.
  Qed.
  Lemma tossarcs_keeps l : twelve l -> Forall (fun e => slashed inbound ++ fst e = f -> snd e <> 0) l -> forall st fs del st' o del' ok, kept f c fs ->
    tossarcs exec sort readpkt side inbound tempdir unpack noread l st fs del = Some (st', o, del', ok) -> keeps fs o.
  Proof.
    intros F. induction F as [|[n z] l (F1 & F2 & F3) F IH]; intros Fz st fs del st' o del' ok Hk; cbn [tossarcs].
    - intros E. assert (o = []) by congruence. subst o. apply keeps_nil; auto.
    - inversion_clear Fz as [|? ? Fz1 Fz2]. cbn [fst snd] in *. rewrite path200_short by (auto using inb_ok; lia). cbn [obind].
      destruct (TossBundle _ _ _ _ _ _ _ _ st fs _ _ _) as [[[st1 o1] ok1]|] eqn:E1; [|discriminate]. cbn [obind].
      eapply bundle_keeps in E1; eauto. destruct ok1.
      + destruct (tossarcs _ _ _ _ _ _ _ _ l _ _ _) as [[[[st2 o2] del2] ok2]|] eqn:E2; [|discriminate]. cbn [obind]. intros E. assert (o = o1 ++ o2) by congruence. subst o.
        apply keeps_app; auto. eapply IH; eauto. apply keeps_end in E1. auto.
      + intros E. assert (o = o1) by congruence. subst o. auto.
  Qed.
  Lemma within_foreign o : within env o -> Forall (foreign_op inbound) o.
  Proof. intros W. eapply Forall_impl; [|exact W]. intros x Hx n Hn. apply Hout. auto. Qed.
End KeptRun.

(** ** The other steps of TossDir *)
Lemma before_within env l o : dir_ok (oe_packetcreate env) -> Forall (fun e => cstring (fst e) /\ ~ In PATHCHAR (fst e)) l ->
  beforeops env l = Some o -> within env o /\ forall x, In x o -> exists p, x = Del p.
Proof.
  intros Hpc F. revert o. induction F as [|[m z] l [F1 F2] F IH]; intros o0; cbn [beforeops].
  - intros E'. apply some_eq in E'. subst o0. split; [constructor|intros x []].
  - destruct (path200 _ m) as [p|] eqn:Ep; [|discriminate]. cbn [obind]. destruct (beforeops env l) as [o1|]; [|discriminate]. cbn [obind].
    intros E'. apply some_eq in E'. subst o0. destruct (IH o1 eq_refl) as [IH1 IH2]. split.
    + constructor; auto. cbn. intros x ->. right. left. eapply path200_indir; eauto.
    + intros x [<-|Hx]; eauto.
Qed.

Lemma dels_nodup exec o fs : (forall x, In x o -> exists p, x = Del p) -> NoDup (map fst fs) -> NoDup (map fst (run exec fs o)).
Proof.
  revert fs. induction o as [|x o IH]; intros fs W Hnd; [exact Hnd|].
  cbn [run fold_left]. apply IH; [intros y Hy; apply W; right; auto|]. destruct (W x) as (p & ->); [left; auto|]. cbn [apply].
  unfold osDelete. clear - Hnd. induction fs as [|[k v] fs IH]; [constructor|]. cbn [filter map fst] in *. inversion_clear Hnd as [|? ? H1 H2].
  destruct (negb (streq p k)); [|auto]. constructor; auto. intros H. apply H1. clear - H. induction fs as [|[k' v'] fs IH]; [auto|]. cbn [filter map fst] in *.
  destruct (negb (streq p k')); [destruct H; [left|right]; auto|right; auto].
Qed.

Lemma newname_fine h : cstring (hex 8 h ++ lit ".newpkt") /\ ~ In PATHCHAR (hex 8 h ++ lit ".newpkt").
Proof.
  pose proof (hex_fine 8 h) as F. split.
  - apply cstring_app. split; [|lits]. eapply Forall_impl; [|exact F]. cbv beta. lia.
  - intros H. apply in_app_or in H as [H|H]; [|vm_compute in H; intuition discriminate]. rewrite Forall_forall in F. apply F in H. unfold PATHCHAR in H. lia.
Qed.

Lemma finalname_cstring num type d name : 0 <= type <= 4 -> valid4d d -> finalname num type d = Some name -> cstring name.
Proof.
  intros Ht (Hz & Hn & Ho & Hp). rewrite finalname_eq by auto. intros H. apply some_eq in H. subst name.
  assert (Hd : forall z, is_u16 z -> cstring (dec z)).
  { intros z [Hz0 _]. pose proof (dec_digits z Hz0) as D. eapply Forall_impl; [|exact D]. intros c Hc. cbv beta in *. unfold digit in *. try rewrite isdigit_spec in *. lia. }
  assert (Hh : cstring (hex 8 num)) by (pose proof (hex_fine 8 num) as F; eapply Forall_impl; [|exact F]; cbv beta; lia).
  assert (Ht' : cstring (typename type)).
  { assert (C : type = 0 \/ type = 1 \/ type = 2 \/ type = 3 \/ type = 4) by lia. destruct C as [->|[->|[->|[->| ->]]]]; lits. }
  rewrite !cstring_app. repeat split; auto; lits.
Qed.

Lemma path100_new env h : cstring (oe_packetcreate env) -> (length (oe_packetcreate env) <= 80)%nat ->
  path100 (oe_packetcreate env) (hex 8 h ++ lit ".newpkt") = Some (slashed (oe_packetcreate env) ++ (hex 8 h ++ lit ".newpkt")).
Proof.
  intros Hpc Hpcl. destruct (newname_fine h) as [Hh1 Hh2].
  unfold path100. destruct (MakeFullPath_spec (oe_packetcreate env) (hex 8 h ++ lit ".newpkt") (repeat 0 100) 100) as (b & t & Eb & (_ & _ & Hc) & Ht & _); auto; [lia|].
  rewrite Eb. cbn [option_map]. rewrite Hc, Ht, joinpath_slashed; [reflexivity|]. rewrite joinpath_slashed, !app_length, hex_length. pose proof (slashed_length (oe_packetcreate env)).
  change (length (lit ".newpkt")) with 7%nat. lia.
Qed.

Lemma closeops_within env l o : cstring (oe_packetcreate env) -> (length (oe_packetcreate env) <= 80)%nat -> Forall opkt_fine l ->
  closeops env l = Some o -> within env o.
Proof.
  intros Hpc Hpcl F. assert (Hpc' : dir_ok (oe_packetcreate env)) by (split; auto; lia). revert o.
  induction F as [|p l (Fh & Ft & Fd) F IH]; intros o3; cbn [closeops]; [intros E; apply some_eq in E; subst; constructor|].
  destruct (newname_fine (op_hex p)) as [Hh1 Hh2].
  rewrite path100_new by auto. cbn [obind]. destruct (path200 _ _) as [old|] eqn:Eold; [|discriminate]. cbn [obind].
  destruct (finalname _ _ _) as [nm|] eqn:En; [|discriminate]. cbn [obind]. destruct (path200 _ nm) as [new|] eqn:Enew; [|discriminate]. cbn [obind].
  destruct (closeops env l) as [o|]; [|discriminate]. cbn [obind]. intros E. apply some_eq in E. subst o3.
  assert (W : within env o) by (apply IH; reflexivity).
  assert (Hd : outbound_file env (slashed (oe_packetcreate env) ++ hex 8 (op_hex p) ++ lit ".newpkt")) by (right; left; exists (hex 8 (op_hex p) ++ lit ".newpkt"); auto).
  apply Forall_app. split; [constructor; [cbn; intros m ->; exact Hd|constructor]|]. apply Forall_app. split; [|exact W].
  destruct (op_hex p =? 0); [constructor|]. constructor; [|constructor]. cbn. intros m [->| ->]; right; left.
  - eapply path200_indir; [| | |exact Eold]; auto.
  - eapply path200_indir; [| | |exact Enew]; auto; [eapply finalname_cstring; eauto|eapply finalname_chars; eauto].
Qed.
