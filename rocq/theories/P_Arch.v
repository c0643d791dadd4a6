(** Lemmas about archiving: what becomes of the new packets. *)
From Coq Require Import Permutation.
From Verif Require Import Base M_Node4D S_Node4D M_Pat M_Str S_Str P_Str M_Mem M_Cfg M_Pkt M_Fs P_Fs M_Expr M_Filter M_Out S_Out P_Out M_Toss S_Toss P_Toss.

(** ** Kinds of files, by the end of the name *)
Definition ends (s f : list Z) : Prop := exists p, f = p ++ s.
Lemma ends_rev s f : ends s f -> exists r, rev f = rev s ++ r.
Proof. intros (p & ->). exists (rev p). apply rev_app_distr. Qed.
Definition lastin (l f : list Z) : Prop := exists c r, rev f = c :: r /\ In c l.
Definition Kmisc := lastin [121; 111; 110; 78; 120].
Definition Karc := lastin [48; 49; 50; 51; 52; 53; 54; 55; 56; 57].
Definition Kut := ends (lit "ut").
Definition Kpkt := ends (lit ".pkt").
Definition Ktmp := ends (lit ".pkttmp").
Ltac kind := repeat match goal with
  | H : ends ?s ?f |- _ => apply ends_rev in H as (? & H)
  | H : lastin _ ?f |- _ => destruct H as (? & ? & H & ?)
  | H : rev ?f = _ |- _ => progress cbn in H
  | H : In _ _ |- _ => progress cbn in H end; intuition (subst; try congruence).
Lemma misc_end p s : In (last s 0) [121; 111; 110; 78; 120] -> s <> [] -> Kmisc (p ++ s).
Proof.
  intros H Hn. destruct (exists_last Hn) as (s' & x & ->). rewrite last_last in H. exists x, (rev (p ++ s')). split; auto. rewrite app_assoc, rev_app_distr. reflexivity.
Qed.
Lemma ut_not_misc f : Kut f -> ~ Kmisc f.
Proof. unfold Kut, Kmisc. intros A B. kind. Qed.
Lemma arc_not_misc f : Karc f -> ~ Kmisc f.
Proof. unfold Karc, Kmisc. intros A B. kind. Qed.
Lemma arc_not_ut f : Karc f -> ~ Kut f.
Proof. unfold Karc, Kut. intros A B. kind. Qed.
Lemma misc_bsy base : Kmisc (bsyname base).
Proof. apply misc_end; [left; reflexivity|discriminate]. Qed.
Lemma misc_flow base type : Kmisc (flowfile base type).
Proof.
  unfold flowfile. replace (base ++ lit "." ++ [flowletter type] ++ lit "lo") with ((base ++ lit "." ++ [flowletter type]) ++ lit "lo") by (rewrite <- !app_assoc; reflexivity).
  apply misc_end; [right; left; reflexivity|discriminate].
Qed.
Lemma misc_orphan f : Kmisc (orphanname f).
Proof. apply misc_end; [right; right; left; reflexivity|discriminate]. Qed.
Lemma misc_index d p : dir_ok d -> path200 d (lit "cmindex") = Some p -> Kmisc p.
Proof. intros Hd E. rewrite path200_short in E; [|auto|lits|cbn; lia]. apply some_eq in E. subst p. apply misc_end; [cbn; tauto|discriminate]. Qed.
Lemma ut_out base type : Kut (outfile base type).
Proof. exists (base ++ lit "." ++ [outletter type]). unfold outfile. rewrite <- !app_assoc. reflexivity. Qed.
Lemma pkt_pktfile f : Kpkt (pktfile f).
Proof. exists (dirpart f ++ firstn 8 (GetFilePart f)). unfold pktfile. rewrite <- app_assoc. reflexivity. Qed.
Lemma newpkt_rev f : IsNewPkt f = true -> exists a b c d r, rev f = a :: b :: c :: d :: r /\ (a = 116 \/ a = 84) /\ (b = 107 \/ b = 75) /\ (d = 119 \/ d = 87).
Proof.
  unfold IsNewPkt, hassuffix. intros H. apply andb_true_iff in H as [H1 H2]. change (length (lit ".newpkt")) with 7%nat in *.
  apply streqi_iff in H2. set (s := skipn (length f - 7) f) in *.
  assert (Hf : f = firstn (length f - 7) f ++ s) by (symmetry; apply firstn_skipn).
  change (map tolower (lit ".newpkt")) with [46; 110; 101; 119; 112; 107; 116] in H2.
  destruct s as [|c1 [|c2 [|c3 [|c4 [|c5 [|c6 [|c7 [|? ?]]]]]]]]; cbn [map] in H2; try discriminate.
  assert (E4 : tolower c4 = 119) by congruence. assert (E6 : tolower c6 = 107) by congruence. assert (E7 : tolower c7 = 116) by congruence.
  rewrite Hf, rev_app_distr. cbn [rev app]. do 5 eexists. split; [reflexivity|]. unfold tolower in *.
  repeat match goal with H : context [if ?b then _ else _] |- _ => destruct b eqn:?; [|] end; repeat split; lia.
Qed.
Lemma pkttmp_rev f : IsPktTmp f = true -> exists a r, rev f = a :: r /\ (a = 112 \/ a = 80).
Proof.
  unfold IsPktTmp, hassuffix. intros H. apply andb_true_iff in H as [H1 H2]. change (length (lit ".pkttmp")) with 7%nat in *.
  apply streqi_iff in H2. set (s := skipn (length f - 7) f) in *.
  assert (Hf : f = firstn (length f - 7) f ++ s) by (symmetry; apply firstn_skipn).
  change (map tolower (lit ".pkttmp")) with [46; 112; 107; 116; 116; 109; 112] in H2.
  destruct s as [|c1 [|c2 [|c3 [|c4 [|c5 [|c6 [|c7 [|? ?]]]]]]]]; cbn [map] in H2; try discriminate.
  assert (E7 : tolower c7 = 112) by congruence.
  rewrite Hf, rev_app_distr. cbn [rev app]. do 2 eexists. split; [reflexivity|]. unfold tolower in *.
  repeat match goal with H : context [if ?b then _ else _] |- _ => destruct b eqn:?; [|] end; lia.
Qed.
Ltac newk H := let E := fresh in apply newpkt_rev in H as (? & ? & ? & ? & ? & E & ? & ? & ?).
Lemma new_not_misc f : IsNewPkt f = true -> ~ Kmisc f.
Proof. intros H A. newk H. unfold Kmisc in A. kind. Qed.
Lemma new_not_ut f : IsNewPkt f = true -> ~ Kut f.
Proof. intros H A. newk H. unfold Kut in A. kind. Qed.
Lemma new_not_arc f : IsNewPkt f = true -> ~ Karc f.
Proof. intros H A. newk H. unfold Karc in A. kind. Qed.
Lemma new_not_pkt f : IsNewPkt f = true -> ~ Kpkt f.
Proof. intros H A. newk H. unfold Kpkt in A. kind. Qed.
Lemma new_not_tmp f : IsNewPkt f = true -> ~ Ktmp f.
Proof. intros H A. newk H. unfold Ktmp in A. kind. Qed.
Lemma tmpin_not_misc f : IsPktTmp f = true -> ~ Kmisc f.
Proof. intros H A. apply pkttmp_rev in H as (? & ? & E & ?). unfold Kmisc in A. kind. Qed.
Lemma tmpin_not_ut f : IsPktTmp f = true -> ~ Kut f.
Proof. intros H A. apply pkttmp_rev in H as (? & ? & E & ?). unfold Kut in A. kind. Qed.
Lemma tmpin_not_arc f : IsPktTmp f = true -> ~ Karc f.
Proof. intros H A. apply pkttmp_rev in H as (? & ? & E & ?). unfold Karc in A. kind. Qed.
Lemma tmpin_not_new f : IsPktTmp f = true -> IsNewPkt f = false.
Proof. intros H. destruct (IsNewPkt f) eqn:A; auto. apply pkttmp_rev in H as (? & ? & E & ?). newk A. kind. Qed.
Lemma tmp_not_misc f : Ktmp f -> ~ Kmisc f.
Proof. unfold Ktmp, Kmisc. intros A B. kind. Qed.
Lemma tmp_not_pkt f : Ktmp f -> ~ Kpkt f.
Proof. unfold Ktmp, Kpkt. intros A B. kind. Qed.
Lemma tmp_not_ut f : Ktmp f -> ~ Kut f.
Proof. unfold Ktmp, Kut. intros A B. kind. Qed.
Lemma tmp_not_arc f : Ktmp f -> ~ Karc f.
Proof. unfold Ktmp, Karc. intros A B. kind. Qed.
Lemma pkt_not_misc f : Kpkt f -> ~ Kmisc f.
Proof. unfold Kpkt, Kmisc. intros A B. kind. Qed.
Lemma pkt_not_ut f : Kpkt f -> ~ Kut f.
Proof. unfold Kpkt, Kut. intros A B. kind. Qed.
Lemma pkt_not_arc f : Kpkt f -> ~ Karc f.
Proof. unfold Kpkt, Karc. intros A B. kind. Qed.
(** the names of bundles *)
Lemma bundlename_arc b num n d p : bundlename b num = Some n -> dir_ok d -> path200 d n = Some p -> Karc p /\ indir d p.
Proof.
  unfold bundlename. destruct (nth_error daynames _) as [day|] eqn:Ed; [|discriminate]. intros E Hd Ep. apply some_eq in E. subst n.
  assert (Hm : 0 <= num mod 10 < 10) by (apply Z.mod_pos_bound; lia).
  assert (Hday : cstring day /\ ~ In PATHCHAR day /\ (length day <= 2)%nat).
  { apply nth_error_In in Ed. vm_compute in Ed. decompose [or] Ed; try contradiction; subst day; (split; [repeat constructor; lia|split; [intros H; vm_compute in H; intuition discriminate|cbn; lia]]). }
  assert (Hdec : exists c, dec (num mod 10) = [c] /\ In c [48; 49; 50; 51; 52; 53; 54; 55; 56; 57]).
  { assert (C : num mod 10 = 0 \/ num mod 10 = 1 \/ num mod 10 = 2 \/ num mod 10 = 3 \/ num mod 10 = 4 \/ num mod 10 = 5 \/ num mod 10 = 6 \/ num mod 10 = 7 \/ num mod 10 = 8 \/ num mod 10 = 9) by lia.
    decompose [or] C; match goal with H : num mod 10 = _ |- _ => rewrite H end; eexists; (split; [reflexivity|cbn; tauto]). }
  destruct Hdec as (c & Ec & Hc). rewrite Ec in Ep. destruct Hday as (Hd1 & Hd2 & Hd3).
  assert (Hn1 : cstring (hex 8 b ++ lit "." ++ day ++ [c])).
  { rewrite !cstring_app. repeat split; auto; [|lits|].
    - pose proof (hex_fine 8 b) as F. eapply Forall_impl; [|exact F]. cbv beta. lia.
    - cbn in Hc. constructor; [lia|constructor]. }
  assert (Hn2 : ~ In PATHCHAR (hex 8 b ++ lit "." ++ day ++ [c])).
  { rewrite !in_app_iff. intros [H|[H|[H|H]]]; auto.
    - pose proof (hex_fine 8 b) as F. rewrite Forall_forall in F. apply F in H. unfold PATHCHAR in H. lia.
    - vm_compute in H. intuition discriminate.
    - destruct H as [->|[]]. vm_compute in Hc. intuition discriminate. }
  split; [|eapply path200_indir; eauto]. rewrite path200_short in Ep; auto.
  - apply some_eq in Ep. subst p. exists c, (rev (slashed d ++ hex 8 b ++ lit "." ++ day)). split; auto. rewrite !app_assoc, rev_app_distr. reflexivity.
  - rewrite !app_length, hex_length. cbn [List.length]. change (length (lit ".")) with 1%nat. lia.
Qed.
Lemma MakeArcName_bundle env arcs last i name last' ch : MakeArcName env arcs last i = Some (name, last', ch) -> exists b num, bundlename b num = Some name.
Proof.
  unfold MakeArcName. destruct (match nth i last [] with [] => _ | _ => _ end) as [[b s]|]; [|discriminate]. cbn [obind].
  destruct (if s =? NOSUFFIX then _ else _) as [ns|]; [|discriminate]. cbn [obind]. destruct (bundlename b ns) as [n|] eqn:E; [|discriminate]. cbn [obind].
  intros H. exists b, ns. destruct (streqi _ n); congruence.
Qed.

(** ** What a step changes *)
Definition hasmsgs (m v : list Z) : Prop := exists a b, v = a ++ m ++ b /\ (2 <= length b)%nat.
Lemma merge_old v m new : hasmsgs m v -> hasmsgs m (merge (Some v) new).
Proof.
  intros (a & b & -> & Hb). unfold merge. rewrite !app_length. destruct (Nat.ltb_spec (length a + (length m + length b)) 2); [lia|].
  set (k := (length a + (length m + length b) - 2)%nat). set (body := skipn 58 new).
  assert (E : firstn k (a ++ m ++ b) = a ++ m ++ firstn (length b - 2) b).
  { unfold k. rewrite app_assoc, firstn_app, firstn_all2 by (rewrite app_length; lia). rewrite app_length. replace (_ - _ - (length a + length m))%nat with (length b - 2)%nat by lia. rewrite <- app_assoc. reflexivity. }
  rewrite E. exists a, (firstn (length b - 2) b ++ body ++ skipn (length body) (skipn k (a ++ m ++ b))). rewrite <- !app_assoc. split; [reflexivity|].
  rewrite !app_length, !skipn_length, firstn_length, !app_length. lia.
Qed.
Lemma merge_new old h m : length h = 58%nat -> hasmsgs m (merge old (h ++ m ++ [0; 0])).
Proof.
  intros Hh. unfold merge. assert (E : skipn 58 (h ++ m ++ [0; 0]) = m ++ [0; 0]) by (rewrite <- Hh; apply skipn_app_eq || (rewrite skipn_app, skipn_all, Nat.sub_diag; reflexivity)).
  destruct old as [o|]; [|exists h, [0; 0]; split; auto]. rewrite E. destruct (Nat.ltb (length o) 2).
  - exists [], ([0; 0] ++ skipn (length (m ++ [0; 0])) o). rewrite <- !app_assoc. split; [reflexivity|]. rewrite app_length. cbn. lia.
  - exists (firstn (length o - 2) o), ([0; 0] ++ skipn (length (m ++ [0; 0])) (skipn (length o - 2) o)). rewrite <- !app_assoc. split; [reflexivity|]. rewrite app_length. cbn. lia.
Qed.

Section Arch.
  Context (exec : list Z -> fsys -> fsys * Z) (env : oenv) (contains : list Z -> list Z -> Prop) (Hpk : packers_ok exec env contains).
  Context (Hpd : dir_ok (oe_packetdir env)) (Hpc : dir_ok (oe_packetcreate env)).
  Notation run := (run exec).
  Notation doing := (doing exec).

  (** the files that packing the packet [file] touches, apart from archives and waiting packets *)
  Definition touched (file f : list Z) : Prop :=
    f = file \/ f = pktfile (firstn 199 file) \/ (exists p, path200 (oe_packetdir env) (GetFilePart file) = Some p /\ f = pktfile p) \/ Kmisc f.
  Record chg (file : list Z) (fs fs' : fsys) : Prop := {
    chg_same : forall f, ~ touched file f -> ~ Kut f -> ~ Karc f -> fget fs' f = fget fs f;
    chg_ut : forall f v m, Kut f -> fget fs f = Some v -> hasmsgs m v -> exists v', fget fs' f = Some v' /\ hasmsgs m v';
    chg_arc : forall f v x, Karc f -> fget fs f = Some v -> contains v x -> exists v', fget fs' f = Some v' /\ contains v' x;
    chg_nodup : NoDup (map fst fs) -> NoDup (map fst fs') }.
  Context (file : list Z) (Hf1 : ~ Kut file) (Hf2 : ~ Karc file).
  Lemma chg_refl fs : chg file fs fs.
  Proof. split; eauto. Qed.
  Lemma chg_trans a b c : chg file a b -> chg file b c -> chg file a c.
  Proof.
    intros [A1 A2 A3 A4] [B1 B2 B3 B4]. split.
    - intros f H1 H2 H3. rewrite B1, A1; auto.
    - intros f v m H1 H2 H3. destruct (A2 f v m H1 H2 H3) as (v' & H4 & H5). eauto.
    - intros f v m H1 H2 H3. destruct (A3 f v m H1 H2 H3) as (v' & H4 & H5). eauto.
    - auto.
  Qed.
  Lemma touched_not_ut f : touched file f -> ~ Kut f.
  Proof. intros [->|[->|[(p & _ & ->)|H]]]; auto; [apply pkt_not_ut, pkt_pktfile|apply pkt_not_ut, pkt_pktfile|intros A; eapply ut_not_misc; eauto]. Qed.
  Lemma touched_not_arc f : touched file f -> ~ Karc f.
  Proof. intros [->|[->|[(p & _ & ->)|H]]]; auto; [apply pkt_not_arc, pkt_pktfile|apply pkt_not_arc, pkt_pktfile|intros A; eapply arc_not_misc; eauto]. Qed.
  Lemma del_nodup fs n : NoDup (map fst fs) -> NoDup (map fst (osDelete fs n)).
  Proof. intros H. apply (dels_nodup exec [Del n] fs); auto. intros x [<-|[]]. eauto. Qed.
  Lemma del_notin fs n : ~ In n (map fst (osDelete fs n)).
  Proof.
    induction fs as [|[k v] fs IH]; [auto|]. cbn [osDelete filter map fst]. destruct (streq n k) eqn:E; cbn [negb]; [exact IH|].
    cbn [map fst]. intros [H|H]; [|apply IH; exact H]. subst k. rewrite streq_refl in E. discriminate.
  Qed.
  Lemma put_nodup fs n c : NoDup (map fst fs) -> NoDup (map fst (fput fs n c)).
  Proof. intros H. unfold fput. cbn [map fst]. constructor; [apply del_notin|apply del_nodup; auto]. Qed.
  Lemma ren_nodup fs a b : NoDup (map fst fs) -> NoDup (map fst (tryrename fs a b)).
  Proof.
    intros H. unfold tryrename, osRename. destruct (fget fs a); auto. destruct (streq a b); auto. apply put_nodup, del_nodup, H.
  Qed.
  (** steps on touched files only *)
  Definition step_touched (o : fop) : Prop := match o with Exec _ => False | _ => forall n, names o n -> touched file n end.
  Lemma chg_step fs o : step_touched o -> chg file fs (apply exec fs o).
  Proof.
    intros H.
    assert (A : forall f, ~ touched file f -> fget (apply exec fs o) f = fget fs f).
    { intros f Hf. destruct o as [n c|n|a b|]; cbn [apply]; [| | |destruct H].
      - rewrite fget_put_other; auto. intros ->. apply Hf, H. reflexivity.
      - rewrite fget_del_other; auto. intros ->. apply Hf, H. reflexivity.
      - apply tryrename_other; intros ->; apply Hf, H; cbn; auto. }
    split.
    - auto.
    - intros f v m H1 H2 H3. exists v. rewrite A; auto. intros Ht. apply touched_not_ut in Ht. auto.
    - intros f v m H1 H2 H3. exists v. rewrite A; auto. intros Ht. apply touched_not_arc in Ht. auto.
    - destruct o; cbn [apply]; [apply put_nodup|apply del_nodup|apply ren_nodup|destruct H].
  Qed.
  Lemma chg_steps ops fs : Forall step_touched ops -> chg file fs (run fs ops).
  Proof.
    intros F. revert fs. induction F as [|o ops H F IH]; intros fs; [apply chg_refl|]. cbn [run fold_left]. eapply chg_trans; [apply chg_step; exact H|apply IH].
  Qed.
  Lemma misc_put n c : Kmisc n -> step_touched (Put n c).
  Proof. intros H m ->. right. right. right. auto. Qed.
  Lemma misc_del n : Kmisc n -> step_touched (Del n).
  Proof. intros H m ->. right. right. right. auto. Qed.
  Lemma attach_touched fs f base n type mode o : attachops env fs f base n type mode = Some o -> Forall (fun x => exists m c, x = Put m c /\ Kmisc m) o.
  Proof.
    unfold attachops, flowops, orphanops. destruct (oe_noopen env (flowfile base type)).
    - destruct (Nat.ltb _ 200); [|discriminate]. destruct (oe_noopen env (orphanname f)); [intros E; apply some_eq in E; subst o; constructor|].
      destruct (orphantext type n mode); [|discriminate]. cbn [obind]. intros E. apply some_eq in E. subst o. constructor; [|constructor]. do 2 eexists. split; [reflexivity|apply misc_orphan].
    - intros E. apply some_eq in E. subst o. constructor; [|constructor]. do 2 eexists. split; [reflexivity|apply misc_flow].
  Qed.
  Lemma index_touched last o : indexops env last = Some o -> Forall (fun x => exists m c, x = Put m c /\ Kmisc m) o.
  Proof.
    unfold indexops. destruct (path200 _ _) as [p|] eqn:E; [|discriminate]. cbn [obind]. intros H. apply some_eq in H. subst o. destruct (oe_noopen env p); constructor; [|constructor].
    do 2 eexists. split; [reflexivity|exact (misc_index _ _ Hpd E)].
  Qed.
  Lemma puts_touched o : Forall (fun x => exists m c, x = Put m c /\ Kmisc m) o -> Forall step_touched o.
  Proof. apply Forall_impl. intros x (m & c & -> & H). apply misc_put; auto. Qed.
  Lemma puts_other o fs f : Forall (fun x => exists m c, x = Put m c /\ Kmisc m) o -> ~ Kmisc f -> fget (run fs o) f = fget fs f.
  Proof.
    intros F Hf. revert fs. induction F as [|x o (m & c & -> & H) F IH]; intros fs; [reflexivity|]. cbn [run fold_left apply].
    change (fold_left (apply exec) o (fput fs m c)) with (run (fput fs m c) o). rewrite IH, fget_put_other; auto. intros ->. auto.
  Qed.

  (** programs *)
  Lemma before_chg arc pkt cmd fs : oe_beforepack env <> [] -> ExpandPacker (oe_beforepack env) arc pkt = Some cmd ->
    chg file fs (fst (exec cmd fs)).
  Proof.
    intros Hn E. assert (A := fun f => po_before _ _ _ Hpk arc pkt cmd fs f Hn E). split.
    - auto.
    - intros f v m _ H1 H2. exists v. rewrite A. auto.
    - intros f v m _ H1 H2. exists v. rewrite A. auto.
    - apply (po_nodup _ _ _ Hpk).
  Qed.
  Lemma packer_chg c t arc cmd fs : let pkt := pktfile (firstn 199 file) in In c (oe_nodes env) -> on_packer c = Some t -> indir (oe_packetdir env) arc -> own_dir env pkt -> Karc arc ->
    ExpandPacker t arc pkt = Some cmd -> chg file fs (fst (exec cmd fs)).
  Proof.
    intros pkt Hc Ht Ha Hp Hk E. assert (A := fun f => po_other _ _ _ Hpk c t arc pkt cmd fs f Hc Ht Ha Hp E). split.
    - intros f H1 H2 H3. apply A; intros ->; [auto|]. apply H1. right. left. reflexivity.
    - intros f v m H1 H2 H3. exists v. rewrite A; auto; intros ->; [eapply arc_not_ut; eauto|]. eapply pkt_not_ut; [apply pkt_pktfile|]; eauto.
    - intros f v m H1 H2 H3. destruct (list_eq_dec Z.eq_dec f arc) as [->|Hn].
      + eapply (po_stays _ _ _ Hpk); eauto.
      + exists v. rewrite A; auto. intros ->. eapply pkt_not_arc; [apply pkt_pktfile|]; eauto.
    - apply (po_nodup _ _ _ Hpk).
  Qed.
  Lemma nodeindex_In l n i j c : nodeindex l n i = Some (j, c) -> In c l.
  Proof. revert i. induction l as [|x l IH]; intros i; [discriminate|]. cbn [nodeindex]. destruct (_ =? 0); [intros H; left; congruence|intros H; right; eauto]. Qed.

  (** the mail of a packet with contents [x] (messages [m]) is safe: in an archive, in a
      waiting packet, or in the file [pkt] *)
  Definition stored (pkt : list Z) (x m : list Z) (fs : fsys) : Prop :=
    (exists f v, Karc f /\ indir (oe_packetdir env) f /\ fget fs f = Some v /\ contains v x) \/
    (exists d base type v, MakeBaseName env d = Some base /\ fget fs (outfile base type) = Some v /\ hasmsgs m v) \/
    fget fs pkt = Some x.

  Lemma tryrename_same fs a b x : fget fs a = Some x -> fget (tryrename fs a b) b = Some x.
  Proof. intros H. unfold tryrename. destruct (osRename fs a b) as [fs'|] eqn:E; [rewrite (rename_same _ _ _ _ E); auto|]. unfold osRename in E. rewrite H in E. discriminate. Qed.

  Context (Hown : own_dir env file) (Hlen : (length file <= 199)%nat) (Hnp : ~ Kpkt file) (Hnm : ~ Kmisc file).
  Let pkt := pktfile (firstn 199 file).
  Lemma pkt_owned : own_dir env pkt.
  Proof. unfold pkt. rewrite firstn_all2 by lia. destruct Hown as [H|H]; [left|right]; apply indir_pktfile; auto. Qed.
  Lemma file_touched : touched file file.
  Proof. left. reflexivity. Qed.
  Lemma pkt_touched : touched file pkt.
  Proof. right. left. reflexivity. Qed.
  Lemma pkt_file : pkt <> file.
  Proof. intros E. apply Hnp. rewrite <- E. apply pkt_pktfile. Qed.

  Lemma packecho_chg st base i c packer n st' o ok : In c (oe_nodes env) -> on_packer c = Some packer ->
    packecho exec env st file base i c packer n = Some (st', o, ok) ->
    chg file (os_fs st) (os_fs st') /\
    forall x m, fget (os_fs st) file = Some x -> if ok then forall p, stored p x m (os_fs st') else fget (os_fs st') file = Some x.
  Proof.
    intros Hc Ht. unfold packecho. destruct (MakeArcName _ _ _ _) as [[[name last] changed]|] eqn:En; [|discriminate]. cbn [obind].
    apply MakeArcName_bundle in En as (b & num & En).
    destruct (if changed then _ else _) as [o1|] eqn:E1; [|discriminate]. cbn [obind].
    destruct (path200 _ name) as [arc|] eqn:Ea; [|discriminate]. cbn [obind]. destruct (bundlename_arc _ _ _ _ _ En Hpd Ea) as [Ka Ia].
    fold pkt. set (st1 := doing (OS (os_fs st) last (os_arcs st)) (o1 ++ [Ren file pkt])).
    assert (F1 : Forall (fun x => exists m c, x = Put m c /\ Kmisc m) o1) by (destruct changed; [eapply index_touched; eauto|apply some_eq in E1; subst o1; constructor]).
    assert (R : step_touched (Ren file pkt)) by (intros k [->| ->]; [apply file_touched|apply pkt_touched]).
    assert (R' : step_touched (Ren pkt file)) by (intros k [->| ->]; [apply pkt_touched|apply file_touched]).
    assert (C1 : chg file (os_fs st) (os_fs st1)).
    { unfold st1. cbn [doing os_fs set_fs]. apply chg_steps. apply Forall_app. split; [apply puts_touched; auto|constructor; auto]. }
    assert (X1 : forall x, fget (os_fs st) file = Some x -> fget (os_fs st1) pkt = Some x).
    { intros x Hx. unfold st1. cbn [doing os_fs set_fs]. unfold M_Out.run. rewrite fold_left_app. cbn [fold_left apply]. apply tryrename_same.
      change (fold_left (apply exec) o1 (os_fs st)) with (run (os_fs st) o1). rewrite puts_other; auto. }
    destruct (match oe_beforepack env with [] => _ | _ => _ end) as [[o2 res]|] eqn:E2; [|discriminate]. cbn [obind].
    assert (C2 : chg file (os_fs st1) (os_fs (doing st1 o2)) /\ fget (os_fs (doing st1 o2)) pkt = fget (os_fs st1) pkt).
    { destruct (oe_beforepack env) as [|b0 b1] eqn:Eb; [assert (o2 = []) by congruence; subst o2; split; [apply chg_refl|reflexivity]|].
      destruct (ExpandPacker _ _ _) as [cmd|] eqn:Ec; [|discriminate]. cbn [obind] in E2. assert (o2 = [Exec cmd]) by congruence. subst o2. cbn [doing os_fs set_fs M_Out.run fold_left apply].
      split; [apply (before_chg arc pkt); rewrite Eb; [discriminate|auto]|]. eapply (po_before _ _ _ Hpk arc pkt); rewrite Eb; [discriminate|auto]. }
    destruct C2 as [C2 X2]. set (st2 := doing st1 o2) in *.
    assert (C12 : chg file (os_fs st) (os_fs st2)) by (eapply chg_trans; eauto).
    assert (X12 : forall x, fget (os_fs st) file = Some x -> fget (os_fs st2) pkt = Some x) by (intros x Hx; rewrite X2; auto).
    assert (Hback : forall fs x, fget fs pkt = Some x -> fget (run fs [Ren pkt file]) file = Some x) by (intros fs x Hx; cbn [M_Out.run fold_left apply]; apply tryrename_same; auto).
    destruct (negb (res =? 0)).
    { intros E. assert (st' = doing st2 [Ren pkt file]) by congruence. assert (ok = false) by congruence. subst st' ok. split.
      - eapply chg_trans; [exact C12|]. cbn [doing os_fs set_fs]. apply chg_steps. constructor; auto.
      - intros x m Hx. cbn [doing os_fs set_fs]. apply Hback. auto. }
    destruct (ExpandPacker packer arc pkt) as [cmd|] eqn:Ec; [|discriminate]. cbn [obind].
    assert (C3 : chg file (os_fs st2) (fst (exec cmd (os_fs st2)))) by (eapply packer_chg; eauto; apply pkt_owned).
    set (st3 := doing st2 [Exec cmd]). assert (C13 : chg file (os_fs st) (os_fs st3)) by (eapply chg_trans; [exact C12|exact C3]).
    destruct (Z.eqb_spec (snd (exec cmd (os_fs st2))) 0) as [Hz|Hz].
    - set (st4 := doing (UpdateFile st3 arc) [Del pkt]).
      assert (E4 : os_fs st4 = osDelete (os_fs st3) pkt) by (unfold st4; cbn [doing os_fs set_fs M_Out.run fold_left apply]; f_equal; unfold UpdateFile; destruct (fget _ arc); reflexivity).
      destruct (attachops _ _ _ _ _ _ _) as [o3|] eqn:E3; [|discriminate]. cbn [obind]. apply attach_touched in E3. intros E. assert (st' = doing st4 o3) by congruence. assert (ok = true) by congruence. subst st' ok.
      split.
      + eapply chg_trans; [exact C13|]. cbn [doing os_fs set_fs]. rewrite E4. change (run (osDelete (os_fs st3) pkt) o3) with (run (os_fs st3) (Del pkt :: o3)).
        apply chg_steps. constructor; [intros k ->; apply pkt_touched|apply puts_touched; auto].
      + intros x m Hx p. left. destruct (po_added _ _ _ Hpk c packer arc pkt cmd (os_fs st2) x) as (v & Hv & Hcv); auto; [apply pkt_owned|].
        exists arc, v. split; auto. split; auto. split; auto. cbn [doing os_fs set_fs]. rewrite puts_other by (auto; intros A; eapply arc_not_misc; eauto).
        rewrite E4, fget_del_other; [exact Hv|]. intros Eq. apply (pkt_not_arc pkt); [apply pkt_pktfile|]. congruence.
    - intros E. assert (st' = doing st3 [Ren pkt file]) by congruence. assert (ok = false) by congruence. subst st' ok. split.
      + eapply chg_trans; [exact C13|]. cbn [doing os_fs set_fs]. apply chg_steps. constructor; auto.
      + intros x m Hx. cbn [doing os_fs set_fs]. apply Hback. unfold st3. cbn [doing os_fs set_fs M_Out.run fold_left apply].
        rewrite (po_failed _ _ _ Hpk c packer arc pkt cmd (os_fs st2)); auto. apply pkt_owned.
  Qed.

  (** where [sendecho] puts a packet *)
  Definition sentname (p : list Z) : Prop := exists q, path200 (oe_packetdir env) (GetFilePart file) = Some q /\ p = pktfile q.
  Lemma sendecho_chg fs base c n o ok : sendecho env fs file base c n = Some (o, ok) ->
    chg file fs (run fs o) /\
    forall x m, fget fs file = Some x -> if ok then forall p, sentname p -> stored p x m (run fs o) else fget (run fs o) file = Some x.
  Proof.
    unfold sendecho. destruct (path200 _ _) as [q|] eqn:Eq; [|discriminate]. cbn [obind]. destruct c as [c|]; [|discriminate]. cbn [obind].
    destruct (osRename fs file (pktfile q)) as [fs1|] eqn:Er.
    - destruct (attachops _ _ _ _ _ _ _) as [o1|] eqn:E1; [|discriminate]. cbn [obind]. apply attach_touched in E1. intros E. assert (o = Ren file (pktfile q) :: o1) by (cbn [app] in E; congruence). assert (ok = true) by congruence. subst o ok.
      split.
      + apply chg_steps. constructor; [|apply puts_touched; auto]. intros k [->| ->]; [apply file_touched|]. right. right. left. eauto.
      + intros x m Hx p (q' & Hq & ->). assert (q' = q) by congruence. subst q'. right. right. cbn [M_Out.run fold_left apply].
        change (fold_left (apply exec) o1 (tryrename fs file (pktfile q))) with (run (tryrename fs file (pktfile q)) o1).
        rewrite puts_other; [apply tryrename_same; auto|auto|]. apply pkt_not_misc, pkt_pktfile.
    - intros E. assert (o = []) by congruence. assert (ok = false) by congruence. subst o ok. split; [apply chg_refl|auto].
  Qed.
  Lemma sendnet_chg fs d base type o ok : MakeBaseName env d = Some base -> sendnet env fs file base type = (o, ok) ->
    chg file fs (run fs o) /\
    forall h m, length h = 58%nat -> fget fs file = Some (h ++ m ++ [0; 0]) -> if ok then forall p, stored p (h ++ m ++ [0; 0]) m (run fs o) else fget (run fs o) file = Some (h ++ m ++ [0; 0]).
  Proof.
    intros Hb. unfold sendnet. destruct (fget fs file) as [new|] eqn:Ef; [|intros E; assert (o = []) by congruence; subst o; split; [apply chg_refl|discriminate]].
    destruct (oe_noopen env (outfile base type)); intros E; [assert (o = []) by congruence; assert (ok = false) by congruence; subst o ok; split; [apply chg_refl|intros h m _ Hx; cbn [M_Out.run fold_left]; congruence]|].
    assert (o = [Put (outfile base type) (merge (fget fs (outfile base type)) new); Del file]) by congruence. assert (ok = true) by congruence. subst o ok. clear E.
    assert (Hfo : outfile base type <> file) by (intros E; apply Hf1; rewrite <- E; apply ut_out).
    cbn [M_Out.run fold_left apply]. split.
    - eapply chg_trans; [|apply (chg_step _ (Del file)); intros k ->; apply file_touched]. split.
      + intros f H1 H2 H3. rewrite fget_put_other; auto. intros <-. apply H2, ut_out.
      + intros f v m H1 H2 H3. destruct (list_eq_dec Z.eq_dec f (outfile base type)) as [->|Hn].
        * rewrite fget_put_same. eexists. split; [reflexivity|]. rewrite H2. apply merge_old; auto.
        * rewrite fget_put_other by auto. eauto.
      + intros f v m H1 H2 H3. exists v. rewrite fget_put_other; auto. intros <-. eapply arc_not_ut; [exact H1|apply ut_out].
      + apply put_nodup.
    - intros h m Hh Hx p. right. left. exists d, base, type. eexists. split; [exact Hb|]. rewrite fget_del_other, fget_put_same by auto. split; [reflexivity|].
      assert (new = h ++ m ++ [0; 0]) by congruence. subst new. apply merge_new; auto.
  Qed.
  Lemma PackFile_chg st st' o ok : PackFile exec env st file = Some (st', o, ok) ->
    chg file (os_fs st) (os_fs st') /\
    forall h m x, length h = 58%nat -> x = h ++ m ++ [0; 0] -> fget (os_fs st) file = Some x ->
      if ok then forall p, sentname p -> stored p x m (os_fs st') else fget (os_fs st') file = Some x.
  Proof.
    unfold PackFile. destruct (parsepktname file) as [[[type n]|]|]; [| |discriminate]; cbn [obind].
    2: { intros E. assert (st' = st) by congruence. assert (ok = false) by congruence. subst st' ok. split; [apply chg_refl|auto]. }
    destruct (MakeBaseName env n) as [base|] eqn:Hb; [|discriminate]. cbn [obind].
    destruct (LockBasename env (os_fs st) base) as [fs0|]; [|intros E; assert (st' = st) by congruence; assert (ok = false) by congruence; subst st' ok; split; [apply chg_refl|auto]].
    set (st1 := doing st [Put (bsyname base) []]).
    assert (B1 : chg file (os_fs st) (os_fs st1)) by (apply (chg_steps [Put (bsyname base) []]); constructor; [apply misc_put, misc_bsy|constructor]).
    assert (B2 : forall f, ~ Kmisc f -> fget (os_fs st1) f = fget (os_fs st) f) by (intros f Hf; cbn; apply fget_put_other; intros <-; apply Hf, misc_bsy).
    assert (He : forall c st2 o2 ok2, (do x <- sendecho env (os_fs st1) file base c n; Some (doing st1 (fst x), fst x, snd x)) = Some (st2, o2, ok2) ->
        chg file (os_fs st1) (os_fs st2) /\
        forall h m x, length h = 58%nat -> x = h ++ m ++ [0; 0] -> fget (os_fs st1) file = Some x ->
        if ok2 then forall p, sentname p -> stored p x m (os_fs st2) else fget (os_fs st2) file = Some x).
      { intros c st2 o2 ok2. destruct (sendecho _ _ _ _ _ _) as [[o3 ok3]|] eqn:Es; [|discriminate]. cbn [obind fst snd]. intros E.
        assert (st2 = doing st1 o3) by congruence. assert (ok2 = ok3) by congruence. subst st2 ok2. apply sendecho_chg in Es as [S1 S2]. split; [exact S1|].
        intros h m x _ _ Hx. apply (S2 x m Hx). }
    set (R := if type =? PKTS_ECHOMAIL then _ else _).
    assert (HR : forall st2 o2 ok2, R = Some (st2, o2, ok2) -> chg file (os_fs st1) (os_fs st2) /\
      forall h m x, length h = 58%nat -> x = h ++ m ++ [0; 0] -> fget (os_fs st1) file = Some x ->
        if ok2 then forall p, sentname p -> stored p x m (os_fs st2) else fget (os_fs st2) file = Some x).
    { intros st2 o2 ok2. unfold R. destruct (type =? PKTS_ECHOMAIL).
      - destruct (nodeindex (oe_nodes env) n 0) as [[i c]|] eqn:Ei; [|apply He]. destruct (on_packer c) as [packer|] eqn:Ep; [|apply He].
        intros E. apply packecho_chg in E as [P1 P2]; [|eapply nodeindex_In; eauto|auto]. split; [exact P1|]. intros h m x _ _ Hx. specialize (P2 x m Hx). destruct ok2; auto.
      - destruct (sendnet _ _ _ _ _) as [o3 ok3] eqn:Es. intros E. assert (st2 = doing st1 o3) by congruence. assert (ok2 = ok3) by congruence. subst st2 ok2.
        eapply sendnet_chg in Es as [S1 S2]; [|exact Hb]. split; [exact S1|]. intros h m x Hh -> Hx. specialize (S2 h m Hh Hx). cbn [doing os_fs set_fs] in *. destruct ok3; auto. }
    destruct R as [[[st2 o2] ok2]|] eqn:ER; [|discriminate]. cbn [obind]. destruct (HR _ _ _ eq_refl) as [C P]. clear HR.
    intros E. assert (st' = doing st2 [Del (bsyname base)]) by congruence. assert (ok = ok2) by congruence. subst st' ok. clear E.
    assert (D2 : forall f, ~ Kmisc f -> fget (os_fs (doing st2 [Del (bsyname base)])) f = fget (os_fs st2) f) by (intros f Hf; cbn; apply fget_del_other; intros <-; apply Hf, misc_bsy).
    split.
    - eapply chg_trans; [exact B1|]. eapply chg_trans; [exact C|]. apply (chg_steps [Del (bsyname base)]). constructor; [apply misc_del, misc_bsy|constructor].
    - intros h m x Hh Ex Hx. rewrite <- B2 in Hx by auto. specialize (P h m x Hh Ex Hx). destruct ok2; [|rewrite D2; auto].
      intros p Hp. destruct (P p Hp) as [(f & v & A1 & A2 & A3 & A4)|[(d & b & t & v & A1 & A2 & A3)|A]].
      + left. exists f, v. rewrite D2; auto. intros K. eapply arc_not_misc; eauto.
      + right. left. exists d, b, t, v. rewrite D2; auto. intros K. eapply ut_not_misc; [apply ut_out|exact K].
      + right. right. destruct Hp as (q & _ & ->). rewrite D2; auto. apply pkt_not_misc, pkt_pktfile.
  Qed.
End Arch.

(** ** The packets of a run *)
Lemma name_inj d d' a b : ~ In PATHCHAR a -> ~ In PATHCHAR b -> slashed d ++ a = slashed d' ++ b -> a = b.
Proof. intros Ha Hb E. apply (f_equal GetFilePart) in E. rewrite !GetFilePart_dir in E by auto using slashed_dir. auto. Qed.
Lemma hassuffix_app suf p n : (length suf <= length n)%nat -> hassuffix suf (p ++ n) = hassuffix suf n.
Proof.
  intros H. unfold hassuffix. rewrite app_length. destruct (Nat.ltb_spec (length p + length n) (length suf)), (Nat.ltb_spec (length n) (length suf)); try lia. cbn [negb andb].
  replace (skipn (length p + length n - length suf) (p ++ n)) with (skipn (length n - length suf) n); [reflexivity|].
  rewrite skipn_app. rewrite (skipn_all2 p) by lia. cbn [app]. f_equal. lia.
Qed.
Lemma suffix_len suf n : hassuffix suf n = true -> (length suf <= length n)%nat.
Proof. unfold hassuffix. intros H. apply andb_true_iff in H as [H _]. destruct (Nat.ltb_spec (length n) (length suf)); [discriminate|lia]. Qed.
Lemma IsNewPkt_path p n : IsNewPkt n = true -> IsNewPkt (p ++ n) = true.
Proof. intros H. pose proof (suffix_len _ _ H). unfold IsNewPkt. rewrite hassuffix_app; auto. Qed.
Lemma IsPktTmp_path p n : IsPktTmp n = true -> IsPktTmp (p ++ n) = true.
Proof. intros H. pose proof (suffix_len _ _ H). unfold IsPktTmp. rewrite hassuffix_app; auto. Qed.
Lemma IsOrphan_path p n : IsOrphan n = true -> IsOrphan (p ++ n) = true.
Proof. intros H. pose proof (suffix_len _ _ H). unfold IsOrphan. rewrite hassuffix_app; auto. Qed.
Lemma orphan_misc f : IsOrphan f = true -> Kmisc f.
Proof.
  unfold IsOrphan, hassuffix. intros H. apply andb_true_iff in H as [H1 H2]. change (length (lit ".orphan")) with 7%nat in *.
  apply streqi_iff in H2. set (s := skipn (length f - 7) f) in *.
  assert (Hf : f = firstn (length f - 7) f ++ s) by (symmetry; apply firstn_skipn).
  change (map tolower (lit ".orphan")) with [46; 111; 114; 112; 104; 97; 110] in H2.
  destruct s as [|c1 [|c2 [|c3 [|c4 [|c5 [|c6 [|c7 [|? ?]]]]]]]]; cbn [map] in H2; try discriminate.
  assert (E7 : tolower c7 = 110) by congruence. rewrite Hf. apply misc_end; [|discriminate]. cbn [last]. unfold tolower in E7. cbn.
  repeat match goal with H : context [if ?b then _ else _] |- _ => destruct b eqn:?; [|] end; lia.
Qed.
Lemma misc_not_new f : Kmisc f -> IsNewPkt f = false.
Proof. intros H. destruct (IsNewPkt f) eqn:E; auto. exfalso. eapply new_not_misc; eauto. Qed.
Lemma misc_not_tmpin f : Kmisc f -> IsPktTmp f = false.
Proof. intros H. destruct (IsPktTmp f) eqn:E; auto. exfalso. eapply tmpin_not_misc; eauto. Qed.
Lemma readdir_nodup fs dir acc : NoDup (map fst fs) -> (forall n c, In (slashed dir ++ n, c) fs -> cstring n -> ~ In PATHCHAR n -> acc n = true -> (length n <= 99)%nat) ->
  NoDup (map fst (osReadDir fs dir acc)).
Proof.
  induction fs as [|[p c] fs IH]; intros Hn Hs; cbn [osReadDir map]; [constructor|]. cbn [map fst] in Hn. inversion_clear Hn as [|? ? H1 H2].
  assert (Hs' : forall n c, In (slashed dir ++ n, c) fs -> cstring n -> ~ In PATHCHAR n -> acc n = true -> (length n <= 99)%nat) by (intros; eapply Hs; eauto; right; eauto).
  destruct (behindprefix (slashed dir) p) as [m|] eqn:E; [|auto]. apply behindprefix_iff in E. subst p. destruct (namechars m && acc m) eqn:Ea; [|auto].
  apply andb_true_iff in Ea as [Ea1 Ea2]. apply namechars_iff in Ea1 as [Ea1 Ea3]. cbn [map fst]. constructor; [|auto].
  intros Hin. apply in_map_iff in Hin as ([n z] & En & Hin). cbn [fst] in En. apply readdir_In in Hin as (m' & c' & -> & Hin & _ & Q1 & Q2 & Q3).
  assert (length m <= 99)%nat by (eapply Hs; eauto; left; reflexivity). assert (length m' <= 99)%nat by (eapply Hs'; eauto).
  rewrite !firstn_all2 in En by lia. subst m'. apply H1. apply (in_map fst) in Hin. exact Hin.
Qed.
Lemma In_fget fs k c : In (k, c) fs -> fget fs k <> None.
Proof. induction fs as [|[k' c'] fs IH]; [intros []|]. cbn [fget]. destruct (streq k k') eqn:E; [discriminate|]. intros [H|H]; auto. assert (k' = k) by congruence. subst k'. rewrite streq_refl in E. discriminate. Qed.

Section Packets.
  Context (exec : list Z -> fsys -> fsys * Z) (env : oenv) (contains : list Z -> list Z -> Prop) (Hpk : packers_ok exec env contains).
  Context (Hpd : dir_ok (oe_packetdir env)) (Hpc : dir_ok (oe_packetcreate env)).
  Notation run := (run exec).
  Notation doing := (doing exec).
  Notation pd := (slashed (oe_packetdir env)).
  Notation pc := (slashed (oe_packetcreate env)).
  Definition goodname (n : list Z) : Prop := cstring n /\ ~ In PATHCHAR n /\ IsNewPkt n = true /\ (15 <= length n <= 98)%nat.
  Context (n0 h m x : list Z) (Hn0 : goodname n0) (Hh : length h = 58%nat) (Hx : x = h ++ m ++ [0; 0]).
  Let f0 := pc ++ n0.
  Let p0 := pd ++ firstn 8 n0 ++ lit ".pkt".
  Let t0 := pd ++ firstn (length n0 - 6) n0 ++ lit "pkttmp".
  Definition safe (fs : fsys) : Prop := stored env contains p0 x m fs \/ fget fs t0 = Some x.

  Lemma noslash_firstn k (n : list Z) : ~ In PATHCHAR n -> ~ In PATHCHAR (firstn k n).
  Proof. intros H A. apply H. rewrite <- (firstn_skipn k n). apply in_or_app. auto. Qed.
  Lemma noslash_pkt k n : ~ In PATHCHAR n -> ~ In PATHCHAR (firstn k n ++ lit ".pkt").
  Proof. intros H A. apply in_app_or in A as [A|A]; [eapply noslash_firstn; eauto|vm_compute in A; intuition discriminate]. Qed.
  Lemma noslash_tmp k n : ~ In PATHCHAR n -> ~ In PATHCHAR (firstn k n ++ lit "pkttmp").
  Proof. intros H A. apply in_app_or in A as [A|A]; [eapply noslash_firstn; eauto|vm_compute in A; intuition discriminate]. Qed.
  Lemma indir_good d n : cstring n -> ~ In PATHCHAR n -> indir d (slashed d ++ n).
  Proof. intros H1 H2. exists n. auto. Qed.
  Lemma pktfile_dir d n : cstring n -> ~ In PATHCHAR n -> pktfile (slashed d ++ n) = slashed d ++ firstn 8 n ++ lit ".pkt".
  Proof. intros H1 H2. unfold pktfile. rewrite (indir_dirpart d) by (apply indir_good; auto). rewrite GetFilePart_dir by auto using slashed_dir. reflexivity. Qed.
  Lemma touched_new n f : goodname n -> touched env (pc ++ n) f -> f = pc ++ n \/ f = pc ++ firstn 8 n ++ lit ".pkt" \/ f = pd ++ firstn 8 n ++ lit ".pkt" \/ Kmisc f.
  Proof.
    intros (G1 & G2 & G3 & G4) [->|[->|[(p & E & ->)|H]]]; auto.
    - right. left. pose proof (slashed_length (oe_packetcreate env)). destruct Hpc. rewrite firstn_all2 by (rewrite app_length; lia). apply pktfile_dir; auto.
    - right. right. left. rewrite GetFilePart_dir in E by auto using slashed_dir. rewrite path200_short in E by (auto; lia). apply some_eq in E. subst p. apply pktfile_dir; auto.
  Qed.
  Lemma Kpkt_app p q : Kpkt (p ++ q ++ lit ".pkt").
  Proof. exists (p ++ q). rewrite <- app_assoc. reflexivity. Qed.
  Lemma stem_dot n : goodname n -> exists s, firstn (length n - 6) n = s ++ [46].
  Proof.
    intros (_ & _ & H & L). unfold IsNewPkt, hassuffix in H. apply andb_true_iff in H as [_ H]. change (length (lit ".newpkt")) with 7%nat in H. apply streqi_iff in H.
    change (map tolower (lit ".newpkt")) with [46; 110; 101; 119; 112; 107; 116] in H.
    exists (firstn (length n - 7) n). replace (length n - 6)%nat with (length n - 7 + 1)%nat by lia.
    rewrite <- (firstn_skipn (length n - 7) n) at 2. rewrite firstn_app, firstn_length. replace (Nat.min _ _) with (length n - 7)%nat by lia.
    rewrite firstn_firstn. replace (Nat.min _ _) with (length n - 7)%nat by lia. f_equal. replace (length n - 7 + 1 - (length n - 7))%nat with 1%nat by lia.
    destruct (skipn (length n - 7) n) as [|c l]; [discriminate|]. cbn [firstn]. cbn [map] in H. assert (tolower c = 46) by congruence. f_equal. unfold tolower in *. destruct ((65 <=? c) && (c <=? 90)) eqn:?; lia.
  Qed.
  Lemma Ktmp_name n : goodname n -> Ktmp (pd ++ firstn (length n - 6) n ++ lit "pkttmp").
  Proof. intros G. destruct (stem_dot n G) as (s & ->). exists (pd ++ s). rewrite <- !app_assoc. reflexivity. Qed.
  Lemma tmpname_new n b : goodname n -> tmpname env (pc ++ n) = Some b -> b = pd ++ firstn (length n - 6) n ++ lit "pkttmp".
  Proof.
    intros (G1 & G2 & G3 & G4). unfold tmpname. rewrite GetFilePart_dir by auto using slashed_dir. rewrite path200_short by (auto; lia). cbn [obind].
    destruct (Nat.ltb _ 6); [discriminate|]. intros E. apply some_eq in E. subst b. rewrite app_length, firstn_app. rewrite (firstn_all2 pd) by lia.
    rewrite <- app_assoc. do 3 f_equal. lia.
  Qed.
  (** a packet with another number *)
  Lemma other_chg n fs fs' : goodname n -> firstn 8 n <> firstn 8 n0 -> chg env contains (pc ++ n) fs fs' ->
    fget fs' f0 = fget fs f0 /\ (safe fs -> safe fs').
  Proof.
    intros G Hd C. destruct Hn0 as (N1 & N2 & N3 & N4). pose proof G as (G1 & G2 & G3 & G4).
    assert (Hf0 : IsNewPkt f0 = true) by (apply IsNewPkt_path; auto).
    split.
    - apply (chg_same _ _ _ _ _ C); [|apply new_not_ut; auto|apply new_not_arc; auto]. intros T. apply touched_new in T as [T|[T|[T|T]]]; auto.
      + apply name_inj in T; auto. congruence.
      + apply (new_not_pkt f0 Hf0). rewrite T. apply Kpkt_app.
      + apply (new_not_pkt f0 Hf0). rewrite T. apply Kpkt_app.
      + eapply new_not_misc; eauto.
    - intros [[(f & v & A1 & A2 & A3 & A4)|[(d & b & t & v & A1 & A2 & A3)|A]]|A].
      + left. left. destruct (chg_arc _ _ _ _ _ C f v x A1 A3 A4) as (v' & H1 & H2). exists f, v'. auto.
      + left. right. left. destruct (chg_ut _ _ _ _ _ C _ v m (ut_out b t) A2 A3) as (v' & H1 & H2). exists d, b, t, v'. auto.
      + left. right. right. assert (Kp : Kpkt p0) by apply Kpkt_app. rewrite (chg_same _ _ _ _ _ C); auto; [|apply pkt_not_ut; auto|apply pkt_not_arc; auto].
        intros T. apply touched_new in T as [T|[T|[T|T]]]; auto.
        * apply (new_not_pkt (pc ++ n)); [apply IsNewPkt_path; auto|]. rewrite <- T. exact Kp.
        * unfold p0 in T. apply name_inj in T; auto using noslash_pkt. apply app_inv_tail in T. auto.
        * unfold p0 in T. apply name_inj in T; auto using noslash_pkt. apply app_inv_tail in T. auto.
        * eapply pkt_not_misc; eauto.
      + right. assert (Kt : Ktmp t0) by (apply Ktmp_name; exact Hn0). rewrite (chg_same _ _ _ _ _ C); auto; [|apply tmp_not_ut; auto|apply tmp_not_arc; auto].
        intros T. apply touched_new in T as [T|[T|[T|T]]]; auto.
        * apply (new_not_tmp (pc ++ n)); [apply IsNewPkt_path; auto|]. rewrite <- T. exact Kt.
        * apply (tmp_not_pkt t0 Kt). rewrite T. apply Kpkt_app.
        * apply (tmp_not_pkt t0 Kt). rewrite T. apply Kpkt_app.
        * eapply tmp_not_misc; eauto.
  Qed.
  Lemma firstn_apart n : goodname n -> firstn 8 n <> firstn 8 n0 -> firstn (length n - 6) n <> firstn (length n0 - 6) n0.
  Proof.
    intros (_ & _ & _ & G) H E. apply H. destruct Hn0 as (_ & _ & _ & N). apply (f_equal (firstn 8)) in E. rewrite !firstn_firstn in E. rewrite !Nat.min_l in E by lia. exact E.
  Qed.
  Lemma other_ren n fs : goodname n -> firstn 8 n <> firstn 8 n0 ->
    let fs' := tryrename fs (pc ++ n) (pd ++ firstn (length n - 6) n ++ lit "pkttmp") in fget fs' f0 = fget fs f0 /\ (safe fs -> safe fs').
  Proof.
    intros G Hd fs'. pose proof (firstn_apart n G Hd) as Ha. destruct Hn0 as (N1 & N2 & N3 & N4). pose proof G as (G1 & G2 & G3 & G4).
    assert (Ln : IsNewPkt (pc ++ n) = true) by (apply IsNewPkt_path; auto). assert (Lt : Ktmp (pd ++ firstn (length n - 6) n ++ lit "pkttmp")) by (apply Ktmp_name; auto).
    assert (Hf0 : IsNewPkt f0 = true) by (apply IsNewPkt_path; auto).
    assert (A : forall f, f <> pc ++ n -> f <> pd ++ firstn (length n - 6) n ++ lit "pkttmp" -> fget fs' f = fget fs f) by (intros; apply tryrename_other; auto).
    split.
    - apply A; [intros T; apply name_inj in T; auto; congruence|]. intros T. apply (new_not_tmp f0 Hf0). rewrite T. exact Lt.
    - intros [[(f & v & A1 & A2 & A3 & A4)|[(d & b & t & v & A1 & A2 & A3)|B]]|B].
      + left. left. exists f, v. rewrite A; auto; intros ->; [exact (new_not_arc _ Ln A1)|exact (tmp_not_arc _ Lt A1)].
      + left. right. left. exists d, b, t, v. rewrite A; auto; intros T; [apply (new_not_ut _ Ln)|apply (tmp_not_ut _ Lt)]; rewrite <- T; apply ut_out.
      + left. right. right. rewrite A; auto; intros T; [apply (new_not_pkt _ Ln)|apply (tmp_not_pkt _ Lt)]; rewrite <- T; apply Kpkt_app.
      + right. rewrite A; auto; intros T.
        * apply (new_not_tmp _ Ln). rewrite <- T. apply Ktmp_name. exact Hn0.
        * unfold t0 in T. apply name_inj in T; auto using noslash_tmp. apply app_inv_tail in T. auto.
  Qed.
  Lemma new_facts n : goodname n -> ~ Kut (pc ++ n) /\ ~ Karc (pc ++ n) /\ own_dir env (pc ++ n) /\ (length (pc ++ n) <= 199)%nat /\ ~ Kpkt (pc ++ n) /\ ~ Kmisc (pc ++ n).
  Proof.
    intros (G1 & G2 & G3 & G4). assert (Ln : IsNewPkt (pc ++ n) = true) by (apply IsNewPkt_path; auto).
    split; [apply new_not_ut; auto|]. split; [apply new_not_arc; auto|]. split; [right; apply indir_good; auto|].
    split; [pose proof (slashed_length (oe_packetcreate env)); destruct Hpc; rewrite app_length; lia|]. split; [apply new_not_pkt; auto|apply new_not_misc; auto].
  Qed.
  Lemma packnew_other l : forall st st' o ok, Forall (fun e => goodname (fst e) /\ firstn 8 (fst e) <> firstn 8 n0) l ->
    packnew exec env l st = Some (st', o, ok) -> safe (os_fs st) -> safe (os_fs st').
  Proof.
    induction l as [|[n z] l IH]; intros st st' o ok F; cbn [packnew]; [intros E; assert (st' = st) by congruence; subst st'; auto|].
    inversion_clear F as [|? ? [G Hd] F']. cbn [fst] in *. pose proof G as (G1 & G2 & G3 & G4). rewrite path200_short by (auto; lia). cbn [obind].
    destruct (PackFile exec env st (pc ++ n)) as [[[st1 o1] ok1]|] eqn:Ep; [|discriminate]. cbn [obind].
    destruct (new_facts n G) as (Q1 & Q2 & Q3 & Q4 & Q5 & Q6). eapply PackFile_chg in Ep as [C _]; eauto.
    destruct (other_chg n _ _ G Hd C) as [_ S1]. destruct ok1.
    - destruct (packnew exec env l st1) as [[[st2 o2] ok2]|] eqn:En; [|discriminate]. cbn [obind]. intros E Hs. assert (st' = st2) by congruence. subst st'. eapply IH; eauto.
    - destruct (tmpname env (pc ++ n)) as [b|] eqn:Eb; [|discriminate]. cbn [obind]. apply tmpname_new in Eb; auto. subst b. destruct (_ && _).
      + destruct (packnew exec env l _) as [[[st2 o2] ok2]|] eqn:En; [|discriminate]. cbn [obind]. intros E Hs. assert (st' = st2) by congruence. subst st'.
        eapply IH; eauto. cbn [doing os_fs set_fs M_Out.run fold_left apply]. apply other_ren; auto.
      + intros E Hs. assert (st' = st1) by congruence. subst st'. auto.
  Qed.
  Lemma packnew_all l : forall st st' o, Forall (fun e => goodname (fst e) /\ (firstn 8 (fst e) = firstn 8 n0 -> fst e = n0)) l -> NoDup (map fst l) -> In n0 (map fst l) ->
    packnew exec env l st = Some (st', o, true) -> fget (os_fs st) f0 = Some x -> safe (os_fs st').
  Proof.
    induction l as [|[n z] l IH]; intros st st' o F Nd Hin; [destruct Hin|]. cbn [packnew].
    inversion_clear F as [|? ? [G Hd] F']. cbn [fst map] in *. inversion_clear Nd as [|? ? Nd1 Nd2]. pose proof G as (G1 & G2 & G3 & G4). rewrite path200_short by (auto; lia). cbn [obind].
    destruct (PackFile exec env st (pc ++ n)) as [[[st1 o1] ok1]|] eqn:Ep; [|discriminate]. cbn [obind].
    destruct (new_facts n G) as (Q1 & Q2 & Q3 & Q4 & Q5 & Q6). eapply PackFile_chg in Ep as [C P]; eauto. intros E Hx0.
    destruct (list_eq_dec Z.eq_dec n n0) as [->|Hne].
    - clear IH. specialize (P h m x Hh Hx Hx0).
      assert (F2 : Forall (fun e => goodname (fst e) /\ firstn 8 (fst e) <> firstn 8 n0) l).
      { apply Forall_forall. intros e He. rewrite Forall_forall in F'. destruct (F' e He) as [F1 F2]. split; auto. intros Ee. apply F2 in Ee. apply Nd1. rewrite <- Ee. apply in_map. auto. }
      destruct ok1.
      + assert (S1 : safe (os_fs st1)).
        { left. apply P. exists (pd ++ n0). rewrite GetFilePart_dir by auto using slashed_dir. split; [apply path200_short; auto; lia|]. symmetry. apply pktfile_dir; auto. }
        destruct (packnew exec env l st1) as [[[st2 o2] ok2]|] eqn:En; [|discriminate]. cbn [obind] in E. assert (st' = st2) by congruence. subst st'. eapply packnew_other; eauto.
      + destruct (tmpname env (pc ++ n0)) as [b|] eqn:Eb; [|discriminate]. cbn [obind] in E. apply tmpname_new in Eb; auto. fold t0 in Eb. subst b. destruct (_ && _) eqn:Eo; [|discriminate].
        destruct (packnew exec env l _) as [[[st2 o2] ok2]|] eqn:En; [|discriminate]. cbn [obind] in E. assert (st' = st2) by congruence. subst st'.
        eapply packnew_other; eauto. right. cbn [doing os_fs set_fs M_Out.run fold_left apply]. apply tryrename_same; auto.
    - destruct Hin as [Hin|Hin]; [congruence|].
      assert (Hd' : firstn 8 n <> firstn 8 n0) by auto. destruct (other_chg n _ _ G Hd' C) as [S1 _]. destruct ok1.
      + destruct (packnew exec env l st1) as [[[st2 o2] ok2]|] eqn:En; [|discriminate]. cbn [obind] in E. assert (st' = st2) by congruence. assert (ok2 = true) by congruence. subst st' ok2. eapply IH; eauto. rewrite S1. auto.
      + destruct (tmpname env (pc ++ n)) as [b|] eqn:Eb; [|discriminate]. cbn [obind] in E. apply tmpname_new in Eb; auto. subst b. destruct (_ && _); [|discriminate].
        destruct (packnew exec env l _) as [[[st2 o2] ok2]|] eqn:En; [|discriminate]. cbn [obind] in E. assert (st' = st2) by congruence. assert (ok2 = true) by congruence. subst st' ok2. eapply IH; eauto.
        cbn [doing os_fs set_fs M_Out.run fold_left apply]. destruct (other_ren n (os_fs st1) G Hd') as [R _]. rewrite R, S1. auto.
  Qed.
  Lemma safe_secured fs : safe fs -> secured env contains x fs.
  Proof.
    destruct Hn0 as (N1 & N2 & N3 & N4).
    assert (Hd : forall y, cstring y -> ~ In PATHCHAR y -> outbound_file env (pd ++ y)) by (intros y H1 H2; left; apply indir_good; auto).
    intros [[(f & v & A1 & A2 & A3 & A4)|[(d & b & t & v & A1 & A2 & (a & b' & A3 & _))|B]]|B].
    - exists f, v. split; [left; auto|]. split; [destruct (IsNewPkt f) eqn:E; auto; exfalso; eapply new_not_arc; eauto|]. split; auto. right. left. auto.
    - exists (outfile b t), v. split; [right; right; exists d, b, ([outletter t] ++ lit "ut"); auto|].
      split; [destruct (IsNewPkt (outfile b t)) eqn:E; auto; exfalso; eapply new_not_ut; eauto using ut_out|]. split; auto. right. right. exists h, m, a, b'. auto.
    - exists p0, x. split; [apply Hd; [apply cstring_app; split; [apply cstring_firstn; auto|lits]|apply noslash_pkt; auto]|].
      split; [destruct (IsNewPkt p0) eqn:E; auto; exfalso; eapply new_not_pkt; eauto; apply Kpkt_app|]. split; auto. left. auto.
    - exists t0, x. split; [apply Hd; [apply cstring_app; split; [apply cstring_firstn; auto|lits]|apply noslash_tmp; auto]|].
      split; [destruct (IsNewPkt t0) eqn:E; auto; exfalso; eapply new_not_tmp; eauto; apply Ktmp_name; exact Hn0|]. split; auto. left. auto.
  Qed.
End Packets.

Section Archive.
  Context (exec : list Z -> fsys -> fsys * Z) (env : oenv) (sort : list (list Z * Z) -> list (list Z * Z)) (contains : list Z -> list Z -> Prop) (Hpk : packers_ok exec env contains).
  Context (Hpd : dir_ok (oe_packetdir env)) (Hpc : dir_ok (oe_packetcreate env)) (Hsort : forall l, Permutation (sort l) l).
  Notation run := (run exec).
  Notation doing := (doing exec).
  Notation pd := (slashed (oe_packetdir env)).
  Notation pc := (slashed (oe_packetcreate env)).
  (** steps on files that are neither new nor old packets *)
  Definition quiet (o : fop) : Prop := match o with Exec _ => False | _ => forall n, names o n -> IsNewPkt n = false /\ IsPktTmp n = false end.
  Lemma quiet_run o fs : Forall quiet o -> (NoDup (map fst fs) -> NoDup (map fst (run fs o))) /\ forall f, IsNewPkt f = true \/ IsPktTmp f = true -> fget (run fs o) f = fget fs f.
  Proof.
    intros F. revert fs. induction F as [|x o H F IH]; intros fs; [auto|]. cbn [M_Out.run fold_left].
    change (fold_left (apply exec) o (apply exec fs x)) with (run (apply exec fs x) o). destruct (IH (apply exec fs x)) as [I1 I2]. split.
    - intros Hn. apply I1. destruct x; cbn [apply]; [apply put_nodup|apply del_nodup|apply ren_nodup|destruct H]; auto.
    - intros f Hf. rewrite I2 by auto.
      assert (A : forall n, names x n -> n <> f).
      { intros n Hn ->. destruct x; [| | |destruct H]; destruct (H _ Hn) as [Q1 Q2]; destruct Hf; congruence. }
      destruct x as [n c|n|a b|]; cbn [apply]; [apply fget_put_other; apply A; reflexivity|apply fget_del_other; apply A; reflexivity| |destruct H].
      apply tryrename_other; intros E; [apply (A a)|apply (A b)]; cbn; auto.
  Qed.
  Lemma misc_quiet n : Kmisc n -> IsNewPkt n = false /\ IsPktTmp n = false.
  Proof. split; [apply misc_not_new|apply misc_not_tmpin]; auto. Qed.
  Lemma orphanretry_quiet fs name o : Kmisc name -> orphanretry env fs name = Some o -> Forall quiet o.
  Proof.
    intros Hn. unfold orphanretry. destruct (fget fs name) as [s|]; [|intros E; apply some_eq in E; subst o; constructor].
    destruct (osFGets 100 s) as [[l r]|]; [|intros E; apply some_eq in E; subst o; constructor].
    destruct (token200 100 l) as [[a1 a2]|]; [|discriminate]. cbn [obind fst snd]. destruct (flavour a1) as [type|]; [|intros E; apply some_eq in E; subst o; constructor].
    destruct (token200 100 a2) as [[b1 b2]|]; [|discriminate]. cbn [obind fst snd]. destruct (Parse4D b1) as [n|]; [|intros E; apply some_eq in E; subst o; constructor].
    destruct (token200 100 b2) as [[c1 c2]|]; [|discriminate]. cbn [obind fst snd]. destruct (MakeBaseName env n) as [base|]; [|discriminate]. cbn [obind].
    destruct (LockBasename env fs base) as [fs1|]; [|intros E; apply some_eq in E; subst o; constructor].
    destruct (flowops _ _ _ _ _ _) as [o1 ok] eqn:Ef. intros E. apply some_eq in E. subst o.
    assert (Q1 : Forall quiet o1).
    { unfold flowops in Ef. destruct (oe_noopen env _); assert (Ho := f_equal fst Ef); cbn [fst] in Ho; subst o1; constructor; [|constructor]. intros k ->. apply misc_quiet, misc_flow. }
    constructor; [intros k ->; apply misc_quiet, misc_bsy|]. apply Forall_app. split; auto. apply Forall_app. split.
    - destruct ok; constructor; [|constructor]. intros k ->. apply misc_quiet; auto.
    - constructor; [|constructor]. intros k ->. apply misc_quiet, misc_bsy.
  Qed.
  Lemma orphanloop_quiet l fs o : Forall (fun e => cstring (fst e) /\ IsOrphan (fst e) = true /\ (length (fst e) <= 98)%nat) l -> orphanloop exec env l fs = Some o -> Forall quiet o.
  Proof.
    intros F. revert fs o. induction F as [|[n z] l (F1 & F2 & F3) F IH]; intros fs o; cbn [orphanloop]; [intros E; apply some_eq in E; subst o; constructor|].
    cbn [fst] in *. rewrite path200_short by auto. cbn [obind]. destruct (orphanretry _ _ _) as [o1|] eqn:E1; [|discriminate]. cbn [obind].
    destruct (orphanloop _ _ l _) as [o2|] eqn:E2; [|discriminate]. cbn [obind]. intros E. apply some_eq in E. subst o. apply Forall_app. split; [|eauto].
    eapply orphanretry_quiet; eauto. apply orphan_misc, IsOrphan_path. auto.
  Qed.
  Lemma arc_plain suf p n : length suf = 7%nat -> nth 0 suf 0 = 46 -> IsArc n = true -> hassuffix suf (p ++ n) = false.
  Proof.
    intros Hl Hd Ha. pose proof (IsArc_12 n Ha) as L. rewrite hassuffix_app by lia. unfold hassuffix. rewrite L, Hl. change (Nat.ltb 12 7) with false. cbn [negb andb].
    destruct (streqi (skipn (12 - 7) n) suf) eqn:E; auto. apply streqi_iff in E. exfalso.
    destruct suf as [|s0 suf]; [discriminate|]. cbn [nth] in Hd. subst s0.
    destruct n as [|a0 [|a1 [|a2 [|a3 [|a4 [|a5 n]]]]]]; try discriminate. change (skipn (12 - 7) (a0 :: a1 :: a2 :: a3 :: a4 :: a5 :: n)) with (a5 :: n) in E. cbn [map] in E.
    assert (E5 : tolower a5 = 46) by (change (tolower 46) with 46 in E; congruence).
    unfold IsArc in Ha. rewrite !andb_true_iff in Ha. destruct Ha as [[[_ _] Hx] _].
    change (firstn 8 (a0 :: a1 :: a2 :: a3 :: a4 :: a5 :: n)) with (a0 :: a1 :: a2 :: a3 :: a4 :: a5 :: firstn 2 n) in Hx. cbn [forallb] in Hx. rewrite !andb_true_iff in Hx. destruct Hx as (_ & _ & _ & _ & _ & Hx & _).
    assert (a5 = 46) by (unfold tolower in E5; destruct ((65 <=? a5) && (a5 <=? 90)) eqn:?; lia). subst a5. vm_compute in Hx. discriminate.
  Qed.
  Lemma zero_quiet l o : Forall (fun e => cstring (fst e) /\ IsArc (fst e) = true) l -> zeroops env l = Some o -> Forall quiet o.
  Proof.
    intros F. revert o. induction F as [|[n z] l [F1 F2] F IH]; intros o; cbn [zeroops]; [intros E; apply some_eq in E; subst o; constructor|].
    cbn [fst] in *. destruct (zeroops env l) as [o1|]; [|discriminate]. cbn [obind]. destruct (z =? 0); [|intros E; apply some_eq in E; subst o; auto].
    pose proof (IsArc_12 n F2). rewrite path200_short by (auto; lia). cbn [obind]. intros E. apply some_eq in E. subst o. constructor; [|auto].
    intros k ->. split; [apply (arc_plain (lit ".newpkt"))|apply (arc_plain (lit ".pkttmp"))]; auto.
  Qed.
  Lemma index_quiet last o : indexops env last = Some o -> Forall quiet o.
  Proof. intros H. apply index_touched in H; auto. eapply Forall_impl; [|exact H]. intros a (k & c & -> & K) n ->. apply misc_quiet; auto. Qed.
  Definition oldname (n : list Z) : Prop := cstring n /\ ~ In PATHCHAR n /\ IsPktTmp n = true /\ (length n <= 98)%nat.
  Lemma packold_new l : forall st st' o, Forall (fun e => oldname (fst e)) l -> packold exec env l st = Some (st', o) ->
    (NoDup (map fst (os_fs st)) -> NoDup (map fst (os_fs st'))) /\ forall f, IsNewPkt f = true -> fget (os_fs st') f = fget (os_fs st) f.
  Proof.
    induction l as [|[n z] l IH]; intros st st' o F; cbn [packold]; [intros E; assert (st' = st) by congruence; subst st'; auto|].
    pose proof (Forall_inv F) as (G1 & G2 & G3 & G4). pose proof (Forall_inv_tail F) as F'. cbn [fst] in *. rewrite path200_short by (auto; lia). cbn [obind].
    destruct (PackFile exec env st (pd ++ n)) as [[[st1 o1] ok1]|] eqn:Ep; [|discriminate]. cbn [obind fst snd].
    destruct (packold exec env l st1) as [[st2 o2]|] eqn:E2; [|discriminate]. cbn [obind fst snd]. intros E. assert (st' = st2) by congruence. subst st'.
    assert (Ln : IsPktTmp (pd ++ n) = true) by (apply IsPktTmp_path; auto).
    assert (Hk : ~ Kpkt (pd ++ n)) by (intros K; apply pkttmp_rev in Ln as (? & ? & Er & ?); unfold Kpkt in K; kind).
    eapply PackFile_chg in Ep as [C _]; eauto; [|apply tmpin_not_ut; auto|apply tmpin_not_arc; auto|left; exists n; auto| |apply tmpin_not_misc; auto].
    2: { pose proof (slashed_length (oe_packetdir env)). destruct Hpd. rewrite app_length. lia. }
    destruct (IH _ _ _ F' E2) as [I1 I2]. split; [intros Hn; apply I1, (chg_nodup _ _ _ _ _ C), Hn|].
    intros f Hf. rewrite I2 by auto. apply (chg_same _ _ _ _ _ C); [|apply new_not_ut; auto|apply new_not_arc; auto].
    intros [->|[->|[(q & _ & ->)|K]]].
    - rewrite tmpin_not_new in Hf; auto. discriminate.
    - eapply new_not_pkt; eauto. apply pkt_pktfile.
    - eapply new_not_pkt; eauto. apply pkt_pktfile.
    - eapply new_not_misc; eauto.
  Qed.
  Lemma sort_In {P : list Z * Z -> Prop} l : Forall P l -> Forall P (sort l).
  Proof. intros F. rewrite Forall_forall in *. intros a Ha. apply F. eapply Permutation_in; [apply Hsort|exact Ha]. Qed.

  Theorem Archive_safe fs last st' o : NoDup (map fst fs) -> numbers_apart env fs -> names_short env fs ->
    ArchiveOutbound exec env sort fs last = Some (st', o, true) ->
    forall n h m, cstring n -> ~ In PATHCHAR n -> IsNewPkt n = true -> length h = 58%nat -> fget fs (pc ++ n) = Some (h ++ m ++ [0; 0]) ->
      secured env contains (h ++ m ++ [0; 0]) (os_fs st').
  Proof.
    intros Nd Hna Hsh. unfold ArchiveOutbound. destruct (orphanloop _ _ _ fs) as [o1|] eqn:E1; [|discriminate]. cbn [obind].
    assert (Q1 : Forall quiet o1).
    { eapply orphanloop_quiet; [|exact E1]. apply sort_In. apply Forall_forall. intros [n z] Hin. pose proof Hin as Hin'. apply readdir_In in Hin as (k & c & -> & Hk & _ & K1 & K2 & K3). cbn [fst].
      assert (length k <= 98)%nat by (apply Hsh; auto; [eapply In_fget; eauto|rewrite K3; reflexivity]). rewrite firstn_all2 by lia. auto. }
    destruct (zeroops _ _) as [o2|] eqn:E2; [|discriminate]. cbn [obind].
    assert (Q2 : Forall quiet o2).
    { eapply zero_quiet; [|exact E2]. apply Forall_forall. intros [n z] Hin. apply readdir_In in Hin as (k & c & -> & Hk & _ & K1 & K2 & K3). cbn [fst]. pose proof (IsArc_12 _ K3). rewrite firstn_all2 by lia. auto. }
    destruct (path200 _ (lit "cmindex")) as [idx|]; [|discriminate]. cbn [obind]. destruct (ReadIndex _ _ _) as [[last1 ch]|]; [|discriminate]. cbn [obind].
    destruct (if ch then _ else _) as [o3|] eqn:E3; [|discriminate]. cbn [obind].
    assert (Q3 : Forall quiet o3) by (destruct ch; [eapply index_quiet; eauto|apply some_eq in E3; subst o3; constructor]).
    set (fs3 := run (run (run fs o1) o2) o3).
    assert (A3 : (NoDup (map fst fs3)) /\ forall f, IsNewPkt f = true \/ IsPktTmp f = true -> fget fs3 f = fget fs f).
    { destruct (quiet_run o1 fs Q1) as [N1 F1]. destruct (quiet_run o2 (run fs o1) Q2) as [N2 F2]. destruct (quiet_run o3 (run (run fs o1) o2) Q3) as [N3 F3].
      split; [auto|]. intros f Hf. unfold fs3. rewrite F3, F2, F1; auto. }
    destruct A3 as [N3 A3].
    match goal with |- context [packold exec env ?l ?s] => set (l4 := l); set (st3 := s) end.
    destruct (packold exec env l4 st3) as [[st4 o4]|] eqn:E4; [|discriminate]. cbn [obind].
    assert (L4 : Forall (fun e => oldname (fst e)) l4).
    { apply sort_In. apply Forall_forall. intros [n z] Hin. apply readdir_In in Hin as (k & c & -> & Hk & _ & K1 & K2 & K3). cbn [fst].
      assert (length k <= 98)%nat by (apply Hsh; auto; [rewrite <- A3; [eapply In_fget; eauto|right; apply IsPktTmp_path; auto]|rewrite K3; apply orb_true_r]). rewrite firstn_all2 by lia. repeat split; auto. }
    destruct (packold_new l4 st3 st4 o4 L4 E4) as [N4 A4]. specialize (N4 N3).
    match goal with |- context [packnew exec env ?l ?s] => set (l5 := l) end.
    destruct (packnew exec env l5 st4) as [[[st5 o5] ok5]|] eqn:E5; [|discriminate]. cbn [obind]. intros E. assert (st' = st5) by congruence. assert (ok5 = true) by congruence. subst st' ok5. clear E.
    assert (A : forall f, IsNewPkt f = true -> fget (os_fs st4) f = fget fs f) by (intros f Hf; rewrite A4 by auto; apply A3; auto).
    intros n h m Hn1 Hn2 Hn3 Hh Hx.
    assert (Hnew : forall k c, In (pc ++ k, c) (os_fs st4) -> cstring k -> ~ In PATHCHAR k -> IsNewPkt k = true -> (15 <= length k <= 98)%nat /\ (firstn 8 k = firstn 8 n -> k = n)).
    { intros k c Hin K1 K2 K3. assert (Hk : fget fs (pc ++ k) <> None) by (rewrite <- A by (apply IsNewPkt_path; auto); eapply In_fget; eauto).
      destruct (Hna k Hk K1 K2 K3) as [B1 B2]. split; auto. intros E. apply B2; auto. rewrite Hx. discriminate. }
    assert (L5 : Forall (fun e => goodname (fst e) /\ (firstn 8 (fst e) = firstn 8 n -> fst e = n)) l5).
    { apply sort_In. apply Forall_forall. intros [k z] Hin. apply readdir_In in Hin as (k' & c & -> & Hk & _ & K1 & K2 & K3). cbn [fst].
      destruct (Hnew k' c Hk K1 K2 K3) as [B1 B2]. rewrite firstn_all2 by lia. split; auto. repeat split; auto; lia. }
    assert (Gn : goodname n).
    { destruct (Hna n) as [B _]; auto; [rewrite Hx; discriminate|]. repeat split; auto; lia. }
    eapply (safe_secured env contains n h m _ Gn Hh eq_refl).
    eapply (packnew_all exec env contains Hpk Hpd Hpc n h m _ Gn Hh eq_refl l5); [exact L5| | |exact E5|rewrite A; [exact Hx|apply IsNewPkt_path; auto]].
    - eapply Permutation_NoDup; [apply Permutation_map, Permutation_sym, Hsort|]. apply readdir_nodup; auto. intros k c Hin K1 K2 K3. destruct (Hnew k c Hin K1 K2 K3). lia.
    - assert (Hin : In (firstn 99 n, Z.of_nat (length (h ++ m ++ [0; 0]))) (osReadDir (os_fs st4) (oe_packetcreate env) IsNewPkt)).
      { apply In_readdir; auto. assert (Hg : fget (os_fs st4) (pc ++ n) = Some (h ++ m ++ [0; 0])) by (rewrite A by (apply IsNewPkt_path; auto); exact Hx).
        clear - Hg. induction (os_fs st4) as [|[k v] l IH]; [discriminate|]. cbn [fget] in Hg. destruct (streq (pc ++ n) k) eqn:Es; [left; apply streq_eq in Es; congruence|right; auto]. }
      destruct Gn as (_ & _ & _ & Gl). rewrite firstn_all2 in Hin by lia. apply in_map_iff. exists (n, Z.of_nat (length (h ++ m ++ [0; 0]))). split; auto.
      eapply Permutation_in; [apply Permutation_sym, Hsort|exact Hin].
  Qed.
End Archive.
