(** The commands for one area or one node: lemmas. *)
From Coq Require Import Sorted Permutation.
From Verif Require Import Base M_Node4D S_Node4D P_Node4D M_Pat M_Str M_Mem S_Mem P_Mem M_Cfg M_Pkt M_Echo S_Echo P_Echo M_Filter M_Upd M_Areafix P_Areafix M_Scan S_Scan P_Scan S_AddArea P_AddArea M_Cmd S_Cmd.

Lemma node_find nodes text : match Parse4D text with Some n => match findcn n nodes with Some k => node_text nodes text k | None => forall k, ~ node_text nodes text k end | None => forall k, ~ node_text nodes text k end.
Proof.
  unfold node_text. destruct (Parse4D text) as [n|] eqn:E.
  - unfold findcn. assert (Hi : forall c, (Compare4D (cn_node c) n =? 0) = true <-> isnode_text text c).
    { intros c. rewrite same_iff. unfold isnode_text. split.
      - intros H. apply parse_iff in E as (t & H1 & H2 & ->). exists t. auto.
      - intros (t & H1 & H2 & H3). assert (E' : Parse4D text = Some (denote t (N4 0 0 0 0))) by (apply parse_iff; eauto). congruence. }
    pose proof (findpos_ok _ _ nodes Hi) as F. destruct (findpos _ nodes) as [k|]; [exact F|]. intros k Hk. destruct Hk as ((c & Hn & Hp) & _). rewrite Forall_forall in F. apply (F c (nth_error_In _ _ Hn)). exact Hp.
  - intros k ((c & _ & (t & H1 & H2 & _)) & _). assert (E' : Parse4D text = Some (denote t (N4 0 0 0 0))) by (apply parse_iff; eauto). congruence.
Qed.
Lemma firstpos_fun {A} (P : A -> Prop) l i j : firstpos P l i -> firstpos P l j -> i = j.
Proof.
  intros ((a & Ha & Pa) & Fa) ((b & Hb & Pb) & Fb). destruct (Nat.lt_trichotomy i j) as [H|[H|H]]; [|exact H|].
  - exfalso. exact (Fb i a H Ha Pa).
  - exfalso. exact (Fa j b H Hb Pb).
Qed.
Lemma notify_in l : forall k0 e, In e (notifyall l k0) <-> exists k c, e = CList (k0 + k) /\ nth_error l k = Some c /\ flag (cn_flags c) 32 = true.
Proof.
  induction l as [|c l IH]; intros k0 e; cbn [notifyall].
  - split; [intros []|]. intros (k & c & _ & H & _). destruct k; discriminate.
  - assert (R : In e (notifyall l (S k0)) <-> exists k c, e = CList (k0 + S k) /\ nth_error l k = Some c /\ flag (cn_flags c) 32 = true).
    { rewrite IH. split; intros (k & c' & -> & H); exists k, c'; (split; [f_equal; lia|exact H]). }
    unfold NODE_NOTIFY. destruct (flag (cn_flags c) 32) eqn:E; cbn [In]; rewrite R; split.
    + intros [<-|(k & c' & -> & H)]; [exists O, c; split; [f_equal; lia|auto]|exists (S k), c'; auto].
    + intros (k & c' & -> & Hn & Hf). destruct k as [|k]; [left; f_equal; lia|right; eauto].
    + intros (k & c' & -> & H). exists (S k), c'. auto.
    + intros (k & c' & -> & Hn & Hf). destruct k as [|k]; [cbn in Hn; congruence|eauto].
Qed.
Lemma notify_sorted l : forall k0, exists ks, notifyall l k0 = map CList ks /\ StronglySorted lt ks /\ Forall (fun k => (k0 <= k)%nat) ks.
Proof.
  induction l as [|c l IH]; intros k0; cbn [notifyall]; [exists []; repeat constructor|]. destruct (IH (S k0)) as (ks & -> & Hs & Hf). destruct (flag _ _).
  - exists (k0 :: ks). split; [reflexivity|]. split; constructor; auto; eapply Forall_impl; try exact Hf; cbn; intros; lia.
  - exists ks. split; [reflexivity|]. split; [exact Hs|]. eapply Forall_impl; [|exact Hf]. cbn. intros; lia.
Qed.
Lemma farewell_ok nodes tag l es : SendRemoveMessages nodes tag l = Some es -> exists ess, Forall2 (farewell nodes tag) l ess /\ es = concat ess.
Proof.
  revert es. induction l as [|t l IH]; intros es H; cbn [SendRemoveMessages] in H.
  - injection H as <-. exists []. split; [constructor|reflexivity].
  - set (n := getan nodes (tn_node t)) in *. destruct (flag (cn_flags (an_cn n)) NODE_SENDTEXT && negb (flag (tn_flags t) TOSSNODE_FEED)) eqn:E2.
    + destruct (Nat.ltb _ _); [|discriminate]. cbn [obind] in H. destruct (SendRemoveMessages nodes tag l) as [e3|]; [|discriminate]. cbn [obind] in H. injection H as <-. destruct (IH e3 eq_refl) as (ess & Hf & ->).
      exists (((if flag (cn_flags (an_cn n)) NODE_SENDAREAFIX then [FRemoved (tn_node t) tag] else []) ++ [FNotice (tn_node t) tag]) :: ess). split; [constructor; [|exact Hf]|cbn [concat]; rewrite <- app_assoc; reflexivity]. apply andb_true_iff in E2 as [E2 E3]. apply negb_true_iff in E3.
      exists n. eexists. eexists. split; [reflexivity|]. split; [reflexivity|]. split; [|left; auto]. unfold NODE_SENDAREAFIX. destruct (flag _ 128); auto.
    + cbn [obind] in H. destruct (SendRemoveMessages nodes tag l) as [e3|]; [|discriminate]. cbn [obind] in H. injection H as <-. destruct (IH e3 eq_refl) as (ess & Hf & ->).
      exists (((if flag (cn_flags (an_cn n)) NODE_SENDAREAFIX then [FRemoved (tn_node t) tag] else []) ++ []) :: ess). split; [constructor; [|exact Hf]|cbn [concat]; rewrite app_nil_r; reflexivity]. exists n. eexists. eexists. split; [reflexivity|]. split; [reflexivity|]. split.
      * unfold NODE_SENDAREAFIX. destruct (flag _ 128); auto.
      * right. split; [|reflexivity]. unfold NODE_SENDTEXT in E2. destruct (flag (cn_flags (an_cn n)) 256); [right|left; reflexivity]. cbn in E2. destruct (flag (tn_flags t) TOSSNODE_FEED); [reflexivity|discriminate].
Qed.
Lemma setnth_mid {A} (pre : list A) a b post : setnth (length pre) b (pre ++ a :: post) = pre ++ b :: post.
Proof. induction pre as [|x pre IH]; cbn; [reflexivity|]. rewrite IH. reflexivity. Qed.
Lemma filter_all {A} (f : A -> bool) l : Forall (fun x => f x = true) l -> filter f l = l.
Proof. intros H. induction H as [|x l Hx _ IH]; cbn; [reflexivity|]. rewrite Hx, IH. reflexivity. Qed.
Lemma findpos_split {A} (f : A -> bool) l i : findpos f l = Some i -> exists pre a post, l = pre ++ a :: post /\ length pre = i /\ f a = true /\ Forall (fun x => f x = false) pre.
Proof.
  revert i. induction l as [|x l IH]; intros i H; cbn [findpos] in H; [discriminate|]. destruct (f x) eqn:E.
  - injection H as <-. exists [], x, l. repeat split; auto.
  - destruct (findpos f l) as [j|]; [|discriminate]. injection H as <-. destruct (IH j eq_refl) as (pre & a & post & -> & <- & Ha & Hp). exists (x :: pre), a, post. repeat split; auto.
Qed.
Lemma findpos_none {A} (f : A -> bool) l : findpos f l = None -> Forall (fun x => f x = false) l.
Proof. induction l as [|x l IH]; intros H; cbn [findpos] in H; [constructor|]. destruct (f x) eqn:E; [discriminate|]. constructor; [exact E|]. apply IH. destruct (findpos f l); [discriminate|reflexivity]. Qed.
Lemma echo_iff name a : ((ar_type (fa_ar a) =? AREATYPE_ECHOMAIL) && streqi name (ar_tag (fa_ar a))) = true <-> echo_named name a.
Proof. unfold echo_named. rewrite andb_true_iff, Z.eqb_eq. reflexivity. Qed.
Lemma echo_not name l : Forall (fun a => ((ar_type (fa_ar a) =? AREATYPE_ECHOMAIL) && streqi name (ar_tag (fa_ar a))) = false) l -> Forall (fun a => ~ echo_named name a) l.
Proof. intros H. eapply Forall_impl; [|exact H]. intros a Ha Hn. apply echo_iff in Hn. cbv beta in Ha. congruence. Qed.
