(** Lemmas on runs of crashmail. *)
From Verif Require Import Base M_Str M_Args M_Main S_Main.

Lemma busy_inj f g : busy f = busy g -> f = g.
Proof. unfold busy. apply app_inv_tail. Qed.
Lemma lock_set s f g b : f_locks (setlock s (busy f) b) (busy g) = if streq g f then b else f_locks s (busy g).
Proof.
  unfold setlock. cbn. destruct (streq g f) eqn:E.
  - apply streq_eq in E. subst. rewrite streq_refl. reflexivity.
  - destruct (streq (busy g) (busy f)) eqn:E2; auto. apply streq_eq in E2. apply busy_inj in E2. subst. rewrite streq_refl in E. discriminate.
Qed.
Lemma runs_step w k i n : w_runs (wstep w k i) n = if (n =? k)%nat then snd (pstep (w_files w) (w_runs w k) i) else w_runs w n.
Proof. unfold wstep. destruct (pstep (w_files w) (w_runs w k) i). reflexivity. Qed.
Lemma files_step w k i : w_files (wstep w k i) = fst (pstep (w_files w) (w_runs w k) i).
Proof. unfold wstep. destruct (pstep (w_files w) (w_runs w k) i). reflexivity. Qed.

(** the name a run uses *)
Definition cfgof (p : pst) : option (list Z) :=
  match p with
  | PCheck f _ | PCreate f _ | PRead f | PWork f _ | PClean f _ _ | PFree f _ _ | PUnlock f => Some f
  | _ => None
  end.
Definition short (p : pst) : Prop :=
  match p with
  | PNew _ _ => shortnames p
  | _ => match cfgof p with Some f => (length f <= 99)%nat | None => True end
  end.
Lemma begin_short env argv : shortnames (PNew env argv) -> short (begin env argv).
Proof.
  intros H. unfold begin. destruct (match argv with w :: _ => helpword w | [] => false end); [exact I|].
  destruct (parseargs args_crashmail argv) as [ds|] eqn:E; [|exact I]. specialize (H ds E). destruct (given ds ARG_VERSION); [exact I|].
  destruct (fits _); cbn [negb]; [|exact I]. destruct (given ds ARG_LOCK); [exact H|]. destruct (given ds ARG_UNLOCK); exact H.
Qed.
Lemma begin_kind env argv : match begin env argv with PCheck _ _ | PUnlock _ | PDone _ | POverflow => True | _ => False end.
Proof.
  unfold begin. destruct (match argv with w :: _ => helpword w | [] => false end); [exact I|].
  destruct (parseargs args_crashmail argv) as [ds|]; [|exact I]. destruct (given ds ARG_VERSION); [exact I|].
  destruct (fits _); cbn [negb]; [|exact I]. destruct (given ds ARG_LOCK); [exact I|]. destruct (given ds ARG_UNLOCK); exact I.
Qed.
Lemma pstep_short s p i : short p -> short (snd (pstep s p i)).
Proof.
  intros H. destruct p as [env argv|f h|f h|f|f ids|f ids c|f ids c|f|c| |]; cbn [pstep]; try exact I; destruct (i_kill i); try exact I; cbn [snd].
  - apply begin_short. exact H.
  - destruct (f_locks s (busy f)); [destruct (i_break i)|]; cbn; auto.
  - destruct (i_create i); [destruct h|]; cbn; auto.
  - destruct (i_ok i); cbn; auto.
  - destruct (i_more i); cbn; auto.
  - auto.
Qed.

(** what a step of a run can be *)
Definition quiet (p : pst) : Prop := forall f, ~ working f p /\ ~ creating f p /\ ~ leaving f p.
Lemma begin_quiet env argv : quiet (begin env argv).
Proof. intros f. pose proof (begin_kind env argv). destruct (begin env argv); cbn in *; tauto. Qed.

(** ** Mutual exclusion *)
Record inv (w : world) : Prop := {
  inv_short : forall n, short (w_runs w n);
  inv_lock : forall f n, working f (w_runs w n) -> f_locks (w_files w) (busy f) = true;
  inv_one : forall f n m, working f (w_runs w n) -> working f (w_runs w m) -> n = m;
  inv_none : forall f n m, working f (w_runs w n) -> creating f (w_runs w m) -> False;
  inv_create : forall f n m, creating f (w_runs w n) -> creating f (w_runs w m) -> n = m }.

Lemma start_inv w : start w -> inv w.
Proof.
  intros [Hl Hs].
  assert (HN : forall n, exists e a, w_runs w n = PNew e a) by (intros n; specialize (Hs n); destruct (w_runs w n); try contradiction; eauto).
  constructor.
  - intros n. specialize (Hs n). destruct (w_runs w n); try contradiction. exact Hs.
  - intros f n H. destruct (HN n) as (e & a & E). rewrite E in H. destruct H.
  - intros f n m H. destruct (HN n) as (e & a & E). rewrite E in H. destruct H.
  - intros f n m H. destruct (HN n) as (e & a & E). rewrite E in H. destruct H.
  - intros f n m H. destruct (HN n) as (e & a & E). rewrite E in H. destruct H.
Qed.

(** a step at which the run neither starts nor ends to work or create *)
Lemma inv_same w k i p : inv w -> snd (pstep (w_files w) (w_runs w k) i) = p -> short p ->
  f_locks (fst (pstep (w_files w) (w_runs w k) i)) = f_locks (w_files w) ->
  (forall f, working f p -> working f (w_runs w k)) -> (forall f, creating f p -> creating f (w_runs w k)) ->
  inv (wstep w k i).
Proof.
  intros [I1 I2 I3 I4 I5] Ep Hsp Hl Hw Hc. subst p. set (p := snd (pstep (w_files w) (w_runs w k) i)) in *.
  assert (HW : forall f n, working f (w_runs (wstep w k i) n) -> working f (w_runs w n)).
  { intros f n. rewrite runs_step. fold p. destruct (Nat.eqb_spec n k); [subst; auto|auto]. }
  assert (HC : forall f n, creating f (w_runs (wstep w k i) n) -> creating f (w_runs w n)).
  { intros f n. rewrite runs_step. fold p. destruct (Nat.eqb_spec n k); [subst; auto|auto]. }
  constructor.
  - intros n. rewrite runs_step. destruct (n =? k)%nat; auto.
  - intros f n H. rewrite files_step, Hl. eapply I2; eauto.
  - intros f n m H1 H2. eapply I3; eauto.
  - intros f n m H1 H2. eapply I4; eauto.
  - intros f n m H1 H2. eapply I5; eauto.
Qed.

Lemma inv_step w k i : inv w -> calm w k i -> inv (wstep w k i).
Proof.
  intros HI Hcalm. pose proof (pstep_short (w_files w) (w_runs w k) i (inv_short w HI k)) as Hsh.
  destruct (w_runs w k) as [env argv|f h|f h|f|f ids|f ids c|f ids c|f|c| |] eqn:E.
  all: try (eapply (inv_same w k i _ HI eq_refl); rewrite E; [exact Hsh|..]; cbn [pstep];
    try reflexivity; try (intros ? H; exact H); destruct (i_kill i); cbn [fst snd]; try reflexivity; try (intros ? []); fail).
  - (* start *)
    eapply (inv_same w k i _ HI eq_refl); rewrite E; [exact Hsh|..]; cbn [pstep]; destruct (i_kill i); cbn [fst snd]; try reflexivity; try (intros ? []).
    + intros g Hg. destruct (begin_quiet env argv g) as (A & _). contradiction.
    + intros g Hg. destruct (begin_quiet env argv g) as (_ & A & _). contradiction.
  - (* looking for the lock *)
    destruct (f_locks (w_files w) (busy f)) eqn:EL.
    + eapply (inv_same w k i _ HI eq_refl); rewrite E; [exact Hsh|..]; cbn [pstep]; rewrite EL; destruct (i_kill i); cbn [fst snd]; try reflexivity; try (intros ? []);
        destruct (i_break i); cbn; intros; try contradiction; auto.
    + destruct (i_kill i) eqn:EK.
      { eapply (inv_same w k i _ HI eq_refl); rewrite E; [exact Hsh|..]; cbn [pstep]; rewrite EK; cbn [fst snd]; try reflexivity; intros ? []. }
      assert (EP : pstep (w_files w) (w_runs w k) i = (w_files w, PCreate f h)) by (rewrite E; cbn [pstep]; rewrite EK, EL; reflexivity).
      unfold calm in Hcalm. rewrite E in Hcalm. destruct HI as [I1 I2 I3 I4 I5].
      assert (HW : forall g n, working g (w_runs (wstep w k i) n) -> n <> k /\ working g (w_runs w n)).
      { intros g n. rewrite runs_step, EP. cbn [snd]. destruct (Nat.eqb_spec n k); [intros []|auto]. }
      assert (HC : forall g n, creating g (w_runs (wstep w k i) n) -> (n = k /\ g = f) \/ (n <> k /\ creating g (w_runs w n))).
      { intros g n. rewrite runs_step, EP. cbn [snd]. destruct (Nat.eqb_spec n k); [cbn; auto|auto]. }
      constructor.
      * intros n. rewrite runs_step, EP. cbn [snd]. destruct (n =? k)%nat; auto. specialize (I1 k). rewrite E in I1. exact I1.
      * intros g n H. rewrite files_step, EP. apply HW in H as [_ H]. eapply I2; eauto.
      * intros g n m H1 H2. apply HW in H1 as [_ H1]. apply HW in H2 as [_ H2]. eauto.
      * intros g n m H1 H2. apply HW in H1 as [_ H1]. apply HC in H2 as [[-> ->]|[_ H2]]; [|eauto].
        rewrite (I2 f n H1) in EL. discriminate.
      * intros g n m H1 H2. apply HC in H1 as [[-> ->]|[N1 H1]]; apply HC in H2 as [[-> H]|[N2 H2]]; auto.
        { exfalso. apply (Hcalm m N2 H2). }
        { subst g. exfalso. apply (Hcalm n N1 H1). }
        { eauto. }
  - (* creating it *)
    destruct (i_kill i) eqn:EK.
    { eapply (inv_same w k i _ HI eq_refl); rewrite E; [exact Hsh|..]; cbn [pstep]; rewrite EK; cbn [fst snd]; try reflexivity; intros ? []. }
    destruct (i_create i) eqn:EC.
    2:{ eapply (inv_same w k i _ HI eq_refl); rewrite E; [exact Hsh|..]; cbn [pstep]; rewrite EK, EC; cbn [fst snd]; try reflexivity; intros ? []. }
    assert (EP : pstep (w_files w) (w_runs w k) i = (setlock (w_files w) (busy f) true, if h then PDone EXIT_OK else PRead f)) by (rewrite E; cbn [pstep]; rewrite EK, EC; reflexivity).
    destruct HI as [I1 I2 I3 I4 I5].
    assert (HK : creating f (w_runs w k)) by (rewrite E; reflexivity).
    assert (HW : forall g n, working g (w_runs (wstep w k i) n) -> (n = k /\ g = f) \/ (n <> k /\ working g (w_runs w n))).
    { intros g n. rewrite runs_step, EP. cbn [snd]. destruct (Nat.eqb_spec n k); [destruct h; cbn; [intros []|auto]|auto]. }
    assert (HC : forall g n, creating g (w_runs (wstep w k i) n) -> n <> k /\ creating g (w_runs w n)).
    { intros g n. rewrite runs_step, EP. cbn [snd]. destruct (Nat.eqb_spec n k); [destruct h; intros []|auto]. }
    constructor.
    + intros n. rewrite runs_step, EP. cbn [snd]. destruct (n =? k)%nat; auto. specialize (I1 k). rewrite E in I1. destruct h; [exact I|exact I1].
    + intros g n H. rewrite files_step, EP. cbn [fst]. rewrite lock_set. destruct (streq g f) eqn:Eg; auto.
      apply HW in H as [[_ ->]|[_ H]]; [rewrite streq_refl in Eg; discriminate|]. eapply I2; eauto.
    + intros g n m H1 H2. apply HW in H1 as [[-> ->]|[N1 H1]]; apply HW in H2 as [[-> H]|[N2 H2]]; auto.
      * exfalso. eapply I4; eauto.
      * subst g. exfalso. eapply I4; eauto.
      * eauto.
    + intros g n m H1 H2. apply HC in H2 as [N2 H2]. apply HW in H1 as [[-> ->]|[_ H1]]; [|eapply I4; eauto].
      apply N2. symmetry. eapply I5; eauto.
    + intros g n m H1 H2. apply HC in H1 as [_ H1]. apply HC in H2 as [_ H2]. eauto.
  - (* reading the configuration *)
    eapply (inv_same w k i _ HI eq_refl); rewrite E; [exact Hsh|..]; cbn [pstep]; destruct (i_kill i), (i_ok i); cbn [fst snd]; try reflexivity; try (intros ? []); cbn; auto.
  - (* at work *)
    eapply (inv_same w k i _ HI eq_refl); rewrite E; [exact Hsh|..]; cbn [pstep]; destruct (i_kill i), (i_more i); cbn [fst snd]; try reflexivity; try (intros ? []); cbn; auto.
  - (* giving up the lock *)
    destruct (i_kill i) eqn:EK.
    { eapply (inv_same w k i _ HI eq_refl); rewrite E; [exact Hsh|..]; cbn [pstep]; rewrite EK; cbn [fst snd]; try reflexivity; intros ? []. }
    assert (Hlen : (length f <= 99)%nat) by (pose proof (inv_short w HI k) as H; rewrite E in H; exact H).
    assert (EP : pstep (w_files w) (w_runs w k) i = (setlock (w_files w) (busy f) false, PFree f ids c)).
    { rewrite E; cbn [pstep]; rewrite EK. rewrite firstn_all2 by auto. reflexivity. }
    destruct HI as [I1 I2 I3 I4 I5].
    assert (HK : working f (w_runs w k)) by (rewrite E; reflexivity).
    assert (HW : forall g n, working g (w_runs (wstep w k i) n) -> n <> k /\ working g (w_runs w n)).
    { intros g n. rewrite runs_step, EP. cbn [snd]. destruct (Nat.eqb_spec n k); [intros []|auto]. }
    assert (HC : forall g n, creating g (w_runs (wstep w k i) n) -> n <> k /\ creating g (w_runs w n)).
    { intros g n. rewrite runs_step, EP. cbn [snd]. destruct (Nat.eqb_spec n k); [intros []|auto]. }
    constructor.
    + intros n. rewrite runs_step, EP. cbn [snd]. destruct (n =? k)%nat; auto.
    + intros g n H. rewrite files_step, EP. cbn [fst]. rewrite lock_set. apply HW in H as [N H]. destruct (streq g f) eqn:Eg; [|eapply I2; eauto].
      apply streq_eq in Eg. subst. exfalso. apply N. eapply I3; eauto.
    + intros g n m H1 H2. apply HW in H1 as [_ H1]. apply HW in H2 as [_ H2]. eauto.
    + intros g n m H1 H2. apply HW in H1 as [_ H1]. apply HC in H2 as [_ H2]. eauto.
    + intros g n m H1 H2. apply HC in H1 as [_ H1]. apply HC in H2 as [_ H2]. eauto.
  - (* writing the duplicate database *)
    eapply (inv_same w k i _ HI eq_refl); rewrite E; [exact Hsh|..]; cbn [pstep]; destruct (i_kill i); cbn [fst snd]; try (intros ? []); try reflexivity.
    destruct ids; reflexivity.
  - (* UNLOCK *)
    destruct (i_kill i) eqn:EK.
    { eapply (inv_same w k i _ HI eq_refl); rewrite E; [exact Hsh|..]; cbn [pstep]; rewrite EK; cbn [fst snd]; try reflexivity; intros ? []. }
    assert (EP : pstep (w_files w) (w_runs w k) i = (setlock (w_files w) (busy f) false, PDone EXIT_OK)) by (rewrite E; cbn [pstep]; rewrite EK; reflexivity).
    unfold calm in Hcalm. rewrite E in Hcalm. destruct HI as [I1 I2 I3 I4 I5].
    assert (HW : forall g n, working g (w_runs (wstep w k i) n) -> n <> k /\ working g (w_runs w n)).
    { intros g n. rewrite runs_step, EP. cbn [snd]. destruct (Nat.eqb_spec n k); [intros []|auto]. }
    assert (HC : forall g n, creating g (w_runs (wstep w k i) n) -> n <> k /\ creating g (w_runs w n)).
    { intros g n. rewrite runs_step, EP. cbn [snd]. destruct (Nat.eqb_spec n k); [intros []|auto]. }
    constructor.
    + intros n. rewrite runs_step, EP. cbn [snd]. destruct (n =? k)%nat; [exact I|auto].
    + intros g n H. rewrite files_step, EP. cbn [fst]. rewrite lock_set. apply HW in H as [N H]. destruct (streq g f) eqn:Eg; [|eapply I2; eauto].
      apply streq_eq in Eg. subst. exfalso. eapply Hcalm; eauto.
    + intros g n m H1 H2. apply HW in H1 as [_ H1]. apply HW in H2 as [_ H2]. eauto.
    + intros g n m H1 H2. apply HW in H1 as [_ H1]. apply HC in H2 as [_ H2]. eauto.
    + intros g n m H1 H2. apply HC in H1 as [_ H1]. apply HC in H2 as [_ H2]. eauto.
Qed.

Lemma inv_run : forall sched w, inv w -> steps calm w sched -> inv (wrun w sched).
Proof.
  induction sched as [|[k i] sched IH]; intros w HI Hs; [exact HI|]. cbn [steps wrun] in *. destruct Hs as [Hc Hs]. apply IH; auto. apply inv_step; auto.
Qed.

(** ** Lock files are removed *)
Definition nohold (p : pst) : Prop :=
  match p with PNew _ _ => nolock p | PCheck _ h | PCreate _ h => h = false | _ => True end.
Lemma pstep_nohold s p i : nohold p -> nohold (snd (pstep s p i)).
Proof.
  intros H. destruct p as [env argv|f h|f h|f|f ids|f ids c|f ids c|f|c| |]; cbn [pstep]; try exact I; destruct (i_kill i); try exact I; cbn [snd].
  - unfold begin. destruct (match argv with w :: _ => helpword w | [] => false end); [exact I|].
    cbn [nohold nolock] in H. destruct (parseargs args_crashmail argv) as [ds|] eqn:E; [|exact I]. specialize (H ds eq_refl). destruct (given ds ARG_VERSION); [exact I|].
    destruct (fits _); cbn [negb]; [|exact I]. rewrite H. destruct (given ds ARG_UNLOCK); [exact I|reflexivity].
  - destruct (f_locks s (busy f)); [destruct (i_break i)|]; cbn; auto.
  - cbn in H. subst h. destruct (i_create i); exact I.
  - destruct (i_ok i); exact I.
  - destruct (i_more i); exact I.
Qed.

Definition owned (w : world) : Prop :=
  (forall k, nohold (w_runs w k)) /\
  forall n, f_locks (w_files w) n = true -> exists k f, n = busy f /\ working f (w_runs w k).
Lemma start_owned w : start w -> (forall k, nolock (w_runs w k)) -> owned w.
Proof.
  intros [Hl Hs] Hn. split.
  - intros k. specialize (Hs k). specialize (Hn k). destruct (w_runs w k); try contradiction. exact Hn.
  - intros n H. rewrite Hl in H. discriminate.
Qed.
Lemma owned_step w k i : inv w -> owned w -> unkilled w k i -> owned (wstep w k i).
Proof.
  intros HI [Hn Ho] HK. unfold unkilled in HK. split.
  { intros n. rewrite runs_step. destruct (n =? k)%nat; auto. apply pstep_nohold. auto. }
  assert (Keep : forall m f, m <> k -> working f (w_runs w m) -> working f (w_runs (wstep w k i) m)).
  { intros m f N H. rewrite runs_step. destruct (Nat.eqb_spec m k); [contradiction|exact H]. }
  pose proof (Hn k) as Hk. pose proof (inv_short w HI k) as Hsh.
  intros n Hl. rewrite files_step in Hl.
  assert (Same : f_locks (fst (pstep (w_files w) (w_runs w k) i)) n = f_locks (w_files w) n ->
    (forall f, working f (w_runs w k) -> working f (snd (pstep (w_files w) (w_runs w k) i))) ->
    exists m f, n = busy f /\ working f (w_runs (wstep w k i) m)).
  { intros E Hw. rewrite E in Hl. destruct (Ho n Hl) as (m & f & E1 & E2). exists m, f. split; [exact E1|].
    destruct (Nat.eq_dec m k) as [->|N]; [|apply Keep; auto]. rewrite runs_step, Nat.eqb_refl. auto. }
  destruct (w_runs w k) as [env argv|f h|f h|f|f ids|f ids c|f ids c|f|c| |] eqn:E; cbn [pstep] in *; rewrite ?HK in *; cbn [fst snd] in *;
    try (apply Same; [reflexivity|intros ? []]; fail).
  - apply Same; destruct (f_locks (w_files w) (busy f)); try reflexivity; intros ? [].
  - cbn in Hk. subst h. destruct (i_create i) eqn:EC; cbn [fst snd] in *; [|apply Same; [reflexivity|intros ? []]].
    unfold setlock in Hl. cbn [f_locks] in Hl. destruct (streq n (busy f)) eqn:En.
    + apply streq_eq in En. exists k, f. split; [exact En|]. rewrite runs_step, Nat.eqb_refl, E. cbn [pstep]. rewrite HK, EC. reflexivity.
    + apply Same; [|intros ? []]. unfold setlock. cbn. rewrite En. reflexivity.
  - apply Same; destruct (i_ok i); try reflexivity; cbn; auto.
  - apply Same; try reflexivity; destruct (i_more i); cbn; auto.
  - cbn in Hsh. rewrite firstn_all2 in Hl by auto. unfold setlock in Hl. cbn [f_locks] in Hl. destruct (streq n (busy f)) eqn:En; [discriminate|].
    destruct (Ho n Hl) as (m & g & E1 & E2). exists m, g. split; [exact E1|]. apply Keep; [|exact E2]. intros ->. rewrite E in E2. cbn in E2. subst g. subst n. rewrite streq_refl in En. discriminate.
  - apply Same; [destruct ids; reflexivity|intros ? []].
  - unfold setlock in Hl. cbn [f_locks] in Hl. destruct (streq n (busy f)) eqn:En; [discriminate|]. apply Same; [|intros ? []]. unfold setlock. cbn. rewrite En. reflexivity.
Qed.
Lemma steps_and P Q : forall sched w, steps (fun w k i => P w k i /\ Q w k i) w sched <-> steps P w sched /\ steps Q w sched.
Proof. induction sched as [|[k i] sched IH]; intros w; cbn; [tauto|]. rewrite IH. tauto. Qed.
Lemma owned_run : forall sched w, inv w -> owned w -> steps calm w sched -> steps unkilled w sched -> owned (wrun w sched).
Proof.
  induction sched as [|[k i] sched IH]; intros w HI Ho H1 H2; [exact Ho|]. cbn [steps wrun] in *. destruct H1, H2. apply IH; auto.
  - apply inv_step; auto.
  - apply owned_step; auto.
Qed.

(** ** A lock keeps others out *)
Record locked (f : list Z) (w : world) : Prop := {
  lk_short : forall n, short (w_runs w n);
  lk_lock : f_locks (w_files w) (busy f) = true;
  lk_work : forall n, ~ working f (w_runs w n);
  lk_create : forall n, ~ creating f (w_runs w n) }.
Lemma locked_step f w k i : locked f w -> noremoval f w k i -> locked f (wstep w k i).
Proof.
  intros [L1 L2 L3 L4] Hn. unfold noremoval in Hn.
  pose proof (pstep_short (w_files w) (w_runs w k) i (L1 k)) as Hsh. pose proof (L1 k) as H1. pose proof (L3 k) as H3. pose proof (L4 k) as H4.
  assert (G : f_locks (fst (pstep (w_files w) (w_runs w k) i)) (busy f) = true /\ ~ working f (snd (pstep (w_files w) (w_runs w k) i)) /\ ~ creating f (snd (pstep (w_files w) (w_runs w k) i))).
  { clear Hsh. destruct (w_runs w k) as [env argv|g h|g h|g|g ids|g ids c|g ids c|g|c| |] eqn:E; cbn [pstep]; auto; destruct (i_kill i); cbn [fst snd]; auto.
    - destruct (begin_quiet env argv f) as (A & B & _). auto.
    - destruct (f_locks (w_files w) (busy g)) eqn:EL; [destruct (i_break i); cbn; auto|]. cbn. split; [auto|]. split; [auto|]. intros ->. congruence.
    - cbn in H4. destruct (i_create i); cbn [fst snd]; auto. rewrite lock_set. split; [destruct (streq f g); auto|]. destruct h; cbn; auto.
    - cbn in H3. destruct (i_ok i); cbn; auto.
    - cbn in H3. destruct (i_more i); cbn; auto.
    - cbn in H1, H3. rewrite firstn_all2 by auto. rewrite lock_set. destruct (streq f g) eqn:Eg; [apply streq_eq in Eg; congruence|]. cbn. auto.
    - destruct ids; cbn; auto.
    - rewrite lock_set. destruct (streq f g) eqn:Eg; [apply streq_eq in Eg; congruence|]. cbn. auto. }
  destruct G as (G1 & G2 & G3). constructor.
  - intros n. rewrite runs_step. destruct (n =? k)%nat; auto.
  - rewrite files_step. exact G1.
  - intros n. rewrite runs_step. destruct (n =? k)%nat; auto.
  - intros n. rewrite runs_step. destruct (n =? k)%nat; auto.
Qed.
Lemma locked_run f : forall sched w, locked f w -> steps (noremoval f) w sched -> locked f (wrun w sched).
Proof.
  induction sched as [|[k i] sched IH]; intros w HI Hs; [exact HI|]. cbn [steps wrun] in *. destruct Hs as [Hc Hs]. apply IH; auto. apply locked_step; auto.
Qed.

(** ** The duplicate database *)
Lemma addids_old new : forall ids x, In x ids -> In x (addids ids new).
Proof.
  unfold addids. induction new as [|y new IH]; intros ids x H; cbn; [exact H|]. apply IH. destruct (existsb (Z.eqb y) ids); [exact H|]. apply in_or_app. auto.
Qed.
Lemma addids_new new : forall ids x, In x new -> In x (addids ids new).
Proof.
  unfold addids. induction new as [|y new IH]; intros ids x H; cbn; [destruct H|]. destruct H as [->|H]; [|apply IH; exact H].
  apply (addids_old new). destruct (existsb (Z.eqb x) ids) eqn:E.
  - apply existsb_exists in E as (z & Hz & Ez). apply Z.eqb_eq in Ez. subst. exact Hz.
  - apply in_or_app. right. left. reflexivity.
Qed.
Lemma addids_only new : forall ids x, In x (addids ids new) -> In x ids \/ In x new.
Proof.
  unfold addids. induction new as [|y new IH]; intros ids x H; cbn in *; [auto|]. apply IH in H as [H|H]; [|auto].
  destruct (existsb (Z.eqb y) ids); [auto|]. apply in_app_or in H as [H|[->|[]]]; auto.
Qed.

(** the ids a run has read or added *)
Definition idsof (f : list Z) (p : pst) : option (list Z) :=
  match p with
  | PWork g l | PClean g (Some l) _ | PFree g (Some l) _ => if streq g f then Some l else None
  | _ => None
  end.
(** past reading the database, not yet at the end *)
Definition busywith (f : list Z) (p : pst) : Prop :=
  match p with PWork g _ | PClean g _ _ | PFree g _ _ => g = f | _ => False end.
Lemma idsof_busywith f p l : idsof f p = Some l -> busywith f p.
Proof.
  destruct p as [env argv|g h|g h|g|g ids|g ids c|g ids c|g|c| |]; cbn; try discriminate; try (destruct ids; try discriminate);
    destruct (streq g f) eqn:E; try discriminate; intros _; apply streq_eq; exact E.
Qed.
Record dinv (w : world) : Prop := {
  d_one : forall f n m, busywith f (w_runs w n) -> busywith f (w_runs w m) -> n = m;
  d_ids : forall f n l, idsof f (w_runs w n) = Some l -> incl (f_ids (w_files w) f) l }.
Lemma start_dinv w : start w -> dinv w.
Proof.
  intros [Hl Hs].
  assert (HN : forall n, exists e a, w_runs w n = PNew e a) by (intros n; specialize (Hs n); destruct (w_runs w n); try contradiction; eauto).
  constructor.
  - intros f n m H. destruct (HN n) as (e & a & E). rewrite E in H. destruct H.
  - intros f n l H. destruct (HN n) as (e & a & E). rewrite E in H. discriminate.
Qed.
Lemma busy_working f p : busywith f p -> working f p \/ leaving f p.
Proof. destruct p; cbn; auto. Qed.

(** a step of a run: what becomes of its ids *)
Lemma dstep s p i f :
  (busywith f (snd (pstep s p i)) -> busywith f p \/ p = PRead f) /\
  (forall l, idsof f (snd (pstep s p i)) = Some l -> (exists l0, idsof f p = Some l0 /\ incl l0 l) \/ l = f_ids s f) /\
  (f_ids (fst (pstep s p i)) f = f_ids s f \/ exists c, p = PFree f (Some (f_ids (fst (pstep s p i)) f)) c).
Proof.
  destruct p as [env argv|g h|g h|g|g ids|g ids c|g ids c|g|c| |]; cbn [pstep]; try (split; [|split]; [auto|intros; left; eexists; split; [eassumption|apply incl_refl]|auto]; fail);
    destruct (i_kill i); cbn [fst snd]; try (split; [intros []|split; [discriminate|auto]]; fail).
  - split; [|split; [|auto]].
    + intros H. pose proof (begin_kind env argv). destruct (begin env argv); cbn in *; contradiction.
    + intros l H. pose proof (begin_kind env argv). destruct (begin env argv); cbn in *; try contradiction; discriminate.
  - destruct (f_locks s (busy g)); [destruct (i_break i)|]; cbn; (split; [intros []|split; [discriminate|auto]]).
  - destruct (i_create i); [destruct h|]; cbn; (split; [intros []|split; [discriminate|auto]]).
  - destruct (i_ok i); cbn.
    + split; [intros ->; auto|]. split; [|auto]. intros l. destruct (streq g f) eqn:E; [|discriminate]. apply streq_eq in E. subst. intros [= <-]. auto.
    + split; [intros ->; auto|split; [discriminate|auto]].
  - destruct (i_more i); cbn; (split; [auto|]); (split; [|auto]); intros l; destruct (streq g f); try discriminate; intros [= <-]; left; eexists; (split; [reflexivity|]); intros x; apply addids_old.
  - cbn. split; [auto|]. split; [|auto]. intros l. destruct ids; [|discriminate]. destruct (streq g f); [|discriminate]. intros [= <-]. left. eexists. split; [reflexivity|apply incl_refl].
  - split; [intros []|]. split; [discriminate|]. destruct ids as [l|]; [|auto]. cbn. destruct (streq f g) eqn:E; [|auto]. apply streq_eq in E. subst. right. exists c. reflexivity.
Qed.

Lemma dinv_step w k i : inv w -> dinv w -> calmer w k i -> dinv (wstep w k i).
Proof.
  intros HI [D1 D2] [_ Hc].
  assert (HR : forall f n, w_runs w k = PRead f -> busywith f (w_runs w n) -> False).
  { intros f n E H. rewrite E in Hc. destruct (Nat.eq_dec n k) as [->|N]; [rewrite E in H; exact H|].
    apply busy_working in H as [H|H]; [|apply (Hc n H)]. apply N. apply (inv_one w HI f); [exact H|rewrite E; reflexivity]. }
  constructor.
  - intros f n m. rewrite !runs_step. destruct (dstep (w_files w) (w_runs w k) i f) as (A & _ & _).
    destruct (Nat.eqb_spec n k) as [->|Nn]; destruct (Nat.eqb_spec m k) as [->|Nm]; auto.
    + intros H1 H2. apply A in H1 as [H1|H1]; [apply (D1 f); auto|exfalso; eapply HR; eauto].
    + intros H1 H2. apply A in H2 as [H2|H2]; [apply (D1 f); auto|exfalso; eapply HR; eauto].
    + apply D1.
  - intros f n l. rewrite runs_step, files_step. destruct (dstep (w_files w) (w_runs w k) i f) as (A & B & C).
    intros H. destruct (Nat.eqb_spec n k) as [->|Nn].
    + destruct C as [C|[c C]]; [rewrite C|].
      * apply B in H as [(l0 & E & H)| ->]; [|apply incl_refl]. intros x Hx. apply H. eapply D2; eauto.
      * rewrite C in H. cbn [pstep] in H. destruct (i_kill i); discriminate.
    + destruct C as [C|[c C]]; [rewrite C; eapply D2; eauto|]. exfalso. apply Nn. apply (D1 f); [eapply idsof_busywith; eauto|rewrite C; reflexivity].
Qed.

(** the database only grows *)
Lemma ids_step w k i f : dinv w -> incl (f_ids (w_files w) f) (f_ids (w_files (wstep w k i)) f).
Proof.
  intros [D1 D2]. rewrite files_step. destruct (dstep (w_files w) (w_runs w k) i f) as (_ & _ & [C|[c C]]); [rewrite C; apply incl_refl|].
  apply (D2 f k). remember (f_ids (fst (pstep (w_files w) (w_runs w k) i)) f) as x eqn:Ex. clear Ex. rewrite C. cbn. rewrite streq_refl. reflexivity.
Qed.
Lemma calmer_calm : forall sched w, steps calmer w sched -> steps calm w sched.
Proof. induction sched as [|[k i] sched IH]; intros w H; [exact I|]. cbn in *. destruct H as [[H _] Hs]. auto. Qed.
Lemma dinv_run : forall sched w, inv w -> dinv w -> steps calmer w sched ->
  inv (wrun w sched) /\ dinv (wrun w sched) /\ forall f, incl (f_ids (w_files w) f) (f_ids (w_files (wrun w sched)) f).
Proof.
  induction sched as [|[k i] sched IH]; intros w HI HD Hs; [split; [|split]; auto; intros; apply incl_refl|].
  cbn [steps wrun] in *. destruct Hs as [Hc Hs]. assert (HI' : inv (wstep w k i)) by (apply inv_step; [auto|apply Hc]).
  pose proof (dinv_step w k i HI HD Hc) as HD'. destruct (IH _ HI' HD' Hs) as (A & B & C). split; [|split]; auto.
  intros f x Hx. apply C. apply (ids_step w k i f HD). exact Hx.
Qed.

(** what becomes of the ids of one run *)
Definition kept (f : list Z) (l : list Z) (w : world) (n : nat) : Prop :=
  match w_runs w n with
  | PDone _ => incl l (f_ids (w_files w) f)
  | PKilled => True
  | p => exists l', idsof f p = Some l' /\ incl l l'
  end.
Lemma kept_step f l w k i n : dinv w -> kept f l w n -> kept f l (wstep w k i) n.
Proof.
  intros HD HK. unfold kept in *. rewrite runs_step. destruct (Nat.eqb_spec n k) as [->|N].
  - rewrite files_step. destruct (w_runs w k) as [env argv|g h|g h|g|g ids|g ids c|g ids c|g|c| |] eqn:E; cbn [pstep];
      try (destruct HK as (l' & HK & _); discriminate HK); try exact HK; destruct (i_kill i); cbn [fst snd]; auto.
    + destruct HK as (l' & HK & Hi). cbn in HK. destruct (streq g f) eqn:Eg; [|discriminate]. injection HK as ->.
      destruct (i_more i); eexists; (split; [cbn; rewrite Eg; reflexivity|]); intros x Hx; apply addids_old; auto.
    + destruct HK as (l' & HK & Hi). cbn in HK. destruct ids; [|discriminate]. destruct (streq g f) eqn:Eg; [|discriminate]. injection HK as ->. apply streq_eq in Eg. subst. cbn. rewrite streq_refl. exact Hi.
  - destruct (w_runs w n); auto. intros x Hx. apply (ids_step w k i f HD). auto.
Qed.
Lemma kept_run f l n : forall sched w, inv w -> dinv w -> steps calmer w sched -> kept f l w n -> kept f l (wrun w sched) n.
Proof.
  induction sched as [|[k i] sched IH]; intros w HI HD Hs HK; [exact HK|]. cbn [steps wrun] in *. destruct Hs as [Hc Hs]. apply IH; auto.
  - apply inv_step; [auto|apply Hc].
  - apply dinv_step; auto.
  - apply kept_step; auto.
Qed.
