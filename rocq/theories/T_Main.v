(** C58: runs of crashmail side by side. *)
From Verif Require Import Base M_Str M_Args M_Main S_Main P_Main.

(** In a schedule without the two races, whatever is killed when, at most one run is at work
    on a configuration file, and its lock file is there all the time. *)
Theorem C58_exclusion : forall w0 sched, start w0 -> steps calm w0 sched ->
  forall f n m, working f (w_runs (wrun w0 sched) n) -> 
    f_locks (w_files (wrun w0 sched)) (f ++ lit ".busy") = true /\
    (working f (w_runs (wrun w0 sched) m) -> n = m).
Proof.
  intros w0 sched H0 Hs f n m Hn. pose proof (inv_run sched w0 (start_inv w0 H0) Hs) as HI. split.
  - exact (inv_lock _ HI f n Hn).
  - intros Hm. exact (inv_one _ HI f n m Hn Hm).
Qed.
Print Assumptions C58_exclusion.

(** If nobody is killed and nobody says LOCK, a lock file means that a run is at work; when
    all runs have come to an end, in whichever way, there is none. *)
Theorem C58_release : forall w0 sched, start w0 -> (forall k, nolock (w_runs w0 k)) -> steps calm w0 sched -> steps unkilled w0 sched ->
  (forall n, f_locks (w_files (wrun w0 sched)) n = true -> exists k f, n = f ++ lit ".busy" /\ working f (w_runs (wrun w0 sched) k)) /\
  ((forall k, exists c, w_runs (wrun w0 sched) k = PDone c \/ exists e a, w_runs (wrun w0 sched) k = PNew e a) ->
   forall n, f_locks (w_files (wrun w0 sched)) n = false).
Proof.
  intros w0 sched H0 Hn Hc Hu. pose proof (owned_run sched w0 (start_inv w0 H0) (start_owned w0 H0 Hn) Hc Hu) as [_ Ho]. split; [exact Ho|].
  intros Hall n. destruct (f_locks (w_files (wrun w0 sched)) n) eqn:E; [|reflexivity].
  destruct (Ho n E) as (k & f & _ & Hw). destruct (Hall k) as [c [H|(e & a & H)]]; rewrite H in Hw; destruct Hw.
Qed.
Print Assumptions C58_release.

(** Once LOCK has created the lock file, nobody gets to work on that configuration until
    UNLOCK, in every schedule that follows, races or not. *)
Lemma short_run : forall sched w, (forall n, short (w_runs w n)) -> forall n, short (w_runs (wrun w sched) n).
Proof.
  induction sched as [|[k i] sched IH]; intros w H; [exact H|]. cbn [wrun]. apply IH. intros n. rewrite runs_step. destruct (n =? k)%nat; auto. apply pstep_short. auto.
Qed.
Theorem C58_held : forall w0 before after f, start w0 ->
  let w := wrun w0 before in
  f_locks (w_files w) (f ++ lit ".busy") = true -> (forall n, ~ working f (w_runs w n) /\ ~ creating f (w_runs w n)) ->
  steps (noremoval f) w after ->
  f_locks (w_files (wrun w after)) (f ++ lit ".busy") = true /\ forall n, ~ working f (w_runs (wrun w after) n).
Proof.
  intros w0 before after f H0 w Hl Hn Hs.
  assert (HL : locked f w).
  { constructor; [|exact Hl| |].
    - apply short_run. apply (inv_short _ (start_inv w0 H0)).
    - intros n. apply (Hn n).
    - intros n. apply (Hn n). }
  destruct (locked_run f after w HL Hs) as [_ A B _]. auto.
Qed.
Print Assumptions C58_held.
Theorem C58_lock : forall w0 before k i after f, start w0 -> steps calm w0 before ->
  let w := wrun w0 before in
  w_runs w k = PCreate f true -> i_kill i = false -> i_create i = true ->
  steps (noremoval f) (wstep w k i) after ->
  w_runs (wstep w k i) k = PDone 0 /\
  f_locks (w_files (wrun (wstep w k i) after)) (f ++ lit ".busy") = true /\
  forall n, ~ working f (w_runs (wrun (wstep w k i) after) n).
Proof.
  intros w0 before k i after f H0 Hc w Hk EK EC Hs.
  pose proof (inv_run before w0 (start_inv w0 H0) Hc) as HI. fold w in HI.
  assert (EP : pstep (w_files w) (w_runs w k) i = (setlock (w_files w) (busy f) true, PDone EXIT_OK)) by (rewrite Hk; cbn [pstep]; rewrite EK, EC; reflexivity).
  assert (HK : creating f (w_runs w k)) by (rewrite Hk; reflexivity).
  split; [rewrite runs_step, Nat.eqb_refl, EP; reflexivity|].
  assert (HL : locked f (wstep w k i)).
  { constructor.
    - intros n. rewrite runs_step, EP. destruct (n =? k)%nat; [exact I|]. apply (inv_short _ HI).
    - rewrite files_step, EP. cbn [fst]. rewrite lock_set, streq_refl. reflexivity.
    - intros n. rewrite runs_step, EP. destruct (Nat.eqb_spec n k); [intros []|]. intros H. eapply (inv_none _ HI); eauto.
    - intros n. rewrite runs_step, EP. destruct (Nat.eqb_spec n k) as [|N]; [intros []|]. intros H. apply N. eapply (inv_create _ HI); eauto. }
  destruct (locked_run f after _ HL Hs) as [_ A B _]. auto.
Qed.
Print Assumptions C58_lock.

(** If besides no run opens the duplicate database while another has yet to write it, the
    database never loses an id, and the ids seen by a run are in it when the run has ended. *)
Theorem C58_dupes : forall w0 before after f, start w0 -> steps calmer w0 before ->
  let w := wrun w0 before in steps calmer w after ->
  incl (f_ids (w_files w) f) (f_ids (w_files (wrun w after)) f).
Proof.
  intros w0 before after f H0 Hb w Ha.
  destruct (dinv_run before w0 (start_inv w0 H0) (start_dinv w0 H0) Hb) as (HI & HD & _). fold w in HI, HD.
  apply (dinv_run after w HI HD Ha).
Qed.
Print Assumptions C58_dupes.
Theorem C58_dupes_run : forall w0 before n i after f ids c, start w0 -> steps calmer w0 before ->
  let w := wrun w0 before in
  w_runs w n = PWork f ids -> i_kill i = false -> steps calmer (wstep w n i) after ->
  w_runs (wrun (wstep w n i) after) n = PDone c ->
  incl (i_ids i) (f_ids (w_files (wrun (wstep w n i) after)) f) /\
  incl (f_ids (w_files w) f) ids.
Proof.
  intros w0 before n i after f ids c H0 Hb w Hn EK Hs Hd.
  destruct (dinv_run before w0 (start_inv w0 H0) (start_dinv w0 H0) Hb) as (HI & HD & _). fold w in HI, HD.
  assert (Hc : calmer w n i) by (unfold calmer, calm; rewrite Hn; auto).
  assert (EP : pstep (w_files w) (w_runs w n) i = (w_files w, if i_more i then PWork f (addids ids (i_ids i)) else PClean f (Some (addids ids (i_ids i))) EXIT_OK)) by (rewrite Hn; cbn [pstep]; rewrite EK; reflexivity).
  assert (HK : kept f (addids ids (i_ids i)) (wstep w n i) n).
  { unfold kept. rewrite runs_step, Nat.eqb_refl, EP. cbn [snd]. destruct (i_more i); eexists; (split; [cbn; rewrite streq_refl; reflexivity|apply incl_refl]). }
  assert (HI' : inv (wstep w n i)) by (apply inv_step; [auto|apply Hc]).
  assert (HD' : dinv (wstep w n i)) by (apply dinv_step; auto).
  pose proof (kept_run f _ n after _ HI' HD' Hs HK) as HE. unfold kept in HE. rewrite Hd in HE.
  split; intros x Hx.
  - apply HE. apply addids_new. exact Hx.
  - apply (d_ids _ HD f n ids); [rewrite Hn; cbn; rewrite streq_refl; reflexivity|exact Hx].
Qed.
Print Assumptions C58_dupes_run.

(** ** Actions *)
Lemma notgiven ds j : argd ds j = None -> given ds j = false.
Proof. unfold given. intros ->. reflexivity. Qed.
Lemma isgiven ds j v : argd ds j = Some v -> given ds j = true.
Proof. unfold given. intros ->. reflexivity. Qed.
Lemma theword ds j v : argd ds j = Some (VWord v) -> word ds j = v.
Proof. unfold word. intros ->. reflexivity. Qed.
Lemma u32_small z : 0 <= z < 2 ^ 31 -> u32 z = z.
Proof. intros. unfold u32. apply Z.mod_small. lia. Qed.
Ltac inl := cbn; repeat (first [left; reflexivity|right]).
Ltac goact N := unfold actions; repeat match goal with |- context [given ?ds ?x] =>
  first [match goal with E : given ds x = _ |- _ => rewrite E end | rewrite (N x) by (first [discriminate|inl])] end.
Lemma asks_given atoi ds j a : asks atoi ds j a -> given ds j = true.
Proof. intros Ha. destruct Ha; eapply isgiven; eauto. Qed.

(** A command line that asks for one thing gets that and nothing else; so does one that asks
    for tossing and, with any but TOSSFILE, one other thing: tossing comes first. *)
(** Which configuration a run locks: the one of SETTINGS, otherwise of the environment. *)
Theorem C58_config : forall env argv ds f s i,
  match argv with w :: _ => helpword w = false | [] => True end ->
  parseargs args_crashmail argv = Some ds -> argd ds ARG_VERSION = None -> configured env ds f -> (length f < 195)%nat -> i_kill i = false ->
  pstep s (PNew env argv) i =
    (s, match argd ds ARG_LOCK, argd ds ARG_UNLOCK with
        | Some _, _ => PCheck f true
        | None, Some _ => PUnlock f
        | None, None => PCheck f false
        end).
Proof.
  intros env argv ds f s i Hh Hp Hv Hc Hl Hk. unfold pstep. rewrite Hk. unfold begin.
  replace (match argv with w :: _ => helpword w | [] => false end) with false by (destruct argv; auto). rewrite Hp. unfold given. rewrite Hv.
  assert (E : cfgname env ds = f) by (unfold cfgname, given, word; destruct Hc as [f H|f H He|H He]; rewrite H; try rewrite He; reflexivity). rewrite E.
  assert (F : fits f = true) by (unfold fits, busy; rewrite app_length; change (length (lit ".busy")) with 5%nat; lia). rewrite F. cbn [negb].
  destruct (argd ds ARG_LOCK); [reflexivity|]. destruct (argd ds ARG_UNLOCK); reflexivity.
Qed.

Theorem C58_one : forall atoi ds j a, onlyargs ds [j] -> asks atoi ds j a -> actions atoi ds = [a].
Proof.
  intros atoi ds j a Ho Ha.
  assert (N : forall x, In x actionargs -> x <> j -> given ds x = false).
  { intros x Hx Hj. apply notgiven. apply Ho; [exact Hx|]. intros [H|[]]. congruence. }
  pose proof (asks_given _ _ _ _ Ha) as G.
  destruct Ha as [H|f H|d H|H|b H|f H|f H|b n H H1 H2|b n m H H1 H2 Hm|j n Hj H|b H].
  10: cbn [In] in Hj; destruct Hj as [<-|[<-|[<-|[<-|[<-|[]]]]]].
  all: try (goact N; rewrite ?(theword _ _ _ H); reflexivity).
  - pose proof (isgiven _ _ _ H1) as G1. pose proof (notgiven _ _ H2) as G2. goact N. rewrite (theword _ _ _ H), (theword _ _ _ H1). reflexivity.
  - pose proof (isgiven _ _ _ H1) as G1. pose proof (isgiven _ _ _ H2) as G2. goact N.
    rewrite (theword _ _ _ H), (theword _ _ _ H1), (theword _ _ _ H2), u32_small by auto. reflexivity.
Qed.
Print Assumptions C58_config.
Print Assumptions C58_one.
Theorem C58_two : forall atoi ds j a, onlyargs ds [ARG_TOSS; j] -> j <> ARG_TOSS -> j <> ARG_TOSSFILE ->
  asks atoi ds ARG_TOSS TossInbound -> asks atoi ds j a -> actions atoi ds = [TossInbound; a].
Proof.
  intros atoi ds j a Ho J1 J2 Ht Ha.
  assert (N0 : forall x, In x actionargs -> x <> j -> x <> ARG_TOSS -> given ds x = false).
  { intros x Hx Hj Hk. apply notgiven. apply Ho; [exact Hx|]. intros [H|[H|[]]]; congruence. }
  pose proof (asks_given _ _ _ _ Ha) as G. pose proof (asks_given _ _ _ _ Ht) as GT.
  assert (N : forall x, In x actionargs -> x <> j -> given ds x = (x =? ARG_TOSS)%nat).
  { intros x Hx Hj. destruct (Nat.eqb_spec x ARG_TOSS) as [->|Hk]; auto. }
  destruct Ha as [H|f H|d H|H|b H|f H|f H|b n H H1 H2|b n m H H1 H2 Hm|j n Hj H|b H]; try congruence.
  8: cbn [In] in Hj; destruct Hj as [<-|[<-|[<-|[<-|[<-|[]]]]]].
  all: try (goact N; cbn; rewrite ?(theword _ _ _ H); reflexivity).
  - pose proof (isgiven _ _ _ H1) as G1. pose proof (notgiven _ _ H2) as G2. goact N. cbn. rewrite (theword _ _ _ H), (theword _ _ _ H1). reflexivity.
  - pose proof (isgiven _ _ _ H1) as G1. pose proof (isgiven _ _ _ H2) as G2. goact N. cbn.
    rewrite (theword _ _ _ H), (theword _ _ _ H1), (theword _ _ _ H2), u32_small by auto. reflexivity.
Qed.
Print Assumptions C58_two.

(** ** What is not so *)
Definition go : inp := INP false false true true [] false.
Definition sees (l : list Z) : inp := INP false false true true l false.
Definition dies : inp := INP true false true true [] false.
(** runs of "crashmail TOSS" *)
Definition w2 : world := W (FILES (fun _ => false) (fun _ => [])) (fun _ => PNew None [lit "TOSS"]).
Lemma w2_start : start w2.
Proof.
  split; [reflexivity|]. intros k ds H. cbn [w2 w_runs] in *.
  assert (E : parseargs args_crashmail [lit "TOSS"] = Some (setd 1 VTrue (repeat None 21))) by (vm_compute; reflexivity).
  rewrite E in H. injection H as <-. vm_compute. repeat constructor.
Qed.

(** Two runs that look for the lock file at the same time both find none and both go to
    work. *)
Theorem C58_race_refuted : ~ (forall w0 sched, start w0 ->
  forall f n m, working f (w_runs (wrun w0 sched) n) -> working f (w_runs (wrun w0 sched) m) -> n = m).
Proof.
  intros H. specialize (H w2 [(0%nat, go); (1%nat, go); (0%nat, go); (1%nat, go); (0%nat, go); (1%nat, go)] w2_start CONFIG_NAME 0%nat 1%nat).
  assert (0%nat = 1%nat) by (apply H; vm_compute; reflexivity). discriminate.
Qed.
Print Assumptions C58_race_refuted.

(** A run removes its lock file before it writes the duplicate database. If the next run reads
    it in between, what the first run saw is lost, without any race for the lock file. *)
Definition sched2 : list (nat * inp) :=
  [(0%nat, go); (0%nat, go); (0%nat, go); (0%nat, go); (0%nat, sees [7]); (0%nat, go);     (* the first run has removed its lock file *)
   (1%nat, go); (1%nat, go); (1%nat, go); (1%nat, go);                                      (* the second one has read the database *)
   (0%nat, go); (1%nat, sees [8]); (1%nat, go); (1%nat, go)].
Lemma sched2_calm : steps calm w2 sched2.
Proof.
  unfold sched2. repeat (split; [vm_compute; try exact I; intros [|[|n]] ?; vm_compute; try tauto; try congruence|]). exact I.
Qed.
Theorem C58_dupes_refuted : exists sched, steps calm w2 sched /\
  w_runs (wrun w2 sched) 0%nat = PDone 0 /\ w_runs (wrun w2 sched) 1%nat = PDone 0 /\
  In (0%nat, sees [7]) sched /\ f_ids (w_files (wrun w2 sched)) CONFIG_NAME = [8].
Proof.
  exists sched2. split; [exact sched2_calm|]. split; [vm_compute; reflexivity|]. split; [vm_compute; reflexivity|]. split; [|vm_compute; reflexivity].
  unfold sched2. cbn. tauto.
Qed.
Print Assumptions C58_dupes_refuted.

(** A run that is killed leaves its lock file, and no other run on that configuration gets
    to work until someone says UNLOCK. *)
Theorem C58_stale_refuted : ~ (forall sched, steps calm w2 sched -> (forall k, w_runs (wrun w2 sched) k = PKilled \/ w_runs (wrun w2 sched) k = w_runs w2 k) ->
  forall n, f_locks (w_files (wrun w2 sched)) n = false).
Proof.
  intros H. specialize (H [(0%nat, go); (0%nat, go); (0%nat, go); (0%nat, dies)]).
  assert (f_locks (w_files (wrun w2 [(0%nat, go); (0%nat, go); (0%nat, go); (0%nat, dies)])) (busy CONFIG_NAME) = false).
  { apply H.
    - repeat (split; [vm_compute; try exact I; intros [|[|n]] ?; vm_compute; try tauto; try congruence|]). exact I.
    - intros [|k]; [left; vm_compute; reflexivity|right; reflexivity]. }
  vm_compute in H0. discriminate.
Qed.
Print Assumptions C58_stale_refuted.

(** If the name of the configuration file has 100 characters or more, the lock file is never
    removed: not even by a run that ends well. *)
Definition longname : list Z := repeat 97 100.
Definition wlong : world := W (FILES (fun _ => false) (fun _ => [])) (fun _ => PNew (Some longname) [lit "TOSS"]).
Theorem C58_long_refuted : exists sched, steps calm wlong sched /\ steps unkilled wlong sched /\
  w_runs (wrun wlong sched) 0%nat = PDone 0 /\ f_locks (w_files (wrun wlong sched)) (busy longname) = true.
Proof.
  exists [(0%nat, go); (0%nat, go); (0%nat, go); (0%nat, go); (0%nat, go); (0%nat, go); (0%nat, go)].
  split; [|split; [cbn; unfold unkilled; cbn; tauto|split; vm_compute; reflexivity]].
  repeat (split; [vm_compute; try exact I; intros [|[|n]] ?; vm_compute; try tauto; try congruence|]). exact I.
Qed.
Print Assumptions C58_long_refuted.

(** Of two things asked for, other than with TOSS, the second in a fixed order is not done,
    and nobody is told. *)
Theorem C58_ignored_refuted : exists argv ds, parseargs args_crashmail argv = Some ds /\
  (forall ati, asks ati ds ARG_SENDLIST (SendList ARG_SENDLIST (lit "2:201/137"))) /\ (forall ati, actions ati ds = [ScanAll]).
Proof.
  exists [lit "SCAN"; lit "SENDLIST"; lit "2:201/137"], (setd 11 (VWord (lit "2:201/137")) (setd 0 VTrue (repeat None 21))).
  split; [vm_compute; reflexivity|]. split; [|intros; vm_compute; reflexivity].
  intros ati. apply ask_send; [inl|vm_compute; reflexivity].
Qed.
Print Assumptions C58_ignored_refuted.

(** A case: two runs, the second one waits until the first has ended; then LOCK, and a third
    run does not get in. *)
Definition w3 : world := W (FILES (fun _ => false) (fun _ => [5])) (fun k => PNew None [if (k =? 2)%nat then lit "LOCK" else lit "TOSS"]).
Definition sched3 : list (nat * inp) :=
  [(0%nat, go); (0%nat, go); (0%nat, go); (1%nat, go); (1%nat, go); (0%nat, go); (1%nat, go); (0%nat, sees [7]); (0%nat, go); (0%nat, go);
   (1%nat, go); (1%nat, go); (1%nat, go); (2%nat, go); (2%nat, go); (1%nat, sees [8; 7]); (1%nat, go); (1%nat, go); (2%nat, go); (2%nat, go);
   (3%nat, go); (3%nat, go)].
Example C58_nonvacuous :
  start w3 /\ steps calmer w3 sched3 /\
  w_runs (wrun w3 sched3) 0%nat = PDone 0 /\ w_runs (wrun w3 sched3) 1%nat = PDone 0 /\ w_runs (wrun w3 sched3) 2%nat = PDone 0 /\
  w_runs (wrun w3 sched3) 3%nat = PCheck CONFIG_NAME false /\
  f_ids (w_files (wrun w3 sched3)) CONFIG_NAME = [5; 7; 8] /\ f_locks (w_files (wrun w3 sched3)) (lit "crashmail.prefs.busy") = true /\
  working CONFIG_NAME (w_runs (wrun w3 (firstn 4 sched3)) 0%nat) /\
  (forall ati, actions ati (setd 0 VTrue (setd 1 VTrue (repeat None 21))) = [TossInbound; ScanAll]) /\
  configured (Some (lit "b.prefs")) (setd ARG_SETTINGS (VWord (lit "a.prefs")) (repeat None 21)) (lit "a.prefs") /\
  configured (Some (lit "b.prefs")) (repeat None 21) (lit "b.prefs").
Proof.
  split; [|split; [|repeat split; try (vm_compute; reflexivity); [apply conf_settings|apply conf_env]; vm_compute; reflexivity]].
  - split; [reflexivity|]. intros k ds H. cbn [w3 w_runs] in *.
    assert (E : cfgname None ds = CONFIG_NAME).
    { destruct (k =? 2)%nat.
      - assert (E : parseargs args_crashmail [lit "LOCK"] = Some (setd 18 VTrue (repeat None 21))) by (vm_compute; reflexivity). rewrite E in H. injection H as <-. reflexivity.
      - assert (E : parseargs args_crashmail [lit "TOSS"] = Some (setd 1 VTrue (repeat None 21))) by (vm_compute; reflexivity). rewrite E in H. injection H as <-. reflexivity. }
    rewrite E. vm_compute. repeat constructor.
  - unfold sched3. repeat (split; [vm_compute; split; try exact I; intros [|[|[|[|n]]]]; vm_compute; try tauto; try congruence|]). exact I.
Qed.
