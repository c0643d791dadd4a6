(** Lemmas on command lines. *)
From Verif Require Import Base M_Str M_Args S_Args.

Lemma streqi_spec a b : streqi a b = true <-> map tolower a = map tolower b.
Proof. unfold streqi. apply streq_eq. Qed.

Lemma keyfind_names tbl kw : forall j t, distinct tbl -> names tbl j kw t -> keyfind tbl kw = Some j /\ typeof tbl j = t.
Proof.
  assert (HX : forall tbl j t, (forall i k a b n m, nth_error tbl i = Some a -> nth_error tbl k = Some b -> a_name a = Some n -> a_name b = Some m ->
    map tolower n = map tolower m -> i = k) -> names tbl j kw t -> keyfind tbl kw = Some j).
  { clear tbl. induction tbl as [|a tbl IH]; intros j t Hd (x & n & Hj & Ht & Hn & Hk); [destruct j; discriminate|]. cbn [keyfind].
    destruct (match a_name a with Some n0 => streqi kw n0 | None => false end) eqn:E.
    - destruct (a_name a) as [m|] eqn:Ea; [|discriminate]. apply streqi_spec in E.
      f_equal. apply (Hd O j a x m n); auto. congruence.
    - destruct j as [|j].
      + cbn in Hj. injection Hj as ->. rewrite Hn in E. rewrite (proj2 (streqi_spec kw n) Hk) in E. discriminate.
      + rewrite (IH j t); [reflexivity| |exists x, n; auto].
        intros i k a0 b n0 m H1 H2 H3 H4 H5. assert (S i = S k) by (apply (Hd (S i) (S k) a0 b n0 m); auto). lia. }
  intros j t Hd Hn. split; [eapply HX; eauto|]. destruct Hn as (x & n & Hj & Ht & _). unfold typeof. rewrite Hj. auto.
Qed.
Lemma keyfind_free tbl w : (forall a n, In a tbl -> a_name a = Some n -> map tolower w <> map tolower n) <-> keyfind tbl w = None.
Proof.
  induction tbl as [|a tbl IH]; cbn [keyfind].
  - split; [auto|intros _ a n []].
  - destruct (match a_name a with Some n => streqi w n | None => false end) eqn:E.
    + split; [|discriminate]. intros H. destruct (a_name a) as [n|] eqn:Ea; [|discriminate]. apply streqi_spec in E.
      exfalso. apply (H a n); cbn; auto.
    + destruct (keyfind tbl w); cbn.
      * split; [|discriminate]. intros H. exfalso. assert (Some n = None) by (apply IH; intros b m Hb; apply H; cbn; auto). discriminate.
      * split; auto. intros _ b m [->|Hb] Hm.
        { rewrite Hm in E. intros Hw. apply streqi_spec in Hw. congruence. }
        { apply (proj2 IH eq_refl b m); auto. }
Qed.
Lemma keyfind_some tbl w : forall j, keyfind tbl w = Some j -> names tbl j w (typeof tbl j).
Proof.
  induction tbl as [|a tbl IH]; intros j; cbn [keyfind]; [discriminate|].
  destruct (match a_name a with Some n => streqi w n | None => false end) eqn:E.
  - intros H; injection H as <-. destruct (a_name a) as [n|] eqn:Ea; [|discriminate]. apply streqi_spec in E. exists a, n. cbn. auto.
  - destruct (keyfind tbl w) as [k|]; cbn; [|discriminate]. intros H; injection H as <-.
    destruct (IH k eq_refl) as (x & n & R). exists x, n. exact R.
Qed.

(** ** One more item *)
Lemma meaning_key tbl nm nm' k v fs : forall j, (forall i, i <> k -> nm' i = nm i) -> nm' k = Some v -> nm k = None ->
  (j <= k)%nat -> (k < j + length tbl)%nat ->
  fs = [] \/ (forall a, nth_error tbl (k - j) = Some a -> needsnokey a = false) ->
  meaning tbl j nm' fs = setd (k - j) v (meaning tbl j nm fs).
Proof.
  revert fs. induction tbl as [|a tbl IH]; intros fs j Ho Hk Hn Hj Hl Hf; cbn [length] in Hl; [lia|]. cbn [meaning].
  destruct (Nat.eq_dec j k) as [->|Hne].
  - rewrite Hk, Hn, Nat.sub_diag.
    assert (Hm : forall fs j, (k < j)%nat -> meaning tbl j nm' fs = meaning tbl j nm fs).
    { clear -Ho. induction tbl as [|a tbl IH]; intros fs j Hj; cbn; auto. rewrite Ho by lia. destruct (nm j), (needsnokey a), fs; rewrite ?IH by lia; auto. }
    destruct Hf as [->|Hf].
    + destruct (needsnokey a); cbn [setd]; rewrite Hm by lia; reflexivity.
    + rewrite (Hf a) by (rewrite Nat.sub_diag; reflexivity). cbn [setd]. rewrite Hm by lia. reflexivity.
  - rewrite (Ho j) by auto. replace (k - j)%nat with (S (k - S j)) in * by lia. cbn [nth_error] in Hf.
    destruct (nm j) eqn:Ej; [cbn [setd]; f_equal; apply IH; auto; lia|].
    destruct (needsnokey a), fs as [|w fs]; cbn [setd]; f_equal; try (apply IH; auto; try lia).
    destruct Hf as [Hf|Hf]; [discriminate|auto].
Qed.

Lemma meaning_free tbl nm w : forall j fs,
  match autofind tbl (meaning tbl j nm fs) with
  | Some k => setd k (VWord w) (meaning tbl j nm fs) = meaning tbl j nm (fs ++ [w]) /\ (length fs < room tbl j nm)%nat
  | None => (room tbl j nm <= length fs)%nat
  end.
Proof.
  induction tbl as [|a tbl IH]; intros j fs; cbn [autofind meaning room]; [lia|].
  destruct (nm j) as [v|] eqn:Ej.
  - rewrite andb_false_r. specialize (IH (S j) fs). destruct (autofind tbl (meaning tbl (S j) nm fs)); cbn [option_map]; [|lia].
    destruct IH as [E R]. cbn [setd]. rewrite E. split; auto; lia.
  - fold (needsnokey a). destruct (needsnokey a) eqn:Ea.
    + destruct fs as [|w' fs].
      * cbn [andb]. cbn [setd app length]. split; [reflexivity|lia].
      * cbn [andb]. specialize (IH (S j) fs). destruct (autofind tbl (meaning tbl (S j) nm fs)); cbn [option_map length]; [|lia].
        destruct IH as [E R]. cbn [setd app]. rewrite E. split; auto; lia.
    + cbn [andb]. specialize (IH (S j) fs). destruct fs as [|w' fs].
      * destruct (autofind tbl (meaning tbl (S j) nm [])); cbn [option_map length] in *; [|lia].
        destruct IH as [E R]. cbn [setd]. rewrite E. cbn [app]. split; auto; lia.
      * destruct (autofind tbl (meaning tbl (S j) nm (w' :: fs))); cbn [option_map length] in *; [|lia].
        destruct IH as [E R]. cbn [setd]. rewrite E. cbn [app]. split; auto; lia.
Qed.

Lemma named_app A B j : named (A ++ B) j = match named A j with Some v => Some v | None => named B j end.
Proof. induction A as [|[k kw v|k kw|w] A IH]; cbn; auto; destruct (j =? k)%nat; auto. Qed.
Lemma free_app A B : free (A ++ B) = free A ++ free B.
Proof. induction A as [|[k kw v|k kw|w] A IH]; cbn; auto. rewrite IH. reflexivity. Qed.
Definition slots (its : list item) := concat (map (fun it => match slot it with Some j => [j] | None => [] end) its).
Lemma slots_app A B : slots (A ++ B) = slots A ++ slots B.
Proof. unfold slots. rewrite map_app, concat_app. reflexivity. Qed.
Lemma named_none its j : ~ In j (slots its) -> named its j = None.
Proof.
  induction its as [|[k kw v|k kw|w] its IH]; cbn; intros H; auto; destruct (Nat.eqb_spec j k); subst; tauto.
Qed.
Lemma meaning_ext tbl nm nm' : (forall i, nm i = nm' i) -> forall fs j, meaning tbl j nm fs = meaning tbl j nm' fs.
Proof. intros H. induction tbl as [|a tbl IH]; intros fs j; cbn; auto. rewrite H. destruct (nm' j), (needsnokey a), fs; rewrite ?IH; auto. Qed.
(** arguments that need a keyword take no room *)
Lemma room_ext tbl nm nm' : forall j, (forall i a, nth_error tbl i = Some a -> needsnokey a = true -> (nm (j + i)%nat = None <-> nm' (j + i)%nat = None)) ->
  room tbl j nm = room tbl j nm'.
Proof.
  induction tbl as [|a tbl IH]; intros j H; cbn; auto. rewrite (IH (S j)).
  - specialize (H O a eq_refl). rewrite Nat.add_0_r in H. destruct (needsnokey a); [|destruct (nm j), (nm' j); reflexivity].
    specialize (H eq_refl). destruct (nm j), (nm' j); try reflexivity; destruct H as [H1 H2]; [specialize (H2 eq_refl)|specialize (H1 eq_refl)]; discriminate.
  - intros i b Hi Hb. specialize (H (S i) b Hi Hb). replace (S j + i)%nat with (j + S i)%nat by lia. exact H.
Qed.

(** ** The loop *)
Lemma argloop_items tbl : distinct tbl -> forall rest pre, Forall (item_ok tbl) rest -> NoDup (slots (pre ++ rest)) ->
  (forall p it q j a, rest = p ++ it :: q -> slot it = Some j -> nth_error tbl j = Some a -> free (pre ++ p) = [] \/ needsnokey a = false) ->
  argloop tbl (meaning tbl 0 (named pre) (free pre)) (line rest) =
    if (length (free (pre ++ rest)) <=? Nat.max (length (free pre)) (room tbl 0 (named (pre ++ rest))))%nat
    then Some (meaning tbl 0 (named (pre ++ rest)) (free (pre ++ rest))) else None.
Proof.
  intros Hd. induction rest as [|it rest IH]; intros pre Hok Hnd Hord.
  - rewrite app_nil_r. cbn [line map concat argloop].
    destruct (Nat.leb_spec (length (free pre)) (Nat.max (length (free pre)) (room tbl 0 (named pre)))); [reflexivity|lia].
  - inversion Hok as [|? ? Hit Hrest]; subst.
    assert (E : pre ++ it :: rest = (pre ++ [it]) ++ rest) by (rewrite <- app_assoc; reflexivity).
    assert (Hnd' : NoDup (slots ((pre ++ [it]) ++ rest))) by (rewrite <- E; auto).
    assert (Hord' : forall p x q j a, rest = p ++ x :: q -> slot x = Some j -> nth_error tbl j = Some a -> free ((pre ++ [it]) ++ p) = [] \/ needsnokey a = false).
    { intros p x q j a -> Hx Ha. rewrite <- app_assoc. apply (Hord (it :: p) x q j a); auto. }
    specialize (IH (pre ++ [it]) Hrest Hnd' Hord'). rewrite <- E in IH.
    assert (Hkeyed : forall j v, slot it = Some j -> (forall i, named [it] i = if (i =? j)%nat then Some v else None) ->
      (exists a, nth_error tbl j = Some a) ->
      meaning tbl 0 (named (pre ++ [it])) (free (pre ++ [it])) = setd j v (meaning tbl 0 (named pre) (free pre))).
    { intros j v Hs Hv (a & Ha). assert (Hfree : free (pre ++ [it]) = free pre) by (rewrite free_app; destruct it; [cbn; apply app_nil_r|cbn; apply app_nil_r|discriminate]).
      assert (Hnone : named pre j = None).
      { apply named_none. intros Hin. rewrite slots_app in Hnd. cbn [slots map concat] in Hnd. rewrite Hs in Hnd. cbn [app] in Hnd.
        apply NoDup_remove_2 in Hnd. apply Hnd. apply in_app_iff. auto. }
      rewrite Hfree. pose proof (meaning_key tbl (named pre) (named (pre ++ [it])) j v (free pre) 0) as MK. rewrite Nat.sub_0_r in MK. apply MK.
      - intros i Hi. rewrite named_app, Hv. destruct (named pre i); auto. destruct (Nat.eqb_spec i j); [contradiction|auto].
      - rewrite named_app, Hnone, Hv, Nat.eqb_refl. reflexivity.
      - auto.
      - lia.
      - assert (j < length tbl)%nat by (apply nth_error_Some; congruence). lia.
      - destruct (Hord [] it rest j a eq_refl Hs Ha) as [H|H].
        + left. rewrite app_nil_r in H. auto.
        + right. intros b Hb. congruence. }
    change (line (it :: rest)) with (words it ++ line rest).
    destruct it as [j kw v|j kw|w]; cbn [words app argloop].
    + destruct (keyfind_names tbl kw j _ Hd Hit) as [Hf Ht]. rewrite Hf, Ht.
      rewrite <- (Hkeyed j (VWord v)); [| reflexivity | intros i; reflexivity | destruct Hit as (a & n & Ha & _); eauto].
      rewrite IH. rewrite (free_app pre [_]). cbn [free]. rewrite app_nil_r. reflexivity.
    + destruct (keyfind_names tbl kw j _ Hd Hit) as [Hf Ht]. rewrite Hf, Ht.
      rewrite <- (Hkeyed j VTrue); [| reflexivity | intros i; reflexivity | destruct Hit as (a & n & Ha & _); eauto].
      rewrite IH. rewrite (free_app pre [_]). cbn [free]. rewrite app_nil_r. reflexivity.
    + cbn in Hit. rewrite (proj1 (keyfind_free tbl w) Hit).
      pose proof (meaning_free tbl (named pre) w 0 (free pre)) as MF.
      assert (Hroom : room tbl 0 (named (pre ++ IFree w :: rest)) = room tbl 0 (named pre)).
      { apply room_ext. intros i a Ha Hn. rewrite Nat.add_0_l, named_app. cbn [named]. destruct (named pre i) eqn:Ei; [split; discriminate|].
        rewrite named_none; [tauto|]. intros Hin. unfold slots in Hin. apply in_concat in Hin as (l & Hl & Hi).
        apply in_map_iff in Hl as (x & <- & Hx). destruct (slot x) as [k|] eqn:Ex; [|destruct Hi]. destruct Hi as [->|[]].
        apply in_split in Hx as (p & q & ->).
        destruct (Hord (IFree w :: p) x q i a eq_refl Ex Ha) as [H|H]; [|congruence].
        rewrite free_app in H. cbn [free] in H. destruct (free pre); discriminate. }
      destruct (autofind tbl (meaning tbl 0 (named pre) (free pre))) as [k|].
      * destruct MF as [ME MR]. rewrite ME.
        assert (EM : meaning tbl 0 (named pre) (free pre ++ [w]) = meaning tbl 0 (named (pre ++ [IFree w])) (free (pre ++ [IFree w]))).
        { rewrite free_app. cbn [free]. apply meaning_ext. intros i. rewrite named_app. cbn [named]. destruct (named pre i); auto. }
        rewrite EM, IH. rewrite (free_app pre [IFree w]), app_length. cbn [free length].
        rewrite Hroom. replace (Nat.max (length (free pre) + 1) (room tbl 0 (named pre))) with (Nat.max (length (free pre)) (room tbl 0 (named pre))) by lia.
        reflexivity.
      * rewrite Hroom. rewrite free_app. cbn [free]. rewrite app_length. cbn [length].
        destruct (Nat.leb_spec (length (free pre) + S (length (free rest))) (Nat.max (length (free pre)) (room tbl 0 (named pre)))); [lia|reflexivity].
Qed.

Lemma meaning_nil tbl nm : (forall i, nm i = None) -> forall j, meaning tbl j nm [] = repeat None (length tbl).
Proof. intros H. induction tbl as [|a tbl IH]; intros j; cbn; auto. rewrite H, IH. destruct (needsnokey a); reflexivity. Qed.

Lemma mandatory_spec tbl : forall ds, length ds = length tbl -> mandatory tbl ds = true <->
  forall j a, nth_error tbl j = Some a -> a_mand a = true -> nth_error ds j <> Some None.
Proof.
  induction tbl as [|a tbl IH]; intros [|d ds] Hl; cbn [length] in Hl; try discriminate; cbn [mandatory].
  - split; auto. intros _ j a Hj. destruct j; discriminate.
  - rewrite andb_true_iff, (IH ds) by lia. split.
    + intros [H1 H2] [|j] b Hb Hm; cbn in *; [|eapply H2; eauto]. injection Hb as <-. rewrite Hm in H1. destruct d; cbn in H1; congruence.
    + intros H. split.
      * specialize (H O a eq_refl). destruct (a_mand a); cbn; auto. specialize (H eq_refl). destruct d; cbn in *; congruence.
      * intros j b Hb Hm. apply (H (S j) b Hb Hm).
Qed.
Lemma meaning_length tbl nm : forall fs j, length (meaning tbl j nm fs) = length tbl.
Proof. induction tbl as [|a tbl IH]; intros fs j; cbn; auto. destruct (nm j), (needsnokey a), fs; cbn; rewrite IH; auto. Qed.

(** an accepted line consists of items *)
Lemma argloop_reads tbl : forall n ws ds ds', (length ws <= n)%nat -> argloop tbl ds ws = Some ds' ->
  exists its, line its = ws /\ Forall (item_ok tbl) its.
Proof.
  induction n as [|n IH]; intros ws ds ds' Hn H.
  - destruct ws; cbn in Hn; [|lia]. exists []. auto.
  - destruct ws as [|w ws]; [exists []; auto|]. cbn [argloop length] in H, Hn.
    destruct (keyfind tbl w) as [j|] eqn:E.
    + pose proof (keyfind_some tbl w j E) as Hnm. destruct (typeof tbl j).
      * destruct ws as [|v ws]; [discriminate|]. cbn in Hn. destruct (IH ws _ ds' ltac:(lia) H) as (its & <- & Hi).
        exists (IKey j w v :: its). auto.
      * destruct (IH ws _ ds' ltac:(lia) H) as (its & <- & Hi). exists (ISwitch j w :: its). auto.
    + destruct (autofind tbl ds); [|discriminate]. destruct (IH ws _ ds' ltac:(lia) H) as (its & <- & Hi).
      exists (IFree w :: its). split; auto. constructor; auto. cbn. apply keyfind_free. auto.
Qed.
