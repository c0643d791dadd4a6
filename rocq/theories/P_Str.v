(** Proofs about strings and buffers. *)
From Verif Require Import Base M_Str S_Str.

Lemma upd_length b i c : length (upd b i c) = length b.
Proof. revert i; induction b; destruct i; simpl; auto. Qed.
Lemma upd_nth b i c j : (i < length b)%nat ->
  nth j (upd b i c) 0 = if Nat.eqb i j then c else nth j b 0.
Proof.
  revert i j; induction b as [|x b IH]; intros i j H; simpl in *; [lia|].
  destruct i; destruct j; simpl; auto. apply IH. lia.
Qed.
Lemma upd_split b i c : (i < length b)%nat -> upd b i c = firstn i b ++ c :: skipn (S i) b.
Proof.
  revert i; induction b as [|x b IH]; intros i H; simpl in *; [lia|].
  destruct i; simpl; auto. f_equal. apply IH. lia.
Qed.
Lemma wr_ok b i c : (i < length b)%nat -> wr (Some b) i c = Some (upd b i c).
Proof. intros H. unfold wr. destruct (Nat.ltb_spec i (length b)); [reflexivity|lia]. Qed.

Lemma wrs_none i l : wrs None i l = None.
Proof. revert i; induction l; simpl; auto. Qed.
Lemma wrs_ok b i l : (i + length l <= length b)%nat ->
  wrs (Some b) i l = Some (firstn i b ++ l ++ skipn (i + length l) b).
Proof.
  revert b i; induction l as [|c l IH]; intros b i H; cbn [wrs length] in *.
  - rewrite Nat.add_0_r. simpl. rewrite firstn_skipn. reflexivity.
  - rewrite wr_ok by lia. rewrite IH by (rewrite upd_length; lia).
    f_equal. rewrite upd_split by lia.
    assert (Hl : length (firstn i b) = i) by (rewrite firstn_length; lia).
    assert (H1 : firstn (S i) (firstn i b ++ c :: skipn (S i) b) = firstn i b ++ [c]).
    { rewrite firstn_app, Hl. replace (S i - i)%nat with 1%nat by lia.
      rewrite firstn_firstn. replace (Nat.min (S i) i) with i by lia. reflexivity. }
    rewrite H1. rewrite <- app_assoc. cbn [app]. do 3 f_equal.
    change (S i + length l)%nat with (S (i + length l)).
    rewrite skipn_app, Hl.
    rewrite (skipn_all2 (firstn i b)) by (rewrite Hl; lia).
    replace (S (i + length l) - i)%nat with (S (length l)) by lia.
    rewrite skipn_cons. cbn [app]. rewrite skipn_skipn. f_equal. lia.
Qed.
Lemma wrs_overflow b i l : (length b < i + length l)%nat -> l <> [] -> wrs (Some b) i l = None.
Proof.
  revert b i; induction l as [|c l IH]; intros b i H Hn; [congruence|]. cbn [wrs length] in *.
  unfold wr. destruct (Nat.ltb_spec i (length b)); [|apply wrs_none].
  destruct l as [|c' l]; [simpl in H; lia|].
  apply IH; [rewrite upd_length; simpl in *; lia|discriminate].
Qed.

Lemma cstr_app_nul s r : cstring s -> cstr (s ++ 0 :: r) = s.
Proof.
  intros H; induction H as [|c s Hc Hs IH]; simpl; auto.
  destruct (Z.eqb_spec c 0); [lia|]. f_equal; auto.
Qed.
Lemma cstring_app a b : cstring (a ++ b) <-> cstring a /\ cstring b.
Proof. unfold cstring. apply Forall_app. Qed.
Lemma cstring_firstn n s : cstring s -> cstring (firstn n s).
Proof.
  intros H. rewrite <- (firstn_skipn n s) in H. apply cstring_app in H. tauto.
Qed.
Lemma cstr_cstring b : Forall is_u8 b -> cstring (cstr b).
Proof.
  induction 1 as [|c b Hc Hb IH]; simpl; [constructor|].
  destruct (Z.eqb_spec c 0); constructor; auto. unfold is_u8 in Hc. lia.
Qed.

(** ** The emit loop *)
Lemma emit_fold n t b d : length b = n -> (1 <= n)%nat -> (d <= n - 1)%nat ->
  exists b', fold_left (emit n) t (Some b, d) = (Some b', Nat.min (n - 1) (d + length t)) /\
    length b' = n /\
    firstn (Nat.min (n - 1) (d + length t)) b' = firstn (n - 1) (firstn d b ++ t).
Proof.
  revert b d; induction t as [|c t IH]; intros b d Hb Hn Hd; cbn [fold_left length].
  - exists b. rewrite Nat.add_0_r, app_nil_r. replace (Nat.min (n - 1) d) with d by lia.
    repeat split; auto. rewrite firstn_firstn. f_equal. lia.
  - unfold emit at 2. destruct (Nat.ltb_spec d (n - 1)) as [H|H].
    + rewrite wr_ok by lia.
      destruct (IH (upd b d c) (S d)) as (b' & E & Hl & Hf); [rewrite upd_length; auto|auto|lia|].
      exists b'. replace (d + S (length t))%nat with (S d + length t)%nat by lia.
      rewrite E. repeat split; auto. rewrite Hf. f_equal.
      rewrite upd_split by lia.
      assert (Hfl : length (firstn d b) = d) by (rewrite firstn_length; lia).
      rewrite firstn_app, Hfl. replace (S d - d)%nat with 1%nat by lia.
      rewrite firstn_firstn. replace (Nat.min (S d) d) with d by lia. simpl.
      rewrite <- app_assoc. reflexivity.
    + assert (d = n - 1)%nat by lia. subst d.
      destruct (IH b (n - 1)%nat) as (b' & E & Hl & Hf); auto.
      exists b'. rewrite E.
      replace (Nat.min (n - 1) (n - 1 + length t)) with (n - 1)%nat in * by lia.
      replace (Nat.min (n - 1) (n - 1 + S (length t))) with (n - 1)%nat by lia.
      repeat split; auto. rewrite Hf.
      rewrite !firstn_app, firstn_length.
      replace (n - 1 - Nat.min (n - 1) (length b))%nat with 0%nat by lia. reflexivity.
Qed.

Lemma finish n t b : length b = n -> (1 <= n)%nat -> cstring t ->
  exists b', (let '(b1, d) := fold_left (emit n) t (Some b, 0%nat) in wr b1 d 0) = Some b' /\
    holds b' n (firstn (n - 1) t) /\
    snd (fold_left (emit n) t (Some b, 0%nat)) = Nat.min (n - 1) (length t).
Proof.
  intros Hb Hn Ht.
  destruct (emit_fold n t b 0 Hb Hn) as (b' & E & Hl & Hf); [lia|]. simpl in E, Hf.
  rewrite E. rewrite wr_ok by lia. eexists; split; [reflexivity|]. split; [|reflexivity].
  unfold holds. rewrite upd_length. split; [exact Hl|].
  rewrite upd_split by lia. rewrite Hf. split.
  - apply in_or_app. right. left. reflexivity.
  - apply cstr_app_nul. apply cstring_firstn; auto.
Qed.

(** ** Tokens *)
Lemma jbloop_token_gen s1 s2 n (stop : Z -> Prop) :
  (forall c, c <> 0 -> (((c =? s1) || (c =? s2) || (c =? 10)) = true <-> stop c)) ->
  forall m src bd, (length src <= m)%nat -> cstring src -> exists t rest,
    token stop src t rest /\ cstring t /\ (exists p, src = p ++ rest) /\
    jbloop s1 s2 n src bd = (fold_left (emit n) t bd, rest).
Proof.
  intros Hs. induction m as [|m IH]; intros src bd Hm Hc.
  { destruct src; [|simpl in Hm; lia]. exists [], []. repeat split; auto; try constructor.
    exists []; reflexivity. }
  destruct src as [|c r].
  { exists [], []. repeat split; auto; try constructor. exists []; reflexivity. }
  pose proof (Forall_inv Hc) as Hc0. cbv beta in Hc0.
  pose proof (Forall_inv_tail Hc) as Hr. cbn [length] in Hm. cbn [jbloop].
  assert (Hcs := Hs c ltac:(lia)).
  destruct ((c =? s1) || (c =? s2) || (c =? 10)) eqn:E.
  { exists [], (c :: r). split; [apply tok_stop; apply Hcs; auto|]. split; [constructor|].
    split; [exists []; reflexivity|reflexivity]. }
  assert (Hns : ~ stop c) by (intros H; apply Hcs in H; discriminate).
  assert (Hdef : (c = 92 -> r = [] \/ exists r', r = 10 :: r') -> exists t rest,
    token stop (c :: r) t rest /\ cstring t /\ (exists p, c :: r = p ++ rest) /\
    jbloop s1 s2 n r (emit n bd c) = (fold_left (emit n) t bd, rest)).
  { intros Hx. destruct (IH r (emit n bd c)) as (t & rest & Ht & Hct & (p & Hp) & He); [lia|auto|].
    exists (c :: t), rest. split; [apply tok_chr; auto|]. split; [constructor; auto|].
    split; [exists (c :: p); simpl; congruence|exact He]. }
  destruct (Z.eqb_spec c 92) as [E92|E92]; [|apply Hdef; congruence].
  destruct r as [|e r'].
  { destruct Hdef as (t & rest & H1 & H2 & H3 & H4); [auto|].
    exists t, rest. split; [auto|]. split; [auto|]. split; [auto|]. cbn [jbloop] in H4. exact H4. }
  destruct (Z.eqb_spec e 10) as [E10|E10].
  { apply Hdef. intros _. right. exists r'. congruence. }
  pose proof (Forall_inv Hr) as He. pose proof (Forall_inv_tail Hr) as Hr'.
  destruct (IH r' (emit n bd e)) as (t & rest & Ht & Hct & (p & Hp) & He'); [simpl in Hm; lia|auto|].
  exists (e :: t), rest. split; [subst c; apply tok_esc; auto|]. split; [constructor; auto|].
  split; [exists (c :: e :: p); simpl; congruence|exact He'].
Qed.

Lemma skipblank_suffix src : exists p, src = p ++ skipblank src /\ Forall (fun c => c = 32 \/ c = 9) p.
Proof.
  induction src as [|c r (p & E & Hp)]; simpl; [exists []; auto|].
  destruct ((c =? 32) || (c =? 9)) eqn:Ec.
  - exists (c :: p). split; [simpl; congruence|]. constructor; auto. lia.
  - exists []. auto.
Qed.
Lemma cstring_suffix p s : cstring (p ++ s) -> cstring s.
Proof. intros H. apply cstring_app in H. tauto. Qed.
Lemma cstring_skipblank s : cstring s -> cstring (skipblank s).
Proof. intros H. destruct (skipblank_suffix s) as (p & E & _). rewrite E in H. eapply cstring_suffix; eauto. Qed.

Lemma jbstrcpy_spec dest src n : length dest = n -> (1 <= n)%nat -> cstring src ->
  exists b' t rest ret rest',
    jbstrcpy dest src n = (Some b', ret, rest') /\ holds b' n (firstn (n - 1) t) /\
    ((exists body, skipblank src = 34 :: body /\ token stop_quoted body t rest /\ ret = true) \/
     ((forall body, skipblank src <> 34 :: body) /\ token stop_plain (skipblank src) t rest /\
        ret = negb (Nat.eqb (Nat.min (n - 1) (length t)) 0))) /\
    (rest' = rest \/ exists c, rest = c :: rest').
Proof.
  intros Hd Hn Hs. unfold jbstrcpy. pose proof (cstring_skipblank _ Hs) as Hsk.
  set (src1 := skipblank src) in *.
  assert (Hcase : (exists body, src1 = 34 :: body) \/ (forall body, src1 <> 34 :: body)).
  { destruct src1 as [|c r]; [right; discriminate|]. destruct (Z.eq_dec c 34); [left; exists r; congruence|].
    right. intros body H. inversion H; congruence. }
  destruct Hcase as [(body & Eb)|Hnb].
  - rewrite Eb in *. pose proof (Forall_inv_tail Hsk) as Hb.
    destruct (jbloop_token_gen 34 0 n stop_quoted) with (m := length body) (src := body) (bd := (Some dest, 0%nat))
      as (t & rest & Ht & Hct & _ & He); [intros c Hc; unfold stop_quoted; lia|lia|auto|].
    rewrite He. destruct (finish n t dest Hd Hn Hct) as (b' & Hw & Hh & Hsn).
    destruct (fold_left (emit n) t (Some dest, 0%nat)) as [b1 d]. rewrite Hw.
    exists b', t, rest. rewrite orb_true_r. eexists _, _. split; [reflexivity|].
    split; [exact Hh|]. split; [left; exists body; auto|].
    destruct rest as [|c r]; auto. destruct ((c =? 9) || (c =? 32) || (c =? 34)); eauto.
  - assert (Em : match src1 with 34 :: r => (true, r) | _ => (false, src1) end = (false, src1)).
    { destruct src1 as [|c r]; auto. destruct (Z.eq_dec c 34) as [->|Hne]; [exfalso; eapply Hnb; eauto|].
      destruct c as [|p|p]; auto. do 6 (destruct p as [p|p|]; auto). congruence. }
    rewrite Em.
    destruct (jbloop_token_gen 32 9 n stop_plain) with (m := length src1) (src := src1) (bd := (Some dest, 0%nat))
      as (t & rest & Ht & Hct & _ & He); [intros c Hc; unfold stop_plain; lia|lia|auto|].
    rewrite He. destruct (finish n t dest Hd Hn Hct) as (b' & Hw & Hh & Hsn).
    destruct (fold_left (emit n) t (Some dest, 0%nat)) as [b1 d]. rewrite Hw. simpl in Hsn. subst d.
    exists b', t, rest. rewrite orb_false_r. eexists _, _. split; [reflexivity|].
    split; [exact Hh|]. split; [right; auto|].
    destruct rest as [|c r]; auto. destruct ((c =? 9) || (c =? 32) || (c =? 34)); eauto.
Qed.

Lemma token_fun stop src t1 r1 t2 r2 : token stop src t1 r1 -> token stop src t2 r2 -> t1 = t2 /\ r1 = r2.
Proof.
  intros H; revert t2 r2; induction H; intros t2 r2 H2; inversion H2; subst; auto; try tauto.
  all: try (match goal with IH : forall t2 r2, token _ ?r t2 r2 -> _, H : token _ ?r _ _ |- _ :: _ = _ :: _ /\ _ =>
         destruct (IH _ _ H); subst; auto; fail end).
  all: match goal with H : 92 = 92 -> _ |- _ => destruct (H eq_refl) as [Hx|(r' & Hx)]; inversion Hx; congruence end.
Qed.

(** ** jbstrcpyrest *)
Lemma jbrest_spec n src bd : jbrestloop n src bd =
  (fold_left (emit n) (uptoLF src) bd, skipn (length (uptoLF src)) src).
Proof.
  revert bd; induction src as [|c r IH]; intros bd; simpl; auto.
  destruct (c =? 10); simpl; auto.
Qed.
Lemma uptoLF_cstring s : cstring s -> cstring (uptoLF s).
Proof. induction 1; simpl; [constructor|]. destruct (x =? 10); [constructor|]. constructor; auto. Qed.
Lemma jbstrcpyrest_spec dest src n : length dest = n -> (1 <= n)%nat -> cstring src ->
  exists b', jbstrcpyrest dest src n =
    (Some b', negb (Nat.eqb (Nat.min (n - 1) (length (uptoLF (skipblank src)))) 0),
     skipn (length (uptoLF (skipblank src))) (skipblank src)) /\
    holds b' n (firstn (n - 1) (uptoLF (skipblank src))).
Proof.
  intros Hd Hn Hs. unfold jbstrcpyrest. rewrite jbrest_spec.
  destruct (finish n (uptoLF (skipblank src)) dest Hd Hn) as (b' & Hw & Hh & Hsn);
    [apply uptoLF_cstring, cstring_skipblank; auto|].
  destruct (fold_left (emit n) _ (Some dest, 0%nat)) as [b1 d]. rewrite Hw. simpl in Hsn. subst d. eauto.
Qed.

(** ** mystrncpy and MakeFullPath *)
Lemma mystrncpy_body_length (src : list Z) m :
  length (firstn m src ++ repeat 0 (m - length src) ++ [0]) = S m.
Proof. rewrite !app_length, firstn_length, repeat_length. simpl. lia. Qed.

Lemma mystrncpy_ok b off src len : (1 <= len)%nat -> (off + len <= length b)%nat ->
  exists b', mystrncpy (Some b) off src len = Some b' /\ length b' = length b /\
    b' = firstn off b ++ firstn (len - 1) src ++ repeat 0 (len - 1 - length src) ++ [0] ++ skipn (off + len) b.
Proof.
  intros Hl Hb. destruct len as [|m]; [lia|]. cbn [mystrncpy].
  rewrite wrs_ok by (rewrite mystrncpy_body_length; lia).
  eexists; split; [reflexivity|]. rewrite mystrncpy_body_length.
  replace (S m - 1)%nat with m by lia. split.
  - rewrite !app_length, firstn_length, skipn_length, repeat_length, firstn_length. simpl. lia.
  - rewrite <- !app_assoc. reflexivity.
Qed.

Lemma repeat_cons_app m : repeat 0 m ++ [0] = 0 :: repeat 0 m.
Proof. induction m; simpl; auto. f_equal. exact IHm. Qed.

Lemma mystrncpy_full b src len : length b = len -> (1 <= len)%nat -> cstring src ->
  exists b', mystrncpy (Some b) 0 src len = Some b' /\ holds b' len (firstn (len - 1) src) /\
    b' = firstn (len - 1) src ++ repeat 0 (len - length (firstn (len - 1) src)).
Proof.
  intros Hb Hl Hs. destruct (mystrncpy_ok b 0 src len Hl) as (b' & E & Hlen & Hval); [lia|].
  exists b'. split; [exact E|]. simpl in Hval. rewrite (skipn_all2 b) in Hval by lia.
  assert (Hz : repeat 0 (len - 1 - length src) ++ 0 :: [] = repeat 0 (len - length (firstn (len - 1) src))).
  { rewrite repeat_cons_app. change (0 :: repeat 0 ?k) with (repeat 0 (S k)).
    change (0 :: repeat 0 (len - 1 - length src)) with (repeat 0 (S (len - 1 - length src))).
    f_equal. rewrite firstn_length. lia. }
  rewrite Hz in Hval. split; [|exact Hval].
  unfold holds. split; [lia|].
  assert (Hpos : exists k, (len - length (firstn (len - 1) src))%nat = S k).
  { exists (len - length (firstn (len - 1) src) - 1)%nat. rewrite firstn_length. lia. }
  destruct Hpos as (k & Hk). rewrite Hk in Hval. simpl in Hval. rewrite Hval. split.
  - apply in_or_app; right; left; reflexivity.
  - apply cstr_app_nul, cstring_firstn, Hs.
Qed.

Lemma nth_last (l : list Z) x r : rev l = x :: r -> forall t, nth (length l - 1) (l ++ t) 0 = x.
Proof.
  intros H t. assert (E : l = rev r ++ [x]) by (rewrite <- (rev_involutive l), H; reflexivity).
  rewrite E, app_length. simpl. rewrite app_nth1 by (rewrite app_length; simpl; lia).
  rewrite app_nth2 by lia. replace (length (rev r) + 1 - 1 - length (rev r))%nat with 0%nat by lia. reflexivity.
Qed.

Lemma skipn_repeat (k m : nat) : skipn k (repeat 0 m) = repeat 0 (m - k).
Proof. revert m; induction k as [|k IH]; intros m; [rewrite Nat.sub_0_r; reflexivity|]. destruct m; simpl; auto. Qed.

Lemma MakeFullPath_cut path file dest n : length dest = n -> (1 <= n)%nat -> cstring path -> cstring file ->
  exists b' t, MakeFullPath path file dest n = Some b' /\ holds b' n t /\
    (((length (joinpath path file) + 2 <= n)%nat -> t = joinpath path file) /\
    (exists k, t = firstn k (joinpath path file))) /\ ((length path + 3 <= n)%nat -> t = firstn (n - 2) (joinpath path file)).
Proof.
  intros Hd Hn Hp Hf. unfold MakeFullPath.
  destruct (mystrncpy_full dest path n Hd Hn Hp) as (b & E & (Hbl & Hb0 & Hbc) & Hbv). rewrite E.
  rewrite Hbc. set (p := firstn (n - 1) path) in *.
  assert (Hpl : (length p <= n - 1)%nat) by (unfold p; rewrite firstn_length; lia).
  assert (Hpc : cstring p) by (apply cstring_firstn; auto).
  assert (Hgo : forall b d q, length b = n -> b = q ++ repeat 0 (n - d) -> length q = d -> (d <= n - 1)%nat -> cstring q ->
     exists b' , (if Nat.ltb 0 (n - d - 1) then mystrncpy (Some b) d file (n - d - 1) else Some b) = Some b' /\
       holds b' n (q ++ firstn (n - d - 2) file)).
  { intros b1 d q Hl1 Hv1 Hq Hd1 Hqc. destruct (Nat.ltb_spec 0 (n - d - 1)) as [Hlt|Hge].
    - destruct (mystrncpy_ok b1 d file (n - d - 1)) as (b' & E' & Hl' & Hv'); [lia|lia|].
      exists b'. split; [exact E'|].
      rewrite Hv1 in Hv'. rewrite firstn_app, Hq, Nat.sub_diag, firstn_O, app_nil_r, firstn_all2 in Hv' by lia.
      replace (n - d - 1 - 1)%nat with (n - d - 2)%nat in Hv' by lia.
      unfold holds. split; [lia|].
      assert (Hz : exists r, b' = (q ++ firstn (n - d - 2) file) ++ 0 :: r).
      { rewrite Hv'.
        destruct (n - d - 2 - length file)%nat; eexists; rewrite <- app_assoc; cbn [repeat app]; reflexivity. }
      destruct Hz as (r & Hz). rewrite Hz. split; [apply in_or_app; right; left; reflexivity|].
      apply cstr_app_nul. apply cstring_app; split; auto. apply cstring_firstn; auto.
    - exists b1. split; [reflexivity|]. replace (n - d - 2)%nat with 0%nat by lia.
      rewrite firstn_O, app_nil_r. unfold holds. split; [auto|].
      replace (n - d)%nat with (S (n - d - 1)) in Hv1 by lia. simpl in Hv1. rewrite Hv1.
      split; [apply in_or_app; right; left; reflexivity|apply cstr_app_nul; auto]. }
  assert (Hfull : (length path <= n - 1)%nat -> p = path).
  { intros. unfold p. apply firstn_all2. lia. }
  destruct (Nat.eqb_spec (length p) 0) as [H0|H0].
  - (* empty path *)
    assert (p = []) by (destruct p; simpl in H0; [auto|lia]). rewrite H in *.
    cbn [negb andb length].
    destruct (Hgo b 0%nat []) as (b' & E' & Hh'); auto; try lia.
    exists b'. eexists. split; [exact E'|]. split; [exact Hh'|]. simpl.
    assert (HJ : (2 <= n)%nat -> joinpath path file = file).
    { intros. destruct path as [|c r]; [reflexivity|]. exfalso. unfold p in H.
      destruct (n - 1)%nat eqn:En; [lia|]. simpl in H. discriminate. }
    split; [|intros H3; rewrite HJ by lia; f_equal; lia]. split.
    + intros Hfit. rewrite HJ in * by lia. rewrite firstn_all2 by lia. reflexivity.
    + destruct (le_lt_dec 2 n); [rewrite HJ by auto; eauto|].
      exists 0%nat. replace (n - 0 - 2)%nat with 0%nat by lia. reflexivity.
  - (* the last character *)
    assert (Hrev : exists x r, rev p = x :: r).
    { destruct (rev p) eqn:Er; [|eauto]. rewrite <- (rev_involutive p), Er in H0. simpl in H0. lia. }
    destruct Hrev as (x & r & Hrev).
    assert (Hnth : nth (length p - 1) b 0 = x) by (rewrite Hbv; apply (nth_last _ _ _ Hrev)).
    rewrite Hnth. cbn [negb andb].
    assert (Hjp : (length path <= n - 1)%nat -> joinpath path file =
              if x =? PATHCHAR then path ++ file else path ++ [PATHCHAR] ++ file).
    { intros Hx. specialize (Hfull Hx). unfold joinpath. rewrite <- Hfull, Hrev. reflexivity. }
    assert (Hcut : (n - 1 < length path)%nat -> length p = (n - 1)%nat /\ p = firstn (n - 1) (joinpath path file)).
    { intros Hx. split; [unfold p; rewrite firstn_length; lia|]. unfold p, joinpath.
      destruct (rev path) eqn:Er.
      - rewrite <- (rev_involutive path), Er in Hx. simpl in Hx. lia.
      - destruct (z =? PATHCHAR); rewrite firstn_app; replace (n - 1 - length path)%nat with 0%nat by lia;
          rewrite firstn_O, app_nil_r; reflexivity. }
    destruct (negb (x =? PATHCHAR) && Nat.ltb (length p + 1) n) eqn:Ec.
    + apply andb_true_iff in Ec as [Ex Er]. apply Nat.ltb_lt in Er.
      assert (Hpath : (length path <= n - 1)%nat).
      { destruct (le_lt_dec (length path) (n - 1)); auto. destruct (Hcut l). lia. }
      rewrite wr_ok by lia. rewrite wr_ok by (rewrite upd_length; lia).
      destruct (Hgo (upd (upd b (length p) PATHCHAR) (length p + 1) 0) (length p + 1)%nat (p ++ [PATHCHAR]))
        as (b' & E' & Hh').
      * rewrite !upd_length; auto.
      * rewrite Hbv. rewrite upd_split with (i := length p) by (rewrite app_length, repeat_length; lia).
        rewrite firstn_app, Nat.sub_diag, firstn_O, app_nil_r, firstn_all.
        rewrite skipn_app, (skipn_all2 p) by lia. replace (S (length p) - length p)%nat with 1%nat by lia.
        rewrite skipn_repeat. simpl.
        replace (p ++ PATHCHAR :: repeat 0 (n - length p - 1)) with ((p ++ [PATHCHAR]) ++ repeat 0 (n - length p - 1))
          by (rewrite <- app_assoc; reflexivity).
        rewrite upd_split by (rewrite !app_length, repeat_length; simpl; lia).
        assert (Hl1 : length (p ++ [PATHCHAR]) = (length p + 1)%nat) by (rewrite app_length; simpl; lia).
        rewrite firstn_app, Hl1, Nat.sub_diag, firstn_O, app_nil_r, firstn_all2 by lia.
        rewrite skipn_app, (skipn_all2 (p ++ [PATHCHAR])) by lia. rewrite Hl1.
        replace (S (length p + 1) - (length p + 1))%nat with 1%nat by lia. rewrite skipn_repeat.
        f_equal. simpl. change (0 :: repeat 0 ?k) with (repeat 0 (S k)).
        change (0 :: repeat 0 (n - length p - 1 - 1)) with (repeat 0 (S (n - length p - 1 - 1))). f_equal. lia.
      * rewrite app_length; simpl; lia.
      * lia.
      * apply cstring_app; split; auto. repeat constructor; unfold PATHCHAR; lia.
      * exists b'. eexists. split; [exact E'|]. split; [exact Hh'|].
        rewrite Hjp by auto. rewrite Hfull by auto. apply negb_true_iff in Ex. rewrite Ex.
        split; [|intros H3; rewrite (app_assoc path), (firstn_app (n - 2)), (firstn_all2 (path ++ [PATHCHAR])) by (rewrite app_length; simpl; lia);
                 f_equal; f_equal; rewrite app_length; simpl; lia]. split.
        -- rewrite !app_length. simpl. intros Hfit. rewrite <- app_assoc. f_equal. cbn [app]. f_equal.
           apply firstn_all2. lia.
        -- exists (length (path ++ [PATHCHAR]) + (n - (length path + 1) - 2))%nat.
           rewrite (app_assoc path). rewrite firstn_app_2. reflexivity.
    + destruct (Hgo b (length p) p) as (b' & E' & Hh'); auto.
      exists b'. eexists. split; [exact E'|]. split; [exact Hh'|].
      destruct (le_lt_dec (length path) (n - 1)) as [Hpath|Hpath].
      * rewrite Hjp by auto. rewrite Hfull in * by auto.
        apply andb_false_iff in Ec as [Ec|Ec].
        -- apply negb_false_iff in Ec. rewrite Ec. split; [|intros H3; rewrite (firstn_app (n - 2)), (firstn_all2 path) by lia; f_equal; f_equal; lia]. split.
           ++ rewrite app_length. intros Hfit. f_equal. apply firstn_all2. lia.
           ++ exists (length path + (n - length path - 2))%nat. rewrite firstn_app_2. reflexivity.
        -- apply Nat.ltb_ge in Ec. replace (n - length path - 2)%nat with 0%nat by lia.
           rewrite firstn_O, app_nil_r. split; [|intros H3; lia]. split.
           ++ destruct (x =? PATHCHAR); rewrite !app_length; simpl; lia.
           ++ exists (length path). destruct (x =? PATHCHAR); rewrite firstn_app, Nat.sub_diag, firstn_O, app_nil_r, firstn_all; reflexivity.
      * destruct (Hcut Hpath) as [Hlp Hpj]. rewrite Hlp. replace (n - (n - 1) - 2)%nat with 0%nat by lia.
        rewrite firstn_O, app_nil_r. split; [|intros H3; lia]. split; [|eauto].
        intros Hfit. exfalso. assert (length (joinpath path file) >= length path)%nat; [|lia].
        unfold joinpath. destruct (rev path) eqn:Er; [|destruct (z =? PATHCHAR); rewrite !app_length; simpl; lia].
        rewrite <- (rev_involutive path), Er in Hpath. simpl in Hpath. lia.
Qed.

Lemma MakeFullPath_spec path file dest n : length dest = n -> (1 <= n)%nat -> cstring path -> cstring file ->
  exists b' t, MakeFullPath path file dest n = Some b' /\ holds b' n t /\
    ((length (joinpath path file) + 2 <= n)%nat -> t = joinpath path file) /\
    exists k, t = firstn k (joinpath path file).
Proof. intros H1 H2 H3 H4. destruct (MakeFullPath_cut path file dest n H1 H2 H3 H4) as (b & t & A & B & C & _). eauto. Qed.

(** ** GetFilePart *)
Lemma GetFilePart_aux_spec str ret p : ret = p ++ str -> ~ In PATHCHAR p ->
  ~ In PATHCHAR (GetFilePart_aux ret str) /\
  ((~ In PATHCHAR str /\ GetFilePart_aux ret str = ret) \/
   exists dir, str = dir ++ [PATHCHAR] ++ GetFilePart_aux ret str).
Proof.
  revert ret p; induction str as [|c r IH]; intros ret p Hr Hp; simpl.
  - rewrite app_nil_r in Hr. subst. auto.
  - destruct (Z.eqb_spec c PATHCHAR) as [E|E].
    + destruct (IH r [] eq_refl) as [H1 [[H2 H3]|(dir & H2)]]; [intros []| |].
      * split; auto. right. exists []. rewrite H3. simpl. congruence.
      * split; auto. right. exists (c :: dir). simpl. f_equal. exact H2.
    + destruct (IH ret (p ++ [c])) as [H1 [[H2 H3]|(dir & H2)]].
      * rewrite <- app_assoc. exact Hr.
      * intros H. apply in_app_or in H as [H|[H|[]]]; auto.
      * split; auto. left. split; auto. intros [H|H]; auto.
      * split; auto. right. exists (c :: dir). simpl. f_equal. exact H2.
Qed.
Lemma GetFilePart_spec str : ~ In PATHCHAR (GetFilePart str) /\
  ((~ In PATHCHAR str /\ GetFilePart str = str) \/ exists dir, str = dir ++ [PATHCHAR] ++ GetFilePart str).
Proof. apply (GetFilePart_aux_spec str str []); auto. Qed.

(** ** osMatchPattern *)
Lemma osMatchPattern_spec p s : osMatchPattern p s = true <-> fmatch p s.
Proof.
  split.
  - revert s; induction p as [|a p IH]; intros s H; simpl in H.
    + destruct s; [constructor|discriminate].
    + destruct (Z.eqb_spec a 42) as [->|H42]; [constructor|].
      destruct s as [|c s]; [discriminate|].
      destruct (Z.eqb_spec a 63) as [->|H63]; simpl in H; [apply fm_any; auto|].
      destruct (Z.eqb_spec (tolower a) (tolower c)); simpl in H; [|discriminate]. apply fm_chr; auto.
  - induction 1; simpl; auto.
    all: try (rewrite IHfmatch; clear IHfmatch).
    destruct (Z.eqb_spec a 42); auto. rewrite H0, Z.eqb_refl. simpl. rewrite andb_false_r. auto.
Qed.
Lemma osMatchPattern_exact p s : osIsPattern p = false ->
  (osMatchPattern p s = true <-> streqi p s = true).
Proof.
  unfold streqi, osIsPattern. rewrite osMatchPattern_spec. intros Hp.
  apply orb_false_iff in Hp as [H1 H2].
  rewrite streq_eq. revert s. induction p as [|a p IH]; intros s.
  - split; [inversion 1; auto|]. destruct s; [constructor|discriminate].
  - simpl in H1, H2. apply orb_false_iff in H1 as [H1 H1']. apply orb_false_iff in H2 as [H2 H2'].
    apply Z.eqb_neq in H1. apply Z.eqb_neq in H2. specialize (IH H1' H2'). split.
    + inversion 1; subst; try congruence. simpl. f_equal; auto. apply IH; auto.
    + destruct s as [|b s]; [discriminate|]. simpl. intros E. inversion E. apply fm_chr; auto. apply IH; auto.
Qed.

(** ** WriteSafely and reading back *)
Lemma escape_length s : length (escape s) = quoted_length s.
Proof.
  unfold quoted_length. induction s as [|c s IH]; simpl; auto. unfold needs_escape at 1.
  destruct ((c =? 34) || (c =? 92)); simpl; rewrite IH; lia.
Qed.
Lemma escape_cstring s : cstring s -> cstring (escape s).
Proof.
  induction 1; simpl; [constructor|]. destruct ((x =? 34) || (x =? 92)); repeat constructor; auto; lia.
Qed.
Lemma WriteSafely_ok s : cstring s -> (quoted_length s <= 299)%nat ->
  WriteSafely s = Some (34 :: escape s ++ [34]).
Proof.
  intros Hs Hq. unfold WriteSafely.
  rewrite wrs_ok by (rewrite app_length, escape_length, repeat_length; simpl; lia).
  cbn [firstn app]. rewrite <- app_assoc. cbn [app]. rewrite cstr_app_nul by (apply escape_cstring; auto).
  reflexivity.
Qed.
Lemma WriteSafely_overflow s : (300 <= quoted_length s)%nat -> WriteSafely s = None.
Proof.
  intros H. unfold WriteSafely. rewrite wrs_overflow; auto.
  - rewrite app_length, escape_length, repeat_length. simpl. lia.
  - intros E. apply app_eq_nil in E as [_ E]. discriminate.
Qed.

Lemma token_escape s rest : cstring s -> ~ In 10 s ->
  token stop_quoted (escape s ++ 34 :: rest) s (34 :: rest).
Proof.
  intros Hs Hn. induction Hs as [|c s Hc Hs IH]; simpl.
  - apply tok_stop. left. reflexivity.
  - assert (Hn' : ~ In 10 s) by (intros H; apply Hn; right; auto).
    assert (c <> 10) by (intros ->; apply Hn; left; auto).
    destruct ((c =? 34) || (c =? 92)) eqn:E; simpl.
    + apply tok_esc; auto. unfold stop_quoted. lia.
    + apply tok_chr; auto; [unfold stop_quoted; lia|lia].
Qed.

Lemma write_read s rest dest n : cstring s -> ~ In 10 s -> (length s < n)%nat -> length dest = n -> cstring rest ->
  exists b', jbstrcpy dest (34 :: escape s ++ 34 :: rest) n = (Some b', true, rest) /\ holds b' n s.
Proof.
  intros Hs Hn Hl Hd Hr.
  assert (Hc : cstring (34 :: escape s ++ 34 :: rest)).
  { constructor; [lia|]. apply cstring_app. split; [apply escape_cstring; auto|]. constructor; [lia|auto]. }
  unfold jbstrcpy. cbn [skipblank]. change ((34 =? 32) || (34 =? 9)) with false. cbv iota.
  destruct (jbloop_token_gen 34 0 n stop_quoted) with
     (m := length (escape s ++ 34 :: rest)) (src := escape s ++ 34 :: rest) (bd := (Some dest, 0%nat))
      as (t & r & Ht & Hct & _ & He); [intros c H0; unfold stop_quoted; lia|lia|exact (Forall_inv_tail Hc)|].
  destruct (token_fun _ _ _ _ _ _ Ht (token_escape s rest Hs Hn)). subst t r.
  rewrite He. destruct (finish n s dest Hd ltac:(lia) Hct) as (b' & Hw & Hh & _).
  destruct (fold_left (emit n) s (Some dest, 0%nat)) as [b1 d]. rewrite Hw.
  exists b'. rewrite orb_true_r. change ((34 =? 9) || (34 =? 32) || (34 =? 34)) with true. cbv iota.
  split; [reflexivity|]. rewrite firstn_all2 in Hh by lia. exact Hh.
Qed.

(** Leading blanks are skipped. *)
Lemma jbstrcpy_blanks dest p src n : Forall (fun c => c = 32 \/ c = 9) p ->
  jbstrcpy dest (p ++ src) n = jbstrcpy dest src n.
Proof.
  intros H. unfold jbstrcpy. replace (skipblank (p ++ src)) with (skipblank src); [reflexivity|].
  induction H as [|c p Hc Hp IH]; simpl; auto. destruct ((c =? 32) || (c =? 9)) eqn:E; [auto|lia].
Qed.

(** A plain word. *)
Lemma token_word w rest : cstring w -> Forall (fun c => c <> 32 /\ c <> 9 /\ c <> 10 /\ c <> 92) w ->
  (rest = [] \/ exists c r, rest = c :: r /\ stop_plain c) -> token stop_plain (w ++ rest) w rest.
Proof.
  intros Hw Hc Hr. induction Hc as [|c w Hx Hc IH]; simpl.
  - destruct Hr as [->|(c & r & -> & H)]; constructor; auto.
  - inversion Hw; subst. apply tok_chr; auto; [unfold stop_plain; lia|tauto].
Qed.
