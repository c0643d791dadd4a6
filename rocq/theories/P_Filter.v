(** Lemmas on the text search and the filters. *)
From Verif Require Import Base M_Node4D M_Pat M_Str M_Mem M_Cfg M_Pkt M_Dupe M_Echo M_Expr S_Expr P_Expr P_Mem M_Filter S_Filter.

Lemma nth_app_mid (a m b : list Z) j d : (j < length m)%nat -> nth (length a + j) (a ++ m ++ b) d = nth j m d.
Proof. intros H. rewrite app_nth2_plus, app_nth1 by auto. reflexivity. Qed.

(** occurrence, by positions *)
Lemma occurs_nth pat text i : occurs_at pat text i <->
  (i + length pat <= length text)%nat /\ forall j, (j < length pat)%nat -> tolower (nth (i + j) text 0) = tolower (nth j pat 0).
Proof.
  split.
  - intros (a & m & b & -> & <- & E). pose proof (f_equal (@length Z) E) as L. rewrite !map_length in L.
    rewrite !app_length. split; [lia|]. intros j Hj. rewrite nth_app_mid by lia.
    rewrite <- !(map_nth tolower), E. reflexivity.
  - intros (L & H). exists (firstn i text), (firstn (length pat) (skipn i text)), (skipn (length pat) (skipn i text)).
    rewrite !firstn_skipn. split; auto. split; [apply firstn_length_le; lia|].
    assert (Lf : length (firstn (length pat) (skipn i text)) = length pat) by (rewrite firstn_length, skipn_length; lia).
    apply (nth_ext _ _ (tolower 0) (tolower 0)); [rewrite !map_length; auto|].
    intros j Hj. rewrite map_length in Hj. rewrite !map_nth, <- H by lia. f_equal.
    rewrite <- (firstn_skipn i text) at 2. rewrite app_nth2 by (rewrite firstn_length; lia).
    rewrite firstn_length, Nat.min_l by lia. replace (i + j - i)%nat with j by lia.
    rewrite <- (firstn_skipn (length pat) (skipn i text)) at 2. rewrite app_nth1 by lia. reflexivity.
Qed.

Lemma lastdiff_none pat text i : forall j, lastdiff pat text i j = None <->
  forall k, (k < j)%nat -> tolower (nth (i + k) text 0) = tolower (nth k pat 0).
Proof.
  induction j as [|j IH]; simpl.
  - split; auto. intros _ k Hk. lia.
  - destruct (Z.eqb_spec (tolower (nth (i + j) text 0)) (tolower (nth j pat 0))) as [E|E].
    + rewrite IH. split; intros H k Hk.
      * destruct (Nat.eq_dec k j) as [->|]; auto. apply H. lia.
      * apply H. lia.
    + split; [discriminate|]. intros H. exfalso. apply E, H. lia.
Qed.
Lemma lastdiff_some pat text i : forall n j, lastdiff pat text i n = Some j ->
  (j < n)%nat /\ tolower (nth (i + j) text 0) <> tolower (nth j pat 0) /\
  forall k, (j < k < n)%nat -> tolower (nth (i + k) text 0) = tolower (nth k pat 0).
Proof.
  induction n as [|n IH]; simpl; [discriminate|]. intros j.
  destruct (Z.eqb_spec (tolower (nth (i + n) text 0)) (tolower (nth n pat 0))) as [E|E].
  - intros H. apply IH in H as (H1 & H2 & H3). split; [lia|]. split; auto.
    intros k Hk. destruct (Nat.eq_dec k n) as [->|]; auto. apply H3. lia.
  - intros H; injection H as <-. split; [lia|]. split; auto. intros k Hk. lia.
Qed.

(** the table *)
Lemma bmfill_out len x : forall pat i t, (forall k, (k < length pat)%nat -> tolower (nth k pat 0) <> x) -> bmfill len i pat t x = t x.
Proof.
  induction pat as [|c pat IH]; intros i t H; simpl; auto.
  rewrite IH.
  - assert (tolower c <> x) by (apply (H O); simpl; lia). destruct (Z.eqb_spec x (tolower c)); [congruence|reflexivity].
  - intros k Hk. apply (H (S k)). simpl. lia.
Qed.
Lemma bmfill_last len x : forall pat i t m, (m < length pat)%nat -> tolower (nth m pat 0) = x ->
  (forall k, (m < k < length pat)%nat -> tolower (nth k pat 0) <> x) ->
  bmfill len i pat t x = u16 (Z.of_nat (len - (i + m) - 1)).
Proof.
  induction pat as [|c pat IH]; intros i t m Hm Hx Hl; simpl in *; [lia|].
  destruct m as [|m].
  - rewrite bmfill_out.
    + rewrite Hx, Z.eqb_refl. do 2 f_equal. lia.
    + intros k Hk. apply (Hl (S k)). lia.
  - rewrite (IH (S i) _ m).
    + do 2 f_equal. lia.
    + lia.
    + auto.
    + intros k Hk. apply (Hl (S k)). lia.
Qed.

(** last position of a character *)
Lemma last_pos x : forall pat, (forall k, (k < length pat)%nat -> tolower (nth k pat 0) <> x) \/
  exists m, (m < length pat)%nat /\ tolower (nth m pat 0) = x /\ forall k, (m < k < length pat)%nat -> tolower (nth k pat 0) <> x.
Proof.
  induction pat as [|c pat IH] using rev_ind; [left; simpl; lia|].
  rewrite app_length. simpl. destruct (Z.eq_dec (tolower c) x) as [E|E].
  - right. exists (length pat). split; [lia|]. split; [rewrite app_nth2 by lia; rewrite Nat.sub_diag; auto|]. intros k Hk. lia.
  - destruct IH as [H|(m & H1 & H2 & H3)].
    + left. intros k Hk. destruct (Nat.eq_dec k (length pat)) as [->|]; [rewrite app_nth2, Nat.sub_diag by lia; auto|].
      rewrite app_nth1 by lia. apply H. lia.
    + right. exists m. split; [lia|]. split; [rewrite app_nth1 by lia; auto|].
      intros k Hk. destruct (Nat.eq_dec k (length pat)) as [->|]; [rewrite app_nth2, Nat.sub_diag by lia; auto|].
      rewrite app_nth1 by lia. apply H3. lia.
Qed.

(** a step is between 1 and the length of the pattern; a character that stands at position
    m moves the pattern by at most len-1-m *)
Lemma bminit_range pat x : (0 < length pat)%nat -> Z.of_nat (length pat) < 65536 ->
  1 <= bminit pat x <= Z.of_nat (length pat).
Proof.
  intros H0 H1. unfold bminit. destruct (last_pos x pat) as [H|(m & Hm & Hx & Hl)].
  - rewrite bmfill_out by auto. simpl. rewrite u16_id by (unfold is_u16; lia). lia.
  - rewrite (bmfill_last _ x pat 0 _ m) by auto. rewrite u16_id by (unfold is_u16; lia).
    destruct (Z.eqb_spec (Z.of_nat (length pat - (0 + m) - 1)) 0); [rewrite u16_id by (unfold is_u16; lia)|]; lia.
Qed.
Lemma bminit_shift pat x m : Z.of_nat (length pat) < 65536 -> (m < length pat)%nat -> tolower (nth m pat 0) = x ->
  tolower (nth (length pat - 1) pat 0) <> x -> bminit pat x <= Z.of_nat (length pat - 1 - m).
Proof.
  intros H1 Hm Hx Hne. unfold bminit. destruct (last_pos x pat) as [H|(n & Hn & Hx' & Hl)].
  - exfalso. apply (H m); auto.
  - rewrite (bmfill_last _ x pat 0 _ n) by auto. rewrite u16_id by (unfold is_u16; lia).
    assert (n <> length pat - 1)%nat by (intros ->; congruence).
    assert (m <= n)%nat. { destruct (le_lt_dec m n); auto. exfalso. apply (Hl m); auto. }
    destruct (Z.eqb_spec (Z.of_nat (length pat - (0 + n) - 1)) 0); lia.
Qed.

Lemma bmloop_sound pat text : forall f i r, bmloop f pat text i = Some (Some r) -> (i <= r)%nat /\ occurs_at pat text r.
Proof.
  induction f as [|f IH]; intros i r; simpl; [discriminate|].
  destruct (Nat.ltb_spec (length text) (i + length pat)); [discriminate|].
  destruct (lastdiff pat text i (length pat)) as [j|] eqn:E.
  - destruct (is7bit _); [|discriminate]. intros H1. apply IH in H1 as [H1 H2]. split; auto. lia.
  - intros H1; injection H1 as <-. split; auto. apply occurs_nth. split; [lia|]. apply lastdiff_none, E.
Qed.

Lemma bmloop_total pat text : (0 < length pat)%nat -> Z.of_nat (length pat) < 65536 -> ascii7 text ->
  forall f i, (length text + 2 <= f + i)%nat -> (0 < f)%nat -> exists r, bmloop f pat text i = Some r.
Proof.
  intros H0 H1 Ht. induction f as [|f IH]; intros i Hf Hp; [lia|]. simpl.
  destruct (Nat.ltb_spec (length text) (i + length pat)); [eauto|].
  destruct (lastdiff pat text i (length pat)) as [j|] eqn:E; [|eauto].
  apply lastdiff_some in E as (Hj & _).
  assert (Hc : is7bit (nth (i + j) text 0) = true).
  { unfold is7bit. unfold ascii7 in Ht. rewrite Forall_nth in Ht. specialize (Ht (i + j)%nat 0 ltac:(lia)). lia. }
  rewrite Hc. pose proof (bminit_range pat (tolower (nth (i + j) text 0)) H0 H1).
  apply IH; lia.
Qed.

(** ** Which patterns are always found *)
(** a blind spot, by positions: the end of the pattern, l characters long, also stands before
    position q+1 *)
Definition blindn (pat : list Z) : Prop :=
  let p j := tolower (nth j pat 0) in let n := length pat in
  exists q l, (S q < n)%nat /\ (1 <= l <= S q)%nat /\ (forall m, (m < l)%nat -> p (q - m)%nat = p (n - 1 - m)%nat) /\
    (l = S q \/ (l <= q)%nat /\ p (q - l)%nat <> p (n - 1 - l)%nat /\
                 (p (q - l)%nat = p (n - 1)%nat \/ forall m, (q < m < n)%nat -> p m <> p (q - l)%nat)).

Lemma nth_map_tolower j pat : (j < length pat)%nat -> nth j (map tolower pat) 0 = tolower (nth j pat 0).
Proof. intros H. rewrite (nth_indep _ 0 (tolower 0)) by (rewrite map_length; auto). apply map_nth. Qed.
Lemma last_nth (l : list Z) : l <> [] -> last l 0 = nth (length l - 1) l 0.
Proof.
  intros H. destruct l as [|x l] using rev_ind; [congruence|]. rewrite last_last, app_length. simpl.
  rewrite app_nth2 by lia. replace (length l + 1 - 1 - length l)%nat with O by lia. reflexivity.
Qed.

Lemma nth_skipn (l : list Z) j d : forall k, nth j (skipn k l) d = nth (k + j) l d.
Proof. induction l as [|x l IH]; intros [|k]; simpl; auto; destruct j; auto. Qed.

Lemma blind_nth pat : blindspot (map tolower pat) -> blindn pat.
Proof.
  intros (s & r & Hs & Hr & H). unfold blindn. cbv zeta.
  assert (Ls : (0 < length s)%nat) by (destruct s; simpl; [congruence|lia]).
  assert (Lr : (0 < length r)%nat) by (destruct r; simpl; [congruence|lia]).
  destruct H as [(E & z & E')|(a & c & z & d & E & E' & Hcd & Hc)].
  - pose proof (f_equal (@length Z) E) as L. pose proof (f_equal (@length Z) E') as L'.
    rewrite app_length, map_length in L, L'. exists (length s - 1)%nat, (length s).
    split; [lia|]. split; [lia|]. split; [|left; lia]. intros m Hm.
    rewrite <- !nth_map_tolower by lia. rewrite E at 1. rewrite E'. rewrite app_nth1 by lia. rewrite app_nth2 by lia.
    f_equal. lia.
  - pose proof (f_equal (@length Z) E) as L. pose proof (f_equal (@length Z) E') as L'.
    rewrite app_length, map_length in L, L'. simpl in L, L'. rewrite app_length in L.
    assert (P1 : tolower (nth (length a) pat 0) = c).
    { rewrite <- nth_map_tolower by lia. rewrite E, app_nth2, Nat.sub_diag by lia. reflexivity. }
    exists (length a + length s)%nat, (length s). split; [lia|]. split; [lia|]. split; [|right; split; [lia|split]].
    + intros m Hm. rewrite <- !nth_map_tolower by lia. rewrite E at 1. rewrite E'. rewrite !app_nth2 by lia.
      replace (length a + length s - m - length a)%nat with (S (length s - 1 - m)) by lia.
      replace (length pat - 1 - m - length z)%nat with (S (length s - 1 - m)) by lia. simpl. rewrite app_nth1 by lia. reflexivity.
    + replace (length a + length s - length s)%nat with (length a) by lia. rewrite P1.
      rewrite <- nth_map_tolower by lia. rewrite E'.
      replace (length pat - 1 - length s)%nat with (length z) by lia. rewrite app_nth2, Nat.sub_diag by lia. simpl. exact Hcd.
    + replace (length a + length s - length s)%nat with (length a) by lia. rewrite P1. destruct Hc as [Hc|Hc].
      * left. rewrite <- nth_map_tolower by lia. rewrite last_nth, map_length in Hc; [auto|].
        intros E0. rewrite E0 in E. destruct a; discriminate.
      * right. intros m Hm Heq. apply Hc. rewrite <- Heq, <- nth_map_tolower by lia. rewrite E.
        rewrite app_nth2 by lia. destruct (m - length a)%nat as [|k] eqn:Ek; [lia|]. simpl.
        rewrite app_nth2 by lia. apply nth_In. lia.
Qed.

Lemma blindn_list pat : blindn pat -> blindspot (map tolower pat).
Proof.
  intros (q & l & Hq & Hl & Hag & H). set (P := map tolower pat) in *.
  assert (LP : length P = length pat) by apply map_length.
  set (n := length pat) in *.
  assert (Hn : forall j, (j < n)%nat -> nth j P 0 = tolower (nth j pat 0)) by (intros; apply nth_map_tolower; auto).
  assert (ES : firstn l (skipn (S q - l) P) = skipn (n - l) P).
  { apply (nth_ext _ _ 0 0). { rewrite firstn_length, !skipn_length. lia. }
    rewrite firstn_length, skipn_length. intros j Hj. rewrite nth_skipn.
    assert (Hj' : (j < l)%nat) by lia.
    assert (EF : nth j (firstn l (skipn (S q - l) P)) 0 = nth (S q - l + j) P 0).
    { rewrite <- (nth_skipn P j 0 (S q - l)). rewrite <- (firstn_skipn l (skipn (S q - l) P)) at 2.
      rewrite app_nth1 by (rewrite firstn_length, skipn_length; lia). reflexivity. }
    rewrite EF. rewrite !Hn by lia. replace (S q - l + j)%nat with (q - (l - 1 - j))%nat by lia.
    rewrite Hag by lia. do 2 f_equal. lia. }
  exists (skipn (n - l) P), (skipn (S q) P).
  split. { intros E. apply (f_equal (@length Z)) in E. rewrite skipn_length in E. simpl in E. lia. }
  split. { intros E. apply (f_equal (@length Z)) in E. rewrite skipn_length in E. simpl in E. lia. }
  assert (E2 : P = firstn (S q - l) P ++ skipn (n - l) P ++ skipn (S q) P).
  { rewrite <- ES. rewrite <- (firstn_skipn (S q - l) P) at 1. f_equal.
    rewrite <- (firstn_skipn l (skipn (S q - l) P)) at 1. f_equal. rewrite skipn_skipn. f_equal. lia. }
  destruct H as [->|(Hle & Hne & Hc)].
  - left. split.
    + rewrite E2 at 1. replace (S q - S q)%nat with O by lia. reflexivity.
    + exists (firstn (n - S q) P). symmetry. apply firstn_skipn.
  - right. exists (firstn (q - l) P), (nth (q - l) P 0), (firstn (n - 1 - l) P), (nth (n - 1 - l) P 0).
    assert (C : forall k, (k < n)%nat -> firstn (S k) P = firstn k P ++ [nth k P 0]).
    { clear -LP. intros k Hk. rewrite <- LP in Hk. clear LP. revert k Hk. generalize P as L.
      induction L as [|x L IH]; intros k Hk; simpl in Hk; [lia|]. destruct k; [reflexivity|]. cbn [firstn app nth]. f_equal. apply IH. lia. }
    split; [|split; [|split]].
    + rewrite E2 at 1. replace (S q - l)%nat with (S (q - l)) by lia. rewrite C by lia. rewrite <- app_assoc. reflexivity.
    + rewrite <- (firstn_skipn (n - l) P) at 1. replace (firstn (n - l) P) with (firstn (S (n - 1 - l)) P) by (f_equal; lia).
      rewrite C by lia. rewrite <- app_assoc. reflexivity.
    + rewrite !Hn by lia. exact Hne.
    + destruct Hc as [Hc|Hc].
      * left. rewrite last_nth, LP by (intros E; rewrite E in LP; simpl in LP; lia). rewrite !Hn by lia. auto.
      * right. intros Hin. apply (In_nth _ _ 0) in Hin as (m & Hm & E). rewrite skipn_length in Hm. rewrite nth_skipn in E.
        rewrite !Hn in E by lia. apply (Hc (S q + m)%nat); [lia|]. exact E.
Qed.

Lemma bminit_absent pat x : Z.of_nat (length pat) < 65536 -> (forall k, (k < length pat)%nat -> tolower (nth k pat 0) <> x) ->
  bminit pat x = Z.of_nat (length pat).
Proof. intros H1 H. unfold bminit. rewrite bmfill_out by auto. simpl. apply u16_id. unfold is_u16. lia. Qed.
Lemma bminit_at pat x m : Z.of_nat (length pat) < 65536 -> (m < length pat)%nat -> tolower (nth m pat 0) = x ->
  (forall k, (m < k < length pat)%nat -> tolower (nth k pat 0) <> x) ->
  bminit pat x = if (m =? length pat - 1)%nat then Z.of_nat (length pat) else Z.of_nat (length pat - 1 - m).
Proof.
  intros H1 Hm Hx Hl. unfold bminit. rewrite (bmfill_last _ x pat 0 _ m) by auto. rewrite u16_id by (unfold is_u16; lia).
  destruct (Nat.eqb_spec m (length pat - 1)) as [->|Hne].
  - destruct (Z.eqb_spec (Z.of_nat (length pat - (0 + (length pat - 1)) - 1)) 0); [|lia]. rewrite u16_id by (unfold is_u16; lia). lia.
  - destruct (Z.eqb_spec (Z.of_nat (length pat - (0 + m) - 1)) 0); lia.
Qed.
Lemma bminit_end pat : (0 < length pat)%nat -> Z.of_nat (length pat) < 65536 ->
  bminit pat (tolower (nth (length pat - 1) pat 0)) = Z.of_nat (length pat).
Proof.
  intros H0 H1. rewrite (bminit_at pat _ (length pat - 1)); auto; try lia. rewrite Nat.eqb_refl. reflexivity.
Qed.

(** an occurrence is jumped over only if the pattern has a blind spot *)
Lemma skip_blind pat text i j k : Z.of_nat (length pat) < 65536 ->
  lastdiff pat text i (length pat) = Some j -> occurs_at pat text k -> (i <= k)%nat ->
  (i + Z.to_nat (bminit pat (tolower (nth (i + j) text 0%Z))) <= k)%nat \/ blindn pat.
Proof.
  intros Hlen E Hocc Hik. apply lastdiff_some in E as (Hj & Hdiff & Hsame).
  apply occurs_nth in Hocc as (Lk & Hk).
  destruct (Nat.eq_dec i k) as [<-|Hne].
  { exfalso. apply Hdiff, Hk, Hj. }
  assert (Hl : (0 < length pat)%nat) by lia.
  pose proof (bminit_range pat (tolower (nth (i + j) text 0)) Hl Hlen) as Hs.
  destruct (le_lt_dec (i + length pat) k) as [|Hov]; [lia|].
  destruct (le_lt_dec (i + Z.to_nat (bminit pat (tolower (nth (i + j) text 0%Z)))) k) as [|Hsk]; [left; lia|right].
  set (n := length pat) in *. set (p := fun j => tolower (nth j pat 0)).
  (* where the two positions of the pattern overlap *)
  assert (Hov' : forall m, (k - i <= m < n)%nat -> tolower (nth (i + m) text 0) = p (m - (k - i))%nat).
  { intros m Hm. unfold p. rewrite <- Hk by lia. do 2 f_equal. lia. }
  set (q := (n - 1 - (k - i))%nat).
  destruct (Nat.eq_dec j (n - 1)) as [->|Hj1].
  - exfalso. assert (Hm : tolower (nth q pat 0) = tolower (nth (i + (n - 1)) text 0)).
    { rewrite (Hov' (n - 1)%nat) by lia. unfold p, q. do 2 f_equal. }
    pose proof (bminit_shift pat _ q Hlen ltac:(unfold q; fold n; lia) Hm) as Hsh. fold n in Hsh.
    specialize (Hsh ltac:(congruence)). unfold q in Hsh. lia.
  - destruct (le_lt_dec (k - i) j) as [Hkj|Hkj].
    + (* the differing character stands under the later position of the pattern *)
      exists q, (n - 1 - j)%nat. cbv zeta. fold n. split; [unfold q; lia|]. split; [unfold q; lia|]. split.
      { intros m Hm. rewrite <- (Hsame (n - 1 - m)%nat) by lia. rewrite Hov' by lia. unfold p, q. do 2 f_equal. lia. }
      right. split; [unfold q; lia|].
      assert (EC : tolower (nth (q - (n - 1 - j)) pat 0) = tolower (nth (i + j) text 0)).
      { rewrite Hov' by lia. unfold p, q. do 2 f_equal. lia. }
      rewrite EC. split. { replace (n - 1 - (n - 1 - j))%nat with j by lia. exact Hdiff. }
      destruct (Z.eq_dec (tolower (nth (i + j) text 0)) (tolower (nth (n - 1) pat 0))) as [|Hnl]; [left; auto|right].
      intros m Hm Heq. pose proof (bminit_shift pat _ m Hlen ltac:(fold n; lia) Heq ltac:(fold n; congruence)) as Hsh. fold n in Hsh.
      unfold q in Hm. lia.
    + (* it stands before it *)
      exists q, (S q). cbv zeta. fold n. split; [unfold q; lia|]. split; [lia|]. split; [|left; reflexivity].
      intros m Hm. unfold q in Hm. rewrite <- (Hsame (n - 1 - m)%nat) by lia. rewrite Hov' by lia. unfold p, q. do 2 f_equal. lia.
Qed.

Lemma bmloop_missed pat text : Z.of_nat (length pat) < 65536 -> forall f i r, bmloop f pat text i = Some r ->
  forall k, (i <= k)%nat -> (match r with Some p => k < p | None => True end)%nat -> occurs_at pat text k -> blindn pat.
Proof.
  intros Hlen. induction f as [|f IH]; intros i r; simpl; [discriminate|].
  destruct (Nat.ltb_spec (length text) (i + length pat)).
  { intros H1; injection H1 as <-. intros k Hk _ Hocc. apply occurs_nth in Hocc as [Hocc _]. lia. }
  destruct (lastdiff pat text i (length pat)) as [j|] eqn:E.
  - destruct (is7bit _); [|discriminate]. intros H1 k Hk Hr Hocc.
    destruct (skip_blind pat text i j k Hlen E Hocc Hk) as [Hs|]; auto. exact (IH _ _ H1 k Hs Hr Hocc).
  - intros H1; injection H1 as <-. intros k Hk Hr. lia.
Qed.
Lemma bmloop_complete pat text : Z.of_nat (length pat) < 65536 -> ~ blindspot (map tolower pat) ->
  forall f i r, bmloop f pat text i = Some r ->
  match r with
  | None => forall k, (i <= k)%nat -> ~ occurs_at pat text k
  | Some p => forall k, (i <= k < p)%nat -> ~ occurs_at pat text k
  end.
Proof.
  intros Hlen Hb f i r H. pose proof (bmloop_missed pat text Hlen f i r H) as HM. destruct r as [p|]; intros k Hk Ho;
    apply Hb, blindn_list; apply (HM k); auto; lia.
Qed.

(** a pattern with a blind spot is missed in some text *)
Lemma lastdiff_intro pat text i j : forall n, (j < n)%nat -> tolower (nth (i + j) text 0) <> tolower (nth j pat 0) ->
  (forall k, (j < k < n)%nat -> tolower (nth (i + k) text 0) = tolower (nth k pat 0)) -> lastdiff pat text i n = Some j.
Proof.
  induction n as [|n IH]; intros Hj Hd Hs; [lia|]. simpl.
  destruct (Nat.eq_dec j n) as [->|Hne].
  - destruct (Z.eqb_spec (tolower (nth (i + n) text 0)) (tolower (nth n pat 0))); [congruence|reflexivity].
  - rewrite Hs by lia. rewrite Z.eqb_refl. apply IH; auto; [lia|]. intros k Hk. apply Hs. lia.
Qed.
Lemma missed pat u j c : Z.of_nat (length pat) < 65536 -> ascii7 pat -> ascii7 u -> (j < length pat)%nat ->
  nth j (u ++ pat) 0 = c -> tolower c <> tolower (nth j pat 0) ->
  (forall m, (j < m < length pat)%nat -> tolower (nth m (u ++ pat) 0) = tolower (nth m pat 0)) ->
  Z.of_nat (length u) < bminit pat (tolower c) -> bmfind pat (u ++ pat) 0 = Some None.
Proof.
  intros Hlen Hp Hu Hj Hc Hd Hs Hst.
  assert (Ht : ascii7 (u ++ pat)) by (apply Forall_app; auto).
  assert (E : forallb is7bit pat = true). { apply forallb_forall. intros x Hx. unfold ascii7 in Hp. rewrite Forall_forall in Hp. specialize (Hp x Hx). unfold is7bit. lia. }
  unfold bmfind. rewrite E. replace (length (u ++ pat) + 2)%nat with (S (S (length (u ++ pat)))) by lia. cbn [bmloop].
  destruct (Nat.ltb_spec (length (u ++ pat)) (0 + length pat)) as [H|_]; [rewrite app_length in H; lia|].
  rewrite (lastdiff_intro pat (u ++ pat) 0 j) by (rewrite ?Nat.add_0_l; auto; congruence).
  rewrite Nat.add_0_l, Hc.
  assert (H7 : is7bit c = true).
  { unfold is7bit. unfold ascii7 in Ht. rewrite Forall_nth in Ht. specialize (Ht j 0 ltac:(rewrite app_length; lia)). lia. }
  rewrite H7. destruct (Nat.ltb_spec (length (u ++ pat)) (0 + Z.to_nat (bminit pat (tolower c)) + length pat)) as [_|H]; [reflexivity|].
  rewrite app_length in H. lia.
Qed.

Lemma blind_missed pat : Z.of_nat (length pat) < 65536 -> ascii7 pat -> blindn pat ->
  exists u, ascii7 u /\ bmfind pat (u ++ pat) 0 = Some None.
Proof.
  intros Hlen Hp (q & l & Hq & Hl & Hag & H). set (n := length pat) in *. set (p := fun j => tolower (nth j pat 0)).
  assert (H7 : forall m, (m < n)%nat -> 0 <= nth m pat 0 < 128).
  { intros m Hm. unfold ascii7 in Hp. rewrite Forall_nth in Hp. apply Hp. exact Hm. }
  destruct H as [->|(Hle & Hne & Hc)].
  - (* the pattern ends as it begins *)
    set (k := (n - 1 - q)%nat).
    assert (HB : forall m, (k <= m < n)%nat -> p (m - k)%nat = p m).
    { intros m Hm. unfold k in *. specialize (Hag (n - 1 - m)%nat ltac:(lia)). unfold p.
      replace (q - (n - 1 - m))%nat with (m - (n - 1 - q))%nat in Hag by lia.
      replace (n - 1 - (n - 1 - m))%nat with m in Hag by lia. exact Hag. }
    assert (HX : exists j c, (j < k)%nat /\ 0 <= c < 128 /\ tolower c <> p j /\ bminit pat (tolower c) = Z.of_nat n).
    { assert (HD : (exists j, (j < k)%nat /\ p j <> p (n - 1)%nat) \/ forall j, (j < k)%nat -> p j = p (n - 1)%nat).
      { clear. induction k as [|k IH]; [right; lia|]. destruct IH as [(j & Hj & H)|H].
        - left. exists j. split; [lia|auto].
        - destruct (Z.eq_dec (p k) (p (n - 1)%nat)) as [E|E].
          + right. intros j Hj. destruct (Nat.eq_dec j k) as [->|]; auto. apply H. lia.
          + left. exists k. split; [lia|auto]. }
      destruct HD as [(j & Hj & H)|H].
      - exists j, (nth (n - 1) pat 0). split; auto. split; [apply H7; lia|]. split; [unfold p in *; congruence|].
        apply bminit_end; fold n; lia.
      - assert (Hall : forall j, (j < n)%nat -> p j = p (n - 1)%nat).
        { intros j. induction j as [j IH] using lt_wf_ind. intros Hj. destruct (le_lt_dec k j) as [Hkj|Hkj]; [|apply H; auto].
          rewrite <- HB by lia. apply IH; unfold k; lia. }
        destruct (Z.eq_dec (p (n - 1)%nat) 97) as [E97|E97].
        + exists O, 98. split; [unfold k; lia|]. split; [lia|]. split.
          * rewrite Hall by lia. rewrite E97. vm_compute. discriminate.
          * apply bminit_absent; auto. intros m Hm. change (p m <> tolower 98). rewrite Hall by exact Hm. rewrite E97. vm_compute. discriminate.
        + exists O, 97. split; [unfold k; lia|]. split; [lia|]. split.
          * rewrite Hall by lia. change (tolower 97) with 97. congruence.
          * apply bminit_absent; auto. intros m Hm. change (p m <> 97). rewrite Hall by exact Hm. congruence. }
    destruct HX as (j & c & Hj & Hc7 & Hcj & Hst).
    set (u := map (fun m => if (m =? j)%nat then c else nth m pat 0) (seq 0 k)).
    assert (Lu : length u = k) by (unfold u; rewrite map_length, seq_length; reflexivity).
    assert (Nu : forall m, (m < k)%nat -> nth m u 0 = if (m =? j)%nat then c else nth m pat 0).
    { intros m Hm. unfold u. rewrite (nth_indep _ 0 ((fun m => if (m =? j)%nat then c else nth m pat 0) O)) by (rewrite map_length, seq_length; auto).
      rewrite (map_nth (fun m => if (m =? j)%nat then c else nth m pat 0)), seq_nth by auto. reflexivity. }
    assert (Au : ascii7 u).
    { apply Forall_map, Forall_forall. intros m Hm. apply in_seq in Hm. destruct (m =? j)%nat; auto. apply H7. unfold k in Hm. lia. }
    exists u. split; auto. apply (missed pat u j c); auto.
    + fold n. unfold k in Hj. lia.
    + rewrite app_nth1 by lia. rewrite Nu, Nat.eqb_refl by auto. reflexivity.
    + fold n. intros m Hm. destruct (le_lt_dec k m) as [Hkm|Hkm].
      * rewrite app_nth2, Lu by lia. apply (HB m). lia.
      * rewrite app_nth1, Nu by lia. destruct (Nat.eqb_spec m j); [lia|reflexivity].
    + rewrite Lu, Hst. unfold k. lia.
  - (* the end of the pattern stands elsewhere in it *)
    set (k := (n - 1 - q)%nat). set (c := nth (q - l) pat 0).
    exists (repeat c k).
    assert (Hc7 : 0 <= c < 128) by (apply H7; lia).
    assert (Au : ascii7 (repeat c k)). { apply Forall_forall. intros x Hx. apply repeat_spec in Hx. subst. auto. }
    split; auto. apply (missed pat (repeat c k) (n - 1 - l) c); auto.
    + fold n. lia.
    + rewrite app_nth2 by (rewrite repeat_length; unfold k; lia). rewrite repeat_length. unfold c. f_equal. unfold k. lia.
    + fold n. intros m Hm. rewrite app_nth2 by (rewrite repeat_length; unfold k; lia). rewrite repeat_length.
      specialize (Hag (n - 1 - m)%nat ltac:(lia)). replace (n - 1 - (n - 1 - m))%nat with m in Hag by lia.
      rewrite <- Hag. do 2 f_equal. unfold k. lia.
    + rewrite repeat_length.
      destruct (Z.eq_dec (tolower c) (tolower (nth (n - 1) pat 0))) as [E|E].
      * rewrite E. unfold n. rewrite bminit_end by (fold n; lia). fold n. unfold k. lia.
      * destruct Hc as [Hc|Hc]; [exfalso; apply E; exact Hc|].
        destruct (last_pos (tolower c) pat) as [Ha|(m & Hm & Hx & Hlst)].
        { exfalso. apply (Ha (q - l)%nat); [fold n; lia|reflexivity]. }
        fold n in Hm.
        assert (m < q)%nat.
        { destruct (lt_eq_lt_dec m q) as [[|Heq]|Hgt]; auto; exfalso.
          - subst m. apply E. rewrite <- Hx. specialize (Hag O ltac:(lia)). rewrite !Nat.sub_0_r in Hag. exact Hag.
          - apply (Hc m); [lia|]. exact Hx. }
        rewrite (bminit_at pat _ m) by auto. fold n. destruct (Nat.eqb_spec m (n - 1)); unfold k; lia.
Qed.

(** a pattern whose last character is unique in it has no blind spot *)
Lemma once_noblind pat : last_once pat -> ~ blindspot (map tolower pat).
Proof.
  intros (p & c & -> & Hp) (s & r & Hs & Hr & H). rewrite map_app in H. simpl in H.
  assert (Hcnt : forall a x r', map tolower p ++ [tolower c] = a ++ x :: r' -> r' <> [] -> x <> tolower c).
  { intros a x r' E Hr'. destruct r' as [|y r'] using rev_ind; [congruence|]. clear IHr'.
    change (a ++ x :: r' ++ [y]) with (a ++ (x :: r') ++ [y]) in E. rewrite app_assoc in E.
    apply app_inj_tail in E as [E _]. intros ->. assert (Hin : In (tolower c) (map tolower p)) by (rewrite E, in_app_iff; simpl; auto).
    apply in_map_iff in Hin as (x & Hx & Hi). rewrite Forall_forall in Hp. apply (Hp x Hi Hx). }
  assert (Hlast : forall z, map tolower p ++ [tolower c] = z ++ s -> exists s', s = s' ++ [tolower c]).
  { intros z E. destruct s as [|y s] using rev_ind; [congruence|]. clear IHs. rewrite app_assoc in E.
    apply app_inj_tail in E as [_ <-]. eauto. }
  destruct H as [(E & z & E')|(a & x & z & d & E & E' & _)].
  - destruct (Hlast z E') as [s' ->]. rewrite <- app_assoc in E. apply (Hcnt s' (tolower c) r E Hr). reflexivity.
  - assert (E'' : map tolower p ++ [tolower c] = (z ++ [d]) ++ s) by (rewrite <- app_assoc; exact E').
    destruct (Hlast _ E'') as [s' ->].
    assert (E3 : map tolower p ++ [tolower c] = (a ++ x :: s') ++ tolower c :: r) by (rewrite E; rewrite <- !app_assoc; reflexivity).
    apply (Hcnt _ _ r E3 Hr). reflexivity.
Qed.

Lemma tolower_cr c : tolower c = 13 -> c = 13.
Proof. unfold tolower. destruct ((65 <=? c) && (c <=? 90)) eqn:E; lia. Qed.

Lemma occurs_app_l pat l r i : occurs_at pat l i -> occurs_at pat (l ++ r) i.
Proof. intros (a & m & b & -> & H1 & H2). exists a, m, (b ++ r). rewrite <- !app_assoc. auto. Qed.
Lemma occurs_app_r pat l r i : occurs_at pat r i -> occurs_at pat (l ++ r) (length l + i).
Proof. intros (a & m & b & -> & <- & H2). exists (l ++ a), m, b. rewrite <- !app_assoc, app_length. auto. Qed.

Lemma occurs_app_cut pat body r i : ~ In 13 pat -> pat <> [] -> occurs_at pat ((body ++ [13]) ++ r) i ->
  (occurs_at pat (body ++ [13]) i /\ (i + length pat <= length body)%nat) \/ exists k, i = (length (body ++ [13%Z]) + k)%nat /\ occurs_at pat r k.
Proof.
  intros Hp H0 H. apply occurs_nth in H as (L & H). rewrite !app_length in L. simpl in L.
  assert (0 < length pat)%nat by (destruct pat; simpl; [congruence|lia]).
  destruct (le_lt_dec (i + length pat) (length body)).
  - left. split; auto. apply occurs_nth. rewrite app_length. simpl. split; [lia|]. intros j Hj.
    rewrite <- H by auto. rewrite (app_nth1 (body ++ [13])) by (rewrite app_length; simpl; lia). reflexivity.
  - destruct (le_lt_dec i (length body)).
    + exfalso. apply Hp. specialize (H (length body - i)%nat ltac:(lia)).
      replace (i + (length body - i))%nat with (length body) in H by lia.
      rewrite <- app_assoc, app_nth2, Nat.sub_diag in H by lia.
      assert (E : nth (length body - i) pat 0 = 13) by (apply tolower_cr; rewrite <- H; reflexivity).
      rewrite <- E. apply nth_In. lia.
    + right. exists (i - length (body ++ [13%Z]))%nat. rewrite app_length. simpl. split; [lia|].
      apply occurs_nth. split; [lia|]. intros j Hj. rewrite <- H by auto.
      rewrite (app_nth2 (body ++ [13])) by (rewrite app_length; simpl; lia). rewrite app_length. simpl.
      do 2 f_equal. lia.
Qed.

Lemma occurs_line pat : ~ In 13 pat -> pat <> [] -> forall ls i, Forall isline ls -> occurs_at pat (concat ls) i ->
  exists l1 l l2 k, ls = l1 ++ l :: l2 /\ i = (length (concat l1) + k)%nat /\ occurs_at pat l k /\ (k + length pat < length l)%nat.
Proof.
  intros Hp H0. induction ls as [|l ls IH]; intros i Hl H.
  - apply occurs_nth in H as (L & _). simpl in L. destruct pat; [congruence|simpl in L; lia].
  - inversion Hl as [|? ? (body & -> & _) Hl2]; subst. cbn [concat] in H.
    apply occurs_app_cut in H as [[H HL]|(k & -> & H)]; auto.
    + exists [], (body ++ [13]), ls, i. rewrite app_length. simpl. repeat split; auto. lia.
    + destruct (IH k Hl2 H) as (l1 & l & l2 & k' & -> & -> & Ho & HL).
      exists ((body ++ [13]) :: l1), l, l2, k'. cbn [concat]. split; auto. rewrite !app_length. repeat split; auto. lia.
Qed.

Lemma linestart_kind A l B k : isline l -> (S k < length l)%nat -> (A = [] \/ exists A', A = A' ++ [13]) ->
  nth (linestart (A ++ l ++ B) (length A + k)) (A ++ l ++ B) 0 = 1 <-> iskludge l.
Proof.
  intros (body & -> & H13 & H1) Hk HA. rewrite app_length in Hk. simpl in Hk.
  assert (Hk' : (k < length body)%nat) by lia. clear Hk.
  set (data := A ++ (body ++ [13]) ++ B).
  assert (Hn : forall j, (j < length body)%nat -> nth (length A + j) data 0 = nth j body 0).
  { intros j Hj. unfold data. rewrite nth_app_mid by (rewrite app_length; simpl; lia). apply app_nth1. auto. }
  assert (H13' : forall j, (j < length body)%nat -> nth j body 0 <> 13) by (intros j Hj E; apply H13; rewrite <- E; apply nth_In; auto).
  assert (Hb : iskludge (body ++ [13]) <-> nth 0 body 0 = 1) by (destruct body; simpl in *; [lia|reflexivity]).
  rewrite Hb. clear Hb.
  induction k as [|k IH].
  - replace (length A + 0)%nat with (length A) by lia. pose proof (Hn 0%nat Hk') as H0. replace (length A + 0)%nat with (length A) in H0 by lia.
    destruct HA as [->|(A' & ->)].
    + simpl. simpl in H0. rewrite H0. reflexivity.
    + rewrite app_length in H0 |- *. simpl in H0 |- *. rewrite Nat.add_1_r in H0 |- *. cbn [linestart]. rewrite H0.
      destruct (Z.eqb_spec (nth 0 body 0) 1) as [E|E]; cbn [orb].
      * rewrite H0. tauto.
      * destruct (Z.eqb_spec (nth 0 body 0) 13) as [E'|_]; [exfalso; eapply H13'; eauto|].
        assert (HN : nth (length A') data 0 = 13).
        { unfold data. rewrite <- app_assoc. cbn [app]. rewrite app_nth2, Nat.sub_diag by lia. reflexivity. }
        assert (HS : linestart data (length A') = length A').
        { destruct (length A') eqn:EA; auto. cbn [linestart]. rewrite HN. reflexivity. }
        rewrite HS, HN. split; [discriminate|congruence].
  - rewrite Nat.add_succ_r. cbn [linestart]. rewrite <- Nat.add_succ_r, Hn by auto.
    destruct (Z.eqb_spec (nth (S k) body 0) 1) as [E|_].
    { exfalso. apply H1. destruct body; simpl in *; [lia|]. rewrite <- E. apply nth_In. lia. }
    destruct (Z.eqb_spec (nth (S k) body 0) 13) as [E'|_]; [exfalso; eapply H13'; eauto|].
    cbn [orb]. apply IH. lia.
Qed.

(** the search of one chunk: an occurrence on the right kind of line *)
Definition hitat (pat data : list Z) (kludge : bool) (i : nat) : Prop :=
  occurs_at pat data i /\ Bool.eqb (nth (linestart data i) data 0 =? 1) kludge = true.

Lemma bmfind_unfold pat text start r : bmfind pat text start = Some r ->
  bmloop (length text + 2) pat text start = Some r.
Proof. unfold bmfind. destruct (forallb is7bit pat); [auto|discriminate]. Qed.

Lemma searchchunk_sound pat data kludge : forall f start, searchchunk f pat data kludge start = Some true ->
  exists i, hitat pat data kludge i.
Proof.
  induction f as [|f IH]; intros start; simpl; [discriminate|].
  destruct (bmfind pat data start) as [[pos|]|] eqn:E; simpl; try discriminate.
  destruct (nth_error data pos); [|discriminate].
  destruct (Bool.eqb _ _) eqn:EB.
  - intros _. exists pos. split; auto. apply bmfind_unfold, bmloop_sound in E. tauto.
  - apply IH.
Qed.
Lemma searchchunk_complete pat data kludge : Z.of_nat (length pat) < 65536 -> ~ blindspot (map tolower pat) ->
  forall f start, searchchunk f pat data kludge start = Some false ->
  forall i, (start <= i)%nat -> ~ hitat pat data kludge i.
Proof.
  intros Hl Ho. induction f as [|f IH]; intros start; simpl; [discriminate|].
  destruct (bmfind pat data start) as [r|] eqn:E; simpl; try discriminate.
  apply bmfind_unfold in E. pose proof (bmloop_complete pat data Hl Ho _ _ _ E) as HC.
  destruct r as [pos|].
  - destruct (nth_error data pos); [|discriminate].
    destruct (Bool.eqb _ _) eqn:EB; [discriminate|].
    intros H i Hi [Hocc Hh]. destruct (lt_eq_lt_dec i pos) as [[Hlt|Heq]|Hgt].
    + apply (HC i); [lia|auto].
    + subst. congruence.
    + apply (IH _ H i); [lia|split; auto].
  - intros _ i Hi [Hocc _]. apply (HC i Hi Hocc).
Qed.
Lemma bmfind_total pat text start : pat <> [] -> Z.of_nat (length pat) < 65536 -> ascii7 pat -> ascii7 text ->
  exists r, bmfind pat text start = Some r.
Proof.
  intros H0 H1 Hp Ht. unfold bmfind.
  assert (E : forallb is7bit pat = true). { apply forallb_forall. intros x Hx. unfold ascii7 in Hp. rewrite Forall_forall in Hp. specialize (Hp x Hx). unfold is7bit. lia. }
  rewrite E. apply bmloop_total; auto; [destruct pat; simpl; [congruence|lia]|lia|lia].
Qed.
Lemma searchchunk_total pat data kludge : pat <> [] -> Z.of_nat (length pat) < 65536 -> ascii7 pat -> ascii7 data ->
  forall f start, (length data + 1 <= f + start)%nat -> (0 < f)%nat -> exists b, searchchunk f pat data kludge start = Some b.
Proof.
  intros H0 H1 Hp Ht. induction f as [|f IH]; intros start Hf Hp0; [lia|]. simpl.
  destruct (bmfind_total pat data start H0 H1 Hp Ht) as [r E]. rewrite E. simpl.
  destruct r as [pos|]; [|eauto].
  apply bmfind_unfold, bmloop_sound in E as [Hs Ho]. apply occurs_nth in Ho as [Hlen _].
  assert (0 < length pat)%nat by (destruct pat; simpl; [congruence|lia]).
  destruct (nth_error data pos) eqn:EN; [|apply nth_error_None in EN; lia].
  destruct (Bool.eqb _ _); [eauto|]. apply IH; lia.
Qed.

(** a chunk of whole lines *)
Lemma hit_lines pat kludge ls : ~ In 13 pat -> pat <> [] -> Forall isline ls ->
  (exists i, hitat pat (concat ls) kludge i) <->
  exists l k, In l ls /\ (iskludge l <-> kludge = true) /\ occurs_at pat l k.
Proof.
  intros Hp H0 Hls.
  assert (HA : forall l1 l l2, ls = l1 ++ l :: l2 -> concat l1 = [] \/ exists A', concat l1 = A' ++ [13]).
  { intros l1 l l2 E. destruct l1 as [|x l1] using rev_ind; [auto|]. right. clear IHl1.
    assert (isline x). { rewrite Forall_forall in Hls. apply Hls. rewrite E. rewrite !in_app_iff. simpl. auto. }
    destruct H as (body & -> & _). rewrite concat_app. simpl. rewrite app_nil_r. exists (concat l1 ++ body). rewrite app_assoc. auto. }
  assert (HK : forall l1 l l2 k, ls = l1 ++ l :: l2 -> (k + length pat < length l)%nat ->
     Bool.eqb (nth (linestart (concat ls) (length (concat l1) + k)) (concat ls) 0 =? 1) kludge = true <-> (iskludge l <-> kludge = true)).
  { intros l1 l l2 k E Hk.
    assert (Hline : isline l). { rewrite Forall_forall in Hls. apply Hls. rewrite E, in_app_iff. simpl. auto. }
    assert (EC : concat ls = concat l1 ++ l ++ concat l2) by (rewrite E, concat_app; reflexivity).
    assert (0 < length pat)%nat by (destruct pat; simpl; [congruence|lia]).
    pose proof (linestart_kind (concat l1) l (concat l2) k Hline ltac:(lia) (HA _ _ _ E)) as HL. rewrite <- EC in HL.
    rewrite <- HL. rewrite Bool.eqb_true_iff.
    destruct (Z.eqb_spec (nth (linestart (concat ls) (length (concat l1) + k)) (concat ls) 0) 1); destruct kludge; intuition congruence. }
  split.
  - intros (i & Hocc & Hk). destruct (occurs_line pat Hp H0 ls i Hls Hocc) as (l1 & l & l2 & k & E & -> & Ho & HL).
    exists l, k. split; [rewrite E, in_app_iff; simpl; auto|]. split; auto. apply (HK l1 l l2 k E HL). auto.
  - intros (l & k & Hin & Hk & Ho). apply in_split in Hin as (l1 & l2 & E). exists (length (concat l1) + k)%nat.
    assert (HL : (k + length pat < length l)%nat).
    { assert (Hline : isline l). { rewrite Forall_forall in Hls. apply Hls. rewrite E, in_app_iff. simpl. auto. }
      destruct Hline as (body & -> & _). rewrite <- (app_nil_r (body ++ [13])) in Ho.
      apply occurs_app_cut in Ho as [[_ Ho]|(k' & _ & Ho)]; auto.
      - rewrite app_length. simpl. lia.
      - apply occurs_nth in Ho as [Ho _]. simpl in Ho. destruct pat; simpl in *; [congruence|lia]. }
    split.
    + rewrite E, concat_app. cbn [concat]. apply occurs_app_r, occurs_app_l, Ho.
    + apply (HK l1 l l2 k E HL). auto.
Qed.

(** ** Filters *)
(** conditions look at TOSSED, AUTOGEN and EXPORTED only *)
Definition sameflags (f g : Z) : Prop :=
  flag f MMFLAG_TOSSED = flag g MMFLAG_TOSSED /\ flag f MMFLAG_AUTOGEN = flag g MMFLAG_AUTOGEN /\
  flag f MMFLAG_EXPORTED = flag g MMFLAG_EXPORTED.
Lemma evalfilter_flags e mm f s : sameflags f (Flags mm) -> evalfilter e (set_Flags mm f) s = evalfilter e mm s.
Proof.
  intros (H1 & H2 & H3). apply evaluate_ext. intros w. unfold filter_evalfunc.
  assert (E : mmsource (set_Flags mm f) = mmsource mm) by (unfold mmsource; cbn [Flags set_Flags]; rewrite H1, H2, H3; reflexivity).
  destruct (splitstatement w) as [[v op] data]. cbv zeta. rewrite E. reflexivity.
Qed.
Lemma land_lor_0 a b m : Z.land b m = 0 -> Z.land (Z.lor a b) m = Z.land a m.
Proof. intros H. rewrite Z.land_lor_distr_l, H, Z.lor_0_r. reflexivity. Qed.
Lemma sameflags_lor f g b : sameflags f g -> b = MMFLAG_KILL \/ b = MMFLAG_TWIT -> sameflags (Z.lor f b) g.
Proof.
  intros (H1 & H2 & H3) Hb. unfold sameflags, flag in *. rewrite <- H1, <- H2, <- H3.
  destruct Hb as [->| ->]; rewrite !land_lor_0 by reflexivity; auto.
Qed.
Lemma set_Flags_id mm : set_Flags mm (Flags mm) = mm.
Proof. destruct mm; reflexivity. Qed.
Lemma set_Flags_twice mm f g : set_Flags (set_Flags mm f) g = set_Flags mm g.
Proof. reflexivity. Qed.

Lemma kill_twit f : flag (Z.lor f MMFLAG_TWIT) MMFLAG_KILL = flag f MMFLAG_KILL.
Proof. unfold flag. rewrite land_lor_0 by reflexivity. reflexivity. Qed.
Lemma kill_kill f : flag (Z.lor f MMFLAG_KILL) MMFLAG_KILL = true.
Proof.
  unfold flag. destruct (Z.eqb_spec (Z.land (Z.lor f MMFLAG_KILL) MMFLAG_KILL) 0) as [E|]; auto.
  exfalso. assert (T : Z.testbit (Z.land (Z.lor f MMFLAG_KILL) MMFLAG_KILL) 6 = true).
  { rewrite Z.land_spec, Z.lor_spec. rewrite orb_true_r. reflexivity. }
  rewrite E in T. discriminate.
Qed.

Lemma copymsg_spec mm : chunks_ok (TextChunks mm) -> exists m', copymsg mm = Some m' /\
  mmtext m' = match Area mm with [] => [] | a => lit "AREA:" ++ a ++ [13] end ++ mmtext mm /\
  set_TextChunks m' (TextChunks mm) = mm.
Proof.
  intros H. unfold copymsg.
  assert (HA : forall ls cs, chunks_ok cs -> exists cs', addlines cs ls = Some cs' /\ concat (rev cs') = concat (rev cs) ++ concat ls).
  { induction ls as [|l ls IH]; intros cs Hcs; simpl; [exists cs; rewrite app_nil_r; auto|].
    destruct (mmAddBuf_spec cs l Hcs) as (cs1 & E1 & E2 & H1). rewrite E1. simpl.
    destruct (IH cs1 H1) as (cs2 & E3 & E4). exists cs2. rewrite E4, E2, <- app_assoc. auto. }
  set (pre := match Area mm with [] => [] | a => lit "AREA:" ++ a ++ [13] end).
  assert (HB : exists cs0, match Area mm with [] => Some [] | a => mmAddBuf [] (lit "AREA:" ++ a ++ [13]) end = Some cs0 /\ concat (rev cs0) = pre /\ chunks_ok cs0).
  { unfold pre. destruct (Area mm) as [|a ar]; [exists []; repeat split; constructor|].
    destruct (mmAddBuf_spec [] (lit "AREA:" ++ (a :: ar) ++ [13])) as (cs' & E1 & E2 & E3); [constructor|].
    exists cs'. rewrite E1, E2. auto. }
  destruct HB as (cs0 & -> & EP & H0). simpl.
  destruct (HA (rev (TextChunks mm)) cs0 H0) as (cs & -> & EC). simpl.
  exists (set_TextChunks mm cs). split; auto. split; [|destruct mm; reflexivity].
  unfold mmtext. cbn [TextChunks set_TextChunks]. rewrite EC, EP. reflexivity.
Qed.
