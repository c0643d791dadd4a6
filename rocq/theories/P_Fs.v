(** Lemmas about the file system model. *)
From Coq Require Import Logic.FinFun.
From Verif Require Import Base M_Fs.

Lemma streq_sym a b : streq a b = streq b a.
Proof.
  destruct (streq a b) eqn:E.
  - apply streq_eq in E. subst. symmetry. apply streq_refl.
  - symmetry. apply streq_neq. apply streq_neq in E. congruence.
Qed.
Lemma fget_del_same fs n : fget (osDelete fs n) n = None.
Proof.
  induction fs as [|[k c] r IH]; simpl; auto.
  destruct (streq n k) eqn:E; simpl; auto. rewrite E. exact IH.
Qed.
Lemma fget_del_other fs n m : n <> m -> fget (osDelete fs n) m = fget fs m.
Proof.
  intros H. induction fs as [|[k c] r IH]; simpl; auto.
  destruct (streq n k) eqn:E; simpl.
  - rewrite IH. apply streq_eq in E. subst. destruct (streq m k) eqn:E2; auto.
    apply streq_eq in E2. congruence.
  - rewrite IH. reflexivity.
Qed.
Lemma fget_put_same fs n c : fget (fput fs n c) n = Some c.
Proof. unfold fput; simpl. rewrite streq_refl. reflexivity. Qed.
Lemma fget_put_other fs n m c : n <> m -> fget (fput fs n c) m = fget fs m.
Proof.
  intros H. unfold fput; simpl. destruct (streq m n) eqn:E.
  - apply streq_eq in E. congruence.
  - apply fget_del_other; auto.
Qed.
Lemma fget_In fs n c : fget fs n = Some c -> In (n, c) fs.
Proof.
  induction fs as [|[k d] r IH]; simpl; [discriminate|]. destruct (streq n k) eqn:E.
  - apply streq_eq in E. intros H; injection H as <-. subst; auto.
  - auto.
Qed.
Lemma osExists_In fs n : osExists fs n = true -> In n (map fst fs).
Proof.
  unfold osExists. destruct (fget fs n) eqn:E; [|discriminate]. intros _.
  apply fget_In in E. apply in_map_iff. exists (n, l); auto.
Qed.
Lemma rename_same fs a b fs' : osRename fs a b = Some fs' -> fget fs' b = fget fs a.
Proof.
  unfold osRename. destruct (fget fs a) eqn:E; [|discriminate]. intros H; injection H as <-.
  destruct (streq a b) eqn:Eab.
  - apply streq_eq in Eab. subst. auto.
  - apply fget_put_same.
Qed.
Lemma rename_other fs a b fs' m : osRename fs a b = Some fs' -> m <> a -> m <> b -> fget fs' m = fget fs m.
Proof.
  unfold osRename. destruct (fget fs a) eqn:E; [|discriminate]. intros H; injection H as <-. intros Ha Hb.
  destruct (streq a b) eqn:Eab; auto. rewrite fget_put_other by auto. apply fget_del_other; auto.
Qed.

(** pigeonhole: a search for a free name among distinct names succeeds *)
Lemma firstfree_ok fs (nm : Z -> list Z) n0 : (forall a b, n0 <= a -> n0 <= b -> nm a = nm b -> a = b) ->
  exists k, firstfree (S (length fs)) fs nm n0 = Some k /\ n0 <= k /\ osExists fs (nm k) = false /\
    (forall j, n0 <= j < k -> osExists fs (nm j) = true).
Proof.
  intros Hinj.
  assert (Hgen : forall fuel n, n0 <= n -> (exists k, firstfree fuel fs nm n = Some k /\ n <= k /\
      osExists fs (nm k) = false /\ (forall j, n <= j < k -> osExists fs (nm j) = true)) \/
      (forall j, n <= j < n + Z.of_nat fuel -> osExists fs (nm j) = true)).
  { induction fuel as [|f IH]; intros n Hn; [right; lia|]. cbn [firstfree].
    destruct (osExists fs (nm n)) eqn:E.
    - destruct (IH (n + 1)) as [(k & H1 & H2 & H3 & H4)|H]; [lia| |].
      + left. exists k. repeat split; auto; [lia|]. intros j Hj. destruct (Z.eq_dec j n); [subst; auto|]. apply H4. lia.
      + right. intros j Hj. destruct (Z.eq_dec j n); [subst; auto|]. apply H. lia.
    - left. exists n. repeat split; auto; [lia|]. intros; lia. }
  destruct (Hgen (S (length fs)) n0) as [H|H]; [lia|exact H|]. exfalso.
  assert (Hinc : incl (map (fun i => nm (n0 + Z.of_nat i)) (seq 0 (S (length fs)))) (map fst fs)).
  { intros x Hx. apply in_map_iff in Hx as (i & <- & Hi). apply in_seq in Hi. apply osExists_In. apply H. lia. }
  apply NoDup_incl_length in Hinc.
  - rewrite !map_length, seq_length in Hinc. lia.
  - apply Injective_map_NoDup; [|apply seq_NoDup].
    intros a b E. apply Hinj in E; lia.
Qed.
