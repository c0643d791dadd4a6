(** C40: maintenance and renumbering of *.MSG areas. *)
From Coq Require Import Sorting.Sorted Sorting.Permutation.
From Verif Require Import Base M_Mem M_Fs P_Fs M_Msg S_Msg P_Msg M_MsgMaint S_MsgMaint P_MsgMaint.

(** In an area whose messages [ns] have the usual names, maintenance never fails; afterwards
    the messages that stay are there under their numbers, or with renumbering under
    consecutive numbers from 2 on in the same order; there are no other messages; and no
    file but "<n>.msg" is touched. *)
Theorem C40_maintenance day sort maint pack keepnum keepdays now date dir ns dayof :
  canonical dir -> NoDup (map fst dir) -> messages dir ns -> num_sort sort -> 0 <= keepnum ->
  (forall n, In n ns -> day (dec n ++ lit ".msg") = Some (dayof n) /\ is_u32 (dayof n)) ->
  exists ops, ProcessAreaMSG day sort maint pack keepnum keepdays now date dir = Some ops /\
  let dir' := maintained WOk dir ops in
  let K := kept maint keepnum keepdays ((now / 86400) mod 4294967296) dayof ns in
  (forall p, (p < length K)%nat -> msgfile dir' (newnum pack K p) = msgfile dir (nth p K 0)) /\
  (forall n, 2 <= n < 4294967296 -> msgfile dir' n <> None -> exists p, (p < length K)%nat /\ n = newnum pack K p) /\
  (forall name, (forall n, 1 <= n < 4294967296 -> name <> dec n ++ lit ".msg") -> fget dir' name = fget dir name).
Proof.
  intros Hc Hnd Hm Hs Hk Hd.
  destruct (process_spec day sort maint pack keepnum keepdays now date dir ns dayof Hc Hnd Hm Hs Hd Hk) as (D & hw' & E & _).
  match type of E with _ = Some ?o => set (ops := o) in E end. exists ops. split; [exact E|]. clearbody ops. cbv zeta.
  destruct (process_prefix day sort maint pack keepnum keepdays now date dir ns dayof Hc Hnd Hm Hs Hd Hk WOk ops (length ops) E) as (i & _ & I1 & I2 & I3 & I4).
  rewrite firstn_all in I2, I3, I4. specialize (I1 (le_n _)).
  set (K := kept maint keepnum keepdays ((now / 86400) mod 4294967296) dayof ns) in *.
  assert (Hu : forall p, (p < length K)%nat -> underway K i p = newnum pack K p).
  { intros p Hp. unfold underway, newnum. rewrite I1. destruct pack; [|reflexivity]. destruct (Nat.ltb_spec p (length K)); [auto|lia]. }
  split; [|split; [|exact I4]].
  - intros p Hp. rewrite <- Hu by auto. auto.
  - intros n Hn Hx. destruct (I3 n Hn Hx) as [(p & P1 & P2)|(Hl & _)]; [|lia]. exists p. split; auto. rewrite <- Hu; auto.
Qed.

(** Whenever the program is stopped or killed, every message that is to stay is there with
    its contents, in the same order: the first [i] under the new numbers, the others under
    the old ones. What else is there are messages to be deleted, under their numbers. *)
Theorem C40_interrupted day sort maint pack keepnum keepdays now date dir ns dayof ops j w :
  canonical dir -> NoDup (map fst dir) -> messages dir ns -> num_sort sort -> 0 <= keepnum ->
  (forall n, In n ns -> day (dec n ++ lit ".msg") = Some (dayof n) /\ is_u32 (dayof n)) ->
  ProcessAreaMSG day sort maint pack keepnum keepdays now date dir = Some ops ->
  let dir' := maintained w dir (firstn j ops) in
  let K := kept maint keepnum keepdays ((now / 86400) mod 4294967296) dayof ns in
  exists i, (pack = false -> i = O) /\
    (forall p, (p < length K)%nat -> msgfile dir' (underway K i p) = msgfile dir (nth p K 0)) /\
    (forall n, 2 <= n < 4294967296 -> msgfile dir' n <> None ->
       (exists p, (p < length K)%nat /\ n = underway K i p) \/ (In n ns /\ ~ In n K /\ msgfile dir' n = msgfile dir n)) /\
    (forall name, (forall n, 1 <= n < 4294967296 -> name <> dec n ++ lit ".msg") -> fget dir' name = fget dir name).
Proof.
  intros Hc Hnd Hm Hs Hk Hd E. cbv zeta.
  destruct (process_prefix day sort maint pack keepnum keepdays now date dir ns dayof Hc Hnd Hm Hs Hd Hk w _ j E) as (i & I0 & _ & I2 & I3 & I4).
  exists i. split; auto. split; auto. split; auto. intros n Hn Hx. destruct (I3 n Hn Hx) as [?|(_ & ?)]; auto.
Qed.
(** the numbers under way are in ascending order too *)
Theorem C40_order K i p q : StronglySorted Z.lt K -> Forall (fun n => 2 <= n) K -> (p < q < length K)%nat -> underway K i p < underway K i q.
Proof.
  intros Hs Hf [Hp Hq]. unfold underway.
  assert (Hlt : nth p K 0 < nth q K 0).
  { clear Hf. revert p q Hp Hq. induction Hs as [|a l Hs IH Hf]; intros p q Hp Hq; cbn [length] in Hq; [lia|]. destruct q as [|q]; [lia|]. destruct p as [|p]; cbn [nth].
    - rewrite Forall_forall in Hf. apply Hf. apply nth_In. lia.
    - apply IH; lia. }
  destruct (Nat.ltb_spec p i), (Nat.ltb_spec q i); try lia.
  pose proof (sorted_nth K 2 Hs ltac:(rewrite Forall_forall in Hf; intros x Hx; specialize (Hf x Hx); lia) q Hq). lia.
Qed.

(** The high water mark: it names the same message as before, under its new number; if that
    message was deleted it is 0; if there was no such message it is unchanged. As long as
    it stays the same, 1.msg is not touched. *)
Theorem C40_mark day sort maint pack keepnum keepdays now date dir ns dayof ops :
  canonical dir -> NoDup (map fst dir) -> messages dir ns -> num_sort sort -> 0 <= keepnum ->
  (forall n, In n ns -> day (dec n ++ lit ".msg") = Some (dayof n) /\ is_u32 (dayof n)) ->
  (forall b, msgfile dir 1 = Some b -> bytes b) ->
  ProcessAreaMSG day sort maint pack keepnum keepdays now date dir = Some ops ->
  let dir' := maintained WOk dir ops in
  let K := kept maint keepnum keepdays ((now / 86400) mod 4294967296) dayof ns in
  (forall p, (p < length K)%nat -> mark_of dir = nth p K 0 -> mark_of dir' = newnum pack K p) /\
  (In (mark_of dir) ns -> ~ In (mark_of dir) K -> mark_of dir' = 0) /\
  (~ In (mark_of dir) ns -> mark_of dir' = mark_of dir) /\
  (mark_of dir' = mark_of dir -> msgfile dir' 1 = msgfile dir 1).
Proof.
  intros Hc Hnd Hm Hs Hk Hd Hb E. cbv zeta.
  destruct (process_mark day sort maint pack keepnum keepdays now date dir ns dayof Hc Hnd Hm Hs Hd Hk ops Hb E) as [A B].
  destruct (process_spec day sort maint pack keepnum keepdays now date dir ns dayof Hc Hnd Hm Hs Hd Hk) as (_ & _ & _ & _ & HsK & HKn & _).
  set (K := kept maint keepnum keepdays ((now / 86400) mod 4294967296) dayof ns) in *. rewrite A. split; [|split; [|split]].
  - intros p Hp Ep. assert (Hi : In (mark_of dir) K) by (rewrite Ep; apply nth_In; auto). rewrite (proj2 (inb_In _ _) Hi), (proj2 (inb_In _ _) (HKn _ Hi)).
    unfold newnum. destruct pack; auto. rewrite Ep. apply newmark_nth; auto. apply sorted_NoDup; auto.
  - intros Hi Hni. rewrite (proj2 (inb_In _ _) Hi). destruct (inb (mark_of dir) K) eqn:Ei; auto. apply inb_In in Ei. contradiction.
  - intros Hni. destruct (inb (mark_of dir) ns) eqn:Ei; auto. apply inb_In in Ei. contradiction.
  - rewrite <- A. exact B.
Qed.
(** Thus a mark that names an existing message does so afterwards, as scanning needs (C36). *)
Theorem C40_mark_exists cfg day sort maint pack keepnum keepdays now date dir ns dayof ops :
  canonical dir -> NoDup (map fst dir) -> messages dir ns -> num_sort sort -> 0 <= keepnum ->
  (forall n, In n ns -> day (dec n ++ lit ".msg") = Some (dayof n) /\ is_u32 (dayof n)) ->
  (forall b, msgfile dir 1 = Some b -> bytes b) ->
  ProcessAreaMSG day sort maint pack keepnum keepdays now date dir = Some ops ->
  hw_exists cfg dir -> hw_exists cfg (maintained WOk dir ops).
Proof.
  intros Hc Hnd Hm Hs Hk Hd Hb E Hh. unfold hw_exists in *.
  assert (Hmk : forall d, hwmark cfg d = if Z.testbit (mc_mflags cfg) 1 then mark_of d else 0) by reflexivity.
  rewrite Hmk in *. destruct (Z.testbit (mc_mflags cfg) 1); [|auto].
  destruct (C40_mark day sort maint pack keepnum keepdays now date dir ns dayof ops) as (A & B & C & D); auto.
  destruct (C40_maintenance day sort maint pack keepnum keepdays now date dir ns dayof) as (ops' & E' & F1 & F2 & F3); auto.
  assert (ops' = ops) by congruence. subst ops'. cbv zeta in *.
  set (K := kept maint keepnum keepdays ((now / 86400) mod 4294967296) dayof ns) in *.
  destruct (in_dec Z.eq_dec (mark_of dir) ns) as [Hi|Hi].
  - destruct (in_dec Z.eq_dec (mark_of dir) K) as [Hk'|Hk'].
    + right. apply (In_nth _ _ 0) in Hk' as (p & P1 & P2). rewrite (A p) by auto. rewrite F1 by auto. rewrite P2. apply Hm. auto.
    + left. auto.
  - rewrite C by auto. destruct (Z.eq_dec (mark_of dir) 0) as [E0|E0]; [auto|]. destruct Hh as [Hh|Hh]; [auto|].
    destruct (Z.eq_dec (mark_of dir) 1) as [E1|E1]; [right; rewrite E1 in *; rewrite D by (apply C; auto); auto|]. exfalso. apply Hi. apply Hm. split; auto.
    assert (Hu : 0 <= mark_of dir < 65536).
    { unfold mark_of. destruct (msgfile dir 1) as [b|] eqn:Eb; [|lia]. destruct (Nat.leb _ _); [|lia]. specialize (Hb b eq_refl). unfold replyto_of, get16.
      assert (G : forall i, 0 <= nth i b 0 <= 255).
      { intros i. destruct (nth_in_or_default i b 0) as [Hx| ->]; [|lia]. unfold bytes in Hb. rewrite Forall_forall in Hb. apply Hb in Hx. unfold is_u8 in Hx. lia. }
      pose proof (G 184%nat). pose proof (G 185%nat). change (S 184) with 185%nat. lia. }
    lia.
Qed.

(** The age of a message that is not from the future is the difference of the days. *)
Theorem C40_ages keepdays today day ns : is_u32 today -> (forall n, In n ns -> 0 <= day n <= today) ->
  by_days keepdays today day ns = if keepdays =? 0 then ns else filter (fun n => today - day n <=? keepdays) ns.
Proof.
  intros Ht Hd. unfold by_days. destruct (keepdays =? 0); auto. apply filter_ext_in. intros n Hn. specialize (Hd n Hn). unfold is_u32 in Ht.
  rewrite Z.mod_small by lia. reflexivity.
Qed.

(** ** A concrete case *)
Fixpoint insert (m : mmsg) (l : list mmsg) : list mmsg :=
  match l with [] => [m] | x :: r => if m_num m <=? m_num x then m :: l else x :: insert m r end.
Definition isort (l : list mmsg) : list mmsg := fold_right insert [] l.
Lemma insert_ok m l : Permutation (insert m l) (m :: l) /\ (StronglySorted (fun a b => m_num a <= m_num b) l -> StronglySorted (fun a b => m_num a <= m_num b) (insert m l)).
Proof.
  induction l as [|x r [IH1 IH2]]; cbn [insert].
  - split; [auto|]. intros. repeat constructor.
  - destruct (Z.leb_spec (m_num m) (m_num x)).
    + split; [auto|]. intros Hs. constructor; auto. inversion Hs as [|? ? Hs' Hf]; subst. constructor; auto. eapply Forall_impl; [|exact Hf]. cbn. intros; lia.
    + split; [rewrite IH1; apply perm_swap|]. intros Hs. inversion Hs as [|? ? Hs' Hf]; subst. constructor; auto.
      apply Forall_forall. intros y Hy. apply (Permutation_in _ IH1) in Hy as [<-|Hy]; [lia|]. rewrite Forall_forall in Hf. auto.
Qed.
Lemma isort_ok : num_sort isort.
Proof.
  intros l. induction l as [|a l [IH1 IH2]]; cbn [isort fold_right]; [split; constructor|]. destruct (insert_ok a (isort l)) as [A B].
  split; [rewrite A; auto|auto].
Qed.
Definition xjunk : list Z := repeat 7 190.
Definition xhw (h : Z) : list Z := hwmsg xjunk (lit "01 Jan 99  00:00:00") h.
Definition xdir : fsys := [(lit "9.msg", [9]); (lit "1.msg", xhw 7); (lit "4.msg", [4]); (lit "readme", [0]); (lit "7.msg", [7]); (lit "2.msg", [2])].
Definition xday (name : list Z) : option Z := match name with [c; _; _; _; _] => Some (c + 100) | _ => None end.
Definition xdate : list Z := lit "02 Jan 99  00:00:00".
Definition xview (dir : fsys) : list (option (list Z)) := map (msgfile dir) [2; 3; 4; 5; 6; 7; 8; 9].
Definition xrun (maint pack : bool) (kn kd : Z) (dir : fsys) : option (list (option (list Z)) * Z) :=
  option_map (fun ops => (xview (maintained WOk dir ops), mark_of (maintained WOk dir ops))) (ProcessAreaMSG xday isort maint pack kn kd (86400 * 160) xdate dir).
Lemma xin name : In name (map fst xdir) -> name = lit "9.msg" \/ name = lit "1.msg" \/ name = lit "4.msg" \/ name = lit "readme" \/ name = lit "7.msg" \/ name = lit "2.msg".
Proof. cbn [map fst xdir In]. intuition. Qed.
Example C40_nonvacuous : canonical xdir /\ NoDup (map fst xdir) /\ messages xdir [2; 4; 7; 9] /\ num_sort isort /\
  (forall n, In n [2; 4; 7; 9] -> xday (dec n ++ lit ".msg") = Some (n + 148) /\ is_u32 (n + 148)) /\
  (forall b, msgfile xdir 1 = Some b -> bytes b) /\ mark_of xdir = 7 /\
  xrun true true 3 0 xdir = Some ([Some [4]; Some [7]; Some [9]; None; None; None; None; None], 3) /\
  xrun true false 0 5 xdir = Some ([None; None; None; None; None; Some [7]; None; Some [9]], 7) /\
  xrun true true 1 0 xdir = Some ([Some [9]; None; None; None; None; None; None; None], 0).
Proof.
  split.
  { intros name n Hi [H1 <-] H2. apply xin in Hi as [->|[->|[->|[->|[->| ->]]]]]; try (vm_compute; split; reflexivity).
    exfalso. vm_compute in H2. apply H2. reflexivity. }
  split; [repeat constructor; cbn [map fst In]; intuition discriminate|]. split.
  { split; [repeat constructor|]. intros n. split.
    - intros Hi. cbn [In] in Hi. repeat (destruct Hi as [<-|Hi]; [split; [lia|vm_compute; discriminate]|]). contradiction.
    - intros [Hn Hx]. unfold msgfile in Hx. fold (msgname n) in Hx.
      assert (Hi : In (msgname n) (map fst xdir)) by (apply osExists_In; unfold osExists; destruct (fget xdir (msgname n)); auto; contradiction).
      apply xin in Hi. assert (Ha : atol (msgname n) = n) by (apply atol_msgname; unfold is_u32; lia).
      destruct Hi as [E|[E|[E|[E|[E|E]]]]]; rewrite E in Ha; vm_compute in Ha; subst n; cbn [In]; auto; lia. }
  split; [apply isort_ok|]. split.
  { intros n Hi. cbn [In] in Hi. repeat (destruct Hi as [<-|Hi]; [split; [reflexivity|unfold is_u32; lia]|]). contradiction. }
  split.
  { intros b Hb. assert (Eb : Some b = Some (xhw 7)) by (rewrite <- Hb; reflexivity). injection Eb as ->. unfold bytes.
    apply Forall_forall. intros x Hx. assert (Hall : forallb (fun x => (0 <=? x) && (x <=? 255)) (xhw 7) = true) by (vm_compute; reflexivity).
    rewrite forallb_forall in Hall. specialize (Hall x Hx). unfold is_u8. lia. }
  split; [reflexivity|]. repeat split; vm_compute; reflexivity.
Qed.

(** ** Findings *)

(** Two names with the same number: renumbering moves 2.msg over 3.msg, which is lost. *)
Theorem C40_same_number_refuted : exists dir, msgfile dir 3 = Some [3] /\
  option_map (fun ops => maintained WOk dir ops) (ProcessAreaMSG (fun _ => Some 0) isort false true 0 0 0 xdate dir) =
    Some [(lit "4.msg", [2]); (lit "02.msg", [0])].
Proof. exists [(lit "2.msg", [2]); (lit "02.msg", [0]); (lit "3.msg", [3])]. split; vm_compute; reflexivity. Qed.
(** Files dated in the future are deleted by date. *)
Theorem C40_future_refuted : exists day now, day (lit "2.msg") = Some (now / 86400 + 1) /\
  ProcessAreaMSG day isort true false 0 30 now xdate [(lit "2.msg", [2])] = Some [ODel (lit "2.msg")].
Proof. exists (fun _ => Some 101), 8640000. split; reflexivity. Qed.
(** Stopped after the renaming and before the high water mark is written, the mark names a
    message that is not there or another one: here it stays at 7 while only 2 and 3 exist,
    so that the next messages posted are not exported (C36_stale_mark_refuted). *)
Theorem C40_interrupted_mark_refuted : exists dir ops j, ProcessAreaMSG xday isort false true 0 0 0 xdate dir = Some ops /\ (j < length ops)%nat /\
  mark_of dir = 7 /\ msgfile dir 7 = Some [7] /\ 
  let dir' := maintained WOk dir (firstn j ops) in mark_of dir' = 7 /\ xview dir' = [Some [7]; Some [9]; None; None; None; None; None; None].
Proof.
  exists [(lit "9.msg", [9]); (lit "1.msg", xhw 7); (lit "7.msg", [7])]. eexists _, 2%nat. split; [vm_compute; reflexivity|]. split; [cbn; lia|].
  repeat split; vm_compute; reflexivity.
Qed.
(** A high water mark whose message is gone is kept as it is when the others are
    renumbered. *)
Theorem C40_stale_mark_refuted : exists dir, mark_of dir = 7 /\ xrun false true 0 0 dir = Some ([Some [8]; Some [9]; None; None; None; None; None; None], 7).
Proof. exists [(lit "9.msg", [9]); (lit "1.msg", xhw 7); (lit "8.msg", [8])]. split; vm_compute; reflexivity. Qed.
(** Numbers that are a multiple of 2^32 count as deleted already; looking for a message to
    delete then runs off the end of the list. *)
Theorem C40_huge_refuted : ProcessAreaMSG (fun _ => Some 0) isort true false 1 0 0 xdate [(lit "4294967296.msg", []); (lit "8589934592.msg", [])] = None.
Proof. vm_compute. reflexivity. Qed.

Print Assumptions C40_maintenance.
Print Assumptions C40_interrupted.
Print Assumptions C40_order.
Print Assumptions C40_mark.
Print Assumptions C40_mark_exists.
Print Assumptions C40_ages.
Print Assumptions C40_same_number_refuted.
Print Assumptions C40_future_refuted.
Print Assumptions C40_interrupted_mark_refuted.
Print Assumptions C40_stale_mark_refuted.
Print Assumptions C40_huge_refuted.
