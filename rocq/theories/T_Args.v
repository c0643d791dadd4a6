(** C57: command lines. *)
From Coq Require Import Permutation.
From Verif Require Import Base M_Args S_Args P_Args.

Lemma parse_plain tbl its : distinct tbl -> plain tbl its ->
  parseargs tbl (line its) =
    if (length (free its) <=? room tbl 0 (named its))%nat && mandatory tbl (meaning tbl 0 (named its) (free its))
    then Some (meaning tbl 0 (named its) (free its)) else None.
Proof.
  intros Hd (Hok & Hnd & A & B & -> & HA & HB). unfold parseargs.
  rewrite <- (meaning_nil tbl (named [])) with (j := 0%nat) by reflexivity. change (@nil (list Z)) with (free []).
  rewrite (argloop_items tbl Hd (A ++ B) []); auto.
  - cbn [app free length Nat.max]. destruct (_ <=? _)%nat; [|reflexivity]. cbn [andb]. destruct (mandatory _ _); reflexivity.
  - intros p it q j a E Hs Ha. cbn [app]. destruct (le_lt_dec (length A) (length p)) as [Hl|Hl].
    + right. apply (HB it j a); auto. apply (f_equal (skipn (length A))) in E.
      rewrite skipn_app, skipn_all, Nat.sub_diag in E. cbn [skipn app] in E. rewrite E, skipn_app, in_app_iff. right.
      replace (length A - length p)%nat with O by lia. cbn. auto.
    + left. apply (f_equal (firstn (length p))) in E. rewrite !firstn_app, Nat.sub_diag, firstn_all, firstn_O, app_nil_r in E.
      replace (length p - length A)%nat with O in E by lia. rewrite firstn_O, app_nil_r in E. rewrite <- E.
      rewrite <- (firstn_skipn (length p) A), free_app in HA. apply app_eq_nil in HA as [HA _]. exact HA.
Qed.

(** A command line in which no argument is given twice is read as it is meant: switches are
    on, a keyword has the word behind it as its value, and the free words are the values of
    the remaining arguments that need no keyword, in their order. *)
Theorem C57_accepted : forall tbl its, distinct tbl -> plain tbl its ->
  (length (free its) <= room tbl 0 (named its))%nat ->
  (forall j a, nth_error tbl j = Some a -> a_mand a = true -> nth_error (meaning tbl 0 (named its) (free its)) j <> Some None) ->
  parseargs tbl (line its) = Some (meaning tbl 0 (named its) (free its)).
Proof.
  intros tbl its Hd Hp Hr Hm. rewrite parse_plain by auto. rewrite (proj2 (Nat.leb_le _ _) Hr).
  rewrite (proj2 (mandatory_spec tbl _ (meaning_length tbl _ _ 0)) Hm). reflexivity.
Qed.
Print Assumptions C57_accepted.

(** It is refused if there are too many free words or if an argument is missing. *)
Theorem C57_refused : forall tbl its, distinct tbl -> plain tbl its ->
  (room tbl 0 (named its) < length (free its))%nat \/
  (exists j a, nth_error tbl j = Some a /\ a_mand a = true /\ nth_error (meaning tbl 0 (named its) (free its)) j = Some None) ->
  parseargs tbl (line its) = None.
Proof.
  intros tbl its Hd Hp H. rewrite parse_plain by auto. destruct H as [H|(j & a & Ha & Hm & Hn)].
  - destruct (Nat.leb_spec (length (free its)) (room tbl 0 (named its))); [lia|reflexivity].
  - assert (E : mandatory tbl (meaning tbl 0 (named its) (free its)) = false).
    { apply Bool.not_true_is_false. intros HE. apply (proj1 (mandatory_spec tbl _ (meaning_length tbl _ _ 0)) HE j a Ha Hm Hn). }
    rewrite E, andb_false_r. reflexivity.
Qed.
Print Assumptions C57_refused.

(** The order of the arguments does not matter, except for that of the free words. *)
Lemma named_perm its its' : Permutation its its' -> NoDup (slots its) -> forall j, named its j = named its' j.
Proof.
  induction 1 as [|x l l' H IH|x y l|l m n H1 IH1 H2 IH2]; intros Hn j; auto.
  - change (x :: l) with ([x] ++ l) in *. rewrite slots_app in Hn.
    assert (Hl : NoDup (slots l)).
    { destruct x; cbn in Hn; auto; inversion Hn; auto. }
    destruct x; cbn; rewrite IH; auto.
  - destruct x as [a ? ?|a ?|?], y as [b ? ?|b ?|?]; cbn; auto; cbn in Hn; inversion Hn as [|? ? Hi _]; subst;
      destruct (Nat.eqb_spec j a), (Nat.eqb_spec j b); auto; subst; exfalso; apply Hi; left; reflexivity.
  - rewrite IH1 by auto. apply IH2. eapply Permutation_NoDup; [|exact Hn]. unfold slots.
    clear -H1. induction H1; cbn; auto.
    + apply Permutation_app; auto.
    + rewrite !app_assoc. apply Permutation_app_tail, Permutation_app_comm.
    + eapply Permutation_trans; eauto.
Qed.
Theorem C57_order : forall tbl its its', distinct tbl -> plain tbl its -> plain tbl its' ->
  Permutation its its' -> free its = free its' -> parseargs tbl (line its) = parseargs tbl (line its').
Proof.
  intros tbl its its' Hd Hp Hp' HP Hf. rewrite !parse_plain by auto. rewrite Hf.
  destruct Hp as (_ & Hnd & _). pose proof (named_perm its its' HP Hnd) as HN.
  rewrite (meaning_ext tbl _ _ HN). replace (room tbl 0 (named its)) with (room tbl 0 (named its')); [reflexivity|].
  apply room_ext. intros i a _ _. rewrite Nat.add_0_l, HN. tauto.
Qed.
Print Assumptions C57_order.

(** Nothing else is accepted: an accepted command line consists of keywords with a value,
    switches and words which are no keyword. *)
Theorem C57_reads : forall tbl ws ds, parseargs tbl ws = Some ds -> exists its, line its = ws /\ Forall (item_ok tbl) its.
Proof.
  intros tbl ws ds H. unfold parseargs in H. destruct (argloop tbl (repeat None (length tbl)) ws) as [d|] eqn:E; [|discriminate].
  eapply argloop_reads; eauto.
Qed.
Print Assumptions C57_reads.

(** A keyword that wants a value is refused at the end of the line. *)
Theorem C57_novalue : forall tbl its j kw, distinct tbl -> Forall (item_ok tbl) its -> names tbl j kw AString ->
  parseargs tbl (line its ++ [kw]) = None.
Proof.
  intros tbl its j kw Hd Hok Hn. unfold parseargs.
  assert (HX : forall ds, argloop tbl ds (line its ++ [kw]) = None).
  { induction Hok as [|it its Hit Hok IH]; intros ds.
    - cbn. destruct (keyfind_names tbl kw j _ Hd Hn) as [-> ->]. reflexivity.
    - change (line (it :: its)) with (words it ++ line its). rewrite <- app_assoc. destruct it as [k w v|k w|w]; cbn [words app argloop].
      + destruct (keyfind_names tbl w k _ Hd Hit) as [-> ->]. apply IH.
      + destruct (keyfind_names tbl w k _ Hd Hit) as [-> ->]. apply IH.
      + rewrite (proj1 (keyfind_free tbl w) Hit). destruct (autofind tbl ds); auto. }
  rewrite HX. reflexivity.
Qed.
Print Assumptions C57_novalue.

(** All of this holds of every program's table. *)
Definition nameclash (tbl : list arg) : bool :=
  negb (forallb (fun i => forallb (fun j => (i =? j)%nat || match option_map a_name (nth_error tbl i), option_map a_name (nth_error tbl j) with
     | Some (Some n), Some (Some m) => negb (streqi n m) | _, _ => true end) (seq 0 (length tbl))) (seq 0 (length tbl))).
Lemma nameclash_distinct tbl : nameclash tbl = false -> distinct tbl.
Proof.
  intros H i j a b n m Hi Hj Hn Hm E. unfold nameclash in H. apply Bool.negb_false_iff in H. rewrite forallb_forall in H.
  assert (Li : (i < length tbl)%nat) by (apply nth_error_Some; congruence). assert (Lj : (j < length tbl)%nat) by (apply nth_error_Some; congruence).
  specialize (H i ltac:(apply in_seq; lia)). rewrite forallb_forall in H. specialize (H j ltac:(apply in_seq; lia)).
  rewrite Hi, Hj in H. cbn in H. rewrite Hn, Hm in H. apply orb_true_iff in H as [H|H].
  - apply Nat.eqb_eq. auto.
  - rewrite (proj2 (streqi_spec n m) E) in H. discriminate.
Qed.
Theorem C57_programs : Forall distinct [args_crashmail; args_crashmaint; args_crashwrite; args_crashstats; args_crashexport; args_crashgetnode; args_crashlist; args_crashlistout].
Proof. repeat (apply Forall_cons; [apply nameclash_distinct; vm_compute; reflexivity|]). constructor. Qed.
Print Assumptions C57_programs.

(** crashmail, crashmaint and crashwrite take no free words at all: an unknown word is
    refused wherever it stands. *)
Theorem C57_unknown : forall tbl its, In tbl [args_crashmail; args_crashmaint; args_crashwrite] -> Forall (item_ok tbl) its -> free its <> [] ->
  parseargs tbl (line its) = None.
Proof.
  intros tbl its Hin Hok Hf.
  assert (Hd : distinct tbl). { pose proof C57_programs as HP. rewrite Forall_forall in HP. apply HP. cbn in *. tauto. }
  assert (Ha : forall ds, autofind tbl ds = None).
  { assert (HA : Forall (fun a => needsnokey a = false) tbl).
    { destruct Hin as [<-|[<-|[<-|[]]]]; repeat (apply Forall_cons; [reflexivity|]); constructor. }
    clear -HA. induction HA as [|a tbl Hx HA IH]; intros [|d ds]; cbn; auto. unfold needsnokey in Hx. rewrite Hx. cbn. rewrite IH. reflexivity. }
  unfold parseargs. assert (HX : forall ds, argloop tbl ds (line its) = None); [|rewrite HX; reflexivity].
  induction Hok as [|it its Hit Hok IH]; intros ds; [cbn in Hf; congruence|].
  change (line (it :: its)) with (words it ++ line its). destruct it as [k w v|k w|w]; cbn [words app argloop].
  - destruct (keyfind_names tbl w k _ Hd Hit) as [-> ->]. apply IH. exact Hf.
  - destruct (keyfind_names tbl w k _ Hd Hit) as [-> ->]. apply IH. exact Hf.
  - rewrite (proj1 (keyfind_free tbl w) Hit), Ha. reflexivity.
Qed.
Print Assumptions C57_unknown.

(** Finding: an argument given twice is accepted and the first value is lost; the same
    happens to a free word if its argument is given by keyword later on. *)
Theorem C57_twice_refuted :
  parseargs args_crashmail [lit "settings"; lit "a"; lit "SETTINGS"; lit "b"] = parseargs args_crashmail [lit "SETTINGS"; lit "b"] /\
  parseargs args_crashgetnode [lit "1:2/3"; lit "NODE"; lit "4:5/6"] = parseargs args_crashgetnode [lit "NODE"; lit "4:5/6"] /\
  parseargs args_crashgetnode [lit "NODE"; lit "4:5/6"] <> None.
Proof. vm_compute. repeat split; discriminate. Qed.
Print Assumptions C57_twice_refuted.

Example C57_nonvacuous :
  let its := [IKey 1 (lit "directory") (lit "NODE"); IFree (lit "1:2/3")] in
  plain args_crashgetnode its /\ line its = [lit "directory"; lit "NODE"; lit "1:2/3"] /\
  parseargs args_crashgetnode (line its) = Some [Some (VWord (lit "1:2/3")); Some (VWord (lit "NODE"))] /\
  parseargs args_crashgetnode [lit "Directory"; lit "x"] = None /\
  parseargs args_crashmail [lit "toss"; lit "Settings"; lit "SCAN"; lit "ScanArea"; lit "X"] =
    Some (map (fun j => if (j =? 1)%nat then Some VTrue else if (j =? 4)%nat then Some (VWord (lit "X")) else if (j =? 16)%nat then Some (VWord (lit "SCAN")) else None) (seq 0 21)).
Proof.
  split; [|vm_compute; auto]. split; [|split].
  - apply Forall_cons; [|apply Forall_cons; [|constructor]].
    + exists (aauto (lit "DIRECTORY") false), (lit "DIRECTORY"). repeat split.
    + intros a n [<-|[<-|[]]] Hn; injection Hn as <-; vm_compute; discriminate.
  - cbn. repeat constructor; auto.
  - exists [IKey 1 (lit "directory") (lit "NODE")], [IFree (lit "1:2/3")]. split; [reflexivity|]. split; [reflexivity|].
    intros it j a [<-|[]] Hs. discriminate.
Qed.
