From Verif Require Import Base M_Str M_Fs M_Mem M_Out M_Cfg P_Out P_Areafix M_Scan S_Scan.

Definition isscan (flags : Z) (a : sarea) : bool :=
  match sa_mb a with Some true => (sa_type a =? AREATYPE_ECHOMAIL) || ((sa_type a =? AREATYPE_NETMAIL) && negb (flag flags CFG_NOEXPORTNETMAIL)) | _ => false end.
Lemma isscan_iff flags a : isscan flags a = true <-> scannable flags a.
Proof.
  unfold isscan, scannable. destruct (sa_mb a) as [[|]|].
  - rewrite orb_true_iff, andb_true_iff, !Z.eqb_eq, negb_true_iff. tauto.
  - split; [discriminate|intros [H _]; discriminate].
  - split; [discriminate|intros [H _]; discriminate].
Qed.

Fixpoint somes {A} (l : list (option A)) : list A := match l with [] => [] | Some x :: r => x :: somes r | None :: r => somes r end.

Section Walk.
  Variable (ok : list nat -> nat -> bool) (ctrlc : nat -> bool).
  Fixpoint walk (l : list (option nat)) (n : nat) (ex : list nat) : list nat * option bool :=
    match l with
    | [] => (ex, Some (negb (ctrlc n)))
    | i :: r =>
      if ctrlc n then (ex, Some false)
      else match i with
           | None => walk r (S n) ex
           | Some k => if ok ex k then walk r (S n) (ex ++ [k]) else (ex ++ [k], None)
           end
    end.
  Lemma walk_spec l : forall n ex W, W = ex ++ somes l -> (forall j, (j < length ex)%nat -> ok (firstn j W) (nth j W O) = true) ->
    exists k, (k <= length W)%nat /\ fst (walk l n ex) = firstn k W /\
      (forall j, (S j < k)%nat -> ok (firstn j W) (nth j W O) = true) /\
      match snd (walk l n ex) with
      | Some true => k = length W /\ (forall j, (j < k)%nat -> ok (firstn j W) (nth j W O) = true)
      | Some false => exists n, ctrlc n = true
      | None => exists j, k = S j /\ ok (firstn j W) (nth j W O) = false
      end.
  Proof.
    induction l as [|[k|] l IH]; intros n ex W HW Hok; cbn [walk somes] in *.
    - rewrite app_nil_r in HW. subst W. exists (length ex). split; [lia|]. cbn [fst snd]. rewrite firstn_all. split; [reflexivity|]. split; [intros; apply Hok; lia|].
      destruct (ctrlc n) eqn:E; cbn [negb]; [eauto|]. auto.
    - assert (Hn : nth (length ex) W O = k) by (rewrite HW, app_nth2, Nat.sub_diag by lia; reflexivity).
      assert (Hf : firstn (length ex) W = ex) by (rewrite HW, firstn_app, firstn_all, Nat.sub_diag; cbn; apply app_nil_r).
      assert (Hf1 : firstn (S (length ex)) W = ex ++ [k]).
      { rewrite HW, firstn_app, firstn_all2 by lia. replace (S (length ex) - length ex)%nat with 1%nat by lia. reflexivity. }
      assert (HL : (S (length ex) <= length W)%nat) by (rewrite HW, app_length; cbn; lia).
      destruct (ctrlc n) eqn:E.
      + exists (length ex). cbn [fst snd]. split; [lia|]. split; [auto|]. split; [intros; apply Hok; lia|]. eauto.
      + destruct (ok ex k) eqn:Eo.
        * apply IH; [rewrite HW, <- app_assoc; reflexivity|]. intros j Hj. rewrite app_length in Hj. cbn in Hj.
          destruct (Nat.eq_dec j (length ex)) as [ -> |]; [rewrite Hf, Hn; exact Eo|apply Hok; lia].
        * exists (S (length ex)). cbn [fst snd]. split; [exact HL|]. split; [auto|]. split; [intros; apply Hok; lia|]. exists (length ex). split; [reflexivity|]. rewrite Hf, Hn. exact Eo.
    - destruct (ctrlc n) eqn:E.
      + exists (length ex). cbn [fst snd]. split; [rewrite HW, app_length; lia|]. split; [rewrite HW, firstn_app, firstn_all, Nat.sub_diag; cbn; symmetry; apply app_nil_r|].
        split; [intros; apply Hok; lia|]. eauto.
      + apply IH; auto.
  Qed.
  Lemma walk_performs before l W : W = somes l -> performs ok ctrlc before W (fst (around before (walk l 0 []))) (snd (around before (walk l 0 []))).
  Proof.
    intros HW. unfold performs, around. destruct before; [|split; reflexivity].
    destruct (walk_spec l 0 [] W HW) as (k & Hk & Hf & Hp & Hr); [cbn; intros; lia|]. exists k. cbn [fst snd]. rewrite Hf. split; [exact Hk|].
    destruct (snd (walk l 0 [])) as [[|]|]; (split; [reflexivity|]); (split; [exact Hp|]); auto.
  Qed.
End Walk.

Section All.
  Variable (flags : Z) (ok : list nat -> nat -> bool) (ctrlc : nat -> bool).
  Definition item (n : nat) (a : sarea) : option nat := if isscan flags a then Some n else None.
  Fixpoint allitems (l : list sarea) (n : nat) : list (option nat) := match l with [] => [] | a :: r => item n a :: allitems r (S n) end.
  Lemma scanall_walk l : forall n ex, scanall flags ok ctrlc l n ex = walk ok ctrlc (allitems l n) n ex.
  Proof.
    induction l as [|a l IH]; intros n ex; cbn [scanall allitems walk]; [reflexivity|]. destruct (ctrlc n); [reflexivity|].
    unfold item, isscan, nonet. destruct (sa_mb a) as [[|]|]; cbn [andb]; [|apply IH|apply IH].
    destruct (sa_type a =? AREATYPE_ECHOMAIL) eqn:E2.
    - cbn [orb]. apply Z.eqb_eq in E2. rewrite E2. change (AREATYPE_ECHOMAIL =? AREATYPE_NETMAIL) with false. cbn [andb]. rewrite IH. reflexivity.
    - cbn [orb]. destruct (sa_type a =? AREATYPE_NETMAIL); cbn [andb]; [|apply IH]. destruct (flag flags CFG_NOEXPORTNETMAIL); cbn [negb]; rewrite IH; reflexivity.
  Qed.
  Lemma somes_all areas l : forall pre, areas = pre ++ l -> somes (allitems l (length pre)) = filter (fun n => isscan flags (nth n areas noarea)) (seq (length pre) (length l)).
  Proof.
    induction l as [|a l IH]; intros pre E; cbn [allitems somes length seq filter]; [reflexivity|].
    specialize (IH (pre ++ [a])). rewrite app_length in IH. cbn [length] in IH. rewrite Nat.add_1_r in IH. rewrite <- IH by (rewrite <- app_assoc; exact E).
    assert (N : nth (length pre) areas noarea = a) by (rewrite E, app_nth2, Nat.sub_diag by lia; reflexivity).
    rewrite N. unfold item. destruct (isscan flags a); reflexivity.
  Qed.

  (** ** the two functions that read a file *)
  Variable areas : list sarea.
  Fixpoint lineitems (ks : list (option nat)) (scanned : list nat) : list (option nat) :=
    match ks with
    | [] => []
    | None :: r => None :: lineitems r scanned
    | Some k :: r => if existsb (Nat.eqb k) scanned then None :: lineitems r scanned else item k (nth k areas noarea) :: lineitems r (k :: scanned)
    end.
  Lemma somes_lines ks : forall scanned, somes (lineitems ks scanned) = filter (fun n => isscan flags (nth n areas noarea)) (filter (fun k => negb (existsb (Nat.eqb k) scanned)) (firsts (somes ks))).
  Proof.
    induction ks as [|[k|] ks IH]; intros scanned; cbn [lineitems somes firsts]; auto.
    assert (FF : forall (P Q : nat -> bool) l, (forall x, In x l -> P x = Q x) -> filter P l = filter Q l) by (intros P Q l H; apply filter_ext_in; exact H).
    assert (F2 : forall (P Q : nat -> bool) l, filter P (filter Q l) = filter (fun x => P x && Q x) l).
    { intros P Q l. induction l as [|x l IHl]; cbn; auto. destruct (Q x); cbn; destruct (P x); cbn; rewrite ?IHl; reflexivity. }
    destruct (existsb (Nat.eqb k) scanned) eqn:E; cbn [somes filter].
    - rewrite E. cbn [negb]. rewrite IH, !F2. apply FF. intros x _.
      destruct (Nat.eqb_spec x k) as [ -> |]; cbn [negb]; [rewrite E; cbn [negb]; rewrite !andb_false_r; reflexivity|rewrite !andb_true_r; reflexivity].
    - rewrite E. cbn [negb filter]. unfold item. rewrite !F2. cbn [existsb].
      assert (R : somes (lineitems ks (k :: scanned)) = filter (fun x => isscan flags (nth x areas noarea) && negb (existsb (Nat.eqb x) scanned) && negb (x =? k)%nat) (firsts (somes ks))).
      { rewrite IH, F2. apply FF. intros x _. cbn [existsb]. destruct (Nat.eqb_spec x k); cbn [orb negb]; rewrite ?andb_true_r, ?andb_false_r; reflexivity. }
      destruct (isscan flags (nth k areas noarea)); cbn [somes]; rewrite R; reflexivity.
  Qed.

  Definition rawok (l : list Z) : Prop := ~ In 10 l /\ ~ In 0 l /\ (length l <= 98)%nat.
  Definition look (key : sarea -> list Z) (cut : bool) (l : list Z) : option nat :=
    match striptrail (crlf (l ++ [10])) with [] => None | b => findarea key (if cut then uptoblank b else b) areas 0 end.
  Lemma scanlines_walk key cut ls : forall fuel n scanned ex, Forall rawok ls -> (length ls < fuel)%nat ->
    scanlines flags ok ctrlc areas key cut fuel (concat (map (fun l => l ++ [10]) ls)) n scanned ex = Some (walk ok ctrlc (lineitems (map (look key cut) ls) scanned) n ex).
  Proof.
    induction ls as [|l ls IH]; intros fuel n scanned ex F Hf; (destruct fuel as [|f]; [cbn in Hf; lia|]).
    - reflexivity.
    - inversion_clear F as [|? ? (A & B & C) F']. cbn [length] in Hf. cbn [map concat]. rewrite <- app_assoc. cbn [app scanlines].
      rewrite osFGets_line by (auto; lia). cbn [lineitems]. unfold look at 1.
      assert (W : forall i r sc, (if ctrlc n then Some (ex, Some false) else Some (match i with None => walk ok ctrlc (lineitems r sc) (S n) ex | Some k => if ok ex k then walk ok ctrlc (lineitems r sc) (S n) (ex ++ [k]) else (ex ++ [k], None) end)) = Some (walk ok ctrlc (i :: lineitems r sc) n ex)).
      { intros i r sc. cbn [walk]. destruct (ctrlc n); reflexivity. }
      destruct (striptrail (crlf (l ++ [10]))) as [|c b] eqn:Es.
      { rewrite <- W. destruct (ctrlc n); [reflexivity|]. apply IH; auto; lia. }
      set (nm := if cut then uptoblank (c :: b) else c :: b) in *. destruct (findarea key nm areas 0) as [k|].
      2: { rewrite <- W. destruct (ctrlc n); [reflexivity|]. apply IH; auto; lia. }
      destruct (existsb (Nat.eqb k) scanned).
      { rewrite <- W. destruct (ctrlc n); [reflexivity|]. apply IH; auto; lia. }
      rewrite <- W. destruct (ctrlc n); [reflexivity|]. set (a := nth k areas noarea).
      unfold item, isscan, nonet.
      destruct (sa_type a =? AREATYPE_ECHOMAIL) eqn:E2.
      + apply Z.eqb_eq in E2. rewrite E2. change (AREATYPE_ECHOMAIL =? AREATYPE_NETMAIL) with false. cbn [negb andb orb].
        destruct (sa_mb a) as [[|]|]; rewrite ?IH by (auto; lia); try reflexivity. destruct (ok ex k); reflexivity.
      + cbn [negb andb orb]. destruct (sa_type a =? AREATYPE_NETMAIL); cbn [negb andb].
        * destruct (flag flags CFG_NOEXPORTNETMAIL); cbn [negb]; destruct (sa_mb a) as [[|]|]; rewrite ?IH by (auto; lia); try reflexivity. destruct (ok ex k); reflexivity.
        * destruct (sa_mb a) as [[|]|]; rewrite ?IH by (auto; lia); reflexivity.
  Qed.
End All.

Lemma findarea_some key name l : forall n k, findarea key name l n = Some k -> exists j, k = (n + j)%nat /\ (j < length l)%nat /\ streqi (key (nth j l noarea)) name = true /\ forall i, (i < j)%nat -> streqi (key (nth i l noarea)) name = false.
Proof.
  induction l as [|a l IH]; intros n k; cbn [findarea]; [discriminate|]. destruct (streqi (key a) name) eqn:E.
  - intros [= <-]. exists 0%nat. cbn. repeat split; auto; intros; lia.
  - intros H. destruct (IH _ _ H) as (j & -> & Hj & Hs & Hi). exists (S j). cbn. repeat split; auto; try lia. intros [|i] Hl; [exact E|]. apply Hi. lia.
Qed.
Lemma findarea_none key name l : forall n, findarea key name l n = None -> forall j, (j < length l)%nat -> streqi (key (nth j l noarea)) name = false.
Proof.
  induction l as [|a l IH]; intros n H j Hj; cbn in *; [lia|]. destruct (streqi (key a) name) eqn:E; [discriminate|]. destruct j; [exact E|]. eapply IH; eauto. lia.
Qed.
Lemma named_fun key areas name k k' : named key areas name k -> named key areas name k' -> k = k'.
Proof.
  intros (A & B & C) (A' & B' & C'). destruct (Nat.lt_trichotomy k k') as [H|[H|H]]; auto; [rewrite C' in B by auto|rewrite C in B' by auto]; discriminate.
Qed.
Lemma findarea_named key areas name : match findarea key name areas 0 with Some k => named key areas name k | None => forall k, ~ named key areas name k end.
Proof.
  destruct (findarea key name areas 0) as [k|] eqn:E.
  - destruct (findarea_some _ _ _ _ _ E) as (j & -> & A & B & C). split; [exact A|]. split; [exact B|exact C].
  - intros k (A & B & _). rewrite (findarea_none _ _ _ _ E k A) in B. discriminate.
Qed.
Lemma names_look key areas (f : nline -> option nat) ls : (forall l, In l ls -> f l = match nl_name l with [] => None | _ => findarea key (nl_name l) areas 0 end) ->
  forall ks, names key areas (map nl_name ls) ks -> somes (map f ls) = ks.
Proof.
  induction ls as [|l ls IH]; intros H ks Hn; cbn [map somes] in *; [inversion Hn; reflexivity|].
  specialize (IH (fun x Hx => H x (or_intror Hx))).
  rewrite (H l (or_introl eq_refl)). pose proof (findarea_named key areas (nl_name l)) as N.
  inversion Hn as [|? ? Hr|? ? ? Hne Hu Hr|? ? k ? Hne Hk Hr]; subst.
  - apply IH; auto.
  - destruct (nl_name l) eqn:E; [congruence|]. destruct (findarea key (z :: l0) areas 0); [exfalso; eapply Hu; eauto|]. apply IH; auto.
  - destruct (nl_name l) eqn:E; [congruence|]. destruct (findarea key (z :: l0) areas 0) as [k'|]; [|exfalso; eapply N; eauto]. rewrite (named_fun _ _ _ _ _ N Hk). f_equal. apply IH; auto.
Qed.

Lemma blank_strip r : Forall (fun c => 1 <= c < 33) r -> striptrail r = [].
Proof. induction 1 as [|c r H F IH]; auto. cbn [striptrail]. rewrite IH. unfold isstrip. replace (c <? 33) with true by lia. reflexivity. Qed.
Lemma strip_name t r : (t = [] \/ 33 <= last t 0 < 128) -> striptrail r = [] -> striptrail (t ++ r) = t.
Proof.
  intros [ -> |H] Hr; [exact Hr|]. destruct (exists_last (l := t)) as (u & c & ->); [intros ->; cbn in H; lia|]. rewrite last_last in H.
  rewrite <- app_assoc. cbn [app]. rewrite striptrail_app by lia. rewrite Hr. reflexivity.
Qed.
(** the end of a line *)
Lemma crlf_cases l : crlf (l ++ [10]) = l ++ [10] \/ exists u, l = u ++ [13] /\ crlf (l ++ [10]) = u ++ [10].
Proof.
  unfold crlf. rewrite rev_app_distr. cbn [rev app]. destruct (rev l) as [|c u] eqn:E; [left; reflexivity|]. cbn [andb]. change (10 =? 10) with true. cbn [andb].
  destruct (Z.eqb_spec c 13) as [ -> |]; [|left; reflexivity]. right. exists (rev u). split; [|reflexivity].
  rewrite <- (rev_involutive l), E. reflexivity.
Qed.
Lemma strip_crlf t r : Forall (fun c => 1 <= c < 33) r -> (t = [] \/ 33 <= last t 0 < 128) -> striptrail (crlf ((t ++ r) ++ [10])) = t.
Proof.
  intros Hr Ht. destruct (crlf_cases (t ++ r)) as [E|(u & E1 & E2)].
  - rewrite E, <- app_assoc. apply strip_name; auto. apply blank_strip. apply Forall_app. split; auto. repeat constructor; lia.
  - rewrite E2. destruct (exists_last (l := r)) as (r' & c & Er).
    + intros ->. rewrite app_nil_r in E1. destruct Ht as [ -> |Ht]; [destruct u; discriminate|]. rewrite E1, last_last in Ht. lia.
    + rewrite Er, app_assoc in E1. apply app_inj_tail in E1. destruct E1 as [ <- _]. rewrite <- app_assoc. apply strip_name; auto. apply blank_strip.
      rewrite Er in Hr. apply Forall_app in Hr. apply Forall_app. split; [tauto|repeat constructor; lia].
Qed.
Lemma upto_app t r : ~ In 32 t -> uptoblank (t ++ r) = t ++ uptoblank r.
Proof. induction t as [|c t IH]; intros H; cbn; auto. cbn in H. destruct (Z.eqb_spec c 32); [tauto|]. f_equal. apply IH. tauto. Qed.
