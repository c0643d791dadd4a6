(** Areas that are added automatically: lemmas. *)
From Verif Require Import Base M_Node4D M_Str S_Str M_Mem M_Cfg M_Out M_Upd M_Filter M_Net M_Settings M_AddArea S_AddArea.
From Verif Require Import S_Echo.
From Verif Require M_Echo P_Out P_Scan P_Echo.

(** ** Paths *)
Lemma mem_spec c l : mem c l = true <-> In c l.
Proof. unfold mem. rewrite existsb_exists. split; [intros (x & H & E); apply Z.eqb_eq in E; subst; auto|intros H; exists c; split; auto; apply Z.eqb_refl]. Qed.
Lemma cleanname_ok name : filename name (cleanname name).
Proof.
  induction name as [|c r IH]; cbn [cleanname map]; constructor; [|exact IH]. unfold harmless. fold forbiddenchars. destruct ((c <? 33) || (126 <? c) || mem c forbiddenchars) eqn:E.
  - right. split; [|reflexivity]. intros [H1 H2]. rewrite <- mem_spec in H2. apply orb_true_iff in E as [E|E]; [lia|congruence].
  - left. split; [|reflexivity]. apply orb_false_iff in E as [E1 E2]. split; [lia|]. rewrite <- mem_spec, E2. discriminate.
Qed.
Lemma lor32 x v : 0 <= x < 256 -> (Z.lor x 32 =? v) = true -> v = 97 \/ v = 108 \/ v = 56 -> (v = 97 /\ (x = 65 \/ x = 97)) \/ (v = 108 /\ (x = 76 \/ x = 108)) \/ (v = 56 /\ (x = 24 \/ x = 56)).
Proof.
  intros Hx E Hv. apply Z.eqb_eq in E. assert (B : forallb (fun x => let v := Z.lor x 32 in (negb (v =? 97) || (x =? 65) || (x =? 97)) && (negb (v =? 108) || (x =? 76) || (x =? 108)) && (negb (v =? 56) || (x =? 24) || (x =? 56))) (map Z.of_nat (seq 0 256)) = true) by (vm_compute; reflexivity).
  rewrite forallb_forall in B. specialize (B x ltac:(apply in_map_iff; exists (Z.to_nat x); split; [lia|apply in_seq; lia])). cbv zeta in B. rewrite E in B.
  destruct Hv as [->|[->| ->]]; cbn in B; [left|right; left|right; right]; (split; [reflexivity|lia]).
Qed.
Lemma lor_is x v : (v = 97 /\ (x = 65 \/ x = 97)) \/ (v = 108 /\ (x = 76 \/ x = 108)) \/ (v = 56 /\ (x = 24 \/ x = 56)) -> (Z.lor x 32 =? v) = true.
Proof. intros [[-> [-> | ->]]|[[-> [-> | ->]]|[-> [-> | ->]]]]; reflexivity. Qed.
Lemma firstn_pre {A} n (a b : list A) : firstn n (firstn n a ++ b) = firstn n (a ++ b).
Proof.
  rewrite (firstn_app n (firstn n a) b), (firstn_app n a b), firstn_firstn, Nat.min_id. f_equal. rewrite firstn_length. f_equal. lia.
Qed.
Lemma expand_full D f serial p : Forall (fun c => 0 <= c < 256) p -> forall o, (length o <= D - 1)%nat -> exists t, expands f serial p t /\ expand D f (map tolower f) serial p o = firstn (D - 1) (o ++ t).
Proof.
  remember (length p) as n eqn:En. assert (Hn : (length p <= n)%nat) by lia. clear En. revert p Hn. induction n as [|n IH]; intros p Hn Hb o Ho.
  - destruct p; [|cbn in Hn; lia]. exists []. split; [constructor|]. cbn [expand]. rewrite app_nil_r, firstn_all2; auto.
  - destruct p as [|c p]; [exists []; split; [constructor|]; cbn [expand]; rewrite app_nil_r, firstn_all2; auto|].
    assert (EX : exists t, expands f serial (c :: p) t /\ forall o, (length o <= D - 1)%nat -> Nat.eqb (length o) (D - 1) = false -> expand D f (map tolower f) serial (c :: p) o = firstn (D - 1) (o ++ t)).
    2:{ destruct EX as (t & H1 & H2). exists t. split; [exact H1|]. destruct (Nat.eqb (length o) (D - 1)) eqn:E; [|apply H2; auto]. assert (E' := E). apply Nat.eqb_eq in E'. cbn [expand]. rewrite E. rewrite firstn_app, E', Nat.sub_diag, firstn_all2 by lia. cbn. rewrite app_nil_r. reflexivity. }
    assert (Q : forall r t, (forall o, (length o <= D - 1)%nat -> expand D f (map tolower f) serial r o = firstn (D - 1) (o ++ t)) -> forall w o, expand D f (map tolower f) serial r (firstn (D - 1) (o ++ w)) = firstn (D - 1) (o ++ w ++ t)).
    { intros r t H w o'. rewrite H by (rewrite firstn_length; lia). rewrite app_assoc. apply firstn_pre. }
    assert (U : forall r, (length r <= n)%nat -> Forall (fun c => 0 <= c < 256) r -> exists t, expands f serial r t /\ forall o, (length o <= D - 1)%nat -> expand D f (map tolower f) serial r o = firstn (D - 1) (o ++ t)).
    { intros r Hr Hbr. destruct (IH r Hr Hbr [] ltac:(cbn; lia)) as (t & Ht & _). exists t. split; [exact Ht|]. intros o' Ho'. destruct (IH r Hr Hbr o' Ho') as (t' & Ht' & E). rewrite E. f_equal. f_equal.
      clear - Ht Ht'. revert t' Ht'. induction Ht as [|x p t Hx H IHt|x p t Hx H IHt|x p t Hx H IHt|c|c x p t Hs H IHt]; intros t' Ht'; inversion Ht'; subst; try reflexivity; try (f_equal; auto; fail); try (exfalso; lia); try (exfalso; match goal with Hn : ~ special _ _ |- _ => apply Hn; unfold special; lia end). }
    destruct p as [|x p].
    + exists [c]. split; [constructor|]. intros o' Ho' E. cbn [expand]. rewrite E. rewrite firstn_all2; [reflexivity|]. rewrite app_length. cbn [length]. apply Nat.eqb_neq in E. lia.
    + inversion Hb as [|? ? Hc Hb1]; subst. inversion Hb1 as [|? ? Hx Hb2]; subst. cbn [length] in Hn.
      destruct ((c =? 37) && (Z.lor x 32 =? 97)) eqn:E1; [|destruct ((c =? 37) && (Z.lor x 32 =? 108)) eqn:E2; [|destruct ((c =? 37) && (Z.lor x 32 =? 56)) eqn:E3]].
      * apply andb_true_iff in E1 as [Ec E1]. assert (Ec' := Ec). apply Z.eqb_eq in Ec'. subst c. destruct (lor32 _ _ Hx E1 ltac:(auto)) as [[_ Hv]|[[? _]|[? _]]]; try discriminate. destruct (U p ltac:(lia) Hb2) as (t & Ht & Hq). exists (f ++ t). split; [apply ex_name; auto|]. intros o' Ho' E. cbn [expand]. rewrite E, Ec, E1. cbn [andb]. apply Q; auto.
      * apply andb_true_iff in E2 as [Ec E2]. assert (Ec' := Ec). apply Z.eqb_eq in Ec'. subst c. destruct (lor32 _ _ Hx E2 ltac:(auto)) as [[? _]|[[_ Hv]|[? _]]]; try discriminate. destruct (U p ltac:(lia) Hb2) as (t & Ht & Hq). exists (map tolower f ++ t). split; [apply ex_lower; auto|]. intros o' Ho' E. cbn [expand]. rewrite E, E1, Ec, E2. cbn [andb]. apply Q; auto.
      * apply andb_true_iff in E3 as [Ec E3]. assert (Ec' := Ec). apply Z.eqb_eq in Ec'. subst c. destruct (lor32 _ _ Hx E3 ltac:(auto)) as [[? _]|[[? _]|[_ Hv]]]; try discriminate. destruct (U p ltac:(lia) Hb2) as (t & Ht & Hq). exists (serial ++ t). split; [apply ex_serial; auto; tauto|]. intros o' Ho' E. cbn [expand]. rewrite E, E1, E2, Ec, E3. cbn [andb]. apply Q; auto.
      * destruct (U (x :: p) ltac:(cbn; lia) Hb1) as (t & Ht & Hq). exists (c :: t). split.
        { apply ex_char; auto. intros [-> Hv]. cbn in E1, E2, E3. destruct Hv as [Hv|[Hv|[Hv|[Hv|[Hv|Hv]]]]]; [rewrite (lor_is x 97) in E1 by auto|rewrite (lor_is x 97) in E1 by auto|rewrite (lor_is x 108) in E2 by auto|rewrite (lor_is x 108) in E2 by auto|rewrite (lor_is x 56) in E3 by auto 6|rewrite (lor_is x 56) in E3 by auto 6]; discriminate. }
        intros o' Ho' E. cbn [expand]. rewrite E, E1, E2, E3. change (expand D f (map tolower f) serial (x :: p) (o' ++ [c]) = firstn (D - 1) (o' ++ c :: t)). apply Nat.eqb_neq in E. rewrite Hq by (rewrite app_length; cbn [length]; lia). rewrite <- app_assoc. reflexivity.
Qed.
Lemma expands_fun f serial p t : expands f serial p t -> forall t', expands f serial p t' -> t' = t.
Proof.
  intros Ht. induction Ht as [|x p t Hx H IHt|x p t Hx H IHt|x p t Hx H IHt|c|c x p t Hs H IHt]; intros t' Ht'; inversion Ht'; subst; try reflexivity; try (f_equal; auto; fail); try (exfalso; lia); try (exfalso; match goal with Hn : ~ special _ _ |- _ => apply Hn; unfold special; lia end).
Qed.
Lemma app_inj {A} (a b x y : list A) : a ++ x = b ++ y -> length a = length b -> a = b /\ x = y.
Proof. revert b. induction a as [|c a IH]; intros [|d b] E L; try discriminate; [auto|]. injection E as -> E. injection L as L. destruct (IH _ E L) as [-> ->]. auto. Qed.
Lemma nodup_snoc {A} (l : list A) x : NoDup l -> ~ In x l -> NoDup (l ++ [x]).
Proof. induction l as [|y l IH]; intros H N; cbn [app]; [constructor; auto|]. inversion H; subst. constructor; [rewrite in_app_iff; cbn [In]; intros [?|[->|[]]]; [auto|apply N; left; auto]|apply IH; auto; intros Q; apply N; right; auto]. Qed.
Lemma expands_two f1 f2 s1 s2 p t1 t2 : length s1 = length s2 -> expands f1 s1 p t1 -> expands f2 s2 p t2 ->
  exists a k, length t1 = (a + k * length f1)%nat /\ length t2 = (a + k * length f2)%nat /\
    ((k = O \/ length f1 = length f2) -> s1 <> s2 -> numbered p -> t1 <> t2).
Proof.
  intros Hs H1. revert t2. induction H1 as [|x p t Hx H IHt|x p t Hx H IHt|x p t Hx H IHt|c|c x p t Hns H IHt]; intros t2 H2.
  - inversion H2; subst. exists O, O. repeat split. intros _ _ N. inversion N.
  - inversion H2; subst; try (exfalso; lia); try (exfalso; match goal with Hn : ~ special _ _ |- _ => apply Hn; unfold special; lia end).
    destruct (IHt _ ltac:(eassumption)) as (a & k & E1 & E2 & N). exists a, (S k). rewrite !app_length. split; [lia|split; [lia|]]. intros [?|El] Hd Hn; [discriminate|]. intros E. apply app_inj in E as [_ E]; auto. apply N in E; auto. inversion Hn; subst; try (exfalso; lia); auto. exfalso. match goal with Hn : ~ special _ _ |- _ => apply Hn; unfold special; lia end.
  - inversion H2; subst; try (exfalso; lia); try (exfalso; match goal with Hn : ~ special _ _ |- _ => apply Hn; unfold special; lia end).
    destruct (IHt _ ltac:(eassumption)) as (a & k & E1 & E2 & N). exists a, (S k). rewrite !app_length, !map_length. split; [lia|split; [lia|]]. intros [?|El] Hd Hn; [discriminate|]. intros E. apply app_inj in E as [_ E]; [|rewrite !map_length; auto]. apply N in E; auto. inversion Hn; subst; try (exfalso; lia); auto. exfalso. match goal with Hn : ~ special _ _ |- _ => apply Hn; unfold special; lia end.
  - inversion H2; subst; try (exfalso; lia); try (exfalso; match goal with Hn : ~ special _ _ |- _ => apply Hn; unfold special; lia end).
    destruct (IHt _ ltac:(eassumption)) as (a & k & E1 & E2 & N). exists (length s1 + a)%nat, k. rewrite !app_length. split; [lia|split; [lia|]]. intros El Hd _ E. apply app_inj in E as [E _]; auto.
  - inversion H2; subst. exists 1%nat, O. repeat split. intros _ _ N. inversion N.
  - inversion H2; subst; try (exfalso; match goal with Hn : ~ special _ _ |- _ => apply Hn; unfold special; lia end).
    destruct (IHt _ ltac:(eassumption)) as (a & k & E1 & E2 & N). exists (S a), k. cbn [length]. split; [lia|split; [lia|]]. intros El Hd Hn E. injection E as E. apply N in E; auto. inversion Hn; subst; auto; exfalso; match goal with Hn : ~ special _ _ |- _ => apply Hn; auto; unfold special; lia end.
Qed.
Lemma differ f1 f2 s1 s2 p t1 t2 : length s1 = length s2 -> expands f1 s1 p t1 -> expands f2 s2 p t2 -> s1 <> s2 -> numbered p -> t1 <> t2.
Proof.
  intros Hs H1 H2 Hd Hn E. destruct (expands_two _ _ _ _ _ _ _ Hs H1 H2) as (a & k & E1 & E2 & N). apply (N ltac:(subst; destruct k; [auto|right; nia]) Hd Hn E).
Qed.
(** a directory before the names *)
Lemma expands_dir f serial d p t : ~ In 37 d -> expands f serial (d ++ 47 :: p) t -> exists u, t = d ++ 47 :: u /\ expands f serial p u.
Proof.
  revert t. induction d as [|c d IH]; intros t Hd H; cbn [app] in *.
  - inversion H; subst; [exists []; split; [reflexivity|constructor]|]. eexists. split; [reflexivity|assumption].
  - assert (c <> 37) by (intros ->; apply Hd; left; reflexivity). inversion H; subst; try congruence; [destruct d; discriminate|].
    match goal with H0 : _ :: _ = d ++ 47 :: p |- _ => rewrite H0 in * end.
    match goal with H0 : expands f serial (d ++ 47 :: p) _ |- _ => destruct (IH _ (fun q => Hd (or_intror q)) H0) as (u & -> & Hu) end. exists u. split; [reflexivity|exact Hu].
Qed.
Lemma expands_noslash f serial p t : ~ In 47 f -> ~ In 47 serial -> ~ In 47 p -> expands f serial p t -> ~ In 47 t.
Proof.
  intros Hf Hs Hp H. induction H as [|x p t Hx H IHt|x p t Hx H IHt|x p t Hx H IHt|c|c x p t Hns H IHt]; auto.
  - intros E. apply in_app_or in E as [E|E]; [auto|]. apply IHt in E; auto. intros Q. apply Hp. right; right; exact Q.
  - intros E. apply in_app_or in E as [E|E]; [|apply IHt in E; auto; intros Q; apply Hp; right; right; exact Q]. apply in_map_iff in E as (y & Ey & Iy). unfold tolower in Ey. destruct ((65 <=? y) && (y <=? 90)) eqn:B; [lia|subst; auto].
  - intros E. apply in_app_or in E as [E|E]; [auto|]. apply IHt in E; auto. intros Q. apply Hp. right; right; exact Q.
  - intros [E|E]; [apply Hp; left; exact E|]. apply IHt in E; auto. intros Q. apply Hp. right; exact Q.
Qed.
Lemma filename_noslash name f : filename name f -> ~ In 47 f.
Proof. intros H. induction H as [|c d n f Hc _ IH]; [intros []|]. intros [E|E]; [|auto]. subst d. destruct Hc as [[[_ Hh] <-]|[_ Hd]]; [apply Hh; cbn; tauto|discriminate]. Qed.
Lemma filename_fun name f : filename name f -> f = cleanname name.
Proof.
  intros H. pose proof (cleanname_ok name) as G. revert G. generalize (cleanname name) as g. induction H as [|c d n f Hc _ IH]; intros g G; inversion G; subst; [reflexivity|]. f_equal; auto.
  destruct Hc as [[? ->]|[? ->]]; match goal with Q : _ \/ _ |- _ => destruct Q as [[? ->]|[? ->]] end; auto; tauto.
Qed.

(** ** Links *)
Definition addl (l : list (nat * Z)) (t : nat * Z) := addtoss l (fst t) (snd t).
Lemma linkof_nil i f : ~ linkof [] i f.
Proof. intros (a & b & E & _). destruct a; discriminate. Qed.
Lemma linkof_cons j g l i f : linkof ((j, g) :: l) i f <-> (i = j /\ f = g) \/ (i <> j /\ linkof l i f).
Proof.
  split.
  - intros (a & b & E & N). destruct a as [|[j' g'] a]; cbn in E; [injection E as -> -> _; left; auto|]. injection E as -> -> E. right. split; [intros ->; apply N; left; reflexivity|]. exists a, b. split; [exact E|]. intros Q. apply N. right. exact Q.
  - intros [[-> ->]|[Hd (a & b & -> & N)]]; [exists [], l; split; [reflexivity|intros []]|]. exists ((j, g) :: a), b. split; [reflexivity|]. intros [Q|Q]; [cbn in Q; congruence|auto].
Qed.
Lemma linkof_app A B i f : linkof (A ++ B) i f <-> linkof A i f \/ (~ In i (map fst A) /\ linkof B i f).
Proof.
  induction A as [|[j g] A IH]; cbn [app map fst]; [split; [intros H; right; split; [intros []|exact H]|intros [H|[_ H]]; [destruct (linkof_nil _ _ H)|exact H]]|].
  rewrite !linkof_cons, IH. cbn [In]. destruct (Nat.eq_dec i j) as [->|Hd]; [tauto|]. split; [intros [?|[_ [?|[? ?]]]]; [tauto|tauto|right; split; [intros [?|?]; [congruence|tauto]|tauto]]|intros [[?|?]|[? ?]]; tauto].
Qed.
Lemma linkof_in l i : In i (map fst l) <-> exists f, linkof l i f.
Proof.
  induction l as [|[j g] l IH]; cbn [map fst In]; [split; [intros []|intros (f & H); destruct (linkof_nil _ _ H)]|]. setoid_rewrite linkof_cons. destruct (Nat.eq_dec i j) as [->|Hd]; [split; [intros _; exists g; auto|auto]|].
  rewrite IH. split; [intros [E|(f & H)]; [congruence|exists f; auto]|intros (f & [[? _]|[_ H]]); [congruence|right; exists f; auto]].
Qed.
Lemma addtoss_spec l i f : NoDup (map fst l) -> NoDup (map fst (addtoss l i f)) /\ forall j g, In (j, g) (addtoss l i f) <-> In (j, g) l \/ (j = i /\ g = f /\ ~ In i (map fst l)).
Proof.
  intros Hn. unfold addtoss. destruct (existsb _ l) eqn:E.
  - apply existsb_exists in E as ([k h] & I & E). apply Nat.eqb_eq in E. cbn in E. subst k. split; [exact Hn|]. intros j g. split; [auto|intros [?|(_ & _ & Q)]; [auto|]]. exfalso. apply Q. apply in_map_iff. exists (i, h). auto.
  - assert (N : ~ In i (map fst l)). { intros Q. apply in_map_iff in Q as ([k h] & Ek & I). cbn in Ek. subst k. assert (X : existsb (fun t : nat * Z => Nat.eqb (fst t) i) l = true) by (apply existsb_exists; exists (i, h); split; [exact I|apply Nat.eqb_refl]). congruence. }
    split; [rewrite map_app; cbn [map fst]; apply nodup_snoc; auto|].
    intros j g. rewrite in_app_iff. cbn [In]. split; [intros [?|[Q|[]]]; [auto|injection Q as <- <-; auto]|intros [?|(-> & -> & _)]; auto].
Qed.
Lemma fold_links L : forall l, NoDup (map fst l) -> NoDup (map fst (fold_left addl L l)) /\ forall j g, In (j, g) (fold_left addl L l) <-> In (j, g) l \/ (~ In j (map fst l) /\ linkof L j g).
Proof.
  induction L as [|[i f] L IH]; intros l Hn; cbn [fold_left]; [split; [exact Hn|]; intros j g; split; [auto|intros [?|[_ H]]; [auto|destruct (linkof_nil _ _ H)]]|].
  destruct (addtoss_spec l i f Hn) as [Hn' Hi]. change (addl l (i, f)) with (addtoss l i f). destruct (IH _ Hn') as [R1 R2]. split; [exact R1|]. intros j g. rewrite R2, Hi, linkof_cons.
  assert (K : In j (map fst (addtoss l i f)) <-> In j (map fst l) \/ j = i).
  { rewrite !in_map_iff. split.
    - intros ([k h] & Ek & I). cbn in Ek. subst k. apply Hi in I as [I|(-> & _)]; [left; exists (j, h); auto|auto].
    - intros [([k h] & Ek & I)| ->]; [cbn in Ek; subst k; exists (j, h); split; [reflexivity|apply Hi; auto]|]. destruct (in_dec Nat.eq_dec i (map fst l)) as [Q|Q]; [apply in_map_iff in Q as ([k h] & Ek & I); cbn in Ek; subst k; exists (i, h); split; [reflexivity|apply Hi; auto]|exists (i, f); split; [reflexivity|apply Hi; auto]]. }
  rewrite K. destruct (Nat.eq_dec j i) as [->|Hd].
  - split; [intros [[?|(_ & -> & ?)]|[Q _]]; [auto|right; auto|exfalso; apply Q; auto]|intros [?|[? [[_ ->]|[? _]]]]; [auto|auto|congruence]].
  - split; [intros [[?|(? & _)]|[Q ?]]; [auto|congruence|right; split; [tauto|right; auto]]|intros [?|[? [[? _]|[_ ?]]]]; [auto|congruence|right; split; [intros [?|?]; auto|auto]]].
Qed.
Definition autos (nodes : list fnode) (g : Z) (ro : bool) : list (nat * Z) :=
  flat_map (fun j => match nth_error nodes j with Some n => if mem g (fn_addgroups n) then [(j, if ro || mem g (fn_rogroups n) then TOSSNODE_READONLY else 0)] else [] | None => [] end) (seq 0 (length nodes)).
Lemma fold_autos nodes g ro is : forall l,
  fold_left (fun l j => match nth_error nodes j with
     | Some n => if mem g (fn_addgroups n) then addtoss l j (if ro || mem g (fn_rogroups n) then TOSSNODE_READONLY else 0) else l
     | None => l end) is l =
  fold_left addl (flat_map (fun j => match nth_error nodes j with Some n => if mem g (fn_addgroups n) then [(j, if ro || mem g (fn_rogroups n) then TOSSNODE_READONLY else 0)] else [] | None => [] end) is) l.
Proof.
  induction is as [|j is IH]; intros l; cbn [fold_left flat_map]; [reflexivity|]. rewrite fold_left_app, IH. destruct (nth_error nodes j) as [n|]; [|reflexivity]. destruct (mem g (fn_addgroups n)); reflexivity.
Qed.
Lemma link_autos nodes g ro i f : linkof (autos nodes g ro) i f <-> autolink nodes g ro i f.
Proof.
  unfold autos. assert (G : forall is, NoDup is -> linkof (flat_map (fun j => match nth_error nodes j with Some n => if mem g (fn_addgroups n) then [(j, if ro || mem g (fn_rogroups n) then TOSSNODE_READONLY else 0)] else [] | None => [] end) is) i f <-> In i is /\ autolink nodes g ro i f).
  { induction is as [|j is IH]; intros Hn; cbn [flat_map]; [split; [intros H; destruct (linkof_nil _ _ H)|intros [[] _]]|]. inversion Hn; subst. specialize (IH ltac:(assumption)). cbn [In].
    destruct (nth_error nodes j) as [n|] eqn:En; [destruct (mem g (fn_addgroups n)) eqn:Em|]; cbn [app].
    - rewrite linkof_cons, IH. split.
      + intros [[-> ->]|[_ [? ?]]]; [|auto]. split; [auto|]. exists n. apply mem_spec in Em. auto.
      + intros [[->|I] A]; [|right; split; [intros ->; auto|auto]]. left. split; [reflexivity|]. destruct A as (n' & En' & _ & ->). assert (n' = n) as -> by congruence. reflexivity.
    - rewrite IH. split; [tauto|]. intros [[->|I] A]; [|auto]. exfalso. destruct A as (n' & En' & I & _). apply mem_spec in I. congruence.
    - rewrite IH. split; [tauto|]. intros [[->|I] A]; [|auto]. exfalso. destruct A as (n' & En' & _). congruence. }
  rewrite G by apply seq_NoDup. split; [tauto|]. intros A. split; [|exact A]. destruct A as (n & En & _). apply in_seq. pose proof (proj1 (nth_error_Some nodes i) ltac:(congruence)). lia.
Qed.
Lemma links_ok tmpl ci nodes g ro :
  rightlinks tmpl ci nodes g ro
    (match ci with
     | None => fold_left addl tmpl []
     | Some i => fold_left (fun l j => match nth_error nodes j with
                   | Some n => if mem g (fn_addgroups n) then addtoss l j (if ro || mem g (fn_rogroups n) then TOSSNODE_READONLY else 0) else l
                   | None => l end) (seq 0 (length nodes)) (addtoss (fold_left addl tmpl []) i TOSSNODE_FEED)
     end).
Proof.
  unfold rightlinks. destruct ci as [i|].
  - rewrite fold_autos. fold (autos nodes g ro). change (addtoss (fold_left addl tmpl []) i TOSSNODE_FEED) with (fold_left addl [(i, TOSSNODE_FEED)] (fold_left addl tmpl [])). rewrite <- !fold_left_app.
    destruct (fold_links (tmpl ++ [(i, TOSSNODE_FEED)] ++ autos nodes g ro) [] ltac:(constructor)) as [H1 H2]. split; [exact H1|]. intros j f. rewrite H2, linkof_app. cbn [app]. rewrite linkof_cons, link_autos. cbn [map In]. unfold TOSSNODE_FEED.
    split.
    + intros [[]|[_ [?|[? [[-> ->]|[? ?]]]]]]; [auto|auto|]. right; right. repeat split; auto. exists i. auto.
    + intros [?|[(? & E & ->)|(? & (k & E & ?) & ?)]]; [auto|injection E as ->; right; split; auto|]. injection E as <-. right. split; [tauto|]. right. split; [auto|]. right. auto.
  - destruct (fold_links tmpl [] ltac:(constructor)) as [H1 H2]. split; [exact H1|]. intros j f. rewrite H2. cbn [map In]. split; [tauto|]. intros [?|[(_ & ? & _)|(_ & (k & ? & _) & _)]]; [tauto|discriminate|discriminate].
Qed.

(** ** Template *)
Lemma find_first {A} (f : A -> bool) (P : A -> Prop) l : (forall a, f a = true <-> P a) ->
  match find f l with Some x => firstthat P l x | None => Forall (fun y => ~ P y) l end.
Proof.
  intros Hf. induction l as [|a l IH]; cbn [find]; [constructor|]. destruct (f a) eqn:E.
  - exists [], l. repeat split; [apply Hf; auto|constructor].
  - assert (~ P a) by (rewrite <- Hf; congruence). destruct (find f l) as [x|].
    + destruct IH as (u & v & -> & Px & Hu). exists (a :: u), v. repeat split; auto.
    + constructor; auto.
Qed.
Lemma template_ok areas g : istemplate areas g (template areas g).
Proof.
  unfold template, istemplate. pose proof (find_first (fun a => streqi (fa_tag a) (lit "DEFAULT")) general areas ltac:(intros a; unfold general; tauto)) as Hg.
  pose proof (find_first (fun a => strneqi 8 (fa_tag a) (lit "DEFAULT_") && mem g (firstn 49 (skipn 8 (fa_tag a)))) (forgroup g) areas ltac:(intros a; unfold forgroup; rewrite andb_true_iff, mem_spec; tauto)) as Hf.
  destruct (g =? 0) eqn:E.
  - right. split; [left; lia|]. destruct (find _ areas) as [d|] in Hg |- *; [left; exists d; auto|right; auto].
  - destruct (find (fun a => strneqi 8 _ _ && _) areas) as [d|].
    + left. split; [lia|]. exists d. auto.
    + right. split; [right; exact Hf|]. destruct (find _ areas) as [d|] in Hg |- *; [left; exists d; auto|right; auto].
Qed.
Lemma istemplate_fun areas g o o' : istemplate areas g o -> istemplate areas g o' -> o = o'.
Proof.
  assert (F : forall (P : farea -> Prop) l x y, firstthat P l x -> firstthat P l y -> x = y).
  { intros P l x y (a & b & -> & Px & Ha). revert a Ha. induction a as [|z a IH]; intros Ha (a' & b' & E & Py & Ha').
    - destruct a' as [|w a']; cbn in E; [congruence|]. injection E as -> E. inversion Ha'; subst; tauto.
    - inversion Ha; subst. destruct a' as [|w a']; cbn in E; injection E as -> E; [tauto|]. inversion Ha'; subst. apply IH; auto. exists a', b'. auto. }
  assert (N : forall (P : farea -> Prop) l x, firstthat P l x -> ~ Forall (fun y => ~ P y) l).
  { intros P l x (a & b & -> & Px & _) H. rewrite Forall_app in H. destruct H as [_ H]. inversion H; auto. }
  intros [(Hg & d & -> & H)|(H0 & [(d & -> & H)|(-> & H)])] [(Hg' & d' & -> & H')|(H0' & [(d' & -> & H')|(-> & H')])]; auto.
  all: first [f_equal; exact (F _ _ _ _ H H')
             |exfalso; exact (N _ _ _ H H')|exfalso; exact (N _ _ _ H' H)
             |exfalso; destruct H0 as [?|H0]; [auto|exact (N _ _ _ H' H0)]
             |exfalso; destruct H0' as [?|H0']; [auto|exact (N _ _ _ H H0')]].
Qed.

(** ** Description *)
Lemma word33_split w c r : Forall visible w -> ~ visible c -> word33 (w ++ c :: r) = (w, c :: r).
Proof.
  unfold visible. induction w as [|x w IH]; intros H Hc; cbn [app word33].
  - destruct ((32 <? c) && (c <? 128)) eqn:E; [exfalso; lia|reflexivity].
  - inversion H; subst. replace ((32 <? x) && (x <? 128)) with true by lia. rewrite IH by auto. reflexivity.
Qed.
Lemma word33_parts l w r : word33 l = (w, r) -> l = w ++ r /\ Forall visible w /\ match r with [] => True | c :: _ => ~ visible c end.
Proof.
  unfold visible. revert w r. induction l as [|c l IH]; intros w r H; cbn [word33] in H; [injection H as <- <-; auto|]. destruct ((32 <? c) && (c <? 128)) eqn:E.
  - destruct (word33 l) as [a b]. injection H as <- <-. destruct (IH _ _ eq_refl) as (-> & Ha & Hb). repeat split; auto. constructor; [lia|exact Ha].
  - injection H as <- <-. repeat split; auto. lia.
Qed.
Lemma skip32_split s x t : Forall blank s -> visible x -> skip32 (s ++ x :: t) = x :: t.
Proof.
  unfold visible, blank. induction s as [|c s IH]; intros H Hx; cbn [app skip32]; [replace ((x <=? 32) || (128 <=? x)) with false by lia; reflexivity|]. inversion H; subst. replace ((c <=? 32) || (128 <=? c)) with true by lia. auto.
Qed.
Lemma skip32_parts l : Forall (fun c => 1 <= c <= 127) l -> exists s, Forall blank s /\ l = s ++ skip32 l /\ match skip32 l with [] => True | x :: _ => visible x end.
Proof.
  unfold visible, blank. induction l as [|c l IH]; intros H; cbn [skip32]; [exists []; auto|]. inversion H; subst. destruct ((c <=? 32) || (128 <=? c)) eqn:E.
  - destruct (IH ltac:(auto)) as (s & Hs & El & Hx). exists (c :: s). split; [constructor; [lia|auto]|]. split; [cbn [app]; congruence|exact Hx].
  - exists []. repeat split; auto; lia.
Qed.
Lemma rev_case {A} (l : list A) : l = [] \/ exists m z, l = m ++ [z].
Proof. destruct l as [|a l]; [auto|]. right. exists (removelast (a :: l)), (last (a :: l) a). apply app_removelast_last. discriminate. Qed.
Lemma upcrlf_line t r : Forall (fun c => c <> 10 /\ c <> 13) t -> upcrlf (t ++ 10 :: r) = t.
Proof. induction t as [|c t IH]; intros H; cbn [app upcrlf]; [reflexivity|]. inversion H as [|? ? [? ?] ?]; subst. replace ((c =? 10) || (c =? 13)) with false by lia. f_equal. auto. Qed.
Lemma plain_bytes l : plainline l -> Forall (fun c => 1 <= c <= 127) l.
Proof. intros [H _]. eapply Forall_impl; [|exact H]. cbn. intros; lia. Qed.
Lemma descline_ok area l : plainline l -> match descline area (l ++ [10]) with Some d => describes area l d | None => forall d, ~ describes area l d end.
Proof.
  intros Hp. pose proof (plain_bytes l Hp) as Hb. assert (G : forall d, describes area l d -> descline area (l ++ [10]) = Some d).
  { intros d (w & s1 & s & x & t & -> & Hw & Hs1 & Hs & Hx & Hn & ->). unfold descline. rewrite <- app_assoc. cbn [app]. rewrite word33_split by (auto; unfold visible, blank in *; lia). rewrite Hn. rewrite <- app_assoc. cbn [app]. rewrite skip32_split by auto.
    change (x :: t ++ [10]) with ((x :: t) ++ 10 :: []). rewrite upcrlf_line; [reflexivity|]. destruct Hp as [Hp _]. rewrite Forall_app in Hp. destruct Hp as [_ Hp]. inversion Hp as [|? ? _ Hp']; subst. rewrite Forall_app in Hp'. destruct Hp' as [_ Hp']. eapply Forall_impl; [|exact Hp']. cbn. tauto. }
  destruct (descline area (l ++ [10])) as [d|] eqn:E; [|intros d H; pose proof (G d H); congruence].
  unfold descline in E. destruct (word33 (l ++ [10])) as [w r] eqn:Ew. destruct (word33_parts _ _ _ Ew) as (El & Hw & Hr). destruct r as [|s1 r]; [discriminate|]. destruct (streqi w area) eqn:En; [|discriminate].
  destruct (rev_case r) as [->|(r' & z & ->)]; [cbn in E; discriminate|]. change (w ++ s1 :: r' ++ [z]) with (w ++ (s1 :: r') ++ [z]) in El. rewrite app_assoc in El. apply app_inj_tail in El as [El <-].
  assert (Hb' := Hb). rewrite El in Hb'. rewrite Forall_app in Hb'. destruct Hb' as [_ Hb']. inversion Hb' as [|? ? H1 H2]; subst.
  destruct (skip32_parts r' H2) as (s & Hs & Er & Hx). destruct (skip32 r') as [|x t] eqn:Ek.
  - exfalso. rewrite app_nil_r in Er. subst r'. assert (Q : skip32 (s ++ [10]) = []). { clear - Hs. induction Hs as [|c s Hc _ IH]; cbn [app skip32]; [reflexivity|]. unfold blank in Hc. replace ((c <=? 32) || (128 <=? c)) with true by lia. exact IH. } rewrite Q in E. discriminate.
  - exists w, s1, s, x, t. split; [rewrite <- Er; reflexivity|]. split; [exact Hw|]. split; [unfold blank, visible in *; lia|]. split; [exact Hs|]. split; [exact Hx|]. split; [exact En|].
    assert (Ep : Some d = Some (firstn 77 (x :: t))); [|congruence]. apply G. exists w, s1, s, x, t. rewrite <- Er. split; [reflexivity|]. split; [exact Hw|]. split; [unfold blank, visible in *; lia|]. auto.
Qed.
Lemma textfile_pos ls : (length ls <= length (textfile ls))%nat.
Proof. induction ls as [|l ls IH]; [auto|]. cbn [textfile flat_map length] in *. rewrite !app_length. cbn [length]. fold (textfile ls). lia. Qed.
Lemma crlf_plain l : ~ In 13 l -> crlf (l ++ [10]) = l ++ [10].
Proof.
  intros H. destruct (P_Scan.crlf_cases l) as [E|(u & -> & _)]; [exact E|]. exfalso. apply H, in_or_app. right. left. reflexivity.
Qed.
Lemma descfile_ok area ls : Forall plainline ls -> forall fuel, (length ls <= fuel)%nat ->
  match descfile fuel area (textfile ls) with Some d => filesays area ls d | None => forall d, ~ filesays area ls d end.
Proof.
  induction ls as [|l ls IH]; intros Hp fuel Hf.
  - assert (E : descfile fuel area (textfile []) = None) by (destruct fuel; reflexivity). rewrite E. intros d (l & (a & b & El & _) & _). destruct a; discriminate.
  - destruct fuel as [|fuel]; [cbn in Hf; lia|]. inversion Hp as [|? ? H1 H2]; subst. cbn [descfile].
    assert (Ef : osFGets 199 (textfile (l :: ls)) = Some (l ++ [10], textfile ls)).
    { cbn [textfile flat_map]. rewrite <- app_assoc. cbn [app]. fold (textfile ls). destruct H1 as [Hc Hl]. rewrite Forall_forall in Hc. rewrite P_Out.osFGets_line by (try lia; intros Q; apply Hc in Q; lia). rewrite crlf_plain; [reflexivity|]. intros Q. apply Hc in Q. lia. }
    rewrite Ef. pose proof (descline_ok area l H1) as Hd. destruct (descline area (l ++ [10])) as [d|].
    + exists l. split; [|exact Hd]. exists [], ls. repeat split; [exists d; exact Hd|constructor].
    + specialize (IH H2 fuel ltac:(cbn in Hf; lia)). destruct (descfile fuel area (textfile ls)) as [d|].
      * destruct IH as (m & (a & b & -> & Pm & Ha) & Dm). exists m. split; [|exact Dm]. exists (l :: a), b. repeat split; auto. constructor; [intros (d' & Q); exact (Hd _ Q)|exact Ha].
      * intros d (m & (a & b & El & Pm & Ha) & Dm). destruct a as [|y a]; cbn in El; injection El as -> El; [exact (Hd _ Dm)|]. apply (IH d). exists m. split; [|exact Dm]. inversion Ha; subst. exists a, b. auto.
Qed.
Lemma textfile_inj ls ls' : Forall plainline ls -> Forall plainline ls' -> textfile ls = textfile ls' -> ls = ls'.
Proof.
  revert ls'. induction ls as [|l ls IH]; intros [|l' ls'] H H' E; [reflexivity| | |].
  - cbn [textfile flat_map] in E. destruct l'; discriminate.
  - cbn [textfile flat_map] in E. destruct l; discriminate.
  - inversion H as [|? ? [Hl _] Hls]; inversion H' as [|? ? [Hl' _] Hls']; subst. cbn [textfile flat_map] in E. rewrite <- !app_assoc in E. cbn [app] in E. fold (textfile ls) (textfile ls') in E.
    assert (Q : forall a b x y, Forall (fun c => 1 <= c <= 127 /\ c <> 10 /\ c <> 13) a -> Forall (fun c => 1 <= c <= 127 /\ c <> 10 /\ c <> 13) b -> a ++ 10 :: x = b ++ 10 :: y -> a = b /\ x = y).
    { clear. induction a as [|c a IHa]; intros [|d b] x y Ha Hb E; cbn in E; [injection E as ->; auto|injection E as <- _; inversion Hb; lia|injection E as -> _; inversion Ha; lia|]. injection E as -> E. inversion Ha; inversion Hb; subst. destruct (IHa b x y) as [-> ->]; auto. }
    destruct (Q _ _ _ _ Hl Hl' E) as [-> E']. f_equal. apply IH; auto.
Qed.
Lemma desc_ok files area node als : (forall al s, In al als -> files (sal_file al) = Some s -> exists ls, s = textfile ls /\ Forall plainline ls) ->
  match GetDescription als files area node with
  | Some d => exists al, firstthat (fun al => exists d, listsays files area node al d) als al /\ listsays files area node al d
  | None => Forall (fun al => forall d, ~ listsays files area node al d) als
  end.
Proof.
  induction als as [|al als IH]; intros Hf; cbn [GetDescription]; [constructor|]. specialize (IH (fun a s I => Hf a s (or_intror I))).
  assert (N : (forall d, ~ listsays files area node al d) -> match GetDescription als files area node with
     | Some d => exists al', firstthat (fun al => exists d, listsays files area node al d) (al :: als) al' /\ listsays files area node al' d
     | None => Forall (fun al => forall d, ~ listsays files area node al d) (al :: als) end).
  { intros Hn. destruct (GetDescription als files area node) as [d|]; [|constructor; auto]. destruct IH as (al' & (a & b & -> & P1 & P2) & Dm). exists al'. split; [|exact Dm]. exists (al :: a), b. repeat split; auto. constructor; [intros (d' & Q); exact (Hn _ Q)|exact P2]. }
  destruct (match node with Some i => Nat.eqb (sal_node al) i | None => false end && flag (sal_flags al) SAL_DESC) eqn:E.
  - apply andb_true_iff in E as [E1 E2]. destruct node as [i|]; [|discriminate]. apply Nat.eqb_eq in E1. subst i.
    assert (E3 : Z.testbit (sal_flags al) 0 = true). { unfold flag, SAL_DESC in E2. rewrite Z.bit0_odd. destruct (Z.odd (sal_flags al)) eqn:Eo; [reflexivity|]. exfalso. apply negb_true_iff, Z.eqb_neq in E2. apply E2. change 1 with (Z.ones 1). rewrite Z.land_ones by lia. change (2 ^ 1) with 2. rewrite Zmod_odd, Eo. reflexivity. }
    destruct (files (sal_file al)) as [s|] eqn:Es.
    + destruct (Hf al s (or_introl eq_refl) Es) as (ls & -> & Hp). pose proof (descfile_ok area ls Hp _ (textfile_pos ls)) as Hd. destruct (descfile (length (textfile ls)) area (textfile ls)) as [d|].
      * assert (L : listsays files area (Some (sal_node al)) al d) by (split; [reflexivity|split; [exact E3|exists ls; auto]]). exists al. split; [|exact L]. exists [], als. repeat split; [exists d; exact L|constructor].
      * apply N. intros d (_ & _ & ls' & Es' & Hp' & Hs).
        rewrite Es in Es'. injection Es' as Es'. apply textfile_inj in Es'; auto. subst ls'. exact (Hd _ Hs).
    + apply N. intros d (_ & _ & ls' & Es' & _ & _). congruence.
  - apply N. intros d (-> & Hb & _). rewrite Nat.eqb_refl in E. cbn [andb] in E. unfold flag, SAL_DESC in E. apply negb_false_iff, Z.eqb_eq in E. assert (X : Z.testbit (Z.land (sal_flags al) 1) 0 = true) by (rewrite Z.land_spec, Hb; reflexivity). rewrite E in X. discriminate.
Qed.

(** ** The new area *)
Lemma same_iff a b : (Compare4D a b =? 0) = true <-> sameaddr a b.
Proof. rewrite P_Echo.compare_same. apply P_Echo.sameaddrb_spec. Qed.
Lemma findpos_ok {A} (f : A -> bool) (P : A -> Prop) l : (forall a, f a = true <-> P a) ->
  match findpos f l with Some i => firstpos P l i | None => Forall (fun y => ~ P y) l end.
Proof.
  intros Hf. induction l as [|a l IH]; cbn [findpos]; [constructor|]. destruct (f a) eqn:E.
  - split; [exists a; split; [reflexivity|apply Hf; auto]|intros j y Hj; lia].
  - assert (N : ~ P a) by (rewrite <- Hf; congruence). destruct (findpos f l) as [i|]; cbn [option_map].
    + destruct IH as [IH1 IH2]. split; [exact IH1|]. intros [|j] y Hj Hy; cbn [nth_error] in Hy; [congruence|]. apply (IH2 j); [lia|exact Hy].
    + constructor; auto.
Qed.
Lemma template_in areas g d : istemplate areas g (Some d) -> In d areas /\ isdefault (fa_tag d).
Proof.
  intros [(_ & d' & E & (a & b & -> & [P _] & _))|(_ & [(d' & E & (a & b & -> & P & _))|(E & _)])]; [| |discriminate]; injection E as <-; (split; [apply in_or_app; right; left; reflexivity|]); [left; exact P|right; exact P].
Qed.
Definition pathof (o : option farea) (name : list Z) (t : Z) := match o with Some d => MakeDirectory 80 (fa_path d) (cleanname name) t | None => [] end.
Lemma land_pow2 f : negb (Z.land f (2 ^ 2) =? 0) = Z.testbit f 2.
Proof.
  destruct (Z.testbit f 2) eqn:E.
  - apply negb_true_iff, Z.eqb_neq. intros H. assert (X : Z.testbit (Z.land f (2 ^ 2)) 2 = true) by (rewrite Z.land_spec, E; reflexivity). rewrite H in X. discriminate.
  - apply negb_false_iff, Z.eqb_eq. apply Z.bits_inj'. intros n Hn. rewrite Z.land_spec, Z.bits_0. destruct (Z.eq_dec n 2) as [->|Hd]; [rewrite E; reflexivity|]. rewrite Z.pow2_bits_false by lia. apply andb_false_r.
Qed.
Lemma area_all c als files now lastt name addr mynode active pass a t :
  AddArea c als files now lastt name addr mynode active pass = Some (a, t) ->
  fa_tag a = name /\ fa_type a = AREATYPE_ECHOMAIL /\ fa_changed a = true /\ fa_import a = [] /\ fa_banned a = [] /\
  (firstpos (fun k => sameaddr k mynode) (cf_akas c) (fa_aka a) \/ (Forall (fun k => ~ sameaddr k mynode) (cf_akas c) /\ fa_aka a = O)) /\
  exists sender tmpl, issender (cf_nodes c) addr sender /\ groupof (cf_nodes c) sender (fa_group a) /\ istemplate (cf_areas c) (fa_group a) tmpl /\
    fa_flags a = (if active then match tmpl with Some d => Z.land (fa_flags d) 30 | None => 0 end else 1) /\
    fa_mb a = (if pass then None else match tmpl with Some d => fa_mb d | None => None end) /\
    fa_keepnum a = match tmpl with Some d => fa_keepnum d | None => 0 end /\
    fa_keepdays a = match tmpl with Some d => fa_keepdays d | None => 0 end /\
    rightlinks (match tmpl with Some d => fa_toss d | None => [] end) sender (cf_nodes c) (fa_group a) (Z.testbit (fa_flags a) 2) (fa_toss a) /\
    fa_desc a = match GetDescription als files name sender with Some s => s | None => match tmpl with Some d => fa_desc d | None => [] end end /\
    t = match tmpl with Some _ => nexttime now lastt | None => lastt end /\ fa_path a = pathof tmpl name t.
Proof.
  unfold AddArea. destruct (80 <=? length name)%nat; [discriminate|].
  pose proof (findpos_ok (fun k => Compare4D k mynode =? 0) (fun k => sameaddr k mynode) (cf_akas c) (fun k => same_iff k mynode)) as Ha.
  destruct (match findpos (fun k => Compare4D k mynode =? 0) (cf_akas c) with Some i => Some i | None => _ end) as [ak|] eqn:Ek; [|discriminate].
  pose proof (findpos_ok (fun n => Compare4D (fn_node n) addr =? 0) (fun n => sameaddr (fn_node n) addr) (cf_nodes c) (fun n => same_iff (fn_node n) addr)) as Hs.
  set (ci := findpos (fun n => Compare4D (fn_node n) addr =? 0) (cf_nodes c)) in *. cbv zeta.
  set (g := match ci with Some i => match nth_error (cf_nodes c) i with Some n => fn_defgroup n | None => 0 end | None => 0 end).
  set (fl := if active then match template (cf_areas c) g with Some d => M_Echo.takeflags (fa_flags d) | None => 0 end else AREA_UNCONFIRMED).
  intros H. injection H as <- <-. cbn [fa_tag fa_type fa_changed fa_import fa_banned fa_aka fa_group fa_flags fa_mb fa_keepnum fa_keepdays fa_toss fa_desc fa_path].
  do 5 (split; [reflexivity|]). split.
  { destruct (findpos (fun k => Compare4D k mynode =? 0) (cf_akas c)) as [i|]; [left; congruence|right]. split; [exact Ha|]. destruct (cf_akas c); congruence. }
  exists ci, (template (cf_areas c) g). split; [exact Hs|]. split.
  { unfold groupof, g. destruct ci as [i|]; [|reflexivity]. destruct Hs as [(n & En & _) _]. exists n. rewrite En. auto. }
  split; [apply template_ok|]. split; [unfold fl, M_Echo.takeflags; destruct active, (template (cf_areas c) g); reflexivity|].
  split; [destruct (template (cf_areas c) g), pass; reflexivity|]. split; [reflexivity|]. split; [reflexivity|].
  split.
  { replace (Z.testbit fl 2) with (flag fl AREA_DEFREADONLY).
    - pose proof (links_ok (match template (cf_areas c) g with Some d => fa_toss d | None => [] end) ci (cf_nodes c) g (flag fl AREA_DEFREADONLY)) as L.
      destruct ci; destruct (template (cf_areas c) g); exact L.
    - unfold flag, AREA_DEFREADONLY. change 4 with (2 ^ 2). rewrite land_pow2. reflexivity. }
  split; [reflexivity|]. split; [reflexivity|]. destruct (template (cf_areas c) g); reflexivity.
Qed.

(** ** A run *)
Definition sep (T : list Z -> Prop) : Prop := forall p q f1 f2 s1 s2 x y, T p -> T q -> length s1 = 8%nat -> length s2 = 8%nat ->
  expands f1 s1 p x -> expands f2 s2 q y -> s1 <> s2 -> x <> y.
Definition fits (T : list Z -> Prop) (name : list Z) : Prop := forall p f s x, T p -> filename name f -> length s = 8%nat -> expands f s p x -> (length x <= 79)%nat.
Definition made (T : list Z -> Prop) (a : farea) (s : Z) : Prop := exists p f, T p /\ expands f (hex 8 s) p (fa_path a).
Definition goodareas (T : list Z -> Prop) (l : list farea) : Prop :=
  (forall a, In a l -> isdefault (fa_tag a) -> T (fa_path a) /\ Forall (fun c => 0 <= c < 256) (fa_path a)) /\ Exists general l.
Lemma step_made T c als files now lastt name addr mynode active pass a t :
  AddArea c als files now lastt name addr mynode active pass = Some (a, t) -> goodareas T (cf_areas c) -> fits T name ->
  fa_tag a = name /\ t = nexttime now lastt /\ made T a t.
Proof.
  intros H [HT Hg] Hf. destruct (area_all _ _ _ _ _ _ _ _ _ _ _ _ H) as (-> & _ & _ & _ & _ & _ & sd & tmpl & _ & _ & It & _ & _ & _ & _ & _ & _ & Et & Ep). split; [reflexivity|].
  destruct tmpl as [d|].
  - split; [exact Et|]. destruct (template_in _ _ _ It) as [Id Dd]. destruct (HT d Id Dd) as [Td Bd]. destruct (expand_full 80 (cleanname name) (hex 8 t) (fa_path d) Bd [] ltac:(cbn; lia)) as (x & Hx & E).
    exists (fa_path d), (cleanname name). split; [exact Td|]. rewrite Ep. unfold pathof, MakeDirectory. rewrite E. cbn [app]. rewrite firstn_all2; [exact Hx|]. change (80 - 1)%nat with 79%nat. apply (Hf _ _ _ _ Td (cleanname_ok name) (hex_length 8 t) Hx).
  - exfalso. destruct It as [(_ & d & E & _)|(_ & [(d & E & _)|(_ & N)])]; try discriminate. apply Exists_exists in Hg as (d & I & G). rewrite Forall_forall in N. exact (N d I G).
Qed.
Fixpoint count (s : Z) (n : nat) : list Z := match n with O => [] | S k => s :: count (s + 1) k end.
Lemma run_made T als files rs : forall c lastt c' t, addall als files rs c lastt = Some (c', t) -> goodareas T (cf_areas c) ->
  Forall (fun r => ~ isdefault (rq_name r) /\ fits T (rq_name r)) rs -> 0 < lastt ->
  exists new, cf_areas c' = cf_areas c ++ new /\ map fa_tag new = map rq_name rs /\ Forall2 (made T) new (count (lastt + 1) (length rs)).
Proof.
  induction rs as [|r rs IH]; intros c lastt c' t H Hg Hr Hl; cbn [addall] in H.
  - injection H as <- _. exists []. rewrite app_nil_r. repeat split; constructor.
  - destruct (AddArea _ _ _ _ _ _ _ _ _ _) as [[a s]|] eqn:Ea; [|discriminate]. inversion Hr as [|? ? [Hd Hf] Hr']; subst. destruct (step_made T _ _ _ _ _ _ _ _ _ _ _ _ Ea Hg Hf) as (Et & Es & Hm).
    unfold nexttime in Es. replace (lastt =? 0) with false in Es by lia. subst s.
    destruct (IH _ _ _ _ H) as (new & E1 & E2 & E3); auto; [|lia|].
    + cbn [setar cf_areas]. destruct Hg as [HT HG]. split; [|apply Exists_app; auto]. intros b Ib Db. apply in_app_or in Ib as [Ib|[<-|[]]]; [auto|]. exfalso. rewrite Et in Db. auto.
    + exists (a :: new). cbn [setar cf_areas] in E1. rewrite <- app_assoc in E1. cbn [map length count]. repeat split; [exact E1|congruence|]. constructor; auto.
Qed.
Lemma run_first T als files rs c c' t : addall als files rs c 0 = Some (c', t) -> goodareas T (cf_areas c) ->
  Forall (fun r => ~ isdefault (rq_name r) /\ fits T (rq_name r)) rs -> (forall r, hd_error rs = Some r -> 0 < rq_now r) ->
  exists new, cf_areas c' = cf_areas c ++ new /\ map fa_tag new = map rq_name rs /\ Forall2 (made T) new (count (match rs with [] => 0 | r :: _ => rq_now r end) (length rs)).
Proof.
  intros H Hg Hr Hn. destruct rs as [|r rs]; cbn [addall] in H.
  - injection H as <- _. exists []. rewrite app_nil_r. repeat split; constructor.
  - destruct (AddArea _ _ _ _ _ _ _ _ _ _) as [[a s]|] eqn:Ea; [|discriminate]. inversion Hr as [|? ? [Hd Hf] Hr']; subst. destruct (step_made T _ _ _ _ _ _ _ _ _ _ _ _ Ea Hg Hf) as (Et & Es & Hm). cbn in Es. subst s. specialize (Hn r eq_refl).
    destruct (run_made T _ _ _ _ _ _ _ H) as (new & E1 & E2 & E3); auto.
    + cbn [setar cf_areas]. destruct Hg as [HT HG]. split; [|apply Exists_app; auto]. intros b Ib Db. apply in_app_or in Ib as [Ib|[<-|[]]]; [auto|]. exfalso. rewrite Et in Db. auto.
    + exists (a :: new). cbn [setar cf_areas] in E1. rewrite <- app_assoc in E1. cbn [map length count]. repeat split; [exact E1|congruence|]. constructor; auto.
Qed.
Lemma count_in s n x : In x (count s n) -> s <= x < s + Z.of_nat n.
Proof. revert s. induction n as [|n IH]; intros s; cbn [count]; [intros []|]. intros [<-|H]; [lia|]. apply IH in H. lia. Qed.
Lemma made_nodup T new n : sep T -> forall s, 0 <= s -> s + Z.of_nat n <= 2 ^ 32 -> Forall2 (made T) new (count s n) -> NoDup (map fa_path new).
Proof.
  intros Hsep. revert new. induction n as [|n IH]; intros new s H0 H1 H; cbn [count] in H; inversion H as [|a ? l ? Ha Hl]; subst; cbn [map]; constructor.
  - intros I. apply in_map_iff in I as (b & Eb & Ib). apply in_split in Ib as (l1 & l2 & ->). apply Forall2_app_inv_l in Hl as (c1 & c2 & _ & Hb & Ec). inversion Hb as [|? u ? ? Hbu _]; subst.
    assert (Iu : In u (count (s + 1) n)) by (rewrite Ec; apply in_or_app; right; left; reflexivity). apply count_in in Iu.
    destruct Ha as (p & f & Tp & Xa). destruct Hbu as (q & g & Tq & Xb). apply (Hsep p q f g (hex 8 s) (hex 8 u) _ _ Tp Tq (hex_length 8 s) (hex_length 8 u) Xa Xb); [|congruence].
    intros E. apply hex_inj in E; change (16 ^ Z.of_nat 8) with (2 ^ 32); lia.
  - apply (IH _ (s + 1)); auto; lia.
Qed.
Lemma sep_one p : numbered p -> sep (eq p).
Proof. intros Hn p1 p2 f1 f2 s1 s2 x y <- <- L1 L2 H1 H2 Hd. apply (differ f1 f2 s1 s2 p); auto. congruence. Qed.
Lemma expands_end f s q x : expands f s (q ++ [37; 56]) x -> exists y, x = y ++ s.
Proof.
  intros H. remember (q ++ [37; 56]) as p eqn:Ep. revert q Ep. induction H as [|z p t Hx H IHt|z p t Hx H IHt|z p t Hx H IHt|c|c z p t Hns H IHt]; intros q Ep.
  - destruct q; discriminate.
  - destruct q as [|? [|? q]]; cbn in Ep; injection Ep; intros; subst; try lia. destruct (IHt _ eq_refl) as (y & ->). exists (f ++ y). apply app_assoc.
  - destruct q as [|? [|? q]]; cbn in Ep; injection Ep; intros; subst; try lia. destruct (IHt _ eq_refl) as (y & ->). exists (map tolower f ++ y). apply app_assoc.
  - destruct q as [|? [|? q]]; cbn in Ep; injection Ep; intros; subst; try lia; [inversion H; subst; exists []; rewrite app_nil_r; reflexivity|]. destruct (IHt _ eq_refl) as (y & ->). exists (s ++ y). apply app_assoc.
  - destruct q as [|? [|? q]]; discriminate.
  - destruct q as [|? q]; cbn in Ep; injection Ep; intros; subst; [exfalso; apply Hns; unfold special; lia|]. match goal with E : _ = q ++ _ |- _ => destruct (IHt _ E) as (y & ->) end. eexists (_ :: y). reflexivity.
Qed.
Lemma sep_end : sep (fun p => exists q, p = q ++ [37; 56]).
Proof.
  intros p1 p2 f1 f2 s1 s2 x y (q1 & ->) (q2 & ->) L1 L2 H1 H2 Hd E. destruct (expands_end _ _ _ _ H1) as (y1 & ->). destruct (expands_end _ _ _ _ H2) as (y2 & ->).
  apply Hd. assert (Lq : length y1 = length y2) by (apply (f_equal (@length Z)) in E; rewrite !app_length in E; lia). apply app_inj in E as [_ E]; auto.
Qed.
