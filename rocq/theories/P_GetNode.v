(** Lemmas about the model of CrashGetNode. *)
From Verif Require Import Base M_Node4D S_Node4D P_Node4D M_Str M_Mem M_Fs M_Out M_Nl M_Args M_Main P_Args S_Nl M_GetNode S_GetNode.

Lemma up_field f : ~ In 44 f -> forall r, uptodelim COMMA (f ++ 44 :: r) = (f, r) /\ uptodelim COMMA f = (f, []).
Proof.
  induction f as [|c f IH]; intros H r; [split; reflexivity|]. cbn [app uptodelim COMMA lit existsb].
  assert (E : (c =? 44) = false) by (apply Z.eqb_neq; intros ->; apply H; left; reflexivity).
  change (existsb (Z.eqb c) COMMA) with ((c =? 44) || false). rewrite E. cbn [orb]. destruct (IH ltac:(intros X; apply H; right; auto) r) as [-> ->]. auto.
Qed.
Lemma tok_field f : filled f -> forall r, strtok COMMA (f ++ 44 :: r) = (Some f, r) /\ strtok COMMA f = (Some f, []).
Proof.
  intros [Hn Hf] r. destruct f as [|c f]; [contradiction|]. destruct (up_field (c :: f) Hf r) as [A B]. unfold strtok.
  assert (E : existsb (Z.eqb c) COMMA = false) by (change (existsb (Z.eqb c) COMMA) with ((c =? 44) || false); replace (c =? 44) with false by (symmetry; apply Z.eqb_neq; intros ->; apply Hf; left; reflexivity); reflexivity).
  cbn [app skipdelim]. rewrite E. cbn [app] in A. rewrite A, B. auto.
Qed.
Definition behind (fs : list (list Z)) (fl : option (list Z)) : list Z :=
  concat (map (fun f => lit "," ++ f) fs) ++ match fl with Some f => lit "," ++ f | None => [] end.
Definition following (fs : list (list Z)) (fl : option (list Z)) : list Z := tl (behind fs fl).
Lemma behind_form fs fl : (behind fs fl = [] /\ following fs fl = []) \/ behind fs fl = 44 :: following fs fl.
Proof. unfold following, behind. destruct fs as [|f fs]; [destruct fl as [f|]; [right; reflexivity|left; auto]|right; reflexivity]. Qed.
Lemma tok_behind f fs fl : filled f -> strtok COMMA (f ++ behind fs fl) = (Some f, following fs fl).
Proof.
  intros F. destruct (tok_field f F (following fs fl)) as [A B]. destruct (behind_form fs fl) as [[-> ->]| ->]; [rewrite app_nil_r|]; auto.
Qed.
Lemma following_cons f fs fl : following (f :: fs) fl = f ++ behind fs fl.
Proof. unfold following, behind. cbn [map concat tl app lit]. rewrite <- app_assoc. reflexivity. Qed.
Lemma field_cons name t f fs fl : filled f -> gn_field name COMMA (t, following (f :: fs) fl) = (t ++ labelled name f, following fs fl).
Proof. intros F. unfold gn_field. cbn [snd fst]. rewrite following_cons, tok_behind by auto. reflexivity. Qed.
Lemma field_none name d t : gn_field name d (t, following [] None) = (t, following [] None).
Proof. reflexivity. Qed.
Lemma up_all l : uptodelim [] l = (l, []).
Proof. induction l as [|c l IH]; [reflexivity|]. cbn [uptodelim existsb]. rewrite IH. reflexivity. Qed.
Lemma field_flags name t f : f <> [] -> gn_field name [] (t, following [] (Some f)) = (t ++ labelled name f, []).
Proof.
  intros Hf. unfold gn_field, following, behind. cbn [map concat app tl lit snd fst]. destruct f as [|c f]; [contradiction|].
  change (tl (lit "," ++ c :: f)) with (c :: f). unfold strtok. cbn [skipdelim existsb]. rewrite up_all. reflexivity.
Qed.
Lemma fields_ok n : nodeline_ok n -> gn_fields (following (nd_entries n) (nd_flags n)) =
  concat (map (fun p => labelled (fst p) (snd p)) (combine labels (nd_entries n))) ++ match nd_flags n with Some f => labelled (lit "Flags") f | None => [] end.
Proof.
  intros (_ & _ & Hf & Hl & Hg & _). unfold gn_fields. destruct (nd_flags n) as [g|].
  - destruct Hg as [Hg He]. destruct (nd_entries n) as [|a [|b [|c [|d [|e [|]]]]]]; try discriminate He.
    inversion_clear Hf as [|? ? A Hf1]. inversion_clear Hf1 as [|? ? B Hf2]. inversion_clear Hf2 as [|? ? C Hf3]. inversion_clear Hf3 as [|? ? D Hf4]. inversion_clear Hf4 as [|? ? X Hf5].
    rewrite !field_cons by auto. rewrite field_flags by auto. cbn [fst combine labels map concat snd]. rewrite ?app_nil_r, <- ?app_assoc. reflexivity.
  - rewrite app_nil_r. destruct (nd_entries n) as [|a [|b [|c [|d [|e [|]]]]]]; cbn [length] in Hl; try lia;
    repeat match goal with H : Forall filled (_ :: _) |- _ => inversion_clear H end; rewrite ?field_cons by auto; rewrite ?field_none by auto;
    cbn [fst combine labels map concat snd]; rewrite ?app_nil_r, <- ?app_assoc; reflexivity.
Qed.
Lemma tok_comma l : strtok COMMA (44 :: l) = strtok COMMA l.
Proof. reflexivity. Qed.
Lemma kind_ok n : nodeline_ok n -> gn_kind (nodetext n) = (match nd_kind n with [] => lit "Node" | k => k end, following (nd_entries n) (nd_flags n)).
Proof.
  intros (Hk & Hn & _). unfold nodetext. fold (behind (nd_entries n) (nd_flags n)).
  pose proof (tok_behind _ (nd_entries n) (nd_flags n) Hn) as T. revert Hk T. generalize (nd_number n ++ behind (nd_entries n) (nd_flags n)). intros r. generalize (nd_kind n), (following (nd_entries n) (nd_flags n)), (nd_number n).
  intros k q m Hk T. change (lit "," ++ r) with (44 :: r). unfold gn_kind. destruct k as [|c k].
  - change ([] ++ 44 :: r) with (44 :: r). cbn [hd]. rewrite Z.eqb_refl, tok_comma, T. reflexivity.
  - assert (F : filled (c :: k)) by (split; [discriminate|exact Hk]). destruct (tok_field (c :: k) F r) as [X _]. rewrite X, T.
    change (hd 0 ((c :: k) ++ 44 :: r)) with c. replace (c =? 44) with false; [reflexivity|]. symmetry; apply Z.eqb_neq. intros ->. apply Hk. left; reflexivity.
Qed.
Lemma droplow_low t l : Forall (fun c => c < 33 \/ c > 127) t -> droplow (t ++ l) = droplow l.
Proof.
  induction 1 as [|c t Hc _ IH]; [reflexivity|]. cbn [app droplow]. replace ((c <? 33) || (c >? 127)) with true; [exact IH|].
  symmetry. apply orb_true_iff. destruct Hc; [left; apply Z.ltb_lt|right; apply Z.gtb_lt]; lia.
Qed.
Lemma strip_ok l c t : 33 <= c <= 127 -> Forall (fun c => c < 33 \/ c > 127) t -> gn_strip ((l ++ [c]) ++ t) = l ++ [c].
Proof.
  intros Hc Ht. unfold gn_strip. rewrite rev_app_distr, droplow_low by (apply Forall_rev; auto). rewrite rev_app_distr. cbn [rev app droplow].
  replace ((c <? 33) || (c >? 127)) with false by (symmetry; apply orb_false_iff; split; [apply Z.ltb_ge|rewrite Z.gtb_ltb; apply Z.ltb_ge]; lia).
  cbn [rev]. rewrite rev_involutive. reflexivity.
Qed.
Lemma text_ok a region hub n t : nodeline_ok n -> Forall (fun c => c < 33 \/ c > 127) t -> gn_text a region hub (nodetext n ++ t) = nodeinfo a region hub n.
Proof.
  intros Hn Ht. pose proof Hn as (_ & _ & _ & _ & _ & l & c & E & Hc). unfold gn_text. rewrite E, strip_ok by auto. rewrite <- E, kind_ok by auto.
  unfold nodeinfo. rewrite fields_ok by auto. reflexivity.
Qed.

(** ** Words of the command line *)
Lemma key_none tbl w : Forall (fun a => match a_name a with Some k => map tolower w <> map tolower k | None => True end) tbl -> keyfind tbl w = None.
Proof.
  induction 1 as [|a tbl Ha _ IH]; [reflexivity|]. cbn [keyfind]. rewrite IH. destruct (a_name a) as [k|]; [|reflexivity].
  destruct (streqi w k) eqn:S; [|reflexivity]. apply streqi_spec in S. contradiction.
Qed.
Lemma nokeyword_none w : nokeyword w -> keyfind args_crashgetnode w = None.
Proof. intros [H1 H2]. apply key_none. unfold args_crashgetnode. constructor; [exact H1|]. constructor; [exact H2|constructor]. Qed.
Lemma nohelp_false w : nohelp w -> helpword w = false.
Proof.
  intros H. unfold helpword. repeat match goal with |- context [streq w ?x] => replace (streq w x) with false by (symmetry; apply streq_neq; intros ->; apply H; cbn [In]; tauto) end. reflexivity.
Qed.
Lemma print_word a : valid4d a -> nokeyword (Print4D a) /\ nohelp (Print4D a).
Proof.
  intros (Hz & _). assert (E : exists c r, Print4D a = c :: r /\ digit c).
  { pose proof (dec_digits (zone a) ltac:(unfold is_u16 in Hz; lia)) as D.
    unfold Print4D. destruct (dec (zone a)) as [|c r] eqn:Ed.
    - exfalso. apply (dec_nonempty (zone a)); [unfold is_u16 in Hz; lia|exact Ed].
    - inversion D; subst. destruct (negb _); cbn [app]; eauto. }
  destruct E as (c & r & -> & Hc). unfold digit in Hc. split.
  - assert (T : tolower c = c) by (unfold tolower; destruct ((65 <=? c) && (c <=? 90)) eqn:E; [lia|reflexivity]).
    split; cbn [map]; rewrite T; intros X; injection X as X _; lia.
  - intros H. cbn [In] in H. repeat (destruct H as [H|H]; [injection H as H _; lia|]). destruct H.
Qed.
Lemma command_two E w d : nokeyword w -> nohelp w -> nokeyword d -> crashgetnode E [w; d] = gn_lookup E d w.
Proof.
  intros Hw Hh Hd. unfold crashgetnode. rewrite (nohelp_false w Hh). unfold parseargs. cbn [argloop length args_crashgetnode repeat].
  change ([aauto (lit "NODE") true; aauto (lit "DIRECTORY") false]) with args_crashgetnode.
  rewrite (nokeyword_none w Hw). cbn [autofind args_crashgetnode aauto a_auto andb setd argloop option_map].
  change ([aauto (lit "NODE") true; aauto (lit "DIRECTORY") false]) with args_crashgetnode. rewrite (nokeyword_none d Hd). reflexivity.
Qed.
Lemma command_one E w : nokeyword w -> nohelp w -> crashgetnode E [w] =
  match gn_env E with Some d => gn_lookup E d w | None => Some (GnText (lit "No directory specified and CMNODELISTDIR not set" ++ [10]) EXIT_ERROR) end.
Proof.
  intros Hw Hh. unfold crashgetnode. rewrite (nohelp_false w Hh). unfold parseargs. cbn [argloop length args_crashgetnode repeat].
  change ([aauto (lit "NODE") true; aauto (lit "DIRECTORY") false]) with args_crashgetnode.
  rewrite (nokeyword_none w Hw). reflexivity.
Qed.
