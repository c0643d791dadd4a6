(** Reading the words of a configuration line. *)
From Verif Require P_Echo.
From Verif Require Import Base M_Node4D M_Str M_Mem M_Cfg M_Upd S_Str S_Node4D P_Str P_Node4D S_Upd.

Definition dropsep (rest : list Z) : list Z :=
  match rest with
  | c :: r => if (c =? 9) || (c =? 32) || (c =? 34) then r else rest
  | [] => []
  end.
(** the word at the beginning of a text *)
Definition first_word (src : list Z) (q : bool) (t rest : list Z) : Prop :=
  if q then exists body, skipblank src = 34 :: body /\ token stop_quoted body t rest
  else (forall body, skipblank src <> 34 :: body) /\ token stop_plain (skipblank src) t rest.

Lemma unquoted (s : list Z) : (forall body, s <> 34 :: body) -> match s with 34 :: r => (true, r) | _ => (false, s) end = (false, s).
Proof.
  intros H. destruct s as [|c r]; auto. destruct (Z.eq_dec c 34) as [->|Hne]; [exfalso; eapply H; eauto|].
  destruct c as [|p|p]; auto. do 6 (destruct p as [p|p|]; auto). congruence.
Qed.
Lemma jb_gen src q t rest dest n : cstring src -> first_word src q t rest ->
  jbstrcpy dest src n = (let '(b, d) := fold_left (emit n) t (Some dest, 0%nat) in (wr b d 0, negb (Nat.eqb d 0) || q, dropsep rest)) /\ cstring t.
Proof.
  intros Hs Hf. pose proof (cstring_skipblank _ Hs) as Hsk. unfold jbstrcpy. destruct q; cbn [first_word] in Hf.
  - destruct Hf as (body & Eb & Ht). rewrite Eb in *. pose proof (Forall_inv_tail Hsk) as Hb.
    destruct (jbloop_token_gen 34 0 n stop_quoted) with (m := length body) (src := body) (bd := (Some dest, 0%nat))
      as (t' & r' & Ht' & Hct & _ & He); [intros c Hc; unfold stop_quoted; lia|lia|auto|].
    destruct (token_fun _ _ _ _ _ _ Ht' Ht). subst t' r'. rewrite He. destruct (fold_left (emit n) t (Some dest, 0%nat)). split; auto.
  - destruct Hf as (Hn & Ht). rewrite unquoted by auto.
    destruct (jbloop_token_gen 32 9 n stop_plain) with (m := length (skipblank src)) (src := skipblank src) (bd := (Some dest, 0%nat))
      as (t' & r' & Ht' & Hct & _ & He); [intros c Hc; unfold stop_plain; lia|lia|auto|].
    destruct (token_fun _ _ _ _ _ _ Ht' Ht). subst t' r'. rewrite He. destruct (fold_left (emit n) t (Some dest, 0%nat)). split; auto.
Qed.
Lemma tok_gen src q t rest n : cstring src -> first_word src q t rest -> (2 <= n)%nat ->
  tok n src = (firstn (n - 1) t, ne t || q, dropsep rest).
Proof.
  intros Hs Hf Hn. unfold tok. destruct (jb_gen src q t rest (repeat 0 n) n Hs Hf) as (-> & Hct).
  destruct (finish n t (repeat 0 n) (repeat_length _ _) ltac:(lia) Hct) as (b & E & (_ & _ & Hc) & Hd).
  destruct (fold_left (emit n) t (Some (repeat 0 n), 0%nat)) as [b1 d]. rewrite E. cbn [snd] in Hd. subst d. rewrite Hc. f_equal. f_equal.
  destruct t as [|c t]; [rewrite Nat.min_0_r; reflexivity|]. cbn [length ne]. destruct (Nat.eqb_spec (Nat.min (n - 1) (S (length t))) 0); [lia|reflexivity].
Qed.
Lemma first_word_ex src : cstring src -> exists q t rest, first_word src q t rest.
Proof.
  intros Hs. pose proof (cstring_skipblank _ Hs) as Hsk.
  assert (Hc : (exists body, skipblank src = 34 :: body) \/ (forall body, skipblank src <> 34 :: body)).
  { destruct (skipblank src) as [|c r]; [right; discriminate|]. destruct (Z.eq_dec c 34); [left; exists r; congruence|].
    right. intros body H. inversion H; congruence. }
  destruct Hc as [(body & Eb)|Hn].
  - rewrite Eb in Hsk. destruct (jbloop_token_gen 34 0 0 stop_quoted) with (m := length body) (src := body) (bd := (@None (list Z), 0%nat))
      as (t' & r' & Ht' & Hct & _ & He); [intros c Hc; unfold stop_quoted; lia|lia|exact (Forall_inv_tail Hsk)|].
    exists true, t', r'. exists body. auto.
  - destruct (jbloop_token_gen 32 9 0 stop_plain) with (m := length (skipblank src)) (src := skipblank src) (bd := (@None (list Z), 0%nat))
      as (t' & r' & Ht' & Hct & _ & He); [intros c Hc; unfold stop_plain; lia|lia|auto|].
    exists false, t', r'. split; auto.
Qed.
(** A word that is shorter than both limits is the same with either. *)
Lemma tok_agree n m src : cstring src -> (2 <= n)%nat -> (2 <= m)%nat -> (length (fst (fst (tok m src))) < m - 1)%nat ->
  (length (fst (fst (tok m src))) < n)%nat -> tok n src = tok m src.
Proof.
  intros Hs Hn Hm H1 H2. destruct (first_word_ex src Hs) as (q & t & rest & Hf). rewrite (tok_gen _ _ _ _ m Hs Hf Hm) in *. rewrite (tok_gen _ _ _ _ n Hs Hf Hn).
  cbn [fst snd] in *. rewrite firstn_length in *. rewrite !firstn_all2 by lia. reflexivity.
Qed.
Lemma tok_flag n m src : cstring src -> (2 <= n)%nat -> (2 <= m)%nat -> snd (fst (tok n src)) = snd (fst (tok m src)) /\ snd (tok n src) = snd (tok m src).
Proof.
  intros Hs Hn Hm. destruct (first_word_ex src Hs) as (q & t & rest & Hf). rewrite (tok_gen _ _ _ _ m Hs Hf Hm), (tok_gen _ _ _ _ n Hs Hf Hn). auto.
Qed.

(** ** The words that are written *)
Definition plainword (w : list Z) : Prop := cstring w /\ w <> [] /\ Forall (fun c => c <> 32 /\ c <> 9 /\ c <> 10 /\ c <> 92 /\ c <> 34) w.
Lemma skip_nonblank c r : c <> 32 -> c <> 9 -> skipblank (c :: r) = c :: r.
Proof. intros. cbn [skipblank]. destruct (Z.eqb_spec c 32), (Z.eqb_spec c 9); try congruence. reflexivity. Qed.
Lemma first_plain w c r : plainword w -> c = 32 \/ c = 10 -> first_word (w ++ c :: r) false w (c :: r).
Proof.
  intros (Hw & Hne & Hc) Hx. destruct w as [|x w]; [congruence|]. pose proof (Forall_inv Hc) as H0. cbn beta in H0. cbn [app first_word].
  rewrite skip_nonblank by tauto. split; [intros body E; inversion E; tauto|]. change (x :: w ++ c :: r) with ((x :: w) ++ c :: r).
  apply token_word; auto; [eapply Forall_impl; [|exact Hc]; cbn beta; intros; tauto|]. right. exists c, r. split; auto. unfold stop_plain. tauto.
Qed.
Lemma first_quoted s r : cstring s -> ~ In 10 s -> first_word (34 :: escape s ++ 34 :: r) true s (34 :: r).
Proof. intros Hs Hn. exists (escape s ++ 34 :: r). split; [apply skip_nonblank; lia|apply token_escape; auto]. Qed.
Lemma first_skip c src q t rest : c = 32 \/ c = 9 -> first_word src q t rest -> first_word (c :: src) q t rest.
Proof. intros Hc H. unfold first_word in *. replace (skipblank (c :: src)) with (skipblank src); auto. cbn [skipblank]. destruct Hc as [->| ->]; reflexivity. Qed.
Lemma tok_skip n c src : c = 32 \/ c = 9 -> tok n (c :: src) = tok n src.
Proof. intros Hc. unfold tok. change (c :: src) with ([c] ++ src). rewrite (jbstrcpy_blanks _ [c]) by (constructor; [exact Hc|constructor]). reflexivity. Qed.

Lemma tok_plain n w c r : plainword w -> cstring r -> (length w < n)%nat -> (2 <= n)%nat -> c = 32 \/ c = 10 ->
  tok n (w ++ c :: r) = (w, true, if c =? 32 then r else c :: r).
Proof.
  intros Hw Hr Hl Hn Hc. pose proof Hw as (H1 & H2 & _).
  rewrite (tok_gen (w ++ c :: r) false w (c :: r)); auto; [|apply cstring_app; split; auto; constructor; auto; lia|apply first_plain; auto].
  rewrite firstn_all2 by lia. destruct w; [congruence|]. cbn [ne orb dropsep]. destruct Hc as [->| ->]; reflexivity.
Qed.
Lemma tok_quoted n s r : field n s -> cstring r -> (2 <= n)%nat -> tok n (34 :: escape s ++ 34 :: r) = (s, true, r).
Proof.
  intros (H1 & H2 & H3) Hr Hn. rewrite (tok_gen _ true s (34 :: r)); auto; [|constructor; [lia|]; apply cstring_app; split; [apply escape_cstring; auto|constructor; [lia|auto]]|apply first_quoted; auto].
  rewrite firstn_all2 by lia. rewrite orb_true_r. reflexivity.
Qed.
Lemma tok_end n : (2 <= n)%nat -> tok n [10] = ([], false, [10]).
Proof.
  intros Hn. rewrite (tok_gen [10] false [] [10]); auto; [rewrite firstn_nil; reflexivity|repeat constructor; lia|].
  split; [cbn; discriminate|]. cbn. apply tok_stop. unfold stop_plain. tauto.
Qed.

(** a list of words to the end of the line *)
Definition spaced (ws : list (list Z)) : list Z := flat_map (fun w => 32 :: w) ws.
Lemma spaced_cstring ws : Forall plainword ws -> cstring (spaced ws).
Proof. induction 1 as [|w ws (Hw & _) _ IH]; cbn [spaced flat_map]; [constructor|]. constructor; [lia|]. apply cstring_app; auto. Qed.
Lemma words_spaced n ws : (2 <= n)%nat -> Forall (fun w => plainword w /\ (length w < n)%nat) ws -> forall fuel, (length ws < fuel)%nat ->
  words fuel n (spaced ws ++ [10]) = ws.
Proof.
  intros Hn H. induction H as [|w ws (Hw & Hl) Hws IH]; intros fuel Hf; (destruct fuel as [|f]; [cbn in Hf; lia|]); cbn [words].
  - cbn [spaced flat_map app]. rewrite tok_end by lia. reflexivity.
  - cbn [spaced flat_map]. cbn [app]. rewrite <- app_assoc, tok_skip by auto.
    assert (Hp : Forall plainword ws) by (eapply Forall_impl; [|exact Hws]; cbn beta; tauto). pose proof (spaced_cstring ws Hp) as Hcs.
    destruct ws as [|w2 ws].
    + cbn [flat_map app]. rewrite tok_plain by (auto; constructor). change (10 =? 32) with false. cbv iota. f_equal. apply (IH f). cbn in Hf |- *. lia.
    + cbn [flat_map]. cbn [app]. rewrite tok_plain; auto; [|apply cstring_app; split; [inversion Hcs; auto|repeat constructor; lia]].
      change (32 =? 32) with true. cbv iota. f_equal. rewrite <- (IH f) by (cbn in Hf |- *; lia).
      cbn [spaced flat_map]. cbn [app]. destruct f as [|f]; [cbn in Hf; lia|]. cbn [words]. rewrite tok_skip by auto. reflexivity.
Qed.
Lemma spaced_length ws : (length ws <= length (spaced ws))%nat.
Proof. induction ws as [|w ws IH]; cbn [spaced flat_map length]; [lia|]. cbn [app length]. rewrite app_length. unfold spaced in IH. lia. Qed.
Lemma allwords_spaced n ws : (2 <= n)%nat -> Forall (fun w => plainword w /\ (length w < n)%nat) ws -> allwords n (spaced ws ++ [10]) = ws.
Proof. intros Hn H. unfold allwords. apply words_spaced; auto. rewrite app_length. pose proof (spaced_length ws). lia. Qed.
(** ... when the first blank has been taken *)
Lemma allwords_spaced1 n w ws : (2 <= n)%nat -> Forall (fun w => plainword w /\ (length w < n)%nat) (w :: ws) ->
  allwords n (w ++ spaced ws ++ [10]) = w :: ws.
Proof.
  intros Hn H. rewrite <- (words_spaced n (w :: ws) Hn H (S (length (w ++ spaced ws ++ [10])))).
  - unfold allwords. cbn [words]. cbn [spaced flat_map]. cbn [app]. rewrite tok_skip by auto. rewrite <- app_assoc. reflexivity.
  - rewrite !app_length. pose proof (spaced_length ws). cbn [length]. inversion H as [|x y ((_ & Hw & _) & _) Hy]; subst. destruct w; [congruence|]. cbn [length]. lia.
Qed.
(** Every word takes a character: the number of rounds does not matter. *)
Lemma tok_shorter n src : (2 <= n)%nat -> cstring src -> forall b rest, tok n src = (b, true, rest) -> (length rest < length src)%nat /\ cstring rest.
Proof.
  intros Hn Hs b rest. unfold tok. destruct (P_Echo.jbstrcpy_consumes src n Hn Hs) as (b' & ok & r' & -> & Hr & Hl).
  intros E. injection E as <- -> <-. auto.
Qed.
Lemma words_fuel n : (2 <= n)%nat -> forall f g src, cstring src -> (length src < f)%nat -> (length src < g)%nat -> words f n src = words g n src.
Proof.
  intros Hn. induction f as [|f IH]; intros g src Hs Hf Hg; [lia|]. destruct g as [|g]; [lia|]. cbn [words].
  destruct (tok n src) as [[b ok] rest] eqn:E. destruct ok; auto. destruct (tok_shorter n src Hn Hs _ _ E). f_equal. apply IH; auto; lia.
Qed.

(** ** Lists of groups *)
Lemma emit_small m n t : (m <= n)%nat -> forall b d, (d + length t < m)%nat -> fold_left (emit n) t (b, d) = fold_left (emit m) t (b, d).
Proof.
  intros Hmn. induction t as [|c t IH]; intros b d Hd; [reflexivity|]. cbn [fold_left length] in *. unfold emit at 2 4.
  destruct (Nat.ltb_spec d (n - 1)); [|lia]. destruct (Nat.ltb_spec d (m - 1)); [|lia]. apply IH. lia.
Qed.
Lemma letters_upper s : Forall letter s -> CorrectFlags s = Some s.
Proof.
  intros H. unfold CorrectFlags. assert (E : map toupper s = s).
  { induction H as [|c s Hc Hs IH]; [reflexivity|]. cbn [map]. rewrite IH. unfold toupper. unfold letter in Hc. destruct (Z.leb_spec 97 c); [lia|reflexivity]. }
  rewrite E. replace (forallb _ s) with true; auto. symmetry. apply forallb_forall. intros c Hc. rewrite Forall_forall in H. specialize (H c Hc). unfold letter in H.
  destruct (Z.leb_spec 65 c), (Z.leb_spec c 90); try lia; reflexivity.
Qed.
Lemma letters_field s n : Forall letter s -> (length s < n)%nat -> field n s.
Proof.
  intros H Hl. split; [eapply Forall_impl; [|exact H]; unfold letter; cbn beta; intros; lia|]. split; auto.
  intros Hi. rewrite Forall_forall in H. specialize (H _ Hi). unfold letter in H. lia.
Qed.
Lemma tokgroups_ok s r : groups s -> cstring r -> tokgroups (32 :: 34 :: escape s ++ 34 :: r) = Some (Some s, r).
Proof.
  intros (H1 & H2) Hr. destruct (letters_field s 30 H1 H2) as (Hc & Hn & _). unfold tokgroups.
  assert (Hs : cstring (34 :: escape s ++ 34 :: r)) by (constructor; [lia|]; apply cstring_app; split; [apply escape_cstring; auto|constructor; [lia|auto]]).
  change (32 :: 34 :: escape s ++ 34 :: r) with ([32] ++ 34 :: escape s ++ 34 :: r). rewrite (jbstrcpy_blanks _ [32]) by (constructor; [auto|constructor]).
  destruct (jb_gen _ true s (34 :: r) (repeat 0 30) 70 Hs (first_quoted s r Hc Hn)) as (-> & _).
  rewrite (emit_small 30 70 s) by lia. destruct (finish 30 s (repeat 0 30) (repeat_length _ _) ltac:(lia) Hc) as (b & E & (_ & _ & Hb) & _).
  destruct (fold_left (emit 30) s (Some (repeat 0 30), 0%nat)) as [b1 d]. rewrite E, orb_true_r, Hb. rewrite firstn_all2 by lia. rewrite letters_upper by auto. reflexivity.
Qed.
