(** C32: filter expressions. *)
From Verif Require Import Base M_Node4D M_Pat M_Mem M_Expr S_Expr P_Expr.

(** Every well formed expression has the value of its right-associated reading, where a
    malformed statement anywhere makes the whole expression malformed (-1). *)
Theorem C32_value : forall env ev s v,
  (forall w, ev w = Some (code (env w))) -> expression env s v -> evaluate ev s = Some (code v).
Proof. intros env ev s v Hev H. apply (values env ev Hev) in H. tauto. Qed.

(** Evaluation ends for every text whatsoever, with 1, 0 or the error value -1. *)
Theorem C32_terminates : forall ev s, (forall w, exists x, ev w = Some x /\ (x = -1 \/ x = 0 \/ x = 1)) ->
  exists r, evaluate ev s = Some r /\ (r = -1 \/ r = 0 \/ r = 1).
Proof.
  intros ev s Hev. assert (Hn : forall w, ev w <> None) by (intros w; destruct (Hev w) as (x & -> & _); discriminate).
  destruct (expr_total ev Hn (length s) s (2 * length s + 2) ltac:(lia) ltac:(lia)) as [r Hr].
  exists r. split; [exact Hr|]. clear - Hr Hev. revert Hr. generalize (2 * length s + 2)%nat as f. intros f. revert s r.
  induction f as [|f IH]; intros s r Hr; [discriminate|]. cbn [expr_eval] in Hr.
  destruct (expr_get s) as [[e1 s1]|]; [|injection Hr as <-; auto]. destruct (expr_get s1) as [[e2 s2]|]; [|injection Hr as <-; auto].
  destruct e2 as [|c e2].
  - destruct (streq e1 s); [|eauto]. destruct (strneqi 4 e1 (lit "NOT ")).
    + destruct (expr_eval f ev (skipn 4 e1)) as [x|] eqn:E; [|discriminate]. apply IH in E. simpl in Hr. injection Hr as <-.
      destruct (x =? 1); auto. destruct (x =? 0); auto.
    + destruct (Hev e1) as (x & Hx & Hv). assert (x = r) by congruence. subst x. exact Hv.
  - destruct (streqi (c :: e2) (lit "AND")).
    { destruct (expr_getrest s2) as [|c3 e3]; [injection Hr as <-; auto|].
      destruct (expr_eval f ev e1) as [x|]; [|discriminate]. simpl in Hr. destruct (x =? -1); [injection Hr as <-; auto|].
      destruct (expr_eval f ev (c3 :: e3)) as [y|]; [|discriminate]. simpl in Hr. destruct (y =? -1); [injection Hr as <-; auto|].
      injection Hr as <-. destruct (negb (x =? 0) && negb (y =? 0)); auto. }
    destruct (streqi (c :: e2) (lit "OR")); [|injection Hr as <-; auto].
    destruct (expr_getrest s2) as [|c3 e3]; [injection Hr as <-; auto|].
    destruct (expr_eval f ev e1) as [x|]; [|discriminate]. simpl in Hr. destruct (x =? -1); [injection Hr as <-; auto|].
    destruct (expr_eval f ev (c3 :: e3)) as [y|]; [|discriminate]. simpl in Hr. destruct (y =? -1); [injection Hr as <-; auto|].
    injection Hr as <-. destruct (negb (x =? 0) || negb (y =? 0)); auto.
Qed.

(** Malformed texts are reported: a term followed by something that is not an operator, *)
Theorem C32_missing_operator : forall env ev b1 t v b2 w x,
  (forall w, ev w = Some (code (env w))) -> blanks b1 -> term env t v -> blanks b2 -> b2 <> [] ->
  statement w -> ~ anycase (lit "AND") w -> ~ anycase (lit "OR") w -> (x = [] \/ hd 0 x = 32) ->
  evaluate ev (b1 ++ t ++ b2 ++ w ++ x) = Some (-1).
Proof.
  intros env ev b1 t v b2 w x Hev Hb1 Ht Hb2 Hn Hw Ha Ho Hx.
  destruct (get_term env ev Hev t v Ht) as (e & Hne & G).
  rewrite evaluate_step, G by (auto; right; apply hd_blanks; auto).
  rewrite get_statement by auto. cbv zeta.
  destruct w as [|c w]. { apply statement_hd in Hw. tauto. }
  assert (A1 : streqi (c :: w) (lit "AND") = false) by (unfold streqi; apply streq_neq; exact Ha).
  assert (A2 : streqi (c :: w) (lit "OR") = false) by (unfold streqi; apply streq_neq; exact Ho).
  rewrite A1, A2. reflexivity.
Qed.
(** an operator without a second operand, *)
Theorem C32_missing_operand : forall env ev b1 t v b2 op b3,
  (forall w, ev w = Some (code (env w))) -> blanks b1 -> term env t v -> blanks b2 -> b2 <> [] ->
  anycase (lit "AND") op \/ anycase (lit "OR") op -> blanks b3 ->
  evaluate ev (b1 ++ t ++ b2 ++ op ++ b3) = Some (-1).
Proof.
  intros env ev b1 t v b2 op b3 Hev Hb1 Ht Hb2 Hn Hop Hb3.
  destruct (get_term env ev Hev t v Ht) as (e & Hne & G).
  assert (Hx : b3 = [] \/ hd 0 b3 = 32) by (destruct Hb3 as [|? ? -> _]; auto).
  rewrite evaluate_step, G by (auto; right; apply hd_blanks; auto).
  rewrite expr_get_lead by auto.
  assert (Gop : expr_get (op ++ b3) = Some (op, b3)).
  { destruct Hb3 as [|c b3 -> Hb3].
    - assert (op = [] \/ expr_get (op ++ []) = Some (op, [])); [|destruct H as [->|]; auto].
      destruct Hop as [Hop|Hop].
      + right. apply (get_statement [] op []); auto; [constructor|].
        apply st_word; [intros ->; discriminate Hop| | | |].
        * eapply anycase_forall; eauto. litc. repeat (apply Forall_cons; [intros c'; unfold tolower; simpl; intros; destruct ((65 <=? c') && (c' <=? 90)) eqn:E2; lia|]). apply Forall_nil.
        * unfold anycase in *. rewrite Hop. discriminate.
        * destruct op as [|c op]; [discriminate Hop|]. simpl. intros ->. discriminate Hop.
        * eapply balanced_anycase; eauto; letters.
      + right. apply (get_statement [] op []); auto; [constructor|].
        apply st_word; [intros ->; discriminate Hop| | | |].
        * eapply anycase_forall; eauto. litc. repeat (apply Forall_cons; [intros c'; unfold tolower; simpl; intros; destruct ((65 <=? c') && (c' <=? 90)) eqn:E2; lia|]). apply Forall_nil.
        * unfold anycase in *. rewrite Hop. discriminate.
        * destruct op as [|c op]; [discriminate Hop|]. simpl. intros ->. discriminate Hop.
        * eapply balanced_anycase; eauto; letters.
    - destruct Hop as [Hop|Hop]; (eapply get_op; [exact Hev|exact Hop|letters|discriminate|reflexivity]). }
  rewrite Gop. cbv zeta.
  replace (expr_getrest b3) with ([] : list Z).
  2:{ symmetry. rewrite <- (app_nil_r b3). rewrite getrest_lead by auto. reflexivity. }
  destruct op as [|c op]. { destruct Hop as [Hop|Hop]; discriminate Hop. }
  destruct (streqi (c :: op) (lit "AND")) eqn:A; auto.
  destruct Hop as [Hop|Hop].
  { unfold streqi in A. apply streq_neq in A. exfalso. apply A. exact Hop. }
  assert (A2 : streqi (c :: op) (lit "OR") = true) by (unfold streqi; apply streq_eq; exact Hop). rewrite A2. reflexivity.
Qed.
(** or a parenthesis that is not closed. *)
Theorem C32_unmatched : forall ev b s, blanks b -> balanced s -> evaluate ev (b ++ 40 :: s) = Some (-1).
Proof.
  intros ev b s Hb Hs. rewrite evaluate_step. rewrite expr_get_lead by auto.
  replace (expr_get (40 :: s)) with (@None (list Z * list Z)); auto. symmetry.
  unfold expr_get. change (skipspaces (40 :: s)) with (40 :: s). change (strneqi 4 (40 :: s) (lit "NOT ")) with false.
  cbv zeta iota. change (40 =? 40) with true. cbv iota.
  rewrite <- (app_nil_r s), parenscan_balanced by auto. reflexivity.
Qed.

(** The filter documentation (doc/filter.txt:52) gives
    "TYPE=NETMAIL and NOT (FROMNAME=AreaFix or FROMNAME=Raid)" as an example. The program
    drops the parentheses: for a netmail from Raid the documented value is false, the
    computed one true. *)
Theorem C32_not_group_refuted : exists ev,
  ev (lit "TYPE=NETMAIL") = Some 1 /\ ev (lit "FROMNAME=AreaFix") = Some 0 /\ ev (lit "FROMNAME=Raid") = Some 1 /\
  (true && negb (false || true) = false) /\
  evaluate ev (lit "TYPE=NETMAIL and NOT (FROMNAME=AreaFix or FROMNAME=Raid)") = Some 1.
Proof.
  exists (fun w => if streq w (lit "FROMNAME=AreaFix") then Some 0 else Some 1).
  split; [reflexivity|]. split; [reflexivity|]. split; [reflexivity|]. split; [reflexivity|]. vm_compute. reflexivity.
Qed.
(** "Default is evaluation from left to right" (doc/filter.txt:48) does not hold either:
    "A or B and C" is read as "A or (B and C)". *)
Theorem C32_left_to_right_refuted : exists ev,
  ev (lit "A") = Some 1 /\ ev (lit "B") = Some 0 /\ ev (lit "C") = Some 0 /\ ((true || false) && false = false) /\
  evaluate ev (lit "A or B and C") = Some 1.
Proof.
  exists (fun w => if streq w (lit "A") then Some 1 else Some 0).
  split; [reflexivity|]. split; [reflexivity|]. split; [reflexivity|]. split; [reflexivity|]. vm_compute. reflexivity.
Qed.
(** Not every malformed text is reported: everything behind an empty pair of parentheses
    is ignored. *)
Theorem C32_trailing_junk_refuted : forall ev junk, evaluate ev (lit "A () " ++ junk) = ev (lit "A").
Proof.
  intros ev junk. rewrite evaluate_step. litc. cbn [app].
  change (expr_get (65 :: 32 :: 40 :: 41 :: 32 :: junk)) with (Some ([65], 32 :: 40 :: 41 :: 32 :: junk)). cbv iota.
  change (expr_get (32 :: 40 :: 41 :: 32 :: junk)) with (Some (@nil Z, 32 :: junk)). cbv iota.
  replace (streq [65] (65 :: 32 :: 40 :: 41 :: 32 :: junk)) with false by reflexivity. cbv zeta iota.
  rewrite evaluate_step. reflexivity.
Qed.
(** A parenthesis inside quotes is counted when the statement stands in parentheses. *)
Theorem C32_quoted_parenthesis_refuted : exists w, (exists q, w = lit "SUBJECT=""" ++ q ++ lit """") /\
  (forall ev, evaluate ev w = ev w) /\ (forall ev, ev (lit "SUBJECT="":") = Some (-1) -> evaluate ev ([40] ++ w ++ [41]) = Some (-1)).
Proof.
  exists (lit "SUBJECT="":)"""). split; [exists (lit ":)"); reflexivity|]. split; intros ev; [reflexivity|].
  intros H. vm_compute in H. vm_compute. reflexivity.
Qed.

(** The hypotheses are met: a documented example (doc/filter.txt:51) with its value. *)
Example C32_nonvacuous :
  let env := fun w => if streq w (lit "TYPE=ECHOMAIL") then Some true
                      else if streq w (lit "TONAME=""Billing Johan""") then Some true
                      else if streq w (lit "TONAME=""Johan Billing""") then Some false else None in
  expression env (lit "TYPE=ECHOMAIL and (TONAME=""Johan Billing"" or TONAME=""Billing Johan"")") (Some true)
  /\ evaluate (fun w => Some (code (env w))) (lit "TYPE=ECHOMAIL and (TONAME=""Johan Billing"" or TONAME=""Billing Johan"")") = Some 1
  /\ expression env (lit " not TYPE=ECHOMAIL  ") (Some false)
  /\ evaluate (fun w => Some (code (env w))) (lit "(A and TYPE=ECHOMAIL") = Some (-1).
Proof.
  intros env.
  assert (S1 : statement (lit "TYPE=ECHOMAIL")).
  { apply st_word; [discriminate| |intros H; discriminate H|simpl; lia|].
    - litc. repeat (apply Forall_cons; [lia|]). apply Forall_nil.
    - apply balanced_letters. litc. repeat (apply Forall_cons; [lia|]). apply Forall_nil. }
  assert (Q : forall q, Forall (fun c => c <> 34 /\ c <> 40 /\ c <> 41) q -> statement (lit "TONAME=""" ++ q ++ lit """")).
  { intros q Hq. apply (st_quoted (lit "TONAME=") q).
    - litc. repeat (apply Forall_cons; [lia|]). apply Forall_nil.
    - eapply Forall_impl; [|exact Hq]. simpl. tauto.
    - simpl. lia.
    - apply balanced_letters. repeat (apply Forall_app; split).
      + litc. repeat (apply Forall_cons; [lia|]). apply Forall_nil.
      + repeat (apply Forall_cons; [lia|]). apply Forall_nil.
      + eapply Forall_impl; [|exact Hq]. simpl. tauto.
      + repeat (apply Forall_cons; [lia|]). apply Forall_nil. }
  split; [|split; [vm_compute; reflexivity|split; [|vm_compute; reflexivity]]].
  - change (Some true) with (tri2 andb (env (lit "TYPE=ECHOMAIL")) (tri2 orb (env (lit "TONAME=""Johan Billing""")) (env (lit "TONAME=""Billing Johan""")))).
    apply (ex_and env [] [32] (lit "TYPE=ECHOMAIL") (lit "and") (lit "(TONAME=""Johan Billing"" or TONAME=""Billing Johan"")"));
      [constructor|repeat constructor|discriminate|reflexivity|constructor; exact S1|].
    apply (ex_term env [] [] (lit "(TONAME=""Johan Billing"" or TONAME=""Billing Johan"")")); [constructor|constructor|].
    apply (tm_paren env (lit "TONAME=""Johan Billing"" or TONAME=""Billing Johan""")).
    apply (ex_or env [] [32] (lit "TONAME=""Johan Billing""") (lit "or") (lit "TONAME=""Billing Johan"""));
      [constructor|repeat constructor|discriminate|reflexivity| |].
    + apply tm_statement. apply (Q (lit "Johan Billing")). litc. repeat (apply Forall_cons; [lia|]). apply Forall_nil.
    + apply (ex_term env [] [] (lit "TONAME=""Billing Johan""")); [constructor|constructor|].
      apply tm_statement. apply (Q (lit "Billing Johan")). litc. repeat (apply Forall_cons; [lia|]). apply Forall_nil.
  - change (Some false) with (tri_not (env (lit "TYPE=ECHOMAIL"))).
    apply (ex_term env [32] [32; 32] (lit "not TYPE=ECHOMAIL")); [repeat constructor|repeat constructor|].
    apply (tm_not env (lit "not") (lit "TYPE=ECHOMAIL") 0); [reflexivity|exact S1].
Qed.

Print Assumptions C32_value.
Print Assumptions C32_terminates.
Print Assumptions C32_missing_operator.
Print Assumptions C32_missing_operand.
Print Assumptions C32_unmatched.
Print Assumptions C32_not_group_refuted.
Print Assumptions C32_left_to_right_refuted.
Print Assumptions C32_trailing_junk_refuted.
Print Assumptions C32_quoted_parenthesis_refuted.
