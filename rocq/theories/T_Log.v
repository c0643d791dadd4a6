(** The log: theorems. *)
From Verif Require Import Base M_Str M_Fs P_Fs M_Date S_Date P_Date M_Log S_Log.

Lemma render_blanks c k f : (forall f, lc_render c (32 :: f) = 32 :: lc_render c f) -> lc_render c (repeat 32 k ++ f) = repeat 32 k ++ lc_render c f.
Proof. intros H. induction k as [|k IH]; [reflexivity|]. cbn [repeat app]. rewrite H, IH. reflexivity. Qed.
Lemma indent_ok nest f : exists k, indent nest f = Some (repeat 32 k ++ f).
Proof.
  unfold indent. destruct ((1 <? nest) && (nest + Z.of_nat (length f) <? 499)) eqn:E; [|exists O; reflexivity]. apply andb_true_iff in E as [E1 E2]. exists (Z.to_nat (nest - 1)).
  replace (Nat.ltb _ 500) with true; [reflexivity|]. symmetry. apply Nat.ltb_lt. rewrite app_length, repeat_length. lia.
Qed.
Lemma cat_ok c : 0 <= c < 9 -> nth_error categoryletters (Z.to_nat c) = Some (letter_of c) /\ exists p, nth_error syslogpri (Z.to_nat c) = Some p /\ pri_of c p.
Proof.
  intros H. assert (D : c = 0 \/ c = 1 \/ c = 2 \/ c = 3 \/ c = 4 \/ c = 5 \/ c = 6 \/ c = 7 \/ c = 8) by lia. unfold pri_of, is_error.
  repeat (destruct D as [->|D]; [split; [reflexivity|]; eexists; (split; [reflexivity|lia])|]). subst c. split; [reflexivity|]. eexists. split; [reflexivity|lia].
Qed.
Lemma month_ok m : 0 <= m < 12 -> nth (Z.to_nat m) monthnames [] = month3 m.
Proof.
  intros H. assert (D : m = 0 \/ m = 1 \/ m = 2 \/ m = 3 \/ m = 4 \/ m = 5 \/ m = 6 \/ m = 7 \/ m = 8 \/ m = 9 \/ m = 10 \/ m = 11) by lia.
  repeat (destruct D as [->|D]; [reflexivity|]). subst m. reflexivity.
Qed.
Lemma stamp_ok l tp : time_ok tp -> stamp l tp = [l; 32] ++ two (tm_mday tp) ++ [45] ++ month3 (tm_mon tp) ++ [45] ++ two (tm_year tp mod 100) ++ [32] ++
  two (tm_hour tp) ++ [58] ++ two (tm_min tp) ++ [58] ++ two (tm_sec tp) ++ [32].
Proof.
  intros (H1 & H2 & H3 & H4 & H5 & H6). unfold stamp. rewrite month_ok by lia. rewrite Z.rem_mod_nonneg by lia. pose proof (Z.mod_pos_bound (tm_year tp) 100 ltac:(lia)). rewrite !pad2_two by lia. reflexivity.
Qed.
Lemma logtext_ok sys c st : call_ok c -> exists t p, text_of c t /\ pri_of (lc_cat c) p /\
  logtext sys c st = Some (if sys then LGS (lg_file st) (lg_con st ++ t ++ [10]) (lg_sys st ++ [(p, t)]) else LGS (lg_file st ++ stamp (letter_of (lc_cat c)) (lc_tm c) ++ t ++ [10]) (lg_con st ++ t ++ [10]) (lg_sys st)).
Proof.
  intros (Hc & _ & _ & Hf & Hr). unfold logtext. destruct (indent_ok (lc_nest c) (lc_fmt c)) as (k & ->). destruct (cat_ok _ Hc) as (-> & p & -> & Hp). destruct (lc_fmt c) as [|z f] eqn:E; [congruence|]. rewrite <- E in *.
  exists (repeat 32 k ++ lc_render c (lc_fmt c)), p. split; [exists k; reflexivity|]. split; [exact Hp|]. rewrite (render_blanks c k _ Hr). destruct sys; reflexivity.
Qed.
Lemma write_ok max sys c st : call_ok c -> if max <? lc_level c then LogWrite max sys c st = Some st else LogWrite max sys c st = logtext sys c st.
Proof. intros (_ & Hl & _). unfold LogWrite. destruct (max <? lc_level c); [reflexivity|]. replace (lc_level c =? 0) with false by lia. reflexivity. Qed.

(** Any sequence of calls: each one of at most the configured level becomes one line with its
    letter, time and text at the end of the log, in order; nothing else is written, and nothing that
    was in the log is changed. The same texts are shown *)
Theorem C77_file max cs file con sy : Forall call_ok cs ->
  exists ls ts, LogWrites max false cs (LGS file con sy) = Some (LGS (file ++ lines ls) (con ++ lines ts) sy) /\
    Forall2 line_of (filter (fun c => lc_level c <=? max) cs) ls /\ Forall2 text_of (filter (fun c => lc_level c <=? max) cs) ts.
Proof.
  intros H. revert file con. induction H as [|c cs Hc H IH]; intros file con; cbn [LogWrites filter].
  - exists [], []. unfold lines. cbn. rewrite !app_nil_r. repeat split; constructor.
  - pose proof (write_ok max false c (LGS file con sy) Hc) as W. destruct (Z.ltb_spec max (lc_level c)) as [L|L].
    + rewrite W. replace (lc_level c <=? max) with false by lia. apply IH.
    + rewrite W. replace (lc_level c <=? max) with true by lia. destruct (logtext_ok false c (LGS file con sy) Hc) as (t & p & Ht & _ & ->). cbn [lg_file lg_con lg_sys].
      destruct (IH (file ++ stamp (letter_of (lc_cat c)) (lc_tm c) ++ t ++ [10]) (con ++ t ++ [10])) as (ls & ts & -> & F1 & F2). pose proof Hc as (_ & _ & Htm & _).
      exists ((stamp (letter_of (lc_cat c)) (lc_tm c) ++ t) :: ls), (t :: ts). split; [unfold lines; cbn [map concat]; rewrite <- !app_assoc; reflexivity|]. split; constructor; auto.
      exists t. split; [exact Ht|]. cbv zeta. rewrite stamp_ok by exact Htm. rewrite <- !app_assoc. reflexivity.
Qed.
Print Assumptions C77_file.
(** With syslog, each becomes one entry of the right priority, and no file is written *)
Theorem C77_syslog max cs file con sy : Forall call_ok cs ->
  exists es, LogWrites max true cs (LGS file con sy) = Some (LGS file (con ++ lines (map snd es)) (sy ++ es)) /\
    Forall2 (fun c e => pri_of (lc_cat c) (fst e) /\ text_of c (snd e)) (filter (fun c => lc_level c <=? max) cs) es.
Proof.
  intros H. revert con sy. induction H as [|c cs Hc H IH]; intros con sy; cbn [LogWrites filter].
  - exists []. unfold lines. cbn. rewrite !app_nil_r. repeat split; constructor.
  - pose proof (write_ok max true c (LGS file con sy) Hc) as W. destruct (Z.ltb_spec max (lc_level c)) as [L|L].
    + rewrite W. replace (lc_level c <=? max) with false by lia. apply IH.
    + rewrite W. replace (lc_level c <=? max) with true by lia. destruct (logtext_ok true c (LGS file con sy) Hc) as (t & p & Ht & Hp & ->). cbn [lg_file lg_con lg_sys].
      destruct (IH (con ++ t ++ [10]) (sy ++ [(p, t)])) as (es & -> & F). exists ((p, t) :: es). split; [unfold lines; cbn [map concat]; rewrite <- !app_assoc; reflexivity|]. constructor; [split; assumption|exact F].
Qed.
Print Assumptions C77_syslog.
(** The text of a call at the top is not moved to the right; each message handled within another
    moves it by one, unless the format is too long for that *)
Theorem C77_indent nest f : Z.of_nat (length f) + nest < 499 -> indent nest f = Some (repeat 32 (Z.to_nat (nest - 1)) ++ f).
Proof.
  intros H. unfold indent. destruct (Z.ltb_spec 1 nest) as [L|L].
  - replace (nest + Z.of_nat (length f) <? 499) with true by lia. cbn [andb]. replace (Nat.ltb _ 500) with true; [reflexivity|]. symmetry. apply Nat.ltb_lt. rewrite app_length, repeat_length. lia.
  - replace (Z.to_nat (nest - 1)) with O by lia. reflexivity.
Qed.
Print Assumptions C77_indent.
(** Opening the log keeps what is in it and every other file; it is made if it does not exist *)
Theorem C77_open fs name can : streqi name (lit "syslog") = false ->
  match OpenLogfile fs name can with
  | None => can = false
  | Some (sys, fs', s) => sys = false /\ fget fs' name = Some s /\ (forall n, n <> name -> fget fs' n = fget fs n) /\ match fget fs name with Some s0 => s = s0 | None => s = [] end
  end.
Proof.
  intros E. unfold OpenLogfile. rewrite E. destruct can; [|reflexivity]. cbn [negb]. destruct (fget fs name) as [s|] eqn:F.
  - repeat split; auto.
  - split; [reflexivity|]. split; [apply fget_put_same|]. split; [intros n Hn; apply fget_put_other; congruence|reflexivity].
Qed.
Print Assumptions C77_open.

Definition noon : tm := TM 33 22 11 1 0 91.
Definition plain (level cat : Z) (s : string) (nest : Z) : lcall := LC level cat (lit s) (fun f => f) noon nest.
Example C77_nonvacuous : Forall call_ok [plain 1 1 "Failed" 0; plain 6 5 "Details" 0; plain 3 6 "Answer" 3] /\
  LogWrites 5 false [plain 1 1 "Failed" 0; plain 6 5 "Details" 0; plain 3 6 "Answer" 3] (LGS (lit "old" ++ [10]) [] []) =
    Some (LGS (lines [lit "old"; lit "% 01-Jan-91 11:22:33 Failed"; lit "+ 01-Jan-91 11:22:33   Answer"]) (lines [lit "Failed"; lit "  Answer"]) []).
Proof.
  split; [|vm_compute; reflexivity]. repeat (constructor; [split; [cbn; lia|split; [cbn; lia|split; [unfold time_ok; cbn; lia|split; [discriminate|reflexivity]]]]|]). constructor.
Qed.
Print Assumptions C77_nonvacuous.
(** what printf makes of a format with one %s *)
Fixpoint printf1 (arg f : list Z) : list Z :=
  match f with
  | [] => []
  | c :: r => if (c =? 37) && (match r with 115 :: _ => true | _ => false end) then arg ++ skipn 1 r else c :: printf1 arg r
  end.
(** A line end in a text, such as a password or a name another system sent, makes a line that cannot
    be told from one the program wrote *)
Theorem C77_forged_refuted : exists c d a b, call_ok c /\ call_ok d /\ line_of d b /\
  LogWrites 5 false [c] (LGS [] [] []) = Some (LGS (lines [a; b]) (lc_render c (lc_fmt c) ++ [10]) []).
Proof.
  exists (LC 2 6 (lit "AreaFix: Wrong password %s") (printf1 (lit "x" ++ [10] ++ lit "+ 01-Jan-91 11:22:33 AreaFix: Attached to SECRET")) noon 0),
    (plain 2 6 "AreaFix: Attached to SECRET" 0), (lit "+ 01-Jan-91 11:22:33 AreaFix: Wrong password x"), (lit "+ 01-Jan-91 11:22:33 AreaFix: Attached to SECRET").
  split; [split; [cbn; lia|split; [cbn; lia|split; [unfold time_ok; cbn; lia|split; [discriminate|reflexivity]]]]|].
  split; [split; [cbn; lia|split; [cbn; lia|split; [unfold time_ok; cbn; lia|split; [discriminate|reflexivity]]]]|].
  split; [exists (lit "AreaFix: Attached to SECRET"); split; [exists O; reflexivity|vm_compute; reflexivity]|vm_compute; reflexivity].
Qed.
Print Assumptions C77_forged_refuted.
