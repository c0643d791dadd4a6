(** Properties C05, C06 and C07: configuration strings, bounded copies, file patterns. *)
From Verif Require Import Base M_Str S_Str P_Str.

(** C05: the quoted form is what WriteSafely writes as long as it fits its buffer ... *)
Theorem C05_written_form : forall s, cstring s -> (quoted_length s <= 299)%nat ->
  WriteSafely s = Some (34 :: escape s ++ [34]).
Proof. exact WriteSafely_ok. Qed.
Print Assumptions C05_written_form.

(** ... and reading it gives the string back, leaving exactly what followed. *)
Theorem C05_write_then_read : forall s txt rest dest n,
  cstring s -> ~ In 10 s -> WriteSafely s = Some txt -> (length s < n)%nat -> length dest = n -> cstring rest ->
  exists b', jbstrcpy dest (txt ++ rest) n = (Some b', true, rest) /\ holds b' n s.
Proof.
  intros s txt rest dest n Hs Hn Hw Hl Hd Hr.
  destruct (Nat.le_gt_cases (quoted_length s) 299) as [H|H].
  - rewrite WriteSafely_ok in Hw by auto. injection Hw as <-.
    replace ((34 :: escape s ++ [34]) ++ rest) with (34 :: escape s ++ 34 :: rest)
      by (simpl; rewrite <- app_assoc; reflexivity).
    apply write_read; auto.
  - rewrite WriteSafely_overflow in Hw by auto. discriminate.
Qed.
Print Assumptions C05_write_then_read.

(** Every field the program writes this way has at most 80 bytes, so it always fits. *)
Theorem C05_fields_fit : forall s, cstring s -> (length s <= 79)%nat -> exists txt, WriteSafely s = Some txt.
Proof.
  intros s Hs Hl. eexists. apply WriteSafely_ok; auto. unfold quoted_length.
  assert (length (filter needs_escape s) <= length s)%nat; [|lia].
  clear. induction s as [|c s IH]; simpl; auto. destruct (needs_escape c); simpl; lia.
Qed.
Print Assumptions C05_fields_fit.

(** A whole line of quoted strings, separated by blanks, is read back word by word. *)
Fixpoint readwords (n : nat) (src : list Z) (k : nat) : list (list Z) :=
  match k with
  | O => []
  | S k' => match jbstrcpy (repeat 0 n) src n with
            | (Some b, _, rest) => cstr b :: readwords n rest k'
            | _ => []
            end
  end.
Theorem C05_line_of_words : forall n ws,
  (forall w, In w ws -> cstring w /\ ~ In 10 w /\ (length w < n)%nat) ->
  readwords n (flat_map (fun w => 32 :: 34 :: escape w ++ [34]) ws) (length ws) = ws.
Proof.
  intros n ws H. assert (Hc : forall l, (forall w, In w l -> In w ws) ->
     cstring (flat_map (fun w => 32 :: 34 :: escape w ++ [34]) l)).
  { induction l as [|w l IH]; intros Hl; simpl; [constructor|]. constructor; [lia|]. constructor; [lia|].
    apply cstring_app. split; [apply cstring_app; split|].
    - apply escape_cstring. apply H. apply Hl. left; auto.
    - repeat constructor; lia.
    - apply IH. intros; apply Hl; right; auto. }
  revert Hc. induction ws as [|w ws IH]; intros Hc; simpl; auto.
  change (32 :: 34 :: (escape w ++ [34]) ++ flat_map (fun w => 32 :: 34 :: escape w ++ [34]) ws)
    with ([32] ++ 34 :: (escape w ++ [34]) ++ flat_map (fun w => 32 :: 34 :: escape w ++ [34]) ws).
  rewrite jbstrcpy_blanks by (repeat constructor; auto).
  rewrite <- (app_assoc (escape w)). cbn [app].
  destruct (H w) as (H1 & H2 & H3); [left; auto|].
  destruct (write_read w (flat_map (fun w => 32 :: 34 :: escape w ++ [34]) ws) (repeat 0 n) n)
    as (b & Eb & (_ & _ & Hb)); auto.
  { apply repeat_length. } { apply Hc. intros; right; auto. }
  rewrite Eb, Hb. f_equal. apply IH.
  - intros w' Hw'. apply H. right; auto.
  - intros l Hl. apply Hc. intros; right; auto.
Qed.
Print Assumptions C05_line_of_words.

Example C05_nonvacuous :
  let s := lit "a\""b c" in
  cstring s /\ ~ In 10 s /\ (quoted_length s <= 299)%nat /\
  WriteSafely s = Some (lit """a\\\""b c""").
Proof.
  litc. split; [repeat constructor; lia|]. split; [simpl; lia|]. split; [vm_compute; lia|reflexivity].
Qed.

(** C06: no copy helper writes outside a destination of the size it is told. *)
Theorem C06_token_copy : forall dest src n, length dest = n -> (1 <= n)%nat -> cstring src ->
  exists b' t rest ret rest',
    jbstrcpy dest src n = (Some b', ret, rest') /\ holds b' n (firstn (n - 1) t) /\
    ((exists body, skipblank src = 34 :: body /\ token stop_quoted body t rest /\ ret = true) \/
     ((forall body, skipblank src <> 34 :: body) /\ token stop_plain (skipblank src) t rest /\
        ret = negb (Nat.eqb (Nat.min (n - 1) (length t)) 0))) /\
    (rest' = rest \/ exists c, rest = c :: rest').
Proof. exact jbstrcpy_spec. Qed.
Print Assumptions C06_token_copy.

Theorem C06_rest_of_line_copy : forall dest src n, length dest = n -> (1 <= n)%nat -> cstring src ->
  exists b', jbstrcpyrest dest src n =
    (Some b', negb (Nat.eqb (Nat.min (n - 1) (length (uptoLF (skipblank src)))) 0),
     skipn (length (uptoLF (skipblank src))) (skipblank src)) /\
    holds b' n (firstn (n - 1) (uptoLF (skipblank src))).
Proof. exact jbstrcpyrest_spec. Qed.
Print Assumptions C06_rest_of_line_copy.

Theorem C06_string_copy : forall b src len, length b = len -> (1 <= len)%nat -> cstring src ->
  exists b', mystrncpy (Some b) 0 src len = Some b' /\ holds b' len (firstn (len - 1) src).
Proof.
  intros b src len H1 H2 H3. destruct (mystrncpy_full b src len H1 H2 H3) as (b' & E & Hh & _). eauto.
Qed.
Print Assumptions C06_string_copy.

Theorem C06_path_join : forall path file dest n,
  length dest = n -> (1 <= n)%nat -> cstring path -> cstring file ->
  exists b' t, MakeFullPath path file dest n = Some b' /\ holds b' n t /\
    ((length (joinpath path file) + 2 <= n)%nat -> t = joinpath path file) /\
    exists k, t = firstn k (joinpath path file).
Proof. exact MakeFullPath_spec. Qed.
Print Assumptions C06_path_join.

Theorem C06_file_part : forall str, ~ In PATHCHAR (GetFilePart str) /\
  ((~ In PATHCHAR str /\ GetFilePart str = str) \/ exists dir, str = dir ++ [PATHCHAR] ++ GetFilePart str).
Proof. exact GetFilePart_spec. Qed.
Print Assumptions C06_file_part.

(** Finding: call sites that pass a larger size than their buffer has. DOMAIN
    (config.c:163: 200 into Domain[20], config.h:109), AREAFIXINFO groups (config.c:344,
    354, 364: 70 into char[30], config.h:164-166), and LastArcName (outbound.c:172, 334:
    13 into char[12], config.h:178; this one overflows for every input). *)
Theorem C06_call_sites_refuted :
  (exists src, cstring src /\ fst (fst (jbstrcpy (repeat 0 20) src 200)) = None) /\
  (exists src, cstring src /\ fst (fst (jbstrcpy (repeat 0 30) src 70)) = None) /\
  (forall src, mystrncpy (Some (repeat 0 12)) 0 src 13 = None).
Proof.
  split; [|split].
  - exists (repeat 97 40). split; [repeat constructor; lia|reflexivity].
  - exists (repeat 97 40). split; [repeat constructor; lia|reflexivity].
  - intros src. unfold mystrncpy. apply wrs_overflow.
    + rewrite mystrncpy_body_length, repeat_length. lia.
    + intros H. apply (f_equal (@length Z)) in H. rewrite mystrncpy_body_length in H. discriminate.
Qed.
Print Assumptions C06_call_sites_refuted.

Example C06_nonvacuous :
  fst (fst (jbstrcpy (repeat 255 8) (lit "  word rest") 8)) = Some (lit "word" ++ [0; 255; 255; 255]) /\
  snd (jbstrcpy (repeat 255 8) (lit "  word rest") 8) = lit "rest" /\
  option_map cstr (MakeFullPath (lit "/var") (lit "x.pkt") (repeat 255 20) 20) = Some (lit "/var/x.pkt") /\
  GetFilePart (lit "/a/b.c") = lit "b.c".
Proof. repeat split. Qed.

(** C07 *)
Theorem C07_match : forall p s, osMatchPattern p s = true <-> fmatch p s.
Proof. exact osMatchPattern_spec. Qed.
Print Assumptions C07_match.

Theorem C07_no_wildcards : forall p s, osIsPattern p = false ->
  (osMatchPattern p s = true <-> streqi p s = true).
Proof. exact osMatchPattern_exact. Qed.
Print Assumptions C07_no_wildcards.

Example C07_nonvacuous : fmatch (lit "*") (lit "x") /\ fmatch (lit "A?c*") (lit "abcd") /\
  ~ fmatch (lit "A?c") (lit "abcd").
Proof.
  split; [|split].
  - constructor.
  - apply osMatchPattern_spec. reflexivity.
  - intros H. apply osMatchPattern_spec in H. discriminate.
Qed.
