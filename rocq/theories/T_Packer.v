(** C48: recognising archives. *)
From Verif Require Import Base M_Str M_Mem M_Out M_Packer S_Packer.

Lemma hexval_digit c v : digit_value c v -> hexval c = Some v.
Proof. intros [[H ->]|[[H ->]|[H ->]]]; unfold hexval, tolower; destruct ((65 <=? c) && (c <=? 90)) eqn:E1; cbv zeta; unfold isdigit; (destruct ((48 <=? _) && _) eqn:E2; [f_equal; lia|]); (destruct ((97 <=? _) && _) eqn:E3; [f_equal; lia|lia]). Qed.
Lemma hextodec_two a b x y : digit_value a x -> digit_value b y -> hextodec [a; b] mod 256 = 16 * x + y.
Proof.
  intros Ha Hb. assert (0 <= x < 16 /\ 0 <= y < 16) by (unfold digit_value in *; lia). unfold hextodec. cbn [hextodec_aux]. rewrite (hexval_digit _ _ Ha), (hexval_digit _ _ Hb).
  rewrite Z.mul_0_r, Z.add_0_l. rewrite (Z.mod_small x) by lia. rewrite (Z.mod_small (16 * x + y)) by lia. apply Z.mod_small. lia.
Qed.
Lemma Forall2_length {A B} (P : A -> B -> Prop) l m : Forall2 P l m -> length l = length m.
Proof. induction 1; cbn; auto. Qed.
Lemma starts_cons e es c s : starts (e :: es) (c :: s) <-> fits e c /\ starts es s.
Proof.
  split.
  - intros (a & b & E & H). inversion H; subst. cbn in E. inversion E; subst. split; auto. eexists _, _. eauto.
  - intros (H & a & b & -> & H'). exists (c :: a), b. split; auto.
Qed.
(** Comparing tells whether the text starts with bytes that fit the pattern. *)
Theorem C48_compare : forall es recog str, written es recog -> (length es <= length str)%nat ->
  exists m, Compare str recog = Some m /\ (m = true <-> starts es str).
Proof.
  intros es recog str W. revert str. induction W as [|a b x y es s Ha Hb W IH|es s W IH|c es s H1 H2 W IH]; intros str Hl.
  - exists true. split; [destruct str; reflexivity|]. split; auto. intros _. exists [], str. split; auto.
  - destruct str as [|c str]; [cbn in Hl; lia|]. cbn [length] in Hl. cbn [Compare firstn]. change (36 =? 36) with true. cbv iota. rewrite (hextodec_two _ _ _ _ Ha Hb).
    destruct (Z.eqb_spec c (16 * x + y)) as [->|E]; cbn [negb].
    + destruct (IH str) as (m & -> & Hm); [lia|]. exists m. split; auto. rewrite starts_cons. cbn. tauto.
    + exists false. split; auto. rewrite starts_cons. cbn. split; [discriminate|tauto].
  - destruct str as [|c str]; [cbn in Hl; lia|]. cbn [length] in Hl. cbn [Compare]. change (63 =? 36) with false. change (63 =? 63) with true. rewrite andb_false_r. cbv iota.
    destruct (IH str) as (m & -> & Hm); [lia|]. exists m. split; auto. rewrite starts_cons. cbn. tauto.
  - destruct str as [|k str]; [cbn in Hl; lia|]. cbn [length] in Hl. cbn [Compare]. destruct (Z.eqb_spec c 36); [contradiction|]. destruct (Z.eqb_spec c 63); [contradiction|]. rewrite andb_true_r.
    destruct (Z.eqb_spec k c) as [->|E]; cbn [negb].
    + destruct (IH str) as (m & -> & Hm); [lia|]. exists m. split; auto. rewrite starts_cons. cbn. tauto.
    + exists false. split; auto. rewrite starts_cons. cbn. split; [discriminate|tauto].
Qed.
Print Assumptions C48_compare.

Lemma starts_firstn es f k : (length es <= k)%nat -> (length es <= length f)%nat -> starts es (firstn k f) <-> starts es f.
Proof.
  intros Hk Hf. split.
  - intros (a & b & E & H). exists a, (b ++ skipn k f). split; auto. rewrite app_assoc, <- E, firstn_skipn. reflexivity.
  - intros (a & b & E & H). pose proof (Forall2_length _ _ _ H) as L. exists a, (firstn (k - length a) b). split; auto. subst f. rewrite firstn_app. rewrite (firstn_all2 (n := k) a) by lia. reflexivity.
Qed.
Lemma starts_app es f j : (length es <= length f)%nat -> starts es (f ++ j) <-> starts es f.
Proof.
  intros H. split.
  - intros (a & b & E & F). pose proof (Forall2_length _ _ _ F) as L. exists a, (firstn (length f - length a) b). split; auto.
    apply (f_equal (firstn (length f))) in E. rewrite firstn_app, Nat.sub_diag, firstn_all, firstn_O, app_nil_r in E. rewrite E at 1. rewrite firstn_app. f_equal. apply firstn_all2. lia.
  - intros (a & b & -> & F). exists a, (b ++ j). rewrite app_assoc. auto.
Qed.
(** The first packer whose pattern fits the start of the file is found, if the patterns fit
    into the buffer and the file is at least as long as they are. *)
Theorem C48_detect : forall junk f l pats, length junk = 40%nat ->
  Forall2 (fun p es => written es (pk_recog p) /\ (length es <= 40)%nat /\ (length es <= length f)%nat) l pats ->
  (exists l1 p l2 pats1 es pats2, l = l1 ++ p :: l2 /\ pats = pats1 ++ es :: pats2 /\ length l1 = length pats1 /\ DetectPacker junk (Some f) l = Some (Some p) /\
     starts es f /\ Forall (fun es' => ~ starts es' f) pats1) \/
  (DetectPacker junk (Some f) l = Some None /\ Forall (fun es => ~ starts es f) pats).
Proof.
  intros junk f l pats Hj F. unfold DetectPacker. set (buf := firstn 40 f ++ _).
  assert (Hb : length buf = 40%nat) by (unfold buf; rewrite app_length, skipn_length, firstn_length; lia).
  assert (HC : forall p es, written es (pk_recog p) -> (length es <= 40)%nat -> (length es <= length f)%nat -> exists m, Compare buf (pk_recog p) = Some m /\ (m = true <-> starts es f)).
  { intros p es W H1 H2. destruct (C48_compare es (pk_recog p) buf W) as (m & E & Hm); [lia|]. exists m. split; auto. rewrite Hm. unfold buf.
    rewrite starts_app by (rewrite firstn_length; lia). apply starts_firstn; auto. }
  clearbody buf. induction F as [|p es l pats (W & H1 & H2) F IH]; cbn [findpacker]; [right; split; auto|].
  destruct (HC p es W H1 H2) as (m & E & Hm). rewrite E. cbn [obind]. destruct m.
  - left. exists [], p, l, [], es, pats. repeat split; auto. apply Hm. auto.
  - assert (Hno : ~ starts es f) by (intros X; apply Hm in X; discriminate).
    destruct IH as [(l1 & q & l2 & pats1 & es' & pats2 & -> & -> & L & D & S1 & S2)|[D N]].
    + left. exists (p :: l1), q, l2, (es :: pats1), es', pats2. repeat split; auto. cbn. lia.
    + right. split; auto.
Qed.
Print Assumptions C48_detect.
(** Finding: for a file shorter than the pattern, the outcome depends on what happened to be
    in memory. *)
Theorem C48_short_refuted : exists j1 j2 f p, length j1 = 40%nat /\ length j2 = 40%nat /\ f <> [] /\ written [Byte 80; Byte 75; Byte 3; Byte 4] (pk_recog p) /\
  ~ starts [Byte 80; Byte 75; Byte 3; Byte 4] f /\
  DetectPacker j1 (Some f) [p] = Some (Some p) /\ DetectPacker j2 (Some f) [p] = Some None.
Proof.
  exists (repeat 4 40), (repeat 0 40), [80; 75; 3], (PK (lit "ZIP") (lit "PK$03$04")). split; [reflexivity|]. split; [reflexivity|]. split; [discriminate|]. split.
  { change (pk_recog (PK (lit "ZIP") (lit "PK$03$04"))) with [80; 75; 36; 48; 51; 36; 48; 52]. apply wr_char; [lia|lia|]. apply wr_char; [lia|lia|].
    apply (wr_hex 48 51 0 3); [left; lia|left; lia|]. apply (wr_hex 48 52 0 4); [left; lia|left; lia|]. constructor. }
  split; [|split; reflexivity]. intros (a & b & E & H). apply Forall2_length in H. apply (f_equal (@List.length Z)) in E. rewrite app_length in E. cbn in *. lia.
Qed.
Print Assumptions C48_short_refuted.
(** Finding: a pattern may have up to 79 characters (config.c), the buffer has 40. *)
Theorem C48_long_refuted : exists j f p es, length j = 40%nat /\ written es (pk_recog p) /\ (length (pk_recog p) <= 79)%nat /\ starts es f /\ DetectPacker j (Some f) [p] = None.
Proof.
  exists (repeat 0 40), (repeat 80 50), (PK (lit "LONG") (repeat 63 41)), (repeat Any 41). split; [reflexivity|]. split; [cbn [pk_recog]; cbn [repeat]; repeat constructor|]. split; [cbn; lia|].
  split; [|reflexivity]. exists (repeat 80 41), (repeat 80 9). split; [reflexivity|]. cbn [repeat]. repeat constructor.
Qed.
Print Assumptions C48_long_refuted.
Example C48_nonvacuous : let l := [PK (lit "ZIP") (lit "PK$03$04"); PK (lit "LHA") (lit "??-lh"); PK (lit "ANY") (lit "?")] in
  DetectPacker (repeat 1 40) (Some (lit "xy-lh5-abc")) l = Some (Some (PK (lit "LHA") (lit "??-lh"))) /\
  DetectPacker (repeat 1 40) (Some ([80; 75; 3; 4] ++ lit "abc")) l = Some (Some (PK (lit "ZIP") (lit "PK$03$04"))) /\
  DetectPacker (repeat 1 40) (Some (lit "zz")) l = Some (Some (PK (lit "ANY") (lit "?"))).
Proof. repeat split. Qed.
