(** Lemmas about the texts of *.MSG areas. *)
From Verif Require Import Base M_Node4D S_Node4D P_Node4D M_Cfg M_Str P_Str M_Fs P_Fs M_Net M_Echo M_Filter M_Mem S_Mem P_Mem M_Pkt S_Pkt P_Pkt S_Net P_Net M_Msg S_Msg P_Msg.

(** once the lines are added the text is read line by line *)
Lemma exptext_rest cfg resc hdr zs : forall t fuel mm rest, ~ In 0 t -> (length t < fuel)%nat ->
  exptext fuel cfg resc hdr true zs mm (t ++ 0 :: rest) = match addlines mm (pieces t) with Some mm' => XOk mm' zs | None => XUB end.
Proof.
  intros t. induction t as [|t l r Hn E IH] using pieces_ind; intros fuel mm rest Ht Hf; (destruct fuel as [|fuel]; [lia|]).
  - cbn [exptext]. reflexivity.
  - cbn [exptext]. destruct (ReadCR_text 198 t rest l r Ht E) as (e & Er & H1 & H2 & H3).
    change CRBUF with 198%nat. rewrite Er. rewrite (pieces_eq _ _ _ Hn E). cbn [addlines negb andb].
    destruct t as [|c t]; [contradiction|]. destruct (cutline_progress 197 _ _ _ _ E) as [Hl Hr].
    pose proof (cutline_cat _ _ _ _ E) as Ec. destruct l as [|c' l]; [contradiction|].
    assert (Hr0 : ~ In 0 r) by (intros Hx; apply Ht; rewrite <- Ec; apply in_or_app; auto).
    simpl in Hf. destruct e; try congruence.
    + destruct (mmAddLine mm (c' :: l)) as [mm'|]; [|reflexivity]. apply IH; auto. lia.
    + rewrite (H2 eq_refl). destruct (mmAddLine mm (c' :: l)) as [mm'|]; reflexivity.
    + destruct (mmAddLine mm (c' :: l)) as [mm'|]; [|reflexivity]. apply IH; auto. lia.
Qed.
(** in a text of whole lines only the end is an empty line *)
Lemma ReadCR_eol t rest l r e x : t <> [] -> eoltext t -> ~ In 0 t -> cutline 198 t = (l, r) -> ReadCR 198 (t ++ 0 :: rest) = (l, e, x) -> e <> CrNul.
Proof.
  intros Hn He H0 Hc Hr ->. destruct (ReadCR_text 198 t rest l r H0 Hc) as (e & Er & H1 & H2 & H3).
  rewrite Hr in Er. injection Er as <- _. specialize (H2 eq_refl). subst r.
  pose proof (cutline_cat _ _ _ _ Hc) as Ec. rewrite app_nil_r in Ec. subst l.
  destruct He as [->|(q & c & -> & Hcr)]; [contradiction|].
  clear -Hr Hcr H0. revert Hr. generalize 198%nat. intros n. 
  assert (Hg : forall n q l e r, (e = CrNul -> ReadCR n ((q ++ [c]) ++ 0 :: rest) = (l, e, r) -> l <> q ++ [c])).
  { clear n q H0. induction n as [|n IH]; intros q l e r -> H; cbn [ReadCR] in H; [discriminate|].
    destruct q as [|d q]; cbn [app] in H.
    - destruct (Z.eqb_spec c 0); [lia|]. replace ((c =? 10) || (c =? 13)) with true in H by lia. discriminate.
    - destruct (d =? 0); [injection H as <- <-; discriminate|]. destruct ((d =? 10) || (d =? 13)); [discriminate|].
      destruct (ReadCR n ((q ++ [c]) ++ 0 :: rest)) as [[l' e'] r'] eqn:E. injection H as <- -> <-. cbn [app]. intros Hx. injection Hx as ->.
      apply (IH q _ _ _ eq_refl E). auto. }
  intros Hr. apply (Hg n q _ _ _ eq_refl Hr). auto.
Qed.
Lemma exptext_lines cfg resc hdr zs : forall t fuel mm rest k r, ~ In 0 t -> eoltext t -> (length t < fuel)%nat -> headlines (pieces t) = (k, r) ->
  exptext fuel cfg resc hdr false zs mm (t ++ 0 :: rest) =
  match addlines mm k with
  | None => XUB
  | Some m1 => match addkludges cfg resc hdr m1 with
               | None => XUB
               | Some (m2, z) => match addlines m2 r with Some m3 => XOk m3 z | None => XUB end
               end
  end.
Proof.
  intros t. induction t as [|t l q Hn E IH] using pieces_ind; intros fuel mm rest k r Ht He Hf Hh; (destruct fuel as [|fuel]; [lia|]).
  - cbn [exptext]. cbn in Hh. injection Hh as <- <-. cbn [addlines].
    change (ReadCR CRBUF ([] ++ 0 :: rest)) with (@nil Z, CrNul, rest). cbn [negb andb].
    destruct (addkludges cfg resc hdr mm) as [[m2 z]|]; reflexivity.
  - cbn [exptext]. destruct (ReadCR_text 198 t rest l q Ht E) as (e & Er & H1 & H2 & H3).
    pose proof (ReadCR_eol _ _ _ _ _ _ Hn He Ht E Er) as Hnul.
    destruct (cutline_eol _ _ [] _ _ Hn He E) as [_ Heq].
    change CRBUF with 198%nat. rewrite Er. rewrite (pieces_eq _ _ _ Hn E) in Hh. 
    destruct t as [|c t]; [contradiction|]. destruct (cutline_progress 197 _ _ _ _ E) as [Hl Hr].
    pose proof (cutline_cat _ _ _ _ E) as Ec. destruct l as [|c' l]; [contradiction|].
    assert (Hr0 : ~ In 0 q) by (intros Hx; apply Ht; rewrite <- Ec; apply in_or_app; auto).
    simpl in Hf. cbn [headlines] in Hh. cbn [negb andb orb].
    destruct (Z.eqb_spec c' 1) as [Hk|Hk]; [|destruct (Z.eqb_spec c' 10) as [Hk'|Hk']]; cbn [orb negb andb] in *.
    3: { injection Hh as <- <-. cbn [addlines]. destruct (addkludges cfg resc hdr mm) as [[m2 z]|]; auto.
         destruct (mmAddLine m2 (c' :: l)) as [m3|]; auto.
         destruct e; try congruence; apply exptext_rest; auto; lia. }
    + destruct (headlines (pieces q)) as [a b] eqn:Eh. injection Hh as <- <-. cbn [addlines].
      destruct (mmAddLine mm (c' :: l)) as [m|]; auto. destruct e; try congruence; apply IH; auto; lia.
    + destruct (headlines (pieces q)) as [a b] eqn:Eh. injection Hh as <- <-. cbn [addlines].
      destruct (mmAddLine mm (c' :: l)) as [m|]; auto. destruct e; try congruence; apply IH; auto; lia.
Qed.
Lemma headlines_app ls a b : headlines ls = (a, b) -> ls = a ++ b.
Proof.
  revert a b. induction ls as [|l r IH]; intros a b; cbn [headlines]; [intros H; injection H as <- <-; auto|].
  destruct l as [|c l]; [intros H; injection H as <- <-; auto|]. destruct ((c =? 1) || (c =? 10)); [|intros H; injection H as <- <-; auto].
  destruct (headlines r) as [x y]. intros H; injection H as <- <-. cbn [app]. f_equal. apply IH; auto.
Qed.
Lemma flag_tid f : flag f CFG_ADDTID = Z.testbit f 16. Proof. apply (flag_bit f 16); lia. Qed.
(** in an echomail area the two kinds of lines are all that is added *)
Lemma addkludges_echo cfg resc hdr mm : Area mm <> [] -> addkludges cfg resc hdr mm = option_map (fun m => (m, false)) (addlines mm (added cfg resc)).
Proof.
  intros Ha. unfold addkludges, added. rewrite flag_tid. fold TID. change (1 :: lit "RESCANNED " ++ _) with (rescanned_line (mc_aka cfg)).
  assert (Hfin : forall m, Area m = Area mm -> (if (match Area m with [] => true | _ :: _ => false end) && ((zone (DestNode m) =? 0) || (zone (OrigNode m) =? 0))
     then do m0 <- (if flag (mc_flags cfg) CFG_FORCEINTL then mmAddLine (set_zones m (zone (mc_aka cfg))) (intl_line (zone (mc_aka cfg)) (get16 hdr O_DESTNET) (get16 hdr O_DESTNODE) (get16 hdr O_ORIGNET) (get16 hdr O_ORIGNODE)) else Some (set_zones m (zone (mc_aka cfg)))); Some (m0, true)
     else Some (m, false)) = Some (m, false)).
  { intros m Hm. rewrite Hm. destruct (Area mm); [contradiction|reflexivity]. }
  destruct resc; cbn [negb andb obind].
  - rewrite andb_false_r. cbn [obind addlines]. destruct (mmAddLine mm (rescanned_line (mc_aka cfg))) as [m|] eqn:E; auto. cbn [obind option_map].
    apply Hfin. apply frame_area. apply mmAddLine_frame in E. tauto.
  - rewrite andb_true_r. destruct (Z.testbit (mc_flags cfg) 16); cbn [addlines].
    + destruct (mmAddLine mm TID) as [m|] eqn:E; auto. cbn [obind option_map]. apply Hfin. apply frame_area. apply mmAddLine_frame in E. tauto.
    + cbn [obind option_map]. apply Hfin. auto.
Qed.

(** a text that ends with the file is read like one that ends with a NUL *)
Lemma ReadCR_eof n t : ~ In 0 t -> exists l e r, ReadCR n (t ++ [0]) = (l, e, match e with CrNul => [] | _ => r ++ [0] end) /\
  ReadCR n t = (l, match e with CrNul => CrEof | _ => e end, match e with CrNul => [] | _ => r end) /\ e <> CrEof /\ ~ In 0 r.
Proof.
  revert t. induction n as [|n IH]; intros t Ht; cbn [ReadCR].
  - exists [], CrFull, t. repeat split; auto; discriminate.
  - destruct t as [|c t]; cbn [app].
    + exists [], CrNul, []. cbn. repeat split; auto; discriminate.
    + destruct (Z.eqb_spec c 0) as [->|Hc]; [exfalso; apply Ht; left; auto|].
      destruct ((c =? 10) || (c =? 13)).
      * exists [c], CrLine, t. repeat split; auto; [discriminate|]. intros Hx; apply Ht; right; auto.
      * destruct (IH t) as (l & e & r & E1 & E2 & E3 & E4); [intros Hx; apply Ht; right; auto|]. rewrite E1, E2.
        exists (c :: l), e, r. auto.
Qed.
Lemma exptext_eof cfg resc hdr : forall fuel kl zs mm t, ~ In 0 t ->
  exptext fuel cfg resc hdr kl zs mm t = exptext fuel cfg resc hdr kl zs mm (t ++ [0]).
Proof.
  induction fuel as [|fuel IH]; intros kl zs mm t Ht; auto. cbn [exptext].
  destruct (ReadCR_eof CRBUF t Ht) as (l & e & r & E1 & E2 & E3 & E4). rewrite E1, E2.
  destruct (if _ && _ then addkludges cfg resc hdr mm else Some (mm, zs)) as [[m z]|]; auto.
  destruct (match l with [] => Some m | _ :: _ => mmAddLine m l end); auto.
  destruct e; auto.
Qed.

(** ** Header fields *)
Lemma kept_spec a : kept_attr a (Z.land a ATTRMASK).
Proof.
  intros k Hk. rewrite Z.land_spec. f_equal. unfold ATTRMASK, kept_bits.
  destruct (Z_lt_le_dec k 15).
  - assert (Hq : k = 0 \/ k = 1 \/ k = 2 \/ k = 3 \/ k = 4 \/ k = 5 \/ k = 6 \/ k = 7 \/ k = 8 \/ k = 9 \/ k = 10 \/ k = 11 \/ k = 12 \/ k = 13 \/ k = 14) by lia.
    repeat (destruct Hq as [->|Hq]; [reflexivity|]). subst k. reflexivity.
  - rewrite Z.bits_above_log2; [|lia|change (Z.log2 31251) with 14; lia]. cbn [existsb]. symmetry. repeat (apply orb_false_intro; [lia|]). reflexivity.
Qed.
Lemma slice_firstn i n b : (i + n <= 190)%nat -> slice i n (firstn 190 b) = firstn n (skipn i b).
Proof. intros H. unfold slice. rewrite skipn_firstn_comm, firstn_firstn. f_equal. lia. Qed.
Lemma exphdr_fields cfg b m : complete_hdr b -> P_Pkt.frame m = P_Pkt.frame (exphdr cfg (firstn 190 b)) -> same_fields b m /\ Area m = (if mc_net cfg then [] else mc_tag cfg).
Proof.
  intros Hb Hf. unfold complete_hdr in Hb.
  assert (E1 : forall i n, (i + n <= 190)%nat -> slice i n (firstn 190 b) = firstn n (skipn i b)) by (intros; apply slice_firstn; auto).
  assert (E2 : forall i, (S i < 190)%nat -> get16 (firstn 190 b) i = get16 b i) by (intros; apply get16_firstn; auto).
  remember (firstn 190 b) as h eqn:Eh. clear Eh.
  unfold P_Pkt.frame, exphdr in Hf. cbn [To From Subject DateTime Attr Cost PktOrig PktDest Area] in Hf.
  injection Hf as F1 F2 F3 F4 F5 F6 F7 F8 F9.
  rewrite E1 in F1, F2, F3, F4 by lia. unfold O_ATTR, O_COST in *. rewrite E2 in F5, F6 by lia.
  split; auto. unfold same_fields, fieldtext. repeat split; auto. unfold attr_of. rewrite F5. apply kept_spec.
Qed.
Lemma made_fields cfg resc b mm : complete_hdr b -> made cfg resc b mm -> same_fields b mm /\ Area mm = (if mc_net cfg then [] else mc_tag cfg).
Proof.
  intros Hb (m & zs & E & ->).
  pose proof (exptext_ok cfg resc (firstn 190 b) (S (length (skipn 190 b))) false false (exphdr cfg (firstn 190 b)) (skipn 190 b) ltac:(lia)) as H.
  rewrite E in H. destruct H as [H _]. destruct (exphdr_fields cfg b m Hb H) as [A B]. split; [|exact B]. exact A.
Qed.
(** ** The text *)
Lemma exptext_text cfg resc hdr b mm t k r : ~ In 0 t -> eoltext t -> textof b t -> headlines (pieces t) = (k, r) ->
  exptext (S (length (skipn 190 b))) cfg resc hdr false false mm (skipn 190 b) =
  match addlines mm k with
  | None => XUB
  | Some m1 => match addkludges cfg resc hdr m1 with
               | None => XUB
               | Some (m2, z) => match addlines m2 r with Some m3 => XOk m3 z | None => XUB end
               end
  end.
Proof.
  intros H0 He [Ht|[rest Ht]] Hh; rewrite Ht.
  - rewrite exptext_eof by auto. apply exptext_lines; auto.
  - apply exptext_lines; auto. rewrite app_length. lia.
Qed.
Definition unremarkable (l : list Z) : Prop := crline l /\ seenbyb l = false /\ pathb l = false /\ ~ is_origin_line l.
Lemma dec_char n : 0 <= n -> cstring (dec n).
Proof. intros H. eapply Forall_impl; [|apply dec_digits; exact H]. cbn. unfold digit. intros; lia. Qed.
Lemma added_ok cfg resc : valid4d (mc_aka cfg) -> Forall unremarkable (added cfg resc).
Proof.
  intros (Hz & Hn & Hf & Hp). unfold is_u16 in *. unfold added. destruct resc; [|destruct (Z.testbit (mc_flags cfg) 16)].
  3: constructor.
  - constructor; [|constructor]. split; [|split; [reflexivity|split; [reflexivity|intros (r & H); discriminate]]]. split.
    + change (cstring (([1] ++ lit "RESCANNED " ++ dec (zone (mc_aka cfg)) ++ lit ":" ++ dec (net (mc_aka cfg)) ++ lit "/" ++ dec (node (mc_aka cfg)) ++ lit "." ++ dec (point (mc_aka cfg)) ++ [13]))).
      repeat (apply cstring_app; split); try (apply dec_char; lia); litc; repeat (apply Forall_cons; [lia|]); constructor.
    + left. exists ([1] ++ lit "RESCANNED " ++ dec (zone (mc_aka cfg)) ++ lit ":" ++ dec (net (mc_aka cfg)) ++ lit "/" ++ dec (node (mc_aka cfg)) ++ lit "." ++ dec (point (mc_aka cfg))), 13.
      split; auto. cbn [app]. rewrite <- !app_assoc. reflexivity.
  - constructor; [|constructor]. split; [|split; [reflexivity|split; [reflexivity|intros (r & H); discriminate]]]. split.
    + litc; repeat (apply Forall_cons; [lia|]); constructor.
    + left. exists (1 :: lit "TID: CrashMail II/Linux 1.5.1"), 13. auto.
Qed.
Lemma intl_line_ok z a b c d : 0 <= z -> 0 <= a -> 0 <= b -> 0 <= c -> 0 <= d -> crline (intl_line z a b c d).
Proof.
  intros. unfold intl_line. split.
  - change (cstring ([1] ++ lit "INTL " ++ dec z ++ lit ":" ++ dec a ++ lit "/" ++ dec b ++ lit " " ++ dec z ++ lit ":" ++ dec c ++ lit "/" ++ dec d ++ [13])).
    repeat (apply cstring_app; split); try (apply dec_char; lia); litc; repeat (apply Forall_cons; [lia|]); constructor.
  - left. exists (1 :: lit "INTL " ++ dec z ++ lit ":" ++ dec a ++ lit "/" ++ dec b ++ lit " " ++ dec z ++ lit ":" ++ dec c ++ lit "/" ++ dec d), 13.
    split; auto. cbn [app]. rewrite <- !app_assoc. reflexivity.
Qed.
Lemma cstring_no0 t : cstring t -> ~ In 0 t.
Proof. intros H Hx. unfold cstring in H. rewrite Forall_forall in H. apply H in Hx. lia. Qed.

(** an exported echomail *)
Lemma made_echo cfg resc b t : mc_net cfg = false -> mc_tag cfg <> [] -> valid4d (mc_aka cfg) -> complete_hdr b -> textof b t ->
  cstring t -> eoltext t -> Forall (fun l => is_origin_line l -> wf_origin l \/ ~ In 40 l) (pieces t) ->
  exists mm, made cfg resc b mm /\ mmtext mm = concat (plain_lines (export_lines cfg resc [] (pieces t))) /\
    Path mm = map (fun l => striptrail (firstn 99 (skipn 7 l))) (path_lines (pieces t)) /\
    fold_left sbfold (filter seenbyb (pieces t)) (Some []) = Some (SeenBy mm).
Proof.
  intros Hnet Htag Hak Hb Ht Hc He Ho. set (m0 := exphdr cfg (firstn 190 b)).
  destruct (headlines (pieces t)) as [k r] eqn:Eh. pose proof (headlines_app _ _ _ Eh) as Ek.
  assert (Hcr : Forall crline (pieces t)) by (apply pieces_crline; auto).
  assert (Hm0 : is_echo m0) by (unfold is_echo, m0, exphdr; cbn [Area]; rewrite Hnet; auto).
  pose proof (added_ok cfg resc Hak) as Hadd.
  set (ls := k ++ added cfg resc ++ r).
  assert (Hls : Forall crline ls /\ Forall (fun l => is_origin_line l -> wf_origin l \/ ~ In 40 l) ls).
  { rewrite Ek in Hcr, Ho. apply Forall_app in Hcr, Ho. unfold ls. split; repeat (apply Forall_app; split); try tauto.
    - eapply Forall_impl; [|exact Hadd]. intros l Hl. apply Hl.
    - eapply Forall_impl; [|exact Hadd]. intros l Hl Hx. exfalso. apply Hl. auto. }
  destruct (addlines_spec ls m0 Hm0) as (m & E & H1 & H2 & H3 & H4 & _); try tauto; [constructor|].
  assert (Hex : exptext (S (length (skipn 190 b))) cfg resc (firstn 190 b) false false m0 (skipn 190 b) = XOk m false).
  { rewrite (exptext_text _ _ _ _ _ t k r); auto; [|apply cstring_no0; auto].
    unfold ls in E. rewrite addlines_app in E. destruct (addlines m0 k) as [m1|] eqn:E1; [|discriminate]. cbn [obind] in E.
    rewrite addkludges_echo. 2:{ apply addlines_frame in E1 as [E1 _]. apply frame_area in E1. rewrite E1. exact Hm0. }
    rewrite addlines_app in E. destruct (addlines m1 (added cfg resc)) as [m2|]; [|discriminate]. cbn [obind option_map] in *. rewrite E. auto. }
  exists (set_Flags m (Z.lor (Flags m) (if resc then MMFLAG_RESCANNED else MMFLAG_EXPORTED))).
  split; [exists m, false; auto|]. unfold export_lines. rewrite Eh. cbn [app]. fold ls. split; [exact H1|].
  assert (Hf : forall f, Forall (fun l => f l = false) (added cfg resc) -> filter f ls = filter f (pieces t)).
  { intros f Hf. unfold ls. rewrite Ek, !filter_app. rewrite (filter_none f (added cfg resc)) by exact Hf. reflexivity. }
  split.
  - cbn [Path set_Flags]. rewrite H2. change (Path m0) with (@nil (list Z)). cbn [app]. f_equal. unfold path_lines. apply Hf.
    eapply Forall_impl; [|exact Hadd]. intros l Hl. cbv beta. destruct Hl as (_ & A & B & _). rewrite ?A, ?B; auto.
  - cbn [SeenBy set_Flags]. rewrite <- (Hf seenbyb); [exact H3|]. eapply Forall_impl; [|exact Hadd]. intros l Hl. apply Hl.
Qed.

Definition zones (m : memmsg) : Z * Z := (zone (OrigNode m), zone (DestNode m)).
Lemma pk_zones mm l m : ~ is_intl_line l -> ProcessKludge mm l = Some m -> zones m = zones mm.
Proof.
  intros Hn. unfold ProcessKludge. assert (H0 : zones (pk_rescanned mm l) = zones mm) by (unfold pk_rescanned; destruct (prefixb _ _); reflexivity).
  rewrite <- H0. generalize (pk_rescanned mm l) as m0. clear mm H0. intros m0.
  destruct (pk_msgid m0 l) as [m1|] eqn:E1; [|discriminate]. cbn [obind].
  assert (H1 : zones m1 = zones m0). { unfold pk_msgid in E1. destruct (prefixb _ _); [|congruence]. destruct (from l 8); cbn in E1; [|discriminate]. injection E1 as <-. reflexivity. }
  destruct (pk_reply m1 l) as [m2|] eqn:E2; [|discriminate]. cbn [obind].
  assert (H2 : zones m2 = zones m1). { unfold pk_reply in E2. destruct (prefixb _ _); [|congruence]. destruct (from l 8); cbn in E2; [|discriminate]. injection E2 as <-. reflexivity. }
  destruct (Area m2); [|congruence].
  destruct (pk_fmpt m2 l) as [m3|] eqn:E3; [|discriminate]. cbn [obind].
  assert (H3 : zones m3 = zones m2). { unfold pk_fmpt in E3. destruct (prefixb _ _); [|congruence]. destruct (from l 6); cbn in E3; [|discriminate]. injection E3 as <-. reflexivity. }
  destruct (pk_topt m3 l) as [m4|] eqn:E4; [|discriminate]. cbn [obind].
  assert (H4 : zones m4 = zones m3). { unfold pk_topt in E4. destruct (prefixb _ _); [|congruence]. destruct (from l 6); cbn in E4; [|discriminate]. injection E4 as <-. reflexivity. }
  unfold pk_intl. change (SOH ++ lit "INTL") with (1 :: lit "INTL"). apply prefixb_false in Hn. rewrite Hn. congruence.
Qed.
Lemma addline_zones mm l m : Area mm = [] -> ~ is_intl_line l -> mmAddLine mm l = Some m -> zones m = zones mm.
Proof.
  intros Ha Hn. unfold mmAddLine. rewrite Ha. cbn [andb]. destruct (match l with [] => false | c :: _ => c =? 1 end).
  - destruct (ProcessKludge mm l) as [m1|] eqn:E; [|discriminate]. pose proof (pk_zones _ _ _ Hn E).
    destruct (mmAddBuf _ _); [|discriminate]. intros H1. injection H1 as <-. auto.
  - destruct (mmAddBuf _ _); [|discriminate]. intros H1. injection H1 as <-. auto.
Qed.
Lemma addlines_zones ls : forall mm m, Area mm = [] -> Forall (fun l => ~ is_intl_line l) ls -> addlines mm ls = Some m -> zones m = zones mm.
Proof.
  induction ls as [|l ls IH]; intros mm m Ha Hn H; cbn [addlines] in H; [congruence|].
  destruct (mmAddLine mm l) as [m1|] eqn:E; [|discriminate]. inversion Hn; subst.
  destruct (mmAddLine_frame _ _ _ E) as [Hf _]. apply frame_area in Hf. rewrite (IH m1 m); auto; [|congruence]. apply (addline_zones _ _ _ Ha H2 E).
Qed.
Lemma addlines_net2 ls : forall mm, Area mm = [] -> chunks_ok (TextChunks mm) -> Forall crline ls ->
  exists mm', addlines mm ls = Some mm' /\ mmtext mm' = mmtext mm ++ concat ls /\ chunks_ok (TextChunks mm') /\ Area mm' = [].
Proof.
  induction ls as [|l ls IH]; intros mm Ha Hch H; cbn [addlines].
  - exists mm. cbn. rewrite app_nil_r. auto.
  - inversion H; subst. destruct (mmAddLine_text mm l Hch H2) as (m & E & Ht & Hch' & _ & _ & Ha' & _).
    { unfold is_echo. congruence. }
    destruct (IH m) as (mm' & E' & Ht' & A & B); auto; [congruence|]. exists mm'. rewrite E. split; auto. split; auto.
    rewrite Ht', Ht, <- app_assoc. reflexivity.
Qed.
Lemma flag_intl f : flag f CFG_FORCEINTL = Z.testbit f 3. Proof. apply (flag_bit f 3); lia. Qed.

Lemma get16_u16 b i : bytes b -> is_u16 (get16 b i).
Proof.
  intros H. unfold get16. assert (Hn : forall j, is_u8 (nth j b 0)).
  { intros j. destruct (Nat.lt_ge_cases j (length b)); [apply (proj1 (Forall_forall _ _) H), nth_In; auto|rewrite nth_overflow by auto; unfold is_u8; lia]. }
  pose proof (Hn i). pose proof (Hn (S i)). unfold is_u8, is_u16 in *. lia.
Qed.
Lemma intl_zones mm z a b c d m : Area mm = [] -> is_u16 z -> is_u16 a -> is_u16 b -> is_u16 c -> is_u16 d ->
  mmAddLine mm (intl_line z a b c d) = Some m -> zones m = (z, z).
Proof.
  intros Ha Hz H1 H2 H3 H4. assert (E : intl_line z a b c d = SOH ++ lit "INTL " ++ addr3 (N4 z a b 0) ++ lit " " ++ addr3 (N4 z c d 0) ++ [13]).
  { unfold intl_line, addr3. cbn [zone net node]. rewrite <- !app_assoc. reflexivity. }
  rewrite E. unfold mmAddLine. rewrite Ha. cbn [andb]. change (match SOH ++ _ with [] => false | c :: _ => c =? 1 end) with true. cbv iota.
  rewrite pk_intl_line; auto; try (repeat split; cbn [zone net node point]; try apply Hz; try apply H1; try apply H2; try apply H3; try apply H4; lia).
  destruct (mmAddBuf _ _); [|discriminate]. intros Hx. injection Hx as <-. reflexivity.
Qed.

(** an exported netmail *)
Lemma made_net cfg resc b t : mc_net cfg = true -> valid4d (mc_aka cfg) -> complete_hdr b ->
  (forall i, In i [166; 168; 172; 174]%nat -> is_u16 (get16 b i)) -> textof b t ->
  cstring t -> eoltext t ->
  exists mm extra, made cfg resc b mm /\ mmtext mm = concat (export_lines cfg resc extra (pieces t)) /\
    (extra = [] \/ extra = [intl_line (zone (mc_aka cfg)) (get16 b 174) (get16 b 166) (get16 b 172) (get16 b 168)]) /\
    (Forall (fun l => ~ is_intl_line l) (fst (headlines (pieces t))) ->
       (extra <> [] <-> Z.testbit (mc_flags cfg) 3 = true) /\
       (Forall (fun l => ~ is_intl_line l) (snd (headlines (pieces t))) -> zone (OrigNode mm) = zone (mc_aka cfg) /\ zone (DestNode mm) = zone (mc_aka cfg))).
Proof.
  intros Hnet Hak Hb Hby Ht Hc He. set (hdr := firstn 190 b). set (m0 := exphdr cfg hdr).
  destruct (headlines (pieces t)) as [k r] eqn:Eh. pose proof (headlines_app _ _ _ Eh) as Ek.
  assert (Hcr : Forall crline (pieces t)) by (apply pieces_crline; auto). rewrite Ek in Hcr. apply Forall_app in Hcr as [Hck Hcr].
  assert (Hm0 : Area m0 = []) by (unfold m0, exphdr; cbn [Area]; rewrite Hnet; auto).
  pose proof (added_ok cfg resc Hak) as Hadd.
  assert (Hadd1 : Forall crline (added cfg resc)) by (eapply Forall_impl; [|exact Hadd]; intros l Hl; apply Hl).
  assert (Hadd2 : Forall (fun l => ~ is_intl_line l) (added cfg resc)).
  { unfold added. destruct resc; [|destruct (Z.testbit (mc_flags cfg) 16)]; repeat constructor; intros [x Hx]; discriminate. }
  destruct (addlines_net2 k m0 Hm0) as (m1 & E1 & T1 & C1 & A1); auto; [constructor|].
  destruct (addlines_net2 (added cfg resc) m1 A1 C1 Hadd1) as (m2 & E2 & T2 & C2 & A2).
  set (il := intl_line (zone (mc_aka cfg)) (get16 b 174) (get16 b 166) (get16 b 172) (get16 b 168)).
  assert (Hil : crline il) by (apply intl_line_ok; try (apply Hby; cbn; auto 6; fail); apply Hak).
  assert (Eil : intl_line (zone (mc_aka cfg)) (get16 hdr O_DESTNET) (get16 hdr O_DESTNODE) (get16 hdr O_ORIGNET) (get16 hdr O_ORIGNODE) = il).
  { unfold hdr, complete_hdr in *. unfold O_DESTNET, O_DESTNODE, O_ORIGNET, O_ORIGNODE. rewrite !P_Msg.get16_firstn by lia. reflexivity. }
  assert (Ead : addkludges cfg resc hdr m1 =
    if (zone (DestNode m2) =? 0) || (zone (OrigNode m2) =? 0) then
      do m <- (if Z.testbit (mc_flags cfg) 3 then mmAddLine (set_zones m2 (zone (mc_aka cfg))) il else Some (set_zones m2 (zone (mc_aka cfg)))); Some (m, true)
    else Some (m2, false)).
  { unfold addkludges. rewrite flag_tid, flag_intl, Eil.
    assert (Eq : (do mm <- (if Z.testbit (mc_flags cfg) 16 && negb resc then mmAddLine m1 TID else Some m1);
      (if resc then mmAddLine mm (rescanned_line (mc_aka cfg)) else Some mm)) = Some m2).
    { revert E2. unfold added. fold TID. change (1 :: lit "RESCANNED " ++ _) with (rescanned_line (mc_aka cfg)).
      destruct resc; cbn [negb andb]; [rewrite andb_false_r|rewrite andb_true_r; destruct (Z.testbit (mc_flags cfg) 16)]; cbn [addlines obind]; auto;
      try (destruct (mmAddLine m1 (rescanned_line (mc_aka cfg))); auto; fail); try (destruct (mmAddLine m1 TID); auto). }
    destruct (if Z.testbit (mc_flags cfg) 16 && negb resc then mmAddLine m1 TID else Some m1) as [x|]; [|discriminate]. cbn [obind] in *.
    rewrite Eq. cbn [obind]. rewrite A2. cbn [andb]. reflexivity. }
  assert (Hfin : exists extra m3 z, addkludges cfg resc hdr m1 = Some (m3, z) /\ Area m3 = [] /\ chunks_ok (TextChunks m3) /\
    mmtext m3 = mmtext m2 ++ concat extra /\ (extra = [] \/ extra = [il]) /\
    (zones m2 = (0, 0) -> (extra <> [] <-> Z.testbit (mc_flags cfg) 3 = true) /\ zones m3 = (zone (mc_aka cfg), zone (mc_aka cfg)))).
  { rewrite Ead. destruct ((zone (DestNode m2) =? 0) || (zone (OrigNode m2) =? 0)) eqn:Ez.
    - destruct (Z.testbit (mc_flags cfg) 3).
      + destruct (addlines_net2 [il] (set_zones m2 (zone (mc_aka cfg)))) as (m3 & E3 & T3 & C3 & A3); auto.
        cbn [addlines] in E3. destruct (mmAddLine (set_zones m2 (zone (mc_aka cfg))) il) as [x|] eqn:Ex; [|discriminate]. injection E3 as ->. cbn [obind].
        exists [il], m3, true. repeat split; auto; try discriminate.
        apply (intl_zones (set_zones m2 (zone (mc_aka cfg))) (zone (mc_aka cfg)) (get16 b 174) (get16 b 166) (get16 b 172) (get16 b 168)); auto; try (apply Hby; cbn; auto 6; fail); apply Hak.
      + cbn [obind]. exists [], (set_zones m2 (zone (mc_aka cfg))), true. cbn [concat]. rewrite app_nil_r. repeat split; auto; try congruence; try discriminate.
    - exists [], m2, false. cbn [concat]. rewrite app_nil_r. repeat split; auto; try congruence; try discriminate;
      intros; exfalso; unfold zones in *; (assert (zone (OrigNode m2) = 0) by congruence); rewrite H1 in Ez || rewrite H0 in Ez; cbn in Ez; rewrite orb_true_r in Ez; discriminate. }
  destruct Hfin as (extra & m3 & z & E3 & A3 & C3 & T3 & X3 & Z3).
  destruct (addlines_net2 r m3 A3 C3 Hcr) as (m4 & E4 & T4 & C4 & A4).
  exists (set_Flags m4 (Z.lor (Flags m4) (if resc then MMFLAG_RESCANNED else MMFLAG_EXPORTED))), extra. split; [|split; [|split; [auto|]]].
  - exists m4, z. split; auto. rewrite (exptext_text _ _ _ _ _ t k r); auto; [|apply cstring_no0; auto].
    fold hdr m0. rewrite E1, E3, E4. reflexivity.
  - change (mmtext m4 = concat (export_lines cfg resc extra (pieces t))). unfold export_lines. rewrite Eh.
    rewrite T4, T3, T2, T1, !concat_app, <- !app_assoc. reflexivity.
  - cbn [fst snd]. intros Hk. destruct Z3 as [Z3 Z4].
    { rewrite (addlines_zones _ _ _ A1 Hadd2 E2), (addlines_zones _ _ _ Hm0 Hk E1). reflexivity. }
    split; auto. intros Hr. pose proof (addlines_zones _ _ _ A3 Hr E4) as Z5. rewrite Z4 in Z5. unfold zones in Z5. injection Z5 as Z5 Z6. auto.
Qed.

(** ** What was stored *)
Lemma cstr_nul s r : ~ In 0 s -> cstr (s ++ 0 :: r) = s.
Proof.
  intros H. unfold cstr. induction s as [|c s IH]; cbn [app]; auto. cbn. destruct (Z.eqb_spec c 0) as [->|]; [exfalso; apply H; left; auto|].
  f_equal. apply IH. intros Hx; apply H; right; auto.
Qed.
Lemma fieldtext_stored n i (pre old s rest : list Z) : length pre = i -> length old = n -> field (n - 1) s -> (0 < n)%nat ->
  fieldtext (pre ++ setfield old s ++ rest) i n = s.
Proof.
  intros Hi Ho [H0 Hl] Hn. unfold fieldtext. rewrite <- Hi, skipn_exact.
  assert (E : firstn n (setfield old s ++ rest) = s ++ 0 :: firstn (n - S (length s)) (skipn (S (length s)) old)).
  { rewrite firstn_app, (setfield_length old s), Ho, Nat.sub_diag, firstn_O, app_nil_r, firstn_all2 by (rewrite setfield_length; lia).
    unfold setfield. rewrite Ho, firstn_app, firstn_all2 by lia. f_equal.
    destruct (n - length s)%nat as [|k] eqn:Ek; [lia|]. cbn [firstn]. do 2 f_equal. lia. }
  rewrite E, cstr_nul by auto. apply firstn_all2. auto.
Qed.
Lemma stored_fields cfg junk mm b : length junk = 190%nat -> hdr_ok mm -> storedmsg cfg junk mm = Some b ->
  fieldtext b 0 36 = From mm /\ fieldtext b 36 36 = To mm /\ fieldtext b 72 72 = Subject mm /\ fieldtext b 144 20 = DateTime mm /\
  get16 b 170 = Cost mm /\ attr_of b = Attr mm.
Proof.
  intros Hj (H1 & H2 & H3 & H4 & H5 & H6 & _) H.
  assert (E : exists rest, b = mkstored junk (From mm) (To mm) (Subject mm) (DateTime mm) (words_of mm) ++ rest).
  { unfold storedmsg in H. destruct (if flag _ _ && _ then mmMakeSeenByBuf (SeenBy mm) else Some []); [|discriminate]. injection H as <-. eauto. }
  destruct E as (rest & ->). clear H. repeat split.
  - unfold mkstored. rewrite <- app_assoc. apply (fieldtext_stored 36 0 []); auto; [apply slice_length; lia|lia].
  - unfold mkstored. rewrite <- !app_assoc. apply fieldtext_stored; auto; [rewrite setfield_length, slice_length; lia|apply slice_length; lia|lia].
  - unfold mkstored. rewrite <- !app_assoc. rewrite (app_assoc (setfield (slice 0 36 junk) (From mm))).
    apply fieldtext_stored; auto; [rewrite app_length, !setfield_length, !slice_length; lia|apply slice_length; lia|lia].
  - unfold mkstored. rewrite <- !app_assoc. rewrite (app_assoc (setfield (slice 0 36 junk) (From mm))), (app_assoc (_ ++ _) (setfield (slice 72 72 junk) (Subject mm))).
    apply fieldtext_stored; auto; [rewrite !app_length, !setfield_length, !slice_length; lia|apply slice_length; lia|lia].
  - change 170%nat with (164 + 2 * 3)%nat. rewrite mkstored_word by (auto; cbn; lia). cbn [nth words_of]. apply Z.mod_small. exact H6.
  - unfold attr_of. change 186%nat with (164 + 2 * 11)%nat. rewrite mkstored_word by (auto; cbn; lia). cbn [nth words_of]. apply Z.mod_small. exact H5.
Qed.
Lemma headlines_tail ls tail k r : headlines ls = (k, r) -> exists k' r', tail = k' ++ r' /\ 
  headlines (ls ++ tail) = (if match r with [] => true | _ => false end then (k ++ k', r') else (k, r ++ tail)).
Proof.
  revert k r. induction ls as [|l ls IH]; intros k r; cbn [headlines app].
  - intros H; injection H as <- <-. destruct (headlines tail) as [k' r'] eqn:E. exists k', r'. split; [apply headlines_app; auto|auto].
  - destruct l as [|c l]; [intros H; injection H as <- <-; exists [], tail; auto|].
    destruct ((c =? 1) || (c =? 10)); [|intros H; injection H as <- <-; exists [], tail; auto].
    destruct (headlines ls) as [a b]. intros H; injection H as <- <-. destruct (IH _ _ eq_refl) as (k' & r' & E1 & E2).
    exists k', r'. split; auto. rewrite E2. destruct b; auto.
Qed.
Lemma plain_export cfg resc ls tail : Forall unremarkable (added cfg resc) -> plain_lines ls = ls -> plain_lines tail = [] ->
  plain_lines (export_lines cfg resc [] (ls ++ tail)) = export_lines cfg resc [] ls.
Proof.
  intros Ha Hl Ht. unfold export_lines. destruct (headlines ls) as [k r] eqn:E. destruct (headlines_tail _ tail _ _ E) as (k' & r' & E1 & E2). rewrite E2.
  assert (Hadd : plain_lines (added cfg resc) = added cfg resc).
  { apply filter_all. eapply Forall_impl; [|exact Ha]. intros l (_ & A & B & _). cbv beta. rewrite A, B. reflexivity. }
  pose proof (headlines_app _ _ _ E) as El. unfold plain_lines in *.
  assert (Hkr : filter (fun l => negb (seenbyb l) && negb (pathb l)) k = k /\ filter (fun l => negb (seenbyb l) && negb (pathb l)) r = r).
  { assert (Hall : Forall (fun l => negb (seenbyb l) && negb (pathb l) = true) ls) by (rewrite <- Hl; apply Forall_forall; intros x Hx; apply filter_In in Hx; tauto).
    rewrite El in Hall. apply Forall_app in Hall. split; apply filter_all; tauto. }
  destruct Hkr as [Hk Hr]. destruct r as [|x r].
  - rewrite E1, filter_app in Ht. apply app_eq_nil in Ht as [T1 T2]. cbn [app]. rewrite !filter_app, Hk, T1, T2, Hadd, !app_nil_r. auto.
  - cbn [app]. rewrite filter_app, filter_app, Hk, Hadd. do 2 f_equal. change (x :: r ++ tail) with ((x :: r) ++ tail). rewrite filter_app, Hr, Ht, app_nil_r. auto.
Qed.

(** An imported echomail comes back. *)
Lemma stored_echo cfg resc junk mm : echo_ok mm -> length junk = 190%nat -> mc_net cfg = false -> mc_tag cfg <> [] -> valid4d (mc_aka cfg) ->
  exists b mm', storedmsg cfg junk mm = Some b /\ complete_hdr b /\ made cfg resc b mm' /\
    mmtext mm' = concat (export_lines cfg resc [] (pieces (mmtext mm))) /\
    Path mm' = filter (fun l => negb (streq l [])) (Path mm) /\
    (forall x, x <> (0, 0) -> (In x (entries (SeenBy mm')) <-> Z.testbit (mc_flags cfg) 6 = true /\ In x (entries (SeenBy mm)))).
Proof.
  intros (Hh & Ha & Hc & He & Hpl & Hsb & Hw & Hpa) Hj Hnet Htag Hak. 
  assert (Hai : match Area mm with [] => false | _ => true end = true) by (destruct (Area mm); [destruct Ha; contradiction|auto]).
  assert (Hsbt : exists sbtext gs, (if flag (mc_flags cfg) CFG_IMPORTSEENBY && match Area mm with [] => false | _ => true end then mmMakeSeenByBuf (SeenBy mm) else Some []) = Some sbtext /\
      sbtext = concat (map (fun g : list node2d * list Z => snd g ++ [13]) gs) /\
      Forall (fun g => sbline (fst g) (snd g) /\ (length (snd g) <= 77)%nat /\ pairs_ok (fst g)) gs /\
      forall x, x <> (0, 0) -> (In x (concat (map fst gs)) <-> Z.testbit (mc_flags cfg) 6 = true /\ In x (entries (SeenBy mm)))).
  { rewrite Hai, andb_true_r. rewrite (flag_bit _ 6 ltac:(lia) : flag _ CFG_IMPORTSEENBY = _). destruct (Z.testbit (mc_flags cfg) 6).
    - destruct (mmMakeSeenByBuf_spec (SeenBy mm) Hsb) as (text & gs & E & Et & Hg & Hcat).
      exists text, gs. split; auto. split; auto. split.
      + apply Forall_forall. intros g Hg'. rewrite Forall_forall in Hg. destruct (Hg _ Hg'). split; auto. split; auto.
        apply pairs_ok_in. intros x Hx. rewrite pairs_ok_in in Hsb. apply Hsb.
        assert (Hxl : In x (live (SeenBy mm))) by (rewrite <- Hcat; apply in_concat; exists (fst g); split; auto; apply in_map; auto).
        apply live_in in Hxl. tauto.
      + intros x Hx. rewrite Hcat, live_in. tauto.
    - exists [], []. split; auto. split; auto. split; [constructor|]. intros x Hx. cbn. split; [tauto|intros [? _]; discriminate]. }
  destruct Hsbt as (sbtext & gs & Esb & Est & Hgs & Hsin).
  set (u := mmtext mm ++ sbtext ++ pathbytes (Path mm)).
  set (hd := mkstored junk (From mm) (To mm) (Subject mm) (DateTime mm) (words_of mm)).
  assert (Eb : storedmsg cfg junk mm = Some (hd ++ u ++ [0])).
  { unfold storedmsg. rewrite Esb. cbn [obind]. unfold u, hd. rewrite <- !app_assoc. reflexivity. }
  assert (Hhl : length hd = 190%nat) by (apply mkstored_length; auto).
  exists (hd ++ u ++ [0]).
  set (paths := filter (fun l => negb (streq l [])) (Path mm)).
  assert (Hpaths : Forall pathline_ok paths).
  { apply Forall_forall. intros l Hl. apply filter_In in Hl as [Hl1 Hl2]. rewrite Forall_forall in Hpa.
    destruct (Hpa _ Hl1) as [->|]; [discriminate|auto]. }
  assert (Ep : pathbytes (Path mm) = concat (map (fun l => l ++ [13]) (map (fun l => 1 :: lit "PATH: " ++ l) paths))).
  { rewrite map_map. apply pathbytes_eq. }
  assert (Es : sbtext = concat (map (fun l => l ++ [13]) (map snd gs))) by (rewrite map_map; auto).
  set (sbl := map (fun g => snd g ++ [13]) gs). set (pal := map (fun l => (1 :: lit "PATH: " ++ l) ++ [13]) paths).
  assert (Hu : pieces u = pieces (mmtext mm) ++ sbl ++ pal).
  { unfold u. rewrite pieces_app by auto. f_equal. rewrite Ep, Es.
    rewrite pieces_app by apply eol_lines. rewrite !pieces_lines.
    - rewrite !map_map. reflexivity.
    - apply Forall_forall. intros l Hl. apply in_map_iff in Hl as (p & <- & Hp). rewrite Forall_forall in Hpaths.
      destruct (Hpaths _ Hp) as (_ & _ & H13 & H10 & Hlen & _). split; [discriminate|]. split.
      + apply (proj2 (Forall_app _ [1] _)). split; [repeat constructor; lia|]. apply Forall_app; split; [litc; repeat constructor; lia|].
        apply Forall_forall. intros c Hcc; split; intros ->; auto.
      + cbn [length]. rewrite app_length. change (length (lit "PATH: ")) with 6%nat. lia.
    - apply Forall_forall. intros l Hl. apply in_map_iff in Hl as (g & <- & Hg). rewrite Forall_forall in Hgs.
      destruct (Hgs _ Hg) as (H1 & H2 & H3). destruct (sbline_line _ _ H1 H3). split; [auto|]. split; [auto|lia]. }
  assert (Hcu : cstring u).
  { unfold u. apply cstring_app; split; [exact Hc|]. apply cstring_app; split.
    - rewrite Est. apply cstring_concat. apply Forall_forall. intros l Hl. apply in_map_iff in Hl as (g & <- & Hg).
      rewrite Forall_forall in Hgs. destruct (Hgs _ Hg) as (H1 & _ & H3). apply (sbline_crline _ _ H1 H3).
    - rewrite Ep, map_map. apply cstring_concat. apply Forall_forall. intros l Hl. apply in_map_iff in Hl as (p & <- & Hp).
      rewrite Forall_forall in Hpaths. destruct (Hpaths _ Hp) as (_ & Hpc & _). change (cstring (([1] ++ lit "PATH: " ++ p) ++ [13])).
      repeat (apply cstring_app; split); auto; litc; repeat constructor; lia. }
  assert (Heu : eoltext u). { unfold u. apply eol_app; auto. apply eol_app; [rewrite Es; apply eol_lines|rewrite Ep; apply eol_lines]. }
  assert (Hsb1 : Forall (fun l => seenbyb l = true) sbl).
  { apply Forall_forall. intros l Hl. apply in_map_iff in Hl as (g & <- & Hg). rewrite Forall_forall in Hgs. destruct (Hgs _ Hg) as (H1 & H2 & H3).
    apply prefixb_spec. apply (sbline_crline _ _ H1 H3). }
  assert (Hpa1 : Forall (fun l => pathb l = true) pal).
  { apply Forall_forall. intros l Hl. apply in_map_iff in Hl as (p & <- & Hp). reflexivity. }
  assert (Hpa2 : Forall (fun l => seenbyb l = false) pal).
  { apply Forall_forall. intros l Hl. apply in_map_iff in Hl as (p & <- & Hp). reflexivity. }
  assert (Hpl1 : Forall (fun l => seenbyb l = false /\ pathb l = false) (pieces (mmtext mm))).
  { eapply Forall_impl; [|exact Hpl]. cbv beta. intros l (Hl1 & Hl2 & _). unfold seenbyb, pathb. apply prefixb_false in Hl1, Hl2. auto. }
  destruct (made_echo cfg resc (hd ++ u ++ [0]) u) as (mm' & M1 & M2 & M3 & M4); auto.
  - unfold complete_hdr. rewrite app_length. lia.
  - right. exists []. rewrite <- Hhl. apply skipn_exact.
  - rewrite Hu. repeat (apply Forall_app; split).
    + eapply Forall_impl; [|exact Hpl]. cbn. tauto.
    + apply Forall_forall. intros l Hl [r Hr]. exfalso. rewrite Forall_forall in Hsb1. apply Hsb1 in Hl. rewrite Hr in Hl. discriminate.
    + apply Forall_forall. intros l Hl [r Hr]. exfalso. rewrite Forall_forall in Hpa1. apply Hpa1 in Hl. rewrite Hr in Hl. discriminate.
  - exists mm'. split; auto. split; [unfold complete_hdr; rewrite app_length; lia|]. split; auto. rewrite Hu in M2, M3, M4. split; [|split].
    + rewrite M2. f_equal. apply plain_export; [apply added_ok; auto| |].
      * apply filter_all. eapply Forall_impl; [|exact Hpl1]. cbv beta. intros l [-> ->]. auto.
      * apply filter_none. apply Forall_app. split; eapply Forall_impl; [|exact Hsb1| |exact Hpa1]; cbv beta; intros l ->; auto. apply andb_false_r.
    + rewrite M3. unfold path_lines. rewrite !filter_app. 
      rewrite (filter_none _ (pieces (mmtext mm))) by (eapply Forall_impl; [|exact Hpl1]; cbv beta; intros l [_ ->]; auto).
      rewrite (filter_none _ sbl).
      2: { eapply Forall_impl; [|exact Hsb1]. cbv beta. intros l Hl. apply prefixb_spec in Hl as [r ->]. reflexivity. }
      rewrite filter_all.
      2: { apply Forall_forall. intros l Hl. apply in_map_iff in Hl as (p & <- & Hp). rewrite Forall_forall in Hpaths. destruct (Hpaths p Hp) as [Hne _].
           destruct p as [|c p]; [contradiction|]. reflexivity. }
      cbn [app]. unfold pal. rewrite map_map. clear -Hpaths. induction Hpaths as [|p ps (_ & _ & H13 & _ & Hl & Ht) Hps IH]; auto. cbn [map]. f_equal; auto.
      change (skipn 7 ((1 :: lit "PATH: " ++ p) ++ [13])) with (p ++ [13]).
      destruct (Nat.eq_dec (length p) 99) as [El|El].
      * rewrite firstn_app, firstn_all2 by lia. replace (99 - length p)%nat with O by lia. simpl. rewrite app_nil_r. auto.
      * rewrite firstn_all2 by (rewrite app_length; simpl; lia). apply striptrail_cr; auto.
    + set (m0 := exphdr cfg hd). assert (Hm0 : is_echo m0) by (unfold is_echo, m0, exphdr; cbn [Area]; rewrite Hnet; auto).
      assert (E1 : addlines m0 sbl = Some (set_SeenBy m0 (addall (concat (map fst gs)) []))).
      { apply addlines_seenby; auto; eapply Forall_impl; [|exact Hgs| |exact Hgs]; cbn; tauto. }
      destruct (addlines_spec sbl m0 Hm0) as (m1 & E2 & _ & _ & E3 & _); [constructor| | |].
      { apply Forall_forall. intros l Hl. apply in_map_iff in Hl as (g & <- & Hg). rewrite Forall_forall in Hgs. destruct (Hgs _ Hg) as (H1 & H2 & H3).
        apply (sbline_crline _ _ H1 H3). }
      { apply Forall_forall. intros l Hl [r Hr]. exfalso. rewrite Forall_forall in Hsb1. apply Hsb1 in Hl. rewrite Hr in Hl. discriminate. }
      rewrite E1 in E2. injection E2 as <-. rewrite !filter_app in M4.
      rewrite (filter_none _ (pieces (mmtext mm))) in M4 by (eapply Forall_impl; [|exact Hpl1]; cbv beta; tauto).
      rewrite (filter_none _ pal) in M4 by exact Hpa2. cbn [app] in M4. rewrite app_nil_r in M4.
      pose proof (eq_trans (eq_sym M4) E3) as E4. injection E4 as E4.
      intros x Hx. rewrite E4, addall_in. cbn. rewrite <- (Hsin x Hx). tauto.
Qed.

(** An imported netmail comes back. *)
Lemma stored_net cfg resc junk mm : net_ok mm -> Area mm = [] -> Path mm = [] -> length junk = 190%nat -> mc_net cfg = true -> valid4d (mc_aka cfg) ->
  exists b mm' extra, storedmsg cfg junk mm = Some b /\ complete_hdr b /\ made cfg resc b mm' /\
    mmtext mm' = concat (export_lines cfg resc extra (pieces (mmtext mm))) /\
    (extra = [] \/ extra = [intl_line (zone (mc_aka cfg)) (net (DestNode mm)) (node (DestNode mm)) (net (OrigNode mm)) (node (OrigNode mm))]).
Proof.
  intros (Hh & Hc & He & Hs) Ha Hp Hj Hnet Hak.
  set (hd := mkstored junk (From mm) (To mm) (Subject mm) (DateTime mm) (words_of mm)).
  assert (Eb : storedmsg cfg junk mm = Some (hd ++ mmtext mm ++ [0])).
  { unfold storedmsg. rewrite Ha, andb_false_r, Hp. cbn [obind]. reflexivity. }
  assert (Hhl : length hd = 190%nat) by (apply mkstored_length; auto).
  assert (Hhb : complete_hdr (hd ++ mmtext mm ++ [0])) by (unfold complete_hdr; rewrite app_length; lia).
  assert (Hw : forall i, (i < 13)%nat -> get16 (hd ++ mmtext mm ++ [0]) (164 + 2 * i) = nth i (words_of mm) 0 mod 65536) by (intros i Hi; unfold hd; apply mkstored_word; auto).
  destruct Hh as (_ & _ & _ & _ & _ & _ & (O1 & O2 & O3 & O4) & (D1 & D2 & D3 & D4)).
  assert (Hn0 : get16 (hd ++ mmtext mm ++ [0]) 166 = node (DestNode mm)) by (change 166%nat with (164 + 2 * 1)%nat; rewrite Hw by lia; unfold words_of; rewrite Ha; apply Z.mod_small; auto).
  assert (Hn1 : get16 (hd ++ mmtext mm ++ [0]) 168 = node (OrigNode mm)) by (change 168%nat with (164 + 2 * 2)%nat; rewrite Hw by lia; unfold words_of; rewrite Ha; apply Z.mod_small; auto).
  assert (Hn2 : get16 (hd ++ mmtext mm ++ [0]) 172 = net (OrigNode mm)) by (change 172%nat with (164 + 2 * 4)%nat; rewrite Hw by lia; unfold words_of; rewrite Ha; apply Z.mod_small; auto).
  assert (Hn3 : get16 (hd ++ mmtext mm ++ [0]) 174 = net (DestNode mm)) by (change 174%nat with (164 + 2 * 5)%nat; rewrite Hw by lia; unfold words_of; rewrite Ha; apply Z.mod_small; auto).
  destruct (made_net cfg resc (hd ++ mmtext mm ++ [0]) (mmtext mm)) as (mm' & extra & M1 & M2 & M3 & _); auto.
  - intros i [<-|[<-|[<-|[<-|[]]]]]; congruence.
  - right. exists []. rewrite <- Hhl. apply skipn_exact.
  - rewrite Hn0, Hn1, Hn2, Hn3 in M3. exists (hd ++ mmtext mm ++ [0]), mm', extra. auto.
Qed.

Lemma made_exported cfg resc b mm : mc_tag cfg <> [] -> valid4d (mc_aka cfg) -> complete_hdr b -> made cfg resc b mm -> exported cfg resc b mm.
Proof.
  intros Htag Hak Hb Hm. destruct (made_fields _ _ _ _ Hb Hm) as [H1 H2]. 
  assert (Hdet : forall m', made cfg resc b m' -> m' = mm).
  { intros m' (x & z & E & ->). destruct Hm as (x' & z' & E' & ->). rewrite E in E'. injection E' as -> ->. auto. }
  unfold exported. destruct (mc_net cfg) eqn:En.
  - split; auto. split; auto. intros t Ht Hc He Hu.
    destruct (made_net cfg resc b t En Hak Hb Hu Ht Hc He) as (m & extra & M & R). apply Hdet in M. subst m. exists extra. exact R.
  - split; auto. split; auto. intros t Ht Hc He Ho.
    destruct (made_echo cfg resc b t En Htag Hak Hb Ht Hc He Ho) as (m & M & R). apply Hdet in M. subst m. exact R.
Qed.
