(** Lemmas about netmail handling. *)
From Verif Require Import Base M_Node4D S_Node4D P_Node4D M_Pat S_Pat P_Pat M_Str M_Mem S_Mem P_Mem M_Cfg M_Pkt M_Dupe M_Echo S_Echo P_Echo M_Expr M_Filter P_Filter M_Net S_Net.

(** ** Lines of a netmail *)
Lemma netline_text m l : Area m = [] -> chunks_ok (TextChunks m) -> (forall r, l <> 1 :: r) ->
  exists cs, mmAddLine m l = Some (set_TextChunks m cs) /\ chunks_ok cs /\ concat (rev cs) = mmtext m ++ l.
Proof.
  intros Ha Hc Hl. destruct (mmAddBuf_spec (TextChunks m) l Hc) as (cs & E & Ec & Hcs). exists cs. split; [|auto].
  unfold mmAddLine. rewrite Ha. cbn [andb]. destruct l as [|c r].
  - rewrite E. reflexivity.
  - destruct (Z.eqb_spec c 1); [subst; exfalso; eapply Hl; reflexivity|]. rewrite E. reflexivity.
Qed.
Lemma netline_kludge m l m1 : Area m = [] -> chunks_ok (TextChunks m) -> ProcessKludge m (1 :: l) = Some m1 ->
  exists cs, mmAddLine m (1 :: l) = Some (set_TextChunks m1 cs) /\ chunks_ok cs /\ concat (rev cs) = mmtext m ++ 1 :: l.
Proof.
  intros Ha Hc Hk. pose proof (ProcessKludge_frame _ _ _ Hk) as (_ & Et & _).
  destruct (mmAddBuf_spec (TextChunks m) (1 :: l) Hc) as (cs & E & Ec & Hcs). exists cs. split; [|auto].
  unfold mmAddLine. rewrite Ha. cbn [andb]. cbv beta iota. change (1 =? 1) with true. cbv iota.
  rewrite Hk, Et, E. reflexivity.
Qed.
Lemma pk_fmpt_line m p rest : is_u16 p -> match rest with [] => True | c :: _ => isdigit c = false end -> Area m = [] ->
  ProcessKludge m (SOH ++ lit "FMPT " ++ dec p ++ rest) = Some (set_OrigNode m (set_point (OrigNode m) p)).
Proof.
  intros Hp Hr Ha. unfold ProcessKludge, pk_rescanned, pk_msgid, pk_reply. cbn [obind]. 
  change (prefixb (SOH ++ lit "RESCANNED") (SOH ++ lit "FMPT " ++ dec p ++ rest)) with false.
  change (prefixb (SOH ++ lit "MSGID:") (SOH ++ lit "FMPT " ++ dec p ++ rest)) with false.
  change (prefixb (SOH ++ lit "REPLY:") (SOH ++ lit "FMPT " ++ dec p ++ rest)) with false.
  cbv iota. cbn [obind]. rewrite Ha. unfold pk_fmpt, pk_topt, pk_intl.
  change (prefixb (SOH ++ lit "FMPT") (SOH ++ lit "FMPT " ++ dec p ++ rest)) with true.
  change (prefixb (SOH ++ lit "TOPT") (SOH ++ lit "FMPT " ++ dec p ++ rest)) with false.
  change (prefixb (SOH ++ lit "INTL") (SOH ++ lit "FMPT " ++ dec p ++ rest)) with false.
  cbv iota. change (from (SOH ++ lit "FMPT " ++ dec p ++ rest) 6) with (Some (dec p ++ rest)).
  cbn [option_map obind]. rewrite atoi_dec_app by (auto; apply Hp). rewrite u16_id by auto. reflexivity.
Qed.
Lemma pk_topt_line m p rest : is_u16 p -> match rest with [] => True | c :: _ => isdigit c = false end -> Area m = [] ->
  ProcessKludge m (SOH ++ lit "TOPT " ++ dec p ++ rest) = Some (set_DestNode m (set_point (DestNode m) p)).
Proof.
  intros Hp Hr Ha. unfold ProcessKludge, pk_rescanned, pk_msgid, pk_reply. cbn [obind]. 
  change (prefixb (SOH ++ lit "RESCANNED") (SOH ++ lit "TOPT " ++ dec p ++ rest)) with false.
  change (prefixb (SOH ++ lit "MSGID:") (SOH ++ lit "TOPT " ++ dec p ++ rest)) with false.
  change (prefixb (SOH ++ lit "REPLY:") (SOH ++ lit "TOPT " ++ dec p ++ rest)) with false.
  cbv iota. cbn [obind]. rewrite Ha. unfold pk_fmpt, pk_topt, pk_intl.
  change (prefixb (SOH ++ lit "FMPT") (SOH ++ lit "TOPT " ++ dec p ++ rest)) with false.
  change (prefixb (SOH ++ lit "TOPT") (SOH ++ lit "TOPT " ++ dec p ++ rest)) with true.
  change (prefixb (SOH ++ lit "INTL") (SOH ++ lit "TOPT " ++ dec p ++ rest)) with false.
  cbv iota. change (from (SOH ++ lit "TOPT " ++ dec p ++ rest) 6) with (Some (dec p ++ rest)).
  cbn [option_map obind]. rewrite atoi_dec_app by (auto; apply Hp). rewrite u16_id by auto. reflexivity.
Qed.
Definition addr3 (n : node4d) : list Z := dec (zone n) ++ lit ":" ++ dec (net n) ++ lit "/" ++ dec (node n).
Lemma parse_addr3 n : valid4d n -> Parse4D (addr3 n) = Some (N4 (zone n) (net n) (node n) 0).
Proof.
  intros (H1 & H2 & H3 & H4). 
  change (Parse4D (Print4D (N4 (zone n) (net n) (node n) 0)) = Some (N4 (zone n) (net n) (node n) 0)).
  apply print_parse. repeat split; simpl; try apply H1; try apply H2; try apply H3; lia.
Qed.
Lemma addr3_chars n : valid4d n -> Forall (fun c => digit c \/ c = 58 \/ c = 47 \/ c = 46) (addr3 n) /\ (length (addr3 n) <= 17)%nat.
Proof.
  intros (H1 & H2 & H3 & H4). split.
  - pose proof (dec_digits (zone n)) as D1. pose proof (dec_digits (net n)) as D2. pose proof (dec_digits (node n)) as D3.
    unfold addr3. rewrite !Forall_app. repeat split; try (constructor; [auto|constructor]);
    (eapply Forall_impl; [|first [apply D1, H1|apply D2, H2|apply D3, H3]]); auto.
  - unfold addr3. rewrite !app_length. pose proof (dec_length_u16 _ H1). pose proof (dec_length_u16 _ H2). pose proof (dec_length_u16 _ H3).
    simpl. lia.
Qed.
Lemma takeuntil_app stop n a c r : Forall (fun x => stop x = false) a -> (length a < n)%nat -> stop c = true ->
  takeuntil stop n (a ++ c :: r) = (a, c :: r).
Proof.
  revert n. induction a as [|x a IH]; intros n Ha Hn Hc; destruct n as [|n]; simpl in *; try lia.
  - rewrite Hc. reflexivity.
  - inversion Ha as [|? ? E Ha']; subst. rewrite E, (IH n Ha' ltac:(lia) Hc). reflexivity.
Qed.
Lemma pk_intl_line m o d : valid4d o -> valid4d d -> Area m = [] ->
  ProcessKludge m (SOH ++ lit "INTL " ++ addr3 d ++ lit " " ++ addr3 o ++ [13]) =
  Some (set_OrigNode (set_DestNode m (set_point d (point (DestNode m)))) (set_point o (point (OrigNode m)))).
Proof.
  intros Ho Hd Ha.
  set (t := addr3 d ++ lit " " ++ addr3 o ++ [13]).
  unfold ProcessKludge, pk_rescanned, pk_msgid, pk_reply. cbn [obind]. 
  change (prefixb (SOH ++ lit "RESCANNED") (SOH ++ lit "INTL " ++ t)) with false.
  change (prefixb (SOH ++ lit "MSGID:") (SOH ++ lit "INTL " ++ t)) with false.
  change (prefixb (SOH ++ lit "REPLY:") (SOH ++ lit "INTL " ++ t)) with false.
  cbv iota. cbn [obind]. rewrite Ha. unfold pk_fmpt, pk_topt, pk_intl.
  change (prefixb (SOH ++ lit "FMPT") (SOH ++ lit "INTL " ++ t)) with false.
  change (prefixb (SOH ++ lit "TOPT") (SOH ++ lit "INTL " ++ t)) with false.
  change (prefixb (SOH ++ lit "INTL") (SOH ++ lit "INTL " ++ t)) with true.
  cbv iota. cbn [obind]. change (nth 5 (SOH ++ lit "INTL " ++ t) 0 =? 58) with false. cbv iota.
  change (from (SOH ++ lit "INTL " ++ t) 6) with (Some t). cbv iota beta.
  destruct (addr3_chars d Hd) as [Cd Ld]. destruct (addr3_chars o Ho) as [Co Lo].
  unfold t. change (lit " ") with [32]. cbn [app].
  assert (E1 : forall r, takeuntil (fun c => c =? 32) 59 (addr3 d ++ 32 :: r) = (addr3 d, 32 :: r)).
  { intros r. apply takeuntil_app; auto; [|lia]. eapply Forall_impl; [|exact Cd]. intros c Hc. cbv beta. unfold digit in *. lia. }
  rewrite E1. rewrite (parse_addr3 d Hd). cbv iota beta. change (32 =? 32) with true. cbv iota.
  assert (E2 : takeuntil (fun c => (c =? 32) || (c =? 13)) 59 (addr3 o ++ [13]) = (addr3 o, [13])).
  { apply takeuntil_app; auto; [|lia]. eapply Forall_impl; [|exact Co]. intros c Hc. cbv beta. unfold digit in *. lia. }
  rewrite E2. rewrite (parse_addr3 o Ho). reflexivity.
Qed.
(** lines that are no addressing kludges leave the addresses alone *)
Lemma kludge_addr m l m' : ProcessKludge m l = Some m' -> ~ is_addr_kludge l -> OrigNode m' = OrigNode m /\ DestNode m' = DestNode m.
Proof.
  intros H Hn.
  assert (HF : prefixb (SOH ++ lit "FMPT") l = false).
  { apply prefixb_false. intros Hs. apply Hn. exists (lit "FMPT"). split; [simpl; auto|exact Hs]. }
  assert (HT : prefixb (SOH ++ lit "TOPT") l = false).
  { apply prefixb_false. intros Hs. apply Hn. exists (lit "TOPT"). split; [simpl; auto|exact Hs]. }
  assert (HI : prefixb (SOH ++ lit "INTL") l = false).
  { apply prefixb_false. intros Hs. apply Hn. exists (lit "INTL"). split; [simpl; auto|exact Hs]. }
  unfold ProcessKludge in H.
  destruct (pk_msgid (pk_rescanned m l) l) as [m1|] eqn:E1; [|discriminate]. cbn [obind] in H.
  destruct (pk_reply m1 l) as [m2|] eqn:E2; [|discriminate]. cbn [obind] in H.
  assert (A0 : OrigNode (pk_rescanned m l) = OrigNode m /\ DestNode (pk_rescanned m l) = DestNode m).
  { unfold pk_rescanned. destruct (prefixb (SOH ++ lit "RESCANNED") l); auto. }
  assert (A1 : OrigNode m1 = OrigNode m /\ DestNode m1 = DestNode m).
  { unfold pk_msgid in E1. destruct (prefixb (SOH ++ lit "MSGID:") l); [|congruence]. destruct (from l 8); [|discriminate]. cbn [option_map] in E1.
    assert (m1 = set_MSGID (pk_rescanned m l) (fst (takeuntil (fun c => c =? 13) 79 l0))) by congruence. subst m1. auto. }
  assert (A2 : OrigNode m2 = OrigNode m /\ DestNode m2 = DestNode m).
  { unfold pk_reply in E2. destruct (prefixb (SOH ++ lit "REPLY:") l); [|congruence]. destruct (from l 8); [|discriminate]. cbn [option_map] in E2.
    assert (m2 = set_REPLY m1 (fst (takeuntil (fun c => c =? 13) 79 l0))) by congruence. subst m2. auto. }
  destruct (Area m2); [|congruence].
  unfold pk_fmpt, pk_topt, pk_intl in H. rewrite HF, HT, HI in H. cbn [obind] in H. congruence.
Qed.
Lemma netline_other m l : Area m = [] -> chunks_ok (TextChunks m) -> crline l -> ~ is_addr_kludge l ->
  exists m', mmAddLine m l = Some m' /\ Area m' = [] /\ chunks_ok (TextChunks m') /\ OrigNode m' = OrigNode m /\ DestNode m' = DestNode m /\
    mmtext m' = mmtext m ++ l.
Proof.
  intros Ha Hc Hcr Hn. destruct l as [|c l].
  - destruct (netline_text m [] Ha Hc ltac:(discriminate)) as (cs & E & H1 & H2). exists (set_TextChunks m cs). repeat split; auto.
  - destruct (Z.eqb_spec c 1) as [->|Hc1].
    + destruct (ProcessKludge_defined m (1 :: l) Hcr) as (m1 & E1).
      pose proof (ProcessKludge_frame _ _ _ E1) as (EA & _). destruct (kludge_addr _ _ _ E1 Hn) as [EO ED].
      destruct (netline_kludge _ _ _ Ha Hc E1) as (cs & E & H1 & H2). eexists. split; [exact E|]. cbn. rewrite EA, EO, ED.
      repeat split; auto.
    + destruct (netline_text m (c :: l) Ha Hc ltac:(congruence)) as (cs & E & H1 & H2). exists (set_TextChunks m cs). repeat split; auto.
Qed.
Lemma netlines_other ls : forall m, Area m = [] -> chunks_ok (TextChunks m) -> Forall (fun l => crline l /\ ~ is_addr_kludge l) ls ->
  exists m', mmAddLines m ls = Some m' /\ Area m' = [] /\ chunks_ok (TextChunks m') /\ OrigNode m' = OrigNode m /\ DestNode m' = DestNode m /\
    mmtext m' = mmtext m ++ concat ls.
Proof.
  induction ls as [|l ls IH]; intros m Ha Hc Hl; simpl.
  - exists m. rewrite app_nil_r. repeat split; auto.
  - inversion Hl as [|? ? (H1 & H2) H3]; subst. destruct (netline_other m l Ha Hc H1 H2) as (m1 & E1 & A1 & C1 & O1 & D1 & T1).
    rewrite E1. cbn [obind]. destruct (IH m1 A1 C1 H3) as (m2 & E2 & A2 & C2 & O2 & D2 & T2). exists m2.
    rewrite E2, O2, D2, O1, D1, T2, T1, app_assoc. repeat split; auto.
Qed.
(** the kludge lines *)
Definition kludgelines (flags : Z) (o d : node4d) : list (list Z) :=
  filter (fun l => negb (streq l [])) [kludge_fmpt o; kludge_topt d; kludge_intl flags o d].
Definition intl (flags : Z) (o d : node4d) : bool := negb (zone o =? zone d) || flag flags CFG_FORCEINTL.
Lemma concat_kludgelines flags o d : concat (kludgelines flags o d) = kludge_fmpt o ++ kludge_topt d ++ kludge_intl flags o d.
Proof.
  assert (H : forall l ls, concat (filter (fun l => negb (streq l [])) (l :: ls)) = l ++ concat (filter (fun l => negb (streq l [])) ls)).
  { intros l ls. cbn [filter]. destruct l; reflexivity. }
  unfold kludgelines. rewrite !H. cbn [filter concat]. rewrite app_nil_r. reflexivity.
Qed.
Lemma streq_nil (l : list Z) : l <> [] -> streq l [] = false.
Proof. destruct l; [congruence|reflexivity]. Qed.
Lemma read_kludges flags o d m : valid4d o -> valid4d d -> Area m = [] -> chunks_ok (TextChunks m) ->
  point (OrigNode m) = 0 -> point (DestNode m) = 0 -> net (OrigNode m) = net o -> node (OrigNode m) = node o ->
  net (DestNode m) = net d -> node (DestNode m) = node d ->
  exists m', mmAddLines m (kludgelines flags o d) = Some m' /\ Area m' = [] /\ chunks_ok (TextChunks m') /\
    OrigNode m' = (if intl flags o d then o else set_zone o (zone (OrigNode m))) /\
    DestNode m' = (if intl flags o d then d else set_zone d (zone (DestNode m))) /\
    mmtext m' = mmtext m ++ concat (kludgelines flags o d).
Proof.
  intros Ho Hd Ha Hc P1 P2 N1 F1 N2 F2.
  assert (S1 : exists m1, (forall ls, mmAddLines m (filter (fun l => negb (streq l [])) (kludge_fmpt o :: ls)) = mmAddLines m1 (filter (fun l => negb (streq l [])) ls)) /\
     Area m1 = [] /\ chunks_ok (TextChunks m1) /\ OrigNode m1 = set_zone o (zone (OrigNode m)) /\ DestNode m1 = DestNode m /\ mmtext m1 = mmtext m ++ kludge_fmpt o).
  { unfold kludge_fmpt. destruct (Z.eqb_spec (point o) 0) as [Ep|Ep].
    - exists m. cbn [filter streq negb]. rewrite app_nil_r. repeat split; auto.
      unfold set_zone. rewrite Ep, <- P1, <- N1, <- F1. destruct (OrigNode m); reflexivity.
    - destruct (netline_kludge m _ _ Ha Hc (pk_fmpt_line m (point o) [13] ltac:(apply Ho) eq_refl Ha)) as (cs & E & H1 & H2).
      eexists. split.
      { intros ls. cbn [filter]. rewrite streq_nil by discriminate. cbn [negb mmAddLines].
        change (SOH ++ lit "FMPT " ++ dec (point o) ++ [13]) with (1 :: lit "FMPT " ++ dec (point o) ++ [13]). rewrite E. cbn [obind]. reflexivity. }
      cbn. repeat split; auto. unfold set_point, set_zone. rewrite N1, F1. reflexivity. }
  destruct S1 as (m1 & E1 & A1 & C1 & O1 & D1 & T1).
  assert (S2 : exists m2, (forall ls, mmAddLines m1 (filter (fun l => negb (streq l [])) (kludge_topt d :: ls)) = mmAddLines m2 (filter (fun l => negb (streq l [])) ls)) /\
     Area m2 = [] /\ chunks_ok (TextChunks m2) /\ OrigNode m2 = OrigNode m1 /\ DestNode m2 = set_zone d (zone (DestNode m)) /\ mmtext m2 = mmtext m1 ++ kludge_topt d).
  { unfold kludge_topt. destruct (Z.eqb_spec (point d) 0) as [Ep|Ep].
    - exists m1. cbn [filter streq negb]. rewrite app_nil_r. repeat split; auto. rewrite D1.
      unfold set_zone. rewrite Ep, <- P2, <- N2, <- F2. destruct (DestNode m); reflexivity.
    - destruct (netline_kludge m1 _ _ A1 C1 (pk_topt_line m1 (point d) [13] ltac:(apply Hd) eq_refl A1)) as (cs & E & H1 & H2).
      eexists. split.
      { intros ls. cbn [filter]. rewrite streq_nil by discriminate. cbn [negb mmAddLines].
        change (SOH ++ lit "TOPT " ++ dec (point d) ++ [13]) with (1 :: lit "TOPT " ++ dec (point d) ++ [13]). rewrite E. cbn [obind]. reflexivity. }
      cbn. repeat split; auto. unfold set_point, set_zone. rewrite D1, N2, F2. reflexivity. }
  destruct S2 as (m2 & E2 & A2 & C2 & O2 & D2 & T2).
  rewrite concat_kludgelines. unfold kludgelines. rewrite E1, E2. unfold kludge_intl. fold (intl flags o d).
  destruct (intl flags o d).
  - assert (EL : SOH ++ lit "INTL " ++ dec (zone d) ++ lit ":" ++ dec (net d) ++ lit "/" ++ dec (node d) ++ lit " " ++ dec (zone o) ++ lit ":" ++ dec (net o) ++ lit "/" ++ dec (node o) ++ [13]
       = 1 :: lit "INTL " ++ addr3 d ++ lit " " ++ addr3 o ++ [13]) by (unfold addr3, SOH; rewrite <- ?app_assoc; reflexivity).
    rewrite EL. destruct (netline_kludge m2 _ _ A2 C2 (pk_intl_line m2 o d Ho Hd A2)) as (cs & E & H1 & H2).
    eexists. split.
    { cbn [filter]. rewrite streq_nil by discriminate. cbn [negb mmAddLines]. rewrite E. cbn [obind mmAddLines]. reflexivity. }
    cbn [Area set_TextChunks TextChunks OrigNode DestNode set_OrigNode set_DestNode]. rewrite O2, O1, D2. repeat split; auto.
    + destruct o; reflexivity.
    + destruct d; reflexivity.
    + unfold mmtext at 1. cbn [TextChunks set_TextChunks]. rewrite H2, T2, T1, <- !app_assoc. reflexivity.
  - exists m2. cbn [filter streq negb mmAddLines]. rewrite app_nil_r, T2, T1, O2, O1, <- app_assoc. repeat split; auto.
Qed.
(** writing them *)
Lemma MakeNetmailKludges_spec flags m : chunks_ok (TextChunks m) -> exists cs, MakeNetmailKludges flags m = Some (set_TextChunks m cs) /\
  chunks_ok cs /\ concat (rev cs) = mmtext m ++ concat (kludgelines flags (OrigNode m) (DestNode m)).
Proof.
  intros H. unfold MakeNetmailKludges, addtext.
  destruct (mmAddBuf_spec _ (kludge_fmpt (OrigNode m)) H) as (c1 & E1 & T1 & H1). rewrite E1. cbn [option_map obind TextChunks set_TextChunks DestNode OrigNode].
  destruct (mmAddBuf_spec _ (kludge_topt (DestNode m)) H1) as (c2 & E2 & T2 & H2). rewrite E2. cbn [option_map obind TextChunks set_TextChunks DestNode OrigNode].
  destruct (mmAddBuf_spec _ (kludge_intl flags (OrigNode m) (DestNode m)) H2) as (c3 & E3 & T3 & H3). rewrite E3. cbn [option_map].
  exists c3. split; [reflexivity|]. split; auto. rewrite T3, T2, T1, concat_kludgelines. unfold mmtext. rewrite <- !app_assoc. reflexivity.
Qed.

(** ** What never changes *)
(** the attributes stay and the mark stays *)
Definition keepsmark (m m' : memmsg) : Prop :=
  Attr m' = Attr m /\ (flag (Flags m) MMFLAG_AUTOGEN = true -> flag (Flags m') MMFLAG_AUTOGEN = true).
Lemma km_refl m : keepsmark m m.
Proof. split; auto. Qed.
Lemma km_trans a b c : keepsmark a b -> keepsmark b c -> keepsmark a c.
Proof. unfold keepsmark. intros (A1 & A2) (B1 & B2). split; [congruence|auto]. Qed.
Lemma flag_lor a b f : flag a f = true -> flag (Z.lor a b) f = true.
Proof.
  unfold flag. rewrite !negb_true_iff, !Z.eqb_neq. intros H E. apply H. rewrite Z.land_lor_distr_l in E.
  apply Z.lor_eq_0_iff in E as [E _]. exact E.
Qed.
Lemma km_same m m' : Attr m' = Attr m -> Flags m' = Flags m -> keepsmark m m'.
Proof. intros H1 H2. split; [auto|]. rewrite H2. auto. Qed.
Lemma kludge_mark m l m' : ProcessKludge m l = Some m' -> keepsmark m m'.
Proof.
  unfold ProcessKludge. intros H.
  assert (A0 : keepsmark m (pk_rescanned m l)).
  { unfold pk_rescanned. destruct (prefixb (SOH ++ lit "RESCANNED") l); [|apply km_refl]. split; [reflexivity|]. apply flag_lor. }
  destruct (pk_msgid (pk_rescanned m l) l) as [m1|] eqn:E1; [|discriminate]. cbn [obind] in H.
  destruct (pk_reply m1 l) as [m2|] eqn:E2; [|discriminate]. cbn [obind] in H.
  assert (Hom : forall {A} (o : option A) (g : A -> memmsg) a b, (forall s, Attr (g s) = Attr a /\ Flags (g s) = Flags a) -> option_map g o = Some b -> keepsmark a b).
  { intros A [x|] g a b Hg E; [|discriminate]. cbn [option_map] in E. assert (b = g x) by congruence. subst b. destruct (Hg x). apply km_same; auto. }
  assert (A1 : keepsmark (pk_rescanned m l) m1).
  { unfold pk_msgid in E1. destruct (prefixb (SOH ++ lit "MSGID:") l); [|assert (m1 = pk_rescanned m l) by congruence; subst; apply km_refl].
    revert E1. apply Hom. auto. }
  assert (A2 : keepsmark m1 m2).
  { unfold pk_reply in E2. destruct (prefixb (SOH ++ lit "REPLY:") l); [|assert (m2 = m1) by congruence; subst; apply km_refl].
    revert E2. apply Hom. auto. }
  assert (A02 : keepsmark m m2) by (eapply km_trans; [exact A0|eapply km_trans; eauto]).
  destruct (Area m2); [|assert (m' = m2) by congruence; subst; auto].
  destruct (pk_fmpt m2 l) as [m3|] eqn:E3; [|discriminate]. cbn [obind] in H.
  destruct (pk_topt m3 l) as [m4|] eqn:E4; [|discriminate]. cbn [obind] in H.
  assert (A3 : keepsmark m2 m3).
  { unfold pk_fmpt in E3. destruct (prefixb (SOH ++ lit "FMPT") l); [|assert (m3 = m2) by congruence; subst; apply km_refl].
    revert E3. apply Hom. auto. }
  assert (A4 : keepsmark m3 m4).
  { unfold pk_topt in E4. destruct (prefixb (SOH ++ lit "TOPT") l); [|assert (m4 = m3) by congruence; subst; apply km_refl].
    revert E4. apply Hom. auto. }
  assert (A5 : keepsmark m4 m').
  { unfold pk_intl in H. destruct (prefixb (SOH ++ lit "INTL") l); [|assert (m' = m4) by congruence; subst; apply km_refl].
    destruct (from l _) as [s|]; [|discriminate].
    destruct (takeuntil (fun c => c =? 32) 59 s) as [b r].
    destruct (takeuntil (fun c => (c =? 32) || (c =? 13)) 59 _) as [b2 r2].
    assert (m' = match Parse4D b2 with
                 | Some n => set_OrigNode match Parse4D b with Some n => set_DestNode m4 (N4 (zone n) (net n) (node n) (point (DestNode m4))) | None => m4 end (N4 (zone n) (net n) (node n) (point (OrigNode match Parse4D b with Some n => set_DestNode m4 (N4 (zone n) (net n) (node n) (point (DestNode m4))) | None => m4 end)))
                 | None => match Parse4D b with Some n => set_DestNode m4 (N4 (zone n) (net n) (node n) (point (DestNode m4))) | None => m4 end
                 end) by congruence.
    subst m'. destruct (Parse4D b), (Parse4D b2); apply km_same; reflexivity. }
  eapply km_trans; [exact A02|]. eapply km_trans; [exact A3|]. eapply km_trans; eauto.
Qed.
Lemma addtext_mark m b m' : option_map (set_TextChunks m) (mmAddBuf (TextChunks m) b) = Some m' -> keepsmark m m'.
Proof. destruct (mmAddBuf _ _); [|discriminate]. cbn [option_map]. intros E. assert (m' = set_TextChunks m l) by congruence. subst m'. apply km_same; reflexivity. Qed.
Lemma addline_mark m l m' : mmAddLine m l = Some m' -> keepsmark m m'.
Proof.
  unfold mmAddLine.
  destruct (_ && prefixb (lit "SEEN-BY:") l).
  { destruct (from l 9); [|discriminate]. destruct (AddSeenby _ _) as [x|]; [|discriminate]. cbn [option_map].
    intros E. assert (m' = set_SeenBy m x) by congruence. subst m'. apply km_same; reflexivity. }
  destruct (_ && prefixb (SOH ++ lit "PATH:") l).
  { destruct (from l 7) as [x|]; [|discriminate]. cbn [option_map].
    intros E. assert (m' = set_Path m (mmAddPath x (Path m))) by congruence. subst m'. apply km_same; reflexivity. }
  destruct (_ && prefixb (lit " * Origin: ") l).
  { destruct (ExtractAddress l) as [n| |]; [| |discriminate].
    - intros E. eapply (km_trans _ (set_Origin4D m (if zone n =? 0 then set_zone n (zone (PktOrig m)) else n))); [apply km_same; reflexivity|].
      eapply addtext_mark; eauto.
    - apply addtext_mark. }
  destruct (match l with [] => false | c :: _ => c =? 1 end); [|apply addtext_mark].
  destruct (ProcessKludge m l) as [m1|] eqn:E1; [|discriminate]. intros E.
  eapply km_trans; [eapply kludge_mark; eauto|]. eapply addtext_mark; eauto.
Qed.
Lemma addlines_mark ls : forall m m', mmAddLines m ls = Some m' -> keepsmark m m'.
Proof.
  induction ls as [|l ls IH]; intros m m'; simpl.
  - intros E. assert (m' = m) by congruence. subst. apply km_refl.
  - destruct (mmAddLine m l) as [m1|] eqn:E1; [|discriminate]. cbn [obind]. intros E. eapply km_trans; [eapply addline_mark; eauto|eauto].
Qed.
Lemma addtext'_mark m b m' : addtext m b = Some m' -> keepsmark m m'.
Proof. apply addtext_mark. Qed.
Lemma kludges_mark flags m m' : MakeNetmailKludges flags m = Some m' -> keepsmark m m'.
Proof.
  unfold MakeNetmailKludges. destruct (addtext m _) as [m1|] eqn:E1; [|discriminate]. cbn [obind].
  destruct (addtext m1 _) as [m2|] eqn:E2; [|discriminate]. cbn [obind]. intros E3.
  eapply km_trans; [eapply addtext'_mark, E1|]. eapply km_trans; [eapply addtext'_mark, E2|]. eapply addtext'_mark, E3.
Qed.
Lemma remap_mark flags nl rs m name dp m' : Filter_Remap flags nl rs m name dp = Some m' -> keepsmark m m'.
Proof.
  unfold Filter_Remap. destruct (Area m); [|intros E; assert (m' = m) by congruence; subst; apply km_refl].
  destruct (Nat.ltb _ 36); [|discriminate].
  destruct (MakeNetmailKludges _ _) as [m1|] eqn:E1; [|discriminate]. cbn [obind].
  destruct (addlines _ _) as [cs|]; [|discriminate]. cbn [obind].
  destruct (_ && _); [|discriminate].
  destruct (mmAddLine (set_TextChunks m1 cs) _) as [m2|] eqn:E2; [|discriminate]. cbn [obind]. intros E3.
  eapply km_trans; [|eapply km_trans; [eapply addline_mark, E2|eapply addline_mark, E3]].
  apply kludges_mark in E1. eapply km_trans; [|apply km_same; reflexivity]. eapply km_trans; [|exact E1]. apply km_same; reflexivity.
Qed.
Lemma masq_mark flags nl m name dp m' : Filter_Masquerade flags nl m name dp = Some m' -> keepsmark m m'.
Proof.
  unfold Filter_Masquerade. destruct (Nat.ltb _ 36); [|discriminate].
  set (n := ExpandNodePat _ _ _). set (m1 := set_TextChunks (set_From m _) []).
  destruct (match masqkludge (lit "MSGID") (MSGID m1) n with Some (v, line) => addtext (set_MSGID m1 v) line | None => Some m1 end) as [m2|] eqn:E2; [|discriminate].
  cbn [obind].
  assert (A1 : keepsmark m m1) by (apply km_same; reflexivity).
  assert (A2 : keepsmark m1 m2).
  { destruct (masqkludge (lit "MSGID") _ _) as [[v line]|]; [|assert (m2 = m1) by congruence; subst m2; apply km_refl].
    apply addtext'_mark in E2. eapply km_trans; [|exact E2]. apply km_same; reflexivity. }
  set (o := match Area m with [] => true | _ => false end).
  destruct (match (if o then masqkludge (lit "REPLY") (REPLY m2) n else None) with Some (v, line) => addtext (set_REPLY m2 v) line | None => Some m2 end) as [m3|] eqn:E3; [|discriminate].
  cbn [obind].
  assert (A3 : keepsmark m2 m3).
  { destruct (if o then _ else _) as [[v line]|]; [|assert (m3 = m2) by congruence; subst m3; apply km_refl].
    apply addtext'_mark in E3. eapply km_trans; [|exact E3]. apply km_same; reflexivity. }
  destruct (if o then MakeNetmailKludges flags (set_OrigNode m3 n) else _) as [m5|] eqn:E5; [|discriminate]. cbn [obind].
  assert (A5 : keepsmark m3 m5).
  { destruct o.
    - apply kludges_mark in E5. eapply km_trans; [|exact E5]. apply km_same; reflexivity.
    - assert (m5 = set_Origin4D (set_OrigNode m3 n) n) by congruence. subst m5. apply km_same; reflexivity. }
  destruct (addlines _ _) as [cs|]; [|discriminate]. cbn [obind].
  destruct (AddNodePath _ _) as [pa|]; [|discriminate]. cbn [obind]. intros E.
  assert (E' : m' = set_Path (set_SeenBy (set_TextChunks m5 cs) (mmAddNodes2DList [] (net n) (node n))) pa) by congruence. subst m'.
  eapply km_trans; [exact A1|]. eapply km_trans; [exact A2|]. eapply km_trans; [exact A3|]. eapply km_trans; [exact A5|]. apply km_same; reflexivity.
Qed.
Lemma copymsg_mark m m' : copymsg m = Some m' -> keepsmark m m'.
Proof.
  unfold copymsg. destruct (match Area m with [] => _ | _ => _ end); [|discriminate]. cbn [obind].
  destruct (addlines _ _) as [cs|]; [|discriminate]. cbn [obind]. intros E. assert (m' = set_TextChunks m cs) by congruence. subst m'. apply km_same; reflexivity.
Qed.

(** filters and the functions they call *)
Section FilterRel.
  Context {St : Type} (e : fenv) (flags : Z) (rs : list route)
    (copy writebad : St -> memmsg -> list Z -> option (St * bool))
    (b1 b2 : St -> memmsg -> list Z -> bool -> option (St * bool))
    (exec : memmsg -> list Z -> Z) (nl : nodelist).
  Notation masq := (Filter_Masquerade flags nl).
  Lemma runcommand_mark st m c st' m' ok : runcommand e flags rs copy writebad b1 exec masq st m c = Some (st', m', ok) -> keepsmark m m'.
  Proof.
    unfold runcommand, keep. destruct c.
    - intros E. assert (m' = set_Flags m (Z.lor (Flags m) MMFLAG_KILL)) by congruence. subst m'. split; [reflexivity|]. apply flag_lor.
    - intros E. assert (m' = set_Flags m (Z.lor (Flags m) MMFLAG_TWIT)) by congruence. subst m'. split; [reflexivity|]. apply flag_lor.
    - unfold Filter_Copy. destruct (copymsg m) as [m1|] eqn:E1; [|discriminate]. cbn [obind].
      destruct (copy st m1 tag) as [r|]; [|discriminate]. cbn [obind]. intros E.
      assert (E' : m' = if snd r then m else m1) by congruence. subst m'. destruct (snd r); [apply km_refl|eapply copymsg_mark; eauto].
    - unfold Filter_Execute. destruct (exec m cmd =? 0); intros E.
      + assert (m' = set_Flags m (Z.lor (Flags m) MMFLAG_KILL)) by congruence. subst m'. split; [reflexivity|]. apply flag_lor.
      + assert (m' = m) by congruence. subst m'. apply km_refl.
    - destruct (ExpandFilter m fmt); [|discriminate]. cbn [option_map]. intros E. assert (m' = m) by congruence. subst m'. apply km_refl.
    - destruct (writebad st m reason); [|discriminate]. cbn [option_map]. intros E. assert (m' = m) by congruence. subst m'. apply km_refl.
    - destruct (ExpandFilter m reason) as [l|]; [|discriminate]. cbn [obind]. destruct (b1 st m l false); [|discriminate]. cbn [option_map]. intros E.
      assert (m' = m) by congruence. subst m'. apply km_refl.
    - destruct (ExpandFilter m reason) as [l|]; [|discriminate]. cbn [obind]. destruct (b1 st m l true); [|discriminate]. cbn [option_map]. intros E.
      assert (m' = m) by congruence. subst m'. apply km_refl.
    - destruct (Filter_Remap _ _ _ _ _ _) as [m1|] eqn:E1; [|discriminate]. cbn [option_map]. intros E. assert (m' = m1) by congruence. subst m'.
      eapply remap_mark; eauto.
    - destruct (masq m name dest) as [m1|] eqn:E1; [|discriminate]. cbn [option_map]. intros E. assert (m' = m1) by congruence. subst m'.
      eapply masq_mark; eauto.
  Qed.
  Lemma runcommands_mark cs : forall st m st' m' n, runcommands e flags rs copy writebad b1 exec masq st m cs = Some (st', m', n) -> keepsmark m m'.
  Proof.
    induction cs as [|c cs IH]; intros st m st' m' n; simpl.
    - intros E. assert (m' = m) by congruence. subst. apply km_refl.
    - destruct (runcommand e flags rs copy writebad b1 exec masq st m c) as [[[st1 m1] ok]|] eqn:E1; [|discriminate]. cbn [obind].
      apply runcommand_mark in E1. destruct ok; simpl.
      + destruct (flag (Flags m1) MMFLAG_KILL).
        * intros E. assert (m' = m1) by congruence. subst. auto.
        * intros E. eapply km_trans; eauto.
      + intros E. assert (m' = m1) by congruence. subst. auto.
  Qed.
  Lemma runrules_mark rules : forall st m st' m' n, runrules e flags rs copy writebad b1 exec masq st m rules = Some (st', m', n) -> keepsmark m m'.
  Proof.
    induction rules as [|[c cs] rules IH]; intros st m st' m' n; simpl.
    - intros E. assert (m' = m) by congruence. subst. apply km_refl.
    - destruct (evalfilter e m c) as [v|]; [|discriminate]. cbn [obind]. destruct (v =? -1); [intros E; assert (m' = m) by congruence; subst; apply km_refl|].
      destruct (v =? 1); [|eauto].
      destruct (runcommands e flags rs copy writebad b1 exec masq st m cs) as [[[st1 m1] [|b]]|] eqn:E1; [| |discriminate]; cbn [obind]; apply runcommands_mark in E1.
      + intros E. eapply km_trans; eauto.
      + intros E. assert (m' = m1) by congruence. subst. auto.
  Qed.
  (** two ways to bounce that agree on the messages that can occur *)
  Context (m0 : memmsg) (Hb : forall st m r h, keepsmark m0 m -> b1 st m r h = b2 st m r h).
  Lemma runcommand_ext st m c : keepsmark m0 m ->
    runcommand e flags rs copy writebad b1 exec masq st m c = runcommand e flags rs copy writebad b2 exec masq st m c.
  Proof. intros H. unfold runcommand. destruct c; auto; destruct (ExpandFilter m reason); cbn [obind]; auto; rewrite (Hb st m l _ H); reflexivity. Qed.
  Lemma runcommands_ext cs : forall st m, keepsmark m0 m ->
    runcommands e flags rs copy writebad b1 exec masq st m cs = runcommands e flags rs copy writebad b2 exec masq st m cs.
  Proof.
    induction cs as [|c cs IH]; intros st m H; simpl; auto. rewrite <- (runcommand_ext st m c H).
    destruct (runcommand e flags rs copy writebad b1 exec masq st m c) as [[[st1 m1] ok]|] eqn:E1; auto. cbn [obind].
    apply runcommand_mark in E1. destruct (negb ok); auto. destruct (flag (Flags m1) MMFLAG_KILL); auto. apply IH. eapply km_trans; eauto.
  Qed.
  Lemma runrules_ext rules : forall st m, keepsmark m0 m ->
    runrules e flags rs copy writebad b1 exec masq st m rules = runrules e flags rs copy writebad b2 exec masq st m rules.
  Proof.
    induction rules as [|[c cs] rules IH]; intros st m H; simpl; auto.
    destruct (evalfilter e m c) as [v|]; auto. cbn [obind]. destruct (v =? -1); auto. destruct (v =? 1); auto.
    rewrite <- (runcommands_ext cs st m H).
    destruct (runcommands e flags rs copy writebad b1 exec masq st m cs) as [[[st1 m1] [|b]]|] eqn:E1; auto. cbn [obind].
    apply runcommands_mark in E1. apply IH. eapply km_trans; eauto.
  Qed.
  Lemma Filter_ext rules st m : keepsmark m0 m ->
    Filter e flags rs copy writebad b1 exec masq rules st m = Filter e flags rs copy writebad b2 exec masq rules st m.
  Proof. intros H. unfold Filter. rewrite (runrules_ext rules st m H). reflexivity. Qed.
End FilterRel.
Section FilterInv.
  Context {St : Type} (e : fenv) (flags : Z) (rs : list route)
    (copy writebad : St -> memmsg -> list Z -> option (St * bool))
    (b1 : St -> memmsg -> list Z -> bool -> option (St * bool))
    (exec : memmsg -> list Z -> Z) (nl : nodelist).
  Notation masq := (Filter_Masquerade flags nl).
  Context (m0 : memmsg) (R : St -> St -> Prop) (Rr : forall s, R s s) (Rt : forall a b c, R a b -> R b c -> R a c)
    (Hc : forall st m t st' ok, copy st m t = Some (st', ok) -> R st st')
    (Hw : forall st m r st' ok, writebad st m r = Some (st', ok) -> R st st')
    (Hb : forall st m r h st' ok, keepsmark m0 m -> b1 st m r h = Some (st', ok) -> R st st').
  Lemma runcommand_inv st m c st' m' ok : keepsmark m0 m -> runcommand e flags rs copy writebad b1 exec masq st m c = Some (st', m', ok) -> R st st'.
  Proof.
    intros Hm. unfold runcommand, keep. destruct c.
    - intros E. replace st' with st by congruence. auto.
    - intros E. replace st' with st by congruence. auto.
    - unfold Filter_Copy. destruct (copymsg m) as [m1|]; [|discriminate]. cbn [obind].
      destruct (copy st m1 tag) as [[r b]|] eqn:E1; [|discriminate]. cbn [obind]. intros E. replace st' with r by (cbn in E; congruence). eauto.
    - unfold Filter_Execute. destruct (exec m cmd =? 0); intros E; replace st' with st by congruence; auto.
    - destruct (ExpandFilter m fmt); [|discriminate]. cbn [option_map]. intros E. replace st' with st by congruence. auto.
    - destruct (writebad st m reason) as [[r b]|] eqn:E1; [|discriminate]. cbn [option_map]. intros E. replace st' with r by (cbn in E; congruence). eauto.
    - destruct (ExpandFilter m reason) as [l|]; [|discriminate]. cbn [obind]. destruct (b1 st m l false) as [[r b]|] eqn:E1; [|discriminate]. cbn [option_map]. intros E.
      replace st' with r by (cbn in E; congruence). eauto.
    - destruct (ExpandFilter m reason) as [l|]; [|discriminate]. cbn [obind]. destruct (b1 st m l true) as [[r b]|] eqn:E1; [|discriminate]. cbn [option_map]. intros E.
      replace st' with r by (cbn in E; congruence). eauto.
    - destruct (Filter_Remap _ _ _ _ _ _); [|discriminate]. cbn [option_map]. intros E. replace st' with st by congruence. auto.
    - destruct (masq m name dest); [|discriminate]. cbn [option_map]. intros E. replace st' with st by congruence. auto.
  Qed.
  Lemma runcommands_inv cs : forall st m st' m' n, keepsmark m0 m -> runcommands e flags rs copy writebad b1 exec masq st m cs = Some (st', m', n) -> R st st'.
  Proof.
    induction cs as [|c cs IH]; intros st m st' m' n Hm; simpl.
    - intros E. replace st' with st by congruence. auto.
    - destruct (runcommand e flags rs copy writebad b1 exec masq st m c) as [[[st1 m1] ok]|] eqn:E1; [|discriminate]. cbn [obind].
      pose proof (runcommand_mark _ _ _ _ _ _ _ _ _ _ _ _ _ _ E1) as K. apply runcommand_inv in E1; auto.
      destruct ok; simpl; [destruct (flag (Flags m1) MMFLAG_KILL)|]; intros E; try (replace st' with st1 by congruence; auto).
      eapply Rt; [exact E1|]. eapply IH; [|exact E]. eapply km_trans; eauto.
  Qed.
  Lemma runrules_inv rules : forall st m st' m' n, keepsmark m0 m -> runrules e flags rs copy writebad b1 exec masq st m rules = Some (st', m', n) -> R st st'.
  Proof.
    induction rules as [|[c cs] rules IH]; intros st m st' m' n Hm; simpl.
    - intros E. replace st' with st by congruence. auto.
    - destruct (evalfilter e m c) as [v|]; [|discriminate]. cbn [obind]. destruct (v =? -1); [intros E; replace st' with st by congruence; auto|].
      destruct (v =? 1); [|eauto].
      destruct (runcommands e flags rs copy writebad b1 exec masq st m cs) as [[[st1 m1] [|b]]|] eqn:E1; [| |discriminate]; cbn [obind];
        pose proof (runcommands_mark _ _ _ _ _ _ _ _ _ _ _ _ _ _ E1) as K; apply runcommands_inv in E1; auto.
      + intros E. eapply Rt; [exact E1|]. eapply IH; [|exact E]. eapply km_trans; eauto.
      + intros E. replace st' with st1 by congruence. auto.
  Qed.
End FilterInv.

(** ** Messages created by the program *)
Section Created.
  Context (cfg : ncfg).
  Lemma newmsg_mark dest r to subj attr flags m : newmsg cfg dest r to subj attr flags = Some m ->
    Attr m = attr /\ (flag flags MMFLAG_AUTOGEN = true -> flag (Flags m) MMFLAG_AUTOGEN = true).
  Proof.
    unfold newmsg. destruct (MakeNetmailKludges _ _) as [m1|] eqn:E1; [|discriminate]. cbn [obind]. apply kludges_mark in E1.
    destruct (cflag cfg CFG_ADDTID).
    - intros E. apply addline_mark in E. pose proof (km_trans _ _ _ E1 E) as (A & B). split; [exact A|]. intros H. apply B. exact H.
    - intros E. assert (m = m1) by congruence. subst. destruct E1 as (A & B). split; [exact A|]. intros H. apply B, H.
  Qed.
  Definition agree (Q : memmsg -> Prop) (s1 s2 : list nev -> memmsg -> option (list nev * bool)) : Prop :=
    forall out m, Q m -> s1 out m = s2 out m.
  (** what the functions hand on *)
  Lemma Bounce_sub out mm reason h : exists f : option (option memmsg),
    (forall m, f = Some (Some m) -> marked m) /\ (flag (Flags mm) MMFLAG_AUTOGEN = true -> f = Some None) /\
    forall sub, Bounce cfg sub out mm reason h = match f with None => None | Some None => Some (out, true) | Some (Some m) => sub (out ++ [NvNew m]) m end.
  Proof.
    unfold Bounce. destruct (flag (Flags mm) MMFLAG_AUTOGEN); [exists (Some None); repeat split; auto; discriminate|].
    set (n4d := match Area mm with [] => _ | _ => _ end).
    destruct (findroute _ _ n4d) as [r|]; [|exists (Some None); repeat split; auto; discriminate].
    destruct (newmsg cfg n4d r (From mm) (lit "Bounced message") FLAG_PVT MMFLAG_AUTOGEN) as [m1|] eqn:E1; cbn [obind];
      [|exists None; repeat split; auto; discriminate].
    destruct (Nat.ltb (length reason) 390); [|exists None; repeat split; auto; discriminate].
    destruct (mmAddLines m1 _) as [m2|] eqn:E2; cbn [obind]; [|exists None; repeat split; auto; discriminate].
    destruct (if h then Some (TextChunks m2) else _) as [cs|]; cbn [obind]; [|exists None; repeat split; auto; discriminate].
    exists (Some (Some (set_TextChunks m2 cs))). split; [|split; [discriminate|auto]].
    intros m E. assert (E' : m = set_TextChunks m2 cs) by congruence. subst m. apply newmsg_mark in E1 as (A1 & B1). apply addlines_mark in E2 as (A2 & B2).
    split; cbn.
    - apply B2, B1. reflexivity.
    - unfold asks_nothing. cbn. rewrite A2, A1. auto.
  Qed.
  Lemma Receipt_sub out mm : exists f : option (option memmsg), (forall m, f = Some (Some m) -> asks_nothing m) /\
    forall sub, AnswerReceipt cfg sub out mm = match f with None => None | Some None => Some (out, true) | Some (Some m) => sub (out ++ [NvNew m]) m end.
  Proof.
    unfold AnswerReceipt. destruct (findroute _ _ _) as [r|]; [|exists (Some None); split; [discriminate|auto]].
    destruct (newmsg cfg _ r _ _ _ _) as [m1|] eqn:E1; cbn [obind]; [|exists None; split; [discriminate|auto]].
    destruct (mmAddLine m1 _) as [m2|] eqn:E2; cbn [obind]; [|exists None; split; [discriminate|auto]].
    exists (Some (Some m2)). split; auto. intros m E. assert (m = m2) by congruence. subst m.
    apply newmsg_mark in E1 as (A1 & B1). apply addline_mark in E2 as (A2 & B2). unfold asks_nothing. rewrite A2, A1. auto.
  Qed.
  Lemma Audit_sub out mm : exists f : option (option memmsg), (forall m, f = Some (Some m) -> marked m) /\
    forall sub, AnswerAudit cfg sub out mm = match f with None => None | Some None => Some (out, true) | Some (Some m) => sub (out ++ [NvNew m]) m end.
  Proof.
    unfold AnswerAudit. destruct (findroute _ _ (OrigNode mm)) as [r|]; [|exists (Some None); split; [discriminate|auto]].
    destruct (newmsg cfg _ r _ _ _ _) as [m1|] eqn:E1; cbn [obind]; [|exists None; split; [discriminate|auto]].
    destruct (mmAddLine m1 _) as [m2|] eqn:E2; cbn [obind]; [|exists None; split; [discriminate|auto]].
    exists (Some (Some m2)). split; auto. intros m E. assert (m = m2) by congruence. subst m.
    apply newmsg_mark in E1 as (A1 & B1). apply addline_mark in E2 as (A2 & B2). split; [|unfold asks_nothing; rewrite A2, A1; auto]. apply B2, B1. reflexivity.
  Qed.
  Lemma fixzones_mark m : keepsmark m (fixzones m).
  Proof. unfold fixzones. destruct (zone (DestNode m) =? 0); cbn; destruct (zone _ =? 0); apply km_same; reflexivity. Qed.
  Lemma lastcr_mark m m' : lastcr_add m = Some m' -> keepsmark m m'.
  Proof.
    unfold lastcr_add. assert (K : Some m = Some m' -> keepsmark m m') by (intros E; assert (m' = m) by congruence; subst; apply km_refl).
    destruct (rev (TextChunks m)) as [|c l]; auto. destruct (rev c); auto.
    destruct (_ && _); auto. apply addtext'_mark.
  Qed.
  Lemma prepare_attr m f : In f [FLAG_RREQ; FLAG_AUDIT] -> flag (Attr (prepare cfg m)) f = flag (Attr m) f.
  Proof.
    intros H. unfold prepare, flag. cbn. destruct (negb (Z.land (Flags m) MMFLAG_TOSSED =? 0)); rewrite <- ?Z.land_assoc;
      destruct H as [<-|[<-|[]]]; reflexivity.
  Qed.
  Lemma import_attr a f : In f [FLAG_RREQ; FLAG_AUDIT] -> flag (Z.land (Z.lor a FLAG_SENT) (65535 - FLAG_LOCAL)) f = flag a f.
  Proof.
    intros H. unfold flag. rewrite <- Z.land_assoc. f_equal. f_equal.
    destruct H as [<-|[<-|[]]]; rewrite land_lor_0; reflexivity.
  Qed.

  Lemma replies_ext s1 s2 : agree marked s1 s2 -> forall ms out, Forall marked ms -> replies s1 out ms = replies s2 out ms.
  Proof.
    intros Ha. induction ms as [|m ms IH]; intros out H; simpl; auto. inversion H as [|? ? H1 H2]; subst.
    rewrite (Ha _ m H1). destruct (s2 _ m) as [[o b]|]; auto. cbn [obind fst snd]. destruct b; auto.
  Qed.
  Lemma Bounce_ext s1 s2 out m r h : (flag (Flags m) MMFLAG_AUTOGEN = false -> agree marked s1 s2) ->
    Bounce cfg s1 out m r h = Bounce cfg s2 out m r h.
  Proof.
    intros H. destruct (Bounce_sub out m r h) as (f & F1 & F2 & F3). rewrite !F3.
    destruct (flag (Flags m) MMFLAG_AUTOGEN); [rewrite F2 by auto; reflexivity|]. destruct f as [[m'|]|]; auto. apply H; auto.
  Qed.
  Lemma import_ext s1 s2 out m a : (flag (Attr m) FLAG_RREQ = true -> agree asks_nothing s1 s2) -> import cfg s1 out m a = import cfg s2 out m a.
  Proof.
    intros HR. unfold import. destruct (flag (Flags m) MMFLAG_TWIT); auto. destruct (stripre cfg (Subject m)) as [s|]; auto. cbn [obind].
    destruct (if cflag cfg CFG_IMPORTEMPTYNETMAIL || _ then _ else _) as [[o3 m3]|] eqn:E3; auto. cbn [obind].
    assert (EQ : flag (Attr m3) FLAG_RREQ = flag (Attr m) FLAG_RREQ).
    { destruct (cflag cfg CFG_IMPORTEMPTYNETMAIL || hastext (set_Subject m s)); [destruct (ar_mb (na_area a))|];
        [destruct (stripre cfg (Subject (set_Subject m s))); [|discriminate]; cbn [obind] in E3| |];
        match type of E3 with Some (_, ?x) = Some (_, ?y) => assert (EE : y = x) by congruence; rewrite EE end; cbn;
        [apply import_attr; simpl; auto| |]; reflexivity. }
    rewrite EQ. destruct (flag (Attr m) FLAG_RREQ); auto. cbn [andb]. destruct (cflag cfg CFG_ANSWERRECEIPT); auto.
    destruct (Receipt_sub o3 m3) as (f & F1 & F2). rewrite !F2. destruct f as [[m'|]|]; auto. apply HR; auto.
  Qed.
  Lemma prepare_flags m : Flags (prepare cfg m) = Flags m.
  Proof. unfold prepare. cbn. destruct (flag (Flags m) MMFLAG_TOSSED); reflexivity. Qed.
  Lemma routing_ext s1 s2 out m : (flag (Flags m) MMFLAG_AUTOGEN = false -> agree marked s1 s2) ->
    (flag (Attr m) FLAG_AUDIT = true -> agree marked s1 s2) -> routing cfg s1 out m = routing cfg s2 out m.
  Proof.
    intros HA HD. unfold routing. set (p := prepare cfg m).
    assert (EA : flag (Attr p) FLAG_AUDIT = flag (Attr m) FLAG_AUDIT) by (apply prepare_attr; simpl; auto).
    assert (EF : Flags p = Flags m) by apply prepare_flags. clearbody p.
    destruct (findroute _ _ _) as [r|]; auto. destruct (nexthop cfg r p) as [dest ty].
    destruct (loopcheck cfg _ _) as [o3|]; auto. cbn [obind].
    destruct (bouncereason cfg _) as [reason|].
    - apply Bounce_ext. cbn. rewrite EF. auto.
    - unfold forward. cbn [Attr set_Type Flags Subject Type_]. 
      destruct (if flag (Attr p) FLAG_FILEATTACH then _ else _) as [[m1 o4]|] eqn:E1; auto. cbn [obind].
      assert (K1 : keepsmark p m1).
      { destruct (flag (Attr p) FLAG_FILEATTACH).
        - destruct (attach _ _ _ _ _ _ _ _) as [[sj o5]|]; [|discriminate]. cbn [obind fst snd] in E1.
          assert (m1 = set_Subject (set_Type p ty) sj) by congruence. subst m1. apply km_same; reflexivity.
        - assert (m1 = set_Type p ty) by congruence. subst m1. apply km_same; reflexivity. }
      destruct (mmAddLine m1 _) as [m2|] eqn:E2; auto. cbn [obind]. apply addline_mark in E2. pose proof (km_trans _ _ _ K1 E2) as (K2 & _).
      rewrite K2, EA. destruct (flag (Attr m) FLAG_AUDIT); auto. cbn [andb].
      destruct (cflag cfg CFG_ANSWERAUDIT && _); auto.
      destruct (Audit_sub (o4 ++ [NvSend dest (rt_aka r) (Type_ m2) m2]) m2) as (f & F1 & F2). rewrite !F2. destruct f as [[m'|]|]; auto. apply HD; auto.
  Qed.
  Context (Haf : areafix_marks cfg).
  (** the result depends on the handler of created messages only as far as this message can
      cause any *)
  Lemma obind_ext2 {A B} (o o' : option A) (f g : A -> option B) : o = o' -> (forall x, o = Some x -> f x = g x) -> obind o f = obind o' g.
  Proof. intros <- H. destruct o; [apply H; reflexivity|reflexivity]. Qed.
  Lemma handle_ext s1 s2 out mm :
    (flag (Flags mm) MMFLAG_AUTOGEN = false -> agree marked s1 s2) ->
    (flag (Attr mm) FLAG_RREQ = true -> agree asks_nothing s1 s2) ->
    (flag (Attr mm) FLAG_AUDIT = true -> agree marked s1 s2) ->
    HandleNetmail1 cfg s1 out mm = HandleNetmail1 cfg s2 out mm.
  Proof.
    intros HA HR HD. unfold HandleNetmail1.
    apply obind_ext2; [reflexivity|]. intros m1 E1.
    assert (K1 : keepsmark mm m1) by (eapply km_trans; [apply fixzones_mark|apply lastcr_mark; auto]).
    assert (HA' : forall m, keepsmark mm m -> flag (Flags m) MMFLAG_AUTOGEN = false -> agree marked s1 s2).
    { intros m (_ & Hm) H. apply HA. destruct (flag (Flags mm) MMFLAG_AUTOGEN); auto. rewrite Hm in H; auto. }
    apply obind_ext2.
    { apply (Filter_ext (filterenv cfg) (nc_flags cfg) (nc_routes cfg) _ _ (Bounce cfg s1) (Bounce cfg s2) (nc_exec cfg) (nlist cfg) mm
        (fun st m r h Hm => Bounce_ext s1 s2 st m r h (HA' m Hm)) _ _ _ K1). }
    intros [[out2 m2] ok] E2. unfold runfilter in E2.
    assert (K2 : keepsmark mm m2).
    { unfold Filter in E2. destruct (runrules _ _ _ _ _ _ _ _ _ _ _) as [[[st' m'] n]|] eqn:ER; [|discriminate]. cbn [obind] in E2.
      assert (m2 = m') by (cbn in E2; congruence). subst m'. apply runrules_mark in ER. eapply km_trans; eauto. }
    pose proof K2 as (KA & KF).
    destruct (negb ok); [reflexivity|]. destruct (flag (Flags m2) MMFLAG_KILL); [reflexivity|].
    assert (HX : forall o, match importarea cfg (DestNode m2) with Some a => import cfg s1 o m2 a | None => routing cfg s1 o m2 end =
                           match importarea cfg (DestNode m2) with Some a => import cfg s2 o m2 a | None => routing cfg s2 o m2 end).
    { intros o. destruct (importarea cfg (DestNode m2)).
      - apply import_ext. rewrite KA. auto.
      - apply routing_ext; [apply HA'; auto|]. rewrite KA. auto. }
    destruct (isaka cfg (DestNode m2) && negb (flag (Flags m2) MMFLAG_AUTOGEN) && _) eqn:EF.
    - assert (flag (Flags m2) MMFLAG_AUTOGEN = false) as Hna.
      { destruct (flag (Flags m2) MMFLAG_AUTOGEN); auto. rewrite andb_false_r in EF. discriminate. }
      rewrite (replies_ext s1 s2 (HA' m2 K2 Hna) _ _ (Haf m2)). destruct (replies s2 out2 _) as [[o b]|]; [|reflexivity]. cbn [obind fst snd].
      destruct (negb (b && _)); [reflexivity|apply HX].
    - cbn [obind negb]. apply HX.
  Qed.
  Lemma handle_marked s1 s2 out mm : marked mm -> HandleNetmail1 cfg s1 out mm = HandleNetmail1 cfg s2 out mm.
  Proof. intros (H1 & H2 & H3). apply handle_ext; intros; congruence. Qed.
  Lemma handle_quiet s1 s2 out mm : asks_nothing mm -> agree marked s1 s2 -> HandleNetmail1 cfg s1 out mm = HandleNetmail1 cfg s2 out mm.
  Proof. intros (H2 & H3) H. apply handle_ext; intros; auto; congruence. Qed.
  Lemma handle_any s1 s2 out mm : agree asks_nothing s1 s2 -> HandleNetmail1 cfg s1 out mm = HandleNetmail1 cfg s2 out mm.
  Proof.
    intros H. assert (agree marked s1 s2) by (intros o m (_ & Hm); apply H; auto). apply handle_ext; auto.
  Qed.
  Lemma depth3 s1 s2 out mm : HandleNetmail1 cfg (HandleNetmail1 cfg (HandleNetmail1 cfg s1)) out mm = HandleNetmail1 cfg (HandleNetmail1 cfg (HandleNetmail1 cfg s2)) out mm.
  Proof. apply handle_any. intros o m Hm. apply handle_quiet; auto. intros o' m' Hm'. apply handle_marked; auto. Qed.
End Created.

(** ** The events only grow *)
Section Events.
  Context (cfg : ncfg) (A : nev -> Prop) (HA : forall e, ~ created e -> A e).
  Definition grows (o o' : list nev) : Prop := exists evs, o' = o ++ evs /\ Forall A evs.
  Lemma gr_refl o : grows o o.
  Proof. exists []. rewrite app_nil_r. auto. Qed.
  Lemma gr_trans a b c : grows a b -> grows b c -> grows a c.
  Proof. intros (x & -> & Hx) (y & -> & Hy). exists (x ++ y). rewrite app_assoc. split; auto. apply Forall_app; auto. Qed.
  Lemma gr_app o l : Forall A l -> grows o (o ++ l).
  Proof. intros H. exists l. auto. Qed.
  Lemma gr_one o e : ~ created e -> grows o (o ++ [e]).
  Proof. intros H. apply gr_app. constructor; auto. Qed.
  Lemma writebad_grows o m r : grows o (writebad cfg o m r).
  Proof.
    apply gr_app. unfold WriteBad. destruct (find _ _) as [a|]; [|constructor]. destruct (ar_mb a); [|constructor].
    constructor; [|constructor]. apply HA. intros (x & E). discriminate.
  Qed.
  Context (s : list nev -> memmsg -> option (list nev * bool))
    (Hs : forall o m o' b, marked m \/ asks_nothing m -> s (o ++ [NvNew m]) m = Some (o', b) -> grows o o').
  Lemma Bounce_grows o m r h o' b : Bounce cfg s o m r h = Some (o', b) -> grows o o'.
  Proof.
    destruct (Bounce_sub cfg o m r h) as (f & F1 & F2 & F3). rewrite F3. destruct f as [[m'|]|]; [| |discriminate].
    - apply Hs. left; auto.
    - intros E. replace o' with o by congruence. apply gr_refl.
  Qed.
  Lemma attach_grows fuel ex dest ty : forall t subj o x, attach cfg fuel ex dest ty t subj o = Some x -> grows o (snd x).
  Proof.
    induction fuel as [|f IH]; intros t subj o x; cbn [attach]; [discriminate|].
    destruct (jbstrcpy (repeat 0 400) t 80) as [[[b|] ok] rest]; [|discriminate].
    destruct ok; [|intros E; replace x with (subj, o) by congruence; apply gr_refl].
    destruct (if ex then _ else _) as [o1|] eqn:E1; [|discriminate]. cbn [obind].
    assert (G : grows o o1).
    { destruct ex.
      - destruct (nc_exists cfg (cstr b)).
        + destruct (fullpath _ _); [|discriminate]. cbn [obind] in E1. match type of E1 with Some ?z = _ => replace o1 with z by congruence end.
          apply gr_app. constructor; [|constructor; [|constructor]]; apply HA; intros (y & E); discriminate.
        + match type of E1 with Some ?z = _ => replace o1 with z by congruence end. apply gr_one. intros (y & E); discriminate.
      - destruct (fullpath (nc_inbound cfg) _); [|discriminate]. cbn [obind] in E1. destruct (fullpath (nc_packetdir cfg) _); [|discriminate]. cbn [obind] in E1.
        destruct (nc_moves cfg l); match type of E1 with Some ?z = _ => replace o1 with z by congruence end.
        + apply gr_app. constructor; [|constructor; [|constructor]]; apply HA; intros (y & E); discriminate.
        + apply gr_one. intros (y & E); discriminate. }
    intros E. apply IH in E. eapply gr_trans; eauto.
  Qed.
  Lemma replies_grows : forall ms o o' b, Forall marked ms -> replies s o ms = Some (o', b) -> grows o o'.
  Proof.
    induction ms as [|m ms IH]; intros o o' b Hm; simpl.
    - intros E. replace o' with o by congruence. apply gr_refl.
    - inversion Hm as [|? ? H1 H2]; subst. destruct (s (o ++ [NvNew m]) m) as [[o1 b1]|] eqn:E1; [|discriminate]. cbn [obind fst snd].
      apply Hs in E1; [|auto]. destruct b1.
      + intros E. eapply gr_trans; eauto.
      + intros E. replace o' with o1 by congruence. auto.
  Qed.
  Lemma import_grows o m a o' b : import cfg s o m a = Some (o', b) -> grows o o'.
  Proof.
    unfold import. destruct (flag (Flags m) MMFLAG_TWIT); [intros E; replace o' with o by congruence; apply gr_refl|].
    destruct (stripre cfg (Subject m)) as [sj|]; [|discriminate]. cbn [obind].
    destruct (if cflag cfg CFG_IMPORTEMPTYNETMAIL || _ then _ else _) as [[o3 m3]|] eqn:E3; [|discriminate]. cbn [obind].
    assert (G : grows o o3).
    { destruct (cflag cfg CFG_IMPORTEMPTYNETMAIL || hastext (set_Subject m sj)); [destruct (ar_mb (na_area a))|];
        [destruct (stripre cfg (Subject (set_Subject m sj))); [|discriminate]; cbn [obind] in E3| |];
        match type of E3 with Some (?x, _) = Some (?y, _) => assert (EE : y = x) by congruence; rewrite EE end;
        [apply gr_one; intros (y & E); discriminate|apply gr_refl|apply gr_refl]. }
    destruct (_ && cflag cfg CFG_ANSWERRECEIPT); [|intros E; replace o' with o3 by congruence; auto].
    destruct (Receipt_sub cfg o3 m3) as (f & F1 & F2). rewrite F2. destruct f as [[m'|]|]; [| |discriminate].
    - intros E. apply Hs in E; [eapply gr_trans; eauto|right; auto].
    - intros E. replace o' with o3 by congruence. auto.
  Qed.
  Lemma routing_grows o m o' b : routing cfg s o m = Some (o', b) -> grows o o'.
  Proof.
    unfold routing. set (p := prepare cfg m). clearbody p.
    destruct (findroute _ _ _) as [r|]; [|intros E; match type of E with Some (?z, _) = _ => replace o' with z by congruence end; apply writebad_grows].
    destruct (nexthop cfg r p) as [dest ty].
    destruct (loopcheck cfg _ _) as [o3|] eqn:E3; [|discriminate]. cbn [obind].
    assert (G : grows o o3).
    { unfold loopcheck in E3. destruct (_ && _).
      - destruct (loopcopy _); [|discriminate]. cbn [obind] in E3. match type of E3 with Some ?z = _ => replace o3 with z by congruence end. apply writebad_grows.
      - replace o3 with o by congruence. apply gr_refl. }
    destruct (bouncereason cfg _) as [reason|]; [intros E; apply Bounce_grows in E; eapply gr_trans; eauto|].
    unfold forward. destruct (if flag (Attr (set_Type p ty)) FLAG_FILEATTACH then _ else _) as [[m1 o4]|] eqn:E1; [|discriminate]. cbn [obind].
    assert (G4 : grows o3 o4).
    { destruct (flag (Attr (set_Type p ty)) FLAG_FILEATTACH).
      - destruct (attach _ _ _ _ _ _ _ _) as [x|] eqn:EX; [|discriminate]. apply attach_grows in EX. cbn [obind] in E1. replace o4 with (snd x) by congruence. auto.
      - replace o4 with o3 by congruence. apply gr_refl. }
    destruct (mmAddLine m1 _) as [m2|]; [|discriminate]. cbn [obind].
    assert (G5 : grows o (o4 ++ [NvSend dest (rt_aka r) (Type_ m2) m2])).
    { eapply gr_trans; [exact G|]. eapply gr_trans; [exact G4|]. apply gr_one. intros (y & E); discriminate. }
    destruct (_ && flag (Flags m2) MMFLAG_TOSSED); [|intros E; match type of E with Some (?z, _) = _ => replace o' with z by congruence end; auto].
    destruct (Audit_sub cfg (o4 ++ [NvSend dest (rt_aka r) (Type_ m2) m2]) m2) as (f & F1 & F2). rewrite F2. destruct f as [[m'|]|]; [| |discriminate].
    - intros E. apply Hs in E; [eapply gr_trans; eauto|left; auto].
    - intros E. match type of E with Some (?z, _) = _ => replace o' with z by congruence end. auto.
  Qed.
  Context (Haf : areafix_marks cfg).
  Lemma handle_grows o m o' b : HandleNetmail1 cfg s o m = Some (o', b) -> grows o o'.
  Proof.
    unfold HandleNetmail1. destruct (lastcr_add (fixzones m)) as [m1|] eqn:E1; [|discriminate]. cbn [obind].
    destruct (runfilter cfg s o m1) as [[[o2 m2] ok]|] eqn:E2; [|discriminate]. cbn [obind].
    assert (G : grows o o2).
    { unfold runfilter, Filter in E2. destruct (runrules _ _ _ _ _ _ _ _ _ _ _) as [[[st' m'] n]|] eqn:ER; [|discriminate]. cbn [obind] in E2.
      replace o2 with st' by (cbn in E2; congruence). eapply (runrules_inv _ _ _ _ _ _ _ _ m1 grows gr_refl gr_trans); [| | |apply km_refl|exact ER].
      - intros st mx t st'' okx E. cbv beta in E. match type of E with Some (?z, _) = _ => replace st'' with z by congruence end. apply gr_one. intros (y & Ey); discriminate.
      - intros st mx t st'' okx E. cbv beta in E. match type of E with Some (?z, _) = _ => replace st'' with z by congruence end. apply writebad_grows.
      - intros st mx r h st'' okx _. apply Bounce_grows. }
    destruct (negb ok); [intros E; replace o' with o2 by congruence; auto|].
    destruct (flag (Flags m2) MMFLAG_KILL); [intros E; replace o' with o2 by congruence; auto|].
    destruct (_ && existsb _ _).
    - destruct (replies s o2 _) as [[o3 b3]|] eqn:E3; [|discriminate]. cbn [obind fst snd]. apply replies_grows in E3; [|apply Haf].
      assert (G3 : grows o o3) by (eapply gr_trans; eauto).
      destruct (negb _); [intros E; replace o' with o3 by congruence; auto|].
      destruct (importarea _ _); intros E; [apply import_grows in E|apply routing_grows in E]; eapply gr_trans; eauto.
    - cbn [obind negb]. destruct (importarea _ _); intros E; [apply import_grows in E|apply routing_grows in E]; eapply gr_trans; eauto.
  Qed.
End Events.

(** ** Routing *)
Lemma findroute_some nl rs d r : nl_ok nl -> valid4d d -> (findroute nl rs d = Some r <-> first_route nl rs d r).
Proof.
  intros Hn Hd. unfold findroute, first_route. induction rs as [|x rs IH]; simpl.
  - split; [discriminate|]. intros ([|] & l2 & E & _); discriminate.
  - pose proof (Compare4DPat_spec nl (rt_pat x) d Hn Hd) as Hx. destruct (Z.eqb_spec (Compare4DPat nl (rt_pat x) d) 0) as [E|E].
    + split.
      * intros E1. assert (r = x) by congruence. subst. exists [], rs. repeat split; auto. apply Hx, E.
      * intros (l1 & l2 & E1 & Hm & Hl). destruct l1 as [|y l1]; [simpl in E1; congruence|]. inversion E1; subst. inversion Hl; subst. exfalso. tauto.
    + rewrite IH. split.
      * intros (l1 & l2 & E1 & Hm & Hl). exists (x :: l1), l2. rewrite E1. repeat split; auto. constructor; auto. tauto.
      * intros (l1 & l2 & E1 & Hm & Hl). destruct l1 as [|y l1]; simpl in E1; inversion E1; subst; [exfalso; tauto|]. inversion Hl; subst. eauto.
Qed.
Lemma findroute_none nl rs d : nl_ok nl -> valid4d d -> (findroute nl rs d = None <-> no_route nl rs d).
Proof.
  intros Hn Hd. unfold findroute, no_route. induction rs as [|x rs IH]; simpl.
  - split; auto.
  - pose proof (Compare4DPat_spec nl (rt_pat x) d Hn Hd) as Hx. destruct (Z.eqb_spec (Compare4DPat nl (rt_pat x) d) 0) as [E|E].
    + split; [discriminate|]. intros H. inversion H; subst. exfalso. tauto.
    + rewrite IH. split; intros H; [constructor; tauto|inversion H; auto].
Qed.
Lemma changes_applies nl d p c : nl_ok nl -> valid4d d -> p <> PKTS_ECHOMAIL ->
  ((Compare4DPat nl (ch_pat c) d =? 0) && changes p c = true <-> change_applies nl d p c).
Proof.
  intros Hn Hd Hp. rewrite andb_true_iff, Z.eqb_eq, (Compare4DPat_spec nl (ch_pat c) d Hn Hd). unfold change_applies, changes.
  destruct (Z.eqb_spec p PKTS_ECHOMAIL); [congruence|]. rewrite !orb_true_iff, !andb_true_iff, !Z.eqb_eq. intuition discriminate.
Qed.
Lemma ChangeType_spec nl cs d p : nl_ok nl -> valid4d d -> p <> PKTS_ECHOMAIL -> changed nl cs d p (ChangeType nl cs d p).
Proof.
  intros Hn Hd Hp. unfold ChangeType, changed.
  induction cs as [|c cs IH] using rev_ind; simpl; [right; auto|].
  rewrite fold_left_app. cbn [fold_left].
  pose proof (changes_applies nl d p c Hn Hd Hp) as Hc. destruct ((Compare4DPat nl (ch_pat c) d =? 0) && changes p c).
  - left. exists cs, c, []. repeat split; auto; [apply Hc; auto|apply Hc; auto|]. destruct (Z.eqb_spec p PKTS_ECHOMAIL); [congruence|]. reflexivity.
  - assert (~ change_applies nl d p c) by (rewrite <- Hc; discriminate).
    destruct IH as [(l1 & x & l2 & E & Hx & Hl & Ep)|[Hl Ep]].
    + left. exists l1, x, (l2 ++ [c]). split; [|split; [auto|split]].
      * rewrite E, <- app_assoc. reflexivity.
      * apply Forall_app. auto.
      * rewrite Ep. reflexivity.
    + right. split; [apply Forall_app; auto|]. rewrite Ep. reflexivity.
Qed.
Lemma prepare_attr2 cfg m f : In f [FLAG_FILEATTACH; FLAG_PVT; FLAG_RREQ; FLAG_IRRR; FLAG_AUDIT] -> flag (Attr (prepare cfg m)) f = flag (Attr m) f.
Proof.
  intros H. unfold prepare, flag. cbn. destruct (negb (Z.land (Flags m) MMFLAG_TOSSED =? 0)); rewrite <- ?Z.land_assoc;
    destruct H as [<-|[<-|[<-|[<-|[<-|[]]]]]]; reflexivity.
Qed.
Lemma land_flag a b f : Z.land b f = f -> flag (Z.land a b) f = flag a f.
Proof. unfold flag. intros H. rewrite <- Z.land_assoc, H. reflexivity. Qed.
Lemma land_flag0 a b f : Z.land b f = 0 -> flag (Z.land a b) f = false.
Proof. unfold flag. intros H. rewrite <- Z.land_assoc, H, Z.land_0_r. reflexivity. Qed.
Lemma prepare_priority cfg m : priority cfg m (Type_ (prepare cfg m)).
Proof.
  unfold prepare. cbn [Type_ set_Type].
  destruct (flag (Flags m) MMFLAG_TOSSED) eqn:ET.
  - rewrite !(land_flag0 _ _ FLAG_CRASH), !(land_flag0 _ _ FLAG_HOLD), !(land_flag _ _ FLAG_FILEATTACH) by reflexivity.
    cbv iota. change (PKTS_NORMAL =? PKTS_NORMAL) with true. rewrite andb_true_r.
    destruct (flag (Attr m) FLAG_FILEATTACH) eqn:EF, (cflag cfg CFG_NODIRECTATTACH) eqn:EN; simpl; [apply pr_normal|apply pr_direct|apply pr_normal|apply pr_normal]; auto.
  - rewrite !(land_flag _ _ FLAG_CRASH), !(land_flag _ _ FLAG_HOLD), !(land_flag _ _ FLAG_FILEATTACH) by reflexivity.
    destruct (flag (Attr m) FLAG_HOLD) eqn:EH.
    + change (PKTS_HOLD =? PKTS_NORMAL) with false. rewrite andb_false_r. apply pr_hold; auto.
    + destruct (flag (Attr m) FLAG_CRASH) eqn:EC.
      * change (PKTS_CRASH =? PKTS_NORMAL) with false. rewrite andb_false_r. apply pr_crash; auto.
      * change (PKTS_NORMAL =? PKTS_NORMAL) with true. rewrite andb_true_r.
        destruct (flag (Attr m) FLAG_FILEATTACH) eqn:EF, (cflag cfg CFG_NODIRECTATTACH) eqn:EN; simpl; [apply pr_normal|apply pr_direct|apply pr_normal|apply pr_normal]; auto.
Qed.
Lemma priority_noecho cfg m p : priority cfg m p -> p <> PKTS_ECHOMAIL.
Proof. destruct 1; discriminate. Qed.
Lemma priority_fun cfg m p q : priority cfg m p -> priority cfg m q -> p = q.
Proof. intros H1 H2. destruct H1, H2; intuition congruence. Qed.
Lemma isaka_spec cfg d : isaka cfg d = true <-> own_address cfg d.
Proof.
  unfold isaka, own_address. rewrite existsb_exists. split; intros (a & H1 & H2); exists a; split; auto.
  - rewrite compare_same in H2. apply sameaddrb_spec, H2.
  - rewrite compare_same. apply sameaddrb_spec, H2.
Qed.
Lemma keeps_spec a d : isnetmail a && ((Compare4D (ak_node (ar_aka (na_area a))) d =? 0) || existsb (fun n => Compare4D n d =? 0) (na_import a)) = true <-> keeps_for a d.
Proof.
  unfold isnetmail, keeps_for. rewrite andb_true_iff, orb_true_iff, Z.eqb_eq, compare_same, sameaddrb_spec, existsb_exists.
  assert (H : (exists x, In x (na_import a) /\ (Compare4D x d =? 0) = true) <-> exists n, In n (na_import a) /\ sameaddr n d).
  { split; intros (x & H1 & H2); exists x; split; auto; [rewrite compare_same in H2; apply sameaddrb_spec; auto|rewrite compare_same; apply sameaddrb_spec; auto]. }
  rewrite H. reflexivity.
Qed.
Lemma importarea_elsewhere cfg d : elsewhere cfg d -> importarea cfg d = None.
Proof.
  intros (H1 & H2 & H3). unfold importarea. destruct (find _ (nc_areas cfg)) as [a|] eqn:E.
  - apply find_some in E as [Hin E]. apply keeps_spec in E. exfalso. eapply H3; eauto.
  - rewrite H2. destruct (isaka cfg d) eqn:Ea; auto. apply isaka_spec in Ea. tauto.
Qed.
Lemma patlist_spec cfg l n : nl_ok (nlist cfg) -> valid4d n -> (patlist cfg l n = true <-> exists p, In p l /\ patmatch (nlist cfg) p n).
Proof.
  intros Hn Hv. unfold patlist. rewrite existsb_exists. split; intros (p & H1 & H2); exists p; split; auto.
  - apply Z.eqb_eq in H2. apply (Compare4DPat_spec _ p n Hn Hv), H2.
  - apply Z.eqb_eq, (Compare4DPat_spec _ p n Hn Hv), H2.
Qed.
Lemma existsb_addr {A} (g : A -> node4d) (q : A -> bool) l b :
  existsb (fun a => (Compare4D (g a) b =? 0) && q a) l = true <-> exists a, In a l /\ sameaddr (g a) b /\ q a = true.
Proof.
  rewrite existsb_exists. split; intros (a & H1 & H2); exists a; split; auto.
  - apply andb_true_iff in H2 as [H2 H3]. rewrite compare_same in H2. split; [apply sameaddrb_spec, H2|auto].
  - destruct H2 as [H2 H3]. rewrite compare_same. apply andb_true_iff. split; [apply sameaddrb_spec, H2|auto].
Qed.
Lemma existsb_addr1 {A} (g : A -> node4d) l b :
  existsb (fun a => Compare4D (g a) b =? 0) l = true <-> exists a, In a l /\ sameaddr (g a) b.
Proof.
  rewrite existsb_exists. split; intros (a & H1 & H2); exists a; split; auto.
  - rewrite compare_same in H2. apply sameaddrb_spec, H2.
  - rewrite compare_same. apply sameaddrb_spec, H2.
Qed.
Lemma bouncereason_spec cfg m : nl_ok (nlist cfg) -> valid4d (DestNode m) -> (bouncereason cfg m = None <-> ~ must_bounce cfg m).
Proof.
  intros Hn Hv. unfold bouncereason, must_bounce.
  assert (S0 : set_point (DestNode m) 0 = boss (DestNode m)) by reflexivity. rewrite S0.
  assert (U : nl_has (nc_nl cfg) && patlist cfg (nc_bounce cfg) (DestNode m) && (nl_check (nc_nl cfg) (boss (DestNode m)) =? 0) = true <-> unlisted cfg (DestNode m)).
  { rewrite !andb_true_iff, Z.eqb_eq, (patlist_spec cfg _ _ Hn Hv). unfold unlisted. tauto. }
  destruct (nl_has _ && _ && _); [split; [discriminate|intros H; exfalso; apply H; left; apply U; auto]|].
  assert (P : cflag cfg CFG_BOUNCEPOINTS && existsb (fun a => (Compare4D (ak_node a) (boss (DestNode m)) =? 0) && (point (ak_node a) =? 0)) (nc_akas cfg) &&
     negb (existsb (fun c => Compare4D (cn_node c) (DestNode m) =? 0) (nc_nodes cfg)) = true <-> unknown_point cfg (DestNode m)).
  { rewrite !andb_true_iff, negb_true_iff, existsb_addr. unfold unknown_point. split.
    - intros ((H1 & (a & H2 & H3 & H4)) & H5). split; [auto|]. split; [exists a; repeat split; auto; try apply H3; apply Z.eqb_eq, H4|].
      intros c Hc Hs. assert (existsb (fun c => Compare4D (cn_node c) (DestNode m) =? 0) (nc_nodes cfg) = true); [|congruence].
      apply existsb_addr1. eauto.
    - intros (H1 & (a & H2 & H3 & H4) & H5). split; [split; [auto|]|].
      + exists a. repeat split; auto; try apply H3. apply Z.eqb_eq, H4.
      + destruct (existsb (fun c => Compare4D (cn_node c) (DestNode m) =? 0) (nc_nodes cfg)) eqn:E; auto.
        apply existsb_addr1 in E as (c & Hc & Hs). exfalso. eapply H5; eauto. }
  destruct (cflag cfg CFG_BOUNCEPOINTS && _ && _); [split; [discriminate|intros H; exfalso; apply H; right; left; apply P; auto]|].
  assert (F : flag (Attr m) FLAG_FILEATTACH && negb (flag (Flags m) MMFLAG_EXPORTED) && negb (patlist cfg (nc_attach cfg) (DestNode m)) = true <-> attach_forbidden cfg m).
  { rewrite !andb_true_iff, !negb_true_iff. unfold attach_forbidden. pose proof (patlist_spec cfg (nc_attach cfg) _ Hn Hv) as HP. split.
    - intros ((H1 & H2) & H3). repeat split; auto. intros p Hp Hm. assert (patlist cfg (nc_attach cfg) (DestNode m) = true) by (apply HP; eauto). congruence.
    - intros (H1 & H2 & H3). repeat split; auto. destruct (patlist _ _ _); auto. destruct (proj1 HP eq_refl) as (p & Hp & Hm). exfalso. eapply H3; eauto. }
  destruct (flag _ _ && _ && _); [split; [discriminate|intros H; exfalso; apply H; right; right; apply F; auto]|].
  split; auto. intros _ [H|[H|H]]; [apply U in H|apply P in H|apply F in H]; discriminate.
Qed.

Lemma addlines_ok ls : forall cs, chunks_ok cs -> exists cs', M_Filter.addlines cs ls = Some cs' /\ chunks_ok cs' /\ concat (rev cs') = concat (rev cs) ++ concat ls.
Proof.
  induction ls as [|l ls IH]; intros cs H; simpl.
  - exists cs. rewrite app_nil_r. auto.
  - destruct (mmAddBuf_spec cs l H) as (c1 & E1 & T1 & H1). rewrite E1. cbn [obind]. destruct (IH c1 H1) as (c2 & E2 & H2 & T2).
    exists c2. rewrite T2, T1, app_assoc. auto.
Qed.
Lemma bad_events_ofev areas m evs : bad_events areas m evs -> concat (map ofev evs) = [] \/ exists b x, In b areas /\ ar_type b = AREATYPE_BAD /\ kept m x /\ concat (map ofev evs) = [NvImport (ar_tag b) x].
Proof.
  intros [->|(b & x & H1 & H2 & -> & H3)]; [left; reflexivity|]. right. exists b, x. auto.
Qed.
Lemma kludge_via m t : ProcessKludge m (SOH ++ lit "Via " ++ t) = Some m.
Proof.
  unfold ProcessKludge, pk_rescanned, pk_msgid, pk_reply.
  change (prefixb (SOH ++ lit "RESCANNED") (SOH ++ lit "Via " ++ t)) with false.
  change (prefixb (SOH ++ lit "MSGID:") (SOH ++ lit "Via " ++ t)) with false.
  change (prefixb (SOH ++ lit "REPLY:") (SOH ++ lit "Via " ++ t)) with false. cbv iota. cbn [obind].
  unfold pk_fmpt, pk_topt, pk_intl.
  change (prefixb (SOH ++ lit "FMPT") (SOH ++ lit "Via " ++ t)) with false.
  change (prefixb (SOH ++ lit "TOPT") (SOH ++ lit "Via " ++ t)) with false.
  change (prefixb (SOH ++ lit "INTL") (SOH ++ lit "Via " ++ t)) with false. cbv iota. cbn [obind]. destruct (Area m); reflexivity.
Qed.
Lemma via_line m t : Area m = [] -> chunks_ok (TextChunks m) -> exists cs, mmAddLine m (SOH ++ lit "Via " ++ t) = Some (set_TextChunks m cs) /\ chunks_ok cs /\ concat (rev cs) = mmtext m ++ SOH ++ lit "Via " ++ t.
Proof. intros Ha Hc. apply (netline_kludge m (lit "Via " ++ t) m Ha Hc). apply kludge_via. Qed.
Lemma lastcr_spec m : chunks_ok (TextChunks m) -> exists cs, lastcr_add m = Some (set_TextChunks m cs) /\ chunks_ok cs /\
  (concat (rev cs) = mmtext m \/ concat (rev cs) = mmtext m ++ [13]) /\ ((length (TextChunks m) <= 1)%nat -> concat (rev cs) = with_cr (mmtext m)).
Proof.
  intros H. unfold lastcr_add, with_cr, addtext, mmtext.
  assert (I : set_TextChunks m (TextChunks m) = m) by (destruct m; reflexivity).
  destruct (rev (TextChunks m)) as [|c l] eqn:ER.
  - exists (TextChunks m). rewrite I, ER. cbn. auto.
  - destruct (rev c) as [|x r] eqn:EC.
    + exists (TextChunks m). rewrite I, ER. split; [reflexivity|]. split; [auto|]. split; [auto|]. intros Hl.
      rewrite <- (rev_length (TextChunks m)), ER in Hl. destruct l; [|simpl in Hl; lia]. cbn [concat]. rewrite app_nil_r, EC. reflexivity.
    + destruct (negb (x =? 13) && negb (x =? 0)) eqn:Ex.
      * destruct (mmAddBuf_spec (TextChunks m) [13] H) as (cs & E & T & Hc). rewrite E, ER in *. exists cs. split; [reflexivity|]. split; [auto|]. split; [auto|].
        intros Hl. rewrite <- (rev_length (TextChunks m)), ER in Hl. destruct l; [|simpl in Hl; lia]. rewrite T. cbn [concat]. rewrite app_nil_r, EC.
        destruct (x =? 13), (x =? 0); try discriminate. reflexivity.
      * exists (TextChunks m). rewrite I, ER. split; [reflexivity|]. split; [auto|]. split; [auto|]. intros Hl.
        rewrite <- (rev_length (TextChunks m)), ER in Hl. destruct l; [|simpl in Hl; lia]. cbn [concat]. rewrite app_nil_r, EC.
        destruct (x =? 13), (x =? 0); try discriminate; reflexivity.
Qed.
Lemma fixzones_id m : zone (DestNode m) <> 0 -> zone (OrigNode m) <> 0 -> fixzones m = m.
Proof. intros H1 H2. unfold fixzones. apply Z.eqb_neq in H1, H2. rewrite H1. cbn. rewrite H2. reflexivity. Qed.
Lemma chunks_ok_10000 cs : Forall (fun c => Z.of_nat (length c) <= 10000) cs -> chunks_ok cs.
Proof. intros H. eapply Forall_impl; [|exact H]. intros c Hc. cbv beta in Hc. unfold CHUNKLEN. lia. Qed.

Lemma kludge_tid m t : ProcessKludge m (SOH ++ lit "TID: " ++ t) = Some m.
Proof.
  unfold ProcessKludge, pk_rescanned, pk_msgid, pk_reply.
  change (prefixb (SOH ++ lit "RESCANNED") (SOH ++ lit "TID: " ++ t)) with false.
  change (prefixb (SOH ++ lit "MSGID:") (SOH ++ lit "TID: " ++ t)) with false.
  change (prefixb (SOH ++ lit "REPLY:") (SOH ++ lit "TID: " ++ t)) with false. cbv iota. cbn [obind].
  unfold pk_fmpt, pk_topt, pk_intl.
  change (prefixb (SOH ++ lit "FMPT") (SOH ++ lit "TID: " ++ t)) with false.
  change (prefixb (SOH ++ lit "TOPT") (SOH ++ lit "TID: " ++ t)) with false.
  change (prefixb (SOH ++ lit "INTL") (SOH ++ lit "TID: " ++ t)) with false. cbv iota. cbn [obind]. destruct (Area m); reflexivity.
Qed.
(** only the text differs *)
Definition sametop (m m' : memmsg) : Prop := exists cs, chunks_ok cs /\ m' = set_TextChunks m cs.
Lemma newmsg_spec cfg dest r to subj attr flags : cfg_sane cfg ->
  exists m cs, newmsg cfg dest r to subj attr flags = Some m /\ chunks_ok cs /\
    m = set_TextChunks (set_Flags (set_DateTime (set_Attr (set_Subject (set_From (set_To (set_DestNode (set_OrigNode mm0 (ak_node (rt_aka r))) dest) to) (nc_sysop cfg)) subj) attr) (nc_now cfg)) flags) cs.
Proof.
  intros (_ & _ & (t & Ht) & _). unfold newmsg. set (m0 := set_Flags _ _).
  destruct (MakeNetmailKludges_spec (nc_flags cfg) m0) as (cs & E & Hcs & _); [constructor|]. rewrite E. cbn [obind].
  destruct (cflag cfg CFG_ADDTID); [|exists (set_TextChunks m0 cs), cs; auto].
  rewrite Ht. destruct (netline_kludge (set_TextChunks m0 cs) (lit "TID: " ++ t) (set_TextChunks m0 cs) eq_refl Hcs (kludge_tid _ t)) as (cs2 & E2 & Hc2 & _).
  exists (set_TextChunks (set_TextChunks m0 cs) cs2), cs2. split; [exact E2|]. auto.
Qed.
Lemma textline_spec m l : Area m = [] -> chunks_ok (TextChunks m) -> (forall r, l <> 1 :: r) ->
  exists cs, mmAddLine m l = Some (set_TextChunks m cs) /\ chunks_ok cs /\ concat (rev cs) = mmtext m ++ l.
Proof. apply netline_text. Qed.
Lemma textlines_spec ls : forall m, Area m = [] -> chunks_ok (TextChunks m) -> Forall (fun l => forall r, l <> 1 :: r) ls ->
  exists cs, mmAddLines m ls = Some (set_TextChunks m cs) /\ chunks_ok cs /\ concat (rev cs) = mmtext m ++ concat ls.
Proof.
  induction ls as [|l ls IH]; intros m Ha Hc H.
  - exists (TextChunks m). cbn [mmAddLines concat]. rewrite app_nil_r. split; [destruct m; reflexivity|]. auto.
  - inversion H as [|? ? H1 H2]; subst. destruct (textline_spec m l Ha Hc H1) as (cs & E & Hcs & T). cbn [mmAddLines]. rewrite E. cbn [obind].
    destruct (IH (set_TextChunks m cs) Ha Hcs H2) as (cs2 & E2 & Hc2 & T2). exists cs2. split; [exact E2|]. split; auto.
    rewrite T2. unfold mmtext at 1. cbn [TextChunks set_TextChunks concat]. rewrite T, <- app_assoc. reflexivity.
Qed.
Lemma reason_ok cfg m reason : valid4d (DestNode m) -> bouncereason cfg m = Some reason -> (length reason < 390)%nat /\ forall r, reason <> 1 :: r.
Proof.
  intros Hv. destruct Hv as (V1 & V2 & V3 & V4).
  pose proof (dec_length_u16 _ V1) as L1. pose proof (dec_length_u16 _ V2) as L2. pose proof (dec_length_u16 _ V3) as L3. pose proof (dec_length_u16 _ V4) as L4.
  unfold bouncereason. destruct (_ && _ && _); [|destruct (_ && _ && _); [|destruct (_ && _ && _); [|discriminate]]]; intros E;
   match type of E with Some ?x = _ => assert (reason = x) by congruence; subst reason end; clear E; unfold addr4; (split; [rewrite ?app_length|intros r; discriminate]);
   litc; simpl length; lia.
Qed.
