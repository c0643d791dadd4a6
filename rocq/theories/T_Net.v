(** C22, C23, C24: netmail. *)
From Verif Require Import Base M_Node4D S_Node4D P_Node4D M_Pat S_Pat P_Pat M_Str M_Mem S_Mem P_Mem M_Cfg M_Pkt M_Dupe M_Echo S_Echo P_Echo M_Expr M_Filter P_Filter M_Net S_Net P_Net.

(** ** C22: addressing kludges *)
(** The kludges are added to the text as whole lines. *)
Theorem C22_text : forall flags m, Forall (fun c => Z.of_nat (length c) <= 10000) (TextChunks m) ->
  exists m' ls, MakeNetmailKludges flags m = Some m' /\ mmtext m' = mmtext m ++ concat ls /\
    Forall (fun l => is_addr_kludge l /\ last l 0 = 13) ls /\ OrigNode m' = OrigNode m /\ DestNode m' = DestNode m.
Proof.
  intros flags m H. destruct (MakeNetmailKludges_spec flags m (chunks_ok_10000 _ H)) as (cs & E & _ & T).
  eexists _, _. split; [exact E|]. split; [exact T|]. split; [|auto].
  unfold kludgelines. apply Forall_forall. intros l Hl. apply filter_In in Hl as [Hl Hne].
  assert (L : forall a, last (a ++ [13]) 0 = 13) by (intros a; apply last_last).
  destruct Hl as [<-|[<-|[<-|[]]]].
  - unfold kludge_fmpt in *. destruct (point _ =? 0); [discriminate|]. split.
    + exists (lit "FMPT"). split; [simpl; auto|]. exists (lit " " ++ dec (point (OrigNode m)) ++ [13]). reflexivity.
    + rewrite !app_assoc. apply L.
  - unfold kludge_topt in *. destruct (point _ =? 0); [discriminate|]. split.
    + exists (lit "TOPT"). split; [simpl; auto|]. exists (lit " " ++ dec (point (DestNode m)) ++ [13]). reflexivity.
    + rewrite !app_assoc. apply L.
  - unfold kludge_intl in *. destruct (_ || _); [|discriminate]. split.
    + exists (lit "INTL"). split; [simpl; auto|]. eexists. reflexivity.
    + rewrite !app_assoc. apply L.
Qed.
Print Assumptions C22_text.

(** A message in an empty text gets exactly these kludges; a reader that starts from the
    header (net and node; zone zo, zd from elsewhere) and reads them and any further lines
    that are no addressing kludges knows both addresses exactly if the zones differ or INTL
    is forced, and otherwise up to the zone it started from. *)
Theorem C22_roundtrip : forall flags m m' rest reader zo zd, valid4d (OrigNode m) -> valid4d (DestNode m) -> TextChunks m = [] ->
  MakeNetmailKludges flags m = Some m' ->
  Area reader = [] -> TextChunks reader = [] ->
  OrigNode reader = header_addr zo (OrigNode m) -> DestNode reader = header_addr zd (DestNode m) ->
  Forall (fun l => crline l /\ ~ is_addr_kludge l) rest ->
  exists ls reader', concat ls = mmtext m' /\ mmAddLines reader (ls ++ rest) = Some reader' /\ mmtext reader' = mmtext m' ++ concat rest /\
    (zone (OrigNode m) <> zone (DestNode m) \/ flag flags CFG_FORCEINTL = true ->
       OrigNode reader' = OrigNode m /\ DestNode reader' = DestNode m) /\
    (zone (OrigNode m) = zone (DestNode m) -> flag flags CFG_FORCEINTL = false ->
       OrigNode reader' = set_zone (OrigNode m) zo /\ DestNode reader' = set_zone (DestNode m) zd).
Proof.
  intros flags m m' rest reader zo zd Ho Hd Ht Em Ha Hc Eo Ed Hrest.
  assert (H0 : chunks_ok (TextChunks m)) by (rewrite Ht; constructor).
  destruct (MakeNetmailKludges_spec flags m H0) as (cs & E & _ & T). rewrite E in Em. assert (m' = set_TextChunks m cs) by congruence. subst m'. clear Em.
  assert (T' : mmtext (set_TextChunks m cs) = concat (kludgelines flags (OrigNode m) (DestNode m))).
  { unfold mmtext in *. cbn [TextChunks set_TextChunks]. rewrite T, Ht. reflexivity. }
  destruct (read_kludges flags (OrigNode m) (DestNode m) reader Ho Hd Ha) as (r1 & E1 & A1 & C1 & O1 & D1 & T1);
    try (rewrite Eo; reflexivity); try (rewrite Ed; reflexivity). { rewrite Hc. constructor. }
  destruct (netlines_other rest r1 A1 C1 Hrest) as (r2 & E2 & _ & _ & O2 & D2 & T2).
  exists (kludgelines flags (OrigNode m) (DestNode m)), r2. split; [auto|]. split.
  { assert (HA : forall a b x, mmAddLines x (a ++ b) = match mmAddLines x a with Some y => mmAddLines y b | None => None end).
    { induction a as [|l a IH]; intros b x; simpl; auto. destruct (mmAddLine x l); cbn [obind]; auto. }
    rewrite HA, E1. exact E2. }
  split. { rewrite T2, T1, T'. unfold mmtext. rewrite Hc. reflexivity. }
  rewrite O2, D2, O1, D1, Eo, Ed. unfold intl, header_addr. cbn [zone]. split.
  - intros H. replace (negb (zone (OrigNode m) =? zone (DestNode m)) || flag flags CFG_FORCEINTL) with true; auto.
    destruct H as [H|H]; [apply Z.eqb_neq in H; rewrite H; reflexivity|rewrite H, orb_true_r; reflexivity].
  - intros H1 H2. rewrite H1, Z.eqb_refl, H2. auto.
Qed.
Print Assumptions C22_roundtrip.

(** The tosser itself: a netmail with these kludges, received in a packet from a system of
    zone [zone po] <> 0, has its original addresses again when it is handled, if the zones
    differ, or INTL is forced, or the packet came from a system of that zone. *)
Theorem C22_received : forall flags pcfg po pd ph m m' rest, valid4d (OrigNode m) -> valid4d (DestNode m) -> TextChunks m = [] ->
  MakeNetmailKludges flags m = Some m' -> zone po <> 0 ->
  zone (OrigNode m) <> 0 -> zone (DestNode m) <> 0 ->
  get16 ph 6 = net (OrigNode m) -> get16 ph 2 = node (OrigNode m) -> get16 ph 8 = net (DestNode m) -> get16 ph 4 = node (DestNode m) ->
  Forall (fun l => crline l /\ ~ is_addr_kludge l) rest ->
  zone (OrigNode m) <> zone (DestNode m) \/ flag flags CFG_FORCEINTL = true \/ zone po = zone (OrigNode m) ->
  exists ls r, concat ls = mmtext m' /\ mmAddLines (msg_init pcfg po pd ph) (ls ++ rest) = Some r /\
    OrigNode (fixzones r) = OrigNode m /\ DestNode (fixzones r) = DestNode m.
Proof.
  intros flags pcfg po pd ph m m' rest Ho Hd Ht Em Hpo Hzo Hzd H1 H2 H3 H4 Hrest Hz.
  assert (HP : forall ls x x', mmAddLines x ls = Some x' -> PktOrig x' = PktOrig x).
  { induction ls as [|l ls IH]; intros x x'; simpl; [congruence|]. destruct (mmAddLine x l) as [y|] eqn:E; [|discriminate]. cbn [obind]. intros E'.
    rewrite (IH _ _ E'). clear IH E'. unfold mmAddLine in E.
    destruct (_ && prefixb (lit "SEEN-BY:") l).
    { destruct (from l 9); [|discriminate]. destruct (AddSeenby _ _) as [z|]; [|discriminate]. cbn [option_map] in E. assert (y = set_SeenBy x z) by congruence. subst y. reflexivity. }
    destruct (_ && prefixb (SOH ++ lit "PATH:") l).
    { destruct (from l 7) as [z|]; [|discriminate]. cbn [option_map] in E. assert (y = set_Path x (mmAddPath z (Path x))) by congruence. subst y. reflexivity. }
    assert (HT : forall a b, option_map (set_TextChunks a) (mmAddBuf (TextChunks a) l) = Some b -> PktOrig b = PktOrig a).
    { intros a b. destruct (mmAddBuf (TextChunks a) l) as [z|]; [|discriminate]. cbn [option_map]. intros Ez. assert (b = set_TextChunks a z) by congruence. subst b. reflexivity. }
    destruct (_ && prefixb (lit " * Origin: ") l).
    { destruct (ExtractAddress l); [apply HT in E; exact E|apply HT in E; exact E|discriminate]. }
    destruct (match l with [] => false | c :: _ => c =? 1 end); [|apply HT in E; exact E].
    destruct (ProcessKludge x l) as [k|] eqn:Ek; [|discriminate]. apply HT in E. apply ProcessKludge_frame in Ek. rewrite E. apply Ek. }
  destruct (C22_roundtrip flags m m' rest (msg_init pcfg po pd ph) 0 (zone po) Ho Hd Ht Em eq_refl eq_refl) as (ls & r & C1 & C2 & _ & C3 & C4); auto.
  { unfold header_addr, msg_init. cbn [OrigNode]. rewrite H1, H2. reflexivity. }
  { unfold header_addr, msg_init. cbn [DestNode]. rewrite H3, H4. reflexivity. }
  exists ls, r. split; auto. split; auto. pose proof (HP _ _ _ C2) as EP. cbn [PktOrig msg_init] in EP.
  destruct (Z.eq_dec (zone (OrigNode m)) (zone (DestNode m))) as [Ez|Ez].
  - destruct (flag flags CFG_FORCEINTL) eqn:EF.
    + destruct (C3 (or_intror eq_refl)) as (A & B). rewrite fixzones_id by congruence. auto.
    + destruct (C4 Ez eq_refl) as (A & B). assert (Ep : zone po = zone (OrigNode m)) by (destruct Hz as [?|[?|?]]; [tauto|discriminate|auto]).
      unfold fixzones. rewrite B. cbn [set_zone zone]. destruct (Z.eqb_spec (zone po) 0); [congruence|].
      rewrite A. cbn [set_zone zone]. change (0 =? 0) with true. cbv iota. cbn [OrigNode DestNode set_OrigNode]. rewrite B, EP, Ep. split.
      * destruct (OrigNode m); reflexivity.
      * rewrite Ez. destruct (DestNode m); reflexivity.
  - destruct (C3 (or_introl Ez)) as (A & B). rewrite fixzones_id by congruence. auto.
Qed.
Print Assumptions C22_received.

(** Otherwise the addresses are misread: a message inside zone 1 that comes in a packet from
    zone 2 is taken for a message inside zone 2. *)
Theorem C22_other_zone_refuted : exists pcfg po pd m m' r,
  MakeNetmailKludges 0 m = Some m' /\ zone (OrigNode m) = 1 /\ zone (DestNode m) = 1 /\ zone po = 2 /\
  mmAddLines (msg_init pcfg po pd (le16 2 ++ le16 (node (OrigNode m)) ++ le16 (node (DestNode m)) ++ le16 (net (OrigNode m)) ++ le16 (net (DestNode m)) ++ le16 0 ++ le16 0)) [] = Some r /\
  mmtext m' = [] /\ zone (OrigNode (fixzones r)) = 2 /\ zone (DestNode (fixzones r)) = 2.
Proof.
  exists (PC [] [] 0 false 0), (N4 2 200 1 0), (N4 1 100 1 0).
  exists (set_DestNode (set_OrigNode mm0 (N4 1 300 7 0)) (N4 1 100 1 0)), (set_DestNode (set_OrigNode mm0 (N4 1 300 7 0)) (N4 1 100 1 0)).
  eexists. split; [vm_compute; reflexivity|]. split; [reflexivity|]. split; [reflexivity|]. split; [reflexivity|]. split; [reflexivity|].
  split; [reflexivity|]. vm_compute. auto.
Qed.
Print Assumptions C22_other_zone_refuted.

(** After a REMAP the message is readdressed: a reader of the new header and text knows the
    new destination and the old sender. *)
Theorem C22_remap : forall flags nl rs m name dp m' reader zo zd, Area m = [] -> valid4d (OrigNode m) -> valid4d (DestNode m) ->
  Filter_Remap flags nl rs m name dp = Some m' ->
  Forall (fun c => Z.of_nat (length c) <= 10000) (TextChunks m) ->
  Forall crline (concat (map chunklines (rev (TextChunks m)))) -> cstring (To m) -> cstring name ->
  Area reader = [] -> TextChunks reader = [] ->
  OrigNode reader = header_addr zo (OrigNode m') -> DestNode reader = header_addr zd (DestNode m') ->
  zone (OrigNode m) <> zone (ExpandNodePat nl dp (DestNode m)) \/ flag flags CFG_FORCEINTL = true ->
  exists ls l2 reader', mmtext m' = concat ls ++ l2 /\ mmAddLines reader ls = Some reader' /\
    OrigNode reader' = OrigNode m /\ DestNode reader' = ExpandNodePat nl dp (DestNode m).
Proof.
  intros flags nl rs m name dp m' reader zo zd Ha Ho Hd Em Hc Hl HcT Hcn HaR HcR EoR EdR Hz.
  unfold Filter_Remap in Em. rewrite Ha in Em.
  set (nd := ExpandNodePat nl dp (DestNode m)) in *. set (newto := if streq name (lit "*") then To m else name) in *.
  destruct (Nat.ltb (length newto) 36); [|discriminate].
  set (m1 := set_To (set_DestNode (set_TextChunks m []) nd) newto) in *.
  assert (H1 : chunks_ok (TextChunks m1)) by constructor.
  destruct (MakeNetmailKludges_spec flags m1 H1) as (cs & E & Hcs & T). rewrite E in Em. cbn [obind] in Em.
  set (keep := filter (fun l => negb (isaddrkludge l)) (concat (map chunklines (rev (TextChunks m))))) in *.
  destruct (addlines_ok keep cs Hcs) as (cs2 & E2 & Hcs2 & T2). cbn [TextChunks set_TextChunks] in Em. rewrite E2 in Em. cbn [obind] in Em.
  set (l1 := SOH ++ lit "Remapped to " ++ _) in *. set (l2 := SOH ++ lit "Message originally to " ++ _) in *.
  destruct (Nat.ltb (length l1) 100 && Nat.ltb (length l2) 100); [|discriminate].
  set (m2 := set_TextChunks (set_TextChunks m1 cs) cs2) in *.
  assert (PK : forall x t, ProcessKludge x (SOH ++ lit "Remapped to " ++ t) = Some x).
  { intros x t. unfold ProcessKludge, pk_rescanned, pk_msgid, pk_reply.
    change (prefixb (SOH ++ lit "RESCANNED") (SOH ++ lit "Remapped to " ++ t)) with false.
    change (prefixb (SOH ++ lit "MSGID:") (SOH ++ lit "Remapped to " ++ t)) with false.
    change (prefixb (SOH ++ lit "REPLY:") (SOH ++ lit "Remapped to " ++ t)) with false. cbv iota. cbn [obind].
    unfold pk_fmpt, pk_topt, pk_intl.
    change (prefixb (SOH ++ lit "FMPT") (SOH ++ lit "Remapped to " ++ t)) with false.
    change (prefixb (SOH ++ lit "TOPT") (SOH ++ lit "Remapped to " ++ t)) with false.
    change (prefixb (SOH ++ lit "INTL") (SOH ++ lit "Remapped to " ++ t)) with false. cbv iota. cbn [obind]. destruct (Area x); reflexivity. }
  assert (PM : forall x t, ProcessKludge x (SOH ++ lit "Message originally to " ++ t) = Some x).
  { intros x t. unfold ProcessKludge, pk_rescanned, pk_msgid, pk_reply.
    change (prefixb (SOH ++ lit "RESCANNED") (SOH ++ lit "Message originally to " ++ t)) with false.
    change (prefixb (SOH ++ lit "MSGID:") (SOH ++ lit "Message originally to " ++ t)) with false.
    change (prefixb (SOH ++ lit "REPLY:") (SOH ++ lit "Message originally to " ++ t)) with false. cbv iota. cbn [obind].
    unfold pk_fmpt, pk_topt, pk_intl.
    change (prefixb (SOH ++ lit "FMPT") (SOH ++ lit "Message originally to " ++ t)) with false.
    change (prefixb (SOH ++ lit "TOPT") (SOH ++ lit "Message originally to " ++ t)) with false.
    change (prefixb (SOH ++ lit "INTL") (SOH ++ lit "Message originally to " ++ t)) with false. cbv iota. cbn [obind]. destruct (Area x); reflexivity. }
  assert (Ha2 : Area m2 = []) by exact Ha.
  assert (AK : forall x, Area x = [] -> chunks_ok (TextChunks x) -> exists cs', mmAddLine x l1 = Some (set_TextChunks x cs') /\ chunks_ok cs' /\ concat (rev cs') = mmtext x ++ l1).
  { intros x H H'. unfold l1. apply netline_kludge; auto. apply (PK x). }
  assert (AM : forall x, Area x = [] -> chunks_ok (TextChunks x) -> exists cs', mmAddLine x l2 = Some (set_TextChunks x cs') /\ chunks_ok cs' /\ concat (rev cs') = mmtext x ++ l2).
  { intros x H H'. unfold l2. apply netline_kludge; auto. apply (PM x). }
  destruct (AK m2 Ha2 Hcs2) as (cs3 & E3 & Hcs3 & T3). rewrite E3 in Em. cbn [obind] in Em.
  destruct (AM (set_TextChunks m2 cs3) Ha Hcs3) as (cs4 & E4 & Hcs4 & T4). rewrite E4 in Em. assert (Em' : m' = set_TextChunks (set_TextChunks m2 cs3) cs4) by congruence. subst m'. clear Em.
  cbn [OrigNode DestNode set_TextChunks] in EoR, EdR. change (OrigNode m2) with (OrigNode m) in EoR. change (DestNode m2) with nd in EdR.
  assert (Hnd : valid4d nd) by (apply expand_valid; auto).
  destruct (read_kludges flags (OrigNode m) nd reader Ho Hnd HaR) as (r1 & R1 & A1 & C1 & O1 & D1 & TT1);
    try (rewrite EoR; reflexivity); try (rewrite EdR; reflexivity). { rewrite HcR. constructor. }
  assert (Hkeep : Forall (fun l => crline l /\ ~ is_addr_kludge l) keep).
  { apply Forall_forall. intros l Hin. apply filter_In in Hin as [Hin Hk]. rewrite Forall_forall in Hl. split; [auto|].
    intros (k & Hin2 & Hs). specialize (Hl l Hin). apply negb_true_iff in Hk. unfold isaddrkludge in Hk.
    assert (HL : (5 < length l)%nat).
    { assert (length (1%Z :: k) < length l)%nat; [apply (starts_cr _ _ Hs Hl)|].
      - destruct Hin2 as [<-|[<-|[<-|[]]]]; litc; nocr.
      - destruct Hin2 as [<-|[<-|[<-|[]]]]; simpl in *; lia. }
    apply Nat.ltb_lt in HL. rewrite HL in Hk. cbn [andb] in Hk. apply orb_false_iff in Hk as [Hk Hk3]. apply orb_false_iff in Hk as [Hk1 Hk2].
    destruct Hin2 as [<-|[<-|[<-|[]]]]; apply prefixb_spec in Hs; [change (1 :: lit "INTL") with (SOH ++ lit "INTL") in Hs|change (1 :: lit "FMPT") with (SOH ++ lit "FMPT") in Hs|change (1 :: lit "TOPT") with (SOH ++ lit "TOPT") in Hs]; congruence. }
  destruct (netlines_other keep r1 A1 C1 Hkeep) as (r2 & R2 & A2 & C2 & O2 & D2 & TT2).
  destruct (AK r2 A2 C2) as (cs5 & R3 & C3 & TT3).
  exists (kludgelines flags (OrigNode m) nd ++ keep ++ [l1]), l2, (set_TextChunks r2 cs5).
  split; [|split; [|split]].
  - unfold mmtext at 1. cbn [TextChunks set_TextChunks]. rewrite T4. unfold mmtext at 1. cbn [TextChunks set_TextChunks]. rewrite T3.
    unfold mmtext at 1. unfold m2. cbn [TextChunks set_TextChunks]. rewrite T2, T. rewrite !concat_app. cbn [concat]. rewrite app_nil_r, <- !app_assoc. reflexivity.
  - assert (HAp : forall a b x, mmAddLines x (a ++ b) = match mmAddLines x a with Some y => mmAddLines y b | None => None end).
    { induction a as [|l a IH]; intros b x; simpl; auto. destruct (mmAddLine x l); cbn [obind]; auto. }
    rewrite HAp, R1, HAp, R2. cbn [mmAddLines].
    rewrite R3. reflexivity.
  - cbn [OrigNode set_TextChunks]. rewrite O2, O1. unfold intl.
    replace (negb (zone (OrigNode m) =? zone nd) || flag flags CFG_FORCEINTL) with true; auto.
    destruct Hz as [H|H]; [apply Z.eqb_neq in H; rewrite H; reflexivity|rewrite H, orb_true_r; reflexivity].
  - cbn [DestNode set_TextChunks]. rewrite D2, D1. unfold intl.
    replace (negb (zone (OrigNode m) =? zone nd) || flag flags CFG_FORCEINTL) with true; auto.
    destruct Hz as [H|H]; [apply Z.eqb_neq in H; rewrite H; reflexivity|rewrite H, orb_true_r; reflexivity].
Qed.
Print Assumptions C22_remap.

(** The last line added by REMAP ends in the letter d instead of a CR, so that a line added
    later (the Via line) is not a line of its own any more. *)
Theorem C22_remap_last_line_refuted : exists flags nl rs m name dp m', Area m = [] /\
  Filter_Remap flags nl rs m name dp = Some m' /\ last (mmtext m) 0 = 13 /\ last (mmtext m') 0 = 100.
Proof.
  exists 0, (NL false (fun _ => 0) (fun _ => 0)), [], (set_TextChunks (set_DestNode mm0 (N4 2 200 1 0)) [lit "Hi" ++ [13]]), (lit "*"),
    (NP PAT_PATTERN (lit "2") (lit "201") (lit "5") (lit "0")).
  eexists. split; [reflexivity|]. split; [vm_compute; reflexivity|]. split; vm_compute; reflexivity.
Qed.
Print Assumptions C22_remap_last_line_refuted.

Example C22_nonvacuous :
  let m := set_DestNode (set_OrigNode mm0 (N4 1 300 7 4)) (N4 2 100 1 3) in
  let t := SOH ++ lit "FMPT 4" ++ [13] ++ SOH ++ lit "TOPT 3" ++ [13] ++ SOH ++ lit "INTL 2:100/1 1:300/7" ++ [13] in
  option_map mmtext (MakeNetmailKludges 0 m) = Some t /\ valid4d (OrigNode m) /\ valid4d (DestNode m) /\
  Forall (fun l => crline l /\ ~ is_addr_kludge l) [lit "Hello" ++ [13]].
Proof.
  repeat split; try (vm_compute; congruence). constructor; [|constructor]. split.
  - split; [litc; repeat constructor; lia|]. left. exists (lit "Hello"), 13. auto.
  - intros (k & [<-|[<-|[<-|[]]]] & r & E); discriminate.
Qed.

(** ** C23: routing *)
Lemma handle_plain cfg sub out mm : plain_input cfg mm -> nc_rules cfg = [] -> elsewhere cfg (DestNode mm) ->
  exists cs, chunks_ok cs /\ (concat (rev cs) = mmtext mm \/ concat (rev cs) = mmtext mm ++ [13]) /\
    ((length (TextChunks mm) <= 1)%nat -> concat (rev cs) = with_cr (mmtext mm)) /\
    HandleNetmail1 cfg sub out mm = routing cfg sub out (set_TextChunks mm cs).
Proof.
  intros (Ha & Hzd & Hzo & Hvd & Hvo & Hk & Hc) Hr He. destruct (lastcr_spec mm (chunks_ok_10000 _ Hc)) as (cs & E & Hcs & H1 & H2).
  exists cs. split; auto. split; auto. split; auto.
  unfold HandleNetmail1. rewrite fixzones_id, E by auto. cbn [obind]. unfold runfilter. rewrite Hr. unfold Filter.
  cbn [runrules obind fst snd]. cbv beta iota. cbn [negb]. cbv beta iota. change (Flags (set_TextChunks mm cs)) with (Flags mm). rewrite Hk.
  replace (isaka cfg (DestNode (set_TextChunks mm cs))) with false.
  2: { symmetry. apply not_true_iff_false. intros H. apply isaka_spec in H. apply He in H. exact H. }
  cbn [andb obind negb]. cbv beta iota. cbn [negb]. change (DestNode (set_TextChunks mm cs)) with (DestNode mm).
  rewrite importarea_elsewhere by auto. reflexivity.
Qed.

Lemma prepare_sent cfg mm cs : Area mm = [] -> sent_as mm (prepare cfg (set_TextChunks mm cs)).
Proof.
  intros Ha. unfold sent_as. do 9 (split; [auto|]). split; [|split].
  - intros f Hf. rewrite prepare_attr2; auto. simpl in *. intuition.
  - intros f Hf. unfold prepare. cbn [Attr set_Attr set_Type Flags set_TextChunks].
    destruct (flag (Flags mm) MMFLAG_TOSSED); cbn [negb]; rewrite ?andb_false_r, ?andb_true_r.
    + apply land_flag0. destruct Hf as [<-|[<-|[]]]; reflexivity.
    + apply land_flag. destruct Hf as [<-|[<-|[]]]; reflexivity.
  - unfold prepare. cbn [Attr set_Attr set_Type Flags set_TextChunks]. set (k := FLAG_PVT + FLAG_CRASH + FLAG_FILEATTACH + FLAG_HOLD + FLAG_RREQ + FLAG_IRRR + FLAG_AUDIT).
    destruct (flag (Flags mm) MMFLAG_TOSSED); apply Z.bits_inj_0; intros n; rewrite Z.ldiff_spec, ?Z.land_spec; destruct (Z.testbit k n); rewrite ?andb_false_r, ?andb_true_r; auto.
Qed.
Lemma writebad_only cfg out m r : exists evs, writebad cfg out m r = out ++ evs /\
  bad_only cfg evs.
Proof.
  exists (concat (map ofev (WriteBad (map na_area (nc_areas cfg)) m r))). split; [reflexivity|].
  destruct (bad_events_ofev (map na_area (nc_areas cfg)) m (WriteBad (map na_area (nc_areas cfg)) m r)) as [E|(b & x & Hin & Hb & Hk & E)].
  - apply WriteBad_spec.
  - left. exact E.
  - right. apply in_map_iff in Hin as (a & <- & Hin). exists a, x. auto.
Qed.

(** A message that does not tell a zone is handled as if it told that of the packet it came
    in: the destination's of the destination, the sender's of the sender. (The theorems below
    are about messages with known zones.) *)
Theorem C23_zones : forall cfg sub out mm,
  let zd := if zone (DestNode mm) =? 0 then zone (PktDest mm) else zone (DestNode mm) in
  let zo := if zone (OrigNode mm) =? 0 then zone (PktOrig mm) else zone (OrigNode mm) in
  HandleNetmail1 cfg sub out mm =
  HandleNetmail1 cfg sub out
    (set_OrigNode (set_DestNode mm (N4 zd (net (DestNode mm)) (node (DestNode mm)) (point (DestNode mm))))
       (N4 zo (net (OrigNode mm)) (node (OrigNode mm)) (point (OrigNode mm)))).
Proof.
  intros cfg sub out mm zd zo. unfold HandleNetmail1. apply obind_ext2; [|reflexivity]. f_equal. unfold fixzones, zd, zo. clear zd zo.
  destruct mm as [[oz on of op] [dz dn df dp] [pz pn pf pp] [qz qn qf qp] o4 ar to fr su dt mi re at_ co ty fl tc sb pa]. cbn [DestNode OrigNode PktDest PktOrig zone net node point set_DestNode set_OrigNode].
  destruct (dz =? 0) eqn:Ed, (oz =? 0) eqn:Eo, (qz =? 0) eqn:Eq, (pz =? 0) eqn:Ep;
    repeat (cbn [DestNode OrigNode PktDest PktOrig zone net node point set_DestNode set_OrigNode set_zone]; rewrite ?Ed, ?Eo, ?Eq, ?Ep); reflexivity.
Qed.
Print Assumptions C23_zones.

(** A message for another system that a route exists for, and that nothing forbids, is
    written for exactly one system: the one the first matching route, the priority of the
    message and the CHANGE statements give; it is the same message, with a Via line behind
    its text. With LOOPMODE LOG+BAD a copy of the kludges of a possible loop goes to the BAD
    area first. If an audit is due, it follows. *)
Theorem C23_sent : forall cfg sub out mm r, plain_input cfg mm -> cfg_sane cfg -> nc_rules cfg = [] ->
  elsewhere cfg (DestNode mm) -> first_route (nlist cfg) (nc_routes cfg) (DestNode mm) r -> ~ must_bounce cfg mm ->
  flag (Attr mm) FLAG_FILEATTACH = false ->
  exists evs dest p m t, next_system cfg r mm dest p /\ sent_as mm m /\ Type_ m = p /\
    mmtext m = t ++ (1 :: lit "Via " ++ Print4D (ak_node (rt_aka r)) ++ lit " @" ++ nc_stamp cfg ++ [13]) /\
    (t = mmtext mm \/ t = mmtext mm ++ [13]) /\ ((length (TextChunks mm) <= 1)%nat -> t = with_cr (mmtext mm)) /\
    bad_only cfg evs /\ (~ loop_reports cfg -> evs = []) /\
    let audit := flag (Attr mm) FLAG_AUDIT && cflag cfg CFG_ANSWERAUDIT && flag (Flags mm) MMFLAG_TOSSED in
    (audit = false \/ no_route (nlist cfg) (nc_routes cfg) (OrigNode mm) ->
       HandleNetmail1 cfg sub out mm = Some (out ++ evs ++ [NvSend dest (rt_aka r) p m], true)) /\
    (forall r', audit = true -> first_route (nlist cfg) (nc_routes cfg) (OrigNode mm) r' ->
       exists a, answer_to cfg mm a /\ marked a /\ OrigNode a = ak_node (rt_aka r') /\
         HandleNetmail1 cfg sub out mm = sub (out ++ evs ++ [NvSend dest (rt_aka r) p m] ++ [NvNew a]) a).
Proof.
  intros cfg sub out mm r Hp Hs Hr He Hfr Hb Hfa.
  destruct (handle_plain cfg sub out mm Hp Hr He) as (cs & Hcs & T1 & T2 & EH).
  destruct Hp as (Ha & Hzd & Hzo & Hvd & Hvo & Hk & Hc). pose proof Hs as (Hnl & Hst & Htid & Hra).
  pose proof (prepare_sent cfg mm cs Ha) as HS. rewrite EH. unfold routing.
  set (m1 := prepare cfg (set_TextChunks mm cs)) in *. cbv zeta.
  assert (ED : DestNode m1 = DestNode mm) by apply HS. rewrite ED.
  apply findroute_some in Hfr; auto. rewrite Hfr.
  destruct (nexthop cfg r m1) as [dest p] eqn:EN. unfold nexthop in EN. rewrite ED in EN.
  assert (HNS : next_system cfg r mm dest p).
  { pose proof (prepare_priority cfg (set_TextChunks mm cs)) as HP. fold m1 in HP.
    assert (HP' : priority cfg mm (Type_ m1)). { revert HP. generalize (Type_ m1). intros q HP. destruct HP; [apply pr_hold|apply pr_crash|apply pr_direct|apply pr_normal]; auto. }
    set (d0 := if Type_ m1 =? PKTS_NORMAL then ExpandNodePat (nlist cfg) (rt_dest r) (DestNode mm) else DestNode mm) in *.
    exists (Type_ m1), d0. split; [exact HP'|]. split; [reflexivity|].
    assert (Hd0 : valid4d d0) by (unfold d0; destruct (_ =? _); [apply expand_valid|]; auto).
    assert (p = ChangeType (nlist cfg) (nc_changes cfg) d0 (Type_ m1)) by congruence. subst p. split.
    - apply ChangeType_spec; auto. apply (priority_noecho _ _ _ HP').
    - assert (dest = if (ChangeType (nlist cfg) (nc_changes cfg) d0 (Type_ m1) =? PKTS_DIRECT) || (ChangeType (nlist cfg) (nc_changes cfg) d0 (Type_ m1) =? PKTS_CRASH) then set_point d0 0 else d0) as -> by congruence.
      destruct d0; reflexivity. }
  set (m2 := set_Type m1 p).
  assert (HL : exists evs, loopcheck cfg out m2 = Some (out ++ evs) /\ bad_only cfg evs /\ (~ loop_reports cfg -> evs = [])).
  { unfold loopcheck. destruct (_ && _ && _ && _) eqn:EL.
    - unfold loopcopy. set (ls := concat (map _ _)). destruct (addlines_ok ls []) as (cs' & E' & _); [constructor|]. rewrite E'. cbn [obind].
      set (mc := MM _ _ _ _ _ _ _ _ _ _ _ _ _ _ _ _ _ _ _). destruct (writebad_only cfg out mc (lit "Possible loopmail")) as (evs & -> & HB).
      exists evs. split; auto. split; auto. apply andb_true_iff in EL as [_ EL]. apply Z.eqb_eq in EL. unfold loop_reports. tauto.
    - exists []. rewrite app_nil_r. split; auto. split; [left; auto|auto]. }
  destruct HL as (evs & EL & HB & HB2). rewrite EL. cbn [obind].
  assert (EBR : bouncereason cfg m2 = None).
  { apply bouncereason_spec; auto.
    intros H. apply Hb. unfold must_bounce, attach_forbidden in *. change (DestNode m2) with (DestNode m1) in H. rewrite ED in H. destruct H as [H|[H|H]]; auto.
    destruct H as (H1 & _). change (Attr m2) with (Attr m1) in H1.
    destruct HS as (_ & _ & _ & _ & _ & _ & _ & _ & _ & HS & _). rewrite HS in H1 by (simpl; auto). congruence. }
  rewrite EBR. unfold forward.
  assert (EFA : flag (Attr m2) FLAG_FILEATTACH = false).
  { change (Attr m2) with (Attr m1). destruct HS as (_ & _ & _ & _ & _ & _ & _ & _ & _ & HS & _). rewrite HS by (simpl; auto). auto. }
  rewrite EFA. cbn [obind]. unfold vialine.
  assert (Hc2 : chunks_ok (TextChunks m2)) by exact Hcs.
  destruct (via_line m2 (Print4D (ak_node (rt_aka r)) ++ lit " @" ++ nc_stamp cfg ++ [13])) as (cs2 & EV & Hcs2 & TV); auto.
  rewrite EV. cbn [obind]. set (m3 := set_TextChunks m2 cs2).
  exists evs, dest, p, m3, (concat (rev cs)). split; [auto|]. split; [exact HS|]. split; [reflexivity|]. split.
  { unfold mmtext, m3. cbn [TextChunks set_TextChunks]. rewrite TV. reflexivity. }
  split; [auto|]. split; [auto|]. split; [auto|]. split; [auto|].
  assert (EA : flag (Attr m3) FLAG_AUDIT = flag (Attr mm) FLAG_AUDIT).
  { change (Attr m3) with (Attr m1). destruct HS as (_ & _ & _ & _ & _ & _ & _ & _ & _ & HS & _). rewrite HS by (simpl; auto 9). auto. }
  rewrite EA. change (Flags m3) with (Flags (set_TextChunks mm cs)). change (Flags (set_TextChunks mm cs)) with (Flags mm).
  change (Type_ m3) with p. rewrite <- app_assoc. set (aud := flag (Attr mm) FLAG_AUDIT && _ && _).
  assert (EO : OrigNode m3 = OrigNode mm) by reflexivity.
  split.
  - intros [->|H]; [reflexivity|]. destruct aud; [|reflexivity]. unfold AnswerAudit. rewrite EO.
    apply findroute_none in H; auto. rewrite H. reflexivity.
  - intros r' -> H. unfold AnswerAudit. rewrite EO. apply findroute_some in H; auto. rewrite H.
    destruct (newmsg_spec cfg (OrigNode mm) r' (From m3) (lit "Audit") FLAG_PVT MMFLAG_AUTOGEN Hs) as (a0 & ca & Ea & Hca & Ea0). rewrite Ea. cbn [obind].
    match goal with |- context [mmAddLine a0 ?l] => destruct (textline_spec a0 l) as (ca2 & Ea2 & Hca2 & _) end.
    { rewrite Ea0. reflexivity. } { rewrite Ea0. exact Hca. } { destruct (findroute _ _ _); intros ?; discriminate. }
    rewrite Ea2. cbn [obind]. exists (set_TextChunks a0 ca2). rewrite Ea0. split; [|split; [|split]].
    + repeat split.
    + repeat split.
    + reflexivity.
    + rewrite <- !app_assoc. reflexivity.
Qed.
Print Assumptions C23_sent.

(** Without a route the message goes to the BAD area (and is written for nobody). *)
Theorem C23_unroutable : forall cfg sub out mm, plain_input cfg mm -> cfg_sane cfg -> nc_rules cfg = [] ->
  elsewhere cfg (DestNode mm) -> no_route (nlist cfg) (nc_routes cfg) (DestNode mm) ->
  exists evs, HandleNetmail1 cfg sub out mm = Some (out ++ evs, true) /\ bad_only cfg evs /\
    ((exists b, In b (nc_areas cfg) /\ ar_type (na_area b) = AREATYPE_BAD) ->
     (forall b, In b (nc_areas cfg) -> ar_type (na_area b) = AREATYPE_BAD -> ar_mb (na_area b) = true) ->
     exists b x info t, In b (nc_areas cfg) /\ ar_type (na_area b) = AREATYPE_BAD /\ evs = [NvImport (ar_tag (na_area b)) x] /\
       From x = From mm /\ To x = To mm /\ Subject x = Subject mm /\ DateTime x = DateTime mm /\
       mmtext x = info ++ t /\ (t = mmtext mm \/ t = mmtext mm ++ [13])).
Proof.
  intros cfg sub out mm Hp Hs Hr He Hn. destruct (handle_plain cfg sub out mm Hp Hr He) as (cs & Hcs & T1 & T2 & EH).
  destruct Hp as (Ha & Hzd & Hzo & Hvd & Hvo & Hk & Hc). pose proof Hs as (Hnl & Hst & Htid & Hra).
  rewrite EH. unfold routing. set (m1 := prepare cfg (set_TextChunks mm cs)). change (DestNode m1) with (DestNode mm).
  apply findroute_none in Hn; auto. rewrite Hn.
  destruct (writebad_only cfg out m1 (lit "No routing for destination node")) as (evs & E & HB). exists evs. rewrite E. split; auto. split; auto.
  intros (b & Hb1 & Hb2) Hmb.
  destruct (proj2 (WriteBad_spec (map na_area (nc_areas cfg)) m1 (lit "No routing for destination node"))) as (b' & x & Hin & Hbt & EW & HK).
  { exists (na_area b). split; [apply in_map; auto|auto]. }
  { intros y Hy Hyt. apply in_map_iff in Hy as (z & <- & Hz). apply Hmb; auto. }
  unfold writebad in E. rewrite EW in E. apply app_inv_head in E. cbn in E.
  apply in_map_iff in Hin as (z & <- & Hz). destruct HK as (K1 & K2 & K3 & K4 & info & K5).
  exists z, x, info, (concat (rev cs)). repeat split; auto.
Qed.
Print Assumptions C23_unroutable.

(** A message that must bounce is not sent; unless it was generated or its writer cannot be
    reached, a message to its writer is created that, unless BOUNCEHEADERONLY, ends with the
    whole text. *)
Theorem C23_bounced : forall cfg sub out mm r, plain_input cfg mm -> cfg_sane cfg -> nc_rules cfg = [] ->
  elsewhere cfg (DestNode mm) -> first_route (nlist cfg) (nc_routes cfg) (DestNode mm) r -> must_bounce cfg mm ->
  exists evs, bad_only cfg evs /\ (~ loop_reports cfg -> evs = []) /\
    (flag (Flags mm) MMFLAG_AUTOGEN = true \/ no_route (nlist cfg) (nc_routes cfg) (OrigNode mm) ->
       HandleNetmail1 cfg sub out mm = Some (out ++ evs, true)) /\
    (forall r', flag (Flags mm) MMFLAG_AUTOGEN = false -> first_route (nlist cfg) (nc_routes cfg) (OrigNode mm) r' ->
       exists a, answer_to cfg mm a /\ marked a /\ OrigNode a = ak_node (rt_aka r') /\
         (cflag cfg CFG_BOUNCEHEADERONLY = false -> exists pre t, mmtext a = pre ++ quoted t /\ (t = mmtext mm \/ t = mmtext mm ++ [13])) /\
         HandleNetmail1 cfg sub out mm = sub (out ++ evs ++ [NvNew a]) a).
Proof.
  intros cfg sub out mm r Hp Hs Hr He Hfr Hb. destruct (handle_plain cfg sub out mm Hp Hr He) as (cs & Hcs & T1 & T2 & EH).
  destruct Hp as (Ha & Hzd & Hzo & Hvd & Hvo & Hk & Hc). pose proof Hs as (Hnl & Hst & Htid & Hra).
  pose proof (prepare_sent cfg mm cs Ha) as HS. rewrite EH. unfold routing. set (m1 := prepare cfg (set_TextChunks mm cs)) in *.
  change (DestNode m1) with (DestNode mm). apply findroute_some in Hfr; auto. rewrite Hfr.
  destruct (nexthop cfg r m1) as [dest p] eqn:EN. set (m2 := set_Type m1 p).
  assert (HL : exists evs, loopcheck cfg out m2 = Some (out ++ evs) /\ bad_only cfg evs /\ (~ loop_reports cfg -> evs = [])).
  { unfold loopcheck. destruct (_ && _ && _ && _) eqn:EL.
    - unfold loopcopy. set (ls := concat (map _ _)). destruct (addlines_ok ls []) as (cs' & E' & _); [constructor|]. rewrite E'. cbn [obind].
      set (mc := MM _ _ _ _ _ _ _ _ _ _ _ _ _ _ _ _ _ _ _). destruct (writebad_only cfg out mc (lit "Possible loopmail")) as (evs & -> & HB).
      exists evs. split; auto. split; auto. apply andb_true_iff in EL as [_ EL]. apply Z.eqb_eq in EL. unfold loop_reports. tauto.
    - exists []. rewrite app_nil_r. split; auto. split; [left; auto|auto]. }
  destruct HL as (evs & EL & HB & HB2). cbv zeta. cbv beta iota. fold m2. rewrite EL. cbn [obind].
  assert (HD : DestNode m2 = DestNode mm) by reflexivity.
  destruct (bouncereason cfg m2) as [reason|] eqn:EB.
  2: { exfalso. apply bouncereason_spec in EB; auto. apply EB. unfold must_bounce, attach_forbidden in *. rewrite HD. destruct Hb as [?|[?|(H1 & H2)]]; auto. right. right.
       split; [|exact H2]. change (Attr m2) with (Attr m1). destruct HS as (_ & _ & _ & _ & _ & _ & _ & _ & _ & HS & _). rewrite HS by (simpl; auto). auto. }
  apply reason_ok in EB as (HR1 & HR2); [|rewrite HD; auto]. exists evs. split; auto. split; auto. unfold Bounce.
  change (Flags m2) with (Flags mm). change (Area m2) with (Area mm). rewrite Ha. change (OrigNode m2) with (OrigNode mm). split.
  - intros [->|H]; [reflexivity|]. destruct (flag (Flags mm) MMFLAG_AUTOGEN); [reflexivity|]. apply findroute_none in H; auto. rewrite H. reflexivity.
  - intros r' -> H. apply findroute_some in H; auto. rewrite H. change (From m2) with (From mm).
    destruct (newmsg_spec cfg (OrigNode mm) r' (From mm) (lit "Bounced message") FLAG_PVT MMFLAG_AUTOGEN Hs) as (a0 & ca & Ea & Hca & Ea0). rewrite Ea. cbn [obind].
    apply Nat.ltb_lt in HR1. rewrite HR1.
    destruct (textlines_spec (bouncehead m2 (OrigNode mm) reason (cflag cfg CFG_BOUNCEHEADERONLY)) a0) as (ca2 & Ea2 & Hca2 & _).
    { rewrite Ea0. reflexivity. } { rewrite Ea0. exact Hca. }
    { unfold bouncehead. change (Area m2) with (Area mm). rewrite Ha.
      assert (HX : reason ++ [13; 13] = reason ++ 13 :: [13]) by reflexivity.
      apply Forall_app. split; [|repeat constructor; intros ?; discriminate].
      constructor; [|constructor; [|constructor]].
      - intros x E. destruct reason as [|c rr]; [discriminate|]. cbn in E. assert (c = 1) by congruence. subst c. apply (HR2 rr). reflexivity.
      - destruct (cflag cfg CFG_BOUNCEHEADERONLY); intros ?; discriminate. }
    rewrite Ea2. cbn [obind].
    assert (HF : exists cf, (if cflag cfg CFG_BOUNCEHEADERONLY then Some (TextChunks (set_TextChunks a0 ca2)) else M_Filter.addlines (TextChunks (set_TextChunks a0 ca2)) (map noctl (rev (TextChunks m2)))) = Some cf /\
       (cflag cfg CFG_BOUNCEHEADERONLY = false -> concat (rev cf) = concat (rev ca2) ++ quoted (concat (rev cs)))).
    { destruct (cflag cfg CFG_BOUNCEHEADERONLY); [exists ca2; split; [auto|discriminate]|].
      destruct (addlines_ok (map noctl (rev (TextChunks m2))) ca2 Hca2) as (cf & Ef & _ & Tf). exists cf. split; auto. intros _. rewrite Tf. f_equal.
      unfold noctl, quoted. change (TextChunks m2) with cs. symmetry. apply concat_map. }
    destruct HF as (cf & Ef & Tf). rewrite Ef. cbn [obind]. exists (set_TextChunks (set_TextChunks a0 ca2) cf). rewrite Ea0. split; [repeat split|].
    split; [repeat split|]. split; [reflexivity|]. split.
    + intros Hh. exists (concat (rev ca2)), (concat (rev cs)). split; [|auto]. unfold mmtext. cbn [TextChunks set_TextChunks]. apply Tf. auto.
    + rewrite <- app_assoc. reflexivity.
Qed.
Print Assumptions C23_bounced.

(** a system 2:200/1 that routes zone 2 to 2:200/9 and everything in zone 1 to 1:1/0 *)
Definition naka : aka := AKA (N4 2 200 1 0) (lit "fidonet") [] [].
Definition star : list Z := lit "*".
Definition pat1 (z n f p : list Z) : npat := NP PAT_PATTERN z n f p.
Definition nroutes : list route :=
  [RT (pat1 (lit "2") star star star) (pat1 (lit "2") (lit "200") (lit "9") (lit "0")) naka;
   RT (pat1 (lit "1") star star star) (pat1 (lit "1") (lit "1") (lit "0") (lit "0")) naka].
Definition nnet : narea := NA (AR (lit "NETMAIL") AREATYPE_NETMAIL 0 0 naka [] true) [].
Definition nbad : narea := NA (AR (lit "BAD") AREATYPE_BAD 0 0 naka [] true) [].
Definition nnl : nlcfg := NLC true (NL true (fun _ => 20) (fun _ => 0)) (fun n => if net n =? 999 then 0 else 1).
Definition ncfg1 (flags loop : Z) (rs : list route) : ncfg :=
  NC flags [naka] [] [nnet; nbad] rs [CH (pat1 star (lit "300") star star) false true false false PKTS_HOLD] nnl [pat1 star star star star] [] [lit "AreaFix"] [] loop
     (lit "Sysop") (lit "/in") (lit "/pkt") (lit "01 Jan 24  12:00:00") (lit "20240101.120000.UTC CrashMail") (SOH ++ lit "TID: CrashMail" ++ [13])
     (fun _ => []) (fun _ _ => 0) (fun _ => false) (fun _ => false).
Definition nmsg (o d : node4d) (attr flags : Z) (cs : list (list Z)) : memmsg :=
  set_Flags (set_Attr (set_Subject (set_From (set_To (set_TextChunks (set_DestNode (set_OrigNode mm0 o) d) cs) (lit "Bob")) (lit "Alice")) (lit "Hi")) attr) flags.

(** Two ways in which a message is lost without trace: a generated message that must bounce,
    and a message that must bounce but whose writer no route leads to. *)
Theorem C23_dropped_refuted : exists cfg mm r, plain_input cfg mm /\ cfg_sane cfg /\ nc_rules cfg = [] /\
  elsewhere cfg (DestNode mm) /\ first_route (nlist cfg) (nc_routes cfg) (DestNode mm) r /\
  flag (Flags mm) MMFLAG_AUTOGEN = false /\ HandleNetmail 3 cfg [] mm = Some ([], true).
Proof.
  exists (ncfg1 0 LOOP_IGNORE nroutes), (nmsg (N4 7 1 1 0) (N4 2 999 1 0) FLAG_PVT MMFLAG_TOSSED [lit "Hello" ++ [13]]).
  exists (RT (pat1 (lit "2") star star star) (pat1 (lit "2") (lit "200") (lit "9") (lit "0")) naka).
  split; [|split; [|split; [|split; [|split; [|split]]]]].
  - repeat split; try (vm_compute; congruence). repeat constructor. vm_compute. congruence.
  - split; [|split; [|split]].
    + intros n. split; right; vm_compute; split; congruence.
    + unfold ncfg1. cbn [nc_stamp]. litc. repeat constructor; lia.
    + exists (lit "CrashMail" ++ [13]). reflexivity.
    + repeat constructor; vm_compute; congruence.
  - reflexivity.
  - split; [|split].
    + intros (a & [<-|[]] & H). vm_compute in H. intuition congruence.
    + reflexivity.
    + intros a [<-|[<-|[]]] (H1 & H2); [|discriminate]. destruct H2 as [H2|(n & [] & _)]. vm_compute in H2. intuition congruence.
  - apply findroute_some; [|repeat split; vm_compute; congruence|vm_compute; reflexivity].
    intros n. split; right; vm_compute; split; congruence.
  - reflexivity.
  - vm_compute. reflexivity.
Qed.
Print Assumptions C23_dropped_refuted.

(** The missing CR of the last line is looked for in the first chunk of the text: with more
    chunks the Via line may be glued to the text. *)
Theorem C23_via_line_refuted : exists cfg mm ak d p m, plain_input cfg mm /\ elsewhere cfg (DestNode mm) /\
  HandleNetmail 3 cfg [] mm = Some ([NvSend d ak p m], true) /\
  last (mmtext mm) 0 <> 13 /\ mmtext m = mmtext mm ++ (1 :: lit "Via " ++ Print4D (ak_node ak) ++ lit " @" ++ nc_stamp cfg ++ [13]).
Proof.
  exists (ncfg1 0 LOOP_IGNORE nroutes), (nmsg (N4 2 5 1 0) (N4 2 201 1 0) FLAG_PVT MMFLAG_TOSSED [lit "no end"; lit "Hello" ++ [13]]).
  eexists _, _, _, _. split; [|split; [|split]].
  - repeat split; try (vm_compute; congruence). repeat constructor; vm_compute; congruence.
  - split; [|split].
    + intros (a & [<-|[]] & H). vm_compute in H. intuition congruence.
    + reflexivity.
    + intros a [<-|[<-|[]]] (H1 & H2); [|discriminate]. destruct H2 as [H2|(n & [] & _)]. vm_compute in H2. intuition congruence.
  - vm_compute. reflexivity.
  - split; [vm_compute; congruence|vm_compute; reflexivity].
Qed.
Print Assumptions C23_via_line_refuted.

Example C23_nonvacuous :
  let mm := nmsg (N4 2 5 1 0) (N4 2 201 1 3) FLAG_PVT MMFLAG_TOSSED [lit "Hello"] in
  plain_input (ncfg1 0 LOOP_IGNORE nroutes) mm /\ elsewhere (ncfg1 0 LOOP_IGNORE nroutes) (DestNode mm) /\
  ~ must_bounce (ncfg1 0 LOOP_IGNORE nroutes) mm /\
  (exists m, HandleNetmail 3 (ncfg1 0 LOOP_IGNORE nroutes) [] mm = Some ([NvSend (N4 2 200 9 0) naka PKTS_NORMAL m], true)) /\
  (* crash mail written here goes to the boss node itself; a CHANGE statement makes it HOLD *)
  (exists m, HandleNetmail 3 (ncfg1 0 LOOP_IGNORE nroutes) [] (nmsg (N4 2 200 1 0) (N4 2 201 1 3) (FLAG_PVT + FLAG_CRASH) MMFLAG_EXPORTED []) =
     Some ([NvSend (N4 2 201 1 0) naka PKTS_CRASH m], true)) /\
  (exists m, HandleNetmail 3 (ncfg1 0 LOOP_IGNORE nroutes) [] (nmsg (N4 2 200 1 0) (N4 2 300 1 3) (FLAG_PVT + FLAG_CRASH) MMFLAG_EXPORTED []) =
     Some ([NvSend (N4 2 300 1 3) naka PKTS_HOLD m], true)) /\
  (* no route *)
  (exists m, HandleNetmail 3 (ncfg1 0 LOOP_IGNORE nroutes) [] (nmsg (N4 2 5 1 0) (N4 3 300 1 3) FLAG_PVT MMFLAG_TOSSED []) = Some ([NvImport (lit "BAD") m], true)) /\
  (* a bounce: not in the nodelist *)
  (exists a m, HandleNetmail 3 (ncfg1 0 LOOP_IGNORE nroutes) [] (nmsg (N4 2 5 1 0) (N4 2 999 1 3) FLAG_PVT MMFLAG_TOSSED [lit "Hello"]) =
     Some ([NvNew a; NvSend (N4 2 200 9 0) naka PKTS_NORMAL m], true)).
Proof.
  split; [|split; [|split]].
  - repeat split; try (vm_compute; congruence). repeat constructor; vm_compute; congruence.
  - split; [|split].
    + intros (a & [<-|[]] & H). vm_compute in H. intuition congruence.
    + reflexivity.
    + intros a [<-|[<-|[]]] (H1 & H2); [|discriminate]. destruct H2 as [H2|(n & [] & _)]. vm_compute in H2. intuition congruence.
  - intros [(_ & _ & H)|[(H & _)|(H & _)]]; vm_compute in H; discriminate.
  - repeat split; try (eexists; vm_compute; reflexivity). eexists _, _; vm_compute; reflexivity.
Qed.

(** ** C24: no bounce loops *)
(** A message marked as generated never makes the program create another one. *)
Theorem C24_generated_creates_nothing : forall cfg sub out mm out' b, areafix_marks cfg -> marked mm ->
  HandleNetmail1 cfg sub out mm = Some (out', b) -> exists evs, out' = out ++ evs /\ Forall (fun e => ~ created e) evs.
Proof.
  intros cfg sub out mm out' b Haf Hm E.
  rewrite (handle_marked cfg Haf sub (fun _ _ => None)) in E by auto.
  apply (handle_grows cfg (fun e => ~ created e)) in E; auto. discriminate.
Qed.
Print Assumptions C24_generated_creates_nothing.

(** Every message that the program creates asks neither for a receipt nor for an audit, and
    all that handling a message does is added behind what was done before. *)
Theorem C24_created : forall cfg n out mm out' b, areafix_marks cfg ->
  HandleNetmail n cfg out mm = Some (out', b) ->
  exists evs, out' = out ++ evs /\ forall m, In (NvNew m) evs -> asks_nothing m.
Proof.
  intros cfg n. induction n as [|n IH]; intros out mm out' b Haf E; [discriminate|]. cbn [HandleNetmail] in E.
  apply (handle_grows cfg (fun e => forall m, e = NvNew m -> asks_nothing m)) in E; auto.
  - destruct E as (evs & -> & H). exists evs. split; auto. rewrite Forall_forall in H. intros m Hin. apply (H _ Hin). auto.
  - intros e He m ->. destruct He. exists m. auto.
  - intros o m o' b' Hm E'. apply IH in E'; auto. destruct E' as (evs & -> & H). exists (NvNew m :: evs). rewrite <- app_assoc. split; [auto|].
    constructor. { intros x Ex. assert (x = m) by congruence. subst x. destruct Hm as [(_ & Hm)|Hm]; auto. }
    apply Forall_forall. intros e He x ->. auto.
Qed.
Print Assumptions C24_created.

(** Handling comes to an end: three levels of messages created in answer to messages are
    always enough, and any solution of the program's recursion gives the same result. *)
Theorem C24_depth : forall cfg, areafix_marks cfg ->
  (forall n out mm, HandleNetmail (S (S (S n))) cfg out mm = HandleNetmail 3 cfg out mm) /\
  forall h, (forall out mm, h out mm = HandleNetmail1 cfg h out mm) -> forall out mm, h out mm = HandleNetmail 3 cfg out mm.
Proof.
  intros cfg Haf. assert (HX : forall s1 s2, (forall o m, s1 o m = s2 o m) -> forall out mm, HandleNetmail1 cfg s1 out mm = HandleNetmail1 cfg s2 out mm).
  { intros s1 s2 H out mm. apply handle_any; auto. intros o m _. apply H. }
  split.
  - intros n out mm. cbn [HandleNetmail]. apply depth3; auto.
  - intros h Hh out mm. cbn [HandleNetmail]. rewrite Hh, (HX h (HandleNetmail1 cfg h) Hh).
    rewrite (HX (HandleNetmail1 cfg h) (HandleNetmail1 cfg (HandleNetmail1 cfg h)) (HX h _ Hh)). apply depth3; auto.
Qed.
Print Assumptions C24_depth.

(** Receipts are not marked as generated (the mark is put on the message that asked for the
    receipt): a receipt that cannot be delivered is bounced, to the writer of the receipt. *)
Theorem C24_receipt_refuted : exists cfg mm a b rest, areafix_marks cfg /\
  HandleNetmail 3 cfg [] mm = Some (NvImport (lit "NETMAIL") (set_Attr mm (Z.land (Z.lor (Attr mm) FLAG_SENT) (65535 - FLAG_LOCAL))) :: NvNew a :: NvNew b :: rest, true) /\
  Subject a = lit "Receipt" /\ flag (Flags a) MMFLAG_AUTOGEN = false /\ Subject b = lit "Bounced message" /\ sameaddr (DestNode b) (OrigNode a).
Proof.
  exists (ncfg1 CFG_ANSWERRECEIPT LOOP_IGNORE nroutes), (nmsg (N4 2 999 1 0) (N4 2 200 1 0) (FLAG_PVT + FLAG_RREQ) MMFLAG_TOSSED [lit "Hello" ++ [13]]).
  eexists _, _, _. split; [intros m; constructor|]. split; [vm_compute; reflexivity|]. vm_compute. auto 10.
Qed.
Print Assumptions C24_receipt_refuted.

Example C24_nonvacuous : areafix_marks (ncfg1 0 LOOP_IGNORE nroutes) /\
  let mm := nmsg (N4 2 5 1 0) (N4 2 999 1 3) FLAG_PVT (MMFLAG_TOSSED + MMFLAG_AUTOGEN) [lit "Hello"] in
  marked mm /\ HandleNetmail 3 (ncfg1 0 LOOP_IGNORE nroutes) [] mm = Some ([], true).
Proof. split; [intros m; constructor|]. split; [repeat split|vm_compute; reflexivity]. Qed.
