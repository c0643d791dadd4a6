(** C65: the lists, the help and the requests AreaFix sends. *)
From Coq Require Import Permutation Sorted.
From Verif Require Import Base M_Node4D S_Node4D M_Pat S_Pat P_Pat M_Str M_Mem P_Mem M_Cfg M_Pkt M_Filter P_Filter M_Net S_Net P_Net M_Echo M_Areafix M_Out M_List S_List M_Msg M_AfList S_AfList P_AfList.
From Verif Require P_Args.

(** An answer of any number of lines is sent completely and in order. It is divided into
    messages that are as high as allowed; each says where it goes on, has the addresses in
    its text, and from the second on its number in the subject. *)
Theorem C65_parts : forall flags max handle date fn o tn d subj ls,
  keeps_header handle -> 0 <= max < 4294967296 ->
  Forall (fun l => (length l <= 198)%nat /\ hd 0 l <> 1) ls -> Z.of_nat (length ls) + 4 < 4294967296 ->
  exists ms, reply flags max handle date fn o tn d subj ls = Some ms /\ answer max (Z.testbit flags 3) fn o tn d subj date ls ms.
Proof.
  intros flags max handle date fn o tn d subj ls Hk Hm Hf Hb.
  rewrite <- (flag_testbit flags 3) by lia. change (2 ^ 3) with CFG_FORCEINTL. apply reply_ok; auto.
Qed.
Print Assumptions C65_parts.

(** The list of areas: every area the node may see is there exactly once and nothing else,
    ordered by group and name, with the right marks, traffic and totals. *)
Theorem C65_list : forall max handle date qsort sysop names cfg day areas t from toname c i,
  keeps_header handle -> 0 <= max < 4294967296 -> sorts qsort -> setup_fine names cfg day areas i -> valid4d from ->
  Z.of_nat (length (contents cfg day areas t c i)) < 32768 ->
  exists ms gs, rawSendList (fc_flags cfg) max handle date qsort sysop names cfg day areas t from toname c i = Some ms /\
    arranged gs /\ Permutation (concat (map snd gs)) (contents cfg day areas t c i) /\
    answer max (Z.testbit (fc_flags cfg) 3) sysop from toname (cn_node c) (lit "AreaFix list of areas") date (listtext names t from gs) ms.
Proof.
  intros max handle date qsort sysop names cfg day areas t from toname c i Hk Hm Hq Hs Hv Hc.
  pose proof (collected_ok names t cfg day c i areas Hs) as E. unfold rawSendList. cbv zeta. set (l := collected t cfg day c i areas) in *.
  assert (Hf : Forall efine l).
  { apply Forall_forall. intros e He. assert (In (torow e) (contents cfg day areas t c i)) by (rewrite <- E; apply in_map; exact He). apply (contents_fine _ _ _ _ _ _ _ _ Hs H). }
  destruct (sorted_ok qsort l Hq Hf) as [Hp Hst]. set (es := qsort CompareAreas l) in *.
  assert (Hfe : Forall efine es) by (rewrite Forall_forall in *; intros x Hx; apply Hf; eapply Permutation_in; eauto).
  destruct (allrows_ok names t es Hfe Hst) as (gs & Er & Ha & Erow). rewrite Erow. cbn [obind].
  assert (Hpc : Permutation (concat (map snd gs)) (contents cfg day areas t c i)) by (rewrite <- Er, <- E; apply Permutation_map; exact Hp).
  assert (Hn : Z.of_nat (length (concat (map snd gs))) < 32768) by (rewrite (Permutation_length Hpc); exact Hc).
  assert (Et : headlines t from ++ blanklines (map (grouptext names t) gs) ++ taillines t es = listtext names t from gs).
  { rewrite tail_ok by (rewrite <- (map_length torow), Er; exact Hn). rewrite Er. reflexivity. }
  rewrite Et.
  destruct (C65_parts (fc_flags cfg) max handle date sysop from toname (cn_node c) (lit "AreaFix list of areas") (listtext names t from gs) Hk Hm) as (ms & E1 & A).
  - apply list_short; auto. apply (sf_names _ _ _ _ _ Hs).
  - apply list_count; auto.
  - exists ms, gs. auto.
Qed.
Print Assumptions C65_list.

(** What the list says of an area of this system, it says of one that the node may see; in
    particular areas of groups that the node has no access to are not disclosed. *)
Theorem C65_undisclosed : forall cfg day areas t c i w a, In w (contents cfg day areas t c i) -> In a areas -> map tolower (w_tag w) = map tolower (ar_tag (la_ar a)) ->
  exists b, In b areas /\ w = localrow day i b /\ ar_type (la_ar b) = AREATYPE_ECHOMAIL /\
    (islinked i b = true \/ In (ar_group (la_ar b)) (cn_groups c) \/ In (ar_group (la_ar b)) (cn_rogroups c)).
Proof.
  intros cfg day areas t c i w a Hw Ha Ht. unfold contents in Hw. apply in_app_iff in Hw as [H|H].
  - apply in_map_iff in H as (b & <- & H). apply filter_In in H as [H Hs]. exists b. split; [exact H|]. split; [reflexivity|].
    unfold sees in Hs. apply andb_prop in Hs as [H1 H2]. split; [apply Z.eqb_eq; exact H1|].
    assert (K : islinked i b = true \/ allowed c (ar_group (la_ar b)) = true).
    { destruct t; [auto| |apply orb_prop in H2; exact H2]. apply andb_prop in H2. right. apply H2. }
    destruct K as [K|K]; [auto|]. right. unfold allowed in K. apply existsb_exists in K as (x & Hx & K). apply Z.eqb_eq in K. subst x. apply in_app_iff in Hx. exact Hx.
  - exfalso. unfold forwarded in H. destruct (_ && _); [|destruct H].
    assert (G : forall ws k, In w (unknown k ws) -> existsb (streqi (w_tag w)) k = false).
    { induction ws as [|x ws IH]; intros k Hin; [destruct Hin|]. cbn [unknown] in Hin. destruct (existsb (streqi (w_tag x)) k) eqn:E; [auto|].
      destruct Hin as [->|Hin]; [exact E|]. specialize (IH _ Hin). cbn [existsb] in IH. apply orb_false_iff in IH. apply IH. }
    apply G in H. apply Bool.not_true_iff_false in H. apply H. apply existsb_exists. exists (ar_tag (la_ar a)). split; [apply in_map_iff; eauto|].
    apply P_Args.streqi_spec. exact Ht.
Qed.
Print Assumptions C65_undisclosed.

(** The list goes out under the address of the first route that leads to the node, to the
    operator named in its configuration; without a route nothing goes out. *)
Theorem C65_sent : forall nl max handle date qsort sysop names cfg day areas t c i, nl_ok nl -> valid4d (cn_node c) ->
  (forall r, first_route nl (fc_routes cfg) (cn_node c) r ->
     DoSendAFList (fc_flags cfg) max handle date nl qsort sysop names cfg day areas t c i =
     rawSendList (fc_flags cfg) max handle date qsort sysop names cfg day areas t (ak_node (rt_aka r)) (cn_sysop c) c i) /\
  (no_route nl (fc_routes cfg) (cn_node c) -> DoSendAFList (fc_flags cfg) max handle date nl qsort sysop names cfg day areas t c i = Some []).
Proof.
  intros nl max handle date qsort sysop names cfg day areas t c i Hn Hv. unfold DoSendAFList. split.
  - intros r H. apply findroute_some in H; auto. rewrite H. reflexivity.
  - intros H. apply findroute_none in H; auto. rewrite H. reflexivity.
Qed.
Print Assumptions C65_sent.

(** A help file of lines of at most 98 characters is sent as it is. *)
Theorem C65_help : forall flags max handle date sysop ls from toname c,
  keeps_header handle -> 0 <= max < 4294967296 -> Forall helpline ls -> Z.of_nat (length ls) + 4 < 4294967296 ->
  exists ms, rawSendHelp flags max handle date sysop (Some (lines_lf ls)) from toname c = Some ms /\
    answer max (Z.testbit flags 3) sysop from toname (cn_node c) (lit "AreaFix help") date ls ms.
Proof.
  intros flags max handle date sysop ls from toname c Hk Hm Hf Hb. unfold rawSendHelp, helplines. rewrite help_ok; auto.
  - apply C65_parts; auto. eapply Forall_impl; [|exact Hf]. intros l (_ & H & H'). split; [lia|exact H'].
  - clear. unfold lines_lf. induction ls as [|l ls IH]; [reflexivity|]. cbn [map concat length]. rewrite !app_length. cbn [length]. lia.
Qed.
Print Assumptions C65_help.
(** The last line loses its last character if the file does not end in a line end, and so
    does every piece of 99 characters of a longer line. *)
Theorem C65_help_refuted : exists file ms m, rawSendHelp 0 0 (fun _ m => m) (fun _ => []) (lit "Op") (Some file) (N4 0 1 1 0) (lit "Joe") cn0 = Some ms /\ In m ms /\
  file = lit "Send a netmail to AreaFix" /\ mmtext m = lit "Send a netmail to AreaFi" ++ [13].
Proof.
  exists (lit "Send a netmail to AreaFix"). do 2 eexists. split; [vm_compute; reflexivity|]. split; [left; reflexivity|]. split; [reflexivity|]. vm_compute. reflexivity.
Qed.
Print Assumptions C65_help_refuted.
(** A limit below five is not kept: with a limit of four there are messages of five lines. *)
Theorem C65_limit_refuted : exists ls ms, reply 0 4 (fun _ m => m) (fun _ => []) (lit "Op") (N4 2 1 1 0) (lit "Joe") (N4 2 1 2 0) (lit "List") ls = Some ms /\
  length ls = 4%nat /\ exists m, In m ms /\ length (filter (Z.eqb 13) (mmtext m)) = 5%nat.
Proof.
  exists [lit "a"; lit "b"; lit "c"; lit "d"]. eexists. split; [vm_compute; reflexivity|]. split; [reflexivity|].
  eexists. split; [right; left; reflexivity|]. vm_compute. reflexivity.
Qed.
Print Assumptions C65_limit_refuted.

(** Commands queued for other systems go out in one message per system, to its AreaFix with
    its password, from the address of the first route to it; afterwards nothing is queued. *)
Lemma tid_line m : Area m = [] -> chunks_ok (TextChunks m) -> exists cs, mmAddLine m TID = Some (set_TextChunks m cs) /\ chunks_ok cs /\ concat (rev cs) = mmtext m ++ TID.
Proof.
  intros Ha Hc. apply (netline_kludge m (lit "TID: CrashMail II/Linux 1.5.1" ++ [13]) m Ha Hc).
  unfold ProcessKludge, pk_rescanned, pk_msgid, pk_reply, pk_fmpt, pk_topt, pk_intl. cbn -[Area]. rewrite Ha. reflexivity.
Qed.
Lemma cmds_lines cmds : Forall (fun s => hd 0 s <> 1) cmds -> forall m, Area m = [] -> chunks_ok (TextChunks m) ->
  exists cs, mmAddLines m (map (fun s => s ++ [13]) cmds) = Some (set_TextChunks m cs) /\ chunks_ok cs /\ concat (rev cs) = mmtext m ++ crs cmds.
Proof.
  induction 1 as [|s cmds Hs Hl IH]; intros m Ha Hc.
  - exists (TextChunks m). split; [destruct m; reflexivity|]. split; [exact Hc|]. unfold crs. cbn. rewrite app_nil_r. reflexivity.
  - cbn [map mmAddLines]. destruct (netline_text m (s ++ [13]) Ha Hc) as (cs & E & Hcs & T); [intros r X; destruct s; cbn in *; congruence|]. rewrite E. cbn [obind].
    destruct (IH (set_TextChunks m cs) Ha Hcs) as (cs' & E' & Hcs' & T'). rewrite E'. exists cs'. split; [reflexivity|]. split; [exact Hcs'|].
    rewrite T'. unfold mmtext at 1. cbn [TextChunks set_TextChunks]. rewrite T, <- app_assoc. reflexivity.
Qed.
Lemma remote1 flags date nl sysop routes k c cmds r : findroute nl routes (cn_node c) = Some r -> Forall (fun s => hd 0 s <> 1) cmds ->
  exists m, remotemsg flags date nl sysop routes k c cmds = Some m /\ is_request (Z.testbit flags 16) (Z.testbit flags 3) sysop (ak_node (rt_aka r)) c cmds m.
Proof.
  intros Hr Hc. unfold remotemsg. rewrite Hr. cbn [obind].
  edestruct begin_ok as (c1 & E1 & H1 & T1); [|rewrite E1; cbn [obind]]; [constructor|]. clear E1.
  set (m1 := set_TextChunks _ c1). cbn [OrigNode DestNode] in T1.
  assert (X : exists c2, (if flag flags CFG_ADDTID then mmAddLine m1 TID else Some m1) = Some (set_TextChunks m1 c2) /\ chunks_ok c2 /\ concat (rev c2) = concat (rev c1) ++ (if Z.testbit flags 16 then TID else [])).
  { change CFG_ADDTID with (2 ^ 16). rewrite flag_testbit by lia. destruct (Z.testbit flags 16).
    - destruct (tid_line m1 eq_refl H1) as (c2 & E2 & H2 & T2). exists c2. auto.
    - exists c1. rewrite app_nil_r. auto. }
  destruct X as (c2 & E2 & H2 & T2). rewrite E2. cbn [obind]. clear E2.
  destruct (cmds_lines cmds Hc (set_TextChunks m1 c2) eq_refl H2) as (c3 & E3 & H3 & T3). rewrite E3. cbn [obind]. clear E3.
  destruct (netline_text (set_TextChunks (set_TextChunks m1 c2) c3) genline eq_refl H3 ltac:(discriminate)) as (c4 & E4 & H4 & T4). rewrite E4.
  eexists. split; [reflexivity|]. constructor; cbn [From To OrigNode DestNode Area Subject set_TextChunks set_Flags set_DateTime m1]; auto.
  unfold mmtext in *. cbn [TextChunks set_TextChunks] in *. rewrite T4, T3, T2, T1. change (2 ^ 3) with CFG_FORCEINTL. rewrite <- (flag_testbit flags 3) by lia.
  unfold mmtext. cbn [TextChunks concat rev app]. rewrite <- !app_assoc. reflexivity.
Qed.
Theorem C65_remote : forall flags date nl sysop routes ns k, nl_ok nl ->
  Forall (fun n => snd n <> [] -> valid4d (cn_node (fst n)) /\ (exists r, first_route nl routes (cn_node (fst n)) r) /\ Forall (fun s => hd 0 s <> 1) (snd n)) ns ->
  exists ms, SendRemoteAreafix flags date nl sysop routes k ns = Some (map (fun _ => []) ns, ms) /\
    Forall2 (fun n m => exists r, first_route nl routes (cn_node (fst n)) r /\
               is_request (Z.testbit flags 16) (Z.testbit flags 3) sysop (ak_node (rt_aka r)) (fst n) (snd n) m)
      (filter (fun n => match snd n with [] => false | _ => true end) ns) ms.
Proof.
  intros flags date nl sysop routes ns k Hn. revert k. induction ns as [|[c cmds] ns IH]; intros k H; [exists []; split; [reflexivity|constructor]|].
  inversion H as [|? ? H1 H2]; subst. cbn [SendRemoteAreafix filter snd map fst] in *. destruct cmds as [|s0 cmds0].
  { destruct (IH k H2) as (ms & E & F). rewrite E. cbn [obind fst snd]. exists ms. auto. }
  destruct (H1 ltac:(discriminate)) as (Hv & (r & Hr) & Hf). pose proof Hr as Hr'. apply findroute_some in Hr'; auto.
  destruct (remote1 flags date nl sysop routes k c (s0 :: cmds0) r Hr' Hf) as (m & Em & Q). rewrite Em. cbn [obind].
  destruct (IH (S k) H2) as (ms & E & F). rewrite E. cbn [obind fst snd]. exists (m :: ms). split; [reflexivity|]. constructor; auto. exists r. auto.
Qed.
Print Assumptions C65_remote.
(** Without a route to the system the program reads through a null pointer. *)
Theorem C65_remote_refuted : forall flags date nl sysop routes k c s cmds rest, nl_ok nl -> valid4d (cn_node c) -> no_route nl routes (cn_node c) ->
  SendRemoteAreafix flags date nl sysop routes k ((c, s :: cmds) :: rest) = None.
Proof.
  intros flags date nl sysop routes k c s cmds rest Hn Hv H. apply findroute_none in H; auto. cbn [SendRemoteAreafix]. unfold remotemsg. rewrite H. reflexivity.
Qed.
Print Assumptions C65_remote_refuted.

(** A node with access to groups A (reading only) and B asks for the list of available
    areas. It is linked to AFTER and feeds BEFORE; CARS it may link to, DARK it may not.
    Two areas can be requested from another system, one of them with a description. *)
Definition xnode : cnode := CN (N4 2 203 2 0) [] [] (lit "B") (lit "A") [] 0 16 (lit "Joe") (N4 0 0 0 0) [] [].
Definition xarea (tag : list Z) (g : Z) (tns : list tossnode) (first : Z) : larea :=
  LA (AR tag AREATYPE_ECHOMAIL 0 g (AKA (N4 2 203 1 0) [] [] []) tns true) (lit "About it") 30 [5; 7; 7; 7; 0; 0; 0; 0] first.
Lemma xarea_fine tag g tns first : cstring tag -> group_ok g -> (length (filter (fun t => Nat.eqb (tn_node t) 0) tns) <= 1)%nat -> first = 0 \/ first = 864000 -> area_fine 20 0 (xarea tag g tns first).
Proof.
  intros H1 H2 H3 H4. constructor; unfold xarea; cbn [la_ar la_texts la_last8 la_first ar_tag ar_group ar_tn]; auto; try lia. repeat constructor; lia.
Qed.
Definition xareas : list larea :=
  [xarea (lit "CARS") 66 [TN 1 0] 864000; xarea (lit "BEFORE") 65 [TN 1 0; TN 0 4] 0; xarea (lit "DARK") 67 [] 0; xarea (lit "AFTER") 65 [TN 0 0] 864000].
Definition xcfg : afcfg := AFC 8388608 [] [] [] [AL 0 3 66 (Some [lit "birds  All about birds" ++ [10]; lit "cars  No" ++ [10]; [10]; lit "Birds" ++ [10]])].
Definition xnames : list (list Z) := [lit "Local"; lit "Regional"].
Definition xhandle (l : list memmsg) (m : memmsg) : memmsg := set_TextChunks m [lit "changed"].
Example C65_nonvacuous : keeps_header xhandle /\ sorts (@isort sentry) /\ setup_fine xnames xcfg 20 xareas 0 /\ valid4d (N4 2 203 1 0) /\
  map w_tag (contents xcfg 20 xareas LFull xnode 0) = [lit "CARS"; lit "BEFORE"; lit "AFTER"; lit "birds"] /\
  exists m1 m2, rawSendList 8388608 13 xhandle (fun _ => []) (@isort sentry) (lit "Op") xnames xcfg 20 xareas LFull (N4 2 203 1 0) (lit "Joe") xnode 0 = Some [m1; m2] /\
    Subject m2 = lit "AreaFix list of areas (part 2)" /\
    mmtext m1 = crs [lit "This is a list of all available areas at 2:203/1.0:"; []; lit " Group: Local"; [];
                     lit " Tagname                       Description                         KB/week";
                     lit " ----------------------------  ---------------------------------   -------";
                     lit "*AFTER                         About it                                  3";
                     lit "%BEFORE                        About it                                  ?"; [];
                     lit " Group: Regional"; []; []; lit "(Continued in next message)"] /\
    mmtext m2 = crs [lit "(Continued from previous message)"; [];
                     lit " Tagname                       Description                         KB/week";
                     lit " ----------------------------  ---------------------------------   -------";
                     lit " birds                         All about birds                           ?";
                     lit " CARS                          About it                                  3"; [];
                     lit "Totally 4 areas, you are connected to 2 of them."; lit "A '*' means that you are connected to the area."; lit "A '%' means that you are the feed for the area."].
Proof.
  assert (C : forall l, forallb (fun c => (1 <=? c) && (c <? 256)) l = true -> cstring l).
  { intros l H. unfold cstring. apply Forall_forall. intros c Hc. rewrite forallb_forall in H. specialize (H c Hc). lia. }
  split; [intros l m; repeat split|]. split; [apply isort_sorts|]. split.
  { constructor; unfold xareas, xnames, xcfg; cbn [fc_alists].
    - repeat (apply Forall_cons; [apply xarea_fine; [apply C; reflexivity|unfold group_ok; lia|cbn; lia|auto]|]). apply Forall_nil.
    - repeat (apply Forall_cons; [cbn; lia|]). apply Forall_nil.
    - apply Forall_cons; [|apply Forall_nil]. split; [unfold group_ok; cbn; lia|]. cbn [al_lines]. repeat (apply Forall_cons; [apply C; reflexivity|]). apply Forall_nil. }
  split; [repeat split; cbn; lia|]. split; [vm_compute; reflexivity|].
  do 2 eexists. split; [vm_compute; reflexivity|]. split; [vm_compute; reflexivity|]. split; vm_compute; reflexivity.
Qed.
