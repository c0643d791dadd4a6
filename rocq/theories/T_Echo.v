(** Theorems about echomail: C18 to C21. *)
From Verif Require Import Base M_Node4D S_Node4D P_Node4D M_Pat M_Str M_Mem S_Mem P_Mem M_Cfg M_Pkt S_Pkt P_Pkt M_Crc M_Dupe S_Dupe P_Dupe T_Dupe M_Echo S_Echo P_Echo.

(** ** C18: who may write. *)

(** C18: whatever comes in, either the message belongs to a confirmed area and the sender
    is linked to it for writing (or the message needs no check), or nothing happens but, at
    most, one import into a BAD area: no message is sent, no other import happens, and the
    duplicate database stays as it was. *)
Theorem C18_authorised : forall cfg flt st mm st' ok, HandleEchomail cfg flt st mm = Some (st', ok) ->
  exists evs, es_out st' = es_out st ++ evs /\
  ((exists a, area_of (es_areas st') (Area mm) a /\ confirmed a /\ (waived mm \/ may_write cfg a (PktOrig mm))) \/
   (bad_events (es_areas st') mm evs /\ es_dupes st' = es_dupes st /\ es_insb st' = es_insb st /\ ok = true)).
Proof.
  intros cfg flt st mm st' ok. unfold HandleEchomail, getarea. cbn [Area PktOrig PktDest Flags set_Type].
  assert (Htoss : forall s a m r, tossecho cfg flt s a m = Some r -> es_areas (fst r) = es_areas s /\ exists evs, es_out (fst r) = es_out s ++ evs).
  { intros s a m r. unfold tossecho. set (p := if _ || _ then _ else _). destruct p as [p|]; [|discriminate]. cbn [obind]. set (q := if _ && _ && _ then _ else _).
    destruct q as [[[|] db]|]; [| |discriminate]; cbn [obind].
    - intros E. injection E as <-. cbn [fst es_areas es_out]. eauto.
    - destruct (deliver _ _ _ _ _) as [d|]; [|discriminate]. cbn [obind]. intros E. injection E as <-. cbn [fst es_areas es_out]. eauto. }
  assert (Hrest : forall s a, find (fun a => streqi (ar_tag a) (Area mm)) (es_areas s) = Some a -> es_out s = es_out st -> es_dupes s = es_dupes st -> es_insb s = es_insb st ->
    (if flag (ar_flags a) AREA_UNCONFIRMED then bad s (set_Type mm PKTS_ECHOMAIL) (lit "Unknown area (auto-added but not confirmed)") else
     if negb (flag (Flags mm) MMFLAG_EXPORTED) && negb (flag (Flags mm) MMFLAG_NOSECURITY) then
      match find (fun t => Compare4D (tnnode cfg t) (PktOrig mm) =? 0) (ar_tn a) with
      | None => bad s (set_Type mm PKTS_ECHOMAIL) (lit "Node does not receive this area")
      | Some t => if flag (tn_flags t) TOSSNODE_READONLY then bad s (set_Type mm PKTS_ECHOMAIL) (lit "Node is not allowed to write in this area")
                  else tossecho cfg flt s a (set_Type mm PKTS_ECHOMAIL)
      end
     else tossecho cfg flt s a (set_Type mm PKTS_ECHOMAIL)) = Some (st', ok) ->
    exists evs, es_out st' = es_out st ++ evs /\
    ((exists a, area_of (es_areas st') (Area mm) a /\ confirmed a /\ (waived mm \/ may_write cfg a (PktOrig mm))) \/
     (bad_events (es_areas st') mm evs /\ es_dupes st' = es_dupes st /\ es_insb st' = es_insb st /\ ok = true))).
  { intros s a Hf Ho Hd Hi.
    assert (Hbad : forall reason, bad s (set_Type mm PKTS_ECHOMAIL) reason = Some (st', ok) -> exists evs, es_out st' = es_out st ++ evs /\
      bad_events (es_areas st') mm evs /\ es_dupes st' = es_dupes st /\ es_insb st' = es_insb st /\ ok = true).
    { intros reason E. unfold bad in E. injection E as <- <-. cbn [es_out es_areas es_dupes es_insb]. rewrite Ho. eexists. split; [reflexivity|]. split; [|auto].
      destruct (WriteBad_spec (es_areas s) (set_Type mm PKTS_ECHOMAIL) reason) as [[->|(b & m & H1 & H2 & -> & H3)] _]; [left; auto|right; exists b, m; auto]. }
    destruct (flag (ar_flags a) AREA_UNCONFIRMED) eqn:Ec. { intros E. destruct (Hbad _ E) as (evs & H1 & H2). eauto. }
    assert (Ht : tossecho cfg flt s a (set_Type mm PKTS_ECHOMAIL) = Some (st', ok) -> (waived mm \/ may_write cfg a (PktOrig mm)) ->
      exists evs, es_out st' = es_out st ++ evs /\ ((exists a, area_of (es_areas st') (Area mm) a /\ confirmed a /\ (waived mm \/ may_write cfg a (PktOrig mm))) \/
     (bad_events (es_areas st') mm evs /\ es_dupes st' = es_dupes st /\ es_insb st' = es_insb st /\ ok = true))).
    { intros E Hw. destruct (Htoss _ _ _ _ E) as (H1 & evs & H2). cbn [fst] in H1, H2. exists evs. split; [congruence|]. left. exists a.
      split; [apply area_of_find; congruence|]. auto. }
    destruct (flag (Flags mm) MMFLAG_EXPORTED) eqn:Ee; cbn [negb andb]. { intros E. apply Ht; auto. left. left. auto. }
    destruct (flag (Flags mm) MMFLAG_NOSECURITY) eqn:En; cbn [negb andb]. { intros E. apply Ht; auto. left. right. auto. }
    rewrite find_link. destruct (find _ (ar_tn a)) as [t|] eqn:Ef.
    - apply find_some in Ef as [H1 H2]. apply sameaddrb_spec in H2. destruct (flag (tn_flags t) TOSSNODE_READONLY) eqn:Er.
      + intros E. destruct (Hbad _ E) as (evs & H3 & H4). eauto.
      + intros E. apply Ht; auto. right. exists t. auto.
    - intros E. destruct (Hbad _ E) as (evs & H3 & H4). eauto. }
  destruct (find _ (es_areas st)) as [a|] eqn:Ef; cbn [obind]; [apply Hrest; auto|].
  destruct (AddArea _ _ _ _ _ _ _) as [a|] eqn:Ea; [|discriminate]. cbn [obind]. apply Hrest; auto. cbn [es_areas].
  assert (Etag : ar_tag a = Area mm).
  { unfold AddArea in Ea. destruct (match findnode _ _ _ with Some _ => _ | None => _ end); [|discriminate]. destruct (findidx _ _ _); injection Ea as <-; reflexivity. }
  clear Ea. apply no_area_find in Ef. induction Ef as [|x l Hx Hl IH]; cbn [app find]; [rewrite Etag, streqi_refl; reflexivity|]. rewrite Hx. exact IH.
Qed.
Print Assumptions C18_authorised.

(** C18: a message of someone who may not write in its area is put into the BAD area once,
    with its header and its text, when the configuration has one. *)
Theorem C18_refused_is_kept : forall cfg flt st mm a, area_of (es_areas st) (Area mm) a ->
  ~ (confirmed a /\ (waived mm \/ may_write cfg a (PktOrig mm))) ->
  (exists b, In b (es_areas st) /\ ar_type b = AREATYPE_BAD) -> (forall b, In b (es_areas st) -> ar_type b = AREATYPE_BAD -> ar_mb b = true) ->
  exists evs, HandleEchomail cfg flt st mm = Some (ES (es_areas st) (es_insb st) (es_dupes st) (es_out st ++ evs), true) /\ bad_import (es_areas st) mm evs.
Proof.
  intros cfg flt st mm a Ha Hn Hb1 Hb2.
  assert (Hbad : forall reason, exists evs, bad st (set_Type mm PKTS_ECHOMAIL) reason = Some (ES (es_areas st) (es_insb st) (es_dupes st) (es_out st ++ evs), true) /\ bad_import (es_areas st) mm evs).
  { intros reason. unfold bad. eexists. split; [reflexivity|]. destruct (WriteBad_spec (es_areas st) (set_Type mm PKTS_ECHOMAIL) reason) as [_ H]. destruct (H Hb1 Hb2) as (b & m & H1 & H2 & -> & H3). exists b, m; auto. }
  unfold HandleEchomail, getarea. cbn [Area PktOrig PktDest Flags set_Type]. apply area_of_find in Ha. rewrite Ha. cbn [obind].
  destruct (flag (ar_flags a) AREA_UNCONFIRMED) eqn:Ec; [apply Hbad|].
  destruct (flag (Flags mm) MMFLAG_EXPORTED) eqn:Ee; cbn [negb andb]. { exfalso. apply Hn. split; [exact Ec|]. left. left. auto. }
  destruct (flag (Flags mm) MMFLAG_NOSECURITY) eqn:En; cbn [negb andb]. { exfalso. apply Hn. split; [exact Ec|]. left. right. auto. }
  rewrite find_link. destruct (find _ (ar_tn a)) as [t|] eqn:Ef; [|apply Hbad].
  apply find_some in Ef as [H1 H2]. apply sameaddrb_spec in H2. destruct (flag (tn_flags t) TOSSNODE_READONLY) eqn:Er; [apply Hbad|].
  exfalso. apply Hn. split; [exact Ec|]. right. exists t. auto.
Qed.
Print Assumptions C18_refused_is_kept.

(** C18: an area nobody has configured is only set up for use when the sender is a node
    with the AUTOADD flag; for anybody else the message is at most put into the BAD area,
    and the new area is marked as not confirmed. *)
Theorem C18_unknown_area : forall cfg flt st mm st' ok, no_area (es_areas st) (Area mm) ->
  HandleEchomail cfg flt st mm = Some (st', ok) ->
  (exists c, In c (ec_nodes cfg) /\ sameaddr (cn_node c) (PktOrig mm) /\ flag (cn_flags c) NODE_AUTOADD = true) \/
  (exists a evs, es_areas st' = es_areas st ++ [a] /\ ar_tag a = Area mm /\ ~ confirmed a /\
    es_out st' = es_out st ++ evs /\ bad_events (es_areas st') mm evs /\ es_dupes st' = es_dupes st).
Proof.
  intros cfg flt st mm st' ok Hno. unfold HandleEchomail, getarea. cbn [Area PktOrig PktDest Flags set_Type]. apply no_area_find in Hno. rewrite Hno.
  set (act := match findnode _ _ _ with Some _ => _ | None => _ end). destruct act eqn:Ea; unfold act in Ea; clear act.
  - intros _. left. destruct (findnode cn_node (PktOrig mm) (ec_nodes cfg)) as [c|] eqn:Ef; [|discriminate]. exists c. clear -Ef Ea.
    unfold findnode in Ef. apply find_some in Ef as [H1 H2]. split; auto. split; auto. apply Z.eqb_eq in H2. rewrite compare_zero_iff in H2. unfold sameaddr. tauto.
  - destruct (AddArea _ _ _ _ _ _ _) as [a|] eqn:Ead; [|discriminate]. cbn [obind]. intros E. right.
    assert (Hx : ar_tag a = Area mm /\ flag (ar_flags a) AREA_UNCONFIRMED = true).
    { unfold AddArea in Ead. destruct (match findnode ak_node _ _ with Some _ => _ | None => _ end); [|discriminate]. destruct (findidx _ _ _); injection Ead as <-; split; reflexivity. }
    destruct Hx as [Ht Hu]. rewrite Hu in E. unfold bad in E. injection E as <- <-. cbn [es_areas es_out es_dupes]. eexists a, _. repeat split; auto.
    + unfold confirmed. congruence.
    + match goal with |- bad_events ?l _ _ => destruct (WriteBad_spec l (set_Type mm PKTS_ECHOMAIL) (lit "Unknown area (auto-added but not confirmed)")) as [[->|(b & m & H1 & H2 & -> & H3)] _] end; [left; auto|right; exists b, m; auto].
Qed.
Print Assumptions C18_unknown_area.

(** Finding: without a BAD area such a message is lost. *)
Definition tcn (n : node4d) (fl : Z) : cnode := CN n [] [] [] [] [] 0 fl [] null4d [] [].
Definition takaA : aka := AKA (N4 2 201 505 0) [] [N4 2 201 1 0] [].
Definition tcfg (fl mode : Z) : ecfg := EC fl [takaA] [tcn (N4 2 201 100 0) 0; tcn (N4 2 201 200 0) 0; tcn (N4 2 201 300 0) 0; tcn (N4 2 201 505 7) 0] mode 10.
Definition tarea : area := AR (lit "TEST") AREATYPE_ECHOMAIL 0 0 takaA [TN 0 0; TN 1 0; TN 2 0; TN 3 0] true.
Definition tbad : area := AR (lit "BAD") AREATYPE_BAD 0 0 takaA [] true.
Definition tst (areas : list area) : est := ES areas (fun _ => false) newdb [].
Definition tmm (from : node4d) (msgid : list Z) (sb : nodes2d) : memmsg :=
  MM (N4 2 201 100 0) (N4 2 201 505 0) from (N4 2 201 505 0) null4d (lit "test") (lit "All") (lit "Me") (lit "Hi") (lit "01 Jan 20  10:00:00")
     msgid [] 0 0 0 MMFLAG_TOSSED [lit "Hello" ++ [13]] sb [lit "201/100"].
Definition noflt (m : memmsg) : option (memmsg * list ev) := Some (m, []).
Theorem C18_no_bad_area_refuted : exists cfg st mm st', HandleEchomail cfg noflt st mm = Some (st', true) /\ es_out st' = [] /\ es_areas st' = es_areas st /\
  (exists a, area_of (es_areas st) (Area mm) a) /\ flag (Flags mm) MMFLAG_TOSSED = true.
Proof.
  exists (tcfg 0 0), (tst [tarea]), (tmm (N4 2 5 5 0) [] []). eexists. split; [vm_compute; reflexivity|]. split; [reflexivity|]. split; [reflexivity|]. split; [|vm_compute; reflexivity].
  exists tarea. apply area_of_find. reflexivity.
Qed.
Print Assumptions C18_no_bad_area_refuted.
Example C18_nonvacuous :
  (exists st', HandleEchomail (tcfg 0 0) noflt (tst [tbad; tarea]) (tmm (N4 2 5 5 0) [] []) = Some (st', true) /\ imports (es_out st') = [lit "BAD"] /\ sends (es_out st') = []) /\
  (exists st', HandleEchomail (tcfg 0 0) noflt (tst [tbad; tarea]) (tmm (N4 2 201 100 0) [] []) = Some (st', true) /\ imports (es_out st') = [lit "TEST"] /\ sends (es_out st') = [1; 2; 3]%nat) /\
  (exists st', HandleEchomail (tcfg 0 0) noflt (tst [tbad]) (tmm (N4 2 201 100 0) [] []) = Some (st', true) /\ imports (es_out st') = [lit "BAD"] /\ length (es_areas st') = 2%nat).
Proof.
  split; [|split]; (eexists; split; [vm_compute; reflexivity|]; split; vm_compute; reflexivity).
Qed.

(** ** C19: who gets the message. *)

(** C19: an accepted message that is no duplicate and is let pass by the filters is written
    to every wanted link in the order of the configuration, and to nobody else, once per
    link, whatever the SEEN-BY and PATH lines it came with; it is imported into the area
    once (unless it was written here, or is ignored by a filter, or the area is passed
    through). *)
Theorem C19_recipients : forall cfg flt st mm a, area_of (es_areas st) (Area mm) a -> accepted cfg a mm -> passes flt ->
  flag (Flags mm) MMFLAG_KILL = false -> flag (Flags mm) MMFLAG_RESCANNED = false -> not_dupe cfg st a mm ->
  (flag (ec_flags cfg) CFG_CHECKSEENBY = false \/ flag (ar_flags a) AREA_IGNORESEENBY = false) ->
  strip_ok cfg mm -> cfg_ok cfg a -> pairs_ok (entries (SeenBy mm)) -> wfblocks (SeenBy mm) -> Forall cstring (Path mm) ->
  exists st' evs, HandleEchomail cfg flt st mm = Some (st', true) /\ es_out st' = es_out st ++ evs /\
    sends evs = map tn_node (filter (wanted cfg a mm) (ar_tn a)) /\
    imports evs = (if negb (flag (Flags mm) MMFLAG_TWIT) && negb (flag (Flags mm) MMFLAG_EXPORTED) && ar_mb a then [ar_tag a] else []).
Proof.
  intros cfg flt st mm a Ha Hacc Hf Hk Hr Hd Hig Hst Hc Hp Hw Hpath. rewrite (accepted_tossecho _ _ _ _ _ Ha Hacc).
  assert (Hpt : exists path, (if ownpath cfg a then AddNodePath (Path mm) (ak_node (ar_aka a)) else Some (Path mm)) = Some path).
  { destruct (ownpath cfg a); [apply AddNodePath_total; auto|eauto]. }
  destruct Hpt as (path & Ept).
  destruct (tossecho_sent cfg flt st a mm path Hc Hf Hst Hk Hr Hd Hp Hw Ept) as (st' & fev & sent & imp & insb & E & Eo & _ & Ei & H1 & H2 & H3 & H4).
  exists st', (fev ++ sent ++ imp). split; auto. split; auto. destruct (sends_F2 _ _ _ H3) as [S1 S2]. rewrite !sends_app, !imports_app, H1, H2, S1, S2. cbn [app].
  assert (Himp : sends imp = [] /\ imports imp = (if negb (flag (Flags mm) MMFLAG_TWIT) && negb (flag (Flags mm) MMFLAG_EXPORTED) && ar_mb a then [ar_tag a] else [])).
  { destruct (_ && _ && _); [destruct H4 as (m & -> & _)|subst imp]; auto. }
  destruct Himp as [-> ->]. split; [|reflexivity]. rewrite app_nil_r. f_equal. apply filter_ext_in. intros t Hin.
  unfold sendto, wanted, silent, listed. rewrite compare_same. rewrite negb_orb, !andb_assoc. f_equal. f_equal.
  rewrite (andb_comm (insb _)). destruct (flag (ec_flags cfg) CFG_CHECKSEENBY) eqn:Ecs; [|reflexivity]. cbn [andb] in *. f_equal.
  destruct Hig as [Hig|Hig]; [discriminate|]. rewrite Hig in Ei. cbn [negb] in Ei. rewrite Ei, setinsb_spec by auto. f_equal. unfold FindNodes2D, incoming.
  destruct (zone (ak_node (ar_aka a)) =? zone (PktOrig mm)); reflexivity.
Qed.
Print Assumptions C19_recipients.

(** C19: with every node linked once, nobody gets two copies; the sender never gets one. *)
Theorem C19_at_most_once : forall cfg flt st mm a, area_of (es_areas st) (Area mm) a -> accepted cfg a mm -> passes flt ->
  flag (Flags mm) MMFLAG_KILL = false -> flag (Flags mm) MMFLAG_RESCANNED = false -> not_dupe cfg st a mm ->
  (flag (ec_flags cfg) CFG_CHECKSEENBY = false \/ flag (ar_flags a) AREA_IGNORESEENBY = false) ->
  strip_ok cfg mm -> cfg_ok cfg a -> pairs_ok (entries (SeenBy mm)) -> wfblocks (SeenBy mm) -> Forall cstring (Path mm) ->
  NoDup (map tn_node (ar_tn a)) ->
  exists st' evs, HandleEchomail cfg flt st mm = Some (st', true) /\ es_out st' = es_out st ++ evs /\ NoDup (sends evs) /\
    (forall i, In i (sends evs) -> ~ sameaddr (PktOrig mm) (cn_node (getcn cfg i)) /\ exists t, In t (ar_tn a) /\ tn_node t = i).
Proof.
  intros cfg flt st mm a Ha Hacc Hf Hk Hr Hd Hig Hst Hc Hp Hw Hpath Hnd.
  destruct (C19_recipients cfg flt st mm a Ha Hacc Hf Hk Hr Hd Hig Hst Hc Hp Hw Hpath) as (st' & evs & E & Eo & Es & _).
  exists st', evs. split; auto. split; auto. rewrite Es. split.
  - clear -Hnd. induction (ar_tn a) as [|t l IH]; cbn [filter map]; [constructor|]. inversion Hnd as [|? ? Hn1 Hn2]; subst. specialize (IH Hn2).
    destruct (wanted cfg a mm t); auto. cbn [map]. constructor; auto. intros Hin. apply Hn1. apply in_map_iff in Hin as (x & Ex & Hx). apply filter_In in Hx as [Hx _]. apply in_map_iff. eauto.
  - intros i Hin. apply in_map_iff in Hin as (t & <- & Hin). apply filter_In in Hin as [H1 H2]. split; [|eauto]. unfold wanted in H2. rewrite !andb_true_iff, !negb_true_iff in H2.
    intros Hsame. apply sameaddrb_spec in Hsame. unfold tnnode in H2. destruct H2 as [[H2 _] _]. congruence.
Qed.
Print Assumptions C19_at_most_once.

(** C19: a message that is scanned again at a node's request is not sent to the links. *)
Lemma deliver_rescanned cfg flt a mm insb r : passes flt -> flag (Flags mm) MMFLAG_RESCANNED = true -> deliver cfg flt a mm insb = Some r -> sends (fst r) = [].
Proof.
  intros Hf Hr. unfold deliver. destruct (mmSortNodes2D (SeenBy mm)) as [sb|]; [|discriminate]. cbn [obind].
  destruct (Hf (set_SeenBy mm sb)) as (fev & -> & H1 & H2). cbn [Flags set_SeenBy]. rewrite Hr. cbn [obind]. destruct (flag _ MMFLAG_KILL); [intros E; injection E as <-; auto|].
  cbn [Flags set_SeenBy]. destruct (flag _ MMFLAG_TWIT); [intros E; injection E as <-; cbn [fst]; rewrite sends_app, H1; auto|].
  destruct (_ && _); [|intros E; injection E as <-; cbn [fst]; rewrite sends_app, H1; auto]. destruct (importmsg _ _ _) as [m|]; [|discriminate]. cbn [obind].
  intros E; injection E as <-. cbn [fst]. rewrite !sends_app, H1. reflexivity.
Qed.
Lemma handle_out cfg flt st mm st' ok : HandleEchomail cfg flt st mm = Some (st', ok) ->
  (exists reason, st' = ES (es_areas st') (es_insb st) (es_dupes st) (es_out st ++ WriteBad (es_areas st') (set_Type mm PKTS_ECHOMAIL) reason)) \/
  exists s a, es_out s = es_out st /\ es_dupes s = es_dupes st /\ es_areas s = es_areas st' /\ area_of (es_areas st') (Area mm) a /\ tossecho cfg flt s a (set_Type mm PKTS_ECHOMAIL) = Some (st', ok).
Proof.
  unfold HandleEchomail, getarea. cbn [Area PktOrig PktDest Flags set_Type].
  assert (Htoss : forall s a m r, tossecho cfg flt s a m = Some r -> es_areas (fst r) = es_areas s).
  { intros s a m r. unfold tossecho. set (p := if _ || _ then _ else _). destruct p as [p|]; [|discriminate]. cbn [obind]. set (q := if _ && _ && _ then _ else _).
    destruct q as [[[|] db]|]; [| |discriminate]; cbn [obind].
    - intros E. injection E as <-. reflexivity.
    - destruct (deliver _ _ _ _ _) as [d|]; [|discriminate]. cbn [obind]. intros E. injection E as <-. reflexivity. }
  assert (Hrest : forall s a, find (fun a => streqi (ar_tag a) (Area mm)) (es_areas s) = Some a -> es_out s = es_out st -> es_dupes s = es_dupes st -> es_insb s = es_insb st ->
    (if flag (ar_flags a) AREA_UNCONFIRMED then bad s (set_Type mm PKTS_ECHOMAIL) (lit "Unknown area (auto-added but not confirmed)") else
     if negb (flag (Flags mm) MMFLAG_EXPORTED) && negb (flag (Flags mm) MMFLAG_NOSECURITY) then
      match find (fun t => Compare4D (tnnode cfg t) (PktOrig mm) =? 0) (ar_tn a) with
      | None => bad s (set_Type mm PKTS_ECHOMAIL) (lit "Node does not receive this area")
      | Some t => if flag (tn_flags t) TOSSNODE_READONLY then bad s (set_Type mm PKTS_ECHOMAIL) (lit "Node is not allowed to write in this area")
                  else tossecho cfg flt s a (set_Type mm PKTS_ECHOMAIL)
      end
     else tossecho cfg flt s a (set_Type mm PKTS_ECHOMAIL)) = Some (st', ok) ->
  (exists reason, st' = ES (es_areas st') (es_insb st) (es_dupes st) (es_out st ++ WriteBad (es_areas st') (set_Type mm PKTS_ECHOMAIL) reason)) \/
  exists s a, es_out s = es_out st /\ es_dupes s = es_dupes st /\ es_areas s = es_areas st' /\ area_of (es_areas st') (Area mm) a /\ tossecho cfg flt s a (set_Type mm PKTS_ECHOMAIL) = Some (st', ok)).
  { intros s a Hf Ho Hd Hi.
    assert (Hbad : forall reason, bad s (set_Type mm PKTS_ECHOMAIL) reason = Some (st', ok) ->
      st' = ES (es_areas st') (es_insb st) (es_dupes st) (es_out st ++ WriteBad (es_areas st') (set_Type mm PKTS_ECHOMAIL) reason)).
    { intros reason E. unfold bad in E. injection E as <- <-. cbn [es_areas]. rewrite Ho, Hd, Hi. reflexivity. }
    assert (Ht : tossecho cfg flt s a (set_Type mm PKTS_ECHOMAIL) = Some (st', ok) -> exists s a, es_out s = es_out st /\ es_dupes s = es_dupes st /\ es_areas s = es_areas st' /\
      area_of (es_areas st') (Area mm) a /\ tossecho cfg flt s a (set_Type mm PKTS_ECHOMAIL) = Some (st', ok)).
    { intros E. pose proof (Htoss _ _ _ _ E) as H1. cbn [fst] in H1. exists s, a. repeat split; auto. rewrite H1. apply area_of_find; auto. }
    destruct (flag (ar_flags a) AREA_UNCONFIRMED); [eauto|]. destruct (_ && _); [|eauto]. destruct (find _ (ar_tn a)) as [t|]; [|eauto]. destruct (flag _ _); eauto. }
  destruct (find _ (es_areas st)) as [a|] eqn:Ef; cbn [obind]; [apply Hrest; auto|].
  destruct (AddArea _ _ _ _ _ _ _) as [a|] eqn:Ea; [|discriminate]. cbn [obind]. apply Hrest; auto. cbn [es_areas].
  assert (Etag : ar_tag a = Area mm).
  { unfold AddArea in Ea. destruct (match findnode _ _ _ with Some _ => _ | None => _ end); [|discriminate]. destruct (findidx _ _ _); injection Ea as <-; reflexivity. }
  clear Ea. apply no_area_find in Ef. induction Ef as [|x l Hx Hl IH]; cbn [app find]; [rewrite Etag, streqi_refl; reflexivity|]. rewrite Hx. exact IH.
Qed.
Lemma bad_sends areas mm reason : sends (WriteBad areas mm reason) = [].
Proof. unfold WriteBad. destruct (find _ _) as [b|]; [destruct (ar_mb b)|]; reflexivity. Qed.
Theorem C19_rescanned : forall cfg flt st mm st' ok, passes flt -> flag (Flags mm) MMFLAG_RESCANNED = true ->
  HandleEchomail cfg flt st mm = Some (st', ok) -> sends (es_out st') = sends (es_out st).
Proof.
  intros cfg flt st mm st' ok Hf Hr E. destruct (handle_out _ _ _ _ _ _ E) as [(reason & ->)|(s & a & Ho & _ & _ & _ & Et)].
  - cbn [es_out]. rewrite sends_app, bad_sends, app_nil_r. reflexivity.
  - unfold tossecho in Et. match type of Et with obind ?pp _ = _ => destruct pp as [p|]; [|discriminate] end. cbn [obind] in Et.
    match type of Et with obind ?pp _ = _ => destruct pp as [[[|] db]|]; [| |discriminate] end; cbn [obind] in Et.
    + injection Et as <- <-. cbn [es_out]. rewrite sends_app, Ho. destruct (ec_dupemode cfg =? DUPE_BAD); [rewrite bad_sends|]; cbn; rewrite app_nil_r; reflexivity.
    + destruct (deliver _ _ _ _ _) as [d|] eqn:Ed; [|discriminate]. cbn [obind] in Et. injection Et as <- <-. cbn [es_out]. apply deliver_rescanned in Ed; auto. rewrite sends_app, Ed, Ho, app_nil_r. reflexivity.
Qed.
Print Assumptions C19_rescanned.

(** C19: areas that are set up automatically link every node at most once. *)
Lemma AddTossNode_nodup l i f : NoDup (map tn_node l) -> NoDup (map tn_node (AddTossNode l i f)).
Proof.
  intros H. unfold AddTossNode. destruct (existsb _ l) eqn:E; auto. rewrite map_app. cbn [map tn_node].
  rewrite <- (rev_involutive (_ ++ _)). apply NoDup_rev. rewrite rev_app_distr. cbn [rev app]. constructor; [|apply NoDup_rev; auto]. rewrite <- in_rev.
  intros Hin. apply in_map_iff in Hin as (t & <- & Ht). assert (existsb (fun t0 => Nat.eqb (tn_node t0) (tn_node t)) l = true); [|congruence].
  apply existsb_exists. exists t. rewrite Nat.eqb_refl. auto.
Qed.
Theorem C19_new_area_links : forall cfg areas name node mynode active pass a,
  AddArea cfg areas name node mynode active pass = Some a -> NoDup (map tn_node (ar_tn a)).
Proof.
  intros cfg areas name node mynode active pass a. unfold AddArea. destruct (match findnode _ _ _ with Some _ => _ | None => _ end) as [ak|]; [|discriminate].
  assert (H0 : forall l l0, NoDup (map tn_node l0) -> NoDup (map tn_node (fold_left (fun l t => AddTossNode l (tn_node t) (tn_flags t)) l l0))).
  { induction l as [|t l IH]; intros l0 H; cbn [fold_left]; auto. apply IH. apply AddTossNode_nodup. auto. }
  set (tn0 := match defarea_for _ _ with Some d => fold_left _ _ _ | None => _ end).
  assert (H1 : NoDup (map tn_node tn0)). { unfold tn0. destruct (defarea_for _ _); [apply H0|]; constructor. }
  destruct (findidx _ _ _) as [i|]; intros E; injection E as <-; cbn [ar_tn]; auto.
  match goal with |- NoDup (map _ (fold_left ?f _ _)) => assert (H2 : forall l l0, NoDup (map tn_node l0) -> NoDup (map tn_node (fold_left f l l0))) end.
  { induction l as [|j l IH]; intros l0 H; cbn [fold_left]; auto. apply IH. destruct (MatchFlags _ _); auto. apply AddTossNode_nodup. auto. }
  apply H2. apply AddTossNode_nodup. auto.
Qed.
Print Assumptions C19_new_area_links.

(** Finding: with CHECKSEENBY on, an area with IGNORESEENBY uses what the last message of
    another area left behind: a link gets no copy although it is not in SEEN-BY. *)
Definition tarea2 : area := AR (lit "TEST2") AREATYPE_ECHOMAIL AREA_IGNORESEENBY 0 takaA [TN 0 0; TN 1 0; TN 2 0] true.
Theorem C19_stale_seenby_refuted : exists cfg st m1 m2 st1 st2 a t, HandleEchomail cfg noflt st m1 = Some (st1, true) /\
  HandleEchomail cfg noflt st1 m2 = Some (st2, true) /\ area_of (es_areas st1) (Area m2) a /\ accepted cfg a m2 /\ SeenBy m2 = [] /\
  In t (ar_tn a) /\ wanted cfg a m2 t = true /\ exists evs, es_out st2 = es_out st1 ++ evs /\ ~ In (tn_node t) (sends evs).
Proof.
  set (st := tst [tbad; tarea; tarea2]). set (m1 := tmm (N4 2 201 100 0) [] [[(201, 200)]]). set (m2 := set_Area (tmm (N4 2 201 100 0) [] []) (lit "TEST2")).
  destruct (HandleEchomail (tcfg 1 0) noflt st m1) as [[st1 ok1]|] eqn:E1; [|vm_compute in E1; discriminate].
  destruct (HandleEchomail (tcfg 1 0) noflt st1 m2) as [[st2 ok2]|] eqn:E2; [|vm_compute in E1; injection E1 as <- <-; vm_compute in E2; discriminate].
  exists (tcfg 1 0), st, m1, m2, st1, st2, tarea2, (TN 1 0).
  assert (Hok : ok1 = true) by (vm_compute in E1; injection E1 as _ <-; reflexivity). subst ok1.
  assert (Hok : ok2 = true) by (vm_compute in E1; injection E1 as <-; vm_compute in E2; injection E2 as _ <-; reflexivity). subst ok2.
  split; [exact E1|]. split; [exact E2|]. split. { vm_compute in E1. injection E1 as <-. apply area_of_find. vm_compute. reflexivity. }
  split. { split; [vm_compute; reflexivity|]. right. split.
    - exists (TN 0 0). split; [left; reflexivity|]. split; [|reflexivity]. vm_compute. auto.
    - intros t [<-|[<-|[<-|[]]]] _; reflexivity. }
  split; [reflexivity|]. split; [right; left; reflexivity|]. split; [vm_compute; reflexivity|].
  vm_compute in E1. injection E1 as <-. vm_compute in E2. injection E2 as <-. cbn [es_out].
  eexists [_; _]. split; [reflexivity|]. cbn. intros [H|[]]. discriminate.
Qed.
Print Assumptions C19_stale_seenby_refuted.

Lemma noflt_passes : passes noflt.
Proof. intros m. exists []. auto. Qed.
Example C19_nonvacuous : let cfg := tcfg 1 0 in let st := tst [tbad; tarea] in let mm := tmm (N4 2 201 100 0) [] [[(201, 200)]] in
  area_of (es_areas st) (Area mm) tarea /\ accepted cfg tarea mm /\ not_dupe cfg st tarea mm /\ cfg_ok cfg tarea /\
  NoDup (map tn_node (ar_tn tarea)) /\ wfblocks (SeenBy mm) /\ map tn_node (filter (wanted cfg tarea mm) (ar_tn tarea)) = [2; 3]%nat.
Proof.
  cbv zeta. split; [apply area_of_find; vm_compute; reflexivity|]. split.
  { split; [vm_compute; reflexivity|]. right. split.
    - exists (TN 0 0). split; [left; reflexivity|]. split; [vm_compute; auto|reflexivity].
    - intros t [<-|[<-|[<-|[<-|[]]]]] _; reflexivity. }
  split. { left. intros (H & _). apply H. reflexivity. }
  split. { unfold cfg_ok, valid4d, is_u16. cbn. repeat constructor; cbn; lia. }
  split. { cbn. repeat constructor; cbn; intuition discriminate. }
  split; [cbn; unfold NUM2D; lia|]. vm_compute. reflexivity.
Qed.

(** ** C20: SEEN-BY and PATH of the forwarded copies. *)

(** C20: every copy that is sent has the header, area and text of the message, SEEN-BY lines
    that hold exactly the entries wanted for that node, and PATH lines that hold the
    addresses the message came with, followed by the own address unless it is the last one
    already (or is a point and PATH3D is off). *)
Theorem C20_copies : forall cfg flt st mm a ass, area_of (es_areas st) (Area mm) a -> accepted cfg a mm -> passes flt ->
  flag (Flags mm) MMFLAG_KILL = false -> flag (Flags mm) MMFLAG_RESCANNED = false -> not_dupe cfg st a mm ->
  strip_ok cfg mm -> cfg_ok cfg a -> pairs_ok (entries (SeenBy mm)) -> wfblocks (SeenBy mm) ->
  Forall2 pathline (Path mm) ass -> Forall paddr_ok (concat ass) -> paddr_ok (own_paddr (ak_node (ar_aka a))) ->
  exists st' evs path' ass', HandleEchomail cfg flt st mm = Some (st', true) /\ es_out st' = es_out st ++ evs /\
    Forall2 pathline path' ass' /\
    (let own := own_paddr (ak_node (ar_aka a)) in let here := (point (ak_node (ar_aka a)) = 0 \/ flag (ec_flags cfg) CFG_PATH3D = true) in
     (concat ass' = concat ass ++ [own] /\ here /\ (forall q, concat ass <> q ++ [own])) \/
     (concat ass' = concat ass /\ (~ here \/ exists q, concat ass = q ++ [own]))) /\
    (Forall (fun l => (length l <= 78)%nat) (Path mm) -> Forall (fun l => (length l <= 78)%nat) path') /\
    forall i data, In (EvSend i data) evs -> copy_for cfg a mm path' (getcn cfg i) data.
Proof.
  intros cfg flt st mm a ass Ha Hacc Hf Hk Hr Hd Hst Hc Hp Hw Hpl Hpa Hown. rewrite (accepted_tossecho _ _ _ _ _ Ha Hacc).
  assert (Hpt : exists path ass', (if ownpath cfg a then AddNodePath (Path mm) (ak_node (ar_aka a)) else Some (Path mm)) = Some path /\ Forall2 pathline path ass' /\
    (let own := own_paddr (ak_node (ar_aka a)) in let here := (point (ak_node (ar_aka a)) = 0 \/ flag (ec_flags cfg) CFG_PATH3D = true) in
     (concat ass' = concat ass ++ [own] /\ here /\ (forall q, concat ass <> q ++ [own])) \/
     (concat ass' = concat ass /\ (~ here \/ exists q, concat ass = q ++ [own]))) /\
    (Forall (fun l => (length l <= 78)%nat) (Path mm) -> Forall (fun l => (length l <= 78)%nat) path)).
  { cbv zeta. destruct (ownpath cfg a) eqn:Eo; unfold ownpath in Eo.
    - assert (Hhere : point (ak_node (ar_aka a)) = 0 \/ flag (ec_flags cfg) CFG_PATH3D = true). { apply orb_true_iff in Eo as [Eo|Eo]; [left; apply Z.eqb_eq|right]; auto. }
      destruct (AddNodePath_spec _ _ _ Hpl Hpa Hown) as (path' & ass' & E & H1 & H2 & H3). exists path', ass'. repeat split; auto.
      destruct (existsb _ _) eqn:Ee.
      + right. split; auto. right. destruct (rev (concat ass)) as [|x r] eqn:Er; [discriminate|]. cbn [firstn existsb] in Ee. rewrite orb_false_r in Ee. apply paddr_eqb_eq in Ee. subst x.
        exists (rev r). rewrite <- (rev_involutive (concat ass)), Er. reflexivity.
      + left. repeat split; auto. intros q Hq. rewrite Hq, rev_app_distr in Ee. cbn [rev app firstn existsb] in Ee. rewrite orb_false_r in Ee.
        assert (paddr_eqb (own_paddr (ak_node (ar_aka a))) (own_paddr (ak_node (ar_aka a))) = true) by (apply paddr_eqb_eq; auto). congruence.
    - exists (Path mm), ass. repeat split; auto. right. split; auto. left. apply orb_false_iff in Eo as [E1 E2]. apply Z.eqb_neq in E1. intros [H|H]; congruence. }
  destruct Hpt as (path & ass' & Ept & Hpl' & Hass & Hlen).
  destruct (tossecho_sent cfg flt st a mm path Hc Hf Hst Hk Hr Hd Hp Hw Ept) as (st' & fev & sent & imp & insb & E & Eo & _ & Ei & H1 & H2 & H3 & H4).
  exists st', (fev ++ sent ++ imp), path, ass'. repeat split; auto. intros i data Hin.
  assert (Hs : In (EvSend i data) sent).
  { apply in_app_or in Hin as [Hin|Hin].
    - exfalso. clear -Hin H1. induction fev as [|e fev IH]; [contradiction|]. destruct Hin as [->|Hin]; [discriminate|]. destruct e; [discriminate|]. auto.
    - apply in_app_or in Hin as [Hin|Hin]; auto. exfalso. destruct (_ && _ && _); [destruct H4 as (m & -> & _)|subst imp]; [destruct Hin as [Hin|[]]; discriminate|contradiction]. }
  clear -H3 Hs. induction H3 as [|t e l evs (d & -> & Hcp) _ IH]; [contradiction|]. destruct Hs as [Hs|Hs]; [|auto]. injection Hs as <- <-. exact Hcp.
Qed.
Print Assumptions C20_copies.

(** C20: whatever the PATH lines contain, adding the own address ends, and stays inside the
    line buffers. *)
Theorem C20_any_path : forall path n, Forall cstring path -> exists path', AddNodePath path n = Some path'.
Proof. exact AddNodePath_total. Qed.
Print Assumptions C20_any_path.

Example C20_nonvacuous : let mm := tmm (N4 2 201 100 0) [] [[(201, 200); (5, 1)]] in
  Forall2 pathline [lit "201/100 101 7/8.9"] [[(201, 100, 0); (201, 101, 0); (7, 8, 9)]] /\
  AddNodePath [lit "201/100 101 7/8.9"] (N4 2 201 505 0) = Some [lit "201/100 101 7/8.9 201/505"] /\
  paddr_ok (own_paddr (N4 2 201 505 0)) /\ sb_full (tcfg 0 0) tarea mm (5, 1) /\ sb_full (tcfg 0 0) tarea mm (201, 505) /\ ~ sb_full (tcfg 0 0) tarea mm (9, 9).
Proof.
  cbv zeta. split. { constructor; [|constructor]. exists [lit "201/100"; lit "101"; lit "7/8.9"]. split; [|split; [reflexivity|discriminate]].
    apply (ps_full 0 201 100 0). apply (ps_short 201 101 0). apply (ps_full 201 7 8 9). constructor. }
  split; [vm_compute; reflexivity|]. split. { cbn. unfold is_u16. lia. }
  split. { split; [discriminate|]. left. split; [left; cbn; auto|intros ? []]. }
  split. { split; [discriminate|]. right. right. split; reflexivity. }
  intros [_ [[[H|(t & Hin & _ & _ & _ & H)] _]|[(n & Hin & H)|[_ H]]]].
  - cbn in H. intuition discriminate.
  - cbn in Hin. destruct Hin as [<-|[<-|[<-|[<-|[]]]]]; discriminate.
  - cbn in Hin. destruct Hin as [<-|[]]. discriminate.
  - discriminate.
Qed.

(** ** C21: duplicates. *)

(** C21: a message the duplicate check recognises is neither sent nor imported; it is put
    into the BAD area when DUPEMODE is BAD, and vanishes without any effect otherwise. The
    duplicate database stays as it was. *)
Theorem C21_duplicate_dropped : forall cfg flt st mm a st' ok db, area_of (es_areas st) (Area mm) a -> accepted cfg a mm -> dupechecked cfg a mm ->
  CheckDupe (ec_dupesize cfg) (es_dupes st) (MSGID mm) (Area mm) = Some (true, db) ->
  HandleEchomail cfg flt st mm = Some (st', ok) ->
  exists evs, es_out st' = es_out st ++ evs /\ bad_events (es_areas st) mm evs /\ (ec_dupemode cfg <> DUPE_BAD -> evs = []) /\
    es_dupes st' = es_dupes st /\ es_areas st' = es_areas st /\ ok = true.
Proof.
  intros cfg flt st mm a st' ok db Ha Hacc (Hd1 & Hd2 & Hd3) Hd. rewrite (accepted_tossecho _ _ _ _ _ Ha Hacc). unfold tossecho.
  set (p := if _ || _ then _ else _). destruct p as [p|]; [|discriminate]. cbn [obind]. cbn [Flags MSGID Area set_Type set_SeenBy set_Path].
  apply Z.eqb_neq in Hd1. rewrite Hd1, Hd2, Hd3. cbn [negb andb]. rewrite Hd. cbn [obind]. intros E. injection E as <- <-. cbn [es_out es_areas es_dupes].
  eexists. split; [reflexivity|]. split; [|split; [|split; [|auto]]].
  - destruct (ec_dupemode cfg =? DUPE_BAD); [|left; auto].
    match goal with |- bad_events _ _ (WriteBad ?l ?m ?r) => destruct (WriteBad_spec l m r) as [[->|(b & m' & H1 & H2 & -> & H3)] _] end; [left; auto|right; exists b, m'; auto].
  - intros Hm. apply Z.eqb_neq in Hm. rewrite Hm. reflexivity.
  - unfold CheckDupe in Hd. destruct (MSGID mm); [discriminate|]. destruct (duperec _ _) as [[crc b]|]; [|discriminate]. cbn [obind] in Hd.
    destruct (existsb _ _); [congruence|]. destruct (AddDupeBuf _ _ _); discriminate.
Qed.
Print Assumptions C21_duplicate_dropped.

Lemma tossecho_dupes cfg flt s a mm st' ok : tossecho cfg flt s a (set_Type mm PKTS_ECHOMAIL) = Some (st', ok) -> es_dupes st' = es_dupes s \/
  exists b, CheckDupe (ec_dupesize cfg) (es_dupes s) (MSGID mm) (Area mm) = Some (b, es_dupes st').
Proof.
  intros Et. unfold tossecho in Et. match type of Et with obind ?pp _ = _ => destruct pp as [p|]; [|discriminate] end. cbn [obind] in Et.
  cbn [Flags MSGID Area set_Type set_SeenBy set_Path] in Et. destruct (_ && _ && _).
  - destruct (CheckDupe _ _ _ _) as [[[|] db]|] eqn:E; [| |discriminate]; cbn [obind] in Et.
    + injection Et as <- <-. right. exists true. reflexivity.
    + destruct (deliver _ _ _ _ _); [|discriminate]. cbn [obind] in Et. injection Et as <- <-. right. exists false. reflexivity.
  - cbn [obind] in Et. destruct (deliver _ _ _ _ _); [|discriminate]. cbn [obind] in Et. injection Et as <- <-. left. reflexivity.
Qed.
Lemma handle_dupes cfg flt st mm st' ok : HandleEchomail cfg flt st mm = Some (st', ok) -> es_dupes st' = es_dupes st \/
  exists b, CheckDupe (ec_dupesize cfg) (es_dupes st) (MSGID mm) (Area mm) = Some (b, es_dupes st').
Proof.
  intros E. destruct (handle_out _ _ _ _ _ _ E) as [(reason & ->)|(s & a & _ & Hd & _ & _ & Et)]; [left; reflexivity|]. rewrite <- Hd. eapply tossecho_dupes; eauto.
Qed.
Lemma tossecho_areas cfg flt s a m r : tossecho cfg flt s a m = Some r -> es_areas (fst r) = es_areas s.
Proof.
  unfold tossecho. set (p := if _ || _ then _ else _). destruct p as [p|]; [|discriminate]. cbn [obind]. set (q := if _ && _ && _ then _ else _).
  destruct q as [[[|] db]|]; [| |discriminate]; cbn [obind].
  - intros E. injection E as <-. reflexivity.
  - destruct (deliver _ _ _ _ _) as [d|]; [|discriminate]. cbn [obind]. intros E. injection E as <-. reflexivity.
Qed.
Lemma handle_areas cfg flt st mm st' ok : HandleEchomail cfg flt st mm = Some (st', ok) -> exists l, es_areas st' = es_areas st ++ l.
Proof.
  unfold HandleEchomail. destruct (getarea cfg st (set_Type mm PKTS_ECHOMAIL)) as [[s a]|] eqn:Eg; [|discriminate]. cbn [obind]. intros E.
  assert (Hs : es_areas st' = es_areas s).
  { unfold bad in E. repeat match type of E with (if ?c then _ else _) = _ => destruct c | (match ?c with Some _ => _ | None => _ end) = _ => destruct c end;
      try (injection E as <- <-; reflexivity); apply tossecho_areas in E; exact E. }
  rewrite Hs. unfold getarea in Eg. destruct (find _ (es_areas st)); [injection Eg as <- <-; exists []; rewrite app_nil_r; auto|].
  destruct (AddArea _ _ _ _ _ _ _); [|discriminate]. cbn [obind] in Eg. injection Eg as <- <-. cbn [es_areas]. eauto.
Qed.
Lemma area_of_app l l' tag a : area_of l tag a -> area_of (l ++ l') tag a.
Proof. intros (pre & post & -> & H1 & H2). exists pre, (post ++ l'). rewrite <- app_assoc. auto. Qed.
Lemma hrun_areas cfg flt ms : forall st st', hrun cfg flt st ms = Some st' -> exists l, es_areas st' = es_areas st ++ l.
Proof.
  induction ms as [|m ms IH]; intros st st' E; cbn [hrun] in E. { injection E as <-. exists []. rewrite app_nil_r. auto. }
  destruct (HandleEchomail cfg flt st m) as [[s ok]|] eqn:E1; [|discriminate]. apply handle_areas in E1 as (l1 & E1). apply IH in E as (l2 & E). exists (l1 ++ l2). rewrite E, E1, app_assoc. auto.
Qed.
(** one message: the window stays or is extended by its key *)
Lemma dinv_mono N m w db : dinv N m w db -> dinv N (S m) w db.
Proof. intros (all & H1 & H2 & H3 & H4 & H5). exists all. repeat (split; auto). all: apply H5. Qed.
Lemma step_window cfg flt st mm st' ok m w : (1 <= ec_dupesize cfg)%nat -> HandleEchomail cfg flt st mm = Some (st', ok) -> dinv (ec_dupesize cfg) m w (es_dupes st) ->
  dkey_ok (msgkey mm) -> Z.of_nat (S m) < MAXOPS ->
  exists w', dinv (ec_dupesize cfg) (S m) w' (es_dupes st') /\ (w' = w \/ (w' = lastn (ec_dupesize cfg) (w ++ [msgkey mm]) /\ MSGID mm <> [])).
Proof.
  intros HN E Hi Hk HM. apply handle_dupes in E as [->|(b & E)]; [exists w; split; auto; apply dinv_mono; auto|].
  destruct (MSGID mm) as [|c r] eqn:Em. { cbn in E. injection E as _ <-. exists w. split; auto. apply dinv_mono; auto. }
  destruct (check_inv _ m w (es_dupes st) (msgkey mm) HN Hi Hk) as (db' & E' & Hi'); auto. { unfold msgkey. cbn. rewrite Em. discriminate. }
  unfold msgkey in E' at 1 2. cbn [fst snd] in E'. rewrite Em, E in E'. injection E' as -> <-. eexists. split; [exact Hi'|].
  destruct (keyin (msgkey mm) w); auto. right. split; auto. discriminate.
Qed.
(** a history: only keys of its messages come into the window *)
Lemma hrun_window cfg flt ms : forall st st' m w, (1 <= ec_dupesize cfg)%nat -> hrun cfg flt st ms = Some st' -> dinv (ec_dupesize cfg) m w (es_dupes st) ->
  Forall (fun x => dkey_ok (msgkey x)) ms -> Z.of_nat (m + length ms) < MAXOPS ->
  exists w', dinv (ec_dupesize cfg) (m + length ms) w' (es_dupes st') /\ (forall k, In k w' -> In k w \/ In k (map msgkey ms)) /\
    (forall k w1 w2, w = w1 ++ k :: w2 -> (length w2 + length ms < ec_dupesize cfg)%nat -> exists w1' w2', w' = w1' ++ k :: w2').
Proof.
  induction ms as [|x ms IH]; intros st st' m w HN E Hi Hk HM; cbn [hrun] in E.
  { injection E as <-. exists w. cbn [length]. rewrite Nat.add_0_r. repeat split; auto. intros k w1 w2 -> _. eauto. }
  destruct (HandleEchomail cfg flt st x) as [[s ok]|] eqn:E1; [|discriminate]. inversion Hk as [|? ? Hk1 Hk2]; subst. cbn [length] in *.
  destruct (step_window cfg flt st x s ok m w HN E1 Hi Hk1 ltac:(lia)) as (w1 & Hi1 & Hw1).
  destruct (IH s st' (S m) w1 HN E Hi1 Hk2 ltac:(lia)) as (w' & Hi' & Hin & Hkeep). exists w'. rewrite <- Nat.add_succ_comm. split; auto. split.
  - intros k Hin'. apply Hin in Hin' as [H|H]; [|right; right; auto]. destruct Hw1 as [->|[-> _]]; auto. apply lastn_incl in H. apply in_app_or in H as [H|[<-|[]]]; auto. right. left. auto.
  - intros k u1 u2 Hw Hl. destruct Hw1 as [->|[-> _]]; [eapply Hkeep; eauto; lia|]. subst w.
    assert (exists u, lastn (ec_dupesize cfg) ((u1 ++ k :: u2) ++ [msgkey x]) = u ++ k :: (u2 ++ [msgkey x])) as (u & Hu).
    { rewrite <- app_assoc. cbn [app]. unfold lastn. rewrite skipn_app, app_length. cbn [length]. rewrite app_length. cbn [length].
      replace (length u1 + S (length u2 + 1) - ec_dupesize cfg - length u1)%nat with O by lia. rewrite skipn_O. eauto. }
    eapply Hkeep; [exact Hu|]. rewrite app_length. cbn [length]. lia.
Qed.

(** C21 over histories: start with an empty duplicate database and let any messages come
    in. When a message with a MSGID has been accepted in an area, every further message
    with this MSGID for this area has no effect except, at most, an import into a BAD area,
    as long as fewer than DUPESIZE messages came in between. *)
Theorem C21_history : forall cfg flt st0 pre m1 mid m2 sp st1 st2 ok a,
  es_dupes st0 = newdb -> (1 <= ec_dupesize cfg)%nat ->
  Forall (fun x => dkey_ok (msgkey x)) (pre ++ m1 :: mid ++ [m2]) -> Z.of_nat (length (pre ++ m1 :: mid ++ [m2])) < 2 ^ 24 ->
  MSGID m1 <> [] -> msgkey m2 = msgkey m1 -> ~ In (msgkey m1) (map msgkey pre) -> (length mid < ec_dupesize cfg)%nat ->
  hrun cfg flt st0 pre = Some sp -> area_of (es_areas sp) (Area m1) a -> accepted cfg a m1 -> dupechecked cfg a m1 -> flag (Flags m2) MMFLAG_TOSSED = true ->
  hrun cfg flt sp (m1 :: mid) = Some st1 -> HandleEchomail cfg flt st1 m2 = Some (st2, ok) ->
  exists evs, es_out st2 = es_out st1 ++ evs /\ bad_events (es_areas st2) m2 evs /\ es_dupes st2 = es_dupes st1.
Proof.
  intros cfg flt st0 pre m1 mid m2 sp st1 st2 ok a H0 HN Hk HM Hne Hkey Hnew Hmid Epre Ha Hacc Hdc Hf2 E1 E2.
  apply Forall_app in Hk as [Hk1 Hk2]. inversion Hk2 as [|? ? Hkm Hk3]; subst. apply Forall_app in Hk3 as [Hk3 Hk4].
  rewrite app_length in HM. cbn [length] in HM. rewrite app_length in HM. cbn [length] in HM. change (2 ^ 24) with MAXOPS in HM.
  destruct (hrun_window cfg flt pre st0 sp 0 [] HN Epre) as (w & Hi & Hin & _); auto; [rewrite H0; apply newdb_inv; auto|lia|].
  cbn [hrun] in E1. destruct (HandleEchomail cfg flt sp m1) as [[s1 ok1]|] eqn:Em1; [|discriminate].
  assert (Hw1 : exists w1, dinv (ec_dupesize cfg) (S (0 + length pre)) (w1 ++ [msgkey m1]) (es_dupes s1)).
  { rewrite (accepted_tossecho _ _ _ _ _ Ha Hacc) in Em1. unfold tossecho in Em1. match type of Em1 with obind ?pp _ = _ => destruct pp as [p|]; [|discriminate] end. cbn [obind] in Em1.
    cbn [Flags MSGID Area set_Type set_SeenBy set_Path] in Em1. destruct Hdc as (D1 & D2 & D3). apply Z.eqb_neq in D1. rewrite D1, D2, D3 in Em1. cbn [negb andb] in Em1.
    destruct (check_inv _ _ w (es_dupes sp) (msgkey m1) HN Hi Hkm Hne ltac:(lia)) as (db' & E' & Hi'). unfold msgkey in E' at 1 2. cbn [fst snd] in E'. rewrite E' in Em1.
    assert (Hkw : keyin (msgkey m1) w = false).
    { destruct (keyin (msgkey m1) w) eqn:Ek; auto. apply keyin_In in Ek. destruct (Hin _ Ek) as [[]|Hx]. contradiction. }
    rewrite Hkw in *. cbn [obind] in Em1. destruct (deliver _ _ _ _ _); [|discriminate]. cbn [obind] in Em1. injection Em1 as <- <-. cbn [es_dupes].
    unfold lastn in Hi'. rewrite skipn_app, app_length in Hi'. cbn [length] in Hi'. replace (length w + 1 - ec_dupesize cfg - length w)%nat with O in Hi' by lia. rewrite skipn_O in Hi'. eauto. }
  destruct Hw1 as (w1 & Hi1).
  destruct (hrun_window cfg flt mid s1 st1 _ _ HN E1 Hi1 Hk3 ltac:(lia)) as (w' & Hi' & _ & Hkeep). destruct (Hkeep _ w1 [] eq_refl) as (u1 & u2 & ->); [cbn; lia|].
  (* the area is still there *)
  destruct (handle_areas _ _ _ _ _ _ Em1) as (l1 & EA1). destruct (hrun_areas _ _ _ _ _ E1) as (l2 & EA2).
  assert (Ha2 : area_of (es_areas st1) (Area m2) a).
  { rewrite EA2, EA1. injection Hkey as _ ->. apply area_of_app, area_of_app. auto. }
  destruct (handle_out _ _ _ _ _ _ E2) as [(reason & Es)|(s & a' & Ho & Hd & HA & Ha' & Et)].
  - exists (WriteBad (es_areas st2) (set_Type m2 PKTS_ECHOMAIL) reason). split; [rewrite Es at 1; reflexivity|]. split; [|rewrite Es; reflexivity].
    destruct (WriteBad_spec (es_areas st2) (set_Type m2 PKTS_ECHOMAIL) reason) as [[->|(b & m' & H1 & H2 & -> & H3)] _]; [left; auto|right; exists b, m'; auto].
  - destruct (handle_areas _ _ _ _ _ _ E2) as (l3 & EA3).
    assert (a' = a). { apply area_of_find in Ha'. apply (area_of_app _ l3) in Ha2. rewrite <- EA3 in Ha2. apply area_of_find in Ha2. congruence. } subst a'.
    unfold tossecho in Et. match type of Et with obind ?pp _ = _ => destruct pp as [p|]; [|discriminate] end. cbn [obind] in Et.
    cbn [Flags MSGID Area set_Type set_SeenBy set_Path] in Et. destruct Hdc as (D1 & D2 & D3). apply Z.eqb_neq in D1. rewrite D1, Hf2, D3 in Et. cbn [negb andb] in Et.
    assert (Hk2' : dkey_ok (msgkey m2)) by (rewrite Hkey; auto).
    rewrite <- Hd in Hi'. destruct (check_inv _ _ _ (es_dupes s) (msgkey m2) HN Hi' Hk2') as (db' & E' & _); [injection Hkey as Hx _; unfold msgkey; cbn; congruence|lia|].
    unfold msgkey in E' at 1 2. cbn [fst snd] in E'.
    assert (Hkw : keyin (msgkey m2) (u1 ++ msgkey m1 :: u2) = true) by (apply keyin_In; rewrite Hkey; apply in_or_app; right; left; auto).
    match type of E' with _ = Some (?b, _) => change b with (keyin (msgkey m2) (u1 ++ msgkey m1 :: u2)) in E' end. rewrite Hkw in E'. pose proof E' as E''. rewrite E' in Et. cbn [obind] in Et. injection Et as <- <-. cbn [es_out es_areas es_dupes] in *. rewrite Ho. eexists. split; [reflexivity|]. split.
    + destruct (ec_dupemode cfg =? DUPE_BAD); [|left; auto].
      match goal with |- bad_events _ _ (WriteBad ?l ?m ?r) => destruct (WriteBad_spec l m r) as [[->|(b & m' & H1 & H2 & -> & H3)] _] end; [left; auto|right; exists b, m'; auto].
    + rewrite <- Hd. unfold CheckDupe in E''. destruct (MSGID m2); [discriminate|]. destruct (duperec _ _) as [[crc b]|]; [|discriminate]. cbn [obind] in E''.
      destruct (existsb _ _); [congruence|]. destruct (AddDupeBuf _ _ _); discriminate.
Qed.
Print Assumptions C21_history.

(** Finding: the area of a message is found whatever the case of its name, but duplicates
    are only recognised with the name in the same case. *)
Theorem C21_area_case_refuted : exists cfg st m1 m2 st1 st2, HandleEchomail cfg noflt st m1 = Some (st1, true) /\ HandleEchomail cfg noflt st1 m2 = Some (st2, true) /\
  ec_dupemode cfg = DUPE_KILL /\ MSGID m1 <> [] /\ MSGID m2 = MSGID m1 /\ streqi (Area m2) (Area m1) = true /\ imports (es_out st2) = [lit "TEST"; lit "TEST"].
Proof.
  exists (tcfg 0 DUPE_KILL), (tst [tbad; tarea]), (tmm (N4 2 201 100 0) (lit "1:2/3 abc") []), (set_Area (tmm (N4 2 201 100 0) (lit "1:2/3 abc") []) (lit "TEST")).
  do 2 eexists. split; [vm_compute; reflexivity|]. split; [vm_compute; reflexivity|]. split; [reflexivity|]. split; [discriminate|]. split; [reflexivity|]. split; vm_compute; reflexivity.
Qed.
Print Assumptions C21_area_case_refuted.
Example C21_nonvacuous : let cfg := tcfg 0 DUPE_BAD in let m := tmm (N4 2 201 100 0) (lit "1:2/3 abc") [] in
  dkey_ok (msgkey m) /\ dupechecked cfg tarea m /\
  exists st1 st2, hrun cfg noflt (tst [tbad; tarea]) [m; tmm (N4 2 201 100 0) (lit "1:2/3 xyz") []] = Some st1 /\ HandleEchomail cfg noflt st1 m = Some (st2, true) /\
    imports (es_out st2) = [lit "TEST"; lit "TEST"; lit "BAD"].
Proof.
  cbv zeta. split; [unfold dkey_ok; cbn; repeat split; try lia; repeat constructor; lia|].
  split; [split; [discriminate|split; reflexivity]|]. do 2 eexists. split; [vm_compute; reflexivity|]. split; vm_compute; reflexivity.
Qed.
