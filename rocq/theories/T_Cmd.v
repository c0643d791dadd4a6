(** The commands for one area or one node: theorems. *)
From Coq Require Import Sorted Permutation.
From Verif Require Import Base M_Node4D S_Node4D P_Node4D M_Pat M_Str M_Mem S_Mem P_Mem M_Cfg M_Pkt M_Echo S_Echo P_Echo M_Filter M_Upd M_Areafix P_Areafix M_Scan S_Scan P_Scan S_AddArea P_AddArea M_Cmd S_Cmd P_Cmd.

(** RESCAN: if the node is configured and the area is an echomail area whose message base can be
    rescanned, exactly this area is rescanned for exactly this node, with this limit, between the
    preparations and the conclusion, and the result is that of the rescan *)
Theorem C75_rescan nodes areas before ok areaname node max k j : node_text nodes node k -> named sa_tag areas areaname j ->
  sa_type (nth j areas noarea) = AREATYPE_ECHOMAIL -> sa_mb (nth j areas noarea) = Some true ->
  Rescan nodes areas before ok areaname node max = if before then ([CBegin true; CRescan j k max; CEnd ok], ok) else ([CBegin false], false).
Proof.
  intros Hn Ha Ht Hm. unfold Rescan. pose proof (node_find nodes node) as N. destruct (Parse4D node) as [n|]; [|exfalso; exact (N k Hn)]. destruct (findcn n nodes) as [k'|]; [|exfalso; exact (N k Hn)].
  pose proof (findarea_named sa_tag areas areaname) as F. destruct (findarea sa_tag areaname areas 0) as [j'|]; [|exfalso; exact (F j Ha)]. rewrite (named_fun _ _ _ _ _ F Ha), (firstpos_fun _ _ _ _ N Hn), Ht, Hm. reflexivity.
Qed.
Print Assumptions C75_rescan.
(** Otherwise nothing at all is done *)
Theorem C75_rescan_refused nodes areas before ok areaname node max :
  (forall k j, node_text nodes node k -> named sa_tag areas areaname j -> sa_type (nth j areas noarea) = AREATYPE_ECHOMAIL -> sa_mb (nth j areas noarea) <> Some true) ->
  Rescan nodes areas before ok areaname node max = ([], false).
Proof.
  intros H. unfold Rescan. pose proof (node_find nodes node) as N. destruct (Parse4D node) as [n|]; [|reflexivity]. destruct (findcn n nodes) as [k|]; [|reflexivity].
  pose proof (findarea_named sa_tag areas areaname) as F. destruct (findarea sa_tag areaname areas 0) as [j|]; [|reflexivity]. cbv zeta. destruct (Z.eqb_spec (sa_type (nth j areas noarea)) AREATYPE_ECHOMAIL) as [E|E]; [|reflexivity].
  specialize (H k j N F E). cbn [negb]. destruct (sa_mb (nth j areas noarea)) as [[|]|]; congruence.
Qed.
Print Assumptions C75_rescan_refused.

(** What a rescan sends: the message as it is in the message base for this node, from the address of
    the area. Its SEEN-BY list is sorted and has the nodes it had, this system and the node it is
    for (points are not listed), and nothing else; this system is added to its PATH *)
Theorem C75_copy flags areas dest mm a ass : find (fun a => streqi (ar_tag a) (Area mm)) areas = Some a -> wfblocks (SeenBy mm) ->
  Forall2 pathline (Path mm) ass -> Forall paddr_ok (concat ass) -> paddr_ok (own_paddr (ak_node (ar_aka a))) ->
  let own := ak_node (ar_aka a) in let here := point own = 0 \/ flag flags CFG_PATH3D = true in
  exists sb path ass', HandleRescan flags areas dest mm = Some (set_Path (set_SeenBy mm sb) path, ar_aka a) /\
    StronglySorted n2order (entries sb) /\
    (forall x, In x (entries sb) <-> In x (entries (SeenBy mm)) \/ (point own = 0 /\ x = (net own, node own)) \/ (point (cn_node dest) = 0 /\ x = (net (cn_node dest), node (cn_node dest)))) /\
    Forall2 pathline path ass' /\
    ((concat ass' = concat ass ++ [own_paddr own] /\ here /\ (forall q, concat ass <> q ++ [own_paddr own])) \/
     (concat ass' = concat ass /\ (~ here \/ exists q, concat ass = q ++ [own_paddr own]))).
Proof.
  intros Hf Hw Hpl Hpa Hown own here. unfold HandleRescan. rewrite Hf. cbn [obind]. fold own.
  set (sb1 := if point own =? 0 then mmAddNodes2DList (SeenBy mm) (net own) (node own) else SeenBy mm).
  set (sb2 := if point (cn_node dest) =? 0 then mmAddNodes2DList sb1 (net (cn_node dest)) (node (cn_node dest)) else sb1).
  assert (W1 : wfblocks sb1) by (unfold sb1; destruct (point own =? 0); [apply add_wf|]; exact Hw). assert (W2 : wfblocks sb2) by (unfold sb2; destruct (point (cn_node dest) =? 0); [apply add_wf|]; exact W1).
  destruct (mmSort_spec sb2 W2) as (sb & Es & Hp & Hs & _).
  assert (I : forall x, In x (entries sb) <-> In x (entries (SeenBy mm)) \/ (point own = 0 /\ x = (net own, node own)) \/ (point (cn_node dest) = 0 /\ x = (net (cn_node dest), node (cn_node dest)))).
  { intros x. assert (P : In x (entries sb) <-> In x (entries sb2)) by (split; apply Permutation_in; [symmetry|]; exact Hp). rewrite P. unfold sb2, sb1. destruct (Z.eqb_spec (point own) 0), (Z.eqb_spec (point (cn_node dest)) 0); rewrite ?add_in; tauto. }
  destruct ((point own =? 0) || flag flags CFG_PATH3D) eqn:Eo.
  - assert (Hh : here) by (apply orb_true_iff in Eo as [Eo|Eo]; [left; apply Z.eqb_eq|right]; auto).
    destruct (AddNodePath_spec _ _ _ Hpl Hpa Hown) as (path' & ass' & E & H1 & H2 & _). fold own in E, H2. rewrite E. cbn [obind]. rewrite Es. cbn [obind]. exists sb, path', ass'. split; [reflexivity|]. split; [exact Hs|]. split; [exact I|]. split; [exact H1|].
    destruct (existsb _ _) eqn:Ee.
    + right. split; [exact H2|]. right. destruct (rev (concat ass)) as [|x r] eqn:Er; [discriminate|]. cbn [firstn existsb] in Ee. rewrite orb_false_r in Ee. apply paddr_eqb_eq in Ee. subst x.
      exists (rev r). rewrite <- (rev_involutive (concat ass)), Er. reflexivity.
    + left. split; [exact H2|]. split; [exact Hh|]. intros q Hq. rewrite Hq, rev_app_distr in Ee. cbn [rev app firstn existsb] in Ee. rewrite orb_false_r in Ee.
      assert (paddr_eqb (own_paddr own) (own_paddr own) = true) by (apply paddr_eqb_eq; auto). congruence.
  - cbn [obind]. rewrite Es. cbn [obind]. exists sb, (Path mm), ass. split; [reflexivity|]. split; [exact Hs|]. split; [exact I|]. split; [exact Hpl|]. right. split; [reflexivity|]. left.
    apply orb_false_iff in Eo as [E1 E2]. apply Z.eqb_neq in E1. intros [H|H]; congruence.
Qed.
Print Assumptions C75_copy.

(** SENDLIST and the like: for ALL, every node that wants to be notified gets it, once, in the order
    of the configuration, and no other *)
Theorem C75_list_all nodes err node : streqi node (lit "ALL") = true ->
  exists ks, SendAFList nodes true err node = (CBegin true :: map CList ks ++ [CEnd true], negb err) /\ StronglySorted lt ks /\
    forall k, In k ks <-> exists c, nth_error nodes k = Some c /\ flag (cn_flags c) 32 = true.
Proof.
  intros E. unfold SendAFList. cbn [negb]. rewrite E. destruct (notify_sorted nodes 0) as (ks & Hk & Hs & _). rewrite Hk. exists ks. split; [reflexivity|]. split; [exact Hs|]. intros k.
  pose proof (notify_in nodes 0 (CList k)) as N. rewrite Hk in N. rewrite <- (Nat.add_0_l k) in N at 1. split.
  - intros I. destruct (proj1 N) as (k' & c & Ek & H); [apply in_map; exact I|]. injection Ek as Ek. cbn in Ek. subst k'. eauto.
  - intros (c & H). assert (I : In (CList k) (map CList ks)) by (apply N; exists k, c; auto). apply in_map_iff in I as (k' & Ek & I). injection Ek as ->. exact I.
Qed.
Print Assumptions C75_list_all.
(** for a node, exactly this one *)
Theorem C75_list_one nodes err node k : streqi node (lit "ALL") = false -> node_text nodes node k -> SendAFList nodes true err node = ([CBegin true; CList k; CEnd true], negb err).
Proof.
  intros E Hn. unfold SendAFList. cbn [negb]. rewrite E. pose proof (node_find nodes node) as N. destruct (Parse4D node) as [n|]; [|exfalso; exact (N k Hn)]. destruct (findcn n nodes) as [k'|]; [|exfalso; exact (N k Hn)].
  rewrite (firstpos_fun _ _ _ _ N Hn). reflexivity.
Qed.
Print Assumptions C75_list_one.
(** and nothing is sent for an unknown one, or if the preparations fail *)
Theorem C75_list_none nodes before err node : before = false \/ streqi node (lit "ALL") = false /\ (forall k, ~ node_text nodes node k) -> SendAFList nodes before err node = ([CBegin before], false).
Proof.
  intros [->|[E H]]; [reflexivity|]. unfold SendAFList. destruct before; [|reflexivity]. cbn [negb]. rewrite E. pose proof (node_find nodes node) as N. destruct (Parse4D node) as [n|]; [|reflexivity]. destruct (findcn n nodes) as [k|]; [exfalso; exact (H k N)|reflexivity].
Qed.
Print Assumptions C75_list_none.

(** REMOVE: the first echomail area with this name, and no other, is removed from the configuration,
    which will be saved; the nodes linked to it are told *)
Theorem C75_remove nodes areas name : Forall (fun a => ar_type (fa_ar a) <> AREATYPE_DELETED) areas -> Forall (fun a => (length (ar_tag (fa_ar a)) <= 55)%nat) areas ->
  (exists pre a post ess, areas = pre ++ a :: post /\ echo_named name a /\ Forall (fun b => ~ echo_named name b) pre /\ Forall2 (farewell nodes (ar_tag (fa_ar a))) (ar_tn (fa_ar a)) ess /\
     RemoveArea nodes areas true name = Some (CBegin true :: map CMail (concat ess) ++ [CEnd true], pre ++ post, true, true)) \/
  (Forall (fun b => ~ echo_named name b) areas /\ RemoveArea nodes areas true name = Some ([CBegin true], areas, false, true)).
Proof.
  intros Hd Hl. unfold RemoveArea. cbn [negb]. destruct (findpos _ areas) as [i|] eqn:E.
  - left. apply findpos_split in E as (pre & a & post & -> & <- & Ha & Hp). rewrite nth_error_app2, Nat.sub_diag by lia. cbn [nth_error]. rewrite Forall_app in Hd, Hl. destruct Hd as [Hd1 Hd2], Hl as [_ Hl2]. inversion Hd2 as [|? ? Hd3 Hd4]; inversion Hl2 as [|? ? Hl3 _]; subst.
    destruct (SendRemove_total nodes (ar_tag (fa_ar a)) (ar_tn (fa_ar a)) Hl3) as (es & Es). rewrite Es. cbn [obind]. destruct (farewell_ok _ _ _ _ Es) as (ess & Hf & ->).
    exists pre, a, post, ess. split; [reflexivity|]. split; [apply echo_iff; exact Ha|]. split; [apply echo_not; exact Hp|]. split; [exact Hf|].
    rewrite setnth_mid. assert (R : RemoveDeletedAreas (pre ++ FA (set_type (fa_ar a) AREATYPE_DELETED) (fa_ban a) (fa_changed a) :: post) = pre ++ post).
    { unfold RemoveDeletedAreas. rewrite filter_app. cbn [filter]. change (ar_type (fa_ar (FA (set_type (fa_ar a) AREATYPE_DELETED) (fa_ban a) (fa_changed a)))) with AREATYPE_DELETED. rewrite Z.eqb_refl. cbn [negb].
      rewrite !filter_all; [reflexivity| |]; (eapply Forall_impl; [|first [exact Hd1|exact Hd4]]); intros b Hb; cbv beta in *; apply negb_true_iff; apply Z.eqb_neq; exact Hb. }
    rewrite R. replace (Nat.ltb (length (pre ++ post)) (length (pre ++ a :: post))) with true; [reflexivity|]. symmetry. apply Nat.ltb_lt. rewrite !app_length. cbn [length]. lia.
  - right. split; [apply echo_not; apply findpos_none; exact E|reflexivity].
Qed.
Print Assumptions C75_remove.
Theorem C75_remove_failed nodes areas name : RemoveArea nodes areas false name = Some ([CBegin false], areas, false, false).
Proof. reflexivity. Qed.
Print Assumptions C75_remove_failed.

Definition cn (p flags : Z) : cnode := CN (N4 2 200 1 p) [] [] [] [] [] 0 flags [] null4d [] [].
Definition ar (t : Z) (tag : string) (tn : list tossnode) : farea := FA (AR (lit tag) t 0 65 (AKA (N4 2 200 1 0) [] [] []) tn false) [] false.
Example C75_nonvacuous :
  Rescan [cn 0 0; cn 7 0] [SA (lit "A") [] AREATYPE_NETMAIL None; SA (lit "B.TEST") [] AREATYPE_ECHOMAIL (Some true)] true true (lit "b.test") (lit "2:200/1.7") 10 = ([CBegin true; CRescan 1 1 10; CEnd true], true) /\
  SendAFList [cn 0 32; cn 7 0; cn 8 33] true false (lit "all") = ([CBegin true; CList 0; CList 2; CEnd true], true) /\
  SendAFList [cn 0 32; cn 7 0] true false (lit "2:200/1.7") = ([CBegin true; CList 1; CEnd true], true) /\
  RemoveArea [AN (cn 0 128) None false; AN (cn 7 384) None false; AN (cn 8 0) None false] [ar AREATYPE_NETMAIL "B" []; ar AREATYPE_ECHOMAIL "A" []; ar AREATYPE_ECHOMAIL "b" [TN 0 TOSSNODE_FEED; TN 1 0; TN 2 0]] true (lit "B") =
    Some ([CBegin true; CMail (FRemoved 0 (lit "b")); CMail (FRemoved 1 (lit "b")); CMail (FNotice 1 (lit "b")); CEnd true], [ar AREATYPE_NETMAIL "B" []; ar AREATYPE_ECHOMAIL "A" []], true, true).
Proof. repeat split. Qed.
Print Assumptions C75_nonvacuous.

Definition mm1 : memmsg := MM null4d null4d null4d null4d null4d (lit "b") [] [] [] [] [] [] 0 0 0 0 [] [[(200, 9); (200, 5)]] [lit "200/5"].
Example C75_copy_nonvacuous :
  find (fun a => streqi (ar_tag a) (Area mm1)) [fa_ar (ar AREATYPE_ECHOMAIL "B" [])] = Some (fa_ar (ar AREATYPE_ECHOMAIL "B" [])) /\ wfblocks (SeenBy mm1) /\
  Forall2 pathline (Path mm1) [[(200, 5, 0)]] /\
  HandleRescan 0 [fa_ar (ar AREATYPE_ECHOMAIL "B" [])] (CN (N4 2 200 7 0) [] [] [] [] [] 0 0 [] null4d [] []) mm1 =
    Some (set_Path (set_SeenBy mm1 [[(200, 1); (200, 5); (200, 7); (200, 9)]]) [lit "200/5 1"], AKA (N4 2 200 1 0) [] [] []).
Proof.
  split; [reflexivity|]. split; [cbn; unfold NUM2D; lia|]. split; [|vm_compute; reflexivity].
  constructor; [|constructor]. exists [lit "200/5"]. split; [|split; [reflexivity|discriminate]]. apply (ps_full 0 200 5 0 [] []). constructor.
Qed.
Print Assumptions C75_copy_nonvacuous.

(** If the node is not known, or the area to remove, the preparations are made but not concluded:
    the message bases and the nodelist are left open *)
Theorem C75_unfinished_refuted : exists nodes node areas name,
  SendAFList nodes true false node = ([CBegin true], false) /\ RemoveArea [] areas true name = Some ([CBegin true], areas, false, true).
Proof. exists [cn 0 0], (lit "2:200/2"), [], (lit "X"). split; reflexivity. Qed.
Print Assumptions C75_unfinished_refuted.
(** A name that is too long for the text of the notice overflows its buffer *)
Theorem C75_longname_refuted : exists nodes areas name, Forall (fun a => (length (ar_tag (fa_ar a)) <= 79)%nat) areas /\ RemoveArea nodes areas true name = None.
Proof.
  exists [AN (cn 0 256) None false], [ar AREATYPE_ECHOMAIL "AN.AREA.WITH.A.NAME.THAT.IS.LONGER.THAN.FIFTYFIVE.CHARACTERS" [TN 0 0]], (lit "AN.AREA.WITH.A.NAME.THAT.IS.LONGER.THAN.FIFTYFIVE.CHARACTERS"). split; [constructor; [vm_compute; lia|constructor]|vm_compute; reflexivity].
Qed.
Print Assumptions C75_longname_refuted.
