(** What a node is told about its configuration: theorems. *)
From Coq Require Import Sorted.
From Verif Require Import Base M_Node4D S_Node4D P_Node4D M_Str M_Mem M_Cfg M_Filter M_Echo M_Areafix M_AfList S_AfList P_AfList T_AfList M_Cmd M_Info S_Info.

Lemma letters_sorted : StronglySorted Z.lt letters.
Proof. unfold letters. cbn [seq map]. repeat (constructor; [|repeat (constructor; [lia|]); constructor]). constructor. Qed.
Lemma letters_in g : In g letters <-> 65 <= g <= 90.
Proof.
  unfold letters. rewrite in_map_iff. split.
  - intros (k & <- & H). apply in_seq in H. lia.
  - intros H. exists (Z.to_nat (g - 65)). split; [lia|]. apply in_seq. lia.
Qed.
Lemma filter_sorted (f : Z -> bool) l : StronglySorted Z.lt l -> StronglySorted Z.lt (filter f l).
Proof.
  intros H. induction H as [|a l Hs IH Hf]; cbn [filter]; [constructor|]. destruct (f a); [|exact IH]. constructor; [exact IH|]. apply Forall_forall. intros x Hx. apply filter_In in Hx as [Hx _]. rewrite Forall_forall in Hf. auto.
Qed.
Lemma groups_ok (f : Z -> bool) (P : Z -> Prop) : (forall g, f g = true <-> P g) -> groups_with P (filter f letters).
Proof. intros H. split; [apply filter_sorted; exact letters_sorted|]. intros g. rewrite filter_In, letters_in, H. reflexivity. Qed.
Lemma dec_u16 z : is_u16 z -> (length (dec z) <= 5)%nat.
Proof. apply dec_length_u16. Qed.
Lemma adr_short n : valid4d n -> (length (adr n) <= 23)%nat.
Proof. intros (H1 & H2 & H3 & H4). unfold adr. rewrite !app_length. pose proof (dec_u16 _ H1). pose proof (dec_u16 _ H2). pose proof (dec_u16 _ H3). pose proof (dec_u16 _ H4). change (length (lit ":")) with 1%nat. change (length (lit "/")) with 1%nat. change (length (lit ".")) with 1%nat. lia. Qed.
Lemma infoflags_ok c : infoflags c = map snd (filter (fun s => Z.testbit (cn_flags c) (fst s)) switches).
Proof.
  unfold infoflags, switches. cbn [filter fst]. change NODE_PASSIVE with (2 ^ 1). change NODE_TINYSEENBY with (2 ^ 2). change NODE_NOSEENBY with (2 ^ 3). change NODE_FORWARDREQ with (2 ^ 4). change NODE_NOTIFY with (2 ^ 5). change NODE_PACKNETMAIL with (2 ^ 6). change NODE_AUTOADD with (2 ^ 0).
  rewrite !flag_testbit by lia. destruct (Z.testbit _ 1), (Z.testbit _ 2), (Z.testbit _ 3), (Z.testbit _ 4), (Z.testbit _ 5), (Z.testbit _ 6), (Z.testbit _ 0); reflexivity.
Qed.
Lemma info_text names packer c : infotext names packer c (infolines names packer c).
Proof.
  exists (filter (fun g => CheckFlags g (cn_groups c) && negb (CheckFlags g (cn_rogroups c))) letters), (filter (fun g => CheckFlags g (cn_rogroups c)) letters).
  assert (M : forall g l, CheckFlags g l = true <-> In g l) by (intros g l; apply Base.mem_In).
  split; [|split].
  - apply groups_ok. intros g. rewrite andb_true_iff, negb_true_iff, M. split; intros [H1 H2]; (split; [exact H1|]).
    + intros I. apply M in I. congruence.
    + destruct (CheckFlags g (cn_rogroups c)) eqn:E; [|reflexivity]. apply M in E. contradiction.
  - apply groups_ok. intros g. apply M.
  - unfold infolines. rewrite infoflags_ok. reflexivity.
Qed.
Lemma nameof_short (names : list (list Z)) g : Forall (fun n => (length n <= 79)%nat) names -> (length (nth (Z.to_nat (g - 65)) names []) <= 79)%nat.
Proof. intros H. destruct (nth_in_or_default (Z.to_nat (g - 65)) names []) as [I|E]; [rewrite Forall_forall in H; auto|rewrite E; cbn; lia]. Qed.
Lemma info_fine names packer c : node_fits names packer c -> Forall (fun l => (length l <= 198)%nat /\ hd 0 l <> 1) (infolines names packer c).
Proof.
  intros (Hv & H1 & H2 & H3 & Hn & Hp). pose proof (adr_short _ Hv) as Ha. unfold infolines. rewrite !Forall_app. repeat split.
  - change (print4d (cn_node c)) with (adr (cn_node c)).
    constructor; [split; [rewrite !app_length; change (length (lit "Configuration for ")) with 18%nat; change (length (lit ":")) with 1%nat; lia|cbn; lia]|]. constructor; [cbn; lia|].
    constructor; [split; [rewrite app_length; change (length (lit "           Sysop: ")) with 18%nat; lia|cbn; lia]|].
    constructor; [split; [rewrite app_length; change (length (lit "Packet  password: ")) with 18%nat; lia|cbn; lia]|].
    constructor; [split; [rewrite app_length; change (length (lit "Areafix password: ")) with 18%nat; lia|cbn; lia]|].
    constructor; [split; [rewrite app_length; change (length (lit "          Packer: ")) with 18%nat; destruct packer; [|change (length (lit "No packer")) with 9%nat]; lia|cbn; lia]|]. repeat constructor; cbn; lia.
  - rewrite infoflags_ok. apply Forall_forall. intros l Hl. apply in_map_iff in Hl as (s & <- & Hs). apply filter_In in Hs as [Hs _]. cbn in Hs. repeat (destruct Hs as [<-|Hs]; [split; [vm_compute; lia|cbn; lia]|]). contradiction.
  - repeat constructor; cbn; lia.
  - apply Forall_map. apply Forall_forall. intros g Hg. apply filter_In in Hg as [Hg _]. apply letters_in in Hg. pose proof (nameof_short names g Hn) as L. unfold fullline. destruct (nth _ names []); cbn in *; lia.
  - repeat constructor; cbn; lia.
  - apply Forall_map. apply Forall_forall. intros g Hg. apply filter_In in Hg as [Hg _]. apply letters_in in Hg. pose proof (nameof_short names g Hn) as L. unfold roline. cbn in *. lia.
Qed.
Lemma info_length names packer c : (length (infolines names packer c) <= 72)%nat.
Proof.
  assert (F : forall f, (length (filter f letters) <= 26)%nat) by (intros f; pose proof (filter_length_le f letters) as L; change (length letters) with 26%nat in L; exact L).
  unfold infolines. rewrite infoflags_ok, !app_length, !map_length. pose proof (filter_length_le (fun s => Z.testbit (cn_flags c) (fst s)) switches) as L. change (length switches) with 7%nat in L.
  pose proof (F (fun g => CheckFlags g (cn_groups c) && negb (CheckFlags g (cn_rogroups c)))). pose proof (F (fun g => CheckFlags g (cn_rogroups c))). cbn [length]. lia.
Qed.

(** For every node and configuration: the node itself is sent exactly its own settings, the switches
    that are on, and each group it has access to under the right heading, divided into messages like
    the other answers *)
Theorem C76_info flags max handle date sysop names packer from toname c : keeps_header handle -> 0 <= max < 4294967296 -> node_fits names packer c ->
  exists ls ms, rawSendInfo flags max handle date sysop names packer from toname c = Some ms /\ infotext names packer c ls /\
    answer max (Z.testbit flags 3) sysop from toname (cn_node c) (lit "AreaFix configuration info") date ls ms.
Proof.
  intros Hk Hm Hf. unfold rawSendInfo. pose proof (info_length names packer c). destruct (C65_parts flags max handle date sysop from toname (cn_node c) (lit "AreaFix configuration info") (infolines names packer c) Hk Hm (info_fine _ _ _ Hf) ltac:(lia)) as (ms & E & A).
  exists (infolines names packer c), ms. split; [exact E|]. split; [apply info_text|exact A].
Qed.
Print Assumptions C76_info.
(** No group is named that the node has no access to *)
Theorem C76_access names packer c ls g : infotext names packer c ls -> 65 <= g <= 90 -> ~ In g (cn_groups c) -> ~ In g (cn_rogroups c) -> Forall (fun l => hd 0 l <> g \/ In l [lit "Configuration for " ++ adr (cn_node c) ++ lit ":"; lit "Packet  password: " ++ cn_pw c; lit "Areafix password: " ++ cn_afpw c; lit "You have full access to these groups:"; lit "You have read-only access to these groups:"]) ls.
Proof.
  intros (full & ro & [_ Hf] & [_ Hr] & ->) Hg N1 N2. rewrite !Forall_app. repeat split.
  - repeat (constructor; [first [left; cbn; lia|right; cbn [In]; tauto]|]). constructor.
  - apply Forall_forall. intros l Hl. apply in_map_iff in Hl as (s & <- & Hs). apply filter_In in Hs as [Hs _]. left. cbn in Hs. repeat (destruct Hs as [<-|Hs]; [cbn; lia|]). contradiction.
  - repeat (constructor; [first [left; cbn; lia|right; cbn [In]; tauto]|]). constructor.
  - apply Forall_map, Forall_forall. intros x Hx. left. apply Hf in Hx as (_ & Hx & _). destruct (nameof names x); cbn; congruence.
  - repeat (constructor; [first [left; cbn; lia|right; cbn [In]; tauto]|]). constructor.
  - apply Forall_map, Forall_forall. intros x Hx. left. apply Hr in Hx as (_ & Hx). cbn. congruence.
Qed.
Print Assumptions C76_access.

Definition joe : cnode := CN (N4 2 200 1 7) (lit "PKT") (lit "FIX") (lit "ABC") (lit "B") [] 0 34 (lit "Joe") null4d [] [].
Example C76_nonvacuous : node_fits [lit "Amiga"; lit "Boats"] (Some (lit "ZIP")) joe /\ keeps_header (fun _ m => m) /\
  infolines [lit "Amiga"; lit "Boats"] (Some (lit "ZIP")) joe =
  [lit "Configuration for 2:200/1.7:"; []; lit "           Sysop: Joe"; lit "Packet  password: PKT"; lit "Areafix password: FIX"; lit "          Packer: ZIP"; [];
   lit " * You are passive and will not receive any echomail messages"; lit " * You will receive notifications"; [];
   lit "You have full access to these groups:"; []; lit "A: Amiga"; lit "C"; []; lit "You have read-only access to these groups:"; []; lit "B: Boats"].
Proof.
  split; [|split; [intros l m; repeat split|vm_compute; reflexivity]].
  split; [unfold valid4d, is_u16; cbn; lia|]. split; [cbn; lia|]. split; [cbn; lia|]. split; [cbn; lia|]. split; [repeat constructor; cbn; lia|cbn; lia].
Qed.
Print Assumptions C76_nonvacuous.
(** A group without a name has a colon behind it if access is for reading only, and none otherwise *)
Theorem C76_noname_refuted : exists c, In (lit "A") (infolines [] None c) /\ In (lit "B: ") (infolines [] None c).
Proof. exists (CN (N4 2 200 1 7) [] [] (lit "AB") (lit "B") [] 0 0 [] null4d [] []). split; vm_compute; tauto. Qed.
Print Assumptions C76_noname_refuted.
