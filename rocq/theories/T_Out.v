(** Theorems about the outbound: C25-C28 and the names of packets. *)
From Verif Require Import Base M_Node4D S_Node4D P_Node4D M_Pat M_Str S_Str P_Str M_Mem M_Cfg M_Pkt S_Pkt P_Pkt T_Pkt M_Fs P_Fs M_Filter M_Out S_Out P_Out.

(** ** C25 *)

(** Two nodes of the main domain have the same base name only if they are the same. *)
Theorem C25_main_domain : forall env n n' b, oenv_ok env -> valid4d n -> valid4d n' ->
  (forall d, ~ foreign env n d) -> (forall d, ~ foreign env n' d) ->
  MakeBaseName env n = Some b -> MakeBaseName env n' = Some b -> n = n'.
Proof.
  intros env n n' b Hok Hv Hv' Hf Hf' H H'. destruct (base_eq env n n' b Hok H H' Hv Hv') as (E1 & E2 & E3 & [(d & Hx & _)|[(_ & _ & E4)|(d & e & [[Hx _]|[Hx _]] & _)]]).
  - destruct (Hf _ Hx).
  - destruct n, n'; cbn in *; congruence.
  - destruct (Hf _ Hx).
  - destruct (Hf' _ Hx).
Qed.
Print Assumptions C25_main_domain.

(** Nodes of other domains: the same base name only in the same domain and with the same
    net, node and point. *)
Theorem C25_other_domains : forall env n n' d d' b, oenv_ok env -> valid4d n -> valid4d n' ->
  foreign env n d -> foreign env n' d' -> MakeBaseName env n = Some b -> MakeBaseName env n' = Some b ->
  d = d' /\ net n = net n' /\ node n = node n' /\ point n = point n'.
Proof.
  intros env n n' d d' b Hok Hv Hv' Hf Hf' H H'. destruct (base_eq env n n' b Hok H H' Hv Hv') as (E1 & E2 & E3 & [(x & Hx & Hx')|[(Hx & _ & _)|(x & e & [[_ Hx]|[_ Hx]] & _)]]).
  - split; auto. rewrite (foreign_fun _ _ _ _ Hf Hx). apply (foreign_fun _ _ _ _ Hx' Hf').
  - destruct (Hx _ Hf).
  - destruct (Hx _ Hf').
  - destruct (Hx _ Hf).
Qed.
Print Assumptions C25_other_domains.

(** A node of another domain never has the base name of a node of the main domain, unless
    its domain is named like the outbound directory itself. *)
Theorem C25_domains_apart : forall env n n' d b, oenv_ok env -> valid4d n -> valid4d n' ->
  foreign env n d -> (forall d, ~ foreign env n' d) -> MakeBaseName env n = Some b -> MakeBaseName env n' = Some b ->
  exists e, d = last_component env ++ e.
Proof.
  intros env n n' d b Hok Hv Hv' Hf Hf' H H'. destruct (base_eq env n n' b Hok H H' Hv Hv') as (_ & _ & _ & [(x & _ & Hx')|[(Hx & _ & _)|(x & e & [[Hx _]|[Hx _]] & E & _)]]).
  - destruct (Hf' _ Hx').
  - destruct (Hx _ Hf).
  - rewrite (foreign_fun _ _ _ _ Hf Hx). eauto.
  - destruct (Hf' _ Hx).
Qed.
Print Assumptions C25_domains_apart.

(** A base name exists whenever there is an AKA, and it and the names made from it fit
    into the buffers of 200 bytes. *)
Theorem C25_fits : forall env n, oenv_ok env -> oe_akas env <> [] ->
  exists b, MakeBaseName env n = Some b /\ (length b + 5 <= 200)%nat.
Proof.
  intros env n Hok Ha. destruct (oe_akas env) as [|f r] eqn:E; [contradiction|]. pose proof (MakeBaseName_eq env f r n E) as H.
  eexists. split; [exact H|]. pose proof (base_length env n _ Hok H). lia.
Qed.
Print Assumptions C25_fits.

(** The files of two base names differ: same file only for the same base name and the same
    kind (flow files, netmail packets, busy files) and flavour. *)
Theorem C25_files_apart : forall b b' t t', In t [PKTS_HOLD; PKTS_NORMAL; PKTS_DIRECT; PKTS_CRASH] -> In t' [PKTS_HOLD; PKTS_NORMAL; PKTS_DIRECT; PKTS_CRASH] ->
  (flowfile b t = flowfile b' t' -> b = b' /\ t = t') /\ (outfile b t = outfile b' t' -> b = b' /\ t = t') /\
  flowfile b t <> outfile b' t' /\ flowfile b t <> bsyname b' /\ outfile b t <> bsyname b'.
Proof.
  intros b b' t t' Ht Ht'. unfold flowfile, outfile, bsyname.
  assert (Hfl : flowletter t = flowletter t' -> t = t').
  { cbn in Ht, Ht'. destruct Ht as [<-|[<-|[<-|[<-|[]]]]], Ht' as [<-|[<-|[<-|[<-|[]]]]]; intros H; vm_compute in H; try discriminate; auto. }
  assert (Hol : outletter t = outletter t' -> t = t').
  { cbn in Ht, Ht'. destruct Ht as [<-|[<-|[<-|[<-|[]]]]], Ht' as [<-|[<-|[<-|[<-|[]]]]]; intros H; vm_compute in H; try discriminate; auto. }
  litc. split; [|split; [|split; [|split]]]; intros E; apply four_suffix in E as [E1 E2]; try reflexivity; cbn [app] in E2; try discriminate E2.
  - injection E2 as E2. auto.
  - injection E2 as E2. auto.
Qed.
Print Assumptions C25_files_apart.

(** Finding: nodes of different zones of another domain share their files. *)
Definition xaka := AKA (N4 2 201 505 0) (lit "fidonet") [] [].
Definition xaka2 := AKA (N4 5 1 2 0) (lit "amiganet") [] [].
Definition xnl := NL true (fun _ => 0) (fun _ => 0).
Definition xenv := OE (lit "/fido/outbound") (lit "/fido/packets") (lit "/fido/create") [xaka; xaka2]
  [RT (NP PAT_PATTERN (lit "39") (lit "*") (lit "*") (lit "*")) (NP PAT_PATTERN (lit "39") (lit "*") (lit "*") (lit "0")) xaka2;
   RT (NP PAT_PATTERN (lit "40") (lit "*") (lit "*") (lit "*")) (NP PAT_PATTERN (lit "40") (lit "*") (lit "*") (lit "0")) xaka2;
   RT (NP PAT_PATTERN (lit "*") (lit "*") (lit "*") (lit "*")) (NP PAT_PATTERN (lit "2") (lit "201") (lit "1") (lit "0")) xaka]
  xnl 0 100000 [] [] (fun _ => false) 0 0.
Theorem C25_zones_refuted : exists env n n' d b, oenv_ok env /\ valid4d n /\ valid4d n' /\ foreign env n d /\ foreign env n' d /\
  MakeBaseName env n = Some b /\ MakeBaseName env n' = Some b /\ n <> n'.
Proof.
  exists xenv, (N4 39 100 1 0), (N4 40 100 1 0), (lit "amiganet"). eexists.
  split; [split; [vm_compute; lia|repeat constructor; vm_compute; intros H; intuition discriminate]|].
  split; [repeat split; cbn; lia|]. split; [repeat split; cbn; lia|].
  split; [eexists; split; [exists []; eexists; split; [reflexivity|]; split; [vm_compute; reflexivity|constructor]|]; split; [reflexivity|]; repeat split; vm_compute; discriminate|].
  split; [eexists; split; [eexists [_]; eexists; split; [reflexivity|]; split; [vm_compute; reflexivity|repeat constructor; vm_compute; discriminate]|]; split; [reflexivity|]; repeat split; vm_compute; discriminate|].
  split; [vm_compute; reflexivity|]. split; [vm_compute; reflexivity|discriminate].
Qed.
Print Assumptions C25_zones_refuted.

(** nodes of the own zone, of another zone, a point *)
Example C25_nonvacuous : oenv_ok xenv /\
  MakeBaseName xenv (N4 2 201 1 0) = Some (lit "/fido/outbound/00c90001") /\
  MakeBaseName xenv (N4 1 201 1 7) = Some (lit "/fido/outbound.001/00c90001.pnt/00000007") /\
  MakeBaseName xenv (N4 39 201 1 0) = Some (lit "/fido/amiganet/00c90001") /\ (forall d, ~ foreign xenv (N4 1 201 1 7) d).
Proof.
  split; [split; [vm_compute; lia|repeat constructor; vm_compute; intros H; intuition discriminate]|].
  split; [vm_compute; reflexivity|]. split; [vm_compute; reflexivity|]. split; [vm_compute; reflexivity|].
  pose proof (otherdomain_spec xenv xaka [xaka2] (N4 1 201 1 7) eq_refl) as H. vm_compute in H. exact H.
Qed.

(** ** C28 *)

(** The packet that waits afterwards is a complete packet with the header of the old one,
    the messages of the old one and then those of the new one. *)
Theorem C28_merge : forall h1 m1 p1 h2 m2 p2, packet_of h1 m1 p1 -> packet_of h2 m2 p2 ->
  packet_of h1 (m1 ++ m2) (merge (Some p1) p2).
Proof.
  intros h1 m1 p1 h2 m2 p2 H1 H2. rewrite (merge_packets h1 m1 p1 h2 m2 p2) by auto.
  destruct H1 as (_ & Hh & F1), H2 as (_ & _ & F2). split; [reflexivity|]. split; auto. apply Forall_app; auto.
Qed.
Print Assumptions C28_merge.

(** Any number of packets, one after the other. *)
Theorem C28_merge_all : forall ps h m p, packet_of h m p ->
  Forall (fun q => exists h', packet_of h' (snd q) (fst q)) ps ->
  packet_of h (m ++ concat (map snd ps)) (fold_left (fun old q => merge (Some old) (fst q)) ps p).
Proof.
  induction ps as [|[q mq] ps IH]; intros h m p H F; cbn [fold_left map concat fst snd]; [rewrite app_nil_r; exact H|].
  inversion F as [|? ? (h' & Hq) F']; subst. rewrite app_assoc. apply IH; auto. eapply C28_merge; eauto.
Qed.
Print Assumptions C28_merge_all.

(** What the receiver reads from the packet that waits: everything, in order. *)
Theorem C28_received : forall S cfg (handle : S -> memmsg -> S * bool) junk tm tm' orig dest pw items1 items2 bs1 bs2 st,
  valid4d orig -> valid4d dest -> zone orig <> 0 -> zone dest <> 0 -> ~ (net orig = 65535 /\ point orig <> 0) ->
  ~ In 0 pw -> (length pw <= 8)%nat -> length junk = 14%nat ->
  (forall c, In c (pc_cnodes cfg) -> Compare4D (cn_node c) orig = 0 -> pw_ok cfg c pw) ->
  (flag (pc_flags cfg) CFG_CHECKPKTDEST = false \/ pc_nosecurity cfg = true \/
   exists a, In a (pc_akas cfg) /\ Compare4D (ak_node a) dest = 0) ->
  Forall item_ok items1 -> map item_bytes items1 = map Some bs1 ->
  Forall item_ok items2 -> map item_bytes items2 = map Some bs2 ->
  exists ms, Forall2 item_same (items1 ++ items2) ms /\
    ReadPkt cfg handle (fun _ => false) junk
      (merge (Some (mkheader tm orig dest pw ++ concat bs1 ++ [0; 0])) (mkheader tm' orig dest pw ++ concat bs2 ++ [0; 0])) st
    = deliver handle st ms.
Proof.
  intros S cfg handle junk tm tm' o d pw i1 i2 b1 b2 st Ho Hd Hzo Hzd Hn H0 Hl Hj Hpw Hck F1 E1 F2 E2.
  destruct (C14_packet_roundtrip S cfg handle junk tm o d pw (i1 ++ i2) (b1 ++ b2) st) as (ms & Hs & _ & ER); auto.
  - apply Forall_app; auto.
  - rewrite !map_app, E1, E2. reflexivity.
  - exists ms. split; [exact Hs|]. rewrite <- ER. f_equal.
    apply merge_raw. apply mkheader_length.
Qed.
Print Assumptions C28_received.

(** Packing a netmail packet: it is added to the packet that waits for its destination with
    its flavour, and removed. Nothing else changes, except that the lock is gone. *)
Theorem C28_packfile : forall exec env st dir num type d name base new,
  1 <= type <= 4 -> valid4d d -> (dir = [] \/ exists p, dir = p ++ [PATHCHAR]) -> finalname num type d = Some name ->
  MakeBaseName env d = Some base -> fget (os_fs st) (dir ++ name) = Some new ->
  let file := dir ++ name in
  let out := base ++ lit "." ++ [if type =? 1 then 104 else if type =? 3 then 100 else if type =? 4 then 99 else 111] ++ lit "ut" in
  file <> out -> file <> base ++ lit ".bsy" ->
  fget (os_fs st) (base ++ lit ".bsy") = None -> oe_noopen env (base ++ lit ".bsy") = false -> oe_noopen env out = false ->
  exists st' ops, PackFile exec env st file = Some (st', ops, true) /\
    fget (os_fs st') out = Some (merge (fget (os_fs st) out) new) /\ fget (os_fs st') file = None /\
    (forall f, f <> out -> f <> file -> fget (os_fs st') f = fget (os_fs st) f) /\
    os_last st' = os_last st /\ os_arcs st' = os_arcs st.
Proof.
  intros exec env st dir num type d name base new Ht Hv Hd Hf Hb Hnew file out Hfo Hfb Hbsy Hnb Hno.
  assert (Hob : out <> base ++ lit ".bsy").
  { unfold out. intros E. apply app_inv_head in E. revert E. litc. destruct (type =? 1), (type =? 3), (type =? 4); discriminate. }
  unfold PackFile. unfold file in *. rewrite (parse_final dir num type d name) by (auto; lia). cbn [obind]. rewrite Hb. cbn [obind].
  unfold LockBasename, bsyname, osExists. rewrite Hbsy, Hnb. cbn [orb].
  destruct (Z.eqb_spec type PKTS_ECHOMAIL) as [E|E]; [unfold PKTS_ECHOMAIL in E; lia|].
  unfold sendnet. change (outfile base type) with out. cbn [os_fs set_fs doing run fold_left apply]. rewrite fget_put_other by auto. rewrite Hnew, Hno. cbn [obind].
  rewrite (fget_put_other (os_fs st) (base ++ lit ".bsy") out) by auto.
  eexists. eexists. split; [reflexivity|]. cbn [os_fs set_fs doing run fold_left apply os_last os_arcs].
  split; [rewrite !fget_del_other, fget_put_same by auto; reflexivity|].
  split; [rewrite fget_del_other by auto; apply fget_del_same|].
  split; [|auto]. intros f Hf1 Hf2.
  destruct (list_eq_dec Z.eq_dec f (base ++ lit ".bsy")) as [->|Hfn]; [rewrite fget_del_same, Hbsy; reflexivity|].
  rewrite !fget_del_other, !fget_put_other by auto. reflexivity.
Qed.
Print Assumptions C28_packfile.

(** While the node is busy, or if the packet that waits cannot be opened, the new one stays
    as it is and nothing changes. *)
Theorem C28_busy : forall exec env st dir num type d name base,
  1 <= type <= 4 -> valid4d d -> (dir = [] \/ exists p, dir = p ++ [PATHCHAR]) -> finalname num type d = Some name ->
  MakeBaseName env d = Some base ->
  let out := base ++ lit "." ++ [if type =? 1 then 104 else if type =? 3 then 100 else if type =? 4 then 99 else 111] ++ lit "ut" in
  dir ++ name <> base ++ lit ".bsy" ->
  fget (os_fs st) (base ++ lit ".bsy") <> None \/ oe_noopen env (base ++ lit ".bsy") = true \/ oe_noopen env out = true ->
  exists st' ops, PackFile exec env st (dir ++ name) = Some (st', ops, false) /\ (forall f, fget (os_fs st') f = fget (os_fs st) f) /\
    os_last st' = os_last st /\ os_arcs st' = os_arcs st.
Proof.
  intros exec env st dir num type d name base Ht Hv Hd Hf Hb out Hfb H.
  unfold PackFile. rewrite (parse_final dir num type d name) by (auto; lia). cbn [obind]. rewrite Hb. cbn [obind].
  unfold LockBasename, bsyname, osExists. destruct (fget (os_fs st) (base ++ lit ".bsy")) eqn:Eb; [eexists; eexists; split; [reflexivity|auto]|].
  cbn [orb]. destruct (oe_noopen env (base ++ lit ".bsy")) eqn:En; [eexists; eexists; split; [reflexivity|auto]|].
  destruct H as [H|[H|H]]; [congruence|congruence|].
  destruct (Z.eqb_spec type PKTS_ECHOMAIL) as [E|E]; [unfold PKTS_ECHOMAIL in E; lia|].
  unfold sendnet. change (outfile base type) with out. cbn [os_fs set_fs doing run fold_left apply]. rewrite H.
  destruct (fget _ (dir ++ name)); cbn [obind];
   (eexists; eexists; split; [reflexivity|]; cbn [os_fs set_fs doing run fold_left apply os_last os_arcs]; split; [|auto]; intros f;
    destruct (list_eq_dec Z.eq_dec f (base ++ lit ".bsy")) as [->|Hfn]; [rewrite fget_del_same, Eb; reflexivity|];
    rewrite fget_del_other, fget_put_other by auto; reflexivity).
Qed.
Print Assumptions C28_busy.

(** Finding: a packet that waits but is empty (a mailer has truncated it) loses its header:
    what waits afterwards is not a packet. *)
Theorem C28_empty_refuted : exists h m p, packet_of h m p /\ m <> [] /\ forall h' m', ~ packet_of h' m' (merge (Some []) p).
Proof.
  set (h := mkheader (26,0,1,0,0,0) (N4 2 201 1 0) (N4 2 201 2 0) []).
  set (msg := pktmsg (repeat 0 12) [49] [65] [66] [67] [68]).
  exists h, [msg], (h ++ concat [msg] ++ [0; 0]).
  split.
  - split; [reflexivity|]. split; [split; vm_compute; reflexivity|]. constructor; [|constructor].
    exists (repeat 0 12), [49], [65], [66], [67], [68]. split; [reflexivity|]. split; [reflexivity|].
    unfold field. repeat split; simpl; try lia; intros H; intuition discriminate.
  - split; [discriminate|]. intros h' m' (E & [Hl _] & _).
    apply (f_equal (@List.length Z)) in E. rewrite !app_length, Hl in E. vm_compute in E. lia.
Qed.
Print Assumptions C28_empty_refuted.

(** Finding: packets for the same node from two of the own addresses are put together
    although their headers differ; the second origin (and password) is lost. *)
Theorem C28_header_refuted : exists tm o1 o2 d, valid4d o1 /\ valid4d o2 /\ valid4d d /\ o1 <> o2 /\
  forall msgs1 msgs2, fst (hdr_addr (firstn 58 (merge (Some (mkheader tm o1 d [] ++ concat msgs1 ++ [0; 0])) (mkheader tm o2 d [] ++ concat msgs2 ++ [0; 0])))) = o1.
Proof.
  exists (26,0,1,0,0,0), (N4 2 201 1 0), (N4 2 201 3 0), (N4 2 201 2 0).
  split; [repeat split; cbn; lia|]. split; [repeat split; cbn; lia|]. split; [repeat split; cbn; lia|]. split; [discriminate|].
  intros msgs1 msgs2. rewrite merge_raw by apply mkheader_length.
  rewrite firstn_app, mkheader_length, Nat.sub_diag, firstn_O, app_nil_r, firstn_all2 by (rewrite mkheader_length; lia).
  vm_compute. reflexivity.
Qed.
Print Assumptions C28_header_refuted.

Example C28_nonvacuous :
  let d := N4 2 201 5 0 in
  let msg c := pktmsg (repeat 0 12) [49] [65] [66] [67] [c] in
  let h o := mkheader (26,0,1,0,0,0) o d [] in
  let p1 := h (N4 2 201 1 0) ++ concat [msg 70] ++ [0; 0] in
  let p2 := h (N4 2 201 1 0) ++ concat [msg 71; msg 72] ++ [0; 0] in
  let name := lit "6543210f_Crash_2_201_5_0.newpkt" in
  let base := lit "/fido/outbound/00c90005" in
  finalname (6 * 268435456 + 5 * 16777216 + 4 * 1048576 + 3 * 65536 + 2 * 4096 + 1 * 256 + 0 * 16 + 15) 4 d = Some name /\
  MakeBaseName xenv d = Some base /\
  exists st ops, PackFile (fun _ fs => (fs, 0)) xenv (OS [(lit "/fido/create/" ++ name, p2); (base ++ lit ".cut", p1)] [] []) (lit "/fido/create/" ++ name) = Some (st, ops, true) /\
    fget (os_fs st) (base ++ lit ".cut") = Some (h (N4 2 201 1 0) ++ concat [msg 70; msg 71; msg 72] ++ [0; 0]).
Proof.
  cbv zeta. split; [vm_compute; reflexivity|]. split; [vm_compute; reflexivity|].
  eexists. eexists. split; [vm_compute; reflexivity|vm_compute; reflexivity].
Qed.

(** ** C49: names of packets *)

(** The name of a finished packet tells its flavour and destination. *)
Theorem C49_name : forall dir num type d, is_u32 num -> 0 <= type <= 4 -> valid4d d -> (dir = [] \/ exists p, dir = p ++ [PATHCHAR]) ->
  exists name, finalname num type d = Some name /\ (length name <= 48)%nat /\ parsepktname (dir ++ name) = Some (Some (type, d)).
Proof.
  intros dir num type d _ Ht Hv Hd. eexists. rewrite finalname_eq by auto. split; [reflexivity|].
  split; [eapply finalname_chars; eauto; apply finalname_eq; auto|]. eapply parse_final; eauto. apply finalname_eq; auto.
Qed.
Print Assumptions C49_name.

(** Packets with different numbers, flavours or destinations have different names. *)
Theorem C49_names_apart : forall num type d num' type' d' name, is_u32 num -> is_u32 num' -> 0 <= type <= 4 -> 0 <= type' <= 4 -> valid4d d -> valid4d d' ->
  finalname num type d = Some name -> finalname num' type' d' = Some name -> num = num' /\ type = type' /\ d = d'.
Proof.
  intros num type d num' type' d' name Hn Hn' Ht Ht' Hv Hv' E E'.
  pose proof (parse_final [] num type d name Ht Hv (or_introl eq_refl) E) as P.
  pose proof (parse_final [] num' type' d' name Ht' Hv' (or_introl eq_refl) E') as P'.
  rewrite P in P'. inversion P'; subst. split; [|auto].
  rewrite finalname_eq in E, E' by auto. assert (H : hex 8 num ++ lit "_" ++ typename type' ++ lit "_" ++ dec (zone d') ++ lit "_" ++ dec (net d') ++ lit "_" ++ dec (node d') ++ lit "_" ++
        dec (point d') ++ lit ".newpkt" = hex 8 num' ++ lit "_" ++ typename type' ++ lit "_" ++ dec (zone d') ++ lit "_" ++ dec (net d') ++ lit "_" ++ dec (node d') ++ lit "_" ++
        dec (point d') ++ lit ".newpkt") by (apply some_eq; congruence).
  apply app_inv_tail in H. unfold is_u32 in *. apply hex_inj in H; auto; change (16 ^ Z.of_nat 8) with 4294967296; lia.
Qed.
Print Assumptions C49_names_apart.

(** The numbers of the packets made by one run are all different, and no file with the name
    of an unfinished packet is overwritten, as long as the clock does not go back, moves on
    by less than 2^24 seconds and is not read more than 256 times in one second. *)
Theorem C49_numbers : forall calls t0 nums, let ts := concat (map snd calls) in
  made calls 0 0 = Some nums -> 0 < t0 -> nondecreasing ts -> Forall (fun t => t0 <= t < t0 + 16777216) ts ->
  (forall t, (count t ts <= 256)%nat) -> NoDup nums /\ Forall2 (fun c n => fst c n = false) calls nums.
Proof.
  intros calls t0 nums ts Em H0 Hnd Hw Hc.
  destruct (made_spec calls t0 0 0 nums) as (H1 & H2 & H3); auto.
  split; [lia|]. fold ts. split; [destruct ts as [|t r]; [exact I|split; [inversion Hw; lia|exact Hnd]]|].
  split; [|intros t Ht; apply Hc]. replace (count 0 ts) with 0%nat; [lia|]. unfold count.
  destruct (filter (Z.eqb 0) ts) as [|x l] eqn:E; [reflexivity|]. exfalso.
  assert (Hin : In x (filter (Z.eqb 0) ts)) by (rewrite E; left; auto). apply filter_In in Hin as [Hin Hx]. rewrite Forall_forall in Hw. apply Hw in Hin. lia.
Qed.
Print Assumptions C49_numbers.

(** Finding: with 257 packets in one second a number comes again; the first packet has been
    finished and renamed by then, so that nothing prevents it, and a packet with the same
    destination and flavour is overwritten when the new one is renamed. *)
Theorem C49_numbers_refuted : exists calls nums, made calls 0 0 = Some nums /\ nondecreasing (concat (map snd calls)) /\ ~ NoDup nums.
Proof.
  exists (repeat (fun _ : Z => false, [1000000000]) 257). eexists. split; [vm_compute; reflexivity|].
  split; [vm_compute; repeat split; discriminate|].
  intros H. match type of H with NoDup (?a :: ?l) => inversion H as [|? ? Hni _]; subst; apply Hni; vm_compute; tauto end.
Qed.
Print Assumptions C49_numbers_refuted.

Example C49_nonvacuous : made [(fun _ => false, [1000000000]); (fun n => n =? u32 (1000000000 * 256 + 1), [1000000000; 1000000000]); (fun _ => false, [1000000007])] 0 0
  = Some [u32 (1000000000 * 256); u32 (1000000000 * 256 + 2); u32 (1000000007 * 256)].
Proof. vm_compute. reflexivity. Qed.

(** ** C27: flow files *)

(** After a file has been attached it is listed. If it was listed already nothing changes;
    otherwise exactly its entry is added at the end. *)
Theorem C27_add : forall flags s file mode, flow_ok s -> flowable file ->
  let s' := addflow flags s file mode in
  flow_ok s' /\ (exists l, In l (lines s') /\ entry_for file l) /\
  ((exists l, In l (lines s) /\ entry_for file l) -> s' = s) /\
  ((forall l, In l (lines s) -> ~ entry_for file l) ->
   s' = s ++ mode_flag mode ++ file ++ (if flag flags CFG_FLOWCRLF then [13; 10] else [10])).
Proof.
  intros flags s file mode Hok Hf s'. split; [apply addflow_ok; auto|].
  destruct (addflow_eq flags s file mode Hok Hf) as [[(l & Hin & He) E]|[Hno E]]; fold s' in E.
  - split; [exists l; rewrite E; auto|]. split; [intros _; exact E|]. intros H. exfalso. eapply H; eauto.
  - split.
    + exists (newline flags file mode). split; [|apply newline_entry]. rewrite E. rewrite lines_add; [apply in_or_app; right; left; auto|apply Hok|apply newline_ok; auto].
    + split; [intros (l & Hin & He); exfalso; eapply Hno; eauto|]. intros _. rewrite E. unfold newline. destruct (flag flags CFG_FLOWCRLF); rewrite <- !app_assoc; reflexivity.
Qed.
Print Assumptions C27_add.

Lemma history_filter : forall flags files s, flow_ok s -> Forall (fun f => flowable (fst f)) files ->
  flow_ok (addall flags s files) /\
  (forall f, In f files -> exists l, In l (lines (addall flags s files)) /\ entry_for (fst f) l) /\
  exists new, lines (addall flags s files) = lines s ++ new /\
    Forall (fun l => exists f, In f files /\ entry_for (fst f) l /\ (forall o, In o (lines s) -> ~ entry_for (fst f) o)) new /\
    forall f, In f files -> (length (filter (fun l => streqi (flowname l) (fst f)) new) <= 1)%nat.
Proof.
  induction files as [|f files IH] using rev_ind; intros s Hok F.
  - cbn [addall fold_left]. split; auto. split; [intros f []|]. exists []. rewrite app_nil_r. split; auto.
  - apply Forall_app in F as [F Ff]. inversion Ff as [|? ? Hf _]; subst. unfold addall. rewrite fold_left_app. cbn [fold_left].
    fold (addall flags s files). destruct (IH s Hok F) as (I1 & I2 & new & I3 & I4 & I5).
    destruct (addflow_ok flags (addall flags s files) (fst f) (snd f) I1 Hf) as [A1 A2]. split; auto.
    assert (Hc : forall l, In l (lines (addall flags s files)) -> Forall (fun c => 0 < c < 128) l).
    { clear -I1. destruct I1 as (H & _). revert H. generalize (addall flags s files). intros x. induction x as [|c x IHx]; intros H l Hin; [destruct Hin|].
      inversion H; subst. cbn [lines] in Hin. destruct (c =? 10); [destruct Hin as [<-|Hin]; [constructor|auto]|]. destruct (lines x) as [|y z] eqn:E.
      - destruct Hin as [<-|[]]. repeat constructor; lia.
      - destruct Hin as [<-|Hin]; [constructor; [lia|apply IHx; [auto|left; auto]]|apply IHx; [auto|right; auto]]. }
    destruct (C27_add flags (addall flags s files) (fst f) (snd f) I1 Hf) as (_ & B1 & _ & _).
    split.
    + intros g Hg. apply in_app_or in Hg as [Hg|[<-|[]]]; [|exact B1]. destruct (I2 g Hg) as (l & Hl & He). exists l. split; auto. rewrite A2. apply in_or_app. auto.
    + destruct (existsb (fun l => streqi (flowname l) (fst f)) (lines (addall flags s files))) eqn:Ex.
      * rewrite app_nil_r in A2. exists new. rewrite A2. split; auto. split.
        -- revert I4. apply Forall_impl. intros l (g & Hg & R). exists g. split; [apply in_or_app; auto|exact R].
        -- intros g Hg. apply in_app_or in Hg as [Hg|[<-|[]]]; auto.
           destruct (in_dec (fun a b => list_eq_dec Z.eq_dec a b) (map tolower (fst f)) (map (fun g => map tolower (fst g)) files)) as [Hin|Hni].
           ++ apply in_map_iff in Hin as (g & Eg & Hg). rewrite <- (I5 g Hg). apply Nat.eq_le_incl. f_equal. apply filter_ext. intros l. unfold streqi. rewrite Eg. reflexivity.
           ++ replace (filter (fun l => streqi (flowname l) (fst f)) new) with (@nil (list Z)); [simpl; lia|].
              symmetry. destruct (filter (fun l => streqi (flowname l) (fst f)) new) as [|l r] eqn:Efl; [reflexivity|]. exfalso.
              assert (Hl : In l (filter (fun l => streqi (flowname l) (fst f)) new)) by (rewrite Efl; left; auto). apply filter_In in Hl as [Hl Hs].
              rewrite Forall_forall in I4. destruct (I4 l Hl) as (g & Hg & He & _).
              assert (Hfg : flowable (fst g)) by (rewrite Forall_forall in F; apply F; auto).
              apply flow_entry in He; [|auto|apply Hc; rewrite I3; apply in_or_app; auto].
              apply streqi_iff in He. apply streqi_iff in Hs. apply Hni. apply in_map_iff. exists g. split; [congruence|auto].
      * exists (new ++ [newline flags (fst f) (snd f)]). rewrite A2, I3, app_assoc. split; auto.
        assert (Hnone : forall l, In l (lines (addall flags s files)) -> streqi (flowname l) (fst f) = false).
        { intros l Hl. destruct (streqi (flowname l) (fst f)) eqn:E; [|reflexivity].
          assert (existsb (fun l => streqi (flowname l) (fst f)) (lines (addall flags s files)) = true) by (apply existsb_exists; eauto). congruence. }
        split.
        -- apply Forall_app. split.
           ++ revert I4. apply Forall_impl. intros l (g & Hg & R). exists g. split; [apply in_or_app; auto|exact R].
           ++ constructor; [|constructor]. exists f. split; [apply in_or_app; right; left; auto|]. split; [apply newline_entry|].
              intros o Ho He. apply flow_entry in He; [|auto|apply Hc; rewrite I3; apply in_or_app; auto].
              rewrite Hnone in He; [discriminate|rewrite I3; apply in_or_app; auto].
        -- intros g Hg. rewrite filter_app, app_length. cbn [filter].
           assert (Hn : flowname (newline flags (fst f) (snd f)) = flowname (newline flags (fst f) (snd f))) by reflexivity.
           assert (Hs : streqi (flowname (newline flags (fst f) (snd f))) (fst f) = true).
           { apply flow_entry; auto; [apply newline_ok; auto|apply newline_entry]. }
           destruct (streqi (flowname (newline flags (fst f) (snd f))) (fst g)) eqn:Eg.
           ++ replace (filter (fun l => streqi (flowname l) (fst g)) new) with (@nil (list Z)); [simpl; lia|].
              symmetry. destruct (filter (fun l => streqi (flowname l) (fst g)) new) as [|l r] eqn:Efl; [reflexivity|]. exfalso.
              assert (Hl : In l (filter (fun l => streqi (flowname l) (fst g)) new)) by (rewrite Efl; left; auto). apply filter_In in Hl as [Hl Hsg].
              assert (streqi (flowname l) (fst f) = true).
              { apply streqi_iff in Hsg, Eg, Hs. apply streqi_iff. congruence. }
              rewrite Hnone in H; [discriminate|rewrite I3; apply in_or_app; auto].
           ++ simpl. rewrite Nat.add_0_r. apply in_app_or in Hg as [Hg|[<-|[]]]; auto. rewrite Hs in Eg. discriminate.
Qed.
(** Any sequence of attached files: the old lines stay, every file is listed, and for no file
    is there more than one new entry, or a new entry beside an old one. *)
Theorem C27_history : forall flags files s, flow_ok s -> Forall (fun f => flowable (fst f)) files ->
  flow_ok (addall flags s files) /\
  (forall f, In f files -> exists l, In l (lines (addall flags s files)) /\ entry_for (fst f) l) /\
  exists new, lines (addall flags s files) = lines s ++ new /\
    Forall (fun l => exists f, In f files /\ entry_for (fst f) l /\ (forall o, In o (lines s) -> ~ entry_for (fst f) o)) new /\
    forall f i j a b, In f files -> nth_error new i = Some a -> nth_error new j = Some b ->
      entry_for (fst f) a -> entry_for (fst f) b -> i = j.
Proof.
  intros flags files s Hok F. destruct (history_filter flags files s Hok F) as (H1 & H2 & new & H3 & H4 & H5).
  split; auto. split; auto. exists new. split; auto. split; auto. intros f i j a b Hf Ea Eb Ha Hb.
  assert (Hff : flowable (fst f)) by (rewrite Forall_forall in F; apply F; auto).
  assert (Hc : forall l, In l new -> Forall (fun c => 0 < c < 128) l).
  { intros l Hl. eapply (lines_chars (addall flags s files)); [apply H1|]. rewrite H3. apply in_or_app. auto. }
  apply flow_entry in Ha; [|auto|apply Hc; eapply nth_error_In; eauto]. apply flow_entry in Hb; [|auto|apply Hc; eapply nth_error_In; eauto].
  eapply filter_once; [exact (H5 f Hf)|exact Ea|exact Eb|exact Ha|exact Hb].
Qed.
Print Assumptions C27_history.

(** Attaching a file to a node that is not busy. *)
Theorem C27_attach : forall env fs file n type mode base, 0 <= type <= 4 -> MakeBaseName env n = Some base ->
  fget fs (base ++ lit ".bsy") = None -> oe_noopen env (base ++ lit ".bsy") = false -> oe_noopen env (flow_of base type) = false ->
  exists fs', AddFlow env fs file n type mode = Some (fs', true) /\
    fget fs' (flow_of base type) = Some (addflow (oe_flags env) (contents fs (flow_of base type)) file mode) /\
    forall f, f <> flow_of base type -> fget fs' f = fget fs f.
Proof.
  intros env fs file n type mode base Ht Hb Hbsy Hnb Hno. unfold AddFlow. rewrite Hb. cbn [obind]. unfold LockBasename, bsyname, osExists. rewrite Hbsy, Hnb. cbn [orb].
  unfold doAddFlow. rewrite flow_of_eq, Hno. cbn [obind]. pose proof (flow_not_bsy base base type) as Hfb.
  eexists. split; [reflexivity|]. unfold UnlockBasename, bsyname. split.
  - rewrite fget_del_other, fget_put_same by auto. rewrite fget_put_other by auto. reflexivity.
  - intros f Hf. destruct (list_eq_dec Z.eq_dec f (base ++ lit ".bsy")) as [->|Hfn]; [rewrite fget_del_same, Hbsy; reflexivity|].
    rewrite fget_del_other, !fget_put_other by auto. reflexivity.
Qed.
Print Assumptions C27_attach.

(** Attaching a file to a busy node: an orphan is left behind, nothing else changes. When
    the orphan is handled later, in whatever state of the other files, the entry is made as
    it would have been and the orphan disappears. *)
Theorem C27_orphan : forall env fs file n type mode base, 0 <= type <= 4 -> mode = 0 \/ mode = 1 \/ mode = 2 -> valid4d n ->
  (length file <= 192)%nat -> MakeBaseName env n = Some base -> fget fs (base ++ lit ".bsy") <> None -> oe_noopen env (file ++ lit ".orphan") = false ->
  exists fs1, AddFlow env fs file n type mode = Some (fs1, false) /\
    (forall f, f <> file ++ lit ".orphan" -> fget fs1 f = fget fs f) /\
    forall env2 fs2 base2, fget fs2 (file ++ lit ".orphan") = fget fs1 (file ++ lit ".orphan") -> MakeBaseName env2 n = Some base2 ->
      fget fs2 (base2 ++ lit ".bsy") = None -> oe_noopen env2 (base2 ++ lit ".bsy") = false -> oe_noopen env2 (flow_of base2 type) = false ->
      exists fs3, HandleOrphan env2 fs2 (file ++ lit ".orphan") = Some fs3 /\
        fget fs3 (flow_of base2 type) = Some (addflow (oe_flags env2) (contents fs2 (flow_of base2 type)) file mode) /\
        fget fs3 (file ++ lit ".orphan") = None /\
        forall f, f <> flow_of base2 type -> f <> file ++ lit ".orphan" -> fget fs3 f = fget fs2 f.
Proof.
  intros env fs file n type mode base Ht Hm Hv Hl Hb Hbsy Hno.
  destruct (orphan_read type n mode Ht Hv Hm) as (t & l & a & b & c & Et & El & Ea & Eb & Ec & Emode).
  unfold AddFlow. rewrite Hb. cbn [obind]. unfold LockBasename, bsyname, osExists.
  destruct (fget fs (base ++ lit ".bsy")) eqn:Ebs; [|congruence]. cbn [orb].
  unfold MakeOrphan, orphanname. assert (Hlen : length (file ++ lit ".orphan") = (length file + 7)%nat) by (rewrite app_length; reflexivity).
  destruct (Nat.ltb_spec (length (file ++ lit ".orphan")) 200); [|lia]. rewrite Hno, Et. cbn [obind].
  eexists. split; [reflexivity|]. split; [intros f Hf; apply fget_put_other; auto|].
  intros env2 fs2 base2 E2 Hb2 Hbsy2 Hnb2 Hno2. rewrite fget_put_same in E2.
  unfold HandleOrphan. rewrite E2, El, Ea. cbn [obind fst snd].
  destruct (priname_props type Ht) as (_ & _ & _ & _ & ty & Ety & Hty). rewrite Ety, Eb. cbn [obind fst snd].
  unfold Parse4D. rewrite write_parse by auto. rewrite Ec. cbn [obind]. rewrite Hb2. cbn [obind].
  unfold LockBasename, bsyname, osExists. rewrite Hbsy2, Hnb2. cbn [orb]. unfold doAddFlow. rewrite flow_of_eq, Hty, Hno2. rewrite Emode.
  replace (firstn (length (firstn 199 (file ++ lit ".orphan")) - 7) (firstn 199 (file ++ lit ".orphan"))) with file.
  2: { rewrite (firstn_all2 (n := 199)) by lia. rewrite Hlen. replace (length file + 7 - 7)%nat with (length file) by lia.
       rewrite firstn_app, Nat.sub_diag, firstn_O, app_nil_r, firstn_all. reflexivity. }
  pose proof (flow_not_bsy base2 base2 type) as F1. pose proof (flow_not_orphan base2 type file) as F2. pose proof (orphan_not_bsy base2 file) as F3.
  eexists. split; [reflexivity|]. unfold UnlockBasename, bsyname. split; [|split].
  - rewrite !fget_del_other, fget_put_same by auto. rewrite fget_put_other by auto. reflexivity.
  - rewrite fget_del_other by auto. apply fget_del_same.
  - intros f Hf1 Hf2. destruct (list_eq_dec Z.eq_dec f (base2 ++ lit ".bsy")) as [->|Hfn]; [rewrite fget_del_same, Hbsy2; reflexivity|].
    rewrite !fget_del_other, !fget_put_other by auto. reflexivity.
Qed.
Print Assumptions C27_orphan.

(** Findings. A flow file whose last line is not terminated gets the new entry glued to
    that line: afterwards neither file is listed. *)
Theorem C27_unterminated_refuted : exists s file, Forall (fun c => 0 < c < 128) s /\ flowable file /\
  entry_for s s /\ forall l, In l (lines (addflow 0 s file 0)) -> ~ entry_for file l /\ ~ entry_for s l.
Proof.
  exists (lit "/a"), (lit "/b"). split; [litc; repeat constructor; lia|].
  split; [split; [discriminate|]; split; [litc; repeat constructor; lia|]; split; [vm_compute; lia|vm_compute; intuition discriminate]|].
  split; [exists [], [], [], [], (lit "/a"), []; unfold opt_flag; repeat split; auto|].
  intros l Hl. vm_compute in Hl. destruct Hl as [<-|[]].
  assert (Hfl : forall f, flowable f -> streqi (flowname [47; 97; 47; 98]) f = false -> ~ entry_for f [47; 97; 47; 98]).
  { intros f Hf E He. apply flow_entry in He; [congruence|auto|repeat constructor; lia]. }
  split; apply Hfl; try reflexivity; (split; [discriminate|]; split; [litc; repeat constructor; lia|]; split; [vm_compute; lia|vm_compute; intuition discriminate]).
Qed.
Print Assumptions C27_unterminated_refuted.
(** An entry that has been sent already, marked by the mailer with a tilde, counts as
    listed: a new file of the same name is not sent. *)
Theorem C27_sent_refuted : exists file, flowable file /\ flow_ok (lit "~" ++ file ++ [10]) /\
  addflow 0 (lit "~" ++ file ++ [10]) file 2 = lit "~" ++ file ++ [10].
Proof.
  exists (lit "/fido/packets/12345678.mo0"). split; [split; [discriminate|]; split; [litc; repeat constructor; lia|]; split; [vm_compute; lia|vm_compute; intuition discriminate]|].
  split; [|vm_compute; reflexivity]. split; [litc; repeat constructor; lia|]. split; [right; eexists (lit "~" ++ _); rewrite <- app_assoc; reflexivity|vm_compute; repeat constructor; lia].
Qed.
Print Assumptions C27_sent_refuted.
(** Names that end in an 8 bit character are never found again. *)
Theorem C27_eight_bit_refuted : exists file, cstring file /\ let s := addflow 0 [] file 0 in addflow 0 s file 0 <> s.
Proof. exists [47; 228]. split; [repeat constructor; lia|]. vm_compute. discriminate. Qed.
Print Assumptions C27_eight_bit_refuted.

Example C27_nonvacuous : let s := lit "^/fido/packets/12345678.mo0" ++ [10] ++ lit "/files/a.zip" ++ [10] in
  flow_ok s /\ flowable (lit "/files/A.ZIP") /\ flowable (lit "/files/b.zip") /\
  addall 0 s [(lit "/files/A.ZIP", 0); (lit "/files/b.zip", 2); (lit "/files/b.zip", 1)] = s ++ lit "^/files/b.zip" ++ [10] /\
  (exists fs1, AddFlow xenv [(lit "/fido/outbound/00c90005.bsy", [])] (lit "/files/b.zip") (N4 2 201 5 0) 4 2 = Some (fs1, false) /\
    fget fs1 (lit "/files/b.zip.orphan") = Some (lit "Crash 2:201/5.0 Delete" ++ [10])).
Proof.
  cbv zeta. split; [split; [litc; repeat constructor; lia|]; split; [right; eexists (lit "^/fido/packets/12345678.mo0" ++ [10] ++ lit "/files/a.zip"); rewrite <- !app_assoc; reflexivity|vm_compute; repeat constructor; lia]|].
  split; [split; [discriminate|]; split; [litc; repeat constructor; lia|]; split; [vm_compute; lia|vm_compute; intuition discriminate]|].
  split; [split; [discriminate|]; split; [litc; repeat constructor; lia|]; split; [vm_compute; lia|vm_compute; intuition discriminate]|].
  split; [vm_compute; reflexivity|]. eexists. split; vm_compute; reflexivity.
Qed.

(** ** C26: bundles *)

(** Choosing a bundle for a node: whatever the directory, the clock and the other nodes'
    bundles, the name is the one the node used last or no file has it (in any case of
    letters); no other node's bundle changes, and the nodes' numbers stay different. *)
Theorem C26_choice : forall env arcs last i, names_ok last -> (i < length last)%nat -> 0 <= oe_wday env < 7 ->
  Z.of_nat (length arcs) + Z.of_nat (length last) < 4294967295 ->
  exists name b k last' ch, MakeArcName env arcs last i = Some (name, last', ch) /\ is_bundle name b k /\
    (nth_error last i = Some name \/ ~ in_dir arcs name) /\
    names_ok last' /\ nth_error last' i = Some name /\ (forall j, j <> i -> nth_error last' j = nth_error last j) /\ length last' = length last /\
    (ch = false -> last' = last).
Proof.
  intros env arcs last i H1 H2 H3 H4. destruct (choice env arcs last i H1 H2 H3 H4) as (b & k & last' & ch & Hb & Hk & E & P1 & P2 & P3 & P4 & P5 & P6 & _).
  exists (bname b k), b, k, last', ch. split; auto. split; [split; auto|]. auto 10.
Qed.
Print Assumptions C26_choice.

(** The rule for a node that has a bundle. *)
Theorem C26_rule : forall env arcs last i b k sz, nth_error last i = Some (bname b k) -> is_u32 b -> 0 <= k < 70 -> 0 <= oe_wday env < 7 ->
  dir_size arcs (bname b k) sz ->
  let weekday := flag (oe_flags env) CFG_WEEKDAYNAMING in
  let usable := (exists z, sz = Some z /\ z <> 0 /\ z <= oe_maxbundle env) /\ (weekday = true -> k / 10 = oe_wday env) in
  let nx := bname b (next_bundle weekday (oe_wday env) k) in
  exists name last' ch, MakeArcName env arcs last i = Some (name, last', ch) /\
    (usable -> name = bname b k) /\ (~ usable -> ~ in_dir arcs nx -> name = nx) /\ (~ usable -> in_dir arcs nx -> name = bname b k).
Proof.
  intros env arcs last i b k sz Hi Hb Hk Hw Hsz weekday usable nx.
  destruct (MakeArcName_old env arcs last i b k sz Hi Hb Hk Hw Hsz) as (Hn & e & k' & He & Ek & E). fold weekday in Hn, He, Ek.
  assert (Hus : usable <-> again env sz k = false).
  { unfold usable, again. fold weekday. rewrite orb_false_iff, andb_false_iff, negb_false_iff. split.
    - intros [(z & -> & H1 & H2) H3]. split; [|destruct weekday; [right; specialize (H3 eq_refl); lia|auto]].
      apply orb_false_iff. split; lia.
    - intros [H1 H2]. split; [destruct sz as [z|]; [|discriminate]; exists z; apply orb_false_iff in H1; split; auto; lia|].
      intros Ew. destruct H2 as [H2|H2]; [congruence|lia]. }
  exists (bname b k'). destruct (streqi (bname b k) (bname b k')); (eexists; eexists; split; [exact E|]; (split; [|split])).
  all: intros HU; try intros Hd.
  all: try (apply Hus in HU; rewrite HU in Ek; congruence).
  all: assert (again env sz k = true) as Ha by (destruct (again env sz k); [auto|exfalso; apply HU; apply Hus; auto]); rewrite Ha in Ek.
  all: destruct e; rewrite Ek; auto; exfalso; first [apply Hd; apply He; reflexivity|apply He in Hd; discriminate].
Qed.
Print Assumptions C26_rule.

(** Over any history of choices, with directory, clock and configuration changing in between,
    two nodes never get the same bundle. *)
Theorem C26_history : forall env last ops, names_ok last -> Forall (bop_ok (length last)) ops ->
  exists l fin, bundles env last ops = Some (l, fin) /\ length l = length ops /\ names_ok fin /\
    forall i j n n', In (i, n) l -> In (j, n') l -> i <> j -> map tolower n <> map tolower n'.
Proof.
  intros env last ops Hok F. destruct (choices env ops last Hok F) as (l & fin & E & H1 & H2 & H3 & H4 & H5).
  exists l, fin. split; auto. split; auto. split; auto. intros i j n n' Hi Hj Hij En.
  destruct (H5 i n Hi) as (b & k & k' & (Hb & Hk & ->) & Hk' & Ei). destruct (H5 j n' Hj) as (b2 & k2 & k2' & (Hb2 & Hk2 & ->) & Hk2' & Ej).
  rewrite !bname_lower in En by auto. apply bname_inj in En as [-> _]; auto.
  destruct H1 as [_ H1]. eapply (H1 i j _ _ b2 k' b2 k2'); [exact Hij|exact Ei|exact Ej|split; auto|split; auto|reflexivity].
Qed.
Print Assumptions C26_history.

(** The index written to disk restores every node's bundle in the next run. *)
Theorem C26_index : forall env last,
  length (oe_nodes env) = length last -> names_ok last ->
  Forall (fun c => valid4d (on_node c)) (oe_nodes env) ->
  (forall i j a b, i <> j -> nth_error (oe_nodes env) i = Some a -> nth_error (oe_nodes env) j = Some b -> Compare4D (on_node a) (on_node b) <> 0) ->
  exists ch, ReadIndex env (Some (indexlines (oe_nodes env) last)) (repeat [] (length last)) = Some (last, ch).
Proof.
  intros env last Hl Hok V D. unfold ReadIndex.
  assert (E := readindex_lines (oe_nodes env) last [] [] (S (length (indexlines (oe_nodes env) last)))). cbn [app] in E.
  rewrite E; auto; [|apply Hok|intros c _; apply compare_zero_iff; auto]. cbn [obind].
  pose proof (cleardups_ok last Hok) as Ec. destruct (cleardups (length last) last) as [l' ch]. cbn [fst] in Ec. subst. eauto.
Qed.
Print Assumptions C26_index.

(** Whatever the index contains, afterwards no two nodes have bundles with the same number,
    and every node has what the index says or nothing. *)
Theorem C26_duplicates : forall env s last0 last ch, ReadIndex env (Some s) last0 = Some (last, ch) ->
  exists read, readindex (S (length s)) (oe_nodes env) s last0 = Some read /\ length last = length read /\
    (forall i l, nth_error last i = Some l -> l = [] \/ nth_error read i = Some l) /\
    forall i j a b, i <> j -> nth_error last i = Some a -> nth_error last j = Some b -> a <> [] -> b <> [] -> hextodec a <> hextodec b.
Proof.
  intros env s last0 last ch E. unfold ReadIndex in E. destruct (readindex _ _ s last0) as [read|] eqn:Er; [|discriminate]. cbn [obind] in E.
  exists read. split; auto. destruct (cleardups_distinct (length read) read (Nat.le_refl _)) as (H1 & H2 & H3).
  assert (Ec : cleardups (length read) read = (last, ch)) by congruence. rewrite Ec in *. auto.
Qed.
Print Assumptions C26_duplicates.

(** Findings. An index edited by hand can make the program read before the beginning of a
    name. *)
Theorem C26_index_refuted : exists s last ch, ReadIndex (OE (lit "/o") (lit "/p") (lit "/c") [xaka] [] xnl 0 100000 [] [ON (N4 2 201 5 0) None 2] (fun _ => false) 0 0) (Some s) [[]] = Some (last, ch) /\
  MakeArcName (OE (lit "/o") (lit "/p") (lit "/c") [xaka] [] xnl 0 100000 [] [ON (N4 2 201 5 0) None 2] (fun _ => false) 0 0) [] last 0 = None.
Proof. exists (lit "2:201/5 ab" ++ [10]), [lit "ab"], false. split; vm_compute; reflexivity. Qed.
Print Assumptions C26_index_refuted.
(** Storing a name of 12 characters writes one byte behind LastArcName, into the counter
    that follows it (config.h:178-182, outbound.c:329). *)
Theorem C26_overflow_refuted : exists name counter, length name = 12%nat /\ is_bundle name 305419896 10 /\
  exists mem, mystrncpy (Some (repeat 0 12 ++ le32 counter)) 0 name 13 = Some mem /\ get32 mem 12 <> counter /\ get32 (repeat 0 12 ++ le32 counter) 12 = counter.
Proof.
  exists (bname 305419896 10), 258. split; [reflexivity|]. split; [split; [unfold is_u32; lia|split; [lia|reflexivity]]|].
  eexists. split; [vm_compute; reflexivity|]. split; vm_compute; [discriminate|reflexivity].
Qed.
Print Assumptions C26_overflow_refuted.

(** three nodes, one without a bundle; a bundle too big, one that is used again, a new one *)
Example C26_nonvacuous :
  let last := [lit "00000010.mo9"; []; lit "00000011.su3"] in
  names_ok last /\
  exists l fin, bundles xenv last
    [BO [(lit "00000010.MO9", 200000); (lit "00000011.su3", 500)] 0 0 100000 1 17; BO [(lit "00000011.su3", 500)] 2 0 100000 1 17; BO [(lit "00000011.su3", 500)] 1 CFG_WEEKDAYNAMING 100000 4 17] = Some (l, fin) /\
    l = [(0%nat, lit "00000010.tu0"); (2%nat, lit "00000011.su3"); (1%nat, lit "00000012.th0")].
Proof.
  cbv zeta. split.
  - assert (B0 : is_bundle (lit "00000010.mo9") 16 19) by (split; [unfold is_u32; lia|split; [lia|vm_compute; reflexivity]]).
    assert (B2 : is_bundle (lit "00000011.su3") 17 3) by (split; [unfold is_u32; lia|split; [lia|vm_compute; reflexivity]]).
    split; [constructor; [right; eauto|]; constructor; [left; auto|]; constructor; [right; eauto|constructor]|].
    assert (Hne : forall b k, ~ is_bundle [] b k) by (intros b k (_ & Hk & E); pose proof (bname_length b k Hk) as Hl; rewrite <- E in Hl; discriminate).
    intros i j li lj b k b' k' Hij Hi Hj Bi Bj.
    destruct i as [|[|[|i]]], j as [|[|[|j]]]; try congruence; cbn [nth_error] in Hi, Hj; try (destruct i; discriminate); try (destruct j; discriminate).
    all: apply some_eq in Hi; apply some_eq in Hj; subst li lj; try (exfalso; eapply Hne; eassumption).
    + destruct (is_bundle_fun _ _ _ _ _ Bi B0), (is_bundle_fun _ _ _ _ _ Bj B2). lia.
    + destruct (is_bundle_fun _ _ _ _ _ Bi B2), (is_bundle_fun _ _ _ _ _ Bj B0). lia.
  - eexists. eexists. split; [vm_compute; reflexivity|]. vm_compute. reflexivity.
Qed.
