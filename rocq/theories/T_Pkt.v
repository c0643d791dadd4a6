(** C13, C14, C15: packets. *)
From Verif Require Import Base M_Node4D S_Node4D M_Str S_Str P_Str M_Pat M_Mem S_Mem P_Mem M_Fs P_Fs M_Cfg M_Pkt S_Pkt P_Pkt.

Ltac litcs := apply Forall_forall; let x := fresh in let Hx := fresh in intros x Hx; unfold is_u8; vm_compute in Hx; repeat (destruct Hx as [<-|Hx]; [lia|]); destruct Hx.

(** ** C13: the packet header *)

(** The addresses and the password put into a packet header are the ones read from it, for
    all addresses with a zone, except that a point of net 65535 cannot be a sender. *)
Theorem C13_header_roundtrip : forall tm orig dest pw, valid4d orig -> valid4d dest -> zone orig <> 0 ->
  ~ (net orig = 65535 /\ point orig <> 0) -> ~ In 0 pw -> (length pw <= 8)%nat ->
  let h := mkheader tm orig dest pw in
  is_header h /\ hdr_addr h = (orig, dest) /\ cstr (firstn 8 (skipn 26 h)) = pw.
Proof.
  intros tm o d pw Ho Hd Hz Hn H0 Hl. cbv zeta. split; [split; [apply mkheader_length|apply mkheader_type]|].
  rewrite mkheader_pw, cstr_pw by auto. split; auto. rewrite hdr_addr_mk by auto.
  destruct (Z.eqb_spec (zone o) 0); [contradiction|].
  destruct o as [oz on oo op], d; cbn in *. destruct (Z.eqb_spec op 0), (Z.eqb_spec on 65535); cbn; auto. tauto.
Qed.
Print Assumptions C13_header_roundtrip.

(** The exact result for all addresses, the excepted ones included. *)
Theorem C13_header_exact : forall tm o d pw, valid4d o -> valid4d d ->
  hdr_addr (mkheader tm o d pw) =
  (N4 (zone o) (if negb (point o =? 0) && (net o =? 65535) then 0 else net o) (node o) (point o),
   N4 (if zone o =? 0 then 0 else zone d) (net d) (node d) (point d)).
Proof. exact hdr_addr_mk. Qed.
Print Assumptions C13_header_exact.

(** Finding: a packet from a point of net 65535 is read as coming from net 0; one whose
    sender has no zone loses the zone of its destination. *)
Theorem C13_header_refuted : (exists o d, valid4d o /\ valid4d d /\ zone o <> 0 /\ fst (hdr_addr (mkheader (26,0,1,0,0,0) o d [])) <> o) /\
  (exists o d, valid4d o /\ valid4d d /\ snd (hdr_addr (mkheader (26,0,1,0,0,0) o d [])) <> d).
Proof.
  split.
  - exists (N4 2 65535 1 3), (N4 2 201 505 0). repeat split; cbn; try lia; try (unfold is_u16; cbn; lia); vm_compute; discriminate.
  - exists (N4 0 201 1 0), (N4 2 201 505 0). repeat split; cbn; try lia; try (unfold is_u16; cbn; lia); vm_compute; discriminate.
Qed.
Print Assumptions C13_header_refuted.

Lemma fixzone_nz {A} (f : A -> node4d) l dz n : zone n <> 0 -> fixzone f l dz n = n.
Proof. intros H. unfold fixzone. destruct (Z.eqb_spec (zone n) 0); [contradiction|]. destruct (Z.eqb_spec (zone n) 0); [contradiction|]. reflexivity. Qed.

(** ReadPkt on a packet with such a header. *)
Lemma ReadPkt_mk {S} cfg (handle : S -> memmsg -> S * bool) ctrlc junk tm o d pw body st :
  valid4d o -> valid4d d -> zone o <> 0 -> zone d <> 0 -> ~ (net o = 65535 /\ point o <> 0) ->
  ReadPkt cfg handle ctrlc junk (mkheader tm o d pw ++ body) st =
  if flag (pc_flags cfg) CFG_CHECKPKTDEST && negb (pc_nosecurity cfg) &&
     match findnode ak_node d (pc_akas cfg) with None => true | Some _ => false end
  then PkBad BDest st else
  if Nat.ltb (length (firstn 14 body)) 2 then PkBad BMsgHeader1 st else
  readmsgs cfg handle ctrlc (Datatypes.S (length body)) (findnode cn_node o (pc_cnodes cfg)) (mkheader tm o d pw) o d 0
    (overlay junk (firstn 14 body)) (skipn 14 body) st.
Proof.
  intros Ho Hd Hzo Hzd Hn. unfold ReadPkt.
  replace (firstn 58 (mkheader tm o d pw ++ body)) with (mkheader tm o d pw)
    by (rewrite firstn_app, mkheader_length, Nat.sub_diag, firstn_O, app_nil_r, firstn_all2; [auto|rewrite mkheader_length; lia]).
  replace (skipn 58 (mkheader tm o d pw ++ body)) with body
    by (rewrite skipn_app, mkheader_length, Nat.sub_diag, skipn_O, skipn_all2; [auto|rewrite mkheader_length; lia]).
  rewrite mkheader_length, mkheader_type. cbn [Nat.ltb Nat.leb].
  change (Nat.ltb 58 58) with false. change (negb (2 =? 2)) with false. cbv iota.
  assert (E : hdr_addr (mkheader tm o d pw) = (o, d)).
  { rewrite hdr_addr_mk by auto. destruct (Z.eqb_spec (zone o) 0); [contradiction|].
    destruct o as [oz on oo op], d; cbn in *. destruct (Z.eqb_spec op 0), (Z.eqb_spec on 65535); cbn; auto. tauto. }
  rewrite E. rewrite !fixzone_nz by auto. reflexivity.
Qed.

(** When the sender is configured with another password, no message of the packet is
    handed over, except netmail from nodes that need no netmail password: changing the
    handler on all other messages changes nothing. *)
Theorem C13_password_enforced : forall S cfg (h1 h2 : S -> memmsg -> S * bool) ctrlc junk tm orig dest pw c body st,
  valid4d orig -> valid4d dest -> zone orig <> 0 -> zone dest <> 0 -> ~ (net orig = 65535 /\ point orig <> 0) ->
  ~ In 0 pw -> (length pw <= 8)%nat ->
  findnode cn_node orig (pc_cnodes cfg) = Some c ->
  (forall st m, may_pass cfg c pw m -> h1 st m = h2 st m) ->
  ReadPkt cfg h1 ctrlc junk (mkheader tm orig dest pw ++ body) st =
  ReadPkt cfg h2 ctrlc junk (mkheader tm orig dest pw ++ body) st.
Proof.
  intros S cfg h1 h2 ctrlc junk tm o d pw c body st Ho Hd Hzo Hzd Hn H0 Hl Hc Hh. rewrite !ReadPkt_mk by auto.
  destruct (_ && _ && _); auto. destruct (Nat.ltb _ _); auto. rewrite Hc.
  apply readmsgs_handlers. intros st' m Hm _ _. apply Hh. eapply wrongpw_mk; eauto.
Qed.
Print Assumptions C13_password_enforced.

(** In particular nothing at all happens when netmail needs the password too. *)
Theorem C13_wrong_password_nothing : forall S cfg (handle : S -> memmsg -> S * bool) ctrlc junk tm orig dest pw c body st r,
  valid4d orig -> valid4d dest -> zone orig <> 0 -> zone dest <> 0 -> ~ (net orig = 65535 /\ point orig <> 0) ->
  ~ In 0 pw -> (length pw <= 8)%nat ->
  findnode cn_node orig (pc_cnodes cfg) = Some c -> ~ pw_ok cfg c pw -> flag (cn_flags c) NODE_NONETMAILPASSWORD = false ->
  ReadPkt cfg handle ctrlc junk (mkheader tm orig dest pw ++ body) st = r ->
  ReadPkt cfg (fun _ _ => (st, false)) ctrlc junk (mkheader tm orig dest pw ++ body) st = r.
Proof.
  intros S cfg handle ctrlc junk tm o d pw c body st r Ho Hd Hzo Hzd Hn H0 Hl Hc Hp Hf <-.
  eapply C13_password_enforced; eauto. intros st' m [H|[_ H]]; [contradiction|congruence].
Qed.
Print Assumptions C13_wrong_password_nothing.

(** ** C13: packets of other programs *)
Lemma list_of_len {A} n (l : list A) : length l = Datatypes.S n -> exists x r, l = x :: r /\ length r = n.
Proof. destruct l as [|x r]; [discriminate|]. intros H. exists x, r. split; auto. Qed.
Ltac explode l H := repeat (let x := fresh "b" in let r := fresh "r" in apply list_of_len in H as (x & r & -> & H)); apply length_zero_iff_nil in H; subst.

(** The addresses read from any header are those its layout gives. *)
Theorem C13_foreign_header : forall f, fh_ok f ->
  is_header (fh_bytes f) /\ hdr_addr (fh_bytes f) = (fh_from f, fh_to f) /\ firstn 8 (skipn 26 (fh_bytes f)) = fh_pw f.
Proof.
  intros f (Hu & H1 & H2 & H3 & H4 & H5). destruct f as [on dn date baud onet dnet prod pw qo qd aux [c0 c1] p2 [w0 w1] oz dz op dp data]. cbn in *.
  repeat match goal with H : Forall is_u16 (_ :: _) |- _ => apply Forall_cons_iff in H as [? H] end.
  explode date H1. explode prod H2. explode pw H3. explode p2 H4. explode data H5.
  unfold fh_bytes; cbn [fh_onode fh_dnode fh_date fh_baud fh_onet fh_dnet fh_prod fh_pw fh_qozone fh_qdzone fh_auxnet fh_cwcopy fh_prod2 fh_cw fh_ozone fh_dzone fh_opoint fh_dpoint fh_data fst snd].
  unfold le16. cbn [app]. split; [split; reflexivity|]. split; [|reflexivity].
  unfold hdr_addr, get16, fh_from, fh_to. cbn [nth fh_onode fh_dnode fh_date fh_baud fh_onet fh_dnet fh_prod fh_pw fh_qozone fh_qdzone fh_auxnet fh_cwcopy fh_prod2 fh_cw fh_ozone fh_dzone fh_opoint fh_dpoint fh_data fst snd].
  rewrite ?u16_bytes by assumption.
  destruct (baud =? 2); [reflexivity|].
  destruct (oz =? 0); cbn [negb]; [destruct (Z.eqb_spec qo 0) as [->|]; cbn [negb]|]; destruct ((c0 =? w1) && (c1 =? w0)); cbn [andb]; reflexivity.
Qed.
Print Assumptions C13_foreign_header.

Lemma findnode_split {A} (g : A -> node4d) n l : zone n = 0 ->
  match findnode g n l with
  | Some x => exists l1 l2, map g l = l1 ++ g x :: l2 /\ same3 (g x) n /\ Forall (fun y => ~ same3 y n) l1
  | None => Forall (fun y => ~ same3 y n) (map g l)
  end.
Proof.
  intros Hz.
  assert (HC : forall y, (Compare4D y n =? 0) = true <-> same3 y n).
  { intros y. unfold Compare4D, same3. rewrite Hz. rewrite andb_false_r.
    destruct (net y >? net n) eqn:E1; [split; [discriminate|lia]|]. destruct (net y <? net n) eqn:E2; [split; [discriminate|lia]|].
    destruct (node y >? node n) eqn:E3; [split; [discriminate|lia]|]. destruct (node y <? node n) eqn:E4; [split; [discriminate|lia]|].
    destruct (point y >? point n) eqn:E5; [split; [discriminate|lia]|]. destruct (point y <? point n) eqn:E6; [split; [discriminate|lia]|].
    split; [lia|auto]. }
  induction l as [|x l IH]; [constructor|]. cbn [map]. unfold findnode; cbn [find]. destruct (Compare4D (g x) n =? 0) eqn:E.
  - exists [], (map g l). split; [reflexivity|]. split; [apply HC; auto|constructor].
  - fold (findnode g n l). assert (~ same3 (g x) n) by (intros H; apply HC in H; congruence).
    destruct (findnode g n l) as [y|]; [|constructor; auto]. destruct IH as (l1 & l2 & -> & H1 & H2).
    exists (g x :: l1), l2. auto.
Qed.
Lemma fixzone_spec {A} (g : A -> node4d) l dz n : zone_completed (map g l) dz n (fixzone g l dz n).
Proof.
  unfold zone_completed, fixzone. destruct (Z.eqb_spec (zone n) 0) as [Hz|Hz].
  - pose proof (findnode_split g n l Hz) as H. destruct (findnode g n l) as [x|].
    + destruct H as (l1 & l2 & E & H1 & H2). cbn [zone set_zone]. destruct (Z.eqb_spec (zone (g x)) 0) as [E0|E0].
      * split; [unfold same3; auto|]. right; left. exists l1, (g x), l2. auto.
      * split; [unfold same3; auto|]. left. exists l1, (g x), l2. auto.
    + rewrite Hz. cbn. split; [unfold same3; auto|]. auto.
  - destruct (Z.eqb_spec (zone n) 0); [contradiction|reflexivity].
Qed.

(** Every message of a packet, whoever wrote the header, is handed over with the addresses
    of the header, completed with a zone if it has none, and only if the password of the
    node with that address allows it: what a handler does with any other message does not
    matter. *)
Theorem C13_foreign_packet : forall S cfg (h1 h2 : S -> memmsg -> S * bool) ctrlc junk f body st,
  fh_ok f ->
  (forall st m, zone_completed (map cn_node (pc_cnodes cfg)) (pc_defzone cfg) (fh_from f) (PktOrig m) ->
     zone_completed (map ak_node (pc_akas cfg)) (pc_defzone cfg) (fh_to f) (PktDest m) ->
     (forall c, findnode cn_node (PktOrig m) (pc_cnodes cfg) = Some c -> may_pass cfg c (cstr (fh_pw f)) m) ->
     h1 st m = h2 st m) ->
  ReadPkt cfg h1 ctrlc junk (fh_bytes f ++ body) st = ReadPkt cfg h2 ctrlc junk (fh_bytes f ++ body) st.
Proof.
  intros S cfg h1 h2 ctrlc junk f body st Hf Hh. destruct (C13_foreign_header f Hf) as ([Hl Ht] & Ha & Hp).
  unfold ReadPkt. rewrite (firstn_app 58), (skipn_app 58), Hl, Nat.sub_diag, app_nil_r, skipn_O, (skipn_all2 (n := 58)) by lia.
  rewrite firstn_all2 by lia. cbn [app]. rewrite Ha. destruct (Nat.ltb _ _); auto. destruct (negb (_ =? _)); auto.
  destruct (_ && _ && _); auto. destruct (Nat.ltb _ _); auto.
  apply readmsgs_handlers. intros st' m Hw Ho Hd. apply Hh.
  - rewrite Ho. apply fixzone_spec.
  - rewrite Hd. apply fixzone_spec.
  - intros c Hc. rewrite <- Ho, Hc in Hw. unfold wrongpw in Hw. rewrite Hp in Hw. unfold may_pass, pw_ok.
    destruct (Area m) as [|x y]; destruct (flag (cn_flags c) NODE_NONETMAILPASSWORD); cbn [orb negb] in Hw; auto;
    (destruct (cn_pw c) as [|a b] eqn:Epw; [auto|]); rewrite <- Epw in *; destruct (pc_nosecurity cfg); auto; rewrite andb_true_r in Hw; cbn [andb] in Hw;
    apply negb_false_iff in Hw; unfold streqi in Hw; apply streq_eq in Hw; auto.
Qed.
Print Assumptions C13_foreign_packet.

(** a type 2.2 header and one of an old program without zones, from a configured node *)
Example C13_foreign_nonvacuous :
  let f2 := FH 1 505 (repeat 0 12) 2 201 201 [0;0] (repeat 0 8) 0 0 0 (0,0) [0;0] (0,0) 2 3 4 5 (repeat 0 4) in
  let f0 := FH 1 505 (repeat 0 12) 0 201 201 [0;0] (lit "secret" ++ [0;0]) 0 0 0 (0,0) [0;0] (0,1) 0 0 0 0 (repeat 0 4) in
  fh_ok f2 /\ fh_ok f0 /\ fh_from f2 = N4 2 201 1 4 /\ fh_to f2 = N4 3 201 505 5 /\
  fh_from f0 = N4 0 201 1 0 /\ zone_completed [N4 7 201 1 0] 2 (fh_from f0) (N4 7 201 1 0) /\ zone_completed [] 2 (fh_from f0) (N4 2 201 1 0).
Proof.
  cbv zeta. split; [repeat constructor; cbn; lia|]. split; [repeat constructor; cbn; lia|].
  split; [reflexivity|]. split; [reflexivity|]. split; [reflexivity|].
  split; cbn; (split; [unfold same3; auto|]).
  - left. exists [], (N4 7 201 1 0), []. unfold same3; cbn. repeat split; auto; lia.
  - right; right. auto.
Qed.

(** ** C14: messages survive the packet *)

Lemma items_reads {S} cfg (handle : S -> memmsg -> S * bool) cn h po pd items :
  (forall mm, wrongpw cfg cn h mm = false) -> Forall item_ok items ->
  exists bs ms, map item_bytes items = map Some bs /\ Forall2 (reads cfg handle cn h po pd) bs ms /\
    Forall2 item_same items ms /\ Forall (fun m => PktOrig m = po /\ PktDest m = pd /\ Flags m = Z.lor (Flags m) MMFLAG_TOSSED) ms.
Proof.
  intros Hw. induction 1 as [|i items Hi His IH]; [exists [], []; repeat constructor|].
  destruct IH as (bs & ms & E & H1 & H2 & H3).
  destruct (item_reads cfg handle cn h po pd Hw i Hi) as (b & m & Eb & Hr & Hs & Hp).
  exists (b :: bs), (m :: ms). cbn [map]. rewrite E, Eb. auto 10.
Qed.

Lemma findnode_in {A} (f : A -> node4d) n l c : findnode f n l = Some c -> In c l /\ Compare4D (f c) n = 0.
Proof. intros H. apply find_some in H as [H1 H2]. apply Z.eqb_eq in H2. auto. Qed.

(** A packet with any number of echomail and netmail messages, read on another system
    whose configured password for the sender agrees: exactly these messages are handed to
    the handler, in order, with their header fields, area, text, SEEN-BY and path, and
    marked with the packet's addresses; the packet is then accepted, or reading stops at the
    message the handler refuses. *)
Theorem C14_packet_roundtrip : forall S cfg (handle : S -> memmsg -> S * bool) junk tm orig dest pw items bs st,
  valid4d orig -> valid4d dest -> zone orig <> 0 -> zone dest <> 0 -> ~ (net orig = 65535 /\ point orig <> 0) ->
  ~ In 0 pw -> (length pw <= 8)%nat -> length junk = 14%nat ->
  (forall c, In c (pc_cnodes cfg) -> Compare4D (cn_node c) orig = 0 -> pw_ok cfg c pw) ->
  (flag (pc_flags cfg) CFG_CHECKPKTDEST = false \/ pc_nosecurity cfg = true \/
   exists a, In a (pc_akas cfg) /\ Compare4D (ak_node a) dest = 0) ->
  Forall item_ok items -> map item_bytes items = map Some bs ->
  exists ms, Forall2 item_same items ms /\
    Forall (fun m => PktOrig m = orig /\ PktDest m = dest /\ Flags m = Z.lor (Flags m) MMFLAG_TOSSED) ms /\
    ReadPkt cfg handle (fun _ => false) junk (mkheader tm orig dest pw ++ concat bs ++ [0; 0]) st = deliver handle st ms.
Proof.
  intros S cfg handle junk tm o d pw items bs st Ho Hd Hzo Hzd Hn H0 Hl Hj Hpw Hck Hi Eb.
  rewrite ReadPkt_mk by auto. set (cn := findnode cn_node o (pc_cnodes cfg)).
  assert (Hw : forall mm, wrongpw cfg cn (mkheader tm o d pw) mm = false).
  { intros mm. apply wrongpw_accepted; auto. unfold pw_accepted. destruct cn as [c|] eqn:Ec; auto.
    apply findnode_in in Ec as [H1 H2]. apply Hpw; auto. }
  destruct (items_reads cfg handle cn (mkheader tm o d pw) o d items Hw Hi) as (bs' & ms & E & Hr & Hs & Hm).
  assert (bs' = bs) as -> by (rewrite Eb in E; clear -E; revert bs' E; induction bs as [|b bs IH]; intros [|b' bs'] E; cbn in E; inversion E; f_equal; auto).
  exists ms. split; auto. split; auto.
  assert (Hd0 : flag (pc_flags cfg) CFG_CHECKPKTDEST && negb (pc_nosecurity cfg) &&
     match findnode ak_node d (pc_akas cfg) with None => true | Some _ => false end = false).
  { destruct Hck as [-> | [-> |(a & Ha & Hc)]]; auto; [rewrite andb_false_r; auto|].
    destruct (findnode ak_node d (pc_akas cfg)) eqn:Ef; [rewrite andb_false_r; auto|].
    unfold findnode in Ef. eapply find_none in Ef; [|exact Ha]. cbn in Ef. rewrite Hc in Ef. discriminate. }
  rewrite Hd0. destruct (Nat.ltb_spec (length (firstn 14 (concat bs ++ [0; 0]))) 2) as [Hlt|_].
  { rewrite firstn_length, app_length in Hlt. cbn [length] in Hlt. lia. }
  apply readmsgs_deliver; auto. rewrite app_length. cbn [length].
  assert (length bs <= length (concat bs))%nat; [|lia].
  clear -Hr. induction Hr as [|b m bs ms (H & _) Hr IH]; auto. cbn [concat length]. rewrite app_length. lia.
Qed.
Print Assumptions C14_packet_roundtrip.

(** Every message of the accepted form can be written. *)
Theorem C14_items_can_be_written : forall items, Forall item_ok items -> exists bs, map item_bytes items = map Some bs.
Proof.
  intros items H. destruct (items_reads (S := unit) (PC [] [] 0 false 0) (fun s _ => (s, true)) None [] null4d null4d items) as (bs & ms & E & _); eauto.
Qed.
Print Assumptions C14_items_can_be_written.

(** Whatever sequence of messages is written, to whatever destinations and with whatever
    size limits: after the packets are closed, every packet is a header for its addresses, the
    messages it holds, and two zeros; no packet is empty, and for each destination,
    origin and type the packets, in the order they were finished, hold exactly the messages
    written for it, in order. *)
Theorem C14_packets_hold_what_was_written : forall ws,
  Forall (fun w => zone (w_dest w) <> 0 /\ zone (w_orig w) <> 0) ws ->
  exists gd : list gpkt,
    map fst gd = po_done (ClosePackets (fold_left wstep ws (PO [] []))) /\
    po_open (ClosePackets (fold_left wstep ws (PO [] []))) = [] /\
    Forall (pholds [0; 0]) gd /\
    forall k, concat (map snd (kfil k gd)) = wfil k ws.
Proof. intros ws H. destruct (closed_all ws H) as (gd & E & H1 & H2). exists gd. auto. Qed.
Print Assumptions C14_packets_hold_what_was_written.

(** An open packet is closed before a message is added once it is larger than the limit, so
    no packet is larger than the limit and one message (and the final zeros) together. *)
Theorem C14_packet_size_limit : forall ws mx L, 0 < mx -> 58 <= mx -> Forall (fun w => w_max w = mx /\ Z.of_nat (length (w_data w)) <= L) ws ->
  Forall (fun p => Z.of_nat (length (op_data p)) <= mx + L + 2) (po_done (ClosePackets (fold_left wstep ws (PO [] [])))).
Proof.
  intros ws mx L Hm0 Hm H.
  assert (G : let o := fold_left wstep ws (PO [] []) in Forall (fun p => Z.of_nat (length (op_data p)) <= mx + L) (po_open o) /\
     Forall (fun p => Z.of_nat (length (op_data p)) <= mx + L + 2) (po_done o)).
  { rewrite <- (rev_involutive ws) in *. induction (rev ws) as [|w l IH]; cbn [rev]; [cbn; auto|].
    cbn [rev] in H. apply Forall_app in H as [H1 H2]. inversion H2 as [|? ? [Hw1 Hw2] _]; subst. rewrite fold_left_app. cbn [fold_left].
    destruct (IH H1) as [G1 G2]. cbv zeta in *. set (o := fold_left wstep (rev l) (PO [] [])) in *. unfold wstep, addpkt.
    set (fresh := OP (w_hex w) _ _ _ _).
    assert (Hf : Z.of_nat (length (op_data fresh)) <= w_max w + L) by (cbn [fresh op_data]; rewrite app_length, mkheader_length; lia).
    destruct (splitpkt _ _ _ (po_open o)) as [[[a p] b]|] eqn:E.
    - apply splitpkt_some in E as [E _]. rewrite E in G1. apply Forall_app in G1 as [Ga Gb]. inversion Gb as [|? ? Gp Gb']; subst.
      destruct (negb (w_max w =? 0) && _) eqn:Ec; cbn [po_open po_done].
      + split; [repeat (apply Forall_app; split; auto)|]. apply Forall_app; split; auto. constructor; auto.
        cbn [finish1 op_data]. rewrite app_length. cbn [length]. lia.
      + split; auto. apply Forall_app; split; auto. constructor; auto. cbn [op_data]. rewrite app_length.
        destruct (Z.eqb_spec (w_max w) 0); [lia|]. cbn [negb andb] in Ec. rewrite Z.gtb_ltb in Ec. apply Z.ltb_ge in Ec. lia.
    - cbn [po_open po_done]. split; auto. apply Forall_app; auto. }
  destruct G as [G1 G2]. cbn [ClosePackets po_done]. apply Forall_app; split; auto. apply Forall_map.
  eapply Forall_impl; [|exact G1]. intros p Hp. cbn [finish1 op_data]. rewrite app_length. cbn [length]. cbv beta in Hp. lia.
Qed.
Print Assumptions C14_packet_size_limit.

Definition tcfg := PC [AKA (N4 2 201 505 0) [] [] []] [] 0 false 2.
Definition tcn := CN (N4 2 201 505 0) [] [] [] [] [] 0 0 [] null4d [] [].
Definition tak := AKA (N4 2 201 1 0) [] [] [].
Definition tmsg (area text : list Z) : memmsg :=
  MM (N4 2 201 1 0) (N4 2 201 505 0) null4d null4d null4d area (lit "All") (lit "Me") (lit "Test") (lit "01 Jan 26  12:00:00") [] [] 1 0 0 0
     [text] [] [].
Definition collect (st : list memmsg) (m : memmsg) : list memmsg * bool := (st ++ [m], true).

(** Finding: a line of more than 198 bytes is read in parts, and a part that happens to
    start with "SEEN-BY:" is taken out of the text. *)
Theorem C14_long_line_refuted : exists text b st,
  eoltext text /\ cstring text /\ ~ In 13 (removelast text) /\ prefixb (lit "SEEN-BY") text = false /\
  item_bytes (Echo (tmsg (lit "TEST") text) tcn tak) = Some b /\
  ReadPkt tcfg collect (fun _ => false) (repeat 0 14) (mkheader (26,0,1,0,0,0) (N4 2 201 1 0) (N4 2 201 505 0) [] ++ b ++ [0; 0]) [] = PkDone st /\
  Forall (fun m => mmtext m <> text) st /\ st <> [].
Proof.
  pose (text := repeat 97 198 ++ lit "SEEN-BY: 1/2" ++ [13]). exists text.
  destruct (item_bytes (Echo (tmsg (lit "TEST") text) tcn tak)) as [b|] eqn:Eb; [|exfalso; vm_compute in Eb; discriminate].
  exists b.
  destruct (ReadPkt tcfg collect (fun _ => false) (repeat 0 14) (mkheader (26,0,1,0,0,0) (N4 2 201 1 0) (N4 2 201 505 0) [] ++ b ++ [0; 0]) []) as [st| | | |] eqn:Er;
    try (exfalso; vm_compute in Eb; injection Eb as <-; vm_compute in Er; discriminate).
  exists st. vm_compute in Eb. injection Eb as <-. vm_compute in Er. injection Er as <-.
  split; [right; eexists; exists 13; split; [|auto]; unfold text; rewrite app_assoc; reflexivity|].
  split; [apply Forall_forall; intros x Hx; apply in_app_or in Hx as [Hx|Hx]; [apply repeat_spec in Hx; lia|revert x Hx; apply Forall_forall; litc; repeat constructor; lia]|].
  split; [unfold text; rewrite app_assoc, removelast_last; intros Hx; apply in_app_or in Hx as [Hx|Hx]; [apply repeat_spec in Hx; lia|vm_compute in Hx; repeat (destruct Hx as [Hx|Hx]; [discriminate|]); destruct Hx]|].
  repeat split; try discriminate. constructor; [|constructor]. vm_compute. discriminate.
Qed.
Print Assumptions C14_long_line_refuted.

(** Finding: a netmail whose text begins with "AREA:" is read as an echomail. *)
Theorem C14_netmail_area_refuted : exists text st, eoltext text /\ cstring text /\
  ReadPkt tcfg collect (fun _ => false) (repeat 0 14)
    (mkheader (26,0,1,0,0,0) (N4 2 201 1 0) (N4 2 201 505 0) [] ++ netbytes (tmsg [] text) ++ [0; 0]) [] = PkDone st /\
  Forall (fun m => Area m <> []) st /\ st <> [].
Proof.
  pose (text := lit "AREA:TEST" ++ [13]). exists text. eexists. split; [right; eexists; exists 13; split; [reflexivity|auto]|].
  split; [litcs|]. split; [vm_compute; reflexivity|]. split; [|discriminate].
  repeat constructor. discriminate.
Qed.
Print Assumptions C14_netmail_area_refuted.

Lemma eol_last t : t <> [] -> last t 0 = 13 -> eoltext t.
Proof. intros H E. right. exists (removelast t), 13. rewrite <- E. split; [apply app_removelast_last; auto|auto]. Qed.
Definition titems : list item :=
  [Echo (set_Path (set_SeenBy (tmsg (lit "TEST") (lit "Hello" ++ [13] ++ lit " * Origin: me (2:201/1)" ++ [13])) [[(201, 1)]]) [lit "201/1"]) tcn tak;
   Net (tmsg [] (1 :: lit "INTL 2:201/505 2:201/1" ++ [13] ++ lit "Hi" ++ [13]))].
Lemma titems_ok : Forall item_ok titems.
Proof.
  constructor; [|constructor; [|constructor]].
  - unfold item_ok, tcn, tak; cbn [cn_node ak_node cn_pktfrom]. split; [|repeat split; cbn; try (unfold is_u16; cbn; lia); lia].
    unfold echo_ok. split.
    { unfold hdr_ok, field; cbn [DateTime To From Subject Attr Cost OrigNode DestNode set_Path set_SeenBy tmsg].
      repeat split; try (unfold is_u16; cbn; lia); try (cbn; lia); vm_compute; intros Hx; repeat (destruct Hx as [Hx|Hx]; [discriminate|]); destruct Hx. }
    split. { unfold area_ok. vm_compute. repeat split; try discriminate; try lia; repeat constructor; try discriminate;
      try (intros Hx; repeat (destruct Hx as [Hx|Hx]; [discriminate|]); destruct Hx). }
    split; [apply Forall_forall; intros x Hx; vm_compute in Hx; repeat (destruct Hx as [<-|Hx]; [lia|]); destruct Hx|].
    split; [apply eol_last; vm_compute; [discriminate|reflexivity]|].
    split.
    { assert (E : pieces (mmtext (tmsg (lit "TEST") (lit "Hello" ++ [13] ++ lit " * Origin: me (2:201/1)" ++ [13]))) = [lit "Hello" ++ [13]; lit " * Origin: me (2:201/1)" ++ [13]]) by (vm_compute; reflexivity).
      match goal with |- Forall _ (pieces ?x) => change x with (mmtext (tmsg (lit "TEST") (lit "Hello" ++ [13] ++ lit " * Origin: me (2:201/1)" ++ [13]))) end. rewrite E.
      constructor; [|constructor; [|constructor]].
      - split; [intros (r & Hr); vm_compute in Hr; discriminate|]. split; [intros (r & Hr); vm_compute in Hr; discriminate|].
        intros (r & Hr). vm_compute in Hr. discriminate.
      - split; [intros (r & Hr); vm_compute in Hr; discriminate|]. split; [intros (r & Hr); vm_compute in Hr; discriminate|].
        intros _. left. exists (lit " * Origin: me "), [], (N4 2 201 1 0), [], [13].
        split; [reflexivity|]. repeat (split; [unfold is_u16; simpl; lia|]). split; [constructor|]. split; [simpl; lia|auto]. }
    split; [repeat constructor; unfold is_u16; cbn; lia|]. split; [cbn; unfold NUM2D; lia|].
    constructor; [|constructor]. right. unfold pathline_ok. vm_compute.
    repeat split; try discriminate; try lia; repeat constructor; try discriminate;
      try (intros Hx; repeat (destruct Hx as [Hx|Hx]; [discriminate|]); destruct Hx).
  - unfold item_ok, net_ok. split.
    { unfold hdr_ok, field; cbn [DateTime To From Subject Attr Cost OrigNode DestNode tmsg].
      repeat split; try (unfold is_u16; cbn; lia); try (cbn; lia); vm_compute; intros Hx; repeat (destruct Hx as [Hx|Hx]; [discriminate|]); destruct Hx. }
    split; [apply Forall_forall; intros x Hx; vm_compute in Hx; repeat (destruct Hx as [<-|Hx]; [lia|]); destruct Hx|].
    split; [apply eol_last; vm_compute; [discriminate|reflexivity]|].
    intros (r & Hr). vm_compute in Hr. discriminate.
Qed.

Definition tbytes : list (list Z) := Eval vm_compute in
  map (fun i => match item_bytes i with Some b => b | None => [] end) titems.
Example C14_nonvacuous : Forall item_ok titems /\ map item_bytes titems = map Some tbytes /\
  exists st,
  ReadPkt tcfg collect (fun _ => false) (repeat 0 14) (mkheader (26,0,1,0,0,0) (N4 2 201 1 0) (N4 2 201 505 0) (lit "pw") ++ concat tbytes ++ [0; 0]) [] = PkDone st /\
  map Area st = [lit "TEST"; []] /\ map (fun m => entries (SeenBy m)) st = [[(201, 1)]; []].
Proof.
  split; [exact titems_ok|]. split; [vm_compute; reflexivity|]. eexists. split; [vm_compute; reflexivity|]. split; reflexivity.
Qed.

(** the hypotheses of the password theorem: a peer with another password *)
Example C13_nonvacuous :
  let c := CN (N4 2 201 1 0) (lit "secret") [] [] [] [] 0 0 [] null4d [] [] in
  let cfg := PC [] [c] 0 false 2 in
  findnode cn_node (N4 2 201 1 0) (pc_cnodes cfg) = Some c /\ ~ pw_ok cfg c (lit "wrong") /\ pw_ok cfg c (lit "SECRET") /\
  ReadPkt cfg collect (fun _ => false) (repeat 0 14) (mkheader (26,0,1,0,0,0) (N4 2 201 1 0) (N4 2 201 505 0) (lit "wrong") ++ concat tbytes ++ [0; 0]) [] = PkBad BPassword [] /\
  exists st, ReadPkt cfg collect (fun _ => false) (repeat 0 14) (mkheader (26,0,1,0,0,0) (N4 2 201 1 0) (N4 2 201 505 0) (lit "SECRET") ++ concat tbytes ++ [0; 0]) [] = PkDone st.
Proof.
  cbv zeta. split; [reflexivity|]. split; [unfold pw_ok; cbn; intros [H|[H|H]]; try discriminate; vm_compute in H; discriminate|].
  split; [unfold pw_ok; right; right; vm_compute; reflexivity|]. split; [vm_compute; reflexivity|]. eexists. vm_compute. reflexivity.
Qed.

(** three messages in two packets because of the size limit, and one for another node *)
Example C14_nonvacuous_write :
  let w := fun d x => WOp 60 7 (26,0,1,0,0,0) [] (N4 2 201 d 0) (N4 2 201 1 0) 2 x in
  map (fun p => (node (op_dest p), skipn 58 (op_data p)))
    (po_done (ClosePackets (fold_left wstep [w 505 [1;2;3]; w 506 [4]; w 505 [5]; w 506 [6]] (PO [] [])))) =
  [(505, [1;2;3;0;0]); (506, [4;6;0;0]); (505, [5;0;0])].
Proof. vm_compute. reflexivity. Qed.

(** ** C15: reading any bytes *)

Lemma ReadPkt_inv {S} cfg (handle : S -> memmsg -> S * bool) ctrlc junk pkt st : length junk = 14%nat -> bytes pkt ->
  match ReadPkt cfg handle ctrlc junk pkt st with
  | PkDone st' => exists h msgs ms tl, pkt = h ++ concat msgs ++ tl /\ is_header h /\ Forall2 msg_of msgs ms /\ deliver handle st ms = PkDone st' /\
      ((exists rest, tl = 0 :: 0 :: rest) \/ (tl = [0] /\ msgs <> []))
  | PkFuel => False
  | PkUB => exists m l, infix l pkt /\ mmAddLine m l = None
  | _ => True
  end.
Proof.
  intros Hj Hb. unfold ReadPkt.
  destruct (Nat.ltb_spec (length (firstn 58 pkt)) 58) as [Hl|Hl]; [exact I|].
  destruct (negb (get16 (firstn 58 pkt) 18 =? 2)) eqn:Et; [exact I|].
  destruct (hdr_addr (firstn 58 pkt)) as [po pd]. destruct (_ && _ && _); [exact I|].
  destruct (Nat.ltb_spec (length (firstn 14 (skipn 58 pkt))) 2) as [H2|H2]; [exact I|].
  rewrite firstn_length in H2.
  set (P := fixzone _ _ _ po). set (D := fixzone _ _ _ pd). set (cn := findnode _ _ _).
  assert (Hb' : bytes (skipn 58 pkt)).
  { unfold bytes in *. rewrite <- (firstn_skipn 58 pkt) in Hb. apply Forall_app in Hb. tauto. }
  pose proof (readmsgs_inv cfg handle ctrlc cn (firstn 58 pkt) P D (Datatypes.S (length (skipn 58 pkt))) 0 junk (skipn 58 pkt) st
    (Nat.lt_succ_diag_r _) Hj Hb' ltac:(lia)) as H.
  destruct (readmsgs _ _ _ _ _ _ _ _ _ _ _ _); auto.
  - destruct H as (msgs & ms & tl & E & H1 & H3 & H4). exists (firstn 58 pkt), msgs, ms, tl.
    split; [rewrite <- E; symmetry; apply firstn_skipn|]. split; auto.
    split; [rewrite firstn_length in *; lia|]. apply negb_false_iff in Et. apply Z.eqb_eq in Et. exact Et.
  - destruct H as (m & l & (a & b & E) & H). exists m, l. split; auto. exists (firstn 58 pkt ++ a), b. rewrite <- app_assoc, <- E. symmetry. apply firstn_skipn.
Qed.

(** Reading ends for every file, every handler and every pattern of interrupts. *)
Theorem C15_always_ends : forall S cfg (handle : S -> memmsg -> S * bool) ctrlc junk pkt st, length junk = 14%nat -> bytes pkt ->
  ReadPkt cfg handle ctrlc junk pkt st <> PkFuel.
Proof. intros S cfg handle ctrlc junk pkt st Hj Hb E. pose proof (ReadPkt_inv cfg handle ctrlc junk pkt st Hj Hb) as H. rewrite E in H. exact H. Qed.
Print Assumptions C15_always_ends.

(** A packet is accepted only if it is well formed up to its end mark, and then every
    message in it, in order and with its header fields, was handed over and not refused. *)
Theorem C15_accepted_wellformed : forall S cfg (handle : S -> memmsg -> S * bool) ctrlc junk pkt st st', length junk = 14%nat -> bytes pkt ->
  ReadPkt cfg handle ctrlc junk pkt st = PkDone st' ->
  acceptable pkt /\ exists h msgs ms tl, pkt = h ++ concat msgs ++ tl /\ Forall2 msg_of msgs ms /\ deliver handle st ms = PkDone st'.
Proof.
  intros S cfg handle ctrlc junk pkt st st' Hj Hb E. pose proof (ReadPkt_inv cfg handle ctrlc junk pkt st Hj Hb) as H. rewrite E in H.
  destruct H as (h & msgs & ms & tl & Ep & Hh & H2 & H3 & H4). split.
  - exists h, msgs, tl. split; auto. split; auto. split; [|auto]. clear -H2. induction H2; constructor; eauto using msg_of_is.
  - exists h, msgs, ms, tl. auto.
Qed.
Print Assumptions C15_accepted_wellformed.

(** A complete packet cut short anywhere is never accepted, unless only the very last
    zero is missing (then all messages are there). *)
Theorem C15_truncated_never_accepted : forall S cfg (handle : S -> memmsg -> S * bool) ctrlc junk q t st st', length junk = 14%nat -> bytes q ->
  complete (q ++ t) -> t <> [] -> ReadPkt cfg handle ctrlc junk q st = PkDone st' -> t = [0].
Proof.
  intros S cfg handle ctrlc junk q t st st' Hj Hb (h & msgs & Ec & (Hh1 & Hh2) & Hm) Ht E.
  apply C15_accepted_wellformed in E as [(h' & msgs' & tl & Eq & (Hh1' & _) & Hm' & Htl) _]; auto.
  rewrite Eq, <- !app_assoc in Ec. apply app_eq_len in Ec as [_ Ec]; [|congruence].
  destruct (truncated_tail msgs Hm msgs' tl t Hm') as (_ & _ & H); auto.
  - destruct Htl as [H|[H _]]; auto.
  - rewrite <- app_assoc. exact Ec.
Qed.
Print Assumptions C15_truncated_never_accepted.

(** Behaviour is undefined only through one line of the packet whose processing is
    undefined for some message (C09 says which lines can be). *)
Theorem C15_undefined_only_by_a_line : forall S cfg (handle : S -> memmsg -> S * bool) ctrlc junk pkt st, length junk = 14%nat -> bytes pkt ->
  ReadPkt cfg handle ctrlc junk pkt st = PkUB -> exists m l, infix l pkt /\ mmAddLine m l = None.
Proof. intros S cfg handle ctrlc junk pkt st Hj Hb E. pose proof (ReadPkt_inv cfg handle ctrlc junk pkt st Hj Hb) as H. rewrite E in H. exact H. Qed.
Print Assumptions C15_undefined_only_by_a_line.

(** Finding: there is a well-formed packet on which the program's behaviour is undefined
    (a text that ends with "SEEN-BY:"). *)
Theorem C15_defined_refuted : exists pkt, complete pkt /\ bytes pkt /\
  ReadPkt tcfg collect (fun _ => false) (repeat 0 14) pkt [] = PkUB.
Proof.
  exists (mkheader (26,0,1,0,0,0) (N4 2 201 1 0) (N4 2 201 505 0) [] ++
     concat [pktmsg (repeat 0 12) (lit "d") (lit "t") (lit "f") (lit "s") (lit "AREA:X" ++ [13] ++ lit "SEEN-BY:")] ++ [0; 0]).
  split.
  - do 2 eexists. split; [reflexivity|]. split; [split; [apply mkheader_length|apply mkheader_type]|]. constructor; [|constructor].
    do 6 eexists. split; [reflexivity|]. unfold field. vm_compute. repeat split; try lia; intros Hx; repeat (destruct Hx as [Hx|Hx]; [discriminate|]); destruct Hx.
  - split; [litcs|vm_compute; reflexivity].
Qed.
Print Assumptions C15_defined_refuted.

(** Finding: an interrupt between two messages makes the program take a good packet for a
    bad one, after its first messages have been processed. *)
Theorem C15_interrupt_refuted : exists pkt st, complete pkt /\ st <> [] /\
  ReadPkt tcfg collect (fun i => Nat.leb 1 i) (repeat 0 14) pkt [] = PkBad BMsgType st.
Proof.
  pose (m := pktmsg (repeat 0 12) (lit "d") (lit "t") (lit "f") (lit "s") (lit "AREA:X" ++ [13])).
  assert (Hm : is_pktmsg m).
  { do 6 eexists. split; [reflexivity|]. unfold field. vm_compute. repeat split; try lia; intros Hx; repeat (destruct Hx as [Hx|Hx]; [discriminate|]); destruct Hx. }
  exists (mkheader (26,0,1,0,0,0) (N4 2 201 1 0) (N4 2 201 505 0) [] ++ concat [m; m] ++ [0; 0]). eexists. split; [|split].
  - do 2 eexists. split; [reflexivity|]. split; [split; [apply mkheader_length|apply mkheader_type]|]. auto.
  - shelve.
  - vm_compute. reflexivity.
  Unshelve. discriminate.
Qed.
Print Assumptions C15_interrupt_refuted.

Lemma cstring_filepart s : cstring s -> cstring (GetFilePart s).
Proof.
  intros H. destruct (GetFilePart_spec s) as [_ [[_ ->]|(dir & E)]]; auto. rewrite E in H. apply cstring_app in H as [_ H]. apply cstring_app in H. tauto.
Qed.

(** Quarantine: the bad file is kept, with its contents, under a name that was not in use
    and that ends in ".bad" or ".bad,N"; no other file changes. *)
Theorem C15_quarantine : forall fs inbound file c, cstring inbound -> cstring file ->
  fget fs file = Some c ->
  exists fs' base k nm, BadFile fs inbound file = Some fs' /\
    nm = base ++ lit ".bad" ++ (if k =? 0 then [] else lit "," ++ dec k) /\ 0 <= k /\
    (exists j, base = firstn j (joinpath inbound (GetFilePart file))) /\
    osExists fs nm = false /\ fget fs' nm = Some c /\ osExists fs' file = false /\
    (forall other, other <> file -> other <> nm -> fget fs' other = fget fs other).
Proof.
  intros fs inbound file c Hi Hf Hc. unfold BadFile, badname.
  destruct (MakeFullPath_spec inbound (GetFilePart file) (repeat 0 90) 90 (repeat_length _ _) ltac:(lia) Hi (cstring_filepart _ Hf))
    as (b & t & E & (_ & _ & Hb) & _ & j & Ht). rewrite E, Hb.
  change (if 0 =? 0 then [] else lit "," ++ dec 0) with (@nil Z). rewrite app_nil_r.
  set (nmf := fun n => (t ++ lit ".bad") ++ (if n =? 0 then [] else lit "," ++ dec n)).
  destruct (firstfree_ok fs nmf 0) as (k & Ek & Hk & Hex & _).
  { intros x y Hx Hy Exy. unfold nmf in Exy. apply app_inv_head in Exy.
    destruct (Z.eqb_spec x 0), (Z.eqb_spec y 0); subst; auto.
    - discriminate Exy.
    - discriminate Exy.
    - apply app_inv_head in Exy. apply dec_inj in Exy; lia. }
  rewrite Ek. fold (nmf k).
  assert (Hne : file <> nmf k) by (intros ->; unfold osExists in Hex; rewrite Hc in Hex; discriminate).
  destruct (osRename fs file (nmf k)) as [fs'|] eqn:Er; [|unfold osRename in Er; rewrite Hc in Er; discriminate].
  exists fs', t, k, (nmf k). split; auto. split; [unfold nmf; rewrite <- app_assoc; reflexivity|]. split; auto. split; [eauto|]. split; auto.
  split; [rewrite (rename_same _ _ _ _ Er); auto|]. split.
  - unfold osRename in Er. rewrite Hc in Er. destruct (streq file (nmf k)) eqn:Es; [apply streq_eq in Es; contradiction|].
    injection Er as <-. unfold osExists. rewrite fget_put_other by auto. rewrite fget_del_same. reflexivity.
  - intros other H1 H2. eapply rename_other; eauto.
Qed.
Print Assumptions C15_quarantine.

(** A well-formed packet of two messages is accepted, a packet cut in the text is not, and
    quarantine finds the next free name. *)
Example C15_nonvacuous :
  let good := mkheader (26,0,1,0,0,0) (N4 2 201 1 0) (N4 2 201 505 0) [] ++ concat tbytes ++ [0; 0] in
  (exists st, ReadPkt tcfg collect (fun _ => false) (repeat 0 14) good [] = PkDone st /\ length st = 2%nat) /\
  (exists st, ReadPkt tcfg collect (fun _ => false) (repeat 0 14) (firstn 150 good) [] = PkBad BEof st) /\
  option_map (map fst) (BadFile [(lit "in/a.pkt", [1]); (lit "in/a.pkt.bad", [2])] (lit "in") (lit "in/a.pkt")) =
  Some [lit "in/a.pkt.bad,1"; lit "in/a.pkt.bad"].
Proof.
  cbv zeta. split; [eexists; split; [vm_compute; reflexivity|reflexivity]|]. split; [eexists; vm_compute; reflexivity|]. vm_compute. reflexivity.
Qed.
