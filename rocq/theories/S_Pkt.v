(** Specification of packets. *)
From Verif Require Import Base M_Node4D S_Node4D M_Pat M_Mem S_Mem M_Cfg M_Pkt.

(** ** The packet format *)

(** no NUL, at most n bytes *)
Definition field (n : nat) (s : list Z) : Prop := ~ In 0 s /\ (length s <= n)%nat.
(** one packed message: type 2, twelve header bytes, four strings, the text *)
Definition pktmsg (h dt to fr su text : list Z) : list Z :=
  [2; 0] ++ h ++ dt ++ [0] ++ to ++ [0] ++ fr ++ [0] ++ su ++ [0] ++ text ++ [0].
Definition is_pktmsg (b : list Z) : Prop := exists h dt to fr su text,
  b = pktmsg h dt to fr su text /\ length h = 12%nat /\
  field 19 dt /\ field 35 to /\ field 35 fr /\ field 71 su /\ ~ In 0 text.
Definition is_header (h : list Z) : Prop := length h = 58%nat /\ get16 h 18 = 2.
(** a complete packet *)
Definition complete (pkt : list Z) : Prop := exists h msgs,
  pkt = h ++ concat msgs ++ [0; 0] /\ is_header h /\ Forall is_pktmsg msgs.
(** what is accepted: the end is marked by two zeros, or by the end of the file behind one
    zero *)
Definition acceptable (pkt : list Z) : Prop := exists h msgs tl,
  pkt = h ++ concat msgs ++ tl /\ is_header h /\ Forall is_pktmsg msgs /\
  ((exists rest, tl = 0 :: 0 :: rest) \/ (tl = [0] /\ msgs <> [])).

(** ** Headers written by other programs
    The layout of the 58 bytes: FTS-0001 with the zones and points of FSC-0039/FSC-0048, or
    type 2.2 (FSC-0045), which has 2 in the place of the baud rate. *)
Record fhdr := FH { fh_onode : Z; fh_dnode : Z; fh_date : list Z; fh_baud : Z; fh_onet : Z; fh_dnet : Z; fh_prod : list Z; fh_pw : list Z;
  fh_qozone : Z; fh_qdzone : Z; fh_auxnet : Z; fh_cwcopy : Z * Z; fh_prod2 : list Z; fh_cw : Z * Z;
  fh_ozone : Z; fh_dzone : Z; fh_opoint : Z; fh_dpoint : Z; fh_data : list Z }.
Definition fh_bytes (f : fhdr) : list Z :=
  le16 (fh_onode f) ++ le16 (fh_dnode f) ++ fh_date f ++ le16 (fh_baud f) ++ le16 2 ++ le16 (fh_onet f) ++ le16 (fh_dnet f) ++
  fh_prod f ++ fh_pw f ++ le16 (fh_qozone f) ++ le16 (fh_qdzone f) ++ le16 (fh_auxnet f) ++ [fst (fh_cwcopy f); snd (fh_cwcopy f)] ++
  fh_prod2 f ++ [fst (fh_cw f); snd (fh_cw f)] ++ le16 (fh_ozone f) ++ le16 (fh_dzone f) ++ le16 (fh_opoint f) ++ le16 (fh_dpoint f) ++ fh_data f.
Definition fh_ok (f : fhdr) : Prop :=
  Forall is_u16 [fh_onode f; fh_dnode f; fh_baud f; fh_onet f; fh_dnet f; fh_qozone f; fh_qdzone f; fh_auxnet f;
                 fh_ozone f; fh_dzone f; fh_opoint f; fh_dpoint f] /\
  length (fh_date f) = 12%nat /\ length (fh_prod f) = 2%nat /\ length (fh_pw f) = 8%nat /\ length (fh_prod2 f) = 2%nat /\ length (fh_data f) = 4%nat.
(** Who sent the packet to whom. Type 2.2: all four parts. Otherwise the zones are those of
    FSC-0039 if there is an origin zone there, else those of QMail; the points count if the
    capability word is valid (it equals its byte swapped copy), and a sending point in the
    fake net 65535 has its net in the auxiliary field. *)
Definition fh_from (f : fhdr) : node4d :=
  let cwok := (fst (fh_cwcopy f) =? snd (fh_cw f)) && (snd (fh_cwcopy f) =? fst (fh_cw f)) in
  if fh_baud f =? 2 then N4 (fh_ozone f) (fh_onet f) (fh_onode f) (fh_opoint f)
  else N4 (if fh_ozone f =? 0 then fh_qozone f else fh_ozone f)
          (if cwok && negb (fh_opoint f =? 0) && (fh_onet f =? 65535) then fh_auxnet f else fh_onet f)
          (fh_onode f) (if cwok then fh_opoint f else 0).
Definition fh_to (f : fhdr) : node4d :=
  let cwok := (fst (fh_cwcopy f) =? snd (fh_cw f)) && (snd (fh_cwcopy f) =? fst (fh_cw f)) in
  if fh_baud f =? 2 then N4 (fh_dzone f) (fh_dnet f) (fh_dnode f) (fh_dpoint f)
  else N4 (if fh_ozone f =? 0 then if fh_qozone f =? 0 then 0 else fh_qdzone f else fh_dzone f)
          (fh_dnet f) (fh_dnode f) (if cwok then fh_dpoint f else 0).
(** An address without zone gets the zone of the first configured address that agrees with
    it otherwise, and the default zone if there is none (or that one has no zone). *)
Definition same3 (a b : node4d) : Prop := net a = net b /\ node a = node b /\ point a = point b.
Definition zone_completed (known : list node4d) (defzone : Z) (n n' : node4d) : Prop :=
  if zone n =? 0 then
    same3 n n' /\
    ((exists l1 x l2, known = l1 ++ x :: l2 /\ same3 x n /\ Forall (fun y => ~ same3 y n) l1 /\ zone x <> 0 /\ zone n' = zone x) \/
     (exists l1 x l2, known = l1 ++ x :: l2 /\ same3 x n /\ Forall (fun y => ~ same3 y n) l1 /\ zone x = 0 /\ zone n' = u16 defzone) \/
     (Forall (fun y => ~ same3 y n) known /\ zone n' = u16 defzone))
  else n' = n.

(** ** Lines of a text: up to and including a carriage return or line feed, at most 198
    bytes *)
Fixpoint cutline (n : nat) (t : list Z) : list Z * list Z :=
  match n, t with
  | O, _ => ([], t)
  | _, [] => ([], [])
  | S m, c :: r => if (c =? 10) || (c =? 13) then ([c], r) else let '(l, r') := cutline m r in (c :: l, r')
  end.
Fixpoint pieces_go (fuel : nat) (t : list Z) : list (list Z) :=
  match fuel, t with
  | S f, _ :: _ => let '(l, r) := cutline 198 t in l :: pieces_go f r
  | _, _ => []
  end.
Definition pieces (t : list Z) : list (list Z) := pieces_go (length t) t.
Definition eoltext (t : list Z) : Prop := t = [] \/ exists r c, t = r ++ [c] /\ (c = 13 \/ c = 10).

(** ** What a message must look like to survive the trip *)
Definition hdr_ok (mm : memmsg) : Prop :=
  field 19 (DateTime mm) /\ field 35 (To mm) /\ field 35 (From mm) /\ field 71 (Subject mm) /\
  is_u16 (Attr mm) /\ is_u16 (Cost mm) /\ valid4d (OrigNode mm) /\ valid4d (DestNode mm).
Definition same_hdr (m m' : memmsg) : Prop :=
  DateTime m' = DateTime m /\ To m' = To m /\ From m' = From m /\ Subject m' = Subject m /\
  Attr m' = Attr m /\ Cost m' = Cost m.

(** Netmail: the text consists of whole lines and does not begin like an echomail. *)
Definition net_ok (mm : memmsg) : Prop :=
  hdr_ok mm /\ cstring (mmtext mm) /\ eoltext (mmtext mm) /\ ~ starts_with (lit "AREA:") (mmtext mm).
Definition net_same (m m' : memmsg) : Prop := same_hdr m m' /\ Area m' = [] /\ mmtext m' = mmtext m.

(** Echomail. *)
Definition area_ok (a : list Z) : Prop :=
  a <> [] /\ cstring a /\ ~ In 13 a /\ ~ In 10 a /\ (length a <= 79)%nat /\
  (forall r, a <> 32 :: r) /\ striptrail a = a.
Definition pathline_ok (l : list Z) : Prop :=
  l <> [] /\ cstring l /\ ~ In 13 l /\ ~ In 10 l /\ (length l <= 99)%nat /\ striptrail l = l.
Definition echo_ok (mm : memmsg) : Prop :=
  hdr_ok mm /\ area_ok (Area mm) /\ cstring (mmtext mm) /\ eoltext (mmtext mm) /\
  Forall (fun l => ~ is_seenby_line l /\ ~ is_path_line l /\ (is_origin_line l -> wf_origin l \/ ~ In 40 l)) (pieces (mmtext mm)) /\
  pairs_ok (entries (SeenBy mm)) /\ wfblocks (SeenBy mm) /\ Forall (fun l => l = [] \/ pathline_ok l) (Path mm).
(** the SEEN-BY entries a node is sent *)
Definition sb_sent (mm : memmsg) (cn : cnode) (ak : aka) (x : node2d) : Prop :=
  if negb (zone (cn_node cn) =? zone (ak_node ak)) || flag (cn_flags cn) NODE_TINYSEENBY then
    (point (cn_node cn) = 0 /\ x = (net (cn_node cn), node (cn_node cn))) \/
    (point (ak_node ak) = 0 /\ x = (net (ak_node ak), node (ak_node ak)))
  else if flag (cn_flags cn) NODE_NOSEENBY then False
  else In x (entries (SeenBy mm)).
Definition echo_same (mm : memmsg) (cn : cnode) (ak : aka) (m' : memmsg) : Prop :=
  same_hdr mm m' /\ Area m' = Area mm /\ mmtext m' = mmtext mm /\
  net (DestNode m') = net (cn_node cn) /\ node (DestNode m') = node (cn_node cn) /\
  net (OrigNode m') = net (echo_from cn ak) /\ node (OrigNode m') = node (echo_from cn ak) /\
  (forall x, x <> (0, 0) -> (In x (entries (SeenBy m')) <-> sb_sent mm cn ak x)) /\
  Path m' = filter (fun l => negb (streq l [])) (Path mm).

(** ** Delivering messages to a handler that may refuse *)
Fixpoint deliver {S} (handle : S -> memmsg -> S * bool) (st : S) (ms : list memmsg) : pktres S :=
  match ms with
  | [] => PkDone st
  | m :: r => let '(st', ok) := handle st m in if ok then deliver handle st' r else PkFalse st'
  end.

(** What goes into a packet *)
Inductive item := Echo (mm : memmsg) (cn : cnode) (ak : aka) | Net (mm : memmsg).
Definition item_bytes (i : item) : option (list Z) :=
  match i with
  | Echo mm cn ak => option_map fst (echobytes mm cn ak)
  | Net mm => Some (netbytes mm)
  end.
Definition item_ok (i : item) : Prop :=
  match i with
  | Echo mm cn ak => echo_ok mm /\ valid4d (cn_node cn) /\ valid4d (ak_node ak) /\ valid4d (cn_pktfrom cn)
  | Net mm => net_ok mm
  end.
Definition item_same (i : item) (m' : memmsg) : Prop :=
  match i with Echo mm cn ak => echo_same mm cn ak m' | Net mm => net_same mm m' end.
(** the receiving side accepts the packet's password for every message *)
Definition pw_accepted (cfg : pktcfg) (cn : option cnode) (pw : list Z) : Prop :=
  match cn with
  | None => True
  | Some c => pc_nosecurity cfg = true \/ cn_pw c = [] \/ map tolower pw = map tolower (cn_pw c)
  end.

(** the message handed over for the bytes of a packed message *)
Definition msg_of (b : list Z) (mm : memmsg) : Prop := exists h dt to fr su text,
  b = pktmsg h dt to fr su text /\ length h = 12%nat /\
  field 19 dt /\ field 35 to /\ field 35 fr /\ field 71 su /\ ~ In 0 text /\
  DateTime mm = dt /\ To mm = to /\ From mm = fr /\ Subject mm = su /\
  Attr mm = get16 h 8 /\ Cost mm = get16 h 10.
(** a line somewhere in a byte string *)
Definition infix (l s : list Z) : Prop := exists a b, s = a ++ l ++ b.

(** ** A sequence of messages written to packets *)
Record wop := WOp { w_max : Z; w_hex : Z; w_tm : Z * Z * Z * Z * Z * Z; w_pw : list Z; w_dest : node4d; w_orig : node4d; w_type : Z; w_data : list Z }.
Definition wstep (o : pktout) (w : wop) : pktout :=
  addpkt (w_max w) (w_hex w) (w_tm w) (w_pw w) (w_dest w) (w_orig w) (w_type w) (w_data w) o.
(** the destination, origin and type of a packet *)
Definition pkey : Type := node4d * node4d * Z.
Definition okey (p : opkt) : pkey := (op_dest p, op_orig p, op_type p).
Definition wkey (w : wop) : pkey := (w_dest w, w_orig w, w_type w).
Definition n4eqb (a b : node4d) : bool := (zone a =? zone b) && (net a =? net b) && (node a =? node b) && (point a =? point b).
Definition keyeqb (a b : pkey) : bool := let '(d, o, t) := a in let '(d', o', t') := b in n4eqb d d' && n4eqb o o' && (t =? t').

(** packets together with the messages in them *)
Definition gpkt : Type := opkt * list wop.
Definition kfil (k : pkey) (l : list gpkt) : list gpkt := filter (fun g => keyeqb k (okey (fst g))) l.
Definition wfil (k : pkey) (l : list wop) : list wop := filter (fun w => keyeqb k (wkey w)) l.
(** the packet holds exactly these messages *)
Definition pholds (tail : list Z) (g : gpkt) : Prop :=
  snd g <> [] /\ Forall (fun w => wkey w = okey (fst g)) (snd g) /\
  exists tm pw, (exists w, In w (snd g) /\ w_tm w = tm /\ w_pw w = pw) /\
    op_data (fst g) = mkheader tm (op_orig (fst g)) (op_dest (fst g)) pw ++ concat (map w_data (snd g)) ++ tail.

(** messages that may be handed over although the packet's password is not the one
    configured for its sender: none, except netmail for nodes without netmail password *)
Definition pw_ok (cfg : pktcfg) (c : cnode) (pw : list Z) : Prop :=
  pc_nosecurity cfg = true \/ cn_pw c = [] \/ map tolower pw = map tolower (cn_pw c).
Definition may_pass (cfg : pktcfg) (c : cnode) (pw : list Z) (m : memmsg) : Prop :=
  pw_ok cfg c pw \/ (Area m = [] /\ flag (cn_flags c) NODE_NONETMAILPASSWORD = true).
