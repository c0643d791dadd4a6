(** Model of src/crashmail/pkt.c (reading and writing packets) and BadFile of misc.c.

    Packets are byte lists. Memory allocation and writes to disk are taken to succeed
    (nomem, ioerror); log output and statistics are not modelled; the BEFORETOSS command
    and the result of opening the file are arguments. *)
From Verif Require Import Base M_Node4D M_Pat M_Mem M_Cfg M_Str M_Fs.

(** pkt.c:14-17 getuword is [get16] of Base; pkt.c:19-23 putuword writes [le16]. *)

(** ** Reading *)

Inductive rnend := RnOk | RnShort | RnLong.
(** pkt.c:25-49 ReadNull with maxlen = n+1: the string, how it ended, the rest. *)
Fixpoint ReadNull (n : nat) (s : list Z) : list Z * rnend * list Z :=
  match s with
  | [] => ([], RnShort, [])
  | ch :: r =>
    if ch =? 0 then ([], RnOk, r) else
    match n with
    | O => ([], RnLong, r)
    | S m => let '(l, e, r') := ReadNull m r in (ch :: l, e, r')
    end
  end.

(** how a line ended: CR or LF; NUL (messageend); end of file (shortread); buffer full *)
Inductive crend := CrLine | CrNul | CrEof | CrFull.
(** pkt.c:51-74 ReadCR with maxlen = n+2 *)
Fixpoint ReadCR (n : nat) (s : list Z) : list Z * crend * list Z :=
  match n with
  | O => ([], CrFull, s)
  | S m =>
    match s with
    | [] => ([], CrEof, [])
    | ch :: r =>
      if ch =? 0 then ([], CrNul, r)
      else if (ch =? 10) || (ch =? 13) then ([ch], CrLine, r)
      else let '(l, e, r') := ReadCR m r in (ch :: l, e, r')
    end
  end.
(** the buffers of ReadPkt: buf[200] *)
Definition CRBUF : nat := 198.

(** misc.c:264-274 striplead, :276-280 stripleadtrail *)
Fixpoint striplead (s : list Z) : list Z :=
  match s with
  | c :: r => if c =? 32 then striplead r else s
  | [] => []
  end.
Definition stripleadtrail (s : list Z) : list Z := striptrail (striplead s).

(** pkt.c:151-204: addresses in the 58 byte packet header, without zone fix-ups *)
Definition hdr_addr (h : list Z) : node4d * node4d :=
  if get16 h 16 =? 2 then
    (N4 (get16 h 46) (get16 h 20) (get16 h 0) (get16 h 50),
     N4 (get16 h 48) (get16 h 22) (get16 h 2) (get16 h 52))
  else
    let '(oz, dz) := if negb (get16 h 46 =? 0) then (get16 h 46, get16 h 48)
                     else if negb (get16 h 34 =? 0) then (get16 h 34, get16 h 36)
                     else (0, 0) in
    if (nth 40 h 0 =? nth 45 h 0) && (nth 41 h 0 =? nth 44 h 0) then
      (N4 oz (if negb (get16 h 50 =? 0) && (get16 h 20 =? 65535) then get16 h 38 else get16 h 20)
          (get16 h 0) (get16 h 50),
       N4 dz (get16 h 22) (get16 h 2) (get16 h 52))
    else (N4 oz (get16 h 20) (get16 h 0) 0, N4 dz (get16 h 22) (get16 h 2) 0).

(** first element of a configuration list with this address: the loops
    "for(...) if(Compare4D(..)==0) break;" *)
Definition findnode {A} (f : A -> node4d) (n : node4d) (l : list A) : option A :=
  find (fun x => Compare4D (f x) n =? 0) l.

(** what ReadPkt reads of the configuration *)
Record pktcfg := PC { pc_akas : list aka; pc_cnodes : list cnode; pc_flags : Z; pc_nosecurity : bool; pc_defzone : Z }.

(** pkt.c:226-247: zone fix-ups *)
Definition fixzone {A} (f : A -> node4d) (l : list A) (defzone : Z) (n : node4d) : node4d :=
  let n := if zone n =? 0 then
             match findnode f n l with Some x => set_zone n (zone (f x)) | None => n end
           else n in
  if zone n =? 0 then set_zone n (u16 defzone) else n.

(** pkt.c:403-417: the password check made for each message; [true]: wrong password *)
Definition wrongpw (cfg : pktcfg) (cn : option cnode) (h : list Z) (mm : memmsg) : bool :=
  match cn with
  | None => false
  | Some c =>
    if (match Area mm with [] => false | _ => true end) || negb (flag (cn_flags c) NODE_NONETMAILPASSWORD) then
      (match cn_pw c with [] => false | _ => true end) &&
      negb (streqi (cstr (firstn 8 (skipn 26 h))) (cn_pw c)) && negb (pc_nosecurity cfg)
    else false
  end.

Inductive badreason := BHeader | BType | BDest | BMsgHeader1 | BShort | BLong | BPassword | BEof | BMsgHeader | BMsgType.
(** Outcomes of ReadPkt: accepted; BadFile called and TRUE returned; FALSE returned;
    undefined behaviour in a line (see M_Mem); lack of fuel. [st] is the state of the
    message handler. *)
Inductive pktres (S : Type) := PkDone (st : S) | PkBad (r : badreason) (st : S) | PkFalse (st : S) | PkUB | PkFuel.
Arguments PkDone {S}. Arguments PkBad {S}. Arguments PkFalse {S}. Arguments PkUB {S}. Arguments PkFuel {S}.

Inductive txres := TxOk (mm : memmsg) (rest : list Z) | TxEof | TxUB | TxFuel.
(** pkt.c:421-444: the rest of the text *)
Fixpoint readtext (fuel : nat) (mm : memmsg) (s : list Z) : txres :=
  match fuel with
  | O => TxFuel
  | S f =>
    let '(l, e, r) := ReadCR CRBUF s in
    match e with
    | CrEof => TxEof
    | _ =>
      match (match l with [] => Some mm | _ => mmAddLine mm l end) with
      | None => TxUB
      | Some mm' => match e with CrNul => TxOk mm' r | _ => readtext f mm' r end
      end
    end
  end.

(** pkt.c:331-349: a fresh message from the 14 byte message header. Lines 339 and 340 both
    assign DestNode.Zone; OrigNode.Zone stays 0. *)
Definition msg_init (cfg : pktcfg) (po pd : node4d) (ph : list Z) : memmsg :=
  MM (N4 0 (get16 ph 6) (get16 ph 2) 0) (N4 (zone po) (get16 ph 8) (get16 ph 4) 0) po pd null4d
     [] [] [] [] [] [] [] (get16 ph 10) (get16 ph 12) 0
     (if pc_nosecurity cfg then MMFLAG_NOSECURITY else 0) [] [] [].
Definition set_DateTime m v := MM (OrigNode m) (DestNode m) (PktOrig m) (PktDest m) (Origin4D m) (Area m) (To m) (From m) (Subject m) v (MSGID m) (REPLY m) (Attr m) (Cost m) (Type_ m) (Flags m) (TextChunks m) (SeenBy m) (Path m).

(** osRead(fh,PktMsgHeader,14): bytes that cannot be read keep their old contents *)
Definition overlay (old new : list Z) : list Z := new ++ skipn (length new) old.

Section ReadPkt.
  Context {S : Type} (cfg : pktcfg) (handle : S -> memmsg -> S * bool) (ctrlc : nat -> bool).

  (** result of one message: continue with state and rest, or stop *)
  Inductive mres := MrNext (st : S) (rest : list Z) | MrStop (r : pktres S).

  (** pkt.c:382-480: after the header strings *)
  Definition readbody (cn : option cnode) (h : list Z) (mm : memmsg) (s : list Z) (st : S) : mres :=
    let '(l, e, r) := ReadCR CRBUF s in
    match (if prefixb (lit "AREA:") l
           then Some (set_Area mm (stripleadtrail (firstn 79 (skipn 5 l))))
           else mmAddLine mm l) with
    | None => MrStop PkUB
    | Some mm =>
      if wrongpw cfg cn h mm then MrStop (PkBad BPassword st) else
      match (match e with CrNul => TxOk mm r | _ => readtext (Datatypes.S (length r)) mm r end) with
      | TxUB => MrStop PkUB
      | TxFuel => MrStop PkFuel
      | TxEof => MrStop (PkBad BEof st)
      | TxOk mm r =>
        let '(st', ok) := handle st (set_Flags mm (Z.lor (Flags mm) MMFLAG_TOSSED)) in
        if ok then MrNext st' r else MrStop (PkFalse st')
      end
    end.

  (** pkt.c:331-378: header and header strings. A string that is too short or too long
      makes the packet bad; all four strings are read first. *)
  Definition readmsg (cn : option cnode) (h : list Z) (po pd : node4d) (ph : list Z) (s : list Z) (st : S) : mres :=
    let '(dt, e1, s) := ReadNull 19 s in
    let '(to, e2, s) := match e1 with RnShort => ([], RnShort, s) | _ => ReadNull 35 s end in
    let '(fr, e3, s) := match e2 with RnShort => ([], RnShort, s) | _ => ReadNull 35 s end in
    let '(su, e4, s) := match e3 with RnShort => ([], RnShort, s) | _ => ReadNull 71 s end in
    match e4 with
    | RnShort => MrStop (PkBad BShort st)
    | _ =>
      match e1, e2, e3, e4 with
      | RnOk, RnOk, RnOk, RnOk =>
        readbody cn h (set_Subject (set_From (set_To (set_DateTime (msg_init cfg po pd ph) dt) to) fr) su) s st
      | _, _, _, _ => MrStop (PkBad BLong st)
      end
    end.

  (** pkt.c:320-510: the message loop. [ph]: contents of PktMsgHeader; [i]: messages read;
      [ctrlc i]: the interrupt flag when message i is about to be read. *)
  Fixpoint readmsgs (fuel : nat) (cn : option cnode) (h : list Z) (po pd : node4d) (i : nat) (ph s : list Z) (st : S) : pktres S :=
    match fuel with
    | O => PkFuel
    | Datatypes.S f =>
      if (get16 ph 0 =? 2) && negb (ctrlc i) then
        match readmsg cn h po pd ph s st with
        | MrStop r => r
        | MrNext st' s' =>
          let got := firstn 14 s' in
          let ph' := overlay ph got in
          if Nat.ltb (length got) 2 then
            if negb (nth 0 ph' 0 =? 0) then PkBad BMsgHeader st' else PkDone st'
          else readmsgs f cn h po pd (Datatypes.S i) ph' (skipn 14 s') st'
        end
      else if negb (get16 ph 0 =? 0) then PkBad BMsgType st else PkDone st
    end.

  (** pkt.c:76-518 ReadPkt on the contents of a packet that could be opened. [junk] is the
      uninitialised contents of PktMsgHeader. *)
  Definition ReadPkt (junk pkt : list Z) (st : S) : pktres S :=
    let h := firstn 58 pkt in
    let s := skipn 58 pkt in
    if Nat.ltb (length h) 58 then PkBad BHeader st else
    if negb (get16 h 18 =? 2) then PkBad BType st else
    let '(po, pd) := hdr_addr h in
    if flag (pc_flags cfg) CFG_CHECKPKTDEST && negb (pc_nosecurity cfg) &&
       match findnode ak_node pd (pc_akas cfg) with None => true | Some _ => false end
    then PkBad BDest st else
    let po := fixzone cn_node (pc_cnodes cfg) (pc_defzone cfg) po in
    let pd := fixzone ak_node (pc_akas cfg) (pc_defzone cfg) pd in
    let cn := findnode cn_node po (pc_cnodes cfg) in
    let got := firstn 14 s in
    if Nat.ltb (length got) 2 then PkBad BMsgHeader1 st else
    readmsgs (Datatypes.S (length s)) cn h po pd 0 (overlay junk got) (skipn 14 s) st.
End ReadPkt.
Arguments MrNext {S}. Arguments MrStop {S}.

(** ** Writing *)

(** pkt.c:641-645: strncpy into the 8 byte password field *)
Definition pwfield (pw : list Z) : list Z := firstn 8 pw ++ repeat 0 (8 - length pw).

(** pkt.c:606-646: the header of a new packet; [tm] is year, month, day, hour, minute,
    second. *)
Definition mkheader (tm : Z * Z * Z * Z * Z * Z) (orig dest : node4d) (pw : list Z) : list Z :=
  let '(yy, mo, dd, hh, mi, ss) := tm in
  le16 (node orig) ++ le16 (node dest) ++
  le16 yy ++ le16 mo ++ le16 dd ++ le16 hh ++ le16 mi ++ le16 ss ++
  le16 0 ++ le16 2 ++ le16 (net orig) ++ le16 (net dest) ++
  [254; 1] ++ pwfield pw ++ le16 (zone orig) ++ le16 (zone dest) ++ le16 0 ++ le16 256 ++
  [0; 5] ++ le16 1 ++ le16 (zone orig) ++ le16 (zone dest) ++ le16 (point orig) ++ le16 (point dest) ++
  [0; 0; 0; 0].

(** pkt.c:643-644: which password goes into the header *)
Definition pktpw (cn : option cnode) (type : Z) : list Z :=
  match cn with
  | Some c => if (type =? PKTS_ECHOMAIL) || negb (flag (cn_flags c) NODE_NONETMAILPASSWORD) then cn_pw c else []
  | None => []
  end.

(** pkt.c:526-535 struct Pkt. Len is the length of the data; the name is the number. *)
Record opkt := OP { op_hex : Z; op_type : Z; op_dest : node4d; op_orig : node4d; op_data : list Z }.
(** The open packets (PktList) and the packets finished so far. The choice of the number
    and the clock are given by the caller. *)
Record pktout := PO { po_open : list opkt; po_done : list opkt }.

(** pkt.c:550-559 FindPkt *)
Definition pktmatch (dest orig : node4d) (type : Z) (p : opkt) : bool :=
  (Compare4D dest (op_dest p) =? 0) && (Compare4D orig (op_orig p) =? 0) && (type =? op_type p).

(** pkt.c:658-706 FinishPacket: the terminating zeros *)
Definition finish1 (p : opkt) : opkt := OP (op_hex p) (op_type p) (op_dest p) (op_orig p) (op_data p ++ [0; 0]).
(** pkt.c:708-720 ClosePackets *)
Definition ClosePackets (o : pktout) : pktout := PO [] (po_done o ++ map finish1 (po_open o)).

(** pkt.c:722-745 WriteMsgHeader *)
Definition msgheader (mm : memmsg) : list Z :=
  le16 2 ++ le16 (node (OrigNode mm)) ++ le16 (node (DestNode mm)) ++ le16 (net (OrigNode mm)) ++
  le16 (net (DestNode mm)) ++ le16 (Attr mm) ++ le16 (Cost mm) ++
  DateTime mm ++ [0] ++ To mm ++ [0] ++ From mm ++ [0] ++ Subject mm ++ [0].

(** pkt.c:747-765 WritePath *)
Definition pathbytes (p : list (list Z)) : list Z :=
  concat (map (fun l => match l with [] => [] | _ => 1 :: lit "PATH: " ++ l ++ [13] end) p).

(** pkt.c:841-893: the SEEN-BY list that is written for a node, and the message with its
    own list sorted. [None]: see mmSortNodes2D. *)
Definition tinylist (cn : cnode) (ak : aka) : nodes2d :=
  let l := [[]] in
  let l := if point (cn_node cn) =? 0 then mmAddNodes2DList l (net (cn_node cn)) (node (cn_node cn)) else l in
  if point (ak_node ak) =? 0 then mmAddNodes2DList l (net (ak_node ak)) (node (ak_node ak)) else l.
Definition sb_for (mm : memmsg) (cn : cnode) (ak : aka) : option (option nodes2d * memmsg) :=
  if negb (zone (cn_node cn) =? zone (ak_node ak)) || flag (cn_flags cn) NODE_TINYSEENBY then
    option_map (fun l => (Some l, mm)) (mmSortNodes2D (tinylist cn ak))
  else if negb (flag (cn_flags cn) NODE_NOSEENBY) then
    option_map (fun l => (Some l, set_SeenBy mm l)) (mmSortNodes2D (SeenBy mm))
  else Some (None, mm).

(** pkt.c:789-792, :913, :933-934 *)
Definition echo_from (cn : cnode) (ak : aka) : node4d :=
  if flag (cn_flags cn) NODE_PKTFROM then cn_pktfrom cn else ak_node ak.

(** pkt.c:820-898: the bytes of one echomail message and the message as WriteEchoMail
    leaves it (addresses, type and sorted SEEN-BY list). *)
Definition echobytes (mm : memmsg) (cn : cnode) (ak : aka) : option (list Z * memmsg) :=
  let mm := set_OrigNode (set_DestNode (set_Type mm PKTS_ECHOMAIL) (cn_node cn)) (echo_from cn ak) in
  do r <- sb_for mm cn ak;
  let '(sb, mm') := r in
  do sbtext <- match sb with Some l => mmMakeSeenByBuf l | None => Some [] end;
  Some (msgheader mm ++ lit "AREA:" ++ Area mm ++ [13] ++ mmtext mm ++ sbtext ++ pathbytes (Path mm) ++ [0], mm').

(** pkt.c:951-962: the bytes of one netmail message *)
Definition netbytes (mm : memmsg) : list Z := msgheader mm ++ mmtext mm ++ [0].

(** pkt.c:806-818, :937-949: the packet the message goes to: the first open packet that
    matches, unless it is too large; else a new one at the end. Returns the packets in
    front of it, the packet, the packets behind it, and the finished ones. *)
Fixpoint splitpkt (dest orig : node4d) (type : Z) (l : list opkt) : option (list opkt * opkt * list opkt) :=
  match l with
  | [] => None
  | p :: r => if pktmatch dest orig type p then Some ([], p, r)
              else match splitpkt dest orig type r with
                   | Some (a, q, b) => Some (p :: a, q, b)
                   | None => None
                   end
  end.
Definition addpkt (maxsize : Z) (hex : Z) (tm : Z * Z * Z * Z * Z * Z) (pw : list Z)
    (dest orig : node4d) (type : Z) (data : list Z) (o : pktout) : pktout :=
  let fresh := OP hex type dest orig (mkheader tm orig dest pw ++ data) in
  match splitpkt dest orig type (po_open o) with
  | None => PO (po_open o ++ [fresh]) (po_done o)
  | Some (a, p, b) =>
    if negb (maxsize =? 0) && (Z.of_nat (length (op_data p)) >? maxsize)
    then PO (a ++ b ++ [fresh]) (po_done o ++ [finish1 p])
    else PO (a ++ OP (op_hex p) (op_type p) (op_dest p) (op_orig p) (op_data p ++ data) :: b) (po_done o)
  end.

(** pkt.c:781-901 WriteEchoMail *)
Definition WriteEchoMail (maxsize hex : Z) (tm : Z * Z * Z * Z * Z * Z) (mm : memmsg) (cn : cnode) (ak : aka) (o : pktout)
    : option (memmsg * pktout) :=
  do r <- echobytes mm cn ak;
  Some (snd r, addpkt maxsize hex tm (pktpw (Some cn) PKTS_ECHOMAIL) (cn_node cn) (echo_from cn ak) PKTS_ECHOMAIL (fst r) o).

(** pkt.c:903-965 WriteNetMail *)
Definition WriteNetMail (maxsize hex : Z) (tm : Z * Z * Z * Z * Z * Z) (cnodes : list cnode) (mm : memmsg) (dest : node4d) (ak : aka)
    (o : pktout) : memmsg * pktout :=
  let cn := findnode cn_node dest cnodes in
  let mm := match cn with
            | Some c => if flag (cn_flags c) NODE_PACKNETMAIL && (Type_ mm =? PKTS_NORMAL) then set_Type mm PKTS_ECHOMAIL else mm
            | None => mm
            end in
  let from := match cn with Some c => echo_from c ak | None => ak_node ak end in
  (mm, addpkt maxsize hex tm (pktpw cn (Type_ mm)) dest from (Type_ mm) (netbytes mm) o).

(** ** Bad files *)

(** misc.c:291-304: the names tried; MakeFullPath is given the first 90 of the 100
    bytes of destname *)
Definition badname (inbound filename : list Z) (num : Z) : option (list Z) :=
  match MakeFullPath inbound (GetFilePart filename) (repeat 0 90) 90 with
  | None => None
  | Some b => Some (cstr b ++ lit ".bad" ++ (if num =? 0 then [] else lit "," ++ dec num))
  end.
(** misc.c:282-315 BadFile, when rename works; [None]: path building failed, lack of fuel,
    or no such file. (num is a uint32_t; it is taken not to wrap, and the five bytes that
    follow ".bad" in destname hold a number below 10000.) *)
Definition BadFile (fs : fsys) (inbound filename : list Z) : option fsys :=
  match badname inbound filename 0 with
  | None => None
  | Some base =>
    match firstfree (S (length fs)) fs (fun n => base ++ (if n =? 0 then [] else lit "," ++ dec n)) 0 with
    | None => None
    | Some k => osRename fs filename (base ++ (if k =? 0 then [] else lit "," ++ dec k))
    end
  end.
