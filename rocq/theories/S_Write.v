(** CrashWrite: specification. *)
From Verif Require Import Base M_Node4D S_Node4D M_Mem S_Mem M_Cfg M_Pkt S_Pkt M_Str S_Str M_Args M_Main M_Date S_Date M_Write.

(** What the user asks for with the words of the command line: the word behind a name, or what
    holds without it. *)
Definition says (ds : adata) (j : nat) (dflt : list Z) : list Z := if given ds j then word ds j else dflt.
Definition means (ds : adata) (j : nat) (dflt n : node4d) : Prop := if given ds j then Parse4D (word ds j) = Some n else n = dflt.

(** The lines of a text file. A line ends with a line feed or with carriage return and line
    feed. *)
Inductive textfile : list Z -> list (list Z) -> Prop :=
| tf_end : textfile [] []
| tf_lf l s ls : cstring l -> ~ In 10 l -> ~ In 13 l -> textfile s ls -> textfile (l ++ 10 :: s) (l :: ls)
| tf_crlf l s ls : cstring l -> ~ In 10 l -> ~ In 13 l -> ((length l + 1) mod 99 <> 0)%nat -> textfile s ls -> textfile (l ++ 13 :: 10 :: s) (l :: ls).
(** lines in a message *)
Definition inmsg (ls : list (list Z)) : list Z := concat (map (fun l => l ++ [13]) ls).

(** "2:5/6", with and without point *)
Definition three (n : node4d) : list Z := dec (zone n) ++ lit ":" ++ dec (net n) ++ lit "/" ++ dec (node n).
Definition four (n : node4d) : list Z := three n ++ lit "." ++ dec (point n).

(** The packet: read by any program that uses ReadPkt, on a system that takes packets with
    this password from this address, it gives one message with the property P and these
    packet addresses. *)
Definition arrives (pkt : list Z) (from to : node4d) (pw : list Z) (P : memmsg -> Prop) : Prop :=
  forall S cfg (handle : S -> memmsg -> S * bool) junk st, length junk = 14%nat ->
  (forall c, In c (pc_cnodes cfg) -> Compare4D (cn_node c) from = 0 -> pw_accepted cfg (Some c) pw) ->
  (flag (pc_flags cfg) CFG_CHECKPKTDEST = false \/ pc_nosecurity cfg = true \/ exists a, In a (pc_akas cfg) /\ Compare4D (ak_node a) to = 0) ->
  exists m, P m /\ PktOrig m = from /\ PktDest m = to /\ ReadPkt cfg handle (fun _ => false) junk pkt st = deliver handle st [m].

(** What every message must say *)
Definition heading (ds : adata) (date : list Z) (from : node4d) (num : Z) (m : memmsg) : Prop :=
  From m = firstn 35 (says ds CW_FROMNAME (lit "CrashWrite")) /\ To m = firstn 35 (says ds CW_TONAME (lit "All")) /\
  Subject m = firstn 71 (says ds CW_SUBJECT (lit "Information")) /\ DateTime m = date /\ Cost m = 0 /\ REPLY m = [] /\
  (flag (Attr m) 16 = given ds CW_FILEATTACH) /\ (flag (Attr m) 1 = negb (given ds CW_AREA)) /\ is_u16 (Attr m) /\
  (forall b, Z.testbit (Attr m) b = true -> b = 0 \/ b = 4) /\
  MSGID m = (if given ds CW_NOMSGID then [] else four from ++ lit " " ++ hex 8 num).
Definition msgidline (ds : adata) (from : node4d) (num : Z) : list Z :=
  if given ds CW_NOMSGID then [] else 1 :: lit "MSGID: " ++ four from ++ lit " " ++ hex 8 num ++ [13].
(** netmail: from one address to the other, with the kludges and the lines of the text *)
Definition letter (ds : adata) (date : list Z) (from to : node4d) (num : Z) (ls : list (list Z)) (m : memmsg) : Prop :=
  heading ds date from num m /\ Area m = [] /\ OrigNode m = from /\ DestNode m = to /\ SeenBy m = [] /\ Path m = [] /\
  mmtext m =
    (if point from =? 0 then [] else 1 :: lit "FMPT " ++ dec (point from) ++ [13]) ++
    (if point to =? 0 then [] else 1 :: lit "TOPT " ++ dec (point to) ++ [13]) ++
    1 :: lit "INTL " ++ three to ++ lit " " ++ three from ++ [13] ++ msgidline ds from num ++ inmsg ls.
(** echomail: in the area, with tear line and origin *)
Definition post (ds : adata) (date : list Z) (from to : node4d) (num : Z) (ls : list (list Z)) (m : memmsg) : Prop :=
  heading ds date from num m /\ Area m = word ds CW_AREA /\ Origin4D m = from /\ SeenBy m = [] /\ Path m = [] /\
  net (OrigNode m) = net from /\ node (OrigNode m) = node from /\ net (DestNode m) = net to /\ node (DestNode m) = node to /\
  mmtext m = msgidline ds from num ++ inmsg ls ++ lit "--- CrashWrite II/Linux 1.5.1" ++ [13] ++
    lit " * Origin: " ++ firstn 79 (says ds CW_ORIGIN (lit "Another user of CrashMail II")) ++ lit " (" ++ four from ++ lit ")" ++ [13].

(** a text that the reader of the packet takes as it is: no kludges, no SEEN-BY lines, no
    broken origin lines *)
Definition echotext_ok (t : list Z) : Prop := ~ In 1 t /\ Forall (fun l => ~ is_seenby_line l /\ (is_origin_line l -> wf_origin l \/ ~ In 40 l)) (pieces t).

(** the text that goes into the message *)
Definition textlines (ds : adata) (fs : list (list Z * list Z)) (ls : list (list Z)) : Prop :=
  if given ds CW_TEXT then exists f, M_Fs.fget fs (word ds CW_TEXT) = Some f /\ textfile f ls else ls = [].

(** the command line is in order and gives these addresses: of the message, of the packet *)
Definition order (argv : list (list Z)) (ds : adata) (from to pfrom pto : node4d) : Prop :=
  Forall cstring argv /\ (forall w r, argv = w :: r -> helpword w = false) /\ parseargs args_crashwrite argv = Some ds /\
  means ds CW_FROMADDR (N4 0 0 0 0) from /\ means ds CW_TOADDR (N4 0 0 0 0) to /\ means ds CW_PKTFROMADDR from pfrom /\ means ds CW_PKTTOADDR to pto.
(** addresses that a packet can carry *)
Definition sendable (pfrom pto : node4d) : Prop := zone pfrom <> 0 /\ zone pto <> 0 /\ ~ (net pfrom = 65535 /\ point pfrom <> 0).
(** the clock does not go back, and does not run for months while a name is looked for *)
Definition steady (E : cwenv) (k : nat) : Prop :=
  (forall i, (i < k)%nat -> cw_clock E i <= cw_clock E (S i)) /\ cw_clock E k - cw_clock E 0 < 8388608 /\ Z.of_nat k < 2147483648.
(** the name of packet num *)
Definition pktname (dir : list Z) (num : Z) : list Z := joinpath dir (hex 8 num ++ lit ".pkt").
