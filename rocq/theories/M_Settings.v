(** Model of ReadConfig (src/crashmail/config.c) with all its keywords: M_Upd models the lines
    about AKAs, packers, nodes and areas, this file the other ones. *)
From Verif Require Import Base M_Node4D M_Pat M_Str M_Mem M_Cfg M_Upd M_Filter M_Net.

(** The result of a line: read, refused, or undefined behaviour; these are the outcomes of a
    parser of M_Pat *)
Definition pbind {A B} (r : pres A) (f : A -> pres B) : pres B := match r with POk a => f a | PFail => PFail | PUB => PUB end.
Notation "'try' x <- r ; f" := (pbind r (fun x => f)) (at level 200, x binder, right associativity).
(** "if(!...) return(FALSE)" *)
Definition need {A} (o : option A) : pres A := match o with Some a => POk a | None => PFail end.

(** config.h:282-312: the character arrays and the numbers of struct Config *)
Inductive sfield := FInbound | FOutbound | FSysop | FBeforeToss | FBeforePack | FNodelist | FAreaFixHelp | FLogFile | FStatsFile
  | FDupeFile | FTempDir | FPacketCreate | FPacketDir.
Inductive nfield := NLogLevel | NDupeSize | NDupeMode | NLoopMode | NMaxPktSize | NMaxBundleSize | NDefaultZone | NAreaFixMaxLines
  | NJamMaxOpen | NFlags | NMsgFlags | NJamFlags.
Definition sfield_eqb (a b : sfield) : bool :=
  match a, b with
  | FInbound, FInbound | FOutbound, FOutbound | FSysop, FSysop | FBeforeToss, FBeforeToss | FBeforePack, FBeforePack
  | FNodelist, FNodelist | FAreaFixHelp, FAreaFixHelp | FLogFile, FLogFile | FStatsFile, FStatsFile | FDupeFile, FDupeFile
  | FTempDir, FTempDir | FPacketCreate, FPacketCreate | FPacketDir, FPacketDir => true
  | _, _ => false
  end.
Definition nfield_eqb (a b : nfield) : bool :=
  match a, b with
  | NLogLevel, NLogLevel | NDupeSize, NDupeSize | NDupeMode, NDupeMode | NLoopMode, NLoopMode | NMaxPktSize, NMaxPktSize
  | NMaxBundleSize, NMaxBundleSize | NDefaultZone, NDefaultZone | NAreaFixMaxLines, NAreaFixMaxLines | NJamMaxOpen, NJamMaxOpen
  | NFlags, NFlags | NMsgFlags, NMsgFlags | NJamFlags, NJamFlags => true
  | _, _ => false
  end.
(** config.h:216-222 struct Route; the AKA is the position in AkaList *)
Record sroute := SRT { srt_pat : npat; srt_dest : npat; srt_aka : nat }.
(** config.h:245-255 struct Arealist; the node is the position in CNodeList *)
Record sarealist := SAL { sal_node : nat; sal_file : list Z; sal_flags : Z; sal_group : Z }.
Definition SAL_DESC := 1.
Definition SAL_FORWARD := 2.

(** config.h:282-352 struct Config without packers, nodes and areas. [sc_nl]: the position of
    cfg_NodelistType in AvailNodelists; [sc_group]: cfg_GroupNames; the struct Command of a
    filter is a [command] of M_Filter *)
Record sconf := SC {
  sc_str : sfield -> list Z; sc_num : nfield -> Z; sc_nl : option nat; sc_group : Z -> list Z;
  sc_akas : list aka; sc_attach : list npat; sc_bounce : list npat; sc_afnames : list (list Z);
  sc_routes : list sroute; sc_changes : list change; sc_arealists : list sarealist; sc_filters : list (list Z * list command) }.
Definition set_str (s : sconf) (f : sfield) (v : list Z) : sconf :=
  SC (fun g => if sfield_eqb g f then v else sc_str s g) (sc_num s) (sc_nl s) (sc_group s) (sc_akas s) (sc_attach s) (sc_bounce s)
     (sc_afnames s) (sc_routes s) (sc_changes s) (sc_arealists s) (sc_filters s).
Definition set_num (s : sconf) (f : nfield) (v : Z) : sconf :=
  SC (sc_str s) (fun g => if nfield_eqb g f then v else sc_num s g) (sc_nl s) (sc_group s) (sc_akas s) (sc_attach s) (sc_bounce s)
     (sc_afnames s) (sc_routes s) (sc_changes s) (sc_arealists s) (sc_filters s).
Definition set_nl (s : sconf) v := SC (sc_str s) (sc_num s) v (sc_group s) (sc_akas s) (sc_attach s) (sc_bounce s)
     (sc_afnames s) (sc_routes s) (sc_changes s) (sc_arealists s) (sc_filters s).
Definition set_group (s : sconf) (i : Z) (v : list Z) :=
  SC (sc_str s) (sc_num s) (sc_nl s) (fun j => if j =? i then v else sc_group s j) (sc_akas s) (sc_attach s) (sc_bounce s)
     (sc_afnames s) (sc_routes s) (sc_changes s) (sc_arealists s) (sc_filters s).
Definition set_akas (s : sconf) v := SC (sc_str s) (sc_num s) (sc_nl s) (sc_group s) v (sc_attach s) (sc_bounce s)
     (sc_afnames s) (sc_routes s) (sc_changes s) (sc_arealists s) (sc_filters s).
Definition set_attach (s : sconf) v := SC (sc_str s) (sc_num s) (sc_nl s) (sc_group s) (sc_akas s) v (sc_bounce s)
     (sc_afnames s) (sc_routes s) (sc_changes s) (sc_arealists s) (sc_filters s).
Definition set_bounce (s : sconf) v := SC (sc_str s) (sc_num s) (sc_nl s) (sc_group s) (sc_akas s) (sc_attach s) v
     (sc_afnames s) (sc_routes s) (sc_changes s) (sc_arealists s) (sc_filters s).
Definition set_afnames (s : sconf) v := SC (sc_str s) (sc_num s) (sc_nl s) (sc_group s) (sc_akas s) (sc_attach s) (sc_bounce s)
     v (sc_routes s) (sc_changes s) (sc_arealists s) (sc_filters s).
Definition set_routes (s : sconf) v := SC (sc_str s) (sc_num s) (sc_nl s) (sc_group s) (sc_akas s) (sc_attach s) (sc_bounce s)
     (sc_afnames s) v (sc_changes s) (sc_arealists s) (sc_filters s).
Definition set_changes (s : sconf) v := SC (sc_str s) (sc_num s) (sc_nl s) (sc_group s) (sc_akas s) (sc_attach s) (sc_bounce s)
     (sc_afnames s) (sc_routes s) v (sc_arealists s) (sc_filters s).
Definition set_arealists (s : sconf) v := SC (sc_str s) (sc_num s) (sc_nl s) (sc_group s) (sc_akas s) (sc_attach s) (sc_bounce s)
     (sc_afnames s) (sc_routes s) (sc_changes s) v (sc_filters s).
Definition set_filters (s : sconf) v := SC (sc_str s) (sc_num s) (sc_nl s) (sc_group s) (sc_akas s) (sc_attach s) (sc_bounce s)
     (sc_afnames s) (sc_routes s) (sc_changes s) (sc_arealists s) v.

(** config.c:1954-1976 InitConfig *)
Definition InitConfig : sconf :=
  SC (fun f => match f with FSysop => lit "Sysop" | _ => [] end)
     (fun f => match f with NLogLevel => 3 | NDupeSize => 10000 | NDefaultZone => 2 | _ => 0 end)
     None (fun _ => []) [] [] [] [] [] [] [] [].

(** The branches of the chain of "else if(stricmp(cfgword,...)==0)". Branches with the same text
    except for a field, a limit or a bit are one kind. *)
Inductive ckind := CAdd | CRem | CDomain | CGroupName | CAfName | CAttach | CBounce | CText (f : sfield) (n : nat) | CNodelist
  | CNum (f : nfield) (n : nat) | CDupeFile | CRoute | CChange | CArealist | CFilter | CCmd (n : Z) | CFlag (f : nfield) (b : Z).
Definition keytable : list (String.string * ckind) :=
  [("ADDNODE", CAdd); ("REMNODE", CRem); ("DOMAIN", CDomain); ("GROUPNAME", CGroupName);
   ("AREAFIXNAME", CAfName); ("FILEATTACH", CAttach); ("BOUNCE", CBounce);
   ("INBOUND", CText FInbound 100); ("OUTBOUND", CText FOutbound 100); ("SYSOP", CText FSysop 35);
   ("BEFORETOSS", CText FBeforeToss 79); ("BEFOREPACK", CText FBeforePack 79); ("NODELIST", CNodelist);
   ("AREAFIXHELP", CText FAreaFixHelp 100); ("LOGFILE", CText FLogFile 100); ("LOGLEVEL", CNum NLogLevel 100);
   ("STATSFILE", CText FStatsFile 100); ("DUPEFILE", CDupeFile); ("DUPEMODE", CNum NDupeMode 200);
   ("LOOPMODE", CNum NLoopMode 200); ("TEMPDIR", CText FTempDir 100); ("CREATEPKTDIR", CText FPacketCreate 100);
   ("PACKETDIR", CText FPacketDir 100); ("ROUTE", CRoute); ("CHANGE", CChange); ("AREALIST", CArealist);
   ("FILTER", CFilter); ("KILL", CCmd 1); ("TWIT", CCmd 2); ("COPY", CCmd 3); ("EXECUTE", CCmd 4); ("WRITELOG", CCmd 5);
   ("WRITEBAD", CCmd 6); ("BOUNCEMSG", CCmd 7); ("BOUNCEHEADER", CCmd 8); ("REMAPMSG", CCmd 9); ("MASQUERADE", CCmd 10);
   ("STRIPRE", CFlag NFlags (2 ^ 2)); ("FORCEINTL", CFlag NFlags (2 ^ 3)); ("BOUNCEHEADERONLY", CFlag NFlags (2 ^ 21));
   ("REMOVEWHENFEED", CFlag NFlags (2 ^ 22)); ("INCLUDEFORWARD", CFlag NFlags (2 ^ 23)); ("NOMAXOUTBOUNDZONE", CFlag NFlags (2 ^ 24));
   ("ALLOWKILLSENT", CFlag NFlags (2 ^ 25)); ("FLOWCRLF", CFlag NFlags (2 ^ 26)); ("NOEXPORTNETMAIL", CFlag NFlags (2 ^ 27));
   ("NOROUTE", CFlag NFlags (2 ^ 4)); ("ANSWERRECEIPT", CFlag NFlags (2 ^ 9)); ("ANSWERAUDIT", CFlag NFlags (2 ^ 10));
   ("CHECKSEENBY", CFlag NFlags (2 ^ 0)); ("CHECKPKTDEST", CFlag NFlags (2 ^ 1)); ("PATH3D", CFlag NFlags (2 ^ 5));
   ("IMPORTEMPTYNETMAIL", CFlag NFlags (2 ^ 7)); ("IMPORTAREAFIX", CFlag NFlags (2 ^ 12)); ("AREAFIXREMOVE", CFlag NFlags (2 ^ 13));
   ("NODIRECTATTACH", CFlag NFlags (2 ^ 11)); ("BOUNCEPOINTS", CFlag NFlags (2 ^ 8)); ("IMPORTSEENBY", CFlag NFlags (2 ^ 6));
   ("WEEKDAYNAMING", CFlag NFlags (2 ^ 14)); ("ADDTID", CFlag NFlags (2 ^ 16)); ("ALLOWRESCAN", CFlag NFlags (2 ^ 18));
   ("FORWARDPASSTHRU", CFlag NFlags (2 ^ 19));
   ("MAXPKTSIZE", CNum NMaxPktSize 200); ("MAXBUNDLESIZE", CNum NMaxBundleSize 200); ("DEFAULTZONE", CNum NDefaultZone 200);
   ("AREAFIXMAXLINES", CNum NAreaFixMaxLines 200);
   ("MSG_HIGHWATER", CFlag NMsgFlags (2 ^ 1)); ("MSG_WRITEBACK", CFlag NMsgFlags (2 ^ 2));
   ("JAM_HIGHWATER", CFlag NJamFlags (2 ^ 0)); ("JAM_LINK", CFlag NJamFlags (2 ^ 1)); ("JAM_QUICKLINK", CFlag NJamFlags (2 ^ 2));
   ("JAM_MAXOPEN", CNum NJamMaxOpen 200)]%string.
Definition kindof (w : list Z) : option ckind := option_map snd (find (fun e => kw w (fst e)) keytable).

(** "if(!(jbstrcpy(...))) ... Missing argument" *)
Definition arg (n : nat) (src : list Z) : pres (list Z * list Z) := let '(b, ok, rest) := tok n src in if ok then POk (b, rest) else PFail.
(** atoi; a number that is not an int is undefined behaviour *)
Definition isint (n : Z) : bool := (-2147483648 <=? n) && (n <? 2147483648).
Definition intof (b : list Z) : pres Z := if isint (atoi b) then POk (atoi b) else PUB.
(** config.c:949-1013, 1729-1765, 1793-1803: the value of a number or a word *)
Definition numval (f : nfield) (b : list Z) : pres Z :=
  match f with
  | NLogLevel => try n <- intof b; if (n <? 1) || (n >? 6) then PFail else POk n
  | NDupeMode => if kw b "IGNORE" then POk 0 else if kw b "KILL" then POk 2 else if kw b "BAD" then POk 1 else PFail
  | NLoopMode => if kw b "IGNORE" then POk 0 else if kw b "LOG" then POk 1 else if kw b "LOG+BAD" then POk 2 else PFail
  | NMaxPktSize | NMaxBundleSize => try n <- intof b; if isint (n * 1024) then POk (u32 (n * 1024)) else PUB
  | _ => try n <- intof b; POk (u32 n)
  end.
(** change LastAka; "No previous AKA line" if there is none *)
Definition lastaka (f : aka -> pres aka) (s : sconf) : pres sconf :=
  match rev (sc_akas s) with
  | [] => PFail
  | a :: r => try a' <- f a; POk (set_akas s (rev r ++ [a']))
  end.
(** LastFilter; "No previous FILTER line" *)
Definition lastfilter (f : list Z * list command -> pres (list Z * list command)) (s : sconf) : pres sconf :=
  match rev (sc_filters s) with
  | [] => PFail
  | a :: r => try a' <- f a; POk (set_filters s (rev r ++ [a']))
  end.
(** the words of a line, each of them parsed *)
Fixpoint parseall {A} (p : list Z -> pres A) (ws : list (list Z)) : pres (list A) :=
  match ws with
  | [] => POk []
  | w :: r => try a <- p w; try l <- parseall p r; POk (a :: l)
  end.
(** config.c:155-161 DOMAIN: copied with a limit of 200 into an array of 20 *)
Definition rdDomain (src : list Z) (a : aka) : pres aka :=
  match jbstrcpy (repeat 0 20) src 200 with
  | (Some b, true, _) => POk (AKA (ak_node a) (cstr b) (ak_add a) (ak_rem a))
  | (Some _, false, _) => PFail
  | (None, _, _) => PUB
  end.
(** config.c:165-191 GROUPNAME: the array has 30 names *)
Definition rdGroupName (src : list Z) (s : sconf) : pres sconf :=
  try x <- arg 2 src; try u <- need (CorrectFlags (fst x));
  let i := hd 0 u - 65 in
  if (0 <=? i) && (i <? 30) then try y <- arg 80 (snd x); POk (set_group s i (fst y)) else PUB.
(** nl.c:11-35 AvailNodelists when both formats are compiled in *)
Definition nlnames : list (list Z) := [lit "CMNL"; lit "V7+"].
(** config.c:904-935 NODELIST *)
Definition rdNodelist (src : list Z) (s : sconf) : pres sconf :=
  try x <- arg 100 src; try y <- arg 40 (snd x); try i <- need (findpos (streqi (fst y)) nlnames);
  POk (set_nl (set_str s FNodelist (fst x)) (Some i)).
(** config.c:983-1000 DUPEFILE *)
Definition rdDupeFile (src : list Z) (s : sconf) : pres sconf :=
  try x <- arg 100 src; try y <- arg 200 (snd x); try n <- intof (fst y); POk (set_num (set_str s FDupeFile (fst x)) NDupeSize (u32 n)).
(** config.c:1127-1193 ROUTE *)
Definition rdRoute (src : list Z) (s : sconf) : pres sconf :=
  try x <- arg 200 src; try p <- Parse4DPat (fst x);
  try y <- arg 200 (snd x); try d <- Parse4DDestPat (fst y);
  try z <- arg 200 (snd y); try n <- need (Parse4D (fst z));
  try i <- need (findpos (fun a => Compare4D n (ak_node a) =? 0) (sc_akas s));
  POk (set_routes s (sc_routes s ++ [SRT p d i])).
(** config.c:1224-1256: the kinds of mail in a list with commas: normal, crash, direct, hold. An
    empty name between commas is not one of them; a comma at the end does not matter. *)
Definition flavour (w : list Z) (x : bool * bool * bool * bool) : option (bool * bool * bool * bool) :=
  let '(n, c, d, h) := x in
  if kw w "NORMAL" then Some (true, c, d, h) else if kw w "CRASH" then Some (n, true, d, h)
  else if kw w "HOLD" then Some (n, c, d, true) else if kw w "DIRECT" then Some (n, c, true, h) else None.
Fixpoint upcomma (s : list Z) : list Z * list Z :=
  match s with
  | [] => ([], [])
  | c :: r => if c =? 44 then ([], r) else let '(a, b) := upcomma r in (c :: a, b)
  end.
Fixpoint flavours (fuel : nat) (s : list Z) (x : bool * bool * bool * bool) : option (bool * bool * bool * bool) :=
  match s, fuel with
  | [], _ => Some x
  | _, O => None
  | _, S f => let '(a, b) := upcomma s in do y <- flavour a x; flavours f b y
  end.
(** config.c:1275-1292 *)
Definition flavourpri (w : list Z) : option Z :=
  if kw w "NORMAL" then Some PKTS_NORMAL else if kw w "CRASH" then Some PKTS_CRASH
  else if kw w "HOLD" then Some PKTS_HOLD else if kw w "DIRECT" then Some PKTS_DIRECT else None.
(** config.c:1194-1293 CHANGE *)
Definition rdChange (src : list Z) (s : sconf) : pres sconf :=
  try x <- arg 200 src;
  try t <- (if hd 0 (fst x) =? 42 then POk (true, true, true, true)
            else need (flavours (S (length (fst x))) (fst x) (false, false, false, false)));
  try y <- arg 200 (snd x); try p <- Parse4DPat (fst y);
  try z <- arg 200 (snd y); try pri <- need (flavourpri (fst z));
  let '(n, c, d, h) := t in POk (set_changes s (sc_changes s ++ [CH p n c d h pri])).
(** config.c:1335-1372: the switches of an AREALIST line *)
Fixpoint alswitches (ws : list (list Z)) (a : sarealist) : option sarealist :=
  match ws with
  | [] => Some a
  | w :: r =>
    if kw w "FORWARD" then alswitches r (SAL (sal_node a) (sal_file a) (Z.lor (sal_flags a) SAL_FORWARD) (sal_group a))
    else if kw w "DESC" then alswitches r (SAL (sal_node a) (sal_file a) (Z.lor (sal_flags a) SAL_DESC) (sal_group a))
    else if kw w "GROUP" then
      match r with
      | [] => None
      | g :: r' => do c <- firstflag g; alswitches r' (SAL (sal_node a) (sal_file a) (sal_flags a) c)
      end
    else None
  end.
(** config.c:1294-1373 AREALIST *)
Definition rdArealist (nodes : list node4d) (src : list Z) (s : sconf) : pres sconf :=
  try x <- arg 200 src; try n <- need (Parse4D (fst x));
  try i <- need (findpos (fun k => Compare4D n k =? 0) nodes);
  try y <- arg 80 (snd x);
  try a <- need (alswitches (allwords 200 (snd y)) (SAL i (fst y) 0 0));
  POk (set_arealists s (sc_arealists s ++ [a])).
(** config.c:1374-1396 FILTER *)
Definition rdFilter (src : list Z) (s : sconf) : pres sconf :=
  match jbstrcpyrest (repeat 0 400) src 400 with
  | (Some b, true, _) => POk (set_filters s (sc_filters s ++ [(cstr b, [])]))
  | (Some _, false, _) => PFail
  | (None, _, _) => PUB
  end.
(** config.c:1397-1582: a command of a filter *)
Definition rdCmd (n : Z) (src : list Z) : pres command :=
  if n =? 1 then POk CKill else if n =? 2 then POk CTwit
  else try x <- arg 200 src;
    if n =? 3 then POk (CCopy (fst x)) else if n =? 4 then POk (CExecute (fst x)) else if n =? 5 then POk (CWriteLog (fst x))
    else if n =? 6 then POk (CWriteBad (fst x)) else if n =? 7 then POk (CBounceMsg (fst x)) else if n =? 8 then POk (CBounceHeader (fst x))
    else try y <- arg 200 (snd x); try d <- Parse4DDestPat (fst y);
         if n =? 9 then POk (CRemap (fst x) d) else POk (CMasquerade (fst x) d).

(** a line with one of the keywords of [keytable] *)
Definition setkind (k : ckind) (nodes : list node4d) (src : list Z) (s : sconf) : pres sconf :=
  match k with
  | CAdd => lastaka (fun a => try l <- parseall (fun w => need (Parse4D w)) (allwords 100 src); POk (AKA (ak_node a) (ak_domain a) (ak_add a ++ l) (ak_rem a))) s
  | CRem => lastaka (fun a => try l <- parseall Parse2DPat (allwords 100 src); POk (AKA (ak_node a) (ak_domain a) (ak_add a) (ak_rem a ++ l))) s
  | CDomain => lastaka (rdDomain src) s
  | CGroupName => rdGroupName src s
  | CAfName => try x <- arg 36 src; POk (set_afnames s (sc_afnames s ++ [fst x]))
  | CAttach => try l <- parseall Parse4DPat (allwords 100 src); POk (set_attach s (sc_attach s ++ l))
  | CBounce => try l <- parseall Parse4DPat (allwords 100 src); POk (set_bounce s (sc_bounce s ++ l))
  | CText f n => try x <- arg n src; POk (set_str s f (fst x))
  | CNodelist => rdNodelist src s
  | CNum f n => try x <- arg n src; try v <- numval f (fst x); POk (set_num s f v)
  | CDupeFile => rdDupeFile src s
  | CRoute => rdRoute src s
  | CChange => rdChange src s
  | CArealist => rdArealist nodes src s
  | CFilter => rdFilter src s
  | CCmd n => lastfilter (fun f => try c <- rdCmd n src; POk (fst f, snd f ++ [c])) s
  | CFlag f b => POk (set_num s f (Z.lor (sc_num s f) b))
  end.

(** the keywords of M_Upd *)
Definition basekeys : list String.string :=
  ["AKA"; "NODE"; "PKTFROM"; "AREAFIXINFO"; "DEFAULTGROUP"; "AREA"; "NETMAIL"; "LOCALAREA"; "UNCONFIRMED"; "MANDATORY"; "DEFREADONLY";
   "IGNOREDUPES"; "IGNORESEENBY"; "EXPORT"; "IMPORT"; "BANNED"; "DESCRIPTION"; "GROUP"; "KEEPNUM"; "KEEPDAYS"; "PACKER"; "REMOTEAF";
   "REMOTESYSOP"]%string.
(** config.c:62-1823: one line. The lines with a keyword of [keytable] are recorded in cf_other,
    as in M_Upd *)
Definition fullline (x : fconf * sconf) (line : list Z) : pres (fconf * sconf) :=
  let '(w, _, src) := tok 30 line in
  if existsb (kw w) basekeys then
    match rdline (fun _ _ _ _ _ => false) (fst x) line with
    | ROk c => if kw w "AKA" then try n <- need (Parse4D (fst (fst (tok 200 src)))); POk (c, set_akas (snd x) (sc_akas (snd x) ++ [AKA n [] [] []]))
               else POk (c, snd x)
    | RErr => PFail
    | RUB => PUB
    end
  else match kindof w with
  | Some k => try s <- setkind k (map fn_node (cf_nodes (fst x))) src (snd x);
              POk (FC (cf_akas (fst x)) (cf_packers (fst x)) (cf_nodes (fst x)) (cf_areas (fst x)) (cf_other (fst x) ++ [line]), s)
  | None => if (hd 0 w =? 0) || (hd 0 w =? 59) then POk x else PFail
  end.
Fixpoint fulllines (ls : list (list Z)) (x : fconf * sconf) : pres (fconf * sconf) :=
  match ls with
  | [] => POk x
  | l :: r => try y <- fullline x l; fulllines r y
  end.
(** config.c:22-1826 ReadConfig after InitConfig, for a file with the text [s] *)
Definition ReadAll (s : list Z) : pres (fconf * sconf) := fulllines (flines s) (FC [] [] [] [] [], InitConfig).
