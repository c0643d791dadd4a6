(** Model of the lists and replies of AreaFix (src/crashmail/areafix.c:845-1334 and
    1425-1513), of SendRemoteAreafix (areafix.c:1551-1603) and of DoSendAFList
    (areafix.c:1655-1696).

    Memory is never short. HandleMessage is given: [handle before m] is the message [m] as
    HandleMessage leaves it, when the messages [before] were handed over earlier (handle.c
    may change addresses and text of a message). [date k] is the date MakeFidoDate writes
    when [k] messages have been handed over. [qsort] is given too. Not modelled: the log
    and rawSendInfo. *)
From Verif Require Import Base M_Node4D M_Str M_Mem M_Pat M_Cfg M_Pkt M_Filter M_Net M_Echo M_Areafix M_Out M_List M_Msg M_Link.

(** ** Replies *)

(** areafix.c:11-17 struct afReply, and the messages handed to HandleMessage so far *)
Record afrep := AFR { r_mm : memmsg; r_subject : list Z; r_lines : Z; r_part : Z; r_sent : list memmsg }.
Definition set_mm (r : afrep) (m : memmsg) : afrep := AFR m (r_subject r) (r_lines r) (r_part r) (r_sent r).
Definition contnext : list Z := 13 :: lit "(Continued in next message)" ++ [13].
Definition contfrom : list Z := lit "(Continued from previous message)" ++ [13; 13].

(** "%-28.28s", "%-33.33s", "%-70.70s"; "%8.8s"; "%-30s" is not needed here *)
Definition padr (n : nat) (s : list Z) : list Z := let t := firstn n s in t ++ repeat 32 (n - length t).
Definition padl (n : nat) (s : list Z) : list Z := let t := firstn n s in repeat 32 (n - length t) ++ t.

(** ** Lists *)

(** areafix.c:848-858 struct StatsNode *)
Record sentry := SE { se_tag : list Z; se_desc : list Z; se_group : Z; se_att : bool; se_feed : bool; se_kb : Z }.
(** config.h:70-103 struct Area: additionally Description and the statistics *)
Record larea := LA { la_ar : area; la_desc : list Z; la_texts : Z; la_last8 : list Z; la_first : Z }.
(** areafix.h:2-4 *)
Inductive sltype := LQuery | LUnlinked | LFull.
(** areafix.c:908-919 CompareAreas; Group is a char, here a letter or 0 *)
Definition CompareAreas (a b : sentry) : Z :=
  if se_group a <? se_group b then -1 else if se_group a >? se_group b then 1 else stricmp (se_tag a) (se_tag b).

(** areafix.c:970-971: Last8Days[c] for c = 1 .. n *)
Definition sumdays (l : list Z) (n : nat) : Z := fold_right Z.add 0 (firstn n (skipn 1 l)).
(** areafix.c:955-986 CalculateWeekKB; [day]: DayStatsWritten. The difference is a long,
    days an int; Texts/days is computed in uint32_t and sum/days in unsigned long *)
Definition CalculateWeekKB (day : Z) (a : larea) : Z :=
  if (la_first a =? 0) || (day =? 0) then -1 else
  let days0 := s32 (day - Z.quot (la_first a) 86400) in
  let days := if days0 >? 7 then 7 else days0 in
  let sum := sumdays (la_last8 a) (Z.to_nat days) in
  if (sum =? 0) && negb (la_texts a =? 0) then
    let d := if days0 =? 0 then 1 else days0 in la_texts a / u32 d
  else
    let d := if days =? 0 then 1 else days in sum / (d mod 18446744073709551616).

(** areafix.c:1010-1022: what follows the first word; chars are signed *)
Fixpoint skipdesc (l : list Z) : list Z :=
  match l with c :: r => if (c <=? 32) || (c >? 127) then skipdesc r else l | [] => [] end.
Fixpoint uptocr (n : nat) (l : list Z) : list Z :=
  match n, l with
  | O, _ | _, [] => []
  | S m, c :: r => if (c =? 10) || (c =? 13) then [] else c :: uptocr m r
  end.
Definition fdesc (l : list Z) : list Z := uptocr 77 (skipdesc (skipn (S (length (fword l))) l)).
(** config.h:255 *)
Definition AREALIST_DESC := 1.
(** areafix.c:988-1056 AddForwardList: the lines of the file against the areas and SortList *)
Fixpoint addforward (tags : list (list Z)) (al : alist) (ls : list (list Z)) (sl : list sentry) : list sentry :=
  match ls with
  | [] => sl
  | l :: r =>
    let tag := fword l in
    let sl' :=
      match tag with
      | [] => sl
      | _ => if existsb (streqi tag) tags || existsb (fun e => streqi tag (se_tag e)) sl then sl
             else sl ++ [SE tag (if flag (al_flags al) AREALIST_DESC then fdesc l else []) (al_group al) false false 4294967295]
      end in
    addforward tags al r sl'
  end.
Definition AddForwardList (tags : list (list Z)) (sl : list sentry) (al : alist) : list sentry :=
  match al_lines al with Some ls => addforward tags al ls sl | None => sl end.

(** areafix.c:1146-1173, :1178-1184: one area *)
Definition addlocal (t : sltype) (day : Z) (c : cnode) (i : nat) (a : larea) : list sentry :=
  let ar := la_ar a in
  if ar_type ar =? AREATYPE_ECHOMAIL then
    let tn := find (isnode i) (ar_tn ar) in
    let att := match tn with Some _ => true | None => false end in
    let allowed := CheckFlags (ar_group ar) (cn_groups c) || CheckFlags (ar_group ar) (cn_rogroups c) in
    let add := match t with
               | LQuery => att
               | LUnlinked => negb att && allowed
               | LFull => att || allowed
               end in
    if add then
      [SE (ar_tag ar) (la_desc a) (ar_group ar) att
          (match tn with Some x => flag (tn_flags x) TOSSNODE_FEED | None => false end) (u32 (CalculateWeekKB day a))]
    else []
  else [].
(** config.h:28 *)
Definition CFG_INCLUDEFORWARD := 8388608.
(** areafix.c:1142-1215: SortList before it is sorted *)
Definition collected (t : sltype) (cfg : afcfg) (day : Z) (c : cnode) (i : nat) (areas : list larea) : list sentry :=
  let local := concat (map (addlocal t day c i) areas) in
  if flag (fc_flags cfg) CFG_INCLUDEFORWARD && (match t with LQuery => false | _ => true end) && flag (cn_flags c) NODE_FORWARDREQ then
    fold_left (AddForwardList (map (fun a => ar_tag (la_ar a)) areas))
      (filter (fun al => flag (al_flags al) AREALIST_FORWARD && CheckFlags (al_group al) (cn_groups c)) (fc_alists cfg)) local
  else local.

(** areafix.c:1254-1258; "%d" of a uint32_t *)
Definition showkb (kb : Z) : list Z :=
  if kb =? 4294967295 then lit "?" else if s32 kb <? 0 then lit "-" ++ dec (- s32 kb) else dec kb.
(** areafix.c:1228-1231; [names]: cfg_GroupNames[30]. [None]: outside the array *)
Definition groupname (names : list (list Z)) (g : Z) : option (list Z) :=
  if g =? 0 then Some (lit "<No group>")
  else if (65 <=? g) && (g <? 95) then Some (nth (Z.to_nat (g - 65)) names []) else None.
(** areafix.c:1239-1252 *)
Definition mark (t : sltype) (e : sentry) : Z :=
  if se_feed e then 37 else match t with LFull => if se_att e then 42 else 32 | _ => 32 end.
(** areafix.c:1260-1268 *)
Definition entrylines (t : sltype) (e : sentry) : list (list Z) :=
  let rest tag := padr 28 tag ++ lit "  " ++ padr 33 (se_desc e) ++ lit "  " ++ padl 8 (showkb (se_kb e)) in
  if Nat.leb (length (se_tag e)) 28 then [mark t e :: rest (se_tag e)]
  else [mark t e :: padr 70 (se_tag e); 32 :: rest []].
(** areafix.c:1221-1270: the loop over SortList; [last]: the group of lastss. The lines
    that are given to afAddLine *)
Fixpoint rowlines (names : list (list Z)) (t : sltype) (last : option Z) (es : list sentry) : option (list (list Z)) :=
  match es with
  | [] => Some []
  | e :: r =>
    do head <- (if match last with Some g => g =? se_group e | None => false end then Some []
                else do n <- groupname names (se_group e);
                     Some ((match last with Some _ => [[]] | None => [] end) ++
                           [lit " Group: " ++ n; [];
                            lit " Tagname                       Description                         KB/week";
                            lit " ----------------------------  ---------------------------------   -------"]));
    do rest <- rowlines names t (Some (se_group e)) r;
    Some (head ++ entrylines t e ++ rest)
  end.
(** areafix.c:1218-1219, :1244, :1252: the counters are shorts, printed with %u *)
Definition s16 (x : Z) : Z := (x + 32768) mod 65536 - 32768.
Definition shown (n : nat) : list Z := dec (u32 (s16 (Z.of_nat n))).
Definition linked (es : list sentry) : nat := length (filter se_att es).
(** areafix.c:1272-1288 *)
Definition taillines (t : sltype) (es : list sentry) : list (list Z) :=
  match t with
  | LQuery => [13 :: shown (length es) ++ lit " linked areas."; lit "A '%' means that you are the feed for the area."]
  | LUnlinked => [13 :: shown (length es) ++ lit " unlinked areas."]
  | LFull => [13 :: lit "Totally " ++ shown (length es) ++ lit " areas, you are connected to " ++ shown (linked es) ++ lit " of them.";
              lit "A '*' means that you are connected to the area."; lit "A '%' means that you are the feed for the area."]
  end.
(** areafix.c:1117-1138 *)
Definition print4d (n : node4d) : list Z :=
  dec (zone n) ++ lit ":" ++ dec (net n) ++ lit "/" ++ dec (node n) ++ lit "." ++ dec (point n).
Definition headlines (t : sltype) (from : node4d) : list (list Z) :=
  [lit "This is a list of all " ++
   (match t with LQuery => lit "connected" | LFull => lit "available" | LUnlinked => lit "unlinked" end) ++
   lit " areas at " ++ print4d from ++ lit ":"; []].

(** areafix.c:1316-1323: the lines of the help file as osFGets delivers them lose their
    last character *)
Fixpoint helplines_ (fuel : nat) (s : list Z) : list (list Z) :=
  match fuel with
  | O => []
  | S f => match osFGets 100 s with
           | None => []
           | Some (l, r) => firstn (length l - 1) l :: helplines_ f r
           end
  end.
Definition helplines (s : list Z) : list (list Z) := helplines_ (length s) s.

Section Sending.
  Variables (flags maxlines : Z) (handle : list memmsg -> memmsg -> memmsg) (date : nat -> list Z).

  (** areafix.c:1474-1486, :1450-1452: a new text begins *)
  Definition begin (sent : nat) (m : memmsg) : option memmsg :=
    MakeNetmailKludges flags (set_Flags (set_DateTime m (date sent)) (Z.lor (Flags m) MMFLAG_AUTOGEN)).
  (** areafix.c:1429-1461 afInitReply *)
  Definition afInitReply (fromname : list Z) (from : node4d) (toname : list Z) (to : node4d) (subject : list Z) : option afrep :=
    do m <- begin 0 (MM from to null4d null4d null4d [] toname fromname [] [] [] [] FLAG_PVT 0 0 0 [] [] []);
    Some (AFR m subject 0 1 []).
  (** areafix.c:1503-1513 afSendMessage *)
  Definition afSendMessage (r : afrep) : afrep :=
    let m := set_Subject (r_mm r) (if negb (r_part r =? 1) then r_subject r ++ lit " (part " ++ dec (r_part r) ++ lit ")" else r_subject r) in
    AFR (handle (r_sent r) m) (r_subject r) (r_lines r) (r_part r) (r_sent r ++ [m]).
  (** areafix.c:1468-1501 afAddLine, for the line vsprintf makes. The subject set in line
      1478 is overwritten by afSendMessage. [None]: the line does not fit buf[200] *)
  Definition afAddLine (r : afrep) (line : list Z) : option afrep :=
    do r1 <- (if (r_lines r >=? u32 (maxlines - 2)) && negb (maxlines =? 0) then
                do m <- mmAddLine (r_mm r) contnext;
                let r' := afSendMessage (set_mm r m) in
                do m' <- begin (length (r_sent r')) (set_TextChunks (r_mm r') []);
                do m'' <- mmAddLine m' contfrom;
                Some (AFR m'' (r_subject r) 2 (u32 (r_part r + 1)) (r_sent r'))
              else Some r);
    if Nat.ltb 198 (length line) then None else
    do m <- mmAddLine (r_mm r1) (line ++ [13]);
    Some (AFR m (r_subject r1) (u32 (r_lines r1 + 1)) (r_part r1) (r_sent r1)).
  Fixpoint afAddLines (r : afrep) (ls : list (list Z)) : option afrep :=
    match ls with [] => Some r | l :: t => do r' <- afAddLine r l; afAddLines r' t end.
  (** afInitReply, afAddLine for every line, afSendMessage; the messages handed over *)
  Definition reply (fromname : list Z) (from : node4d) (toname : list Z) (to : node4d) (subject : list Z) (ls : list (list Z)) : option (list memmsg) :=
    do r <- afInitReply fromname from toname to subject;
    do r' <- afAddLines r ls;
    Some (r_sent (afSendMessage r')).

  (** areafix.c:1071-1295 rawSendList, for node [i] with the settings [c]. What the lines
      are does not depend on the reply, so they are computed first. *)
  Definition rawSendList (qsort : (sentry -> sentry -> Z) -> list sentry -> list sentry) (sysop : list Z) (names : list (list Z)) (cfg : afcfg) (day : Z) (areas : list larea)
      (t : sltype) (from : node4d) (toname : list Z) (c : cnode) (i : nat) : option (list memmsg) :=
    let es := qsort CompareAreas (collected t cfg day c i areas) in
    do rows <- rowlines names t None es;
    reply sysop from toname (cn_node c) (lit "AreaFix list of areas") (headlines t from ++ rows ++ taillines t es).
  (** areafix.c:1297-1334 rawSendHelp; [file]: the contents of the help file *)
  Definition rawSendHelp (sysop : list Z) (file : option (list Z)) (from : node4d) (toname : list Z) (c : cnode) : option (list memmsg) :=
    reply sysop from toname (cn_node c) (lit "AreaFix help")
      (match file with Some s => helplines s | None => [lit "*** Error *** : Couldn't open help file"] end).
  (** areafix.c:1655-1688 DoSendAFList for the lists of areas; nothing is sent without a route *)
  Definition DoSendAFList (nl : nodelist) qsort sysop names (cfg : afcfg) day areas (t : sltype) (c : cnode) (i : nat) : option (list memmsg) :=
    match findroute nl (fc_routes cfg) (cn_node c) with
    | Some rt => rawSendList qsort sysop names cfg day areas t (ak_node (rt_aka rt)) (cn_sysop c) c i
    | None => Some []
    end.

  (** areafix.c:1578-1594: the message for one node with the commands [cmds]. [None]: a
      command does not fit, or there is no route (tmproute is NULL) *)
  Definition genline : list Z := lit "---" ++ [13] ++ lit "Generated by CrashMail 1.5.1" ++ [13].
  Definition remotemsg (nl : nodelist) (sysop : list Z) (routes : list route) (k : nat) (c : cnode) (cmds : list (list Z)) : option memmsg :=
    do rt <- findroute nl routes (cn_node c);
    do m <- begin k (MM (ak_node (rt_aka rt)) (cn_node c) null4d null4d null4d [] (cn_rafname c) sysop (cn_rafpw c) [] [] [] FLAG_PVT 0 0 0 [] [] []);
    do m <- (if flag flags CFG_ADDTID then mmAddLine m TID else Some m);
    do m <- mmAddLines m (map (fun s => s ++ [13]) cmds);
    mmAddLine m genline.
  (** areafix.c:1551-1603 SendRemoteAreafix: the nodes with their RemoteAFList; the queues
      afterwards and the messages handed over *)
  Fixpoint SendRemoteAreafix (nl : nodelist) (sysop : list Z) (routes : list route) (k : nat) (ns : list (cnode * list (list Z))) : option (list (list (list Z)) * list memmsg) :=
    match ns with
    | [] => Some ([], [])
    | (c, []) :: r => do x <- SendRemoteAreafix nl sysop routes k r; Some ([] :: fst x, snd x)
    | (c, cmds) :: r =>
      do m <- remotemsg nl sysop routes k c cmds;
      do x <- SendRemoteAreafix nl sysop routes (S k) r;
      Some ([] :: fst x, m :: snd x)
    end.
End Sending.
