(** Model of the netmail part of src/crashmail/handle.c (CheckFoundAka, IsLoopMail, Bounce,
    AnswerReceipt, AnswerAudit, HandleNetmail) and of ChangeType of misc.c.

    Effects are recorded as a list of events in the order in which they happen. Message
    base imports, disk writes and memory allocation are taken to succeed; log output and
    statistics are not modelled. *)
From Verif Require Import Base M_Node4D M_Pat M_Str M_Mem M_Cfg M_Pkt M_Dupe M_Echo M_Expr M_Filter.

(** shared/fidonet.h:77-92 *)
Definition FLAG_PVT := 1.
Definition FLAG_CRASH := 2.
Definition FLAG_HOLD := 512.
Definition FLAG_RREQ := 4096.
Definition FLAG_IRRR := 8192.
Definition FLAG_AUDIT := 16384.
(** config.h:298-300 *)
Definition LOOP_IGNORE := 0.
Definition LOOP_LOG := 1.
Definition LOOP_LOGBAD := 2.

(** config.h:239-249 struct Change *)
Record change := CH { ch_pat : npat; ch_normal : bool; ch_crash : bool; ch_direct : bool; ch_hold : bool; ch_pri : Z }.
(** misc.c:416-448 ChangeType *)
Definition changes (pri : Z) (c : change) : bool :=
  ((pri =? PKTS_ECHOMAIL) && ch_normal c) || ((pri =? PKTS_NORMAL) && ch_normal c) ||
  ((pri =? PKTS_CRASH) && ch_crash c) || ((pri =? PKTS_DIRECT) && ch_direct c) || ((pri =? PKTS_HOLD) && ch_hold c).
Definition ChangeType (nl : nodelist) (cs : list change) (dest : node4d) (pri : Z) : Z :=
  fold_left (fun new c =>
    if (Compare4DPat nl (ch_pat c) dest =? 0) && changes pri c then
      if (pri =? PKTS_ECHOMAIL) && (ch_pri c =? PKTS_NORMAL) then pri else ch_pri c
    else new) cs pri.

(** an area and, for netmail areas, its import nodes (struct ImportNode, config.h:125-129) *)
Record narea := NA { na_area : area; na_import : list node4d }.

(** what netmail handling reads of the configuration; the clock and the program's version
    text; AreaFix as the list of netmails it sends in answer to a message (areafix.c) *)
Record ncfg := NC {
  nc_flags : Z; nc_akas : list aka; nc_nodes : list cnode; nc_areas : list narea; nc_routes : list route;
  nc_changes : list change; nc_nl : nlcfg; nc_bounce : list npat; nc_attach : list npat; nc_afnames : list (list Z);
  nc_rules : list (list Z * list command); nc_loopmode : Z; nc_sysop : list Z; nc_inbound : list Z; nc_packetdir : list Z;
  nc_now : list Z; nc_stamp : list Z; nc_tid : list Z;
  nc_areafix : memmsg -> list memmsg; nc_exec : memmsg -> list Z -> Z;
  nc_exists : list Z -> bool; nc_moves : list Z -> bool }.

(** observable effects: a netmail is written to the packet for [dest] (priority [type]);
    imported into a message base; a new message is created by the program itself; a file
    is copied, moved, put into the flow file of [dest] *)
Inductive nev :=
| NvSend (dest : node4d) (ak : aka) (type : Z) (mm : memmsg)
| NvImport (tag : list Z) (mm : memmsg)
| NvNew (mm : memmsg)
| NvCopy (src dst : list Z)
| NvMove (src dst : list Z)
| NvFlow (file : list Z) (dest : node4d) (type : Z) (delete : bool).

Definition ofev (e : ev) : list nev := match e with EvImport t m => [NvImport t m] | EvSend _ _ => [] end.

(** handle.c:755-773 CheckFoundAka *)
Definition CheckFoundAka (akas : list aka) (s : list Z) : bool :=
  mem 58 s && mem 47 s &&
  match Parse4D s with
  | Some n => negb (zone n =? 0) && negb (net n =? 0) && existsb (fun a => Compare4D (ak_node a) n =? 0) akas
  | None => false
  end.
Definition addrchar (c : Z) : bool := (c =? 58) || (c =? 47) || (c =? 46) || isdigit c.
(** handle.c:807-833: the runs of address characters, each cut to 19 characters *)
Fixpoint addrruns (cur : list Z) (s : list Z) : list (list Z) :=
  match s with
  | [] => match cur with [] => [] | _ => [cur] end
  | c :: r => if addrchar c then addrruns (if Nat.ltb (length cur) 19 then cur ++ [c] else cur) r
              else match cur with [] => addrruns [] r | _ => cur :: addrruns [] r end
  end.
(** strstr *)
Fixpoint contains (p s : list Z) : bool :=
  prefixb p s || match s with [] => false | _ :: r => contains p r end.
(** handle.c:775-841 IsLoopMail *)
Definition isvialoop (akas : list aka) (l : list Z) : bool :=
  prefixb (SOH ++ lit "Via") l &&
  let via := firstn 150 l in
  contains (lit "CrashMail") via && existsb (CheckFoundAka akas) (addrruns [] via).
Definition IsLoopMail (akas : list aka) (mm : memmsg) : bool :=
  existsb (isvialoop akas) (concat (map chunklines (rev (TextChunks mm)))).

Section Net.
  Context (cfg : ncfg).
  Definition nlist : nodelist := nl_nl (nc_nl cfg).
  Definition cflag (f : Z) : bool := flag (nc_flags cfg) f.
  Definition isaka (n : node4d) : bool := existsb (fun a => Compare4D n (ak_node a) =? 0) (nc_akas cfg).
  Definition writebad (out : list nev) (mm : memmsg) (reason : list Z) : list nev :=
    out ++ concat (map ofev (WriteBad (map na_area (nc_areas cfg)) mm reason)).

  (** the start of a message created by the program (handle.c:863-893, :1001-1029,
      :1057-1083) *)
  Definition newmsg (dest : node4d) (r : route) (to subj : list Z) (attr flags : Z) : option memmsg :=
    let m := set_DestNode (set_OrigNode mm0 (ak_node (rt_aka r))) dest in
    let m := set_Subject (set_From (set_To m to) (nc_sysop cfg)) subj in
    let m := set_Flags (set_DateTime (set_Attr m attr) (nc_now cfg)) flags in
    do m <- MakeNetmailKludges (nc_flags cfg) m;
    if cflag CFG_ADDTID then mmAddLine m (nc_tid cfg) else Some m.

  Definition node4str (n : node4d) : list Z := addr4 n.
  Fixpoint mmAddLines (m : memmsg) (ls : list (list Z)) : option memmsg :=
    match ls with
    | [] => Some m
    | l :: r => do m' <- mmAddLine m l; mmAddLines m' r
    end.
  (** handle.c:896-966: the text of a bounce *)
  Definition bouncehead (mm : memmsg) (n4d : node4d) (reason : list Z) (headeronly : bool) : list (list Z) :=
    [reason ++ [13; 13];
     (if headeronly then lit "This is the header of the message that was bounced:" else lit "This is the message that was bounced:") ++ [13; 13]] ++
    (match Area mm with
     | [] => [lit "From: " ++ firstn 40 (From mm) ++ lit " (" ++ addr4 n4d ++ lit ")" ++ [13];
              lit "  To: " ++ firstn 40 (To mm) ++ lit " (" ++ addr4 (DestNode mm) ++ lit ")" ++ [13]]
     | a => [lit "Area: " ++ firstn 80 a ++ [13];
             lit "From: " ++ firstn 40 (From mm) ++ lit " (" ++ addr4 n4d ++ lit ")" ++ [13];
             lit "  To: " ++ firstn 40 (To mm) ++ [13]]
     end) ++
    [lit "Subj: " ++ Subject mm ++ [13]; lit "Date: " ++ DateTime mm ++ [13; 13]].
  Definition noctl (data : list Z) : list Z := map (fun c => if c =? 1 then 64 else c) data.

  (** [sub]: HandleMessage for a message created here *)
  Context (sub : list nev -> memmsg -> option (list nev * bool)).

  (** handle.c:845-984 Bounce. [None]: the reason has 390 or more characters (strcat on an
      unterminated buffer, :894-895), or undefined behaviour in mmAddLine. *)
  Definition Bounce (out : list nev) (mm : memmsg) (reason : list Z) (headeronly : bool) : option (list nev * bool) :=
    if flag (Flags mm) MMFLAG_AUTOGEN then Some (out, true) else
    let n4d := match Area mm with [] => OrigNode mm | _ => Origin4D mm end in
    match findroute nlist (nc_routes cfg) n4d with
    | None => Some (out, true)
    | Some r =>
      do m <- newmsg n4d r (From mm) (lit "Bounced message") FLAG_PVT MMFLAG_AUTOGEN;
      if Nat.ltb (length reason) 390 then
        do m <- mmAddLines m (bouncehead mm n4d reason headeronly);
        do cs <- (if headeronly then Some (TextChunks m) else addlines (TextChunks m) (map noctl (rev (TextChunks mm))));
        let m := set_TextChunks m cs in
        sub (out ++ [NvNew m]) m
      else None
    end.

  (** handle.c:986-1036 AnswerReceipt. Line 1020 marks the received message, not the
      receipt, as generated. Returns the received message too. *)
  Definition AnswerReceipt (out : list nev) (mm : memmsg) : option (list nev * bool) :=
    match findroute nlist (nc_routes cfg) (OrigNode mm) with
    | None => Some (out, true)
    | Some r =>
      do m <- newmsg (OrigNode mm) r (From mm) (lit "Receipt") (FLAG_PVT + FLAG_IRRR) 0;
      do m <- mmAddLine m (lit "Your message to " ++ To mm ++ lit " dated " ++ DateTime mm ++ lit " with the subject """ ++ Subject mm ++
                lit """ has reached its final destination. This message doesn't mean that the message has been read, it just tells you that it has arrived at this system." ++ [13; 13]);
      sub (out ++ [NvNew m]) m
    end.

  (** handle.c:1038-1113 AnswerAudit *)
  Definition AnswerAudit (out : list nev) (mm : memmsg) : option (list nev * bool) :=
    match findroute nlist (nc_routes cfg) (OrigNode mm) with
    | None => Some (out, true)
    | Some r =>
      do m <- newmsg (OrigNode mm) r (From mm) (lit "Audit") FLAG_PVT MMFLAG_AUTOGEN;
      let what := lit "Your message to " ++ To mm ++ lit " dated " ++ DateTime mm ++ lit " with the subject """ ++ Subject mm in
      do m <- mmAddLine m
        (match findroute nlist (nc_routes cfg) (DestNode mm) with
         | Some d => what ++ lit """ has just been routed to " ++ addr4 (ExpandNodePat nlist (rt_dest d) (DestNode mm)) ++ lit " by this system." ++ [13; 13]
         | None => what ++ lit """ could not be routed since no routing for " ++ addr4 (DestNode mm) ++
                   lit " was configured at this system. Message lost! " ++ [13; 13]
         end);
      sub (out ++ [NvNew m]) m
    end.

  (** handle.c:1157-1163 *)
  Definition fixzones (mm : memmsg) : memmsg :=
    let mm := if zone (DestNode mm) =? 0 then set_DestNode mm (set_zone (DestNode mm) (zone (PktDest mm))) else mm in
    if zone (OrigNode mm) =? 0 then set_OrigNode mm (set_zone (OrigNode mm) (zone (PktOrig mm))) else mm.
  (** handle.c:1165-1173: looks at the first chunk, not at the last *)
  Definition lastcr_add (mm : memmsg) : option memmsg :=
    match rev (TextChunks mm) with
    | chunk :: _ =>
      match rev chunk with
      | c :: _ => if negb (c =? 13) && negb (c =? 0) then addtext mm [13] else Some mm
      | [] => Some mm
      end
    | [] => Some mm
    end.

  (** handle.c:1183-1206: AreaFix's answers are handled in order *)
  Fixpoint replies (out : list nev) (ms : list memmsg) : option (list nev * bool) :=
    match ms with
    | [] => Some (out, true)
    | m :: r => do x <- sub (out ++ [NvNew m]) m;
                if snd x then replies (fst x) r else Some x
    end.

  (** handle.c:1208-1240: the area to import to *)
  Definition isnetmail (a : narea) : bool := ar_type (na_area a) =? AREATYPE_NETMAIL.
  Definition importarea (dest : node4d) : option narea :=
    match find (fun a => isnetmail a && ((Compare4D (ak_node (ar_aka (na_area a))) dest =? 0) ||
                                         existsb (fun n => Compare4D n dest =? 0) (na_import a))) (nc_areas cfg) with
    | Some a => Some a
    | None => if isaka dest || cflag CFG_NOROUTE then find isnetmail (nc_areas cfg) else None
    end.

  (** handle.c:1256-1275: is there a line that is no kludge? *)
  Definition hastext (mm : memmsg) : bool :=
    existsb (fun l => negb (hd 0 l =? 1)) (concat (map chunklines (rev (TextChunks mm)))).
  Definition stripre (s : list Z) : option (list Z) := if cflag CFG_STRIPRE then StripRe (S (length s)) s else Some s.

  (** handle.c:1242-1312: import *)
  Definition import (out : list nev) (mm : memmsg) (a : narea) : option (list nev * bool) :=
    if flag (Flags mm) MMFLAG_TWIT then Some (out, true) else
    do s <- stripre (Subject mm);
    let mm := set_Subject mm s in
    do r <- (if cflag CFG_IMPORTEMPTYNETMAIL || hastext mm then
               if ar_mb (na_area a) then
                 do s <- stripre (Subject mm);
                 let mm := set_Subject mm s in
                 let mm := set_Attr mm (Z.land (Z.lor (Attr mm) FLAG_SENT) (65535 - FLAG_LOCAL)) in
                 Some (out ++ [NvImport (ar_tag (na_area a)) mm], mm)
               else Some (out, mm)
             else Some (out, mm));
    let '(out, mm) := r in
    if flag (Attr mm) FLAG_RREQ && cflag CFG_ANSWERRECEIPT then AnswerReceipt out mm else Some (out, true).

  (** handle.c:1313-1335: attributes and priority *)
  Definition prepare (mm : memmsg) : memmsg :=
    let attr := Z.land (Attr mm) (FLAG_PVT + FLAG_CRASH + FLAG_FILEATTACH + FLAG_HOLD + FLAG_RREQ + FLAG_IRRR + FLAG_AUDIT) in
    let attr := if flag (Flags mm) MMFLAG_TOSSED then Z.land attr (65535 - (FLAG_CRASH + FLAG_HOLD)) else attr in
    let ty := PKTS_NORMAL in
    let ty := if flag attr FLAG_CRASH then PKTS_CRASH else ty in
    let ty := if flag attr FLAG_HOLD then PKTS_HOLD else ty in
    let ty := if flag attr FLAG_FILEATTACH && negb (cflag CFG_NODIRECTATTACH) && (ty =? PKTS_NORMAL) then PKTS_DIRECT else ty in
    set_Type (set_Attr mm attr) ty.

  (** handle.c:1357-1399: where to send it, and with which priority *)
  Definition nexthop (r : route) (mm : memmsg) : node4d * Z :=
    let d := if Type_ mm =? PKTS_NORMAL then ExpandNodePat nlist (rt_dest r) (DestNode mm) else DestNode mm in
    let ty := ChangeType nlist (nc_changes cfg) d (Type_ mm) in
    (if (ty =? PKTS_DIRECT) || (ty =? PKTS_CRASH) then set_point d 0 else d, ty).

  (** handle.c:1401-1470: copy of the kludge lines of a looping message for the BAD area *)
  Definition loopcopy (mm : memmsg) : option memmsg :=
    do cs <- addlines [] (concat (map (fun l => match l with c :: r => if c =? 1 then [64 :: r] else [] | [] => [] end)
                                      (concat (map chunklines (rev (TextChunks mm))))));
    Some (MM (OrigNode mm) (DestNode mm) (PktOrig mm) (PktDest mm) null4d (Area mm) (To mm) (From mm) (Subject mm) (DateTime mm)
             (MSGID mm) (REPLY mm) (Attr mm) (Cost mm) (Type_ mm) (Flags mm) cs [] []).
  Definition loopcheck (out : list nev) (mm : memmsg) : option (list nev) :=
    if negb (nc_loopmode cfg =? LOOP_IGNORE) && negb (flag (Flags mm) MMFLAG_EXPORTED) && IsLoopMail (nc_akas cfg) mm &&
       (nc_loopmode cfg =? LOOP_LOGBAD)
    then do m <- loopcopy mm; Some (writebad out m (lit "Possible loopmail"))
    else Some out.

  Definition patlist (l : list npat) (n : node4d) : bool := existsb (fun p => Compare4DPat nlist p n =? 0) l.
  (** handle.c:1472-1573: must it be bounced, and why *)
  Definition bouncereason (mm : memmsg) : option (list Z) :=
    let d := DestNode mm in
    let b := set_point d 0 in
    if nl_has (nc_nl cfg) && patlist (nc_bounce cfg) d && (nl_check (nc_nl cfg) b =? 0) then
      Some (lit "Warning! Your message has been bounced because the node " ++ dec (zone d) ++ lit ":" ++ dec (net d) ++ lit "/" ++ dec (node d) ++
            lit " doesn't exist in the nodelist.")
    else if cflag CFG_BOUNCEPOINTS && existsb (fun a => (Compare4D (ak_node a) b =? 0) && (point (ak_node a) =? 0)) (nc_akas cfg) &&
            negb (existsb (fun c => Compare4D (cn_node c) d =? 0) (nc_nodes cfg)) then
      Some (lit "Warning! Your message has been bounced because the point " ++ addr4 d ++ lit " doesn't exist.")
    else if flag (Attr mm) FLAG_FILEATTACH && negb (flag (Flags mm) MMFLAG_EXPORTED) && negb (patlist (nc_attach cfg) d) then
      Some (lit "Warning! Your message has been bounced because because routing of file-attaches to " ++ addr4 d ++ lit " is not allowed.")
    else None.

  (** handle.c:1575-1632: attached files; the new subject, and the events. [None]: lack of
      fuel, or a path that overflows its buffer. *)
  Definition fixsubj (s : list Z) : list Z := map (fun c => if c =? 44 then 32 else if c =? 92 then 47 else c) s.
  Definition fullpath (dir file : list Z) : option (list Z) := option_map cstr (MakeFullPath dir file (repeat 0 200) 200).
  Fixpoint attach (fuel : nat) (exported : bool) (dest : node4d) (ty : Z) (s subj : list Z) (out : list nev) : option (list Z * list nev) :=
    match fuel with
    | O => None
    | S f =>
      match jbstrcpy (repeat 0 400) s 80 with
      | (None, _, _) => None
      | (Some b, false, _) => Some (subj, out)
      | (Some b, true, rest) =>
        let name := cstr b in
        let part := GetFilePart name in
        let subj := (match subj with [] => [] | _ => subj ++ lit " " end) ++ part in
        do out <- (if exported then
                     if nc_exists cfg name then
                       do d <- fullpath (nc_packetdir cfg) part;
                       Some (out ++ [NvCopy name d; NvFlow d dest ty true])
                     else Some (out ++ [NvFlow name dest ty false])
                   else
                     do i <- fullpath (nc_inbound cfg) part;
                     do d <- fullpath (nc_packetdir cfg) part;
                     if nc_moves cfg i then Some (out ++ [NvMove i d; NvFlow d dest ty true])
                     else Some (out ++ [NvFlow i dest ty true]));
        attach f exported dest ty rest subj out
      end
    end.

  (** handle.c:1634-1650: the Via line *)
  Definition vialine (r : route) : list Z :=
    SOH ++ lit "Via " ++ Print4D (ak_node (rt_aka r)) ++ lit " @" ++ nc_stamp cfg ++ [13].

  (** handle.c:1575-1683: on its way *)
  Definition forward (out : list nev) (mm : memmsg) (r : route) (dest : node4d) : option (list nev * bool) :=
    do x <- (if flag (Attr mm) FLAG_FILEATTACH then
               do y <- attach (S (length (Subject mm))) (flag (Flags mm) MMFLAG_EXPORTED) dest (Type_ mm) (fixsubj (Subject mm)) [] out;
               Some (set_Subject mm (fst y), snd y)
             else Some (mm, out));
    let '(mm, out) := x in
    do mm <- mmAddLine mm (vialine r);
    let out := out ++ [NvSend dest (rt_aka r) (Type_ mm) mm] in
    if flag (Attr mm) FLAG_AUDIT && cflag CFG_ANSWERAUDIT && flag (Flags mm) MMFLAG_TOSSED then AnswerAudit out mm
    else Some (out, true).

  (** handle.c:1313-1686: not for this system *)
  Definition routing (out : list nev) (mm : memmsg) : option (list nev * bool) :=
    let mm := prepare mm in
    match findroute nlist (nc_routes cfg) (DestNode mm) with
    | None => Some (writebad out mm (lit "No routing for destination node"), true)
    | Some r =>
      let '(dest, ty) := nexthop r mm in
      let mm := set_Type mm ty in
      do out <- loopcheck out mm;
      match bouncereason mm with
      | Some reason => Bounce out mm reason (cflag CFG_BOUNCEHEADERONLY)
      | None => forward out mm r dest
      end
    end.

  (** filter.c:976-1073 with the message base and the BAD area of this model *)
  Definition filterenv : fenv := FE (nc_akas cfg) (nc_nodes cfg) (nc_nl cfg).
  Definition runfilter (out : list nev) (mm : memmsg) : option (list nev * memmsg * bool) :=
    Filter filterenv (nc_flags cfg) (nc_routes cfg)
      (fun out m tag => Some (out ++ [NvImport tag m], true))
      (fun out m reason => Some (writebad out m reason, true))
      Bounce (nc_exec cfg) (Filter_Masquerade (nc_flags cfg) nlist) (nc_rules cfg) out mm.

  (** handle.c:1118-1689 HandleNetmail; the flag is the return value, [None] undefined
      behaviour in one of the parts *)
  Definition HandleNetmail1 (out : list nev) (mm : memmsg) : option (list nev * bool) :=
    do mm <- lastcr_add (fixzones mm);
    do x <- runfilter out mm;
    let '(out, mm, ok) := x in
    if negb ok then Some (out, false) else
    if flag (Flags mm) MMFLAG_KILL then Some (out, true) else
    do y <- (if isaka (DestNode mm) && negb (flag (Flags mm) MMFLAG_AUTOGEN) && existsb (fun n => streqi n (To mm)) (nc_afnames cfg) then
               do r <- replies out (nc_areafix cfg mm);
               Some (fst r, snd r, snd r && cflag CFG_IMPORTAREAFIX)
             else Some (out, true, true));
    let '(out, ok, goon) := y in
    if negb goon then Some (out, ok) else
    match importarea (DestNode mm) with
    | Some a => import out mm a
    | None => routing out mm
    end.
End Net.

(** HandleMessage (handle.c:7-21) calls HandleNetmail for the messages created here, to
    depth [n]; T_Net.C24_depth shows that three levels are always enough. *)
Fixpoint HandleNetmail (n : nat) (cfg : ncfg) (out : list nev) (mm : memmsg) : option (list nev * bool) :=
  match n with
  | O => None
  | S m => HandleNetmail1 cfg (HandleNetmail m cfg) out mm
  end.
