(** Model of src/crashmail/mb_jam.c: message areas in JAM format (linking of replies is in
    M_Link).

    The message base exists and can be opened: jam_openbase (lines 34-93), which keeps some
    bases open and creates missing ones, is not modelled. Memory allocation succeeds. Log
    output and scan_total are not modelled. Calls that lock the base and that write may
    fail; their results are arguments. *)
From Verif Require Import Base M_Node4D M_Pat M_Str M_Mem M_Cfg M_Pkt M_Net M_Echo M_Filter M_Msg M_Jam M_Link.

(** config.h:48-49 *)
Definition CFG_JAM_HIGHWATER := 1.
Definition CFG_JAM_LINK := 2.
(** jam.h:92-117 *)
Definition MSG_LOCAL := 1.
Definition MSG_SENT := 16.
Definition MSG_FILEREQUEST := 4096.
Definition MSG_FILEATTACH := 8192.
Definition MSG_TYPEECHO := 16777216.
Definition MSG_TYPENET := 33554432.
(** jam.h:151-169 (JAMSFLD_RECVRNAME, _MSGID and _REPLYID are in M_Jam and M_Link) *)
Definition JAMSFLD_OADDRESS := 0.
Definition JAMSFLD_DADDRESS := 1.
Definition JAMSFLD_SENDERNAME := 2.
Definition JAMSFLD_SUBJECT := 6.
Definition JAMSFLD_PID := 7.
Definition JAMSFLD_ENCLFILE := 9.
Definition JAMSFLD_ENCLFREQ := 11.
Definition JAMSFLD_FTSKLUDGE := 2000.
Definition JAMSFLD_SEENBY2D := 2001.
Definition JAMSFLD_PATH2D := 2002.
Definition JAMSFLD_FLAGS := 2003.

(** mb_jam.c:266-286 jam_flagarray: name, bit in JAM, bit in the FidoNet header *)
Definition jam_flagarray : list (list Z * Z * Z) :=
  [ (lit "PVT", 4, FLAG_PVT); (lit "HLD", 128, FLAG_HOLD); (lit "CRA", 256, FLAG_CRASH); (lit "K/S", 32, FLAG_KILLSENT);
    (lit "SNT", MSG_SENT, FLAG_SENT); (lit "RCV", 8, 4); (lit "A/S", 64, 0); (lit "DIR", 1024, 0);
    (lit "FIL", MSG_FILEATTACH, FLAG_FILEATTACH); (lit "FRQ", MSG_FILEREQUEST, FLAG_FILEREQ); (lit "IMM", 512, 0);
    (lit "KFS", 32768, 0); (lit "TFS", 16384, 0); (lit "LOK", MSG_LOCAL, FLAG_LOCAL); (lit "RRQ", 65536, FLAG_RREQ);
    (lit "CFM", 131072, 0); (lit "FPU", 4194304, 0); ([], 2, 32); ([], 262144, 64) ].
Definition jf_name (x : list Z * Z * Z) : list Z := fst (fst x).
Definition jf_jam (x : list Z * Z * Z) : Z := snd (fst x).
Definition jf_fido (x : list Z * Z * Z) : Z := snd x.
(** mb_jam.c:288-296 jam_findflag *)
Definition jam_findflag (name : list Z) : Z :=
  match find (fun x => streqi (jf_name x) name) jam_flagarray with Some x => jf_jam x | None => 0 end.

(** ** Import *)

(** mb_jam.c:449-461: a line of a chunk up to and with the CR, line feeds left out; the
    rest. (The loop looks at Data[Length] before it compares the position with Length; the
    value has no influence.) *)
Fixpoint jamline (l : list Z) : list Z * list Z :=
  match l with
  | [] => ([], [])
  | c :: r =>
    if c =? 13 then ([13], r)
    else let '(a, b) := jamline r in (if c =? 10 then a else c :: a, b)
  end.
(** mystrncpy(buf,&msgtext[linebegin+k],MIN(100,linelen-k)); stripleadtrail(buf);
    [None]: a length of 0 makes strncpy write without bound *)
Definition kfield (k : nat) (l : list Z) : option (list Z) :=
  match Nat.min 100 (length l - k) with
  | O => None
  | S m => Some (stripleadtrail (cstr (firstn m (skipn k l))))
  end.
(** mb_jam.c:492-512: the flags of a FLAGS line: attribute bits, newflags. [None]: newflags,
    an array of 100, overflows, or lack of fuel; every round takes at least a character. *)
Fixpoint flagsloop (fuel : nat) (buf : list Z) (attr : Z) (newflags : list Z) : option (Z * list Z) :=
  match fuel with
  | O => None
  | S f =>
    match jbstrcpy (repeat 0 10) buf 10 with
    | (None, _, _) => None
    | (Some _, false, _) => Some (attr, newflags)
    | (Some b, true, rest) =>
      let bit := jam_findflag (cstr b) in
      if bit =? 0 then
        do nf <- scat 100 newflags (cstr b);
        do nf <- scat 100 nf [32];
        flagsloop f rest attr nf
      else flagsloop f rest (Z.lor attr bit) newflags
    end
  end.
(** what is collected: Attribute, subfields, text *)
Record jacc := ACC { ac_attr : Z; ac_subs : list jsub; ac_text : list Z }.
Definition addsub (a : jacc) (lo : Z) (d : list Z) : jacc := ACC (ac_attr a) (ac_subs a ++ [SF lo 0 d]) (ac_text a).
(** mb_jam.c:463-540: one line *)
Definition jamline1 (a : jacc) (l : list Z) : option jacc :=
  let field lo k := option_map (addsub a lo) (kfield k l) in
  match l with
  | [] => Some a
  | c :: _ =>
    if prefixb (1 :: lit "PID:") l then field JAMSFLD_PID 5%nat
    else if prefixb (1 :: lit "MSGID:") l then field JAMSFLD_MSGID 7%nat
    else if prefixb (1 :: lit "REPLY:") l then field JAMSFLD_REPLYID 7%nat
    else if prefixb (1 :: lit "FLAGS:") l then
      do buf <- kfield 7 l;
      do r <- flagsloop (S (length buf)) buf (ac_attr a) [];
      let nf := stripleadtrail (snd r) in
      let a := ACC (fst r) (ac_subs a) (ac_text a) in
      Some (match nf with [] => a | _ => addsub a JAMSFLD_FLAGS nf end)
    else if prefixb (1 :: lit "INTL") l || prefixb (1 :: lit "TOPT") l || prefixb (1 :: lit "FMPT") l then Some a
    else if c =? 1 then field JAMSFLD_FTSKLUDGE 1%nat
    else Some (ACC (ac_attr a) (ac_subs a) (ac_text a ++ l))
  end.
(** mb_jam.c:446-540, one chunk; every round takes at least a character. [None] also: lack
    of fuel *)
Fixpoint jamchunk (fuel : nat) (d : list Z) (a : jacc) : option jacc :=
  match fuel, d with
  | _, [] => Some a
  | O, _ => None
  | S f, _ => let '(l, r) := jamline d in do a <- jamline1 a l; jamchunk f r a
  end.
Fixpoint jamchunks (cs : list (list Z)) (a : jacc) : option jacc :=
  match cs with
  | [] => Some a
  | d :: r => do a <- jamchunk (length d) d a; jamchunks r a
  end.

(** mb_jam.c:398-414 and :417-434: the names in a subject, separated by blanks and commas; every round
    takes at least a character *)
Fixpoint skipsep (s : list Z) : list Z :=
  match s with c :: r => if (c =? 32) || (c =? 44) then skipsep r else s | [] => [] end.
Fixpoint filenames (fuel : nat) (s : list Z) : list (list Z) :=
  match fuel, s with
  | S f, _ :: _ =>
    let '(n, r) := takeuntil (fun c => (c =? 32) || (c =? 44)) 80 s in
    match n with [] => filenames f (skipsep r) | _ => n :: filenames f (skipsep r) end
  | _, _ => []
  end.
(** mb_jam.c:551-567: the SEEN-BY lines without the first nine characters *)
Fixpoint crlines (l : list Z) (cur : list Z) : list (list Z) :=
  match l with
  | [] => []
  | c :: r => if c =? 13 then rev cur :: crlines r [] else crlines r (c :: cur)
  end.
Definition subfield (lo : Z) (d : list Z) : jsub := SF lo 0 d.
Definition nonempty (lo : Z) (d : list Z) : list jsub := match d with [] => [] | _ => [subfield lo d] end.
Definition isnet (mm : memmsg) : bool := match Area mm with [] => true | _ => false end.
(** mb_jam.c:390-392, :396, :419, :438-442 *)
Definition jamattr (mm : memmsg) : Z :=
  Z.lor (fold_left (fun a x => if flag (Attr mm) (jf_fido x) then Z.lor a (jf_jam x) else a) jam_flagarray 0)
        (if isnet mm then MSG_TYPENET else MSG_TYPEECHO).
(** mb_jam.c:362-388, :394-436: fields of the header *)
Definition headsubs (mm : memmsg) : list jsub :=
  nonempty JAMSFLD_SENDERNAME (From mm) ++ nonempty JAMSFLD_RECVRNAME (To mm) ++ nonempty JAMSFLD_SUBJECT (Subject mm) ++
  (if isnet mm then [subfield JAMSFLD_OADDRESS (Print4D (OrigNode mm)); subfield JAMSFLD_DADDRESS (Print4D (DestNode mm))]
   else [subfield JAMSFLD_OADDRESS (Print4D (Origin4D mm))]) ++
  (if flag (Attr mm) FLAG_FILEATTACH then map (subfield JAMSFLD_ENCLFILE) (filenames (S (length (Subject mm))) (Subject mm)) else []) ++
  (if flag (Attr mm) FLAG_FILEREQ then map (subfield JAMSFLD_ENCLFREQ) (filenames (S (length (Subject mm))) (Subject mm)) else []).

(** what is used of the configuration and of the area: cfg_Flags, cfg_jam_Flags, whether
    AreaType is AREATYPE_NETMAIL, Tagname, the address of Aka; jam_utcoffset *)
Record jcfg := JC { jc_flags : Z; jc_jflags : Z; jc_net : bool; jc_tag : list Z; jc_aka : node4d; jc_off : Z }.
(** a message to be imported; FidoToTime of its date; time(); whether the base can be
    locked; which writes fail *)
Record jimp := JI { ji_mm : memmsg; ji_date : Z; ji_now : Z; ji_lock : bool; ji_cut : cuts }.
(** mb_jam.c:319-600: header, subfields and text; [crc]: JAM_Crc32 *)
Definition jam_message (crc : list Z -> Z) (cfg : jcfg) (i : jimp) : option (jhdr * list jsub * list Z) :=
  let mm := ji_mm i in
  do a <- jamchunks (rev (TextChunks mm)) (ACC (jamattr mm) (headsubs mm) []);
  do sb <- (if flag (jc_flags cfg) CFG_IMPORTSEENBY then mmMakeSeenByBuf (SeenBy mm) else Some []);
  let subs := ac_subs a ++ map (fun l => subfield JAMSFLD_SEENBY2D (skipn 9 l)) (crlines sb []) ++ map (subfield JAMSFLD_PATH2D) (Path mm) in
  Some (JH HEADERSIGNATURE CURRENTREVLEV 0 0 0 (crc (MSGID mm)) (crc (REPLY mm)) 0 0 0
           (u32 (u32 (ji_date i) - jc_off cfg)) 0 (u32 (u32 (ji_now i) - jc_off cfg)) 0 (ac_attr a) 0 0 0 JAM_NO_CRC (Cost mm),
        subs, match mmtext mm with [] => [0] | _ => ac_text a end).

(** mb_jam.c:14-24 struct jam_Area *)
Record jarea := JA { ja_num : Z; ja_size : Z; ja_oldhw : Z; ja_hw : Z; ja_new : bool }.
(** the base, the file with the high water mark, the entry in jam_AreaList if there is one *)
Record jst := JS { js_base : jam; js_hw : option (list Z); js_open : option jarea }.
(** mb_jam.c:95-146 jam_getarea; [None]: it fails. The entry is in the list also then. *)
Definition jam_getarea (s : jst) : option jarea * jst :=
  match js_open s with
  | Some a => (Some a, s)
  | None =>
    let size := JAM_GetMBSize (js_base s) in
    match JAM_ReadMBHeader (js_base s) with
    | Good b => let a := JA (b_num b) size 0 0 false in (Some a, JS (js_base s) (js_hw s) (Some a))
    | Bad _ => (None, JS (js_base s) (js_hw s) (Some (JA 0 size 0 0 false)))
    end
  end.
(** mb_jam.c:298-616 jam_importfunc; [None]: undefined behaviour *)
Definition jam_importfunc (crc : list Z -> Z) (cfg : jcfg) (i : jimp) (s : jst) : option (jst * bool) :=
  match jam_getarea s with
  | (None, s) => Some (s, false)
  | (Some a, s) =>
    let s := JS (js_base s) (js_hw s) (Some (JA (ja_num a) (ja_size a) (ja_oldhw a) (ja_hw a) true)) in
    do m <- jam_message crc cfg i;
    let '(h, subs, text) := m in
    if ji_lock i then
      do r <- JAM_AddMessage crc (ji_cut i) (js_base s) h subs text;
      Some (JS (snd r) (js_hw s) (js_open s), fst r =? 0)
    else Some (s, false)
  end.
Fixpoint jam_imports (crc : list Z -> Z) (cfg : jcfg) (l : list jimp) (s : jst) : option jst :=
  match l with
  | [] => Some s
  | i :: r => do x <- jam_importfunc crc cfg i s; jam_imports crc cfg r (fst x)
  end.

(** ** Export *)

(** mb_jam.c:618-631 jam_makekludge *)
Definition jam_makekludge (mm : memmsg) (pre d : list Z) : option memmsg := mmAddLine mm (pre ++ cstr d ++ [13]).
(** mystrncpy into an array of [cap] bytes, DatLen+1 bytes are written *)
Definition fieldcpy (cap : nat) (d : list Z) : option (list Z) := if Nat.ltb (length d) cap then Some (cstr d) else None.
(** the variables of mb_jam.c:635-646: mm, buf ([None]: not set yet), filesubject, flagsbuf,
    hasaddr *)
Record jx := JX { jx_mm : memmsg; jx_buf : option (list Z); jx_file : list Z; jx_flags : list Z; jx_addr : bool }.
Definition FLAGSPRE : list Z := 1 :: lit "FLAGS: ".
(** mb_jam.c:738-841: one subfield; HiID is not looked at *)
Definition jamfield (x : jx) (f : jsub) : option jx :=
  let mm := jx_mm x in
  let d := sf_data f in
  let lo := sf_lo f in
  let withbuf (g : list Z -> memmsg) := option_map (fun b => JX (g b) (Some b) (jx_file x) (jx_flags x) (jx_addr x)) (fieldcpy 200 d) in
  let kludge pre := option_map (fun mm => JX mm (jx_buf x) (jx_file x) (jx_flags x) (jx_addr x)) (jam_makekludge mm pre d) in
  if lo =? JAMSFLD_OADDRESS then withbuf (fun b => match Parse5D b with Some (n, _) => set_OrigNode mm n | None => mm end)
  else if lo =? JAMSFLD_DADDRESS then
    do b <- fieldcpy 200 d;
    if jx_addr x then Some (JX mm (Some b) (jx_file x) (jx_flags x) true)
    else Some (JX (match Parse5D b with Some (n, _) => set_DestNode mm n | None => mm end) (Some b) (jx_file x) (jx_flags x) true)
  else if lo =? JAMSFLD_SENDERNAME then withbuf (fun b => set_From mm (firstn 35 b))
  else if lo =? JAMSFLD_RECVRNAME then withbuf (fun b => set_To mm (firstn 35 b))
  else if lo =? JAMSFLD_MSGID then kludge (1 :: lit "MSGID: ")
  else if lo =? JAMSFLD_REPLYID then kludge (1 :: lit "REPLY: ")
  else if lo =? JAMSFLD_SUBJECT then withbuf (fun b => set_Subject mm (firstn 71 b))
  else if lo =? JAMSFLD_PID then kludge (1 :: lit "PID: ")
  else if lo =? JAMSFLD_ENCLFILE then
    match jx_file x with
    | [] => option_map (fun b => JX mm (jx_buf x) b (jx_flags x) (jx_addr x)) (fieldcpy 200 d)
    | _ => Some x
    end
  else if lo =? JAMSFLD_FTSKLUDGE then kludge [1]
  else if lo =? JAMSFLD_SEENBY2D then kludge (lit "SEEN-BY: ")
  else if lo =? JAMSFLD_PATH2D then kludge (1 :: lit "PATH: ")
  else if lo =? JAMSFLD_FLAGS then option_map (fun b => JX mm (jx_buf x) (jx_file x) (FLAGSPRE ++ b) (jx_addr x)) (fieldcpy 192 d)
  else Some x.
Fixpoint jamfields (x : jx) (l : list jsub) : option jx :=
  match l with [] => Some x | f :: r => do x <- jamfield x f; jamfields x r end.
(** mb_jam.c:855-869: attributes; Attr and flagsbuf *)
Definition jamflag1 (attr : Z) (st : Z * list Z) (x : list Z * Z * Z) : Z * list Z :=
  let '(a, fl) := st in
  if flag attr (jf_jam x) then
    if negb (jf_fido x =? 0) then (Z.lor a (jf_fido x), fl)
    else match jf_name x with
         | [] => st
         | n => if Nat.ltb (length fl) 90 then (a, match fl with [] => FLAGSPRE | _ => fl ++ [32] end ++ n) else st
         end
  else st.
(** mb_jam.c:879 *)
Definition JAMATTRMASK : Z := 31251.
(** mb_jam.c:887-895 *)
Definition jam_intl (d o : node4d) : list Z :=
  1 :: lit "INTL " ++ dec (zone d) ++ lit ":" ++ dec (net d) ++ lit "/" ++ dec (node d) ++ lit " " ++
  dec (zone o) ++ lit ":" ++ dec (net o) ++ lit "/" ++ dec (node o) ++ [13].
(** mb_jam.c:929-958: the address of the last origin line. [None]: see ExtractAddress. The
    fuel is the length of the text, every round takes at least a character. *)
Fixpoint lineat (l : list Z) : list Z * list Z :=
  match l with
  | [] => ([], [])
  | c :: r => if c =? 13 then ([13], r) else let '(a, b) := lineat r in (c :: a, b)
  end.
Fixpoint jamorigin (fuel : nat) (t : list Z) (o : node4d) : option node4d :=
  match fuel, t with
  | _, [] => Some o
  | O, _ => None
  | S f, _ =>
    let '(l, r) := lineat t in
    do o <- (if Nat.ltb 11 (length l) && prefixb (lit " * Origin: ") l then
               match ExtractAddress (firstn (Nat.min (length l) 200 - 1) l) with
               | PUB => None
               | PFail => Some o
               | POk n => Some n
               end
             else Some o);
    jamorigin f r o
  end.
Definition addopt (b : bool) (mm : memmsg) (l : list Z) : option memmsg := if b then mmAddLine mm l else Some mm.
(** mb_jam.c:718-976: the message handed on, and oldattr; [fidodate]: MakeFidoDate *)
Definition jam_memmsg (cfg : jcfg) (fidodate : Z -> list Z) (resc : bool) (h : jhdr) (subs : list jsub) (text : list Z) : option (memmsg * Z) :=
  let mm := set_Area mm0 (if jc_net cfg then [] else jc_tag cfg) in
  do x <- jamfields (JX mm None [] [] false) subs;
  let mm := jx_mm x in
  let mm := match jx_file x with [] => mm | f => set_Subject (set_Attr mm (Z.lor (Attr mm) FLAG_FILEATTACH)) (firstn 71 f) end in
  let mm := MM (OrigNode mm) (DestNode mm) (PktOrig mm) (PktDest mm) (Origin4D mm) (Area mm) (To mm) (From mm) (Subject mm)
               (fidodate (h_written h + jc_off cfg)) (MSGID mm) (REPLY mm) (Attr mm) (u16 (h_cost h)) (Type_ mm) (Flags mm) (TextChunks mm) (SeenBy mm) (Path mm) in
  let '(attr, fl) := fold_left (jamflag1 (h_attr h)) jam_flagarray (Attr mm, jx_flags x) in
  do mm <- (match fl with
            | [] => Some mm
            | _ => do _ <- scat 200 fl [13]; do b <- jx_buf x; mmAddLine mm b
            end);
  let mm := set_Attr mm (Z.land attr JAMATTRMASK) in
  do mm <- (if jc_net cfg then
              do mm <- addopt (negb (zone (OrigNode mm) =? zone (DestNode mm)) || flag (jc_flags cfg) CFG_FORCEINTL) mm (jam_intl (DestNode mm) (OrigNode mm));
              do mm <- addopt (negb (point (OrigNode mm) =? 0)) mm (1 :: lit "FMPT " ++ dec (point (OrigNode mm)) ++ [13]);
              addopt (negb (point (DestNode mm) =? 0)) mm (1 :: lit "TOPT " ++ dec (point (DestNode mm)) ++ [13])
            else Some mm);
  do mm <- addopt (flag (jc_flags cfg) CFG_ADDTID && negb resc) mm TID;
  do mm <- addopt resc mm (rescanned_line (jc_aka cfg));
  do mm <- (match text with
            | [] => Some mm
            | _ =>
              do o <- (if isnet mm then Some (Origin4D mm) else jamorigin (length (cstr text)) (cstr text) (Origin4D mm));
              option_map (set_TextChunks (set_Origin4D mm o)) (mmAddBuf (TextChunks mm) text)
            end);
  Some (set_Flags mm (Z.lor (Flags mm) (if resc then MMFLAG_RESCANNED else MMFLAG_EXPORTED)), attr).

(** What the handler does with a message: its result, and the messages it imports into this
    very area meanwhile. *)
Record jres2 := JR { jr_ok : bool; jr_imports : list jimp }.
(** the message handed on, if any *)
Inductive jeres := JOk (s : jst) (handed : option memmsg) | JFalse (s : jst) (handed : option memmsg) | JUB.
Definition with_sent (h : jhdr) (attr processed : Z) : jhdr :=
  JH (h_sig h) (h_rev h) (h_rsvd h) (h_sublen h) (h_times h) (h_msgid h) (h_reply h) (h_replyto h) (h_reply1st h)
     (h_replynext h) (h_written h) (h_received h) processed (h_num h) attr (h_attr2 h) (h_txtoff h) (h_txtlen h) (h_pw h) (h_cost h).

Section JamExport.
  (** what the handler does with message number n; whether the base can be locked then;
      time() after message n *)
  Context (crc : list Z -> Z) (cfg : jcfg) (fidodate : Z -> list Z) (handle : Z -> memmsg -> jres2) (lock : Z -> bool) (now : Z -> Z).

  (** mb_jam.c:988-1024 *)
  Definition jam_marksent (num : Z) (h : jhdr) (oldattr : Z) (a : jarea) (s : jst) : jst :=
    let attr := if flag (jc_flags cfg) CFG_ALLOWKILLSENT && flag oldattr FLAG_KILLSENT && jc_net cfg then Z.lor (h_attr h) MSG_DELETED else h_attr h in
    let h := with_sent h (Z.lor attr MSG_SENT) (u32 (u32 (now num) - jc_off cfg)) in
    JS (snd (JAM_ChangeMsgHeader (js_base s) (u32 (num - ja_num a)) h)) (js_hw s) (js_open s).
  (** mb_jam.c:633-1029 jam_ExportJAMNum *)
  Definition jam_ExportJAMNum (num : Z) (resc : bool) (s : jst) : jeres :=
    match jam_getarea s with
    | (None, s) => JFalse s None
    | (Some a, s) =>
      match JAM_ReadMsgHeader (js_base s) (u32 (num - ja_num a)) with
      | None => JUB
      | Some (Bad _) => JOk s None
      | Some (Good (h, subs)) =>
        if deleted h then JOk s None else
        if negb resc && (flag (h_attr h) MSG_SENT || negb (flag (h_attr h) MSG_LOCAL)) then JOk s None else
        match (if h_txtlen h =? 0 then Good [] else JAM_ReadMsgText (js_base s) (h_txtoff h) (h_txtlen h)) with
        | Bad _ => JFalse s None
        | Good text =>
          match jam_memmsg cfg fidodate resc h subs text with
          | None => JUB
          | Some (mm, oldattr) =>
            let r := handle num mm in
            match jam_imports crc cfg (jr_imports r) s with
            | None => JUB
            | Some s =>
              if jr_ok r then
                if resc then JOk s (Some mm) else
                match jam_getarea s with
                | (None, s) => JFalse s (Some mm)
                | (Some a, s) => if lock num then JOk (jam_marksent num h oldattr a s) (Some mm) else JFalse s (Some mm)
                end
              else JFalse s (Some mm)
            end
          end
        end
      end
    end.
  (** the loops of mb_jam.c:1055-1064 and :1087-1096; [more]: how many numbers there are still.
      [ctrlc n]: the user has pressed control-C when number n is reached. *)
  Fixpoint jamloop (more : nat) (ctrlc : Z -> bool) (resc : bool) (start : Z) (s : jst) : option (jst * list (Z * memmsg) * bool) :=
    match more with
    | O => Some (s, [], negb (ctrlc start))
    | S m =>
      if ctrlc start then Some (s, [], false) else
      match jam_ExportJAMNum start resc s with
      | JUB => None
      | JFalse s h => Some (s, match h with Some mm => [(start, mm)] | None => [] end, false)
      | JOk s h =>
        do r <- jamloop m ctrlc resc (start + 1) s;
        let '(s, out, ok) := r in
        Some (s, match h with Some mm => (start, mm) :: out | None => out end, ok)
      end
    end.
  (** mb_jam.c:148-167 jam_gethighwater; [junk]: the four bytes of num before *)
  Definition jam_gethighwater (junk : list Z) (a : jarea) (s : jst) : jarea :=
    match js_hw s with
    | Some ((_ :: _) as f) =>
      let n := get32 (firstn 4 f ++ skipn (length (firstn 4 f)) junk) 0 in JA (ja_num a) (ja_size a) n n (ja_new a)
    | _ => a
    end.
  (** mb_jam.c:1047-1053 *)
  Definition jamstart (a : jarea) : Z :=
    let st := if ja_hw a =? 0 then ja_num a else u32 (ja_hw a + 1) in
    if st <? ja_num a then ja_num a else st.
  Definition jamend (a : jarea) : Z := u32 (ja_num a + ja_size a).
  Definition set_hw (s : jst) (n : Z) : jst :=
    JS (js_base s) (js_hw s) (option_map (fun a => JA (ja_num a) (ja_size a) (ja_oldhw a) n (ja_new a)) (js_open s)).
  (** mb_jam.c:1031-1069 jam_exportfunc *)
  Definition jam_exportfunc (junk : list Z) (ctrlc : Z -> bool) (s : jst) : option (jst * list (Z * memmsg) * bool) :=
    match jam_getarea s with
    | (None, s) => Some (s, [], true)
    | (Some a, s) =>
      let a := if flag (jc_jflags cfg) CFG_JAM_HIGHWATER then jam_gethighwater junk a s else a in
      do r <- jamloop (Z.to_nat (jamend a - jamstart a)) ctrlc false (jamstart a) (JS (js_base s) (js_hw s) (Some a));
      let '(s, out, ok) := r in
      Some (if ok then set_hw s (u32 (jamend a - 1)) else s, out, ok)
    end.
  (** mb_jam.c:1073-1099 jam_rescanfunc *)
  Definition jam_rescanfunc (max : Z) (ctrlc : Z -> bool) (s : jst) : option (jst * list (Z * memmsg) * bool) :=
    match jam_getarea s with
    | (None, s) => Some (s, [], false)
    | (Some a, s) =>
      let start := if negb (max =? 0) && (ja_size a >? max) then u32 (ja_num a + ja_size a - max) else ja_num a in
      jamloop (Z.to_nat (jamend a - start)) ctrlc true start s
    end.
End JamExport.

(** mb_jam.c:169-185 jam_writehighwater; [w]: how writing ends *)
Definition jam_writehighwater (a : jarea) (hw : option (list Z)) (w : wres) : option (list Z) :=
  match w with WOk => Some (le32 (ja_hw a)) | WNoOpen => hw | WCut k => Some (firstn k (le32 (ja_hw a))) end.
(** mb_jam.c:187-214 jam_beforefunc, :216-242 jam_afterfunc, for one area; failing of
    jam_linkmb is not looked at *)
Definition jam_beforefunc (s : jst) : jst := JS (js_base s) (js_hw s) None.
Definition jam_afterfunc (cfg : jcfg) (quick success : bool) (w : wres) (s : jst) : option jst :=
  match js_open s with
  | None => Some s
  | Some a =>
    let hw := if success && flag (jc_jflags cfg) CFG_JAM_HIGHWATER && negb (ja_hw a =? ja_oldhw a)
              then jam_writehighwater a (js_hw s) w else js_hw s in
    do j <- (if success && flag (jc_jflags cfg) CFG_JAM_LINK && ja_new a then jam_linkmb quick (ja_num a) (ja_size a) (js_base s) else Some (js_base s));
    Some (JS j hw (Some a))
  end.
