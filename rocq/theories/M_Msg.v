(** Model of src/crashmail/mb_msg.c: message areas in *.MSG format.

    An area is a directory of files, one message per file; it is modelled as a file system
    (M_Fs) whose names are the names in that directory. MakeFullPath(area->Path,name,buf,200)
    is not modelled: Area.Path has 80 bytes and the names used here at most 14 characters,
    so different names give different paths. Opening a directory and creating it are taken
    to succeed, and a missing directory is an empty one. Memory allocation succeeds (the
    leak of mm at lines 179-196 is not modelled). Numbers in a file are little-endian. The
    results of calls that write are arguments. Log output and scan_total are not
    modelled. *)
From Verif Require Import Base M_Node4D M_Mem M_Cfg M_Str M_Fs M_Pkt M_Net M_Echo M_Filter.

(** config.h:30, :35-36; fidonet.h:84-92 (the other flags are defined in M_Cfg, M_Net,
    M_Echo and M_Filter) *)
Definition CFG_ALLOWKILLSENT := 33554432.
Definition CFG_MSG_HIGHWATER := 2.
Definition CFG_MSG_WRITEBACK := 4.
Definition FLAG_KILLSENT := 128.
Definition FLAG_FILEREQ := 2048.

(** ** struct StoredMsg (storedmsg.h:1-21): 190 bytes *)
Definition STOREDMSG : nat := 190.
Definition put16 (b : list Z) (i : nat) (v : Z) : list Z := firstn i b ++ le16 v ++ skipn (i + 2) b.
Definition O_DESTNODE : nat := 166.
Definition O_ORIGNODE : nat := 168.
Definition O_COST : nat := 170.
Definition O_ORIGNET : nat := 172.
Definition O_DESTNET : nat := 174.
Definition O_DESTZONE : nat := 176.
Definition O_ORIGZONE : nat := 178.
Definition O_REPLYTO : nat := 184.
Definition O_ATTR : nat := 186.
(** strcpy into a character array whose old contents are [old]; the string fits because it
    comes from an array of the same size *)
Definition setfield (old s : list Z) : list Z := firstn (length old) (s ++ 0 :: skipn (S (length s)) old).
Definition slice (i n : nat) (b : list Z) : list Z := firstn n (skipn i b).
(** a header; [junk] are the 190 bytes that were on the stack *)
Definition mkstored (junk from to subj date : list Z) (words : list Z) : list Z :=
  setfield (slice 0 36 junk) from ++ setfield (slice 36 36 junk) to ++ setfield (slice 72 72 junk) subj ++
  setfield (slice 144 20 junk) date ++ concat (map le16 words).

(** what is used of the configuration and of the area: cfg_Flags, cfg_msg_Flags, whether
    AreaType is AREATYPE_NETMAIL, Tagname, the address of Aka *)
Record mcfg := MC { mc_flags : Z; mc_mflags : Z; mc_net : bool; mc_tag : list Z; mc_aka : node4d }.
(** mb_msg.c:3-11 struct msg_Area *)
Record mcache := CA { ca_low : Z; ca_high : Z; ca_oldhw : Z; ca_hw : Z }.
(** the directory and the entry for this area in msg_AreaList, if there is one *)
Record mst := MS { ms_dir : fsys; ms_open : option mcache }.

(** what happens when a file is written: success; it cannot be opened; the disk is full
    after k bytes *)
Inductive wres := WOk | WNoOpen | WCut (k : nat).

(** "%u.msg" *)
Definition msgname (n : Z) : list Z := dec n ++ lit ".msg".
(** atol with a 64 bit long *)
Definition atol (s : list Z) : Z := Z.max (-9223372036854775808) (Z.min 9223372036854775807 (atoi s)).

(** mb_msg.c:324-337 msg_scandirfunc; state: msg_templowmsg, msg_temphighmsg. The
    comparisons are made on long, the assignments truncate to uint32_t. *)
Definition ismsg (file : list Z) : bool :=
  Nat.ltb 4 (length file) && streqi (skipn (length file - 4) file) (lit ".msg").
Definition msg_scandirfunc (st : Z * Z) (file : list Z) : Z * Z :=
  let '(low, high) := st in
  if ismsg file then
    let n := atol file in
    let high := if n >? high then u32 n else high in
    let low := if ((n <? low) || (low =? 0) || (low =? 1)) && (n >=? 2) then u32 n else low in
    (low, high)
  else st.
(** mb_msg.c:339-380 msg_GetHighLowMsg *)
Definition msg_GetHighLowMsg (dir : fsys) : mcache :=
  let '(low, high) := fold_left msg_scandirfunc (map fst dir) (0, 0) in
  CA (if (low =? 0) || (low =? 1) then 2 else low) (if high =? 0 then 1 else high) 0 0.
(** mb_msg.c:24-47 msg_getarea *)
Definition msg_getarea (s : mst) : mcache :=
  match ms_open s with Some c => c | None => msg_GetHighLowMsg (ms_dir s) end.

(** mb_msg.c:438-553: the bytes written. [None]: see mmMakeSeenByBuf *)
Definition words_of (mm : memmsg) : list Z :=
  let net_ := match Area mm with [] => true | _ => false end in
  let z x := if net_ then x else 0 in
  [0; z (node (DestNode mm)); z (node (OrigNode mm)); Cost mm; z (net (OrigNode mm)); z (net (DestNode mm));
   z (zone (DestNode mm)); z (zone (OrigNode mm)); z (point (DestNode mm)); z (point (OrigNode mm)); 0; Attr mm; 0].
Definition storedmsg (cfg : mcfg) (junk : list Z) (mm : memmsg) : option (list Z) :=
  do sb <- (if flag (mc_flags cfg) CFG_IMPORTSEENBY && match Area mm with [] => false | _ => true end
            then mmMakeSeenByBuf (SeenBy mm) else Some []);
  Some (mkstored junk (From mm) (To mm) (Subject mm) (DateTime mm) (words_of mm) ++
        mmtext mm ++ sb ++ pathbytes (Path mm) ++ [0]).
(** osOpen with MODE_NEWFILE, writing and closing *)
Definition writenew (dir : fsys) (name data : list Z) (w : wres) : fsys :=
  match w with
  | WOk => fput dir name data
  | WNoOpen => dir
  | WCut k => fput dir name (firstn k data)
  end.
Definition wok (w : wres) : bool := match w with WOk => true | _ => false end.
(** mb_msg.c:438-553 msg_WriteMSG *)
Definition msg_WriteMSG (cfg : mcfg) (junk : list Z) (dir : fsys) (name : list Z) (mm : memmsg) (w : wres) : option (fsys * bool) :=
  option_map (fun data => (writenew dir name data w, wok w)) (storedmsg cfg junk mm).

(** mb_msg.c:76-86: the next number for which there is no file. [None]: lack of fuel (the
    program searches for ever if all numbers are used). *)
Fixpoint nextfree (fuel : nat) (dir : fsys) (high : Z) : option Z :=
  match fuel with
  | O => None
  | S f => let h := u32 (high + 1) in if osExists dir (msgname h) then nextfree f dir h else Some h
  end.
(** a message to be imported, the old stack contents, the result of writing *)
Record imp := IM { im_mm : memmsg; im_junk : list Z; im_w : wres }.
(** mb_msg.c:68-89 msg_importfunc *)
Definition msg_importfunc (cfg : mcfg) (i : imp) (s : mst) : option (mst * bool) :=
  let c := msg_getarea s in
  do h <- nextfree (S (length (ms_dir s))) (ms_dir s) (ca_high c);
  do r <- msg_WriteMSG cfg (im_junk i) (ms_dir s) (msgname h) (im_mm i) (im_w i);
  Some (MS (fst r) (Some (CA (ca_low c) h (ca_oldhw c) (ca_hw c))), snd r).
Fixpoint imports (cfg : mcfg) (l : list imp) (s : mst) : option mst :=
  match l with
  | [] => Some s
  | i :: r => do x <- msg_importfunc cfg i s; imports cfg r (fst x)
  end.

(** ** Export *)

(** misc.c:330-337 AddTID *)
Definition TID : list Z := 1 :: lit "TID: CrashMail II/Linux 1.5.1" ++ [13].
(** mb_msg.c:229-231 *)
Definition rescanned_line (a : node4d) : list Z :=
  1 :: lit "RESCANNED " ++ dec (zone a) ++ lit ":" ++ dec (net a) ++ lit "/" ++ dec (node a) ++ lit "." ++ dec (point a) ++ [13].
(** mb_msg.c:248-249 *)
Definition intl_line (z dnet dnode onet onode : Z) : list Z :=
  1 :: lit "INTL " ++ dec z ++ lit ":" ++ dec dnet ++ lit "/" ++ dec dnode ++ lit " " ++
  dec z ++ lit ":" ++ dec onet ++ lit "/" ++ dec onode ++ [13].
Definition set_zones (mm : memmsg) (z : Z) : memmsg :=
  set_OrigNode (set_DestNode mm (set_zone (DestNode mm) z)) (set_zone (OrigNode mm) z).
(** mb_msg.c:219-255: lines added in front of the first line that is not a kludge; the
    flag says that the zones were set in the header *)
Definition addkludges (cfg : mcfg) (resc : bool) (hdr : list Z) (mm : memmsg) : option (memmsg * bool) :=
  do mm <- (if flag (mc_flags cfg) CFG_ADDTID && negb resc then mmAddLine mm TID else Some mm);
  do mm <- (if resc then mmAddLine mm (rescanned_line (mc_aka cfg)) else Some mm);
  if match Area mm with [] => true | _ => false end && ((zone (DestNode mm) =? 0) || (zone (OrigNode mm) =? 0)) then
    let z := zone (mc_aka cfg) in
    let mm := set_zones mm z in
    do mm <- (if flag (mc_flags cfg) CFG_FORCEINTL
              then mmAddLine mm (intl_line z (get16 hdr O_DESTNET) (get16 hdr O_DESTNODE) (get16 hdr O_ORIGNET) (get16 hdr O_ORIGNODE))
              else Some mm);
    Some (mm, true)
  else Some (mm, false).

Inductive xres := XOk (mm : memmsg) (zs : bool) | XUB | XFuel.
(** mb_msg.c:215-267. The parameters [kl] and [zs]: kludgeadd; the zones were set. *)
Fixpoint exptext (fuel : nat) (cfg : mcfg) (resc : bool) (hdr : list Z) (kl zs : bool) (mm : memmsg) (s : list Z) : xres :=
  match fuel with
  | O => XFuel
  | S f =>
    let '(l, e, r) := ReadCR CRBUF s in
    let first := negb kl && match l with [] => true | c :: _ => negb (c =? 1) && negb (c =? 10) end in
    match (if first then addkludges cfg resc hdr mm else Some (mm, zs)) with
    | None => XUB
    | Some (mm, zs) =>
      match (match l with [] => Some mm | _ => mmAddLine mm l end) with
      | None => XUB
      | Some mm =>
        match e with
        | CrNul | CrEof => XOk mm zs
        | _ => exptext f cfg resc hdr (kl || first) zs mm r
        end
      end
    end
  end.

(** mb_msg.c:209 *)
Definition ATTRMASK : Z := 31251.
(** mb_msg.c:179, :192-210 mmAlloc and the header fields *)
Definition exphdr (cfg : mcfg) (hdr : list Z) : memmsg :=
  MM (N4 0 (get16 hdr O_ORIGNET) (get16 hdr O_ORIGNODE) 0) (N4 0 (get16 hdr O_DESTNET) (get16 hdr O_DESTNODE) 0)
     null4d null4d null4d (if mc_net cfg then [] else mc_tag cfg)
     (firstn 35 (cstr (slice 36 36 hdr))) (firstn 35 (cstr (slice 0 36 hdr)))
     (firstn 71 (cstr (slice 72 72 hdr))) (firstn 19 (cstr (slice 144 20 hdr)))
     [] [] (Z.land (get16 hdr O_ATTR) ATTRMASK) (get16 hdr O_COST) 0 0 [] [] [].

(** What the handler (HandleMessage or HandleRescan) does with a message: its result, the
    messages it imports into this very area meanwhile, and the message as it leaves it. *)
Record hres := HR { hr_ok : bool; hr_imports : list imp; hr_mm : memmsg }.

(** mb_msg.c:184-196: what is read of a file; [None]: missing or shorter than a header *)
Definition readstored (dir : fsys) (n : Z) : option (list Z * list Z) :=
  match fget dir (msgname n) with
  | Some b => if Nat.ltb (length b) STOREDMSG then None else Some (firstn STOREDMSG b, skipn STOREDMSG b)
  | None => None
  end.
(** mb_msg.c:198-204 *)
Definition pending (hdr : list Z) : bool := negb (flag (get16 hdr O_ATTR) FLAG_SENT) && flag (get16 hdr O_ATTR) FLAG_LOCAL.

(** mb_msg.c:312-316: MODE_READWRITE; the new header replaces the first bytes *)
Definition writeover (dir : fsys) (name hdr : list Z) (w : wres) : fsys :=
  match fget dir name with
  | None => dir
  | Some b => match w with
              | WOk => fput dir name (overlay b hdr)
              | WNoOpen => dir
              | WCut k => fput dir name (overlay b (firstn k hdr))
              end
  end.

Inductive eres := EOk (s : mst) (handed : option memmsg) | EFalse (s : mst) (handed : option memmsg) | EUB.

Section Export.
  (** what the handler does with message number n; how writing file n for the second time
      (or deleting it: anything but WOk is a failure) turns out; old stack contents *)
  Context (cfg : mcfg) (handle : Z -> memmsg -> hres) (mark : Z -> wres) (junk : list Z).

  (** mb_msg.c:283-318: after a message was handed on. *)
  Definition marksent (num : Z) (hdr : list Z) (zs : bool) (mm : memmsg) (s : mst) : option mst :=
    let c := msg_getarea s in
    let attr := get16 hdr O_ATTR in
    if flag (mc_flags cfg) CFG_ALLOWKILLSENT && flag attr FLAG_KILLSENT && mc_net cfg then
      Some (MS (match mark num with WOk => osDelete (ms_dir s) (msgname num) | _ => ms_dir s end) (Some c))
    else
      let c' := CA (ca_low c) (ca_high c) (ca_oldhw c) num in
      let attr' := Z.lor attr FLAG_SENT in
      if flag (mc_mflags cfg) CFG_MSG_WRITEBACK then
        do r <- msg_WriteMSG cfg junk (ms_dir s) (msgname num) (set_Attr mm attr') (mark num);
        Some (MS (fst r) (Some c'))
      else
        let hdr := if zs then put16 (put16 hdr O_DESTZONE (zone (mc_aka cfg))) O_ORIGZONE (zone (mc_aka cfg)) else hdr in
        Some (MS (writeover (ms_dir s) (msgname num) (put16 hdr O_ATTR attr') (mark num)) (Some c')).

  (** mb_msg.c:166-323 msg_ExportMSGNum. Lack of fuel cannot occur in the text loop (see
      P_Msg), it counts as EUB here. *)
  Definition msg_ExportMSGNum (num : Z) (resc : bool) (s : mst) : eres :=
    let s := MS (ms_dir s) (Some (msg_getarea s)) in
    match readstored (ms_dir s) num with
    | None => EOk s None
    | Some (hdr, text) =>
      if negb resc && negb (pending hdr) then EOk s None else
      match exptext (S (length text)) cfg resc hdr false false (exphdr cfg hdr) text with
      | XUB | XFuel => EUB
      | XOk mm zs =>
        let mm := set_Flags mm (Z.lor (Flags mm) (if resc then MMFLAG_RESCANNED else MMFLAG_EXPORTED)) in
        let h := handle num mm in
        match imports cfg (hr_imports h) s with
        | None => EUB
        | Some s =>
          if hr_ok h then
            if resc then EOk s (Some mm)
            else match marksent num hdr zs (hr_mm h) s with
                 | Some s => EOk s (Some mm)
                 | None => EUB
                 end
          else EFalse s (Some mm)
        end
      end
    end.

  (** mb_msg.c:103-109 and :152-158: the loop over the numbers. [ctrlc n]: the user has
      pressed control-C when number n is reached. The result: state, messages handed on with
      their numbers, whether the loop came to its end. [None]: undefined behaviour or lack
      of fuel. *)
  Fixpoint exploop (fuel : nat) (ctrlc : Z -> bool) (resc : bool) (start : Z) (s : mst) : option (mst * list (Z * memmsg) * bool) :=
    match fuel with
    | O => None
    | S f =>
      if start <=? ca_high (msg_getarea s) then
        if ctrlc start then Some (s, [], false) else
        match msg_ExportMSGNum start resc s with
        | EUB => None
        | EFalse s h => Some (s, match h with Some mm => [(start, mm)] | None => [] end, false)
        | EOk s h =>
          do r <- exploop f ctrlc resc (u32 (start + 1)) s;
          let '(s, out, ok) := r in
          Some (s, match h with Some mm => (start, mm) :: out | None => out end, ok)
        end
      else Some (s, [], negb (ctrlc start))
    end.

  (** mb_msg.c:130-146: the high water mark is read from 1.msg *)
  Definition readhw (s : mst) : mst :=
    let c := msg_getarea s in
    if flag (mc_mflags cfg) CFG_MSG_HIGHWATER && (ca_hw c =? 0) then
      match readstored (ms_dir s) 1 with
      | Some (hdr, _) => MS (ms_dir s) (Some (CA (ca_low c) (ca_high c) (get16 hdr O_REPLYTO) (get16 hdr O_REPLYTO)))
      | None => MS (ms_dir s) (Some c)
      end
    else MS (ms_dir s) (Some c).
  (** mb_msg.c:148-152 *)
  Definition startnum (c : mcache) : Z :=
    let st := if ca_hw c =? 0 then ca_low c else u32 (ca_hw c + 1) in
    if st <? ca_low c then ca_low c else st.
  (** mb_msg.c:114-164 msg_exportfunc *)
  Definition msg_exportfunc (fuel : nat) (ctrlc : Z -> bool) (s : mst) : option (mst * list (Z * memmsg) * bool) :=
    let s := readhw s in
    exploop fuel ctrlc false (startnum (msg_getarea s)) s.
  (** mb_msg.c:91-112 msg_rescanfunc *)
  Definition msg_rescanfunc (fuel : nat) (ctrlc : Z -> bool) (max : Z) (s : mst) : option (mst * list (Z * memmsg) * bool) :=
    let c := msg_getarea s in
    let start := if negb (max =? 0) && (u32 (u32 (ca_high c - ca_low c) + 1) >? max)
                 then u32 (u32 (ca_high c - max) + 1) else ca_low c in
    exploop fuel ctrlc true start (MS (ms_dir s) (Some c)).
End Export.

(** mb_msg.c:382-436 msg_WriteHighWater; [date]: MakeFidoDate of the present time. The
    character arrays hold stack contents behind the strings. *)
Definition hwmsg (junk date : list Z) (hw : Z) : list Z :=
  mkstored junk (lit "CrashMail II") (lit "All") (lit "HighWater mark") date
    [0; 0; 0; 0; 0; 0; 0; 0; 0; 0; hw; Z.lor FLAG_SENT FLAG_PVT; 0] ++ [0].
Definition msg_WriteHighWater (junk date : list Z) (c : mcache) (dir : fsys) (w : wres) : fsys :=
  if ca_hw c >? 65535 then dir else writenew dir (msgname 1) (hwmsg junk date (ca_hw c)) w.
(** mb_msg.c:49-66 msg_beforefunc and msg_afterfunc, for one area *)
Definition msg_beforefunc (s : mst) : mst := MS (ms_dir s) None.
Definition msg_afterfunc (cfg : mcfg) (success : bool) (junk date : list Z) (w : wres) (s : mst) : mst :=
  match ms_open s with
  | Some c => if success && flag (mc_mflags cfg) CFG_MSG_HIGHWATER && negb (ca_hw c =? ca_oldhw c)
              then MS (msg_WriteHighWater junk date c (ms_dir s) w) (Some c) else s
  | None => s
  end.
