(** Model of src/crashmail/outbound.c, of the packet names made in pkt.c and of IsArc,
    IsOrphan, IsPktTmp, IsNewPkt, hextodec, ExpandPacker and movefile of misc.c.

    The file system is flat (M_Fs); the directories MakeBaseName creates exist. [None]
    stands for undefined behaviour (a buffer that overflows, an index outside a table, a
    NULL pointer) unless said otherwise. Log output is not modelled. *)
From Verif Require Import Base M_Node4D M_Pat M_Str M_Mem M_Cfg M_Pkt M_Fs M_Expr M_Filter.

(** config.h:22, :31 *)
Definition CFG_WEEKDAYNAMING := 16384.
Definition CFG_FLOWCRLF := 67108864.
(** outbound.h:1-3 *)
Definition FLOW_NONE := 0.
Definition FLOW_TRUNC := 1.
Definition FLOW_DELETE := 2.

(** a configured node, as far as packing is concerned: its packer's command and the
    priority of its echomail *)
Record onode := ON { on_node : node4d; on_packer : option (list Z); on_pri : Z }.
(** what the outbound functions read of the configuration; files that cannot be opened for
    writing; the clock *)
Record oenv := OE {
  oe_outbound : list Z; oe_packetdir : list Z; oe_packetcreate : list Z; oe_akas : list aka; oe_routes : list route;
  oe_nl : nodelist; oe_flags : Z; oe_maxbundle : Z; oe_beforepack : list Z; oe_nodes : list onode;
  oe_noopen : list Z -> bool; oe_wday : Z; oe_time : Z }.

(** MakeFullPath into a buffer of 200 bytes *)
Definition path200 (dir file : list Z) : option (list Z) := option_map cstr (MakeFullPath dir file (repeat 0 200) 200).

(** ** outbound.c:41-118 MakeBaseName *)

(** sprintf "%03x" of a 16 bit number *)
Definition hexmin3 (z : Z) : list Z := if z <? 4096 then hex 3 z else hex 4 z.
(** lines 63-68: one trailing slash is removed *)
Definition stripslash (s : list Z) : list Z :=
  match rev s with c :: r => if c =? PATHCHAR then rev r else s | [] => [] end.
(** lines 52-61 *)
Definition otherdomain (env : oenv) (first : aka) (n : node4d) : option (list Z) :=
  match findroute (oe_nl env) (oe_routes env) n with
  | None => None
  | Some r => match ak_domain (rt_aka r), ak_domain first with
              | [], _ => None
              | _, [] => None
              | d, f => if streqi d f then None else Some d
              end
  end.
(** [None]: no AKA is configured (NULL pointer, line 77) *)
Definition MakeBaseName (env : oenv) (n : node4d) : option (list Z) :=
  match oe_akas env with
  | [] => None
  | first :: _ =>
    let out := stripslash (oe_outbound env) in
    let dir := match otherdomain env first n with
               | Some d => firstn (length out - length (GetFilePart out)) out ++ d
               | None => if zone n =? zone (ak_node first) then out else out ++ lit "." ++ hexmin3 (zone n)
               end in
    let b := dir ++ [PATHCHAR] ++ hex 4 (net n) ++ hex 4 (node n) in
    Some (if point n =? 0 then b else b ++ lit ".pnt" ++ [PATHCHAR] ++ hex 8 (point n))
  end.

(** outbound.c:7-29 LockBasename; [None]: busy. (The test and the creation are two steps;
    two programs running at the same time are not modelled.) *)
Definition bsyname (base : list Z) : list Z := base ++ lit ".bsy".
Definition LockBasename (env : oenv) (fs : fsys) (base : list Z) : option fsys :=
  if osExists fs (bsyname base) || oe_noopen env (bsyname base) then None else Some (fput fs (bsyname base) []).
(** outbound.c:31-39 *)
Definition UnlockBasename (fs : fsys) (base : list Z) : fsys := osDelete fs (bsyname base).

(** ** Bundle names *)

(** misc.c:605-624 hextodec; unsigned long is taken to have 64 bits, the callers assign to
    or compare with a uint32_t *)
Definition hexval (c : Z) : option Z :=
  let c := tolower c in
  if isdigit c then Some (c - 48) else if (97 <=? c) && (c <=? 102) then Some (c - 87) else None.
Fixpoint hextodec_aux (s : list Z) (v : Z) : Z :=
  match s with
  | c :: r => match hexval c with Some d => hextodec_aux r ((16 * v + d) mod 18446744073709551616) | None => v end
  | [] => v
  end.
Definition hextodec (s : list Z) : Z := hextodec_aux s 0.

Definition daynames : list (list Z) := map lit ["su"; "mo"; "tu"; "we"; "th"; "fr"; "sa"]%string.
(** misc.c:179-203 IsArc *)
Definition isalnumc (c : Z) : bool := isdigit c || ((97 <=? tolower c) && (tolower c <=? 122)).
Definition IsArc (f : list Z) : bool :=
  Nat.eqb (length f) 12 && (nth 8 f 0 =? 46) && forallb isalnumc (firstn 8 f) &&
  existsb (fun d => streqi (firstn 2 (skipn 9 f)) d) daynames.
(** misc.c:214-243 *)
Definition hassuffix (suf f : list Z) : bool :=
  negb (Nat.ltb (length f) (length suf)) && streqi (skipn (length f - length suf) f) suf.
Definition IsNewPkt := hassuffix (lit ".newpkt").
Definition IsPktTmp := hassuffix (lit ".pkttmp").
Definition IsOrphan := hassuffix (lit ".orphan").

(** sprintf "%08x.%s%d" with daynames[num/10] and num%10; [None]: no such day *)
Definition bundlename (basenum num : Z) : option (list Z) :=
  match nth_error daynames (Z.to_nat (num / 10)) with
  | Some d => Some (hex 8 basenum ++ lit "." ++ d ++ dec (num mod 10))
  | None => None
  end.

(** the list of files ArcList: names and sizes *)
Notation arclist := (list (list Z * Z)) (only parsing).
(** outbound.c:195-210 ExistsBasenum *)
Definition ExistsBasenum (arcs : arclist) (last : list (list Z)) (num : Z) : bool :=
  existsb (fun a => IsArc (fst a) && (hextodec (fst a) =? num)) arcs ||
  existsb (fun l => match l with [] => false | _ => hextodec l =? num end) last.
(** outbound.c:249-252; [None]: lack of fuel *)
Fixpoint freebasenum (fuel : nat) (arcs : arclist) (last : list (list Z)) (num : Z) : option Z :=
  match fuel with
  | O => None
  | S f => if ExistsBasenum arcs last num then freebasenum f arcs last (u32 (num + 1)) else Some num
  end.
(** outbound.c:212-225 ExistsBundle; [None]: no such day *)
Definition ExistsBundle (arcs : arclist) (basenum num : Z) : option bool :=
  do n <- bundlename basenum num; Some (existsb (fun a => streqi (fst a) n) arcs).

Definition NOSUFFIX : Z := 4294967295.
(** lines 254-269: the suffix of a bundle name, NOSUFFIX for -1; [None]: the name has less
    than three characters *)
Fixpoint daysuffix (i : Z) (ds : list (list Z)) (ext : list Z) (digit : Z) (suffix : Z) : Z :=
  match ds with
  | [] => suffix
  | d :: r => daysuffix (i + 1) r ext digit (if streqi ext d then u32 (i * 10 + digit) else suffix)
  end.
Definition schar (c : Z) : Z := if c <? 128 then c else c - 256.
Definition suffixof (last : list Z) : option Z :=
  if Nat.ltb (length last) 3 then None else
  Some (daysuffix 0 daynames (firstn 2 (skipn (length last - 3) last)) (schar (nth (length last - 1) last 0) - 48) NOSUFFIX).
(** lines 273-279: the last entry with this name *)
Fixpoint lastentry (arcs : arclist) (n : list Z) (found : option Z) : option Z :=
  match arcs with
  | [] => found
  | (f, size) :: r => lastentry r n (if streqi n f then Some size else found)
  end.

(** outbound.c:227-335 MakeArcName for the node with index [i]: the name, and LastArcName
    of all nodes. mystrncpy(LastArcName,dest,13) stores 13 bytes into an array of 12: see
    T_Out.C26_overflow_refuted. WriteIndex is a separate step, done by the caller if the
    flag returned is set. *)
Definition MakeArcName (env : oenv) (arcs : arclist) (last : list (list Z)) (i : nat) : option (list Z * list (list Z) * bool) :=
  let day := oe_wday env in
  let weekday := flag (oe_flags env) CFG_WEEKDAYNAMING in
  let mine := nth i last [] in
  do bs <- (match mine with
            | [] => do b <- freebasenum (S (length arcs + length last)) arcs last (u32 (oe_time env)); Some (b, NOSUFFIX)
            | _ => do s <- suffixof mine; Some (u32 (hextodec mine), s)
            end);
  let '(basenum, suffix) := bs in
  do newsuffix <-
    (if suffix =? NOSUFFIX then Some (if weekday then day * 10 else 0)
     else
       let found := lastentry arcs mine None in
       let again := (match found with None => true | Some size => (size =? 0) || (size >? oe_maxbundle env) end) ||
                    (weekday && negb (suffix / 10 =? day)) in
       if again then
         let n := suffix + 1 in
         let n := if n =? 70 then 0 else n in
         let n := if weekday && negb (n / 10 =? day) then day * 10 else n in
         do e <- ExistsBundle arcs basenum n;
         Some (if e then suffix else n)
       else Some suffix);
  do name <- bundlename basenum newsuffix;
  if streqi mine name then Some (name, last, false)
  else Some (name, firstn i last ++ [name] ++ skipn (S i) last, true).

(** outbound.c:120-142 WriteIndex: the contents of cmindex *)
Fixpoint indexlines (nodes : list onode) (last : list (list Z)) : list Z :=
  match nodes, last with
  | n :: nr, l :: lr =>
    (match l with [] => [] | _ => Print4D (on_node n) ++ lit " " ++ l ++ [10] end) ++ indexlines nr lr
  | _, _ => []
  end.

(** ** Reading text files *)

(** fgets: at most n bytes, up to and including a line feed *)
Fixpoint fgets (n : nat) (s : list Z) : list Z * list Z :=
  match n, s with
  | O, _ => ([], s)
  | _, [] => ([], [])
  | S m, c :: r => if c =? 10 then ([c], r) else let '(l, r') := fgets m r in (c :: l, r')
  end.
Definition crlf (l : list Z) : list Z :=
  match rev l with
  | a :: b :: r => if (a =? 10) && (b =? 13) then rev r ++ [10] else l
  | _ => l
  end.
(** osfile.c:76-97 osFGets with a buffer of [max] bytes; [None]: 0 is returned, at the end
    of the file or for a line that begins with NUL *)
Definition osFGets (max : nat) (s : list Z) : option (list Z * list Z) :=
  match s with
  | [] => None
  | _ => let '(l, r) := fgets (max - 1) s in
         match crlf (cstr l) with [] => None | l' => Some (l', r) end
  end.

(** jbstrcpy into a fresh buffer of 200 bytes: the token and the rest of the line *)
Definition token200 (maxlen : nat) (s : list Z) : option (list Z * list Z) :=
  match jbstrcpy (repeat 0 200) s maxlen with
  | (Some b, _, r) => Some (cstr b, r)
  | (None, _, _) => None
  end.

(** outbound.c:157-174 ReadIndex: the lines of cmindex *)
Fixpoint setlast (nodes : list onode) (n : node4d) (l : list Z) (last : list (list Z)) : list (list Z) :=
  match nodes, last with
  | c :: nr, x :: lr => (if Compare4D (on_node c) n =? 0 then firstn 12 l else x) :: setlast nr n l lr
  | _, _ => last
  end.
Fixpoint readindex (fuel : nat) (nodes : list onode) (s : list Z) (last : list (list Z)) : option (list (list Z)) :=
  match fuel with
  | O => Some last
  | S f =>
    match osFGets 200 s with
    | None => Some last
    | Some (l, r) =>
      do x <- token200 200 (striptrail l);
      match Parse4D (fst x) with
      | Some n => do y <- token200 200 (snd x); readindex f nodes r (setlast nodes n (fst y) last)
      | None => readindex f nodes r last
      end
    end
  end.
(** outbound.c:178-193: duplicates are cleared; [true]: some were *)
Fixpoint cleardup (c1 : list Z) (rest : list (list Z)) : list (list Z) * bool :=
  match rest with
  | [] => ([], false)
  | c2 :: r => let '(r', ch) := cleardup c1 r in
               if negb (Nat.eqb (length c1) 0) && (hextodec c1 =? hextodec c2) then ([] :: r', true) else (c2 :: r', ch)
  end.
Fixpoint cleardups (fuel : nat) (last : list (list Z)) : list (list Z) * bool :=
  match fuel, last with
  | S f, c1 :: r => let '(r1, ch1) := cleardup c1 r in
                    let '(r2, ch2) := cleardups f r1 in (c1 :: r2, ch1 || ch2)
  | _, _ => (last, false)
  end.
(** outbound.c:144-193 ReadIndex: LastArcName of all nodes, and whether the index is
    written again *)
Definition ReadIndex (env : oenv) (index : option (list Z)) (last : list (list Z)) : option (list (list Z) * bool) :=
  match index with
  | None => Some (last, false)
  | Some s => do last <- readindex (S (length s)) (oe_nodes env) s last; Some (cleardups (length last) last)
  end.

(** ** Flow files *)

(** outbound.c:483-495 *)
Definition flowletter (type : Z) : Z :=
  if type =? PKTS_HOLD then 104 else if type =? PKTS_DIRECT then 100 else if type =? PKTS_CRASH then 99 else 102.
Definition flowfile (base : list Z) (type : Z) : list Z := base ++ lit "." ++ [flowletter type] ++ lit "lo".
(** outbound.c:508-520 *)
Definition strip1 (c : Z) (l : list Z) : list Z := match l with x :: r => if x =? c then r else l | [] => [] end.
Definition flowname (l : list Z) : list Z := strip1 45 (strip1 94 (strip1 126 (strip1 35 (striptrail l)))).
Fixpoint inflow (fuel : nat) (file : list Z) (s : list Z) : bool :=
  match fuel with
  | O => false
  | S f => match osFGets 200 s with
           | None => false
           | Some (l, r) => streqi (flowname l) file || inflow f file r
           end
  end.
(** outbound.c:506-538: the new contents of the flow file *)
Definition flowprefix (mode : Z) : list Z := if mode =? FLOW_TRUNC then lit "#" else if mode =? FLOW_DELETE then lit "^" else [].
Definition addflow (flags : Z) (s file : list Z) (mode : Z) : list Z :=
  if inflow (S (length s)) file s then s
  else s ++ flowprefix mode ++ file ++ (if flag flags CFG_FLOWCRLF then [13; 10] else [10]).
(** outbound.c:478-539 doAddFlow *)
Definition doAddFlow (env : oenv) (fs : fsys) (file base : list Z) (type mode : Z) : fsys * bool :=
  let fn := flowfile base type in
  if oe_noopen env fn then (fs, false)
  else (fput fs fn (addflow (oe_flags env) (match fget fs fn with Some s => s | None => [] end) file mode), true).

(** ** Orphans *)

(** crashmail.c:40 *)
Definition prinames : list (list Z) := map lit ["Normal"; "Hold"; "Normal"; "Direct"; "Crash"]%string.
Definition orphanname (file : list Z) : list Z := file ++ lit ".orphan".
(** outbound.c:448-475 MakeOrphan *)
Definition orphantext (type : Z) (n : node4d) (mode : Z) : option (list Z) :=
  do p <- (if type <? 0 then None else nth_error prinames (Z.to_nat type));
  Some (p ++ lit " " ++ dec (zone n) ++ lit ":" ++ dec (net n) ++ lit "/" ++ dec (node n) ++ lit "." ++ dec (point n) ++
        (if mode =? FLOW_TRUNC then lit " Truncate" else if mode =? FLOW_DELETE then lit " Delete" else []) ++ [10]).
Definition MakeOrphan (env : oenv) (fs : fsys) (file : list Z) (n : node4d) (type mode : Z) : option fsys :=
  if Nat.ltb (length (orphanname file)) 200 then
    if oe_noopen env (orphanname file) then Some fs else
    do t <- orphantext type n mode; Some (fput fs (orphanname file) t)
  else None.

Definition flavour (s : list Z) : option Z :=
  if streqi s (lit "Normal") then Some PKTS_NORMAL else if streqi s (lit "Hold") then Some PKTS_HOLD else
  if streqi s (lit "Direct") then Some PKTS_DIRECT else if streqi s (lit "Crash") then Some PKTS_CRASH else None.
(** outbound.c:366-446 HandleOrphan *)
Definition HandleOrphan (env : oenv) (fs : fsys) (name : list Z) : option fsys :=
  match fget fs name with
  | None => Some fs
  | Some s =>
    match osFGets 100 s with
    | None => Some fs
    | Some (l, _) =>
      do a <- token200 100 l;
      match flavour (fst a) with
      | None => Some fs
      | Some type =>
        do b <- token200 100 (snd a);
        match Parse4D (fst b) with
        | None => Some fs
        | Some n =>
          do c <- token200 100 (snd b);
          let mode := if streqi (fst c) (lit "Truncate") then FLOW_TRUNC else if streqi (fst c) (lit "Delete") then FLOW_DELETE else FLOW_NONE in
          let nm := firstn 199 name in
          let file := firstn (length nm - 7) nm in
          do base <- MakeBaseName env n;
          match LockBasename env fs base with
          | None => Some fs
          | Some fs => let '(fs, ok) := doAddFlow env fs file base type mode in
                       Some (UnlockBasename (if ok then osDelete fs name else fs) base)
          end
        end
      end
    end
  end.

(** outbound.c:542-561 AddFlow *)
Definition AddFlow (env : oenv) (fs : fsys) (file : list Z) (n : node4d) (type mode : Z) : option (fsys * bool) :=
  do base <- MakeBaseName env n;
  match LockBasename env fs base with
  | None => do fs <- MakeOrphan env fs file n type mode; Some (fs, false)
  | Some fs =>
    let '(fs, ok) := doAddFlow env fs file base type mode in
    do fs <- (if ok then Some fs else MakeOrphan env fs file n type mode);
    Some (UnlockBasename fs base, true)
  end.

(** ** Packet names *)

(** pkt.c:560-582: the number of a new packet. State: lastt and serial; [t]: the clock in
    the successive turns of the loop; [None]: the list of clock values is too short. *)
Fixpoint pktnum (taken : Z -> bool) (ts : list Z) (lastt serial : Z) : option (Z * Z * Z) :=
  match ts with
  | [] => None
  | t :: r =>
    let serial := if t =? lastt then serial + 1 else 0 in
    let serial := if serial =? 256 then 0 else serial in
    let num := u32 (t * 256 + serial) in
    if taken num then pktnum taken r t serial else Some (num, t, serial)
  end.
(** pkt.c:666-690: the name a finished packet gets. [None]: typestr is not set *)
Definition pkttypes : list (list Z) := map lit ["Echomail"; "Hold"; "Normal"; "Direct"; "Crash"]%string.
Definition finalname (num type : Z) (d : node4d) : option (list Z) :=
  do t <- (if type <? 0 then None else nth_error pkttypes (Z.to_nat type));
  Some (hex 8 num ++ lit "_" ++ t ++ lit "_" ++ dec (zone d) ++ lit "_" ++ dec (net d) ++ lit "_" ++ dec (node d) ++ lit "_" ++
        dec (point d) ++ lit ".newpkt").

(** outbound.c:612-655: the name of a packet read back. [None]: undefined; [Some None]:
    unknown flavour *)
Definition parsepktname (file : list Z) : option (option (Z * node4d)) :=
  let s := map (fun c => if c =? 95 then 32 else c) (firstn 199 (GetFilePart file)) in
  do x <- token200 100 s;
  do f <- token200 100 (snd x);
  match (match flavour (fst f) with Some t => Some t | None => if streqi (fst f) (lit "Echomail") then Some PKTS_ECHOMAIL else None end) with
  | None => Some None
  | Some type =>
    do z <- token200 100 (snd f);
    do n <- token200 100 (snd z);
    do o <- token200 100 (snd n);
    do p <- token200 100 (snd o);
    Some (Some (type, N4 (u16 (atoi (fst z))) (u16 (atoi (fst n))) (u16 (atoi (fst o))) (u16 (atoi (fst p)))))
  end.

(** ** Packing *)

(** misc.c:3-33 ExpandPacker, with a buffer of 200 bytes *)
Definition packletter (arc file : list Z) (x : Z) : option (list Z) :=
  if Z.lor x 32 =? 97 then Some arc else if Z.lor x 32 =? 102 then Some file else None.
Definition ExpandPacker (cmd arc file : list Z) : option (list Z) := expandloop 200 (packletter arc file) cmd [].

(** outbound.c:790-838: netmail. [old]: the packet that waits already. The new packet
    without its header is written over the two bytes at the end; if the old file is
    shorter than two bytes the seek fails and it is written from the beginning. *)
Definition merge (old : option (list Z)) (new : list Z) : list Z :=
  match old with
  | None => new
  | Some o =>
    let body := skipn 58 new in
    if Nat.ltb (length o) 2 then body ++ skipn (length body) o
    else firstn (length o - 2) o ++ body ++ skipn (length body) (skipn (length o - 2) o)
  end.
Definition outletter (type : Z) : Z :=
  if type =? PKTS_HOLD then 104 else if type =? PKTS_DIRECT then 100 else if type =? PKTS_CRASH then 99 else 111.
Definition outfile (base : list Z) (type : Z) : list Z := base ++ lit "." ++ [outletter type] ++ lit "ut".

(** The file system, LastArcName of the nodes and ArcList *)
Record ostate := OS { os_fs : fsys; os_last : list (list Z); os_arcs : list (list Z * Z) }.
Definition set_fs (st : ostate) (fs : fsys) : ostate := OS fs (os_last st) (os_arcs st).
(** outbound.c:579-597 UpdateFile: osGetFileEntry gives the name without its path, which is
    then compared with the name with its path *)
Definition UpdateFile (st : ostate) (name : list Z) : ostate :=
  match fget (os_fs st) name with
  | None => st
  | Some c => OS (os_fs st) (os_last st)
      (if existsb (fun a => streqi (fst a) name) (os_arcs st)
       then map (fun a => if streqi (fst a) name then (fst a, Z.of_nat (length c)) else a) (os_arcs st)
       else os_arcs st ++ [(GetFilePart name, Z.of_nat (length c))])
  end.
Fixpoint nodeindex (nodes : list onode) (n : node4d) (i : nat) : option (nat * onode) :=
  match nodes with
  | [] => None
  | c :: r => if Compare4D (on_node c) n =? 0 then Some (i, c) else nodeindex r n (S i)
  end.
(** rename; nothing happens if it fails (its result is ignored) *)
Definition tryrename (fs : fsys) (a b : list Z) : fsys := match osRename fs a b with Some fs' => fs' | None => fs end.
(** the directory part of a path *)
Definition dirpart (f : list Z) : list Z := firstn (length f - length (GetFilePart f)) f.
(** GetFilePart(pktname)[8]=0; strcat(pktname,".pkt") *)
Definition pktfile (f : list Z) : list Z := dirpart f ++ firstn 8 (GetFilePart f) ++ lit ".pkt".

(** One step of the program that changes the disk: writing a file, removing one, renaming
    one (without effect if there is no such file), running an external program. *)
Inductive fop := Put (n c : list Z) | Del (n : list Z) | Ren (a b : list Z) | Exec (cmd : list Z).

Section Pack.
  (** osExecute: the file system afterwards and the exit status *)
  Context (exec : list Z -> fsys -> fsys * Z) (env : oenv).

  Definition apply (fs : fsys) (o : fop) : fsys :=
    match o with
    | Put n c => fput fs n c
    | Del n => osDelete fs n
    | Ren a b => tryrename fs a b
    | Exec cmd => fst (exec cmd fs)
    end.
  Definition run (fs : fsys) (ops : list fop) : fsys := fold_left apply ops fs.
  Definition doing (st : ostate) (ops : list fop) : ostate := set_fs st (run (os_fs st) ops).

  (** outbound.c:120-142 WriteIndex *)
  Definition indexops (last : list (list Z)) : option (list fop) :=
    do p <- path200 (oe_packetdir env) (lit "cmindex");
    Some (if oe_noopen env p then [] else [Put p (indexlines (oe_nodes env) last)]).
  (** doAddFlow as steps *)
  Definition flowops (fs : fsys) (file base : list Z) (type mode : Z) : list fop * bool :=
    let fn := flowfile base type in
    if oe_noopen env fn then ([], false)
    else ([Put fn (addflow (oe_flags env) (match fget fs fn with Some s => s | None => [] end) file mode)], true).
  (** MakeOrphan as steps *)
  Definition orphanops (file : list Z) (n : node4d) (type mode : Z) : option (list fop) :=
    if Nat.ltb (length (orphanname file)) 200 then
      if oe_noopen env (orphanname file) then Some [] else
      do t <- orphantext type n mode; Some [Put (orphanname file) t]
    else None.
  (** "if(!doAddFlow(...)) MakeOrphan(...)" *)
  Definition attachops (fs : fsys) (file base : list Z) (n : node4d) (type mode : Z) : option (list fop) :=
    let '(o, ok) := flowops fs file base type mode in
    if ok then Some o else orphanops file n type mode.

  (** outbound.c:673-739: echomail for node [i] with a packer: the state afterwards, the
      steps, and FALSE if the packet has to be kept. *)
  Definition packecho (st : ostate) (file base : list Z) (i : nat) (c : onode) (packer : list Z) (n : node4d) : option (ostate * list fop * bool) :=
    do x <- MakeArcName env (os_arcs st) (os_last st) i;
    let '(name, last, changed) := x in
    do o1 <- (if changed then indexops last else Some []);
    do arc <- path200 (oe_packetdir env) name;
    let pkt := pktfile (firstn 199 file) in
    let o1 := o1 ++ [Ren file pkt] in
    let st := doing (OS (os_fs st) last (os_arcs st)) o1 in
    do y <- (match oe_beforepack env with
             | [] => Some ([], 0)
             | cmd => do cmd <- ExpandPacker cmd arc pkt; Some ([Exec cmd], snd (exec cmd (os_fs st)))
             end);
    let '(o2, res) := y in
    let st := doing st o2 in
    if negb (res =? 0) then Some (doing st [Ren pkt file], o1 ++ o2 ++ [Ren pkt file], false) else
    do cmd <- ExpandPacker packer arc pkt;
    let res := snd (exec cmd (os_fs st)) in
    let st := doing st [Exec cmd] in
    if res =? 0 then
      let st := doing (UpdateFile st arc) [Del pkt] in
      do o3 <- attachops (os_fs st) arc base n (on_pri c) FLOW_DELETE;
      Some (doing st o3, o1 ++ o2 ++ [Exec cmd; Del pkt] ++ o3, true)
    else Some (doing st [Ren pkt file], o1 ++ o2 ++ [Exec cmd; Ren pkt file], false).

  (** outbound.c:740-768: echomail without packer; [None] also for a node that is not
      configured (cnode is NULL, lines 750 and 764). A move is a rename; a move between
      file systems, which copies, is not modelled. *)
  Definition sendecho (fs : fsys) (file base : list Z) (c : option onode) (n : node4d) : option (list fop * bool) :=
    do p <- path200 (oe_packetdir env) (GetFilePart file);
    let pkt := pktfile p in
    do c <- c;
    match osRename fs file pkt with
    | None => Some ([], false)
    | Some fs =>
      do o <- attachops fs pkt base n (on_pri c) FLOW_DELETE;
      Some ([Ren file pkt] ++ o, true)
    end.

  (** outbound.c:769-848: netmail. Reading and writing succeed. *)
  Definition sendnet (fs : fsys) (file base : list Z) (type : Z) : list fop * bool :=
    let out := outfile base type in
    match fget fs file with
    | None => ([], false)
    | Some new => if oe_noopen env out then ([], false)
                  else ([Put out (merge (fget fs out) new); Del file], true)
    end.

  (** outbound.c:603-856 PackFile *)
  Definition PackFile (st : ostate) (file : list Z) : option (ostate * list fop * bool) :=
    do p <- parsepktname file;
    match p with
    | None => Some (st, [], false)
    | Some (type, n) =>
      do base <- MakeBaseName env n;
      match LockBasename env (os_fs st) base with
      | None => Some (st, [], false)
      | Some _ =>
        let lock := [Put (bsyname base) []] in
        let unlock := [Del (bsyname base)] in
        let st := doing st lock in
        do r <- (if type =? PKTS_ECHOMAIL then
                   match nodeindex (oe_nodes env) n 0 with
                   | Some (i, c) =>
                     match on_packer c with
                     | Some packer => packecho st file base i c packer n
                     | None => do x <- sendecho (os_fs st) file base (Some c) n; Some (doing st (fst x), fst x, snd x)
                     end
                   | None => do x <- sendecho (os_fs st) file base None n; Some (doing st (fst x), fst x, snd x)
                   end
                 else let '(o, ok) := sendnet (os_fs st) file base type in Some (doing st o, o, ok));
        let '(st, ops, ok) := r in
        Some (doing st unlock, lock ++ ops ++ unlock, ok)
      end
    end.
End Pack.
