(** Model of the echomail part of src/crashmail/handle.c: AddTossNode, AddArea, WriteBad,
    AddNodePath, StripRe and HandleEchomail, and of MatchFlags of misc.c.

    Effects are recorded as a list of events in the order in which they happen. Message
    base imports, disk writes and memory allocation are taken to succeed; log output and
    statistics are not modelled. *)
From Verif Require Import Base M_Node4D M_Pat M_Str M_Mem M_Cfg M_Pkt M_Dupe.

(** config.h:118-123 struct TossNode; the node is its position in CNodeList. *)
Record tossnode := TN { tn_node : nat; tn_flags : Z }.
(** config.h:70-103 struct Area. [ar_mb]: a message base is configured (else the area is
    passed through). Not modelled: Description, Path, KeepNum, KeepDays, statistics. *)
Record area := AR { ar_tag : list Z; ar_type : Z; ar_flags : Z; ar_group : Z; ar_aka : aka;
                    ar_tn : list tossnode; ar_mb : bool }.

(** handle.c:78-79 etc.: the flags of config.h:10 and shared/fidonet.h:80-85 *)
Definition CFG_STRIPRE := 4.
Definition FLAG_SENT := 8.
Definition FLAG_LOCAL := 256.
(** config.h:294-296 *)
Definition DUPE_IGNORE := 0.
Definition DUPE_BAD := 1.
Definition DUPE_KILL := 2.

(** what HandleEchomail reads of the configuration *)
Record ecfg := EC { ec_flags : Z; ec_akas : list aka; ec_nodes : list cnode; ec_dupemode : Z; ec_dupesize : nat }.

(** observable effects: a message is written to the packet for node i of CNodeList; a
    message is imported into the message base of the area with this tag *)
Inductive ev := EvSend (i : nat) (data : list Z) | EvImport (tag : list Z) (mm : memmsg).

(** the changing part of the program state: the area list, the IsInSeenBy field of the
    configured nodes (by position), the duplicate database, the effects so far *)
Record est := ES { es_areas : list area; es_insb : nat -> bool; es_dupes : dupedb; es_out : list ev }.

Definition cn0 : cnode := CN null4d [] [] [] [] [] 0 0 [] null4d [] [].
Definition getcn (cfg : ecfg) (i : nat) : cnode := nth i (ec_nodes cfg) cn0.
Definition tnnode (cfg : ecfg) (t : tossnode) : node4d := cn_node (getcn cfg (tn_node t)).

(** misc.c:317-328 MatchFlags (group lists are shorter than 256 characters) *)
Definition MatchFlags (group : Z) (l : list Z) : bool := mem group l.

(** handle.c:74-93 AddTossNode *)
Definition AddTossNode (l : list tossnode) (i : nat) (flags : Z) : list tossnode :=
  if existsb (fun t => Nat.eqb (tn_node t) i) l then l else l ++ [TN i flags].

(** position of the first element with this address *)
Fixpoint findidx {A} (f : A -> node4d) (n : node4d) (l : list A) : option nat :=
  match l with
  | [] => None
  | x :: r => if Compare4D (f x) n =? 0 then Some O else option_map S (findidx f n r)
  end.

(** handle.c:185-203: the default area used as a template *)
Definition defarea_for (areas : list area) (cn : option cnode) : option area :=
  let bygroup := match cn with
                 | Some c => if cn_defgroup c =? 0 then None else
                             find (fun a => strneqi 8 (ar_tag a) (lit "DEFAULT_") &&
                                            MatchFlags (cn_defgroup c) (firstn 49 (skipn 8 (ar_tag a)))) areas
                 | None => None
                 end in
  match bygroup with
  | Some a => Some a
  | None => find (fun a => streqi (ar_tag a) (lit "DEFAULT")) areas
  end.

(** handle.c:221-231: flags taken over from the default area *)
Definition takeflags (f : Z) : Z := Z.land f (AREA_MANDATORY + AREA_DEFREADONLY + AREA_IGNOREDUPES + AREA_IGNORESEENBY).

(** handle.c:148-278 AddArea: the new area, which is appended to AreaList. [None]: no AKA
    is configured (the area gets a NULL Aka). Directory name and description are not
    modelled. *)
Definition AddArea (cfg : ecfg) (areas : list area) (name : list Z) (node mynode : node4d) (active forcepassthru : bool) : option area :=
  match (match findnode ak_node mynode (ec_akas cfg) with Some a => Some a | None => hd_error (ec_akas cfg) end) with
  | None => None
  | Some ak =>
    let ci := findidx cn_node node (ec_nodes cfg) in
    let cn := option_map (getcn cfg) ci in
    let def := defarea_for areas cn in
    let mb := match def with Some d => if forcepassthru then false else ar_mb d | None => false end in
    let fl0 := match def with Some d => takeflags (ar_flags d) | None => 0 end in
    let tn0 := match def with Some d => fold_left (fun l t => AddTossNode l (tn_node t) (tn_flags t)) (ar_tn d) [] | None => [] end in
    let fl := if active then fl0 else AREA_UNCONFIRMED in
    match ci with
    | None => Some (AR name AREATYPE_ECHOMAIL fl 0 ak tn0 mb)
    | Some i =>
      let g := cn_defgroup (getcn cfg i) in
      let tn1 := AddTossNode tn0 i TOSSNODE_FEED in
      let tn2 := fold_left (fun l j =>
                   let c := getcn cfg j in
                   if MatchFlags g (cn_addgroups c) then
                     AddTossNode l j (if flag fl AREA_DEFREADONLY || MatchFlags g (cn_rogroups c) then TOSSNODE_READONLY else 0)
                   else l) (seq 0 (length (ec_nodes cfg))) tn1 in
      Some (AR name AREATYPE_ECHOMAIL fl g ak tn2 mb)
    end
  end.

(** handle.c:282-292 FindNodes2D *)
Definition FindNodes2D (l : nodes2d) (n : node4d) : bool := existsb (n2eqb (net n, node n)) (entries l).

(** "%u:%u/%u.%u" is [WriteNode4D]. handle.c:321-368: the text put in front of a bad
    message *)
Definition badinfo (mm : memmsg) (reason : list Z) : list Z :=
  (match Area mm with
   | [] => lit "DEST:" ++ WriteNode4D (DestNode mm) ++ [13] ++ lit "ORIG:" ++ WriteNode4D (OrigNode mm) ++ [13]
   | a => lit "AREA:" ++ a ++ [13]
   end) ++
  lit "PKTORIG:" ++ WriteNode4D (PktOrig mm) ++ [13] ++
  lit "PKTDEST:" ++ WriteNode4D (PktDest mm) ++ [13] ++
  lit "ERROR:" ++ reason ++ [13].
(** handle.c:294-384 WriteBad: the events it causes. The information is a new first chunk
    of the text and is removed afterwards. *)
Definition WriteBad (areas : list area) (mm : memmsg) (reason : list Z) : list ev :=
  match find (fun a => ar_type a =? AREATYPE_BAD) areas with
  | None => []
  | Some a => if ar_mb a then [EvImport (ar_tag a) (set_TextChunks mm (TextChunks mm ++ [badinfo mm reason]))] else []
  end.

(** handle.c:404-417: last address of the last path line; [Some (net, node)] if the last
    word is an address. Every round that finds a word consumes a character, so the length
    of the line is enough fuel. [buf] is the array buf[40]. *)
Fixpoint lastpath (fuel : nat) (s : list Z) (lastnet : Z) (cur : option node4d) : option (option node4d) :=
  match fuel with
  | O => None
  | S f =>
    match jbstrcpy (repeat 0 40) s 40 with
    | (None, _, _) => None
    | (Some b, false, _) => Some cur
    | (Some b, true, rest) =>
      match Parse4D (cstr b) with
      | Some n => if net n =? 0 then lastpath f rest lastnet (Some (set_net n lastnet))
                  else lastpath f rest (net n) (Some n)
      | None => lastpath f rest lastnet None
      end
    end
  end.
Definition ptstr (n : node4d) : list Z := if point n =? 0 then [] else lit "." ++ dec (point n).
(** handle.c:386-493 AddNodePath; [None] is lack of fuel or a buffer overflow. *)
Definition AddNodePath (path : list (list Z)) (n : node4d) : option (list (list Z)) :=
  let full := dec (net n) ++ lit "/" ++ dec (node n) ++ ptstr n in
  match rev path with
  | [] => Some [full]
  | line :: before =>
    do lastn4 <- lastpath (S (length line)) line 0 None;
    let same := match lastn4 with
                | Some m => (net m =? net n) && (node m =? node n) && (point m =? point n)
                | None => false
                end in
    if same then Some path else
    let buf := match lastn4 with
               | Some m => if net m =? net n then dec (node n) ++ ptstr n else full
               | None => full
               end in
    if Nat.leb (length buf + length line) 70 then
      do l' <- scat 100 line (lit " " ++ buf); Some (rev before ++ [l'])
    else Some (path ++ [full])
  end.

(** handle.c:495-517 StripRe. [None]: looks behind the end of the string. *)
Fixpoint StripRe (fuel : nat) (s : list Z) : option (list Z) :=
  match fuel with
  | O => None
  | S f =>
    let skip1 s := match s with c :: r => if c =? 32 then r else s | [] => [] end in
    if strneqi 3 s (lit "Re:") then StripRe f (skip1 (skipn 3 s))
    else if strneqi 3 s (lit "Re^") then
      match nth_error (s ++ [0]) 4 with
      | None => None
      | Some c => if c =? 58 then StripRe f (skip1 (skipn 5 s)) else Some s
      end
    else if strneqi 3 s (lit "Re[") then
      match nth_error (s ++ [0]) 4 with
      | None => None
      | Some c => if c =? 93 then
                    match nth_error (s ++ [0]) 5 with
                    | None => None
                    | Some c => if c =? 58 then StripRe f (skip1 (skipn 6 s)) else Some s
                    end
                  else Some s
      end
    else Some s
  end.

Section Handle.
  (** the filters (filter.c Filter): the message afterwards and what they do besides, or
      [None] when Filter returns FALSE *)
  Context (cfg : ecfg) (flt : memmsg -> option (memmsg * list ev)).

  (** handle.c:628-638: IsInSeenBy of the linked nodes *)
  Definition setinsb (a : area) (sb : nodes2d) (insb : nat -> bool) : nat -> bool :=
    fold_left (fun f t => fun i => if Nat.eqb i (tn_node t) then
        (zone (tnnode cfg t) =? zone (ak_node (ar_aka a))) && (point (tnnode cfg t) =? 0) && FindNodes2D sb (tnnode cfg t)
      else f i) (ar_tn a) insb.

  (** handle.c:642-650 *)
  Definition addlinks (a : area) (sb : nodes2d) : nodes2d :=
    fold_left (fun sb t =>
      if (point (tnnode cfg t) =? 0) && (zone (ak_node (ar_aka a)) =? zone (tnnode cfg t)) &&
         negb (flag (cn_flags (getcn cfg (tn_node t))) NODE_PASSIVE) && negb (flag (tn_flags t) TOSSNODE_WRITEONLY)
      then mmAddNodes2DList sb (net (tnnode cfg t)) (node (tnnode cfg t)) else sb) (ar_tn a) sb.

  (** handle.c:618-621, :640-669: the SEEN-BY list *)
  Definition newseenby (a : area) (mm : memmsg) (sb : nodes2d) : nodes2d :=
    let sb := addlinks a sb in
    let sb := fold_left mmRemNodes2DListPat (ak_rem (ar_aka a)) sb in
    let sb := fold_left (fun sb n => mmAddNodes2DList sb (net n) (node n)) (ak_add (ar_aka a)) sb in
    let own := ak_node (ar_aka a) in
    if point own =? 0 then mmAddNodes2DList sb (net own) (node own) else sb.

  (** handle.c:723-735: the nodes that get the message, in order *)
  Definition sendto (a : area) (po : node4d) (insb : nat -> bool) (t : tossnode) : bool :=
    negb (Compare4D po (tnnode cfg t) =? 0) &&
    negb (flag (cn_flags (getcn cfg (tn_node t))) NODE_PASSIVE) &&
    negb (flag (tn_flags t) TOSSNODE_WRITEONLY) &&
    negb (insb (tn_node t) && flag (ec_flags cfg) CFG_CHECKSEENBY).
  Fixpoint sendall (a : area) (mm : memmsg) (l : list tossnode) : option (memmsg * list ev) :=
    match l with
    | [] => Some (mm, [])
    | t :: r =>
      do x <- echobytes mm (getcn cfg (tn_node t)) (ar_aka a);
      do y <- sendall a (snd x) r;
      Some (fst y, EvSend (tn_node t) (fst x) :: snd y)
    end.

  (** handle.c:741-759: import into the area. [None]: StripRe *)
  Definition importmsg (a : area) (mm : memmsg) : option memmsg :=
    do subj <- (if flag (ec_flags cfg) CFG_STRIPRE then StripRe (S (length (Subject mm))) (Subject mm) else Some (Subject mm));
    let mm := set_Subject mm subj in
    let mm := set_Attr mm (Z.lor (Attr mm) FLAG_SENT) in
    Some (set_Attr mm (Z.land (Attr mm) (65535 - FLAG_LOCAL))).

  (** handle.c:686-762: from the sorting of the SEEN-BY list on; the flag is the return
      value *)
  Definition deliver (a : area) (mm : memmsg) (insb : nat -> bool) : option (list ev * bool) :=
    do sb <- mmSortNodes2D (SeenBy mm);
    match flt (set_SeenBy mm sb) with
    | None => Some ([], false)
    | Some (mm, fev) =>
      if flag (Flags mm) MMFLAG_KILL then Some (fev, true) else
      do r <- (if flag (Flags mm) MMFLAG_RESCANNED then Some (mm, [])
               else sendall a mm (filter (sendto a (PktOrig mm) insb) (ar_tn a)));
      let '(mm, sends) := r in
      if flag (Flags mm) MMFLAG_TWIT then Some (fev ++ sends, true) else
      if negb (flag (Flags mm) MMFLAG_EXPORTED) && ar_mb a then
        do mm' <- importmsg a mm;
        Some (fev ++ sends ++ [EvImport (ar_tag a) mm'], true)
      else Some (fev ++ sends, true)
    end.

  (** handle.c:618-685: SEEN-BY, PATH and the duplicate check *)
  Definition tossecho (st : est) (a : area) (mm : memmsg) : option (est * bool) :=
    let sb := if negb (zone (ak_node (ar_aka a)) =? zone (PktOrig mm)) then [] else SeenBy mm in
    let insb := if flag (ec_flags cfg) CFG_CHECKSEENBY && negb (flag (ar_flags a) AREA_IGNORESEENBY)
                then setinsb a sb (es_insb st) else es_insb st in
    let mm := set_SeenBy mm (newseenby a mm sb) in
    do path <- (if (point (ak_node (ar_aka a)) =? 0) || flag (ec_flags cfg) CFG_PATH3D
                then AddNodePath (Path mm) (ak_node (ar_aka a)) else Some (Path mm));
    let mm := set_Path mm path in
    do d <- (if negb (ec_dupemode cfg =? DUPE_IGNORE) && flag (Flags mm) MMFLAG_TOSSED && negb (flag (ar_flags a) AREA_IGNOREDUPES)
             then CheckDupe (ec_dupesize cfg) (es_dupes st) (MSGID mm) (Area mm) else Some (false, es_dupes st));
    let '(dupe, db) := d in
    if dupe then
      Some (ES (es_areas st) insb db (es_out st ++ (if ec_dupemode cfg =? DUPE_BAD then WriteBad (es_areas st) mm (lit "Duplicate message") else [])), true)
    else
      do r <- deliver a mm insb;
      Some (ES (es_areas st) insb db (es_out st ++ fst r), snd r).

  (** handle.c:529-531, :533-556: the area, possibly a new one *)
  Definition getarea (st : est) (mm : memmsg) : option (est * area) :=
    match find (fun a => streqi (ar_tag a) (Area mm)) (es_areas st) with
    | Some a => Some (st, a)
    | None =>
      let active := match findnode cn_node (PktOrig mm) (ec_nodes cfg) with Some c => flag (cn_flags c) NODE_AUTOADD | None => false end in
      do a <- AddArea cfg (es_areas st) (Area mm) (PktOrig mm) (PktDest mm) active false;
      Some (ES (es_areas st ++ [a]) (es_insb st) (es_dupes st) (es_out st), a)
    end.

  Definition bad (st : est) (mm : memmsg) (reason : list Z) : option (est * bool) :=
    Some (ES (es_areas st) (es_insb st) (es_dupes st) (es_out st ++ WriteBad (es_areas st) mm reason), true).

  (** handle.c:519-763 HandleEchomail; [None]: undefined behaviour in one of the parts. *)
  Definition HandleEchomail (st : est) (mm : memmsg) : option (est * bool) :=
    let mm := set_Type mm PKTS_ECHOMAIL in
    do r <- getarea st mm;
    let '(st, a) := r in
    if flag (ar_flags a) AREA_UNCONFIRMED then bad st mm (lit "Unknown area (auto-added but not confirmed)") else
    if negb (flag (Flags mm) MMFLAG_EXPORTED) && negb (flag (Flags mm) MMFLAG_NOSECURITY) then
      match find (fun t => Compare4D (tnnode cfg t) (PktOrig mm) =? 0) (ar_tn a) with
      | None => bad st mm (lit "Node does not receive this area")
      | Some t => if flag (tn_flags t) TOSSNODE_READONLY then bad st mm (lit "Node is not allowed to write in this area")
                  else tossecho st a mm
      end
    else tossecho st a mm.
End Handle.
