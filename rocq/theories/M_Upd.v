(** Model of the parts of src/crashmail/config.c that read AKAs, packers, nodes and areas
    (ReadConfig) and that write them back (WriteNode, WriteArea, UpdateConfig).

    The pointers of a configuration (an area's AKA, the nodes an area is exported to, a
    node's packer, a message base) are positions in the lists they point into. *)
From Verif Require Import Base M_Node4D M_Str M_Mem M_Cfg M_Fs M_Out.

(** config.h:142-147 *)
Definition UNODE_NOTIFY := 32.
Definition UNODE_SENDAREAFIX := 128.
Definition UNODE_SENDTEXT := 256.
Definition UNODE_AFNEEDSPLUS := 1024.

(** config.h:155-189 struct ConfigNode; statistics, RemoteAFList and LastArcName are not in the
    configuration file *)
Record fnode := FN {
  fn_changed : bool; fn_node : node4d; fn_pw : list Z; fn_packer : option nat; fn_afpw : list Z;
  fn_groups : list Z; fn_rogroups : list Z; fn_addgroups : list Z; fn_defgroup : Z; fn_flags : Z;
  fn_sysop : list Z; fn_pri : Z; fn_pktfrom : node4d; fn_rafname : list Z; fn_rafpw : list Z }.
(** config.h:70-104 struct Area. TossNodes holds TossNode or, for netmail areas, ImportNode
    structures: two lists here *)
Record farea := FA {
  fa_changed : bool; fa_aka : nat; fa_flags : Z; fa_type : Z; fa_tag : list Z; fa_desc : list Z;
  fa_mb : option nat; fa_path : list Z; fa_group : Z; fa_toss : list (nat * Z); fa_import : list node4d;
  fa_banned : list nat; fa_keepnum : Z; fa_keepdays : Z }.
(** the part of struct Config that is modelled; [cf_other] are the lines with other keywords
    that have been read, in order *)
Record fconf := FC {
  cf_akas : list node4d; cf_packers : list (list Z); cf_nodes : list fnode; cf_areas : list farea;
  cf_other : list (list Z) }.

(** mb.c:11-43: the names in AvailMessagebases when both formats are compiled in *)
Definition mbnames : list (list Z) := [lit "MSG"; lit "JAM"].

(** ** Reading *)

(** jbstrcpy into a buffer of [n] bytes, of which the text in front of the NUL is used; it
    never overflows (C06_token_copy) *)
Definition tok (n : nat) (src : list Z) : list Z * bool * list Z :=
  match jbstrcpy (repeat 0 n) src n with
  | (Some b, ok, rest) => (cstr b, ok, rest)
  | (None, ok, rest) => ([], ok, rest)
  end.
(** "while(jbstrcpy(buf2,cfgbuf,n,&jbcpos))": the words that are left; every word takes at
    least one character, so [length src + 1] rounds are enough *)
Fixpoint words (fuel n : nat) (src : list Z) : list (list Z) :=
  match fuel with
  | O => []
  | S f => match tok n src with
           | (b, true, rest) => b :: words f n rest
           | (_, false, _) => []
           end
  end.
Definition allwords (n : nat) (src : list Z) : list (list Z) := words (S (length src)) n src.
(** config.c:5-18 CorrectFlags: the string in upper case, [None] for FALSE *)
Definition toupper (c : Z) : Z := if (97 <=? c) && (c <=? 122) then c - 32 else c.
Definition CorrectFlags (s : list Z) : option (list Z) :=
  let u := map toupper s in if forallb (fun c => (65 <=? c) && (c <=? 90)) u then Some u else None.
(** the first element for which [f] holds *)
Fixpoint findpos {A} (f : A -> bool) (l : list A) : option nat :=
  match l with
  | [] => None
  | x :: r => if f x then Some O else option_map S (findpos f r)
  end.
(** LastCNode, LastArea: the last element of the list; [None]: there is none *)
Fixpoint onlast {A} (f : A -> option A) (l : list A) : option (list A) :=
  match l with
  | [] => None
  | x :: r => match r with
              | [] => do y <- f x; Some [y]
              | _ => do r' <- onlast f r; Some (x :: r')
              end
  end.

(** a line is read, refused (ReadConfig returns FALSE), or overflows a buffer *)
Inductive rres := ROk (c : fconf) | RErr | RUB.
Definition rof (o : option fconf) : rres := match o with Some c => ROk c | None => RErr end.

Definition setnodes c l := FC (cf_akas c) (cf_packers c) l (cf_areas c) (cf_other c).
Definition setareas c l := FC (cf_akas c) (cf_packers c) (cf_nodes c) l (cf_other c).
(** change LastCNode; "No previous NODE line" if there is none *)
Definition lastnode (f : fnode -> option fnode) (c : fconf) : option fconf :=
  do l <- onlast f (cf_nodes c); Some (setnodes c l).
Definition lastarea (f : farea -> option farea) (c : fconf) : option fconf :=
  do l <- onlast f (cf_areas c); Some (setareas c l).
Definition kw (w : list Z) (s : String.string) : bool := streqi w (lit s).

(** config.c:68-98 AKA *)
Definition rdAka (c : fconf) (src : list Z) : option fconf :=
  let '(b, ok, _) := tok 200 src in
  if ok then do n <- Parse4D b; Some (FC (cf_akas c ++ [n]) (cf_packers c) (cf_nodes c) (cf_areas c) (cf_other c))
  else None.
(** config.c:1084-1126 PACKER: the commands and the pattern must be there *)
Definition rdPacker (c : fconf) (src : list Z) : option fconf :=
  let '(b, ok, src) := tok 10 src in
  if ok then
    let '(_, ok1, src) := tok 80 src in
    if ok1 then
      let '(_, ok2, src) := tok 80 src in
      if ok2 then
        let '(_, ok3, _) := tok 80 src in
        if ok3 then Some (FC (cf_akas c) (cf_packers c ++ [b]) (cf_nodes c) (cf_areas c) (cf_other c)) else None
      else None
    else None
  else None.

(** config.c:254-301: the switches of a NODE line *)
Definition nodeswitch (w : list Z) (x : Z * Z) : option (Z * Z) :=
  let '(fl, pri) := x in
  if kw w "NOTIFY" then Some (Z.lor fl UNODE_NOTIFY, pri)
  else if kw w "PASSIVE" then Some (Z.lor fl NODE_PASSIVE, pri)
  else if kw w "NOSEENBY" then Some (Z.lor fl NODE_NOSEENBY, pri)
  else if kw w "TINYSEENBY" then Some (Z.lor fl NODE_TINYSEENBY, pri)
  else if kw w "FORWARDREQ" then Some (Z.lor fl NODE_FORWARDREQ, pri)
  else if kw w "PACKNETMAIL" then Some (Z.lor fl NODE_PACKNETMAIL, pri)
  else if kw w "SENDAREAFIX" then Some (Z.lor fl UNODE_SENDAREAFIX, pri)
  else if kw w "SENDTEXT" then Some (Z.lor fl UNODE_SENDTEXT, pri)
  else if kw w "AUTOADD" then Some (Z.lor fl NODE_AUTOADD, pri)
  else if kw w "NONETMAILPASSWORD" then Some (Z.lor fl NODE_NONETMAILPASSWORD, pri)
  else if kw w "CRASH" then Some (fl, PKTS_CRASH)
  else if kw w "DIRECT" then Some (fl, PKTS_DIRECT)
  else if kw w "HOLD" then Some (fl, PKTS_HOLD)
  else None.
Fixpoint nodeswitches (ws : list (list Z)) (x : Z * Z) : option (Z * Z) :=
  match ws with
  | [] => Some x
  | w :: r => do y <- nodeswitch w x; nodeswitches r y
  end.
(** config.c:228-241: no name is no packer *)
Definition packerof (packers : list (list Z)) (p : list Z) : option (option nat) :=
  match p with
  | [] => Some None
  | _ => do i <- findpos (streqi p) packers; Some (Some i)
  end.
(** config.c:192-302 NODE *)
Definition rdNode (c : fconf) (src : list Z) : option fconf :=
  let '(b, ok, src) := tok 200 src in
  if ok then
    do n <- Parse4D b;
    let '(p, ok1, src) := tok 10 src in
    if ok1 then
      do pk <- packerof (cf_packers c) p;
      let '(pw, ok2, src) := tok 9 src in
      if ok2 then
        do x <- nodeswitches (allwords 200 src) (0, PKTS_NORMAL);
        Some (setnodes c (cf_nodes c ++
                [FN false n pw pk [] [] [] [] 0 (fst x) [] (snd x) (N4 0 0 0 0) [] []]))
      else None
    else None
  else None.
(** config.c:303-327 PKTFROM *)
Definition rdPktFrom (src : list Z) (n : fnode) : option fnode :=
  let '(b, ok, _) := tok 200 src in
  if ok then
    do a <- Parse4D b;
    Some (FN (fn_changed n) (fn_node n) (fn_pw n) (fn_packer n) (fn_afpw n) (fn_groups n) (fn_rogroups n) (fn_addgroups n)
             (fn_defgroup n) (Z.lor (fn_flags n) NODE_PKTFROM) (fn_sysop n) (fn_pri n) a (fn_rafname n) (fn_rafpw n))
  else None.
(** config.c:344-372: a list of groups is copied with a limit of 70 into an array of 30
    characters: [None] if it is too long for it. The inner [None]: CorrectFlags refuses it *)
Definition tokgroups (src : list Z) : option (option (list Z) * list Z) :=
  match jbstrcpy (repeat 0 30) src 70 with
  | (Some b, true, rest) => Some (CorrectFlags (cstr b), rest)
  | (Some b, false, rest) => Some (Some (cstr b), rest)
  | (None, _, _) => None
  end.
(** config.c:328-373 AREAFIXINFO; the error of one list is found before the next is copied *)
Definition rdAreafixInfo (c : fconf) (src : list Z) : rres :=
  match cf_nodes c with
  | [] => RErr
  | _ =>
    let '(pw, ok, src) := tok 40 src in
    if ok then
      match tokgroups src with
      | None => RUB
      | Some (None, _) => RErr
      | Some (Some g, src) =>
        match tokgroups src with
        | None => RUB
        | Some (None, _) => RErr
        | Some (Some ro, src) =>
          match tokgroups src with
          | None => RUB
          | Some (None, _) => RErr
          | Some (Some ad, _) =>
            rof (lastnode (fun n => Some (FN (fn_changed n) (fn_node n) (fn_pw n) (fn_packer n) pw g ro ad
               (fn_defgroup n) (fn_flags n) (fn_sysop n) (fn_pri n) (fn_pktfrom n) (fn_rafname n) (fn_rafpw n))) c)
          end
        end
      end
    else RErr
  end.
(** buf2[0] after CorrectFlags *)
Definition firstflag (b : list Z) : option Z := do u <- CorrectFlags b; Some (hd 0 u).
(** config.c:374-398 DEFAULTGROUP *)
Definition rdDefaultGroup (src : list Z) (n : fnode) : option fnode :=
  let '(b, ok, _) := tok 2 src in
  if ok then
    do g <- firstflag b;
    Some (FN (fn_changed n) (fn_node n) (fn_pw n) (fn_packer n) (fn_afpw n) (fn_groups n) (fn_rogroups n) (fn_addgroups n)
             g (fn_flags n) (fn_sysop n) (fn_pri n) (fn_pktfrom n) (fn_rafname n) (fn_rafpw n))
  else None.
(** config.c:1583-1618 REMOTEAF *)
Definition rdRemoteAF (src : list Z) (n : fnode) : option fnode :=
  let '(nm, ok, src) := tok 36 src in
  if ok then
    let '(pw, ok1, src) := tok 72 src in
    if ok1 then
      let ws := allwords 200 src in
      if forallb (fun w => kw w "NEEDSPLUS") ws then
        Some (FN (fn_changed n) (fn_node n) (fn_pw n) (fn_packer n) (fn_afpw n) (fn_groups n) (fn_rogroups n) (fn_addgroups n)
                 (fn_defgroup n) (match ws with [] => fn_flags n | _ => Z.lor (fn_flags n) UNODE_AFNEEDSPLUS end)
                 (fn_sysop n) (fn_pri n) (fn_pktfrom n) nm pw)
      else None
    else None
  else None.
(** config.c:1619-1635 REMOTESYSOP *)
Definition rdRemoteSysop (src : list Z) (n : fnode) : option fnode :=
  let '(b, ok, _) := tok 36 src in
  if ok then
    Some (FN (fn_changed n) (fn_node n) (fn_pw n) (fn_packer n) (fn_afpw n) (fn_groups n) (fn_rogroups n) (fn_addgroups n)
             (fn_defgroup n) (fn_flags n) b (fn_pri n) (fn_pktfrom n) (fn_rafname n) (fn_rafpw n))
  else None.

(** config.c:473-513: the type of an area; [None]: it cannot be pass-through *)
Definition areatype (w tag : list Z) (mb : option nat) (path : list Z) : option Z :=
  if kw w "NETMAIL" then match mb with None => None | Some _ => Some AREATYPE_NETMAIL end
  else if kw w "LOCALAREA" then match mb with None => None | Some _ => Some AREATYPE_LOCAL end
  else if kw tag "BAD" then match path with [] => None | _ => Some AREATYPE_BAD end
  else if kw tag "DEFAULT" || strneqi 8 tag (lit "DEFAULT_") then Some AREATYPE_DEFAULT
  else Some AREATYPE_ECHOMAIL.
(** config.c:399-513 AREA, NETMAIL, LOCALAREA *)
Definition rdArea (w : list Z) (c : fconf) (src : list Z) : option fconf :=
  let '(tag, ok, src) := tok 80 src in
  if ok then
    let '(b, ok1, src) := tok 200 src in
    if ok1 then
      do n <- Parse4D b;
      do ai <- findpos (fun k => Compare4D n k =? 0) (cf_akas c);
      let '(m, ok2, src) := tok 200 src in
      do mp <- (if ok2 then
                  do mi <- findpos (streqi m) mbnames;
                  let '(p, ok3, _) := tok 80 src in if ok3 then Some (Some mi, p) else None
                else Some (None, []));
      do ty <- areatype w tag (fst mp) (snd mp);
      Some (setareas c (cf_areas c ++ [FA false ai 0 ty tag [] (fst mp) (snd mp) 0 [] [] [] 0 0]))
    else None
  else None.
(** config.c:515-569 *)
Definition areaflag (f : Z) (a : farea) : option farea :=
  Some (FA (fa_changed a) (fa_aka a) (Z.lor (fa_flags a) f) (fa_type a) (fa_tag a) (fa_desc a) (fa_mb a) (fa_path a)
           (fa_group a) (fa_toss a) (fa_import a) (fa_banned a) (fa_keepnum a) (fa_keepdays a)).
(** config.c:595-614: every prefix replaces the flags *)
Definition exportprefix (b : list Z) : Z * list Z :=
  let '(f, b) := match b with 33 :: r => (TOSSNODE_READONLY, r) | _ => (0, b) end in
  let '(f, b) := match b with 64 :: r => (TOSSNODE_WRITEONLY, r) | _ => (f, b) end in
  match b with 37 :: r => (TOSSNODE_FEED, r) | _ => (f, b) end.
(** config.c:588-645: the nodes of an EXPORT line *)
Fixpoint exports (nodes : list node4d) (tpl : node4d) (ws : list (list Z)) : option (list (nat * Z)) :=
  match ws with
  | [] => Some []
  | w :: r =>
    let '(f, b) := exportprefix w in
    do n <- Parse4DTemplate b tpl;
    do i <- findpos (fun k => Compare4D n k =? 0) nodes;
    do l <- exports nodes (N4 (zone n) (net n) (node n) 0) r;
    Some ((i, f) :: l)
  end.
Definition rdExport (nodes : list node4d) (src : list Z) (a : farea) : option farea :=
  if (fa_type a =? AREATYPE_ECHOMAIL) || (fa_type a =? AREATYPE_DEFAULT) then
    do l <- exports nodes (N4 0 0 0 0) (allwords 100 src);
    Some (FA (fa_changed a) (fa_aka a) (fa_flags a) (fa_type a) (fa_tag a) (fa_desc a) (fa_mb a) (fa_path a)
           (fa_group a) (fa_toss a ++ l) (fa_import a) (fa_banned a) (fa_keepnum a) (fa_keepdays a))
  else None.
(** config.c:647-681 IMPORT *)
Fixpoint addrs (ws : list (list Z)) : option (list node4d) :=
  match ws with
  | [] => Some []
  | w :: r => do n <- Parse4D w; do l <- addrs r; Some (n :: l)
  end.
Definition rdImport (src : list Z) (a : farea) : option farea :=
  if fa_type a =? AREATYPE_NETMAIL then
    do l <- addrs (allwords 100 src);
    Some (FA (fa_changed a) (fa_aka a) (fa_flags a) (fa_type a) (fa_tag a) (fa_desc a) (fa_mb a) (fa_path a)
           (fa_group a) (fa_toss a) (fa_import a ++ l) (fa_banned a) (fa_keepnum a) (fa_keepdays a))
  else None.
(** config.c:682-720 BANNED *)
Fixpoint bans (nodes : list node4d) (ws : list (list Z)) : option (list nat) :=
  match ws with
  | [] => Some []
  | w :: r => do n <- Parse4D w;
              do i <- findpos (fun k => Compare4D n k =? 0) nodes;
              do l <- bans nodes r; Some (i :: l)
  end.
Definition rdBanned (nodes : list node4d) (src : list Z) (a : farea) : option farea :=
  do l <- bans nodes (allwords 100 src);
  Some (FA (fa_changed a) (fa_aka a) (fa_flags a) (fa_type a) (fa_tag a) (fa_desc a) (fa_mb a) (fa_path a)
           (fa_group a) (fa_toss a) (fa_import a) (fa_banned a ++ l) (fa_keepnum a) (fa_keepdays a)).
(** config.c:721-737 DESCRIPTION *)
Definition rdDescription (src : list Z) (a : farea) : option farea :=
  let '(b, ok, _) := tok 80 src in
  if ok then
    Some (FA (fa_changed a) (fa_aka a) (fa_flags a) (fa_type a) (fa_tag a) b (fa_mb a) (fa_path a)
           (fa_group a) (fa_toss a) (fa_import a) (fa_banned a) (fa_keepnum a) (fa_keepdays a))
  else None.
(** config.c:738-762 GROUP *)
Definition rdGroup (src : list Z) (a : farea) : option farea :=
  let '(b, ok, _) := tok 30 src in
  if ok then
    do g <- firstflag b;
    Some (FA (fa_changed a) (fa_aka a) (fa_flags a) (fa_type a) (fa_tag a) (fa_desc a) (fa_mb a) (fa_path a)
           g (fa_toss a) (fa_import a) (fa_banned a) (fa_keepnum a) (fa_keepdays a))
  else None.
(** config.c:763-798 KEEPNUM, KEEPDAYS: atol into a uint32_t; atol beyond the range of a long
    is not modelled *)
Definition rdKeepNum (src : list Z) (a : farea) : option farea :=
  let '(b, ok, _) := tok 30 src in
  if ok then
    Some (FA (fa_changed a) (fa_aka a) (fa_flags a) (fa_type a) (fa_tag a) (fa_desc a) (fa_mb a) (fa_path a)
           (fa_group a) (fa_toss a) (fa_import a) (fa_banned a) (u32 (atoi b)) (fa_keepdays a))
  else None.
Definition rdKeepDays (src : list Z) (a : farea) : option farea :=
  let '(b, ok, _) := tok 30 src in
  if ok then
    Some (FA (fa_changed a) (fa_aka a) (fa_flags a) (fa_type a) (fa_tag a) (fa_desc a) (fa_mb a) (fa_path a)
           (fa_group a) (fa_toss a) (fa_import a) (fa_banned a) (fa_keepnum a) (u32 (atoi b)))
  else None.

Section Read.
  (** The keywords that are not modelled: none of them changes an AKA's address, a packer's
      name, a node or an area. Whether such a line is accepted may depend on the other such
      lines read before it and on the addresses and packers known so far. *)
  Variable okother : list (list Z) -> list node4d -> list (list Z) -> list node4d -> list Z -> bool.

  (** config.c:62-1823: one line *)
  Definition rdline (c : fconf) (line : list Z) : rres :=
    let '(w, _, src) := tok 30 line in
    let nodes := map fn_node (cf_nodes c) in
    if kw w "AKA" then rof (rdAka c src)
    else if kw w "NODE" then rof (rdNode c src)
    else if kw w "PKTFROM" then rof (lastnode (rdPktFrom src) c)
    else if kw w "AREAFIXINFO" then rdAreafixInfo c src
    else if kw w "DEFAULTGROUP" then rof (lastnode (rdDefaultGroup src) c)
    else if kw w "AREA" || kw w "NETMAIL" || kw w "LOCALAREA" then rof (rdArea w c src)
    else if kw w "UNCONFIRMED" then rof (lastarea (areaflag AREA_UNCONFIRMED) c)
    else if kw w "MANDATORY" then rof (lastarea (areaflag AREA_MANDATORY) c)
    else if kw w "DEFREADONLY" then rof (lastarea (areaflag AREA_DEFREADONLY) c)
    else if kw w "IGNOREDUPES" then rof (lastarea (areaflag AREA_IGNOREDUPES) c)
    else if kw w "IGNORESEENBY" then rof (lastarea (areaflag AREA_IGNORESEENBY) c)
    else if kw w "EXPORT" then rof (lastarea (rdExport nodes src) c)
    else if kw w "IMPORT" then rof (lastarea (rdImport src) c)
    else if kw w "BANNED" then rof (lastarea (rdBanned nodes src) c)
    else if kw w "DESCRIPTION" then rof (lastarea (rdDescription src) c)
    else if kw w "GROUP" then rof (lastarea (rdGroup src) c)
    else if kw w "KEEPNUM" then rof (lastarea (rdKeepNum src) c)
    else if kw w "KEEPDAYS" then rof (lastarea (rdKeepDays src) c)
    else if kw w "PACKER" then rof (rdPacker c src)
    else if kw w "REMOTEAF" then rof (lastnode (rdRemoteAF src) c)
    else if kw w "REMOTESYSOP" then rof (lastnode (rdRemoteSysop src) c)
    else if (hd 0 w =? 0) || (hd 0 w =? 59) then ROk c
    else if okother (cf_other c) (cf_akas c) (cf_packers c) nodes line
         then ROk (FC (cf_akas c) (cf_packers c) (cf_nodes c) (cf_areas c) (cf_other c ++ [line])) else RErr.
  Fixpoint rdlines (ls : list (list Z)) (c : fconf) : rres :=
    match ls with
    | [] => ROk c
    | l :: r => match rdline c l with ROk c' => rdlines r c' | e => e end
    end.
  (** "while(osFGets(cfgfh,cfgbuf,4000))": the lines of a file; a line that begins with NUL
      ends them. Every line takes a character, so [length s] rounds are enough *)
  Fixpoint flines_ (fuel : nat) (s : list Z) : list (list Z) :=
    match fuel with
    | O => []
    | S f => match osFGets 4000 s with
             | None => []
             | Some (l, r) => l :: flines_ f r
             end
    end.
  Definition flines (s : list Z) : list (list Z) := flines_ (length s) s.
  (** config.c:22-1826 ReadConfig on an empty configuration (InitConfig, 1954-1976) *)
  Definition ReadConfig (s : list Z) : rres := rdlines (flines s) (FC [] [] [] [] []).
End Read.

(** ** Writing; [None]: the buffer of WriteSafely overflows, or a pointer is invalid *)

(** "if(x) print s" *)
Definition opt (b : bool) (s : String.string) : list Z := if b then lit s else [].
(** config.c:2011-2114 WriteNode *)
Definition packername (packers : list (list Z)) (p : option nat) : option (list Z) :=
  match p with None => Some [] | Some i => nth_error packers i end.
Definition nodeflags (n : fnode) : list Z :=
  opt (flag (fn_flags n) NODE_PASSIVE) " PASSIVE" ++ opt (flag (fn_flags n) UNODE_NOTIFY) " NOTIFY" ++
  opt (flag (fn_flags n) NODE_NOSEENBY) " NOSEENBY" ++ opt (flag (fn_flags n) NODE_TINYSEENBY) " TINYSEENBY" ++
  opt (flag (fn_flags n) NODE_FORWARDREQ) " FORWARDREQ" ++ opt (flag (fn_flags n) NODE_PACKNETMAIL) " PACKNETMAIL" ++
  opt (flag (fn_flags n) NODE_NONETMAILPASSWORD) " NONETMAILPASSWORD" ++
  opt (flag (fn_flags n) UNODE_SENDAREAFIX) " SENDAREAFIX" ++ opt (flag (fn_flags n) UNODE_SENDTEXT) " SENDTEXT" ++
  opt (flag (fn_flags n) NODE_AUTOADD) " AUTOADD" ++
  opt (fn_pri n =? PKTS_CRASH) " CRASH" ++ opt (fn_pri n =? PKTS_DIRECT) " DIRECT" ++ opt (fn_pri n =? PKTS_HOLD) " HOLD".
Definition ne (s : list Z) : bool := match s with [] => false | _ => true end.
Definition WriteNode (packers : list (list Z)) (n : fnode) : option (list Z) :=
  do pk <- packername packers (fn_packer n);
  do qp <- WriteSafely pk;
  do qw <- WriteSafely (fn_pw n);
  let head := lit "NODE " ++ WriteNode4D (fn_node n) ++ lit " " ++ qp ++ lit " " ++ qw ++ nodeflags n ++ [10] in
  let from := if flag (fn_flags n) NODE_PKTFROM then lit "PKTFROM " ++ WriteNode4D (fn_pktfrom n) ++ [10] else [] in
  do info <- (if ne (fn_afpw n) || ne (fn_groups n) || ne (fn_rogroups n) || ne (fn_addgroups n) then
                do q1 <- WriteSafely (fn_afpw n); do q2 <- WriteSafely (fn_groups n);
                do q3 <- WriteSafely (fn_rogroups n); do q4 <- WriteSafely (fn_addgroups n);
                Some (lit "AREAFIXINFO " ++ q1 ++ lit " " ++ q2 ++ lit " " ++ q3 ++ lit " " ++ q4 ++ lit " " ++ [10])
              else Some []);
  do raf <- (if ne (fn_rafname n) then
               do q1 <- WriteSafely (fn_rafname n); do q2 <- WriteSafely (fn_rafpw n);
               Some (lit "REMOTEAF " ++ q1 ++ lit " " ++ q2 ++ opt (flag (fn_flags n) UNODE_AFNEEDSPLUS) " NEEDSPLUS" ++ [10])
             else Some []);
  do sys <- (if ne (fn_sysop n) then do q <- WriteSafely (fn_sysop n); Some (lit "REMOTESYSOP " ++ q ++ [10]) else Some []);
  let grp := if fn_defgroup n =? 0 then [] else lit "DEFAULTGROUP " ++ [fn_defgroup n] ++ [10] in
  Some (head ++ from ++ info ++ raf ++ sys ++ grp).

(** config.c:2146-2219: a list of items, ten on a line, each line beginning with [key] *)
Fixpoint tens (key : list Z) (c : nat) (items : list (list Z)) : list Z :=
  match items with
  | [] => match c with O => [] | _ => [10] end
  | x :: r => (if Nat.eqb (c mod 10) 0 then (match c with O => [] | _ => [10] end) ++ key else []) ++
              [32] ++ x ++ tens key (S c) r
  end.
(** config.c:2180-2190 *)
Definition exportitem (nodes : list node4d) (t : nat * Z) : option (list Z) :=
  do n <- nth_error nodes (fst t);
  Some (opt (flag (snd t) TOSSNODE_READONLY) "!" ++ opt (flag (snd t) TOSSNODE_WRITEONLY) "@" ++
        opt (flag (snd t) TOSSNODE_FEED) "%" ++ WriteNode4D n).
Fixpoint omap {A B} (f : A -> option B) (l : list A) : option (list B) :=
  match l with
  | [] => Some []
  | x :: r => do y <- f x; do l' <- omap f r; Some (y :: l')
  end.
(** config.c:2224-2238 *)
Definition flagline (a : farea) (f : Z) (s : String.string) : list Z := if flag (fa_flags a) f then lit s ++ [10] else [].
(** config.c:2116-2239 WriteArea *)
Definition WriteArea (akas nodes : list node4d) (a : farea) : option (list Z) :=
  do aka <- nth_error akas (fa_aka a);
  do qt <- WriteSafely (fa_tag a);
  do mb <- (match fa_mb a with
            | None => Some []
            | Some i => do nm <- nth_error mbnames i; do q <- WriteSafely (fa_path a); Some (lit " " ++ nm ++ lit " " ++ q)
            end);
  let head := opt (fa_type a =? AREATYPE_NETMAIL) "NETMAIL " ++
              (if fa_type a =? AREATYPE_LOCAL then lit "LOCALAREA " else lit "AREA ") ++
              qt ++ lit " " ++ WriteNode4D aka ++ mb ++ [10] in
  do lst <- (if fa_type a =? AREATYPE_NETMAIL then Some (tens (lit "IMPORT") 0 (map WriteNode4D (fa_import a)))
             else if (fa_type a =? AREATYPE_ECHOMAIL) || (fa_type a =? AREATYPE_DEFAULT) then
               do l <- omap (exportitem nodes) (fa_toss a); Some (tens (lit "EXPORT") 0 l)
             else Some []);
  do bl <- omap (nth_error nodes) (fa_banned a);
  let ban := tens (lit "BANNED") 0 (map WriteNode4D bl) in
  do desc <- (if ne (fa_desc a) then do q <- WriteSafely (fa_desc a); Some (lit "DESCRIPTION " ++ q ++ [10]) else Some []);
  let grp := if fa_group a =? 0 then [] else lit "GROUP " ++ [fa_group a] ++ [10] in
  let num := if fa_keepnum a =? 0 then [] else lit "KEEPNUM " ++ dec (fa_keepnum a) ++ [10] in
  let days := if fa_keepdays a =? 0 then [] else lit "KEEPDAYS " ++ dec (fa_keepdays a) ++ [10] in
  Some (head ++ lst ++ ban ++ desc ++ grp ++ num ++ days ++
        flagline a AREA_UNCONFIRMED "UNCONFIRMED" ++ flagline a AREA_MANDATORY "MANDATORY" ++ flagline a AREA_DEFREADONLY "DEFREADONLY" ++
        flagline a AREA_IGNOREDUPES "IGNOREDUPES" ++ flagline a AREA_IGNORESEENBY "IGNORESEENBY").

(** ** Updating *)

(** config.c:2003-2009 *)
Definition nodekeywords : list (list Z) :=
  [lit "DEFAULTGROUP"; lit "REMOTESYSOP"; lit "REMOTEAF"; lit "AREAFIXINFO"; lit "NODE"; lit "PKTFROM"].
Definition areakeywords : list (list Z) :=
  [lit "IGNORESEENBY"; lit "IGNOREDUPES"; lit "DEFREADONLY"; lit "MANDATORY"; lit "UNCONFIRMED"; lit "KEEPNUM"; lit "KEEPDAYS";
   lit "GROUP"; lit "DESCRIPTION"; lit "BANNED"; lit "EXPORT"; lit "IMPORT"; lit "AREA"; lit "NETMAIL"].

Definition doneA (a : farea) : farea :=
  FA false (fa_aka a) (fa_flags a) (fa_type a) (fa_tag a) (fa_desc a) (fa_mb a) (fa_path a)
     (fa_group a) (fa_toss a) (fa_import a) (fa_banned a) (fa_keepnum a) (fa_keepdays a).
Definition doneN (n : fnode) : fnode :=
  FN false (fn_node n) (fn_pw n) (fn_packer n) (fn_afpw n) (fn_groups n) (fn_rogroups n) (fn_addgroups n)
     (fn_defgroup n) (fn_flags n) (fn_sysop n) (fn_pri n) (fn_pktfrom n) (fn_rafname n) (fn_rafpw n).
Fixpoint updnth {A} (f : A -> A) (i : nat) (l : list A) : list A :=
  match l, i with
  | [], _ => []
  | x :: r, O => f x :: r
  | x :: r, S j => x :: updnth f j r
  end.

(** the variables of UpdateConfig: the configuration, skiparea and skipnode *)
Record ustate := US { us_conf : fconf; us_skiparea : bool; us_skipnode : bool }.
(** config.c:2279-2309: an AREA line; what is written first *)
Definition updarea (s : ustate) (src : list Z) : option (ustate * list Z) :=
  let '(b, ok, _) := tok 100 src in
  if ok then
    match findpos (fun a => streqi b (fa_tag a)) (cf_areas (us_conf s)) with
    | None => Some (US (us_conf s) true (us_skipnode s), [])
    | Some i =>
      do a <- nth_error (cf_areas (us_conf s)) i;
      if fa_changed a then
        do t <- WriteArea (cf_akas (us_conf s)) (map fn_node (cf_nodes (us_conf s))) a;
        Some (US (setareas (us_conf s) (updnth doneA i (cf_areas (us_conf s)))) true (us_skipnode s), t ++ [10])
      else Some (US (us_conf s) false (us_skipnode s), [])
    end
  else Some (US (us_conf s) false (us_skipnode s), []).
(** config.c:2311-2330: a NODE line *)
Definition updnode (s : ustate) (src : list Z) : option (ustate * list Z) :=
  let s0 := US (us_conf s) (us_skiparea s) false in
  let '(b, ok, _) := tok 100 src in
  if ok then
    match Parse4D b with
    | None => Some (s0, [])
    | Some n =>
      match findpos (fun k => Compare4D n (fn_node k) =? 0) (cf_nodes (us_conf s)) with
      | None => Some (s0, [])
      | Some i =>
        do k <- nth_error (cf_nodes (us_conf s)) i;
        if fn_changed k then
          do t <- WriteNode (cf_packers (us_conf s)) k;
          Some (US (setnodes (us_conf s) (updnth doneN i (cf_nodes (us_conf s)))) (us_skiparea s) true, t ++ [10])
        else Some (s0, [])
      end
    end
  else Some (s0, []).
(** config.c:2272-2354: one line of the old file; what is written to the new one *)
Definition updline (s : ustate) (line : list Z) : option (ustate * list Z) :=
  let '(w, copyres, src) := tok 30 line in
  do x <- (if kw w "AREA" || kw w "NETMAIL" || kw w "LOCALAREA" then updarea s src else Some (s, []));
  do y <- (if kw w "NODE" then updnode (fst x) src else Some (fst x, []));
  let s' := fst y in
  let dontwrite := (us_skiparea s' && (existsb (streqi w) areakeywords || negb copyres)) ||
                   (us_skipnode s' && (existsb (streqi w) nodekeywords || negb copyres)) in
  Some (s', snd x ++ snd y ++ (if dontwrite then [] else line)).
Fixpoint updlines (s : ustate) (ls : list (list Z)) : option (ustate * list Z) :=
  match ls with
  | [] => Some (s, [])
  | l :: r => do x <- updline s l; do y <- updlines (fst x) r; Some (fst y, snd x ++ snd y)
  end.
(** config.c:2356-2362: the areas that are not in the file *)
Fixpoint updnew (akas nodes : list node4d) (l : list farea) : option (list Z) :=
  match l with
  | [] => Some []
  | a :: r => do t <- (if fa_changed a then do t <- WriteArea akas nodes a; Some ([10] ++ t) else Some []);
              do t' <- updnew akas nodes r; Some (t ++ t')
  end.
(** config.c:2270-2362: the text of the new file *)
Definition newtext (c : fconf) (old : list Z) : option (list Z) :=
  do x <- updlines (US c false false) (flines old);
  let c' := us_conf (fst x) in
  do t <- updnew (cf_akas c') (map fn_node (cf_nodes c')) (cf_areas c');
  Some (snd x ++ t).

(** config.c:2241-2374 UpdateConfig: the file system after each of its steps, beginning with
    the one it finds. [got]: how much of the new text reaches the file (all of it, unless the
    disk is full: the result of the writes is not looked at). Another name for the same file is
    not modelled. *)
Definition tmpname (f : list Z) : list Z := f ++ lit ".tmp".
Definition bakname (f : list Z) : list Z := f ++ lit ".bak".
Definition renamed (fs : fsys) (a b : list Z) : fsys := match osRename fs a b with Some fs' => fs' | None => fs end.
Definition updsteps (fs : fsys) (f new : list Z) (got : nat) : list fsys :=
  let writes := map (fun k => fput fs (tmpname f) (firstn k new)) (seq 0 (S (Nat.min got (length new)))) in
  let fs1 := fput fs (tmpname f) (firstn got new) in
  let fs2 := osDelete fs1 (bakname f) in
  let fs3 := renamed fs2 f (bakname f) in
  let fs4 := renamed fs3 (tmpname f) f in
  [fs] ++ writes ++ [fs2; fs3; fs4].
