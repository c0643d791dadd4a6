(** Model of src/crashmail/filter.c and of ExpandFilter and MakeNetmailKludges of
    src/crashmail/misc.c. Log output, statistics and the temporary files handed to external
    commands are not modelled. [None] results mean undefined behaviour. *)
From Verif Require Import Base M_Node4D M_Pat M_Str M_Mem M_Cfg M_Pkt M_Dupe M_Echo M_Expr.

(** ** Text search *)

(** filter.c:14-18: one pass over the pattern; an entry of bmstep is a uint16_t. *)
Fixpoint bmfill (len i : nat) (pat : list Z) (t : Z -> Z) : Z -> Z :=
  match pat with
  | [] => t
  | c :: r => bmfill len (S i) r (fun x => if x =? tolower c then u16 (Z.of_nat (len - i - 1)) else t x)
  end.
(** filter.c:7-22 bminit: the table bmstep *)
Definition bminit (pat : list Z) : Z -> Z :=
  let t := bmfill (length pat) 0 pat (fun _ => 0) in
  fun x => if t x =? 0 then u16 (Z.of_nat (length pat)) else t x.
(** plain char is signed: tolower of a character above 127 is negative and no index *)
Definition is7bit (c : Z) : bool := c <? 128.

(** filter.c:35-36: the last position at which pattern and text differ; [j] counts down
    from len *)
Fixpoint lastdiff (pat text : list Z) (i j : nat) : option nat :=
  match j with
  | O => None
  | S j' => if tolower (nth (i + j') text 0) =? tolower (nth j' pat 0) then lastdiff pat text i j' else Some j'
  end.
(** filter.c:33-42. Outer [None]: the table is read outside its bounds, or lack of fuel
    (which does not happen, C33_sound). Inner [None] is the result -1. *)
Fixpoint bmloop (fuel : nat) (pat text : list Z) (i : nat) : option (option nat) :=
  match fuel with
  | O => None
  | S f =>
    if Nat.ltb (length text) (i + length pat) then Some None else
    match lastdiff pat text i (length pat) with
    | None => Some (Some i)
    | Some j => let c := nth (i + j) text 0 in
                if is7bit c then bmloop f pat text (i + Z.to_nat (bminit pat (tolower c))) else None
    end
  end.
(** bminit (:7-22) followed by bmfind (:24-45) *)
Definition bmfind (pat text : list Z) (start : nat) : option (option nat) :=
  if forallb is7bit pat then bmloop (length text + 2) pat text start else None.

(** filter.c:192-208: one chunk. filter.c:205 steps back to the beginning of the line. *)
Fixpoint linestart (data : list Z) (c : nat) : nat :=
  match c with
  | O => O
  | S c' => let x := nth c data 0 in if (x =? 1) || (x =? 13) then c else linestart data c'
  end.
Fixpoint searchchunk (fuel : nat) (pat data : list Z) (kludge : bool) (start : nat) : option bool :=
  match fuel with
  | O => None
  | S f =>
    do r <- bmfind pat data start;
    match r with
    | None => Some false
    | Some pos =>
      match nth_error data pos with
      | None => None
      | Some _ => if Bool.eqb (nth (linestart data pos) data 0 =? 1) kludge then Some true
                  else searchchunk f pat data kludge (S pos)
      end
    end
  end.
Fixpoint searchchunks (pat : list Z) (kludge : bool) (cs : list (list Z)) : option bool :=
  match cs with
  | [] => Some false
  | c :: r => do b <- searchchunk (length c + 2) pat c kludge 0;
              if b then Some true else searchchunks pat kludge r
  end.

(** ** Statements *)

(** filter.c:47-57 filter_nllookup; [nc]: nlCheckNode. *)
Record nlcfg := NLC { nl_has : bool; nl_nl : nodelist; nl_check : node4d -> Z }.
Definition filter_nllookup (nl : nlcfg) (n : node4d) : Z :=
  if negb (nl_has nl) then -1 else if negb (nlopen (nl_nl nl)) then 1 else nl_check nl n.

Definition b2z (b : bool) : Z := if b then 1 else 0.
(** filter.c:59-100 filter_comparenode. A pattern whose parsing is undefined (M_Pat) gives
    [None]. *)
Definition comparenode (nl : nlcfg) (n : node4d) (op data : list Z) : option Z :=
  match op with
  | [] => Some (-1)
  | _ =>
    if negb (streq op (lit "=")) then Some (-1) else
    match Parse4DPat data with
    | PUB => None
    | PFail => Some (-1)
    | POk pat => if negb (nl_has nl) && negb (Check4DPatNodelist pat) then Some (-1)
                 else Some (b2z (Compare4DPat (nl_nl nl) pat n =? 0))
    end
  end.
(** filter.c:102-145 filter_comparestring *)
Definition comparestring (str op data : list Z) : option Z :=
  match op with
  | [] => Some (-1)
  | _ => if streq op (lit "|") then
           do r <- bmfind data str 0; Some (b2z match r with Some _ => true | None => false end)
         else if streq op (lit "=") then Some (b2z (osMatchPattern data str))
         else Some (-1)
  end.
(** filter.c:147-187 filter_comparebool *)
Definition comparebool (b : bool) (op data : list Z) : option Z :=
  match op with
  | [] => Some (b2z b)
  | _ => if streq op (lit "=") then
           if streqi data (lit "TRUE") then Some (b2z b)
           else if streqi data (lit "FALSE") then Some (b2z (negb b)) else Some (-1)
         else Some (-1)
  end.
(** filter.c:189-226 filter_comparetext *)
Definition comparetext (mm : memmsg) (kludge : bool) (op data : list Z) : option Z :=
  match op with
  | [] => Some (-1)
  | _ => if streq op (lit "|") then option_map b2z (searchchunks data kludge (rev (TextChunks mm)))
         else Some (-1)
  end.

Definition isalpha (c : Z) : bool := ((65 <=? c) && (c <=? 90)) || ((97 <=? c) && (c <=? 122)).
(** filter.c:240-273: variable, operator, data *)
Fixpoint varname (n : nat) (s : list Z) : list Z * list Z :=
  match n, s with
  | S m, c :: r => if isalpha c || (c =? 95) then let '(v, rest) := varname m r in (c :: v, rest) else ([], s)
  | _, _ => ([], s)
  end.
Definition dropquote (s : list Z) : list Z := match rev s with 34 :: r => rev r | _ => s end.
Definition splitstatement (s : list Z) : list Z * list Z * list Z :=
  let '(v, s1) := varname 99 s in
  let '(op, s2) := match s1 with c :: r => ([c], r) | [] => ([], []) end in
  let s3 := match s2 with 34 :: r => r | _ => s2 end in
  (v, op, dropquote (firstn 99 s3)).

(** FLAG_FILEATTACH (shared/fidonet.h:79) *)
Definition FLAG_FILEATTACH := 16.

Record fenv := FE { fe_akas : list aka; fe_nodes : list cnode; fe_nl : nlcfg }.

(** filter.c:275-284 *)
Definition from4d (mm : memmsg) : node4d := match Area mm with [] => OrigNode mm | _ => Origin4D mm end.
Definition boss (n : node4d) : node4d := set_point n 0.
(** filter.c:298-318 *)
Definition islocalaka (e : fenv) (n : node4d) : bool := existsb (fun a => Compare4D n (ak_node a) =? 0) (fe_akas e).
Definition islocalpoint (e : fenv) (n : node4d) : bool :=
  negb (point n =? 0) &&
  existsb (fun a => (Compare4D (ak_node a) (boss n) =? 0) && (point (ak_node a) =? 0)) (fe_akas e).
Definition existscfg (e : fenv) (n : node4d) : bool := existsb (fun c => Compare4D (cn_node c) n =? 0) (fe_nodes e).
(** filter.c:323-347 *)
Definition mmtype (mm : memmsg) : list Z := match Area mm with [] => lit "NETMAIL" | _ => lit "ECHOMAIL" end.
Definition mmsource (mm : memmsg) : list Z :=
  if flag (Flags mm) MMFLAG_TOSSED then lit "TOSSED" else
  if flag (Flags mm) MMFLAG_AUTOGEN then lit "CRASHMAIL" else
  if flag (Flags mm) MMFLAG_EXPORTED then lit "EXPORTED" else lit "OTHER".

(** filter.c:228-486 filter_evalfunc *)
Definition filter_evalfunc (e : fenv) (mm : memmsg) (str : list Z) : option Z :=
  let '(v, op, data) := splitstatement str in
  let is (x : string) := streqi v (lit x) in
  let from := from4d mm in
  if is "FROMADDR"%string then comparenode (fe_nl e) from op data else
  if is "TOADDR"%string then comparenode (fe_nl e) (DestNode mm) op data else
  if is "FROMNAME"%string then comparestring (From mm) op data else
  if is "TONAME"%string then comparestring (To mm) op data else
  if is "SUBJECT"%string then comparestring (Subject mm) op data else
  if is "AREA"%string then comparestring (Area mm) op data else
  if is "TYPE"%string then comparestring (mmtype mm) op data else
  if is "SOURCE"%string then comparestring (mmsource mm) op data else
  if is "FILEATTACH"%string then comparebool (flag (Attr mm) FLAG_FILEATTACH) op data else
  if is "TOLOCALAKA"%string then comparebool (islocalaka e (DestNode mm)) op data else
  if is "FROMLOCALAKA"%string then comparebool (islocalaka e from) op data else
  if is "TOLOCALPOINT"%string then comparebool (islocalpoint e (DestNode mm)) op data else
  if is "FROMLOCALPOINT"%string then comparebool (islocalpoint e from) op data else
  if is "EXISTSCFG_FROMADDR"%string then comparebool (existscfg e from) op data else
  if is "EXISTSCFG_FROMBOSS"%string then comparebool (existscfg e (boss from)) op data else
  if is "EXISTSCFG_TOADDR"%string then comparebool (existscfg e (DestNode mm)) op data else
  if is "EXISTSCFG_TOBOSS"%string then comparebool (existscfg e (boss (DestNode mm))) op data else
  if is "EXISTSNL_FROMADDR"%string then Some (filter_nllookup (fe_nl e) from) else
  if is "EXISTSNL_FROMBOSS"%string then Some (filter_nllookup (fe_nl e) (boss from)) else
  if is "EXISTSNL_TOADDR"%string then Some (filter_nllookup (fe_nl e) (DestNode mm)) else
  if is "EXISTSNL_TOBOSS"%string then Some (filter_nllookup (fe_nl e) (boss (DestNode mm))) else
  if is "TEXT"%string then comparetext mm false op data else
  if is "KLUDGES"%string then comparetext mm true op data else Some (-1).

(** filter.c:985-994: expr_eval with filter_evalfunc as callback *)
Definition evalfilter (e : fenv) (mm : memmsg) (s : list Z) : option Z := evaluate (filter_evalfunc e mm) s.

(** ** Commands *)

(** misc.c:34-129 ExpandFilter into a buffer of [size] characters; [None]: overflow. The
    arguments rfc1, rfc2, msg, area, subj, date, from, to, orignode, destnode are given by
    the letter that selects them. *)
Definition expandletter (mm : memmsg) (rfc1 rfc2 msg : list Z) (c : Z) : option (list Z) :=
  let c32 := Z.lor c 32 in
  if c =? 97 then Some (Area mm) else
  if c =? 114 then Some rfc1 else
  if c =? 82 then Some rfc2 else
  if c32 =? 109 then Some msg else
  if c32 =? 115 then Some (Subject mm) else
  if c32 =? 120 then Some (DateTime mm) else
  if c32 =? 102 then Some (From mm) else
  if c32 =? 116 then Some (To mm) else
  if c32 =? 111 then Some (Print4D (from4d mm)) else
  if c32 =? 100 then Some (Print4D (DestNode mm)) else None.
Fixpoint expandloop (size : nat) (letter : Z -> option (list Z)) (cmd dest : list Z) : option (list Z) :=
  match cmd with
  | [] => if Nat.ltb (length dest) size then Some dest else None
  | c :: r =>
    match r with
    | x :: r' => if c =? 37 then
                   match letter x with
                   | Some t => if Nat.ltb (length dest) size then expandloop size letter r' (firstn (size - 1) (dest ++ t)) else None
                   | None => if Nat.ltb (length dest) size then expandloop size letter r' (dest ++ [x]) else None
                   end
                 else if Nat.ltb (length dest) size then expandloop size letter r (dest ++ [c]) else None
    | [] => if Nat.ltb (length dest) size then expandloop size letter r (dest ++ [c]) else None
    end
  end.
Definition ExpandFilter (mm : memmsg) (cmd : list Z) : option (list Z) :=
  expandloop 400 (expandletter mm [] [] []) cmd [].

(** misc.c:450-478 MakeNetmailKludges: the text it adds *)
Definition kludge_fmpt (o : node4d) : list Z := if point o =? 0 then [] else SOH ++ lit "FMPT " ++ dec (point o) ++ [13].
Definition kludge_topt (d : node4d) : list Z := if point d =? 0 then [] else SOH ++ lit "TOPT " ++ dec (point d) ++ [13].
Definition kludge_intl (flags : Z) (o d : node4d) : list Z :=
  if negb (zone o =? zone d) || flag flags CFG_FORCEINTL then
    SOH ++ lit "INTL " ++ dec (zone d) ++ lit ":" ++ dec (net d) ++ lit "/" ++ dec (node d) ++ lit " " ++
    dec (zone o) ++ lit ":" ++ dec (net o) ++ lit "/" ++ dec (node o) ++ [13]
  else [].
Definition addtext (mm : memmsg) (buf : list Z) : option memmsg :=
  option_map (set_TextChunks mm) (mmAddBuf (TextChunks mm) buf).
Definition MakeNetmailKludges (flags : Z) (mm : memmsg) : option memmsg :=
  do m1 <- addtext mm (kludge_fmpt (OrigNode mm));
  do m2 <- addtext m1 (kludge_topt (DestNode m1));
  addtext m2 (kludge_intl flags (OrigNode m2) (DestNode m2)).

(** the lines of a chunk, each with its CR (filter.c:782-788 and elsewhere). [None]: line
    785 reads the byte behind the chunk (tmp->Data[d] with d equal to tmp->Length) when the
    chunk is full; otherwise it is an uninitialised byte of the buffer. Both are modelled
    as a byte that is no CR. *)
Fixpoint chunklines (data : list Z) : list (list Z) :=
  match data with
  | [] => []
  | c :: r => if c =? 13 then [c] :: chunklines r
              else match chunklines r with
                   | [] => [[c]]
                   | l :: ls => (c :: l) :: ls
                   end
  end.
Fixpoint addlines (cs : list (list Z)) (ls : list (list Z)) : option (list (list Z)) :=
  match ls with
  | [] => Some cs
  | l :: r => do cs' <- mmAddBuf cs l; addlines cs' r
  end.

(** filter.c:790-797 *)
Definition isaddrkludge (l : list Z) : bool :=
  Nat.ltb 5 (length l) &&
  (prefixb (SOH ++ lit "INTL") l || prefixb (SOH ++ lit "FMPT") l || prefixb (SOH ++ lit "TOPT") l).

Definition addr4 (n : node4d) : list Z := dec (zone n) ++ lit ":" ++ dec (net n) ++ lit "/" ++ dec (node n) ++ lit "." ++ dec (point n).

(** config.h:218-224 struct Route *)
Record route := RT { rt_pat : npat; rt_dest : npat; rt_aka : aka }.
Definition findroute (nl : nodelist) (rs : list route) (n : node4d) : option route :=
  find (fun r => Compare4DPat nl (rt_pat r) n =? 0) rs.

(** filter.c:720-833 Filter_Remap. [None]: namepat does not fit newto[36], a line does not
    fit buf[100], or undefined behaviour of mmAddLine. Line 817 prints "%ud": the kludge ends in a 'd' instead of a
    CR. *)
Definition Filter_Remap (flags : Z) (nl : nodelist) (rs : list route) (mm : memmsg) (namepat : list Z) (dp : npat) : option memmsg :=
  match Area mm with
  | _ :: _ => Some mm
  | [] =>
    let newdest := ExpandNodePat nl dp (DestNode mm) in
    let newto := if streq namepat (lit "*") then To mm else namepat in
    if Nat.ltb (length newto) 36 then
      let my := match findroute nl rs newdest with Some r => ak_node (rt_aka r) | None => null4d end in
      let old := rev (TextChunks mm) in
      do m1 <- MakeNetmailKludges flags (set_To (set_DestNode (set_TextChunks mm []) newdest) newto);
      do cs <- addlines (TextChunks m1) (filter (fun l => negb (isaddrkludge l)) (concat (map chunklines old)));
      let l1 := SOH ++ lit "Remapped to " ++ newto ++ lit " at " ++ addr4 newdest ++ lit " by " ++ addr4 my ++ [13] in
      let l2 := SOH ++ lit "Message originally to " ++ To mm ++ lit " at " ++ addr4 (DestNode mm) ++ lit "d" in
      if Nat.ltb (length l1) 100 && Nat.ltb (length l2) 100 then
        do m2 <- mmAddLine (set_TextChunks m1 cs) l1; mmAddLine m2 l2
      else None
    else None
  end.

(** strchr(s,c)+1 *)
Fixpoint after (c : Z) (s : list Z) : option (list Z) :=
  match s with
  | [] => None
  | x :: r => if x =? c then Some r else after c r
  end.
(** the text up to and including the first c *)
Fixpoint upto (c : Z) (s : list Z) : list Z :=
  match s with
  | [] => []
  | x :: r => if x =? c then [x] else x :: upto c r
  end.
(** filter.c:862-870, :875-884: a kludge with the address replaced: its new value and its
    line. Both are cut to 79 characters. *)
Definition masqkludge (name : list Z) (value : list Z) (n : node4d) : option (list Z * list Z) :=
  option_map (fun rest => let v := firstn 79 (addr4 n ++ lit " " ++ rest) in (v, firstn 79 (SOH ++ name ++ lit ": " ++ v ++ [13])))
    (after 32 value).
(** filter.c:900-960: what becomes of a line of the text: a list of pieces. The search for
    the closing parenthesis (:912) also looks at the byte behind the line, which is not
    modelled. *)
Definition masqline (netmail : bool) (n : node4d) (l : list Z) : list (list Z) :=
  let origin :=
    if (nth 1 l 0 =? 42) && Nat.ltb 9 (length l) && prefixb (lit " * Origin") l then
      match after 40 (skipn 9 l) with
      | Some r => match after 41 r with
                  | Some tail => Some [firstn 9 l ++ upto 40 (skipn 9 l); addr4 n; 41 :: tail]
                  | None => None
                  end
      | None => None
      end
    else None in
  match origin with
  | Some pieces => pieces
  | None =>
    if (Nat.ltb 6 (length l) && (prefixb (SOH ++ lit "MSGID") l || (netmail && prefixb (SOH ++ lit "REPLY") l)))
       || isaddrkludge l || (Nat.ltb 4 (length l) && prefixb (SOH ++ lit "Via") l)
    then [] else [l]
  end.
(** filter.c:835-974 Filter_Masquerade. [None]: namepat does not fit newfrom[36], or
    AddNodePath is undefined. *)
Definition Filter_Masquerade (flags : Z) (nl : nodelist) (mm : memmsg) (namepat : list Z) (dp : npat) : option memmsg :=
  let n := ExpandNodePat nl dp (OrigNode mm) in
  let newfrom := if streq namepat (lit "*") then From mm else namepat in
  let netmail := match Area mm with [] => true | _ => false end in
  if Nat.ltb (length newfrom) 36 then
    let old := rev (TextChunks mm) in
    let m1 := set_TextChunks (set_From mm newfrom) [] in
    do m2 <- match masqkludge (lit "MSGID") (MSGID m1) n with
             | Some (v, line) => addtext (set_MSGID m1 v) line
             | None => Some m1
             end;
    do m3 <- match (if netmail then masqkludge (lit "REPLY") (REPLY m2) n else None) with
             | Some (v, line) => addtext (set_REPLY m2 v) line
             | None => Some m2
             end;
    let m4 := set_OrigNode m3 n in
    do m5 <- (if netmail then MakeNetmailKludges flags m4 else Some (set_Origin4D m4 n));
    do cs <- addlines (TextChunks m5) (concat (map (masqline netmail n) (concat (map chunklines old))));
    do path <- AddNodePath [] (set_point n 0);
    Some (set_Path (set_SeenBy (set_TextChunks m5 cs) (mmAddNodes2DList [] (net n) (node n))) path)
  else None.

(** config.h:265-275 COMMAND_ and :278-285 struct Command *)
Inductive command :=
| CKill | CTwit | CCopy (tag : list Z) | CExecute (cmd : list Z) | CWriteLog (fmt : list Z)
| CWriteBad (reason : list Z) | CBounceMsg (reason : list Z) | CBounceHeader (reason : list Z)
| CRemap (name : list Z) (dest : npat) | CMasquerade (name : list Z) (dest : npat).

(** filter.c:547-555: the message handed to the message base *)
Definition copymsg (mm : memmsg) : option memmsg :=
  do cs0 <- (match Area mm with [] => Some [] | a => mmAddBuf [] (lit "AREA:" ++ a ++ [13]) end);
  do cs <- addlines cs0 (rev (TextChunks mm));
  Some (set_TextChunks mm cs).

Section Filter.
  (** [St]: the rest of the program state. [copy], [writebad], [bounce]: Filter_Copy's
      import of a message into the area with this tag, WriteBad, Bounce, with their return
      values. [exec]: osExecute for this message. [masq]: Filter_Masquerade. *)
  Context {St : Type} (e : fenv) (flags : Z) (rs : list route)
    (copy : St -> memmsg -> list Z -> option (St * bool))
    (writebad : St -> memmsg -> list Z -> option (St * bool))
    (bounce : St -> memmsg -> list Z -> bool -> option (St * bool))
    (exec : memmsg -> list Z -> Z)
    (masq : memmsg -> list Z -> npat -> option memmsg).

  Definition keep (mm : memmsg) (r : option (St * bool)) : option (St * memmsg * bool) :=
    option_map (fun p => (fst p, mm, snd p)) r.

  (** filter.c:534-568 Filter_Copy for an area that exists: the message is imported with
      an AREA line in front, and its text is restored unless the import fails (:556-557);
      the result is ignored (:1017). *)
  Definition Filter_Copy (st : St) (mm : memmsg) (tag : list Z) : option (St * memmsg * bool) :=
    do mm' <- copymsg mm;
    do r <- copy st mm' tag;
    Some (fst r, if snd r then mm else mm', true).

  (** filter.c:617-687 Filter_Execute *)
  Definition Filter_Execute (st : St) (mm : memmsg) (cmd : list Z) : option (St * memmsg * bool) :=
    let r := exec mm cmd in
    if r =? 0 then Some (st, set_Flags mm (Z.lor (Flags mm) MMFLAG_KILL), true)
    else Some (st, mm, negb (20 <=? r)).

  (** filter.c:1003-1062: one command; the flag is FALSE when Filter gives up *)
  Definition runcommand (st : St) (mm : memmsg) (c : command) : option (St * memmsg * bool) :=
    match c with
    | CKill => Some (st, set_Flags mm (Z.lor (Flags mm) MMFLAG_KILL), true)
    | CTwit => Some (st, set_Flags mm (Z.lor (Flags mm) MMFLAG_TWIT), true)
    | CCopy tag => Filter_Copy st mm tag
    | CExecute cmd => Filter_Execute st mm cmd
    | CWriteLog fmt => option_map (fun _ => (st, mm, true)) (ExpandFilter mm fmt)
    | CWriteBad reason => keep mm (writebad st mm reason)
    | CBounceMsg reason => do r <- ExpandFilter mm reason; keep mm (bounce st mm r false)
    | CBounceHeader reason => do r <- ExpandFilter mm reason; keep mm (bounce st mm r true)
    | CRemap name dp => option_map (fun m => (st, m, true)) (Filter_Remap flags (nl_nl (fe_nl e)) rs mm name dp)
    | CMasquerade name dp => option_map (fun m => (st, m, true)) (masq mm name dp)
    end.

  (** what follows a rule or command: go on, stop with TRUE, stop with FALSE *)
  Inductive next := Go | Stop (result : bool).

  (** filter.c:1003-1066: the commands of a rule *)
  Fixpoint runcommands (st : St) (mm : memmsg) (cs : list command) : option (St * memmsg * next) :=
    match cs with
    | [] => Some (st, mm, Go)
    | c :: r =>
      do x <- runcommand st mm c;
      let '(st, mm, ok) := x in
      if negb ok then Some (st, mm, Stop false) else
      if flag (Flags mm) MMFLAG_KILL then Some (st, mm, Stop true) else runcommands st mm r
    end.

  (** filter.c:976-1073 Filter; config.h:287-292 struct Filter *)
  Fixpoint runrules (st : St) (mm : memmsg) (rules : list (list Z * list command)) : option (St * memmsg * next) :=
    match rules with
    | [] => Some (st, mm, Go)
    | (cond, cs) :: r =>
      do v <- evalfilter e mm cond;
      if v =? -1 then Some (st, mm, Stop true) else
      if v =? 1 then
        do x <- runcommands st mm cs;
        match x with
        | (st, mm, Go) => runrules st mm r
        | _ => Some x
        end
      else runrules st mm r
    end.
  Definition Filter (rules : list (list Z * list command)) (st : St) (mm : memmsg) : option (St * memmsg * bool) :=
    do x <- runrules st mm rules;
    Some (fst x, match snd x with Go => true | Stop b => b end).
End Filter.
