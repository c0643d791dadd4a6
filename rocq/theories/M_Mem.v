(** Model of src/crashmail/memmessage.c, and of the helpers Parse5D, ExtractAddress and
    striptrail of src/crashmail/misc.c.

    Memory allocation is assumed to succeed (the nomem branches are not modelled).
    [None] results of the functions named below mean undefined behaviour: a read behind
    the terminator of a string, or a write outside a fixed size buffer. *)
From Verif Require Import Base M_Node4D M_Pat.

Definition obind {A B} (o : option A) (f : A -> option B) : option B :=
  match o with Some a => f a | None => None end.
Notation "'do' x <- o ; f" := (obind o (fun x => f)) (at level 200, x name, o at level 100, f at level 200).


(** ** SEEN-BY lists *)

(** memmessage.h:5 PKT_NUM2D *)
Definition NUM2D : nat := 50.

(** struct Nodes2D (memmessage.h:15-21): a block holds up to 50 net/node pairs; the list
    is the list of its blocks, first block first. *)
Definition node2d : Type := Z * Z.
Definition nodes2d : Type := list (list node2d).
Definition n2eqb (a b : node2d) : bool := (fst a =? fst b) && (snd a =? snd b).
(** all entries in list order *)
Definition entries (l : nodes2d) : list node2d := concat l.

(** memmessage.c:18-38: append to the last block, or open a new one *)
Fixpoint addlast (l : nodes2d) (x : node2d) : nodes2d :=
  match l with
  | [] => [[x]]
  | b :: r => match r with
              | [] => if Nat.eqb (length b) NUM2D then [b; [x]] else [b ++ [x]]
              | _ => b :: addlast r x
              end
  end.
(** memmessage.c:3-41 mmAddNodes2DList *)
Definition mmAddNodes2DList (l : nodes2d) (net node : Z) : nodes2d :=
  if existsb (n2eqb (net, node)) (entries l) then l else addlast l (net, node).

(** memmessage.c:43-57 mmRemNodes2DList. The code compares Node[num] with the index num,
    not with node; modelled as it is. *)
Fixpoint rem_block (net : Z) (num : Z) (b : list node2d) : list node2d :=
  match b with
  | [] => []
  | (n, f) :: r => (if (n =? net) && (f =? num) then (0, 0) else (n, f)) :: rem_block net (num + 1) r
  end.
Definition mmRemNodes2DList (l : nodes2d) (net node : Z) : nodes2d := map (rem_block net 0) l.

(** memmessage.c:59-73 mmRemNodes2DListPat *)
Definition mmRemNodes2DListPat (l : nodes2d) (pat : np2d) : nodes2d :=
  map (map (fun x => if Compare2DPat pat (fst x) (snd x) =? 0 then (0, 0) else x)) l.

(** memmessage.c:242-257 CompareSort(t1,t2)<=0 *)
Definition n2le (a b : node2d) : bool :=
  if fst a >? fst b then false else if fst a <? fst b then true else
  if snd a >? snd b then false else true.
(** qsort (libc), by insertion: CompareSort is a total order that identifies only equal
    elements, so every correct sort gives this result. *)
Fixpoint insert2d (x : node2d) (l : list node2d) : list node2d :=
  match l with
  | [] => [x]
  | y :: r => if n2le x y then x :: l else y :: insert2d x r
  end.
Definition qsort2d (l : list node2d) : list node2d := fold_right insert2d [] l.

(** memmessage.c:290-303: write the sorted entries back into the existing blocks, 50 per
    block; blocks behind the last one reached keep their contents. [None]: runs out of
    blocks (NULL dereference). *)
Fixpoint refill (blocks : nodes2d) (s : list node2d) : option nodes2d :=
  match blocks with
  | [] => match s with [] => Some [] | _ => None end
  | _ :: r =>
    if Nat.leb (length s) NUM2D then Some (s :: r)
    else match refill r (skipn NUM2D s) with
         | Some r' => Some (firstn NUM2D s :: r')
         | None => None
         end
  end.
(** memmessage.c:259-308 mmSortNodes2D *)
Definition mmSortNodes2D (l : nodes2d) : option nodes2d :=
  match entries l with
  | [] => Some l
  | es => refill l (qsort2d es)
  end.

(** ** AddSeenby *)

(** memmessage.c:325-326: up to 59 characters of a token *)
Fixpoint sbtoken (n : nat) (str : list Z) : list Z * list Z :=
  match n, str with
  | S m, c :: r => if (c =? 13) || (c =? 32) then ([], str)
                   else let '(t, rest) := sbtoken m r in (c :: t, rest)
  | _, _ => ([], str)
  end.
(** memmessage.c:329 *)
Fixpoint skipspaces (str : list Z) : list Z :=
  match str with
  | c :: r => if c =? 32 then skipspaces r else str
  | [] => []
  end.
(** memmessage.c:336-341: leading decimal number in a uint16_t *)
Fixpoint sbnum (num : Z) (buf : list Z) : Z * list Z :=
  match buf with
  | c :: r => if isdigit c then sbnum (u16 (u16 (num * 10) + (c - 48))) r else (num, buf)
  | [] => (num, [])
  end.
(** memmessage.c:331-356: one token *)
Definition sbadd (buf : list Z) (lastnet : Z) (l : nodes2d) : Z * nodes2d :=
  match buf with
  | [] => (lastnet, l)
  | _ =>
    let '(num, rest) := sbnum 0 buf in
    match rest with
    | [] => (lastnet, mmAddNodes2DList l lastnet num)
    | c :: r => if c =? 47 then (num, mmAddNodes2DList l num (u16 (atoi r))) else (lastnet, l)
    end
  end.
(** memmessage.c:321-357: every round consumes at least one character, so the length of
    the text is enough fuel; [None] is lack of fuel. *)
Fixpoint sbloop (fuel : nat) (str : list Z) (lastnet : Z) (l : nodes2d) : option nodes2d :=
  match str with
  | [] => Some l
  | c :: _ =>
    if c =? 13 then Some l else
    match fuel with
    | O => None
    | S f => let '(buf, rest) := sbtoken 59 str in
             let '(lastnet', l') := sbadd buf lastnet l in
             sbloop f (skipspaces rest) lastnet' l'
    end
  end.
(** memmessage.c:310-360 AddSeenby *)
Definition AddSeenby (str : list Z) (l : nodes2d) : option nodes2d := sbloop (length str) str 0 l.

(** ** Text *)

(** memmessage.h:4 PKT_CHUNKLEN *)
Definition CHUNKLEN : nat := Z.to_nat 10000.

(** memmessage.c:151-152: the last d>0 with Data[d]==13, else 0 *)
Fixpoint lastcr (old : list Z) (d : nat) : nat :=
  match d with
  | O => 0
  | S d' => if nth d old 0 =? 13 then d else lastcr old d'
  end.
(** memmessage.c:147-160: the incomplete last line of the old chunk, the new old chunk *)
Definition splitchunk (old : list Z) : list Z * list Z :=
  if negb (Nat.eqb (length old) 0) && negb (nth (length old - 1) old 0 =? 13) then
    let d := lastcr old (length old - 1) in
    if Nat.eqb d 0 then ([], old) else (skipn (d + 1) old, firstn (d + 1) old)
  else ([], old).

(** memmessage.c:134-170. Chunks are listed newest first. Each round copies at least one
    byte; [None] is lack of fuel. *)
Fixpoint addchunks (CH : nat) (fuel : nat) (cs : list (list Z)) (buf : list Z) : option (list (list Z)) :=
  match buf with
  | [] => Some cs
  | _ =>
    match fuel with
    | O => None
    | S f =>
      let '(moved, cs1) := match cs with
                           | [] => ([], [])
                           | old :: r => let '(m, o) := splitchunk old in (m, o :: r)
                           end in
      let copylen := Nat.min (length buf) (CH - length moved) in
      addchunks CH f ((moved ++ firstn copylen buf) :: cs1) (skipn copylen buf)
    end
  end.
(** memmessage.c:110-173 mmAddBuf; len is the length of buf. The uint32_t sum
    chunk->Length+len is taken not to wrap (len comes from strlen or from the size of a
    buffer). *)
Definition mmAddBuf_gen (CH : nat) (cs : list (list Z)) (buf : list Z) : option (list (list Z)) :=
  match buf with
  | [] => Some cs
  | _ =>
    match cs with
    | c :: r => if Nat.leb (length c + length buf) CH then Some ((c ++ buf) :: r)
                else addchunks CH (length buf) cs buf
    | [] => addchunks CH (length buf) cs buf
    end
  end.
Definition mmAddBuf := mmAddBuf_gen CHUNKLEN.

(** ** The message *)

(** memmessage.h:30-36 *)
Definition MMFLAG_RESCANNED := 1.
Definition MMFLAG_EXPORTED := 2.
Definition MMFLAG_TOSSED := 4.
Definition MMFLAG_NOSECURITY := 8.
Definition MMFLAG_AUTOGEN := 16.
Definition MMFLAG_TWIT := 32.
Definition MMFLAG_KILL := 64.

(** memmessage.h:38-68 struct MemMessage. Strings are stored as C strings; TextChunks
    newest first; Path is the list of path lines (the blocks of ten lines of struct Path
    are not modelled, the list is only appended to and read in order). msgnum is not
    modelled. *)
Record memmsg := MM {
  OrigNode : node4d; DestNode : node4d; PktOrig : node4d; PktDest : node4d; Origin4D : node4d;
  Area : list Z; To : list Z; From : list Z; Subject : list Z; DateTime : list Z;
  MSGID : list Z; REPLY : list Z;
  Attr : Z; Cost : Z; Type_ : Z; Flags : Z;
  TextChunks : list (list Z); SeenBy : nodes2d; Path : list (list Z) }.

Definition set_OrigNode m v := MM v (DestNode m) (PktOrig m) (PktDest m) (Origin4D m) (Area m) (To m) (From m) (Subject m) (DateTime m) (MSGID m) (REPLY m) (Attr m) (Cost m) (Type_ m) (Flags m) (TextChunks m) (SeenBy m) (Path m).
Definition set_DestNode m v := MM (OrigNode m) v (PktOrig m) (PktDest m) (Origin4D m) (Area m) (To m) (From m) (Subject m) (DateTime m) (MSGID m) (REPLY m) (Attr m) (Cost m) (Type_ m) (Flags m) (TextChunks m) (SeenBy m) (Path m).
Definition set_PktOrig m v := MM (OrigNode m) (DestNode m) v (PktDest m) (Origin4D m) (Area m) (To m) (From m) (Subject m) (DateTime m) (MSGID m) (REPLY m) (Attr m) (Cost m) (Type_ m) (Flags m) (TextChunks m) (SeenBy m) (Path m).
Definition set_PktDest m v := MM (OrigNode m) (DestNode m) (PktOrig m) v (Origin4D m) (Area m) (To m) (From m) (Subject m) (DateTime m) (MSGID m) (REPLY m) (Attr m) (Cost m) (Type_ m) (Flags m) (TextChunks m) (SeenBy m) (Path m).
Definition set_Origin4D m v := MM (OrigNode m) (DestNode m) (PktOrig m) (PktDest m) v (Area m) (To m) (From m) (Subject m) (DateTime m) (MSGID m) (REPLY m) (Attr m) (Cost m) (Type_ m) (Flags m) (TextChunks m) (SeenBy m) (Path m).
Definition set_Area m v := MM (OrigNode m) (DestNode m) (PktOrig m) (PktDest m) (Origin4D m) v (To m) (From m) (Subject m) (DateTime m) (MSGID m) (REPLY m) (Attr m) (Cost m) (Type_ m) (Flags m) (TextChunks m) (SeenBy m) (Path m).
Definition set_To m v := MM (OrigNode m) (DestNode m) (PktOrig m) (PktDest m) (Origin4D m) (Area m) v (From m) (Subject m) (DateTime m) (MSGID m) (REPLY m) (Attr m) (Cost m) (Type_ m) (Flags m) (TextChunks m) (SeenBy m) (Path m).
Definition set_From m v := MM (OrigNode m) (DestNode m) (PktOrig m) (PktDest m) (Origin4D m) (Area m) (To m) v (Subject m) (DateTime m) (MSGID m) (REPLY m) (Attr m) (Cost m) (Type_ m) (Flags m) (TextChunks m) (SeenBy m) (Path m).
Definition set_Subject m v := MM (OrigNode m) (DestNode m) (PktOrig m) (PktDest m) (Origin4D m) (Area m) (To m) (From m) v (DateTime m) (MSGID m) (REPLY m) (Attr m) (Cost m) (Type_ m) (Flags m) (TextChunks m) (SeenBy m) (Path m).
Definition set_MSGID m v := MM (OrigNode m) (DestNode m) (PktOrig m) (PktDest m) (Origin4D m) (Area m) (To m) (From m) (Subject m) (DateTime m) v (REPLY m) (Attr m) (Cost m) (Type_ m) (Flags m) (TextChunks m) (SeenBy m) (Path m).
Definition set_REPLY m v := MM (OrigNode m) (DestNode m) (PktOrig m) (PktDest m) (Origin4D m) (Area m) (To m) (From m) (Subject m) (DateTime m) (MSGID m) v (Attr m) (Cost m) (Type_ m) (Flags m) (TextChunks m) (SeenBy m) (Path m).
Definition set_Attr m v := MM (OrigNode m) (DestNode m) (PktOrig m) (PktDest m) (Origin4D m) (Area m) (To m) (From m) (Subject m) (DateTime m) (MSGID m) (REPLY m) v (Cost m) (Type_ m) (Flags m) (TextChunks m) (SeenBy m) (Path m).
Definition set_Type m v := MM (OrigNode m) (DestNode m) (PktOrig m) (PktDest m) (Origin4D m) (Area m) (To m) (From m) (Subject m) (DateTime m) (MSGID m) (REPLY m) (Attr m) (Cost m) v (Flags m) (TextChunks m) (SeenBy m) (Path m).
Definition set_Flags m v := MM (OrigNode m) (DestNode m) (PktOrig m) (PktDest m) (Origin4D m) (Area m) (To m) (From m) (Subject m) (DateTime m) (MSGID m) (REPLY m) (Attr m) (Cost m) (Type_ m) v (TextChunks m) (SeenBy m) (Path m).
Definition set_TextChunks m v := MM (OrigNode m) (DestNode m) (PktOrig m) (PktDest m) (Origin4D m) (Area m) (To m) (From m) (Subject m) (DateTime m) (MSGID m) (REPLY m) (Attr m) (Cost m) (Type_ m) (Flags m) v (SeenBy m) (Path m).
Definition set_SeenBy m v := MM (OrigNode m) (DestNode m) (PktOrig m) (PktDest m) (Origin4D m) (Area m) (To m) (From m) (Subject m) (DateTime m) (MSGID m) (REPLY m) (Attr m) (Cost m) (Type_ m) (Flags m) (TextChunks m) v (Path m).
Definition set_Path m v := MM (OrigNode m) (DestNode m) (PktOrig m) (PktDest m) (Origin4D m) (Area m) (To m) (From m) (Subject m) (DateTime m) (MSGID m) (REPLY m) (Attr m) (Cost m) (Type_ m) (Flags m) (TextChunks m) (SeenBy m) v.

(** memmessage.c:195-225 mmClear *)
Definition null4d := N4 0 0 0 0.
Definition mm0 : memmsg := MM null4d null4d null4d null4d null4d [] [] [] [] [] [] [] 0 0 0 0 [] [] [].

(** the whole text, first byte first *)
Definition mmtext (m : memmsg) : list Z := concat (rev (TextChunks m)).

(** misc.c:255-261 striptrail, on a signed char platform: strips characters below 33 or
    above 127 from the end. (When everything is stripped the code also reads str[-1],
    which is inside the structure here.) *)
Definition isstrip (c : Z) : bool := (c <? 33) || (c >=? 128).
Fixpoint striptrail (s : list Z) : list Z :=
  match s with
  | [] => []
  | c :: r => match striptrail r with
              | [] => if isstrip c then [] else [c]
              | r' => c :: r'
              end
  end.

(** memmessage.c:76-108 mmAddPath *)
Definition mmAddPath (str : list Z) (l : list (list Z)) : list (list Z) :=
  match str with
  | [] => l
  | _ => l ++ [striptrail (firstn 99 str)]
  end.

(** &str[i], undefined behind the terminator *)
Definition from (str : list Z) (i : nat) : option (list Z) :=
  if Nat.leb i (length str) then Some (skipn i str) else None.

(** copy at most n characters up to a stop character (memmessage.c:375-376, :383, :405,
    :419); the text copied and the rest *)
Fixpoint takeuntil (stop : Z -> bool) (n : nat) (str : list Z) : list Z * list Z :=
  match n, str with
  | S m, c :: r => if stop c then ([], str)
                   else let '(t, rest) := takeuntil stop m r in (c :: t, rest)
  | _, _ => ([], str)
  end.

(** strncmp(s,p,strlen(p))==0 *)
Definition prefixb (p s : list Z) : bool := strneq (length p) s p.

(** misc.c:555-574 Parse5D: the node address in front of an '@' and the domain (at most
    19 characters) *)
Fixpoint cutat (s : list Z) : list Z * list Z :=
  match s with
  | [] => ([], [])
  | c :: r => if c =? 64 then ([], r) else let '(a, d) := cutat r in (c :: a, d)
  end.
Definition Parse5D (buf : list Z) : option (node4d * list Z) :=
  let '(a, d) := cutat (firstn 99 buf) in
  match Parse4D a with Some n => Some (n, firstn 19 d) | None => None end.

(** misc.c:582-592: what follows the last '(', and from there the first digit or CR.
    Outer [None]: no '('; inner [None]: the scan passes the terminator (undefined). *)
Fixpoint lastparen (s : list Z) : option (list Z) :=
  match s with
  | [] => None
  | c :: r => match lastparen r with
              | Some x => Some x
              | None => if c =? 40 then Some r else None
              end
  end.
Fixpoint skiptodigit (s : list Z) : option (list Z) :=
  match s with
  | [] => None
  | c :: r => if (c =? 13) || isdigit c then Some s else skiptodigit r
  end.
(** misc.c:597-600: up to 49 characters in front of ')'; [None]: passes the terminator *)
Fixpoint toparen (n : nat) (s : list Z) : option (list Z) :=
  match n with
  | O => Some []
  | S m => match s with
           | [] => None
           | c :: r => if c =? 41 then Some [] else option_map (cons c) (toparen m r)
           end
  end.
(** misc.c:576-603 ExtractAddress *)
Definition ExtractAddress (origin : list Z) : pres node4d :=
  match lastparen origin with
  | None => PFail
  | Some s =>
    match skiptodigit s with
    | None => PUB
    | Some s' => match toparen 49 s' with
                 | None => PUB
                 | Some a => match Parse5D a with Some (n, _) => POk n | None => PFail end
                 end
    end
  end.

Definition SOH : list Z := [1].

(** memmessage.c:368-371 *)
Definition pk_rescanned (mm : memmsg) (kludge : list Z) : memmsg :=
  if prefixb (SOH ++ lit "RESCANNED") kludge
  then set_Flags mm (Z.lor (Flags mm) MMFLAG_RESCANNED) else mm.
(** memmessage.c:373-379 *)
Definition pk_msgid (mm : memmsg) (kludge : list Z) : option memmsg :=
  if prefixb (SOH ++ lit "MSGID:") kludge
  then option_map (fun s => set_MSGID mm (fst (takeuntil (fun c => c =? 13) 79 s))) (from kludge 8)
  else Some mm.
(** memmessage.c:381-387 *)
Definition pk_reply (mm : memmsg) (kludge : list Z) : option memmsg :=
  if prefixb (SOH ++ lit "REPLY:") kludge
  then option_map (fun s => set_REPLY mm (fst (takeuntil (fun c => c =? 13) 79 s))) (from kludge 8)
  else Some mm.
(** memmessage.c:391-392 *)
Definition pk_fmpt (mm : memmsg) (kludge : list Z) : option memmsg :=
  if prefixb (SOH ++ lit "FMPT") kludge
  then option_map (fun s => set_OrigNode mm (set_point (OrigNode mm) (u16 (atoi s)))) (from kludge 6)
  else Some mm.
(** memmessage.c:394-395 *)
Definition pk_topt (mm : memmsg) (kludge : list Z) : option memmsg :=
  if prefixb (SOH ++ lit "TOPT") kludge
  then option_map (fun s => set_DestNode mm (set_point (DestNode mm) (u16 (atoi s)))) (from kludge 6)
  else Some mm.
(** memmessage.c:397-430 *)
Definition pk_intl (mm : memmsg) (kludge : list Z) : option memmsg :=
  if prefixb (SOH ++ lit "INTL") kludge then
    match from kludge (if nth 5 kludge 0 =? 58 then 7%nat else 6%nat) with
    | None => None
    | Some s =>
      let '(buf, rest) := takeuntil (fun c => c =? 32) 59 s in
      let mm := match Parse4D buf with
                | Some n => set_DestNode mm (N4 (zone n) (net n) (node n) (point (DestNode mm)))
                | None => mm
                end in
      let rest' := match rest with c :: r => if c =? 32 then r else rest | [] => [] end in
      let '(buf, _) := takeuntil (fun c => (c =? 32) || (c =? 13)) 59 rest' in
      Some match Parse4D buf with
           | Some n => set_OrigNode mm (N4 (zone n) (net n) (node n) (point (OrigNode mm)))
           | None => mm
           end
    end
  else Some mm.
(** memmessage.c:362-432 ProcessKludge; [None]: reads behind the terminator *)
Definition ProcessKludge (mm : memmsg) (kludge : list Z) : option memmsg :=
  do mm <- pk_msgid (pk_rescanned mm kludge) kludge;
  do mm <- pk_reply mm kludge;
  match Area mm with
  | _ :: _ => Some mm
  | [] => do mm <- pk_fmpt mm kludge;
          do mm <- pk_topt mm kludge;
          pk_intl mm kludge
  end.

(** memmessage.c:435-458 mmAddLine; [None]: undefined behaviour *)
Definition mmAddLine (mm : memmsg) (buf : list Z) : option memmsg :=
  let echo := match Area mm with [] => false | _ => true end in
  let addtext mm := option_map (set_TextChunks mm) (mmAddBuf (TextChunks mm) buf) in
  if echo && prefixb (lit "SEEN-BY:") buf then
    match from buf 9 with
    | None => None
    | Some s => option_map (set_SeenBy mm) (AddSeenby s (SeenBy mm))
    end
  else if echo && prefixb (SOH ++ lit "PATH:") buf then
    option_map (fun s => set_Path mm (mmAddPath s (Path mm))) (from buf 7)
  else if echo && prefixb (lit " * Origin: ") buf then
    match ExtractAddress buf with
    | PUB => None
    | PFail => addtext mm
    | POk n => addtext (set_Origin4D mm (if zone n =? 0 then set_zone n (zone (PktOrig mm)) else n))
    end
  else if match buf with c :: _ => c =? 1 | [] => false end then
    match ProcessKludge mm buf with
    | None => None
    | Some mm => addtext mm
    end
  else addtext mm.

(** ** Printing SEEN-BY lines *)

(** strcat/strcpy into a buffer of [cap] bytes; [None] is overflow *)
Definition scat (cap : nat) (s t : list Z) : option (list Z) :=
  if Nat.ltb (length s + length t) cap then Some (s ++ t) else None.
(** memmessage.c:498-528: one entry. State: text, buf, lastnet. *)
Definition sbprint1 (size : nat) (st : list Z * list Z * Z) (x : node2d) : option (list Z * list Z * Z) :=
  let '(text, buf, lastnet) := st in
  let '(n, f) := x in
  if (n =? 0) && (f =? 0) then Some st else
  do buf2 <- (if n =? lastnet then Some (lit " ")
              else do buf3 <- scat 20 [] (dec n ++ lit "/"); scat 50 (lit " ") buf3);
  do buf3 <- scat 20 [] (dec f);
  do buf2 <- scat 50 buf2 buf3;
  if Nat.ltb 77 (length buf + length buf2) then
    do text <- scat size text buf;
    do text <- scat size text [13];
    do buf2 <- scat 50 [] (lit " " ++ dec n ++ lit "/" ++ dec f);
    do buf <- scat 100 (lit "SEEN-BY:") buf2;
    Some (text, buf, n)
  else do buf <- scat 100 buf buf2; Some (text, buf, n).

Fixpoint sbprint (size : nat) (st : list Z * list Z * Z) (l : list node2d) : option (list Z * list Z * Z) :=
  match l with
  | [] => Some st
  | x :: r => match sbprint1 size st x with Some st' => sbprint size st' r | None => None end
  end.

(** memmessage.c:482 *)
Definition sbsize (seenbys : nat) : nat := ((seenbys / 5 + 1) * 80)%nat.

(** memmessage.c:460-539 mmMakeSeenByBuf; [None]: a buffer overflows *)
Definition mmMakeSeenByBuf (l : nodes2d) : option (list Z) :=
  let size := sbsize (length (entries l)) in
  do st <- sbprint size ([], lit "SEEN-BY:", 0) (entries l);
  let '(text, buf, _) := st in
  if Nat.ltb 8 (length buf) then do text <- scat size text buf; scat size text [13]
  else Some text.
