(** Model of src/tools/crashstats.c. The layout of the file is that of M_Stats. [None]:
    undefined behaviour (a tag on disk that does not end). ctrl-C, lack of memory, printargs
    and the messages of parseargs are not modelled; times are not negative. *)
From Verif Require Import Base M_Node4D M_Str M_Mem M_Cfg M_Stats M_Date M_List M_Link M_Args M_Main M_AfList.
From Verif Require M_Export.

(** crashstats.c:62-72 struct StatsNode *)
Record srow := SR { sr_tag : list Z; sr_avg : Z; sr_total : Z; sr_dupes : Z; sr_first : Z; sr_last : Z; sr_last8 : list Z }.
(** The system: the contents of a file ([None]: it cannot be opened), localtime, qsort for
    areas and nodes, what buf and num hold at first *)
Record csenv := CS {
  cs_read : list Z -> option (list Z); cs_localtime : Z -> tm;
  cs_qsort : (srow -> srow -> Z) -> list srow -> list srow; cs_nqsort : (nstat -> nstat -> Z) -> list nstat -> list nstat;
  cs_junk1 : list Z; cs_junk2 : list Z; cs_junk3 : list Z }.

(** sprintf: %d of a uint32_t, %*d, %-*s *)
Definition intdec (z : Z) : list Z := let i := s32 z in if i <? 0 then lit "-" ++ dec (- i) else dec i.
Definition fmtd (w : nat) (z : Z) : list Z := repeat 32 (w - length (intdec z)) ++ intdec z.
Definition fmtl (w : nat) (s : list Z) : list Z := s ++ repeat 32 (w - length s).

(** crashstats.c:109-177: more first, except for names *)
Definition more (f : srow -> Z) (a b : srow) : Z := if f a <? f b then 1 else if f a >? f b then -1 else 0.
Definition CompareAlpha (a b : srow) : Z := stricmp (sr_tag a) (sr_tag b).
(** crashstats.c:179-229 Sort; [mode]: the letter *)
Definition SortRows (E : csenv) (mode : Z) (l : list srow) : list srow :=
  if mode =? 97 then cs_qsort E CompareAlpha l
  else if mode =? 116 then cs_qsort E (more sr_total) l
  else if mode =? 109 then cs_qsort E (more sr_avg) l
  else if mode =? 100 then cs_qsort E (more sr_first) l
  else if mode =? 108 then cs_qsort E (more sr_last) l
  else if mode =? 117 then cs_qsort E (more sr_dupes) l
  else l.
(** crashstats.c:231-272 CompareNodes, SortNodes *)
Definition CompareNodes (a b : nstat) : Z := Compare4D (ns_node a) (ns_node b).
(** crashstats.c:274-281 unit; the negative constants are converted to uint32_t *)
Definition cs_unit (i : Z) : list Z :=
  if (i >? 10000000) || (i <? u32 (-10000000)) then dec (i / 1048576) ++ lit " MB"
  else if (i >? 10000) || (i <? u32 (-10000)) then dec (i / 1024) ++ lit " KB"
  else dec i ++ lit " bytes".
(** crashstats.c:296-323 CalculateAverage *)
Definition sumdays (l : list Z) (from n : nat) : Z := fold_left (fun s c => u32 (s + nth c l 0)) (seq from n) 0.
Definition CalculateAverage (last8 : list Z) (total day firstday : Z) : Z :=
  if (day =? 0) || (firstday =? 0) then 0 else
  let days := u16 (day - firstday) in
  let days7 := if days >? 7 then 7 else days in
  let sum := sumdays last8 1 (Z.to_nat days7) in
  if (sum =? 0) && negb (total =? 0) then total / (if days =? 0 then 1 else days)
  else sum / (if days7 =? 0 then 1 else days7).

(** crashstats.c:436-457: one area on disk *)
Definition cs_area (day : Z) (r : list Z) : option srow :=
  if existsb (fun c => c =? 0) (firstn 80 r) then
    let last8 := map (fun i => get16 r (96 + 2 * i)) (seq 0 8) in
    Some (SR (cstr (firstn 80 r)) (CalculateAverage last8 (get32 r 92) day (get64 r 120 / 86400)) (get32 r 92) (get32 r 112) (get64 r 120) (get64 r 128) last8)
  else None.
(** crashstats.c:283-294 CheckFlags is that of crashexport.c *)
Definition cs_wanted (group : option (list Z)) (r : list Z) : bool :=
  match group with None => true | Some g => M_Export.CheckFlags (nth 88 r 0) g end.
Fixpoint cs_areas (group : option (list Z)) (day : Z) (rs : list (list Z)) : option (list srow) :=
  match rs with
  | [] => Some []
  | r :: rs' =>
    if cs_wanted group r then do a <- cs_area day r; do l <- cs_areas group day rs'; Some (a :: l)
    else cs_areas group day rs'
  end.
(** crashstats.c:459-461, :508-510: the first time so far *)
Definition earlier (ft t : Z) : Z := if (negb (t =? 0)) && ((ft =? 0) || (ft >? t)) then t else ft.
(** crashstats.c:491-506 (Days is never used) *)
Definition cs_node (r : list Z) : nstat :=
  NS (get4d r 0) (get32 r 8) (get32 r 12) (get32 r 16) (get32 r 20) (get32 r 24) (get32 r 28) (get32 r 32) (get32 r 36) (get32 r 40) (get64 r 48).

(** ** The report *)
Definition shortdate (lt : Z -> tm) (t : Z) : list Z :=
  let tp := lt t in pad2 (tm_mday tp) ++ lit "-" ++ nth (Z.to_nat (tm_mon tp)) monthnames [] ++ lit "-" ++ pad2 (Z.rem (tm_year tp) 100).
Definition neverdate (lt : Z -> tm) (t : Z) : list Z := if t =? 0 then lit "<Never>" else shortdate lt t.
Definition RULE76 : list Z := repeat 61 76 ++ [10].
(** crashstats.c:556-570, :580-597 *)
Definition last7row (name l : list Z) : list Z :=
  padr 33 name ++ concat (map (fun c => lit " " ++ fmtd 4 (nth c l 0)) (seq 1 7)) ++ lit " : " ++ fmtd 5 (sumdays l 1 7) ++ [10].
(** crashstats.c:572-573, :630-631: the sums are uint16_t; with LAST7 the first is not
    counted, and not shown *)
Definition add8 (t l : list Z) : list Z := map (fun c => u16 (nth c t 0 + nth c l 0)) (seq 0 8).
(** crashstats.c:539-599 *)
Definition last7part (E : csenv) (day : Z) (rows : list srow) : list Z :=
  lit "Area                             " ++
  concat (map (fun c => lit "   " ++ pad2 (tm_mday (cs_localtime E (u32 (u32 (day - Z.of_nat c) * 86400))))) (seq 1 7)) ++
  lit "   Total" ++ [10] ++ RULE76 ++
  concat (map (fun s => last7row (sr_tag s) (sr_last8 s)) rows) ++
  repeat 61 77 ++ [10] ++
  last7row (lit "Totally in all " ++ dec (u32 (Z.of_nat (length rows))) ++ lit " areas") (fold_left add8 (map sr_last8 rows) (repeat 0 8)).
(** crashstats.c:601-651 *)
Definition arearow (E : csenv) (s : srow) : list Z :=
  fmtl 29 (firstn 30 (sr_tag s)) ++ lit " " ++ padr 9 (neverdate (cs_localtime E) (sr_first s)) ++ lit " " ++ padr 9 (neverdate (cs_localtime E) (sr_last s)) ++
  lit " " ++ fmtd 7 (sr_total s) ++ lit "   " ++ fmtd 7 (sr_avg s) ++ lit " " ++ fmtd 7 (sr_dupes s) ++ [10].
Definition sum32 (l : list Z) : Z := fold_left (fun s x => u32 (s + x)) l 0.
Definition areapart (E : csenv) (day first : Z) (rows : list srow) : list Z :=
  lit "Area                           First     Last         Msgs  Msgs/day   Dupes" ++ [10] ++ RULE76 ++
  concat (map (arearow E) rows) ++ RULE76 ++
  (let total := sum32 (map sr_total rows) in
   fmtl 42 (lit "Totally in all " ++ dec (u32 (Z.of_nat (length rows))) ++ lit " areas") ++ lit "         " ++ fmtd 7 total ++ lit "   " ++
   fmtd 7 (CalculateAverage (fold_left add8 (map sr_last8 rows) (repeat 0 8)) total day (first / 86400)) ++ lit " " ++
   fmtd 7 (sum32 (map sr_dupes rows)) ++ [10]).
(** crashstats.c:662-683 *)
Definition noderow (E : csenv) (n : nstat) : list Z :=
  let date := if ns_first n =? 0 then lit "<Never>" else
    let tp := cs_localtime E (ns_first n) in dec (tm_mday tp) ++ lit "-" ++ nth (Z.to_nat (tm_mon tp)) monthnames [] ++ lit "-" ++ dec (Z.rem (tm_year tp) 100) in
  let a := ns_node n in
  let count s c b := s ++ dec c ++ lit "/" ++ cs_unit b ++ [10] in
  fmtl 30 (firstn 40 (dec (zone a) ++ lit ":" ++ dec (net a) ++ lit "/" ++ dec (node a) ++ lit "." ++ dec (point a))) ++ lit " Statistics since: " ++ date ++ [10; 10] ++
  count (lit "                                  Sent netmails: ") (ns_sentnet n) (ns_sentnetb n) ++
  count (lit "                              Received netmails: ") (ns_gotnet n) (ns_gotnetb n) ++
  count (lit "                                 Sent echomails: ") (ns_sentecho n) (ns_sentechob n) ++
  count (lit "                             Received echomails: ") (ns_gotecho n) (ns_gotechob n) ++
  lit "                                          Dupes: " ++ dec (ns_dupes n) ++ [10; 10].
(** crashstats.c:654-684 *)
Definition nodepart (E : csenv) (nodes : list nstat) : list Z :=
  [10] ++ lit "Nodes statistics" ++ [10] ++ lit "================" ++ [10] ++ concat (map (noderow E) nodes).

(** crashstats.c:394-700; the arguments are those of the command line. What is printed and
    the exit status. *)
Inductive csout := CsHelp | CsBadArgs | CsBadSort (c : Z) | CsNothing | CsNoFile | CsUnknown | CsReport (text : list Z).
Definition cs_exit (o : csout) : Z := match o with CsHelp | CsReport _ => EXIT_OK | _ => EXIT_ERROR end.
Definition cs_run (E : csenv) (file : list Z) (mode : Z) (last7 noareas nonodes : bool) (group : option (list Z)) : option csout :=
  match cs_read E file with
  | None => Some CsNoFile
  | Some f =>
    let x := osReadTo 4 (cs_junk1 E) f in
    if negb (streq (cstr (firstn 4 (fst x))) (lit "CST3")) then Some CsUnknown else
    let y := osReadTo 4 (cs_junk2 E) (snd x) in
    let z := osReadTo 4 (cs_junk3 E) (snd y) in
    let day := get32 (fst y) 0 in
    let ra := readrecs (S (length f)) 136 (get32 (fst z) 0) (snd z) in
    do rows <- (if noareas then Some [] else cs_areas group day (fst ra));
    let ft := if noareas then 0 else fold_left earlier (map (fun r => get64 r 120) (fst ra)) 0 in
    let w := osReadTo 4 (fst z) (snd ra) in
    let rn := readrecs (S (length f)) 56 (get32 (fst w) 0) (snd w) in
    let nodes := if nonodes then [] else map cs_node (fst rn) in
    let ft := if nonodes then ft else fold_left earlier (map (fun r => get64 r 48) (fst rn)) ft in
    let rows := SortRows E mode (SortRows E 97 rows) in
    Some (CsReport (
      lit "CrashStats 1.5.1 " ++ [169] ++ lit " 1998,2013 Johan Billing & Robert James Clay" ++ [10] ++
      [10] ++ lit "Statistics from " ++ shortdate (cs_localtime E) ft ++ lit " to " ++ shortdate (cs_localtime E) (day * 86400) ++ [10] ++
      (if noareas then [] else [10] ++ if last7 then last7part E day rows else areapart E day ft rows) ++
      (if nonodes then [] else nodepart E (cs_nqsort E CompareNodes nodes)) ++ [10]))
  end.
Definition CST_FILE := 0%nat. Definition CST_SORT := 1%nat. Definition CST_LAST7 := 2%nat.
Definition CST_NOAREAS := 3%nat. Definition CST_NONODES := 4%nat. Definition CST_GROUP := 5%nat.
(** crashstats.c:332-392 main *)
Definition crashstats (E : csenv) (argv : list (list Z)) : option csout :=
  if match argv with w :: _ => helpword w | [] => false end then Some CsHelp else
  match parseargs args_crashstats argv with
  | None => Some CsBadArgs
  | Some ds =>
    let mode := if given ds CST_SORT then tolower (hd 0 (word ds CST_SORT)) else 97 in
    if negb ((mode =? 0) || existsb (Z.eqb mode) (lit "amtdlu")) then Some (CsBadSort mode) else
    if given ds CST_NOAREAS && given ds CST_NONODES then Some CsNothing else
    cs_run E (word ds CST_FILE) mode (given ds CST_LAST7) (given ds CST_NOAREAS) (given ds CST_NONODES)
      (if given ds CST_GROUP then Some (word ds CST_GROUP) else None)
  end.
