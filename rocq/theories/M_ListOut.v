(** Model of src/tools/crashlistout.c: a list of what waits in an outbound directory. The
    directories, the files, localtime, qsort and the environment are arguments; memory is
    never short. What is printed by parseargs and printargs and the text of an error message
    of the system are left out. *)
From Verif Require Import Base M_Node4D M_Mem M_Str M_Args M_Main M_Out M_Date M_Pat M_Upd M_AfList.

(** crashlistout.c:62-65 *)
Definition LO_DIRECTORY := 0%nat.
Definition LO_ZONE := 1%nat.
Definition LO_PATTERN := 2%nat.
Definition LO_VERBOSE := 3%nat.
(** crashlistout.c:26-32 *)
Inductive lotype := TCrash | TDirect | TNormal | THold | TRequest.
Definition loname (t : lotype) : list Z :=
  match t with TCrash => lit "Crash" | TDirect => lit "Direct" | TNormal => lit "Normal" | THold => lit "Hold" | TRequest => lit "Request" end.
(** crashlistout.c:38-48 struct fileentry *)
Record fentry := FE { fe_node : node4d; fe_file : list Z; fe_dir : list Z; fe_size : Z; fe_date : Z; fe_type : lotype; fe_flow : bool }.

(** The system: the names in a directory in the order of readdir ([None]: it cannot be
    opened), size and date of a file (osGetFileEntry; the size is a uint32_t), the contents
    of a file, localtime, getenv of CMOUTBOUND and CMOUTBOUNDZONE, qsort *)
Record loenv := LO {
  lo_dirs : list Z -> option (list (list Z)); lo_stat : list Z -> option (Z * Z); lo_read : list Z -> option (list Z);
  lo_localtime : Z -> tm; lo_envdir : option (list Z); lo_envzone : option (list Z);
  lo_qsort : (fentry -> fentry -> Z) -> list fentry -> list fentry }.

(** crashlistout.c:79-143 Parse4DPat: the same text as rawParse4DPat of node4dpat.c *)
Definition lo_Parse4DPat (buf : list Z) : pres npat := rawParse4DPat PAT_PATTERN buf.
(** crashlistout.c:165-175 Compare4DPat = 0; NodeCompare (lines 145-163) is that of node4dpat.c *)
Definition lo_match (p : npat) (n : node4d) : bool :=
  ((zone n =? 0) || (NodeCompare (pzone p) (zone n) =? 0)) && (NodeCompare (pnet p) (net n) =? 0) &&
  (NodeCompare (pnode p) (node n) =? 0) && (NodeCompare (ppoint p) (point n) =? 0).
(** crashlistout.c:179-186 unit; the negative constants are converted to uint32_t *)
Definition lo_unit (i : Z) : list Z :=
  if (i >? 10000000) || (i <? u32 (-10000000)) then dec (i / 1048576) ++ lit "M"
  else if (i >? 10000) || (i <? u32 (-10000)) then dec (i / 1024) ++ lit "K"
  else dec i.
(** crashlistout.c:209-215 strip; chars are signed. (For a line of nothing but blanks the
    byte in front of the array is read, which has no effect.) *)
Fixpoint dropblanks (l : list Z) : list Z := match l with c :: r => if (c <? 33) || (c >? 127) then dropblanks r else l | [] => [] end.
Definition lo_strip (l : list Z) : list Z := rev (dropblanks (rev l)).
(** crashlistout.c:228-244 PrintDate *)
Definition PrintDate (localtime : Z -> tm) (t : Z) : list Z :=
  let tp := localtime t in
  pad2 (tm_mday tp) ++ lit "-" ++ nth (Z.to_nat (tm_mon tp)) monthnames [] ++ lit "-" ++ pad2 (Z.rem (tm_year tp) 100) ++ lit " " ++
  pad2 (tm_hour tp) ++ lit ":" ++ pad2 (tm_min tp).

(** while(osFGets(os,line,200)) { strip(line); if(line[0]) ...: the lines that are looked
    at (crashlistout.c:266-270, :321-325, :381-385, :410-414). The fuel is the length of the
    file. *)
Fixpoint lo_lines_ (fuel : nat) (s : list Z) : list (list Z) :=
  match fuel with
  | O => []
  | S f => match osFGets 200 s with
           | None => []
           | Some (l, r) => match lo_strip l with [] => lo_lines_ f r | b => b :: lo_lines_ f r end
           end
  end.
Definition lo_lines (s : list Z) : list (list Z) := lo_lines_ (length s) s.
(** crashlistout.c:272-273, :331-332; strcpy on overlapping strings, taken as a move *)
Definition lo_target (l : list Z) : list Z := match l with c :: r => if (c =? 35) || (c =? 94) || (c =? 45) then r else l | [] => [] end.
(** crashlistout.c:275-285, :334-344 *)
Definition lo_entry (E : loenv) (dir name : list Z) : option (option (Z * Z)) :=
  if streqi (GetFilePart name) name then do p <- path200 dir name; Some (lo_stat E p) else Some (lo_stat E name).
(** crashlistout.c:266-297: number and size of the files *)
Fixpoint flowsum (E : loenv) (dir : list Z) (ls : list (list Z)) (n b : Z) : option (Z * Z) :=
  match ls with
  | [] => Some (n, b)
  | l :: r =>
    do e <- lo_entry E dir (lo_target l);
    match e with Some (size, _) => flowsum E dir r (u32 (n + 1)) (u32 (b + size)) | None => flowsum E dir r n b end
  end.
(** crashlistout.c:327-330 *)
Definition lo_todo (l : list Z) : list Z :=
  match l with
  | c :: _ => if (c =? 35) || (c =? 94) then lit "(To be truncated)" else if c =? 45 then lit "(To be deleted)" else []
  | [] => []
  end.
(** "%10s" *)
Definition pad10 (s : list Z) : list Z := repeat 32 (10 - length s) ++ s.
(** crashlistout.c:346-355 *)
Definition contentline (E : loenv) (dir l : list Z) : option (list Z) :=
  do e <- lo_entry E dir (lo_target l);
  Some (lit " " ++ padr 39 (lo_target l) ++ lit " " ++ pad10 (match e with Some (size, _) => lo_unit size | None => lit "Not found" end) ++
        lit "   " ++ lo_todo l ++ [10]).

(** TotalFiles, TotalBytes, TotalRequests (crashlistout.c:34-36) *)
Record totals := TOT { t_files : Z; t_bytes : Z; t_reqs : Z }.
(** crashlistout.c:246-304 PrintFlowSize, :365-396 PrintReqNums, :434-438: the column B/F of
    an entry, and the totals *)
Definition bfcolumn (E : loenv) (cfg : list Z) (e : fentry) (t : totals) : option (list Z * totals) :=
  match fe_type e with
  | TRequest =>
    do p <- path200 cfg (fe_file e);
    match lo_read E p with
    | None => Some (lit "?/?", t)
    | Some s => let n := Z.of_nat (length (lo_lines s)) in
                Some (lit "-/" ++ dec (u32 n), TOT (t_files t) (t_bytes t) (u32 (t_reqs t + n)))
    end
  | _ =>
    if fe_flow e then
      do p <- path200 cfg (fe_file e);
      match lo_read E p with
      | None => Some (lit "?/?", t)
      | Some s => do nb <- flowsum E (fe_dir e) (lo_lines s) 0 0;
                  Some (lo_unit (snd nb) ++ lit "/" ++ dec (fst nb), TOT (u32 (t_files t + fst nb)) (u32 (t_bytes t + snd nb)) (t_reqs t))
      end
    else Some (lo_unit (fe_size e) ++ lit "/1", t)
  end.
(** crashlistout.c:306-363 DisplayFlowContents, :398-423 DisplayReqContents, :443-444 *)
Definition lo_contents (E : loenv) (cfg : list Z) (e : fentry) : option (list Z) :=
  let file k :=
    do p <- path200 cfg (fe_file e);
    match lo_read E p with
    | None => Some (lit "Failed to open file" ++ [10; 10])
    | Some s => do ls <- k (lo_lines s); Some (concat ls ++ [10])
    end in
  match fe_type e with
  | TRequest => file (fun ls => Some (map (fun l => lit " " ++ l ++ [10]) ls))
  | _ => if fe_flow e then file (omap (contentline E (fe_dir e))) else Some [10]
  end.
(** crashlistout.c:425-454 DisplayFlow, DisplayPkt, DisplayReq *)
Definition lo_row (E : loenv) (cfg : list Z) (verbose : bool) (e : fentry) (t : totals) : option (list Z * totals) :=
  do bf <- bfcolumn E cfg e t;
  do c <- (if verbose then lo_contents E cfg e else Some []);
  Some (padr 8 (loname (fe_type e)) ++ lit " " ++ padr 17 (Print4D (fe_node e)) ++ lit " " ++ padr 16 (PrintDate (lo_localtime E) (fe_date e)) ++
        lit " " ++ padl 7 (fst bf) ++ lit "   " ++ fe_file e ++ [10] ++ c, snd bf).
(** crashlistout.c:706-711 *)
Fixpoint lo_rows (E : loenv) (cfg : list Z) (verbose : bool) (es : list fentry) (t : totals) : option (list Z * totals) :=
  match es with
  | [] => Some ([], t)
  | e :: r => do a <- lo_row E cfg verbose e t; do b <- lo_rows E cfg verbose r (snd a); Some (fst a ++ fst b, snd b)
  end.

(** mystrncpy and MakeFullPath into an array of [n] bytes *)
Definition copyto (n : nat) (s : list Z) : option (list Z) := option_map cstr (mystrncpy (Some (repeat 0 n)) 0 s n).
Definition pathto (n : nat) (dir file : list Z) : option (list Z) := option_map cstr (MakeFullPath dir file (repeat 0 n) n).
(** crashlistout.c:495-560 addentry: the entries it adds; the members of a Node4D have 16 bits *)
Definition addentry (E : loenv) (cfg : list Z) (czone : Z) (pat : npat) (dir : option (list Z)) (file : list Z) (t : lotype) (boss : option node4d) (flow : bool) : option (list fentry) :=
  let hex := u32 (hextodec file) in
  let n := match boss with
           | Some b => set_point b (u16 hex)
           | None => N4 (u16 czone) (u16 (hex / 65536)) (u16 (hex mod 65536)) 0
           end in
  if lo_match pat n then
    do buf <- match dir with Some d => path200 d file | None => copyto 200 file end;
    do buf2 <- path200 cfg buf;
    match lo_stat E buf2 with
    | None => Some []
    | Some (size, date) =>
      do d <- match dir with Some d => pathto 100 cfg d | None => copyto 100 cfg end;
      do f <- copyto 100 buf;
      Some [FE n f d size date t flow]
    end
  else Some [].
(** crashlistout.c:596-606; no two of the extensions are the same *)
Definition loexts : list (list Z * (lotype * bool)) :=
  [(lit ".REQ", (TRequest, true)); (lit ".CLO", (TCrash, true)); (lit ".DLO", (TDirect, true)); (lit ".FLO", (TNormal, true)); (lit ".HLO", (THold, true));
   (lit ".CUT", (TCrash, false)); (lit ".DUT", (TDirect, false)); (lit ".OUT", (TNormal, false)); (lit ".HUT", (THold, false))].
(** crashlistout.c:564-607 scandirfunc for a file that is no directory of points *)
Definition scanfile (E : loenv) (cfg : list Z) (czone : Z) (pat : npat) (dir : option (list Z)) (boss : option node4d) (file : list Z) : option (list fentry) :=
  if negb (Nat.eqb (length file) 12) then Some []
  else match find (fun x => streqi (skipn 8 file) (fst x)) loexts with
       | Some (_, (t, flow)) => addentry E cfg czone pat dir file t boss flow
       | None => Some []
       end.
(** crashlistout.c:564-607 scandirfunc for the files of the outbound directory. If the
    directory of the points cannot be opened, nothing happens. *)
Definition scantop (E : loenv) (cfg : list Z) (czone : Z) (pat : npat) (file : list Z) : option (list fentry) :=
  if Nat.eqb (length file) 12 && streqi (skipn 8 file) (lit ".PNT") then
    let hex := u32 (hextodec file) in
    do p <- path200 cfg file;
    match lo_dirs E p with
    | None => Some []
    | Some names =>
      do ls <- omap (scanfile E cfg czone pat (Some file) (Some (N4 (u16 czone) (u16 (hex / 65536)) (u16 (hex mod 65536)) 0))) names;
      Some (concat ls)
    end
  else scanfile E cfg czone pat None None file.
(** crashlistout.c:456-464 sortcompare; sortlist (lines 466-493) hands the list to qsort, if it has two entries *)
Definition sortcompare (a b : fentry) : Z := Compare4D (fe_node a) (fe_node b).

(** help was asked for; wrong words or a wrong pattern; the directory cannot be read; a list *)
Inductive loout := LHelp | LBadArgs | LBadPattern | LNoDir | LList (text : list Z).
(** the exit status: line 694 returns FALSE *)
Definition lo_exit (o : loout) : Z := match o with LBadArgs | LBadPattern => EXIT_ERROR | _ => 0 end.
(** crashlistout.c:684-721 *)
Definition lo_list (E : loenv) (cfg : list Z) (czone : Z) (pat : npat) (verbose : bool) : option loout :=
  match lo_dirs E cfg with
  | None => Some LNoDir
  | Some names =>
    do ls <- omap (scantop E cfg czone pat) names;
    let es := lo_qsort E sortcompare (concat ls) in
    do r <- lo_rows E cfg verbose es (TOT 0 0 0);
    let t := snd r in
    Some (LList (lit "CrashListOut 1.5.1" ++ [10; 10] ++
      padr 8 (lit "Type") ++ lit " " ++ padr 17 (lit "Node") ++ lit " " ++ padr 16 (lit "Last Change") ++ lit " " ++ padl 7 (lit "B/F") ++ lit "   File" ++ [10; 10] ++
      match es with
      | [] => lit "Outbound directory is empty." ++ [10]
      | _ => fst r ++ (if verbose then [] else [10]) ++
             lit "Totally " ++ lo_unit (t_bytes t) ++ lit " bytes in " ++ dec (t_files t) ++ lit " files to send, " ++ dec (t_reqs t) ++ lit " requests." ++ [10]
      end))
  end.
(** crashlistout.c:609-721 main; [argv] without the name of the program. [None]: undefined *)
Definition crashlistout (E : loenv) (argv : list (list Z)) : option loout :=
  if match argv with w :: _ => helpword w | [] => false end then Some LHelp else
  match parseargs args_crashlistout argv with
  | None => Some LBadArgs
  | Some ds =>
    let cfg := if given ds LO_DIRECTORY then word ds LO_DIRECTORY else match lo_envdir E with Some d => d | None => lit "." end in
    let czone := if given ds LO_ZONE then u32 (atoi (word ds LO_ZONE)) else match lo_envzone E with Some z => u32 (atoi z) | None => 2 end in
    let list p := lo_list E cfg czone p (given ds LO_VERBOSE) in
    if given ds LO_PATTERN then
      match lo_Parse4DPat (word ds LO_PATTERN) with
      | POk p => list p
      | PFail => Some LBadPattern
      | PUB => None
      end
    else list (NP PAT_PATTERN (lit "*") (lit "*") (lit "*") (lit "*"))
  end.
