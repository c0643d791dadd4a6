(** Model of the text of AreaFix's answers (src/crashmail/areafix.c: AreaFix, AddCommandReply), on top
    of M_Areafix, which models what the commands do. The lines are those given to afAddLine, whose
    division into messages is in M_AfList. [total] stands for rescan_total: the number of messages
    a rescan of this area with this limit sends. osCheckPattern is always true (ospattern.c:7-10), and
    both message bases can be rescanned (mb.c:15-32). *)
From Verif Require Import Base M_Node4D M_Pat M_Str M_Mem M_Cfg M_Pkt M_Echo M_Filter M_Areafix M_AfList.

(** "%-30s" *)
Definition pad30 (s : list Z) : list Z := s ++ repeat 32 (30 - length s).
(** areafix.c:1058-1069 AddCommandReply *)
Definition AddCommandReply (cmd reply : list Z) : list (list Z) :=
  if Nat.leb (length cmd) 30 then [pad30 cmd ++ lit " " ++ reply] else [cmd; pad30 [] ++ lit " " ++ reply].
(** a line for a pattern, or the answer to a command for one area *)
Definition say (wild : bool) (buf w reply : list Z) : list (list Z) := if wild then [w] else AddCommandReply buf reply.

(** areafix.c:376-453 *)
Definition addtext (c : cnode) (i : nat) (wild : bool) (buf : list Z) (a : farea) : list (list Z) :=
  let ar := fa_ar a in
  match find (isnode i) (ar_tn ar) with
  | Some _ => say wild buf (lit "   You are already attached to " ++ ar_tag ar) (lit "You are already attached to that area")
  | None =>
    if CheckFlags (ar_group ar) (cn_groups c) || CheckFlags (ar_group ar) (cn_rogroups c) then
      if existsb (Nat.eqb i) (fa_ban a) then say wild buf (lit "   You have been banned from " ++ ar_tag ar) (lit "You have been banned from that area")
      else if flag (ar_flags ar) AREA_DEFREADONLY || CheckFlags (ar_group ar) (cn_rogroups c)
      then say wild buf (lit "   Attached to " ++ ar_tag ar ++ lit " as read-only") (lit "Attached as read-only")
      else say wild buf (lit "   Attached to " ++ ar_tag ar) (lit "Attached")
    else if wild then [] else AddCommandReply buf (lit "You don't have access to that area")
  end.
(** areafix.c:455-485 *)
Definition remtext (i : nat) (wild : bool) (buf : list Z) (a : farea) : list (list Z) :=
  let ar := fa_ar a in
  match find (isnode i) (ar_tn ar) with
  | None => if wild then [] else AddCommandReply buf (lit "You are not attached to that area")
  | Some t =>
    if flag (ar_flags ar) AREA_MANDATORY && negb (flag (tn_flags t) TOSSNODE_FEED)
    then say wild buf (lit "   You are not allowed to detach from " ++ ar_tag ar) (lit "You are not allowed to detach from that area")
    else say wild buf (lit "   Detached from " ++ ar_tag ar) (lit "Detached")
  end.
(** areafix.c:522-537 *)
Definition updtext (i : nat) (wild : bool) (buf : list Z) (a : farea) : list (list Z) :=
  match find (isnode i) (ar_tn (fa_ar a)) with
  | None => []
  | Some _ => say wild buf (lit "   Nothing to do with " ++ ar_tag (fa_ar a)) (lit "Will rescan area")
  end.
(** areafix.c:363-541: what is said about one area. What the loop does to other areas does not matter *)
Definition onetext (c : cnode) (i : nat) (cmd : afcmd) (wild : bool) (buf name : list Z) (a : farea) : list (list Z) :=
  if (ar_type (fa_ar a) =? AREATYPE_ECHOMAIL) && osMatchPattern name (ar_tag (fa_ar a)) then
    match cmd with CAdd => addtext c i wild buf a | CRemove => remtext i wild buf a | CUpdate => updtext i wild buf a end
  else [].
(** areafix.c:544-594 *)
Definition rescantext (cfg : afcfg) (total : list Z -> Z -> Z) (wild global : bool) (opt : list Z) (p : lp) : list (list Z) :=
  match lp_rescan p with
  | None => []
  | Some a =>
    if negb wild && lp_done p then
      let do_ := strneqi 2 opt (lit "r=") in
      (if do_ then [] else match opt with [] => [] | _ => [pad30 [] ++ lit " Unknown option " ++ opt] end) ++
      (if global || do_ then
         if flag (fc_flags cfg) CFG_ALLOWRESCAN then
           if ar_mb (fa_ar a) then [pad30 [] ++ lit " Rescanned " ++ dec (u32 (total (ar_tag (fa_ar a)) (if do_ then u32 (atoi (skipn 2 opt)) else 0))) ++ lit " messages"]
           else [pad30 [] ++ lit " Can't rescan, area is pass-through"]
         else [pad30 [] ++ lit " No rescanning allowed"]
       else [])
    else []
  end.
(** areafix.c:617: "%u:%u/%u.%u" *)
Definition four (n : node4d) : list Z := dec (zone n) ++ lit ":" ++ dec (net n) ++ lit "/" ++ dec (node n) ++ lit "." ++ dec (point n).
(** areafix.c:596-681; the nodes are those before the line (a line that names areas changes none) *)
Definition endtext (cfg : afcfg) (nodes : list anode) (i : nat) (cmd : afcmd) (wild global : bool) (buf name opt : list Z) (p : lp) : list (list Z) :=
  let c := an_cn (getan nodes i) in
  match cmd with
  | CAdd =>
    if lp_done p then [] else
    if wild then [lit "   There were no matching areas to connect to"] else
    if lp_exists p then [] else
    match (if flag (cn_flags c) NODE_FORWARDREQ then FindForward cfg name (cn_groups c) else None) with
    | Some al => AddCommandReply buf (lit "Request sent to " ++ four (cn_node (an_cn (getan nodes (al_node al)))))
    | None => AddCommandReply buf (lit "Unknown area")
    end
  | CRemove =>
    if lp_done p then [] else
    if wild then [lit "   There were no matching areas to detach from"] else AddCommandReply buf (lit "Unknown area")
  | CUpdate =>
    if lp_done p then
      match lp_rescan p, opt with
      | Some _, [] => if global then [] else AddCommandReply buf (lit "Nothing to do")
      | _, _ => []
      end
    else if wild then [lit "   There were no matching areas"] else AddCommandReply buf (lit "You are not attached to this area")
  end.
(** areafix.c:290-687: the answer to a line that names areas. [None]: as in [areacmd] *)
Definition areatext (cfg : afcfg) (total : list Z -> Z -> Z) (i : nat) (buf : list Z) (s : afst) : option (list (list Z)) :=
  let '(cmd, name, opt) := parsecmd buf in
  let wild := osIsPattern name in
  do x <- arealoop cfg (fs_nodes s) i cmd wild name (fs_areas s) (LP false false None []);
  let p := snd x in
  Some ((if wild then [buf; []] else []) ++
        concat (map (onetext (an_cn (getan (fs_nodes s) i)) i cmd wild buf name) (fs_areas s)) ++
        rescantext cfg total wild (fs_global s) opt p ++
        endtext cfg (fs_nodes s) i cmd wild (fs_global s) buf name opt p ++
        (if wild then [[]] else [])).
(** areafix.c:225-235 *)
Definition packerlist (cfg : afcfg) : list (list Z) :=
  concat (map (fun p => AddCommandReply [] (fst p)) (filter snd (fc_packers cfg))) ++ AddCommandReply [] (lit "NONE").
(** areafix.c:131-288: the answer to a line that starts with "%", and whether it sets done *)
Definition pcttext (cfg : afcfg) (i : nat) (buf : list Z) (s : afst) : option (list (list Z) * bool) :=
  let c := an_cn (getan (fs_nodes s) i) in
  let r (t : list Z) := AddCommandReply buf t in
  match jbstrcpy (repeat 0 100) buf 100 with
  | (None, _, _) => None
  | (Some b, _, rest) =>
    let w := cstr b in
    if streqi w (lit "%PAUSE") then
      Some (if flag (cn_flags c) NODE_PASSIVE then (r (lit "Your system is already passive"), false)
            else (r (lit "Your system is marked as passive") ++ AddCommandReply [] (lit "Send %%RESUME to get echomail again"), true))
    else if streqi w (lit "%RESUME") then
      Some (if flag (cn_flags c) NODE_PASSIVE then (r (lit "Your system is active again"), true) else (r (lit "Your system is not paused"), false))
    else if streqi w (lit "%PWD") then
      match jbstrcpy b rest 40 with
      | (None, _, _) => None
      | (Some _, true, _) => Some (r (lit "AreaFix password changed"), true)
      | (Some _, false, _) => Some (r (lit "No new password specified"), false)
      end
    else if streqi w (lit "%RESCAN") then
      Some (if flag (fc_flags cfg) CFG_ALLOWRESCAN then (r (lit "Will rescan all areas added after this line"), false) else (r (lit "No rescanning allowed"), false))
    else if streqi w (lit "%COMPRESS") then
      match jbstrcpy b rest 40 with
      | (None, _, _) => None
      | (Some b2, true, _) =>
        let w2 := cstr b2 in
        Some (if (hd 0 w2 =? 63) then r (lit "Sending list of packers:") ++ packerlist cfg
              else if streqi w2 (lit "NONE") then r (lit "Packed changed")
              else match findpacker w2 (fc_packers cfg) with
                   | Some _ => r (lit "Packed changed")
                   | None => r (lit "Unknown packer. Choose from this list:") ++ packerlist cfg
                   end, true)
      | (Some _, false, _) => Some (r (lit "No new method specified"), false)
      end
    else if streqi w (lit "%LIST") then Some (r (lit "Sending list of all areas"), true)
    else if streqi w (lit "%QUERY") then Some (r (lit "Sending query"), true)
    else if streqi w (lit "%UNLINKED") then Some (r (lit "Sending list of all unlinkedareas"), true)
    else if streqi w (lit "%HELP") then Some (r (lit "Sending help file"), true)
    else if streqi w (lit "%INFO") then Some (r (lit "Sending configuration info"), true)
    else Some (r (lit "Unknown command"), true)
  end.
(** areafix.c:128-687: the answer to one line, and whether it sets done *)
Definition linetext (cfg : afcfg) (total : list Z -> Z -> Z) (i : nat) (raw : list Z) (s : afst) : option (list (list Z) * bool) :=
  let buf := stripleadtrail raw in
  match buf with
  | [] => Some ([], false)
  | 1 :: _ => Some ([], false)
  | 37 :: _ => pcttext cfg i buf s
  | _ => do t <- areatext cfg total i buf s; Some (t, true)
  end.

(** the answers collected so far, and done *)
Record txt := TX { tx_lines : list (list Z); tx_done : bool }.
Definition addtx (t : txt) (l : list (list Z) * bool) : txt := TX (tx_lines t ++ fst l) (tx_done t || snd l).
(** areafix.c:117-694, as [chunkloop] *)
Fixpoint chunktext (cfg : afcfg) (rescan : list Z -> Z -> bool) (total : list Z -> Z -> Z) (i : nat) (rt : route) (fuel : nat) (l : list Z) (s : afst) (t : txt) : option (afst * how * txt) :=
  match fuel, l with
  | _, [] => Some (s, More, t)
  | O, _ => None
  | S f, _ =>
    let '(d, rest) := upto 100 l in
    if Nat.ltb (length d) 100 then
      let raw := cstr d in
      do a <- linetext cfg total i raw s;
      do x <- afline cfg rescan i rt raw s;
      if snd x then
        if isstop raw then Some (fst x, Stop, addtx t a) else chunktext cfg rescan total i rt f (tl rest) (fst x) (addtx t a)
      else Some (fst x, Failed, addtx t a)
    else None
  end.
(** areafix.c:115-695 *)
Fixpoint chunkstext (cfg : afcfg) (rescan : list Z -> Z -> bool) (total : list Z -> Z -> Z) (i : nat) (rt : route) (cs : list (list Z)) (s : afst) (t : txt) : option (afst * how * txt) :=
  match cs with
  | [] => Some (s, More, t)
  | l :: r =>
    do x <- chunktext cfg rescan total i rt (length l) l s t;
    match snd (fst x) with
    | More => chunkstext cfg rescan total i rt r (fst (fst x)) (snd x)
    | h => Some (fst (fst x), h, snd x)
    end
  end.
(** areafix.c:37-702: the address the answer comes from and its lines. The second [None]: no answer *)
Definition AreaFixText (nl : nodelist) (cfg : afcfg) (rescan : list Z -> Z -> bool) (total : list Z -> Z -> Z) (mm : memmsg) (s0 : afst) : option (option (node4d * list (list Z))) :=
  let s := AFS (fs_areas s0) (fs_nodes s0) [] false (fs_ev s0) in
  match findroute nl (fc_routes cfg) (OrigNode mm) with
  | None => Some None
  | Some rt =>
    let from := ak_node (rt_aka rt) in
    match findidx (fun n => cn_node (an_cn n)) (OrigNode mm) (fs_nodes s) with
    | None => Some (Some (from, [lit "Sorry, your node is not configured here."]))
    | Some i =>
      match jbstrcpy (repeat 0 100) (Subject mm) 100 with
      | (None, _, _) => None
      | (Some b, _, rest) =>
        if streqi (cstr b) (cn_afpw (an_cn (getan (fs_nodes s) i))) then
          match jbstrcpy b rest 100 with
          | (None, _, _) => None
          | (Some b2, got, _) =>
            let q := got && (streqi (cstr b2) (lit "-q") || streqi (cstr b2) (lit "-l")) in
            let s1 := if q then want s 1 else s in
            let t1 := if q then TX (AddCommandReply (cstr b2) (lit "Sending list of all areas")) true else TX [] false in
            do x <- chunkstext cfg rescan total i rt (rev (TextChunks mm)) s1 t1;
            match x with
            | (_, Failed, _) => Some None
            | (_, _, t) => Some (Some (from, tx_lines t ++ (if tx_done t then [] else [lit "Nothing to do."])))
            end
          end
        else Some (Some (from, [lit "Sorry, wrong password."]))
      end
    end
  end.
(** areafix.c:69, :702: the messages *)
Definition AreaFixAnswer (flags maxlines : Z) (handle : list memmsg -> memmsg -> memmsg) (date : nat -> list Z) (sysop : list Z)
    (nl : nodelist) (cfg : afcfg) (rescan : list Z -> Z -> bool) (total : list Z -> Z -> Z) (mm : memmsg) (s : afst) : option (list memmsg) :=
  do x <- AreaFixText nl cfg rescan total mm s;
  match x with
  | None => Some []
  | Some (from, ls) => reply flags maxlines handle date sysop from (From mm) (OrigNode mm) (lit "AreaFix response") ls
  end.
