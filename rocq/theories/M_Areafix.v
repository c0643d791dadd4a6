(** Model of src/crashmail/areafix.c: AreaFix, SendRemoveMessages, RemoveDeletedAreas,
    RemoteAreafixAdd, RemoteAreafixRemove, CheckFlags and FindForward.

    Taken to succeed: memory allocation; no break signal, no earlier I/O error. Replies
    and other netmails appear as events; the text of the replies is in M_AfText, and
    SendRemoteAreafix (it turns the queued commands into netmails) in M_AfList. *)
From Verif Require Import Base M_Node4D M_Pat M_Str M_Mem M_Cfg M_Pkt M_Echo M_Filter.

(** config.h:144-147, :255-256 *)
Definition NODE_SENDAREAFIX := 128.
Definition NODE_SENDTEXT := 256.
Definition NODE_AFNEEDSPLUS := 1024.
Definition AREALIST_FORWARD := 2.

(** config.h:70-103 struct Area: additionally BannedNodes and changed *)
Record farea := FA { fa_ar : area; fa_ban : list nat; fa_changed : bool }.
(** config.h:155-197 struct ConfigNode: additionally Packer (its position in PackerList)
    and changed *)
Record anode := AN { an_cn : cnode; an_packer : option nat; an_changed : bool }.
(** config.h:258-265 struct Arealist; instead of the file name the lines osFGets delivers,
    [None] if the file cannot be opened *)
Record alist := AL { al_node : nat; al_flags : Z; al_group : Z; al_lines : option (list (list Z)) }.
(** the parts of the configuration AreaFix reads and does not change. Packers: name, and
    whether there is a command to pack with. *)
Record afcfg := AFC { fc_flags : Z; fc_akas : list aka; fc_routes : list route;
                      fc_packers : list (list Z * bool); fc_alists : list alist }.

(** what the other parts of the program are asked to do: send a reply to this address, send
    an AreaFix message or a notice about a removed area to node i, rescan an area, queue a
    command for the AreaFix of node i, send list number k (1 list, 2 query, 3 unlinked, 4
    help, 5 info) *)
Inductive afev := FReply (to : node4d) | FRemoved (i : nat) (tag : list Z) | FNotice (i : nat) (tag : list Z)
                | FRescan (tag : list Z) (num : Z) | FRemote (i : nat) (cmd : list Z) | FSend (k : Z).

(** the changing part of the state; [fs_want] are the lists asked for, [fs_global] is
    globalrescan *)
Record afst := AFS { fs_areas : list farea; fs_nodes : list anode; fs_want : list Z; fs_global : bool; fs_ev : list afev }.

Definition an0 : anode := AN cn0 None false.
Definition getan (s : list anode) (i : nat) : anode := nth i s an0.
Fixpoint setnth {A} (n : nat) (x : A) (l : list A) : list A :=
  match l, n with
  | [], _ => []
  | _ :: r, O => x :: r
  | y :: r, S m => y :: setnth m x r
  end.

(** areafix.c:1605-1616 CheckFlags (group lists are shorter than 256 characters) *)
Definition CheckFlags (group : Z) (l : list Z) : bool := mem group l.

(** areafix.c:1633-1636: the first word of a line; chars are signed *)
Fixpoint fword (l : list Z) : list Z :=
  match l with
  | c :: r => if (c >? 32) && (c <? 128) then c :: fword r else []
  | [] => []
  end.
(** areafix.c:1618-1653 FindForward *)
Definition FindForward (cfg : afcfg) (tag flags : list Z) : option alist :=
  find (fun al => flag (al_flags al) AREALIST_FORWARD && CheckFlags (al_group al) flags &&
                  match al_lines al with
                  | Some ls => existsb (fun l => streqi (fword l) tag) ls
                  | None => false
                  end) (fc_alists cfg).

(** areafix.c:1488-1505 RemoteAreafixAdd, :1507-1520 RemoteAreafixRemove *)
Definition RemoteAreafixAdd (nodes : list anode) (name : list Z) (i : nat) : afev :=
  FRemote i (firstn 70 ((if flag (cn_flags (an_cn (getan nodes i))) NODE_AFNEEDSPLUS then [43] else []) ++ firstn 78 name)).
Definition RemoteAreafixRemove (name : list Z) (i : nat) : afev := FRemote i (firstn 70 (45 :: firstn 78 name)).

(** areafix.c:732-824 SendRemoveMessages. [None]: the notice does not fit in buf[100]
    (its other text is 44 characters long). *)
Fixpoint SendRemoveMessages (nodes : list anode) (tag : list Z) (l : list tossnode) : option (list afev) :=
  match l with
  | [] => Some []
  | t :: r =>
    let f := cn_flags (an_cn (getan nodes (tn_node t))) in
    let e1 := if flag f NODE_SENDAREAFIX then [FRemoved (tn_node t) tag] else [] in
    do e2 <- (if flag f NODE_SENDTEXT && negb (flag (tn_flags t) TOSSNODE_FEED)
              then (if Nat.ltb (44 + length tag) 100 then Some [FNotice (tn_node t) tag] else None) else Some []);
    do e3 <- SendRemoveMessages nodes tag r;
    Some (e1 ++ e2 ++ e3)
  end.

(** areafix.c:826-845 RemoveDeletedAreas *)
Definition RemoveDeletedAreas (l : list farea) : list farea :=
  filter (fun a => negb (ar_type (fa_ar a) =? AREATYPE_DELETED)) l.

Inductive afcmd := CAdd | CRemove | CUpdate.

Definition set_tn (a : area) (l : list tossnode) : area := AR (ar_tag a) (ar_type a) (ar_flags a) (ar_group a) (ar_aka a) l (ar_mb a).
Definition set_type (a : area) (t : Z) : area := AR (ar_tag a) t (ar_flags a) (ar_group a) (ar_aka a) (ar_tn a) (ar_mb a).
Definition set_group (a : area) (g : Z) : area := AR (ar_tag a) (ar_type a) (ar_flags a) g (ar_aka a) (ar_tn a) (ar_mb a).
Definition isnode (i : nat) (t : tossnode) : bool := Nat.eqb (tn_node t) i.
(** areafix.c:478 jbFreeNode: the first entry of this node *)
Fixpoint remfirst (i : nat) (l : list tossnode) : list tossnode :=
  match l with
  | [] => []
  | t :: r => if isnode i t then r else t :: remfirst i r
  end.

(** patterndone, areaexists, rescanarea and the events of the loop over the areas *)
Record lp := LP { lp_done : bool; lp_exists : bool; lp_rescan : option farea; lp_ev : list afev }.

(** areafix.c:375-453 COMMAND_ADD for one matching area *)
Definition add1 (c : cnode) (i : nat) (a : farea) (p : lp) : farea * lp :=
  let ar := fa_ar a in
  match find (isnode i) (ar_tn ar) with
  | Some _ => (a, LP true true (lp_rescan p) (lp_ev p))
  | None =>
    if CheckFlags (ar_group ar) (cn_groups c) || CheckFlags (ar_group ar) (cn_rogroups c) then
      if existsb (Nat.eqb i) (fa_ban a) then (a, LP true true (lp_rescan p) (lp_ev p))
      else
        let f := if flag (ar_flags ar) AREA_DEFREADONLY || CheckFlags (ar_group ar) (cn_rogroups c)
                 then TOSSNODE_READONLY else 0 in
        let a' := FA (set_tn ar (ar_tn ar ++ [TN i f])) (fa_ban a) true in
        (a', LP true true (Some a') (lp_ev p))
    else (a, LP (lp_done p) true (lp_rescan p) (lp_ev p))
  end.

(** areafix.c:455-520 COMMAND_REMOVE for one matching area *)
Definition rem1 (cfg : afcfg) (nodes : list anode) (i : nat) (wild : bool) (a : farea) (p : lp) : option (farea * lp) :=
  let ar := fa_ar a in
  match find (isnode i) (ar_tn ar) with
  | None => Some (a, LP (if wild then lp_done p else true) true (lp_rescan p) (lp_ev p))
  | Some t =>
    if flag (ar_flags ar) AREA_MANDATORY && negb (flag (tn_flags t) TOSSNODE_FEED) then Some (a, LP true true (lp_rescan p) (lp_ev p))
    else
      let l := remfirst i (ar_tn ar) in
      let a' := FA (set_tn ar l) (fa_ban a) true in
      let gone := FA (set_type (set_tn ar l) AREATYPE_DELETED) (fa_ban a) true in
      if flag (tn_flags t) TOSSNODE_FEED && flag (fc_flags cfg) CFG_REMOVEWHENFEED then
        do e <- SendRemoveMessages nodes (ar_tag ar) l;
        Some (gone, LP true true (lp_rescan p) (lp_ev p ++ e))
      else if flag (fc_flags cfg) CFG_AREAFIXREMOVE then
        match l with
        | [] => if ar_mb ar then Some (a', LP true true (lp_rescan p) (lp_ev p))
                else Some (gone, LP true true (lp_rescan p) (lp_ev p))
        | [u] => if flag (tn_flags u) TOSSNODE_FEED && negb (ar_mb ar)
                 then Some (gone, LP true true (lp_rescan p) (lp_ev p ++ [RemoteAreafixRemove (ar_tag ar) (tn_node u)]))
                 else Some (a', LP true true (lp_rescan p) (lp_ev p))
        | _ => Some (a', LP true true (lp_rescan p) (lp_ev p))
        end
      else Some (a', LP true true (lp_rescan p) (lp_ev p))
  end.

(** areafix.c:522-537 COMMAND_UPDATE for one matching area *)
Definition upd1 (i : nat) (wild : bool) (a : farea) (p : lp) : farea * lp :=
  match find (isnode i) (ar_tn (fa_ar a)) with
  | None => (a, LP (lp_done p) true (lp_rescan p) (lp_ev p))
  | Some _ => (a, LP true true (if wild then lp_rescan p else Some a) (lp_ev p))
  end.

(** areafix.c:363-541: the loop over the areas *)
Fixpoint arealoop (cfg : afcfg) (nodes : list anode) (i : nat) (cmd : afcmd) (wild : bool) (name : list Z)
                  (l : list farea) (p : lp) : option (list farea * lp) :=
  match l with
  | [] => Some ([], p)
  | a :: r =>
    do x <- (if (ar_type (fa_ar a) =? AREATYPE_ECHOMAIL) && osMatchPattern name (ar_tag (fa_ar a)) then
               match cmd with
               | CAdd => Some (add1 (an_cn (getan nodes i)) i a p)
               | CRemove => rem1 cfg nodes i wild a p
               | CUpdate => Some (upd1 i wild a p)
               end
             else Some (a, p));
    do y <- arealoop cfg nodes i cmd wild name r (snd x);
    Some (fst x :: fst y, snd y)
  end.

(** areafix.c:544-590: what is to be rescanned. atoi yields an int, stored as uint32. *)
Definition rescanof (cfg : afcfg) (wild global : bool) (opt : list Z) (p : lp) : option (list Z * Z) :=
  match lp_rescan p with
  | Some a =>
    if negb wild && lp_done p then
      let do_ := strneqi 2 opt (lit "r=") in
      if (global || do_) && flag (fc_flags cfg) CFG_ALLOWRESCAN && ar_mb (fa_ar a)
      then Some (ar_tag (fa_ar a), if do_ then u32 (atoi (skipn 2 opt)) else 0) else None
    else None
  | None => None
  end.

(** areafix.c:302-341: command, name and option of a line. [lastcomma]: the text before
    and after the last comma. *)
Fixpoint lastcomma (l : list Z) : option (list Z * list Z) :=
  match l with
  | [] => None
  | c :: r => match lastcomma r with
              | Some (a, b) => Some (c :: a, b)
              | None => if c =? 44 then Some ([], r) else None
              end
  end.
Definition parsecmd (buf : list Z) : afcmd * list Z * list Z :=
  let '(n0, o0) := match lastcomma buf with
                   | Some (a, b) => (a, striplead b)
                   | None => (buf, [])
                   end in
  let n := striptrail n0 in
  let o := striptrail o0 in
  match n with
  | 45 :: r => (CRemove, r, o)
  | 61 :: r => (CUpdate, r, o)
  | 43 :: r => (CAdd, r, o)
  | _ => (CAdd, n, o)
  end.

(** areafix.c:603-652: an unknown area is asked for at an uplink. [None]: a tag of 80
    characters or more overruns Tagname (handle.c:249), or there is no AKA for the new area
    (the NULL pointer is used by areafix.c:632). *)
Definition forward (cfg : afcfg) (i : nat) (rt : route) (name : list Z) (s : afst) : option afst :=
  let c := an_cn (getan (fs_nodes s) i) in
  if flag (cn_flags c) NODE_FORWARDREQ then
    match FindForward cfg name (cn_groups c) with
    | None => Some s
    | Some al =>
      if Nat.ltb (length name) 80 then
        let ec := EC (fc_flags cfg) (fc_akas cfg) (map an_cn (fs_nodes s)) 0 0 in
        match AddArea ec (map fa_ar (fs_areas s)) name (cn_node (an_cn (getan (fs_nodes s) (al_node al)))) (ak_node (rt_aka rt)) true
                      (flag (fc_flags cfg) CFG_FORWARDPASSTHRU) with
        | None => None
        | Some a =>
          let f := if CheckFlags (al_group al) (cn_rogroups c) then TOSSNODE_READONLY else 0 in
          let a' := set_tn (set_group a (al_group al)) (AddTossNode (ar_tn a) i f) in
          Some (AFS (fs_areas s ++ [FA a' [] true]) (fs_nodes s) (fs_want s) (fs_global s)
                    (fs_ev s ++ [RemoteAreafixAdd (fs_nodes s) name (al_node al)]))
        end
      else None
    end
  else Some s.

(** areafix.c:290-690: a line that names areas. [rescan] says whether a rescan succeeds;
    the result is [false] if AreaFix gives up because one did not. *)
Definition areacmd (cfg : afcfg) (rescan : list Z -> Z -> bool) (i : nat) (rt : route) (buf : list Z) (s : afst) : option (afst * bool) :=
  let '(cmd, name, opt) := parsecmd buf in
  let wild := osIsPattern name in
  do x <- arealoop cfg (fs_nodes s) i cmd wild name (fs_areas s) (LP false false None []);
  let '(areas, p) := x in
  let s1 := AFS areas (fs_nodes s) (fs_want s) (fs_global s) (fs_ev s ++ lp_ev p) in
  match rescanof cfg wild (fs_global s) opt p with
  | Some (tag, num) =>
    let s2 := AFS areas (fs_nodes s) (fs_want s) (fs_global s) (fs_ev s1 ++ [FRescan tag num]) in
    Some (s2, rescan tag num)
  | None =>
    match cmd with
    | CAdd => if negb (lp_done p) && negb wild && negb (lp_exists p) then
                do s2 <- forward cfg i rt name s1; Some (s2, true)
              else Some (s1, true)
    | _ => Some (s1, true)
    end
  end.

Definition set_node (s : afst) (i : nat) (n : anode) : afst := AFS (fs_areas s) (setnth i n (fs_nodes s)) (fs_want s) (fs_global s) (fs_ev s).
Definition want (s : afst) (k : Z) : afst := AFS (fs_areas s) (fs_nodes s) (k :: fs_want s) (fs_global s) (fs_ev s).
Definition cn_setflags (c : cnode) (f : Z) : cnode :=
  CN (cn_node c) (cn_pw c) (cn_afpw c) (cn_groups c) (cn_rogroups c) (cn_addgroups c) (cn_defgroup c) f (cn_sysop c) (cn_pktfrom c) (cn_rafname c) (cn_rafpw c).
Definition cn_setafpw (c : cnode) (p : list Z) : cnode :=
  CN (cn_node c) (cn_pw c) p (cn_groups c) (cn_rogroups c) (cn_addgroups c) (cn_defgroup c) (cn_flags c) (cn_sysop c) (cn_pktfrom c) (cn_rafname c) (cn_rafpw c).
(** areafix.c:198: the position of the packer of this name *)
Fixpoint findpacker (n : list Z) (l : list (list Z * bool)) : option nat :=
  match l with
  | [] => None
  | (m, ok) :: r => if streqi n m && ok then Some O else option_map S (findpacker n r)
  end.

(** areafix.c:131-288: a line that starts with "%". buf2 is an array of 100. *)
Definition pctcmd (cfg : afcfg) (i : nat) (buf : list Z) (s : afst) : option afst :=
  let n := getan (fs_nodes s) i in
  let c := an_cn n in
  match jbstrcpy (repeat 0 100) buf 100 with
  | (None, _, _) => None
  | (Some b, _, rest) =>
    let w := cstr b in
    if streqi w (lit "%PAUSE") then
      Some (if flag (cn_flags c) NODE_PASSIVE then s
            else set_node s i (AN (cn_setflags c (Z.lor (cn_flags c) NODE_PASSIVE)) (an_packer n) true))
    else if streqi w (lit "%RESUME") then
      Some (if flag (cn_flags c) NODE_PASSIVE
            then set_node s i (AN (cn_setflags c (Z.ldiff (cn_flags c) NODE_PASSIVE)) (an_packer n) true) else s)
    else if streqi w (lit "%PWD") then
      match jbstrcpy b rest 40 with
      | (None, _, _) => None
      | (Some b2, true, _) => Some (set_node s i (AN (cn_setafpw c (cstr b2)) (an_packer n) true))
      | (Some _, false, _) => Some s
      end
    else if streqi w (lit "%RESCAN") then
      Some (if flag (fc_flags cfg) CFG_ALLOWRESCAN then AFS (fs_areas s) (fs_nodes s) (fs_want s) true (fs_ev s) else s)
    else if streqi w (lit "%COMPRESS") then
      match jbstrcpy b rest 40 with
      | (None, _, _) => None
      | (Some b2, true, _) =>
        let w2 := cstr b2 in
        if (hd 0 w2 =? 63) then Some s
        else if streqi w2 (lit "NONE") then Some (set_node s i (AN c None true))
        else match findpacker w2 (fc_packers cfg) with
             | Some k => Some (set_node s i (AN c (Some k) true))
             | None => Some s
             end
      | (Some _, false, _) => Some s
      end
    else if streqi w (lit "%LIST") then Some (want s 1)
    else if streqi w (lit "%QUERY") then Some (want s 2)
    else if streqi w (lit "%UNLINKED") then Some (want s 3)
    else if streqi w (lit "%HELP") then Some (want s 4)
    else if streqi w (lit "%INFO") then Some (want s 5)
    else Some s
  end.

(** areafix.c:119-692: the body of the loop for one line *)
Definition afline (cfg : afcfg) (rescan : list Z -> Z -> bool) (i : nat) (rt : route) (raw : list Z) (s : afst) : option (afst * bool) :=
  let buf := stripleadtrail raw in
  do x <- match buf with
          | [] => Some (s, true)
          | 1 :: _ => Some (s, true)
          | 37 :: _ => do s' <- pctcmd cfg i buf s; Some (s', true)
          | _ => areacmd cfg rescan i rt buf s
          end;
  let '(s', ok) := x in
  if ok then Some (AFS (RemoveDeletedAreas (fs_areas s')) (fs_nodes s') (fs_want s') (fs_global s') (fs_ev s'), true)
  else Some (s', false).

(** areafix.c:120-123: the characters up to CR, LF or the end of the chunk, at most 100,
    and what follows. (The loop reads one byte behind the chunk before it looks at the
    length; the value has no influence.) *)
Fixpoint upto (n : nat) (l : list Z) : list Z * list Z :=
  match n, l with
  | S m, c :: r => if (c =? 13) || (c =? 10) then ([], l) else let '(a, b) := upto m r in (c :: a, b)
  | _, _ => ([], l)
  end.
Definition isstop (raw : list Z) : bool := streq (firstn 3 raw) (lit "---").

Inductive how := More | Stop | Failed.
(** areafix.c:117-694: the lines of one chunk. [None]: 100 characters without a line end
    (the NUL goes behind buf[100]), or lack of fuel; every round consumes a character. *)
Fixpoint chunkloop (cfg : afcfg) (rescan : list Z -> Z -> bool) (i : nat) (rt : route) (fuel : nat) (l : list Z) (s : afst) : option (afst * how) :=
  match fuel, l with
  | _, [] => Some (s, More)
  | O, _ => None
  | S f, _ =>
    let '(d, rest) := upto 100 l in
    if Nat.ltb (length d) 100 then
      let raw := cstr d in
      do x <- afline cfg rescan i rt raw s;
      if snd x then
        if isstop raw then Some (fst x, Stop) else chunkloop cfg rescan i rt f (tl rest) (fst x)
      else Some (fst x, Failed)
    else None
  end.
(** areafix.c:115-695 *)
Fixpoint chunksloop (cfg : afcfg) (rescan : list Z -> Z -> bool) (i : nat) (rt : route) (cs : list (list Z)) (s : afst) : option (afst * how) :=
  match cs with
  | [] => Some (s, More)
  | l :: r =>
    do x <- chunkloop cfg rescan i rt (length l) l s;
    match snd x with
    | More => chunksloop cfg rescan i rt r (fst x)
    | h => Some (fst x, h)
    end
  end.

(** areafix.c:37-730 AreaFix: the new state and the return value. The first lookup of the
    node uses the configured nodes as they were before the request. *)
Definition AreaFix (nl : nodelist) (cfg : afcfg) (rescan : list Z -> Z -> bool) (mm : memmsg) (s0 : afst) : option (afst * bool) :=
  let ev s e := AFS (fs_areas s) (fs_nodes s) (fs_want s) (fs_global s) (fs_ev s ++ e) in
  let s := AFS (fs_areas s0) (fs_nodes s0) [] false (fs_ev s0) in
  match findroute nl (fc_routes cfg) (OrigNode mm) with
  | None => Some (s, true)
  | Some rt =>
    match findidx (fun n => cn_node (an_cn n)) (OrigNode mm) (fs_nodes s) with
    | None => Some (ev s [FReply (OrigNode mm)], true)
    | Some i =>
      match jbstrcpy (repeat 0 100) (Subject mm) 100 with
      | (None, _, _) => None
      | (Some b, _, rest) =>
        if streqi (cstr b) (cn_afpw (an_cn (getan (fs_nodes s) i))) then
          match jbstrcpy b rest 100 with
          | (None, _, _) => None
          | (Some b2, got, _) =>
            let s1 := if got && (streqi (cstr b2) (lit "-q") || streqi (cstr b2) (lit "-l")) then want s 1 else s in
            do x <- chunksloop cfg rescan i rt (rev (TextChunks mm)) s1;
            match x with
            | (s2, Failed) => Some (s2, false)
            | (s2, _) => Some (ev s2 (FReply (OrigNode mm) :: map FSend (filter (fun k => mem k (fs_want s2)) [1; 2; 3; 4; 5])), true)
            end
          end
        else Some (ev s [FReply (OrigNode mm)], true)
      end
    end
  end.
