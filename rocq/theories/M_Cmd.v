(** Model of Rescan, SendAFList and RemoveArea (src/crashmail/crashmail.c) and of HandleRescan
    (src/crashmail/handle.c).

    BeforeScanToss, the rescan functions, DoSendAFList and AfterScanToss are not part of it: what
    is modelled is which of them is called, for what and in which order. The log is left out. *)
From Verif Require Import Base M_Node4D M_Pat M_Str M_Mem M_Cfg M_Pkt M_Echo M_Filter M_Upd M_Areafix M_Scan.

(** BeforeScanToss with its result; a rescan function called for the area and the node at these
    places of the configuration; DoSendAFList for this node; a message about a removed area;
    AfterScanToss with its argument *)
Inductive cev := CBegin (ok : bool) | CRescan (area node : nat) (max : Z) | CList (node : nat) | CMail (e : afev) | CEnd (success : bool).

(** crashmail.c:350-351, :427-428: the first node with this address *)
Definition findcn (n : node4d) (nodes : list cnode) : option nat := findpos (fun c => Compare4D (cn_node c) n =? 0) nodes.
(** crashmail.c:337-403 Rescan; [sa_mb]: whether the message base has a rescanfunc; [ok]: what
    it returns *)
Definition Rescan (nodes : list cnode) (areas : list sarea) (before ok : bool) (areaname node : list Z) (max : Z) : list cev * bool :=
  match Parse4D node with
  | None => ([], false)
  | Some n =>
    match findcn n nodes with
    | None => ([], false)
    | Some k =>
      match findarea sa_tag areaname areas 0 with
      | None => ([], false)
      | Some j =>
        let a := nth j areas noarea in
        if negb (sa_type a =? AREATYPE_ECHOMAIL) then ([], false)
        else
          match sa_mb a with
          | Some true => if before then ([CBegin true; CRescan j k max; CEnd ok], ok) else ([CBegin false], false)
          | _ => ([], false)
          end
      end
    end
  end.

(** config.h:142 *)
Definition NODE_NOTIFY := 32.
(** crashmail.c:414-417 *)
Fixpoint notifyall (l : list cnode) (k : nat) : list cev :=
  match l with
  | [] => []
  | c :: r => if flag (cn_flags c) NODE_NOTIFY then CList k :: notifyall r (S k) else notifyall r (S k)
  end.
(** crashmail.c:405-447 SendAFList; [err]: nomem || ioerror at the end *)
Definition SendAFList (nodes : list cnode) (before err : bool) (node : list Z) : list cev * bool :=
  if negb before then ([CBegin false], false)
  else if streqi node (lit "ALL") then (CBegin true :: notifyall nodes 0 ++ [CEnd true], negb err)
  else
    match Parse4D node with
    | None => ([CBegin true], false)
    | Some n =>
      match findcn n nodes with
      | Some k => ([CBegin true; CList k; CEnd true], negb err)
      | None => ([CBegin true], false)
      end
    end.

(** crashmail.c:449-473 RemoveArea: what is called, the areas, config.changed if it is set, the
    result. [None]: see SendRemoveMessages *)
Definition RemoveArea (nodes : list anode) (areas : list farea) (before : bool) (name : list Z) : option (list cev * list farea * bool * bool) :=
  if negb before then Some ([CBegin false], areas, false, false)
  else
    match findpos (fun a => (ar_type (fa_ar a) =? AREATYPE_ECHOMAIL) && streqi name (ar_tag (fa_ar a))) areas with
    | None => Some ([CBegin true], areas, false, true)
    | Some i =>
      match nth_error areas i with
      | None => None
      | Some a =>
        do e <- SendRemoveMessages nodes (ar_tag (fa_ar a)) (ar_tn (fa_ar a));
        let areas' := RemoveDeletedAreas (setnth i (FA (set_type (fa_ar a) AREATYPE_DELETED) (fa_ban a) (fa_changed a)) areas) in
        Some (CBegin true :: map CMail e ++ [CEnd true], areas', Nat.ltb (length areas') (length areas), true)
      end
    end.

(** handle.c:1697-1739 HandleRescan up to the call of WriteEchoMail: the message and the address it
    is called with (and RescanNode). [None]: there is no such area, or see AddNodePath and
    mmSortNodes2D *)
Definition HandleRescan (flags : Z) (areas : list area) (dest : cnode) (mm : memmsg) : option (memmsg * aka) :=
  do a <- find (fun a => streqi (ar_tag a) (Area mm)) areas;
  let own := ak_node (ar_aka a) in
  let sb := if point own =? 0 then mmAddNodes2DList (SeenBy mm) (net own) (node own) else SeenBy mm in
  let sb := if point (cn_node dest) =? 0 then mmAddNodes2DList sb (net (cn_node dest)) (node (cn_node dest)) else sb in
  do path <- (if (point own =? 0) || flag flags CFG_PATH3D then AddNodePath (Path mm) own else Some (Path mm));
  do sb <- mmSortNodes2D sb;
  Some (set_Path (set_SeenBy mm sb) path, ar_aka a).
