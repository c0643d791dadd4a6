(** Model of a toss run as a sequence of steps on the disk: src/crashmail/toss.c, safedel.c,
    BeforeScanToss and AfterScanToss of crashmail.c, ArchiveOutbound of outbound.c.

    What the program does with the messages of a packet is a parameter (M_Pkt.ReadPkt with
    the handlers of M_Echo and M_Net is one value of it). Steps are those of M_Out.fop; the
    writes that make up a packet are put together into one step. Directories can be read,
    memory does not run out, and ctrl-c is not modelled. *)
From Verif Require Import Base M_Node4D M_Pat M_Str M_Mem M_Cfg M_Pkt M_Fs M_Expr M_Filter M_Out.

(** ** Directories *)

(** what follows [pre] in [s] *)
Fixpoint behindprefix (pre s : list Z) : option (list Z) :=
  match pre, s with
  | [], _ => Some s
  | a :: p, b :: r => if a =? b then behindprefix p r else None
  | _, _ => None
  end.
(** a directory as the beginning of the paths in it *)
Definition slashed (dir : list Z) : list Z :=
  match rev dir with [] => [] | c :: _ => if c =? PATHCHAR then dir else dir ++ [PATHCHAR] end.
(** names are strings without slash *)
Definition namechars (n : list Z) : bool := forallb (fun c => (0 <? c) && (c <? 256) && negb (c =? PATHCHAR)) n.
(** osdir.c:3-69 osReadDir: name (osFileEntry.Name holds 99 characters) and size of the
    files the filter accepts *)
Fixpoint osReadDir (fs : fsys) (dir : list Z) (accept : list Z -> bool) : list (list Z * Z) :=
  match fs with
  | [] => []
  | (p, c) :: r =>
    match behindprefix (slashed dir) p with
    | Some n => if namechars n && accept n then (firstn 99 n, Z.of_nat (length c)) :: osReadDir r dir accept
                else osReadDir r dir accept
    | None => osReadDir r dir accept
    end
  end.

(** misc.c:205-212 IsPkt *)
Definition IsPkt (f : list Z) : bool := Nat.eqb (length f) 12 && (nth 8 f 0 =? 46) && streqi (skipn 9 f) (lit "pkt").

Section Toss.
  (** the external programs; the configuration of the outbound side; SortFEList *)
  Context (exec : list Z -> fsys -> fsys * Z) (env : oenv) (sort : list (list Z * Z) -> list (list Z * Z)).
  Notation run := (run exec).
  Notation doing := (doing exec).

  (** ** Archiving *)

  (** outbound.c:366-446 HandleOrphan as steps *)
  Definition orphanretry (fs : fsys) (name : list Z) : option (list fop) :=
    match fget fs name with
    | None => Some []
    | Some s =>
      match osFGets 100 s with
      | None => Some []
      | Some (l, _) =>
        do a <- token200 100 l;
        match flavour (fst a) with
        | None => Some []
        | Some type =>
          do b <- token200 100 (snd a);
          match Parse4D (fst b) with
          | None => Some []
          | Some n =>
            do c <- token200 100 (snd b);
            let mode := if streqi (fst c) (lit "Truncate") then FLOW_TRUNC else if streqi (fst c) (lit "Delete") then FLOW_DELETE else FLOW_NONE in
            let nm := firstn 199 name in
            let file := firstn (length nm - 7) nm in
            do base <- MakeBaseName env n;
            match LockBasename env fs base with
            | None => Some []
            | Some fs => let '(o, ok) := flowops env fs file base type mode in
                         Some ([Put (bsyname base) []] ++ o ++ (if ok then [Del name] else []) ++ [Del (bsyname base)])
            end
          end
        end
      end
    end.
  (** outbound.c:878-884 *)
  Fixpoint orphanloop (l : list (list Z * Z)) (fs : fsys) : option (list fop) :=
    match l with
    | [] => Some []
    | (n, _) :: r =>
      do p <- path200 (oe_packetdir env) n;
      do o <- orphanretry fs p;
      do o' <- orphanloop r (run fs o);
      Some (o ++ o')
    end.
  (** outbound.c:339-364 DeleteZero *)
  Fixpoint zeroops (l : list (list Z * Z)) : option (list fop) :=
    match l with
    | [] => Some []
    | (n, size) :: r =>
      do o <- zeroops r;
      if size =? 0 then do p <- path200 (oe_packetdir env) n; Some (Del p :: o) else Some o
    end.
  (** outbound.c:921-927: packets left over by earlier runs *)
  Fixpoint packold (l : list (list Z * Z)) (st : ostate) : option (ostate * list fop) :=
    match l with
    | [] => Some (st, [])
    | (n, _) :: r =>
      do p <- path200 (oe_packetdir env) n;
      do x <- PackFile exec env st p;
      do y <- packold r (fst (fst x));
      Some (fst y, snd (fst x) ++ snd y)
    end.
  (** outbound.c:563-577 MakePktTmp: the new name *)
  Definition tmpname (name : list Z) : option (list Z) :=
    do b <- path200 (oe_packetdir env) (GetFilePart name);
    if Nat.ltb (length b) 6 then None else Some (firstn (length b - 6) b ++ lit "pkttmp").
  (** outbound.c:945-954 *)
  Fixpoint packnew (l : list (list Z * Z)) (st : ostate) : option (ostate * list fop * bool) :=
    match l with
    | [] => Some (st, [], true)
    | (n, _) :: r =>
      do p <- path200 (oe_packetcreate env) n;
      do x <- PackFile exec env st p;
      let '(st, o, ok) := x in
      if ok : bool then
        do y <- packnew r st; let '(st, o', res) := y in Some (st, o ++ o', res)
      else
        do b <- tmpname p;
        if osExists (os_fs st) p && negb (oe_noopen env b) then
          do y <- packnew r (doing st [Ren p b]); let '(st, o', res) := y in Some (st, o ++ [Ren p b] ++ o', res)
        else Some (st, o, false)
    end.
  (** outbound.c:859-957 ArchiveOutbound. [last]: LastArcName of the nodes. *)
  Definition ArchiveOutbound (fs : fsys) (last : list (list Z)) : option (ostate * list fop * bool) :=
    do o1 <- orphanloop (sort (osReadDir fs (oe_packetdir env) IsOrphan)) fs;
    let fs := run fs o1 in
    let arcs := osReadDir fs (oe_packetdir env) IsArc in
    do o2 <- zeroops arcs;
    let fs := run fs o2 in
    let arcs := filter (fun a => negb (snd a =? 0)) arcs in
    do idx <- path200 (oe_packetdir env) (lit "cmindex");
    do x <- ReadIndex env (fget fs idx) last;
    let '(last, changed) := x in
    do o3 <- (if changed : bool then indexops env last else Some []);
    let st := OS (run fs o3) last arcs in
    do y <- packold (sort (osReadDir (os_fs st) (oe_packetdir env) IsPktTmp)) st;
    let '(st, o4) := y in
    do z <- packnew (sort (osReadDir (os_fs st) (oe_packetcreate env) IsNewPkt)) st;
    let '(st, o5, ok) := z in
    Some (st, o1 ++ o2 ++ o3 ++ o4 ++ o5, ok).

  (** ** Reading the inbound *)

  (** what the message handler does: its state, what it makes of the contents of a packet,
      the steps it takes on the disk meanwhile (message bases), the packets it has written *)
  Context {S : Type} (readpkt : S -> list Z -> pktres S) (side : S -> list Z -> list fop) (packets : S -> list opkt).
  (** the inbound directory, the directory for temporary files, the command to unpack a
      bundle; files that cannot be opened for reading *)
  Context (inbound tempdir : list Z) (unpack : fsys -> list Z -> option (list Z)) (noread : list Z -> bool).

  (** crashmail.c:275-295: leftover new packets are deleted *)
  Fixpoint beforeops (l : list (list Z * Z)) : option (list fop) :=
    match l with
    | [] => Some []
    | (n, _) :: r => do p <- path200 (oe_packetcreate env) n; do o <- beforeops r; Some (Del p :: o)
    end.
  (** misc.c:282-315 BadFile as a step *)
  Definition badops (fs : fsys) (file : list Z) : option (list fop) :=
    do base <- badname inbound file 0;
    do k <- firstfree (Datatypes.S (length fs)) fs (fun n => base ++ (if n =? 0 then [] else lit "," ++ dec n)) 0;
    Some [Ren file (base ++ (if k =? 0 then [] else lit "," ++ dec k))].
  (** pkt.c:113-484 ReadPkt for a file. A file that cannot be opened is passed over and TRUE
      returned (lines 123-130). *)
  Definition tosspkt (st : S) (fs : fsys) (file : list Z) : option (S * list fop * bool) :=
    match (if noread file then None else fget fs file) with
    | None => Some (st, [], true)
    | Some c =>
      match readpkt st c with
      | PkDone st' => Some (st', side st c, true)
      | PkBad _ st' => do o <- badops (run fs (side st c)) file; Some (st', side st c ++ o, true)
      | PkFalse st' => Some (st', side st c, false)
      | PkUB | PkFuel => None
      end
    end.
  (** toss.c:296-309: the packets of the inbound. The last component is the list of files to
      be deleted (safedel.c:3-14); names are cut to 99 characters there. *)
  Fixpoint tosspkts (l : list (list Z * Z)) (st : S) (fs : fsys) (del : list (list Z)) : option (S * list fop * list (list Z) * bool) :=
    match l with
    | [] => Some (st, [], del, true)
    | (n, _) :: r =>
      do p <- path200 inbound n;
      do x <- tosspkt st fs p;
      let '(st, o, ok) := x in
      if ok : bool then
        do y <- tosspkts r st (run fs o) (del ++ [firstn 99 p]);
        let '(st, o', del, ok) := y in Some (st, o ++ o', del, ok)
      else Some (st, o, del, false)
    end.
  (** toss.c:139-162: the packets of a bundle, in the directory for temporary files *)
  Fixpoint tosstemp (l : list (list Z * Z)) (st : S) (fs : fsys) (del : list (list Z)) : option (S * list fop * bool) :=
    match l with
    | [] => Some (st, [], true)
    | (n, _) :: r =>
      do p <- path200 tempdir n;
      if existsb (streq p) del then tosstemp r st fs del else
      do x <- tosspkt st fs p;
      let '(st, o, ok) := x in
      if ok : bool then
        do y <- tosstemp r st (run fs (o ++ [Del p])) del;
        let '(st, o', ok) := y in Some (st, o ++ [Del p] ++ o', ok)
      else Some (st, o, false)
    end.
  (** toss.c:80-170 TossBundle. [unpack] stands for DetectPacker and ExpandPacker. The
      status -1 of osChDirExecute ends the run. *)
  Definition TossBundle (st : S) (fs : fsys) (file : list Z) (size : Z) (del : list (list Z)) : option (S * list fop * bool) :=
    if size =? 0 then Some (st, [Del file], true) else
    match unpack fs file with
    | None => do o <- badops fs file; Some (st, o, true)
    | Some cmd =>
      let res := snd (exec cmd fs) in
      let fs := run fs [Exec cmd] in
      if res =? -1 then Some (st, [Exec cmd], false) else
      do o1 <- (if res =? 0 then Some [] else badops fs file);
      let fs := run fs o1 in
      do x <- tosstemp (sort (osReadDir fs tempdir IsPkt)) st fs del;
      let '(st, o2, ok) := x in
      Some (st, [Exec cmd] ++ o1 ++ o2, ok)
    end.
  (** toss.c:311-324 *)
  Fixpoint tossarcs (l : list (list Z * Z)) (st : S) (fs : fsys) (del : list (list Z)) : option (S * list fop * list (list Z) * bool) :=
    match l with
    | [] => Some (st, [], del, true)
    | (n, size) :: r =>
      do p <- path200 inbound n;
      do x <- TossBundle st fs p size del;
      let '(st, o, ok) := x in
      if ok : bool then
        do y <- tossarcs r st (run fs o) (del ++ [firstn 99 p]);
        let '(st, o', del, ok) := y in Some (st, o ++ o', del, ok)
      else Some (st, o, del, false)
    end.
  (** pkt.c:560-706: the packets written, under their first name (made in a buffer of 100
      bytes), then renamed (buffers of 200 bytes) *)
  Definition path100 (dir file : list Z) : option (list Z) := option_map cstr (MakeFullPath dir file (repeat 0 100) 100).
  Fixpoint closeops (l : list opkt) : option (list fop) :=
    match l with
    | [] => Some []
    | p :: r =>
      do made <- path100 (oe_packetcreate env) (hex 8 (op_hex p) ++ lit ".newpkt");
      do old <- path200 (oe_packetcreate env) (hex 8 (op_hex p) ++ lit ".newpkt");
      do name <- finalname (op_hex p) (op_type p) (op_dest p);
      do new <- path200 (oe_packetcreate env) name;
      do o <- closeops r;
      Some ([Put made (op_data p)] ++ (if op_hex p =? 0 then [] else [Ren old new]) ++ o)
    end.

  (** A run: the steps before archiving, those of archiving, those that delete the files
      read; the state of the message handler; whether reading went to the end, and what
      ArchiveOutbound returned (which is not looked at, crashmail.c:148) *)
  Record tossrun := TR { tr_read : list fop; tr_archive : list fop; tr_delete : list fop; tr_state : S; tr_ok : bool; tr_archived : bool }.
  (** toss.c:172-336 TossDir for the inbound, with crashmail.c:146-159 and :270-295 *)
  Definition TossDir (st : S) (fs : fsys) (last : list (list Z)) : option tossrun :=
    do o0 <- beforeops (osReadDir fs (oe_packetcreate env) IsNewPkt);
    let fs0 := run fs o0 in
    let pkts := sort (osReadDir fs0 inbound IsPkt) in
    let arcs := sort (osReadDir fs0 inbound IsArc) in
    do x <- tosspkts pkts st fs0 [];
    let '(st1, o1, del1, ok1) := x in
    do y <- (if ok1 : bool then tossarcs arcs st1 (run fs0 o1) del1 else Some (st1, [], del1, false));
    let '(st2, o2, del2, ok2) := y in
    do o3 <- closeops (packets st2);
    let before := o0 ++ o1 ++ o2 ++ o3 in
    if ok2 : bool then
      do z <- ArchiveOutbound (run fs before) last;
      Some (TR before (snd (fst z)) (map Del del2) st2 true (snd z))
    else Some (TR before [] [] st2 false false).
End Toss.
