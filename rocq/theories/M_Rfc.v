(** Model of Filter_Execute of src/crashmail/filter.c, of MakeRFCAddr, WriteRFC and WriteMSG
    of src/crashmail/misc.c and of osExecute of src/oslib_linux/osmisc.c.

    The file names tmpnam finds, the results of writing files (M_Msg.wres), what is in memory
    behind the text of a chunk ([behind]: first the unused bytes of the chunk) and the
    command are arguments. Allocation of memory succeeds, log output and the variable ioerror
    (looked at elsewhere) are not modelled. [None] stands for undefined behaviour: a buffer
    overflow or a read outside of memory. *)
From Verif Require Import Base M_Node4D M_Str M_Mem M_Cfg M_Fs M_Pkt M_Net M_Echo M_Filter M_Msg.

(** what is used of the configuration: cfg_Flags, AkaList *)
Record excfg := EX { ex_flags : Z; ex_akas : list aka }.

(** strcpy or sprintf into an array of [n] characters *)
Definition fits (n : nat) (s : list Z) : option (list Z) := if Nat.ltb (length s) n then Some s else None.
(** misc.c:628-668 MakeRFCAddr; dest has 100 characters (misc.c:677) *)
Definition MakeRFCAddr (nam : list Z) (n : node4d) (dom : list Z) : option (list Z) :=
  do d <- fits 50 dom;
  let d := map tolower d in
  let d := if streqi d (lit "fidonet") then lit "fidonet.org" else d in
  do name <- fits 50 nam;
  let name := map (fun c => if c =? 32 then 95 else c) name in
  fits 100 (name ++ lit "@" ++ (if negb (point n =? 0) then lit "p" ++ dec (point n) ++ lit "." else []) ++
            lit "f" ++ dec (node n) ++ lit ".n" ++ dec (net n) ++ lit ".z" ++ dec (zone n) ++ lit "." ++ d).

(** the end of a line: 13 or 10 *)
Definition isend (c : Z) : bool := (c =? 13) || (c =? 10).
(** the longest beginning without line end *)
Fixpoint tillend (s : list Z) : list Z :=
  match s with [] => [] | c :: r => if isend c then [] else c :: tillend r end.
(** misc.c:734-755: the control lines of a chunk. [text] is the chunk from c on, [mem] what
    is behind it; [fuel] bounds the rounds, each of which passes a character. The length
    d-c-2 is a uint32_t. *)
Fixpoint rfckludges (fuel : nat) (text mem : list Z) : option (list Z) :=
  match text with
  | [] => Some []
  | x :: _ =>
    match fuel with
    | O => None
    | S f =>
      let line := tillend text in
      do e <- nth_error (text ++ mem) (length line);
      let len := if isend e then S (length line) else length line in
      let n := u32 (Z.of_nat len - 2) in
      do out <- (if (x =? 1) && negb (n =? 0) then
                   if n <=? Z.of_nat (length (tl (text ++ mem))) then Some (lit "X-Fido-" ++ firstn (Z.to_nat n) (tl (text ++ mem)) ++ [10]) else None
                 else Some []);
      do r <- rfckludges f (skipn len text) mem;
      Some (out ++ r)
    end
  end.

(** misc.c:772-778: at most [n] characters up to a CR *)
Fixpoint tillcr (n : nat) (s : list Z) : list Z :=
  match n, s with
  | S n, c :: r => if c =? 13 then [] else c :: tillcr n r
  | _, _ => []
  end.
(** misc.c:776: the last place of a blank, 0 if there is none *)
Fixpoint lastblank (i : nat) (s : list Z) (found : nat) : nat :=
  match s with [] => found | c :: r => lastblank (S i) r (if c =? 32 then i else found) end.
(** misc.c:770: the number of LFs in front *)
Fixpoint leadlf (s : list Z) : nat := match s with c :: r => if c =? 10 then S (leadlf r) else O | [] => O end.
(** misc.c:763-806: the text of a chunk; [text] is the chunk from d on. Past the end of the
    text the memory behind it is looked at (lines 770 and 790). *)
Fixpoint rfcbody (fuel : nat) (text mem : list Z) : option (list Z) :=
  match text with
  | [] => Some []
  | _ =>
    match fuel with
    | O => None
    | S f =>
      let k := leadlf (text ++ mem) in
      do _ <- nth_error (text ++ mem) k;
      let mem := skipn (k - length text) mem in
      let text := skipn k text in
      let line := tillcr 78 text in
      let sp := lastblank 0 line 0 in
      do st <- (if Nat.eqb (length line) 78 && negb (Nat.eqb sp 0) then Some (firstn sp line, S sp)
                else do e <- nth_error (text ++ mem) (length line); Some (line, if e =? 13 then S (length line) else length line));
      let buf := cstr (fst st) in
      let out := match buf with 1 :: _ => [] | _ => buf ++ [10] end in
      do r <- rfcbody f (skipn (snd st) text) mem;
      Some (out ++ r)
    end
  end.
(** over all chunks *)
Fixpoint overchunks (f : list Z -> option (list Z)) (cs : list (list Z)) : option (list Z) :=
  match cs with
  | [] => Some []
  | c :: r => do a <- f c; do b <- overchunks f r; Some (a ++ b)
  end.

(** misc.c:679-685 *)
Definition rfcdomain (akas : list aka) (dest : node4d) : list Z :=
  match find (fun a => Compare4D dest (ak_node a) =? 0) akas with
  | Some a => match ak_domain a with [] => lit "FidoNet" | d => d end
  | None => lit "FidoNet"
  end.
(** misc.c:670-823 WriteRFC: the bytes written *)
Definition rfcbytes (cfg : excfg) (behind : list Z -> list Z) (mm : memmsg) (rfcaddr : bool) : option (list Z) :=
  let domain := rfcdomain (ex_akas cfg) (DestNode mm) in
  do fromaddr <- (if rfcaddr then MakeRFCAddr (From mm) (OrigNode mm) domain else fits 100 (addr4 (OrigNode mm) ++ lit "@" ++ domain));
  do toaddr <- (if rfcaddr then MakeRFCAddr (To mm) (DestNode mm) domain else fits 100 (addr4 (DestNode mm) ++ lit "@" ++ domain));
  do k <- overchunks (fun c => rfckludges (S (length c)) c (behind c)) (rev (TextChunks mm));
  do b <- overchunks (fun c => rfcbody (S (length c)) c (behind c)) (rev (TextChunks mm));
  Some (lit "From: " ++ fromaddr ++ lit " (" ++ From mm ++ lit ")" ++ [10] ++
        lit "To: " ++ toaddr ++ lit " (" ++ To mm ++ lit ")" ++ [10] ++
        lit "Subject: " ++ Subject mm ++ [10] ++
        lit "Date: " ++ DateTime mm ++ [10] ++
        (match MSGID mm with [] => [] | m => lit "Message-ID: <" ++ m ++ lit ">" ++ [10] end) ++
        (match REPLY mm with [] => [] | m => lit "References: <" ++ m ++ lit ">" ++ [10] end) ++
        k ++ [10] ++ b).
(** misc.c:825-937 WriteMSG: the bytes written; it differs from msg_WriteMSG (M_Msg) in
    Attr (line 843) *)
Definition WriteMSG_bytes (cfg : excfg) (junk : list Z) (mm : memmsg) : option (list Z) :=
  storedmsg (MC (ex_flags cfg) 0 false [] (N4 0 0 0 0)) junk (set_Attr mm (Z.lor (Attr mm) FLAG_SENT)).

(** what the system answers: the names tmpnam finds (for %r, %R and %m), the results of
    writing the files, the old contents of the stack (for WriteMSG) *)
Record exsys := ES { es_r : list Z; es_R : list Z; es_m : list Z; es_wr : wres; es_wR : wres; es_wm : wres; es_junk : list Z }.
(** osmisc.c:41-48 osExecute: WEXITSTATUS of what system returned *)
Definition WEXITSTATUS (st : Z) : Z := Z.land (Z.shiftr st 8) 255.

(** filter.c:617-687 Filter_Execute. [run] is what system(cmd) does: the disk after it and its
    result. The result is the disk after the work, the disk and the command when it was
    run, the message, and whether to go on. *)
Definition tmp (used : bool) (name : list Z) : list Z := if used then name else [].
Definition puttmp (used : bool) (fs : fsys) (name : list Z) (data : option (list Z)) (w : wres) : option fsys :=
  if used then do d <- data; Some (writenew fs name d w) else Some fs.
Definition deltmp (used : bool) (fs : fsys) (name : list Z) : fsys := if used then osDelete fs name else fs.
Record exres := XR { xr_disk : fsys; xr_before : fsys; xr_cmd : list Z; xr_mm : memmsg; xr_on : bool }.
Definition Filter_Execute (cfg : excfg) (behind : list Z -> list Z) (sys : exsys) (run : fsys -> list Z -> fsys * Z)
    (fs : fsys) (mm : memmsg) (cmd : list Z) : option exres :=
  let m := contains (lit "%m") cmd in
  let r1 := contains (lit "%r") cmd in
  let r2 := contains (lit "%R") cmd in
  do buf <- expandloop 400 (expandletter mm (tmp r1 (es_r sys)) (tmp r2 (es_R sys)) (tmp m (es_m sys))) cmd [];
  do fs1 <- puttmp r1 fs (es_r sys) (rfcbytes cfg behind mm false) (es_wr sys);
  do fs2 <- puttmp r2 fs1 (es_R sys) (rfcbytes cfg behind mm true) (es_wR sys);
  do fs3 <- puttmp m fs2 (es_m sys) (WriteMSG_bytes cfg (es_junk sys) mm) (es_wm sys);
  let '(fs4, st) := run fs3 buf in
  let fs5 := deltmp m (deltmp r2 (deltmp r1 fs4 (es_r sys)) (es_R sys)) (es_m sys) in
  let arcres := WEXITSTATUS st in
  if arcres =? 0 then Some (XR fs5 fs3 buf (set_Flags mm (Z.lor (Flags mm) MMFLAG_KILL)) true)
  else Some (XR fs5 fs3 buf mm (negb (20 <=? arcres))).
