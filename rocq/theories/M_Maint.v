(** Model of the main program of CrashMaint, src/tools/crashmaint.c: which areas are
    maintained, and with which settings. What is done to one area is in M_MsgMaint and
    M_JamMaint; here it is an argument. What is printed on the terminal is left out, and
    there is memory enough. *)
From Verif Require Import Base M_Str M_Mem M_Cfg M_Args M_Main M_Upd.

(** crashmaint.c:71-75 *)
Definition MA_MAINT := 0%nat.
Definition MA_PACK := 1%nat.
Definition MA_SETTINGS := 3%nat.
Definition MA_PATTERN := 4%nat.

(** crashmaint.c:32-39 struct Area *)
Record marea := MA { ma_tag : list Z; ma_path : list Z; ma_mb : list Z; ma_keepnum : Z; ma_keepdays : Z }.
(** crashmaint.c:885-889: LastArea is the last element of AreaList, if there is one *)
Definition mkeepdays (b : list Z) (l : list marea) : list marea :=
  match onlast (fun a => Some (MA (ma_tag a) (ma_path a) (ma_mb a) (ma_keepnum a) (u32 (atoi b)))) l with Some l' => l' | None => l end.
(** crashmaint.c:891-895; atol beyond the range of a long is not modelled *)
Definition mkeepnum (b : list Z) (l : list marea) : list marea :=
  match onlast (fun a => Some (MA (ma_tag a) (ma_path a) (ma_mb a) (u32 (atoi b)) (ma_keepdays a))) l with Some l' => l' | None => l end.
(** crashmaint.c:880-923: one line. No two of the keywords are the same word, so at most one
    of the three conditions holds. *)
Definition mline (l : list marea) (line : list Z) : list marea :=
  let '(w, _, src) := tok 20 line in
  if kw w "KEEPDAYS" then
    let '(b, ok, _) := tok 80 src in if ok then mkeepdays b l else l
  else if kw w "KEEPNUM" then
    let '(b, ok, _) := tok 80 src in if ok then mkeepnum b l else l
  else if kw w "AREA" || kw w "NETMAIL" || kw w "LOCALAREA" then
    let '(tag, _, src) := tok 80 src in
    let '(_, _, src) := tok 80 src in
    if negb (kw tag "DEFAULT") && negb (strneqi 8 tag (lit "DEFAULT_")) then
      let '(mb, ok, src) := tok 20 src in
      if ok then let '(path, _, _) := tok 80 src in l ++ [MA tag path mb 0 0] else l
    else l
  else l.
(** crashmaint.c:860-928 ReadConfig of a file that can be opened: AreaList *)
Definition mconfig (s : list Z) : list marea := fold_left mline (flines s) [].

Section Run.
  (** The state of the message bases, of the terminal and so on; it also says whether the user
      has pressed ctrl-c (crashmaint.c:84-89). *)
  Variable W : Type.
  Variable ctrlc : W -> bool.
  (** ProcessAreaJAM ([true]) or ProcessAreaMSG ([false]) for a path, KeepNum, KeepDays, maint
      and pack; the first component is the result *)
  Variable process : bool -> list Z -> Z -> Z -> bool -> bool -> W -> bool * W.

  (** crashmaint.c:1011-1024: Messagebases (lines 55-66) is searched for the name *)
  Definition mprocess (maint pack : bool) (a : marea) (w : W) : bool * W :=
    if kw (ma_mb a) "JAM" then process true (ma_path a) (ma_keepnum a) (ma_keepdays a) maint pack w
    else if kw (ma_mb a) "MSG" then process false (ma_path a) (ma_keepnum a) (ma_keepdays a) maint pack w
    else (true, w).
  (** crashmaint.c:998-1034 *)
  Fixpoint mloop (pat : option (list Z)) (maint pack : bool) (l : list marea) (w : W) : Z * W :=
    match l with
    | [] => (EXIT_OK, w)
    | a :: r =>
      if ctrlc w then (EXIT_OK, w) else
      if match pat with None => true | Some p => M_Str.osMatchPattern p (ma_tag a) end then
        let '(ok, w') := mprocess maint pack a w in
        if ok then mloop pat maint pack r w' else (EXIT_ERROR, w')
      else mloop pat maint pack r w
    end.
  (** crashmaint.c:930-1042 main: the exit code and the state afterwards. [env]: the variable
      CMCONFIGFILE; [file]: what can be read from a file. osCheckPattern is always true. *)
  Definition crashmaint (env : option (list Z)) (file : list Z -> option (list Z)) (argv : list (list Z)) (w : W) : Z * W :=
    if match argv with x :: _ => helpword x | [] => false end then (EXIT_OK, w) else
    match parseargs args_crashmaint argv with
    | None => (EXIT_ERROR, w)
    | Some ds =>
      let maint := given ds MA_MAINT in
      let pack := given ds MA_PACK in
      if negb maint && negb pack then (EXIT_OK, w) else
      let cfg := if given ds MA_SETTINGS then word ds MA_SETTINGS else match env with Some e => e | None => CONFIG_NAME end in
      match file cfg with
      | None => (EXIT_ERROR, w)
      | Some s => mloop (if given ds MA_PATTERN then Some (word ds MA_PATTERN) else None) maint pack (mconfig s) w
      end
    end.
End Run.
