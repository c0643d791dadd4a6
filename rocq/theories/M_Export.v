(** Model of src/tools/crashexport.c: a list of the areas of a configuration file, in one of
    five formats. The time as text and whether the file can be created are arguments;
    writing does not fail. What is printed on the terminal is left out. *)
From Verif Require Import Base M_Node4D M_Mem M_Str M_Cfg M_Fs M_Args M_Main M_Out M_Upd.

(** crashexport.c:36-39 *)
Definition CE_PREFSFILE := 0%nat.
Definition CE_OUTFILE := 1%nat.
Definition CE_FORMAT := 2%nat.
Definition CE_GROUP := 3%nat.
(** crashexport.c:48-52 *)
Inductive xformat := XAreasBbs | XForward | XForwardNoDesc | XGolded | XTimed.
(** crashexport.c:196-221 *)
Definition xformatof (w : list Z) : option xformat :=
  if kw w "areasbbs" then Some XAreasBbs
  else if kw w "forward" then Some XForward
  else if kw w "forwardnodesc" then Some XForwardNoDesc
  else if kw w "golded" then Some XGolded
  else if kw w "timed" then Some XTimed
  else None.

(** crashexport.c:32-34: the global variables. The types of areas (lines 26-30) have the
    same numbers as in config.h. *)
Record xarea := XA {
  x_tag : list Z; x_aka : list Z; x_mb : list Z; x_path : list Z; x_desc : list Z; x_export : list Z;
  x_group : Z; x_type : Z; x_unconf : bool }.
Definition xempty : xarea := XA [] [] [] [] [] [] 0 0 false.

(** crashexport.c:56-67 CheckFlags *)
Definition CheckFlags (g : Z) (node : list Z) : bool := existsb (fun c => toupper g =? toupper c) node.
(** crashexport.c:94-99 *)
Definition escdesc (d : list Z) : list Z := map (fun c => if c =? 34 then 39 else c) d.
(** crashexport.c:69-165 writearea: what is written *)
Definition writearea (f : xformat) (grp : option (list Z)) (a : xarea) : list Z :=
  if x_unconf a then []
  else if x_type a =? AREATYPE_DEFAULT then []
  else if match grp with Some s => negb (CheckFlags (x_group a) s) | None => false end then []
  else match f with
  | XAreasBbs =>
    if negb (x_type a =? AREATYPE_NETMAIL) && negb (x_type a =? AREATYPE_LOCAL) then
      if kw (x_mb a) "MSG" then x_path a ++ lit " " ++ x_tag a ++ lit " " ++ x_export a ++ [10]
      else if kw (x_mb a) "JAM" then lit "!" ++ x_path a ++ lit " " ++ x_tag a ++ lit " " ++ x_export a ++ [10]
      else if kw (x_mb a) "" then lit "#" ++ x_tag a ++ lit " " ++ x_tag a ++ lit " " ++ x_export a ++ [10]
      else x_mb a ++ lit ":" ++ x_path a ++ lit " " ++ x_tag a ++ lit " " ++ x_export a ++ [10]
    else []
  | XForward =>
    if x_type a =? AREATYPE_ECHOMAIL then
      if ne (x_desc a) then x_tag a ++ lit " " ++ x_desc a ++ [10] else x_tag a ++ [10]
    else []
  | XForwardNoDesc => if x_type a =? AREATYPE_ECHOMAIL then x_tag a ++ [10] else []
  | XGolded =>
    if ne (x_path a) then
      let base mb := lit "AREADEF " ++ x_tag a ++ lit " " ++ [34] ++ escdesc (x_desc a) ++ [34] ++ lit " " ++
        (if x_group a =? 0 then lit "0" else [x_group a]) ++ lit " " ++
        (if x_type a =? AREATYPE_NETMAIL then lit "NET" else if x_type a =? AREATYPE_LOCAL then lit "LOCAL" else lit "ECHO") ++ lit " " ++
        mb ++ lit " " ++ x_path a ++ lit " " ++ x_aka a ++ lit " " ++ (if x_type a =? AREATYPE_NETMAIL then lit "(Loc Pvt)" else lit "(Loc)") ++ [10] in
      if kw (x_mb a) "MSG" then base (lit "FTS1") else if kw (x_mb a) "JAM" then base (lit "JAM") else []
    else []
  | XTimed =>
    if ne (x_path a) then
      let base fl := (if x_type a =? AREATYPE_NETMAIL then lit "NetArea" else if x_type a =? AREATYPE_LOCAL then lit "LocalArea" else lit "EchoArea") ++
        lit " " ++ [34] ++ escdesc (x_desc a) ++ [34] ++ lit " " ++ x_tag a ++ lit " " ++ x_path a ++ lit " -P" ++ x_aka a ++ fl ++ [10] in
      if kw (x_mb a) "MSG" then base [] else if kw (x_mb a) "JAM" then base (lit " -J") else []
    else []
  end.

(** crashexport.c:313-314; strcpy on overlapping strings, taken as a move *)
Definition xprefix (b : list Z) : list Z := match b with c :: r => if (c =? 33) || (c =? 37) || (c =? 64) then r else b | [] => [] end.
(** crashexport.c:304-330: the words of an EXPORT line; [None]: more than fits into the array
    of 1000 bytes *)
Fixpoint xexports (e : list Z) (tpl : node4d) (ws : list (list Z)) : option (list Z) :=
  match ws with
  | [] => Some e
  | w :: r =>
    match Parse4DTemplate (xprefix w) tpl with
    | None => xexports e tpl r
    | Some n =>
      let tpl' := N4 (zone n) (net n) (node n) 0 in
      if (length e <? 980)%nat then
        let e' := (if ne e then e ++ lit " " else e) ++ Print4D n in
        if (length e' <? 1000)%nat then xexports e' tpl' r else None
      else xexports e tpl' r
    end
  end.
(** crashexport.c:286-299 *)
Definition xtype (w tag : list Z) : Z :=
  if kw w "NETMAIL" then AREATYPE_NETMAIL
  else if kw w "LOCALAREA" then AREATYPE_LOCAL
  else if kw tag "BAD" then AREATYPE_BAD
  else if kw tag "DEFAULT" || strneqi 8 tag (lit "DEFAULT_") then AREATYPE_DEFAULT
  else AREATYPE_ECHOMAIL.
(** crashexport.c:272-273, 349-350: "if(tagname[0]) writearea(ofh)" *)
Definition xwrite (f : xformat) (grp : option (list Z)) (a : xarea) : list Z := if ne (x_tag a) then writearea f grp a else [].
(** crashexport.c:265-347: one line; what has been written and the variables. No two of the
    keywords are the same word. *)
Definition xline (f : xformat) (grp : option (list Z)) (s : list Z * xarea) (line : list Z) : option (list Z * xarea) :=
  let '(out, a) := s in
  let '(w, _, src) := tok 30 line in
  if kw w "AREA" || kw w "NETMAIL" || kw w "LOCALAREA" then
    let '(tag, _, src) := tok 100 src in
    let '(aka, _, src) := tok 50 src in
    let '(mb, _, src) := tok 10 src in
    let '(path, _, _) := tok 100 src in
    Some (out ++ xwrite f grp a, XA tag aka mb path [] [] 0 (xtype w tag) false)
  else if kw w "EXPORT" then
    do e <- xexports (x_export a) (N4 0 0 0 0) (allwords 100 src);
    Some (out, XA (x_tag a) (x_aka a) (x_mb a) (x_path a) (x_desc a) e (x_group a) (x_type a) (x_unconf a))
  else if kw w "UNCONFIRMED" then
    Some (out, XA (x_tag a) (x_aka a) (x_mb a) (x_path a) (x_desc a) (x_export a) (x_group a) (x_type a) true)
  else if kw w "DESCRIPTION" then
    let '(d, _, _) := tok 100 src in
    Some (out, XA (x_tag a) (x_aka a) (x_mb a) (x_path a) d (x_export a) (x_group a) (x_type a) (x_unconf a))
  else if kw w "GROUP" then
    let '(b, ok, _) := tok 100 src in
    Some (out, XA (x_tag a) (x_aka a) (x_mb a) (x_path a) (x_desc a) (x_export a) (if ok then hd 0 b else x_group a) (x_type a) (x_unconf a))
  else Some (out, a).
Fixpoint xlines (f : xformat) (grp : option (list Z)) (s : list Z * xarea) (ls : list (list Z)) : option (list Z * xarea) :=
  match ls with
  | [] => Some s
  | l :: r => do s' <- xline f grp s l; xlines f grp s' r
  end.
(** crashexport.c:245-258: the name of the sysop *)
Definition xsysop (ls : list (list Z)) : list Z :=
  fold_left (fun s l => let '(w, _, src) := tok 30 l in if kw w "SYSOP" then fst (fst (tok 100 src)) else s) ls (lit "Sysop").
(** crashexport.c:242-350: the text of the new file *)
Definition xtext (time : list Z) (f : xformat) (grp : option (list Z)) (s : list Z) : option (list Z) :=
  do r <- xlines f grp ([], xempty) (flines s);
  Some (lit "; Generated by CrashExport 1.5.1" ++ [10] ++ lit "; " ++ time ++ [10] ++
        (match f with XAreasBbs => lit "Default origin ! " ++ xsysop (flines s) ++ [10] | _ => [] end) ++
        fst r ++ xwrite f grp (snd r)).

(** crashexport.c:167-357 main; [time]: the result of ctime, [argv] without the name of the
    program. [None]: an array overflows, or the file is to be written over the one that is
    being read (not modelled). *)
Definition crashexport (time : list Z) (create : bool) (argv : list (list Z)) (fs : fsys) : option (Z * fsys) :=
  if match argv with w :: _ => helpword w | [] => false end then Some (EXIT_OK, fs) else
  match parseargs args_crashexport argv with
  | None => Some (EXIT_ERROR, fs)
  | Some ds =>
    match xformatof (word ds CE_FORMAT) with
    | None => Some (EXIT_ERROR, fs)
    | Some f =>
      match fget fs (word ds CE_PREFSFILE) with
      | None => Some (EXIT_ERROR, fs)
      | Some s =>
        if create then
          if streq (word ds CE_PREFSFILE) (word ds CE_OUTFILE) then None else
          do t <- xtext time f (if given ds CE_GROUP then Some (word ds CE_GROUP) else None) s;
          Some (EXIT_OK, fput fs (word ds CE_OUTFILE) t)
        else Some (EXIT_ERROR, fs)
      end
    end
  end.
