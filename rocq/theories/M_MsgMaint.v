(** Model of the maintenance of *.MSG areas: src/tools/crashmaint.c.

    The directory is a list of files; the days of the files are given by a function. Paths
    are not modelled (a path of more than 199 characters is cut off), nor are memory
    exhaustion and failing calls of delete and rename. *)
From Verif Require Import Base M_Mem M_Fs M_Msg.

(** crashmaint.c:91-95 struct Msg, without NewNum *)
Record mmsg := Msg { m_num : Z; m_day : Z }.

(** crashmaint.c:170-206 scanfunc. [day]: the modification time of a file in days, None if
    osGetFileEntry fails. *)
Definition scanfunc (day : list Z -> option Z) (file : list Z) : list mmsg :=
  if ismsg file && (atol file >=? 2) then
    match day file with Some d => [Msg (u32 (atol file)) (u32 d)] | None => [] end
  else [].
(** crashmaint.c:99-109 Compare *)
Definition Compare (a b : mmsg) : Z := if m_num a >? m_num b then 1 else if m_num a <? m_num b then -1 else 0.

(** The calls that change the directory. *)
Inductive mop := ODel (name : list Z) | ORen (a b : list Z) | OWrite (name data : list Z).
(** [w]: how writing ends *)
Definition mrun (w : wres) (dir : fsys) (o : mop) : fsys :=
  match o with
  | ODel n => osDelete dir n
  | ORen a b => match osRename dir a b with Some d => d | None => dir end
  | OWrite n data => writenew dir n data w
  end.

(** crashmaint.c:271-307: deletion by number; [num]: the number of messages left. The
    result: calls, list, high water mark. [None]: the end of the list is passed (NULL is
    dereferenced). *)
Fixpoint delnum (keep num : Z) (msgs : list mmsg) (hw : Z) : option (list mop * list mmsg * Z) :=
  if num >? keep then
    match msgs with
    | [] => None
    | m :: r =>
      if m_num m =? 0 then
        (do x <- delnum keep num r hw; let '(o, l, h) := x in Some (o, m :: l, h))
      else
        (do x <- delnum keep (num - 1) r (if m_num m =? hw then 0 else hw);
         let '(o, l, h) := x in Some (ODel (msgname (m_num m)) :: o, Msg 0 (m_day m) :: l, h))
    end
  else Some ([], msgs, hw).
(** crashmaint.c:309-343: deletion by date *)
Fixpoint deldays (keep today : Z) (msgs : list mmsg) (hw : Z) : list mop * list mmsg * Z :=
  match msgs with
  | [] => ([], [], hw)
  | m :: r =>
    if (u32 (today - m_day m) >? keep) && negb (m_num m =? 0) then
      let '(o, l, h) := deldays keep today r (if m_num m =? hw then 0 else hw) in
      (ODel (msgname (m_num m)) :: o, Msg 0 (m_day m) :: l, h)
    else let '(o, l, h) := deldays keep today r hw in (o, m :: l, h)
  end.
(** crashmaint.c:345-381: renumbering. The two loops are made into one, [num] is the next
    new number. *)
Fixpoint renum (num : Z) (msgs : list mmsg) (hw : Z) : list mop * Z :=
  match msgs with
  | [] => ([], hw)
  | m :: r =>
    if m_num m =? 0 then renum num r hw
    else if m_num m =? num then renum (u32 (num + 1)) r hw
    else let '(o, h) := renum (u32 (num + 1)) r (if hw =? m_num m then num else hw) in
         (ORen (msgname (m_num m)) (msgname num) :: o, h)
  end.

(** crashmaint.c:208-423 ProcessAreaMSG without interruption: the calls that change the
    directory. An interruption by control-C leads to a beginning of this list: every loop
    ends then, and the function returns before the high water mark is written. [sort]: the
    result of qsort; [now]: time(); [date]: MakeFidoDate of it. *)
Definition ProcessAreaMSG (day : list Z -> option Z) (sort : list mmsg -> list mmsg) (maint pack : bool) (keepnum keepdays now : Z) (date : list Z) (dir : fsys)
  : option (list mop) :=
  match sort (concat (map (scanfunc day) (map fst dir))) with
  | [] => Some []
  | msgs =>
    let hdr := match readstored dir 1 with Some (h, _) => h | None => [] end in
    let hw := match readstored dir 1 with Some (h, _) => get16 h O_REPLYTO | None => 0 end in
    do x <- (if maint && negb (keepnum =? 0) then delnum keepnum (Z.of_nat (length msgs)) msgs hw else Some ([], msgs, hw));
    let '(o1, msgs1, hw1) := x in
    let '(o2, msgs2, hw2) := if maint && negb (keepdays =? 0) then deldays keepdays (u32 (now / 86400)) msgs1 hw1 else ([], msgs1, hw1) in
    let '(o3, hw3) := if pack then renum 2 msgs2 hw2 else ([], hw2) in
    Some (o1 ++ o2 ++ o3 ++ (if hw3 =? hw then [] else [OWrite (msgname 1) (hwmsg hdr date hw3)]))
  end.
Definition maintained (w : wres) (dir : fsys) (ops : list mop) : fsys := fold_left (mrun w) ops dir.
