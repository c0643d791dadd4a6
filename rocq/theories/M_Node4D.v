(** Model of src/shared/node4d.c. *)
From Verif Require Import Base.

(** src/shared/node4d.h:6-9  struct Node4D (four uint16_t). *)
Record node4d := N4 { zone : Z; net : Z; node : Z; point : Z }.

(** Local variables of Parse4DTemplate (node4d.c:10-19).  [val] is [None] while GotVal
    is FALSE: the C variable is uninitialised then and never read. *)
Record p4state := PS { p_node : node4d; gotzone : bool; gotnet : bool; gotnode : bool; val : option Z }.

Definition set_zone n v := N4 v (net n) (node n) (point n).
Definition set_net n v := N4 (zone n) v (node n) (point n).
Definition set_node n v := N4 (zone n) (net n) v (point n).
Definition set_point n v := N4 (zone n) (net n) (node n) v.

(** "if(GotVal) node->X=val;": assignment of a uint32_t to a uint16_t field. *)
Definition store (f : node4d -> Z -> node4d) (n : node4d) (v : option Z) : node4d :=
  match v with Some x => f n (u16 x) | None => n end.

(** node4d.c:23-58, one iteration of the loop; [None] is return(FALSE). *)
Definition p4step (s : p4state) (c : Z) : option p4state :=
  if c =? 58 (* ':' *) then
    if gotzone s || gotnet s || gotnode s then None
    else Some (PS (store set_zone (p_node s) (val s)) true (gotnet s) (gotnode s) None)
  else if c =? 47 (* '/' *) then
    if gotnet s || gotnode s then None
    else Some (PS (store set_net (p_node s) (val s)) (gotzone s) true (gotnode s) None)
  else if c =? 46 (* '.' *) then
    if gotnode s then None
    else Some (PS (store set_node (p_node s) (val s)) (gotzone s) (gotnet s) true None)
  else if isdigit c then
    let v := match val s with Some v => v | None => 0 end in
    Some (PS (p_node s) (gotzone s) (gotnet s) (gotnode s)
             (Some (u32 (u32 (v * 10) + (c - 48)))))
  else None.

(** node4d.c:21-59, the loop. *)
Fixpoint p4loop (s : p4state) (buf : list Z) : option p4state :=
  match buf with
  | [] => Some s
  | c :: r => match p4step s c with Some s' => p4loop s' r | None => None end
  end.

(** node4d.c:61-66 *)
Definition p4finish (s : p4state) : node4d :=
  if gotzone s && negb (gotnet s) then store set_net (p_node s) (val s)
  else if gotnode s then store set_point (p_node s) (val s)
  else store set_node (p_node s) (val s).

(** node4d.c:8-69 bool Parse4DTemplate(buf,node,tpl); [None] is FALSE. *)
Definition Parse4DTemplate (buf : list Z) (tpl : node4d) : option node4d :=
  match p4loop (PS tpl false false false None) buf with
  | Some s => Some (p4finish s)
  | None => None
  end.

(** node4d.c:71-76 *)
Definition Parse4D (buf : list Z) : option node4d := Parse4DTemplate buf (N4 0 0 0 0).

(** node4d.c:86-104 *)
Definition Compare4D (a b : node4d) : Z :=
  let rest :=
    if net a >? net b then 1 else if net a <? net b then -1 else
    if node a >? node b then 1 else if node a <? node b then -1 else
    if point a >? point b then 1 else if point a <? point b then -1 else 0 in
  if negb (zone a =? 0) && negb (zone b =? 0) then
    if zone a >? zone b then 1 else if zone a <? zone b then -1 else rest
  else rest.

(** node4d.c:106-118 *)
Definition Print4D (n : node4d) : list Z :=
  if negb (point n =? 0)
  then dec (zone n) ++ lit ":" ++ dec (net n) ++ lit "/" ++ dec (node n) ++ lit "." ++ dec (point n)
  else dec (zone n) ++ lit ":" ++ dec (net n) ++ lit "/" ++ dec (node n).

(** src/crashmail/config.c:1998-2001 WriteNode4D: always four components. *)
Definition WriteNode4D (n : node4d) : list Z :=
  dec (zone n) ++ lit ":" ++ dec (net n) ++ lit "/" ++ dec (node n) ++ lit "." ++ dec (point n).
