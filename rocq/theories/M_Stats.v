(** Model of src/crashmail/stats.c, and of the part of AfterScanToss (crashmail.c) that
    updates the statistics.

    The structures are laid out as on a 64 bit Linux system, little endian: time_t has 8
    bytes. Padding and the rest of the tag name are not initialised; [junk] says what they
    hold. *)
From Verif Require Import Base M_Node4D M_Str M_Mem M_Cfg.

(** config.h struct Area and struct ConfigNode, the members used here *)
Record astat := AS { as_tag : list Z; as_type : Z; as_flags : Z; as_aka : node4d; as_group : Z;
  as_texts : Z; as_last8 : list Z; as_dupes : Z; as_first : Z; as_last : Z; as_newtexts : Z; as_newdupes : Z }.
Record nstat := NS { ns_node : node4d;
  ns_gotnet : Z; ns_gotnetb : Z; ns_sentnet : Z; ns_sentnetb : Z; ns_gotecho : Z; ns_gotechob : Z; ns_sentecho : Z; ns_sentechob : Z;
  ns_dupes : Z; ns_first : Z }.
Record stats := ST { st_day : Z; st_areas : list astat; st_nodes : list nstat }.

Definition le64 (z : Z) : list Z := le32 (z mod 4294967296) ++ le32 (z / 4294967296).
Definition get64 (l : list Z) (i : nat) : Z := get32 l i + 4294967296 * get32 l (i + 4).
Definition le4d (n : node4d) : list Z := le16 (zone n) ++ le16 (net n) ++ le16 (node n) ++ le16 (point n).
Definition get4d (l : list Z) (i : nat) : node4d := N4 (get16 l i) (get16 l (i + 2)) (get16 l (i + 4)) (get16 l (i + 6)).

(** stats.c:5-19 struct DiskAreaStats, 136 bytes; :21-34 struct DiskNodeStats, 56 bytes *)
Definition areabytes (junk : nat -> Z) (a : astat) : list Z :=
  as_tag a ++ [0] ++ map junk (seq 0 (79 - length (as_tag a))) ++
  le4d (as_aka a) ++ [as_group a; junk 89%nat] ++ [junk 90%nat; junk 91%nat] ++
  le32 (as_texts a) ++ concat (map le16 (as_last8 a)) ++ le32 (as_dupes a) ++ map junk (seq 116 4) ++
  le64 (as_first a) ++ le64 (as_last a).
Definition nodebytes (junk : nat -> Z) (n : nstat) : list Z :=
  le4d (ns_node n) ++ le32 (ns_gotnet n) ++ le32 (ns_gotnetb n) ++ le32 (ns_sentnet n) ++ le32 (ns_sentnetb n) ++
  le32 (ns_gotecho n) ++ le32 (ns_gotechob n) ++ le32 (ns_sentecho n) ++ le32 (ns_sentechob n) ++ le32 (ns_dupes n) ++
  map junk (seq 44 4) ++ le64 (ns_first n).
(** stats.c:57-62, :79-83: the areas that are written *)
Definition counted (a : astat) : bool :=
  ((as_type a =? AREATYPE_BAD) || (as_type a =? AREATYPE_ECHOMAIL) || (as_type a =? AREATYPE_NETMAIL)) && negb (flag (as_flags a) AREA_UNCONFIRMED).
Fixpoint records {A} (f : (nat -> Z) -> A -> list Z) (junk : nat -> nat -> Z) (k : nat) (l : list A) : list Z :=
  match l with [] => [] | a :: r => f (junk k) a ++ records f junk (S k) r end.
(** stats.c:36-122 WriteStats: the file; [day] = time(NULL)/86400. (A file that cannot be
    opened is not modelled; errors of osWrite are not looked at.) *)
Definition WriteStats (junk : nat -> nat -> Z) (day : Z) (s : stats) : list Z :=
  let d := if st_day s =? 0 then day else st_day s in
  let as' := filter counted (st_areas s) in
  lit "CST3" ++ le32 d ++ le32 (Z.of_nat (length as')) ++ records areabytes junk 0 as' ++
  le32 (Z.of_nat (length (st_nodes s))) ++ records nodebytes junk (length as') (st_nodes s).

(** osRead of [n] bytes into a place that holds [old]: the place, the rest of the file *)
Definition osReadTo (n : nat) (old f : list Z) : list Z * list Z := (firstn n f ++ skipn (length (firstn n f)) old, skipn n f).
(** the records read by the loops of stats.c:151, :174, and the rest of the file *)
Fixpoint readrecs (fuel size : nat) (num : Z) (f : list Z) : list (list Z) * list Z :=
  match fuel with
  | O => ([], f)
  | S fu =>
    if num <=? 0 then ([], f) else
    if (length f <? size)%nat then ([], []) else
    let x := readrecs fu size (num - 1) (skipn size f) in (firstn size f :: fst x, snd x)
  end.
(** stats.c:151-168: the first area with the tag gets the numbers; [None]: the tag on disk
    does not end *)
Fixpoint setarea (r : list Z) (tag : list Z) (l : list astat) : list astat :=
  match l with
  | [] => []
  | a :: l' =>
    if streqi (as_tag a) tag
    then AS (as_tag a) (as_type a) (as_flags a) (as_aka a) (as_group a)
           (get32 r 92) (map (fun i => get16 r (96 + 2 * i)) (seq 0 8)) (get32 r 112) (get64 r 120) (get64 r 128) (as_newtexts a) (as_newdupes a) :: l'
    else a :: setarea r tag l'
  end.
Fixpoint setareas (rs : list (list Z)) (l : list astat) : option (list astat) :=
  match rs with
  | [] => Some l
  | r :: rs' =>
    if existsb (fun c => c =? 0) (firstn 80 r) then setareas rs' (setarea r (cstr (firstn 80 r)) l) else None
  end.
(** stats.c:174-196 *)
Fixpoint setnode (r : list Z) (l : list nstat) : list nstat :=
  match l with
  | [] => []
  | n :: l' =>
    if Compare4D (get4d r 0) (ns_node n) =? 0
    then NS (ns_node n) (get32 r 8) (get32 r 12) (get32 r 16) (get32 r 20) (get32 r 24) (get32 r 28) (get32 r 32) (get32 r 36) (get32 r 40) (get64 r 48) :: l'
    else n :: setnode r l'
  end.
(** stats.c:124-201 ReadStats: the value returned and the statistics. [None]: no file (line
    134) resp. undefined behaviour. [junk1] and [junk2]: what buf and num hold at first. *)
Definition ReadStats (junk1 junk2 : list Z) (file : option (list Z)) (s : stats) : option (bool * stats) :=
  match file with
  | None => Some (true, s)
  | Some f =>
    let x := osReadTo 4 junk1 f in
    if negb (streq (cstr (firstn 4 (fst x))) (lit "CST3")) then Some (false, s) else
    let y := osReadTo 4 (le32 (st_day s)) (snd x) in
    let z := osReadTo 4 junk2 (snd y) in
    let ra := readrecs (S (length f)) 136 (get32 (fst z) 0) (snd z) in
    do as' <- setareas (fst ra) (st_areas s);
    let w := osReadTo 4 (fst z) (snd ra) in
    let rn := readrecs (S (length f)) 56 (get32 (fst w) 0) (snd w) in
    Some (true, ST (get32 (fst y) 0) as' (fold_left (fun l r => setnode r l) (fst rn) (st_nodes s)))
  end.

(** ** crashmail.c:165-208 *)
(** :179-182 *)
Definition rotate (l : list Z) : list Z := 0 :: firstn 7 l.
Fixpoint rotates (n : nat) (l : list Z) : list Z := match n with O => l | S m => rotates m (rotate l) end.
(** :174-202 for one area; [from]: DayStatsWritten *)
Definition updatearea (from day now : Z) (a : astat) : astat :=
  let l8 := if day >? from then rotates (Z.to_nat (day - from)) (as_last8 a) else as_last8 a in
  if negb (as_newtexts a =? 0) || negb (as_newdupes a =? 0) then
    AS (as_tag a) (as_type a) (as_flags a) (as_aka a) (as_group a)
       (u32 (as_texts a + as_newtexts a)) (match l8 with x :: r => u16 (x + as_newtexts a) :: r | [] => [] end) (u32 (as_dupes a + as_newdupes a))
       (if negb (as_newtexts a =? 0) && (as_first a =? 0) then now else as_first a)
       (if negb (as_newtexts a =? 0) then now else as_last a) (as_newtexts a) (as_newdupes a)
  else AS (as_tag a) (as_type a) (as_flags a) (as_aka a) (as_group a) (as_texts a) l8 (as_dupes a) (as_first a) (as_last a) (as_newtexts a) (as_newdupes a).
(** :204-208; the comparison with 0 is applied to the whole disjunction *)
Definition updatenode (now : Z) (n : nstat) : nstat :=
  if (ns_first n =? 0) && (negb (ns_gotecho n =? 0) || negb (ns_gotnet n =? 0) || negb (ns_sentecho n =? 0) || negb (ns_sentnet n =? 0))
  then NS (ns_node n) (ns_gotnet n) (ns_gotnetb n) (ns_sentnet n) (ns_sentnetb n) (ns_gotecho n) (ns_gotechob n) (ns_sentecho n) (ns_sentechob n) (ns_dupes n) now
  else n.
Definition UpdateStats (now : Z) (s : stats) : stats :=
  let day := u32 (now / 86400) in
  let from := if st_day s =? 0 then day else st_day s in
  ST day (map (updatearea from day now) (st_areas s)) (map (updatenode now) (st_nodes s)).
