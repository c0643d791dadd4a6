(** Model of the nodelist index: src/tools/crashlist.c (writer), src/cmnllib/cmnllib.c
    (reader) and src/crashmail/nl_cmnl.c.

    The nodelist directory is a file system whose names are the names in the directory, so
    that MakeFullPath is the identity; names with a path in cmnodelist.prefs and paths that
    do not fit the buffers are not modelled. Directories can be read, files opened, and
    writing succeeds. *)
From Verif Require Import Base M_Node4D M_Str M_Mem M_Fs M_Out.

(** crashlist.c:33-37 and cmnllib.c:12-16 struct idx *)
Record idx := IX { i_zone : Z; i_net : Z; i_node : Z; i_point : Z; i_region : Z; i_hub : Z; i_off : Z }.
(** crashlist.c:41-68 putuword, putulong, WriteIdx *)
Definition WriteIdx (x : idx) : list Z :=
  le16 (i_zone x) ++ le16 (i_net x) ++ le16 (i_node x) ++ le16 (i_point x) ++ le16 (i_region x) ++ le16 (i_hub x) ++ le32 (i_off x).

(** crashlist.c:74-85 isnodelistending *)
Definition isnodelistending (name : list Z) : bool :=
  match rev name with
  | c :: b :: a :: d :: _ => (d =? 46) && isdigit a && isdigit b && isdigit c
  | _ => false
  end.
(** crashlist.c:87-111 scandirfunc; the variables nlname and newest. [date]: the time of a
    file in the directory, None if osGetFileEntry fails. *)
Definition scandirfunc (date : list Z -> option Z) (findfile : list Z) (v : list Z * Z) (file : list Z) : list Z * Z :=
  if isnodelistending file && strneqi (length file - 4) file findfile then
    match date file with
    | Some d => match fst v with
                | [] => (firstn 99 file, d)
                | _ => if snd v <? d then (firstn 99 file, d) else v
                end
    | None => v
    end
  else v.
(** crashlist.c:113-142 FindList; the name of the file *)
Definition FindList (fs : fsys) (date : list Z -> option Z) (file : list Z) : option (list Z) :=
  if osExists fs file then Some file
  else match fst (fold_left (scandirfunc date file) (map fst fs) ([], 0)) with
       | [] => None
       | n => Some n
       end.

(** crashlist.c:174-244: one line of a nodelist; idx and what is written. The eight tests
    follow each other. *)
Definition kw (s : list Z) (w : list Z) : bool := strneqi (length w) s w.
Definition num (s : list Z) (n : nat) : Z := u16 (atoi (skipn n s)).
Definition setidx (s w : list Z) (f : Z -> idx -> idx) (v : idx * list idx) : idx * list idx :=
  if kw s w then let x := f (num s (length w)) (fst v) in (x, snd v ++ [x]) else v.
Definition idxline (s : list Z) (x : idx) : idx * list idx :=
  let v := (x, []) in
  let v := setidx s (lit "Zone,") (fun n x => IX n n 0 0 0 0 (i_off x)) v in
  let v := setidx s (lit "Region,") (fun n x => IX (i_zone x) n 0 0 n 0 (i_off x)) v in
  let v := setidx s (lit "Host,") (fun n x => IX (i_zone x) n 0 0 (i_region x) 0 (i_off x)) v in
  let v := setidx s (lit "Hub,") (fun n x => IX (i_zone x) (i_net x) n 0 (i_region x) n (i_off x)) v in
  let v := setidx s (lit "Pvt,") (fun n x => IX (i_zone x) (i_net x) n 0 (i_region x) (i_hub x) (i_off x)) v in
  let v := setidx s (lit "Hold,") (fun n x => IX (i_zone x) (i_net x) n 0 (i_region x) (i_hub x) (i_off x)) v in
  let v := setidx s (lit ",") (fun n x => IX (i_zone x) (i_net x) n 0 (i_region x) (i_hub x) (i_off x)) v in
  setidx s (lit "Point,") (fun n x => IX (i_zone x) (i_net x) (i_node x) n (i_region x) (i_hub x) (i_off x)) v.
Definition set_off (x : idx) (o : Z) : idx := IX (i_zone x) (i_net x) (i_node x) (i_point x) (i_region x) (i_hub x) o.
(** crashlist.c:170-247 the loop of ProcessList; [s] is what is left of the file, [pos] the
    position in it (a uint32_t takes osFTell). Every line read shortens s. *)
Fixpoint idxloop (fuel : nat) (s : list Z) (pos : Z) (x : idx) : list idx :=
  match fuel with
  | O => []
  | S f =>
    match osFGets 500 s with
    | None => []
    | Some (l, r) =>
      let '(x, out) := idxline l x in
      let pos := pos + Z.of_nat (length s - length r) in
      out ++ idxloop f r pos (set_off x (u32 pos))
    end
  end.
(** crashlist.c:249-257 *)
Definition idxend : idx := IX 0 0 0 0 0 0 4294967295.
(** crashlist.c:143-258 ProcessList, for the list that was found: what is written to the
    index. [junk]: what is in buf behind the name (more than 100 bytes). *)
Definition ProcessList (name content : list Z) (defzone : Z) (junk : list Z) : list Z :=
  firstn 100 (name ++ 0 :: junk) ++
  flat_map WriteIdx (idxloop (S (length content)) content 0 (IX defzone 0 0 0 0 0 0)) ++
  WriteIdx idxend.
(** crashlist.c:319-335: the loop over cmnodelist.prefs. The lists and their zones. *)
Fixpoint prefsloop (fuel : nat) (s : list Z) : list (list Z * Z) :=
  match fuel with
  | O => []
  | S f =>
    match osFGets 200 s with
    | None => []
    | Some (l, r) =>
      (if negb (hd 0 l =? 59) then
         match jbstrcpy (repeat 0 100) l 100 with
         | (Some b, true, rest) =>
           [(cstr b, match jbstrcpy (repeat 0 200) rest 10 with (Some b, true, _) => u16 (atoi (cstr b)) | _ => 0 end)]
         | _ => []
         end
       else []) ++ prefsloop f r
    end
  end.
Definition CNL1 : list Z := lit "CNL1".
(** crashlist.c:260-342 main: the index; [junk n]: see ProcessList *)
Definition crashlist (fs : fsys) (date : list Z -> option Z) (junk : list Z -> list Z) (prefs : list Z) : list Z :=
  CNL1 ++ flat_map (fun fz => match FindList fs date (fst fz) with
                              | None => []
                              | Some n => match fget fs n with
                                          | None => []
                                          | Some c => ProcessList n c (snd fz) (junk n)
                                          end
                              end) (prefsloop (S (length prefs)) prefs).

(** ** Reading *)
(** cmnllib.h:8-12 *)
Definition CMNLERR_WRONG_TYPE := 2.
Definition CMNLERR_UNEXPECTED_EOF := 3.
Definition CMNLERR_NODE_NOT_FOUND := 4.
Definition CMNLERR_NO_NODELIST := 5.
(** cmnllib.c:43-66 cmnlOpenNL, the test of the first four bytes; buf holds the path of the
    index *)
Definition cmnlOpenNL (path ix : list Z) : bool :=
  streq (cstr (firstn 4 (firstn 4 ix ++ skipn (length (firstn 4 ix)) path))) CNL1.
(** cmnllib.c:30-41, 101-107. The product buf[offset+3]*256*256*256 overflows an int for
    bytes above 127; it is taken to wrap around, as compiled. *)
Definition readidx (b : list Z) : idx := IX (get16 b 0) (get16 b 2) (get16 b 4) (get16 b 6) (get16 b 8) (get16 b 10) (u32 (get32 b 12)).
Inductive nlres := NlFound (region hub : Z) (line : option (list Z)) | NlErr (e : Z).
Definition samenode (a : node4d) (x : idx) : bool :=
  (zone a =? i_zone x) && (net a =? i_net x) && (node a =? i_node x) && (point a =? i_point x).
(** cmnllib.c:92-115 the inner loop: the record that was found and the rest of the file, or
    the rest behind the last record of the list *)
Inductive frec := FHit (x : idx) | FEnd (rest : list Z) | FEof.
Fixpoint findrec (fuel : nat) (s : list Z) (a : node4d) : frec :=
  match fuel with
  | O => FEof
  | S f =>
    if Nat.ltb (length s) 16 then FEof else
    let x := readidx (firstn 16 s) in
    if samenode a x then FHit x
    else if i_off x =? 4294967295 then FEnd (skipn 16 s)
    else findrec f (skipn 16 s) a
  end.
(** cmnllib.c:82-116 the outer loop; the name of the list *)
Fixpoint findlist (fuel : nat) (s : list Z) (a : node4d) : (list Z * idx) + Z :=
  match fuel with
  | O => inr CMNLERR_NODE_NOT_FOUND
  | S f =>
    if Nat.ltb (length s) 100 then inr CMNLERR_NODE_NOT_FOUND else
    match findrec (S (length s)) (skipn 100 s) a with
    | FHit x => inl (firstn 100 s, x)
    | FEof => inr CMNLERR_UNEXPECTED_EOF
    | FEnd r => findlist f r a
    end
  end.
(** cmnllib.c:72-141 cmnlFindNL; [len]: the size of line, if there is one. A line of [None]
    in the result: nothing was stored there. *)
Definition cmnlFindNL (ix : list Z) (fs : fsys) (a : node4d) (len : option nat) : nlres :=
  match findlist (S (length ix)) (skipn 4 ix) a with
  | inr e => NlErr e
  | inl (nlname, x) =>
    match len with
    | None => NlFound (i_region x) (i_hub x) None
    | Some n =>
      match fget fs (cstr nlname) with
      | None => NlErr CMNLERR_NO_NODELIST
      | Some c => NlFound (i_region x) (i_hub x) (option_map fst (osFGets n (skipn (Z.to_nat (i_off x)) c)))
      end
    end
  end.
(** nl_cmnl.c:22-65 *)
Definition cmnl_nlCheckNode (ix : list Z) (a : node4d) : bool :=
  match cmnlFindNL ix [] a None with NlFound _ _ _ => true | _ => false end.
Definition cmnl_nlGetHub (ix : list Z) (a : node4d) : Z :=
  match cmnlFindNL ix [] a None with NlFound _ h _ => h | _ => -1 end.
Definition cmnl_nlGetRegion (ix : list Z) (a : node4d) : Z :=
  match cmnlFindNL ix [] a None with NlFound r _ _ => r | _ => -1 end.
