(** Model of crashmail/nl_v7p.c: looking up nodes in a version 7+ nodelist. The files are lists
    of bytes, the buffer [v7p_ndxbuf] and the position in the index file are state.
    Plain [char] is signed. [long] has 8 bytes ([w = true], 64 bit Linux) or 4 bytes; the
    structures have the layout of the System V ABI. Products of a record number and the record
    size are not truncated. Memory is never exhausted. *)
From Verif Require Import Base M_Node4D M_Mem M_Out.

(** the unsigned number in some bytes, least significant first, and the signed one *)
Fixpoint lev (l : list Z) : Z := match l with [] => 0 | c :: r => c + 256 * lev r end.
Definition sx (l : list Z) : Z :=
  if lev l <? 2 ^ (8 * Z.of_nat (length l) - 1) then lev l else lev l - 2 ^ (8 * Z.of_nat (length l)).

(** nl_v7p.c:14 *)
Definition V7P_NDXBUFSIZE : Z := 512.
(** sizeof(long); nl_v7p.c:16-52, sizes and members of the structures v7p_ndxcontrol,
    v7p_ndxindex (and v7p_ndxleaf, which is the same), v7p_ndxindexkey, v7p_ndxleafkey *)
Definition szlong (w : bool) : nat := if w then 8 else 4.
Definition szcontrol (w : bool) : nat := if w then 56 else 28.
Definition szhead (w : bool) : nat := if w then 32 else 16.
Definition szikey (w : bool) : nat := if w then 24 else 12.
Definition szlkey (w : bool) : nat := if w then 16 else 8.
Definition o_keycount (w : bool) : nat := if w then 24 else 12.
Definition o_value (w : bool) : nat := if w then 8 else 4.
Definition o_lower (w : bool) : nat := if w then 16 else 8.

(** [n] bytes at [off] of the buffer; [None]: outside of it, which is undefined behaviour *)
Definition getb (b : list Z) (off : Z) (n : nat) : option (list Z) :=
  if (0 <=? off) && (off + Z.of_nat n <=? V7P_NDXBUFSIZE) then Some (firstn n (skipn (Z.to_nat off) b)) else None.

(** nl_v7p.c:84-106 v7p_ndxcompare(ndxbuf+off,node,len) *)
Definition v7p_ndxcompare (b : list Z) (off : Z) (n : node4d) (len : Z) : option Z :=
  if negb (len =? 8) && negb (len =? 6) then Some (-1)
  else
    do k <- getb b off (Z.to_nat len);
    let pt := if len =? 6 then 0 else lev (firstn 2 (skipn 6 k)) in
    Some (Compare4D (N4 (lev (firstn 2 k)) (lev (firstn 2 (skipn 2 k))) (lev (firstn 2 (skipn 4 k))) pt) n).

(** what a search leaves: undefined behaviour, not finished within the fuel, not found, found *)
Inductive v7res := VUndef | VMore | VNo | VYes (off : Z).
(** buffer and position of the index file *)
Record v7st := V7S { v_buf : list Z; v_pos : Z }.

(** osSeek(v7p_ndxfh,recnum*v7p_ndxrecsize,OFFSET_BEGINNING) and osRead into the buffer: a
    seek in front of the file fails and leaves the position; the flag says whether all bytes
    were read *)
Definition readrec (f : list Z) (rs recnum : Z) (s : v7st) : v7st * bool :=
  let p := if recnum * rs <? 0 then v_pos s else recnum * rs in
  let d := firstn (Z.to_nat rs) (skipn (Z.to_nat p) f) in
  (V7S (d ++ skipn (length d) (v_buf s)) (p + Z.of_nat (length d)), Z.of_nat (length d) =? rs).

(** nl_v7p.c:130-136: the number of the first key of an index record that is greater than the
    node, or the number of keys; [n] keys are left, the next one is number [i] *)
Fixpoint indexkeys (w : bool) (b : list Z) (nd : node4d) (n i : nat) : option nat :=
  match n with
  | O => Some i
  | S m =>
    let o := Z.of_nat (szhead w + i * szikey w) in
    do ko <- getb b o 2; do kl <- getb b (o + 2) 2;
    do c <- v7p_ndxcompare b (lev ko) nd (lev kl);
    if c >? 0 then Some i else indexkeys w b nd m (S i)
  end.
(** nl_v7p.c:157-178: the keys of a leaf *)
Fixpoint leafkeys (w : bool) (b : list Z) (nd : node4d) (n i : nat) : v7res :=
  match n with
  | O => VNo
  | S m =>
    let o := Z.of_nat (szhead w + i * szlkey w) in
    match (do ko <- getb b o 2; do kl <- getb b (o + 2) 2; v7p_ndxcompare b (lev ko) nd (lev kl)) with
    | None => VUndef
    | Some c =>
      if c >? 0 then VNo
      else if c =? 0 then
        match getb b (o + Z.of_nat (o_value w)) (szlong w) with Some v => VYes (u32 (lev v)) | None => VUndef end
      else leafkeys w b nd m (S i)
    end
  end.

(** the members rectype and keycount of the record in the buffer *)
Definition rectype (w : bool) (b : list Z) : Z := sx (firstn (szlong w) b).
Definition keycount (w : bool) (b : list Z) : Z := sx (firstn 2 (skipn (o_keycount w) b)).

(** nl_v7p.c:123-152 the way through the index records, :154-180 the leaf *)
Fixpoint descend (w : bool) (f : list Z) (rs : Z) (nd : node4d) (fuel : nat) (s : v7st) : v7st * v7res :=
  match fuel with
  | O => (s, VMore)
  | S fu =>
    if rectype w (v_buf s) =? -1 then
      if keycount w (v_buf s) <=? 0 then (s, VNo)
      else (s, leafkeys w (v_buf s) nd (Z.to_nat (keycount w (v_buf s))) 0)
    else if keycount w (v_buf s) <? 0 then (s, VNo)
    else
      match indexkeys w (v_buf s) nd (Z.to_nat (keycount w (v_buf s))) 0 with
      | None => (s, VUndef)
      | Some i =>
        let next := match i with
          | O => Some (rectype w (v_buf s))
          | S j => do l <- getb (v_buf s) (Z.of_nat (szhead w + j * szikey w + o_lower w)) (szlong w); Some (sx l)
          end in
        match next with
        | None => (s, VUndef)
        | Some r => let '(s1, ok) := readrec f rs r s in if ok then descend w f rs nd fu s1 else (s1, VNo)
        end
      end
  end.
(** nl_v7p.c:108-184 v7p_findoffset; the value is assigned to a uint32_t *)
Definition v7p_findoffset (w : bool) (f : list Z) (rs start : Z) (nd : node4d) (fuel : nat) (s : v7st) : v7st * v7res :=
  let '(s1, ok) := readrec f rs start s in
  if ok then descend w f rs nd fuel s1 else (s1, VNo).

(** nl_v7p.c:186-212 v7p_unpack; the character behind the table is the NUL. A word is made of
    two signed chars and truncated to 16 bits. The size is even: otherwise the loop reads a
    character behind the packed text. *)
Definition v7table : list Z := lit " EANROSTILCHBDMUGPKYWFVJXZQ-'0123456789" ++ [0].
Fixpoint v7p_unpack (p : list Z) : list Z :=
  match p with
  | a :: b :: r =>
    let x := u16 (schar a + schar b * 256) in
    nth (Z.to_nat (x / 40 / 40 mod 40)) v7table 0 :: nth (Z.to_nat (x / 40 mod 40)) v7table 0 ::
    nth (Z.to_nat (x mod 40)) v7table 0 :: v7p_unpack r
  | _ => []
  end.

Definition isxdigit (c : Z) : bool := isdigit c || ((97 <=? tolower c) && (tolower c <=? 102)).
(** the three files and what nlStart has read *)
Record v7list := V7L { v_ndx : list Z; v_dat : list Z; v_dtp : list Z; v_rs : Z; v_start : Z }.
(** hub and region; undefined behaviour, failure, success *)
Inductive hrres := HUndef | HNo | HYes (hub region : Z).

(** nl_v7p.c:214-297 v7p_gethubregion. Lengths that are negative as signed chars and an odd
    length of the packed text are undefined behaviour: then more is read than there is room
    for. [d-sum] is computed in uint32_t; if it is negative the test is passed and the text is
    read behind its end. *)
Definition v7p_gethubregion (l : v7list) (off : Z) : hrres :=
  let h := firstn 22 (skipn (Z.to_nat off) (v_dat l)) in
  if negb (Nat.eqb (length h) 22) then HNo
  else
    let phone := schar (nth 15 h 0) in let pass := schar (nth 16 h 0) in let pack := schar (nth 20 h 0) in
    if (phone <? 0) || (pass <? 0) || (pack <? 0) || negb (pack mod 2 =? 0) then HUndef
    else
      let p := firstn (Z.to_nat pack) (skipn (Z.to_nat (off + 22 + phone + pass)) (v_dat l)) in
      if negb (Z.of_nat (length p) =? pack) then HNo
      else
        let u := v7p_unpack p in
        let d := Z.of_nat (length u) in
        let sum := u32 (schar (nth 17 h 0) + schar (nth 18 h 0) + schar (nth 19 h 0)) in
        if u32 (d - sum) <? 8 then HNo
        else if d <? sum then HUndef
        else
          let x := firstn 8 (skipn (Z.to_nat sum) u) in
          if negb (forallb isxdigit x) then HNo
          else
            let j := firstn 4 (skipn (Z.to_nat (u32 (hextodec x))) (v_dtp l)) in
            if negb (Nat.eqb (length j) 4) then HNo
            else HYes (u32 (schar (nth 2 j 0) + schar (nth 3 j 0) * 256)) (u32 (schar (nth 0 j 0) + schar (nth 1 j 0) * 256)).

(** nl_v7p.c:299-363 v7p_nlStart behind the opening of the files: [None] if it fails *)
Definition v7p_nlStart (w : bool) (ndx dat dtp : list Z) : option (v7list * v7st) :=
  if Nat.ltb (length ndx) 2 then None
  else if V7P_NDXBUFSIZE <? lev (firstn 2 ndx) then None
  else if Nat.ltb (length ndx) (2 + szcontrol w) then None
  else Some (V7L ndx dat dtp (lev (firstn 2 ndx)) (sx (firstn (szlong w) (skipn 2 ndx))),
             V7S (repeat 0 512) (Z.of_nat (2 + szcontrol w))).

(** requests to the nodelist and answers. [ANone]: no answer, because of undefined behaviour or
    because the search does not end within the fuel *)
Inductive v7query := QCheck (n : node4d) | QHub (n : node4d) | QRegion (n : node4d).
Inductive v7answer := ABool (b : bool) | ALong (z : Z) | ANone.

(** a uint32_t as a long *)
Definition tolong (w : bool) (z : Z) : Z := if w then z else if z <? 2147483648 then z else z - 4294967296.
(** nl_v7p.c:372-412 v7p_nlCheckNode, v7p_nlGetHub, v7p_nlGetRegion *)
Definition v7ask (w : bool) (l : v7list) (fuel : nat) (q : v7query) (s : v7st) : v7st * v7answer :=
  match q with
  | QCheck n =>
    let '(s1, r) := v7p_findoffset w (v_ndx l) (v_rs l) (v_start l) n fuel s in
    (s1, match r with VYes _ => ABool true | VNo => ABool false | _ => ANone end)
  | QHub n =>
    let '(s1, r) := v7p_findoffset w (v_ndx l) (v_rs l) (v_start l) (set_point n 0) fuel s in
    (s1, match r with
         | VYes o => match v7p_gethubregion l o with HYes h _ => ALong (tolong w h) | HNo => ALong (-1) | HUndef => ANone end
         | VNo => ALong (-1) | _ => ANone end)
  | QRegion n =>
    let '(s1, r) := v7p_findoffset w (v_ndx l) (v_rs l) (v_start l) (set_point n 0) fuel s in
    (s1, match r with
         | VYes o => match v7p_gethubregion l o with HYes _ g => ALong (tolong w g) | HNo => ALong (-1) | HUndef => ANone end
         | VNo => ALong (-1) | _ => ANone end)
  end.
(** one request after the other *)
Fixpoint v7asks (w : bool) (l : v7list) (fuel : nat) (qs : list v7query) (s : v7st) : list v7answer :=
  match qs with
  | [] => []
  | q :: r => let '(s1, a) := v7ask w l fuel q s in a :: v7asks w l fuel r s1
  end.
