(** Model of src/shared/jbstrcpy.c, src/shared/mystrncpy.c, src/shared/path.c,
    src/oslib_linux/ospattern.c and WriteSafely of src/crashmail/config.c.

    A destination buffer is the list of its bytes; every store goes through [wr], which
    answers [None] when the index is outside the buffer, so that a buffer overflow is a
    distinct outcome. *)
From Verif Require Import Base.

Notation buffer := (list Z) (only parsing).
Fixpoint upd (b : buffer) (i : nat) (c : Z) : buffer :=
  match b, i with
  | [], _ => []
  | _ :: r, O => c :: r
  | x :: r, S j => x :: upd r j c
  end.
(** dest[i]=c *)
Definition wr (b : option buffer) (i : nat) (c : Z) : option buffer :=
  match b with
  | None => None
  | Some b => if Nat.ltb i (length b) then Some (upd b i c) else None
  end.
(** a run of consecutive stores starting at dest[i] *)
Fixpoint wrs (b : option buffer) (i : nat) (l : list Z) : option buffer :=
  match l with
  | [] => b
  | c :: r => wrs (wr b i c) (S i) r
  end.
(** the C string held in a buffer: the bytes in front of the first NUL *)
Fixpoint cstr (b : buffer) : list Z :=
  match b with
  | [] => []
  | c :: r => if c =? 0 then [] else c :: cstr r
  end.

(** while(src[jbcpos]==32 || src[jbcpos]==9) jbcpos++;  (jbstrcpy.c:13, :58) *)
Fixpoint skipblank (src : list Z) : list Z :=
  match src with
  | c :: r => if (c =? 32) || (c =? 9) then skipblank r else src
  | [] => []
  end.

(** if(d<maxlen-1) dest[d++]=c;  (jbstrcpy.c:32-33, :63-64); the caller passes maxlen>=1 *)
Definition emit (maxlen : nat) (bd : option buffer * nat) (c : Z) : option buffer * nat :=
  let '(b, d) := bd in
  if Nat.ltb d (maxlen - 1) then (wr b d c, S d) else (b, d).

(** jbstrcpy.c:27-36, the copy loop; [src] is what is left of the source string, its end
    is the NUL. Returns what is left at the end. *)
Fixpoint jbloop (s1 s2 : Z) (maxlen : nat) (src : list Z) (bd : option buffer * nat)
  : option buffer * nat * list Z :=
  match src with
  | [] => (bd, [])
  | c :: r =>
    if (c =? s1) || (c =? s2) || (c =? 10) then (bd, src)
    else if c =? 92 then
      match r with
      | e :: r' => if e =? 10 then jbloop s1 s2 maxlen r (emit maxlen bd c)
                   else jbloop s1 s2 maxlen r' (emit maxlen bd e)
      | [] => (emit maxlen bd c, [])
      end
    else jbloop s1 s2 maxlen r (emit maxlen bd c)
  end.

(** jbstrcpy.c:5-49. Result: the destination buffer ([None]: overflow), the return value
    and the text behind the new position *jbc. *)
Definition jbstrcpy (dest : buffer) (src : list Z) (maxlen : nat) : option buffer * bool * list Z :=
  let src1 := skipblank src in
  let '(quoted, src2) := match src1 with
                         | 34 :: r => (true, r)
                         | _ => (false, src1)
                         end in
  let '(s1, s2) := if quoted then (34, 0) else (32, 9) in
  let '(b, d, rest) := jbloop s1 s2 maxlen src2 (Some dest, 0%nat) in
  let b' := wr b d 0 in
  let rest' := match rest with
               | c :: r => if (c =? 9) || (c =? 32) || (c =? 34) then r else rest
               | [] => []
               end in
  (b', negb (Nat.eqb d 0) || quoted, rest').

(** jbstrcpy.c:52-77 jbstrcpyrest *)
Fixpoint jbrestloop (maxlen : nat) (src : list Z) (bd : option buffer * nat)
  : option buffer * nat * list Z :=
  match src with
  | [] => (bd, [])
  | c :: r => if c =? 10 then (bd, src) else jbrestloop maxlen r (emit maxlen bd c)
  end.
Definition jbstrcpyrest (dest : buffer) (src : list Z) (maxlen : nat) : option buffer * bool * list Z :=
  let '(b, d, rest) := jbrestloop maxlen (skipblank src) (Some dest, 0%nat) in
  (wr b d 0, negb (Nat.eqb d 0), rest).

(** mystrncpy.c:7-11 on dest=&b[off]: strncpy copies at most len-1 characters and pads
    with NULs, then dest[len-1]=0. len=0 would copy without bound: [None]. *)
Definition mystrncpy (b : option buffer) (off : nat) (src : list Z) (len : nat) : option buffer :=
  match len with
  | O => None
  | S m => wrs b off (firstn m src ++ repeat 0 (m - length src) ++ [0])
  end.

(** OS_PATH_CHARS of src/oslib_linux/os_linux.h:10 is "/". *)
Definition PATHCHAR : Z := 47.

(** path.c:8-30 MakeFullPath; [dest] is a buffer of destsize bytes. *)
Definition MakeFullPath (path file : list Z) (dest : buffer) (destsize : nat) : option buffer :=
  match mystrncpy (Some dest) 0 path destsize with
  | None => None
  | Some b =>
    let d := length (cstr b) in
    let '(b, d) :=
      if negb (Nat.eqb d 0) && negb (nth (d - 1) b 0 =? PATHCHAR) && Nat.ltb (d + 1) destsize
      then (wr (wr (Some b) d PATHCHAR) (d + 1) 0, (d + 1)%nat) else (Some b, d) in
    if Nat.ltb 0 (destsize - d - 1) then mystrncpy b d file (destsize - d - 1) else b
  end.

(** path.c:32-45 GetFilePart *)
Fixpoint GetFilePart_aux (ret str : list Z) : list Z :=
  match str with
  | [] => ret
  | c :: r => GetFilePart_aux (if c =? PATHCHAR then r else ret) r
  end.
Definition GetFilePart (str : list Z) : list Z := GetFilePart_aux str str.

(** ospattern.c:12-33 osMatchPattern. tolower of a negative char is taken to be the
    identity (C locale). *)
Fixpoint osMatchPattern (pattern str : list Z) : bool :=
  match pattern with
  | [] => match str with [] => true | _ => false end
  | p :: pr =>
    if p =? 42 then true else
    match str with
    | [] => false
    | c :: sr => if negb (p =? 63) && negb (tolower p =? tolower c) then false
                 else osMatchPattern pr sr
    end
  end.

(** ospattern.c:35-41 osIsPattern *)
Definition osIsPattern (pat : list Z) : bool := mem 63 pat || mem 42 pat.

(** config.c:1983-1991, the escaping loop of WriteSafely *)
Fixpoint escape (str : list Z) : list Z :=
  match str with
  | [] => []
  | c :: r => if (c =? 34) || (c =? 92) then 92 :: c :: escape r else c :: escape r
  end.
(** config.c:1978-1996 WriteSafely: the bytes written to the file; [None] when buf[300]
    overflows. *)
Definition WriteSafely (str : list Z) : option (list Z) :=
  match wrs (Some (repeat 0 300)) 0 (escape str ++ [0]) with
  | None => None
  | Some b => Some (34 :: cstr b ++ [34])
  end.
