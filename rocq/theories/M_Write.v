(** Model of src/tools/crashwrite.c: a command line becomes a packet with one message. The
    clock, localtime and whether the packet can be created are arguments; writing does not
    fail. What is printed on the terminal is left out. *)
From Verif Require Import Base M_Node4D M_Mem M_Str M_Fs M_Args M_Main M_Out M_Date.

(** crashwrite.c:32-45 *)
Definition CW_FROMNAME := 0%nat.
Definition CW_FROMADDR := 1%nat.
Definition CW_TONAME := 2%nat.
Definition CW_TOADDR := 3%nat.
Definition CW_SUBJECT := 4%nat.
Definition CW_AREA := 5%nat.
Definition CW_ORIGIN := 6%nat.
Definition CW_DIR := 7%nat.
Definition CW_TEXT := 8%nat.
Definition CW_NOMSGID := 9%nat.
Definition CW_FILEATTACH := 10%nat.
Definition CW_PKTFROMADDR := 11%nat.
Definition CW_PKTTOADDR := 12%nat.
Definition CW_PASSWORD := 13%nat.

(** the answers of the system: time at line 190, time in round k of the loop of lines 265-272,
    localtime, whether a packet of that name can be created *)
Record cwenv := CW { cw_time : Z; cw_clock : nat -> Z; cw_localtime : Z -> tm; cw_create : list Z -> bool }.

(** bytes written into an array *)
Definition put (b : list Z) (o : nat) (l : list Z) : list Z := firstn o b ++ l ++ skipn (o + length l) b.
(** crashwrite.c:74-78 putuword; the number is converted to 16 bits *)
Definition putuword (b : list Z) (o : nat) (v : Z) : list Z := put b o [u16 v mod 256; u16 v / 256].
(** crashwrite.c:228-229: strncpy into the eight bytes that were zeroed before *)
Definition strncpy8 (s : list Z) : list Z := firstn 8 (s ++ repeat 0 8).

(** crashwrite.c:195-229, with the offsets of fidonet.h:3-36 *)
Definition cw_pkthdr (tp : tm) (o d : node4d) (pw : option (list Z)) : list Z :=
  let h := repeat 0 58 in
  let h := putuword h 0 (node o) in
  let h := putuword h 2 (node d) in
  let h := putuword h 8 (tm_mday tp) in
  let h := putuword h 6 (tm_mon tp) in
  let h := putuword h 4 (tm_year tp + 1900) in
  let h := putuword h 10 (tm_hour tp) in
  let h := putuword h 12 (tm_min tp) in
  let h := putuword h 14 (tm_sec tp) in
  let h := putuword h 16 0 in
  let h := putuword h 18 2 in
  let h := putuword h 20 (net o) in
  let h := putuword h 22 (net d) in
  let h := put h 24 [254] in
  let h := put h 25 [1] in
  let h := putuword h 34 (zone o) in
  let h := putuword h 36 (zone d) in
  let h := putuword h 38 0 in
  let h := putuword h 40 256 in
  let h := put h 42 [0] in
  let h := put h 43 [5] in
  let h := putuword h 44 1 in
  let h := putuword h 46 (zone o) in
  let h := putuword h 48 (zone d) in
  let h := putuword h 50 (point o) in
  let h := putuword h 52 (point d) in
  let h := put h 54 [0; 0; 0; 0] in
  let h := put h 26 [0; 0; 0; 0; 0; 0; 0; 0] in
  match pw with Some w => put h 26 (strncpy8 w) | None => h end.

(** crashwrite.c:233-247, with the offsets of fidonet.h:65-74 *)
Definition cw_attr (ds : adata) : Z :=
  Z.lor (if given ds CW_AREA then 0 else 1) (if given ds CW_FILEATTACH then 16 else 0).
Definition cw_msghdr (o d : node4d) (attr : Z) : list Z :=
  let h := repeat 0 14 in
  let h := putuword h 0 2 in
  let h := putuword h 2 (node o) in
  let h := putuword h 4 (node d) in
  let h := putuword h 6 (net o) in
  let h := putuword h 8 (net d) in
  let h := putuword h 10 attr in
  putuword h 12 0.

(** crashwrite.c:249-257: one of the strings, in an array of n bytes *)
Definition cw_string (ds : adata) (j : nat) (dflt : list Z) (n : nat) : option (list Z) :=
  option_map cstr (mystrncpy (Some (repeat 0 n)) 0 (if given ds j then word ds j else dflt) n).
(** crashwrite.c:147-187: an address, [None]: invalid *)
Definition cw_addr (ds : adata) (j : nat) (dflt : node4d) : option node4d :=
  if given ds j then Parse4D (word ds j) else Some dflt.

(** crashwrite.c:263-272: the name of the packet; the shift is on a 64 bit time_t, the result
    is cut to 32 bits. [None]: no fuel *)
Fixpoint cw_choose (fuel : nat) (E : cwenv) (fs : fsys) (dir : list Z) (serial : nat) : option (Z * list Z) :=
  match fuel with
  | O => None
  | S f => let num := u32 (cw_clock E serial * 256 + Z.of_nat serial) in
           match MakeFullPath dir (hex 8 num ++ lit ".pkt") (repeat 0 200) 200 with
           | None => None
           | Some b => if osExists fs (cstr b) then cw_choose f E fs dir (S serial) else Some (num, cstr b)
           end
  end.

(** crashwrite.c:297-317: what stands in front of the text *)
Definition cw_kludges (ds : adata) (from to : node4d) (num : Z) : list Z :=
  (if given ds CW_AREA then lit "AREA:" ++ word ds CW_AREA ++ [13]
   else (if point from =? 0 then [] else 1 :: lit "FMPT " ++ dec (point from) ++ [13]) ++
        (if point to =? 0 then [] else 1 :: lit "TOPT " ++ dec (point to) ++ [13]) ++
        1 :: lit "INTL " ++ dec (zone to) ++ lit ":" ++ dec (net to) ++ lit "/" ++ dec (node to) ++ lit " " ++
             dec (zone from) ++ lit ":" ++ dec (net from) ++ lit "/" ++ dec (node from) ++ [13]) ++
  (if given ds CW_NOMSGID then []
   else 1 :: lit "MSGID: " ++ dec (zone from) ++ lit ":" ++ dec (net from) ++ lit "/" ++ dec (node from) ++ lit "." ++ dec (point from) ++
        lit " " ++ hex 8 num ++ [13]).

(** crashwrite.c:333-339: the text file, a hundred bytes at a time; a piece has no NUL. The
    fuel is the length of the file, every round takes at least one byte. *)
Fixpoint cw_text (fuel : nat) (s : list Z) : list Z :=
  match fuel with
  | O => []
  | S f => match osFGets 100 s with
           | None => []
           | Some (l, r) => map (fun c => if c =? 10 then 13 else c) l ++ cw_text f r
           end
  end.

(** crashwrite.c:344-348 *)
Definition cw_tail (ds : adata) (from : node4d) (origin : list Z) : list Z :=
  if given ds CW_AREA then
    lit "--- CrashWrite II/Linux 1.5.1" ++ [13] ++
    lit " * Origin: " ++ origin ++ lit " (" ++ dec (zone from) ++ lit ":" ++ dec (net from) ++ lit "/" ++ dec (node from) ++ lit "." ++ dec (point from) ++ lit ")" ++ [13]
  else [].

(** crashwrite.c:147-358, after the arguments have been read: the exit code and the files.
    [None]: no fuel, or TEXT names the packet that is being written (not modelled). *)
Definition cw_run (fuel : nat) (E : cwenv) (ds : adata) (fs : fsys) : option (Z * fsys) :=
  match cw_addr ds CW_FROMADDR (N4 0 0 0 0) with
  | None => Some (EXIT_ERROR, fs)
  | Some from =>
  match cw_addr ds CW_TOADDR (N4 0 0 0 0) with
  | None => Some (EXIT_ERROR, fs)
  | Some to =>
  match cw_addr ds CW_PKTFROMADDR from with
  | None => Some (EXIT_ERROR, fs)
  | Some pfrom =>
  match cw_addr ds CW_PKTTOADDR to with
  | None => Some (EXIT_ERROR, fs)
  | Some pto =>
  do fromname <- cw_string ds CW_FROMNAME (lit "CrashWrite") 36;
  do toname <- cw_string ds CW_TONAME (lit "All") 36;
  do subject <- cw_string ds CW_SUBJECT (lit "Information") 72;
  do origin <- cw_string ds CW_ORIGIN (lit "Another user of CrashMail II") 80;
  do choice <- cw_choose fuel E fs (word ds CW_DIR) 0;
  let '(num, full) := choice in
  if cw_create E full then
    let begin :=
      cw_pkthdr (cw_localtime E (cw_time E)) pfrom pto (if given ds CW_PASSWORD then Some (word ds CW_PASSWORD) else None) ++
      cw_msghdr from to (cw_attr ds) ++
      MakeFidoDate (cw_localtime E) (cw_time E) ++ [0] ++ toname ++ [0] ++ fromname ++ [0] ++ subject ++ [0] ++
      cw_kludges ds from to num in
    let finish text := Some (EXIT_OK, fput fs full (begin ++ text ++ cw_tail ds from origin ++ [0; 0; 0])) in
    if given ds CW_TEXT then
      if streq (word ds CW_TEXT) full then None else
      match fget fs (word ds CW_TEXT) with
      | None => Some (EXIT_ERROR, osDelete (fput fs full begin) full)
      | Some t => finish (cw_text (length t) t)
      end
    else finish []
  else Some (EXIT_ERROR, fs)
  end end end end.

(** crashwrite.c:103-358 main; [argv] without the name of the program *)
Definition crashwrite (fuel : nat) (E : cwenv) (argv : list (list Z)) (fs : fsys) : option (Z * fsys) :=
  if match argv with w :: _ => helpword w | [] => false end then Some (EXIT_OK, fs) else
  match parseargs args_crashwrite argv with
  | None => Some (EXIT_ERROR, fs)
  | Some ds => cw_run fuel E ds fs
  end.
