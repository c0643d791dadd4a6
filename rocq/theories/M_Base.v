(** Model of how the message bases in JAM format are opened: the table of open bases of
    src/crashmail/mb_jam.c and the opening of the four files in src/jamlib/mbase.c.

    A call of calloc is taken to succeed, the header of a new base can always be written,
    and the name of a file fits in Filename_AC[250]. An area is given by a number, [path]
    gives the Path of its configuration. *)
From Verif Require Import Base M_Fs M_Jam.

(** mb_jam.c:7-12 struct openbase; an s_JamBase is named by a number that is never used again *)
Record slot := SL { s_use : Z; s_base : Z; s_area : Z }.
(** What happens with bases: the files of area [a] are opened (or created), the base is
    handed to a function that wants area [a], the files are closed. *)
Inductive ev := EOpen (h a : Z) | EGive (h a : Z) | EClose (h : Z).
(** jam_openbases and jam_lastnum (mb_jam.c:27,29); the number of the next s_JamBase, the
    files, what has happened (the latest event last) *)
Record bst := BST { b_slots : list slot; b_last : Z; b_next : Z; b_files : list (list Z * list Z); b_log : list ev }.

(** What the system does in one call: which files fopen(3) can open with "r+b" (if they
    exist), which with "w+b", whether a new base can be locked, the time. *)
Record oin := OIN { o_old : list Z -> bool; o_new : list Z -> bool; o_lock : bool; o_now : Z }.

(** jam.h:65-68, in the order of mbase.c:547-596 jam_Open *)
Definition exts : list (list Z) := [lit ".jhr"; lit ".jdt"; lit ".jdx"; lit ".jlr"].

(** mbase.c:547-596 jam_Open with the mode "r+b": all files or none remain open *)
Definition jam_Open_old (i : oin) (fs : list (list Z * list Z)) (p : list Z) : bool :=
  forallb (fun e => osExists fs (p ++ e) && o_old i (p ++ e)) exts.
(** mbase.c:547-596 jam_Open with the mode "w+b": each file is made empty when it is opened *)
Fixpoint jam_Open_new (i : oin) (es : list (list Z)) (fs : list (list Z * list Z)) (p : list Z) : bool * list (list Z * list Z) :=
  match es with
  | [] => (true, fs)
  | e :: r => if o_new i (p ++ e) then jam_Open_new i r (fput fs (p ++ e) []) p else (false, fs)
  end.
(** mbase.c:147-193 JAM_CreateMB with the base number 1, as mb_jam.c:79 calls it *)
Definition CreateMB (i : oin) (fs : list (list Z * list Z)) (p : list Z) : bool * list (list Z * list Z) :=
  let '(ok, fs1) := jam_Open_new i exts fs p in
  if ok then if o_lock i then (true, fput fs1 (p ++ lit ".jhr") (j_hdr (JAM_CreateMB (o_now i) 1))) else (false, fs1)
  else (false, fs1).
(** mb_jam.c:73-85 and mbase.c:118-140 JAM_OpenMB: open, otherwise create *)
Definition openfiles (i : oin) (fs : list (list Z * list Z)) (p : list Z) : bool * list (list Z * list Z) :=
  if jam_Open_old i fs p then (true, fs) else CreateMB i fs p.

(** the first place that satisfies [P]; the loops at mb_jam.c:41-46 and :54-55 *)
Fixpoint findslot (P : slot -> bool) (l : list slot) (c : nat) : option nat :=
  match l with
  | [] => None
  | s :: r => if P s then Some c else findslot P r (S c)
  end.
(** mb_jam.c:61-64 *)
Fixpoint lowest (l : list slot) (c : nat) (best : nat) (use : Z) : nat :=
  match l with
  | [] => best
  | s :: r => if s_use s <? use then lowest r (S c) c (s_use s) else lowest r (S c) best use
  end.
Definition noslot := SL 0 0 0.
Definition setslot (k : nat) (s : slot) (l : list slot) : list slot := firstn k l ++ s :: skipn (S k) l.

(** mb_jam.c:34-93 jam_openbase *)
Definition jam_openbase (path : Z -> list Z) (i : oin) (st : bst) (a : Z) : bst * option Z :=
  let next := u32 (b_last st + 1) in
  match findslot (fun s => (s_area s =? a) && negb (s_use s =? 0)) (b_slots st) 0 with
  | Some k =>
    let s := nth k (b_slots st) noslot in
    (BST (setslot k (SL (b_last st) (s_base s) (s_area s)) (b_slots st)) next (b_next st) (b_files st) (b_log st ++ [EGive (s_base s) a]),
     Some (s_base s))
  | None =>
    let '(k, slots, log) :=
      match findslot (fun s => s_use s =? 0) (b_slots st) 0 with
      | Some k => (k, b_slots st, b_log st)
      | None =>
        let k := lowest (b_slots st) 0 0 (s_use (nth 0 (b_slots st) noslot)) in
        let s := nth k (b_slots st) noslot in
        (k, setslot k (SL 0 (s_base s) (s_area s)) (b_slots st), b_log st ++ [EClose (s_base s)])
      end in
    let '(ok, fs) := openfiles i (b_files st) (path a) in
    let h := b_next st in
    if ok then (BST (setslot k (SL (b_last st) h a) slots) next (h + 1) fs (log ++ [EOpen h a; EGive h a]), Some h)
    else (BST slots (b_last st) h fs log, None)
  end.

(** mb_jam.c:187-214 jam_beforefunc; [n]: MAXOPEN of the configuration, 0 when it is not given *)
Definition jam_before (n : nat) (fs : list (list Z * list Z)) : bst :=
  BST (repeat noslot (match n with O => 5 | _ => n end)) 1 1 fs [].
(** the calls of a run in their order *)
Fixpoint jam_calls (path : Z -> list Z) (cs : list (oin * Z)) (st : bst) : bst * list (option Z) :=
  match cs with
  | [] => (st, [])
  | (i, a) :: r =>
    let '(st1, h) := jam_openbase path i st a in
    let '(st2, hs) := jam_calls path r st1 in (st2, h :: hs)
  end.
(** mb_jam.c:230-238 the end of jam_afterfunc (the links are made before, by calls of
    jam_openbase among others) *)
Definition jam_after (st : bst) : bst :=
  BST (b_slots st) (b_last st) (b_next st) (b_files st)
      (b_log st ++ map (fun s => EClose (s_base s)) (filter (fun s => negb (s_use s =? 0)) (b_slots st))).
(** a whole run *)
Definition jam_run (path : Z -> list Z) (n : nat) (fs : list (list Z * list Z)) (cs : list (oin * Z)) : bst * list (option Z) :=
  let '(st, hs) := jam_calls path cs (jam_before n fs) in (jam_after st, hs).
