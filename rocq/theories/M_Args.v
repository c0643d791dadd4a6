(** Model of src/shared/parseargs.c: command lines. What is printed is not modelled. *)
From Verif Require Import Base.

(** parseargs.h: struct argument without its data; [a_auto], [a_mand]: ARGFLAG_AUTO and
    ARGFLAG_MANDATORY. ARGTYPE_END is the end of the list. *)
Inductive atype := AString | ABool.
Record arg := ARG { a_type : atype; a_name : option (list Z); a_auto : bool; a_mand : bool }.
(** data: NULL, a word of the command line, or TRUE *)
Inductive aval := VWord (w : list Z) | VTrue.
Definition adata := list (option aval).

(** parseargs.c:15-16: the first argument whose keyword is [w], ignoring case *)
Fixpoint keyfind (tbl : list arg) (w : list Z) : option nat :=
  match tbl with
  | [] => None
  | a :: r => if match a_name a with Some n => streqi w n | None => false end then Some O else option_map S (keyfind r w)
  end.
(** parseargs.c:46-47: the first empty field that needs no keyword *)
Fixpoint autofind (tbl : list arg) (ds : adata) : option nat :=
  match tbl, ds with
  | a :: r, d :: ds' => if (match a_name a with None => true | Some _ => a_auto a end) && (match d with None => true | Some _ => false end)
                        then Some O else option_map S (autofind r ds')
  | _, _ => None
  end.
(** arg[j].data=v *)
Fixpoint setd (j : nat) (v : aval) (ds : adata) : adata :=
  match ds, j with
  | [], _ => []
  | _ :: r, O => Some v :: r
  | d :: r, S k => d :: setd k v r
  end.
Definition typeof (tbl : list arg) (j : nat) : atype := match nth_error tbl j with Some a => a_type a | None => ABool end.

(** parseargs.c:13-57: the words behind the name of the program. [None]: FALSE. *)
Fixpoint argloop (tbl : list arg) (ds : adata) (ws : list (list Z)) : option adata :=
  match ws with
  | [] => Some ds
  | w :: r =>
    match keyfind tbl w with
    | Some j =>
      match typeof tbl j with
      | AString => match r with
                   | v :: r' => argloop tbl (setd j (VWord v) ds) r'
                   | [] => None
                   end
      | ABool => argloop tbl (setd j VTrue ds) r
      end
    | None =>
      match autofind tbl ds with
      | None => None
      | Some j => argloop tbl (setd j (VWord w) ds) r
      end
    end
  end.
(** parseargs.c:59-64 *)
Fixpoint mandatory (tbl : list arg) (ds : adata) : bool :=
  match tbl, ds with
  | a :: r, d :: ds' => negb (a_mand a && match d with None => true | Some _ => false end) && mandatory r ds'
  | _, _ => true
  end.
(** parseargs.c:9-67 parseargs; all data is NULL before *)
Definition parseargs (tbl : list arg) (ws : list (list Z)) : option adata :=
  match argloop tbl (repeat None (length tbl)) ws with
  | Some ds => if mandatory tbl ds then Some ds else None
  | None => None
  end.

(** ** The tables of the programs *)
Definition astr (n : list Z) := ARG AString (Some n) false false.
Definition abool (n : list Z) := ARG ABool (Some n) false false.
Definition aauto (n : list Z) (mand : bool) := ARG AString (Some n) true mand.
(** crashmail.c:67-88 *)
Definition args_crashmail : list arg :=
  [abool (lit "SCAN"); abool (lit "TOSS"); astr (lit "TOSSFILE"); astr (lit "TOSSDIR"); astr (lit "SCANAREA"); astr (lit "SCANLIST"); astr (lit "SCANDOTJAM");
   astr (lit "RESCAN"); astr (lit "RESCANNODE"); astr (lit "RESCANMAX"); astr (lit "SENDQUERY"); astr (lit "SENDLIST"); astr (lit "SENDUNLINKED");
   astr (lit "SENDHELP"); astr (lit "SENDINFO"); astr (lit "REMOVE"); astr (lit "SETTINGS"); abool (lit "VERSION"); abool (lit "LOCK"); abool (lit "UNLOCK");
   abool (lit "NOSECURITY")].
(** crashmaint.c:77-82 *)
Definition args_crashmaint : list arg := [abool (lit "MAINT"); abool (lit "PACK"); abool (lit "VERBOSE"); astr (lit "SETTINGS"); astr (lit "PATTERN")].
(** crashwrite.c:48-62 *)
Definition args_crashwrite : list arg :=
  [astr (lit "FROMNAME"); astr (lit "FROMADDR"); astr (lit "TONAME"); astr (lit "TOADDR"); astr (lit "SUBJECT"); astr (lit "AREA"); astr (lit "ORIGIN");
   ARG AString (Some (lit "DIR")) false true; astr (lit "TEXT"); abool (lit "NOMSGID"); abool (lit "FILEATTACH"); astr (lit "PKTFROMADDR");
   astr (lit "PKTTOADDR"); astr (lit "PASSWORD")].
(** crashstats.c:99-105 *)
Definition args_crashstats : list arg :=
  [aauto (lit "FILE") true; astr (lit "SORT"); abool (lit "LAST7"); abool (lit "NOAREAS"); abool (lit "NONODES"); astr (lit "GROUP")].
(** crashexport.c:42-46 *)
Definition args_crashexport : list arg := [aauto (lit "PREFSFILE") true; aauto (lit "OUTFILE") true; aauto (lit "FORMAT") true; astr (lit "GROUP")].
(** crashgetnode.c:23-25 *)
Definition args_crashgetnode : list arg := [aauto (lit "NODE") true; aauto (lit "DIRECTORY") false].
(** crashlist.c:30-31 *)
Definition args_crashlist : list arg := [aauto (lit "DIRECTORY") false].
(** crashlistout.c:69-73 *)
Definition args_crashlistout : list arg := [aauto (lit "DIRECTORY") false; aauto (lit "ZONE") false; aauto (lit "PATTERN") false; abool (lit "VERBOSE")].
