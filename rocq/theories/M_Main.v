(** Model of main, LockConfig, UnlockConfig and CleanUp of src/crashmail/crashmail.c: which
    steps a run of crashmail takes, cut where other runs can come in between. What ReadConfig,
    CheckConfig, Init and the actions do is not modelled here, except for the duplicate
    database: it is read when a run begins and written when it ends (dupe.c; here it is the
    list of all ids, not only of the last ones). Two names of one file are different files
    here. *)
From Verif Require Import Base M_Str M_Args.

(** crashmail.c:44-64 *)
Definition ARG_SCAN := 0%nat.
Definition ARG_TOSS := 1%nat.
Definition ARG_TOSSFILE := 2%nat.
Definition ARG_TOSSDIR := 3%nat.
Definition ARG_SCANAREA := 4%nat.
Definition ARG_SCANLIST := 5%nat.
Definition ARG_SCANDOTJAM := 6%nat.
Definition ARG_RESCAN := 7%nat.
Definition ARG_RESCANNODE := 8%nat.
Definition ARG_RESCANMAX := 9%nat.
Definition ARG_SENDQUERY := 10%nat.
Definition ARG_SENDLIST := 11%nat.
Definition ARG_SENDUNLINKED := 12%nat.
Definition ARG_SENDHELP := 13%nat.
Definition ARG_SENDINFO := 14%nat.
Definition ARG_REMOVE := 15%nat.
Definition ARG_SETTINGS := 16%nat.
Definition ARG_VERSION := 17%nat.
Definition ARG_LOCK := 18%nat.
Definition ARG_UNLOCK := 19%nat.
(** args[j].data *)
Definition argd (ds : adata) (j : nat) : option aval := match nth_error ds j with Some d => d | None => None end.
Definition given (ds : adata) (j : nat) : bool := match argd ds j with Some _ => true | None => false end.
Definition word (ds : adata) (j : nat) : list Z := match argd ds j with Some (VWord w) => w | _ => [] end.

(** oslib_linux: OS_EXIT_ERROR, OS_EXIT_OK, OS_CONFIG_NAME *)
Definition EXIT_ERROR := 10.
Definition EXIT_OK := 0.
Definition CONFIG_NAME := lit "crashmail.prefs".

(** crashmail.c:554-560 *)
Definition helpword (w : list Z) : bool :=
  streq w (lit "?") || streq w (lit "-h") || streq w (lit "--help") || streq w (lit "help") || streq w (lit "/h") || streq w (lit "/?").

(** ** Where a run stands *)
Inductive pst :=
| PNew (env : option (list Z)) (argv : list (list Z))   (* not yet started; CMCONFIGFILE and the words of the command line *)
| PCheck (cfg : list Z) (hold : bool)       (* crashmail.c:486, about to look for the lock file; hold: the command LOCK *)
| PCreate (cfg : list Z) (hold : bool)      (* crashmail.c:496, about to create the lock file *)
| PRead (cfg : list Z)                      (* crashmail.c:613, before ReadConfig, CheckConfig and Init *)
| PWork (cfg : list Z) (ids : list Z)       (* crashmail.c:650, at work; ids: the duplicate database as it will be written *)
| PClean (cfg : list Z) (ids : option (list Z)) (code : Z)  (* crashmail.c:517 CleanUp *)
| PFree (cfg : list Z) (ids : option (list Z)) (code : Z)   (* crashmail.c:525, before Free *)
| PUnlock (cfg : list Z)                    (* crashmail.c:599 *)
| PDone (code : Z)
| PKilled
| POverflow.                                (* a name too long for a buffer: undefined behaviour *)

(** what the world decides in a step: the run is killed; the user has pressed ctrl-c; the
    lock file can be created; configuration and Init are all right; new ids for the duplicate
    database; more work *)
Record inp := INP { i_kill : bool; i_break : bool; i_create : bool; i_ok : bool; i_ids : list Z; i_more : bool }.

(** crashmail.c:578-583 *)
Definition cfgname (env : option (list Z)) (ds : adata) : list Z :=
  if given ds ARG_SETTINGS then word ds ARG_SETTINGS else match env with Some e => e | None => CONFIG_NAME end.
(** the name of the lock file, crashmail.c:483-484 and :511-512 *)
Definition busy (f : list Z) : list Z := f ++ lit ".busy".
Definition fits (f : list Z) : bool := Z.of_nat (length (busy f)) <? 200.

(** crashmail.c:542-609 up to the first look at a file *)
Definition begin (env : option (list Z)) (argv : list (list Z)) : pst :=
  if match argv with w :: _ => helpword w | [] => false end then PDone EXIT_OK else
  match parseargs args_crashmail argv with
  | None => PDone EXIT_ERROR
  | Some ds =>
    if given ds ARG_VERSION then PDone EXIT_OK else
    let cfg := cfgname env ds in
    if negb (fits cfg) then POverflow else
    if given ds ARG_LOCK then PCheck cfg true else
    if given ds ARG_UNLOCK then PUnlock cfg else PCheck cfg false
  end.

(** the files: the lock files, and the duplicate database of each configuration *)
Record files := FILES { f_locks : list Z -> bool; f_ids : list Z -> list Z }.
Definition setlock (s : files) (n : list Z) (b : bool) : files := FILES (fun x => if streq x n then b else f_locks s x) (f_ids s).
Definition setids (s : files) (cfg : list Z) (l : list Z) : files := FILES (f_locks s) (fun x => if streq x cfg then l else f_ids s x).

(** new ids are added to those known *)
Definition addids (ids new : list Z) : list Z := fold_left (fun l x => if existsb (Z.eqb x) l then l else l ++ [x]) new ids.

Definition pstep (s : files) (p : pst) (i : inp) : files * pst :=
  match p with
  | PDone _ | PKilled | POverflow => (s, p)
  | _ =>
    if i_kill i then (s, PKilled) else
    match p with
    | PNew env argv => (s, begin env argv)
    | PCheck cfg hold =>
      if f_locks s (busy cfg) then (s, if i_break i then PDone EXIT_ERROR else p) else (s, PCreate cfg hold)
    | PCreate cfg hold =>
      if i_create i then (setlock s (busy cfg) true, if hold then PDone EXIT_OK else PRead cfg) else (s, PDone EXIT_ERROR)
    | PRead cfg =>
      if i_ok i then (s, PWork cfg (f_ids s cfg)) else (s, PClean cfg None EXIT_ERROR)
    | PWork cfg ids =>
      let ids' := addids ids (i_ids i) in
      (s, if i_more i then PWork cfg ids' else PClean cfg (Some ids') EXIT_OK)
    | PClean cfg ids code => (setlock s (busy (firstn 99 cfg)) false, PFree cfg ids code)   (* config.filename, config.c:50 *)
    | PFree cfg ids code => (match ids with Some l => setids s cfg l | None => s end, PDone code)
    | PUnlock cfg => (setlock s (busy cfg) false, PDone EXIT_OK)
    | _ => (s, p)
    end
  end.

(** ** Several runs *)
Record world := W { w_files : files; w_runs : nat -> pst }.
Definition wstep (w : world) (k : nat) (i : inp) : world :=
  let (s, p) := pstep (w_files w) (w_runs w k) i in W s (fun n => if (n =? k)%nat then p else w_runs w n).
Fixpoint wrun (w : world) (sched : list (nat * inp)) : world :=
  match sched with [] => w | (k, i) :: r => wrun (wstep w k i) r end.

(** ** The actions *)
Inductive action :=
| TossInbound | TossOneFile (f : list Z) | TossOneDir (d : list Z) | ScanAll | ScanOne (a : list Z) | ScanFromList (f : list Z)
| ScanJamList (f : list Z) | RescanArea (area node : list Z) (max : Z) | SendList (t : nat) (node : list Z) | RemoveOne (a : list Z).
(** crashmail.c:650-703; the number of a list is that of its argument *)
Definition actions (atoi : list Z -> Z) (ds : adata) : list action :=
  (if given ds ARG_TOSS then [TossInbound] else if given ds ARG_TOSSFILE then [TossOneFile (word ds ARG_TOSSFILE)] else []) ++
  if given ds ARG_TOSSDIR then [TossOneDir (word ds ARG_TOSSDIR)]
  else if given ds ARG_SCAN then [ScanAll]
  else if given ds ARG_SCANAREA then [ScanOne (word ds ARG_SCANAREA)]
  else if given ds ARG_SCANLIST then [ScanFromList (word ds ARG_SCANLIST)]
  else if given ds ARG_SCANDOTJAM then [ScanJamList (word ds ARG_SCANDOTJAM)]
  else if given ds ARG_RESCAN then
    (if given ds ARG_RESCANNODE then [RescanArea (word ds ARG_RESCAN) (word ds ARG_RESCANNODE) (if given ds ARG_RESCANMAX then u32 (atoi (word ds ARG_RESCANMAX)) else 0)] else [])
  else if given ds ARG_SENDLIST then [SendList ARG_SENDLIST (word ds ARG_SENDLIST)]
  else if given ds ARG_SENDQUERY then [SendList ARG_SENDQUERY (word ds ARG_SENDQUERY)]
  else if given ds ARG_SENDUNLINKED then [SendList ARG_SENDUNLINKED (word ds ARG_SENDUNLINKED)]
  else if given ds ARG_SENDHELP then [SendList ARG_SENDHELP (word ds ARG_SENDHELP)]
  else if given ds ARG_SENDINFO then [SendList ARG_SENDINFO (word ds ARG_SENDINFO)]
  else if given ds ARG_REMOVE then [RemoveOne (word ds ARG_REMOVE)] else [].
