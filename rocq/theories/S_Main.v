(** Runs of crashmail side by side: specification. *)
From Verif Require Import Base M_Str M_Args M_Main.

(** a run is at work on configuration f: between creating the lock file and removing it *)
Definition working (f : list Z) (p : pst) : Prop :=
  match p with PRead g => g = f | PWork g _ => g = f | PClean g _ _ => g = f | _ => False end.
(** a run has found no lock file, but not yet created one *)
Definition creating (f : list Z) (p : pst) : Prop := match p with PCreate g _ => g = f | _ => False end.
(** a run has removed its lock file, but not yet written the duplicate database *)
Definition leaving (f : list Z) (p : pst) : Prop := match p with PFree g _ _ => g = f | _ => False end.

(** In the beginning no run has started; there are no lock files. The name of the
    configuration file of each run has at most 99 characters. *)
Definition shortnames (p : pst) : Prop :=
  match p with PNew env argv => forall ds, parseargs args_crashmail argv = Some ds -> (length (cfgname env ds) <= 99)%nat | _ => False end.
Definition start (w : world) : Prop := (forall n, f_locks (w_files w) n = false) /\ forall k, shortnames (w_runs w k).

(** each step of a schedule is of some kind *)
Fixpoint steps (P : world -> nat -> inp -> Prop) (w : world) (sched : list (nat * inp)) : Prop :=
  match sched with [] => True | (k, i) :: r => P w k i /\ steps P (wstep w k i) r end.
(** No run looks for the lock file while another one is about to create it, and UNLOCK is
    not used while a run is at work. *)
Definition calm (w : world) (k : nat) (i : inp) : Prop :=
  match w_runs w k with
  | PCheck f _ => forall n, n <> k -> ~ creating f (w_runs w n)
  | PUnlock f => forall n, ~ working f (w_runs w n)
  | _ => True
  end.
(** Besides, no run opens the duplicate database while another one has yet to write it. *)
Definition calmer (w : world) (k : nat) (i : inp) : Prop :=
  calm w k i /\ match w_runs w k with PRead f => forall n, ~ leaving f (w_runs w n) | _ => True end.
(** nobody kills the runs or says LOCK *)
Definition unkilled (w : world) (k : nat) (i : inp) : Prop := i_kill i = false.
Definition nolock (p : pst) : Prop :=
  match p with PNew env argv => forall ds, parseargs args_crashmail argv = Some ds -> given ds ARG_LOCK = false | _ => False end.
(** nobody says UNLOCK for f *)
Definition noremoval (f : list Z) (w : world) (k : nat) (i : inp) : Prop := w_runs w k <> PUnlock f.

(** the configuration file of a run: SETTINGS, otherwise CMCONFIGFILE, otherwise crashmail.prefs *)
Inductive configured (env : option (list Z)) (ds : adata) : list Z -> Prop :=
| conf_settings f : argd ds ARG_SETTINGS = Some (VWord f) -> configured env ds f
| conf_env f : argd ds ARG_SETTINGS = None -> env = Some f -> configured env ds f
| conf_default : argd ds ARG_SETTINGS = None -> env = None -> configured env ds (lit "crashmail.prefs").

(** ** The actions a command line asks for *)
Definition actionargs : list nat :=
  [ARG_TOSS; ARG_TOSSFILE; ARG_TOSSDIR; ARG_SCAN; ARG_SCANAREA; ARG_SCANLIST; ARG_SCANDOTJAM; ARG_RESCAN; ARG_SENDQUERY; ARG_SENDLIST; ARG_SENDUNLINKED; ARG_SENDHELP; ARG_SENDINFO; ARG_REMOVE].
Inductive asks (atoi : list Z -> Z) (ds : adata) : nat -> action -> Prop :=
| ask_toss : argd ds ARG_TOSS = Some VTrue -> asks atoi ds ARG_TOSS TossInbound
| ask_tossfile f : argd ds ARG_TOSSFILE = Some (VWord f) -> asks atoi ds ARG_TOSSFILE (TossOneFile f)
| ask_tossdir d : argd ds ARG_TOSSDIR = Some (VWord d) -> asks atoi ds ARG_TOSSDIR (TossOneDir d)
| ask_scan : argd ds ARG_SCAN = Some VTrue -> asks atoi ds ARG_SCAN ScanAll
| ask_scanarea a : argd ds ARG_SCANAREA = Some (VWord a) -> asks atoi ds ARG_SCANAREA (ScanOne a)
| ask_scanlist f : argd ds ARG_SCANLIST = Some (VWord f) -> asks atoi ds ARG_SCANLIST (ScanFromList f)
| ask_scanjam f : argd ds ARG_SCANDOTJAM = Some (VWord f) -> asks atoi ds ARG_SCANDOTJAM (ScanJamList f)
| ask_rescan a n : argd ds ARG_RESCAN = Some (VWord a) -> argd ds ARG_RESCANNODE = Some (VWord n) -> argd ds ARG_RESCANMAX = None -> asks atoi ds ARG_RESCAN (RescanArea a n 0)
| ask_rescanmax a n m : argd ds ARG_RESCAN = Some (VWord a) -> argd ds ARG_RESCANNODE = Some (VWord n) -> argd ds ARG_RESCANMAX = Some (VWord m) -> 0 <= atoi m < 2 ^ 31 -> asks atoi ds ARG_RESCAN (RescanArea a n (atoi m))
| ask_send j n : In j [ARG_SENDQUERY; ARG_SENDLIST; ARG_SENDUNLINKED; ARG_SENDHELP; ARG_SENDINFO] -> argd ds j = Some (VWord n) -> asks atoi ds j (SendList j n)
| ask_remove a : argd ds ARG_REMOVE = Some (VWord a) -> asks atoi ds ARG_REMOVE (RemoveOne a).
(** only these of the arguments that ask for an action are given *)
Definition onlyargs (ds : adata) (js : list nat) : Prop := forall j, In j actionargs -> ~ In j js -> argd ds j = None.
