(** Model of src/crashmail/scan.c.

    BeforeScanToss, the export functions of the message bases and AfterScanToss are not part
    of it: what is modelled is which of them is called, in which order and with what result
    (M_Toss, M_JamMb and M_Msg model what they do). The log and the output are left out. *)
From Verif Require Import Base M_Str M_Fs M_Mem M_Out M_Cfg.

(** config.h:32 *)
Definition CFG_NOEXPORTNETMAIL := 134217728.
(** config.h struct Area: Tagname, Path, AreaType, Messagebase (None: pass-through; otherwise
    whether it has an exportfunc) *)
Record sarea := SA { sa_tag : list Z; sa_path : list Z; sa_type : Z; sa_mb : option bool }.

(** BeforeScanToss with its result, an export function called for the area at this place of
    the configuration, AfterScanToss with its argument *)
Inductive sev := SBegin (ok : bool) | SExport (n : nat) | SEnd (success : bool).

Section Scan.
  Variable flags : Z.
  (** the result of an export function, given the areas exported before *)
  Variable ok : list nat -> nat -> bool.
  (** the variable ctrlc the [n]th time it is looked at; it is set by a signal
      (crashmail.c:537-540) and never reset *)
  Variable ctrlc : nat -> bool.
  Variable areas : list sarea.

  Definition nonet (a : sarea) : bool := (sa_type a =? AREATYPE_NETMAIL) && flag flags CFG_NOEXPORTNETMAIL.
  (** scan.c:54-72; [None]: an export function failed *)
  Fixpoint scanall (l : list sarea) (n : nat) (ex : list nat) : list nat * option bool :=
    match l with
    | [] => (ex, Some (negb (ctrlc n)))
    | a :: r =>
      if ctrlc n then (ex, Some false)
      else if (match sa_mb a with Some b => b | None => false end) && ((sa_type a =? AREATYPE_ECHOMAIL) || (sa_type a =? AREATYPE_NETMAIL)) then
        if nonet a then scanall r (S n) ex
        else if ok ex n then scanall r (S n) (ex ++ [n]) else (ex ++ [n], None)
      else scanall r (S n) ex
    end.
  (** the calls around the loops: scan.c:51-52,66-86 and the same places in the other functions *)
  Definition around (before : bool) (x : list nat * option bool) : list sev * bool :=
    if before then
      let s := match snd x with Some b => b | None => false end in
      (SBegin true :: map SExport (fst x) ++ [SEnd s], s)
    else ([SBegin false], false).
  (** scan.c:45-86 *)
  Definition Scan (before : bool) : list sev * bool := around before (scanall areas 0 []).

  (** scan.c:114-115, :205-206: the first area with that name or path *)
  Fixpoint findarea (key : sarea -> list Z) (name : list Z) (l : list sarea) (n : nat) : option nat :=
    match l with
    | [] => None
    | a :: r => if streqi (key a) name then Some n else findarea key name r (S n)
    end.
  (** scan.c:200-202 *)
  Fixpoint uptoblank (s : list Z) : list Z :=
    match s with
    | [] => []
    | c :: r => if c =? 32 then [] else c :: uptoblank r
    end.
  Definition noarea := SA [] [] 0 None.
  (** scan.c:106-156, :190-246; [cut]: only what precedes a blank counts. [fuel]: more than
      there are lines. [None]: lack of fuel *)
  Fixpoint scanlines (key : sarea -> list Z) (cut : bool) (fuel : nat) (text : list Z) (n : nat) (scanned ex : list nat) : option (list nat * option bool) :=
    match fuel with
    | O => None
    | S f =>
      match osFGets 100 text with
      | None => Some (ex, Some (negb (ctrlc n)))
      | Some (l, r) =>
        if ctrlc n then Some (ex, Some false)
        else
          let buf := striptrail l in
          match buf with
          | [] => scanlines key cut f r (S n) scanned ex
          | _ =>
            let name := if cut then uptoblank buf else buf in
            match findarea key name areas 0 with
            | None => scanlines key cut f r (S n) scanned ex
            | Some k =>
              if existsb (Nat.eqb k) scanned then scanlines key cut f r (S n) scanned ex
              else
                let a := nth k areas noarea in
                if negb (sa_type a =? AREATYPE_ECHOMAIL) && negb (sa_type a =? AREATYPE_NETMAIL) then scanlines key cut f r (S n) (k :: scanned) ex
                else if nonet a then scanlines key cut f r (S n) (k :: scanned) ex
                else if match sa_mb a with Some b => b | None => false end then
                  if ok ex k then scanlines key cut f r (S n) (k :: scanned) (ex ++ [k]) else Some (ex ++ [k], None)
                else scanlines key cut f r (S n) (k :: scanned) ex
            end
          end
      end
    end.
  (** scan.c:88-171 with the contents of the file; it can be opened *)
  Definition ScanList (before : bool) (text : list Z) : option (list sev * bool) :=
    option_map (around before) (scanlines sa_tag false (S (length text)) text 0 [] []).
  (** scan.c:173-261 *)
  Definition ScanDotJam (before : bool) (text : list Z) : option (list sev * bool) :=
    option_map (around before) (scanlines sa_path true (S (length text)) text 0 [] []).
  (** scan.c:263-306 *)
  Definition ScanArea (before : bool) (tagname : list Z) : list sev * bool :=
    match findarea sa_tag tagname areas 0 with
    | None => ([], false)
    | Some k =>
      let a := nth k areas noarea in
      if negb (sa_type a =? AREATYPE_ECHOMAIL) && negb (sa_type a =? AREATYPE_NETMAIL) then ([], false)
      else match sa_mb a with
           | Some true => around before ([k], if ok [] k then Some true else None)
           | _ => ([], false)
           end
    end.
End Scan.
