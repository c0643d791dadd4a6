(** Model of src/crashmail/logwrite.c. The text vprintf and vsyslog make of a format and the
    arguments of a call, and localtime, belong to the system: they are arguments. Writing to the log
    does not fail (its result is not looked at). *)
From Verif Require Import Base M_Str M_Fs M_Date.

(** logwrite.h:3-11 *)
Definition DEBUG := 5.
(** logwrite.c:61 *)
Definition categoryletters : list Z := lit "-%=!/D+^?".
(** logwrite.c:7-16; syslog.h: LOG_ERR 3, LOG_INFO 6, LOG_DEBUG 7 *)
Definition syslogpri : list Z := [6; 3; 6; 3; 6; 7; 6; 6; 3].

(** the log file (it is written at its end), standard output, what went to syslog *)
Record logst := LGS { lg_file : list Z; lg_con : list Z; lg_sys : list (Z * list Z) }.
(** one call: level, category, format, the text for a format with these arguments, the time, and
    handle_nesting *)
Record lcall := LC { lc_level : Z; lc_cat : Z; lc_fmt : list Z; lc_render : list Z -> list Z; lc_tm : tm; lc_nest : Z }.

(** logwrite.c:83-93: the format with blanks before it. [None]: buf[500] overflows *)
Definition indent (nest : Z) (fmt : list Z) : option (list Z) :=
  if (1 <? nest) && (nest + Z.of_nat (length fmt) <? 499) then
    let b := repeat 32 (Z.to_nat (nest - 1)) ++ fmt in
    if Nat.ltb (length b) 500 then Some b else None
  else Some fmt.
(** logwrite.c:119-126 *)
Definition stamp (letter : Z) (tp : tm) : list Z :=
  letter :: lit " " ++ pad2 (tm_mday tp) ++ lit "-" ++ nth (Z.to_nat (tm_mon tp)) monthnames [] ++ lit "-" ++ pad2 (Z.rem (tm_year tp) 100) ++ lit " " ++
  pad2 (tm_hour tp) ++ lit ":" ++ pad2 (tm_min tp) ++ lit ":" ++ pad2 (tm_sec tp) ++ lit " ".
(** logwrite.c:78-133. [None]: undefined *)
Definition logtext (sys : bool) (c : lcall) (st : logst) : option logst :=
  match lc_fmt c with
  | [] => Some (LGS (lg_file st) (lg_con st ++ [10]) (lg_sys st))
  | _ =>
    match indent (lc_nest c) (lc_fmt c), nth_error categoryletters (Z.to_nat (lc_cat c)), nth_error syslogpri (Z.to_nat (lc_cat c)) with
    | Some fmt, Some letter, Some pri =>
      let text := lc_render c fmt in
      let con := lg_con st ++ text ++ [10] in
      if sys then Some (LGS (lg_file st) con (lg_sys st ++ [(pri, text)]))
      else Some (LGS (lg_file st ++ stamp letter (lc_tm c) ++ text ++ [10]) con (lg_sys st))
    | _, _, _ => None
    end
  end.
(** logwrite.c:75-76: a call for level 0 *)
Definition warning (c : lcall) : lcall := LC 6 DEBUG (lit "*** Warning: Loglevel is 0!!! ***") (fun f => f) (lc_tm c) (lc_nest c).
(** logwrite.c:63-134 LogWrite; [max]: config.cfg_LogLevel *)
Definition LogWrite (max : Z) (sys : bool) (c : lcall) (st : logst) : option logst :=
  if max <? lc_level c then Some st
  else
    match (if lc_level c =? 0 then (if max <? 6 then Some st else logtext sys (warning c) st) else Some st) with
    | None => None
    | Some st => logtext sys c st
    end.
Fixpoint LogWrites (max : Z) (sys : bool) (cs : list lcall) (st : logst) : option logst :=
  match cs with
  | [] => Some st
  | c :: r => match LogWrite max sys c st with None => None | Some st' => LogWrites max sys r st' end
  end.

(** logwrite.c:22-45 OpenLogfile with osfile.c:22-26: whether syslog is used, and the contents of the
    file that is opened. [can]: the file can be opened; [None]: FALSE *)
Definition OpenLogfile (fs : fsys) (name : list Z) (can : bool) : option (bool * fsys * list Z) :=
  if streqi name (lit "syslog") then Some (true, fs, [])
  else if negb can then None
  else match fget fs name with Some s => Some (false, fs, s) | None => Some (false, fput fs name [], []) end.
