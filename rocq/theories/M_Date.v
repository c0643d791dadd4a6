(** Model of MakeFidoDate and FidoToTime of src/crashmail/misc.c, and of the time zone tricks
    of src/crashmail/mb_jam.c. localtime, gmtime, mktime and time belong to the system: they
    are arguments. localtime never fails here. *)
From Verif Require Import Base M_Str M_Mem.

(** struct tm; tm_wday, tm_yday and tm_isdst (-1) say nothing *)
Record tm := TM { tm_sec : Z; tm_min : Z; tm_hour : Z; tm_mday : Z; tm_mon : Z; tm_year : Z }.

(** sprintf "%02d" of a number that is not negative *)
Definition pad2 (z : Z) : list Z := if (length (dec z) <? 2)%nat then 48 :: dec z else dec z.
(** misc.c:343 *)
Definition monthnames : list (list Z) :=
  [lit "Jan"; lit "Feb"; lit "Mar"; lit "Apr"; lit "May"; lit "Jun"; lit "Jul"; lit "Aug"; lit "Sep"; lit "Oct"; lit "Nov"; lit "Dec"; lit "???"].
(** misc.c:339-356; crashmaint.c:148 and crashwrite.c:80 have the same *)
Definition MakeFidoDate (localtime : Z -> tm) (t : Z) : list Z :=
  let tp := localtime t in
  pad2 (tm_mday tp) ++ lit " " ++ nth (Z.to_nat (tm_mon tp)) monthnames [] ++ lit " " ++ pad2 (Z.rem (tm_year tp) 100) ++ lit "  " ++
  pad2 (tm_hour tp) ++ lit ":" ++ pad2 (tm_min tp) ++ lit ":" ++ pad2 (tm_sec tp).

(** the text from byte i of a buffer on; [None]: it does not end in the buffer *)
Fixpoint upto0 (l : list Z) : option (list Z) :=
  match l with
  | [] => None
  | c :: r => if c =? 0 then Some [] else match upto0 r with Some s => Some (c :: s) | None => None end
  end.
(** atoi(&date[i]); [None]: undefined *)
Definition atoiat (date : list Z) (i : nat) : option Z :=
  match upto0 (skipn i date) with
  | Some s => if (-2147483648 <=? atoi s) && (atoi s <? 2147483648) then Some (atoi s) else None
  | None => None
  end.
(** for(month=0;month<12;month++) if(strnicmp(mo[month],&date[i],3)==0) break; *)
Definition monthat (date : list Z) (i : nat) : option Z :=
  match find (fun m => strneqi 3 (nth m monthnames []) (cstr (skipn i date))) (seq 0 12) with
  | Some m => Some (Z.of_nat m)
  | None => None
  end.
Definition century (y : Z) : Z := if y <? 80 then y + 100 else y.
(** misc.c:486-556; date is the buffer of 20 bytes *)
Definition FidoToTime (mktime : tm -> Z) (now : Z) (date : list Z) : option Z :=
  let '(m, fs) :=
    if (nth 2 date 0 =? 32) && (nth 6 date 0 =? 32) then
      (monthat date 3,
       (do s <- atoiat date 17; do mi <- atoiat date 14; do h <- atoiat date 11; do d <- atoiat date 0; do y <- atoiat date 7; Some (s, mi, h, d, y)))
    else
      (monthat date 7,
       (do mi <- atoiat date 17; do h <- atoiat date 14; do d <- atoiat date 4; do y <- atoiat date 11; Some (0, mi, h, d, y))) in
  match m with
  | None => Some now
  | Some m =>
    match fs with
    | None => None
    | Some (s, mi, h, d, y) =>
      let t := mktime (TM s mi h d m (century y)) in
      Some (if t =? -1 then now else t)
    end
  end.

(** ** JAM *)
(** mb_jam.c:204-209 jam_utcoffset, at the time t1 *)
Definition utcoffset (gmtime : Z -> tm) (mktime : tm -> Z) (t1 : Z) : Z := mktime (gmtime t1) - t1.
(** mb_jam.c:349-353, Header_S.DateWritten *)
Definition jam_written (off t : Z) : Z := u32 (u32 t - off).
(** mb_jam.c:852 *)
Definition jam_date (localtime : Z -> tm) (off written : Z) : list Z := MakeFidoDate localtime (written + off).

(** ** A system: the Gregorian calendar at a fixed offset from UTC *)
Definition leapyear (y : Z) : bool := (y mod 4 =? 0) && (negb (y mod 100 =? 0) || (y mod 400 =? 0)).
Definition monthlen (y m : Z) : Z :=
  if m =? 1 then (if leapyear y then 29 else 28) else if (m =? 3) || (m =? 5) || (m =? 8) || (m =? 10) then 30 else 31.
(** days of the year before month m *)
Definition monthstart (y m : Z) : Z :=
  nth (Z.to_nat m) [0; 31; 59; 90; 120; 151; 181; 212; 243; 273; 304; 334] 0 + (if (2 <=? m) && leapyear y then 1 else 0).
(** days from 1970-01-01 to the first of January *)
Definition yearstart (y : Z) : Z := 365 * y + (y - 1) / 4 - (y - 1) / 100 + (y - 1) / 400 - 719527.
Definition daysto (y m d : Z) : Z := yearstart y + monthstart y m + (d - 1).
Definition yearof (n : Z) : Z :=
  let y := (400 * n) / 146097 + 1970 in
  if n <? yearstart y then y - 1 else if yearstart (y + 1) <=? n then y + 1 else y.
Definition monthof (y k : Z) : Z :=
  match find (fun m => k <? monthstart y (Z.of_nat (S m))) (seq 0 11) with Some m => Z.of_nat m | None => 11 end.
Definition sys_localtime (off t : Z) : tm :=
  let n := (t + off) / 86400 in
  let s := (t + off) mod 86400 in
  let y := yearof n in
  let k := n - yearstart y in
  let m := monthof y k in
  TM (s mod 60) (s / 60 mod 60) (s / 3600) (k - monthstart y m + 1) m (y - 1900).
(** months 0 to 11 *)
Definition sys_mktime (off : Z) (x : tm) : Z :=
  86400 * daysto (tm_year x + 1900) (tm_mon x) (tm_mday x) + 3600 * tm_hour x + 60 * tm_min x + tm_sec x - off.
