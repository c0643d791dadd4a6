(** Dates: specification. *)
From Verif Require Import Base M_Str M_Date.

Definition two (z : Z) : list Z := [48 + z / 10; 48 + z mod 10].
Definition month3 (m : Z) : list Z :=
  firstn 3 (skipn (3 * Z.to_nat m) (lit "JanFebMarAprMayJunJulAugSepOctNovDec")).
(** "01 Jan 91  11:22:33" and "Tue  1 Jan 91 11:22" *)
Definition standard (x : tm) : list Z :=
  two (tm_mday x) ++ lit " " ++ month3 (tm_mon x) ++ lit " " ++ two (tm_year x mod 100) ++ lit "  " ++
  two (tm_hour x) ++ lit ":" ++ two (tm_min x) ++ lit ":" ++ two (tm_sec x).
Definition seadog (wday : list Z) (x : tm) : list Z :=
  wday ++ lit " " ++ (if tm_mday x <? 10 then [32; 48 + tm_mday x] else two (tm_mday x)) ++ lit " " ++ month3 (tm_mon x) ++ lit " " ++ two (tm_year x mod 100) ++ lit " " ++
  two (tm_hour x) ++ lit ":" ++ two (tm_min x).

(** the fields are in their ranges *)
Definition fields (x : tm) : Prop :=
  0 <= tm_sec x <= 60 /\ 0 <= tm_min x < 60 /\ 0 <= tm_hour x < 24 /\ 1 <= tm_mday x <= 31 /\ 0 <= tm_mon x < 12.
(** from 1980 to 2079 *)
Definition inrange (x : tm) : Prop := fields x /\ 80 <= tm_year x < 180.

(** What the system has to do, in any time zone: local times from 1980 to 2079 have fields in
    their ranges, and mktime gives a time with the local time asked for, if there is one. *)
Definition zone_ok (localtime : Z -> tm) (mktime : tm -> Z) : Prop :=
  forall t, 80 <= tm_year (localtime t) < 180 -> fields (localtime t) /\ mktime (localtime t) <> -1 /\ localtime (mktime (localtime t)) = localtime t.
