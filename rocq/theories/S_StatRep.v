(** What CrashStats is to print about statistics. *)
From Coq Require Import Permutation Sorted.
From Verif Require Import Base M_Node4D M_Stats S_Stats M_Date S_List S_AfList.

(** ** Averages *)
(** messages on the [n] days before the last day of the statistics *)
Definition recent (n : nat) (last8 : list Z) : Z := total (firstn n (skipn 1 last8)).
(** The average of the last seven days, or of the days since the first message if that is not
    so long ago; if there was nothing, that of all days since then. *)
Definition average (day : Z) (last8 : list Z) (texts first : Z) : Z :=
  if (day =? 0) || (first <? 86400) then 0 else
  let age := day - first / 86400 in
  let n := Z.min 7 age in
  let r := recent (Z.to_nat n) last8 in
  if (r =? 0) && negb (texts =? 0) then texts / Z.max 1 age else r / Z.max 1 n.
(** the statistics know no message from their future, and none older than 65535 days *)
Definition aged (day first : Z) : Prop := first = 0 \/ 0 <= day - first / 86400 < 65536.

(** ** Selection and order of areas *)
Definition in_groups (groups : option (list Z)) (a : astat) : Prop :=
  match groups with None => True | Some g => exists c, In c g /\ toupper c = toupper (as_group a) end.
Inductive order := ByName | ByMessages | ByAverage | ByFirst | ByLast | ByDupes.
Definition letter (o : order) : list Z :=
  match o with ByName => lit "a" | ByMessages => lit "t" | ByAverage => lit "m" | ByFirst => lit "d" | ByLast => lit "l" | ByDupes => lit "u" end.
(** [a] may stand in front of [b] *)
Definition before (o : order) (day : Z) (a b : astat) : Prop :=
  match o with
  | ByName => name_le (as_tag a) (as_tag b)
  | ByMessages => as_texts b <= as_texts a
  | ByAverage => average day (as_last8 b) (as_texts b) (as_first b) <= average day (as_last8 a) (as_texts a) (as_first a)
  | ByFirst => as_first b <= as_first a
  | ByLast => as_last b <= as_last a
  | ByDupes => as_dupes b <= as_dupes a
  end.
(** the first of the times that are known *)
Definition first_of (known : Z -> Prop) (t : Z) : Prop :=
  (t = 0 /\ forall x, known x -> x = 0) \/ (known t /\ t <> 0 /\ forall x, known x -> x <> 0 -> t <= x).
Definition node_before (a b : node4d) : Prop :=
  zone a < zone b \/ (zone a = zone b /\ (net a < net b \/ (net a = net b /\ (node a < node b \/ (node a = node b /\ point a <= point b))))).

(** ** The text *)
Definition number (w : nat) (z : Z) : list Z := repeat 32 (w - length (dec z)) ++ dec z.
Definition wide (w : nat) (s : list Z) : list Z := s ++ repeat 32 (w - length s).
Definition daytext (t : tm) : list Z :=
  pad2 (tm_mday t) ++ lit "-" ++ nth (Z.to_nat (tm_mon t)) monthnames [] ++ lit "-" ++ pad2 (Z.rem (tm_year t) 100).
Definition knowndate (lt : Z -> tm) (t : Z) : list Z := if t =? 0 then lit "<Never>" else daytext (lt t).
Definition ruler : list Z := lit "============================================================================" ++ [10].
Definition allareas (rows : list astat) : list Z := lit "Totally in all " ++ dec (Z.of_nat (length rows)) ++ lit " areas".
(** sums of the columns *)
Definition columnsum (rows : list astat) (i : nat) : Z := total (map (fun a => nth i (as_last8 a) 0) rows).
Definition areatable (lt : Z -> tm) (day first : Z) (rows : list astat) : list Z :=
  lit "Area                           First     Last         Msgs  Msgs/day   Dupes" ++ [10] ++ ruler ++
  concat (map (fun a =>
    wide 29 (firstn 30 (as_tag a)) ++ lit " " ++ column 9 (knowndate lt (as_first a)) ++ lit " " ++ column 9 (knowndate lt (as_last a)) ++ lit " " ++
    number 7 (as_texts a) ++ lit "   " ++ number 7 (average day (as_last8 a) (as_texts a) (as_first a)) ++ lit " " ++ number 7 (as_dupes a) ++ [10]) rows) ++
  ruler ++
  wide 42 (allareas rows) ++ lit "         " ++ number 7 (total (map as_texts rows)) ++ lit "   " ++
  number 7 (average day (map (columnsum rows) (seq 0 8)) (total (map as_texts rows)) first) ++ lit " " ++ number 7 (total (map as_dupes rows)) ++ [10].
(** the last seven days *)
Definition daysrow (name : list Z) (ds : list Z) : list Z :=
  column 33 name ++ concat (map (fun d => lit " " ++ number 4 d) ds) ++ lit " : " ++ number 5 (total ds) ++ [10].
Definition daystable (lt : Z -> tm) (day : Z) (rows : list astat) : list Z :=
  column 33 (lit "Area") ++ concat (map (fun i => lit "   " ++ pad2 (tm_mday (lt ((day - Z.of_nat i) * 86400)))) (seq 1 7)) ++ lit "   Total" ++ [10] ++ ruler ++
  concat (map (fun a => daysrow (as_tag a) (skipn 1 (as_last8 a))) rows) ++
  lit "=" ++ ruler ++
  daysrow (allareas rows) (map (columnsum rows) (seq 1 7)).
(** sizes are shown in megabytes, whatever they are *)
Definition megabytes (b : Z) : list Z := dec (b / 1048576) ++ lit " MB".
Definition nodetext (lt : Z -> tm) (n : nstat) : list Z :=
  wide 30 (adr (ns_node n)) ++ lit " Statistics since: " ++
  (if ns_first n =? 0 then lit "<Never>" else
     dec (tm_mday (lt (ns_first n))) ++ lit "-" ++ nth (Z.to_nat (tm_mon (lt (ns_first n)))) monthnames [] ++ lit "-" ++ dec (Z.rem (tm_year (lt (ns_first n))) 100)) ++ [10; 10] ++
  repeat 32 34 ++ lit "Sent netmails: " ++ dec (ns_sentnet n) ++ lit "/" ++ megabytes (ns_sentnetb n) ++ [10] ++
  repeat 32 30 ++ lit "Received netmails: " ++ dec (ns_gotnet n) ++ lit "/" ++ megabytes (ns_gotnetb n) ++ [10] ++
  repeat 32 33 ++ lit "Sent echomails: " ++ dec (ns_sentecho n) ++ lit "/" ++ megabytes (ns_sentechob n) ++ [10] ++
  repeat 32 29 ++ lit "Received echomails: " ++ dec (ns_gotecho n) ++ lit "/" ++ megabytes (ns_gotechob n) ++ [10] ++
  repeat 32 42 ++ lit "Dupes: " ++ dec (ns_dupes n) ++ [10; 10].
Definition nodetable (lt : Z -> tm) (nodes : list nstat) : list Z :=
  [10] ++ lit "Nodes statistics" ++ [10] ++ lit "================" ++ [10] ++ concat (map (nodetext lt) nodes).
Definition report (lt : Z -> tm) (day first : Z) (areas nodes : list Z) : list Z :=
  lit "CrashStats 1.5.1 " ++ [169] ++ lit " 1998,2013 Johan Billing & Robert James Clay" ++ [10; 10] ++
  lit "Statistics from " ++ daytext (lt first) ++ lit " to " ++ daytext (lt (day * 86400)) ++ [10] ++ areas ++ nodes ++ [10].

(** ** Numbers that fit the columns of the program *)
Definition int31 (z : Z) : Prop := 0 <= z < 2147483648.
Record moderate (s : stats) (day : Z) : Prop := {
  mo_day : 8 <= day /\ day * 86400 < 4294967296;
  mo_aged : Forall (fun a => aged day (as_first a)) (st_areas s) /\ Forall (fun n => aged day (ns_first n)) (st_nodes s);
  mo_texts : Forall (fun a => int31 (as_texts a) /\ int31 (as_dupes a)) (st_areas s);
  mo_sums : int31 (total (map as_texts (st_areas s))) /\ int31 (total (map as_dupes (st_areas s))) /\
    forall i, (i < 8)%nat -> columnsum (st_areas s) i < 65536 }.
