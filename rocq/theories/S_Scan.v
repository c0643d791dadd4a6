(** Which areas a scan should export, and what a scan that obeys this looks like. *)
From Coq Require Import Sorted.
From Verif Require Import Base M_Str M_Cfg M_Scan.

(** Areas with a message base that can be exported, of type echomail, or netmail unless
    NOEXPORTNETMAIL is given *)
Definition scannable (flags : Z) (a : sarea) : Prop :=
  sa_mb a = Some true /\
  (sa_type a = AREATYPE_ECHOMAIL \/ (sa_type a = AREATYPE_NETMAIL /\ flag flags CFG_NOEXPORTNETMAIL = false)).

(** [W]: the places of the areas to be exported, in this order. The events and the result
    of a scan: nothing is exported if the preparations fail; otherwise the areas are exported
    in order until one fails or the user interrupts, the work is concluded exactly once, as a
    success exactly if all areas were exported successfully and without interruption. *)
Definition performs (ok : list nat -> nat -> bool) (ctrlc : nat -> bool) (before : bool) (W : list nat) (ev : list sev) (ret : bool) : Prop :=
  if before then
    exists k, (k <= length W)%nat /\
      ev = SBegin true :: map SExport (firstn k W) ++ [SEnd ret] /\
      (forall j, (S j < k)%nat -> ok (firstn j W) (nth j W O) = true) /\
      if ret then k = length W /\ (forall j, (j < k)%nat -> ok (firstn j W) (nth j W O) = true)
      else (exists j, k = S j /\ ok (firstn j W) (nth j W O) = false) \/ (exists n, ctrlc n = true)
  else ev = [SBegin false] /\ ret = false.

(** [W]: exactly the scannable areas, in the order of the configuration *)
Definition all_scannable (flags : Z) (areas : list sarea) (W : list nat) : Prop :=
  StronglySorted lt W /\ forall n, In n W <-> (n < length areas)%nat /\ scannable flags (nth n areas noarea).
(** [W]: the scannable ones among [ks] *)
Inductive only_scannable (flags : Z) (areas : list sarea) : list nat -> list nat -> Prop :=
| only_nil : only_scannable flags areas [] []
| only_yes k ks W : scannable flags (nth k areas noarea) -> only_scannable flags areas ks W -> only_scannable flags areas (k :: ks) (k :: W)
| only_no k ks W : ~ scannable flags (nth k areas noarea) -> only_scannable flags areas ks W -> only_scannable flags areas (k :: ks) W.

(** A line of a file with names: the name, then blanks, tabs or a carriage return *)
Record nline := NLI { nl_name : list Z; nl_rest : list Z }.
Definition blanks (s : list Z) : Prop := Forall (fun c => 1 <= c < 33 /\ c <> 10) s.
(** an empty line, or a name that ends with a visible ASCII character; at most 98 characters *)
Definition nline_ok (l : nline) : Prop :=
  cstring (nl_name l) /\ ~ In 10 (nl_name l) /\ blanks (nl_rest l) /\
  (nl_name l = [] \/ 33 <= last (nl_name l) 0 < 128) /\ (length (nl_name l) + length (nl_rest l) <= 98)%nat.
Definition nfile (ls : list nline) : list Z := concat (map (fun l => nl_name l ++ nl_rest l ++ [10]) ls).

(** each the first time only *)
Fixpoint firsts (l : list nat) : list nat :=
  match l with
  | [] => []
  | x :: r => x :: filter (fun y => negb (Nat.eqb y x)) (firsts r)
  end.
(** the first area whose [key] is the name, upper and lower case being the same *)
Definition named (key : sarea -> list Z) (areas : list sarea) (name : list Z) (k : nat) : Prop :=
  (k < length areas)%nat /\ streqi (key (nth k areas noarea)) name = true /\
  forall j, (j < k)%nat -> streqi (key (nth j areas noarea)) name = false.
(** [ks]: what the lines name, line by line *)
Inductive names (key : sarea -> list Z) (areas : list sarea) : list (list Z) -> list nat -> Prop :=
| names_nil : names key areas [] []
| names_empty ls ks : names key areas ls ks -> names key areas ([] :: ls) ks
| names_unknown l ls ks : l <> [] -> (forall k, ~ named key areas l k) -> names key areas ls ks -> names key areas (l :: ls) ks
| names_area l ls k ks : l <> [] -> named key areas l k -> names key areas ls ks -> names key areas (l :: ls) (k :: ks).

(** A line of a file with paths: the path, then blanks, or a space and anything *)
Definition jline_ok (l : nline) : Prop :=
  cstring (nl_name l) /\ ~ In 10 (nl_name l) /\ ~ In 32 (nl_name l) /\ nl_name l <> [] /\ 33 <= last (nl_name l) 0 < 128 /\
  (blanks (nl_rest l) \/ exists t, nl_rest l = 32 :: t /\ cstring t /\ ~ In 10 t) /\
  (length (nl_name l) + length (nl_rest l) <= 98)%nat.
