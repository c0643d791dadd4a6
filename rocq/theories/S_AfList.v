(** Specification of what AreaFix sends: how a long answer is divided into messages, and
    what the lists of areas contain. *)
From Coq Require Import Permutation Sorted.
From Verif Require Import Base M_Node4D M_Str M_Mem M_Pat M_Cfg M_Filter M_Echo M_Areafix M_AfList M_List S_List.

(** ** An answer in several messages *)
(** the addresses of netmail in its text: points, and zones if they differ or if asked for *)
Definition addressing (forceintl : bool) (o d : node4d) : list Z :=
  (if point o =? 0 then [] else 1 :: lit "FMPT " ++ dec (point o) ++ [13]) ++
  (if point d =? 0 then [] else 1 :: lit "TOPT " ++ dec (point d) ++ [13]) ++
  (if (zone o =? zone d) && negb forceintl then [] else
     1 :: lit "INTL " ++ dec (zone d) ++ lit ":" ++ dec (net d) ++ lit "/" ++ dec (node d) ++ lit " " ++
     dec (zone o) ++ lit ":" ++ dec (net o) ++ lit "/" ++ dec (node o) ++ [13]).
Definition crs (ls : list (list Z)) : list Z := concat (map (fun l => l ++ [13]) ls).
Definition from_previous : list Z := lit "(Continued from previous message)" ++ [13; 13].
Definition in_next : list Z := 13 :: lit "(Continued in next message)" ++ [13].
(** message [k] (from 0) of [n], with the lines [p] *)
Record is_part (forceintl : bool) (fromname : list Z) (o : node4d) (toname : list Z) (d : node4d) (subject : list Z) (date : nat -> list Z) (n k : nat) (p : list (list Z)) (m : memmsg) : Prop := {
  ip_from : From m = fromname /\ OrigNode m = o;
  ip_to : To m = toname /\ DestNode m = d;
  ip_net : Area m = [];
  ip_auto : flag (Flags m) MMFLAG_AUTOGEN = true;
  ip_date : DateTime m = date k;
  ip_subject : Subject m = match k with O => subject | _ => subject ++ lit " (part " ++ dec (Z.of_nat k + 1) ++ lit ")" end;
  ip_text : mmtext m = addressing forceintl o d ++ (match k with O => [] | _ => from_previous end) ++ crs p ++ (if Nat.eqb (S k) n then [] else in_next) }.
(** the lines of message [k] of [n] with the two lines each of the marks above and below *)
Definition height (n k : nat) (p : list (list Z)) : Z :=
  Z.of_nat (length p) + (match k with O => 0 | _ => 2 end) + (if Nat.eqb (S k) n then 0 else 2).
(** the lines [ls] were sent in the messages [ms], in order and completely; no message is
    higher than [max] lines (five at least), and none but the last is lower. 0 stands for
    no limit, and so does 1. *)
Definition answer (max : Z) (forceintl : bool) fromname o toname d subject date (ls : list (list Z)) (ms : list memmsg) : Prop :=
  exists parts, concat parts = ls /\ length parts = length ms /\
    (forall k p m, nth_error parts k = Some p -> nth_error ms k = Some m -> is_part forceintl fromname o toname d subject date (length ms) k p m) /\
    (max = 0 \/ max = 1 -> length ms = 1%nat) /\
    (2 <= max -> forall k p, nth_error parts k = Some p ->
       height (length ms) k p <= Z.max 5 max /\ (5 <= max -> S k <> length ms -> height (length ms) k p = max)).
(** HandleMessage leaves the addresses and names in the message (it may add lines) *)
Definition keeps_header (handle : list memmsg -> memmsg -> memmsg) : Prop :=
  forall l m, let m' := handle l m in
    From m' = From m /\ To m' = To m /\ OrigNode m' = OrigNode m /\ DestNode m' = DestNode m /\ Area m' = Area m.

(** ** The lists *)
(** what the list says about an area *)
Record row := Row { w_tag : list Z; w_desc : list Z; w_group : Z; w_linked : bool; w_feed : bool; w_kb : list Z }.

Definition islinked (i : nat) (a : larea) : bool := existsb (fun t => Nat.eqb (tn_node t) i) (ar_tn (la_ar a)).
(** node [i] feeds the area *)
Definition feeds (i : nat) (a : larea) : bool := existsb (fun t => Nat.eqb (tn_node t) i && Z.testbit (tn_flags t) 2) (ar_tn (la_ar a)).
Definition allowed (c : cnode) (g : Z) : bool := existsb (Z.eqb g) (cn_groups c ++ cn_rogroups c).
Definition sees (t : sltype) (c : cnode) (i : nat) (a : larea) : bool :=
  (ar_type (la_ar a) =? AREATYPE_ECHOMAIL) &&
  match t with
  | LQuery => islinked i a
  | LUnlinked => negb (islinked i a) && allowed c (ar_group (la_ar a))
  | LFull => islinked i a || allowed c (ar_group (la_ar a))
  end.
(** the daily average over the last seven days, or since the first message if that is less;
    over the whole life of the area if nothing came. Today does not count. *)
Definition traffic (day : Z) (a : larea) : list Z :=
  if (la_first a =? 0) || (day =? 0) then lit "?" else
  let age := day - la_first a / 86400 in
  let seven := fold_right Z.add 0 (firstn (Z.to_nat (Z.min 7 age)) (tl (la_last8 a))) in
  dec (if (seven =? 0) && negb (la_texts a =? 0) then la_texts a / Z.max 1 age else seven / Z.max 1 (Z.min 7 age)).
Definition localrow (day : Z) (i : nat) (a : larea) : row :=
  Row (ar_tag (la_ar a)) (la_desc a) (ar_group (la_ar a)) (islinked i a) (feeds i a) (traffic day a).

(** a line of a list of areas of another system: the tag, blanks, the description. A
    character outside 33..127 counts as a blank. *)
Definition visible (c : Z) : bool := (33 <=? c) && (c <=? 127).
Fixpoint spanning (f : Z -> bool) (l : list Z) : list Z * list Z :=
  match l with
  | c :: r => if f c then (c :: fst (spanning f r), snd (spanning f r)) else ([], l)
  | [] => ([], [])
  end.
Definition linetag (l : list Z) : list Z := fst (spanning visible l).
Definition linedesc (l : list Z) : list Z :=
  firstn 77 (fst (spanning (fun c => negb ((c =? 10) || (c =? 13))) (snd (spanning (fun c => negb (visible c)) (snd (spanning visible l)))))).
Definition fwdrow (al : alist) (l : list Z) : row :=
  Row (linetag l) (if Z.testbit (al_flags al) 0 then linedesc l else []) (al_group al) false false (lit "?").
(** lists node [c] may request areas from *)
Definition requestable (c : cnode) (al : alist) : bool := Z.testbit (al_flags al) 1 && existsb (Z.eqb (al_group al)) (cn_groups c).
Definition offered (al : alist) : list row :=
  match al_lines al with
  | Some ls => filter (fun w => match w_tag w with [] => false | _ => true end) (map (fwdrow al) ls)
  | None => []
  end.
(** those not known yet; the first of several with one tag *)
Fixpoint unknown (known : list (list Z)) (ws : list row) : list row :=
  match ws with
  | [] => []
  | w :: r => if existsb (streqi (w_tag w)) known then unknown known r else w :: unknown (w_tag w :: known) r
  end.
Definition forwarded (cfg : afcfg) (areas : list larea) (t : sltype) (c : cnode) : list row :=
  if Z.testbit (fc_flags cfg) 23 && Z.testbit (cn_flags c) 4 && match t with LQuery => false | _ => true end then
    unknown (map (fun a => ar_tag (la_ar a)) areas) (concat (map offered (filter (requestable c) (fc_alists cfg))))
  else [].
(** everything the list is to contain *)
Definition contents cfg day areas t c i : list row :=
  map (localrow day i) (filter (sees t c i) areas) ++ forwarded cfg areas t c.

(** ** The text of a list *)
Definition column (n : nat) (s : list Z) : list Z := firstn n (s ++ repeat 32 n).
Definition rightcol (n : nat) (s : list Z) : list Z := repeat 32 (n - length s) ++ firstn n s.
Definition signof (t : sltype) (w : row) : list Z :=
  if w_feed w then lit "%" else match t with LFull => if w_linked w then lit "*" else lit " " | _ => lit " " end.
Definition rowtext (t : sltype) (w : row) : list (list Z) :=
  let cols tag := column 28 tag ++ lit "  " ++ column 33 (w_desc w) ++ lit "  " ++ rightcol 8 (w_kb w) in
  if (length (w_tag w) <=? 28)%nat then [signof t w ++ cols (w_tag w)]
  else [signof t w ++ column 70 (w_tag w); lit " " ++ cols []].
Definition titleof (names : list (list Z)) (g : Z) : list Z := if g =? 0 then lit "<No group>" else nth (Z.to_nat (g - 65)) names [].
Definition grouptext (names : list (list Z)) (t : sltype) (g : Z * list row) : list (list Z) :=
  [lit " Group: " ++ titleof names (fst g); [];
   lit " Tagname                       Description                         KB/week";
   lit " ----------------------------  ---------------------------------   -------"] ++ concat (map (rowtext t) (snd g)).
Fixpoint blanklines (l : list (list (list Z))) : list (list Z) :=
  match l with [] => [] | [x] => x | x :: r => x ++ [[]] ++ blanklines r end.
Definition adr (n : node4d) : list Z := dec (zone n) ++ lit ":" ++ dec (net n) ++ lit "/" ++ dec (node n) ++ lit "." ++ dec (point n).
Definition num (n : nat) : list Z := dec (Z.of_nat n).
Definition listtext (names : list (list Z)) (t : sltype) (from : node4d) (gs : list (Z * list row)) : list (list Z) :=
  let ws := concat (map snd gs) in
  [lit "This is a list of all " ++ (match t with LQuery => lit "connected" | LFull => lit "available" | LUnlinked => lit "unlinked" end) ++
   lit " areas at " ++ adr from ++ lit ":"; []] ++
  blanklines (map (grouptext names t) gs) ++
  match t with
  | LQuery => [13 :: num (length ws) ++ lit " linked areas."; lit "A '%' means that you are the feed for the area."]
  | LUnlinked => [13 :: num (length ws) ++ lit " unlinked areas."]
  | LFull => [13 :: lit "Totally " ++ num (length ws) ++ lit " areas, you are connected to " ++ num (length (filter w_linked ws)) ++ lit " of them.";
              lit "A '*' means that you are connected to the area."; lit "A '%' means that you are the feed for the area."]
  end.
(** groups in the order of their letters, areas in the order of their names *)
Definition arranged (gs : list (Z * list row)) : Prop :=
  StronglySorted Z.lt (map fst gs) /\
  Forall (fun g => snd g <> [] /\ Forall (fun w => w_group w = fst g) (snd g) /\ StronglySorted (fun a b => name_le (w_tag a) (w_tag b)) (snd g)) gs.
(** what the standard promises about qsort, if the comparison is one *)
Definition sorts {A} (qsort : (A -> A -> Z) -> list A -> list A) : Prop :=
  forall cmp l, (forall a b, In a l -> In b l -> cmp a b <= 0 <-> cmp b a >= 0) ->
    (forall a b c, In a l -> In b l -> In c l -> cmp a b <= 0 -> cmp b c <= 0 -> cmp a c <= 0) ->
    Permutation (qsort cmp l) l /\ StronglySorted (fun a b => cmp a b <= 0) (qsort cmp l).

(** ** Sound configurations *)
Definition group_ok (g : Z) : Prop := g = 0 \/ 65 <= g < 91.
Record area_fine (day : Z) (i : nat) (a : larea) : Prop := {
  lf_tag : cstring (ar_tag (la_ar a)); lf_group : group_ok (ar_group (la_ar a));
  (** a node is in the list of an area once *)
  lf_once : (length (filter (fun t => Nat.eqb (tn_node t) i) (ar_tn (la_ar a))) <= 1)%nat;
  lf_texts : 0 <= la_texts a < 2147483648;
  lf_last8 : Forall (fun x => 0 <= x < 65536) (la_last8 a);
  lf_first : 0 <= la_first a; lf_age : la_first a <> 0 -> day <> 0 -> 0 <= day - la_first a / 86400 < 2147483648 }.
Record setup_fine (names : list (list Z)) (cfg : afcfg) (day : Z) (areas : list larea) (i : nat) : Prop := {
  sf_areas : Forall (area_fine day i) areas;
  sf_names : Forall (fun n => (length n <= 79)%nat) names;
  sf_lists : Forall (fun al => group_ok (al_group al) /\ match al_lines al with Some ls => Forall cstring ls | None => True end) (fc_alists cfg) }.
(** the help file: lines of at most 98 characters with their line ends *)
Definition helpline (l : list Z) : Prop := Forall (fun c => 1 <= c < 256 /\ c <> 10 /\ c <> 13) l /\ (length l <= 98)%nat /\ hd 0 l <> 1.
Definition lines_lf (ls : list (list Z)) : list Z := concat (map (fun l => l ++ [10]) ls).

(** ** Requests to other systems *)
(** the message with the commands [cmds] for the AreaFix of node [c] *)
Record is_request (tid forceintl : bool) (sysop : list Z) (o : node4d) (c : cnode) (cmds : list (list Z)) (m : memmsg) : Prop := {
  iq_from : From m = sysop /\ OrigNode m = o;
  iq_to : To m = cn_rafname c /\ DestNode m = cn_node c /\ Area m = [];
  iq_pw : Subject m = cn_rafpw c;
  iq_text : mmtext m = addressing forceintl o (cn_node c) ++ (if tid then 1 :: lit "TID: CrashMail II/Linux 1.5.1" ++ [13] else []) ++
                       crs cmds ++ lit "---" ++ [13] ++ lit "Generated by CrashMail 1.5.1" ++ [13] }.
