(** Specification of the files and the command line an external filter command gets. *)
From Verif Require Import Base M_Node4D M_Mem M_Cfg M_Pkt M_Filter S_Filter M_Rfc.

(** a text file of these lines *)
Definition textfile (ls : list (list Z)) : list Z := concat (map (fun l => l ++ [10]) ls).

(** ** Addresses *)
(** zone 0 stands for any zone *)
Definition same_node (a b : node4d) : Prop := net a = net b /\ node a = node b /\ point a = point b /\ (zone a = zone b \/ zone a = 0 \/ zone b = 0).
(** the domain of the own address the message is for; FidoNet if it is for another system or
    the address has no domain *)
Inductive domain_for (akas : list aka) (dest : node4d) : list Z -> Prop :=
| df_own l1 a l2 : akas = l1 ++ a :: l2 -> same_node dest (ak_node a) -> (forall b, In b l1 -> ~ same_node dest (ak_node b)) -> ak_domain a <> [] -> domain_for akas dest (ak_domain a)
| df_none l1 a l2 : akas = l1 ++ a :: l2 -> same_node dest (ak_node a) -> (forall b, In b l1 -> ~ same_node dest (ak_node b)) -> ak_domain a = [] -> domain_for akas dest (lit "FidoNet")
| df_other : (forall a, In a akas -> ~ same_node dest (ak_node a)) -> domain_for akas dest (lit "FidoNet").
(** Zone:Net/Node.Point@domain *)
Definition fido_addr (n : node4d) (d : list Z) : list Z :=
  dec (zone n) ++ lit ":" ++ dec (net n) ++ lit "/" ++ dec (node n) ++ lit "." ++ dec (point n) ++ lit "@" ++ d.
(** First_Last@p1.f2.n3.z4.domain, all small; fidonet is fidonet.org *)
Definition under (name : list Z) : list Z := map (fun c => if c =? 32 then 95 else c) name.
Definition inet_domain (d : list Z) : list Z := if list_eq_dec Z.eq_dec (map tolower d) (lit "fidonet") then lit "fidonet.org" else map tolower d.
Definition inet_addr (name : list Z) (n : node4d) (d : list Z) : list Z :=
  under name ++ lit "@" ++ (if point n =? 0 then [] else lit "p" ++ dec (point n) ++ lit ".") ++
  lit "f" ++ dec (node n) ++ lit ".n" ++ dec (net n) ++ lit ".z" ++ dec (zone n) ++ lit "." ++ inet_domain d.
Definition address (inet : bool) (name : list Z) (n : node4d) (d : list Z) : list Z := if inet then inet_addr name n d else fido_addr n d.

(** ** The message as a text file *)
Definition headers (inet : bool) (d : list Z) (mm : memmsg) : list (list Z) :=
  [lit "From: " ++ address inet (From mm) (OrigNode mm) d ++ lit " (" ++ From mm ++ lit ")";
   lit "To: " ++ address inet (To mm) (DestNode mm) d ++ lit " (" ++ To mm ++ lit ")";
   lit "Subject: " ++ Subject mm;
   lit "Date: " ++ DateTime mm] ++
  (match MSGID mm with [] => [] | m => [lit "Message-ID: <" ++ m ++ lit ">"] end) ++
  (match REPLY mm with [] => [] | m => [lit "References: <" ++ m ++ lit ">"] end).
(** the lines of the text, without their CR *)
Definition lines_of (mm : memmsg) (ls : list (list Z)) : Prop :=
  exists lss, wholelines (rev (TextChunks mm)) lss /\ concat lss = map (fun l => l ++ [13]) ls.
(** control lines begin with ^A *)
Definition control (l : list Z) : bool := match l with c :: _ => c =? 1 | [] => false end.
Definition control_lines (ls : list (list Z)) : list (list Z) := filter (fun l => match l with [_] => false | _ => true end) (filter control ls).
Definition text_lines (ls : list (list Z)) : list (list Z) := filter (fun l => negb (control l)) ls.
Definition as_header (l : list Z) : list Z := lit "X-Fido-" ++ tl l.
(** long lines are broken into pieces of at most 78 characters, at a blank, which is left
    out, or where there is none in 78 characters behind the first *)
Inductive broken : list Z -> list (list Z) -> Prop :=
| br_whole l : (length l <= 78)%nat -> broken l [l]
| br_blank a b r : (length a <= 77)%nat -> broken b r -> broken (a ++ 32 :: b) (a :: r)
| br_hard a b r : length a = 78%nat -> ~ In 32 (tl a) -> broken b r -> broken (a ++ b) (a :: r).
Definition broken_line (l : list Z) (ps : list (list Z)) : Prop := broken l ps /\ ((length l <= 77)%nat -> ps = [l]).

(** ** The command line *)
(** what stands for %x *)
Definition letters (mm : memmsg) (fr fR fm : list Z) : list (list Z * list Z) :=
  [(lit "a", Area mm); (lit "r", fr); (lit "R", fR); (lit "mM", fm); (lit "sS", Subject mm); (lit "xX", DateTime mm); (lit "fF", From mm); (lit "tT", To mm);
   (lit "oO", Print4D (match Area mm with [] => OrigNode mm | _ => Origin4D mm end)); (lit "dD", Print4D (DestNode mm))].
Inductive expanded (tab : list (list Z * list Z)) : list Z -> list Z -> Prop :=
| ex_end : expanded tab [] []
| ex_percent : expanded tab [37] [37]
| ex_char c r o : c <> 37 -> expanded tab r o -> expanded tab (c :: r) (c :: o)
| ex_letter x r o cs t : In (cs, t) tab -> In x cs -> expanded tab r o -> expanded tab (37 :: x :: r) (t ++ o)
| ex_other x r o : (forall cs t, In (cs, t) tab -> ~ In x cs) -> expanded tab r o -> expanded tab (37 :: x :: r) (x :: o).
(** %x occurs in the command *)
Definition mentions (x : Z) (cmd : list Z) : Prop := exists a b, cmd = a ++ 37 :: x :: b.
