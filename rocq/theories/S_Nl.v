(** Specification of nodelists: what the lines say, independent of how they are read. *)
From Verif Require Import Base M_Node4D.

(** What a line can be. A node is listed by Pvt, Hold or nothing in front of the comma. *)
Inductive kind := KZone | KRegion | KHost | KHub | KNode | KPoint.
Definition keywords : list (list Z * kind) :=
  [(lit "zone,", KZone); (lit "region,", KRegion); (lit "host,", KHost); (lit "hub,", KHub);
   (lit "pvt,", KNode); (lit "hold,", KNode); (lit ",", KNode); (lit "point,", KPoint)].
(** the line is the keyword, in upper or lower case, and the number behind it is n *)
Definition says (l : list Z) (k : kind) (n : Z) : Prop :=
  exists w p r, In (w, k) keywords /\ l = p ++ r /\ map tolower p = w /\ n = u16 (atoi r).
(** the same as a function (says_iff in T_Nl) *)
Fixpoint kindof_in (ks : list (list Z * kind)) (l : list Z) : option (kind * Z) :=
  match ks with
  | [] => None
  | (w, k) :: r => if streq (map tolower (firstn (length w) l)) w then Some (k, u16 (atoi (skipn (length w) l))) else kindof_in r l
  end.
Definition kindof : list Z -> option (kind * Z) := kindof_in keywords.

(** Where a line stands: given what the lines up to it say, the last one first. Each number is
    set by the latest line that has something to say about it. *)
Definition latest (f : kind -> Z -> option Z) (d : Z) (h : list (kind * Z)) : Z :=
  match find (fun kn => if f (fst kn) (snd kn) then true else false) h with
  | Some (k, n) => match f k n with Some v => v | None => d end
  | None => d
  end.
Definition zone_at (defzone : Z) := latest (fun k n => match k with KZone => Some n | _ => None end) defzone.
Definition region_at := latest (fun k n => match k with KZone => Some 0 | KRegion => Some n | _ => None end) 0.
Definition net_at := latest (fun k n => match k with KZone | KRegion | KHost => Some n | _ => None end) 0.
Definition hub_at := latest (fun k n => match k with KZone | KRegion | KHost => Some 0 | KHub => Some n | _ => None end) 0.
Definition node_at := latest (fun k n => match k with KZone | KRegion | KHost => Some 0 | KHub | KNode => Some n | _ => None end) 0.
Definition point_at := latest (fun k n => match k with KPoint => Some n | _ => Some 0 end) 0.

(** what the lines of a list say, the last one first *)
Definition history (ls : list (list Z)) : list (kind * Z) :=
  rev (flat_map (fun l => match kindof l with Some x => [x] | None => [] end) ls).
Record entry := EN { e_node : node4d; e_region : Z; e_hub : Z; e_list : list Z; e_line : list Z }.
(** the entries of a list, in order: one for each line that lists something *)
Definition entries (name : list Z) (defzone : Z) (ls : list (list Z)) : list entry :=
  flat_map (fun i =>
    let l := nth i ls [] in
    let h := history (firstn (S i) ls) in
    match kindof l with
    | Some _ => [EN (N4 (zone_at defzone h) (net_at h) (node_at h) (point_at h)) (region_at h) (hub_at h) name l]
    | None => []
    end) (seq 0 (length ls)).

(** a nodelist as lines of at most 498 characters, without NUL; the last may lack its line
    feed *)
Record nlist := NL { n_name : list Z; n_zone : Z; n_lines : list (list Z); n_tail : list Z }.
Definition content (n : nlist) : list Z := concat (map (fun l => l ++ [10]) (n_lines n)) ++ n_tail n.
Definition goodline (l : list Z) : Prop := Forall (fun c => 1 <= c < 256 /\ c <> 10) l /\ (length l <= 498)%nat.
Definition goodlist (n : nlist) : Prop :=
  cstring (n_name n) /\ (length (n_name n) <= 99)%nat /\ is_u16 (n_zone n) /\ Forall goodline (n_lines n) /\ goodline (n_tail n) /\
  Z.of_nat (length (content n)) < 4294967295.
Definition all_lines (n : nlist) : list (list Z) := n_lines n ++ match n_tail n with [] => [] | t => [t] end.
Definition all_entries (L : list nlist) : list entry := flat_map (fun n => entries (n_name n) (n_zone n) (all_lines n)) L.
(** the first entry for an address *)
Definition same4 (a b : node4d) : bool := (zone a =? zone b) && (net a =? net b) && (node a =? node b) && (point a =? point b).
Definition first_entry (L : list nlist) (a : node4d) : option entry := find (fun e => same4 a (e_node e)) (all_entries L).
(** the carriage return in front of the line feed belongs to the end of the line *)
Definition nocr (l : list Z) : list Z := if last l 0 =? 13 then removelast l else l.

(** ** The file cmnodelist.prefs *)
(** a line: a comment, an empty line, or the name of a list, with its zone perhaps *)
Inductive prefline := PLComment (t : list Z) | PLEmpty | PLList (name : list Z) (zone : option Z).
Definition preftext (l : prefline) : list Z :=
  match l with
  | PLComment t => lit ";" ++ t
  | PLEmpty => []
  | PLList name None => name
  | PLList name (Some z) => name ++ lit " " ++ dec z
  end.
Definition prefline_ok (l : prefline) : Prop :=
  match l with
  | PLComment t => cstring t /\ ~ In 10 t /\ (length t <= 197)%nat
  | PLEmpty => True
  | PLList name z =>
    name <> [] /\ (length name <= 99)%nat /\ hd 0 name <> 59 /\
    cstring name /\ Forall (fun c => c <> 32 /\ c <> 9 /\ c <> 10 /\ c <> 13 /\ c <> 92 /\ c <> 34) name /\
    match z with Some z => is_u16 z | None => True end
  end.
Definition prefsfile (ls : list prefline) : list Z := concat (map (fun l => preftext l ++ [10]) ls).
(** the lists it names, with their zones *)
Definition preflists (ls : list prefline) : list (list Z * Z) :=
  flat_map (fun l => match l with PLList n z => [(n, match z with Some z => z | None => 0 end)] | _ => [] end) ls.
