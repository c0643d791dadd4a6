(** Specification of the outbound. *)
From Verif Require Import Base M_Node4D S_Node4D M_Pat M_Str M_Mem M_Cfg M_Pkt S_Pkt M_Fs M_Filter M_Out.

(** ** C25: which files belong to a node *)

(** A node is in the foreign domain d: the first route that matches its address uses an
    AKA with domain d, which is not the domain of the first AKA. *)
Definition routed_by (env : oenv) (n : node4d) (r : route) : Prop := exists l1 l2,
  oe_routes env = l1 ++ r :: l2 /\ Compare4DPat (oe_nl env) (rt_pat r) n = 0 /\
  Forall (fun x => Compare4DPat (oe_nl env) (rt_pat x) n <> 0) l1.
Definition main_domain (env : oenv) : list Z := match oe_akas env with a :: _ => ak_domain a | [] => [] end.
Definition foreign (env : oenv) (n : node4d) (d : list Z) : Prop := exists r,
  routed_by env n r /\ d = ak_domain (rt_aka r) /\ d <> [] /\ main_domain env <> [] /\ map tolower d <> map tolower (main_domain env).
(** domains and the outbound as the configuration file allows them *)
Definition oenv_ok (env : oenv) : Prop :=
  (length (oe_outbound env) <= 99)%nat /\
  Forall (fun r => ~ In PATHCHAR (ak_domain (rt_aka r)) /\ (length (ak_domain (rt_aka r)) <= 19)%nat) (oe_routes env).
(** the last component of the outbound directory *)
Definition last_component (env : oenv) : list Z := GetFilePart (stripslash (oe_outbound env)).

(** ** C26: bundles *)

(** the name of a bundle: number, day of the week, digit *)
Definition bname (b k : Z) : list Z := hex 8 b ++ lit "." ++ nth (Z.to_nat (k / 10)) daynames [] ++ [48 + k mod 10].
Definition is_bundle (l : list Z) (b k : Z) : Prop := is_u32 b /\ 0 <= k < 70 /\ l = bname b k.
(** the bundle names of the nodes: each node has none, or one with a number of its own *)
Definition names_ok (last : list (list Z)) : Prop :=
  Forall (fun l => l = [] \/ exists b k, is_bundle l b k) last /\
  forall i j li lj b k b' k', i <> j -> nth_error last i = Some li -> nth_error last j = Some lj ->
    is_bundle li b k -> is_bundle lj b' k' -> b <> b'.
Definition in_dir (arcs : list (list Z * Z)) (n : list Z) : Prop := exists a, In a arcs /\ map tolower (fst a) = map tolower n.
(** one choice of a name: directory contents and clock may be anything *)
Record bop := BO { bo_arcs : list (list Z * Z); bo_node : nat; bo_flags : Z; bo_max : Z; bo_wday : Z; bo_time : Z }.
Definition bop_ok (n : nat) (o : bop) : Prop :=
  (bo_node o < n)%nat /\ 0 <= bo_wday o < 7 /\ Z.of_nat (length (bo_arcs o)) + Z.of_nat n < 4294967295.
Definition with_op (env : oenv) (o : bop) : oenv :=
  OE (oe_outbound env) (oe_packetdir env) (oe_packetcreate env) (oe_akas env) (oe_routes env) (oe_nl env) (bo_flags o) (bo_max o)
     (oe_beforepack env) (oe_nodes env) (oe_noopen env) (bo_wday o) (bo_time o).
Fixpoint bundles (env : oenv) (last : list (list Z)) (ops : list bop) : option (list (nat * list Z) * list (list Z)) :=
  match ops with
  | [] => Some ([], last)
  | o :: r =>
    match MakeArcName (with_op env o) (bo_arcs o) last (bo_node o) with
    | Some (name, last', _) =>
      match bundles env last' r with Some (l, fin) => Some ((bo_node o, name) :: l, fin) | None => None end
    | None => None
    end
  end.

(** ** C27: flow files *)

(** An entry for a file: optional flags, the name, white space *)
Definition opt_flag (c : Z) (f : list Z) : Prop := f = [] \/ f = [c].
Definition entry_for (file l : list Z) : Prop := exists f1 f2 f3 f4 nm ws,
  l = f1 ++ f2 ++ f3 ++ f4 ++ nm ++ ws /\ opt_flag 35 f1 /\ opt_flag 126 f2 /\ opt_flag 94 f3 /\ opt_flag 45 f4 /\
  map tolower nm = map tolower file /\ Forall (fun c => c < 33) ws.
(** the lines of a file, without the line feeds; what follows the last one is a line too *)
Fixpoint lines (s : list Z) : list (list Z) :=
  match s with
  | [] => []
  | c :: r => if c =? 10 then [] :: lines r
              else match lines r with
                   | [] => [[c]]
                   | l :: ls => (c :: l) :: ls
                   end
  end.
(** 7 bit text; every line is terminated and short enough for the program's buffer *)
Definition whole_lines (s : list Z) : Prop := s = [] \/ exists r, s = r ++ [10].
Definition flow_ok (s : list Z) : Prop := Forall (fun c => 0 < c < 128) s /\ whole_lines s /\ Forall (fun l => (length l <= 198)%nat) (lines s).
(** names of files as they occur *)
Definition flowable (f : list Z) : Prop :=
  f <> [] /\ Forall (fun c => 32 < c < 128) f /\ (length f <= 196)%nat /\
  ~ In (hd 0 f) [35; 126; 94; 45].
Definition mode_flag (mode : Z) : list Z := if mode =? 1 then [35] else if mode =? 2 then [94] else [].
(** several entries added one after the other *)
Definition addall (flags : Z) (s : list Z) (fs : list (list Z * Z)) : list Z :=
  fold_left (fun s f => addflow flags s (fst f) (snd f)) fs s.

(** ** C28: netmail is added to the packet that waits *)
(** a packet with this header and these messages *)
Definition packet_of (h : list Z) (msgs : list (list Z)) (pkt : list Z) : Prop :=
  pkt = h ++ concat msgs ++ [0; 0] /\ is_header h /\ Forall is_pktmsg msgs.

(** ** Packet numbers *)
(** the clock never goes back, and not more than 256 packets are made in one second *)
Fixpoint nondecreasing (l : list Z) : Prop :=
  match l with
  | a :: ((b :: _) as r) => a <= b /\ nondecreasing r
  | _ => True
  end.
(** the numbers of successive packets; for each the names that are taken and the readings
    of the clock *)
Fixpoint made (calls : list ((Z -> bool) * list Z)) (lastt serial : Z) : option (list Z) :=
  match calls with
  | [] => Some []
  | (taken, ts) :: r => match pktnum taken ts lastt serial with
                        | Some (num, t, s) => option_map (cons num) (made r t s)
                        | None => None
                        end
  end.
Definition count (t : Z) (l : list Z) : nat := length (filter (Z.eqb t) l).

(** the flow file of a node *)
Definition flow_of (base : list Z) (type : Z) : list Z :=
  base ++ lit "." ++ (if type =? 1 then lit "h" else if type =? 3 then lit "d" else if type =? 4 then lit "c" else lit "f") ++ lit "lo".
Definition contents (fs : fsys) (f : list Z) : list Z := match fget fs f with Some s => s | None => [] end.
(** two lines are entries for one file *)
Definition same_entry (a b : list Z) : Prop := exists file, entry_for file a /\ entry_for file b.

(** the name that follows: the next digit, from 9 to 0 of the next day, or the first one of
    today if bundles are named after the weekday *)
Definition next_bundle (weekday : bool) (wday k : Z) : Z :=
  let n := (k + 1) mod 70 in if weekday && negb (n / 10 =? wday) then wday * 10 else n.
(** the size of a bundle in the directory; of several entries the last counts *)
Definition dir_size (arcs : list (list Z * Z)) (n : list Z) (sz : option Z) : Prop :=
  match sz with
  | Some z => exists l1 a l2, arcs = l1 ++ a :: l2 /\ map tolower (fst a) = map tolower n /\ snd a = z /\ ~ in_dir l2 n
  | None => ~ in_dir arcs n
  end.
