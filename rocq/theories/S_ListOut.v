(** What CrashListOut is to print. *)
From Verif Require Import Base M_Node4D M_Mem M_Str M_Out M_Date M_Pat M_ListOut S_Str S_Pat S_Packer S_AfList.
From Coq Require Import Permutation Sorting.Sorted.

(** ** Names in an outbound directory *)
Inductive flavour := Crash | Direct | Normal | Hold.
Inductive kind := Flow (f : flavour) | Packet (f : flavour) | Requests.
(** the end of the name *)
Definition ending (k : kind) : list Z :=
  match k with
  | Flow Crash => lit ".clo" | Flow Direct => lit ".dlo" | Flow Normal => lit ".flo" | Flow Hold => lit ".hlo"
  | Packet Crash => lit ".cut" | Packet Direct => lit ".dut" | Packet Normal => lit ".out" | Packet Hold => lit ".hut"
  | Requests => lit ".req"
  end.
Definition kindname (k : kind) : list Z :=
  match k with
  | Flow Crash | Packet Crash => lit "Crash" | Flow Direct | Packet Direct => lit "Direct"
  | Flow Normal | Packet Normal => lit "Normal" | Flow Hold | Packet Hold => lit "Hold" | Requests => lit "Request"
  end.
(** a hexadecimal number; the number with which a name begins *)
Inductive hexnum : list Z -> Z -> Prop :=
| hn_nil : hexnum [] 0
| hn_snoc l v c d : hexnum l v -> digit_value c d -> hexnum (l ++ [c]) (16 * v + d).
Definition numbered (s : list Z) (v : Z) : Prop :=
  exists ds rest, s = ds ++ rest /\ hexnum ds v /\ forall c r d, rest = c :: r -> ~ digit_value c d.
(** eight characters and an ending, in upper or lower case *)
Definition named (f b e : list Z) : Prop := exists x, f = b ++ x /\ length b = 8%nat /\ map tolower x = e.

(** ** What waits in an outbound directory *)
Record item := IT { it_node : node4d; it_kind : kind; it_name : list Z; it_dir : list Z; it_size : Z; it_date : Z }.
Definition matches (p : npat) (n : node4d) : Prop :=
  zonematch (pzone p) (zone n) /\ compmatch (pnet p) (net n) /\ compmatch (pnode p) (node n) /\ compmatch (ppoint p) (point n).
Inductive waits (dirs : list Z -> option (list (list Z))) (stat : list Z -> option (Z * Z)) (out : list Z) (z : Z) (p : npat) : item -> Prop :=
| w_node names f b k v size date :
    dirs out = Some names -> In f names -> named f b (ending k) -> numbered b v ->
    matches p (N4 z (v / 65536) (v mod 65536) 0) -> stat (joinpath out f) = Some (size, date) ->
    waits dirs stat out z p (IT (N4 z (v / 65536) (v mod 65536) 0) k f out size date)
| w_point names sub dir db f b k v q size date :
    dirs out = Some names -> In dir names -> named dir db (lit ".pnt") -> numbered db v ->
    dirs (joinpath out dir) = Some sub -> In f sub -> named f b (ending k) -> numbered b q ->
    matches p (N4 z (v / 65536) (v mod 65536) (q mod 65536)) -> stat (joinpath out (joinpath dir f)) = Some (size, date) ->
    waits dirs stat out z p (IT (N4 z (v / 65536) (v mod 65536) (q mod 65536)) k (joinpath dir f) (joinpath out dir) size date).

(** ** What flow files and requests contain *)
Definition textof (ls : list (list Z)) : list Z := concat (map (fun l => l ++ [10]) ls).
Definition line_fine (l : list Z) : Prop := Forall (fun c => 1 <= c < 256 /\ c <> 10) l /\ (length l <= 100)%nat.
(** what is no printing ASCII character at the end of a line does not count *)
Definition trimmed (l b : list Z) : Prop :=
  exists t, l = b ++ t /\ Forall (fun c => c < 33 \/ c > 127) t /\ (b = [] \/ exists b' c, b = b' ++ [c] /\ 33 <= c <= 127).
Definition says (s : list Z) (bs : list (list Z)) : Prop :=
  exists ls ts, s = textof ls /\ Forall line_fine ls /\ Forall2 trimmed ls ts /\ bs = filter (fun t => match t with [] => false | _ => true end) ts.
(** a mark in front of a name *)
Definition mark (c : Z) : Prop := c = 35 \/ c = 94 \/ c = 45.
Inductive means : list Z -> list Z -> Prop :=
| me_mark c l : mark c -> means (c :: l) l
| me_bare l : (forall c r, l = c :: r -> ~ mark c) -> means l l.
(** a name without a slash belongs to the directory of the flow file *)
Definition whichfile (dir l : list Z) (p : list Z) : Prop := (In PATHCHAR l /\ p = l) \/ (~ In PATHCHAR l /\ p = joinpath dir l).
Inductive sums (stat : list Z -> option (Z * Z)) (dir : list Z) : list (list Z) -> Z -> Z -> Prop :=
| su_nil : sums stat dir [] 0 0
| su_gone b l p r n s : means b l -> whichfile dir l p -> stat p = None -> sums stat dir r n s -> sums stat dir (b :: r) n s
| su_file b l p r n s size date : means b l -> whichfile dir l p -> stat p = Some (size, date) -> sums stat dir r n s -> sums stat dir (b :: r) (n + 1) (size + s).

(** ** What is printed *)
(** sizes are shown in megabytes, whatever they are *)
Definition mega (b : Z) : list Z := dec (b / 1048576) ++ lit "M".
Definition datetext (t : tm) : list Z :=
  pad2 (tm_mday t) ++ lit "-" ++ nth (Z.to_nat (tm_mon t)) monthnames [] ++ lit "-" ++ pad2 (Z.rem (tm_year t) 100) ++ lit " " ++ pad2 (tm_hour t) ++ lit ":" ++ pad2 (tm_min t).
Definition line (type nd date bf file : list Z) : list Z :=
  column 8 type ++ lit " " ++ column 17 nd ++ lit " " ++ column 16 date ++ lit " " ++ rightcol 7 bf ++ lit "   " ++ file ++ [10].
Definition itemline (localtime : Z -> tm) (it : item) (bf : list Z) : list Z :=
  line (kindname (it_kind it)) (Print4D (it_node it)) (datetext (localtime (it_date it))) bf (it_name it).
(** one line of a flow file *)
Definition remark (b : list Z) : list Z :=
  match b with 35 :: _ | 94 :: _ => lit "(To be truncated)" | 45 :: _ => lit "(To be deleted)" | _ => [] end.
Definition right10 (s : list Z) : list Z := repeat 32 (10 - length s) ++ s.
Inductive flowline (stat : list Z -> option (Z * Z)) (dir : list Z) : list Z -> list Z -> Prop :=
| fl_gone b l p : means b l -> whichfile dir l p -> stat p = None ->
    flowline stat dir b (lit " " ++ column 39 l ++ lit " " ++ right10 (lit "Not found") ++ lit "   " ++ remark b ++ [10])
| fl_file b l p size date : means b l -> whichfile dir l p -> stat p = Some (size, date) ->
    flowline stat dir b (lit " " ++ column 39 l ++ lit " " ++ right10 (mega size) ++ lit "   " ++ remark b ++ [10]).
(** the text for an item, the files and bytes to send and the number of requests *)
Inductive shows (E : loenv) (out : list Z) (verbose : bool) (it : item) : list Z -> Z * Z * Z -> Prop :=
| sh_packet f : it_kind it = Packet f ->
    shows E out verbose it (itemline (lo_localtime E) it (mega (it_size it) ++ lit "/1") ++ (if verbose then [10] else [])) (0, 0, 0)
| sh_flow f s bs n b more : it_kind it = Flow f -> lo_read E (joinpath out (it_name it)) = Some s -> says s bs ->
    sums (lo_stat E) (it_dir it) bs n b -> Forall2 (flowline (lo_stat E) (it_dir it)) bs more ->
    shows E out verbose it (itemline (lo_localtime E) it (mega (u32 b) ++ lit "/" ++ dec (u32 n)) ++ (if verbose then concat more ++ [10] else [])) (n, b, 0)
| sh_requests s bs : it_kind it = Requests -> lo_read E (joinpath out (it_name it)) = Some s -> says s bs ->
    shows E out verbose it (itemline (lo_localtime E) it (lit "-/" ++ dec (u32 (Z.of_nat (length bs)))) ++
                            (if verbose then concat (map (fun b => lit " " ++ b ++ [10]) bs) ++ [10] else [])) (0, 0, Z.of_nat (length bs))
| sh_unreadable : (forall f, it_kind it <> Packet f) -> lo_read E (joinpath out (it_name it)) = None ->
    shows E out verbose it (itemline (lo_localtime E) it (lit "?/?") ++ (if verbose then lit "Failed to open file" ++ [10; 10] else [])) (0, 0, 0).
Definition heading : list Z :=
  lit "CrashListOut 1.5.1" ++ [10; 10] ++ line (lit "Type") (lit "Node") (lit "Last Change") (lit "B/F") (lit "File") ++ [10].
Definition sum (l : list Z) : Z := fold_right Z.add 0 l.
Definition closing (verbose : bool) (cs : list (Z * Z * Z)) : list Z :=
  (if verbose then [] else [10]) ++ lit "Totally " ++ mega (u32 (sum (map (fun c => snd (fst c)) cs))) ++ lit " bytes in " ++
  dec (u32 (sum (map (fun c => fst (fst c)) cs))) ++ lit " files to send, " ++ dec (u32 (sum (map snd cs))) ++ lit " requests." ++ [10].

(** the order of addresses *)
Definition addr_le (a b : node4d) : Prop :=
  net a < net b \/ (net a = net b /\ (node a < node b \/ (node a = node b /\ point a <= point b))).
(** names of files in directories, sizes, texts *)
Definition name_fine (f : list Z) : Prop := cstring f /\ ~ In PATHCHAR f.
Definition fine (E : loenv) (out : list Z) : Prop :=
  cstring out /\ (length out <= 80)%nat /\
  (forall d names, lo_dirs E d = Some names -> Forall name_fine names) /\
  (forall p size date, lo_stat E p = Some (size, date) -> is_u32 size) /\
  (forall p s, lo_read E p = Some s -> exists ls, s = textof ls /\ Forall line_fine ls).

(** ** The command line *)
Definition star : npat := NP PAT_PATTERN (lit "*") (lit "*") (lit "*") (lit "*").
Definition thedir (E : loenv) : list Z := match lo_envdir E with Some d => d | None => lit "." end.
Definition thezone (E : loenv) : Z := match lo_envzone E with Some z => u32 (atoi z) | None => 2 end.
(** a word that is no keyword and does not ask for help *)
Definition nokey (w : list Z) : Prop :=
  (forall k, In k [lit "directory"; lit "zone"; lit "pattern"; lit "verbose"] -> map tolower w <> k) /\
  ~ In w [lit "?"; lit "-h"; lit "--help"; lit "help"; lit "/h"; lit "/?"].

(** ** Outbound directories of CrashMail *)
(** what has a size stands in a directory that can be read *)
Definition consistent (E : loenv) : Prop :=
  forall d f, d <> [] -> f <> [] -> name_fine f -> lo_stat E (d ++ PATHCHAR :: f) <> None -> lo_stat E d <> None /\ exists names, lo_dirs E d = Some names /\ In f names.
(** the priorities of config.h:11-15 *)
Definition flav (pri : Z) : flavour := if pri =? 1 then Hold else if pri =? 3 then Direct else if pri =? 4 then Crash else Normal.
