(** Specification of rewriting the configuration file. *)
From Verif Require Import Base M_Node4D M_Str M_Cfg M_Fs M_Upd S_Node4D.

(** ** Configuration files *)

(** A file of lines, each with its text and whether it ends with CR LF or with LF only. *)
Definition filetext (ls : list (list Z * bool)) : list Z :=
  flat_map (fun x : list Z * bool => fst x ++ (if snd x then [13; 10] else [10])) ls.
Definition goodline (x : list Z * bool) : Prop :=
  cstring (fst x) /\ ~ In 10 (fst x) /\ (length (fst x) <= 3997)%nat /\ last (fst x) 0 <> 13.
(** the lines as the program sees them *)
Definition seen (ls : list (list Z * bool)) : list (list Z) := map (fun x : list Z * bool => fst x ++ [10]) ls.

(** first and second word of a line *)
Definition keyword (l : list Z) : list Z := fst (fst (tok 30 l)).
Definition argument (l : list Z) : list Z := fst (fst (tok 200 (snd (tok 30 l)))).
Definition blank (l : list Z) : bool := negb (snd (fst (tok 30 l))).
Definition areaheading (l : list Z) : bool := kw (keyword l) "AREA" || kw (keyword l) "NETMAIL" || kw (keyword l) "LOCALAREA".
Definition nodeheading (l : list Z) : bool := kw (keyword l) "NODE".
(** a line that says something about an area or a node *)
Definition aboutarea (l : list Z) : bool :=
  areaheading l || existsb (streqi (keyword l))
    (map lit ["UNCONFIRMED"; "MANDATORY"; "DEFREADONLY"; "IGNOREDUPES"; "IGNORESEENBY"; "EXPORT"; "IMPORT"; "BANNED";
              "DESCRIPTION"; "GROUP"; "KEEPNUM"; "KEEPDAYS"]%string).
Definition aboutnode (l : list Z) : bool :=
  nodeheading l || existsb (streqi (keyword l))
    (map lit ["PKTFROM"; "AREAFIXINFO"; "DEFAULTGROUP"; "REMOTEAF"; "REMOTESYSOP"]%string).
(** everything else: other settings and comments *)
Definition foreign (l : list Z) : bool := negb (blank l) && negb (aboutarea l) && negb (aboutnode l).

(** ** Areas and nodes that a configuration file can hold *)

(** a string that fits an array of [n] characters *)
Definition field (n : nat) (s : list Z) : Prop := cstring s /\ ~ In 10 s /\ (length s < n)%nat.
Definition letter (c : Z) : Prop := 65 <= c <= 90.
Definition group (c : Z) : Prop := c = 0 \/ letter c.
Definition groups (s : list Z) : Prop := Forall letter s /\ (length s < 30)%nat.
(** the position at which an address is found is [i] *)
Definition found (n : node4d) (l : list node4d) (i : nat) : Prop :=
  nth_error l i = Some n /\ valid4d n /\ forall j m, (j < i)%nat -> nth_error l j = Some m -> Compare4D n m <> 0.

Definition packer_ok (packers : list (list Z)) (p : option nat) : Prop :=
  match p with
  | None => True
  | Some i => exists s, nth_error packers i = Some s /\ field 10 s /\ s <> [] /\
                forall j t, (j < i)%nat -> nth_error packers j = Some t -> streqi s t = false
  end.
Definition goodnode (packers : list (list Z)) (n : fnode) : Prop :=
  valid4d (fn_node n) /\ field 9 (fn_pw n) /\ packer_ok packers (fn_packer n) /\ field 40 (fn_afpw n) /\
  groups (fn_groups n) /\ groups (fn_rogroups n) /\ groups (fn_addgroups n) /\ group (fn_defgroup n) /\
  0 <= fn_flags n < 4096 /\ field 36 (fn_sysop n) /\ 1 <= fn_pri n <= 4 /\
  (if flag (fn_flags n) NODE_PKTFROM then valid4d (fn_pktfrom n) else fn_pktfrom n = N4 0 0 0 0) /\
  field 36 (fn_rafname n) /\ field 72 (fn_rafpw n) /\
  (fn_rafname n = [] -> fn_rafpw n = [] /\ flag (fn_flags n) UNODE_AFNEEDSPLUS = false).

Definition ordinary (t : Z) : Prop := t = AREATYPE_ECHOMAIL \/ t = AREATYPE_DEFAULT.
(** what the name of an area makes it *)
Definition tagtype (tag : list Z) (t : Z) : Prop :=
  if streqi tag (lit "BAD") then t = AREATYPE_BAD
  else if streqi tag (lit "DEFAULT") || strneqi 8 tag (lit "DEFAULT_") then t = AREATYPE_DEFAULT
  else t = AREATYPE_ECHOMAIL.
(** echomail, default and BAD areas; local areas *)
Definition goodarea (akas nodes : list node4d) (a : farea) : Prop :=
  field 80 (fa_tag a) /\ (exists n, found n akas (fa_aka a)) /\ 0 <= fa_flags a < 32 /\ field 80 (fa_desc a) /\
  (match fa_mb a with Some i => (i < length mbnames)%nat /\ field 80 (fa_path a) | None => fa_path a = [] end) /\
  group (fa_group a) /\ fa_import a = [] /\
  (forall i f, In (i, f) (fa_toss a) -> (exists n, found n nodes i) /\ (f = 0 \/ f = 1 \/ f = 2 \/ f = 4)) /\
  (forall i, In i (fa_banned a) -> exists n, found n nodes i) /\
  is_u32 (fa_keepnum a) /\ is_u32 (fa_keepdays a) /\
  (ordinary (fa_type a) \/ fa_toss a = []) /\
  (fa_type a = AREATYPE_LOCAL /\ fa_mb a <> None \/
   tagtype (fa_tag a) (fa_type a) /\ (fa_type a = AREATYPE_BAD -> fa_path a <> [])).

(** ** Changes of a configuration *)

Definition distinct_tags (l : list farea) : Prop :=
  forall i j a b, nth_error l i = Some a -> nth_error l j = Some b -> streqi (fa_tag a) (fa_tag b) = true -> i = j.
Definition distinct_nodes (l : list fnode) : Prop :=
  forall i j a b, nth_error l i = Some a -> nth_error l j = Some b -> Compare4D (fn_node a) (fn_node b) = 0 -> i = j.
Definition olist {A} (o : option A) : list A := match o with Some x => [x] | None => [] end.

(** [c1] is [c0] with some areas changed or removed and new ones added at the end, and with
    some nodes changed; what has changed is marked. [f] says what became of each area. *)
Definition edit (c0 c1 : fconf) : Prop :=
  let akas := cf_akas c0 in
  let nodes := map fn_node (cf_nodes c0) in
  cf_akas c1 = akas /\ cf_packers c1 = cf_packers c0 /\ cf_other c1 = cf_other c0 /\
  Forall2 (fun n0 n1 => (n1 = n0 /\ fn_changed n1 = false) \/
                        (fn_changed n1 = true /\ fn_node n1 = fn_node n0 /\ goodnode (cf_packers c0) n1))
          (cf_nodes c0) (cf_nodes c1) /\
  distinct_nodes (cf_nodes c0) /\
  exists (f : farea -> option farea) (news : list farea),
    cf_areas c1 = flat_map (fun a => olist (f a)) (cf_areas c0) ++ news /\
    (forall a, In a (cf_areas c0) ->
       (f a = Some a /\ fa_changed a = false) \/
       (exists a', f a = Some a' /\ fa_changed a' = true /\ fa_tag a' = fa_tag a /\ goodarea akas nodes a' /\
                   fa_type a <> AREATYPE_LOCAL) \/
       (f a = None /\ fa_type a <> AREATYPE_LOCAL)) /\
    Forall (fun a => fa_changed a = true /\ goodarea akas nodes a) news /\
    distinct_tags (cf_areas c0 ++ news).
(** the same configuration, with the marks cleared *)
Definition done (c : fconf) : fconf :=
  FC (cf_akas c) (cf_packers c) (map doneN (cf_nodes c)) (map doneA (cf_areas c)) (cf_other c).

Definition count (k : String.string) (ls : list (list Z)) : nat := length (filter (fun l => kw (keyword l) k) ls).
(** What a changed area or node refers to is defined above it in the file. *)
Definition defined_above (ls : list (list Z)) (c1 : fconf) : Prop :=
  forall pre l post, ls = pre ++ l :: post ->
    (areaheading l = true -> forall a, In a (cf_areas c1) -> fa_changed a = true -> streqi (argument l) (fa_tag a) = true ->
       (fa_aka a < count "AKA" pre)%nat /\ (forall i f, In (i, f) (fa_toss a) -> (i < count "NODE" pre)%nat) /\
       (forall i, In i (fa_banned a) -> (i < count "NODE" pre)%nat)) /\
    (nodeheading l = true -> forall n i, In n (cf_nodes c1) -> fn_changed n = true ->
       Parse4D (argument l) = Some (fn_node n) -> fn_packer n = Some i -> (i < count "PACKER" pre)%nat).
(** No area name or node address in the file is longer than the program's buffers. *)
Definition short_names (ls : list (list Z)) : Prop :=
  forall l, In l ls -> (areaheading l = true -> (length (argument l) <= 79)%nat) /\
                       (nodeheading l = true -> (length (argument l) <= 98)%nat).

(** the last line of [ls] of some kind *)
Definition lastsuch (p : list Z -> bool) (ls : list (list Z)) : option (list Z) := hd_error (filter p (rev ls)).
(** The area of that name is there and unchanged; the node of that address is unchanged. *)
Definition settledA (c : fconf) (tag : list Z) : Prop :=
  (exists a, In a (cf_areas c) /\ streqi tag (fa_tag a) = true) /\
  (forall a, In a (cf_areas c) -> streqi tag (fa_tag a) = true -> fa_changed a = false).
Definition settledN (c : fconf) (addr : list Z) : Prop :=
  forall n k, Parse4D addr = Some n -> In k (cf_nodes c) -> Compare4D n (fn_node k) = 0 -> fn_changed k = false.
(** Line [l], which comes after [pre], stands neither below the heading of an area that was
    changed or removed nor below that of a node that was changed. *)
Definition untouched (c : fconf) (pre : list (list Z)) (l : list Z) : Prop :=
  (forall h, lastsuch areaheading (pre ++ [l]) = Some h -> settledA c (argument h)) /\
  (forall h, lastsuch nodeheading (pre ++ [l]) = Some h -> settledN c (argument h)).
