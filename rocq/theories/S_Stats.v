(** Specification of statistics that survive. *)
From Verif Require Import Base M_Node4D S_Node4D M_Cfg M_Stats.

Definition same_tag (a b : astat) : Prop := map tolower (as_tag a) = map tolower (as_tag b).
(** [a'] is the area [a] with the numbers of [w] *)
Definition area_with (w a a' : astat) : Prop :=
  as_texts a' = as_texts w /\ as_last8 a' = as_last8 w /\ as_dupes a' = as_dupes w /\ as_first a' = as_first w /\ as_last a' = as_last w /\
  as_tag a' = as_tag a /\ as_type a' = as_type a /\ as_flags a' = as_flags a /\ as_aka a' = as_aka a /\ as_group a' = as_group a /\
  as_newtexts a' = as_newtexts a /\ as_newdupes a' = as_newdupes a.
(** netmail, echomail and bad areas the user has confirmed *)
Definition has_stats (a : astat) : Prop :=
  (as_type a = AREATYPE_NETMAIL \/ as_type a = AREATYPE_ECHOMAIL \/ as_type a = AREATYPE_BAD) /\ Z.testbit (as_flags a) 0 = false.
(** what reading makes of an area, if the areas [ws] were written *)
Definition area_read (ws : list astat) (a a' : astat) : Prop :=
  (exists w, In w ws /\ has_stats w /\ same_tag w a /\ area_with w a a') \/ ((forall w, In w ws -> has_stats w -> ~ same_tag w a) /\ a' = a).
(** and of a node: the numbers of the node with its address *)
Definition node_read (ws : list nstat) (n n' : nstat) : Prop :=
  (In n' ws /\ ns_node n' = ns_node n) \/ ((forall w, In w ws -> ns_node w <> ns_node n) /\ n' = n).

Definition is_u64 (z : Z) : Prop := 0 <= z < 18446744073709551616.
Record area_fine (a : astat) : Prop := {
  af_tag : cstring (as_tag a); af_len : (length (as_tag a) <= 79)%nat; af_texts : is_u32 (as_texts a); af_dupes : is_u32 (as_dupes a);
  af_last8 : length (as_last8 a) = 8%nat /\ Forall is_u16 (as_last8 a); af_first : is_u64 (as_first a); af_last : is_u64 (as_last a) }.
Record node_fine (n : nstat) : Prop := {
  nf_node : valid4d (ns_node n); nf_zone : zone (ns_node n) <> 0;
  nf_counts : Forall is_u32 [ns_gotnet n; ns_gotnetb n; ns_sentnet n; ns_sentnetb n; ns_gotecho n; ns_gotechob n; ns_sentecho n; ns_sentechob n; ns_dupes n];
  nf_first : is_u64 (ns_first n) }.
(** a configuration: tags and addresses tell areas and nodes apart *)
Record stats_fine (s : stats) : Prop := {
  sf_day : is_u32 (st_day s); sf_areas : Forall area_fine (st_areas s); sf_nodes : Forall node_fine (st_nodes s);
  sf_tags : NoDup (map (fun a => map tolower (as_tag a)) (st_areas s)); sf_addrs : NoDup (map ns_node (st_nodes s));
  sf_many : Z.of_nat (length (st_areas s)) < 4294967296 /\ Z.of_nat (length (st_nodes s)) < 4294967296 }.

(** ** Counting *)
(** number of texts of the runs on a day; a run is a time and a number of texts *)
Fixpoint texts_on (day : Z) (runs : list (Z * Z)) : Z :=
  match runs with [] => 0 | (t, n) :: r => (if t / 86400 =? day then n else 0) + texts_on day r end.
(** A run at a time, with a number of new texts for each tag: the program starts with the
    stored statistics, counts the new texts and brings the statistics up to date. *)
Definition newtexts (f : list Z -> Z) (a : astat) : astat :=
  AS (as_tag a) (as_type a) (as_flags a) (as_aka a) (as_group a) (as_texts a) (as_last8 a) (as_dupes a) (as_first a) (as_last a) (f (as_tag a)) 0.
Definition onerun (s : stats) (r : Z * (list Z -> Z)) : stats := UpdateStats (fst r) (ST (st_day s) (map (newtexts (snd r)) (st_areas s)) (st_nodes s)).

(** A run with new texts and duplicates for each tag. *)
Definition newcounts (f g : list Z -> Z) (a : astat) : astat :=
  AS (as_tag a) (as_type a) (as_flags a) (as_aka a) (as_group a) (as_texts a) (as_last8 a) (as_dupes a) (as_first a) (as_last a) (f (as_tag a)) (g (as_tag a)).
Definition fullrun (s : stats) (r : Z * (list Z -> Z) * (list Z -> Z)) : stats :=
  UpdateStats (fst (fst r)) (ST (st_day s) (map (newcounts (snd (fst r)) (snd r)) (st_areas s)) (st_nodes s)).
Definition total (l : list Z) : Z := fold_right Z.add 0 l.
(** the times of the runs with new texts *)
Definition busy (tag : list Z) (runs : list (Z * (list Z -> Z) * (list Z -> Z))) : list Z :=
  map (fun r => fst (fst r)) (filter (fun r => negb (snd (fst r) tag =? 0)) runs).
