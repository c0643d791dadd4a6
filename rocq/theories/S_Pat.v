(** Specification of node patterns. *)
From Verif Require Import Base M_Node4D M_Pat.

(** A component pattern against the decimal text of a number: '?' is one character,
    '*' is any remainder, everything else is literal. *)
Inductive glob : list Z -> list Z -> Prop :=
| glob_end : glob [] []
| glob_star p s : glob (42 :: p) s
| glob_any p c s : glob p s -> glob (63 :: p) (c :: s)
| glob_lit p c s : c <> 42 -> glob p s -> glob (c :: p) (c :: s).

(** An empty component places no restriction. *)
Definition compmatch (pat : list Z) (num : Z) : Prop := pat = [] \/ glob pat (dec num).

(** Zone restriction: not applied to addresses whose zone is unknown (0). *)
Definition zonematch (pat : list Z) (z : Z) : Prop := z = 0 \/ compmatch pat z.

Definition patmatch (nl : nodelist) (p : npat) (n : node4d) : Prop :=
  match ptype p with
  | PAT_PATTERN => zonematch (pzone p) (zone n) /\ compmatch (pnet p) (net n) /\
                   compmatch (pnode p) (node n) /\ compmatch (ppoint p) (point n)
  | PAT_ZONE => compmatch (pzone p) (zone n)
  | PAT_REGION => nlopen nl = true /\ nlGetRegion nl (N4 (zone n) (net n) (node n) 0) <> -1 /\
                  zonematch (pzone p) (zone n) /\
                  compmatch (pnet p) (nlGetRegion nl (N4 (zone n) (net n) (node n) 0))
  | PAT_NET => zonematch (pzone p) (zone n) /\ compmatch (pnet p) (net n)
  | PAT_HUB => nlopen nl = true /\ nlGetHub nl (N4 (zone n) (net n) (node n) 0) <> -1 /\
               zonematch (pzone p) (zone n) /\ compmatch (pnet p) (net n) /\
               compmatch (pnode p) (nlGetHub nl (N4 (zone n) (net n) (node n) 0))
  | PAT_NODE => zonematch (pzone p) (zone n) /\ compmatch (pnet p) (net n) /\ compmatch (pnode p) (node n)
  end.

(** Nodelist answers are -1 or a 16 bit number. *)
Definition nl_ok (nl : nodelist) : Prop :=
  forall n, (nlGetRegion nl n = -1 \/ is_u16 (nlGetRegion nl n)) /\
            (nlGetHub nl n = -1 \/ is_u16 (nlGetHub nl n)).

(** A pattern component as a user writes it: 1 to 9 digits and wildcards. *)
Definition wfcomp (l : list Z) : Prop :=
  (1 <= length l <= 9)%nat /\ Forall (fun c => digit c \/ c = 42 \/ c = 63) l.

(** Patterns as produced by parsing: each type uses only its own components. *)
Definition wfpat (p : npat) : Prop :=
  match ptype p with
  | PAT_PATTERN => wfcomp (pzone p) /\ wfcomp (pnet p) /\ wfcomp (pnode p) /\ wfcomp (ppoint p)
  | PAT_ZONE => wfcomp (pzone p) /\ pnet p = [] /\ pnode p = [] /\ ppoint p = []
  | PAT_REGION | PAT_NET => wfcomp (pzone p) /\ wfcomp (pnet p) /\ pnode p = [] /\ ppoint p = []
  | PAT_HUB | PAT_NODE => wfcomp (pzone p) /\ wfcomp (pnet p) /\ wfcomp (pnode p) /\ ppoint p = []
  end.

(** A destination template component: wildcard or a number without leading zero. *)
Definition wild (l : list Z) : Prop := In 42 l \/ In 63 l.
Definition comp_expands (tpl : list Z) (d r : Z) : Prop :=
  (wild tpl /\ r = d) \/ (exists v, is_u16 v /\ tpl = dec v /\ r = v).
