(** Specification of message text and SEEN-BY lists. *)
From Coq Require Import Sorting.Sorted Sorting.Permutation.
From Verif Require Import Base M_Node4D M_Pat S_Pat M_Mem.

(** ** SEEN-BY as a set. 0/0 marks a removed entry. *)
Definition is_mark (x : node2d) : bool := (fst x =? 0) && (snd x =? 0).
Definition live (l : nodes2d) : list node2d := filter (fun x => negb (is_mark x)) (entries l).

Inductive sbop := SbAdd (net node : Z) | SbRemPat (p : np2d).
Definition sbstep (l : nodes2d) (o : sbop) : nodes2d :=
  match o with
  | SbAdd n f => mmAddNodes2DList l n f
  | SbRemPat p => mmRemNodes2DListPat l p
  end.
(** the abstract set after a sequence of operations *)
Definition matches2d (p : np2d) (x : node2d) : Prop := compmatch (p2net p) (fst x) /\ compmatch (p2node p) (snd x).
Definition setstep (s : node2d -> Prop) (o : sbop) : node2d -> Prop :=
  match o with
  | SbAdd n f => fun x => s x \/ x = (n, f)
  | SbRemPat p => fun x => s x /\ ~ matches2d p x
  end.
Definition sbop_ok (o : sbop) : Prop := match o with SbAdd n f => is_u16 n /\ is_u16 f | _ => True end.

(** Blocks: all full except the last one, which is not empty. *)
Fixpoint wfblocks (l : nodes2d) : Prop :=
  match l with
  | [] => True
  | b :: r => match r with
              | [] => (1 <= length b <= NUM2D)%nat
              | _ => length b = NUM2D /\ wfblocks r
              end
  end.

(** order of SEEN-BY entries: by net, then by node *)
Definition n2lt (a b : node2d) : Prop := fst a < fst b \/ (fst a = fst b /\ snd a < snd b).
Definition n2order (a b : node2d) : Prop := n2lt a b \/ a = b.

(** ** Line classes of an echomail message *)
Definition starts_with (p s : list Z) : Prop := exists r, s = p ++ r.
Definition is_seenby_line (l : list Z) : Prop := starts_with (lit "SEEN-BY:") l.
Definition is_path_line (l : list Z) : Prop := starts_with (1 :: lit "PATH:") l.
Definition is_origin_line (l : list Z) : Prop := starts_with (lit " * Origin: ") l.
(** a line as the packet reader delivers it: ends with a carriage return or a line feed, or
    fills the reader's buffer *)
Definition crline (l : list Z) : Prop :=
  cstring l /\ ((exists r c, l = r ++ [c] /\ (c = 13 \/ c = 10)) \/ (198 <= length l)%nat).

(** Adding pairs one after the other. *)
Definition addall (es : list node2d) (l : nodes2d) : nodes2d :=
  fold_left (fun l x => mmAddNodes2DList l (fst x) (snd x)) es l.
Fixpoint addlines (mm : memmsg) (ls : list (list Z)) : option memmsg :=
  match ls with
  | [] => Some mm
  | l :: r => match mmAddLine mm l with Some mm' => addlines mm' r | None => None end
  end.
Definition pairs_ok (es : list node2d) : Prop := Forall (fun x => is_u16 (fst x) /\ is_u16 (snd x)) es.

(** ** The text, SEEN-BY and PATH parts of an echomail message given line by line *)
Definition seenbyb (l : list Z) : bool := prefixb (lit "SEEN-BY:") l.
Definition pathb (l : list Z) : bool := prefixb (1 :: lit "PATH:") l.
Definition plain_lines (ls : list (list Z)) : list (list Z) := filter (fun l => negb (seenbyb l) && negb (pathb l)) ls.
(** PATH lines; one that has nothing behind the colon but the end of line adds nothing *)
Definition path_lines (ls : list (list Z)) : list (list Z) :=
  filter (fun l => pathb l && Nat.ltb 7 (length l)) ls.

(** a correctly closed origin line: the last parenthesis holds an optional network name
    and an address with an optional domain, and is closed *)
Definition wf_origin (l : list Z) : Prop :=
  exists pre junk n dom tail, l = pre ++ 40 :: junk ++ Print4D n ++ dom ++ 41 :: tail /\
  is_u16 (zone n) /\ is_u16 (net n) /\ is_u16 (node n) /\ is_u16 (point n) /\
  Forall (fun x => x <> 13 /\ x <> 40 /\ isdigit x = false) junk /\ ~ In 40 tail /\
  (dom = [] \/ exists d, dom = 64 :: d /\ ~ In 41 d /\ ~ In 40 d /\ (length d <= 24)%nat).

(** a sequence of buffers appended one after the other *)
Fixpoint addbufs (cs : list (list Z)) (bufs : list (list Z)) : option (list (list Z)) :=
  match bufs with
  | [] => Some cs
  | b :: r => match mmAddBuf cs b with Some cs' => addbufs cs' r | None => None end
  end.

(** tokens of a line: the net may be left out when it is the previous one *)
Inductive tokseq : Z -> list node2d -> list (list Z) -> Prop :=
| ts_nil last : tokseq last [] []
| ts_short n f r ts : tokseq n r ts -> tokseq n ((n, f) :: r) (dec f :: ts)
| ts_full last n f r ts : tokseq n r ts -> tokseq last ((n, f) :: r) ((dec n ++ lit "/" ++ dec f) :: ts).
