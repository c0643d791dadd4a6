(** Specification for nl_v7p.c: what a version 7+ nodelist says, and how it is stored in its
    three files. *)
From Verif Require Import Base M_Node4D M_V7.
From Coq Require Import Sorted.

(** the [n] bytes of a number, the least significant one first (two's complement) *)
Fixpoint num (n : nat) (z : Z) : list Z := match n with O => [] | S m => z mod 256 :: num m (z / 256) end.
(** the bytes [bs] stand at [off] *)
Definition part (r : list Z) (off : nat) (bs : list Z) : Prop := firstn (length bs) (skipn off r) = bs.

(** addresses in the order of zone, net, node, point *)
Definition before (a b : node4d) : Prop :=
  zone a < zone b \/ zone a = zone b /\ (net a < net b \/ net a = net b /\
    (node a < node b \/ node a = node b /\ point a < point b)).
Definition address (n : node4d) : Prop := is_u16 (zone n) /\ is_u16 (net n) /\ is_u16 (node n) /\ is_u16 (point n) /\ zone n <> 0.

(** ** The index: a search tree whose leaves say where the data of a node is *)
Inductive tree := Leaf (es : list (node4d * Z)) | Branch (first : tree) (ks : kids)
with kids := KNil | KCons (k : node4d) (t : tree) (r : kids).
Fixpoint entries (t : tree) : list (node4d * Z) :=
  match t with Leaf es => es | Branch f ks => entries f ++ kentries ks end
with kentries (ks : kids) : list (node4d * Z) :=
  match ks with KNil => [] | KCons _ t r => entries t ++ kentries r end.
Fixpoint kcount (ks : kids) : nat := match ks with KNil => O | KCons _ _ r => S (kcount r) end.

Definition below (k : node4d) (t : tree) : Prop := Forall (fun e => before (fst e) k) (entries t).
Definition from (k : node4d) (t : tree) : Prop := Forall (fun e => ~ before (fst e) k) (entries t).
(** the entries stand in order, and the keys of a branch lie between those of its subtrees *)
Fixpoint ordered (t : tree) : Prop :=
  match t with
  | Leaf es => StronglySorted (fun a b => before (fst a) (fst b)) es
  | Branch f ks => ordered f /\ kordered f ks
  end
with kordered (prev : tree) (ks : kids) : Prop :=
  match ks with
  | KNil => True
  | KCons k t r => below k prev /\ from k t /\ ordered t /\ kordered t r /\
      match r with KCons k2 _ _ => before k k2 | KNil => True end
  end.

(** ** How it is stored. There are two layouts, one for each size of a long. *)
Record layout := LAY { y_long : nat; y_control : nat; y_count : nat; y_head : nat; y_value : nat; y_lower : nat; y_ikey : nat; y_lkey : nat }.
Definition lay32 : layout := LAY 4 28 12 16 4 8 12 8.
Definition lay64 : layout := LAY 8 56 24 32 8 16 24 16.
Definition laysel (w : bool) : layout := if w then lay64 else lay32.

(** a key: six bytes for a node, eight for a node or a point *)
Inductive keybytes : node4d -> list Z -> Prop :=
| kb_node z n m : address (N4 z n m 0) -> keybytes (N4 z n m 0) (num 2 z ++ num 2 n ++ num 2 m)
| kb_point z n m p : address (N4 z n m p) -> keybytes (N4 z n m p) (num 2 z ++ num 2 n ++ num 2 m ++ num 2 p).
(** at [o] of the record the place and the length of the key are given *)
Definition haskey (r : list Z) (o : nat) (k : node4d) : Prop :=
  exists p bs, keybytes k bs /\ part r o (num 2 (Z.of_nat p) ++ num 2 (Z.of_nat (length bs))) /\ part r p bs.
Fixpoint leafat (y : layout) (r : list Z) (i : nat) (es : list (node4d * Z)) : Prop :=
  match es with
  | [] => True
  | (k, v) :: m => haskey r (y_head y + i * y_lkey y) k /\ is_u32 v /\
      part r (y_head y + i * y_lkey y + y_value y) (num (y_long y) v) /\ leafat y r (S i) m
  end.
(** record number [n] of the file, records having [rs] bytes *)
Definition record (f : list Z) (rs : nat) (n : Z) (r : list Z) : Prop :=
  0 <= n /\ firstn rs (skipn (Z.to_nat n * rs) f) = r /\ length r = rs.

(** record [n] is the root of the tree *)
Inductive stored (y : layout) (f : list Z) (rs : nat) : Z -> tree -> Prop :=
| st_leaf n r es : record f rs n r -> part r 0 (num (y_long y) (-1)) -> part r (y_count y) (num 2 (Z.of_nat (length es))) ->
    (length es < 512)%nat -> leafat y r 0 es -> stored y f rs n (Leaf es)
| st_branch n r fn t ks : record f rs n r -> part r 0 (num (y_long y) fn) -> 0 <= fn < 2 ^ 31 ->
    part r (y_count y) (num 2 (Z.of_nat (kcount ks))) -> (kcount ks < 512)%nat ->
    stored y f rs fn t -> kstored y f rs r 0 ks -> stored y f rs n (Branch t ks)
with kstored (y : layout) (f : list Z) (rs : nat) : list Z -> nat -> kids -> Prop :=
| ks_nil r i : kstored y f rs r i KNil
| ks_cons r i k t m kn : haskey r (y_head y + i * y_ikey y) k ->
    part r (y_head y + i * y_ikey y + y_lower y) (num (y_long y) kn) -> 0 <= kn < 2 ^ 31 ->
    stored y f rs kn t -> kstored y f rs r (S i) m -> kstored y f rs r i (KCons k t m).

(** an index file: size of the records, number of the root, the rest of the control record *)
Definition indexfile (y : layout) (f : list Z) (rs : nat) (t : tree) : Prop :=
  exists root, 0 <= root < 2 ^ 31 /\ (rs <= 512)%nat /\ part f 0 (num 2 (Z.of_nat rs) ++ num (y_long y) root) /\
    (2 + y_control y <= length f)%nat /\ stored y f rs root t.

(** ** The data of a node *)
Definition v7chars : list Z := lit " EANROSTILCHBDMUGPKYWFVJXZQ-'0123456789".
(** three characters in a word *)
Inductive packs : list Z -> list Z -> Prop :=
| pk_nil : packs [] []
| pk_cons a b c i j k t p :
    nth_error v7chars i = Some a -> nth_error v7chars j = Some b -> nth_error v7chars k = Some c ->
    packs t p -> packs (a :: b :: c :: t) (num 2 (1600 * Z.of_nat i + 40 * Z.of_nat j + Z.of_nat k) ++ p).
(** a number as eight hexadecimal digits *)
Definition hexnumber (x : list Z) (z : Z) : Prop := length x = 8%nat /\ is_u32 z /\ map tolower x = hex 8 z.

(** the record at [off] of the data file: 22 bytes with the lengths, telephone number, password
    and the packed text, which consists of three names, a place in the third file and more;
    at that place region and hub stand *)
Inductive describes (dat dtp : list Z) (off place hub region : Z) (p : list Z) : Prop :=
| ds_intro h phone pass bn sn cn x more :
    length h = 22%nat -> part dat (Z.to_nat off) (h ++ phone ++ pass ++ p) ->
    nth 15 h 0 = Z.of_nat (length phone) -> nth 16 h 0 = Z.of_nat (length pass) ->
    nth 17 h 0 = Z.of_nat (length bn) -> nth 18 h 0 = Z.of_nat (length sn) -> nth 19 h 0 = Z.of_nat (length cn) ->
    nth 20 h 0 = Z.of_nat (length p) ->
    (length phone < 128)%nat -> (length pass < 128)%nat -> (length p < 128)%nat ->
    (length bn < 128)%nat -> (length sn < 128)%nat -> (length cn < 128)%nat ->
    packs (bn ++ sn ++ cn ++ x ++ more) p -> hexnumber x place ->
    part dtp (Z.to_nat place) (num 2 region ++ num 2 hub) -> is_u16 region -> is_u16 hub ->
    describes dat dtp off place hub region p.

(** What a signed char holds: the bytes at the even places of the packed text, and the bytes of
    the numbers. *)
Fixpoint tame (p : list Z) : Prop := match p with a :: _ :: r => a < 128 /\ tame r | _ => True end.
Definition tame16 (z : Z) : Prop := z mod 256 < 128 /\ z < 32768.

Definition nopoint (n : node4d) : node4d := N4 (zone n) (net n) (node n) 0.
(** ** What the list says *)
Inductive says (t : tree) (dat dtp : list Z) : v7query -> v7answer -> Prop :=
| say_yes n off : In (n, off) (entries t) -> says t dat dtp (QCheck n) (ABool true)
| say_no n : (forall off, ~ In (n, off) (entries t)) -> says t dat dtp (QCheck n) (ABool false)
| say_hub n off place hub region p : In (nopoint n, off) (entries t) -> describes dat dtp off place hub region p -> says t dat dtp (QHub n) (ALong hub)
| say_region n off place hub region p : In (nopoint n, off) (entries t) -> describes dat dtp off place hub region p -> says t dat dtp (QRegion n) (ALong region)
| say_nohub n : (forall off, ~ In (nopoint n, off) (entries t)) -> says t dat dtp (QHub n) (ALong (-1))
| say_noregion n : (forall off, ~ In (nopoint n, off) (entries t)) -> says t dat dtp (QRegion n) (ALong (-1)).

Definition asked (q : v7query) : node4d := match q with QCheck n | QHub n | QRegion n => n end.
(** every node of the list has data, in which no byte that matters is above 127 *)
Definition tamedata (t : tree) (dat dtp : list Z) : Prop :=
  forall n off, In (n, off) (entries t) -> point n = 0 ->
    exists place hub region p, describes dat dtp off place hub region p /\ tame p /\ tame16 hub /\ tame16 region.
