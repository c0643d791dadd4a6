(** Specification of 4D address texts and of the order on addresses, written without
    reference to the parser. *)
From Verif Require Import Base M_Node4D.

Definition valid4d (n : node4d) : Prop :=
  is_u16 (zone n) /\ is_u16 (net n) /\ is_u16 (node n) /\ is_u16 (point n).

(** An address text: optional zone and ':', optional net and '/', a node part, optional
    '.' and point; every part is a possibly empty run of decimal digits. *)
Record addrtext := AT { t_zone : option (list Z); t_net : option (list Z);
                        t_node : list Z; t_point : option (list Z) }.

Definition opt_all {A} (P : A -> Prop) (o : option A) : Prop :=
  match o with Some x => P x | None => True end.
Definition addrtext_ok (t : addrtext) : Prop :=
  opt_all (Forall digit) (t_zone t) /\ opt_all (Forall digit) (t_net t) /\
  Forall digit (t_node t) /\ opt_all (Forall digit) (t_point t).

Definition render (t : addrtext) : list Z :=
  (match t_zone t with Some z => z ++ [58] | None => [] end) ++
  (match t_net t with Some n => n ++ [47] | None => [] end) ++
  t_node t ++
  (match t_point t with Some p => 46 :: p | None => [] end).

(** A part that is present (non empty) gives the number modulo 2^16, an empty part
    leaves the template's value. *)
Definition part (l : list Z) (d : Z) : Z :=
  match l with [] => d | _ => dec_val l mod 65536 end.
Definition opart (o : option (list Z)) (d : Z) : Z :=
  match o with Some l => part l d | None => d end.

(** The address a text denotes relative to a template.  With a zone but no '/', the last
    part is the net ("2:200" is net 200 of zone 2). *)
Definition denote (t : addrtext) (tpl : node4d) : node4d :=
  match t_zone t, t_net t, t_point t with
  | Some z, None, None   => N4 (part z (zone tpl)) (part (t_node t) (net tpl)) (node tpl) (point tpl)
  | Some z, None, Some p => N4 (part z (zone tpl)) (part p (net tpl)) (part (t_node t) (node tpl)) (point tpl)
  | _, _, _ => N4 (opart (t_zone t) (zone tpl)) (opart (t_net t) (net tpl))
                  (part (t_node t) (node tpl)) (opart (t_point t) (point tpl))
  end.

(** Lexicographic order on addresses. *)
Definition lt4d (a b : node4d) : Prop :=
  zone a < zone b \/ zone a = zone b /\ (net a < net b \/ net a = net b /\
  (node a < node b \/ node a = node b /\ point a < point b)).
