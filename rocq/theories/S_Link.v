(** Specification of reply chains. *)
From Verif Require Import Base M_Str M_Jam S_Jam M_Link.

(** [c] is the list of messages one comes to from [start] on, by way of the links to the next
    reply. Messages have numbers from [base] on; 0 is no message. *)
Fixpoint follows (msgs : list lmsg) (base start : Z) (c : list nat) : Prop :=
  match c with
  | [] => start = 0
  | d :: r => start = base + Z.of_nat d /\ exists m, nth_error msgs d = Some m /\ follows msgs base (l_next m) r
  end.
(** the chain of replies of a message *)
Definition chain (msgs : list lmsg) (base : Z) (i : nat) (c : list nat) : Prop := exists m, nth_error msgs i = Some m /\ follows msgs base (l_first m) c.
Definition replyto (msgs : list lmsg) (d : nat) : option Z := option_map l_to (nth_error msgs d).
(** a message that can be read *)
Definition present (m : lmsg) : Prop := l_id m <> NOCRC64.
(** Every message has a chain, in which each of its replies is once and nothing else; what is
    not a reply is in no chain. *)
Definition wellformed (msgs : list lmsg) (base : Z) : Prop :=
  (forall i m, nth_error msgs i = Some m -> present m -> exists c, chain msgs base i c /\ NoDup c /\ forall d, In d c <-> replyto msgs d = Some (base + Z.of_nat i)) /\
  (forall d m, nth_error msgs d = Some m -> l_to m = 0 -> l_next m = 0).
(** the number of replies to a message *)
Definition replies (msgs : list lmsg) (base : Z) (i : nat) : nat := length (filter (fun m => l_to m =? base + Z.of_nat i) msgs).

(** ** The links in a message base *)
Definition links_of (h : jhdr) : lmsg := LM (h_msgid h) (h_reply h) (h_replyto h) (h_reply1st h) (h_replynext h).
Definition links (j : jam) : list lmsg :=
  map (fun n => match read_message j (Z.of_nat n) with Some (Good m) => links_of (a_hdr m) | _ => LM NOCRC64 NOCRC64 0 0 0 end) (seq 0 (Z.to_nat (JAM_GetMBSize j))).
(** the same message with the links [x] *)
Definition relinked (m : amsg) (x : lmsg) : amsg :=
  let h := a_hdr m in
  MSG (JH (h_sig h) (h_rev h) (h_rsvd h) (h_sublen h) (h_times h) (h_msgid h) (h_reply h) (l_to x) (l_first x) (l_next x) (h_written h) (h_received h)
       (h_processed h) (h_num h) (h_attr h) (h_attr2 h) (h_txtoff h) (h_txtlen h) (h_pw h) (h_cost h)) (a_subs m) (a_text m).
(** the first subfield of a type *)
Fixpoint field (t : Z) (l : list jsub) : option (list Z) := match l with [] => None | s :: r => if sf_lo s =? t then Some (sf_data s) else field t r end.
(** [reply] replies to [parent]: the checksums are the same and, unless [quick], the MSGID is
    the REPLY (both are compared up to a NUL byte). *)
Definition refers (quick : bool) (parent reply : amsg) : Prop :=
  h_msgid (a_hdr parent) = h_reply (a_hdr reply) /\
  (quick = true \/ exists x y, field 4 (a_subs parent) = Some x /\ field 5 (a_subs reply) = Some y /\ length x = length y /\ cstr x = cstr y).
