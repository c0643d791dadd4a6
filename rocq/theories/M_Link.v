(** Linking of replies in JAM areas (crashmail/mb_jam.c:1102-1338). *)
From Verif Require Import Base M_Str M_Mem M_Jam.

(** mb_jam.c:1102-1112 struct Msg; the members are unsigned long, 64 bits wide (LP64). The
    old links are those of the message base. *)
Record lmsg := LM { l_id : Z; l_rep : Z; l_to : Z; l_first : Z; l_next : Z }.
Definition NOCRC64 := 18446744073709551615.
Definition JAMSFLD_MSGID := 4.
Definition JAMSFLD_REPLYID := 5.
(** conversion to int *)
Definition s32 (x : Z) : Z := (x + 2147483648) mod 4294967296 - 2147483648.

Definition setlm (i : nat) (f : lmsg -> lmsg) (l : list lmsg) : list lmsg :=
  match nth_error l i with None => l | Some x => firstn i l ++ f x :: skipn (S i) l end.
Definition with_to (v : Z) (m : lmsg) : lmsg := LM (l_id m) (l_rep m) v (l_first m) (l_next m).
Definition with_first (v : Z) (m : lmsg) : lmsg := LM (l_id m) (l_rep m) (l_to m) v (l_next m).
Definition with_next (v : Z) (m : lmsg) : lmsg := LM (l_id m) (l_rep m) (l_to m) (l_first m) v.

(** mb_jam.c:1205-1226: the way to the end of the chain. [fuel]: times may still be
    incremented so often. [Some (Some n)]: the end is at [n]; [Some None]: it returns; [None]:
    msgs is accessed out of bounds. *)
Fixpoint walk (fuel : nat) (msgs : list lmsg) (nummsgs base : Z) (n dest : Z) : option (option Z) :=
  match nth_error msgs (Z.to_nat n) with
  | None => None
  | Some m =>
    if l_next m =? 0 then Some (Some n) else
    match fuel with
    | O => Some None
    | S fuel =>
      let n := s32 (l_next m - base) in
      if u32 n =? dest then Some None else
      if (n <? 0) || (nummsgs <=? n) then Some None else walk fuel msgs nummsgs base n dest
    end
  end.
(** mb_jam.c:1179-1229 jam_setreply *)
Definition jam_setreply (msgs : list lmsg) (nummsgs base num dest : Z) : option (list lmsg) :=
  match nth_error msgs (Z.to_nat dest), nth_error msgs (Z.to_nat num) with
  | Some d, Some _ =>
    if negb (l_to d =? 0) then Some msgs else
    let msgs := setlm (Z.to_nat dest) (with_to (u32 (num + base))) msgs in
    match nth_error msgs (Z.to_nat num) with
    | None => None
    | Some p =>
      if l_first p =? 0 then Some (setlm (Z.to_nat num) (with_first (u32 (dest + base))) msgs) else
      let n := s32 (l_first p - base) in
      if u32 n =? dest then Some msgs else
      if (n <? 0) || (nummsgs <=? n) then Some msgs else
      do r <- walk 1000 msgs nummsgs base n dest;
      match r with
      | None => Some msgs
      | Some n => Some (setlm (Z.to_nat n) (with_next (u32 (dest + base))) msgs)
      end
    end
  | _, _ => None
  end.

(** mb_jam.c:1114-1176 jam_CompareMsgIdReply. strncmp stops at a NUL byte. *)
Definition firstfield (lo : Z) (subs : list jsub) : option (list Z) := option_map sf_data (find (fun s => sf_lo s =? lo) subs).
Definition jam_CompareMsgIdReply (quick : bool) (j : jam) (msgs : list lmsg) (msgidmsg replymsg : Z) : option bool :=
  match nth_error msgs (Z.to_nat msgidmsg), nth_error msgs (Z.to_nat replymsg) with
  | Some a, Some b =>
    if negb (l_id a =? l_rep b) then Some false else
    if quick then Some true else
    do ra <- JAM_ReadMsgHeader j msgidmsg;
    match ra with
    | Bad _ => Some false
    | Good (_, asubs) =>
      do rb <- JAM_ReadMsgHeader j replymsg;
      match rb with
      | Bad _ => Some false
      | Good (_, bsubs) =>
        match firstfield JAMSFLD_MSGID asubs, firstfield JAMSFLD_REPLYID bsubs with
        | Some x, Some y => Some ((length y =? length x)%nat && streq (cstr y) (cstr x))
        | _, _ => Some false
        end
      end
    end
  | _, _ => None
  end.
(** mb_jam.c:1258-1285: what is read of the messages *)
Definition loadmsg (j : jam) (c : nat) : lmsg :=
  match JAM_ReadOnlyHeader j (Z.of_nat c) with
  | Good h => LM (h_msgid h) (h_reply h) (h_replyto h) (h_reply1st h) (h_replynext h)
  | Bad _ => LM NOCRC64 NOCRC64 0 0 0
  end.
(** mb_jam.c:1287-1307: the pairs (parent, reply) that are looked at, in this order *)
Definition candidates (msgs : list lmsg) (oldnum nummsgs : nat) : list (nat * nat) :=
  flat_map (fun c => match nth_error msgs c with
    | None => []
    | Some m => (if l_rep m =? NOCRC64 then [] else map (fun d => (d, c)) (seq 0 nummsgs)) ++
                (if l_id m =? NOCRC64 then [] else map (fun d => (c, d)) (seq 0 nummsgs))
    end) (seq oldnum (nummsgs - oldnum)).
Fixpoint linkall (quick : bool) (j : jam) (nummsgs base : Z) (l : list (nat * nat)) (msgs : list lmsg) : option (list lmsg) :=
  match l with
  | [] => Some msgs
  | (num, dest) :: r =>
    do b <- jam_CompareMsgIdReply quick j msgs (Z.of_nat num) (Z.of_nat dest);
    do msgs <- (if b : bool then jam_setreply msgs nummsgs base (Z.of_nat num) (Z.of_nat dest) else Some msgs);
    linkall quick j nummsgs base r msgs
  end.
(** mb_jam.c:1311-1333: writing back; locking is not modelled *)
Definition with_links (h : jhdr) (m : lmsg) : jhdr :=
  JH (h_sig h) (h_rev h) (h_rsvd h) (h_sublen h) (h_times h) (h_msgid h) (h_reply h) (u32 (l_to m)) (u32 (l_first m))
     (u32 (l_next m)) (h_written h) (h_received h) (h_processed h) (h_num h) (h_attr h) (h_attr2 h) (h_txtoff h) (h_txtlen h) (h_pw h) (h_cost h).
Fixpoint writelinks (j : jam) (c : nat) (old new : list lmsg) : jam :=
  match old, new with
  | o :: old, n :: new =>
    if (l_to n =? l_to o) && (l_first n =? l_first o) && (l_next n =? l_next o) then writelinks j (S c) old new else
    match JAM_ReadOnlyHeader j (Z.of_nat c) with
    | Good h => writelinks (snd (JAM_ChangeMsgHeader j (Z.of_nat c) (with_links h n))) (S c) old new
    | Bad _ => writelinks j (S c) old new
    end
  | _, _ => j
  end.
(** mb_jam.c:1231-1338 jam_linkmb; [base] is ja->BaseNum *)
Definition jam_linkmb (quick : bool) (base oldnum : Z) (j : jam) : option jam :=
  let n := Z.to_nat (JAM_GetMBSize j) in
  let old := map (loadmsg j) (seq 0 n) in
  do new <- linkall quick j (Z.of_nat n) base (candidates old (Z.to_nat oldnum) n) old;
  Some (writelinks j 0 old new).
