(** Specification of a JAM message base: a list of slots, each with a message or empty. *)
From Verif Require Import Base M_Jam.

(** A message: its header (the place of the text in its file being left out), subfields and
    text. *)
Record amsg := MSG { a_hdr : jhdr; a_subs : list jsub; a_text : list Z }.
Definition with_layout (h : jhdr) (sublen off len : Z) : jhdr :=
  JH (h_sig h) (h_rev h) (h_rsvd h) sublen (h_times h) (h_msgid h) (h_reply h) (h_replyto h) (h_reply1st h)
     (h_replynext h) (h_written h) (h_received h) (h_processed h) (h_num h) (h_attr h) (h_attr2 h) off len (h_pw h) (h_cost h).
Definition placeless (h : jhdr) : jhdr := with_layout h (h_sublen h) 0 (h_txtlen h).
(** The number of the first message, the number of messages not deleted, the slots. *)
Record abase := AB { x_num : Z; x_active : Z; x_slots : list (option amsg) }.

(** Reading a message as programs do: header and subfields, then the text. *)
Definition read_message (j : jam) (n : Z) : option (jres amsg) :=
  match JAM_ReadMsgHeader j n with
  | None => None
  | Some (Bad c) => Some (Bad c)
  | Some (Good (h, subs)) => Some (match JAM_ReadMsgText j (h_txtoff h) (h_txtlen h) with Bad c => Bad c | Good text => Good (MSG (placeless h) subs text) end)
  end.
Definition aread (s : abase) (n : Z) : jres amsg :=
  match nth_error (x_slots s) (Z.to_nat n) with
  | None => Bad JAM_IO_ERROR
  | Some None => Bad JAM_NO_MESSAGE
  | Some (Some m) => Good m
  end.

(** bit 31 of the attributes *)
Definition gone (h : jhdr) : bool := Z.testbit (h_attr h) 31.
Definition setslot (n : Z) (x : option amsg) (l : list (option amsg)) : list (option amsg) := firstn (Z.to_nat n) l ++ x :: skipn (S (Z.to_nat n)) l.
(** the size of subfields in the file *)
Definition subsize (subs : list jsub) : Z := fold_right (fun s n => 8 + Z.of_nat (length (sf_data s)) + n) 0 subs.

(** What is done to a base. A header is changed by reading it, changing any field that does
    not say where subfields and text are, and writing it back. *)
Inductive jop := Add (h : jhdr) (subs : list jsub) (text : list Z) | AddEmpty | Change (n : Z) (h : jhdr) | Delete (n : Z).
(** the header a message gets when it is added *)
Definition newhdr (num : Z) (h : jhdr) (subs : list jsub) (text : list Z) : jhdr :=
  JH (lit "JAM" ++ [0]) 1 (h_rsvd h) (subsize subs) (h_times h) (h_msgid h) (h_reply h) (h_replyto h) (h_reply1st h)
     (h_replynext h) (h_written h) (h_received h) (h_processed h) num (h_attr h) (h_attr2 h) 0 (Z.of_nat (length text)) (h_pw h) (h_cost h).
Definition astep (s : abase) (o : jop) : abase :=
  match o with
  | Add h subs text =>
    AB (x_num s) (if gone h then x_active s else x_active s + 1)
       (x_slots s ++ [Some (MSG (newhdr ((x_num s + Z.of_nat (length (x_slots s))) mod 4294967296) h subs text) subs text)])
  | AddEmpty => AB (x_num s) (x_active s) (x_slots s ++ [None])
  | Change n h =>
    match aread s n with
    | Bad _ => s
    | Good m => AB (x_num s) (if gone h && negb (gone (a_hdr m)) then x_active s - 1 else x_active s)
                   (setslot n (Some (MSG (with_layout h (h_sublen (a_hdr m)) 0 (h_txtlen (a_hdr m))) (a_subs m) (a_text m))) (x_slots s))
    end
  | Delete n =>
    match aread s n with
    | Bad _ => s
    | Good m => AB (x_num s) (if gone (a_hdr m) then x_active s else x_active s - 1) (setslot n None (x_slots s))
    end
  end.
(** the library doing the same; [None]: undefined behaviour *)
Definition jstep (crc : list Z -> Z) (j : jam) (o : jop) : option jam :=
  match o with
  | Add h subs text => option_map snd (JAM_AddMessage crc nocuts j h subs text)
  | AddEmpty => Some (snd (JAM_AddEmptyMessage j))
  | Change n h =>
    match JAM_ReadOnlyHeader j n with
    | Bad _ => Some j
    | Good old => Some (snd (JAM_ChangeMsgHeader j n (with_layout h (h_sublen old) (h_txtoff old) (h_txtlen old))))
    end
  | Delete n => Some (snd (JAM_DeleteMessage j n))
  end.
Fixpoint jrun (crc : list Z -> Z) (j : jam) (l : list jop) : option jam :=
  match l with [] => Some j | o :: r => match jstep crc j o with None => None | Some j => jrun crc j r end end.

(** ** What the arguments must be *)
Definition hdr_fine (h : jhdr) : Prop :=
  length (h_sig h) = 4%nat /\ is_u16 (h_rev h) /\ is_u16 (h_rsvd h) /\
  Forall is_u32 [h_times h; h_msgid h; h_reply h; h_replyto h; h_reply1st h; h_replynext h; h_written h; h_received h; h_processed h; h_num h; h_attr h; h_attr2 h; h_pw h; h_cost h].
Definition sub_fine (s : jsub) : Prop := is_u16 (sf_lo s) /\ is_u16 (sf_hi s) /\ (sf_lo s = JAMSFLD_RECVRNAME -> (length (sf_data s) <= 100)%nat).
Definition op_fine (o : jop) : Prop :=
  match o with
  | Add h subs text => hdr_fine h /\ Forall sub_fine subs /\ subsize subs < 2147483648 /\ Z.of_nat (length text) < 4294967296
  | AddEmpty => True
  | Change n h => 0 <= n /\ hdr_fine h
  | Delete n => 0 <= n
  end.
(** what the operations add to the files *)
Definition opsize (o : jop) : Z := match o with Add h subs text => 76 + subsize subs + Z.of_nat (length text) | _ => 0 end.
(** the files stay below the limit of the format *)
Definition sizes (l : list jop) : Z := 1024 + fold_right (fun o n => opsize o + n) 0 l.

(** ** Counting *)
(** the messages that can be read and are not marked as deleted *)
Definition live_number (j : jam) : Z :=
  Z.of_nat (length (filter (fun n => match read_message j (Z.of_nat n) with Some (Good m) => negb (gone (a_hdr m)) | _ => false end) (seq 0 (Z.to_nat (JAM_GetMBSize j))))).
(** a history in which no message marked as deleted has the mark taken away *)
Fixpoint no_undelete (s : abase) (l : list jop) : Prop :=
  match l with
  | [] => True
  | o :: r => match o with Change n h => match aread s n with Good m => gone (a_hdr m) = true -> gone h = true | Bad _ => True end | _ => True end /\ no_undelete (astep s o) r
  end.
