(** Specification of the maintenance of a JAM area. *)
From Verif Require Import Base M_Jam S_Jam.

Definition mark (m : amsg) : amsg := MSG (with_attr (a_hdr m) (Z.setbit (h_attr (a_hdr m)) 31)) (a_subs m) (a_text m).
Definition live (x : option amsg) : bool := match x with Some m => negb (gone (a_hdr m)) | None => false end.
Definition count_live (l : list (option amsg)) : Z := Z.of_nat (length (filter live l)).
(** The day a message is from: the first of these that is known. *)
Definition day_of (h : jhdr) : Z := hd 0 (filter (fun d => negb (d =? 0)) [h_received h / 86400; h_processed h / 86400; h_written h / 86400]).
(** Slot [i] holds one of the oldest messages that are more than [keep]. *)
Definition surplus (keep : Z) (l : list (option amsg)) (i : nat) : bool := count_live (firstn i l) <? count_live l - keep.
(** More than [keep] days old, the subtraction being one of unsigned 32 bit numbers. *)
Definition outdated (keep today : Z) (m : amsg) : bool := keep <? (today - day_of (a_hdr m)) mod 4294967296.
(** Whether the message in slot [i] is to go; 0 means no limit. *)
Definition expires (keepnum keepdays today : Z) (l : list (option amsg)) (i : nat) (m : amsg) : bool :=
  (negb (keepnum =? 0) && surplus keepnum l i) || (negb (keepdays =? 0) && outdated keepdays today m).
(** the same message with the number [n] and the marks of the library *)
Definition renum (n : Z) (m : amsg) : amsg :=
  let h := a_hdr m in
  MSG (JH (lit "JAM" ++ [0]) 1 (h_rsvd h) (h_sublen h) (h_times h) (h_msgid h) (h_reply h) (h_replyto h) (h_reply1st h)
       (h_replynext h) (h_written h) (h_received h) (h_processed h) n (h_attr h) (h_attr2 h) (h_txtoff h) (h_txtlen h) (h_pw h) (h_cost h)) (a_subs m) (a_text m).
