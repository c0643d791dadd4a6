(** Model of Compare and DetectPacker of src/crashmail/toss.c. *)
From Verif Require Import Base M_Str M_Mem M_Out.

(** toss.c:3-29 Compare; [None]: the text is read beyond its end *)
Fixpoint Compare (str recog : list Z) : option bool :=
  match recog with
  | [] => Some true
  | x :: r =>
    match str with
    | [] => None
    | c :: s =>
      if x =? 36 then
        if negb (c =? hextodec (firstn 2 r) mod 256) then Some false else
        match r with _ :: _ :: r' => Compare s r' | _ => Some true end
      else if negb (c =? x) && negb (x =? 63) then Some false
      else Compare s r
    end
  end.
(** fido.h struct Packer: Name and Recog *)
Record packer := PK { pk_name : list Z; pk_recog : list Z }.
(** toss.c:48-52 *)
Fixpoint findpacker (buf : list Z) (l : list packer) : option (option packer) :=
  match l with
  | [] => Some None
  | p :: r => do m <- Compare buf (pk_recog p); if m : bool then Some (Some p) else findpacker buf r
  end.
(** toss.c:31-53 DetectPacker; [None]: the file cannot be opened; [junk]: what the buffer
    held before *)
Definition DetectPacker (junk : list Z) (file : option (list Z)) (l : list packer) : option (option packer) :=
  match file with
  | None => Some None
  | Some f => let got := firstn 40 f in findpacker (got ++ skipn (length got) junk) l
  end.
