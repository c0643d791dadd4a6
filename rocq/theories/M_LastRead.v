(** Model of src/jamlib/lastread.c and of the lastread part of src/jamlib/structrw.c: the
    file .jlr of a JAM base. Errors of fseek, fread (other than the end of the file) and
    fwrite are not modelled; files are shorter than 2 GB, so that positions fit in an int.
    What one process has written is seen by the others (lastread.c:130 and :171 fflush). *)
From Verif Require Import Base M_Jam.

(** jam.h: s_JamLastRead *)
Record lrec := LR { r_crc : Z; r_id : Z; r_last : Z; r_high : Z }.
(** structrw.c:195-208 fwritejamlastread, :180-193 freadjamlastread *)
Definition lrbytes (r : lrec) : list Z := le32 (r_crc r) ++ le32 (r_id r) ++ le32 (r_last r) ++ le32 (r_high r).
Definition getlr (l : list Z) : lrec := LR (get32 l 0) (get32 l 4) (get32 l 8) (get32 l 12).

(** jam.h:217-218: LastUserPos_I and LastUserId_I of an open base; both are 0 after
    JAM_OpenMB *)
Record lrh := LH { l_pos : Z; l_id : Z }.
Definition lrh0 : lrh := LH 0 0.

(** lastread.c:63-79 and :142-165: the position of the first record of a user; [Some None]
    at the end of the file. [None]: lack of fuel, which does not happen (C56_map). *)
Fixpoint lrfind (fuel : nat) (f : list Z) (user pos : Z) : option (option (Z * lrec)) :=
  match fuel with
  | O => None
  | S n =>
    match freadat (pos * 16) 16 f with
    | None => Some None
    | Some l => if r_id (getlr l) =? user then Some (Some (pos, getlr l)) else lrfind n f user (pos + 1)
    end
  end.

(** lastread.c:49-82 JAM_ReadLastRead. JAM_NO_USER is 6 (jam.h:52). *)
Definition JAM_NO_USER := 6.
Definition JAM_ReadLastRead (f : list Z) (h : lrh) (user : Z) : option (jres lrec * lrh) :=
  match lrfind (S (length f)) f user 0 with
  | None => None
  | Some None => Some (Bad JAM_NO_USER, h)
  | Some (Some (pos, r)) => Some (Good r, LH pos user)
  end.
(** lastread.c:89-174 JAM_WriteLastRead: the code and the file. *)
Definition JAM_WriteLastRead (f : list Z) (h : lrh) (user : Z) (r : lrec) : option (Z * list Z) :=
  (* lastread.c:135-173: no last position, or position incorrect *)
  let search := match lrfind (S (length f)) f user 0 with
                | None => None
                | Some None => Some (0, f ++ lrbytes r)
                | Some (Some (pos, _)) => Some (0, fwriteat (pos * 16) (lrbytes r) f)
                end in
  (* lastread.c:99-133 *)
  if user =? l_id h then
    match freadat (l_pos h * 16) 16 f with
    | None => Some (JAM_IO_ERROR, f)
    | Some l => if r_id (getlr l) =? user then Some (0, fwriteat (l_pos h * 16) (lrbytes r) f) else search
    end
  else search.
