(** Model of src/jamlib/message.c, mbase.c, subpack.c and structrw.c: the files of a JAM
    message base and the functions that read and change messages.

    Simplifications: a base is its four files; a FILE position is only used after fseek, so
    that reading and writing take the offset as an argument; the base is locked; malloc
    succeeds; a subfield packet is the list of its subfields (subpack.c:57-201). Words are
    little endian (structrw.c:30-48, on the processors supported). *)
From Verif Require Import Base M_Str M_Mem M_Cfg.

(** jam.h:47-54 *)
Definition JAM_IO_ERROR := 2.
Definition JAM_NO_MEMORY := 5.
Definition JAM_NO_USER := 6.
Definition JAM_NO_MESSAGE := 7.
Definition JAM_CORRUPT_MSG := 8.
(** jam.h:60, :120, :74, :73 *)
Definition JAM_NO_CRC := 4294967295.
Definition MSG_DELETED := 2147483648.
Definition HEADERSIGNATURE : list Z := [74; 65; 77; 0].
Definition CURRENTREVLEV := 1.
(** jam.h:154 *)
Definition JAMSFLD_RECVRNAME := 3.

(** A function returns its value or an error code. *)
Inductive jres (A : Type) := Good (x : A) | Bad (code : Z).
Arguments Good {A} x.
Arguments Bad {A} code.

(** jam.h:79-87 *)
Record jbase := JB { b_sig : list Z; b_created : Z; b_mod : Z; b_active : Z; b_pw : Z; b_num : Z; b_rsrvd : list Z }.
(** jam.h:125-146 *)
Record jhdr := JH { h_sig : list Z; h_rev : Z; h_rsvd : Z; h_sublen : Z; h_times : Z; h_msgid : Z; h_reply : Z; h_replyto : Z; h_reply1st : Z;
  h_replynext : Z; h_written : Z; h_received : Z; h_processed : Z; h_num : Z; h_attr : Z; h_attr2 : Z; h_txtoff : Z; h_txtlen : Z; h_pw : Z; h_cost : Z }.
(** jam.h:176-181; DatLen is the length of the data *)
Record jsub := SF { sf_lo : Z; sf_hi : Z; sf_data : list Z }.
(** the files of a base: .jhr, .jdt, .jdx, .jlr *)
Record jam := JAM { j_hdr : list Z; j_txt : list Z; j_idx : list Z; j_lrd : list Z }.

(** fseek(f,off,SEEK_SET) and fread(buf,n,1,f); [None]: less than n bytes there *)
Definition freadat (off : Z) (n : nat) (f : list Z) : option (list Z) :=
  if off + Z.of_nat n <=? Z.of_nat (length f) then Some (firstn n (skipn (Z.to_nat off) f)) else None.
(** fseek(f,off,SEEK_SET) and fwrite: bytes behind the end in front of [off] become 0 *)
Definition fwriteat (off : Z) (bs f : list Z) : list Z :=
  let o := Z.to_nat off in firstn o f ++ repeat 0 (o - length f) ++ bs ++ skipn (o + length bs) f.
(** fwrite of [bs] at the end. [cut]: [None] if it succeeds; [Some k] if it reports an error,
    [k] bytes having been written *)
Definition fappend_cut (cut : option nat) (bs f : list Z) : list Z * bool :=
  match cut with None => (f ++ bs, true) | Some k => (f ++ firstn k bs, false) end.

(** structrw.c:70-88 fwritejambaseheader, :50-68 freadjambaseheader *)
Definition basebytes (b : jbase) : list Z :=
  b_sig b ++ le32 (b_created b) ++ le32 (b_mod b) ++ le32 (b_active b) ++ le32 (b_pw b) ++ le32 (b_num b) ++ b_rsrvd b.
Definition getbase (l : list Z) : jbase :=
  JB (firstn 4 l) (get32 l 4) (get32 l 8) (get32 l 12) (get32 l 16) (get32 l 20) (firstn 1000 (skipn 24 l)).
(** structrw.c:122-152 fwritejammsgheader, :90-120 freadjammsgheader *)
Definition hdrbytes (h : jhdr) : list Z :=
  h_sig h ++ le16 (h_rev h) ++ le16 (h_rsvd h) ++ le32 (h_sublen h) ++ le32 (h_times h) ++ le32 (h_msgid h) ++ le32 (h_reply h) ++ le32 (h_replyto h) ++
  le32 (h_reply1st h) ++ le32 (h_replynext h) ++ le32 (h_written h) ++ le32 (h_received h) ++ le32 (h_processed h) ++ le32 (h_num h) ++ le32 (h_attr h) ++
  le32 (h_attr2 h) ++ le32 (h_txtoff h) ++ le32 (h_txtlen h) ++ le32 (h_pw h) ++ le32 (h_cost h).
Definition gethdr (l : list Z) : jhdr :=
  JH (firstn 4 l) (get16 l 4) (get16 l 6) (get32 l 8) (get32 l 12) (get32 l 16) (get32 l 20) (get32 l 24) (get32 l 28) (get32 l 32) (get32 l 36)
     (get32 l 40) (get32 l 44) (get32 l 48) (get32 l 52) (get32 l 56) (get32 l 60) (get32 l 64) (get32 l 68) (get32 l 72).
(** structrw.c:167-178 fwritejamindex, :154-165 freadjamindex: UserCRC, HdrOffset *)
Definition idxbytes (e : Z * Z) : list Z := le32 (fst e) ++ le32 (snd e).
Definition getidx (l : list Z) : Z * Z := (get32 l 0, get32 l 4).
(** structrw.c:210-222 fwritejamsavesubfield, then the data (message.c:400-414) *)
Definition subbytes (s : jsub) : list Z := le16 (sf_lo s) ++ le16 (sf_hi s) ++ le32 (Z.of_nat (length (sf_data s))) ++ sf_data s.

(** mbase.c:348-364 JAM_ReadMBHeader *)
Definition JAM_ReadMBHeader (j : jam) : jres jbase :=
  match freadat 0 1024 (j_hdr j) with None => Bad JAM_IO_ERROR | Some l => Good (getbase l) end.
(** mbase.c:372-397 JAM_WriteMBHeader, the write succeeding. The header of the caller is
    changed too. *)
Definition stamped (b : jbase) : jbase := JB HEADERSIGNATURE (b_created b) (u32 (b_mod b + 1)) (b_active b) (b_pw b) (b_num b) (b_rsrvd b).
Definition JAM_WriteMBHeader (j : jam) (b : jbase) : jam * jbase :=
  (JAM (fwriteat 0 (basebytes (stamped b)) (j_hdr j)) (j_txt j) (j_idx j) (j_lrd j), stamped b).
(** mbase.c:147-193 JAM_CreateMB: new files, at the time [now] *)
Definition JAM_CreateMB (now base : Z) : jam :=
  fst (JAM_WriteMBHeader (JAM [] [] [] []) (JB [] (u32 now) 0 0 4294967295 base (repeat 0 1000))).
(** mbase.c:263-282 JAM_GetMBSize *)
Definition JAM_GetMBSize (j : jam) : Z := u32 (Z.of_nat (length (j_idx j)) / 8).

(** message.c:68-89: the index record; MsgNo_I * sizeof(s_JamIndex) is computed in size_t *)
Definition readindex (j : jam) (n : Z) : option (Z * Z) := option_map getidx (freadat (n * 8) 8 (j_idx j)).
Definition nomessage (e : Z * Z) : bool := (snd e =? 4294967295) && (fst e =? 4294967295).
(** message.c:134-160: the subfields of a buffer. [None]: a subfield header is read behind
    the end of the buffer. The fuel is the size of the buffer and one more, each step takes
    at least the eight bytes of a subfield header. *)
Fixpoint cutout (fuel : nat) (l : list Z) : option (jres (list jsub)) :=
  match fuel with
  | O => None
  | S fuel =>
    match l with
    | [] => Some (Good [])
    | _ =>
      if (length l <? 8)%nat then None else
      let len := get32 l 4 in
      if Z.of_nat (length l) <? 8 + len then Some (Bad JAM_CORRUPT_MSG) else
      let n := Z.to_nat len in
      do r <- cutout fuel (skipn n (skipn 8 l));
      Some (match r with Good subs => Good (SF (get16 l 0) (get16 l 2) (firstn n (skipn 8 l)) :: subs) | Bad c => Bad c end)
    end
  end.
(** message.c:68-173 JAM_ReadMsgHeader, with subfields; [None]: undefined behaviour. A length
    of the subfields above 2^31 is negative in BufSize_I and malloc fails. *)
Definition JAM_ReadMsgHeader (j : jam) (n : Z) : option (jres (jhdr * list jsub)) :=
  match readindex j n with
  | None => Some (Bad JAM_IO_ERROR)
  | Some e =>
    if nomessage e then Some (Bad JAM_NO_MESSAGE) else
    match freadat (snd e) 76 (j_hdr j) with
    | None => Some (Bad JAM_IO_ERROR)
    | Some l =>
      let h := gethdr l in
      if h_sublen h =? 0 then Some (Good (h, [])) else
      if 2147483648 <=? h_sublen h then Some (Bad JAM_NO_MEMORY) else
      match freadat (snd e + 76) (Z.to_nat (h_sublen h)) (j_hdr j) with
      | None => Some (Bad JAM_IO_ERROR)
      | Some buf =>
        do r <- cutout (S (length buf)) buf;
        Some (match r with Good subs => Good (h, subs) | Bad c => Bad c end)
      end
    end
  end.
(** the same without subfields (SubfieldPack_PPS NULL) *)
Definition JAM_ReadOnlyHeader (j : jam) (n : Z) : jres jhdr :=
  match readindex j n with
  | None => Bad JAM_IO_ERROR
  | Some e =>
    if nomessage e then Bad JAM_NO_MESSAGE else
    match freadat (snd e) 76 (j_hdr j) with None => Bad JAM_IO_ERROR | Some l => Good (gethdr l) end
  end.
(** message.c:180-202 JAM_ReadMsgText *)
Definition JAM_ReadMsgText (j : jam) (off len : Z) : jres (list Z) :=
  if len =? 0 then Good [] else
  match freadat off (Z.to_nat len) (j_txt j) with None => Bad JAM_IO_ERROR | Some l => Good l end.

(** message.c:209-276 JAM_ChangeMsgHeader, the writes succeeding *)
Definition deleted (h : jhdr) : bool := negb (Z.land (h_attr h) MSG_DELETED =? 0).
Definition with_active (b : jbase) (n : Z) : jbase := JB (b_sig b) (b_created b) (b_mod b) n (b_pw b) (b_num b) (b_rsrvd b).
Definition JAM_ChangeMsgHeader (j : jam) (n : Z) (h : jhdr) : Z * jam :=
  match JAM_ReadMBHeader j with
  | Bad c => (c, j)
  | Good b =>
    match readindex j n with
    | None => (JAM_IO_ERROR, j)
    | Some e =>
      match freadat (snd e) 76 (j_hdr j) with
      | None => (JAM_IO_ERROR, j)
      | Some l =>
        let j := JAM (fwriteat (snd e) (hdrbytes h) (j_hdr j)) (j_txt j) (j_idx j) (j_lrd j) in
        (0, fst (JAM_WriteMBHeader j (if deleted h && negb (deleted (gethdr l)) then with_active b (u32 (b_active b - 1)) else b)))
      end
    end
  end.

(** What may fail in JAM_AddMessage: the writes to the text file, to the header file (header
    and subfields, which are written one after the other), to the index and of the header of
    the base. *)
Record cuts := CUT { c_txt : option nat; c_hdr : option nat; c_idx : option nat; c_base : option nat }.
Definition nocuts := CUT None None None None.
(** message.c:344-352: the size of the subfields *)
Definition totlen (subs : list jsub) : Z := fold_left (fun n s => u32 (n + (8 + Z.of_nat (length (sf_data s))))) subs 0.
(** message.c:416-420: User_AC, an array of 101 bytes; [None]: it overflows. (The model
    looks at this also if a write fails before.) *)
Fixpoint username (subs : list jsub) (user : list Z) : option (list Z) :=
  match subs with
  | [] => Some user
  | s :: r =>
    if sf_lo s =? JAMSFLD_RECVRNAME then
      if (100 <? length (sf_data s))%nat then None else username r (cstr (sf_data s))
    else username r user
  end.
(** message.c:283-462 JAM_AddMessage: the status, the base, and the header of the caller,
    which is changed. [crc] stands for JAM_Crc32 (see M_JamCrc). *)
Definition JAM_AddMessage (crc : list Z -> Z) (cut : cuts) (j : jam) (h : jhdr) (subs : list jsub) (text : list Z) : option (Z * jam) :=
  match JAM_ReadMBHeader j with
  | Bad c => Some (c, j)
  | Good b =>
    let '(txt, ok1) := match text with [] => (j_txt j, true) | _ => fappend_cut (c_txt cut) text (j_txt j) end in
    let j1 := JAM (j_hdr j) txt (j_idx j) (j_lrd j) in
    if negb ok1 then Some (JAM_IO_ERROR, j1) else
    let h := JH HEADERSIGNATURE CURRENTREVLEV (h_rsvd h) (totlen subs) (h_times h) (h_msgid h) (h_reply h) (h_replyto h) (h_reply1st h)
               (h_replynext h) (h_written h) (h_received h) (h_processed h) (u32 (Z.of_nat (length (j_idx j)) / 8 + b_num b)) (h_attr h) (h_attr2 h)
               (match text with [] => 0 | _ => u32 (Z.of_nat (length (j_txt j))) end) (u32 (Z.of_nat (length text))) (h_pw h) (h_cost h) in
    let off := u32 (Z.of_nat (length (j_hdr j))) in
    let '(hdr, ok2) := fappend_cut (c_hdr cut) (hdrbytes h ++ concat (map subbytes subs)) (j_hdr j) in
    do user <- username subs [];
    let j2 := JAM hdr txt (j_idx j) (j_lrd j) in
    if negb ok2 then Some (JAM_IO_ERROR, j2) else
    let '(idx, ok3) := fappend_cut (c_idx cut) (idxbytes (match user with [] => JAM_NO_CRC | _ => crc user end, off)) (j_idx j) in
    let j3 := JAM hdr txt idx (j_lrd j) in
    if negb ok3 then Some (JAM_IO_ERROR, j3) else
    let b := if deleted h then b else with_active b (u32 (b_active b + 1)) in
    match c_base cut with
    | None => Some (0, fst (JAM_WriteMBHeader j3 b))
    | Some k => Some (JAM_IO_ERROR, JAM (fwriteat 0 (firstn k (basebytes (stamped b))) hdr) txt idx (j_lrd j))
    end
  end.
(** message.c:469-498 JAM_AddEmptyMessage, the write succeeding *)
Definition JAM_AddEmptyMessage (j : jam) : Z * jam := (0, JAM (j_hdr j) (j_txt j) (j_idx j ++ idxbytes (4294967295, 4294967295)) (j_lrd j)).
(** message.c:505-594 JAM_DeleteMessage, the writes succeeding *)
Definition with_attr (h : jhdr) (a : Z) : jhdr :=
  JH (h_sig h) (h_rev h) (h_rsvd h) (h_sublen h) (h_times h) (h_msgid h) (h_reply h) (h_replyto h) (h_reply1st h)
     (h_replynext h) (h_written h) (h_received h) (h_processed h) (h_num h) a (h_attr2 h) (h_txtoff h) (h_txtlen h) (h_pw h) (h_cost h).
Definition JAM_DeleteMessage (j : jam) (n : Z) : Z * jam :=
  match JAM_ReadMBHeader j with
  | Bad c => (c, j)
  | Good b =>
    match readindex j n with
    | None => (JAM_IO_ERROR, j)
    | Some e =>
      if nomessage e then (JAM_NO_MESSAGE, j) else
      match freadat (snd e) 76 (j_hdr j) with
      | None => (JAM_IO_ERROR, j)
      | Some l =>
        let h := gethdr l in
        let j := JAM (fwriteat (snd e) (hdrbytes (with_attr h (Z.lor (h_attr h) MSG_DELETED))) (j_hdr j)) (j_txt j)
                     (fwriteat (n * 8) (idxbytes (4294967295, 4294967295)) (j_idx j)) (j_lrd j) in
        (0, fst (JAM_WriteMBHeader j (if deleted h then b else with_active b (u32 (b_active b - 1)))))
      end
    end
  end.
(** mbase.c:404-438 JAM_FindUser: the first message from [n] on to a user; the fuel is the
    number of index records and one more *)
Fixpoint finduser (fuel : nat) (j : jam) (crc n : Z) : jres Z :=
  match fuel with
  | O => Bad JAM_NO_USER
  | S fuel => match readindex j n with None => Bad JAM_NO_USER | Some e => if fst e =? crc then Good n else finduser fuel j crc (n + 1) end
  end.
Definition JAM_FindUser (j : jam) (crc start : Z) : jres Z := finduser (S (length (j_idx j))) j crc start.
