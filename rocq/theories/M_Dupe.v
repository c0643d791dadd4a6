(** Model of src/crashmail/dupe.c. The database file is its list of bytes. Failing writes
    are not modelled. *)
From Verif Require Import Base M_Fs M_Crc M_Mem.

(** the globals of dupe.c:53-63. [d_ix] holds dupebuf[0..dupeentrymax-1] as pairs of
    offset and crc, so dupeentrymax is its length. *)
Record dupedb := DB { d_ix : list (Z * Z); d_num : nat; d_file : list Z; d_changed : bool }.

(** dupe.c:65-77 adddupeindex; [None]: write outside dupebuf. N is cfg_DupeSize. *)
Definition adddupeindex (N : nat) (ix : list (Z * Z)) (num : nat) (offset crc : Z) : option (list (Z * Z) * nat) :=
  if Nat.ltb num N then
    let ix' := if Nat.ltb num (length ix) then firstn num ix ++ (offset, crc) :: skipn (S num) ix else ix ++ [(offset, crc)] in
    let num' := S num in
    Some (ix', if Nat.eqb num' N then 0%nat else num')
  else None.

(** osSeek and osRead of a size word and as many bytes: dupe.c:84-90, :299-303 *)
Definition readrec (file : list Z) (offset : Z) : option (Z * list Z) :=
  let s := skipn (Z.to_nat offset) file in
  if Nat.ltb (length (firstn 2 s)) 2 then None
  else let size := get16 s 0 in
       let b := firstn (Z.to_nat size) (skipn 2 s) in
       if Nat.ltb (length b) (Z.to_nat size) then None else Some (size, b).

(** dupe.c:79-107 copydupe: the bytes appended to the new file. The index parameter is a
    uint16_t. [None]: outside dupebuf, or more than the 300 bytes of buf. *)
Definition copydupe (ix : list (Z * Z)) (file : list Z) (c : nat) : option (list Z) :=
  match nth_error ix (Z.to_nat (u16 (Z.of_nat c))) with
  | None => None
  | Some (off, _) =>
    match readrec file off with
    | None => Some []
    | Some (size, b) => if 300 <? size then None else Some (le16 size ++ b)
    end
  end.

(** dupe.c:155-177: the loop over the records of the file. [s]: rest of the file,
    [buf]: contents of buf, of which the first four bytes are used. [None]: FALSE is
    returned; [Some None]: undefined behaviour or lack of fuel. *)
Fixpoint readindex (fuel N : nat) (offset : Z) (buf s : list Z) (ix : list (Z * Z)) (num : nat)
    : option (option (list (Z * Z) * nat)) :=
  match fuel with
  | O => Some None
  | S f =>
    match s with
    | a :: b :: r =>
      let size := a + 256 * b in
      if (size =? 0) || (300 <? size) then None
      else if Nat.ltb (length r) (Z.to_nat size) then None
      else
        let d := firstn (Z.to_nat size) r in
        let buf' := d ++ skipn (length d) buf in
        match adddupeindex N ix num offset (get32 buf' 0) with
        | None => Some None
        | Some (ix', num') => readindex f N (u32 (offset + size + 2)) buf' (skipn (Z.to_nat size) r) ix' num'
        end
    | _ => Some (Some (ix, num))
    end
  end.

Definition DUPEID : list Z := lit "CDU2".
(** dupe.c:109-182 OpenDupeDB on the contents of the file (empty if it does not exist).
    [None]: FALSE returned; [Some None]: undefined. *)
Definition OpenDupeDB (N : nat) (file : list Z) : option (option dupedb) :=
  match file with
  | [] => Some (Some (DB [] 0 DUPEID false))
  | _ =>
    if streq (firstn 4 file) DUPEID then
      match readindex (S (length file)) N 4 (DUPEID ++ [0]) (skipn 4 file) [] 0 with
      | None => None
      | Some None => Some None
      | Some (Some (ix, num)) => Some (Some (DB ix num file false))
      end
    else None
  end.

(** dupe.c:211-217: the contents of the new file *)
Fixpoint copyall (ix : list (Z * Z)) (file : list Z) (cs : list nat) : option (list Z) :=
  match cs with
  | [] => Some []
  | c :: r => do x <- copydupe ix file c; do y <- copyall ix file r; Some (x ++ y)
  end.
Definition newdupefile (db : dupedb) : option (list Z) :=
  do a <- copyall (d_ix db) (d_file db) (seq (d_num db) (length (d_ix db) - d_num db));
  do b <- copyall (d_ix db) (d_file db) (seq 0 (d_num db));
  Some (DUPEID ++ a ++ b).
(** dupe.c:184-229 CloseDupeDB: the contents of the dupe file afterwards *)
Definition CloseDupeDB (db : dupedb) : option (list Z) :=
  if d_changed db then newdupefile db else Some (d_file db).
(** dupe.c:196-226: the same on a file system, as the list of the states it goes through
    (the temporary file is written in steps of any size; here it is empty, then complete).
    The dupe file itself holds [d_file db] while it is open. *)
Definition CloseSteps (fs : fsys) (name : list Z) (db : dupedb) : option (list fsys) :=
  if d_changed db then
    do new <- newdupefile db;
    let fs0 := fput fs name (d_file db) in
    let tmp := name ++ lit ".tmp" in
    let fs1 := fput fs0 tmp [] in
    let fs2 := fput fs0 tmp new in
    let fs3 := osDelete fs2 name in
    do fs4 <- osRename fs3 tmp name;
    Some [fs0; fs1; fs2; fs3; fs4]
  else Some [fput fs name (d_file db)].

(** dupe.c:273-292: the record; [None]: MSGID outside the CRC table, or more than the 300
    bytes of dbuf *)
Definition duperec (msgid area : list Z) : option (Z * list Z) :=
  do crc <- calcstringcrc msgid;
  let b := le32 crc ++ msgid ++ [0] ++ area ++ [0] in
  if Nat.ltb 300 (length b) then None else Some (crc, b).
(** dupe.c:231-261 AddDupeBuf *)
Definition AddDupeBuf (N : nat) (db : dupedb) (b : list Z) : option dupedb :=
  do r <- adddupeindex N (d_ix db) (d_num db) (u32 (Z.of_nat (length (d_file db)))) (get32 b 0);
  Some (DB (fst r) (snd r) (d_file db ++ le16 (Z.of_nat (length b)) ++ b) true).
(** dupe.c:263-271, :294-306: comparison with one entry *)
Definition dupehit (file : list Z) (crc : Z) (b : list Z) (e : Z * Z) : bool :=
  (snd e =? crc) &&
  match readrec file (fst e) with
  | Some (size, d) => (size =? Z.of_nat (length b)) && streq d b
  | None => false
  end.
(** dupe.c:273-312 CheckDupe; [None]: undefined *)
Definition CheckDupe (N : nat) (db : dupedb) (msgid area : list Z) : option (bool * dupedb) :=
  match msgid with
  | [] => Some (false, db)
  | _ =>
    do r <- duperec msgid area;
    let '(crc, b) := r in
    if existsb (dupehit (d_file db) crc b) (d_ix db) then Some (true, db)
    else do db' <- AddDupeBuf N db b; Some (false, db')
  end.
