(** Model of copyfile and movefile (src/crashmail/misc.c) with calls that fail, and of the files
    attached to netmail that is sent on (HandleNetmail, src/crashmail/handle.c). M_Net has the
    messages, M_Out the flow files. *)
From Verif Require Import Base M_Str M_Mem M_Fs M_Cfg M_Upd M_Out M_Filter M_Net.

(** What the operating system does: rename() works; the files can be opened; how much can be read
    before an error, if there is one; which writes succeed; how much is stored if fclose() fails
    when it writes what is in the buffer. Lack of memory is not modelled *)
Record cenv := CE { ce_rename : bool; ce_in : bool; ce_out : bool; ce_read : option nat; ce_write : nat -> bool; ce_close : option nat }.

(** misc.c:357 COPYBUFSIZE *)
Definition COPYBUFSIZE : nat := Z.to_nat 5000.
(** misc.c:382-386: the loop; osRead returns 0 at the end and after an error. [i]: the number of
    the round, [acc]: what has been written. Every round takes a byte, so [length data + 1] rounds
    are enough *)
Fixpoint copyloop (fuel : nat) (e : cenv) (i : nat) (data : list Z) (io : bool) (acc : list Z) : list Z * bool :=
  match fuel with
  | O => (acc, io)
  | S f =>
    match firstn COPYBUFSIZE data with
    | [] => (acc, io)
    | chunk =>
      if io then (acc, io)
      else if ce_write e i then copyloop f e (S i) (skipn COPYBUFSIZE data) io (acc ++ chunk)
      else copyloop f e (S i) (skipn COPYBUFSIZE data) true acc
    end
  end.
Definition upto (k : option nat) (l : list Z) : list Z := match k with None => l | Some n => firstn n l end.
(** misc.c:359-402 copyfile: the files, ioerror and the result. The new file is empty from when
    it is opened, also if it is the old one *)
Definition copyfile (e : cenv) (fs : fsys) (io : bool) (file new : list Z) : fsys * bool * bool :=
  if negb (ce_in e && osExists fs file) then (fs, io, false)
  else if negb (ce_out e) then (fs, io, false)
  else
    let fs1 := fput fs new [] in
    let data := match fget fs1 file with Some c => upto (ce_read e) c | None => [] end in
    let '(w, io') := copyloop (S (length data)) e 0 data io [] in
    let fs2 := fput fs1 new (upto (ce_close e) w) in
    if io' then (osDelete fs2 new, io', false) else (fs2, io', true).
(** misc.c:404-414 movefile *)
Definition movefile (e : cenv) (fs : fsys) (io : bool) (file new : list Z) : fsys * bool * bool :=
  match (if ce_rename e then osRename fs file new else None) with
  | Some fs' => (fs', io, true)
  | None =>
    let '(fs', io', ok) := copyfile e fs io file new in
    if ok then (osDelete fs' file, io', true) else (fs', io', false)
  end.

(** handle.c:1597-1632: one of the files in the subject. The result has the files, ioerror, the
    entries for the flow file (with FLOW_DELETE or not), and whether it goes on. [None]: a path
    overflows its buffer *)
Definition attachone (exported : bool) (inbound packetdir : list Z) (e : cenv) (fs : fsys) (io : bool) (name : list Z)
    : option (fsys * bool * list (list Z * bool) * bool) :=
  let part := GetFilePart name in
  if exported then
    if osExists fs name then
      do d <- path200 packetdir part;
      let '(fs', io', _) := copyfile e fs io name d in
      if io' then Some (fs', io', [], false) else Some (fs', io', [(d, true)], true)
    else Some (fs, io, [(name, false)], true)
  else
    do i <- path200 inbound part;
    do d <- path200 packetdir part;
    let '(fs', io', ok) := movefile e fs io i d in
    Some (fs', io', [(if ok then d else i, true)], true).
Fixpoint attachall (exported : bool) (inbound packetdir : list Z) (envs : nat -> cenv) (n : nat) (fs : fsys) (io : bool) (names : list (list Z))
    : option (fsys * bool * list (list Z * bool) * bool) :=
  match names with
  | [] => Some (fs, io, [], true)
  | name :: r =>
    do x <- attachone exported inbound packetdir (envs n) fs io name;
    match x with
    | (fs', io', fl, true) =>
      do y <- attachall exported inbound packetdir envs (S n) fs' io' r;
      match y with (fs'', io'', fl', b) => Some (fs'', io'', fl ++ fl', b) end
    | (fs', io', fl, false) => Some (fs', io', fl, false)
    end
  end.
(** handle.c:1586-1632: the words of the subject with "," as a blank and "\" as "/" *)
Definition attachfiles (exported : bool) (inbound packetdir : list Z) (envs : nat -> cenv) (fs : fsys) (io : bool) (subject : list Z)
    : option (fsys * bool * list (list Z * bool) * bool) :=
  attachall exported inbound packetdir envs 0 fs io (allwords 80 (fixsubj subject)).
