(** Maintenance of a JAM area (tools/crashmaint.c:440-843 ProcessAreaJAM). Ctrl-C is not
    modelled, the writes succeed. *)
From Verif Require Import Base M_Str M_Mem M_Jam.

(** crashmaint.c:523-536 and 575-589: marking a message. [bh] is BaseHeader_S, which is
    written back behind JAM_ChangeMsgHeader. *)
Definition markmsg (j : jam) (bh : jbase) (num : Z) (h : jhdr) : jam * jbase :=
  let j := snd (JAM_ChangeMsgHeader j num (with_attr h (Z.lor (h_attr h) MSG_DELETED))) in
  JAM_WriteMBHeader j (with_active bh (u32 (b_active bh - 1))).
(** crashmaint.c:510-541: by number; [more] is total-num *)
Fixpoint bynumber (more : nat) (keep : Z) (j : jam) (bh : jbase) (active num : Z) : jam * jbase * Z :=
  match more with
  | O => (j, bh, active)
  | S more =>
    if active <=? keep then (j, bh, active) else
    match JAM_ReadOnlyHeader j num with
    | Good h =>
      if deleted h then bynumber more keep j bh active (num + 1) else
      let '(j, bh) := markmsg j bh num h in
      bynumber more keep j bh (active - 1) (num + 1)
    | Bad _ => bynumber more keep j bh active (num + 1)
    end
  end.
(** crashmaint.c:567-573: the day of a message *)
Definition msgday (h : jhdr) : Z :=
  let d := h_received h / 86400 in
  let d := if d =? 0 then h_processed h / 86400 else d in
  if d =? 0 then h_written h / 86400 else d.
(** crashmaint.c:554-594: by date; today-day is computed in uint32_t *)
Fixpoint bydate (more : nat) (keep today : Z) (j : jam) (bh : jbase) (num : Z) : jam * jbase :=
  match more with
  | O => (j, bh)
  | S more =>
    match JAM_ReadOnlyHeader j num with
    | Good h =>
      if (keep <? u32 (today - msgday h)) && negb (deleted h) then
        let '(j, bh) := markmsg j bh num h in
        bydate more keep today j bh (num + 1)
      else bydate more keep today j bh (num + 1)
    | Bad _ => bydate more keep today j bh (num + 1)
    end
  end.

(** crashmaint.c:633-761: copying the messages of [j] to the new base [n]; [first] is
    firstwritten. Outer [None]: undefined behaviour; inner [None]: it gives up and removes the
    new base. *)
Definition with_num (b : jbase) (n : Z) : jbase := JB (b_sig b) (b_created b) (b_mod b) (b_active b) (b_pw b) n (b_rsrvd b).
Fixpoint copymsgs (crc : list Z -> Z) (more : nat) (j n : jam) (bh : jbase) (first : bool) (num : Z) : option (option (jam * jbase)) :=
  match more with
  | O => Some (Some (n, bh))
  | S more =>
    let gap := if first then copymsgs crc more j (snd (JAM_AddEmptyMessage n)) bh first (num + 1)
               else copymsgs crc more j n (with_num bh (u32 (b_num bh + 1))) first (num + 1) in
    match JAM_ReadOnlyHeader j num with
    | Bad c => if c =? JAM_NO_MESSAGE then gap else Some None
    | Good h =>
      if deleted h then gap else
      let '(n, bh) := if first then (n, bh) else JAM_WriteMBHeader n bh in
      do r <- JAM_ReadMsgHeader j num;
      match r with
      | Bad _ => Some None
      | Good (h, subs) =>
        match JAM_ReadMsgText j (h_txtoff h) (h_txtlen h) with
        | Bad _ => Some None
        | Good text =>
          do r <- JAM_AddMessage crc nocuts n h subs text;
          let bh := with_active bh (u32 (b_active bh + 1)) in
          if negb (fst r =? 0) then Some None else copymsgs crc more j (snd r) bh true (num + 1)
        end
      end
    end
  end.
(** crashmaint.c:606-789: the new base, made at the time [now] *)
Definition packed (crc : list Z -> Z) (now : Z) (j : jam) (bh : jbase) : option (option jam) :=
  do r <- copymsgs crc (Z.to_nat (JAM_GetMBSize j)) j (JAM_CreateMB now 1) (with_active bh 0) false 0;
  Some (match r with
        | None => None
        | Some (n, bh) => Some (fst (JAM_WriteMBHeader n (JB (b_sig bh) (b_created bh) (u32 (b_mod bh + 1)) (b_active bh) (b_pw bh) (b_num bh) (b_rsrvd bh))))
        end).
(** crashmaint.c:440-843 ProcessAreaJAM: the base afterwards; [today] is the day, [now] the
    time. The lastread file stays (line 818). Deleting and renaming the files succeeds (see
    [swaps] for the states between). *)
Definition ProcessAreaJAM (crc : list Z -> Z) (maint pack : bool) (keepnum keepdays today now : Z) (j : jam) : option jam :=
  match JAM_ReadMBHeader j with
  | Bad _ => Some j
  | Good bh =>
    let more := Z.to_nat (JAM_GetMBSize j) in
    if JAM_GetMBSize j =? 0 then Some j else
    let '(j, bh, active) := if maint && negb (keepnum =? 0) then bynumber more keepnum j bh (b_active bh) 0 else (j, bh, b_active bh) in
    let '(j, bh) := if maint && negb (keepdays =? 0) then bydate more keepdays today j bh 0 else (j, bh) in
    if pack then
      do r <- packed crc now j bh;
      Some (match r with None => j | Some n => JAM (j_hdr n) (j_txt n) (j_idx n) (j_lrd j) end)
    else Some j
  end.
(** crashmaint.c:796-820: the header, text and index file of the area at the points where the
    program may stop while it puts the new files in place ([None]: no such file) *)
Definition swaps (j n : jam) : list (option (list Z) * option (list Z) * option (list Z)) :=
  [ (Some (j_hdr j), Some (j_txt j), Some (j_idx j));
    (None, Some (j_txt j), Some (j_idx j));
    (Some (j_hdr n), Some (j_txt j), Some (j_idx j));
    (Some (j_hdr n), None, Some (j_idx j));
    (Some (j_hdr n), Some (j_txt n), Some (j_idx j));
    (Some (j_hdr n), Some (j_txt n), None);
    (Some (j_hdr n), Some (j_txt n), Some (j_idx n)) ].
