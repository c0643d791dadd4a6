(** Specification of message areas in JAM format. *)
From Verif Require Import Base M_Node4D M_Str M_Mem M_Net M_Jam S_Jam M_Msg M_JamMb.

(** A base made by the library: its files and the list of slots it stands for. K bounds the
    size of the files. *)
Inductive jmade (crc : list Z -> Z) : Z -> jam -> abase -> Prop :=
| made_new now base : is_u32 base -> jmade crc 1024 (JAM_CreateMB now base) (AB base 0 [])
| made_op K j s o j' : jmade crc K j s -> op_fine o -> K + opsize o < 4294967295 -> jstep crc j o = Some j' -> jmade crc (K + opsize o) j' (astep s o).

(** the message with a number; the number of the next one to be added *)
Definition msgat (s : abase) (n : Z) : option amsg :=
  if n <? x_num s then None else match nth_error (x_slots s) (Z.to_nat (n - x_num s)) with Some (Some m) => Some m | _ => None end.
Definition nextnum (s : abase) : Z := x_num s + Z.of_nat (length (x_slots s)).
Definition numbers (a b : Z) : list Z := map (fun i => a + Z.of_nat i) (seq 0 (Z.to_nat (b - a))).

(** A message waits to be exported if it is local (bit 0), not sent (bit 4) and not marked as
    deleted. *)
Definition waits (m : amsg) : bool := Z.testbit (h_attr (a_hdr m)) 0 && negb (Z.testbit (h_attr (a_hdr m)) 4) && negb (gone (a_hdr m)).
Definition waiting (s : abase) (n : Z) : bool := match msgat s n with Some m => waits m | None => false end.
(** Netmail with kill/sent (bit 5) is deleted after it was sent if that is allowed (bit 25 of
    the configuration). *)
Definition kills (cfg : jcfg) (m : amsg) : bool := jc_net cfg && Z.testbit (jc_flags cfg) 25 && Z.testbit (h_attr (a_hdr m)) 5.
(** the message after that: marked as sent, with the time *)
Definition as_sent (cfg : jcfg) (now : Z) (m : amsg) : amsg :=
  let h := a_hdr m in
  let attr := Z.setbit (h_attr h) 4 in
  MSG (JH (h_sig h) (h_rev h) (h_rsvd h) (h_sublen h) (h_times h) (h_msgid h) (h_reply h) (h_replyto h) (h_reply1st h)
          (h_replynext h) (h_written h) (h_received h) ((now - jc_off cfg) mod 4294967296) (h_num h)
          (if kills cfg m then Z.setbit attr 31 else attr) (h_attr2 h) (h_txtoff h) (h_txtlen h) (h_pw h) (h_cost h))
      (a_subs m) (a_text m).

(** the high water mark in its file, 0 if there is none *)
Definition markof (hw : option (list Z)) : Z := match hw with Some f => get32 f 0 | None => 0 end.
Definition goodmark (hw : option (list Z)) : Prop := match hw with Some f => exists k, f = le32 k /\ is_u32 k | None => True end.
(** the first number looked at *)
Definition firstnum (cfg : jcfg) (hw : option (list Z)) (s : abase) : Z :=
  if Z.testbit (jc_jflags cfg) 0 && negb (markof hw =? 0) then Z.max (x_num s) ((markof hw + 1) mod 4294967296) else x_num s.

(** Messages the handler imports into the same area can be stored, and no write fails;
    how much they take. *)
Definition storable (crc : list Z -> Z) (cfg : jcfg) (i : jimp) : Prop :=
  ji_cut i = nocuts /\ exists h subs text, jam_message crc cfg i = Some (h, subs, text) /\ op_fine (Add h subs text).
Definition impsize (crc : list Z -> Z) (cfg : jcfg) (i : jimp) : Z :=
  match jam_message crc cfg i with Some (h, subs, text) => opsize (Add h subs text) | None => 0 end.
Definition impsizes (crc : list Z -> Z) (cfg : jcfg) (l : list jimp) : Z := fold_right (fun i n => impsize crc cfg i + n) 0 l.

(** ** Histories *)
(** What can happen to an area: other programs add, change and delete messages (none of them
    makes message number n wait again), replace the file with the mark, and scans, in any
    configuration, with any handler, stopped anywhere; the numbers each scan hands on. *)
Inductive jlife (crc : list Z -> Z) (n : Z) : Z -> jam -> abase -> option (list Z) -> list (list Z) -> Prop :=
| life_end K j s hw : jlife crc n K j s hw []
| life_op K j s hw o j' outs :
    op_fine o -> K + opsize o < 4294967295 -> jstep crc j o = Some j' ->
    (waiting s n = false -> waiting (astep s o) n = false) ->
    jlife crc n (K + opsize o) j' (astep s o) hw outs -> jlife crc n K j s hw outs
| life_mark K j s hw hw' outs : jlife crc n K j s hw' outs -> jlife crc n K j s hw outs
| life_scan K j s hw cfg fidodate handle lock now junk ctrlc B st' out ok K' s' outs :
    nextnum s < 4294967296 -> goodmark hw ->
    (forall n mm, Forall (storable crc cfg) (jr_imports (handle n mm)) /\ impsizes crc cfg (jr_imports (handle n mm)) <= B) ->
    K + B * Z.of_nat (length (x_slots s)) < 4294967295 ->
    jam_exportfunc crc cfg fidodate handle lock now junk ctrlc (JS j hw None) = Some (st', out, ok) ->
    jmade crc K' (js_base st') s' -> jlife crc n K' (js_base st') s' (js_hw st') outs ->
    jlife crc n K j s hw (map fst out :: outs).

(** The mark is behind no message that waits, and not behind the last. *)
Definition markok (cfg : jcfg) (hw : option (list Z)) (s : abase) : Prop :=
  (forall n, waiting s n = true -> firstnum cfg hw s <= n) /\ firstnum cfg hw s <= nextnum s.
(** The states of an area that other programs and sessions of one configuration lead to. No
    other program makes an old message wait. A session is a scan, that may fail or be
    stopped, and what is done at the end, where replies may be linked and the mark written. *)
Inductive jreach (crc : list Z -> Z) (cfg : jcfg) : Z -> jam -> abase -> option (list Z) -> Prop :=
| reach_new now base : is_u32 base -> jreach crc cfg 1024 (JAM_CreateMB now base) (AB base 0 []) None
| reach_op K j s hw o j' :
    jreach crc cfg K j s hw -> op_fine o -> K + opsize o < 4294967295 -> jstep crc j o = Some j' ->
    (forall n, n < nextnum s -> waiting (astep s o) n = true -> waiting s n = true) ->
    jreach crc cfg (K + opsize o) j' (astep s o) hw
| reach_session K j s hw fidodate handle lock now junk ctrlc B st' out ok quick success st2 K' s' :
    jreach crc cfg K j s hw -> nextnum s < 4294967296 ->
    (forall n mm, Forall (storable crc cfg) (jr_imports (handle n mm)) /\ impsizes crc cfg (jr_imports (handle n mm)) <= B) ->
    K + B * Z.of_nat (length (x_slots s)) < 4294967295 ->
    jam_exportfunc crc cfg fidodate handle lock now junk ctrlc (JS j hw None) = Some (st', out, ok) ->
    jam_afterfunc cfg quick success WOk st' = Some st2 -> jmade crc K' (js_base st2) s' ->
    jreach crc cfg K' (js_base st2) s' (js_hw st2).
