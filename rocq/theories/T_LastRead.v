(** C56: lastread records. *)
From Verif Require Import Base M_Jam M_LastRead S_LastRead P_LastRead.

(** Whatever any number of programs do to the lastread records of a base, in any order:
    reading gives what was last written for that user, or what the file held in the
    beginning, or JAM_NO_USER; writing succeeds. The file stays a file of records. No record
    moves, and one record is added for each user who had none. (User 0 must not be the first
    one to get a record, see below.) *)
Theorem C56_map : forall ops rs, Forall lrec_ok rs -> Forall lop_ok ops ->
  rs <> [] \/ Forall (fun op => ~ writes0 op) ops ->
  exists rs' hs, lrun (lrfile rs, fun _ => lrh0) ops = Some (answers (first_of rs) ops, (lrfile rs', hs)) /\
    (forall u, first_of rs' u = after (first_of rs) ops u) /\
    map r_id rs' = map r_id rs ++ newcomers (map r_id rs) ops.
Proof.
  intros ops rs Hok Hops H0.
  destruct (lrun_spec ops rs (fun _ => lrh0) Hok (fun _ => or_introl eq_refl) Hops H0) as (rs' & hs & A & B & _ & _ & C). eauto.
Qed.
Print Assumptions C56_map.

(** In particular, a user who is not written to keeps what they have, and a new program sees
    what the others wrote. *)
Theorem C56_others : forall ops rs u, Forall lrec_ok rs -> Forall lop_ok ops ->
  rs <> [] \/ Forall (fun op => ~ writes0 op) ops -> (forall h x, ~ In (LWrite h u x) ops) ->
  exists w, option_map snd (lrun (lrfile rs, fun _ => lrh0) ops) = Some w /\
    exists h', JAM_ReadLastRead (fst w) lrh0 u = Some (match first_of rs u with Some x => Good x | None => Bad JAM_NO_USER end, h').
Proof.
  intros ops rs u Hok Hops H0 Hu.
  destruct (lrun_spec ops rs (fun _ => lrh0) Hok (fun _ => or_introl eq_refl) Hops H0) as (rs' & hs & A & B & C & _).
  rewrite A. eexists. split; [reflexivity|]. cbn [fst snd].
  destruct (readlr_spec rs' lrh0 u C (or_introl eq_refl)) as (h' & _ & E). exists h'. rewrite E, B.
  assert (HA : after (first_of rs) ops u = first_of rs u).
  { clear -Hu. revert Hu. generalize (first_of rs). induction ops as [|op ops IH]; intros t Hu; [reflexivity|].
    destruct op as [h|h v|h v x]; cbn [after]; try (apply IH; intros h0 x0 Hi; apply (Hu h0 x0); right; exact Hi).
    rewrite IH by (intros h0 x0 Hi; apply (Hu h0 x0); right; exact Hi). unfold put. destruct (Z.eqb_spec u v) as [->|]; auto.
    exfalso. apply (Hu h x). left. reflexivity. }
  rewrite HA. reflexivity.
Qed.
Print Assumptions C56_others.

(** Finding: the position 0 of a base just opened counts as known for user 0; in an empty
    file that user gets an I/O error and no record. *)
Theorem C56_user0_refuted : forall x, JAM_WriteLastRead [] lrh0 0 x = Some (JAM_IO_ERROR, []).
Proof. reflexivity. Qed.
Print Assumptions C56_user0_refuted.

(** Finding: behind a record that was cut off (a crash while it was written), a new record
    is added out of line; writing succeeds but the user has no record. *)
Theorem C56_torn_refuted : exists rs k x, Forall lrec_ok rs /\ lrec_ok x /\
  JAM_WriteLastRead (firstn k (lrfile rs)) lrh0 (r_id x) x = Some (0, firstn k (lrfile rs) ++ lrbytes x) /\
  JAM_ReadLastRead (firstn k (lrfile rs) ++ lrbytes x) lrh0 (r_id x) = Some (Bad JAM_NO_USER, lrh0).
Proof.
  exists [LR 11 1 5 5], 7%nat, (LR 22 2 3 4). split; [apply Forall_cons; [|constructor]|split; [|split; vm_compute; reflexivity]];
    unfold lrec_ok, is_u32; cbn [r_crc r_id r_last r_high]; lia.
Qed.
Print Assumptions C56_torn_refuted.

Example C56_nonvacuous :
  let a n := LR 11 1 n n in let b n := LR 22 2 n 9 in
  let ops := [LWrite 0 1 (a 5); LWrite 1 2 (b 3); LRead 0 2; LRead 1 1; LWrite 0 2 (b 7); LWrite 1 1 (a 6); LOpen 2; LRead 2 2; LRead 2 3; LRead 0 1] in
  Forall lop_ok ops /\ Forall (fun op => ~ writes0 op) ops /\
  option_map fst (lrun (lrfile [], fun _ => lrh0) ops) =
    Some [OWrite 0; OWrite 0; ORead (Good (b 3)); ORead (Good (a 5)); OWrite 0; OWrite 0; OOpen; ORead (Good (b 7)); ORead (Bad 6); ORead (Good (a 6))] /\
  newcomers [] ops = [1; 2].
Proof.
  split; [|split; [|split]].
  - repeat (apply Forall_cons; [cbn [lop_ok]; first [exact I|split; [unfold lrec_ok, is_u32; cbn [r_crc r_id r_last r_high]; lia|reflexivity]]|]). constructor.
  - repeat (apply Forall_cons; [cbn [writes0]; first [lia|tauto]|]). constructor.
  - vm_compute. reflexivity.
  - vm_compute. reflexivity.
Qed.
