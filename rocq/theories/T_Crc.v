(** C41: the checksum of the JAM message base. *)
From Verif Require Import Base M_Str M_Mem M_JamCrc S_Crc.

Lemma div2_lxor x y : Z.div2 (Z.lxor x y) = Z.lxor (Z.div2 x) (Z.div2 y).
Proof. rewrite !Z.div2_spec. apply Z.shiftr_lxor. Qed.
Lemma odd_lxor x y : Z.odd (Z.lxor x y) = xorb (Z.odd x) (Z.odd y).
Proof. rewrite <- !Z.bit0_odd. apply Z.lxor_spec. Qed.
Lemma crc_bit_lxor x y : crc_bit (Z.lxor x y) = Z.lxor (crc_bit x) (crc_bit y).
Proof.
  unfold crc_bit. rewrite odd_lxor, div2_lxor. destruct (Z.odd x), (Z.odd y); cbn [xorb].
  - rewrite (Z.lxor_comm (Z.div2 y) POLY), Z.lxor_assoc, <- (Z.lxor_assoc POLY POLY), Z.lxor_nilpotent, Z.lxor_0_l. reflexivity.
  - rewrite !Z.lxor_assoc. f_equal. apply Z.lxor_comm.
  - rewrite !Z.lxor_assoc. reflexivity.
  - reflexivity.
Qed.
Lemma crc_bits_lxor n x y : crc_bits n (Z.lxor x y) = Z.lxor (crc_bits n x) (crc_bits n y).
Proof. revert x y. induction n as [|n IH]; intros x y; cbn [crc_bits]; [reflexivity|]. rewrite crc_bit_lxor. apply IH. Qed.
Lemma crc_bits_shift n y : crc_bits n (Z.shiftl y (Z.of_nat n)) = y.
Proof.
  induction n as [|n IH]; cbn [crc_bits]; [apply Z.shiftl_0_r|]. rewrite <- IH at 2. f_equal.
  rewrite Nat2Z.inj_succ, <- Z.add_1_r, <- Z.shiftl_shiftl by lia. set (z := Z.shiftl y (Z.of_nat n)). rewrite Z.shiftl_mul_pow2 by lia. change (2 ^ 1) with 2.
  unfold crc_bit. rewrite Z.mul_comm. rewrite Z.odd_mul. change (Z.odd 2) with false. cbn [andb]. rewrite Z.div2_div, Z.mul_comm, Z.div_mul; lia.
Qed.
Lemma split_byte x : x = Z.lxor (x mod 256) (Z.shiftl (Z.shiftr x 8) 8).
Proof.
  apply Z.bits_inj'. intros n Hn. rewrite Z.lxor_spec, Z.shiftl_spec by auto. change 256 with (2 ^ 8).
  destruct (Z.ltb_spec n 8).
  - rewrite Z.mod_pow2_bits_low by lia. rewrite (Z.testbit_neg_r _ (n - 8)) by lia. rewrite xorb_false_r. reflexivity.
  - rewrite Z.mod_pow2_bits_high by lia. rewrite Z.shiftr_spec by lia. rewrite xorb_false_l. f_equal. lia.
Qed.
Lemma crc_bits_8 x : crc_bits 8 x = Z.lxor (Z.shiftr x 8) (crc_bits 8 (x mod 256)).
Proof.
  rewrite (split_byte x) at 1. rewrite crc_bits_lxor, Z.lxor_comm. f_equal. apply (crc_bits_shift 8).
Qed.
(** the table *)
Lemma table_ok : forall i, 0 <= i < 256 -> tabentry i = Some (crc_bits 8 i).
Proof.
  assert (H : forallb (fun n => match tabentry (Z.of_nat n) with Some v => v =? crc_bits 8 (Z.of_nat n) | None => false end) (seq 0 256) = true) by (vm_compute; reflexivity).
  intros i Hi. rewrite forallb_forall in H. specialize (H (Z.to_nat i)). rewrite Z2Nat.id in H by lia. rewrite in_seq in H. specialize (H ltac:(lia)).
  destruct (tabentry i); [|discriminate]. apply Z.eqb_eq in H. congruence.
Qed.
Lemma lxor_byte a b : 0 <= a < 256 -> 0 <= b < 256 -> 0 <= Z.lxor a b < 256.
Proof.
  intros Ha Hb. split; [apply Z.lxor_nonneg; lia|]. destruct (Z.eq_dec (Z.lxor a b) 0) as [->|Hn]; [lia|].
  assert (0 <= Z.lxor a b) by (apply Z.lxor_nonneg; lia). apply (Z.log2_lt_pow2 _ 8); [lia|].
  pose proof (Z.log2_lxor a b ltac:(lia) ltac:(lia)) as L. assert (Z.log2 a < 8) by (destruct (Z.eq_dec a 0) as [->|]; [reflexivity|apply Z.log2_lt_pow2; lia]).
  assert (Z.log2 b < 8) by (destruct (Z.eq_dec b 0) as [->|]; [reflexivity|apply Z.log2_lt_pow2; lia]). lia.
Qed.
Lemma mod_lxor x b : 0 <= b < 256 -> (Z.lxor x b) mod 256 = Z.lxor (x mod 256) b.
Proof.
  intros Hb. apply Z.bits_inj'. intros n Hn. change 256 with (2 ^ 8). destruct (Z.ltb_spec n 8).
  - rewrite Z.lxor_spec, !Z.mod_pow2_bits_low, Z.lxor_spec by lia. reflexivity.
  - rewrite Z.lxor_spec, !Z.mod_pow2_bits_high by lia. rewrite xorb_false_l. symmetry. destruct (Z.eq_dec b 0) as [->|]; [apply Z.bits_0|]. apply Z.bits_above_log2; [lia|]. assert (Z.log2 b < 8) by (apply Z.log2_lt_pow2; lia). lia.
Qed.
Lemma shiftr_byte x b : 0 <= b < 256 -> Z.shiftr (Z.lxor x b) 8 = Z.shiftr x 8.
Proof. intros Hb. rewrite Z.shiftr_lxor. rewrite (Z.shiftr_div_pow2 b 8) by lia. change (2 ^ 8) with 256. rewrite Z.div_small by lia. apply Z.lxor_0_r. Qed.
Lemma crcloop_eq s : Forall is_u8 s -> forall crc, crcloop false crc s = Some (fold_left (fun crc b => crc_byte crc (lower b)) s crc).
Proof.
  induction 1 as [|b s Hb F IH]; intros crc; [reflexivity|]. cbn [crcloop fold_left]. unfold charint. cbn [andb]. unfold tolower_int. unfold is_u8 in Hb. destruct (Z.ltb_spec b 0); [lia|]. cbn [obind].
  assert (El : tolower b = lower b) by (unfold tolower, lower; reflexivity). rewrite El.
  assert (Hl : 0 <= lower b < 256) by (unfold lower; destruct (_ && _) eqn:E; lia).
  pose proof (Z.mod_pos_bound crc 256 ltac:(lia)). rewrite table_ok by (apply lxor_byte; lia). cbn [obind]. rewrite IH. f_equal. f_equal.
  unfold crc_byte. rewrite (crc_bits_8 (Z.lxor crc (lower b))), mod_lxor, shiftr_byte by auto. reflexivity.
Qed.

(** Where char is unsigned the function computes the checksum. *)
Theorem C41_crc32 : forall s, Forall is_u8 s -> JAM_Crc32 false s = Some (crc32_jam s).
Proof. intros s F. apply crcloop_eq. exact F. Qed.
Print Assumptions C41_crc32.

(** It does not depend on case, so that lookups do not. *)
Theorem C41_case : forall s, Forall is_u8 s -> JAM_Crc32 false (map lower s) = JAM_Crc32 false s.
Proof.
  intros s F. rewrite !C41_crc32; auto.
  - f_equal. unfold crc32_jam. generalize 4294967295. induction F as [|b s Hb F IH]; intros c; [reflexivity|]. cbn [map fold_left]. rewrite IH.
    replace (lower (lower b)) with (lower b); [reflexivity|]. unfold lower. destruct ((65 <=? b) && (b <=? 90)) eqn:E; [|rewrite E; reflexivity]. destruct ((65 <=? b + 32) && (b + 32 <=? 90)) eqn:E2; lia.
  - apply Forall_map. eapply Forall_impl; [|exact F]. unfold is_u8, lower. intros b Hb. destruct ((65 <=? b) && (b <=? 90)) eqn:E; lia.
Qed.
Print Assumptions C41_case.

(** Finding: where char is signed, the very first step reads before the table, for every
    text that begins with an ASCII character. *)
Theorem C41_signed_refuted : forall c s, 0 <= c < 128 -> JAM_Crc32 true (c :: s) = None.
Proof.
  intros c s Hc. unfold JAM_Crc32. cbn [crcloop]. unfold charint at 1. destruct (Z.ltb_spec 127 c); [lia|]. cbn [andb]. unfold tolower_int. destruct (Z.ltb_spec c 0); [lia|]. cbn [obind].
  change (charint true (4294967295 mod 256)) with (-1). unfold tabentry. replace (Z.lxor (-1) (tolower c) <? 0) with true; [reflexivity|]. symmetry. apply Z.ltb_lt.
  assert (0 <= tolower c) by (unfold tolower; destruct (_ && _); lia). rewrite Z.lxor_comm, Z.lxor_m1_r. unfold Z.lnot. lia.
Qed.
Print Assumptions C41_signed_refuted.

(** the check value of this CRC, and a text with capital letters *)
Example C41_nonvacuous : Forall is_u8 (lit "123456789") /\ JAM_Crc32 false (lit "123456789") = Some 873187033 /\
  JAM_Crc32 false (lit "SysOp") = JAM_Crc32 false (lit "sysop") /\ JAM_Crc32 false (lit "sysop") <> JAM_Crc32 false (lit "sysoq").
Proof. split; [repeat constructor; cbn; lia|]. split; [vm_compute; reflexivity|]. split; [vm_compute; reflexivity|]. vm_compute. discriminate. Qed.
