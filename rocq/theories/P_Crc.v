(** Lemmas about the CRC-32 table. *)
From Verif Require Import Base M_Crc.

Lemma lxor_bound n a b : 0 <= n -> 0 <= a < 2 ^ n -> 0 <= b < 2 ^ n -> 0 <= Z.lxor a b < 2 ^ n.
Proof.
  intros Hn Ha Hb. split; [apply Z.lxor_nonneg; lia|].
  destruct (Z.eq_dec (Z.lxor a b) 0) as [->|Hne]; [apply Z.pow_pos_nonneg; lia|].
  assert (0 <= Z.lxor a b) by (apply Z.lxor_nonneg; lia).
  apply Z.log2_lt_pow2; [lia|]. eapply Z.le_lt_trans; [apply Z.log2_lxor; lia|].
  apply Z.max_lub_lt.
  - destruct (Z.eq_dec a 0) as [->|]; [|apply Z.log2_lt_pow2; lia].
    destruct (Z.eq_dec b 0) as [->|]; [rewrite Z.lxor_0_r in Hne; lia|]. rewrite Z.log2_nonpos by lia.
    destruct (Z.eq_dec n 0) as [->|]; [cbn in Hb; lia|lia].
  - destruct (Z.eq_dec b 0) as [->|]; [|apply Z.log2_lt_pow2; lia].
    destruct (Z.eq_dec a 0) as [->|]; [rewrite Z.lxor_0_r in Hne; lia|]. rewrite Z.log2_nonpos by lia.
    destruct (Z.eq_dec n 0) as [->|]; [cbn in Ha; lia|lia].
Qed.
Lemma crctab_length : length crctab = 256%nat.
Proof. reflexivity. Qed.
Lemma crctab_u32 i : is_u32 (nth i crctab 0).
Proof.
  assert (H : Forall is_u32 crctab) by (unfold crctab; repeat (apply Forall_cons; [unfold is_u32; lia|]); apply Forall_nil).
  destruct (Nat.lt_ge_cases i (length crctab)) as [Hi|Hi].
  - rewrite Forall_forall in H. apply H, nth_In, Hi.
  - rewrite nth_overflow by auto. unfold is_u32. lia.
Qed.
Lemma shiftr8_u32 x : is_u32 x -> 0 <= Z.shiftr x 8 < 2 ^ 32.
Proof. unfold is_u32. intros H. rewrite Z.shiftr_div_pow2 by lia. change (2 ^ 8) with 256. change (2 ^ 32) with 4294967296. zlia. Qed.
Lemma crcstep_u32 crc c : is_u32 crc -> is_u32 (Z.lxor (Z.shiftr crc 8) (nth c crctab 0)).
Proof.
  intros H. unfold is_u32. change 4294967296 with (2 ^ 32). apply lxor_bound; [lia|apply shiftr8_u32; auto|].
  pose proof (crctab_u32 c) as Hc. unfold is_u32 in Hc. exact Hc.
Qed.
Lemma land255 x : 0 <= Z.land x 255 < 256.
Proof. change 255 with (Z.ones 8). rewrite Z.land_ones by lia. change (2 ^ 8) with 256. apply Z.mod_pos_bound. lia. Qed.
Lemma strcrc_ok s crc : is_u32 crc -> Forall (fun c => 1 <= c < 128) s -> exists v, strcrc crc s = Some v /\ is_u32 v.
Proof.
  intros H Hs. revert crc H. induction Hs as [|c s Hc Hs IH]; intros crc H; [exists crc; auto|].
  cbn [strcrc]. unfold schar. destruct (Z.ltb_spec c 128); [|lia].
  pose proof (land255 crc) as Hl. pose proof (lxor_bound 8 (Z.land crc 255) c ltac:(lia) Hl ltac:(cbn; lia)) as Hx.
  change (2 ^ 8) with 256 in Hx.
  destruct (Z.ltb_spec (Z.lxor (Z.land crc 255) c) 0); [lia|]. destruct (Z.leb_spec 256 (Z.lxor (Z.land crc 255) c)); [lia|].
  cbn [orb]. apply IH. apply crcstep_u32. auto.
Qed.
Lemma calcstringcrc_ok s : Forall (fun c => 1 <= c < 128) s -> exists v, calcstringcrc s = Some v /\ is_u32 v.
Proof. apply strcrc_ok. unfold is_u32. lia. Qed.
