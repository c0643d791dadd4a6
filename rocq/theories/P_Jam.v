(** Lemmas for the JAM message base. *)
From Verif Require Import Base M_Str P_Str M_Mem M_Jam S_Jam.

(** ** Bytes at a place in a file *)
Definition at_ (o : nat) (bs f : list Z) : Prop := forall i, (i < length bs)%nat -> nth_error f (o + i) = nth_error bs i.
Lemma nth_some {A} (l : list A) i : (i < length l)%nat <-> exists x, nth_error l i = Some x.
Proof.
  rewrite <- nth_error_Some. destruct (nth_error l i) as [x|]; split.
  - intros _. exists x. reflexivity.
  - discriminate.
  - intros H. contradiction.
  - intros (x & H). discriminate.
Qed.
Lemma at_len o bs f : bs <> [] -> at_ o bs f -> (o + length bs <= length f)%nat.
Proof.
  intros Hn H. destruct bs as [|b bs] using rev_ind; [contradiction|]. rewrite app_length in *. cbn [length] in *. specialize (H (length bs)). rewrite app_length in H. cbn [length] in H. specialize (H ltac:(lia)).
  assert (exists x, nth_error (bs ++ [b]) (length bs) = Some x) as (x & Hx) by (apply nth_some; rewrite app_length; cbn; lia). rewrite Hx in H. assert (o + length bs < length f)%nat by (apply nth_some; eauto). lia.
Qed.
Lemma nth_ext_err {A} (l m : list A) : (forall i, nth_error l i = nth_error m i) -> l = m.
Proof.
  revert m. induction l as [|x l IH]; intros [|y m] H; auto.
  - specialize (H 0%nat). discriminate.
  - specialize (H 0%nat). discriminate.
  - f_equal; [specialize (H 0%nat); cbn in H; congruence|]. apply IH. intros i. apply (H (S i)).
Qed.
Lemma nth_error_skipn' {A} (l : list A) o i : nth_error (skipn o l) i = nth_error l (o + i).
Proof. revert l. induction o as [|o IH]; intros l; [reflexivity|]. destruct l as [|x l]; [destruct i; reflexivity|]. cbn. apply IH. Qed.
Lemma nth_error_firstn' {A} (l : list A) n i : nth_error (firstn n l) i = if (i <? n)%nat then nth_error l i else None.
Proof.
  revert n i. induction l as [|x l IH]; intros n i; [rewrite firstn_nil; destruct i, (_ <? _)%nat; reflexivity|]. destruct n as [|n]; [destruct i; reflexivity|]. destruct i as [|i]; [reflexivity|]. cbn [firstn nth_error]. rewrite IH. reflexivity.
Qed.
Lemma at_slice o bs f : at_ o bs f -> bs = firstn (length bs) (skipn o f).
Proof.
  intros H. apply nth_ext_err. intros i. rewrite nth_error_firstn', nth_error_skipn'. destruct (Nat.ltb_spec i (length bs)); [symmetry; auto|]. apply nth_error_None. auto.
Qed.
Lemma at_read o bs f : bs <> [] -> at_ o bs f -> freadat (Z.of_nat o) (length bs) f = Some bs.
Proof.
  intros Hn H. unfold freadat. pose proof (at_len _ _ _ Hn H). destruct (Z.leb_spec (Z.of_nat o + Z.of_nat (length bs)) (Z.of_nat (length f))); [|lia]. rewrite Nat2Z.id. rewrite <- at_slice by auto. reflexivity.
Qed.
Lemma at_app o a b f : at_ o (a ++ b) f <-> at_ o a f /\ at_ (o + length a) b f.
Proof.
  unfold at_. split.
  - intros H. split; intros i Hi.
    + rewrite H by (rewrite app_length; lia). apply nth_error_app1. auto.
    + rewrite <- Nat.add_assoc, H by (rewrite app_length; lia). rewrite nth_error_app2 by lia. f_equal. lia.
  - intros [H1 H2] i Hi. rewrite app_length in Hi. destruct (Nat.lt_ge_cases i (length a)).
    + rewrite nth_error_app1 by auto. auto.
    + rewrite nth_error_app2 by auto. rewrite <- H2 by lia. f_equal. lia.
Qed.
Lemma at_append o bs f x : at_ o bs f -> at_ o bs (f ++ x).
Proof.
  intros H i Hi. rewrite <- H by auto. apply nth_error_app1. apply nth_some. rewrite H by auto. apply nth_some. auto.
Qed.
Lemma at_end bs f : at_ (length f) bs (f ++ bs).
Proof. intros i Hi. rewrite nth_error_app2 by lia. f_equal. lia. Qed.
Lemma write_nth o bs f i : (o <= length f)%nat ->
  nth_error (fwriteat (Z.of_nat o) bs f) i = if (i <? o)%nat then nth_error f i else if (i <? o + length bs)%nat then nth_error bs (i - o) else nth_error f i.
Proof.
  intros Ho. unfold fwriteat. rewrite Nat2Z.id. replace (o - length f)%nat with 0%nat by lia. cbn [repeat app].
  destruct (Nat.ltb_spec i o).
  - rewrite nth_error_app1 by (rewrite firstn_length; lia). rewrite nth_error_firstn'. destruct (Nat.ltb_spec i o); [reflexivity|lia].
  - rewrite nth_error_app2 by (rewrite firstn_length; lia). rewrite firstn_length, Nat.min_l by lia. destruct (Nat.ltb_spec i (o + length bs)).
    + apply nth_error_app1. lia.
    + rewrite nth_error_app2 by lia. rewrite nth_error_skipn'. f_equal. lia.
Qed.
Lemma at_write_same o bs f : (o <= length f)%nat -> at_ o bs (fwriteat (Z.of_nat o) bs f).
Proof.
  intros Ho i Hi. rewrite write_nth by auto. destruct (Nat.ltb_spec (o + i) o); [lia|]. destruct (Nat.ltb_spec (o + i) (o + length bs)); [|lia]. f_equal. lia.
Qed.
Lemma at_write_other o bs f o' bs' : (o <= length f)%nat -> (o' + length bs' <= o \/ o + length bs <= o')%nat -> at_ o' bs' f -> at_ o' bs' (fwriteat (Z.of_nat o) bs f).
Proof.
  intros Ho Hd H i Hi. rewrite write_nth by auto. destruct (Nat.ltb_spec (o' + i) o); auto. destruct (Nat.ltb_spec (o' + i) (o + length bs)); auto. lia.
Qed.
Lemma write_length o bs f : (o + length bs <= length f)%nat -> length (fwriteat (Z.of_nat o) bs f) = length f.
Proof. intros Ho. unfold fwriteat. rewrite Nat2Z.id. rewrite !app_length, repeat_length, firstn_length, skipn_length. lia. Qed.

(** ** Encodings *)
Lemma le32_back z r : is_u32 z -> get32 (le32 z ++ r) 0 = z.
Proof. intros H. etransitivity; [|apply (get32_le32 _ H)]. reflexivity. Qed.
Definition hdr_ok (h : jhdr) : Prop := hdr_fine h /\ is_u32 (h_sublen h) /\ is_u32 (h_txtoff h) /\ is_u32 (h_txtlen h).
Lemma hdrbytes_length h : length (h_sig h) = 4%nat -> length (hdrbytes h) = 76%nat.
Proof. intros H. unfold hdrbytes. rewrite !app_length, H. reflexivity. Qed.
Lemma gethdr_back h : hdr_ok h -> gethdr (hdrbytes h) = h.
Proof.
  intros ((Hs & H1 & H2 & F) & H3 & H4 & H5). repeat match goal with H : Forall _ (_ :: _) |- _ => inversion_clear H end.
  destruct h as [sig x0 x1 x2 x3 x4 x5 x6 x7 x8 x9 x10 x11 x12 x13 x14 x15 x16 x17 x18]. cbn [h_sig h_rev h_rsvd h_sublen h_times h_msgid h_reply h_replyto h_reply1st h_replynext h_written h_received h_processed h_num h_attr h_attr2 h_txtoff h_txtlen h_pw h_cost] in *.
  destruct sig as [|s0 [|s1 [|s2 [|s3 [|]]]]]; try discriminate. unfold gethdr. set (L := hdrbytes _).
  replace (get16 L 4) with x0 by (symmetry; etransitivity; [|apply (get16_le16 x0); assumption]; reflexivity).
  replace (get16 L 6) with x1 by (symmetry; etransitivity; [|apply (get16_le16 x1); assumption]; reflexivity).
  replace (get32 L 8) with x2 by (symmetry; etransitivity; [|apply (get32_le32 x2); assumption]; reflexivity).
  replace (get32 L 12) with x3 by (symmetry; etransitivity; [|apply (get32_le32 x3); assumption]; reflexivity).
  replace (get32 L 16) with x4 by (symmetry; etransitivity; [|apply (get32_le32 x4); assumption]; reflexivity).
  replace (get32 L 20) with x5 by (symmetry; etransitivity; [|apply (get32_le32 x5); assumption]; reflexivity).
  replace (get32 L 24) with x6 by (symmetry; etransitivity; [|apply (get32_le32 x6); assumption]; reflexivity).
  replace (get32 L 28) with x7 by (symmetry; etransitivity; [|apply (get32_le32 x7); assumption]; reflexivity).
  replace (get32 L 32) with x8 by (symmetry; etransitivity; [|apply (get32_le32 x8); assumption]; reflexivity).
  replace (get32 L 36) with x9 by (symmetry; etransitivity; [|apply (get32_le32 x9); assumption]; reflexivity).
  replace (get32 L 40) with x10 by (symmetry; etransitivity; [|apply (get32_le32 x10); assumption]; reflexivity).
  replace (get32 L 44) with x11 by (symmetry; etransitivity; [|apply (get32_le32 x11); assumption]; reflexivity).
  replace (get32 L 48) with x12 by (symmetry; etransitivity; [|apply (get32_le32 x12); assumption]; reflexivity).
  replace (get32 L 52) with x13 by (symmetry; etransitivity; [|apply (get32_le32 x13); assumption]; reflexivity).
  replace (get32 L 56) with x14 by (symmetry; etransitivity; [|apply (get32_le32 x14); assumption]; reflexivity).
  replace (get32 L 60) with x15 by (symmetry; etransitivity; [|apply (get32_le32 x15); assumption]; reflexivity).
  replace (get32 L 64) with x16 by (symmetry; etransitivity; [|apply (get32_le32 x16); assumption]; reflexivity).
  replace (get32 L 68) with x17 by (symmetry; etransitivity; [|apply (get32_le32 x17); assumption]; reflexivity).
  replace (get32 L 72) with x18 by (symmetry; etransitivity; [|apply (get32_le32 x18); assumption]; reflexivity).
  reflexivity.
Qed.
Definition base_ok (b : jbase) : Prop := length (b_sig b) = 4%nat /\ length (b_rsrvd b) = 1000%nat /\ Forall is_u32 [b_created b; b_mod b; b_active b; b_pw b; b_num b].
Lemma basebytes_length b : base_ok b -> length (basebytes b) = 1024%nat.
Proof. intros (H1 & H2 & _). unfold basebytes. rewrite !app_length, H1, H2. reflexivity. Qed.
Lemma getbase_back b : base_ok b -> getbase (basebytes b) = b.
Proof.
  intros (Hs & Hr & F). repeat match goal with H : Forall _ (_ :: _) |- _ => inversion_clear H end.
  destruct b as [sig x0 x1 x2 x3 x4 r]. cbn [b_sig b_created b_mod b_active b_pw b_num b_rsrvd] in *. destruct sig as [|s0 [|s1 [|s2 [|s3 [|]]]]]; try discriminate.
  unfold getbase. set (L := basebytes _).
  replace (get32 L 4) with x0 by (symmetry; etransitivity; [|apply (get32_le32 x0); assumption]; reflexivity).
  replace (get32 L 8) with x1 by (symmetry; etransitivity; [|apply (get32_le32 x1); assumption]; reflexivity).
  replace (get32 L 12) with x2 by (symmetry; etransitivity; [|apply (get32_le32 x2); assumption]; reflexivity).
  replace (get32 L 16) with x3 by (symmetry; etransitivity; [|apply (get32_le32 x3); assumption]; reflexivity).
  replace (get32 L 20) with x4 by (symmetry; etransitivity; [|apply (get32_le32 x4); assumption]; reflexivity).
  replace (firstn 1000 (skipn 24 L)) with r; [reflexivity|]. unfold L, basebytes, le32. cbn [b_sig b_created b_mod b_active b_pw b_num b_rsrvd app skipn]. symmetry. apply firstn_all2. lia.
Qed.
Lemma idx_back e : is_u32 (fst e) -> is_u32 (snd e) -> getidx (idxbytes e) = e.
Proof. intros H1 H2. destruct e as [a b]. unfold getidx, idxbytes. cbn [fst snd] in *. f_equal; [apply le32_back; auto|]. etransitivity; [|apply (get32_le32 _ H2)]. reflexivity. Qed.
Lemma idx_nonempty e : idxbytes e <> [].
Proof. unfold idxbytes, le32. discriminate. Qed.
Lemma subsize_length subs : Z.of_nat (length (concat (map subbytes subs))) = subsize subs.
Proof.
  induction subs as [|s subs IH]; [reflexivity|]. cbn [map concat subsize fold_right]. rewrite app_length, Nat2Z.inj_add, IH. unfold subbytes. rewrite !app_length. unfold subsize. cbn [length le16 le32]. lia.
Qed.
Lemma subsize_nonneg subs : 0 <= subsize subs.
Proof. rewrite <- subsize_length. lia. Qed.
Lemma totlen_eq subs : subsize subs < 4294967296 -> totlen subs = subsize subs.
Proof.
  unfold totlen. intros H. enough (E : forall n, 0 <= n -> n + subsize subs < 4294967296 -> fold_left (fun n s => u32 (n + (8 + Z.of_nat (length (sf_data s))))) subs n = n + subsize subs) by (rewrite E; lia).
  clear H. induction subs as [|s subs IH]; intros n Hn H; cbn [fold_left subsize fold_right] in *; [lia|]. fold (subsize subs) in *. pose proof (subsize_nonneg subs). unfold u32 at 2. rewrite Z.mod_small by lia. rewrite IH; lia.
Qed.
Lemma cutout_back subs : Forall sub_fine subs -> subsize subs < 4294967296 -> forall fuel, (length (concat (map subbytes subs)) < fuel)%nat -> cutout fuel (concat (map subbytes subs)) = Some (Good subs).
Proof.
  induction 1 as [|s subs (H1 & H2 & _) F IH]; intros Hs fuel Hf; (destruct fuel as [|fuel]; [lia|]); [reflexivity|].
  cbn [map concat] in *. unfold subsize in Hs. cbn [fold_right] in Hs. fold (subsize subs) in Hs. pose proof (subsize_nonneg subs). rewrite app_length in Hf.
  set (rest := concat (map subbytes subs)) in *. assert (Hd : is_u32 (Z.of_nat (length (sf_data s)))) by (unfold is_u32; lia).
  assert (Hl : length (subbytes s) = (8 + length (sf_data s))%nat) by (unfold subbytes; rewrite !app_length; reflexivity).
  assert (E8 : skipn 8 (subbytes s ++ rest) = sf_data s ++ rest) by reflexivity.
  assert (Eg : get32 (subbytes s ++ rest) 4 = Z.of_nat (length (sf_data s))) by (etransitivity; [|apply (get32_le32 _ Hd)]; reflexivity).
  assert (E0 : get16 (subbytes s ++ rest) 0 = sf_lo s) by (etransitivity; [|apply (get16_le16 _ H1)]; reflexivity).
  assert (E2 : get16 (subbytes s ++ rest) 2 = sf_hi s) by (etransitivity; [|apply (get16_le16 _ H2)]; reflexivity).
  cbn [cutout]. rewrite Eg, E0, E2, E8. rewrite app_length, Hl. destruct (Nat.ltb_spec (8 + length (sf_data s) + length rest) 8); [lia|].
  destruct (Z.ltb_spec (Z.of_nat (8 + length (sf_data s) + length rest)) (8 + Z.of_nat (length (sf_data s)))); [lia|]. rewrite Nat2Z.id. rewrite skipn_app, skipn_all, Nat.sub_diag. cbn [app skipn].
  rewrite IH by lia. cbn [obind]. rewrite firstn_app, firstn_all, Nat.sub_diag, firstn_O, app_nil_r.
  destruct (subbytes s ++ rest) as [|x y] eqn:E; [apply (f_equal (@length Z)) in E; rewrite app_length, Hl in E; cbn in E; lia|]. destruct s; reflexivity.
Qed.
Lemma username_fine subs : Forall sub_fine subs -> forall u, exists v, username subs u = Some v.
Proof.
  induction 1 as [|s subs (_ & _ & H3) F IH]; intros u; cbn [username]; [eauto|]. destruct (Z.eqb_spec (sf_lo s) JAMSFLD_RECVRNAME); auto. specialize (H3 e). destruct (Nat.ltb_spec 100 (length (sf_data s))); [lia|]. auto.
Qed.
Lemma deleted_gone h : deleted h = gone h.
Proof.
  unfold deleted, gone, MSG_DELETED. change 2147483648 with (2 ^ 31). destruct (Z.testbit (h_attr h) 31) eqn:E.
  - destruct (Z.eqb_spec (Z.land (h_attr h) (2 ^ 31)) 0) as [E0|]; [|reflexivity]. exfalso. apply (f_equal (fun z => Z.testbit z 31)) in E0. rewrite Z.land_spec, E, Z.pow2_bits_true, Z.bits_0 in E0 by lia. discriminate.
  - destruct (Z.eqb_spec (Z.land (h_attr h) (2 ^ 31)) 0) as [|E0]; [reflexivity|]. exfalso. apply E0. apply Z.bits_inj'. intros n Hn. rewrite Z.land_spec, Z.bits_0, Z.pow2_bits_eqb by lia.
    destruct (Z.eqb_spec 31 n); [subst n; rewrite E; reflexivity|apply andb_false_r].
Qed.

(** ** The index *)
Definition place := option (Z * nat * nat).
Definition entry (p : place) : Z * Z := match p with None => (4294967295, 4294967295) | Some (c, o, _) => (c, Z.of_nat o) end.
Definition place_ok (p : place) : Prop := match p with None => True | Some (c, o, t) => is_u32 c /\ Z.of_nat o < 4294967295 /\ Z.of_nat t < 4294967296 end.
Definition index (l : list place) : list Z := concat (map (fun p => idxbytes (entry p)) l).
Lemma index_length l : length (index l) = (8 * length l)%nat.
Proof. unfold index. induction l as [|p l IH]; [reflexivity|]. cbn [map concat]. rewrite app_length, IH. cbn [length idxbytes app le32]. change (length (idxbytes (entry p))) with 8%nat. lia. Qed.
Lemma index_app a b : index (a ++ b) = index a ++ index b.
Proof. unfold index. rewrite map_app, concat_app. reflexivity. Qed.
Lemma index_at l n p : nth_error l n = Some p -> at_ (8 * n) (idxbytes (entry p)) (index l).
Proof.
  intros H. apply nth_error_split in H as (a & b & -> & <-). rewrite index_app. change (index (p :: b)) with (idxbytes (entry p) ++ index b). rewrite app_assoc. apply at_append. rewrite <- index_length. apply at_end.
Qed.
Lemma entry_ok p : place_ok p -> is_u32 (fst (entry p)) /\ is_u32 (snd (entry p)).
Proof. destruct p as [[[c o] t]|]; cbn; unfold is_u32; lia. Qed.
Lemma readindex_place hdr txt lrd l n : Forall place_ok l -> 0 <= n -> readindex (JAM hdr txt (index l) lrd) n = option_map entry (nth_error l (Z.to_nat n)).
Proof.
  intros F Hn. unfold readindex. cbn [j_idx]. destruct (nth_error l (Z.to_nat n)) as [p|] eqn:E; cbn [option_map].
  - replace (n * 8) with (Z.of_nat (8 * Z.to_nat n)) by lia. change 8%nat with (length (idxbytes (entry p))) at 2. rewrite at_read; [|apply idx_nonempty|apply index_at; auto]. cbn [option_map].
    rewrite Forall_forall in F. destruct (entry_ok p) as [? ?]; [apply F; eapply nth_error_In; eauto|]. rewrite idx_back; auto.
  - apply nth_error_None in E. unfold freadat. rewrite index_length. destruct (Z.leb_spec (n * 8 + Z.of_nat 8) (Z.of_nat (8 * length l))); [lia|]. reflexivity.
Qed.
Lemma index_write a p b q : fwriteat (Z.of_nat (8 * length a)) (idxbytes (entry q)) (index (a ++ p :: b)) = index (a ++ q :: b).
Proof.
  unfold fwriteat. rewrite Nat2Z.id, index_length. replace (8 * length a - 8 * length (a ++ p :: b))%nat with 0%nat by (rewrite app_length; lia). cbn [repeat app].
  rewrite !index_app, <- index_length. change (index (p :: b)) with (idxbytes (entry p) ++ index b). change (index (q :: b)) with (idxbytes (entry q) ++ index b).
  rewrite firstn_app, firstn_all, Nat.sub_diag, firstn_O, app_nil_r. f_equal. rewrite skipn_app, skipn_all2 by lia. cbn [app]. f_equal.
  replace (length (index a) + length (idxbytes (entry q)) - length (index a))%nat with (length (idxbytes (entry p))) by (change (length (idxbytes (entry p))) with 8%nat; change (length (idxbytes (entry q))) with 8%nat; lia).
  rewrite skipn_app, skipn_all, Nat.sub_diag. reflexivity.
Qed.

(** ** Files that hold the slots *)
Definition placed (m : amsg) (t : nat) : jhdr := with_layout (a_hdr m) (h_sublen (a_hdr m)) (Z.of_nat t) (h_txtlen (a_hdr m)).
Definition msg_ok (m : amsg) : Prop :=
  hdr_fine (a_hdr m) /\ Forall sub_fine (a_subs m) /\ subsize (a_subs m) < 2147483648 /\ Z.of_nat (length (a_text m)) < 4294967296 /\
  h_sublen (a_hdr m) = subsize (a_subs m) /\ h_txtlen (a_hdr m) = Z.of_nat (length (a_text m)) /\ h_txtoff (a_hdr m) = 0.
Definition msgbytes (m : amsg) (t : nat) : list Z := hdrbytes (placed m t) ++ concat (map subbytes (a_subs m)).
Definition stored (hdr txt : list Z) (m : amsg) (p : Z * nat * nat) : Prop :=
  let '(c, o, t) := p in msg_ok m /\ (1024 <= o)%nat /\ at_ o (msgbytes m t) hdr /\ at_ t (a_text m) txt.
Definition slotp (hdr txt : list Z) (s : option amsg) (p : place) : Prop :=
  match s, p with None, None => True | Some m, Some p => stored hdr txt m p | _, _ => False end.
Definition region (s : option amsg) (p : place) : list (nat * nat) :=
  match s, p with Some m, Some (_, o, _) => [(o, 76 + length (concat (map subbytes (a_subs m))))%nat] | _, _ => [] end.
Fixpoint regions (ss : list (option amsg)) (ps : list place) : list (nat * nat) :=
  match ss, ps with s :: ss, p :: ps => region s p ++ regions ss ps | _, _ => [] end.
Fixpoint apart (l : list (nat * nat)) : Prop :=
  match l with [] => True | r :: l => Forall (fun r' => (fst r + snd r <= fst r')%nat) l /\ apart l end.
Definition holds (hdr txt : list Z) (ss : list (option amsg)) (ps : list place) : Prop :=
  Forall place_ok ps /\ Forall2 (slotp hdr txt) ss ps /\ apart (regions ss ps).

Lemma placed_ok m t : msg_ok m -> Z.of_nat t < 4294967296 -> hdr_ok (placed m t).
Proof.
  intros (H1 & _ & H2 & H3 & H4 & H5 & _) Ht. pose proof (subsize_nonneg (a_subs m)). split; [exact H1|]. unfold placed. cbn [h_sublen h_txtoff h_txtlen with_layout]. rewrite H4, H5. unfold is_u32. lia.
Qed.
Lemma msgbytes_length m t : msg_ok m -> length (msgbytes m t) = (76 + length (concat (map subbytes (a_subs m))))%nat.
Proof. intros (H & _). unfold msgbytes. rewrite app_length, hdrbytes_length; [reflexivity|apply H]. Qed.
Lemma apart_app a b : apart (a ++ b) <-> apart a /\ apart b /\ Forall (fun x => Forall (fun y => (fst x + snd x <= fst y)%nat) b) a.
Proof.
  induction a as [|x a IH]; cbn [app apart]; [split; [intros H; repeat split; auto|tauto]|]. rewrite Forall_app, IH. split.
  - intros ((H1 & H2) & H3 & H4 & H5). repeat split; auto.
  - intros ((H1 & H2) & H3 & H4). inversion_clear H4. tauto.
Qed.
Lemma Forall2_len {A B} (P : A -> B -> Prop) l r : Forall2 P l r -> length l = length r.
Proof. induction 1; cbn; auto. Qed.
Lemma regions_app ss ps ss' ps' : length ss = length ps -> regions (ss ++ ss') (ps ++ ps') = regions ss ps ++ regions ss' ps'.
Proof. revert ps. induction ss as [|s ss IH]; intros [|p ps] H; try discriminate; [reflexivity|]. cbn [app regions]. rewrite IH by (cbn in H; lia). rewrite app_assoc. reflexivity. Qed.
Lemma regions_end hdr txt ss ps : Forall2 (slotp hdr txt) ss ps -> Forall (fun r => (1024 <= fst r /\ 76 <= snd r /\ fst r + snd r <= length hdr)%nat) (regions ss ps).
Proof.
  induction 1 as [|s p ss ps H F IH]; cbn [regions]; auto. apply Forall_app. split; auto. destruct s as [m|], p as [[[c o] t]|]; cbn [region]; auto. constructor; auto. cbn [slotp stored] in H. destruct H as (H1 & H2 & H3 & H4). cbn [fst snd].
  split; auto. split; [lia|]. rewrite <- (msgbytes_length m t H1). apply at_len; auto. intros E. apply (f_equal (@length Z)) in E. rewrite msgbytes_length in E by auto. cbn in E. lia.
Qed.
(** changes of the files that leave the bytes of the slots alone *)
Lemma holds_same hdr txt hdr' txt' ss ps : holds hdr txt ss ps ->
  (forall o bs, (1024 <= o)%nat -> at_ o bs hdr -> at_ o bs hdr') -> (forall o bs, at_ o bs txt -> at_ o bs txt') -> holds hdr' txt' ss ps.
Proof.
  intros (H1 & H2 & H3) Hh Ht. split; auto. split; auto. clear H3. induction H2 as [|s p ss ps Hsp H2 IH]; constructor; [|apply IH; inversion_clear H1; auto].
  destruct s as [m|], p as [[[c o] t]|]; cbn [slotp stored] in *; auto. destruct Hsp as (A & B & C & D). repeat split; auto; apply A.
Qed.
Lemma nomessage_place c o t : place_ok (Some (c, o, t)) -> nomessage (entry (Some (c, o, t))) = false.
Proof. intros (_ & H & _). unfold nomessage. cbn [entry fst snd]. destruct (Z.eqb_spec (Z.of_nat o) 4294967295); [lia|reflexivity]. Qed.
Lemma Forall2_nth {A B} (P : A -> B -> Prop) l r : Forall2 P l r -> forall i, match nth_error l i, nth_error r i with Some a, Some b => P a b | None, None => True | _, _ => False end.
Proof. induction 1 as [|a b l r H F IH]; intros [|i]; cbn; auto. apply IH. Qed.
Lemma with_layout_same h a b c : placeless (with_layout h a b c) = with_layout h a 0 c.
Proof. reflexivity. Qed.
Lemma msg_placeless m t : msg_ok m -> MSG (placeless (placed m t)) (a_subs m) (a_text m) = m.
Proof. intros (_ & _ & _ & _ & _ & _ & H). destruct m as [h s x]. unfold placed, placeless, with_layout. cbn [a_hdr a_subs a_text] in *. destruct h. cbn in *. rewrite H. reflexivity. Qed.
Lemma readonly_holds hdr txt lrd ss ps n : holds hdr txt ss ps -> 0 <= n ->
  JAM_ReadOnlyHeader (JAM hdr txt (index ps) lrd) n =
    match nth_error ss (Z.to_nat n), nth_error ps (Z.to_nat n) with Some (Some m), Some (Some (c, o, t)) => Good (placed m t) | Some None, _ => Bad JAM_NO_MESSAGE | _, _ => Bad JAM_IO_ERROR end.
Proof.
  intros (H1 & H2 & _) Hn. unfold JAM_ReadOnlyHeader. rewrite readindex_place by auto. pose proof (Forall2_nth _ _ _ H2 (Z.to_nat n)) as Hs.
  destruct (nth_error ss (Z.to_nat n)) as [[m|]|], (nth_error ps (Z.to_nat n)) as [[[[c o] t]|]|] eqn:Ep; cbn [slotp] in Hs; try contradiction; cbn [option_map]; auto.
  rewrite Forall_forall in H1. specialize (H1 _ (nth_error_In _ _ Ep)). rewrite nomessage_place by auto. cbn [entry snd j_hdr]. destruct Hs as (A & B & C & D). unfold msgbytes in C. apply at_app in C as [C1 C2].
  rewrite <- (hdrbytes_length (placed m t)) by apply A. rewrite at_read; auto; [|intros E; apply (f_equal (@length Z)) in E; rewrite hdrbytes_length in E by apply A; discriminate].
  rewrite gethdr_back; [reflexivity|]. apply placed_ok; auto. apply H1.
Qed.
Lemma read_holds hdr txt lrd s ps n : holds hdr txt (x_slots s) ps -> 0 <= n -> read_message (JAM hdr txt (index ps) lrd) n = Some (aread s n).
Proof.
  intros (H1 & H2 & _) Hn. unfold read_message, JAM_ReadMsgHeader, aread. rewrite readindex_place by auto. pose proof (Forall2_nth _ _ _ H2 (Z.to_nat n)) as Hs.
  destruct (nth_error (x_slots s) (Z.to_nat n)) as [[m|]|], (nth_error ps (Z.to_nat n)) as [[[[c o] t]|]|] eqn:Ep; cbn [slotp] in Hs; try contradiction; cbn [option_map]; auto.
  rewrite Forall_forall in H1. specialize (H1 _ (nth_error_In _ _ Ep)). rewrite nomessage_place by auto. cbn [entry snd j_hdr]. destruct Hs as (A & B & C & D). unfold msgbytes in C. apply at_app in C as [C1 C2].
  assert (L76 : length (hdrbytes (placed m t)) = 76%nat) by (apply hdrbytes_length, A).
  assert (R : freadat (Z.of_nat o) 76 hdr = Some (hdrbytes (placed m t))) by (rewrite <- L76; apply at_read; auto; intros E; rewrite E in L76; discriminate).
  rewrite R. rewrite gethdr_back by (apply placed_ok; auto; apply H1). change (h_sublen (placed m t)) with (h_sublen (a_hdr m)).
  assert (Hlen : h_sublen (a_hdr m) = Z.of_nat (length (concat (map subbytes (a_subs m))))) by (rewrite subsize_length; apply A).
  assert (Htext : forall subs, subs = a_subs m -> match JAM_ReadMsgText (JAM hdr txt (index ps) lrd) (h_txtoff (placed m t)) (h_txtlen (placed m t)) with Good text => Good (MSG (placeless (placed m t)) subs text) | Bad c => Bad c end = Good m).
  { intros subs ->. unfold JAM_ReadMsgText. cbn [h_txtoff h_txtlen placed with_layout j_txt]. replace (h_txtlen (a_hdr m)) with (Z.of_nat (length (a_text m))) by (symmetry; apply A). destruct (Z.eqb_spec (Z.of_nat (length (a_text m))) 0) as [E0|E0].
    - assert (E : a_text m = []) by (destruct (a_text m); [reflexivity|cbn in E0; lia]). rewrite <- E. f_equal. apply msg_placeless. auto.
    - rewrite Nat2Z.id, at_read; auto; [|intros E; rewrite E in E0; apply E0; reflexivity]. f_equal. apply msg_placeless. auto. }
  destruct (Z.eqb_spec (h_sublen (a_hdr m)) 0) as [E0|E0].
  - f_equal. apply Htext. destruct (a_subs m) as [|x l]; auto. exfalso. rewrite E0 in Hlen. cbn [map concat] in Hlen. rewrite app_length in Hlen. unfold subbytes in Hlen. rewrite !app_length in Hlen. cbn [length le16] in Hlen. lia.
  - destruct (Z.leb_spec 2147483648 (h_sublen (a_hdr m))) as [E1|E1]; [exfalso; destruct A as (_ & _ & A3 & _ & A5 & _); lia|]. rewrite Hlen, Nat2Z.id.
    replace (Z.of_nat o + 76) with (Z.of_nat (o + 76)) by lia. rewrite L76 in C2. rewrite at_read; auto; [|intros E; rewrite E in Hlen; cbn in Hlen; contradiction].
    rewrite cutout_back by (try apply A; try lia; destruct A as (_ & _ & A3 & _); lia). cbn [obind]. f_equal. apply Htext. reflexivity.
Qed.

(** ** The invariant *)
Definition rep (K : Z) (j : jam) (s : abase) : Prop := exists b ps,
  at_ 0 (basebytes b) (j_hdr j) /\ base_ok b /\ b_num b = x_num s /\ b_active b = x_active s mod 4294967296 /\
  j_idx j = index ps /\ holds (j_hdr j) (j_txt j) (x_slots s) ps /\ Z.of_nat (length (j_hdr j)) + Z.of_nat (length (j_txt j)) <= K.
Lemma base_nonempty b : base_ok b -> basebytes b <> [].
Proof. intros H E. apply basebytes_length in H. rewrite E in H. discriminate. Qed.
Lemma read_base j b : at_ 0 (basebytes b) (j_hdr j) -> base_ok b -> JAM_ReadMBHeader j = Good b.
Proof.
  intros Ha Hb. unfold JAM_ReadMBHeader. change 0 with (Z.of_nat 0). rewrite <- (basebytes_length b Hb). rewrite at_read by (auto using base_nonempty). rewrite getbase_back by auto. reflexivity.
Qed.
Lemma stamped_ok b : base_ok b -> base_ok (stamped b).
Proof.
  intros (H1 & H2 & F). repeat match goal with H : Forall _ (_ :: _) |- _ => inversion_clear H end. split; [reflexivity|]. split; [exact H2|]. unfold stamped. cbn [b_created b_mod b_active b_pw b_num]. repeat (apply Forall_cons; [auto; try apply u32_range|]). constructor.
Qed.
Lemma with_active_ok b n : base_ok b -> is_u32 n -> base_ok (with_active b n).
Proof. intros (H1 & H2 & F) Hn. repeat match goal with H : Forall _ (_ :: _) |- _ => inversion_clear H end. split; [exact H1|]. split; [exact H2|]. unfold with_active. cbn [b_created b_mod b_active b_pw b_num]. repeat (apply Forall_cons; [auto|]). constructor. Qed.
(** writing the header of the base leaves the messages alone *)
Lemma write_base hdr b b' : at_ 0 (basebytes b) hdr -> base_ok b -> base_ok b' ->
  let hdr' := fwriteat 0 (basebytes b') hdr in at_ 0 (basebytes b') hdr' /\ length hdr' = length hdr /\ forall o bs, (1024 <= o)%nat -> at_ o bs hdr -> at_ o bs hdr'.
Proof.
  intros Ha Hb Hb'. cbv zeta. change 0 with (Z.of_nat 0). pose proof (at_len _ _ _ (base_nonempty b Hb) Ha) as Hl. rewrite basebytes_length in Hl by auto. split; [apply at_write_same; lia|]. split; [apply write_length; rewrite basebytes_length by auto; lia|].
  intros o bs Ho H. apply at_write_other; auto; [lia|]. right. rewrite basebytes_length by auto. lia.
Qed.
Lemma index_div ps : Z.of_nat (length (index ps)) / 8 = Z.of_nat (length ps).
Proof. rewrite index_length. replace (Z.of_nat (8 * length ps)) with (Z.of_nat (length ps) * 8) by lia. apply Z.div_mul. lia. Qed.
Lemma mod_add_u32 a b : u32 (a mod 4294967296 + b) = (a + b) mod 4294967296.
Proof. unfold u32. apply Zplus_mod_idemp_l. Qed.

(** JAM_AddMessage, whatever writes fail: the old messages are left alone *)
Lemma add_at crc cut K j s h subs text st j' b ps : (forall u, is_u32 (crc u)) ->
  at_ 0 (basebytes b) (j_hdr j) -> base_ok b -> b_num b = x_num s -> b_active b = x_active s mod 4294967296 -> j_idx j = index ps -> holds (j_hdr j) (j_txt j) (x_slots s) ps -> Z.of_nat (length (j_hdr j)) + Z.of_nat (length (j_txt j)) <= K -> op_fine (Add h subs text) -> K + opsize (Add h subs text) < 4294967295 ->
  JAM_AddMessage crc cut j h subs text = Some (st, j') ->
  (cut = nocuts -> st = 0 /\ rep (K + opsize (Add h subs text)) j' (astep s (Add h subs text))) /\
  exists x, j_idx j' = index ps ++ x /\ holds (j_hdr j') (j_txt j') (x_slots s) ps.
Proof.
  intros Hcrc Ha Hb Hnum Hact Hidx Hold Hlen (F1 & F2 & F3 & F4) Hsz. cbn [opsize] in *.
  unfold JAM_AddMessage. rewrite (read_base j b Ha Hb). pose proof (subsize_nonneg subs) as Hs0.
  set (txt1 := match text with [] => (j_txt j, true) | _ => _ end).
  assert (T1 : exists x, fst txt1 = j_txt j ++ x /\ (cut = nocuts -> txt1 = (j_txt j ++ text, true))).
  { unfold txt1. destruct text as [|c text]; [exists []; rewrite app_nil_r; auto|]. unfold fappend_cut. destruct (c_txt cut) eqn:E; [eexists; split; [reflexivity|]; intros ->; discriminate|]. eexists. split; reflexivity. }
  destruct txt1 as [txt ok1] eqn:Et. destruct T1 as (tx & T1 & T2). cbn [fst] in T1. subst txt. clear Et txt1.
  destruct (negb ok1) eqn:Eok1.
  { intros E. injection E as <- <-. split; [intros Hc; specialize (T2 Hc); injection T2 as _ ->; discriminate|]. exists []. rewrite app_nil_r. split; auto. cbn [j_hdr j_txt]. eapply holds_same; eauto. intros; apply at_append; auto. }
  set (h' := JH _ _ _ _ _ _ _ _ _ _ _ _ _ _ _ _ _ _ _ _).
  unfold fappend_cut at 1. set (H1 := match c_hdr cut with None => _ | Some _ => _ end).
  assert (T3 : exists x, fst H1 = j_hdr j ++ x /\ (cut = nocuts -> H1 = (j_hdr j ++ hdrbytes h' ++ concat (map subbytes subs), true))).
  { unfold H1. destruct (c_hdr cut) eqn:E; [eexists; split; [reflexivity|]; intros ->; discriminate|]. eexists. split; reflexivity. }
  destruct H1 as [hdr ok2] eqn:Eh. destruct T3 as (hx & T3 & T4). cbn [fst] in T3. subst hdr. clear Eh H1.
  destruct (username_fine subs F2 []) as (user & ->). cbn [obind].
  assert (Hnew : holds (j_hdr j ++ hx) (j_txt j ++ tx) (x_slots s) ps) by (eapply holds_same; eauto; intros; apply at_append; auto).
  destruct (negb ok2) eqn:Eok2.
  { intros E. injection E as <- <-. split; [intros Hc; specialize (T4 Hc); injection T4 as _ ->; discriminate|]. exists []. rewrite app_nil_r. auto. }
  set (ucrc := match user with [] => JAM_NO_CRC | _ => crc user end). set (off := u32 (Z.of_nat (length (j_hdr j)))).
  unfold fappend_cut. set (I1 := match c_idx cut with None => _ | Some _ => _ end).
  assert (T5 : exists x, fst I1 = index ps ++ x /\ (cut = nocuts -> I1 = (index ps ++ idxbytes (ucrc, off), true))).
  { unfold I1. rewrite Hidx. destruct (c_idx cut) eqn:E; [eexists; split; [reflexivity|]; intros ->; discriminate|]. eexists. split; reflexivity. }
  destruct I1 as [idx ok3] eqn:Ei. destruct T5 as (ix & T5 & T6). cbn [fst] in T5. subst idx. clear Ei I1.
  destruct (negb ok3) eqn:Eok3.
  { intros E. injection E as <- <-. split; [intros Hc; specialize (T6 Hc); injection T6 as _ ->; discriminate|]. exists ix. auto. }
  set (b' := if deleted h' then b else with_active b (u32 (b_active b + 1))).
  assert (Hb' : base_ok b') by (unfold b'; destruct (deleted h'); auto; apply with_active_ok; auto; apply u32_range).
  assert (Ha' : at_ 0 (basebytes b) (j_hdr j ++ hx)) by (apply at_append; auto).
  destruct (c_base cut) as [k|] eqn:Ec.
  { intros E. injection E as <- <-. split; [intros ->; discriminate|]. exists ix. split; auto. cbn [j_hdr j_txt]. eapply holds_same; eauto.
    intros o bs Ho H. change 0 with (Z.of_nat 0). pose proof (at_len _ _ _ (base_nonempty b Hb) Ha') as Hl. rewrite basebytes_length in Hl by auto. apply at_write_other; auto; [lia|]. right. rewrite firstn_length, basebytes_length by (apply stamped_ok; auto). lia. }
  intros E. cbn [JAM_WriteMBHeader fst j_hdr j_txt j_idx j_lrd] in E. injection E as <- <-. destruct (write_base _ b (stamped b') Ha' Hb (stamped_ok _ Hb')) as (W1 & W2 & W3).
  split; [|exists ix; split; auto; cbn [j_hdr j_txt]; eapply holds_same; eauto].
  intros Hc. split; [reflexivity|]. specialize (T2 Hc). specialize (T4 Hc). specialize (T6 Hc). assert (tx = text) by (apply (app_inv_head (j_txt j)); congruence). assert (hx = hdrbytes h' ++ concat (map subbytes subs)) by (apply (app_inv_head (j_hdr j)); congruence).
  assert (ix = idxbytes (ucrc, off)) by (apply (app_inv_head (index ps)); congruence). subst tx hx ix. clear T2 T4 T6.
  assert (Hoff : off = Z.of_nat (length (j_hdr j))) by (unfold off; apply u32_id; unfold is_u32; lia).
  set (m := MSG (newhdr ((x_num s + Z.of_nat (length (x_slots s))) mod 4294967296) h subs text) subs text).
  set (t := match text with [] => 0%nat | _ => length (j_txt j) end).
  assert (Hnumh : u32 (Z.of_nat (length (j_idx j)) / 8 + b_num b) = (x_num s + Z.of_nat (length (x_slots s))) mod 4294967296).
  { rewrite Hidx, index_div, Hnum. destruct Hold as (_ & Hf & _). rewrite (Forall2_len _ _ _ Hf). unfold u32. f_equal. lia. }
  assert (Eh : h' = placed m t).
  { unfold h', placed, m, newhdr, with_layout. cbn [a_hdr h_sig h_rev h_rsvd h_sublen h_times h_msgid h_reply h_replyto h_reply1st h_replynext h_written h_received h_processed h_num h_attr h_attr2 h_txtoff h_txtlen h_pw h_cost]. rewrite Hnumh, totlen_eq by lia.
    rewrite (u32_id (Z.of_nat (length text))) by (unfold is_u32; lia). f_equal; try reflexivity. unfold t. destruct text; [reflexivity|]. apply u32_id. unfold is_u32. lia. }
  assert (Hm : msg_ok m).
  { unfold m, msg_ok. cbn [a_hdr a_subs a_text newhdr h_sublen h_txtlen h_txtoff]. split; [|auto 10]. destruct F1 as (G1 & G2 & G3 & G4). repeat match goal with H : Forall _ (_ :: _) |- _ => inversion_clear H end.
    split; [reflexivity|]. split; [unfold is_u16; cbn; lia|]. split; [exact G3|]. unfold newhdr. cbn [h_sig h_rev h_rsvd h_sublen h_times h_msgid h_reply h_replyto h_reply1st h_replynext h_written h_received h_processed h_num h_attr h_attr2 h_txtoff h_txtlen h_pw h_cost].
    repeat (apply Forall_cons; [auto; try (apply Z.mod_pos_bound; lia)|]). constructor. }
  exists (stamped b'), (ps ++ [Some (ucrc, length (j_hdr j), t)]). cbn [j_hdr j_txt j_idx j_lrd astep x_num x_active x_slots].
  split; [exact W1|]. split; [apply stamped_ok; auto|]. split; [unfold b'; destruct (deleted h'); exact Hnum|]. split.
  { unfold b'. rewrite deleted_gone. assert (Eg : gone h' = gone h) by reflexivity. rewrite Eg. destruct (gone h); cbn [stamped with_active b_active]; [exact Hact|]. rewrite Hact, mod_add_u32. reflexivity. }
  split; [rewrite index_app; rewrite Hoff; unfold index at 3; cbn [map concat entry]; rewrite app_nil_r; reflexivity|]. split.
  - assert (Hold' : holds (fwriteat 0 (basebytes (stamped b')) (j_hdr j ++ hdrbytes h' ++ concat (map subbytes subs))) (j_txt j ++ text) (x_slots s) ps) by (eapply holds_same; eauto).
    pose proof (at_len _ _ _ (base_nonempty b Hb) Ha) as Hl. rewrite basebytes_length in Hl by auto. destruct Hold as (_ & Hf0 & _). pose proof (regions_end _ _ _ _ Hf0) as Hre.
    destruct Hold' as (G1 & G2 & G3). split; [|split].
    + apply Forall_app. split; auto. constructor; auto. cbn [place_ok]. split; [unfold ucrc; destruct user; [unfold is_u32, JAM_NO_CRC; lia|apply Hcrc]|]. split; [lia|]. unfold t. destruct text; [cbn; lia|]. cbn [length] in *. lia.
    + apply Forall2_app; auto. constructor; auto. cbn [slotp stored]. split; auto. split; [lia|]. split; [|unfold m; cbn [a_text]; unfold t; destruct text; [intros i Hi; cbn in Hi; lia|apply at_end]].
      apply W3; [lia|]. fold m. unfold msgbytes. rewrite <- Eh. cbn [m a_subs]. apply at_end.
    + rewrite regions_app by (apply (Forall2_len _ _ _ G2)). apply apart_app. split; auto. split; [cbn; auto|]. cbn [regions region app]. eapply Forall_impl; [|exact Hre]. cbn beta. intros r Hr. constructor; auto. cbn [fst]. lia.
  - rewrite W2. rewrite !app_length, hdrbytes_length by reflexivity. pose proof (subsize_length subs). lia.
Qed.
Lemma add_any crc cut K j s h subs text st j' : (forall u, is_u32 (crc u)) -> rep K j s -> op_fine (Add h subs text) -> K + opsize (Add h subs text) < 4294967295 ->
  JAM_AddMessage crc cut j h subs text = Some (st, j') ->
  (cut = nocuts -> st = 0 /\ rep (K + opsize (Add h subs text)) j' (astep s (Add h subs text))) /\
  exists ps x, j_idx j = index ps /\ j_idx j' = index ps ++ x /\ holds (j_hdr j') (j_txt j') (x_slots s) ps.
Proof.
  intros Hcrc (b & ps & Ha & Hb & Hnum & Hact & Hidx & Hold & Hlen) Ho Hsz E. destruct (add_at _ _ _ _ _ _ _ _ _ _ _ _ Hcrc Ha Hb Hnum Hact Hidx Hold Hlen Ho Hsz E) as (H1 & x & H2 & H3). split; auto. exists ps, x. auto.
Qed.

(** ** Changing one message *)
Lemma slots_write hdr txt hb o ss ps : (o <= length hdr)%nat -> Forall2 (slotp hdr txt) ss ps -> Forall (fun r => (fst r + snd r <= o \/ o + length hb <= fst r)%nat) (regions ss ps) -> Forall2 (slotp (fwriteat (Z.of_nat o) hb hdr) txt) ss ps.
Proof.
  intros Ho. induction 1 as [|s p ss ps Hsp H2 IH]; cbn [regions]; intros F; constructor; apply Forall_app in F as [F1 F2]; auto.
  destruct s as [m|], p as [[[c o'] t]|]; cbn [slotp stored region] in *; auto. destruct Hsp as (A & B & C & D). inversion_clear F1. cbn [fst snd] in *. split; auto. split; auto. split; auto. apply at_write_other; auto. rewrite msgbytes_length by auto. lia.
Qed.
Lemma setslot_split sa x y sb n : Z.to_nat n = length sa -> setslot n y (sa ++ x :: sb) = sa ++ y :: sb.
Proof.
  intros E. unfold setslot. rewrite E. rewrite firstn_app, firstn_all, Nat.sub_diag, firstn_O, app_nil_r. f_equal. f_equal. replace (S (length sa)) with (length (sa ++ [x])) by (rewrite app_length; cbn; lia).
  change (sa ++ x :: sb) with (sa ++ [x] ++ sb). rewrite app_assoc, skipn_app, skipn_all, Nat.sub_diag. reflexivity.
Qed.
Lemma holds_split hdr txt ss ps n m : holds hdr txt ss ps -> nth_error ss n = Some (Some m) -> exists sa sb pa pb c o t,
  ss = sa ++ Some m :: sb /\ ps = pa ++ Some (c, o, t) :: pb /\ length sa = n /\ length pa = n /\ stored hdr txt m (c, o, t) /\ place_ok (Some (c, o, t)) /\ (o + 76 + length (concat (map subbytes (a_subs m))) <= length hdr)%nat /\
  forall hb, length hb = 76%nat -> let hdr' := fwriteat (Z.of_nat o) hb hdr in
    Forall2 (slotp hdr' txt) sa pa /\ Forall2 (slotp hdr' txt) sb pb /\ at_ o (hb ++ concat (map subbytes (a_subs m))) hdr' /\ length hdr' = length hdr /\ forall bs, (length bs <= 1024)%nat -> at_ 0 bs hdr -> at_ 0 bs hdr'.
Proof.
  intros (H1 & H2 & H3) En. apply nth_error_split in En as (sa & sb & -> & Hn). apply Forall2_app_inv_l in H2 as (pa & pr & Ha & Hr & ->). inversion Hr as [|s' p' sr pb Hsp Hb Es Ep]; subst. destruct p' as [[[c o] t]|]; [|contradiction].
  exists sa, sb, pa, pb, c, o, t. assert (Hl : length pa = length sa) by (symmetry; apply (Forall2_len _ _ _ Ha)). split; [reflexivity|]. split; [reflexivity|]. split; [reflexivity|]. split; [exact Hl|]. split; [exact Hsp|].
  split; [apply Forall_app in H1 as [_ H1]; inversion_clear H1; assumption|]. split.
  - destruct Hsp as (A & B & C & D). pose proof (at_len o (msgbytes m t) hdr) as Hal. rewrite msgbytes_length in Hal by auto. rewrite <- Nat.add_assoc. apply Hal; auto. intros E. apply (f_equal (@length Z)) in E. rewrite msgbytes_length in E by auto. cbn in E. lia.
  - destruct Hsp as (A & B & C & D). pose proof (at_len o (msgbytes m t) hdr) as Hal. rewrite msgbytes_length in Hal by auto. assert (Ho : (o + (76 + length (concat (map subbytes (a_subs m)))) <= length hdr)%nat) by (apply Hal; auto; intros E; apply (f_equal (@length Z)) in E; rewrite msgbytes_length in E by auto; cbn in E; lia).
    rewrite regions_app in H3 by auto. cbn [regions region app] in H3. apply apart_app in H3 as (P1 & P2 & P3). cbn [apart] in P2. destruct P2 as [P2 P4].
    intros hb Hhb hdr'. split; [|split; [|split; [|split]]].
    + apply slots_write; auto; [lia|]. eapply Forall_impl; [|exact P3]. cbn beta. intros r Hr'. inversion_clear Hr'. cbn [fst] in *. lia.
    + apply slots_write; auto; [lia|]. eapply Forall_impl; [|exact P2]. cbn beta. intros r Hr'. cbn [fst snd] in *. lia.
    + apply at_app. split; [apply at_write_same; lia|]. unfold msgbytes in C. apply at_app in C as [_ C2]. rewrite hdrbytes_length in C2 by apply A. apply at_write_other; auto; [lia|]. rewrite Hhb. exact C2.
    + apply write_length. lia.
    + intros bs Hbs Hat. apply at_write_other; auto; [lia|]. left. lia.
Qed.
Lemma with_attr_ok m t a : msg_ok m -> length (hdrbytes (with_attr (placed m t) a)) = 76%nat.
Proof. intros A. apply hdrbytes_length. apply A. Qed.
Lemma rep_read K j s : rep K j s -> exists b, JAM_ReadMBHeader j = Good b /\ b_num b = x_num s /\ b_active b = x_active s mod 4294967296 /\ forall n, 0 <= n -> read_message j n = Some (aread s n).
Proof.
  intros (b & ps & Ha & Hb & Hnum & Hact & Hidx & Hold & Hlen). exists b. split; [apply read_base; auto|]. split; auto. split; auto. intros n Hn. destruct j as [hdr txt idx lrd]. cbn [j_hdr j_txt j_idx] in *. subst idx. apply read_holds; auto.
Qed.
Lemma sub_u32 a b : u32 (a mod 4294967296 - b) = (a - b) mod 4294967296.
Proof. unfold u32. apply Zminus_mod_idemp_l. Qed.
Lemma change_step K j s n h : rep K j s -> op_fine (Change n h) -> rep K (snd (JAM_ChangeMsgHeader j n (match JAM_ReadOnlyHeader j n with Good old => with_layout h (h_sublen old) (h_txtoff old) (h_txtlen old) | Bad _ => h end))) (astep s (Change n h)) \/ (exists c, JAM_ReadOnlyHeader j n = Bad c /\ astep s (Change n h) = s).
Proof.
  intros (b & ps & Ha & Hb & Hnum & Hact & Hidx & Hold & Hlen) (Hn & F). destruct j as [hdr txt idx lrd]. cbn [j_hdr j_txt j_idx] in *. subst idx. rewrite readonly_holds with (ss := x_slots s) by auto. cbn [astep]. unfold aread.
  destruct (nth_error (x_slots s) (Z.to_nat n)) as [[m|]|] eqn:En; [|right; eauto|right; destruct (nth_error ps (Z.to_nat n)) as [[]|]; eauto].
  left. destruct (holds_split _ _ _ _ _ _ Hold En) as (sa & sb & pa & pb & c & o & t & Es & Eps & Hsa & Hpa & Hst & Hp & Ho & Hw). assert (Enp : nth_error ps (Z.to_nat n) = Some (Some (c, o, t))) by (rewrite Eps, nth_error_app2 by lia; rewrite Hpa, Nat.sub_diag; reflexivity). rewrite Enp.
  unfold JAM_ChangeMsgHeader. rewrite (read_base _ b) by auto. destruct Hold as (G1 & G2 & G3). rewrite readindex_place, Enp by auto. cbn [option_map entry snd j_hdr]. destruct Hst as (A & B & C & D).
  assert (R : freadat (Z.of_nat o) 76 hdr = Some (hdrbytes (placed m t))).
  { unfold msgbytes in C. apply at_app in C as [C1 _]. rewrite <- (hdrbytes_length (placed m t)) by apply A. apply at_read; auto. intros E. apply (f_equal (@length Z)) in E. rewrite hdrbytes_length in E by apply A. discriminate. }
  rewrite R, gethdr_back by (apply placed_ok; auto; apply Hp). set (m' := MSG (with_layout h (h_sublen (a_hdr m)) 0 (h_txtlen (a_hdr m))) (a_subs m) (a_text m)).
  change (with_layout h (h_sublen (placed m t)) (h_txtoff (placed m t)) (h_txtlen (placed m t))) with (placed m' t). rewrite !deleted_gone. change (gone (placed m' t)) with (gone h). change (gone (placed m t)) with (gone (a_hdr m)).
  assert (A' : msg_ok m') by (destruct A as (A1 & A2 & A3 & A4 & A5 & A6 & A7); split; [exact F|]; cbn [m' a_hdr a_subs a_text with_layout h_sublen h_txtlen h_txtoff]; auto 10).
  destruct (Hw (hdrbytes (placed m' t))) as (W1 & W2 & W3 & W4 & W5); [apply hdrbytes_length, A'|].
  set (b' := if _ : bool then _ else b). assert (Hb' : base_ok b') by (unfold b'; destruct (_ && _); auto; apply with_active_ok; auto; apply u32_range).
  cbn [snd fst JAM_WriteMBHeader j_hdr j_txt j_idx j_lrd]. assert (Ha' : at_ 0 (basebytes b) (fwriteat (Z.of_nat o) (hdrbytes (placed m' t)) hdr)) by (apply W5; auto; rewrite basebytes_length by auto; lia).
  destruct (write_base _ b (stamped b') Ha' Hb (stamped_ok _ Hb')) as (V1 & V2 & V3).
  subst ps. exists (stamped b'), (pa ++ Some (c, o, t) :: pb). cbn [j_hdr j_txt j_idx j_lrd x_num x_active x_slots]. split; [exact V1|]. split; [apply stamped_ok; auto|]. split; [unfold b'; destruct (_ && _); exact Hnum|]. split.
  { unfold b'. destruct (_ && _); cbn [stamped with_active b_active]; [|exact Hact]. rewrite Hact, sub_u32. reflexivity. }
  split; [reflexivity|]. split; [|rewrite V2, W4; exact Hlen]. rewrite Es, setslot_split by auto. apply holds_same with (hdr := fwriteat (Z.of_nat o) (hdrbytes (placed m' t)) hdr) (txt := txt); auto. split; [exact G1|]. split.
  - apply Forall2_app; auto. constructor; auto. cbn [slotp stored]. split; auto.
  - rewrite Es in G3. rewrite regions_app in G3 by (rewrite Hsa; symmetry; exact Hpa). rewrite regions_app by (rewrite Hsa; symmetry; exact Hpa). exact G3.
Qed.
Lemma delete_step K j s n : rep K j s -> 0 <= n -> rep K (snd (JAM_DeleteMessage j n)) (astep s (Delete n)).
Proof.
  intros HR Hn. assert (HR' := HR). destruct HR as (b & ps & Ha & Hb & Hnum & Hact & Hidx & Hold & Hlen). destruct j as [hdr txt idx lrd]. cbn [j_hdr j_txt j_idx] in *. subst idx. cbn [astep]. unfold aread, JAM_DeleteMessage.
  rewrite (read_base _ b) by auto. assert (Hold' := Hold). destruct Hold' as (G1 & G2 & G3). rewrite readindex_place by auto. pose proof (Forall2_nth _ _ _ G2 (Z.to_nat n)) as Hsn.
  destruct (nth_error (x_slots s) (Z.to_nat n)) as [[m|]|] eqn:En; [|destruct (nth_error ps (Z.to_nat n)) as [[]|]; try contradiction; exact HR'|destruct (nth_error ps (Z.to_nat n)) as [[]|]; try contradiction; exact HR'].
  destruct (holds_split _ _ _ _ _ _ Hold En) as (sa & sb & pa & pb & c & o & t & Es & Eps & Hsa & Hpa & Hst & Hp & Ho & Hw). assert (Enp : nth_error ps (Z.to_nat n) = Some (Some (c, o, t))) by (rewrite Eps, nth_error_app2 by lia; rewrite Hpa, Nat.sub_diag; reflexivity). rewrite Enp.
  cbn [option_map]. rewrite nomessage_place by auto. cbn [entry snd j_hdr j_txt j_idx j_lrd]. destruct Hst as (A & B & C & D).
  assert (R : freadat (Z.of_nat o) 76 hdr = Some (hdrbytes (placed m t))).
  { unfold msgbytes in C. apply at_app in C as [C1 _]. rewrite <- (hdrbytes_length (placed m t)) by apply A. apply at_read; auto. intros E. apply (f_equal (@length Z)) in E. rewrite hdrbytes_length in E by apply A. discriminate. }
  rewrite R, gethdr_back by (apply placed_ok; auto; apply Hp). rewrite !deleted_gone. change (gone (placed m t)) with (gone (a_hdr m)).
  destruct (Hw (hdrbytes (with_attr (placed m t) (Z.lor (h_attr (placed m t)) MSG_DELETED)))) as (W1 & W2 & W3 & W4 & W5); [apply with_attr_ok, A|].
  set (hdr' := fwriteat (Z.of_nat o) _ hdr) in *. set (b' := if _ : bool then b else _). assert (Hb' : base_ok b') by (unfold b'; destruct (gone _); auto; apply with_active_ok; auto; apply u32_range).
  cbn [snd fst JAM_WriteMBHeader j_hdr j_txt j_idx j_lrd]. assert (Ha' : at_ 0 (basebytes b) hdr') by (apply W5; auto; rewrite basebytes_length by auto; lia).
  destruct (write_base _ b (stamped b') Ha' Hb (stamped_ok _ Hb')) as (V1 & V2 & V3).
  subst ps. exists (stamped b'), (pa ++ None :: pb). cbn [j_hdr j_txt j_idx j_lrd x_num x_active x_slots]. split; [exact V1|]. split; [apply stamped_ok; auto|]. split; [unfold b'; destruct (gone _); exact Hnum|]. split.
  { unfold b'. destruct (gone _); cbn [stamped with_active b_active]; [exact Hact|]. rewrite Hact, sub_u32. reflexivity. }
  split; [replace (n * 8) with (Z.of_nat (8 * length pa)) by lia; apply (index_write pa (Some (c, o, t)) pb None)|]. split; [|rewrite V2, W4; exact Hlen]. rewrite Es, setslot_split by auto. apply holds_same with (hdr := hdr') (txt := txt); auto. split; [|split].
  - apply Forall_app in G1 as [G0 G1]. inversion_clear G1. apply Forall_app. split; auto. constructor; auto. exact I.
  - apply Forall2_app; auto. constructor; auto. exact I.
  - rewrite Es in G3. rewrite regions_app in G3 by (rewrite Hsa; symmetry; exact Hpa). rewrite regions_app by (rewrite Hsa; symmetry; exact Hpa). cbn [regions region app] in *. apply apart_app in G3 as (P1 & P2 & P3). cbn [apart] in P2. apply apart_app. split; auto. split; [tauto|]. eapply Forall_impl; [|exact P3]. cbn beta. intros r Hr. inversion_clear Hr. auto.
Qed.
Lemma empty_step K j s : rep K j s -> rep K (snd (JAM_AddEmptyMessage j)) (astep s AddEmpty).
Proof.
  intros (b & ps & Ha & Hb & Hnum & Hact & Hidx & Hold & Hlen). exists b, (ps ++ [None]). unfold JAM_AddEmptyMessage. cbn [snd j_hdr j_txt j_idx j_lrd astep x_num x_active x_slots]. repeat (split; [assumption|]).
  split; [rewrite index_app, Hidx; reflexivity|]. split; [|exact Hlen]. destruct Hold as (G1 & G2 & G3). split; [apply Forall_app; split; auto; constructor; auto; exact I|]. split; [apply Forall2_app; auto; constructor; auto; exact I|].
  rewrite regions_app by (apply (Forall2_len _ _ _ G2)). cbn [regions region app]. rewrite app_nil_r. exact G3.
Qed.
Lemma create_rep now base : is_u32 base -> rep 1024 (JAM_CreateMB now base) (AB base 0 []).
Proof.
  intros Hb. set (b := stamped (JB [] (u32 now) 0 0 4294967295 base (repeat 0 1000))). assert (Hbo : base_ok b).
  { unfold b, stamped. cbn [b_sig b_created b_mod b_active b_pw b_num b_rsrvd]. split; [reflexivity|]. split; [apply repeat_length|]. cbn [b_sig b_created b_mod b_active b_pw b_num b_rsrvd]. repeat (apply Forall_cons; [auto; try apply u32_range; unfold is_u32; try lia|]). constructor. }
  assert (E : JAM_CreateMB now base = JAM (basebytes b) [] [] []).
  { unfold JAM_CreateMB, JAM_WriteMBHeader. fold b. cbn [fst j_hdr j_txt j_idx j_lrd]. f_equal. }
  rewrite E. exists b, []. cbn [j_hdr j_txt j_idx x_num x_active x_slots]. split; [intros i Hi; reflexivity|]. split; auto. split; [reflexivity|]. split; [reflexivity|]. split; [reflexivity|]. split; [split; [constructor|]; split; constructor|]. rewrite basebytes_length by auto. cbn. lia.
Qed.
Lemma username_add crc cut j h subs text b : JAM_ReadMBHeader j = Good b -> Forall sub_fine subs -> exists r, JAM_AddMessage crc cut j h subs text = Some r.
Proof.
  intros Hb F. unfold JAM_AddMessage. rewrite Hb. destruct (match text with [] => _ | _ => _ end) as [txt ok]. destruct (negb ok); [eauto|]. destruct (fappend_cut (c_hdr cut) _ _) as [hdr ok2]. destruct (username_fine subs F []) as (u & ->). cbn [obind].
  destruct (negb ok2); [eauto|]. destruct (fappend_cut (c_idx cut) _ _) as [idx ok3]. destruct (negb ok3); [eauto|]. destruct (c_base cut); eauto.
Qed.
Lemma step_rep crc K j s o : (forall u, is_u32 (crc u)) -> rep K j s -> op_fine o -> K + opsize o < 4294967295 -> exists j', jstep crc j o = Some j' /\ rep (K + opsize o) j' (astep s o).
Proof.
  intros Hcrc HR Ho HK. destruct o as [h subs text| |n h|n].
  - destruct (rep_read _ _ _ HR) as (b & Hb & _). destruct (username_add crc nocuts j h subs text b Hb) as ((st & j') & E); [apply Ho|]. exists j'. cbn [jstep]. rewrite E. split; auto. destruct (add_any _ _ _ _ _ _ _ _ _ _ Hcrc HR Ho HK E) as [H _]. apply H. reflexivity.
  - cbn [opsize jstep]. rewrite Z.add_0_r. eexists. split; [reflexivity|]. apply empty_step. auto.
  - cbn [opsize jstep]. rewrite Z.add_0_r. destruct (change_step _ _ _ _ _ HR Ho) as [H|(c & E & E')].
    + destruct (JAM_ReadOnlyHeader j n) eqn:E; [eauto|]. exists j. split; auto. cbn [astep]. destruct HR as (b & ps & Ha & Hb & Hnum & Hact & Hidx & Hold & Hlen). destruct Ho as [Hn _]. unfold aread. destruct j as [hdr txt idx lrd]. cbn [j_hdr j_txt j_idx] in *. subst idx. rewrite readonly_holds with (ss := x_slots s) in E by auto.
      destruct Hold as (G1 & G2 & G3). pose proof (Forall2_nth _ _ _ G2 (Z.to_nat n)) as Hs. destruct (nth_error (x_slots s) (Z.to_nat n)) as [[m|]|]; [|exists b, ps; repeat (split; [assumption || reflexivity|]); split; [split; auto|assumption]..].
      destruct (nth_error ps (Z.to_nat n)) as [[[[? ?] ?]|]|]; try contradiction. discriminate.
    + rewrite E, E'. eauto.
  - cbn [opsize jstep]. rewrite Z.add_0_r. eexists. split; [reflexivity|]. apply delete_step; auto.
Qed.
Lemma run_rep crc ops : (forall u, is_u32 (crc u)) -> Forall op_fine ops -> forall K j s, rep K j s -> K + fold_right (fun o n => opsize o + n) 0 ops < 4294967295 ->
  exists j', jrun crc j ops = Some j' /\ rep (K + fold_right (fun o n => opsize o + n) 0 ops) j' (fold_left astep ops s).
Proof.
  intros Hcrc. induction 1 as [|o ops Ho F IH]; intros K j s HR HK; cbn [fold_right fold_left jrun] in *; [rewrite Z.add_0_r; eauto|].
  assert (Hp : 0 <= fold_right (fun o n => opsize o + n) 0 ops) by (clear; induction ops as [|o l IH]; cbn [fold_right]; [lia|]; destruct o; cbn [opsize]; try lia; pose proof (subsize_nonneg subs); lia).
  destruct (step_rep crc K j s o Hcrc HR Ho ltac:(lia)) as (j' & E & HR'). rewrite E. rewrite Z.add_assoc in *. apply IH; auto.
Qed.
