(** Lemmas on lastread records. *)
From Verif Require Import Base M_Jam P_Jam M_LastRead S_LastRead.

Lemma lrbytes_length r : length (lrbytes r) = 16%nat.
Proof. reflexivity. Qed.
Lemma getlr_back r : lrec_ok r -> getlr (lrbytes r) = r.
Proof.
  destruct r as [a b c d]. intros (A & B & C & D). cbn [r_crc r_id r_last r_high] in *. unfold getlr, lrbytes. cbn [r_crc r_id r_last r_high].
  f_equal.
  - exact (get32_le32 a A).
  - exact (get32_le32 b B).
  - exact (get32_le32 c C).
  - exact (get32_le32 d D).
Qed.
Lemma lrfile_length rs : length (lrfile rs) = (16 * length rs)%nat.
Proof. unfold lrfile. induction rs as [|r rs IH]; [reflexivity|]. cbn [map concat length]. rewrite app_length, lrbytes_length, IH. lia. Qed.
Lemma lrfile_app a b : lrfile (a ++ b) = lrfile a ++ lrfile b.
Proof. unfold lrfile. rewrite map_app, concat_app. reflexivity. Qed.

Lemma read_mid a r b pos : pos = Z.of_nat (length a) -> freadat (pos * 16) 16 (lrfile (a ++ r :: b)) = Some (lrbytes r).
Proof.
  intros ->. rewrite lrfile_app. change (lrfile (r :: b)) with (lrbytes r ++ lrfile b).
  replace (Z.of_nat (length a) * 16) with (Z.of_nat (length (lrfile a))) by (rewrite lrfile_length; lia).
  apply (at_read _ (lrbytes r)); [discriminate|]. rewrite app_assoc. apply at_append, at_end.
Qed.
Lemma read_end rs pos : pos = Z.of_nat (length rs) -> freadat (pos * 16) 16 (lrfile rs) = None.
Proof.
  intros ->. unfold freadat. rewrite lrfile_length. destruct (Z.leb_spec (Z.of_nat (length rs) * 16 + Z.of_nat 16) (Z.of_nat (16 * length rs))); [lia|reflexivity].
Qed.
Lemma write_mid a r b x pos : pos = Z.of_nat (length a) -> fwriteat (pos * 16) (lrbytes x) (lrfile (a ++ r :: b)) = lrfile (a ++ x :: b).
Proof.
  intros ->. rewrite !lrfile_app. change (lrfile (r :: b)) with (lrbytes r ++ lrfile b). change (lrfile (x :: b)) with (lrbytes x ++ lrfile b).
  unfold fwriteat. replace (Z.to_nat (Z.of_nat (length a) * 16)) with (length (lrfile a)) by (rewrite lrfile_length; lia).
  rewrite firstn_app, Nat.sub_diag, firstn_all, firstn_O, app_nil_r. rewrite app_length.
  replace (length (lrfile a) - (length (lrfile a) + length (lrbytes r ++ lrfile b)))%nat with O by lia. cbn [repeat app]. f_equal. f_equal.
  rewrite app_assoc. replace (length (lrfile a) + length (lrbytes x))%nat with (length (lrfile a ++ lrbytes r)) by (rewrite app_length; reflexivity).
  rewrite skipn_app, Nat.sub_diag, skipn_all. reflexivity.
Qed.

(** the records before the first one of a user, and that one *)
Lemma split_first u : forall rs, (first_of rs u = None /\ ~ In u (map r_id rs)) \/
  exists a r b, rs = a ++ r :: b /\ r_id r = u /\ ~ In u (map r_id a) /\ first_of rs u = Some r.
Proof.
  induction rs as [|x rs IH]; [left; cbn; auto|]. unfold first_of in *. cbn [find map]. destruct (Z.eqb_spec (r_id x) u) as [E|E].
  - right. exists [], x, rs. cbn. auto.
  - destruct IH as [(H & Hn)|(a & r & b & -> & Er & Hn & H)].
    + left. split; auto. cbn. tauto.
    + right. exists (x :: a), r, b. cbn. split; [auto|]. split; [auto|]. split; [tauto|]. exact H.
Qed.
Lemma lrfind_spec u : forall tl a n, Forall lrec_ok tl -> (length tl < n)%nat -> ~ In u (map r_id a) ->
  (~ In u (map r_id tl) -> lrfind n (lrfile (a ++ tl)) u (Z.of_nat (length a)) = Some None) /\
  (forall p r b, tl = p ++ r :: b -> r_id r = u -> ~ In u (map r_id p) ->
     lrfind n (lrfile (a ++ tl)) u (Z.of_nat (length a)) = Some (Some (Z.of_nat (length a + length p), r))).
Proof.
  induction tl as [|x tl IH]; intros a n Hok Hn Ha; destruct n as [|n]; cbn [length] in Hn; try lia.
  - rewrite app_nil_r. split.
    + intros _. cbn [lrfind]. rewrite read_end by reflexivity. reflexivity.
    + intros p r b E. destruct p; discriminate.
  - inversion Hok as [|? ? Hx Htl]; subst. cbn [lrfind]. rewrite read_mid by reflexivity. rewrite getlr_back by auto.
    destruct (Z.eqb_spec (r_id x) u) as [E|E].
    + split; [intros H; exfalso; apply H; cbn; auto|]. intros p r b Ep Er Hp. destruct p as [|y p].
      * cbn in Ep. injection Ep as <- <-. cbn [length]. rewrite Nat.add_0_r. reflexivity.
      * exfalso. cbn in Ep. injection Ep as <- _. apply Hp. cbn. auto.
    + specialize (IH (a ++ [x]) n Htl ltac:(lia)). rewrite <- app_assoc in IH. cbn [app] in IH.
      replace (Z.of_nat (length a) + 1) with (Z.of_nat (length (a ++ [x]))) by (rewrite app_length; cbn; lia).
      destruct IH as [I1 I2]. { rewrite map_app, in_app_iff. cbn. tauto. }
      split.
      * intros H. apply I1. intros H1. apply H. cbn. auto.
      * intros p r b Ep Er Hp. destruct p as [|y p].
        { cbn in Ep. injection Ep as <- _. contradiction. }
        cbn in Ep. injection Ep as <- Ep. rewrite (I2 p r b Ep Er) by (intros H; apply Hp; cbn; auto).
        rewrite app_length. cbn [length]. do 4 f_equal. lia.
Qed.

(** the first record of a user, written over or added *)
Fixpoint putrec (rs : list lrec) (u : Z) (x : lrec) : list lrec :=
  match rs with
  | [] => [x]
  | r :: b => if r_id r =? u then x :: b else r :: putrec b u x
  end.
Lemma putrec_new u x : forall rs, ~ In u (map r_id rs) -> putrec rs u x = rs ++ [x].
Proof.
  induction rs as [|r rs IH]; intros H; cbn; auto. cbn in H. destruct (Z.eqb_spec (r_id r) u); [tauto|]. rewrite IH by tauto. reflexivity.
Qed.
Lemma putrec_old u x r b : r_id r = u -> forall a, ~ In u (map r_id a) -> putrec (a ++ r :: b) u x = a ++ x :: b.
Proof.
  intros Er. induction a as [|y a IH]; intros H; cbn.
  - rewrite Er, Z.eqb_refl. reflexivity.
  - cbn in H. destruct (Z.eqb_spec (r_id y) u); [tauto|]. rewrite IH by tauto. reflexivity.
Qed.
Lemma putrec_first u x rs : r_id x = u -> forall v, first_of (putrec rs u x) v = put (first_of rs) u x v.
Proof.
  intros Hx v. unfold first_of, put. induction rs as [|r rs IH]; cbn.
  - rewrite Hx. destruct (Z.eqb_spec u v), (Z.eqb_spec v u); congruence.
  - destruct (Z.eqb_spec (r_id r) u) as [E|E]; cbn.
    + rewrite Hx. rewrite E. destruct (Z.eqb_spec u v), (Z.eqb_spec v u); congruence.
    + rewrite IH. destruct (Z.eqb_spec (r_id r) v), (Z.eqb_spec v u); congruence.
Qed.
Lemma putrec_ids u x : r_id x = u -> forall rs, exists n, map r_id (putrec rs u x) = map r_id rs ++ n /\ ((n = [] /\ In u (map r_id rs)) \/ (n = [u] /\ ~ In u (map r_id rs))).
Proof.
  intros Hx. induction rs as [|r rs (n & IH & H)]; cbn.
  - exists [u]. rewrite Hx. auto.
  - destruct (Z.eqb_spec (r_id r) u) as [E|E]; cbn.
    + exists []. rewrite Hx, E, app_nil_r. auto.
    + exists n. rewrite IH. split; auto. tauto.
Qed.
Lemma putrec_ok u x rs : lrec_ok x -> Forall lrec_ok rs -> Forall lrec_ok (putrec rs u x).
Proof.
  intros Hx H. induction H as [|r rs Hr H IH]; cbn; [auto|]. destruct (_ =? _); auto.
Qed.

(** a handle knows nothing, or the position of the first record of a user *)
Definition known (rs : list lrec) (h : lrh) : Prop :=
  h = lrh0 \/ exists a r b, rs = a ++ r :: b /\ r_id r = l_id h /\ ~ In (l_id h) (map r_id a) /\ l_pos h = Z.of_nat (length a).
Lemma known_put rs h u x : r_id x = u -> known rs h -> known (putrec rs u x) h.
Proof.
  intros Hx [->|(a & r & b & -> & Er & Ha & Hp)]; [left; auto|right].
  destruct (Z.eq_dec (l_id h) u) as [E|E].
  - rewrite putrec_old by (auto; congruence). exists a, x, b. rewrite Hx. auto.
  - assert (HX : forall a, exists a' b', putrec (a ++ r :: b) u x = a' ++ r :: b' /\ map r_id a' = map r_id a).
    { clear -E Er Hx. induction a as [|y a (a' & b' & IH & Ei)]; cbn.
      - destruct (Z.eqb_spec (r_id r) u); [congruence|]. exists [], (putrec b u x). auto.
      - destruct (Z.eqb_spec (r_id y) u) as [Ey|Ey].
        + exists (x :: a), b. cbn. split; auto. congruence.
        + rewrite IH. exists (y :: a'), b'. cbn. split; auto. congruence. }
    destruct (HX a) as (a' & b' & -> & Ei). exists a', r, b'. split; auto. split; auto. rewrite Ei. split; auto.
    rewrite <- (map_length r_id a'), Ei, map_length. auto.
Qed.

Lemma write_spec rs h u x : Forall lrec_ok rs -> known rs h -> r_id x = u -> rs <> [] \/ u <> 0 ->
  JAM_WriteLastRead (lrfile rs) h u x = Some (0, lrfile (putrec rs u x)).
Proof.
  intros Hok Hk Hx H0.
  assert (HS : match lrfind (S (length (lrfile rs))) (lrfile rs) u 0 with
               | None => None
               | Some None => Some (0, lrfile rs ++ lrbytes x)
               | Some (Some (pos, _)) => Some (0, fwriteat (pos * 16) (lrbytes x) (lrfile rs))
               end = Some (0, lrfile (putrec rs u x))).
  { destruct (lrfind_spec u rs [] (S (length (lrfile rs))) Hok ltac:(rewrite lrfile_length; lia) ltac:(cbn; tauto)) as [L1 L2].
    cbn [app length] in L1, L2. change (Z.of_nat 0) with 0 in L1, L2.
    destruct (split_first u rs) as [(_ & Hn)|(a & r & b & E & Er & Ha & _)].
    - rewrite L1 by auto. rewrite putrec_new, lrfile_app by auto. cbn [lrfile map concat]. rewrite app_nil_r. reflexivity.
    - rewrite (L2 a r b) by auto. subst rs. rewrite putrec_old by auto. rewrite write_mid by reflexivity. reflexivity. }
  unfold JAM_WriteLastRead. destruct (Z.eqb_spec u (l_id h)) as [Eu|Eu]; [|exact HS].
  destruct Hk as [->|(a & r & b & E & Er & Ha & Hp)].
  - cbn [lrh0 l_id l_pos] in *. destruct rs as [|r rs]; [tauto|].
    pose proof (read_mid [] r rs 0 eq_refl) as RM. cbn [app] in RM. rewrite RM. inversion Hok as [|? ? Hr _]; subst. rewrite getlr_back by auto.
    destruct (Z.eqb_spec (r_id r) (r_id x)) as [E|E]; [|exact HS].
    cbn [putrec]. rewrite E, Z.eqb_refl. pose proof (write_mid [] r rs x 0 eq_refl) as WM. cbn [app] in WM. rewrite WM. reflexivity.
  - subst rs. rewrite read_mid by auto. apply Forall_app in Hok as [_ Hok]. inversion Hok as [|? ? Hr _]; subst. rewrite getlr_back by auto.
    rewrite Er, <- Eu, Z.eqb_refl. rewrite write_mid by auto. rewrite putrec_old by congruence. reflexivity.
Qed.
Lemma readlr_spec rs h u : Forall lrec_ok rs -> known rs h -> exists h', known rs h' /\
  JAM_ReadLastRead (lrfile rs) h u = Some (match first_of rs u with Some x => Good x | None => Bad JAM_NO_USER end, h').
Proof.
  intros Hok Hk. unfold JAM_ReadLastRead.
  destruct (lrfind_spec u rs [] (S (length (lrfile rs))) Hok ltac:(rewrite lrfile_length; lia) ltac:(cbn; tauto)) as [L1 L2].
  cbn [app length] in L1, L2. change (Z.of_nat 0) with 0 in L1, L2.
  destruct (split_first u rs) as [(-> & Hn)|(a & r & b & E & Er & Ha & ->)].
  - rewrite L1 by auto. eauto.
  - rewrite (L2 a r b) by auto. exists (LH (Z.of_nat (length a)) u). split; auto. right. exists a, r, b. cbn. auto.
Qed.

Lemma answers_ext : forall ops t t', (forall u, t u = t' u) -> answers t ops = answers t' ops /\ forall u, after t ops u = after t' ops u.
Proof.
  induction ops as [|op ops IH]; intros t t' H; cbn; [auto|]. destruct op as [h|h u|h u x].
  - destruct (IH t t' H) as [A B]. rewrite A. auto.
  - destruct (IH t t' H) as [A B]. rewrite A, H. auto.
  - destruct (IH (put t u x) (put t' u x)) as [A B]. { intros v. unfold put. destruct (v =? u); auto. } rewrite A. auto.
Qed.

Lemma lrun_spec : forall ops rs hs, Forall lrec_ok rs -> (forall h, known rs (hs h)) -> Forall lop_ok ops ->
  rs <> [] \/ Forall (fun op => ~ writes0 op) ops ->
  exists rs' hs', lrun (lrfile rs, hs) ops = Some (answers (first_of rs) ops, (lrfile rs', hs')) /\
    (forall u, first_of rs' u = after (first_of rs) ops u) /\ Forall lrec_ok rs' /\ (forall h, known rs' (hs' h)) /\
    map r_id rs' = map r_id rs ++ newcomers (map r_id rs) ops.
Proof.
  induction ops as [|op ops IH]; intros rs hs Hok Hk Ho H0.
  - exists rs, hs. cbn. rewrite app_nil_r. auto.
  - inversion Ho as [|? ? Hop Hops]; subst.
    assert (H0' : rs <> [] \/ Forall (fun op => ~ writes0 op) ops) by (destruct H0 as [|H0]; [auto|inversion H0; auto]).
    destruct op as [h|h u|h u x]; cbn [lrun lstep fst snd answers after newcomers].
    + destruct (IH rs (setlh hs h lrh0) Hok) as (rs' & hs' & E & R); auto.
      { intros k. unfold setlh. destruct (k =? h)%nat; [left; auto|auto]. }
      rewrite E. exists rs', hs'. auto.
    + destruct (readlr_spec rs (hs h) u Hok (Hk h)) as (h' & Hh & E). rewrite E.
      destruct (IH rs (setlh hs h h') Hok) as (rs' & hs' & E' & R); auto.
      { intros k. unfold setlh. destruct (k =? h)%nat; auto. }
      rewrite E'. exists rs', hs'. auto.
    + cbn in Hop. destruct Hop as (Hx & Hid).
      assert (H1 : rs <> [] \/ u <> 0) by (destruct H0 as [|H0]; [auto|inversion H0; auto]).
      rewrite (write_spec rs (hs h) u x Hok (Hk h) Hid H1).
      destruct (IH (putrec rs u x) hs) as (rs' & hs' & E & R1 & R2 & R3 & R4); auto.
      { apply putrec_ok; auto. }
      { intros k. apply known_put; auto. }
      { left. destruct rs as [|r rs]; cbn; [discriminate|]. destruct (_ =? _); discriminate. }
      rewrite E. exists rs', hs'.
      destruct (answers_ext ops _ _ (putrec_first u x rs Hid)) as [A B]. rewrite A. split; auto. split; [intros v; rewrite R1; apply B|].
      split; auto. split; auto. rewrite R4. destruct (putrec_ids u x Hid rs) as (n & -> & Hn).
      destruct Hn as [(-> & Hin)|(-> & Hin)].
      * rewrite !app_nil_r. assert (EX : existsb (Z.eqb u) (map r_id rs) = true) by (apply existsb_exists; exists u; rewrite Z.eqb_refl; auto). rewrite EX. reflexivity.
      * assert (EX : existsb (Z.eqb u) (map r_id rs) = false).
        { apply Bool.not_true_is_false. intros HE. apply existsb_exists in HE as (y & Hy & Ey). apply Z.eqb_eq in Ey. subst. auto. }
        rewrite EX, <- app_assoc. reflexivity.
Qed.
