(** Lemmas for linking of replies. *)
From Verif Require Import Base M_Str P_Str M_Mem M_Jam S_Jam P_Jam T_Jam M_Link S_Link.

Lemma s32_small x : 0 <= x < 2147483648 -> s32 x = x.
Proof. intros H. unfold s32. rewrite Z.mod_small by lia. lia. Qed.
Lemma setlm_nth i f l k : nth_error (setlm i f l) k = if (k =? i)%nat then option_map f (nth_error l i) else nth_error l k.
Proof.
  unfold setlm. destruct (nth_error l i) as [x|] eqn:E; cbn [option_map].
  - assert (Hi : (i < length l)%nat) by (apply nth_error_Some; congruence). destruct (Nat.eqb_spec k i) as [->|Hk].
    + rewrite nth_error_app2 by (rewrite firstn_length; lia). rewrite firstn_length, Nat.min_l, Nat.sub_diag by lia. reflexivity.
    + destruct (Nat.lt_ge_cases k i).
      * rewrite nth_error_app1 by (rewrite firstn_length; lia). rewrite nth_error_firstn'. destruct (Nat.ltb_spec k i); [reflexivity|lia].
      * rewrite nth_error_app2 by (rewrite firstn_length; lia). rewrite firstn_length, Nat.min_l by lia. destruct (k - i)%nat as [|q] eqn:Eq; [lia|]. cbn [nth_error]. rewrite nth_error_skipn'. f_equal. lia.
  - destruct (Nat.eqb_spec k i) as [->|]; auto.
Qed.
Lemma setlm_length i f l : length (setlm i f l) = length l.
Proof. unfold setlm. destruct (nth_error l i) eqn:E; auto. assert (i < length l)%nat by (apply nth_error_Some; congruence). rewrite app_length, firstn_length. cbn [length]. rewrite skipn_length. lia. Qed.

(** ** What any call does *)
Definition upd (base : Z) (num dest : nat) (a b : list lmsg) : Prop :=
  length b = length a /\ forall d m, nth_error a d = Some m -> exists m', nth_error b d = Some m' /\ l_id m' = l_id m /\ l_rep m' = l_rep m /\ l_to m' = if (d =? dest)%nat && (l_to m =? 0) then base + Z.of_nat num else l_to m.
Lemma upd_setlm base num dest a b i f : upd base num dest a b -> (forall m, l_id (f m) = l_id m /\ l_rep (f m) = l_rep m /\ l_to (f m) = l_to m) -> upd base num dest a (setlm i f b).
Proof.
  intros [H1 H2] Hf. split; [rewrite setlm_length; auto|]. intros d m Hd. destruct (H2 d m Hd) as (m' & E & A & B & C). rewrite setlm_nth. destruct (Nat.eqb_spec d i) as [->|]; [|eauto]. rewrite E. cbn [option_map]. eexists. split; [reflexivity|]. destruct (Hf m') as (F1 & F2 & F3). rewrite F1, F2, F3. auto.
Qed.
Lemma walk_total fuel msgs base dest : forall n, 0 <= n < Z.of_nat (length msgs) -> exists r, walk fuel msgs (Z.of_nat (length msgs)) base n dest = Some r.
Proof.
  induction fuel as [|fuel IH]; intros n Hn; cbn [walk]; (destruct (nth_error msgs (Z.to_nat n)) eqn:E; [|apply nth_error_None in E; lia]); (destruct (l_next _ =? 0); [eauto|]); [eauto|]. destruct (u32 _ =? dest); [eauto|]. destruct (Z.ltb_spec (s32 (l_next l - base)) 0); [cbn [orb]; eauto|]. destruct (Z.leb_spec (Z.of_nat (length msgs)) (s32 (l_next l - base))); cbn [orb]; [eauto|]. apply IH. lia.
Qed.
Lemma setreply_any msgs base num dest : 0 <= base -> base + Z.of_nat (length msgs) <= 4294967296 -> (num < length msgs)%nat -> (dest < length msgs)%nat ->
  exists msgs', jam_setreply msgs (Z.of_nat (length msgs)) base (Z.of_nat num) (Z.of_nat dest) = Some msgs' /\ upd base num dest msgs msgs'.
Proof.
  intros Hb0 Hb Hn Hd. unfold jam_setreply. rewrite !Nat2Z.id. destruct (nth_error msgs dest) as [dm|] eqn:Ed; [|apply nth_error_None in Ed; lia]. destruct (nth_error msgs num) as [pm|] eqn:Ep; [|apply nth_error_None in Ep; lia].
  destruct (Z.eqb_spec (l_to dm) 0) as [E0|E0]; cbn [negb].
  2:{ exists msgs. split; auto. split; auto. intros d m Hm. exists m. repeat split; auto. destruct (Nat.eqb_spec d dest) as [->|]; [|reflexivity]. assert (m = dm) by congruence. subst m. destruct (Z.eqb_spec (l_to dm) 0); [contradiction|reflexivity]. }
  rewrite (u32_id (Z.of_nat num + base)) by (unfold is_u32; lia). set (m1 := setlm dest (with_to (Z.of_nat num + base)) msgs). assert (U1 : upd base num dest msgs m1).
  { split; [apply setlm_length|]. intros d m Hm. unfold m1. rewrite setlm_nth. destruct (Nat.eqb_spec d dest) as [->|].
    - rewrite Ed. cbn [option_map]. assert (m = dm) by congruence. subst m. eexists. split; [reflexivity|]. cbn [with_to l_id l_rep l_to]. rewrite E0. cbn [Z.eqb andb]. repeat split; auto. lia.
    - exists m. auto. }
  assert (L1 : length m1 = length msgs) by apply U1. destruct (nth_error m1 num) as [p|] eqn:E1; [|apply nth_error_None in E1; lia].
  destruct (Z.eqb_spec (l_first p) 0); [eexists; split; [reflexivity|]; apply upd_setlm; auto|]. destruct (u32 _ =? _); [eauto|]. destruct (Z.ltb_spec (s32 (l_first p - base)) 0); [cbn [orb]; eauto|]. destruct (Z.leb_spec (Z.of_nat (length msgs)) (s32 (l_first p - base))); cbn [orb]; [eauto|].
  destruct (walk_total 1000 m1 base (Z.of_nat dest) (s32 (l_first p - base)) ltac:(lia)) as (r & Er). rewrite <- L1. rewrite Er. cbn [obind]. destruct r; [|eauto]. eexists. split; [reflexivity|]. apply upd_setlm; auto.
Qed.

(** ** Chains *)
Lemma follows_ext a b base c : forall start, (forall d m, In d c -> nth_error a d = Some m -> exists m', nth_error b d = Some m' /\ l_next m' = l_next m) -> follows a base start c -> follows b base start c.
Proof. induction c as [|d c IH]; intros start H F; [exact F|]. cbn [follows] in *. destruct F as (E & m & Em & F). split; auto. destruct (H d m (or_introl eq_refl) Em) as (m' & Em' & En). exists m'. split; auto. rewrite En. apply IH; auto. intros d' m0 Hd. apply H. right. auto. Qed.
Lemma follows_fun msgs base c : forall start c', 0 < base -> follows msgs base start c -> follows msgs base start c' -> c = c'.
Proof.
  induction c as [|d c IH]; intros start [|d' c'] Hb F F'; cbn [follows] in *; [reflexivity|destruct F' as [F' _]; lia|destruct F as [F _]; lia|]. destruct F as (E & m & Em & F), F' as (E' & m' & Em' & F'). assert (d' = d) by lia. subst d'. assert (m' = m) by congruence. subst m'. f_equal. eapply IH; eauto.
Qed.
Lemma follows_len msgs base c : forall start, follows msgs base start c -> Forall (fun d => (d < length msgs)%nat) c.
Proof. induction c as [|d c IH]; intros start F; constructor; cbn [follows] in F; destruct F as (_ & m & Em & F); [apply nth_error_Some; congruence|eauto]. Qed.
Lemma last_indep {A} (c : list A) x a b : last (x :: c) a = last (x :: c) b.
Proof. revert x. induction c as [|y c IH]; intros x; [reflexivity|]. cbn [last] in *. apply IH. Qed.
Lemma walk_follows msgs base dest : 0 < base -> Z.of_nat (length msgs) <= 2147483648 -> forall c d fuel, follows msgs base (base + Z.of_nat d) (d :: c) -> ~ In dest c -> (dest < length msgs)%nat -> (length c <= fuel)%nat ->
  walk fuel msgs (Z.of_nat (length msgs)) base (Z.of_nat d) (Z.of_nat dest) = Some (Some (Z.of_nat (last c d))).
Proof.
  intros Hb Hl. induction c as [|e c IH]; intros d fuel F Hd Hdl Hf; cbn [follows] in F; destruct F as (_ & m & Em & F).
  - destruct fuel; cbn [walk]; rewrite Nat2Z.id, Em; cbn [follows] in F; rewrite F; reflexivity.
  - destruct fuel as [|fuel]; [cbn in Hf; lia|]. pose proof (follows_len msgs base (e :: c) (l_next m) F) as FL. inversion_clear FL as [|? ? He _]. cbn [walk]. rewrite Nat2Z.id, Em. cbn [follows] in F. destruct F as (En & m' & Em' & F). rewrite En. destruct (Z.eqb_spec (base + Z.of_nat e) 0); [lia|]. replace (base + Z.of_nat e - base) with (Z.of_nat e) by lia. rewrite s32_small by lia.
    rewrite u32_id by (unfold is_u32; lia). destruct (Z.eqb_spec (Z.of_nat e) (Z.of_nat dest)) as [E|]; [exfalso; apply Hd; left; lia|]. destruct (Z.ltb_spec (Z.of_nat e) 0); [lia|]. destruct (Z.leb_spec (Z.of_nat (length msgs)) (Z.of_nat e)); [lia|]. cbn [orb]. rewrite IH; auto.
    + f_equal. f_equal. f_equal. destruct c as [|w c]; [reflexivity|]. change (last (e :: w :: c) d) with (last (w :: c) d). apply last_indep.
    + cbn [follows]. split; auto. eauto.
    + intros Hi. apply Hd. right. auto.
    + cbn in Hf. lia.
Qed.
Lemma last_in {A} (c : list A) d : In (last c d) (d :: c).
Proof. revert d. induction c as [|x c IH]; intros d; [left; reflexivity|]. right. destruct c as [|y c]; [left; reflexivity|]. change (last (x :: y :: c) d) with (last (y :: c) d). replace (last (y :: c) d) with (last (y :: c) x); [apply IH|]. clear. revert y. induction c as [|z c IH]; intros y; [reflexivity|]. cbn [last] in *. apply IH. Qed.
Lemma follows_append a b base e v c : forall d start, follows a base start (d :: c) -> NoDup (d :: c) ->
  (forall x m, nth_error a x = Some m -> exists m', nth_error b x = Some m' /\ l_next m' = if (x =? last c d)%nat then v else l_next m) ->
  v = base + Z.of_nat e -> e <> last c d -> (exists m, nth_error a e = Some m /\ l_next m = 0) -> follows b base start (d :: c ++ [e]).
Proof.
  induction c as [|x c IH]; intros d start F Hn H Hv He (me & Eme & Ene).
  - cbn [follows] in *. destruct F as (E & m & Em & F). split; auto. destruct (H d m Em) as (m' & Em' & Enx). cbn [last] in *. rewrite Nat.eqb_refl in Enx. exists m'. split; auto. cbn [app follows]. rewrite Enx. split; auto. destruct (H e me Eme) as (me' & Eme' & Ene'). destruct (Nat.eqb_spec e d); [contradiction|]. exists me'. split; auto. congruence.
  - cbn [follows] in F. destruct F as (E & m & Em & F). cbn [app]. cbn [follows]. split; auto. destruct (H d m Em) as (m' & Em' & Enx). exists m'. split; auto. rewrite Enx. destruct (Nat.eqb_spec d (last (x :: c) d)) as [E'|].
    + exfalso. inversion_clear Hn as [|? ? Hnd _]. apply Hnd. rewrite E' at 1. rewrite (last_indep c x d x). destruct c as [|y c]; [left; reflexivity|]. change (last (x :: y :: c) x) with (last (y :: c) x). apply last_in.
    + rewrite (last_indep c x d x) in *. inversion_clear Hn. assert (El : last (x :: c) x = last c x) by (destruct c; reflexivity). rewrite El in *. apply IH; eauto.
Qed.
Lemma count_le msgs base i c : NoDup c -> (forall d, In d c -> replyto msgs d = Some (base + Z.of_nat i)) -> (length c <= replies msgs base i)%nat.
Proof.
  intros Hn H. unfold replies. rewrite <- (filter_seq (fun m => l_to m =? base + Z.of_nat i) msgs (fun k => match nth_error msgs k with Some m => l_to m =? base + Z.of_nat i | None => false end) 0) by (intros k x Hx; cbn [Nat.add]; rewrite Hx; reflexivity).
  apply NoDup_incl_length; auto. intros d Hd. specialize (H d Hd). unfold replyto in H. destruct (nth_error msgs d) as [m|] eqn:E; [|discriminate]. cbn [option_map] in H. apply filter_In. split; [apply in_seq; split; [lia|]; cbn [Nat.add]; apply nth_error_Some; congruence|]. rewrite E. apply Z.eqb_eq. congruence.
Qed.

(** one reply linked to a wellformed base *)
Lemma link_one msgs base num dest c : 0 < base -> base + Z.of_nat (length msgs) <= 4294967296 -> Z.of_nat (length msgs) <= 2147483648 -> (exists m, nth_error msgs num = Some m /\ present m) -> wellformed msgs base ->
  replyto msgs dest = Some 0 -> chain msgs base num c -> (length c <= 1001)%nat ->
  exists msgs', jam_setreply msgs (Z.of_nat (length msgs)) base (Z.of_nat num) (Z.of_nat dest) = Some msgs' /\ chain msgs' base num (c ++ [dest]) /\ (forall i m c', i <> num -> nth_error msgs i = Some m -> present m -> chain msgs base i c' -> chain msgs' base i c') /\ wellformed msgs' base /\
    (forall d m, nth_error msgs d = Some m -> ~ present m -> l_to m = 0 -> d <> dest -> nth_error msgs' d = Some m).
Proof.
  intros Hb Hbl Hl (q & Eqq & Hq) (W1 & W2) Hdest (p & Ep & Fc) Hlen. assert (q = p) by congruence. subst q. assert (Hnum : (num < length msgs)%nat) by (apply nth_error_Some; congruence). destruct (W1 num p Ep Hq) as (c0 & (p0 & Ep0 & Fc0) & Hnd & Hin). assert (p0 = p) by congruence. subst p0. assert (c0 = c) by (eapply follows_fun; eauto). subst c0. clear Ep0 Fc0.
  unfold replyto in Hdest. destruct (nth_error msgs dest) as [dm|] eqn:Ed; [|discriminate]. cbn [option_map] in Hdest. assert (Hto : l_to dm = 0) by congruence. clear Hdest. assert (Hdl : (dest < length msgs)%nat) by (apply nth_error_Some; congruence).
  assert (Hnin : ~ In dest c) by (intros H; apply Hin in H; unfold replyto in H; rewrite Ed in H; cbn [option_map] in H; assert (l_to dm = base + Z.of_nat num) by congruence; lia).
  destruct (setreply_any msgs base num dest ltac:(lia) Hbl Hnum Hdl) as (msgs' & E & U1 & U2). exists msgs'. split; [exact E|].
  (* what the call does to the chains *)
  assert (D : (forall d m, nth_error msgs d = Some m -> exists m', nth_error msgs' d = Some m' /\ l_next m' = match c with [] => l_next m | x :: r => if (d =? last r x)%nat then base + Z.of_nat dest else l_next m end) /\
              (forall d m, nth_error msgs d = Some m -> exists m', nth_error msgs' d = Some m' /\ l_first m' = if (d =? num)%nat then match c with [] => base + Z.of_nat dest | x :: _ => base + Z.of_nat x end else l_first m)).
  { revert E. unfold jam_setreply. rewrite !Nat2Z.id, Ed, Ep, Hto. cbn [Z.eqb negb]. set (m1 := setlm dest (with_to _) msgs). assert (L1 : length m1 = length msgs) by apply setlm_length.
    assert (M1 : forall d m, nth_error msgs d = Some m -> exists m', nth_error m1 d = Some m' /\ l_next m' = l_next m /\ l_first m' = l_first m) by (intros d m Hm; unfold m1; rewrite setlm_nth; destruct (Nat.eqb_spec d dest) as [->|]; [rewrite Hm; eexists; split; [reflexivity|]; auto|eauto]).
    destruct (M1 num p Ep) as (p1 & Ep1 & _ & Ef). rewrite Ep1, Ef. destruct c as [|x r]; cbn [follows] in Fc.
    - rewrite Fc. cbn [Z.eqb]. intros E. assert (msgs' = setlm num (with_first (u32 (Z.of_nat dest + base))) m1) by congruence. subst msgs'. rewrite (u32_id (Z.of_nat dest + base)) by (unfold is_u32; lia). split; intros d m Hm; destruct (M1 d m Hm) as (m' & Em' & A & B); rewrite setlm_nth; (destruct (Nat.eqb_spec d num) as [->|]; [rewrite Em'; cbn [option_map]; eexists; split; [reflexivity|]; cbn [with_first l_next l_first]; auto; lia|eauto]).
    - destruct Fc as (Efx & mx & Emx & Fr). assert (Hx : (x < length msgs)%nat) by (apply nth_error_Some; congruence). rewrite Efx. destruct (Z.eqb_spec (base + Z.of_nat x) 0); [lia|]. replace (base + Z.of_nat x - base) with (Z.of_nat x) by lia. rewrite s32_small, u32_id by (unfold is_u32; lia).
      destruct (Z.eqb_spec (Z.of_nat x) (Z.of_nat dest)) as [E'|]; [exfalso; apply Hnin; left; lia|]. destruct (Z.ltb_spec (Z.of_nat x) 0); [lia|]. destruct (Z.leb_spec (Z.of_nat (length msgs)) (Z.of_nat x)); [lia|]. cbn [orb]. rewrite <- L1.
      assert (Fm1 : follows m1 base (base + Z.of_nat x) (x :: r)) by (eapply follows_ext; [|cbn [follows]; split; [reflexivity|]; exists mx; split; [exact Emx|exact Fr]]; intros d m _ Hm; destruct (M1 d m Hm) as (m' & ? & ? & ?); eauto).
      rewrite (walk_follows m1 base dest Hb) with (c := r); auto; try lia; [|intros Hi; apply Hnin; right; auto|cbn in Hlen; lia]. cbn [obind]. rewrite Nat2Z.id. intros E. assert (msgs' = setlm (last r x) (with_next (u32 (Z.of_nat dest + base))) m1) by congruence. subst msgs'. rewrite (u32_id (Z.of_nat dest + base)) by (unfold is_u32; lia).
      split; intros d m Hm; destruct (M1 d m Hm) as (m' & Em' & A & B); rewrite setlm_nth; (destruct (Nat.eqb_spec d (last r x)) as [Eq|]; [subst d; rewrite Em'; cbn [option_map]; eexists; split; [reflexivity|]; cbn [with_next l_next l_first]|]).
      + lia.
      + exists m'. auto.
      + destruct (Nat.eqb_spec (last r x) num) as [Eq|]; [rewrite B; rewrite Eq in Hm; assert (m = p) by congruence; subst m; auto|auto].
      + exists m'. split; auto. destruct (Nat.eqb_spec d num) as [->|]; [assert (m = p) by congruence; subst m; congruence|auto]. }
  destruct D as [D1 D2].
  assert (Cnum : chain msgs' base num (c ++ [dest])).
  { destruct (D2 num p Ep) as (p' & Ep' & Ef'). rewrite Nat.eqb_refl in Ef'. exists p'. split; auto. rewrite Ef'. destruct c as [|x r].
    - cbn [app follows]. split; [reflexivity|]. destruct (D1 dest dm Ed) as (d' & Ed' & En'). exists d'. split; auto. rewrite En'. apply (W2 dest dm Ed Hto).
    - cbn [app]. assert (Fx : follows msgs base (base + Z.of_nat x) (x :: r)) by (cbn [follows] in *; destruct Fc as (_ & Fc); split; auto). eapply follows_append with (a := msgs) (v := base + Z.of_nat dest); [exact Fx|exact Hnd|exact D1|reflexivity| |exists dm; split; [exact Ed|apply (W2 dest dm Ed Hto)]].
      intros Eq. apply Hnin. rewrite Eq. apply last_in. }
  assert (Coth : forall i m c', i <> num -> nth_error msgs i = Some m -> present m -> chain msgs base i c' -> chain msgs' base i c').
  { intros i m c' Hi Em Hpm (m1 & Em1 & F). assert (m1 = m) by congruence. subst m1. destruct (D2 i m Em) as (m' & Em' & Ef'). destruct (Nat.eqb_spec i num); [contradiction|]. exists m'. split; auto. rewrite Ef'. destruct (W1 i m Em Hpm) as (c0 & (m0 & Em0 & F0) & _ & Hin0). assert (m0 = m) by congruence. subst m0. assert (c0 = c') by (eapply follows_fun; eauto). subst c0.
    eapply follows_ext; [|exact F]. intros d md Hd Hmd. destruct (D1 d md Hmd) as (md' & Emd' & End). exists md'. split; auto. rewrite End. destruct c as [|x r]; auto. destruct (Nat.eqb_spec d (last r x)) as [->|]; auto. exfalso. pose proof (last_in r x) as Hli. apply Hin in Hli. apply Hin0 in Hd. rewrite Hd in Hli. assert (base + Z.of_nat i = base + Z.of_nat num) by congruence. lia. }
  assert (R' : forall d, replyto msgs' d = if (d =? dest)%nat then Some (base + Z.of_nat num) else replyto msgs d).
  { intros d. unfold replyto. destruct (nth_error msgs d) as [m|] eqn:Em.
    - destruct (U2 d m Em) as (m' & Em' & _ & _ & Et). rewrite Em'. cbn [option_map]. rewrite Et. destruct (Nat.eqb_spec d dest) as [->|]; cbn [andb]; auto. assert (m = dm) by congruence. subst m. rewrite Hto. reflexivity.
    - destruct (Nat.eqb_spec d dest) as [->|]; [congruence|]. apply nth_error_None in Em. rewrite (proj2 (nth_error_None msgs' d)) by lia. reflexivity. }
  split; auto. split; auto. split; [split|].
  - intros i mi' Emi' Hpi. assert (Hi : (i < length msgs)%nat) by (rewrite <- U1; apply nth_error_Some; congruence). destruct (nth_error msgs i) as [mi|] eqn:Emi; [|apply nth_error_None in Emi; lia]. assert (Hpm : present mi) by (destruct (U2 i mi Emi) as (x & Ex & Hx & _); unfold present in *; assert (x = mi') by congruence; subst x; congruence). destruct (Nat.eqb_spec i num) as [->|Hin'].
    + exists (c ++ [dest]). split; auto. split; [apply NoDup_app_intro || idtac|].
      * clear - Hnd Hnin. induction c as [|x c IH]; cbn [app]; [constructor; auto; constructor|]. inversion_clear Hnd. constructor; [rewrite in_app_iff; cbn [In]; intros [?|[?|[]]]; [auto|subst; apply Hnin; left; reflexivity]|]. apply IH; auto. intros Hx. apply Hnin. right. auto.
      * intros d. rewrite in_app_iff, R'. cbn [In]. destruct (Nat.eqb_spec d dest) as [->|Hdd]; [split; auto|]. rewrite Hin. split; [intros [?|[?|[]]]; auto; congruence|auto].
    + destruct (W1 i mi Emi Hpm) as (ci & Hci & Hndi & Hini). exists ci. split; [eapply Coth; eauto|]. split; auto. intros d. rewrite R'. destruct (Nat.eqb_spec d dest) as [->|]; [|apply Hini]. split; [intros Hd; apply Hini in Hd; unfold replyto in Hd; rewrite Ed in Hd; cbn [option_map] in Hd; assert (l_to dm = base + Z.of_nat i) by congruence; lia|].
      intros H. assert (base + Z.of_nat num = base + Z.of_nat i) by congruence. lia.
  - intros d m' Em' Et'. assert (Hd : (d < length msgs)%nat) by (rewrite <- U1; apply nth_error_Some; congruence). destruct (nth_error msgs d) as [m|] eqn:Em; [|apply nth_error_None in Em; lia]. pose proof (R' d) as Rd. unfold replyto in Rd. rewrite Em', Em in Rd. cbn [option_map] in Rd. destruct (Nat.eqb_spec d dest) as [->|Hdd]; [assert (l_to m' = base + Z.of_nat num) by congruence; lia|].
    assert (Hm0 : l_to m = 0) by congruence. destruct (D1 d m Em) as (m2 & Em2 & En2). assert (m2 = m') by congruence. subst m2. rewrite En2. destruct c as [|x r]; [eapply W2; eauto|]. destruct (Nat.eqb_spec d (last r x)) as [->|]; [|eapply W2; eauto]. exfalso. pose proof (last_in r x) as Hli. apply Hin in Hli. unfold replyto in Hli. rewrite Em in Hli. cbn [option_map] in Hli. assert (l_to m = base + Z.of_nat num) by congruence. lia.
  - intros d m Em Hpm Ht Hdd. destruct (U2 d m Em) as (m' & Em' & I1 & I2 & I3). destruct (D1 d m Em) as (m2 & Em2 & I4). destruct (D2 d m Em) as (m3 & Em3 & I5). assert (m2 = m') by congruence. assert (m3 = m') by congruence. subst m2 m3. rewrite Em'. f_equal.
    destruct (Nat.eqb_spec d dest); [contradiction|]. cbn [andb] in I3. destruct (Nat.eqb_spec d num) as [->|]; [exfalso; apply Hpm; assert (m = p) by congruence; subst m; auto|].
    assert (I4' : l_next m' = l_next m). { rewrite I4. destruct c as [|x r]; auto. destruct (Nat.eqb_spec d (last r x)) as [->|]; auto. exfalso. pose proof (last_in r x) as Hli. apply Hin in Hli. unfold replyto in Hli. rewrite Em in Hli. cbn [option_map] in Hli. assert (l_to m = base + Z.of_nat num) by congruence. lia. }
    destruct m, m'; cbn in *; congruence.
Qed.
(** the links stay 32 bit numbers *)
Definition lmok (m : lmsg) : Prop := is_u32 (l_to m) /\ is_u32 (l_first m) /\ is_u32 (l_next m).
Lemma skipn_nth {A} (l : list A) : forall i x, nth_error l i = Some x -> skipn i l = x :: skipn (S i) l.
Proof. induction l as [|y l IH]; intros [|i] x H; try discriminate; cbn in *; [congruence|]. apply IH; auto. Qed.
Lemma setlm_ok i f l : Forall lmok l -> (forall m, lmok m -> lmok (f m)) -> Forall lmok (setlm i f l).
Proof. intros H Hf. unfold setlm. destruct (nth_error l i) eqn:E; auto. rewrite <- (firstn_skipn i l) in H. apply Forall_app in H as [H1 H2]. apply Forall_app. split; auto. pose proof (skipn_nth _ _ _ E) as Es. rewrite Es in H2. inversion_clear H2. constructor; auto. Qed.
Lemma setreply_ok msgs n base num dest msgs' : jam_setreply msgs n base num dest = Some msgs' -> Forall lmok msgs -> Forall lmok msgs'.
Proof.
  unfold jam_setreply. intros E H. destruct (nth_error msgs _) as [d|]; [|discriminate]. destruct (nth_error msgs _); [|discriminate]. destruct (negb _); [congruence|]. set (m1 := setlm _ _ _) in E. assert (H1 : Forall lmok m1) by (apply setlm_ok; auto; intros m (? & ? & ?); split; [|split]; cbn; auto; apply u32_range). destruct (nth_error m1 _) as [p|]; [|discriminate].
  destruct (l_first p =? 0); [assert (msgs' = setlm (Z.to_nat num) (with_first (u32 (dest + base))) m1) by congruence; subst msgs'; apply setlm_ok; auto; intros m (? & ? & ?); split; [|split]; cbn; auto; apply u32_range|]. destruct (u32 _ =? dest); [congruence|]. destruct (_ || _); [congruence|].
  destruct (walk _ _ _ _ _ _) as [[r|]|]; cbn [obind] in E; try congruence. assert (msgs' = setlm (Z.to_nat r) (with_next (u32 (dest + base))) m1) by congruence. subst msgs'. apply setlm_ok; auto. intros m (? & ? & ?). split; [|split]; cbn; auto. apply u32_range.
Qed.

(** ** All the candidates *)
Definition sameids (a b : list lmsg) : Prop := length b = length a /\ forall d m, nth_error a d = Some m -> exists m', nth_error b d = Some m' /\ l_id m' = l_id m /\ l_rep m' = l_rep m.
Definition frame (a b : list lmsg) : Prop := forall d m, nth_error a d = Some m -> ~ present m -> l_to m = 0 -> nth_error b d = Some m.
Lemma sameids_trans a b c : sameids a b -> sameids b c -> sameids a c.
Proof. intros [L1 H1] [L2 H2]. split; [congruence|]. intros d m E. destruct (H1 d m E) as (m' & E' & I1 & I2). destruct (H2 d m' E') as (m2 & E2 & I3 & I4). exists m2. repeat split; congruence. Qed.
Lemma replies_mono a b base i : length b = length a -> (forall d v, replyto a d = Some v -> v <> 0 -> replyto b d = Some v) -> 0 < base -> (replies a base i <= replies b base i)%nat.
Proof.
  intros L H Hb. unfold replies at 1. rewrite <- (filter_seq (fun m => l_to m =? base + Z.of_nat i) a (fun k => match nth_error a k with Some m => l_to m =? base + Z.of_nat i | None => false end) 0) by (intros k x Hx; cbn [Nat.add]; rewrite Hx; reflexivity).
  apply count_le; [apply NoDup_filter, seq_NoDup|]. intros d Hd. apply filter_In in Hd as [_ Hd]. destruct (nth_error a d) as [m|] eqn:E; [|discriminate]. apply Z.eqb_eq in Hd. apply H; [unfold replyto; rewrite E; cbn [option_map]; congruence|lia].
Qed.
Lemma chain_fun msgs base i c c' : 0 < base -> chain msgs base i c -> chain msgs base i c' -> c = c'.
Proof. intros Hb (m & E & F) (m' & E' & F'). assert (m' = m) by congruence. subst m'. eapply follows_fun; eauto. Qed.
Lemma linkall_any quick j base f n : 0 < base -> base + Z.of_nat n <= 4294967296 -> Z.of_nat n <= 2147483648 -> forall l msgs,
  length msgs = n -> Forall lmok msgs ->
  (forall i d, In (i, d) l -> (i < n)%nat /\ (d < n)%nat) ->
  (forall i d, In (i, d) l -> forall ms, sameids msgs ms -> jam_CompareMsgIdReply quick j ms (Z.of_nat i) (Z.of_nat d) = Some (f i d)) ->
  (forall i d, In (i, d) l -> f i d = true -> (exists m, nth_error msgs i = Some m /\ present m) /\ (exists m, nth_error msgs d = Some m /\ present m)) ->
  exists msgs', linkall quick j (Z.of_nat n) base l msgs = Some msgs' /\ sameids msgs msgs' /\ Forall lmok msgs' /\
    (forall d v, replyto msgs d = Some v -> v <> 0 -> replyto msgs' d = Some v) /\
    (forall d v, replyto msgs d = Some 0 -> replyto msgs' d = Some v -> v <> 0 -> exists i, In (i, d) l /\ f i d = true /\ v = base + Z.of_nat i) /\
    (forall i d, In (i, d) l -> f i d = true -> replyto msgs' d <> Some 0) /\
    (wellformed msgs base -> (forall i, (replies msgs' base i <= 1002)%nat) -> wellformed msgs' base /\ frame msgs msgs' /\
       forall i m c, nth_error msgs i = Some m -> present m -> chain msgs base i c -> exists e, chain msgs' base i (c ++ e)).
Proof.
  intros Hb Hbn Hn. induction l as [|(i, d) l IH]; intros msgs L Hok Hl Hcmp Hp; cbn [linkall].
  { exists msgs. split; auto. split; [split; auto; intros d m E; exists m; auto|]. split; auto. split; auto. split; [intros d v E1 E2 Hv; congruence|]. split; [intros i d []|]. intros W _. split; auto. split; [intros d m E _ _; exact E|]. intros i m c _ _ Hc. exists []. rewrite app_nil_r. auto. }
  assert (R0 : sameids msgs msgs) by (split; auto; intros x m E; exists m; auto). rewrite (Hcmp i d (or_introl eq_refl) msgs R0). cbn [obind]. destruct (Hl i d (or_introl eq_refl)) as [Hi Hd]. destruct (f i d) eqn:Ef.
  2:{ cbn [obind]. destruct (IH msgs L Hok (fun a b H => Hl a b (or_intror H)) (fun a b H => Hcmp a b (or_intror H)) (fun a b H => Hp a b (or_intror H))) as (m' & E & S & O & T1 & T2 & T3 & W). exists m'. split; auto. split; auto. split; auto. split; auto. split; [intros x v H1 H2 H3; destruct (T2 x v H1 H2 H3) as (k & K1 & K2); exists k; split; [right; auto|auto]|]. split; auto. intros a b [H|H] Hf; [assert (f a b = false) by congruence; congruence|eauto]. }
  destruct (setreply_any msgs base i d ltac:(lia) ltac:(lia) ltac:(lia) ltac:(lia)) as (m1 & E1 & U1 & U2). rewrite L in E1. rewrite E1. cbn [obind].
  assert (S1 : sameids msgs m1) by (split; auto; intros x m E; destruct (U2 x m E) as (m' & ? & ? & ? & _); eauto).
  assert (T1 : forall x v, replyto msgs x = Some v -> v <> 0 -> replyto m1 x = Some v). { unfold replyto. intros x v H Hv. destruct (nth_error msgs x) as [m|] eqn:E; [|discriminate]. cbn [option_map] in H. destruct (U2 x m E) as (m' & E' & _ & _ & Et). rewrite E'. cbn [option_map]. rewrite Et. assert (l_to m = v) by congruence. destruct (Z.eqb_spec (l_to m) 0); [lia|]. rewrite andb_false_r. auto. }
  assert (T2 : forall x, replyto msgs x = Some 0 -> replyto m1 x = Some (if (x =? d)%nat then base + Z.of_nat i else 0)). { unfold replyto. intros x H. destruct (nth_error msgs x) as [m|] eqn:E; [|discriminate]. cbn [option_map] in H. destruct (U2 x m E) as (m' & E' & _ & _ & Et). rewrite E'. cbn [option_map]. rewrite Et. assert (E0 : l_to m = 0) by congruence. rewrite E0. cbn [Z.eqb]. rewrite andb_true_r. reflexivity. }
  destruct (IH m1) as (m' & E & S & O & T1' & T2' & T3' & W).
  - destruct S1; lia.
  - eapply setreply_ok; eauto.
  - intros a b H. apply Hl. right. auto.
  - intros a b H ms Hs. apply Hcmp; [right; auto|]. eapply sameids_trans; eauto.
  - intros a b H Hf. destruct (Hp a b (or_intror H) Hf) as ((ma & Ea & Pa) & (mb & Eb & Pb)). destruct S1 as [_ S1]. unfold present in *. destruct (S1 a ma Ea) as (ma' & Ea' & I1 & _). destruct (S1 b mb Eb) as (mb' & Eb' & I2 & _). split; [exists ma'|exists mb']; split; auto; congruence.
  - exists m'. split; auto. split; [eapply sameids_trans; eauto|]. split; auto. split; [intros x v H Hv; apply T1'; auto|]. split; [|split].
    + intros x v H0 H' Hv. pose proof (T2 x H0) as H1. destruct (Nat.eqb_spec x d) as [->|].
      * rewrite (T1' _ _ H1 ltac:(lia)) in H'. exists i. split; [left; reflexivity|]. split; auto. congruence.
      * destruct (T2' x v H1 H' Hv) as (k & K1 & K2). exists k. split; [right; auto|auto].
    + intros a b [H|H] Hf; [|eauto]. assert (a = i) by congruence. assert (b = d) by congruence. subst a b. destruct (nth_error msgs d) as [m|] eqn:Em; [|apply nth_error_None in Em; lia]. destruct (Z.eq_dec (l_to m) 0) as [E0|E0].
      * pose proof (T2 d) as H1. unfold replyto at 1 in H1. rewrite Em in H1. cbn [option_map] in H1. rewrite E0, Nat.eqb_refl in H1. rewrite (T1' _ _ (H1 eq_refl) ltac:(lia)). intros Hx. assert (base + Z.of_nat i = 0) by congruence. lia.
      * rewrite (T1' d (l_to m)); [congruence| |auto]. apply T1; auto. unfold replyto. rewrite Em. reflexivity.
    + intros Wf HR. destruct (Hp i d (or_introl eq_refl) Ef) as ((mi & Emi & Pmi) & (md & Emd & Pmd)). destruct Wf as (W1 & W2). destruct (W1 i mi Emi Pmi) as (c & Hc & Hnd & Hin).
      assert (M : (replies m1 base i <= 1002)%nat) by (eapply Nat.le_trans; [apply (replies_mono m1 m' base i)|apply HR]; auto; destruct S; auto).
      destruct (Z.eq_dec (l_to md) 0) as [E0|E0].
      * assert (Hrd : replyto msgs d = Some 0) by (unfold replyto; rewrite Emd; cbn [option_map]; congruence). assert (Hnin : ~ In d c) by (intros H; apply Hin in H; rewrite Hrd in H; assert (0 = base + Z.of_nat i) by congruence; lia).
        assert (Hlc : (length (d :: c) <= replies m1 base i)%nat). { apply count_le; [constructor; auto|]. intros x [<-|Hx]; [rewrite (T2 d Hrd), Nat.eqb_refl; reflexivity|]. apply T1; [apply Hin; auto|lia]. }
        destruct (link_one msgs base i d c Hb ltac:(lia) ltac:(lia) ltac:(eauto) (conj W1 W2) Hrd Hc ltac:(cbn in Hlc; lia)) as (m1' & E1' & C1 & C2 & WF1 & FR1). rewrite L, E1 in E1'. assert (m1' = m1) by congruence. subst m1'. destruct (W WF1 HR) as (WF2 & FR2 & CH2). split; auto. split.
        -- intros x m Ex Px Tx. apply FR2; auto. apply FR1; auto. intros ->. apply Px. assert (m = md) by congruence. subst m. auto.
        -- intros k m ck Ek Pk Hck. destruct (U2 k m Ek) as (mk & Emk & Ik & _). assert (Pmk : present mk) by (unfold present in *; congruence). destruct (Nat.eq_dec k i) as [->|Hki].
           ++ assert (ck = c) by (eapply chain_fun; eauto). subst ck. destruct (CH2 i mk (c ++ [d]) Emk Pmk C1) as (e & He). exists ([d] ++ e). rewrite app_assoc. auto.
           ++ destruct (CH2 k mk ck Emk Pmk (C2 k m ck Hki Ek Pk Hck)) as (e & He). eauto.
      * assert (m1 = msgs). { unfold jam_setreply in E1. rewrite !Nat2Z.id, Emd, Emi in E1. destruct (Z.eqb_spec (l_to md) 0); [contradiction|]. cbn [negb] in E1. congruence. } subst m1. apply W; auto. split; auto.
Qed.
