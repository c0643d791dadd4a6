(** The nodelist index. *)
From Verif Require P_UpdTok P_Str.
From Verif Require Import Base M_Node4D M_Str M_Mem M_Fs M_Out M_Nl S_Out S_Nl P_Out.

(** ** Lines *)
Definition eol (e : list Z) : Prop := Forall (fun c => c = 10 \/ c = 13) e.
Lemma streq_same a : streq a a = true. Proof. apply streq_eq. reflexivity. Qed.
Lemma kw_low s w : kw s w = streq (firstn (length w) (map tolower s)) (map tolower w).
Proof. unfold kw, strneqi. rewrite firstn_all, firstn_map. reflexivity. Qed.
Lemma tolower_eol c x : c = 10 \/ c = 13 -> x <> 10 -> x <> 13 -> (tolower c =? tolower x) = false.
Proof. intros Hc H1 H2. unfold tolower. destruct Hc as [-> | ->]; cbn [Z.leb andb]; apply Z.eqb_neq; destruct ((65 <=? x) && (x <=? 90)) eqn:E; cbn; lia. Qed.
Lemma kw_eol w : Forall (fun c => c <> 10 /\ c <> 13) w -> forall t e e', eol e -> eol e' -> kw (t ++ e) w = kw (t ++ e') w.
Proof.
  unfold kw, strneqi. induction w as [|x w IH]; intros F t e e' He He'; [reflexivity|]. inversion_clear F as [|? ? Fx Fw]. destruct t as [|c t].
  - assert (G : forall e, eol e -> streq (map tolower (firstn (length (x :: w)) ([] ++ e))) (map tolower (firstn (length (x :: w)) (x :: w))) = false).
    { clear -Fx. intros [|c e] He; [reflexivity|]. cbn [app length firstn map streq]. inversion_clear He. rewrite tolower_eol by tauto. reflexivity. }
    rewrite !G by auto. reflexivity.
  - cbn [app length firstn map streq]. f_equal. apply IH; auto.
Qed.
Lemma digits_of_eol r : forall v e, eol e -> digits_of (r ++ e) v = digits_of r v.
Proof. induction r as [|c r IH]; intros v e He; cbn [app digits_of]; [inversion_clear He as [|? ? [-> | ->]]; reflexivity|]. destruct (isdigit c); auto. Qed.
Lemma skipws_eol e : eol e -> skipws e = [].
Proof. induction e as [|c e IH]; intros He; [reflexivity|]. inversion_clear He as [|? ? Hc He']. cbn [skipws]. destruct Hc as [-> | ->]; cbn; apply IH; auto. Qed.
Lemma skipws_app r : forall e, eol e -> (skipws (r ++ e) = [] /\ skipws r = []) \/ (skipws (r ++ e) = skipws r ++ e /\ skipws r <> []).
Proof. induction r as [|c r IH]; intros e He; cbn [app skipws]; [left; split; [apply skipws_eol; auto|reflexivity]|]. destruct (isspace c); [apply IH; auto|]. right. split; [reflexivity|discriminate]. Qed.
Lemma atoi_eol r e : eol e -> atoi (r ++ e) = atoi r.
Proof.
  intros He. unfold atoi. destruct (skipws_app r e He) as [[E1 E2]|[E1 E2]]; rewrite E1; [rewrite E2; reflexivity|].
  destruct (skipws r) as [|c l]; [congruence|]. cbn [app].
  assert (G : digits_of (c :: l ++ e) 0 = digits_of (c :: l) 0) by apply (digits_of_eol (c :: l) 0 e He).
  pose proof (digits_of_eol l 0 e He) as G2.
  destruct c as [|p|p]; auto. do 6 (destruct p as [p|p|]; auto). all: congruence.
Qed.
(** what osFGets delivers for a line *)
Lemma crlf_shape l : exists t e e', l = t ++ e /\ eol e /\ crlf (l ++ [10]) = t ++ e' /\ eol e' /\ crlf (l ++ [10]) = nocr l ++ [10].
Proof.
  destruct l as [|c0 l0] eqn:El; [exists [], [], [10]; repeat split; try reflexivity; try apply Forall_cons; auto; constructor|]. rewrite <- El. assert (Hne : l <> []) by (subst; discriminate). destruct (exists_last Hne) as (a & c & ->).
  unfold crlf, nocr. rewrite last_last, removelast_last, !rev_app_distr. cbn [rev app]. change (10 =? 10) with true. cbn [andb]. destruct (Z.eqb_spec c 13) as [->|Hc].
  - rewrite rev_involutive. exists a, [13], [10]. repeat split; try reflexivity; apply Forall_cons; auto.
  - exists (a ++ [c]), [], [10]. rewrite app_nil_r. repeat split; try reflexivity; try apply Forall_cons; auto; constructor.
Qed.
Lemma crlf_noend l : ~ In 10 l -> crlf l = l.
Proof.
  intros H. unfold crlf. destruct (rev l) as [|a [|b r]] eqn:E; auto. destruct (Z.eqb_spec a 10) as [->|Ha]; auto. exfalso. apply H. apply in_rev. rewrite E. left. reflexivity.
Qed.

(** ** One line *)
Definition low (x : list Z * kind) (s : list Z) : bool := streq (map tolower (firstn (length (fst x)) s)) (fst x).
Lemma says_iff l k n : says l k n <-> kindof l = Some (k, n).
Proof.
  assert (Hlow : forall w p r, map tolower p = w -> map tolower (firstn (length w) (p ++ r)) = w /\ skipn (length w) (p ++ r) = r).
  { intros w p r <-. rewrite map_length. split; [rewrite firstn_app, Nat.sub_diag, firstn_all, app_nil_r; reflexivity|rewrite skipn_app, Nat.sub_diag, skipn_all; reflexivity]. }
  split.
  - intros (w & p & r & Hi & -> & Hp & ->). destruct (Hlow w p r Hp) as [E1 E2]. unfold kindof.
    assert (Hm : map tolower (p ++ r) = w ++ map tolower r) by (rewrite map_app, Hp; reflexivity).
    cbn [keywords kindof_in]. cbn [keywords In] in Hi.
    repeat match type of Hi with _ \/ _ => destruct Hi as [Hi|Hi] end; try contradiction;
    (injection Hi as <- <-; rewrite <- !firstn_map, Hm; match goal with |- _ = Some (?k, u16 (atoi r)) => match type of E2 with ?x = r => transitivity (Some (k, u16 (atoi x))); [reflexivity|rewrite E2; reflexivity] end end).
  - unfold kindof. assert (G : forall ks, incl ks keywords -> kindof_in ks l = Some (k, n) -> says l k n).
    { induction ks as [|[w k'] ks IH]; intros Hi E; [discriminate|]. cbn [kindof_in] in E. destruct (streq _ w) eqn:Ew.
      - injection E as -> <-. exists w, (firstn (length w) l), (skipn (length w) l). split; [apply Hi; left; reflexivity|]. split; [symmetry; apply firstn_skipn|]. split; [apply streq_eq; auto|reflexivity].
      - apply IH; auto. intros x Hx. apply Hi. right. exact Hx. }
    apply G, incl_refl.
Qed.
Definition plain (w : list Z) : Prop := Forall (fun c => c <> 10 /\ c <> 13) w /\ map tolower w = w.
Lemma keywords_plain : Forall (fun wk => plain (fst wk)) keywords.
Proof. unfold keywords. repeat (apply Forall_cons; [split; [cbn [fst]; repeat (apply Forall_cons; [split; discriminate|]); constructor|reflexivity]|]). constructor. Qed.
Lemma kindof_eol t e : eol e -> kindof (t ++ e) = kindof t.
Proof.
  intros He. unfold kindof. pose proof keywords_plain as F. induction F as [|[w k] ks [F1 F2] F IH]; [reflexivity|]. cbn [kindof_in fst] in *. rewrite IH. clear IH.
  assert (G : forall s, streq (map tolower (firstn (length w) s)) w = kw s w) by (intros s; rewrite kw_low, <- firstn_map, F2; reflexivity).
  rewrite !G. rewrite (kw_eol w F1 t e [] He ltac:(constructor)), app_nil_r. destruct (kw t w) eqn:E; [|reflexivity].
  rewrite kw_low in E. apply streq_eq in E. apply (f_equal (@length Z)) in E. rewrite firstn_length, !map_length in E. assert (L : (length w <= length t)%nat) by lia.
  rewrite skipn_app. replace (length w - length t)%nat with 0%nat by lia. cbn [skipn]. rewrite atoi_eol by auto. reflexivity.
Qed.
(** idx holds where the line stands *)
Definition inv (dz : Z) (h : list (kind * Z)) (x : idx) : Prop :=
  i_zone x = zone_at dz h /\ i_net x = net_at h /\ i_node x = node_at h /\ i_point x = point_at h /\ i_region x = region_at h /\ i_hub x = hub_at h.
Lemma setidx_no s w f v : kw s w = false -> setidx s w f v = v.
Proof. unfold setidx. intros ->. reflexivity. Qed.
Lemma setidx_yes s w f x : kw s w = true -> setidx s w f (x, []) = (f (num s (length w)) x, [f (num s (length w)) x]).
Proof. unfold setidx. intros ->. reflexivity. Qed.
Lemma kw_other s w b v c : kw s w = true -> map tolower w = b -> map tolower v = c -> (forall r, streq (firstn (length c) (b ++ r)) c = false) -> kw s v = false.
Proof.
  rewrite !kw_low. intros E <- <- H. apply streq_eq in E. rewrite <- (firstn_skipn (length w) (map tolower s)), E. rewrite map_length in H. apply H.
Qed.
Lemma idxline_spec s dz h x : inv dz h x ->
  match kindof s with
  | Some kn => exists x', idxline s x = (x', [x']) /\ inv dz (kn :: h) x' /\ i_off x' = i_off x
  | None => idxline s x = (x, [])
  end.
Proof.
  intros (I1 & I2 & I3 & I4 & I5 & I6). unfold kindof. cbn [keywords kindof_in].
  assert (G : forall v w, map tolower v = w -> streq (map tolower (firstn (length w) s)) w = kw s v /\ length v = length w).
  { intros v w <-. split; [rewrite kw_low, <- firstn_map, map_length; reflexivity|rewrite map_length; reflexivity]. }
  destruct (G (lit "Zone,") (lit "zone,") eq_refl) as [-> _]. destruct (G (lit "Region,") (lit "region,") eq_refl) as [-> _]. destruct (G (lit "Host,") (lit "host,") eq_refl) as [-> _]. destruct (G (lit "Hub,") (lit "hub,") eq_refl) as [-> _].
  destruct (G (lit "Pvt,") (lit "pvt,") eq_refl) as [-> _]. destruct (G (lit "Hold,") (lit "hold,") eq_refl) as [-> _]. destruct (G (lit ",") (lit ",") eq_refl) as [-> _]. destruct (G (lit "Point,") (lit "point,") eq_refl) as [-> _]. clear G.
  unfold idxline. cbv zeta.
  Ltac kwcase s w := let E := fresh "E" in destruct (kw s w) eqn:E;
    [repeat match goal with |- context [setidx s ?v _ _] => rewrite (setidx_no s v) by first [assumption | refine (kw_other s w _ v _ E eq_refl eq_refl _); intros ?; reflexivity] end;
     rewrite (setidx_yes s w) by exact E;
     repeat match goal with |- context [setidx s ?v _ _] => rewrite (setidx_no s v) by first [assumption | refine (kw_other s w _ v _ E eq_refl eq_refl _); intros ?; reflexivity] end;
     eexists; split; [reflexivity|]; split; [|reflexivity]; unfold num;
     match goal with |- context [u16 (atoi (skipn (length ?a) s))] => change (length a) with (length w) end;
     generalize (u16 (atoi (skipn (length w) s))); intros n; unfold inv; cbn [i_zone i_net i_node i_point i_region i_hub]
    |].
  kwcase s (lit "Zone,"); [rewrite ?I1, ?I2, ?I3, ?I4, ?I5, ?I6; repeat split|].
  kwcase s (lit "Region,"); [rewrite ?I1, ?I2, ?I3, ?I4, ?I5, ?I6; repeat split|].
  kwcase s (lit "Host,"); [rewrite ?I1, ?I2, ?I3, ?I4, ?I5, ?I6; repeat split|].
  kwcase s (lit "Hub,"); [rewrite ?I1, ?I2, ?I3, ?I4, ?I5, ?I6; repeat split|].
  kwcase s (lit "Pvt,"); [rewrite ?I1, ?I2, ?I3, ?I4, ?I5, ?I6; repeat split|].
  kwcase s (lit "Hold,"); [rewrite ?I1, ?I2, ?I3, ?I4, ?I5, ?I6; repeat split|].
  kwcase s (lit ","); [rewrite ?I1, ?I2, ?I3, ?I4, ?I5, ?I6; repeat split|].
  kwcase s (lit "Point,"); [rewrite ?I1, ?I2, ?I3, ?I4, ?I5, ?I6; repeat split|].
  rewrite !setidx_no by assumption. reflexivity.
Qed.

(** ** The loop *)
Definition ent (name : list Z) (dz : Z) (h : list (kind * Z)) (l : list Z) : entry :=
  EN (N4 (zone_at dz h) (net_at h) (node_at h) (point_at h)) (region_at h) (hub_at h) name l.
Fixpoint ents (name : list Z) (dz : Z) (h : list (kind * Z)) (ls : list (list Z)) : list entry :=
  match ls with
  | [] => []
  | l :: r => match kindof l with
              | Some kn => ent name dz (kn :: h) l :: ents name dz (kn :: h) r
              | None => ents name dz h r
              end
  end.
Lemma entries_ents name dz ls : entries name dz ls = ents name dz [] ls.
Proof.
  unfold entries. assert (G : forall ls pre, flat_map (fun i => match kindof (nth i (pre ++ ls) []) with Some _ => [ent name dz (history (firstn (S i) (pre ++ ls))) (nth i (pre ++ ls) [])] | None => [] end) (seq (length pre) (length ls)) = ents name dz (history pre) ls).
  { induction ls0 as [|l r IH]; intros pre; [reflexivity|]. cbn [length seq flat_map ents].
    rewrite nth_middle. assert (Ef : firstn (S (length pre)) (pre ++ l :: r) = pre ++ [l]).
    { rewrite firstn_app. replace (S (length pre) - length pre)%nat with 1%nat by lia. rewrite firstn_all2 by lia. reflexivity. }
    rewrite Ef. specialize (IH (pre ++ [l])). rewrite <- app_assoc in IH. cbn [app] in IH. rewrite app_length in IH. cbn [length] in IH. rewrite Nat.add_1_r in IH. rewrite IH.
    assert (Eh : history (pre ++ [l]) = match kindof l with Some kn => kn :: history pre | None => history pre end).
    { unfold history. rewrite flat_map_app, rev_app_distr. cbn [flat_map]. destruct (kindof l); reflexivity. }
    rewrite Eh. destruct (kindof l); reflexivity. }
  apply (G ls []).
Qed.
Definition ranged (x : idx) : Prop := Forall is_u16 [i_zone x; i_net x; i_node x; i_point x; i_region x; i_hub x] /\ 0 <= i_off x < 4294967295.
Definition rel (whole : list Z) (e : entry) (x : idx) : Prop :=
  e_node e = N4 (i_zone x) (i_net x) (i_node x) (i_point x) /\ e_region e = i_region x /\ e_hub e = i_hub x /\ ranged x /\ goodline (e_line e) /\
  exists pre post, whole = pre ++ e_line e ++ post /\ i_off x = Z.of_nat (length pre) /\ ((exists r, post = 10 :: r) \/ post = [] /\ e_line e <> []).
Lemma latest_u16 f d h : (forall k n v, is_u16 n -> f k n = Some v -> is_u16 v) -> is_u16 d -> Forall (fun kn => is_u16 (snd kn)) h -> is_u16 (latest f d h).
Proof.
  intros Hf Hd F. unfold latest. destruct (find _ h) as [[k n]|] eqn:E; auto. apply find_some in E as [Hi _]. rewrite Forall_forall in F. specialize (F _ Hi). destruct (f k n) eqn:Ek; eauto.
Qed.
Lemma inv_ranged dz h x : is_u16 dz -> Forall (fun kn => is_u16 (snd kn)) h -> inv dz h x -> 0 <= i_off x < 4294967295 -> ranged x.
Proof.
  intros Hd F (E1 & E2 & E3 & E4 & E5 & E6) Ho. split; auto. rewrite E1, E2, E3, E4, E5, E6. unfold zone_at, net_at, node_at, point_at, region_at, hub_at.
  repeat (apply Forall_cons; [apply latest_u16; auto; try (unfold is_u16; lia); intros [] n v Hn E; try discriminate; injection E as <-; auto; unfold is_u16; lia|]). constructor.
Qed.
Lemma kindof_u16 l k n : kindof l = Some (k, n) -> is_u16 n.
Proof. intros E. apply says_iff in E as (w & p & r & _ & _ & _ & ->). unfold is_u16, u16. apply Z.mod_pos_bound. lia. Qed.
Lemma fgets_tail l : forall n, ~ In 10 l -> (length l <= n)%nat -> fgets n l = (l, []).
Proof.
  induction l as [|c l IH]; intros [|n] H Hl; cbn [fgets length] in *; auto; [lia|]. destruct (Z.eqb_spec c 10) as [->|E]; [exfalso; apply H; left; auto|]. rewrite IH; auto; [intros Hi; apply H; right; auto|lia].
Qed.
Lemma goodline_in l : goodline l -> ~ In 10 l /\ ~ In 0 l.
Proof. intros [F _]. rewrite Forall_forall in F. split; intros Hi; apply F in Hi; lia. Qed.
Lemma osFGets_tail max l : l <> [] -> ~ In 10 l -> ~ In 0 l -> (length l <= max - 1)%nat -> osFGets max l = Some (l, []).
Proof.
  intros Hne H10 H0 Hl. unfold osFGets. rewrite fgets_tail by auto. rewrite cstr_noz by auto. rewrite crlf_noend by auto. destruct l; [congruence|reflexivity].
Qed.
Lemma inv_off dz h x o : inv dz h x -> inv dz h (set_off x o).
Proof. intros H. exact H. Qed.
Lemma idxloop_spec name dz whole : is_u16 dz -> Z.of_nat (length whole) < 4294967295 -> forall ls tail fuel pre h x,
  whole = pre ++ concat (map (fun l => l ++ [10]) ls) ++ tail -> Forall goodline ls -> goodline tail -> Forall (fun kn => is_u16 (snd kn)) h -> inv dz h x -> i_off x = Z.of_nat (length pre) ->
  (length (concat (map (fun l => l ++ [10%Z]) ls) ++ tail) < fuel)%nat ->
  Forall2 (rel whole) (ents name dz h (ls ++ match tail with [] => [] | t => [t] end)) (idxloop fuel (concat (map (fun l => l ++ [10]) ls) ++ tail) (Z.of_nat (length pre)) x).
Proof.
  intros Hdz Hw. induction ls as [|l ls IH]; intros tail fuel pre h x Ew Fl Ft Fh Hi Ho Hf; (destruct fuel as [|f]; [lia|]).
  - cbn [map concat app] in *. destruct tail as [|c t] eqn:Et; [constructor|]. rewrite <- Et in *. assert (Hne : tail <> []) by (subst; discriminate). clear Et c t. cbn [ents idxloop]. destruct (goodline_in _ Ft) as [H10 H0]. destruct Ft as [F1 F2].
    rewrite osFGets_tail by (auto; lia). pose proof (idxline_spec tail dz h x Hi) as G. destruct (kindof tail) as [[k n]|] eqn:Ek.
    + destruct G as (x' & -> & Hi' & Ho'). destruct f; [cbn [idxloop app]|cbn [idxloop app osFGets]]; (constructor; [|constructor]; destruct Hi' as (A1 & A2 & A3 & A4 & A5 & A6);
        assert (Hr : ranged x') by (apply (inv_ranged dz ((k, n) :: h)); [auto|constructor; [eapply kindof_u16; eauto|auto]|repeat split; auto|rewrite Ho', Ho, Ew, ?app_length in *; cbn [length] in *; lia]);
        unfold rel, ent; cbn [e_node e_region e_hub e_line]; rewrite A1, A2, A3, A4, A5, A6; do 3 (split; [reflexivity|]); split; [auto|]; split; [split; auto|];
        exists pre, []; rewrite app_nil_r; split; [auto|]; split; [lia|right; auto]).
    + rewrite G. destruct f; [cbn [idxloop app]; constructor|cbn [idxloop app osFGets]; constructor].
  - inversion_clear Fl as [|? ? Gl Fl']. cbn [map concat] in *. rewrite <- !app_assoc in *. cbn [app] in *. destruct (goodline_in _ Gl) as [H10 H0]. pose proof Gl as [F1 F2].
    cbn [idxloop]. rewrite osFGets_line by (auto; lia). destruct (crlf_shape l) as (t & e & e' & Et & He & Ec & He' & _). rewrite Ec.
    set (rest := concat (map (fun l => l ++ [10]) ls) ++ tail) in *. pose proof (idxline_spec (t ++ e') dz h x Hi) as G. rewrite (kindof_eol t e' He'), <- (kindof_eol t e He), <- Et in G.
    assert (Lpos : Z.of_nat (length pre) + Z.of_nat (length (l ++ 10 :: rest) - length rest) = Z.of_nat (length (pre ++ l ++ [10]))) by (rewrite !app_length; cbn [length]; lia).
    assert (Hrange : 0 <= Z.of_nat (length (pre ++ l ++ [10])) < 4294967295) by (rewrite Ew in Hw; rewrite !app_length in *; cbn [length] in *; lia).
    assert (Hp : u32 (Z.of_nat (length (pre ++ l ++ [10]))) = Z.of_nat (length (pre ++ l ++ [10]))) by (apply Z.mod_small; lia).
    assert (Ew' : whole = (pre ++ l ++ [10]) ++ rest) by (rewrite Ew, <- !app_assoc; reflexivity).
    assert (Hf' : (length rest < f)%nat) by (rewrite app_length in Hf; cbn [length] in Hf; lia).
    destruct (kindof l) as [[k n]|] eqn:Ek.
    + destruct G as (x' & -> & Hi' & Ho'). cbn [ents app]. rewrite Ek. assert (Hn : is_u16 n) by (eapply kindof_u16; eauto). constructor.
      * assert (Hr : ranged x') by (apply (inv_ranged dz ((k, n) :: h)); auto; rewrite Ho', Ho; rewrite !app_length in Hrange; lia). destruct Hi' as (A1 & A2 & A3 & A4 & A5 & A6).
        unfold rel, ent. cbn [e_node e_region e_hub e_line]. rewrite A1, A2, A3, A4, A5, A6. do 3 (split; [reflexivity|]). split; auto. split; auto. exists pre, (10 :: rest). split; [auto|]. split; [lia|left; eauto].
      * rewrite Lpos, Hp. apply IH; auto.
    + rewrite G. cbn [ents app]. rewrite Ek, Lpos, Hp. apply IH; auto.
Qed.

(** ** Records and sections *)
Lemma WriteIdx_length x : length (WriteIdx x) = 16%nat. Proof. reflexivity. Qed.
Lemma readidx_write x r : Forall is_u16 [i_zone x; i_net x; i_node x; i_point x; i_region x; i_hub x] -> is_u32 (i_off x) -> readidx (firstn 16 (WriteIdx x ++ r)) = x.
Proof.
  intros F Ho. rewrite firstn_app, WriteIdx_length. replace (16 - 16)%nat with 0%nat by lia. rewrite firstn_all2 by (rewrite WriteIdx_length; lia). cbn [firstn]. rewrite app_nil_r.
  repeat match goal with H : Forall _ (_ :: _) |- _ => inversion_clear H end. destruct x as [a b c d e f o]. cbn [i_zone i_net i_node i_point i_region i_hub i_off] in *. unfold readidx, WriteIdx.
  cbn [i_zone i_net i_node i_point i_region i_hub i_off]. f_equal.
  - change (get16 (le16 a) 0 = a). apply get16_le16; auto.
  - change (get16 (le16 b) 0 = b). apply get16_le16; auto.
  - change (get16 (le16 c) 0 = c). apply get16_le16; auto.
  - change (get16 (le16 d) 0 = d). apply get16_le16; auto.
  - change (get16 (le16 e) 0 = e). apply get16_le16; auto.
  - change (get16 (le16 f) 0 = f). apply get16_le16; auto.
  - change (u32 (get32 (le32 o) 0) = o). rewrite get32_le32 by auto. apply u32_id; auto.
Qed.
Lemma findrec_recs a rest : samenode a idxend = false -> forall R fuel, Forall ranged R -> (length (flat_map WriteIdx R ++ WriteIdx idxend ++ rest) < fuel)%nat ->
  findrec fuel (flat_map WriteIdx R ++ WriteIdx idxend ++ rest) a = match find (samenode a) R with Some x => FHit x | None => FEnd rest end.
Proof.
  intros Ha. induction R as [|x R IH]; intros fuel F Hf; (destruct fuel as [|f]; [lia|]).
  - cbn [flat_map app find findrec]. destruct (Nat.ltb_spec (length (WriteIdx idxend ++ rest)) 16) as [H|_]; [rewrite app_length, WriteIdx_length in H; lia|].
    rewrite readidx_write; [rewrite Ha; reflexivity| |]; unfold is_u32, idxend; cbn [i_zone i_net i_node i_point i_region i_hub i_off]; [|lia]. repeat (apply Forall_cons; [unfold is_u16; lia|]). constructor.
  - inversion_clear F as [|? ? [F1 F2] FR]. cbn [flat_map find] in *. rewrite <- !app_assoc in *. rewrite app_length, WriteIdx_length in Hf. cbn [findrec].
    match goal with |- context [Nat.ltb ?n 16] => destruct (Nat.ltb_spec n 16) as [H|_] end; [rewrite app_length, WriteIdx_length in H; lia|].
    rewrite readidx_write by (auto; unfold is_u32; lia). destruct (samenode a x); [reflexivity|]. destruct (Z.eqb_spec (i_off x) 4294967295); [lia|].
    rewrite skipn_app, WriteIdx_length. rewrite skipn_all2 by (rewrite WriteIdx_length; lia). cbn [app skipn Nat.sub]. apply IH; auto. lia.
Qed.
Lemma find_rel whole a E R : Forall2 (rel whole) E R ->
  match find (fun e => same4 a (e_node e)) E with Some e => exists x, find (samenode a) R = Some x /\ rel whole e x | None => find (samenode a) R = None end.
Proof.
  intros F. induction F as [|e x E R He F IH]; [reflexivity|]. cbn [find]. assert (Es : same4 a (e_node e) = samenode a x) by (destruct He as (-> & _); reflexivity).
  rewrite Es. destruct (samenode a x); [exists x; auto|exact IH].
Qed.
Lemma find_app_ {A} (p : A -> bool) l r : find p (l ++ r) = match find p l with Some x => Some x | None => find p r end.
Proof. induction l as [|x l IH]; [reflexivity|]. cbn [app find]. destruct (p x); auto. Qed.
Definition section (junk : list Z -> list Z) (n : nlist) : list Z := ProcessList (n_name n) (content n) (n_zone n) (junk (n_name n)).
Definition recs (n : nlist) : list idx := idxloop (S (length (content n))) (content n) 0 (IX (n_zone n) 0 0 0 0 0 0).
Lemma recs_rel n : goodlist n -> Forall2 (rel (content n)) (entries (n_name n) (n_zone n) (all_lines n)) (recs n).
Proof.
  intros (_ & _ & Hz & Fl & Ft & Hs). rewrite entries_ents. unfold recs, all_lines.
  pose proof (idxloop_spec (n_name n) (n_zone n) (content n) Hz Hs (n_lines n) (n_tail n) (S (length (content n))) [] [] (IX (n_zone n) 0 0 0 0 0 0)) as G.
  assert (Et : match n_tail n with [] => [] | z :: l => [z :: l] end = match n_tail n with [] => [] | _ :: _ => [n_tail n] end) by (destruct (n_tail n); reflexivity). rewrite Et.
  apply G; auto. repeat split.
Qed.
Lemma rel_ranged whole E R : Forall2 (rel whole) E R -> Forall ranged R.
Proof. intros F. induction F as [|e x E R (_ & _ & _ & H & _) F IH]; auto. Qed.
Lemma entries_name name dz ls e : In e (entries name dz ls) -> e_list e = name.
Proof.
  unfold entries. intros H. apply in_flat_map in H as (i & _ & H). destruct (kindof _); [|destruct H]. destruct H as [<-|[]]. reflexivity.
Qed.
Lemma cstr_name nm r : cstring nm -> cstr (nm ++ 0 :: r) = nm.
Proof. intros F. induction F as [|c nm Hc F IH]; cbn [app cstr]; [reflexivity|]. destruct (Z.eqb_spec c 0); [lia|]. rewrite IH. reflexivity. Qed.
Lemma findlist_spec junk a : samenode a idxend = false -> (forall n, (99 <= length (junk n))%nat) -> forall L fuel, Forall goodlist L -> (length (flat_map (section junk) L) < fuel)%nat ->
  match first_entry L a with
  | Some e => exists nm x n, findlist fuel (flat_map (section junk) L) a = inl (nm, x) /\ In n L /\ cstr nm = n_name n /\ e_list e = n_name n /\ rel (content n) e x
  | None => findlist fuel (flat_map (section junk) L) a = inr CMNLERR_NODE_NOT_FOUND
  end.
Proof.
  intros Ha Hj. induction L as [|n L IH]; intros fuel F Hf; (destruct fuel as [|f]; [lia|]); [reflexivity|]. inversion_clear F as [|? ? Gn FL].
  pose proof (recs_rel n Gn) as FR. pose proof (rel_ranged _ _ _ FR) as Fr. destruct Gn as (Hc & Hl & _).
  unfold first_entry, all_entries. cbn [flat_map]. rewrite find_app_. fold (all_entries L). fold (first_entry L a). cbn [flat_map findlist].
  assert (Es : section junk n ++ flat_map (section junk) L = firstn 100 (n_name n ++ 0 :: junk (n_name n)) ++ (flat_map WriteIdx (recs n) ++ WriteIdx idxend ++ flat_map (section junk) L)).
  { unfold section, ProcessList, recs. rewrite <- !app_assoc. reflexivity. }
  assert (Ln : length (firstn 100 (n_name n ++ 0 :: junk (n_name n))) = 100%nat) by (rewrite firstn_length, app_length; cbn [length]; specialize (Hj (n_name n)); lia).
  cbn [flat_map] in Hf. rewrite Es in Hf |- *. set (nm := firstn 100 (n_name n ++ 0 :: junk (n_name n))) in *. set (rest := flat_map WriteIdx (recs n) ++ WriteIdx idxend ++ flat_map (section junk) L) in *.
  rewrite app_length in *. destruct (Nat.ltb_spec (length nm + length rest) 100); [lia|].
  replace (skipn 100 (nm ++ rest)) with rest by (rewrite skipn_app, Ln, Nat.sub_diag, skipn_all2 by lia; reflexivity).
  replace (firstn 100 (nm ++ rest)) with nm by (rewrite firstn_app, Ln, Nat.sub_diag, firstn_all2, app_nil_r by lia; reflexivity).
  unfold rest at 1 3. rewrite (findrec_recs a (flat_map (section junk) L) Ha (recs n)) by (auto; fold rest; lia).
  pose proof (find_rel _ a _ _ FR) as G. destruct (find _ (entries (n_name n) (n_zone n) (all_lines n))) as [e|] eqn:Ef.
  - destruct G as (x & -> & Hr). exists nm, x, n. split; [reflexivity|]. split; [left; reflexivity|]. split; [|split; [apply (entries_name _ _ _ _ (proj1 (find_some _ _ Ef)))|exact Hr]].
    unfold nm. rewrite firstn_app. rewrite firstn_all2 by lia. destruct (100 - length (n_name n))%nat as [|k] eqn:Ek; [lia|]. cbn [firstn]. apply cstr_name; auto.
  - rewrite G. assert (Hf' : (length (flat_map (section junk) L) < f)%nat) by (unfold rest in Hf; rewrite !app_length in Hf; lia). specialize (IH f FL Hf').
    destruct (first_entry L a) as [e|]; [|exact IH]. destruct IH as (nm' & x & n' & -> & Hi & Hx). exists nm', x, n'. split; [reflexivity|]. split; [right; auto|exact Hx].
Qed.

(** ** The index *)
(** the lists named in cmnodelist.prefs that are there: name, contents, zone *)
Definition lists (fs : fsys) (date : list Z -> option Z) (prefs : list Z) : list (list Z * list Z * Z) :=
  flat_map (fun fz => match FindList fs date (fst fz) with
                      | Some n => match fget fs n with Some c => [(n, c, snd fz)] | None => [] end
                      | None => []
                      end) (prefsloop (S (length prefs)) prefs).
Lemma crashlist_lists fs date junk prefs L : lists fs date prefs = map (fun n => (n_name n, content n, n_zone n)) L -> crashlist fs date junk prefs = CNL1 ++ flat_map (section junk) L.
Proof.
  intros E. unfold crashlist. f_equal. transitivity (flat_map (fun x => ProcessList (fst (fst x)) (snd (fst x)) (snd x) (junk (fst (fst x)))) (lists fs date prefs)).
  - unfold lists. generalize (prefsloop (S (length prefs)) prefs). induction l as [|x l IH]; [reflexivity|]. cbn [flat_map]. rewrite flat_map_app, <- IH. f_equal. destruct (FindList fs date (fst x)) as [n|]; [|reflexivity]. destruct (fget fs n); cbn [flat_map fst snd]; [rewrite app_nil_r; reflexivity|reflexivity].
  - rewrite E. clear E. induction L as [|n L IH]; [reflexivity|]. cbn [map flat_map fst snd]. rewrite IH. reflexivity.
Qed.
Lemma lists_there fs date prefs n c z : In (n, c, z) (lists fs date prefs) -> fget fs n = Some c.
Proof.
  unfold lists. intros H. apply in_flat_map in H as (x & _ & H). destruct (FindList fs date (fst x)) as [m|]; [|destruct H]. destruct (fget fs m) eqn:E; [|destruct H]. destruct H as [H|[]]. injection H as <- <- _. exact E.
Qed.
(** ** The file that names the lists *)
Lemma last_app_ne (x y : list Z) : y <> [] -> last (x ++ y) 0 = last y 0.
Proof. intros H. destruct (exists_last H) as (u & a & ->). rewrite app_assoc, !last_last. reflexivity. Qed.
Lemma jb_short w c r len n : (2 <= n)%nat -> (n <= len)%nat -> P_UpdTok.plainword w -> (length w < n)%nat -> c = 32 \/ c = 10 -> cstring r ->
  exists b, jbstrcpy (repeat 0 len) (w ++ c :: r) n = (Some b, true, if c =? 32 then r else c :: r) /\ cstr b = w.
Proof.
  intros Hn Hl Hw Hlen Hc Hr. pose proof Hw as (H1 & H2 & _).
  assert (Hs : cstring (w ++ c :: r)) by (apply P_Str.cstring_app; split; auto; constructor; auto; lia).
  destruct (P_UpdTok.jb_gen (w ++ c :: r) false w (c :: r) (repeat 0 len) n Hs (P_UpdTok.first_plain w c r Hw Hc)) as [-> Hct].
  rewrite <- (P_UpdTok.emit_small n len w Hl (Some (repeat 0 len)) 0%nat) by lia.
  destruct (P_Str.finish len w (repeat 0 len) (repeat_length _ _) ltac:(lia) Hct) as (b & E & (_ & _ & Hcs) & Hd).
  destruct (fold_left (emit len) w (Some (repeat 0 len), 0%nat)) as [b1 d]. rewrite E. cbn [snd] in Hd. subst d. exists b.
  rewrite firstn_all2 in Hcs by lia. split; [|exact Hcs]. destruct w as [|x w]; [congruence|]. cbn [length].
  destruct (Nat.eqb_spec (Nat.min (len - 1) (S (length w))) 0); [cbn [length] in *; lia|]. cbn [negb orb P_UpdTok.dropsep]. destruct Hc as [->| ->]; reflexivity.
Qed.
Lemma jb_nothing len n : (2 <= n)%nat -> (n <= len)%nat -> exists b, jbstrcpy (repeat 0 len) [10] n = (Some b, false, [10]).
Proof.
  intros Hn Hl. assert (Hs : cstring [10]) by (repeat constructor; lia).
  destruct (P_UpdTok.jb_gen [10] false [] [10] (repeat 0 len) n Hs) as [-> _].
  - split; [cbn; discriminate|]. cbn. apply S_Str.tok_stop. unfold S_Str.stop_plain. tauto.
  - cbn [fold_left]. destruct len as [|len]; [lia|]. cbn. eexists. reflexivity.
Qed.
Lemma dec_plain z : 0 <= z -> P_UpdTok.plainword (dec z).
Proof.
  intros Hz. pose proof (dec_digits z Hz) as D. split; [|split].
  - eapply Forall_impl; [|exact D]. unfold digit. cbn. intros. lia.
  - intros E. pose proof (atoi_dec z Hz) as A. rewrite E in A. cbn in A. subst z. discriminate E.
  - eapply Forall_impl; [|exact D]. unfold digit. cbn. intros. lia.
Qed.
Lemma dec_short z : is_u16 z -> (length (dec z) <= 5)%nat.
Proof. intros Hz. apply (dec_length z 5); unfold is_u16 in Hz; cbn; lia. Qed.
Lemma prefsloop_spec : forall ls fuel, Forall prefline_ok ls -> (length ls <= fuel)%nat -> prefsloop (S fuel) (prefsfile ls) = preflists ls.
Proof.
  induction ls as [|l ls IH]; intros fuel F Hf; [reflexivity|]. inversion_clear F as [|? ? Hl F']. cbn [length] in Hf. destruct fuel as [|f]; [lia|].
  specialize (IH f F' ltac:(lia)). unfold prefsfile in *. cbn [map concat]. rewrite <- app_assoc. cbn [app].
  set (rest := concat (map (fun l => preftext l ++ [10]) ls)) in *.
  assert (Hlen : (length (preftext l) <= 198)%nat /\ ~ In 10 (preftext l) /\ ~ In 0 (preftext l)).
  { destruct l as [t| |name [z|]]; cbn [preftext prefline_ok] in *.
    - destruct Hl as (A & B & C). cbn. split; [lia|]. split; intros [E|E]; try discriminate; try tauto. unfold cstring in A. rewrite Forall_forall in A. apply A in E. lia.
    - cbn. split; [lia|tauto].
    - destruct Hl as (A & B & C & D0 & D & E). rewrite !app_length. pose proof (dec_short z E). change (length (lit " ")) with 1%nat. split; [lia|].
      pose proof (dec_digits z ltac:(unfold is_u16 in E; lia)) as DD. unfold cstring in D0; rewrite Forall_forall in D, DD, D0.
      split; intros Hi; apply in_app_or in Hi as [Hi|Hi]; try (apply D in Hi; lia); try (apply D0 in Hi; lia); (destruct Hi as [Hi|Hi]; [discriminate|]); apply DD in Hi; unfold digit in Hi; lia.
    - destruct Hl as (A & B & C & D0 & D & E). split; [lia|]. unfold cstring in D0; rewrite Forall_forall in D, D0. split; intros Hi; [apply D in Hi|apply D0 in Hi]; lia. }
  destruct Hlen as (Hlen & H10 & H0).
  remember (S f) as g eqn:Eg. clear Eg. cbn [prefsloop]. rewrite osFGets_line by (auto; lia). cbn [preflists flat_map]. fold (preflists ls). rewrite IH. f_equal.
  destruct (crlf_shape (preftext l)) as (_ & _ & _ & _ & _ & _ & _ & ->).
  destruct l as [t| |name z]; cbn [preftext prefline_ok] in *.
  - assert (E : exists u, nocr (lit ";" ++ t) ++ [10] = 59 :: u).
    { unfold nocr. destruct t as [|c t]; [exists [10]; reflexivity|]. cbn [lit app]. change (lit ";" ++ c :: t) with (59 :: c :: t). destruct (last (59 :: c :: t) 0 =? 13); eexists; [|reflexivity]. cbn [removelast app]. reflexivity. }
    destruct E as [u ->]. reflexivity.
  - cbn [nocr last removelast app hd Z.eqb negb]. destruct (jb_nothing 100 100) as [b Eb]; [lia|lia|]. change (nocr [] ++ [10]) with [10]. rewrite Eb. reflexivity.
  - destruct Hl as (A & B & C & D0 & D & E).
    assert (Hp : P_UpdTok.plainword name).
    { split; [exact D0|split; [exact A|]]; (eapply Forall_impl; [|exact D]); cbn; intros; tauto. }
    assert (Hn13 : forall u, last (name ++ u) 0 = 13 -> u <> [] /\ last u 0 = 13).
    { intros u Hu. destruct u as [|x u]; [|rewrite last_app_ne in Hu by discriminate; split; [discriminate|exact Hu]].
      exfalso. rewrite app_nil_r in Hu. rewrite Forall_forall in D. destruct (exists_last A) as (n' & y & Ey). rewrite Ey, last_last in Hu. specialize (D y). rewrite Ey in D. specialize (D ltac:(apply in_or_app; right; left; reflexivity)). lia. }
    assert (Hhd : forall u, hd 0 (name ++ u) <> 59) by (intros u; destruct name as [|c name]; [congruence|exact C]).
    destruct z as [z|].
    + assert (En : nocr (name ++ lit " " ++ dec z) = name ++ lit " " ++ dec z).
      { unfold nocr. destruct (Z.eqb_spec (last (name ++ lit " " ++ dec z) 0) 13) as [Hu|_]; [|reflexivity]. exfalso.
        pose proof (dec_plain z ltac:(unfold is_u16 in E; lia)) as (_ & Hne & _). pose proof (dec_digits z ltac:(unfold is_u16 in E; lia)) as DD.
        rewrite app_assoc, last_app_ne in Hu by exact Hne. destruct (exists_last Hne) as (n' & y & Ey). rewrite Ey, last_last in Hu. rewrite Ey in DD. apply Forall_app in DD as [_ DD]. apply Forall_inv in DD. unfold digit in DD. lia. }
      rewrite En. rewrite <- app_assoc. destruct (Z.eqb_spec (hd 0 (name ++ (lit " " ++ dec z) ++ [10])) 59) as [Hx|_]; [exfalso; eapply Hhd; eauto|]. cbn [negb].
      change ((lit " " ++ dec z) ++ [10]) with (32 :: dec z ++ [10]).
      assert (Hcs : cstring (dec z ++ [10])) by (apply P_Str.cstring_app; split; [apply (dec_plain z); unfold is_u16 in E; lia|repeat constructor; lia]).
      destruct (jb_short name 32 (dec z ++ [10]) 100 100) as (b & -> & Eb); auto; try lia. cbn [Z.eqb]. rewrite Eb. cbn [Pos.eqb].
      destruct (jb_short (dec z) 10 [] 200 10) as (b' & -> & Eb'); auto; try lia.
      { apply dec_plain. unfold is_u16 in E. lia. } { pose proof (dec_short z E). lia. } { constructor. }
      rewrite Eb', atoi_dec by (unfold is_u16 in E; lia). unfold u16. rewrite Z.mod_small by (unfold is_u16 in E; lia). reflexivity.
    + assert (En : nocr name = name).
      { unfold nocr. destruct (Z.eqb_spec (last name 0) 13) as [Hu|_]; [|reflexivity]. exfalso. rewrite <- (app_nil_r name) in Hu. apply Hn13 in Hu as [Hu _]. congruence. }
      rewrite En. destruct (Z.eqb_spec (hd 0 (name ++ [10])) 59) as [Hx|_]; [exfalso; eapply Hhd; eauto|]. cbn [negb].
      destruct (jb_short name 10 [] 100 100) as (b & -> & Eb); auto; try lia; [constructor|]. rewrite Eb. cbn [Z.eqb Pos.eqb].
      destruct (jb_nothing 200 10) as [b' ->]; [lia|lia|]. reflexivity.
Qed.
(** Comments and empty lines name no list; all other lines name one, with its zone, in
    their order. *)
Theorem C44_prefs fs date ls : Forall prefline_ok ls ->
  lists fs date (prefsfile ls) =
  flat_map (fun fz => match FindList fs date (fst fz) with
                      | Some n => match fget fs n with Some c => [(n, c, snd fz)] | None => [] end
                      | None => []
                      end) (preflists ls).
Proof.
  intros F. unfold lists. rewrite prefsloop_spec; auto. clear F. unfold prefsfile. induction ls as [|l ls IH]; cbn [map concat length]; [lia|]. rewrite !app_length. cbn [length]. lia.
Qed.
Print Assumptions C44_prefs.
Example C44_prefs_nonvacuous : Forall prefline_ok [PLComment (lit " my lists"); PLEmpty; PLList (lit "nodelist") None; PLList (lit "fsxnet") (Some 21)] /\
  preflists [PLComment (lit " my lists"); PLEmpty; PLList (lit "nodelist") None; PLList (lit "fsxnet") (Some 21)] = [(lit "nodelist", 0); (lit "fsxnet", 21)].
Proof.
  split; [|reflexivity]. constructor; [split; [repeat constructor; discriminate|split; [cbn; intuition discriminate|cbn; lia]]|]. constructor; [exact I|].
  assert (G : forall n z, n <> [] -> (length n <= 99)%nat -> hd 0 n <> 59 -> cstring n -> forallb (fun c => negb (existsb (Z.eqb c) [32; 9; 10; 13; 92; 34])) n = true ->
    match z with Some z => is_u16 z | None => True end -> prefline_ok (PLList n z)).
  { intros n z A B C D0 D E. split; [exact A|]. split; [exact B|]. split; [exact C|]. split; [exact D0|]. split; [|exact E]. apply Forall_forall. intros c Hc. rewrite forallb_forall in D. specialize (D c Hc). cbn in D.
    repeat match goal with |- _ /\ _ => split end; intros ->; discriminate D. }
  constructor; [apply G; [discriminate|cbn; lia|discriminate|repeat constructor; discriminate|reflexivity|exact I]|]. constructor; [apply G; [discriminate|cbn; lia|discriminate|repeat constructor; discriminate|reflexivity|unfold is_u16; lia]|constructor].
Qed.

Theorem C44_find fs date junk prefs L a :
  lists fs date prefs = map (fun n => (n_name n, content n, n_zone n)) L -> Forall goodlist L -> (forall n, (99 <= length (junk n))%nat) ->
  a <> N4 0 0 0 0 ->
  let ix := crashlist fs date junk prefs in
  match first_entry L a with
  | Some e =>
    cmnlFindNL ix fs a None = NlFound (e_region e) (e_hub e) None /\
    forall len, (length (e_line e) + 1 < len)%nat -> exists line,
      cmnlFindNL ix fs a (Some len) = NlFound (e_region e) (e_hub e) (Some line) /\ (line = nocr (e_line e) ++ [10] \/ line = e_line e)
  | None => forall len, cmnlFindNL ix fs a len = NlErr CMNLERR_NODE_NOT_FOUND
  end.
Proof.
  intros EL F Hj Ha ix. assert (Hs : samenode a idxend = false).
  { destruct a as [z n d p]. unfold samenode. cbn. destruct (Z.eqb_spec z 0), (Z.eqb_spec n 0), (Z.eqb_spec d 0), (Z.eqb_spec p 0); try reflexivity. subst. congruence. }
  unfold ix, cmnlFindNL. rewrite (crashlist_lists fs date junk prefs L EL). change (skipn 4 (CNL1 ++ flat_map (section junk) L)) with (flat_map (section junk) L).
  pose proof (findlist_spec junk a Hs Hj L (S (length (CNL1 ++ flat_map (section junk) L))) F ltac:(rewrite app_length; lia)) as G.
  destruct (first_entry L a) as [e|]; [|intros len; rewrite G; reflexivity]. destruct G as (nm & x & n & -> & Hi & Hn & He & Hr). destruct Hr as (_ & Er & Eh & Hx & Gl & pre & post & Ew & Eo & Hpost). rewrite Er, Eh. split; [reflexivity|].
  intros len Hlen. rewrite Hn. rewrite (lists_there fs date prefs (n_name n) (content n) (n_zone n)) by (rewrite EL; apply (in_map (fun n => (n_name n, content n, n_zone n))); exact Hi).
  rewrite Eo, Nat2Z.id, Ew, skipn_app, skipn_all, Nat.sub_diag. cbn [app skipn]. destruct (goodline_in _ Gl) as [H10 H0]. destruct Hpost as [(r & ->)|[-> Hne]].
  - rewrite osFGets_line by (auto; lia). eexists. split; [reflexivity|]. left. destruct (crlf_shape (e_line e)) as (t & e1 & e2 & _ & _ & _ & _ & ->). reflexivity.
  - rewrite app_nil_r, osFGets_tail by (auto; lia). eexists. split; [reflexivity|]. right. reflexivity.
Qed.
(** the functions the rest of the program uses *)
Theorem C44_node fs date junk prefs L a :
  lists fs date prefs = map (fun n => (n_name n, content n, n_zone n)) L -> Forall goodlist L -> (forall n, (99 <= length (junk n))%nat) -> a <> N4 0 0 0 0 ->
  let ix := crashlist fs date junk prefs in
  (cmnl_nlCheckNode ix a = true <-> exists e, In e (all_entries L) /\ e_node e = a) /\
  cmnl_nlGetHub ix a = match first_entry L a with Some e => e_hub e | None => -1 end /\
  cmnl_nlGetRegion ix a = match first_entry L a with Some e => e_region e | None => -1 end.
Proof.
  intros EL F Hj Ha ix. pose proof (C44_find fs date junk prefs L a EL F Hj Ha) as G. cbv zeta in G. fold ix in G.
  assert (N : forall x, cmnlFindNL x [] a None = cmnlFindNL x fs a None) by (intros x; unfold cmnlFindNL; destruct (findlist _ _ _) as [[]|]; reflexivity).
  unfold cmnl_nlCheckNode, cmnl_nlGetHub, cmnl_nlGetRegion. rewrite N.
  assert (S4 : forall b, same4 a b = true <-> b = a).
  { intros [z n d p]. destruct a as [z' n' d' p']. unfold same4. cbn. rewrite !Bool.andb_true_iff, !Z.eqb_eq. split; [intros [[[-> ->] ->] ->]; reflexivity|intros H; injection H as -> -> -> ->; auto]. }
  destruct (first_entry L a) as [e|] eqn:Ef.
  - destruct G as [-> _]. split; [|auto]. split; [|reflexivity]. intros _. unfold first_entry in Ef. apply find_some in Ef as [Hi Hs]. exists e. split; auto. apply S4. exact Hs.
  - rewrite G. split; [|auto]. split; [discriminate|]. intros (e & Hi & He). exfalso. unfold first_entry in Ef. pose proof (find_none _ _ Ef e Hi) as Hn. cbn in Hn. rewrite (proj2 (S4 _) He) in Hn. discriminate.
Qed.

(** ** Which list is taken *)
(** a name with three digits at its end that agrees with the wanted name as far as it goes *)
Definition candidate (file m : list Z) : Prop :=
  exists s a b c, m = s ++ [46; a; b; c] /\ digit a /\ digit b /\ digit c /\ map tolower s = map tolower (firstn (length s) file).
Lemma ending_iff m : isnodelistending m = true <-> exists s a b c, m = s ++ [46; a; b; c] /\ digit a /\ digit b /\ digit c.
Proof.
  unfold isnodelistending. assert (D : forall c, isdigit c = true <-> digit c) by (intros c; unfold isdigit, digit; rewrite Bool.andb_true_iff, !Z.leb_le; tauto). split.
  - destruct (rev m) as [|c [|b [|a [|d s]]]] eqn:E; try discriminate. rewrite !Bool.andb_true_iff, !D, Z.eqb_eq. intros [[[-> Ha] Hb] Hc]. exists (rev s), a, b, c. split; [|auto]. rewrite <- (rev_involutive m), E. cbn [rev]. rewrite <- !app_assoc. reflexivity.
  - intros (s & a & b & c & -> & Ha & Hb & Hc). rewrite rev_app_distr. cbn [rev app]. rewrite (proj2 (D a) Ha), (proj2 (D b) Hb), (proj2 (D c) Hc). reflexivity.
Qed.
Lemma candidate_iff file m : isnodelistending m && strneqi (length m - 4) m file = true <-> candidate file m.
Proof.
  rewrite Bool.andb_true_iff, ending_iff. unfold strneqi. split.
  - intros [(s & a & b & c & -> & Ha & Hb & Hc) H]. apply streq_eq in H. rewrite app_length in H. cbn [length] in H. rewrite Nat.add_sub, firstn_app, Nat.sub_diag, firstn_all, app_nil_r in H. exists s, a, b, c. auto.
  - intros (s & a & b & c & -> & Ha & Hb & Hc & H). split; [exists s, a, b, c; auto|]. apply streq_eq. rewrite app_length. cbn [length]. rewrite Nat.add_sub, firstn_app, Nat.sub_diag, firstn_all, app_nil_r. exact H.
Qed.
Theorem C44_newest fs date file :
  match FindList fs date file with
  | Some n =>
    (osExists fs file = true /\ n = file) \/
    (osExists fs file = false /\ exists m d, In m (map fst fs) /\ candidate file m /\ date m = Some d /\ n = firstn 99 m /\
       forall m' d', In m' (map fst fs) -> candidate file m' -> date m' = Some d' -> d' <= d)
  | None => osExists fs file = false /\ forall m, In m (map fst fs) -> candidate file m -> date m = None
  end.
Proof.
  unfold FindList. destruct (osExists fs file); [left; auto|].
  assert (G : forall names, let v := fold_left (scandirfunc date file) names ([], 0) in
    (fst v = [] /\ forall m, In m names -> candidate file m -> date m = None) \/
    (fst v <> [] /\ exists m d, In m names /\ candidate file m /\ date m = Some d /\ v = (firstn 99 m, d) /\ forall m' d', In m' names -> candidate file m' -> date m' = Some d' -> d' <= d)).
  { induction names as [|x names IH] using rev_ind; [left; split; [reflexivity|intros m []]|]. cbv zeta in *. rewrite fold_left_app. cbn [fold_left]. set (v := fold_left (scandirfunc date file) names ([], 0)) in *.
    assert (Hold : forall m, In m (names ++ [x]) -> In m names \/ m = x) by (intros m Hm; apply in_app_or in Hm as [Hm|[Hm|[]]]; auto).
    unfold scandirfunc. destruct (isnodelistending x && strneqi (length x - 4) x file) eqn:Ec.
    - pose proof (proj1 (candidate_iff _ _) Ec) as Hc. assert (Hne : firstn 99 x <> []) by (destruct Hc as (s & a & b & c & -> & _); destruct s; discriminate). destruct (date x) as [d|] eqn:Ed.
      + destruct IH as [[E1 E2]|[E1 (m & d0 & Hm & Hcm & Hd & Ev & Hmax)]].
        * rewrite E1. cbn [fst]. right. split; auto. exists x, d. split; [apply in_or_app; right; left; auto|]. do 3 (split; auto). intros m' d' Hm' Hc' Hd'. destruct (Hold _ Hm') as [H| ->]; [rewrite (E2 _ H Hc') in Hd'; discriminate|]. rewrite Hd' in Ed. injection Ed as ->. lia.
        * rewrite Ev in E1 |- *. cbn [fst snd] in *. destruct (firstn 99 m) as [|z l] eqn:Em; [congruence|]. rewrite <- Em in *. destruct (Z.ltb_spec d0 d) as [Hlt|Hge].
          -- right. cbn [fst]. split; auto. exists x, d. split; [apply in_or_app; right; left; auto|]. do 3 (split; auto). intros m' d' Hm' Hc' Hd'. destruct (Hold _ Hm') as [H| ->]; [specialize (Hmax _ _ H Hc' Hd'); lia|]. rewrite Hd' in Ed. injection Ed as ->. lia.
          -- right. cbn [fst]. split; auto. exists m, d0. split; [apply in_or_app; auto|]. do 2 (split; auto). split; [rewrite Em; reflexivity|]. intros m' d' Hm' Hc' Hd'. destruct (Hold _ Hm') as [H| ->]; [apply (Hmax _ _ H Hc' Hd')|]. rewrite Hd' in Ed. injection Ed as ->. lia.
      + destruct IH as [[E1 E2]|[E1 (m & d0 & Hm & Hcm & Hd & Ev & Hmax)]].
        * left. split; auto. intros m Hm Hcm. destruct (Hold _ Hm) as [H| ->]; auto.
        * right. split; auto. exists m, d0. split; [apply in_or_app; auto|]. do 3 (split; auto). intros m' d' Hm' Hc' Hd'. destruct (Hold _ Hm') as [H| ->]; [eauto|congruence].
    - assert (Hno : ~ candidate file x) by (intros Hx; apply candidate_iff in Hx; congruence).
      destruct IH as [[E1 E2]|[E1 (m & d0 & Hm & Hcm & Hd & Ev & Hmax)]].
      + left. split; auto. intros m Hm Hcm. destruct (Hold _ Hm) as [H| ->]; auto. contradiction.
      + right. split; auto. exists m, d0. split; [apply in_or_app; auto|]. do 3 (split; auto). intros m' d' Hm' Hc' Hd'. destruct (Hold _ Hm') as [H| ->]; [eauto|contradiction]. }
  specialize (G (map fst fs)). cbv zeta in G. destruct G as [[E1 E2]|[E1 (m & d & Hm & Hc & Hd & Ev & Hmax)]].
  - rewrite E1. auto.
  - rewrite Ev in E1 |- *. cbn [fst] in *. destruct (firstn 99 m) as [|z l] eqn:Em; [congruence|]. right. split; auto. exists m, d. auto.
Qed.

(** ** A damaged index *)
(** An index that was cut off, for instance when the program that writes it was stopped or the
    disk was full: what is still found is right. *)
Lemma findrec_prefix a : forall n p q f1 f2, (length p <= n)%nat -> (length p < f1)%nat -> (length (p ++ q) < f2)%nat ->
  match findrec f1 p a with FEof => True | FHit x => findrec f2 (p ++ q) a = FHit x | FEnd r => findrec f2 (p ++ q) a = FEnd (r ++ q) /\ (length r < length p)%nat end.
Proof.
  induction n as [|n IH]; intros p q f1 f2 Hn H1 H2; (destruct f1 as [|f1]; [lia|]); (destruct f2 as [|f2]; [lia|]); cbn [findrec]; (destruct (Nat.ltb_spec (length p) 16) as [|Hp]; [exact I|]); [lia|].
  destruct (Nat.ltb_spec (length (p ++ q)) 16) as [H|_]; [rewrite app_length in H; lia|].
  rewrite (firstn_app 16 p q). replace (16 - length p)%nat with 0%nat by lia. rewrite firstn_O, app_nil_r. destruct (samenode a (readidx (firstn 16 p))); [reflexivity|].
  rewrite (skipn_app 16 p q). replace (16 - length p)%nat with 0%nat by lia. rewrite skipn_O. pose proof (skipn_length 16 p) as L. destruct (i_off (readidx (firstn 16 p)) =? 4294967295); [split; [reflexivity|lia]|].
  specialize (IH (skipn 16 p) q f1 f2 ltac:(lia) ltac:(lia) ltac:(rewrite app_length in *; lia)). destruct (findrec f1 (skipn 16 p) a) as [x|r|]; auto. destruct IH as [IH1 IH2]. split; auto. lia.
Qed.
Lemma findlist_prefix a : forall n p q f1 f2, (length p <= n)%nat -> (length p < f1)%nat -> (length (p ++ q) < f2)%nat ->
  match findlist f1 p a with inr e => In e [CMNLERR_UNEXPECTED_EOF; CMNLERR_NODE_NOT_FOUND] | inl x => findlist f2 (p ++ q) a = inl x end.
Proof.
  induction n as [|n IH]; intros p q f1 f2 Hn H1 H2; (destruct f1 as [|f1]; [lia|]); (destruct f2 as [|f2]; [lia|]); cbn [findlist]; (destruct (Nat.ltb_spec (length p) 100) as [|Hp]; [right; left; reflexivity|]); [lia|].
  destruct (Nat.ltb_spec (length (p ++ q)) 100) as [H|_]; [rewrite app_length in H; lia|].
  rewrite (firstn_app 100 p q), (skipn_app 100 p q). replace (100 - length p)%nat with 0%nat by lia. rewrite firstn_O, skipn_O, app_nil_r. pose proof (skipn_length 100 p) as L.
  pose proof (findrec_prefix a (length (skipn 100 p)) (skipn 100 p) q (S (length p)) (S (length (p ++ q))) ltac:(lia) ltac:(lia) ltac:(rewrite !app_length in *; lia)) as G.
  destruct (findrec (S (length p)) (skipn 100 p) a) as [x|r|]; [rewrite G; reflexivity| |left; reflexivity]. destruct G as [-> Lr]. apply IH; [lia|lia|]. rewrite app_length in *. lia.
Qed.
Theorem C44_cut ix k fs a len :
  cmnlFindNL (firstn k ix) fs a len = cmnlFindNL ix fs a len \/ In (cmnlFindNL (firstn k ix) fs a len) [NlErr CMNLERR_UNEXPECTED_EOF; NlErr CMNLERR_NODE_NOT_FOUND].
Proof.
  unfold cmnlFindNL. pose proof (firstn_skipn k ix) as E. assert (Es : exists q, skipn 4 ix = skipn 4 (firstn k ix) ++ q).
  { exists (skipn (4 - length (firstn k ix)) (skipn k ix)). rewrite <- skipn_app, E. reflexivity. }
  destruct Es as (q & Eq). pose proof (findlist_prefix a (length (skipn 4 (firstn k ix))) (skipn 4 (firstn k ix)) q (S (length (firstn k ix))) (S (length ix)) (le_n _) ltac:(rewrite skipn_length; lia) ltac:(rewrite <- Eq, skipn_length; lia)) as G.
  rewrite <- Eq in G. destruct (findlist (S (length (firstn k ix))) (skipn 4 (firstn k ix)) a) as [[nm x]|e].
  - rewrite G. left. reflexivity.
  - right. cbn [In] in *. destruct G as [<-|[<-|[]]]; auto.
Qed.

(** ** Examples *)
Definition nlines : list (list Z) := map lit [";A a comment"; "Zone,2,Europe"; ",10,Coord"; "Region,20,Sweden"; "Host,201,Town"; ",1,First"; "Hub,100,Hub"; ",101,Under the hub"; "Pvt,102,Private"; "Down,103,Gone"; "point,7,At 102"]%string ++ [lit "HOLD,104,Late" ++ [13]].
Definition zlist : nlist := NL (lit "NODELIST.123") 0 nlines (lit ",105,Last").
Definition zlist2 : nlist := NL (lit "OTHER") 39 [lit "Host,5,x"; lit ",101,y"] [].
Definition zfs : fsys := [(lit "NODELIST.116", lit ""); (lit "NODELIST.123", content zlist); (lit "OTHER", content zlist2)].
Definition zdate (n : list Z) : option Z := if streq n (lit "NODELIST.123") then Some 20 else Some 10.
Definition zprefs : list Z := lit "; lists" ++ [10] ++ lit "NODELIST" ++ [10] ++ lit "missing 3" ++ [10] ++ lit "OTHER 39" ++ [10].
Definition zjunk (n : list Z) : list Z := repeat 77 150.
Definition zix : list Z := crashlist zfs zdate zjunk zprefs.
Lemma zgood : Forall goodlist [zlist; zlist2].
Proof.
  assert (G : forall l, forallb (fun c => (1 <=? c) && (c <? 256) && negb (c =? 10)) l && Nat.leb (length l) 498 = true -> goodline l).
  { intros l H. apply andb_prop in H as [H1 H2]. split; [|apply Nat.leb_le; auto]. rewrite forallb_forall in H1. apply Forall_forall. intros c Hc. specialize (H1 c Hc). rewrite !Bool.andb_true_iff, Bool.negb_true_iff, Z.eqb_neq in H1. lia. }
  assert (C : forall l, forallb (fun c => (1 <=? c) && (c <? 256)) l = true -> cstring l).
  { intros l H. rewrite forallb_forall in H. apply Forall_forall. intros c Hc. specialize (H c Hc). lia. }
  repeat (apply Forall_cons; [split; [apply C; reflexivity|]; split; [apply Nat.leb_le; reflexivity|]; split; [unfold is_u16; cbn; lia|]; split; [cbn [n_lines zlist zlist2]; apply Forall_forall; intros l Hl; apply G; revert l Hl; apply Forall_forall; repeat constructor|]; split; [apply G; reflexivity|reflexivity]|]). constructor.
Qed.
Example C44_nonvacuous :
  lists zfs zdate zprefs = map (fun n => (n_name n, content n, n_zone n)) [zlist; zlist2] /\ Forall goodlist [zlist; zlist2] /\
  map (fun e => (Print4D (e_node e), e_region e, e_hub e)) (all_entries [zlist; zlist2]) =
    [(lit "2:2/0", 0, 0); (lit "2:2/10", 0, 0); (lit "2:20/0", 20, 0); (lit "2:201/0", 20, 0); (lit "2:201/1", 20, 0); (lit "2:201/100", 20, 100);
     (lit "2:201/101", 20, 100); (lit "2:201/102", 20, 100); (lit "2:201/102.7", 20, 100); (lit "2:201/104", 20, 100); (lit "2:201/105", 20, 100);
     (lit "39:5/0", 0, 0); (lit "39:5/101", 0, 0)] /\
  cmnlFindNL zix zfs (N4 2 201 101 0) (Some 200%nat) = NlFound 20 100 (Some (lit ",101,Under the hub" ++ [10])) /\
  cmnlFindNL zix zfs (N4 2 201 104 0) (Some 200%nat) = NlFound 20 100 (Some (lit "HOLD,104,Late" ++ [10])) /\
  cmnlFindNL zix zfs (N4 2 201 105 0) (Some 200%nat) = NlFound 20 100 (Some (lit ",105,Last")) /\
  cmnlFindNL zix zfs (N4 39 5 101 0) (Some 200%nat) = NlFound 0 0 (Some (lit ",101,y" ++ [10])) /\
  cmnlFindNL zix zfs (N4 2 201 103 0) None = NlErr CMNLERR_NODE_NOT_FOUND /\
  FindList zfs zdate (lit "nodelist") = Some (lit "NODELIST.123").
Proof. split; [vm_compute; reflexivity|]. split; [exact zgood|]. repeat (split; [vm_compute; reflexivity|]). vm_compute. reflexivity. Qed.
(** a stopped writer *)
Example C44_cut_nonvacuous : cmnlFindNL (firstn 250 zix) zfs (N4 2 201 1 0) None = NlErr CMNLERR_UNEXPECTED_EOF \/ cmnlFindNL (firstn 250 zix) zfs (N4 2 201 1 0) None = NlFound 20 0 None.
Proof. right. vm_compute. reflexivity. Qed.

(** ** What goes wrong *)
(** The address 0:0/0.0 is found in every index of a list: the end mark looks like it. *)
Theorem C44_null_refuted : first_entry [zlist; zlist2] (N4 0 0 0 0) = None /\ cmnl_nlCheckNode zix (N4 0 0 0 0) = true.
Proof. split; vm_compute; reflexivity. Qed.
(** A line of 500 characters and more is read in pieces, and a piece can look like a line. *)
Definition longlist : list Z := lit "Zone,2" ++ [10] ++ [59] ++ repeat 120 498 ++ lit ",77,not a node" ++ [10].
Theorem C44_long_refuted : ~ In (lit ",77,not a node") (lines longlist) /\ cmnl_nlCheckNode (CNL1 ++ ProcessList (lit "L") longlist 0 (zjunk [])) (N4 2 2 77 0) = true.
Proof.
  split; [|vm_compute; reflexivity]. intros H. assert (E : forallb (fun l => negb (streq l (lit ",77,not a node"))) (lines longlist) = true) by (vm_compute; reflexivity).
  rewrite forallb_forall in E. specialize (E _ H). discriminate.
Qed.
(** A line that begins with NUL ends the list. *)
Theorem C44_nul_refuted : cmnl_nlCheckNode (CNL1 ++ ProcessList (lit "L") (lit "Zone,2" ++ [10; 0; 10] ++ lit ",5,x" ++ [10]) 0 (zjunk [])) (N4 2 2 5 0) = false.
Proof. vm_compute. reflexivity. Qed.
(** Points of a node that is listed as down are indexed as points of the node before. *)
Theorem C44_down_refuted : cmnl_nlCheckNode (CNL1 ++ ProcessList (lit "L") (lit "Zone,2" ++ [10] ++ lit ",5,x" ++ [10] ++ lit "Down,6,y" ++ [10] ++ lit "Point,1,z" ++ [10]) 0 (zjunk [])) (N4 2 2 5 1) = true.
Proof. vm_compute. reflexivity. Qed.
(** Any shorter name is taken for the list too, even one that consists of digits only. *)
Theorem C44_shorter_refuted : FindList [(lit "NODELIST.116", lit "a"); (lit "N.123", lit "b"); (lit ".999", lit "c")] (fun n => Some (Z.of_nat (20 - length n))) (lit "NODELIST") = Some (lit ".999").
Proof. vm_compute. reflexivity. Qed.

Print Assumptions C44_find.
Print Assumptions C44_node.
Print Assumptions C44_newest.
Print Assumptions C44_cut.
