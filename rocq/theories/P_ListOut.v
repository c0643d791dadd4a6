(** Lemmas about CrashListOut. *)
From Coq Require Import Permutation Sorted.
From Verif Require Import Base M_Node4D S_Node4D P_Node4D M_Mem M_Str S_Str P_Str M_Args M_Main M_Out M_Date M_Pat S_Pat P_Pat M_Upd P_Args S_Packer M_AfList S_AfList P_AfList M_ListOut S_ListOut.

(** ** Paths *)
Lemma joinpath_length d f : (length (joinpath d f) <= length d + 1 + length f)%nat.
Proof. unfold joinpath. destruct (rev d); [lia|]. destruct (_ =? _); rewrite ?app_length; cbn [length]; lia. Qed.
Lemma joinpath_cstring d f : cstring d -> cstring f -> cstring (joinpath d f).
Proof.
  intros Hd Hf. unfold joinpath. destruct (rev d); auto. destruct (_ =? _); repeat (apply Forall_app; split); auto.
  constructor; [unfold PATHCHAR; lia|constructor].
Qed.
Lemma pathto_ok n d f : (1 <= n)%nat -> cstring d -> cstring f -> (length (joinpath d f) + 2 <= n)%nat -> pathto n d f = Some (joinpath d f).
Proof.
  intros Hn Hd Hf Hl. unfold pathto. destruct (MakeFullPath_spec d f (repeat 0 n) n (repeat_length 0 n) Hn Hd Hf) as (b & t & E & Hb & Ht & _).
  rewrite E. cbn [option_map]. f_equal. rewrite <- (Ht Hl). apply Hb.
Qed.
Lemma path200_ok d f : cstring d -> cstring f -> (length d + length f <= 197)%nat -> path200 d f = Some (joinpath d f).
Proof. intros Hd Hf Hl. apply (pathto_ok 200); auto; [lia|]. pose proof (joinpath_length d f). lia. Qed.
Lemma copyto_ok n s : cstring s -> (length s < n)%nat -> copyto n s = Some s.
Proof.
  intros Hs Hl. unfold copyto. destruct (mystrncpy_full (repeat 0 n) s n (repeat_length 0 n) ltac:(lia) Hs) as (b & E & Hb & _).
  rewrite E. cbn [option_map]. f_equal. destruct Hb as (_ & _ & ->). apply firstn_all2. lia.
Qed.

(** ** Numbers *)
Lemma hexval_digit c d : 0 <= c -> hexval c = Some d <-> digit_value c d.
Proof.
  intros Hc. unfold hexval, digit_value, isdigit, tolower. destruct ((65 <=? c) && (c <=? 90)) eqn:E1.
  - apply andb_true_iff in E1 as [A B]. apply Z.leb_le in A, B. replace ((48 <=? c + 32) && (c + 32 <=? 57)) with false by lia.
    destruct ((97 <=? c + 32) && (c + 32 <=? 102)) eqn:E2.
    + split; [intros H; injection H as <-; right; left; lia|intros H; f_equal; lia].
    + split; [discriminate|lia].
  - destruct ((48 <=? c) && (c <=? 57)) eqn:E2; [split; [intros H; injection H as <-; lia|intros H; f_equal; lia]|].
    destruct ((97 <=? c) && (c <=? 102)) eqn:E3; split; try discriminate; try (intros H; injection H as <-; lia); try (intros H; f_equal; lia); lia.
Qed.
Lemma digit_value_fun c d d' : digit_value c d -> digit_value c d' -> d = d'.
Proof. unfold digit_value. lia. Qed.
Lemma digit_value_range c d : digit_value c d -> 0 <= d < 16 /\ 0 <= c.
Proof. unfold digit_value. lia. Qed.
Lemma hexnum_range l v : hexnum l v -> 0 <= v < 16 ^ Z.of_nat (length l).
Proof.
  induction 1 as [|l v c d H IH Hd]; [cbn; lia|]. apply digit_value_range in Hd. rewrite app_length, Nat2Z.inj_add, Z.pow_add_r by lia. change (16 ^ Z.of_nat (length [c])) with 16. lia.
Qed.
Lemma hexnum_aux l v : hexnum l v -> (length l <= 16)%nat -> forall rest, hextodec_aux (l ++ rest) 0 = hextodec_aux rest v.
Proof.
  induction 1 as [|l v c d H IH Hd]; intros Hl rest; [reflexivity|]. rewrite app_length in Hl. cbn [length] in Hl. rewrite <- app_assoc, IH by lia. cbn [app hextodec_aux].
  pose proof (digit_value_range _ _ Hd). rewrite (proj2 (hexval_digit c d ltac:(lia)) Hd). rewrite Z.mod_small; [reflexivity|].
  pose proof (hexnum_range _ _ H). assert (16 ^ Z.of_nat (length l) <= 16 ^ 15) by (apply Z.pow_le_mono_r; lia). change (16 ^ 15) with 1152921504606846976 in *. lia.
Qed.
Lemma numbered_dec b v x : numbered b v -> length b = 8%nat -> cstring b -> hextodec (b ++ 46 :: x) = v /\ is_u32 v.
Proof.
  intros (ds & rest & E & H & Hr) Hl Hc. assert (L : (length ds <= 8)%nat) by (rewrite E, app_length in Hl; lia). split.
  - unfold hextodec. rewrite E, <- app_assoc, (hexnum_aux ds v H) by lia. destruct rest as [|c r]; cbn [app hextodec_aux]; [reflexivity|].
    assert (0 <= c). { rewrite E in Hc. apply Forall_app in Hc as [_ Hc]. inversion Hc; subst. lia. }
    destruct (hexval c) as [d|] eqn:Ed; [|reflexivity]. apply hexval_digit in Ed; auto. exfalso. eapply Hr; eauto.
  - pose proof (hexnum_range _ _ H). assert (16 ^ Z.of_nat (length ds) <= 16 ^ 8) by (apply Z.pow_le_mono_r; lia). change (16 ^ 8) with 4294967296 in *. unfold is_u32. lia.
Qed.
Lemma numbered_more l : forall b v, cstring l -> hexnum b v -> exists w ds rest, b ++ l = ds ++ rest /\ hexnum ds w /\ forall c r d, rest = c :: r -> ~ digit_value c d.
Proof.
  induction l as [|c l IH]; intros b v Hc H.
  - exists v, b, []. split; [reflexivity|]. split; auto. intros; discriminate.
  - inversion Hc; subst. destruct (hexval c) as [d|] eqn:Ed.
    + apply hexval_digit in Ed; [|lia]. destruct (IH (b ++ [c]) (16 * v + d)) as (w & ds & rest & A & B & C); auto; [constructor; auto|].
      exists w, ds, rest. rewrite <- A, <- app_assoc. auto.
    + exists v, b, (c :: l). split; auto. split; auto. intros c' r d E Hd. injection E as <- <-. apply hexval_digit in Hd; [congruence|lia].
Qed.
Lemma numbered_some b : cstring b -> exists v, numbered b v.
Proof. intros H. destruct (numbered_more b [] 0 H hn_nil) as (w & ds & rest & A & B & C). exists w, ds, rest. auto. Qed.
Lemma numbered_fun b v w : cstring b -> length b = 8%nat -> numbered b v -> numbered b w -> v = w.
Proof. intros Hc Hl H1 H2. destruct (numbered_dec b v [] H1 Hl Hc) as [A _]. destruct (numbered_dec b w [] H2 Hl Hc) as [B _]. congruence. Qed.

(** ** Patterns *)
Lemma lo_match_ok p n : valid4d n -> lo_match p n = true <-> matches p n.
Proof.
  intros (Hz & Hn & Hf & Hp). unfold lo_match, matches, zonematch. rewrite !andb_true_iff, orb_true_iff, !Z.eqb_eq.
  rewrite !NodeCompare_spec by auto. tauto.
Qed.

(** ** Endings *)
Definition tk (k : kind) : lotype * bool :=
  match k with
  | Flow Crash => (TCrash, true) | Flow Direct => (TDirect, true) | Flow Normal => (TNormal, true) | Flow Hold => (THold, true)
  | Packet Crash => (TCrash, false) | Packet Direct => (TDirect, false) | Packet Normal => (TNormal, false) | Packet Hold => (THold, false)
  | Requests => (TRequest, true)
  end.
Definition kindof (t : lotype) (flow : bool) : kind :=
  match t, flow with
  | TCrash, true => Flow Crash | TDirect, true => Flow Direct | TNormal, true => Flow Normal | THold, true => Flow Hold
  | TCrash, false => Packet Crash | TDirect, false => Packet Direct | TNormal, false => Packet Normal | THold, false => Packet Hold
  | TRequest, _ => Requests
  end.
Lemma kindof_tk k : kindof (fst (tk k)) (snd (tk k)) = k.
Proof. destruct k as [[]|[]|]; reflexivity. Qed.
Lemma ending_inj k k' : ending k = ending k' -> k = k'.
Proof. destruct k as [[]|[]|], k' as [[]|[]|]; intros H; try reflexivity; discriminate H. Qed.
Lemma find_ext x : match find (fun y => streqi x (fst y)) loexts with
                   | Some (_, y) => exists k, map tolower x = ending k /\ y = tk k
                   | None => forall k, map tolower x <> ending k
                   end.
Proof.
  destruct (find _ loexts) as [[e y]|] eqn:E.
  - apply find_some in E as [E1 E2]. cbn [fst] in E2. apply streqi_spec in E2. rewrite E2. unfold loexts in E1. cbn [In] in E1.
    repeat (destruct E1 as [E1|E1]; [injection E1 as <- <-; first
      [exists Requests; split; reflexivity|exists (Flow Crash); split; reflexivity|exists (Flow Direct); split; reflexivity|exists (Flow Normal); split; reflexivity|exists (Flow Hold); split; reflexivity
      |exists (Packet Crash); split; reflexivity|exists (Packet Direct); split; reflexivity|exists (Packet Normal); split; reflexivity|exists (Packet Hold); split; reflexivity]|]).
    destruct E1.
  - intros k Hk. assert (exists y, In y loexts /\ map tolower (fst y) = ending k) as (y & Hy & Ey).
    { unfold loexts. destruct k as [[]|[]|];
      [exists (lit ".CLO", (TCrash, true))|exists (lit ".DLO", (TDirect, true))|exists (lit ".FLO", (TNormal, true))|exists (lit ".HLO", (THold, true))
      |exists (lit ".CUT", (TCrash, false))|exists (lit ".DUT", (TDirect, false))|exists (lit ".OUT", (TNormal, false))|exists (lit ".HUT", (THold, false))|exists (lit ".REQ", (TRequest, true))];
      (split; [cbn [In]; tauto|reflexivity]). }
    pose proof (find_none _ _ E y Hy) as N. cbn beta in N. rewrite (proj2 (streqi_spec x (fst y))) in N; [discriminate|congruence].
Qed.
Lemma ending_dot x k : map tolower x = ending k -> exists r, x = 46 :: r /\ length x = 4%nat.
Proof.
  intros H. assert (L : length x = 4%nat) by (rewrite <- (map_length tolower), H; destruct k as [[]|[]|]; reflexivity).
  destruct x as [|c r]; [discriminate L|]. exists r. split; auto. f_equal.
  assert (tolower c = 46) by (destruct k as [[]|[]|]; injection H as H _; exact H). unfold tolower in *. destruct (_ && _) eqn:E; lia.
Qed.
Lemma pnt_dot x : map tolower x = lit ".pnt" -> exists r, x = 46 :: r /\ length x = 4%nat.
Proof.
  intros H. assert (L : length x = 4%nat) by (rewrite <- (map_length tolower), H; reflexivity).
  destruct x as [|c r]; [discriminate L|]. exists r. split; auto. f_equal.
  assert (tolower c = 46) by (injection H as H _; exact H). unfold tolower in *. destruct (_ && _) eqn:E; lia.
Qed.

(** ** Scanning *)
Definition toitem (e : fentry) : item := IT (fe_node e) (kindof (fe_type e) (fe_flow e)) (fe_file e) (fe_dir e) (fe_size e) (fe_date e).
Definition good (e : fentry) : Prop := exists k, (fe_type e, fe_flow e) = tk k.
Lemma u16_div v : is_u32 v -> u16 (v / 65536) = v / 65536 /\ u16 (v mod 65536) = v mod 65536.
Proof. unfold is_u32. intros H. split; unfold u16; rewrite Z.mod_small; auto; [|apply Z.mod_pos_bound; lia]. split; [apply Z.div_pos; lia|apply Z.div_lt_upper_bound; lia]. Qed.
Section Scanning.
  Variables (E : loenv) (out : list Z) (cz : Z) (pat : npat).
  Hypothesis F : fine E out.
  Let z := u16 cz.
  Definition found (nodeof : Z -> node4d) (rel dd f : list Z) (it : item) : Prop :=
    exists b k v size date, named f b (ending k) /\ numbered b v /\ matches pat (nodeof v) /\
      lo_stat E (joinpath out rel) = Some (size, date) /\ it = IT (nodeof v) k rel dd size date.
  Definition place (dir : option (list Z)) (rel dd f : list Z) : Prop :=
    match dir with
    | Some d => rel = joinpath d f /\ dd = joinpath out d /\ cstring d /\ length d = 12%nat
    | None => rel = f /\ dd = out
    end.
  Lemma addentry_ok dir boss f b x k v rel dd n : name_fine f -> f = b ++ x -> length b = 8%nat -> map tolower x = ending k -> numbered b v ->
    place dir rel dd f ->
    n = match boss with Some b => set_point b (u16 v) | None => N4 z (v / 65536) (v mod 65536) 0 end ->
    addentry E out cz pat dir f (fst (tk k)) boss (snd (tk k)) =
    Some (if lo_match pat n then match lo_stat E (joinpath out rel) with Some (s, d) => [FE n rel dd s d (fst (tk k)) (snd (tk k))] | None => [] end else []).
  Proof.
    intros [Hc _] Ef Hb Hx Hv Hpl En. destruct F as (Ho & Lo & _). destruct (ending_dot _ _ Hx) as (r & Er & Lx).
    assert (Lf : length f = 12%nat) by (rewrite Ef, app_length; lia).
    assert (Hcb : cstring b) by (rewrite Ef in Hc; apply Forall_app in Hc; tauto).
    destruct (numbered_dec b v r Hv Hb Hcb) as [Hd Hu]. destruct (u16_div v Hu) as [U1 U2].
    unfold addentry. assert (Eh : u32 (hextodec f) = v). { rewrite Ef, Er, Hd. unfold u32. apply Z.mod_small. exact Hu. }
    rewrite Eh, U1, U2. fold z. rewrite <- En. destruct (lo_match pat n); [|reflexivity].
    destruct dir as [d|]; cbn [place] in Hpl.
    - destruct Hpl as (-> & -> & Hd1 & Hd2). pose proof (joinpath_length d f). pose proof (joinpath_length out d). pose proof (joinpath_cstring d f Hd1 Hc).
      rewrite path200_ok by (auto; lia). cbn [obind]. rewrite path200_ok by (auto; lia). cbn [obind].
      destruct (lo_stat E _) as [[s dt]|]; [|reflexivity]. rewrite pathto_ok by (auto; lia). cbn [obind]. rewrite copyto_ok by (auto; lia). reflexivity.
    - destruct Hpl as (-> & ->). rewrite copyto_ok by (auto; lia). cbn [obind]. rewrite path200_ok by (auto; lia). cbn [obind].
      destruct (lo_stat E _) as [[s dt]|]; [|reflexivity]. rewrite copyto_ok by (auto; lia). cbn [obind]. rewrite copyto_ok by (auto; lia). reflexivity.
  Qed.
  Lemma scanfile_ok dir boss f rel dd nodeof : name_fine f -> place dir rel dd f ->
    (forall v, is_u32 v -> nodeof v = match boss with Some b => set_point b (u16 v) | None => N4 z (v / 65536) (v mod 65536) 0 end) ->
    (forall v, is_u32 v -> valid4d (nodeof v)) ->
    exists es, scanfile E out cz pat dir boss f = Some es /\ (length es <= 1)%nat /\ Forall good es /\ forall it, In it (map toitem es) <-> found nodeof rel dd f it.
  Proof.
    intros Hf Hpl Hn Hv. unfold scanfile. destruct (Nat.eqb_spec (length f) 12) as [L|L]; cbn [negb].
    - set (b := firstn 8 f). set (x := skipn 8 f). assert (Ef : f = b ++ x) by (symmetry; apply firstn_skipn).
      assert (Lb : length b = 8%nat) by (unfold b; rewrite firstn_length; lia).
      assert (Hcb : cstring b) by (destruct Hf as [Hf _]; rewrite Ef in Hf; apply Forall_app in Hf; tauto).
      destruct (numbered_some b Hcb) as [v Nv].
      pose proof (find_ext x) as Hx. destruct (find _ loexts) as [[e y]|].
      + destruct Hx as (k & Hk & ->). destruct (ending_dot _ _ Hk) as (r & Er & _). destruct (numbered_dec b v r Nv Lb Hcb) as [_ Hu].
        replace (let (t, flow) := tk k in addentry E out cz pat dir f t boss flow) with (addentry E out cz pat dir f (fst (tk k)) boss (snd (tk k))) by (destruct (tk k); reflexivity).
        rewrite (addentry_ok dir boss f b x k v rel dd (nodeof v) Hf Ef Lb Hk Nv Hpl (Hn v Hu)).
        eexists. split; [reflexivity|].
        assert (R : forall it, found nodeof rel dd f it <-> matches pat (nodeof v) /\ exists size date, lo_stat E (joinpath out rel) = Some (size, date) /\ it = IT (nodeof v) k rel dd size date).
        { intros it. split.
          - intros (b' & k' & v' & size & date & (x' & Ef' & Lb' & Hx') & Nv' & M & S & ->).
            assert (b' = b /\ x' = x) as [-> ->]. { rewrite Ef in Ef'. apply app_eq_app in Ef'. destruct Ef' as (l & [[A B]|[A B]]).
              - assert (l = []) by (apply (f_equal (@length Z)) in A; rewrite app_length in A; destruct l; cbn [length] in A; auto; lia). subst l. rewrite app_nil_r in A. auto.
              - assert (l = []) by (apply (f_equal (@length Z)) in A; rewrite app_length in A; destruct l; cbn [length] in A; auto; lia). subst l. rewrite app_nil_r in A. auto. }
            assert (v' = v) by (eapply numbered_fun; eauto). subst v'. assert (k' = k) by (apply ending_inj; congruence). subst k'. eauto.
          - intros (M & size & date & S & ->). exists b, k, v, size, date. split; [exists x; auto|]. auto. }
        pose proof (lo_match_ok pat (nodeof v) (Hv v Hu)) as Hm.
        destruct (lo_match pat (nodeof v)) eqn:Em.
        * destruct (lo_stat E (joinpath out rel)) as [[s d]|] eqn:Es.
          -- split; [cbn; lia|]. split; [constructor; [exists k; cbn; destruct (tk k); reflexivity|constructor]|].
             intros it. rewrite R. cbn [map In]. unfold toitem. cbn [fe_node fe_type fe_flow fe_file fe_dir fe_size fe_date]. rewrite kindof_tk. split.
             ++ intros [<-|[]]. split; [apply Hm; auto|eauto].
             ++ intros (_ & s' & d' & E' & ->). injection E' as <- <-. auto.
          -- split; [cbn; lia|]. split; [constructor|]. intros it. rewrite R. cbn [map In]. split; [tauto|]. intros (_ & s' & d' & E' & _). discriminate.
        * split; [cbn; lia|]. split; [constructor|]. intros it. rewrite R. cbn [map In]. split; [tauto|]. intros (M & _). apply Hm in M. discriminate.
      + exists []. split; [reflexivity|]. split; [cbn; lia|]. split; [constructor|]. intros it. cbn [map In]. split; [tauto|].
        intros (b' & k' & v' & size & date & (x' & Ef' & Lb' & Hx') & _). exfalso. apply (Hx k').
        replace x with x'; auto. unfold x. rewrite Ef', skipn_app, Lb', Nat.sub_diag, skipn_all2 by lia. reflexivity.
    - exists []. split; [reflexivity|]. split; [cbn; lia|]. split; [constructor|]. intros it. cbn [map In]. split; [tauto|].
      intros (b' & k' & v' & size & date & (x' & Ef' & Lb' & Hx') & _). exfalso. apply L. destruct (ending_dot _ _ Hx') as (_ & _ & Lx). rewrite Ef', app_length. lia.
  Qed.
  Lemma z_u16 : is_u16 z.
  Proof. unfold z, is_u16, u16. apply Z.mod_pos_bound. lia. Qed.
  Lemma top_ok f : name_fine f ->
    exists es, scanfile E out cz pat None None f = Some es /\ (length es <= 1)%nat /\ Forall good es /\
    forall it, In it (map toitem es) <-> found (fun v => N4 z (v / 65536) (v mod 65536) 0) f out f it.
  Proof.
    intros Hf. apply scanfile_ok; auto; [split; auto|]. intros v Hv. destruct (u16_div v Hv) as [A B]. pose proof z_u16. unfold valid4d, is_u16 in *. cbn [zone net node point].
    rewrite <- A, <- B. unfold u16. repeat split; try (apply Z.mod_pos_bound; lia); try lia.
  Qed.
  Lemma point_ok dir v f : cstring dir -> length dir = 12%nat -> is_u32 v -> name_fine f ->
    exists es, scanfile E out cz pat (Some dir) (Some (N4 z (v / 65536) (v mod 65536) 0)) f = Some es /\ (length es <= 1)%nat /\ Forall good es /\
    forall it, In it (map toitem es) <-> found (fun q => N4 z (v / 65536) (v mod 65536) (q mod 65536)) (joinpath dir f) (joinpath out dir) f it.
  Proof.
    intros Hd Ld Hv Hf. apply scanfile_ok; auto; [cbn; auto|]. intros q _. destruct (u16_div v Hv) as [A B]. pose proof z_u16. unfold valid4d, is_u16 in *. cbn [zone net node point].
    rewrite <- A, <- B. unfold u16. repeat split; try (apply Z.mod_pos_bound; lia); try lia.
  Qed.
  Lemma omap_ok {A B} (f : A -> option B) (Q : A -> B -> Prop) l : (forall x, In x l -> exists y, f x = Some y /\ Q x y) -> exists ys, omap f l = Some ys /\ Forall2 Q l ys.
  Proof.
    clear. induction l as [|x l IH]; intros H; [exists []; split; [reflexivity|constructor]|].
    destruct (H x (or_introl eq_refl)) as (y & Ey & Qy). destruct IH as (ys & Eys & Qys); [intros; apply H; right; auto|].
    exists (y :: ys). split; [cbn [omap]; rewrite Ey; cbn [obind]; rewrite Eys; reflexivity|constructor; auto].
  Qed.
  Lemma concat_in {A B} (g : A -> B) (P : list Z -> B -> Prop) names (ls : list (list A)) :
    Forall2 (fun f es => forall it, In it (map g es) <-> P f it) names ls -> forall it, In it (map g (concat ls)) <-> exists f, In f names /\ P f it.
  Proof.
    clear. induction 1 as [|f es names ls H Hs IH]; intros it; cbn [concat map In].
    - split; [tauto|intros (f & [] & _)].
    - rewrite map_app, in_app_iff, H, IH. split; [intros [X|(f' & X & Y)]; eauto|intros (f' & [<-|X] & Y); eauto].
  Qed.
  Definition found_in (names : list (list Z)) (f : list Z) (it : item) : Prop :=
    found (fun v => N4 z (v / 65536) (v mod 65536) 0) f out f it \/
    exists db v sub f', named f db (lit ".pnt") /\ numbered db v /\ lo_dirs E (joinpath out f) = Some sub /\ In f' sub /\
      found (fun q => N4 z (v / 65536) (v mod 65536) (q mod 65536)) (joinpath f f') (joinpath out f) f' it.
  (** what a name of the outbound directory adds, and that nothing is added twice *)
  Definition once (es : list fentry) : Prop := (forall d names, lo_dirs E d = Some names -> NoDup names) -> NoDup (map fe_file es).
  Fixpoint head (l : list Z) : list Z := match l with c :: r => if c =? PATHCHAR then [] else c :: head r | [] => [] end.
  Definition under (f : list Z) (e : fentry) : Prop := head (fe_file e) = f.
  Lemma head_plain f : ~ In PATHCHAR f -> head f = f.
  Proof. clear. induction f as [|c f IH]; intros H; [reflexivity|]. cbn [head]. destruct (Z.eqb_spec c PATHCHAR); [subst; destruct H; left; auto|]. rewrite IH; [reflexivity|]. intros X. apply H. right. auto. Qed.
  Lemma head_join f g : ~ In PATHCHAR f -> f <> [] -> head (joinpath f g) = f.
  Proof.
    clear. intros H N. assert (X : joinpath f g = f ++ PATHCHAR :: g).
    { unfold joinpath. destruct (rev f) as [|c r] eqn:R; [apply (f_equal (@rev Z)) in R; rewrite rev_involutive in R; contradiction|].
      destruct (Z.eqb_spec c PATHCHAR); [|reflexivity]. subst c. destruct H. apply in_rev. rewrite R. left. reflexivity. }
    rewrite X. clear X N. induction f as [|c f IH]; [reflexivity|]. cbn [app head]. destruct (Z.eqb_spec c PATHCHAR); [subst; destruct H; left; auto|]. rewrite IH; [reflexivity|]. intros Y. apply H. right. auto.
  Qed.
  Lemma joinpath_inj d a b : joinpath d a = joinpath d b -> a = b.
  Proof. clear. unfold joinpath. destruct (rev d); auto. destruct (_ =? _); rewrite ?app_assoc; apply app_inv_head. Qed.
  Lemma scantop_ok names f : In f names -> lo_dirs E out = Some names ->
    exists es, scantop E out cz pat f = Some es /\ Forall good es /\ once es /\ Forall (under f) es /\ forall it, In it (map toitem es) <-> found_in names f it.
  Proof.
    intros Hin Hnames. pose proof F as (Ho & Lo & Hd & _). assert (Hf : name_fine f) by (pose proof (Hd _ _ Hnames) as X; rewrite Forall_forall in X; auto).
    unfold scantop. destruct (Nat.eqb_spec (length f) 12) as [L|L]; cbn [andb].
    - destruct (streqi (skipn 8 f) (lit ".PNT")) eqn:Ep.
      + apply streqi_spec in Ep. change (map tolower (lit ".PNT")) with (lit ".pnt") in Ep.
        set (b := firstn 8 f) in *. set (x := skipn 8 f) in *. assert (Ef : f = b ++ x) by (symmetry; apply firstn_skipn).
        assert (Lb : length b = 8%nat) by (unfold b; rewrite firstn_length; lia).
        assert (Hcf : cstring f) by apply Hf. assert (Hcb : cstring b) by (rewrite Ef in Hcf; apply Forall_app in Hcf; tauto).
        destruct (numbered_some b Hcb) as [v Nv]. destruct (pnt_dot _ Ep) as (r & Er & _). destruct (numbered_dec b v r Nv Lb Hcb) as [Hh Hu].
        assert (NT : forall it, ~ found (fun v => N4 z (v / 65536) (v mod 65536) 0) f out f it).
        { intros it (b' & k' & v' & size & date & (x' & Ef' & Lb' & Hx') & _). assert (x = x') by (unfold x; rewrite Ef', skipn_app, Lb', Nat.sub_diag, skipn_all2 by lia; reflexivity). subst x'.
          rewrite Ep in Hx'. destruct k' as [[]|[]|]; discriminate Hx'. }
        assert (U : forall db v', named f db (lit ".pnt") -> numbered db v' -> v' = v).
        { intros db v' (x' & Ef' & Lb' & Hx') N'. assert (db = b) by (unfold b; rewrite Ef', firstn_app, Lb', Nat.sub_diag, firstn_all2 by lia; cbn; rewrite app_nil_r; reflexivity). subst db. eapply numbered_fun; eauto. }
        assert (Eh : u32 (hextodec f) = v). { rewrite Ef, Er, Hh. unfold u32. apply Z.mod_small. exact Hu. }
        destruct (u16_div v Hu) as [U1 U2]. rewrite Eh, U1, U2. fold z. rewrite path200_ok by (auto; lia). cbn [obind].
        destruct (lo_dirs E (joinpath out f)) as [sub|] eqn:Es.
        * destruct (omap_ok (scanfile E out cz pat (Some f) (Some (N4 z (v / 65536) (v mod 65536) 0)))
            (fun f' es => (length es <= 1)%nat /\ Forall good es /\ (forall it, In it (map toitem es) <-> found (fun q => N4 z (v / 65536) (v mod 65536) (q mod 65536)) (joinpath f f') (joinpath out f) f' it)) sub) as (ls & Els & Qls).
          { intros f' Hf'. assert (name_fine f') by (pose proof (Hd _ _ Es) as X; rewrite Forall_forall in X; auto). destruct (point_ok f v f') as (es & A & B & C & D); auto. exists es. auto. }
          rewrite Els. cbn [obind]. exists (concat ls). split; [reflexivity|].
          assert (Hfile : Forall2 (fun f' es => (length es <= 1)%nat /\ Forall (fun e => fe_file e = joinpath f f') es) sub ls).
          { clear -Qls. induction Qls as [|f' es sub ls (A & B & C) _ IH]; constructor; auto. split; auto. rewrite Forall_forall. intros e He.
            assert (X : In (toitem e) (map toitem es)) by (apply in_map; auto). apply C in X. destruct X as (b' & k & q & s & d & _ & _ & _ & _ & X). injection X. congruence. }
          split; [|split; [|split]].
          -- clear -Qls. induction Qls as [|f' es sub ls (_ & B & _) _ IH]; cbn [concat]; [constructor|]. apply Forall_app; auto.
          -- intros ND. pose proof (ND _ _ Es) as N. clear -Hfile N. induction Hfile as [|f' es sub ls (A & B) H IH]; cbn [concat map]; [constructor|].
             inversion N; subst. specialize (IH H3). rewrite map_app. destruct es as [|e [|]]; [exact IH| |cbn in A; lia]. cbn [map app]. constructor; auto.
             inversion B; subst. rewrite H4. intros X. apply H2. clear -H X. induction H as [|f2 es sub ls (A & B) H IH]; cbn [concat map In] in *; [destruct X|].
             rewrite map_app, in_app_iff in X. destruct X as [X|X]; [left|right; auto]. apply in_map_iff in X as (e2 & E2 & He). rewrite Forall_forall in B. rewrite (B e2 He) in E2. apply joinpath_inj in E2. auto.
          -- assert (Hs : ~ In PATHCHAR f) by apply Hf. assert (Nf : f <> []) by (intros X; rewrite X in L; discriminate L).
             clear -Hfile Hs Nf. induction Hfile as [|f' es sub ls (A & B) H IH]; cbn [concat]; [constructor|].
             apply Forall_app. split; auto. eapply Forall_impl; [|exact B]. intros e X. unfold under. rewrite X. apply head_join; auto.
          -- intros it. rewrite (concat_in toitem (fun f' => found (fun q => N4 z (v / 65536) (v mod 65536) (q mod 65536)) (joinpath f f') (joinpath out f) f') sub ls).
             2:{ clear -Qls. induction Qls as [|f' es sub ls (_ & _ & X) _ IH]; constructor; auto. }
             unfold found_in. split.
             ++ intros (f' & A & B). right. exists b, v, sub, f'. split; [exists x; auto|]. auto.
             ++ intros [A|(db & v' & sub' & f' & A & B & C & D & G)]; [destruct (NT _ A)|]. rewrite (U db v' A B) in G. rewrite Es in C. injection C as <-. eauto.
        * exists []. split; [reflexivity|]. split; [constructor|]. split; [intros _; constructor|]. split; [constructor|]. intros it. cbn [map In]. split; [tauto|].
          intros [A|(db & v' & sub' & f' & A & B & C & D & G)]; [destruct (NT _ A)|]. rewrite Es in C. discriminate C.
      + destruct (top_ok f Hf) as (es & A & B & C & D). exists es. split; auto. split; auto. split; [|split].
        * intros _. destruct es as [|e [|]]; [constructor|constructor; [intros []|constructor]|cbn in B; lia].
        * rewrite Forall_forall. intros e He. assert (X : In (toitem e) (map toitem es)) by (apply in_map; auto). apply D in X. destruct X as (b' & k & q & s & d & _ & _ & _ & _ & X). unfold under. replace (fe_file e) with f by (injection X; congruence). apply head_plain. apply Hf.
        * intros it. rewrite D. unfold found_in. split; [auto|]. intros [X|(db & v' & sub' & f' & (x' & Ef' & Lb' & Hx') & _)]; auto. exfalso.
          assert (S8 : skipn 8 f = x') by (rewrite Ef', skipn_app, Lb', Nat.sub_diag, skipn_all2 by lia; reflexivity).
          rewrite S8 in Ep. rewrite (proj2 (streqi_spec x' (lit ".PNT"))) in Ep; [discriminate|exact Hx'].
    - destruct (top_ok f Hf) as (es & A & B & C & D). exists es. split; auto. split; auto. split; [|split].
      * intros _. destruct es as [|e [|]]; [constructor|constructor; [intros []|constructor]|cbn in B; lia].
      * rewrite Forall_forall. intros e He. assert (X : In (toitem e) (map toitem es)) by (apply in_map; auto). apply D in X. destruct X as (b' & k & q & s & d & _ & _ & _ & _ & X). unfold under. replace (fe_file e) with f by (injection X; congruence). apply head_plain. apply Hf.
      * intros it. rewrite D. unfold found_in. split; [auto|]. intros [X|(db & v' & sub' & f' & (x' & Ef' & Lb' & Hx') & _)]; auto. exfalso.
        apply L. destruct (pnt_dot _ Hx') as (_ & _ & Lx). rewrite Ef', app_length. lia.
  Qed.
  Lemma all_ok names : lo_dirs E out = Some names ->
    exists ls, omap (scantop E out cz pat) names = Some ls /\ Forall good (concat ls) /\ once (concat ls) /\
      forall it, In it (map toitem (concat ls)) <-> waits (lo_dirs E) (lo_stat E) out z pat it.
  Proof.
    intros Hn. destruct (omap_ok (scantop E out cz pat)
      (fun f es => Forall good es /\ once es /\ Forall (under f) es /\ (forall it, In it (map toitem es) <-> found_in names f it)) names) as (ls & Els & Q).
    { intros f Hf. destruct (scantop_ok names f Hf Hn) as (es & A & B & C & D & G). exists es. auto. }
    exists ls. split; [exact Els|]. split; [|split].
    - clear -Q. induction Q as [|f es names0 ls (A & _) _ IH]; cbn [concat]; [constructor|]. apply Forall_app; auto.
    - intros ND. pose proof (ND _ _ Hn) as N. clear -Q N ND.
      assert (Q' : Forall2 (fun f es => once es /\ Forall (under f) es) names ls) by (clear -Q; induction Q as [|f es names0 ls (_ & A & B & _) _ IH]; constructor; auto).
      clear Q. induction Q' as [|f es names ls (A & B) H IH]; cbn [concat]; [constructor|]. inversion N; subst. specialize (IH H3). rewrite map_app.
      assert (X : forall e, In e (concat ls) -> head (fe_file e) <> f).
      { intros e He X. apply H2. clear -H He X. induction H as [|f2 es sub ls (A & B) H IH]; cbn [concat] in He; [destruct He|]. apply in_app_iff in He as [He|He]; [left|right; auto].
        rewrite Forall_forall in B. specialize (B e He). unfold under in B. congruence. }
      specialize (A ND). clear -A B X IH. induction es as [|e es IHe]; cbn [map app]; [exact IH|].
      cbn [map] in A. apply NoDup_cons_iff in A as [A1 A2]. inversion B as [|e0 es0 B1 B2]; subst e0 es0. constructor; auto. rewrite in_app_iff. intros [Y|Y]; auto.
      apply in_map_iff in Y as (e' & Ee & He). apply (X e' He). rewrite Ee. exact B1.
    - intros it. rewrite (concat_in toitem (found_in names) names ls).
      2:{ clear -Q. revert Q. generalize names at 1 3. intros nm Q. induction Q as [|f es names0 ls (_ & _ & _ & A) _ IH]; constructor; auto. }
      split.
      + intros (f & Hf & [(b & k & v & s & d & A & B & C & D & ->)|(db & v & sub & f' & A & B & C & D & (b & k & q & s & d & A' & B' & C' & D' & ->))]).
        * eapply w_node; eauto.
        * eapply w_point; eauto.
      + intros W. destruct W as [names' f b k v s d A B C D G H|names' sub dir db f b k v q s d A B C D G H I J K L].
        * rewrite Hn in A. injection A as <-. exists f. split; auto. left. exists b, k, v, s, d. auto.
        * rewrite Hn in A. injection A as <-. exists dir. split; auto. right. exists db, v, sub, f. repeat (split; auto). exists b, k, q, s, d. auto.
  Qed.
End Scanning.

(** ** Reading flow files *)
Lemma dropblanks_ok l : exists t, l = t ++ dropblanks l /\ Forall (fun c => c < 33 \/ c > 127) t /\ (dropblanks l = [] \/ exists c r, dropblanks l = c :: r /\ 33 <= c <= 127).
Proof.
  induction l as [|c l (t & A & B & C)]; [exists []; auto|]. cbn [dropblanks]. destruct ((c <? 33) || (c >? 127)) eqn:E.
  - exists (c :: t). cbn [app]. rewrite <- A. split; auto. split; auto. constructor; auto. apply orb_true_iff in E as [E|E]; lia.
  - exists []. split; [reflexivity|]. split; [constructor|]. right. exists c, l. split; auto. apply orb_false_iff in E as [E1 E2]. lia.
Qed.
Lemma trimmed_strip l : trimmed l (lo_strip l).
Proof.
  unfold lo_strip. destruct (dropblanks_ok (rev l)) as (t & A & B & C). exists (rev t). split; [|split].
  - rewrite <- rev_app_distr, <- A, rev_involutive. reflexivity.
  - apply Forall_rev. exact B.
  - destruct C as [->|(c & r & -> & Hc)]; [left; reflexivity|right]. exists (rev r), c. cbn [rev]. auto.
Qed.
Lemma strip_lf l : lo_strip (l ++ [10]) = lo_strip l.
Proof. unfold lo_strip. rewrite rev_app_distr. reflexivity. Qed.
Lemma strip_crlf l : lo_strip (crlf (l ++ [10])) = lo_strip l /\ crlf (l ++ [10]) <> [].
Proof.
  unfold crlf. rewrite rev_app_distr. cbn [rev app]. destruct (rev l) as [|b r] eqn:R.
  - rewrite strip_lf. split; auto. destruct l; discriminate.
  - change (10 =? 10) with true. cbn [andb]. destruct (Z.eqb_spec b 13) as [->|H].
    + rewrite strip_lf. split; [|destruct (rev r); discriminate]. unfold lo_strip. rewrite rev_involutive, R. reflexivity.
    + rewrite strip_lf. split; auto. destruct l; discriminate.
Qed.
Definition nonempty (t : list Z) : bool := match t with [] => false | _ => true end.
Lemma lines_ok ls : Forall line_fine ls -> forall fuel, (length (textof ls) <= fuel)%nat -> lo_lines_ fuel (textof ls) = filter nonempty (map lo_strip ls).
Proof.
  induction 1 as [|l ls (Hl & Ll) _ IH]; intros fuel Hf; [destruct fuel; reflexivity|].
  change (textof (l :: ls)) with ((l ++ [10]) ++ textof ls) in *. rewrite !app_length in Hf. cbn [length] in Hf. destruct fuel as [|fuel]; [lia|].
  cbn [lo_lines_ map]. rewrite <- app_assoc. cbn [app]. unfold osFGets.
  assert (X : exists c r, l ++ 10 :: textof ls = c :: r) by (destruct l; cbn; eauto). destruct X as (c0 & r0 & X). rewrite X, <- X. clear X.
  rewrite fgets_line; [|eapply Forall_impl; [|exact Hl]; cbn; intros; tauto|lia].
  rewrite (cstr_id (l ++ [10])). 2:{ apply Forall_app. split; [eapply Forall_impl; [|exact Hl]; cbn; intros; lia|]. constructor; [lia|constructor]. }
  destruct (strip_crlf l) as [S N]. destruct (crlf (l ++ [10])) as [|c r] eqn:C; [contradiction|]. rewrite S.
  destruct (lo_strip l) as [|a b] eqn:B; cbn [filter nonempty]; rewrite IH by lia; reflexivity.
Qed.
Lemma says_ok ls : Forall line_fine ls -> says (textof ls) (lo_lines (textof ls)).
Proof.
  intros H. exists ls, (map lo_strip ls). split; auto. split; auto. split.
  - clear. induction ls; constructor; auto. apply trimmed_strip.
  - apply lines_ok; auto.
Qed.
Lemma lines_fine ls : Forall line_fine ls -> Forall (fun b => cstring b /\ (length b <= 100)%nat /\ b <> []) (lo_lines (textof ls)).
Proof.
  intros H. unfold lo_lines. rewrite lines_ok by auto. induction H as [|l ls (Hl & Ll) _ IH]; cbn [map filter]; [constructor|].
  destruct (lo_strip l) as [|a b] eqn:B; cbn [nonempty]; auto. constructor; auto. rewrite <- B. destruct (trimmed_strip l) as (t & A & _).
  split; [|split; [|rewrite B; discriminate]].
  - rewrite A in Hl. apply Forall_app in Hl as [Hl _]. eapply Forall_impl; [|exact Hl]. cbn. intros; lia.
  - rewrite A, app_length in Ll. lia.
Qed.
Lemma means_ok b : means b (lo_target b).
Proof.
  destruct b as [|c r]; [constructor; intros; discriminate|]. cbn [lo_target].
  destruct ((c =? 35) || (c =? 94) || (c =? 45)) eqn:E.
  - constructor. unfold mark. rewrite !orb_true_iff, !Z.eqb_eq in E. tauto.
  - constructor. intros c' r' X M. injection X as <- <-. unfold mark in M. rewrite !orb_false_iff, !Z.eqb_neq in E. tauto.
Qed.
Lemma target_fine b : cstring b -> (length b <= 100)%nat -> cstring (lo_target b) /\ (length (lo_target b) <= 100)%nat.
Proof. destruct b as [|c r]; intros H L; [auto|]. cbn [lo_target]. destruct (_ || _); auto. inversion H; subst. cbn [length] in L. split; auto. lia. Qed.
Lemma entry_of E dir l : cstring dir -> (length dir <= 94)%nat -> cstring l -> (length l <= 100)%nat -> exists p, whichfile dir l p /\ lo_entry E dir l = Some (lo_stat E p).
Proof.
  intros Hd Ld Hl Ll. unfold lo_entry. destruct (GetFilePart_spec l) as [_ [[A B]|(d & A)]].
  - rewrite B. rewrite (proj2 (streqi_spec l l) eq_refl). rewrite path200_ok by (auto; lia). exists (joinpath dir l). split; [right; auto|reflexivity].
  - destruct (streqi (GetFilePart l) l) eqn:S.
    + apply streqi_spec in S. apply (f_equal (@length Z)) in S. rewrite !map_length in S. rewrite A in S at 2. rewrite !app_length in S. cbn [length] in S. lia.
    + exists l. split; [left; split; auto|reflexivity]. rewrite A. apply in_app_iff. right. left. reflexivity.
Qed.
Lemma u32_add a b : u32 (u32 a + b) = u32 (a + b).
Proof. unfold u32. rewrite Zplus_mod_idemp_l. reflexivity. Qed.
Lemma sums_ok E dir bs : cstring dir -> (length dir <= 94)%nat -> Forall (fun b => cstring b /\ (length b <= 100)%nat /\ b <> []) bs ->
  exists n s, sums (lo_stat E) dir bs n s /\ forall n0 s0, flowsum E dir bs (u32 n0) (u32 s0) = Some (u32 (n0 + n), u32 (s0 + s)).
Proof.
  intros Hd Ld. induction 1 as [|b bs (Hb & Lb & _) _ (n & s & A & B)].
  - exists 0, 0. split; [constructor|]. intros. cbn [flowsum]. rewrite !Z.add_0_r. reflexivity.
  - destruct (target_fine b Hb Lb) as [Ht Lt]. destruct (entry_of E dir (lo_target b) Hd Ld Ht Lt) as (p & W & En).
    destruct (lo_stat E p) as [[size date]|] eqn:Sp.
    + exists (n + 1), (size + s). split; [eapply su_file; eauto; apply means_ok|]. intros. cbn [flowsum]. rewrite En. cbn [obind]. rewrite !u32_add, B. do 2 f_equal; f_equal; lia.
    + exists n, s. split; [eapply su_gone; eauto; apply means_ok|]. intros. cbn [flowsum]. rewrite En. cbn [obind]. apply B.
Qed.

(** ** Printing *)
Lemma lo_unit_mega i : is_u32 i -> lo_unit i = mega i.
Proof. unfold is_u32, lo_unit. intros H. change (u32 (-10000000)) with 4284967296. replace ((i >? 10000000) || (i <? 4284967296)) with true by lia. reflexivity. Qed.
Lemma u32_is z : is_u32 (u32 z).
Proof. unfold is_u32, u32. apply Z.mod_pos_bound. lia. Qed.
Lemma remark_ok b : lo_todo b = remark b.
Proof.
  destruct b as [|c r]; [reflexivity|]. cbn [lo_todo remark].
  destruct (Z.eqb_spec c 35) as [->|N1]; [reflexivity|]. destruct (Z.eqb_spec c 94) as [->|N2]; [reflexivity|]. destruct (Z.eqb_spec c 45) as [->|N3]; [reflexivity|]. cbn [orb].
  destruct c as [|p|p]; try reflexivity. repeat (destruct p as [p|p|]; try reflexivity; try congruence).
Qed.
Lemma contents_ok E dir bs : cstring dir -> (length dir <= 94)%nat -> (forall p size date, lo_stat E p = Some (size, date) -> is_u32 size) ->
  Forall (fun b => cstring b /\ (length b <= 100)%nat /\ b <> []) bs ->
  exists more, omap (contentline E dir) bs = Some more /\ Forall2 (flowline (lo_stat E) dir) bs more.
Proof.
  intros Hd Ld Hs H. apply omap_ok. intros b Hb. rewrite Forall_forall in H. destruct (H b Hb) as (Cb & Lb & _).
  destruct (target_fine b Cb Lb) as [Ht Lt]. destruct (entry_of E dir (lo_target b) Hd Ld Ht Lt) as (p & W & En).
  unfold contentline. rewrite En. cbn [obind]. eexists. split; [reflexivity|]. rewrite padr_column, remark_ok. change pad10 with right10.
  destruct (lo_stat E p) as [[size date]|] eqn:Sp.
  - rewrite lo_unit_mega by (eapply Hs; eauto). eapply fl_file; eauto. apply means_ok.
  - eapply fl_gone; eauto. apply means_ok.
Qed.
Lemma kindname_ok e : good e -> loname (fe_type e) = kindname (kindof (fe_type e) (fe_flow e)).
Proof. intros (k & H). destruct (fe_type e), (fe_flow e); destruct k as [[]|[]|]; try discriminate H; reflexivity. Qed.
Lemma line_ok lt e bf c : good e ->
  padr 8 (loname (fe_type e)) ++ lit " " ++ padr 17 (Print4D (fe_node e)) ++ lit " " ++ padr 16 (PrintDate lt (fe_date e)) ++
        lit " " ++ padl 7 bf ++ lit "   " ++ fe_file e ++ [10] ++ c = itemline lt (toitem e) bf ++ c.
Proof.
  intros G. unfold itemline, line, toitem. cbn [it_kind it_node it_date it_name]. rewrite <- kindname_ok by auto. rewrite !padr_column, padl_right.
  unfold PrintDate, datetext. repeat (rewrite <- !app_assoc; cbn [app]). reflexivity.
Qed.
Section Printing.
  Variables (E : loenv) (out : list Z) (verbose : bool).
  Hypothesis F : fine E out.
  Definition solid (e : fentry) : Prop := good e /\ cstring (fe_file e) /\ (length (fe_file e) <= 90)%nat /\ cstring (fe_dir e) /\ (length (fe_dir e) <= 94)%nat /\ is_u32 (fe_size e).
  Definition plus (t : totals) (c : Z * Z * Z) : totals := TOT (u32 (t_files t + fst (fst c))) (u32 (t_bytes t + snd (fst c))) (u32 (t_reqs t + snd c)).
  Definition t_ok (t : totals) : Prop := is_u32 (t_files t) /\ is_u32 (t_bytes t) /\ is_u32 (t_reqs t).
  Lemma plus_0 t : t_ok t -> plus t (0, 0, 0) = t.
  Proof. clear. destruct t as [a b c]. unfold t_ok, is_u32, plus, u32. cbn [t_files t_bytes t_reqs fst snd]. intros (A & B & C). rewrite !Z.add_0_r, !Z.mod_small by auto. reflexivity. Qed.
  Lemma plus_ok t c : t_ok (plus t c).
  Proof. clear. repeat split; cbn; unfold u32; try apply Z.mod_pos_bound; try lia. Qed.
  Lemma row_ok e t : solid e -> t_ok t -> exists text c, shows E out verbose (toitem e) text c /\ lo_row E out verbose e t = Some (text, plus t c).
  Proof.
    intros (G & Cf & Lf & Cd & Ld & Su) Ht. pose proof F as (Ho & Lo & _ & Hs & Hr).
    assert (P : path200 out (fe_file e) = Some (joinpath out (fe_file e))) by (apply path200_ok; auto; lia).
    assert (Pk : forall f, kindof (fe_type e) (fe_flow e) = Packet f -> exists text c, shows E out verbose (toitem e) text c /\ lo_row E out verbose e t = Some (text, plus t c)).
    { intros f K. assert (fe_flow e = false /\ fe_type e <> TRequest) as [Fl Nr] by (destruct (fe_type e), (fe_flow e); try discriminate K; split; auto; discriminate).
      do 2 eexists. split; [eapply sh_packet; exact K|]. rewrite plus_0 by auto. unfold lo_row, bfcolumn, lo_contents. rewrite Fl.
      destruct (fe_type e) eqn:Et; try congruence; cbn [obind]; destruct verbose; cbn [obind fst snd];
        rewrite <- Et, line_ok, lo_unit_mega by auto; reflexivity. }
    destruct (kindof (fe_type e) (fe_flow e)) as [f|f|] eqn:K; [|apply (Pk f); auto|]; clear Pk.
    - assert (fe_flow e = true /\ fe_type e <> TRequest) as [Fl Nr] by (destruct (fe_type e), (fe_flow e); try discriminate K; split; auto; discriminate).
      destruct (lo_read E (joinpath out (fe_file e))) as [s|] eqn:R.
      + destruct (Hr _ _ R) as (ls & -> & Hls). pose proof (says_ok ls Hls) as Sy. pose proof (lines_fine ls Hls) as Lf'.
        destruct (sums_ok E (fe_dir e) _ Cd Ld Lf') as (n & s & S1 & S2). destruct (contents_ok E (fe_dir e) _ Cd Ld Hs Lf') as (more & M1 & M2).
        do 2 eexists. split; [eapply sh_flow with (n := n) (b := s) (more := more); eauto|].
        unfold lo_row, bfcolumn, lo_contents. rewrite Fl, P. cbn [obind]. rewrite R. specialize (S2 0 0). change (u32 0) with 0 in S2. rewrite !Z.add_0_l in S2. rewrite S2. cbn [obind fst snd]. rewrite M1. cbn [obind].
        destruct (fe_type e) eqn:Et; try congruence; destruct verbose; cbn [obind fst snd]; rewrite <- Et, line_ok, lo_unit_mega by (auto; apply u32_is);
          unfold plus; cbn [fst snd]; destruct Ht as (_ & _ & Ht); do 2 f_equal; f_equal; unfold u32; rewrite ?Zplus_mod_idemp_r, ?Z.add_0_r; try reflexivity; rewrite Z.mod_small by exact Ht; reflexivity.
      + do 2 eexists. split; [eapply sh_unreadable; [cbn; intros; congruence|exact R]|]. rewrite plus_0 by auto.
        unfold lo_row, bfcolumn, lo_contents. rewrite Fl, P. cbn [obind]. rewrite R.
        destruct (fe_type e) eqn:Et; try congruence; destruct verbose; cbn [obind fst snd]; rewrite <- Et, line_ok by auto; reflexivity.
    - assert (Et : fe_type e = TRequest) by (destruct (fe_type e), (fe_flow e); try discriminate K; reflexivity).
      destruct (lo_read E (joinpath out (fe_file e))) as [s|] eqn:R.
      + destruct (Hr _ _ R) as (ls & -> & Hls). pose proof (says_ok ls Hls) as Sy.
        do 2 eexists. split; [eapply sh_requests; eauto|].
        unfold lo_row, bfcolumn, lo_contents. rewrite Et, P. cbn [obind]. rewrite R.
        destruct verbose; cbn [obind fst snd]; rewrite <- Et, line_ok by auto; unfold plus; cbn [fst snd]; destruct Ht as (H1 & H2 & _); do 2 f_equal; f_equal; unfold u32; rewrite ?Z.add_0_r; try reflexivity; symmetry; apply Z.mod_small; auto.
      + do 2 eexists. split; [eapply sh_unreadable; [cbn; intros; congruence|exact R]|]. rewrite plus_0 by auto.
        unfold lo_row, bfcolumn, lo_contents. rewrite Et, P. cbn [obind]. rewrite R.
        destruct verbose; cbn [obind fst snd]; rewrite <- Et, line_ok by auto; reflexivity.
  Qed.
  Lemma rows_ok es : Forall solid es -> forall t, t_ok t ->
    exists rs, Forall2 (fun it r => shows E out verbose it (fst r) (snd r)) (map toitem es) rs /\ lo_rows E out verbose es t = Some (concat (map fst rs), fold_left plus (map snd rs) t).
  Proof.
    induction 1 as [|e es He _ IH]; intros t Ht; [exists []; split; [constructor|reflexivity]|].
    destruct (row_ok e t He Ht) as (text & c & A & B). destruct (IH (plus t c) (plus_ok t c)) as (rs & C & D).
    exists ((text, c) :: rs). split; [constructor; auto|]. cbn [lo_rows]. rewrite B. cbn [obind fst snd]. rewrite D. reflexivity.
  Qed.
  Lemma fold_plus cs : forall t, t_ok t -> fold_left plus cs t =
    TOT (u32 (t_files t + sum (map (fun c => fst (fst c)) cs))) (u32 (t_bytes t + sum (map (fun c => snd (fst c)) cs))) (u32 (t_reqs t + sum (map snd cs))).
  Proof.
    clear. induction cs as [|c cs IH]; intros t Ht; cbn [fold_left map sum fold_right].
    - symmetry. apply (plus_0 t Ht).
    - rewrite IH by apply plus_ok. unfold plus. cbn [t_files t_bytes t_reqs]. rewrite !u32_add. f_equal; f_equal; unfold sum; lia.
  Qed.
End Printing.

(** ** Order *)
Lemma compare_le a b : zone a = zone b -> Compare4D a b <= 0 <-> addr_le a b.
Proof.
  intros Hz. unfold Compare4D, addr_le. rewrite Hz. destruct (negb (zone b =? 0) && negb (zone b =? 0)); rewrite ?Z.gtb_ltb, ?Z.ltb_irrefl;
  repeat match goal with |- context [?x >? ?y] => destruct (Z.gtb_spec x y) | |- context [?x <? ?y] => destruct (Z.ltb_spec x y) end; lia.
Qed.
Lemma addr_le_trans a b c : addr_le a b -> addr_le b c -> addr_le a c.
Proof. unfold addr_le. lia. Qed.
