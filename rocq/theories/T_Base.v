(** C60: the message bases in JAM format that a run opens. *)
From Coq Require Import Permutation.
From Verif Require Import Base M_Fs M_Jam M_Base S_Base P_Fs P_Base.

(** In every run, whatever areas are asked for in which order and whatever the system does:
    no more than MAXOPEN bases are open at a time, a base is handed out only while it is open
    and only for the area it was opened for, no base is closed twice, all are closed at the
    end, and a base that was closed never comes back. *)
Theorem C60_orderly : forall path n fs cs,
  Z.of_nat (length cs) < 4294967295 ->
  let t := b_log (fst (jam_run path n fs cs)) in
  orderly (places n) [] t /\ NoDup (opened t).
Proof.
  intros path n fs cs H. destruct (start n fs) as [T0 S0].
  pose proof (calls path (places n) (places_pos n) cs (jam_before n fs) [] T0 S0 eq_refl ltac:(cbn [b_last jam_before]; lia)) as C.
  unfold jam_run. destruct (jam_calls path cs (jam_before n fs)) as [st hs]. destruct C as (_ & t & Log & _ & _ & (L & T & S1 & So) & Nd & _).
  cbn [fst jam_after b_log]. change (b_log (jam_before n fs)) with (@nil ev) in Log. cbn [app] in Log. rewrite Log. split.
  - apply So; [|reflexivity]. intros o Ho. apply orderly_closeall.
    + rewrite Ho. rewrite map_map. apply Permutation_map. symmetry. apply T.
    + eapply Permutation_NoDup; [apply Permutation_map; symmetry; apply T|]. destruct S1 as [_ _ B _]. rewrite map_map in B. exact B.
  - assert (App : forall x y, opened (x ++ y) = opened x ++ opened y) by (intros x y; induction x as [|[| |] x IHx]; cbn; auto; f_equal; exact IHx).
    rewrite App. replace (opened (map _ _)) with (@nil Z); [rewrite app_nil_r; exact Nd|].
    induction (filter _ (b_slots st)); cbn; auto.
Qed.

(** When all places are taken it is always the base that was not used for the longest time
    that is closed: what happens is what happens with a store of that kind. *)
Theorem C60_lru : forall path n fs cs,
  Z.of_nat (length cs) < 4294967295 ->
  let '(st, hs) := jam_calls path cs (jam_before n fs) in
  let answers := combine (map snd cs) hs in
  length hs = length cs /\
  b_log st = lrulog (places n) answers 1 [] /\
  given (b_log st) = flat_map (fun r => match snd r with Some h => [(fst r, h)] | None => [] end) answers.
Proof.
  intros path n fs cs H. destruct (start n fs) as [T0 S0].
  pose proof (calls path (places n) (places_pos n) cs (jam_before n fs) [] T0 S0 eq_refl ltac:(cbn [b_last jam_before]; lia)) as C.
  destruct (jam_calls path cs (jam_before n fs)) as [st hs]. destruct C as (Hl & t & Log & Et & Gt & _).
  change (b_log (jam_before n fs)) with (@nil ev) in Log. cbn [app] in Log. rewrite Log. split; [exact Hl|]. split; [exact Et|exact Gt].
Qed.

(** An area that was opened is not opened again as long as, since it was last asked for, fewer
    than MAXOPEN other areas were asked for: the same base is handed out. *)
Theorem C60_recent : forall path n fs before i a between i' h,
  let cs := before ++ (i, a) :: between ++ [(i', a)] in
  let answers := snd (jam_run path n fs cs) in
  Z.of_nat (length cs) < 4294967295 ->
  (length (nodup Z.eq_dec (remove Z.eq_dec a (map snd between))) < places n)%nat ->
  nth (length before) answers None = Some h ->
  nth (length before + S (length between)) answers None = Some h.
Proof.
  intros path n fs cs1 i a cs2 i' h cs answers Hlen Hd. subst cs answers.
  rewrite app_length in Hlen. cbn [length] in Hlen. rewrite app_length in Hlen. cbn [length] in Hlen.
  set (S := nodup Z.eq_dec (remove Z.eq_dec a (map snd cs2))) in *.
  destruct (start n fs) as [T0 S0]. pose proof (places_pos n) as Pm.
  pose proof (calls path (places n) Pm cs1 (jam_before n fs) [] T0 S0 eq_refl ltac:(cbn [b_last jam_before]; lia)) as C1.
  pose proof (calls path (places n) Pm (cs1 ++ [(i, a)]) (jam_before n fs) [] T0 S0 eq_refl ltac:(cbn [b_last jam_before]; rewrite app_length; cbn [length]; lia)) as C2.
  unfold jam_run.
  replace (cs1 ++ (i, a) :: cs2 ++ [(i', a)]) with ((cs1 ++ [(i, a)]) ++ cs2 ++ [(i', a)]) by (rewrite <- app_assoc; reflexivity).
  rewrite calls_app. destruct (jam_calls path (cs1 ++ [(i, a)]) (jam_before n fs)) as [st2 hs2] eqn:E2.
  rewrite calls_app in E2. destruct (jam_calls path cs1 (jam_before n fs)) as [st1 hs1] eqn:E1. cbn [jam_calls] in E2.
  destruct C1 as (L1n & t1 & _ & _ & _ & (L1 & T1 & S1 & _) & _). destruct C2 as (L2n & t2 & _ & _ & _ & (L2 & T2 & S2 & _) & _).
  assert (Bl : forall cs st L, tbl (places n) (b_slots st) (b_last st) L -> store (places n) (b_next st) (map mini L) -> 0 < b_last st -> b_last st + Z.of_nat (length cs) <= 4294967295 ->
     0 < b_last (fst (jam_calls path cs st)) <= b_last st + Z.of_nat (length cs)).
  { clear - Pm. induction cs as [|[j b] cs IH]; intros st L Ht Hc Hl Hb; cbn [jam_calls length] in *; [cbn; lia|].
    pose proof (step path (places n) Pm j st b L Ht ltac:(lia)) as Q1. destruct (jam_openbase path j st b) as [st1 r] eqn:E1.
    pose proof (lru_orderly (places n) b (some r) (b_next st) (map mini L) Pm Hc) as Q2. unfold some in Q2.
    destruct (lru (places n) b _ (b_next st) (map mini L)) as [c1 t1] eqn:El.
    destruct Q1 as (L1 & T1 & M1 & Log1 & Last1 & Next1 & R1 & F1). destruct Q2 as (Sc1 & _ & _). subst c1. rewrite <- Next1 in Sc1.
    specialize (IH st1 L1 T1 Sc1 ltac:(lia) ltac:(lia)). destruct (jam_calls path cs st1). cbn [fst] in *. lia. }
  pose proof (Bl cs1 (jam_before n fs) [] T0 S0 eq_refl ltac:(cbn [b_last jam_before]; lia)) as B1. rewrite E1 in B1. cbn [fst] in B1. change (b_last (jam_before n fs)) with 1 in B1.
  pose proof (step path (places n) Pm i st1 a L1 T1 ltac:(lia)) as Q1. destruct (jam_openbase path i st1 a) as [st2' r] eqn:Eo. injection E2 as -> <-.
  rewrite app_length in L2n. cbn in L2n.
  destruct (lru (places n) a _ (b_next st1) (map mini L1)) as [c1 u1] eqn:El.
  destruct Q1 as (L2' & T2' & M2 & _ & Last2 & Next2 & R2 & _). subst c1.
  destruct (jam_calls path (cs2 ++ [(i', a)]) st2) as [st3 hs3] eqn:E3.
  cbn [snd fst jam_after]. intros Hh.
  rewrite <- app_assoc in Hh. rewrite app_nth2 in Hh by lia. rewrite L1n, Nat.sub_diag in Hh. cbn [app nth] in Hh. destruct r as [r|]; [|discriminate]. injection Hh as ->.
  rewrite app_nth2 by (rewrite app_length; cbn; lia). replace (length cs1 + Datatypes.S (length cs2) - length (hs1 ++ [Some h]))%nat with (length cs2) by (rewrite app_length; cbn; lia).
  assert (K : kept a h S (map mini L2')).
  { unfold lru in El. destruct (hasbase a (map mini L1)) as [k|].
    - injection R2 as <-. injection El as El _. rewrite <- El. exists [], (without a (map mini L1)). cbn. repeat split; auto. intros x [].
    - destruct (fst (openfiles i (b_files st1) (path a))); [|discriminate]. injection R2 as ->.
      destruct (Nat.ltb (length (map mini L1)) (places n)); injection El as El _; rewrite <- El; eexists [], _; (split; [reflexivity|]); cbn; split; auto; intros x []. }
  assert (St2 : store (places n) (b_next st2) (map mini L2')).
  { pose proof (lru_orderly (places n) a true (b_next st1) (map mini L1) Pm S1) as Q2. rewrite El in Q2. cbv zeta in Q2. rewrite <- Next2 in Q2. apply Q2. }
  pose proof (kept_calls path (places n) a h S cs2 Pm Hd (NoDup_nodup _ _)) as KC.
  specialize (KC ltac:(intros x Hx; destruct (Z.eq_dec x a) as [ -> |Hne]; [left; reflexivity|right; apply nodup_In; apply in_in_remove; auto]) st2 L2' T2' St2 ltac:(lia) ltac:(lia) K).
  pose proof (calls path (places n) Pm cs2 st2 L2' T2' St2 ltac:(lia) ltac:(lia)) as C3.
  rewrite calls_app in E3. destruct (jam_calls path cs2 st2) as [st4 hs4]. destruct C3 as (L3n & _). cbn [fst] in KC. destruct KC as (L4 & T4 & La4 & La4p & K4).
  cbn [jam_calls] in E3. pose proof (step path (places n) Pm i' st4 a L4 T4 ltac:(lia)) as Q4. destruct (jam_openbase path i' st4 a) as [st5 r5].
  injection E3 as <- <-. rewrite app_nth2 by lia. rewrite L3n, Nat.sub_diag. cbn [nth].
  destruct (lru (places n) a _ (b_next st4) (map mini L4)) as [c5 u5]. destruct Q4 as (_ & _ & _ & _ & _ & _ & R5 & _).
  rewrite (kept_has _ _ _ _ K4) in R5. exact R5.
Qed.

Lemma new_true i es : forall fs p, (forall f, o_new i f = true) -> fst (jam_Open_new i es fs p) = true.
Proof. induction es as [|e es IH]; intros fs p H; cbn [jam_Open_new]; [reflexivity|]. rewrite H. apply IH, H. Qed.
Lemma openfiles_true i fs p : (forall f, o_new i f = true) -> o_lock i = true -> fst (openfiles i fs p) = true.
Proof.
  intros H L. unfold openfiles. destruct (jam_Open_old i fs p); [reflexivity|]. unfold CreateMB. pose proof (new_true i exts fs p H) as N.
  destruct (jam_Open_new i exts fs p) as [ok fs1]. cbn in N. subst ok. rewrite L. reflexivity.
Qed.
(** Where files can be made, every request is answered with a base. *)
Theorem C60_served : forall path n fs cs,
  (forall i a, In (i, a) cs -> (forall f, o_new i f = true) /\ o_lock i = true) ->
  Forall (fun r => r <> None) (snd (jam_run path n fs cs)).
Proof.
  intros path n fs cs. unfold jam_run. generalize (jam_before n fs). induction cs as [|[i a] cs IH]; intros st H; cbn [jam_calls]; [constructor|].
  specialize (fun st => IH st (fun i a Hi => H i a (or_intror Hi))).
  destruct (jam_openbase path i st a) as [st1 r] eqn:E. specialize (IH st1). destruct (jam_calls path cs st1) as [st2 hs]. cbn [snd] in *. constructor; [|exact IH].
  destruct (H i a (or_introl eq_refl)) as [H1 H2]. pose proof (openfiles_true i (b_files st) (path a) H1 H2) as O. clear - E O. unfold jam_openbase in E.
  destruct (findslot _ (b_slots st) 0); [injection E as _ <-; discriminate|].
  destruct (findslot (fun s => s_use s =? 0) (b_slots st) 0); destruct (openfiles i (b_files st) (path a)) as [ok fs1]; cbn in O; subst ok; injection E as _ <-; discriminate.
Qed.

Lemma openbase_files path i st a : b_files (fst (jam_openbase path i st a)) = b_files st \/ b_files (fst (jam_openbase path i st a)) = snd (openfiles i (b_files st) (path a)).
Proof.
  unfold jam_openbase. destruct (findslot _ (b_slots st) 0); [left; reflexivity|]. right.
  destruct (findslot (fun s => s_use s =? 0) (b_slots st) 0); destruct (openfiles i (b_files st) (path a)) as [[|] fs1]; reflexivity.
Qed.
Lemma findslot_no a l : forall c, Forall (fun s => s_area s <> a) l -> findslot (fun s => (s_area s =? a) && negb (s_use s =? 0)) l c = None.
Proof. induction l as [|s l IH]; intros c H; inversion H; subst; cbn; auto. destruct (Z.eqb_spec (s_area s) a); [contradiction|]. cbn. auto. Qed.
Lemma openbase_first path i st a : Forall (fun s => s_area s <> a) (b_slots st) ->
  b_files (fst (jam_openbase path i st a)) = snd (openfiles i (b_files st) (path a)) /\
  snd (jam_openbase path i st a) = if fst (openfiles i (b_files st) (path a)) then Some (b_next st) else None.
Proof.
  intros H. unfold jam_openbase. rewrite findslot_no by exact H.
  destruct (findslot (fun s => s_use s =? 0) (b_slots st) 0); destruct (openfiles i (b_files st) (path a)) as [[|] fs1]; split; reflexivity.
Qed.
Lemma old_true i fs p j : base_at fs p = Some j -> (forall f, basefile p f -> o_old i f = true) -> jam_Open_old i fs p = true.
Proof.
  intros H O. unfold jam_Open_old. apply forallb_forall. intros e He. rewrite O by (exists e; auto). rewrite andb_true_r. unfold osExists.
  unfold base_at in H. cbn [exts In] in He.
  destruct (fget fs (p ++ lit ".jhr")) eqn:E1; [|discriminate]. destruct (fget fs (p ++ lit ".jdt")) eqn:E2; [|discriminate].
  destruct (fget fs (p ++ lit ".jdx")) eqn:E3; [|discriminate]. destruct (fget fs (p ++ lit ".jlr")) eqn:E4; [|discriminate].
  destruct He as [<-|[<-|[<-|[<-|[]]]]]; rewrite ?E1, ?E2, ?E3, ?E4; reflexivity.
Qed.

(** A base whose four files are there and can be opened is opened as it is. *)
Theorem C60_keep : forall path i st a j,
  base_at (b_files st) (path a) = Some j ->
  (forall f, basefile (path a) f -> o_old i f = true) ->
  snd (jam_openbase path i st a) <> None /\ b_files (fst (jam_openbase path i st a)) = b_files st.
Proof.
  intros path i st a j Hb Ho. pose proof (old_true i _ _ j Hb Ho) as O. split.
  - unfold jam_openbase, openfiles. rewrite O. destruct (findslot _ (b_slots st) 0); [discriminate|].
    destruct (findslot (fun s => s_use s =? 0) (b_slots st) 0); discriminate.
  - destruct (openbase_files path i st a) as [H|H]; rewrite H; auto. unfold openfiles. rewrite O. reflexivity.
Qed.

Lemma new_other i es : forall fs p f, ~ (exists e, In e es /\ f = p ++ e) -> fget (snd (jam_Open_new i es fs p)) f = fget fs f.
Proof.
  induction es as [|e es IH]; intros fs p f H; cbn [jam_Open_new]; [reflexivity|]. destruct (o_new i (p ++ e)); [|reflexivity].
  rewrite IH by (intros (x & Hx & ->); apply H; exists x; cbn; auto). apply fget_put_other. intros <-. apply H. exists e. cbn. auto.
Qed.
(** No other file is touched, whatever the system does. *)
Theorem C60_untouched : forall path i st a f,
  ~ basefile (path a) f -> fget (b_files (fst (jam_openbase path i st a))) f = fget (b_files st) f.
Proof.
  intros path i st a f H. destruct (openbase_files path i st a) as [E|E]; rewrite E; auto. unfold openfiles.
  destruct (jam_Open_old i (b_files st) (path a)); [reflexivity|]. unfold CreateMB. pose proof (new_other i exts (b_files st) (path a) f H) as N.
  destruct (jam_Open_new i exts (b_files st) (path a)) as [ok fs1]. cbn [snd] in N. destruct ok; [|exact N]. destruct (o_lock i); [|exact N]. cbn [snd].
  rewrite fget_put_other; [exact N|]. intros <-. apply H. exists (lit ".jhr"). split; [cbn; auto|reflexivity].
Qed.

Lemma ext_neq p (e e' : list Z) : e <> e' -> p ++ e <> p ++ e'.
Proof. intros H E. apply app_inv_head in E. auto. Qed.
(** A base of which a file is missing or cannot be opened becomes, if files can be made, a new
    base without messages whose first message will have the number 1. *)
Theorem C60_new : forall path i st a,
  Forall (fun s => s_area s <> a) (b_slots st) ->
  (exists f, basefile (path a) f /\ (fget (b_files st) f = None \/ o_old i f = false)) ->
  (forall f, o_new i f = true) -> o_lock i = true ->
  exists j, base_at (b_files (fst (jam_openbase path i st a))) (path a) = Some j /\
    JAM_GetMBSize j = 0 /\ j_txt j = [] /\ j_lrd j = [] /\ exists b, JAM_ReadMBHeader j = Good b /\ b_num b = 1 /\ b_active b = 0.
Proof.
  intros path i st a Hs (f & (e & He & ->) & Hf) Hn Hl. destruct (openbase_first path i st a Hs) as [E _]. rewrite E. clear E Hs.
  set (fs := b_files st) in *. set (p := path a) in *. unfold openfiles.
  assert (O : jam_Open_old i fs p = false).
  { unfold jam_Open_old. apply not_true_is_false. intros O. rewrite forallb_forall in O. specialize (O e He). apply andb_prop in O. destruct O as [O1 O2].
    unfold osExists in O1. destruct Hf as [Hf|Hf]; [rewrite Hf in O1; discriminate|congruence]. }
  rewrite O. unfold CreateMB. cbn [jam_Open_new exts]. rewrite !Hn, Hl. cbn [snd].
  exists (JAM_CreateMB (o_now i) 1). unfold base_at.
  assert (D : forall x y : list Z, x <> y -> p ++ x <> p ++ y) by (intros; apply ext_neq; auto).
  rewrite fget_put_same.
  do 3 (rewrite !fget_put_other by (apply D; vm_compute; discriminate); rewrite fget_put_same).
  split; [|split; [|split; [|split]]]; try reflexivity.
  exists (getbase (j_hdr (JAM_CreateMB (o_now i) 1))).
  assert (R : freadat 0 1024 (j_hdr (JAM_CreateMB (o_now i) 1)) = Some (j_hdr (JAM_CreateMB (o_now i) 1))) by (unfold JAM_CreateMB; cbn; reflexivity).
  unfold JAM_ReadMBHeader. rewrite R. split; [reflexivity|]. split; reflexivity.
Qed.

(** Finding: "cannot be opened" includes the file with the lastread records alone. When it is
    missing, opening the area for the next message destroys all messages in the area. *)
Definition AREA : list Z := lit "area".
Definition fullbase : list (list Z * list Z) :=
  [(AREA ++ lit ".jhr", j_hdr (JAM_CreateMB 0 7) ++ [1]); (AREA ++ lit ".jdt", lit "The text"); (AREA ++ lit ".jdx", repeat 0 8); (AREA ++ lit ".jlr", [])].
Definition allok : oin := OIN (fun _ => true) (fun _ => true) true 1000.
Theorem C60_wiped_refuted : exists fs i,
  (forall f, o_old i f = true) /\ (forall f, o_new i f = true) /\ o_lock i = true /\
  fget fs (AREA ++ lit ".jdt") = Some (lit "The text") /\ fget fs (AREA ++ lit ".jdx") = Some (repeat 0 8) /\
  snd (jam_openbase (fun _ => AREA) i (jam_before 0 fs) 1) = Some 1 /\
  fget (b_files (fst (jam_openbase (fun _ => AREA) i (jam_before 0 fs) 1))) (AREA ++ lit ".jdt") = Some [] /\
  fget (b_files (fst (jam_openbase (fun _ => AREA) i (jam_before 0 fs) 1))) (AREA ++ lit ".jdx") = Some [].
Proof. exists (firstn 3 fullbase), allok. repeat split. Qed.

(** Finding: the same happens to a complete base when the system has no file left to open (a
    MAXOPEN for which four files per base are more than a process may open). The first three
    files can be opened, the fourth cannot; the base is made anew and the first three files are
    emptied before that fails too. *)
Definition threefiles : oin := OIN (fun f => negb (streq f (AREA ++ lit ".jlr"))) (fun f => negb (streq f (AREA ++ lit ".jlr"))) true 1000.
Theorem C60_limit_refuted : exists fs i j,
  base_at fs AREA = Some j /\ JAM_GetMBSize j = 1 /\ j_txt j = lit "The text" /\
  snd (jam_openbase (fun _ => AREA) i (jam_before 0 fs) 1) = None /\
  exists j', base_at (b_files (fst (jam_openbase (fun _ => AREA) i (jam_before 0 fs) 1))) AREA = Some j' /\
    JAM_GetMBSize j' = 0 /\ j_txt j' = [] /\ j_hdr j' = [].
Proof.
  exists fullbase, threefiles, (JAM (j_hdr (JAM_CreateMB 0 7) ++ [1]) (lit "The text") (repeat 0 8) []).
  split; [reflexivity|]. split; [reflexivity|]. split; [reflexivity|]. split; [reflexivity|]. exists (JAM [] [] [] []). repeat split.
Qed.

(** Two places, three areas: area 1 is asked for again before area 2, so area 2 is closed
    when area 3 is opened, and area 1 is still the same base. *)
Definition npath (a : Z) : list Z := dec a.
Example C60_nonvacuous :
  let cs := [(allok, 1); (allok, 2); (allok, 1); (allok, 3); (allok, 1); (allok, 2)] in
  let r := jam_run npath 2 [] cs in
  snd r = [Some 1; Some 2; Some 1; Some 3; Some 1; Some 4] /\
  b_log (fst r) = [EOpen 1 1; EGive 1 1; EOpen 2 2; EGive 2 2; EGive 1 1; EClose 2; EOpen 3 3; EGive 3 3; EGive 1 1; EClose 3; EOpen 4 2; EGive 4 2; EClose 1; EClose 4] /\
  base_at (b_files (fst r)) (npath 3) <> None /\
  base_at fullbase AREA <> None /\ (forall f, basefile AREA f -> o_old allok f = true) /\
  (exists f, basefile AREA f /\ fget (firstn 3 fullbase) f = None) /\
  ~ basefile AREA (lit "area.cmhw") /\
  Nat.lt (length (nodup Z.eq_dec (remove Z.eq_dec 1 (map snd [(allok, 2); (allok, 1)])))) (places 2).
Proof.
  split; [reflexivity|]. split; [reflexivity|]. split; [discriminate|]. split; [discriminate|]. split; [reflexivity|].
  split; [exists (AREA ++ lit ".jlr"); split; [exists (lit ".jlr"); split; [do 3 right; left; reflexivity|reflexivity]|reflexivity]|]. split; [|cbn; lia].
  intros (e & He & E). cbn in He. destruct He as [<-|[<-|[<-|[<-|[]]]]]; discriminate E.
Qed.

Print Assumptions C60_orderly.
Print Assumptions C60_lru.
Print Assumptions C60_recent.
Print Assumptions C60_served.
Print Assumptions C60_keep.
Print Assumptions C60_untouched.
Print Assumptions C60_new.
Print Assumptions C60_wiped_refuted.
Print Assumptions C60_limit_refuted.
