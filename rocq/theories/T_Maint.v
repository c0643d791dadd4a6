(** C71: CrashMaint maintains the areas that CrashMail reads from the same configuration, with
    their settings. *)
From Verif Require Import Base M_Node4D M_Mem M_Str S_Str P_Str M_Cfg M_Fs M_Args M_Main M_Upd S_Upd M_Maint S_Maint P_Export P_Maint.

(** For every command line that asks for something, every pattern and every configuration that
    CrashMail accepts, in which KEEPNUM and KEEPDAYS are only given for areas that hold
    messages: the areas asked for are processed, each once and in order, with the path, the
    message base, KEEPNUM and KEEPDAYS that CrashMail reads, until one fails or the user breaks
    in. *)
Theorem C71_done : forall W (ctrlc : W -> bool) (process : bool -> list Z -> Z -> Z -> bool -> bool -> W -> bool * W) okother env file argv ds s c areas w e w',
  match argv with x :: _ => helpword x = false | [] => True end ->
  parseargs args_crashmaint argv = Some ds ->
  argd ds MA_MAINT <> None \/ argd ds MA_PACK <> None ->
  file (match argd ds MA_SETTINGS with Some (VWord f) => f | Some _ => [] | None => match env with Some f => f | None => lit "crashmail.prefs" end end) = Some s ->
  Forall (fun c => 0 <= c < 256) s -> ReadConfig okother s = ROk c -> placed okother s -> shortnumbers s ->
  those (asked (match argd ds MA_PATTERN with Some (VWord p) => Some p | Some _ => Some [] | None => None end)) (cf_areas c) areas ->
  crashmaint W ctrlc process env file argv w = (e, w') ->
  eachdone ctrlc (fun a w => process (injam a) (fa_path a) (fa_keepnum a) (fa_keepdays a) (given ds MA_MAINT) (given ds MA_PACK) w) areas w e w'.
Proof.
  intros W ctrlc process okother env file argv ds s c areas w e w' Hh Hp Hact Hf Hb Hc Hpl Hsh Ht H. unfold crashmaint in H.
  replace (match argv with x :: _ => helpword x | [] => false end) with false in H by (destruct argv; auto). rewrite Hp in H. cbv zeta in H.
  replace (negb (given ds MA_MAINT) && negb (given ds MA_PACK)) with false in H by (unfold given; destruct (argd ds MA_MAINT), (argd ds MA_PACK); try reflexivity; destruct Hact; congruence).
  replace (if given ds MA_SETTINGS then word ds MA_SETTINGS else match env with Some e => e | None => CONFIG_NAME end)
    with (match argd ds MA_SETTINGS with Some (VWord f) => f | Some _ => [] | None => match env with Some f => f | None => lit "crashmail.prefs" end end) in H
    by (unfold given, word, CONFIG_NAME; destruct (argd ds MA_SETTINGS) as [[]|]; reflexivity).
  rewrite Hf in H.
  set (pat := match argd ds MA_PATTERN with Some (VWord p) => Some p | Some _ => Some [] | None => None end) in *.
  replace (if given ds MA_PATTERN then Some (word ds MA_PATTERN) else None) with pat in H by (unfold given, word, pat; destruct (argd ds MA_PATTERN) as [[]|]; reflexivity).
  pose proof (mconfig_ok okother s c Hb Hsh Hpl Hc) as Ha.
  pose proof (mloop_done ctrlc process pat (given ds MA_MAINT) (given ds MA_PACK) _ _ Ha _ (those_two _ _ _ Ht) w) as X. rewrite H in X. exact X.
Qed.
Print Assumptions C71_done.

(** Every configuration and pattern determines the areas: there is exactly one such list. *)
Theorem C71_areas : forall pat l, exists m, those (asked pat) l m /\ forall m', those (asked pat) l m' -> m' = m.
Proof.
  intros pat. assert (D : forall a, asked pat a \/ ~ asked pat a).
  { intros a. unfold asked. destruct (holdsb a) eqn:E.
    - apply holdsb_spec in E. destruct pat as [p|]; [|auto]. destruct (M_Str.osMatchPattern p (fa_tag a)) eqn:Em; [apply osMatchPattern_spec in Em; auto|].
      right. intros [_ X]. apply osMatchPattern_spec in X. congruence.
    - right. intros [X _]. apply holdsb_spec in X. congruence. }
  induction l as [|a l (m & Hm & U)].
  - exists []. split; [constructor|]. intros m' H. inversion H. reflexivity.
  - destruct (D a) as [Ha|Ha].
    + exists (a :: m). split; [constructor; assumption|]. intros m' H. inversion H; subst; [f_equal; auto|tauto].
    + exists m. split; [apply those_out; assumption|]. intros m' H. inversion H; subst; [tauto|auto].
Qed.
Print Assumptions C71_areas.

(** When processing an area changes only what is at its path: everything that is not at the
    path of an area asked for stays as it is. *)
Theorem C71_others : forall W S (at_ : W -> list Z -> S) (ctrlc : W -> bool) (process : bool -> list Z -> Z -> Z -> bool -> bool -> W -> bool * W) maint pack areas w e w' q,
  (forall jam p kn kd m k w, q <> p -> at_ (snd (process jam p kn kd m k w)) q = at_ w q) ->
  eachdone ctrlc (fun a w => process (injam a) (fa_path a) (fa_keepnum a) (fa_keepdays a) maint pack w) areas w e w' ->
  ~ In q (map fa_path areas) -> at_ w' q = at_ w q.
Proof.
  intros W S at_ ctrlc process maint pack areas w e w' q Hfr H. induction H as [w|l w Hs|a l w w' e w'' Hs Hw H IH|a l w w' Hs Hw]; intros Hq; try reflexivity.
  - cbn [map] in Hq. rewrite IH by (intros X; apply Hq; right; exact X). change w' with (snd (true, w')). rewrite <- Hw. apply Hfr. intros ->. apply Hq. left. reflexivity.
  - cbn [map] in Hq. change w' with (snd (false, w')). rewrite <- Hw. apply Hfr. intros ->. apply Hq. left. reflexivity.
Qed.
Print Assumptions C71_others.

(** Without MAINT and PACK, with words that are not understood, or without a configuration
    nothing is done. *)
Theorem C71_nothing : forall W (ctrlc : W -> bool) process env file argv w,
  match argv with x :: _ => helpword x = false | [] => True end ->
  (parseargs args_crashmaint argv = None -> crashmaint W ctrlc process env file argv w = (10, w)) /\
  (forall ds, parseargs args_crashmaint argv = Some ds ->
     (argd ds MA_MAINT = None /\ argd ds MA_PACK = None -> crashmaint W ctrlc process env file argv w = (0, w)) /\
     ((argd ds MA_MAINT <> None \/ argd ds MA_PACK <> None) ->
       file (match argd ds MA_SETTINGS with Some (VWord f) => f | Some _ => [] | None => match env with Some f => f | None => lit "crashmail.prefs" end end) = None ->
       crashmaint W ctrlc process env file argv w = (10, w))).
Proof.
  intros W ctrlc process env file argv w Hh. unfold crashmaint. replace (match argv with x :: _ => helpword x | [] => false end) with false by (destruct argv; auto).
  split; [intros ->; reflexivity|]. intros ds ->. cbv zeta. split.
  - intros [H1 H2]. unfold given. rewrite H1, H2. reflexivity.
  - intros Hact Hf.
    replace (negb (given ds MA_MAINT) && negb (given ds MA_PACK)) with false by (unfold given; destruct (argd ds MA_MAINT), (argd ds MA_PACK); try reflexivity; destruct Hact; congruence).
    replace (if given ds MA_SETTINGS then word ds MA_SETTINGS else match env with Some e => e | None => CONFIG_NAME end)
      with (match argd ds MA_SETTINGS with Some (VWord f) => f | Some _ => [] | None => match env with Some f => f | None => lit "crashmail.prefs" end end)
      by (unfold given, word, CONFIG_NAME; destruct (argd ds MA_SETTINGS) as [[]|]; reflexivity).
    rewrite Hf. reflexivity.
Qed.
Print Assumptions C71_nothing.

(** ** Examples *)
Definition anyother : list (list Z) -> list node4d -> list (list Z) -> list node4d -> list Z -> bool := fun _ _ _ _ _ => true.
Definition nl := [10].
Definition sample : list Z :=
  lit "AKA 2:5/6" ++ nl ++ lit "NETMAIL NET 2:5/6 MSG /n" ++ nl ++ lit "KEEPDAYS 30" ++ nl ++
  lit "AREA A.B 2:5/6 JAM /a" ++ nl ++ lit "KEEPNUM 500" ++ nl ++ lit "AREA PASS 2:5/6" ++ nl ++ lit "AREA DEFAULT 2:5/6 JAM /x" ++ nl ++
  lit "LOCALAREA A.C 2:5/6 msg /c" ++ nl ++ lit "KEEPNUM 7" ++ nl.
(** the state: what has been done; an area with the path /f fails *)
Definition log := list (bool * list Z * Z * Z * bool * bool).
Definition logged (jam : bool) (p : list Z) (kn kd : Z) (m k : bool) (w : log) : bool * log := (negb (streq p (lit "/f")), w ++ [(jam, p, kn, kd, m, k)]).
Definition never (w : log) : bool := false.
Definition only (f s : list Z) : list Z -> option (list Z) := fun g => if streq f g then Some s else None.
Definition run (s : list Z) (argv : list String.string) : Z * log := crashmaint log never logged None (only (lit "c") s) (map lit argv) [].
Example C71_nonvacuous :
  run sample ["MAINT"; "SETTINGS"; "c"]%string = (0, [(false, lit "/n", 0, 30, true, false); (true, lit "/a", 500, 0, true, false); (false, lit "/c", 7, 0, true, false)]) /\
  run sample ["PACK"; "MAINT"; "SETTINGS"; "c"; "PATTERN"; "a.*"]%string = (0, [(true, lit "/a", 500, 0, true, true); (false, lit "/c", 7, 0, true, true)]) /\
  (exists c, ReadConfig anyother sample = ROk c /\ length (cf_areas c) = 5%nat) /\ shortnumbers sample /\ placed anyother sample.
Proof.
  split; [vm_compute; reflexivity|]. split; [vm_compute; reflexivity|]. split; [eexists; vm_compute; split; reflexivity|].
  assert (B : forall P : list (list Z) -> list Z -> Prop,
    (forall i, (i < length (flines sample))%nat -> P (firstn i (flines sample)) (nth i (flines sample) [])) -> forall before l after, flines sample = before ++ l :: after -> P before l).
  { intros P HP before l after E. specialize (HP (length before)). rewrite E in HP. rewrite firstn_app, Nat.sub_diag, firstn_all, app_nil_r, app_nth2, Nat.sub_diag in HP by lia. apply HP. rewrite app_length. cbn. lia. }
  assert (L : length (flines sample) = 9%nat) by (vm_compute; reflexivity).
  split.
  - intros l Hin Hk. apply in_split in Hin as (b & a & E). revert Hk. refine (B (fun _ l => keepline l -> (length (argument l) <= 29)%nat) _ b l a E). intros i Hi _. rewrite L in Hi.
    do 9 (destruct i as [|i]; [apply Nat.leb_le; vm_compute; reflexivity|]). lia.
  - intros b l a c E Hk Hr. revert Hk Hr. refine (B (fun b l => keepline l -> rdlines anyother b (FC [] [] [] [] []) = ROk c -> exists areas x, cf_areas c = areas ++ [x] /\ holds x) _ b l a E). intros i Hi. rewrite L in Hi.
    assert (X : forall c areas, rdlines anyother (firstn i (flines sample)) (FC [] [] [] [] []) = ROk c -> cf_areas c = areas ->
      (match rev areas with x :: _ => holdsb x | [] => false end) = true -> exists areas x, cf_areas c = areas ++ [x] /\ holds x).
    { intros c0 areas _ <- Hx. destruct (rev (cf_areas c0)) as [|x r] eqn:Er; [discriminate|]. exists (rev r), x. split; [rewrite <- (rev_involutive (cf_areas c0)), Er; reflexivity|apply holdsb_spec; exact Hx]. }
    intros Hk Hr. eapply X; [exact Hr|reflexivity|]. clear X. revert Hr. 
    do 9 (destruct i as [|i]; [first [exfalso; destruct Hk as [Hk|Hk]; vm_compute in Hk; discriminate|intros Hr; vm_compute in Hr; injection Hr as <-; vm_compute; reflexivity]|]). lia.
Qed.

(** KEEPNUM for an area that is only passed through goes to the area in front of it: the
    messages there are deleted *)
Definition passed : list Z :=
  lit "AKA 2:5/6" ++ nl ++ lit "AREA A.B 2:5/6 MSG /a" ++ nl ++ lit "AREA PASS 2:5/6" ++ nl ++ lit "KEEPNUM 1" ++ nl.
Theorem C71_keep_refuted : exists c, ReadConfig anyother passed = ROk c /\ map (fun a => (fa_path a, fa_keepnum a)) (cf_areas c) = [(lit "/a", 0); ([], 1)] /\
  run passed ["MAINT"; "SETTINGS"; "c"]%string = (0, [(false, lit "/a", 1, 0, true, false)]).
Proof. eexists. vm_compute. repeat split; reflexivity. Qed.
Print Assumptions C71_keep_refuted.
(** the same for the settings of an area that is a template *)
Definition templ : list Z :=
  lit "AKA 2:5/6" ++ nl ++ lit "AREA A.B 2:5/6 MSG /a" ++ nl ++ lit "KEEPDAYS 100" ++ nl ++ lit "AREA DEFAULT 2:5/6 MSG /d" ++ nl ++ lit "KEEPDAYS 2" ++ nl.
Theorem C71_template_refuted : exists c, ReadConfig anyother templ = ROk c /\ map (fun a => (fa_path a, fa_keepdays a)) (cf_areas c) = [(lit "/a", 100); (lit "/d", 2)] /\
  run templ ["MAINT"; "SETTINGS"; "c"]%string = (0, [(false, lit "/a", 0, 2, true, false)]).
Proof. eexists. vm_compute. repeat split; reflexivity. Qed.
Print Assumptions C71_template_refuted.
(** a netmail area with such a name is an area like others for CrashMail, and never maintained *)
Definition named : list Z := lit "AKA 2:5/6" ++ nl ++ lit "NETMAIL DEFAULT_NET 2:5/6 MSG /n" ++ nl ++ lit "KEEPNUM 9" ++ nl.
Theorem C71_name_refuted : exists c, ReadConfig anyother named = ROk c /\ map (fun a => (fa_type a, fa_path a, fa_keepnum a)) (cf_areas c) = [(AREATYPE_NETMAIL, lit "/n", 9)] /\
  run named ["MAINT"; "SETTINGS"; "c"]%string = (0, []).
Proof. eexists. vm_compute. repeat split; reflexivity. Qed.
Print Assumptions C71_name_refuted.
(** one area that fails keeps the others from being maintained *)
Definition failing : list Z := lit "AKA 2:5/6" ++ nl ++ lit "AREA A 2:5/6 MSG /f" ++ nl ++ lit "AREA B 2:5/6 MSG /b" ++ nl.
Theorem C71_failed_refuted : run failing ["PACK"; "SETTINGS"; "c"]%string = (10, [(false, lit "/f", 0, 0, false, true)]).
Proof. vm_compute. reflexivity. Qed.
Print Assumptions C71_failed_refuted.
