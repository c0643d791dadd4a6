(** C64: CrashExport lists the areas that CrashMail reads from the same configuration. *)
From Verif Require Import Base M_Node4D M_Mem M_Str M_Cfg M_Fs P_Fs P_Str M_Args M_Main M_Upd S_Upd P_UpdCls M_Export S_Export P_Export.

Lemma format_of w f : formatword w f -> xformatof w = Some f.
Proof.
  unfold xformatof. intros H. destruct H as [w H|w H|w H|w H|w H]; fold (kw w "areasbbs") (kw w "forward") (kw w "forwardnodesc") (kw w "golded") (kw w "timed") in H; rewrite ?(kw_kw _ _ _ H); reflexivity.
Qed.
Lemma format_none w : (forall f, ~ formatword w f) -> xformatof w = None.
Proof.
  intros H. unfold xformatof. destruct (kw w "areasbbs") eqn:E1; [exfalso; exact (H _ (fw_bbs _ E1))|]. destruct (kw w "forward") eqn:E2; [exfalso; exact (H _ (fw_forward _ E2))|].
  destruct (kw w "forwardnodesc") eqn:E3; [exfalso; exact (H _ (fw_nodesc _ E3))|]. destruct (kw w "golded") eqn:E4; [exfalso; exact (H _ (fw_golded _ E4))|]. destruct (kw w "timed") eqn:E5; [exfalso; exact (H _ (fw_timed _ E5))|]. reflexivity.
Qed.
(** For every configuration that CrashMail accepts, with at most 41 nodes for an area and at
    most one sign in front of an address: the new file has one line for every area that the
    format and the groups ask for, in order, made from the values CrashMail read; no other file
    changes. *)
Theorem C64_listed : forall okother time argv ds f fs s c pf out w,
  match argv with w :: _ => helpword w = false | [] => True end ->
  parseargs args_crashexport argv = Some ds ->
  argd ds CE_PREFSFILE = Some (VWord pf) -> argd ds CE_OUTFILE = Some (VWord out) -> argd ds CE_FORMAT = Some (VWord w) -> formatword w f ->
  fget fs pf = Some s -> octets s -> ReadConfig okother s = ROk c -> onesigns s -> fewlinks c -> out <> pf ->
  exists t fs', crashexport time true argv fs = Some (0, fs') /\ fget fs' out = Some t /\ (forall n, n <> out -> fget fs' n = fget fs n) /\
    exported time f (match argd ds CE_GROUP with Some (VWord g) => Some g | Some _ => Some [] | None => None end) c t.
Proof.
  intros okother time argv ds f fs s c pf out w Hh Hp Hpf Hout Hw Hf Hs Ho Hc Hone Hfew Hne. unfold crashexport.
  replace (match argv with w :: _ => helpword w | [] => false end) with false by (destruct argv; auto). rewrite Hp. unfold word. rewrite Hw, Hpf, Hout, (format_of _ _ Hf), Hs.
  destruct (streq pf out) eqn:E; [apply streq_eq in E; congruence|].
  set (g := match argd ds CE_GROUP with Some (VWord g) => Some g | Some _ => Some [] | None => None end).
  assert (Eg : (if given ds CE_GROUP then Some (match argd ds CE_GROUP with Some (VWord w0) => w0 | _ => [] end) else None) = g) by (unfold given, g; destruct (argd ds CE_GROUP) as [[]|]; reflexivity).
  rewrite Eg. destruct (xtext_ok okother time f g s c Ho Hc Hone Hfew) as (t & Et & Hx). rewrite Et. cbn [obind]. exists t, (fput fs out t). split; [reflexivity|]. split; [apply fget_put_same|]. split; [|exact Hx].
  intros n Hn. apply fget_put_other. congruence.
Qed.
Print Assumptions C64_listed.

(** When a word is missing or too many, the format is unknown, the configuration is not there
    or the file cannot be created: the exit code says so and no file changes. *)
Theorem C64_refused : forall time create argv fs,
  match argv with w :: _ => helpword w = false | [] => True end ->
  parseargs args_crashexport argv = None \/
  (exists ds, parseargs args_crashexport argv = Some ds /\
     ((forall f, ~ formatword (word ds CE_FORMAT) f) \/ fget fs (word ds CE_PREFSFILE) = None \/ create = false)) ->
  crashexport time create argv fs = Some (10, fs).
Proof.
  intros time create argv fs Hh H. unfold crashexport. replace (match argv with w :: _ => helpword w | [] => false end) with false by (destruct argv; auto).
  destruct H as [->|(ds & -> & H)]; [reflexivity|]. destruct (xformatof (word ds CE_FORMAT)) as [f|] eqn:E; [|reflexivity].
  destruct H as [H|[H|H]].
  - rewrite (format_none _ H) in E. discriminate.
  - rewrite H. reflexivity.
  - rewrite H. destruct (fget fs (word ds CE_PREFSFILE)); reflexivity.
Qed.
Print Assumptions C64_refused.

Definition anyother : list (list Z) -> list node4d -> list (list Z) -> list node4d -> list Z -> bool := fun _ _ _ _ _ => true.
Definition nl := [10].
Definition q (s : String.string) : list Z := [34] ++ lit s ++ [34].
Definition sample : list Z :=
  lit "SYSOP " ++ q "Sys Op" ++ nl ++ lit "AKA 2:5/6" ++ nl ++ lit "NODE 2:5/7 " ++ q "" ++ lit " " ++ q "" ++ nl ++ lit "NODE 2:5/8.1 " ++ q "" ++ lit " " ++ q "" ++ nl ++
  lit "NETMAIL NET 2:5/6 MSG /n" ++ nl ++ lit "DESCRIPTION " ++ q "All mail" ++ nl ++
  lit "AREA A.B 2:5/6 JAM /a" ++ nl ++ lit "EXPORT !2:5/7 8.1" ++ nl ++ lit "GROUP b" ++ nl ++
  lit "AREA PASS 2:5/6" ++ nl ++ lit "EXPORT %2:5/8.1" ++ nl ++
  lit "AREA NEW 2:5/6 MSG /new" ++ nl ++ lit "UNCONFIRMED" ++ nl.
Definition signb (c : Z) : bool := (c =? 33) || (c =? 37) || (c =? 64).
Lemma onesignsb s : forallb (fun l => negb (kw (keyword l) "EXPORT") || forallb (fun w => match w with c :: d :: _ => negb (signb c && signb d) | _ => true end) (allwords 100 (snd (tok 30 l)))) (flines s) = true -> onesigns s.
Proof.
  unfold onesigns. rewrite forallb_forall, Forall_forall. intros H l Hl Hk. specialize (H l Hl). rewrite Hk in H. cbn [negb orb] in H. rewrite forallb_forall in H. rewrite Forall_forall. intros w Hw c d r -> Hc Hd. specialize (H _ Hw).
  cbv beta iota in H. unfold sign in *. unfold signb in H. intuition; subst; discriminate.
Qed.
Definition files (s : list Z) : fsys := [(lit "cfg", s); (lit "other", [1])].
Definition command (f : String.string) : list (list Z) := [lit "cfg"; lit "out"; lit f].
Definition heading : list Z := lit "; Generated by CrashExport 1.5.1" ++ nl ++ lit "; Mon" ++ nl.
Example C64_nonvacuous : exists c ds,
  octets sample /\ ReadConfig anyother sample = ROk c /\ onesigns sample /\ fewlinks c /\ length (cf_areas c) = 4%nat /\
  parseargs args_crashexport (command "AreasBBS") = Some ds /\ argd ds CE_PREFSFILE = Some (VWord (lit "cfg")) /\ formatword (lit "AreasBBS") XAreasBbs /\
  crashexport (lit "Mon") true (command "AreasBBS") (files sample) =
    Some (0, fput (files sample) (lit "out") (heading ++ lit "Default origin ! Sys Op" ++ nl ++ lit "!/a A.B 2:5/7 2:5/8.1" ++ nl ++ lit "#PASS PASS 2:5/8.1" ++ nl)) /\
  crashexport (lit "Mon") true (command "golded" ++ [lit "GROUP"; lit "B"]) (files sample) =
    Some (0, fput (files sample) (lit "out") (heading ++ lit "AREADEF A.B " ++ q "" ++ lit " b ECHO JAM /a 2:5/6 (Loc)" ++ nl)) /\
  crashexport (lit "Mon") true (command "timed") (files sample) =
    Some (0, fput (files sample) (lit "out") (heading ++ lit "NetArea " ++ q "All mail" ++ lit " NET /n -P2:5/6" ++ nl ++ lit "EchoArea " ++ q "" ++ lit " A.B /a -P2:5/6 -J" ++ nl)) /\
  crashexport (lit "Mon") true (command "areas") (files sample) = Some (10, files sample).
Proof.
  do 2 eexists. split; [apply Forall_forall; intros x Hx; assert (forallb (fun c => (0 <=? c) && (c <? 256)) sample = true) as F by (vm_compute; reflexivity); rewrite forallb_forall in F; apply F in Hx; lia|].
  split; [vm_compute; reflexivity|]. split; [apply onesignsb; vm_compute; reflexivity|]. split; [unfold fewlinks; vm_compute; repeat constructor|]. split; [vm_compute; reflexivity|].
  split; [vm_compute; reflexivity|]. split; [vm_compute; reflexivity|]. split; [constructor; vm_compute; reflexivity|].
  split; [vm_compute; reflexivity|]. split; [vm_compute; reflexivity|]. split; [vm_compute; reflexivity|]. vm_compute; reflexivity.
Qed.

(** Without the hypotheses the list can be wrong. A node with two signs in front of its address
    is one CrashMail sends the area to, but it is not in the list. *)
Definition twosigns : list Z :=
  lit "AKA 2:5/6" ++ nl ++ lit "NODE 2:5/7 " ++ q "" ++ lit " " ++ q "" ++ nl ++ lit "AREA A 2:5/6 JAM /a" ++ nl ++ lit "EXPORT !%2:5/7" ++ nl.
Theorem C64_signs_refuted : exists c t, ReadConfig anyother twosigns = ROk c /\ map fa_toss (cf_areas c) = [[(0%nat, 4)]] /\
  xtext (lit "Mon") XAreasBbs None twosigns = Some t /\ t = heading ++ lit "Default origin ! Sysop" ++ nl ++ lit "!/a A " ++ nl.
Proof. do 2 eexists. split; [vm_compute; reflexivity|]. split; [vm_compute; reflexivity|]. split; vm_compute; reflexivity. Qed.
Print Assumptions C64_signs_refuted.

Definition far := lit "65535:65535/65535.65535 ".
Fixpoint times (n : nat) (s : list Z) : list Z := match n with O => [] | S k => s ++ times k s end.
Definition manynodes (ex : list Z) : list Z :=
  lit "AKA 2:5/6" ++ nl ++ lit "NODE 65535:65535/65535.65535 " ++ q "" ++ lit " " ++ q "" ++ nl ++ lit "NODE 65535:65535/65535 " ++ q "" ++ lit " " ++ q "" ++ nl ++
  lit "AREA A 2:5/6 JAM /a" ++ nl ++ lit "EXPORT " ++ ex ++ nl.
(** With 42 nodes the last one can be missing... *)
Theorem C64_dropped_refuted : exists c t, ReadConfig anyother (manynodes (times 42 far)) = ROk c /\ map (fun a => length (fa_toss a)) (cf_areas c) = [42%nat] /\
  xtext (lit "Mon") XAreasBbs None (manynodes (times 42 far)) = Some t /\
  t = heading ++ lit "Default origin ! Sysop" ++ nl ++ lit "!/a A " ++ times 40 far ++ lit "65535:65535/65535.65535" ++ nl.
Proof. do 2 eexists. split; [vm_compute; reflexivity|]. split; [vm_compute; reflexivity|]. split; vm_compute; reflexivity. Qed.
Print Assumptions C64_dropped_refuted.
(** ...and there are configurations CrashMail accepts for which the array of 1000 characters
    overflows. *)
Theorem C64_overflow_refuted : exists c, ReadConfig anyother (manynodes (times 40 far ++ lit "65535:65535/65535.0 " ++ far)) = ROk c /\
  xtext (lit "Mon") XAreasBbs None (manynodes (times 40 far ++ lit "65535:65535/65535.0 " ++ far)) = None.
Proof. eexists. split; vm_compute; reflexivity. Qed.
Print Assumptions C64_overflow_refuted.
