(** Properties C03 and C04: node patterns and route destination templates. *)
From Verif Require Import Base M_Node4D S_Node4D M_Pat S_Pat P_Pat.

(** C03: matching. *)
Theorem C03_component_match : forall pat num, is_u16 num ->
  (NodeCompare pat num = 0 <-> pat = [] \/ glob pat (dec num)).
Proof. exact NodeCompare_spec. Qed.
Print Assumptions C03_component_match.

Theorem C03_pattern_match : forall nl p n, nl_ok nl -> valid4d n ->
  (Compare4DPat nl p n = 0 <-> patmatch nl p n).
Proof. exact Compare4DPat_spec. Qed.
Print Assumptions C03_pattern_match.

Theorem C03_pattern2d_match : forall p n f, is_u16 n -> is_u16 f ->
  (Compare2DPat p n f = 0 <-> compmatch (p2net p) n /\ compmatch (p2node p) f).
Proof. exact Compare2DPat_spec. Qed.
Print Assumptions C03_pattern2d_match.

(** A component of digits only matches exactly the number with that decimal text. *)
Theorem C03_literal_component : forall p s, (forall c, In c p -> digit c) -> (glob p s <-> p = s).
Proof. exact glob_literal. Qed.
Print Assumptions C03_literal_component.

(** Parsing: every accepted form and its meaning. *)
Theorem C03_parse_forms : forall ty z n f p, wfcomp z -> wfcomp n -> wfcomp f -> wfcomp p ->
  rawParse4DPat ty (z ++ lit ":" ++ n ++ lit "/" ++ f ++ lit "." ++ p) = POk (NP ty z n f p) /\
  rawParse4DPat ty (z ++ lit ":" ++ n ++ lit "/" ++ f) = POk (NP ty z n f (lit "0")) /\
  rawParse4DPat ty (z ++ lit ":" ++ n) = POk (NP ty z n (lit "*") (lit "*")) /\
  rawParse4DPat ty (n ++ lit "/" ++ f) = POk (NP ty (lit "*") n f (lit "0")) /\
  (f <> lit "*" -> rawParse4DPat ty f = POk (NP ty (lit "*") (lit "*") f (lit "0"))) /\
  rawParse4DPat ty (lit "*") = POk (NP ty (lit "*") (lit "*") (lit "*") (lit "*")).
Proof.
  exact (fun ty z n f p Hz Hn Hf Hp =>
    conj (raw_full ty z n f p Hz Hn Hf Hp) (conj (raw_znf ty z n f Hz Hn Hf)
   (conj (raw_zn ty z n Hz Hn) (conj (raw_nf ty n f Hn Hf) (conj (raw_f ty f Hf) (raw_star ty)))))).
Qed.
Print Assumptions C03_parse_forms.

Theorem C03_parse_rejects_other_characters : forall ty buf p, rawParse4DPat ty buf = POk p ->
  Forall (fun c => digit c \/ c = 42 \/ c = 63 \/ c = 58 \/ c = 47 \/ c = 46) buf.
Proof. exact raw_badchar. Qed.
Print Assumptions C03_parse_rejects_other_characters.

Theorem C03_print_parse : forall p, wfpat p -> Parse4DPat (Print4DPat p) = POk p.
Proof. exact print_parse_pat. Qed.
Print Assumptions C03_print_parse.

(** Parsed components fit the 10 byte fields. *)
Theorem C03_components_fit : forall buf p, Parse4DPat buf = POk p ->
  (length (pzone p) <= 9 /\ length (pnet p) <= 9 /\ length (pnode p) <= 9 /\ length (ppoint p) <= 9)%nat.
Proof. exact Parse4DPat_short. Qed.
Print Assumptions C03_components_fit.

(** Finding: uninitialised memory is read exactly for the empty text and for texts that
    start with a separator. *)
Theorem C03_uninitialised_read : forall ty buf, rawParse4DPat ty buf = PUB <->
  buf = [] \/ exists c r, buf = c :: r /\ (c = 58 \/ c = 47 \/ c = 46).
Proof. exact raw_ub. Qed.
Print Assumptions C03_uninitialised_read.

(** Finding: an empty component later in the text silently repeats the previous one. *)
Theorem C03_empty_component_refuted :
  Parse4DPat (lit "1:/3") = POk (NP PAT_PATTERN (lit "1") (lit "1") (lit "3") (lit "0")).
Proof. reflexivity. Qed.
Print Assumptions C03_empty_component_refuted.

Example C03_nonvacuous :
  let nl := NL true (fun _ => 20) (fun _ => -1) in
  nl_ok nl /\
  wfpat (NP PAT_PATTERN (lit "2") (lit "2?0") (lit "*") (lit "0")) /\
  patmatch nl (NP PAT_PATTERN (lit "2") (lit "2?0") (lit "*") (lit "0")) (N4 2 200 7 0) /\
  ~ patmatch nl (NP PAT_PATTERN (lit "2") (lit "2?0") (lit "*") (lit "0")) (N4 2 201 7 0) /\
  patmatch nl (NP PAT_REGION (lit "2") (lit "20") [] []) (N4 2 201 7 0).
Proof.
  intros nl. assert (Hnl : nl_ok nl) by (intros n; simpl; unfold is_u16; lia).
  split; [exact Hnl|]. split.
  { litc; unfold wfpat, wfcomp, digit; simpl. repeat match goal with |- _ /\ _ => split | |- Forall _ _ => constructor | |- _ => lia end. }
  split; [|split].
  - apply Compare4DPat_spec; auto. unfold valid4d, is_u16; simpl; lia.
  - intros H. apply Compare4DPat_spec in H; auto; [discriminate|]. unfold valid4d, is_u16; simpl; lia.
  - apply Compare4DPat_spec; auto. unfold valid4d, is_u16; simpl; lia.
Qed.

(** C04: destination templates. *)
Theorem C04_expand_components : forall nl p dest, ptype p = PAT_PATTERN ->
  expandable (pzone p) -> expandable (pnet p) -> expandable (pnode p) -> expandable (ppoint p) ->
  let r := ExpandNodePat nl p dest in
  comp_expands (pzone p) (zone dest) (zone r) /\ comp_expands (pnet p) (net dest) (net r) /\
  comp_expands (pnode p) (node dest) (node r) /\ comp_expands (ppoint p) (point dest) (point r).
Proof. exact expand_pattern. Qed.
Print Assumptions C04_expand_components.

Theorem C04_expansion_matches_template : forall nl nl' p dest, valid4d dest -> ptype p = PAT_PATTERN ->
  expandable (pzone p) -> expandable (pnet p) -> expandable (pnode p) -> expandable (ppoint p) ->
  (wild (pzone p) -> zone dest = 0 \/ compmatch (pzone p) (zone dest)) ->
  (wild (pnet p) -> compmatch (pnet p) (net dest)) ->
  (wild (pnode p) -> compmatch (pnode p) (node dest)) ->
  (wild (ppoint p) -> compmatch (ppoint p) (point dest)) ->
  patmatch nl' p (ExpandNodePat nl p dest).
Proof. exact expand_matches. Qed.
Print Assumptions C04_expansion_matches_template.

(** The keyword templates send to the zone, region, net, hub or boss node of the
    destination. *)
Theorem C04_keyword_templates : forall nl dest z n f p,
  ExpandNodePat nl (NP PAT_ZONE z n f p) dest = N4 (zone dest) (zone dest) 0 0 /\
  ExpandNodePat nl (NP PAT_NET z n f p) dest = N4 (zone dest) (net dest) 0 0 /\
  ExpandNodePat nl (NP PAT_NODE z n f p) dest = N4 (zone dest) (net dest) (node dest) 0 /\
  (nlopen nl = true -> let h := nlGetHub nl (N4 (zone dest) (net dest) (node dest) 0) in
     is_u16 h -> ExpandNodePat nl (NP PAT_HUB z n f p) dest = N4 (zone dest) (net dest) h 0) /\
  (nlopen nl = true -> let r := nlGetRegion nl (N4 (zone dest) (net dest) (node dest) 0) in
     is_u16 r -> r <> 0 -> ExpandNodePat nl (NP PAT_REGION z n f p) dest = N4 (zone dest) r 0 0).
Proof.
  intros. repeat split; intros; unfold ExpandNodePat; simpl; rewrite H; unfold set_point;
  subst h || subst r.
  - destruct (Z.eqb_spec (nlGetHub nl (N4 (zone dest) (net dest) (node dest) 0)) (-1)) as [E|E];
      [unfold is_u16 in *; lia|]. rewrite u16_id; auto.
  - destruct (Z.eqb_spec (nlGetRegion nl (N4 (zone dest) (net dest) (node dest) 0)) (-1)) as [E|E];
      [unfold is_u16 in *; lia|].
    destruct (Z.eqb_spec (nlGetRegion nl (N4 (zone dest) (net dest) (node dest) 0)) 0); [lia|].
    rewrite u16_id; auto.
Qed.
Print Assumptions C04_keyword_templates.

(** Without an answer from the nodelist (closed, node not found, or region 0) REGION sends
    to the destination's own net and HUB to node 0 of that net. *)
Theorem C04_keyword_fallback : forall nl dest z n f p, valid4d dest ->
  (nlopen nl = false \/ nlGetRegion nl (N4 (zone dest) (net dest) (node dest) 0) = -1 \/
   nlGetRegion nl (N4 (zone dest) (net dest) (node dest) 0) = 0 ->
   ExpandNodePat nl (NP PAT_REGION z n f p) dest = N4 (zone dest) (net dest) 0 0) /\
  (nlopen nl = false \/ nlGetHub nl (N4 (zone dest) (net dest) (node dest) 0) = -1 ->
   ExpandNodePat nl (NP PAT_HUB z n f p) dest = N4 (zone dest) (net dest) 0 0).
Proof.
  intros nl dest z n f p (_ & Hn & _). split; intros H; unfold ExpandNodePat, set_point; cbn [ptype]; cbv zeta.
  - destruct (nlopen nl); [destruct H as [H|[H|H]]; [discriminate| |]; rewrite H; cbn; rewrite u16_id by auto; reflexivity|].
    cbn. rewrite u16_id by auto. reflexivity.
  - destruct (nlopen nl); [destruct H as [H|H]; [discriminate|]; rewrite H; reflexivity|reflexivity].
Qed.
Print Assumptions C04_keyword_fallback.

Theorem C04_print_parse : forall p,
  match ptype p with PAT_PATTERN => wfpat p
  | _ => pzone p = [] /\ pnet p = [] /\ pnode p = [] /\ ppoint p = [] end ->
  Parse4DDestPat (Print4DDestPat p) = POk p.
Proof. exact print_parse_destpat. Qed.
Print Assumptions C04_print_parse.

Theorem C04_expand_in_range : forall nl p dest, valid4d dest -> valid4d (ExpandNodePat nl p dest).
Proof. exact expand_valid. Qed.
Print Assumptions C04_expand_in_range.

(** Finding: a partial wildcard is replaced by the destination's component even when
    that component does not match, so the result can contradict the template. *)
Theorem C04_partial_wildcard_refuted : exists nl p dest,
  nl_ok nl /\ valid4d dest /\ wfpat p /\ ~ patmatch nl p (ExpandNodePat nl p dest).
Proof.
  exists (NL false (fun _ => -1) (fun _ => -1)),
    (NP PAT_PATTERN (lit "2") (lit "20?") (lit "0") (lit "0")), (N4 2 300 5 0).
  assert (Hnl : nl_ok (NL false (fun _ => -1) (fun _ => -1))) by (intros n; simpl; auto).
  split; [exact Hnl|]. split; [unfold valid4d, is_u16; simpl; lia|]. split.
  - litc; unfold wfpat, wfcomp, digit; simpl. repeat match goal with |- _ /\ _ => split | |- Forall _ _ => constructor | |- _ => lia end.
  - intros H. apply Compare4DPat_spec in H; auto; [discriminate|].
    unfold valid4d, is_u16; vm_compute. intuition congruence.
Qed.
Print Assumptions C04_partial_wildcard_refuted.

Example C04_nonvacuous :
  let p := NP PAT_PATTERN (lit "*") (lit "*") (lit "0") (lit "0") in
  expandable (pzone p) /\ expandable (pnode p) /\ compmatch (lit "*") 200 /\
  ExpandNodePat (NL false (fun _ => -1) (fun _ => -1)) p (N4 2 200 5 3) = N4 2 200 0 0.
Proof.
  split; [left; left; left; reflexivity|]. split.
  { right. exists 0. split; [unfold is_u16; lia|reflexivity]. }
  split; [right; constructor|reflexivity].
Qed.
