(** Base: characters, C strings, numbers in decimal and hexadecimal, little endian
    words.  A C [char] is modelled by its unsigned value, a [Z] in 0..255; a C string
    by the list of its characters in front of the terminating NUL. *)
From Coq Require Export List ZArith Lia Bool String Ascii.
From Coq Require Import ZifyBool ZifyNat ZifyN.
Export ListNotations.
Global Open Scope Z_scope.
Notation length := List.length.
Notation concat := List.concat.

(** C string literal. *)
Definition lit (x : string) : list Z :=
  List.map (fun a => Z.of_N (N_of_ascii a)) (list_ascii_of_string x).

(** Fixed width truncation: assignment to uint16_t / uint32_t. *)
Definition u16 (x : Z) : Z := x mod 65536.
Definition u32 (x : Z) : Z := x mod 4294967296.

Definition is_u8 (x : Z) : Prop := 0 <= x < 256.
Definition is_u16 (x : Z) : Prop := 0 <= x < 65536.
Definition is_u32 (x : Z) : Prop := 0 <= x < 4294967296.

(** isdigit, isspace, tolower, toupper in the C locale (libc). *)
Definition isdigit (c : Z) : bool := (48 <=? c) && (c <=? 57).
Definition tolower (c : Z) : Z := if (65 <=? c) && (c <=? 90) then c + 32 else c.
Definition toupper (c : Z) : Z := if (97 <=? c) && (c <=? 122) then c - 32 else c.
Definition isspace (c : Z) : bool := (c =? 32) || ((9 <=? c) && (c <=? 13)).

(** strcmp(a,b)==0, stricmp(a,b)==0 (strcasecmp), strnicmp(a,b,n)==0. *)
Fixpoint streq (a b : list Z) : bool :=
  match a, b with
  | [], [] => true
  | x :: a', y :: b' => (x =? y) && streq a' b'
  | _, _ => false
  end.
Definition streqi (a b : list Z) : bool := streq (map tolower a) (map tolower b).
Definition strneqi (n : nat) (a b : list Z) : bool :=
  streq (map tolower (firstn n a)) (map tolower (firstn n b)).
Definition strneq (n : nat) (a b : list Z) : bool := streq (firstn n a) (firstn n b).

(** sprintf "%u": decimal digits, most significant first. The fuel is the number of
    bits, which is at least the number of digits. *)
Fixpoint dec_aux (fuel : nat) (z : Z) (acc : list Z) : list Z :=
  match fuel with
  | O => acc
  | S f => let acc' := (48 + z mod 10) :: acc in
           if z <? 10 then acc' else dec_aux f (z / 10) acc'
  end.
Definition dec (z : Z) : list Z := dec_aux (S (Z.to_nat (Z.log2 z))) z [].

(** The number denoted by a string of decimal digits (specification side). *)
Definition dec_val (l : list Z) : Z := fold_left (fun v c => 10 * v + (c - 48)) l 0.

(** atoi/atol: skip white space, optional sign, digits (no overflow check here; callers
    that truncate do so explicitly). *)
Fixpoint skipws (l : list Z) : list Z :=
  match l with
  | c :: r => if isspace c then skipws r else l
  | [] => []
  end.
Fixpoint digits_of (l : list Z) (v : Z) : Z :=
  match l with
  | c :: r => if isdigit c then digits_of r (10 * v + (c - 48)) else v
  | [] => v
  end.
Definition atoi (l : list Z) : Z :=
  match skipws l with
  | 45 :: r => - digits_of r 0
  | 43 :: r => digits_of r 0
  | r => digits_of r 0
  end.

(** sprintf "%0nx": n lower case hexadecimal digits of a number below 16^n.
    (printf would print more digits for a larger number; all callers pass values that
    fit.) *)
Definition hexdig (d : Z) : Z := if d <? 10 then 48 + d else 87 + d.
Fixpoint hex (n : nat) (z : Z) : list Z :=
  match n with
  | O => []
  | S m => hex m (z / 16) ++ [hexdig (z mod 16)]
  end.

(** Little endian words. *)
Definition le16 (z : Z) : list Z := [z mod 256; (z / 256) mod 256].
Definition le32 (z : Z) : list Z :=
  [z mod 256; (z / 256) mod 256; (z / 65536) mod 256; (z / 16777216) mod 256].
Definition get16 (l : list Z) (i : nat) : Z := nth i l 0 + 256 * nth (S i) l 0.
Definition get32 (l : list Z) (i : nat) : Z :=
  nth i l 0 + 256 * nth (S i) l 0 + 65536 * nth (S (S i)) l 0 + 16777216 * nth (S (S (S i))) l 0.

(** Boolean membership of a character in a string: strchr(s,c)!=NULL for c!=0. *)
Definition mem (c : Z) (l : list Z) : bool := existsb (Z.eqb c) l.

Definition bytes (l : list Z) : Prop := Forall is_u8 l.
(** A C string: bytes without NUL. *)
Definition cstring (l : list Z) : Prop := Forall (fun c => 1 <= c < 256) l.

(* ------------------------------------------------------------------------- *)
(** ** Lemmas *)

Arguments Z.add : simpl never.
Arguments Z.mul : simpl never.
Arguments Z.sub : simpl never.
Arguments Z.div : simpl never.
Arguments Z.modulo : simpl never.
Arguments Z.pow : simpl never.
Arguments Z.log2 : simpl never.
Arguments Z.eqb : simpl nomatch.

(** evaluate string literals in the goal *)
Ltac litc := repeat match goal with |- context [lit ?x] =>
  let v := eval vm_compute in (lit x) in change (lit x) with v end.
Ltac zlia := Z.div_mod_to_equations; lia.

Lemma streq_eq a b : streq a b = true <-> a = b.
Proof.
  revert b; induction a as [|x a IH]; destruct b as [|y b]; simpl; split; intros H;
    try reflexivity; try discriminate.
  - apply andb_true_iff in H as [H1 H2]. apply Z.eqb_eq in H1. apply IH in H2. congruence.
  - inversion H; subst. rewrite Z.eqb_refl. apply IH. reflexivity.
Qed.
Lemma streq_refl a : streq a a = true.
Proof. apply streq_eq; reflexivity. Qed.
Lemma streq_neq a b : streq a b = false <-> a <> b.
Proof.
  split; intros H.
  - intros E. apply streq_eq in E. congruence.
  - destruct (streq a b) eqn:E; auto. apply streq_eq in E. contradiction.
Qed.

Lemma u16_range x : is_u16 (u16 x).
Proof. unfold is_u16, u16. apply Z.mod_pos_bound. lia. Qed.
Lemma u32_range x : is_u32 (u32 x).
Proof. unfold is_u32, u32. apply Z.mod_pos_bound. lia. Qed.
Lemma u16_id x : is_u16 x -> u16 x = x.
Proof. unfold is_u16, u16. intros. apply Z.mod_small. lia. Qed.
Lemma u32_id x : is_u32 x -> u32 x = x.
Proof. unfold is_u32, u32. intros. apply Z.mod_small. lia. Qed.

Lemma dec_aux_app fuel z acc : dec_aux fuel z acc = dec_aux fuel z [] ++ acc.
Proof.
  revert z acc; induction fuel as [|f IH]; intros z acc; simpl; auto.
  destruct (z <? 10); auto. rewrite IH. rewrite (IH _ [_]). rewrite <- app_assoc. reflexivity.
Qed.

Lemma log2_div10 z : 10 <= z -> (Z.to_nat (Z.log2 (z / 10)) < Z.to_nat (Z.log2 z))%nat.
Proof.
  intros H.
  assert (Z.log2 (z / 10) <= Z.log2 (z / 2)).
  { apply Z.log2_le_mono. apply Z.div_le_compat_l; lia. }
  assert (Z.log2 z = Z.succ (Z.log2 (z / 2))).
  { pose proof (Z.log2_spec (z/2) ltac:(zlia)).
    apply Z.log2_unique; [pose proof (Z.log2_nonneg (z/2)); lia|].
    pose proof (Z.log2_nonneg (z/2)).
    rewrite !Z.pow_succ_r by lia.
    rewrite !Z.pow_succ_r in H1 by lia. zlia. }
  pose proof (Z.log2_nonneg (z/10)). lia.
Qed.

Lemma dec_aux_fuel f g z : 0 <= z ->
  (Z.to_nat (Z.log2 z) < f)%nat -> (Z.to_nat (Z.log2 z) < g)%nat ->
  dec_aux f z [] = dec_aux g z [].
Proof.
  revert g z; induction f as [|f IH]; intros g z Hz Hf Hg; [lia|].
  destruct g as [|g]; [lia|]. simpl.
  destruct (Z.ltb_spec z 10); auto.
  rewrite (dec_aux_app f), (dec_aux_app g). f_equal.
  pose proof (log2_div10 z H). apply IH; [zlia|lia|lia].
Qed.

(** Characteristic equation of [dec]. *)
Lemma dec_eq z : 0 <= z ->
  dec z = if z <? 10 then [48 + z] else dec (z / 10) ++ [48 + z mod 10].
Proof.
  intros Hz. unfold dec at 1. cbn [dec_aux].
  destruct (Z.ltb_spec z 10).
  - rewrite Z.mod_small by lia. reflexivity.
  - rewrite dec_aux_app. f_equal. unfold dec.
    pose proof (log2_div10 z H). apply dec_aux_fuel; [zlia|lia|lia].
Qed.

Lemma dec_val_app l c : dec_val (l ++ [c]) = 10 * dec_val l + (c - 48).
Proof. unfold dec_val. rewrite fold_left_app. reflexivity. Qed.

Lemma dec_ind (P : Z -> Prop) :
  (forall z, 0 <= z < 10 -> P z) ->
  (forall z, 10 <= z -> P (z / 10) -> P z) -> forall z, 0 <= z -> P z.
Proof.
  intros H1 H2 z Hz.
  pattern z. apply Zlt_0_ind; [|exact Hz].
  intros x IH Hx. destruct (Z_lt_le_dec x 10); [apply H1; lia|].
  apply H2; auto. apply IH; zlia.
Qed.

Lemma dec_val_dec z : 0 <= z -> dec_val (dec z) = z.
Proof.
  revert z. apply dec_ind; intros z Hz.
  - rewrite dec_eq by lia. destruct (Z.ltb_spec z 10); [|lia]. unfold dec_val; simpl; lia.
  - intros IH. rewrite dec_eq by lia. destruct (Z.ltb_spec z 10); [lia|].
    rewrite dec_val_app, IH. zlia.
Qed.

Definition digit (c : Z) : Prop := 48 <= c <= 57.
Lemma isdigit_spec c : isdigit c = true <-> digit c.
Proof. unfold isdigit, digit. rewrite andb_true_iff. lia. Qed.

Lemma dec_digits z : 0 <= z -> Forall digit (dec z).
Proof.
  revert z. apply dec_ind; intros z Hz.
  - rewrite dec_eq by lia. destruct (Z.ltb_spec z 10); [|lia]. constructor; auto. unfold digit; lia.
  - intros IH. rewrite dec_eq by lia. destruct (Z.ltb_spec z 10); [lia|].
    apply Forall_app; split; auto. constructor; auto. unfold digit. zlia.
Qed.

Lemma dec_nonempty z : 0 <= z -> dec z <> [].
Proof.
  intros Hz. rewrite dec_eq by lia. destruct (z <? 10); [discriminate|].
  intros H. apply app_eq_nil in H as [_ H]. discriminate.
Qed.

Lemma dec_inj a b : 0 <= a -> 0 <= b -> dec a = dec b -> a = b.
Proof. intros Ha Hb H. rewrite <- (dec_val_dec a), <- (dec_val_dec b), H; auto. Qed.

Lemma dec_length z n : 0 <= z -> (1 <= n)%nat -> z < 10 ^ Z.of_nat n -> (length (dec z) <= n)%nat.
Proof.
  intros Hz. revert n. pattern z. revert z Hz. apply dec_ind; intros z Hz.
  - intros n Hn _. rewrite dec_eq by lia. destruct (Z.ltb_spec z 10); [|lia]. simpl. lia.
  - intros IH n Hn Hlt. rewrite dec_eq by lia. destruct (Z.ltb_spec z 10); [lia|].
    rewrite app_length. simpl.
    destruct n as [|n]; [lia|]. destruct n as [|n].
    + change (10 ^ Z.of_nat 1) with 10 in Hlt. lia.
    + assert (length (dec (z/10)) <= S n)%nat; [|lia].
      apply IH; [lia|].
      replace (Z.of_nat (S (S n))) with (Z.succ (Z.of_nat (S n))) in Hlt by lia.
      rewrite Z.pow_succ_r in Hlt by lia. zlia.
Qed.

Lemma dec_length_u16 z : is_u16 z -> (1 <= length (dec z) <= 5)%nat.
Proof.
  intros [H1 H2]. split.
  - pose proof (dec_nonempty z H1). destruct (dec z); [contradiction|simpl; lia].
  - apply dec_length; [lia|lia|]. change (10 ^ Z.of_nat 5) with 100000. lia.
Qed.
Lemma dec_length_u32 z : is_u32 z -> (1 <= length (dec z) <= 10)%nat.
Proof.
  intros [H1 H2]. split.
  - pose proof (dec_nonempty z H1). destruct (dec z); [contradiction|simpl; lia].
  - apply dec_length; [lia|lia|]. change (10 ^ Z.of_nat 10) with 10000000000. lia.
Qed.

Lemma digits_of_app l r v : Forall digit l ->
  match r with c :: _ => isdigit c = false | [] => True end ->
  digits_of (l ++ r) v = fold_left (fun v c => 10 * v + (c - 48)) l v.
Proof.
  intros Hl Hr. revert v. induction Hl as [|c l Hc Hl IH]; intros v; simpl.
  - destruct r as [|c r]; simpl; auto. rewrite Hr. reflexivity.
  - apply isdigit_spec in Hc. rewrite Hc. apply IH.
Qed.

Lemma digit_not_space c : digit c -> isspace c = false.
Proof. unfold digit, isspace. intros. lia. Qed.

Lemma digits_of_dec z : 0 <= z -> digits_of (dec z) 0 = z.
Proof.
  intros. rewrite <- (app_nil_r (dec z)).
  rewrite digits_of_app; auto using dec_digits. apply dec_val_dec; auto.
Qed.

Lemma atoi_digits l r : Forall digit l -> l <> [] ->
  match r with c :: _ => isdigit c = false | [] => True end ->
  atoi (l ++ r) = dec_val l.
Proof.
  intros Hl Hn Hr. destruct l as [|c l]; [contradiction|].
  inversion Hl as [|? ? Hc Hl']; subst.
  unfold atoi. cbn [app skipws]. rewrite (digit_not_space c Hc).
  transitivity (digits_of ((c :: l) ++ r) 0).
  - unfold digit in Hc. simpl.
    destruct c as [|p|p]; try lia.
    do 6 (destruct p; try reflexivity; try lia).
  - apply digits_of_app; auto.
Qed.

Lemma atoi_dec_app z r : 0 <= z ->
  match r with c :: _ => isdigit c = false | [] => True end ->
  atoi (dec z ++ r) = z.
Proof.
  intros. rewrite atoi_digits; auto using dec_digits, dec_nonempty, dec_val_dec.
Qed.
Lemma atoi_dec z : 0 <= z -> atoi (dec z) = z.
Proof. intros. rewrite <- (app_nil_r (dec z)). apply atoi_dec_app; simpl; auto. Qed.

(** hex *)
Lemma hex_length n z : length (hex n z) = n.
Proof. revert z; induction n as [|n IH]; intros z; simpl; auto. rewrite app_length, IH. simpl. lia. Qed.

Lemma hexdig_inj a b : 0 <= a < 16 -> 0 <= b < 16 -> hexdig a = hexdig b -> a = b.
Proof.
  unfold hexdig. intros Ha Hb. destruct (Z.ltb_spec a 10), (Z.ltb_spec b 10); lia.
Qed.

Lemma hex_inj n a b : 0 <= a < 16 ^ Z.of_nat n -> 0 <= b < 16 ^ Z.of_nat n ->
  hex n a = hex n b -> a = b.
Proof.
  revert a b; induction n as [|n IH]; intros a b Ha Hb H.
  - change (16 ^ Z.of_nat 0) with 1 in *. lia.
  - simpl in H. apply app_inj_tail in H as [H1 H2].
    replace (Z.of_nat (S n)) with (Z.succ (Z.of_nat n)) in * by lia.
    rewrite Z.pow_succ_r in * by lia.
    apply IH in H1; [|zlia|zlia].
    apply hexdig_inj in H2; [|apply Z.mod_pos_bound; lia|apply Z.mod_pos_bound; lia].
    zlia.
Qed.

(** little endian words *)
Lemma le16_bytes z : bytes (le16 z).
Proof. repeat constructor; unfold is_u8; zlia. Qed.
Lemma le32_bytes z : bytes (le32 z).
Proof. repeat constructor; unfold is_u8; zlia. Qed.
Lemma get16_le16 z : is_u16 z -> get16 (le16 z) 0 = z.
Proof. unfold is_u16, get16, le16. simpl. intros. zlia. Qed.
Lemma get32_le32 z : is_u32 z -> get32 (le32 z) 0 = z.
Proof. unfold is_u32, get32, le32. simpl. intros. zlia. Qed.
Lemma get16_app a b : get16 (a ++ b) (length a) = get16 b 0.
Proof.
  unfold get16. rewrite !app_nth2 by lia.
  replace (length a - length a)%nat with 0%nat by lia.
  replace (S (length a) - length a)%nat with 1%nat by lia. reflexivity.
Qed.
Lemma le16_inj a b : is_u16 a -> is_u16 b -> le16 a = le16 b -> a = b.
Proof. intros Ha Hb H. rewrite <- (get16_le16 a Ha), <- (get16_le16 b Hb), H. reflexivity. Qed.
Lemma le32_inj a b : is_u32 a -> is_u32 b -> le32 a = le32 b -> a = b.
Proof. intros Ha Hb H. rewrite <- (get32_le32 a Ha), <- (get32_le32 b Hb), H. reflexivity. Qed.

Lemma mem_In c l : mem c l = true <-> In c l.
Proof.
  unfold mem. rewrite existsb_exists. split.
  - intros [x [H1 H2]]. apply Z.eqb_eq in H2. subst. auto.
  - intros H. exists c. split; auto. apply Z.eqb_refl.
Qed.

Lemma skipn_skipn {A} (a b : nat) (l : list A) : skipn a (skipn b l) = skipn (b + a) l.
Proof. revert l; induction b as [|b IH]; intros l; simpl; auto. destruct l; simpl; auto. destruct a; auto. Qed.
