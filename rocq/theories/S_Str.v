(** Specification of tokens, bounded copies and file patterns. *)
From Verif Require Import Base M_Str.

(** [token stop src t rest]: reading [src] up to a character satisfying [stop] (or its
    end) gives the text [t] and leaves [rest]; a backslash makes the next character
    literal unless that is a line feed or the end of the text. *)
Inductive token (stop : Z -> Prop) : list Z -> list Z -> list Z -> Prop :=
| tok_eof : token stop [] [] []
| tok_stop c r : stop c -> token stop (c :: r) [] (c :: r)
| tok_esc e r t rest : ~ stop 92 -> e <> 10 -> token stop r t rest -> token stop (92 :: e :: r) (e :: t) rest
| tok_chr c r t rest : ~ stop c -> (c = 92 -> r = [] \/ exists r', r = 10 :: r') ->
    token stop r t rest -> token stop (c :: r) (c :: t) rest.

Definition stop_quoted (c : Z) : Prop := c = 34 \/ c = 10.
Definition stop_plain (c : Z) : Prop := c = 32 \/ c = 9 \/ c = 10.

(** A buffer of [n] bytes holding a terminated string [s]. *)
Definition holds (b : buffer) (n : nat) (s : list Z) : Prop :=
  length b = n /\ In 0 b /\ cstr b = s.

(** File patterns: '?' one character, '*' any remainder, otherwise equal ignoring case. *)
Inductive fmatch : list Z -> list Z -> Prop :=
| fm_end : fmatch [] []
| fm_star p s : fmatch (42 :: p) s
| fm_any p c s : fmatch p s -> fmatch (63 :: p) (c :: s)
| fm_chr p a b s : a <> 42 -> tolower a = tolower b -> fmatch p s -> fmatch (a :: p) (b :: s).

(** Number of characters of the quoted form. *)
Definition needs_escape (c : Z) : bool := (c =? 34) || (c =? 92).
Definition quoted_length (s : list Z) : nat := (length s + length (filter needs_escape s))%nat.

(** The rest of a line: everything up to a line feed. *)
Fixpoint uptoLF (s : list Z) : list Z :=
  match s with [] => [] | c :: r => if c =? 10 then [] else c :: uptoLF r end.

(** The text that MakeFullPath is to produce when there is room. *)
Definition joinpath (path file : list Z) : list Z :=
  match rev path with
  | [] => file
  | c :: _ => if c =? PATHCHAR then path ++ file else path ++ [PATHCHAR] ++ file
  end.

