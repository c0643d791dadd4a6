(** Model of the file system as used through src/oslib_linux/osfile.c and osmisc.c.

    A file system is a finite list of named files. Directories, permissions and failing
    calls are not modelled unless a function takes an explicit argument saying that a call
    fails. *)
From Verif Require Import Base.

Notation fsys := (list (list Z * list Z)) (only parsing).

Fixpoint fget (fs : fsys) (n : list Z) : option (list Z) :=
  match fs with
  | [] => None
  | (k, c) :: r => if streq n k then Some c else fget r n
  end.
(** osdelete: remove(3) *)
Definition osDelete (fs : fsys) (n : list Z) : fsys := filter (fun f => negb (streq n (fst f))) fs.
(** create or truncate and write *)
Definition fput (fs : fsys) (n c : list Z) : fsys := (n, c) :: osDelete fs n.
(** osmisc.c:51-59 osExists *)
Definition osExists (fs : fsys) (n : list Z) : bool :=
  match fget fs n with Some _ => true | None => false end.
(** rename(2): replaces an existing target; [None] when there is no such file *)
Definition osRename (fs : fsys) (a b : list Z) : option fsys :=
  match fget fs a with
  | Some c => Some (if streq a b then fs else fput (osDelete fs a) b c)
  | None => None
  end.
(** append to a file that exists (open at the end and write) *)
Definition fappend (fs : fsys) (n c : list Z) : fsys :=
  match fget fs n with Some old => fput fs n (old ++ c) | None => fput fs n c end.

(** The first number from [n] on for which a file named [nm n] does not exist; the loops
    "do { ...; num++ } while(osExists(name))" of the program. [None]: lack of fuel. *)
Fixpoint firstfree (fuel : nat) (fs : fsys) (nm : Z -> list Z) (n : Z) : option Z :=
  match fuel with
  | O => None
  | S f => if osExists fs (nm n) then firstfree f fs nm (n + 1) else Some n
  end.
