(** What CrashGetNode is to print. *)
From Verif Require Import Base M_Node4D S_Nl.

(** A line of a nodelist: what the node is, its number, up to five more entries, and flags
    behind those. *)
Record nodeline := ND { nd_kind : list Z; nd_number : list Z; nd_entries : list (list Z); nd_flags : option (list Z) }.
Definition nodetext (n : nodeline) : list Z :=
  nd_kind n ++ lit "," ++ nd_number n ++ concat (map (fun f => lit "," ++ f) (nd_entries n)) ++
  match nd_flags n with Some f => lit "," ++ f | None => [] end.
Definition labels : list (list Z) := [lit "Name"; lit "Location"; lit "Sysop"; lit "Phone"; lit "Baud"].
(** no entry is empty; the line ends with a visible ASCII character *)
Definition filled (f : list Z) : Prop := f <> [] /\ ~ In 44 f.
Definition nodeline_ok (n : nodeline) : Prop :=
  ~ In 44 (nd_kind n) /\ filled (nd_number n) /\ Forall filled (nd_entries n) /\ (length (nd_entries n) <= 5)%nat /\
  match nd_flags n with Some f => f <> [] /\ length (nd_entries n) = 5%nat | None => True end /\
  exists l c, nodetext n = l ++ [c] /\ 33 <= c <= 127.
Definition labelled (l t : list Z) : list Z := l ++ lit ": " ++ t ++ [10].
Definition nodeinfo (a : node4d) (region hub : Z) (n : nodeline) : list Z :=
  lit "Node " ++ dec (zone a) ++ lit ":" ++ dec (net a) ++ lit "/" ++ dec (node a) ++ lit "." ++ dec (point a) ++ [10] ++
  lit "Region " ++ dec region ++ lit ", Hub " ++ dec hub ++ [10] ++
  lit "Node is listed as a " ++ match nd_kind n with [] => lit "Node" | k => k end ++ [10] ++
  concat (map (fun p => labelled (fst p) (snd p)) (combine labels (nd_entries n))) ++
  match nd_flags n with Some f => labelled (lit "Flags") f | None => [] end.
(** a word that is no keyword *)
Definition nokeyword (w : list Z) : Prop := map tolower w <> lit "node" /\ map tolower w <> lit "directory".
Definition nohelp (w : list Z) : Prop := ~ In w [lit "?"; lit "-h"; lit "--help"; lit "help"; lit "/h"; lit "/?"].
