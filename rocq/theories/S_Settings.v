(** The settings of the configuration file: specification. *)
From Verif Require Import Base M_Node4D M_Pat M_Str S_Str M_Cfg M_Upd S_Upd M_Filter M_Net M_Settings.

(** ** Lines *)

(** the line begins with a keyword; upper and lower case are the same *)
Definition says (k : String.string) (l : list Z) : bool := streqi (keyword l) (lit k).
(** the words behind the keyword, each of them cut after 199 characters *)
Definition args (l : list Z) : list (list Z) := allwords 200 (snd (tok 30 l)).
(** the text behind the keyword *)
Definition resttext (l : list Z) : list Z := uptoLF (skipblank (snd (tok 30 l))).
(** the last of some lines that has a property *)
Definition lastof (P : list Z -> bool) (ls : list (list Z)) : option (list Z) := find P (rev ls).

(** ** Texts: the keyword, the setting, how many characters are kept *)
Definition texts : list (String.string * sfield * nat) :=
  [("INBOUND", FInbound, 99); ("OUTBOUND", FOutbound, 99); ("SYSOP", FSysop, 34); ("BEFORETOSS", FBeforeToss, 78);
   ("BEFOREPACK", FBeforePack, 78); ("NODELIST", FNodelist, 99); ("AREAFIXHELP", FAreaFixHelp, 99); ("LOGFILE", FLogFile, 99);
   ("STATSFILE", FStatsFile, 99); ("DUPEFILE", FDupeFile, 99); ("TEMPDIR", FTempDir, 99); ("CREATEPKTDIR", FPacketCreate, 99);
   ("PACKETDIR", FPacketDir, 99)]%nat%string.
Definition textdefault (f : sfield) : list Z := match f with FSysop => lit "Sysop" | _ => [] end.

(** ** Numbers: the keyword, the setting, which of the words, how many characters of it count,
       its meaning *)
Definition number (w : list Z) (v : Z) : Prop := -2147483648 <= atoi w < 2147483648 /\ v = atoi w mod 4294967296.
Definition level (w : list Z) (v : Z) : Prop := v = atoi w /\ 1 <= v <= 6.
Definition kilobytes (w : list Z) (v : Z) : Prop := -2097152 <= atoi w < 2097152 /\ v = atoi w * 1024 mod 4294967296.
Definition oneof (names : list (String.string * Z)) (w : list Z) (v : Z) : Prop := exists n, In (n, v) names /\ streqi w (lit n) = true.
Definition numbers : list (String.string * nfield * nat * nat * (list Z -> Z -> Prop)) :=
  [("LOGLEVEL", NLogLevel, 0, 99, level); ("DUPEFILE", NDupeSize, 1, 199, number);
   ("DUPEMODE", NDupeMode, 0, 199, oneof [("IGNORE", 0%Z); ("BAD", 1%Z); ("KILL", 2%Z)]);
   ("LOOPMODE", NLoopMode, 0, 199, oneof [("IGNORE", 0%Z); ("LOG", 1%Z); ("LOG+BAD", 2%Z)]);
   ("MAXPKTSIZE", NMaxPktSize, 0, 199, kilobytes); ("MAXBUNDLESIZE", NMaxBundleSize, 0, 199, kilobytes);
   ("DEFAULTZONE", NDefaultZone, 0, 199, number); ("AREAFIXMAXLINES", NAreaFixMaxLines, 0, 199, number);
   ("JAM_MAXOPEN", NJamMaxOpen, 0, 199, number)]%nat%string.
Definition numdefault (f : nfield) : Z := match f with NLogLevel => 3 | NDupeSize => 10000 | NDefaultZone => 2 | _ => 0 end.

(** ** Switches: the keyword and the bit that the rest of the program looks at (config.h:8-51) *)
Definition switches : list (String.string * nfield * Z) :=
  [("CHECKSEENBY", NFlags, 0); ("CHECKPKTDEST", NFlags, 1); ("STRIPRE", NFlags, 2); ("FORCEINTL", NFlags, 3); ("NOROUTE", NFlags, 4);
   ("PATH3D", NFlags, 5); ("IMPORTSEENBY", NFlags, 6); ("IMPORTEMPTYNETMAIL", NFlags, 7); ("BOUNCEPOINTS", NFlags, 8);
   ("ANSWERRECEIPT", NFlags, 9); ("ANSWERAUDIT", NFlags, 10); ("NODIRECTATTACH", NFlags, 11); ("IMPORTAREAFIX", NFlags, 12);
   ("AREAFIXREMOVE", NFlags, 13); ("WEEKDAYNAMING", NFlags, 14); ("ADDTID", NFlags, 16); ("ALLOWRESCAN", NFlags, 18);
   ("FORWARDPASSTHRU", NFlags, 19); ("BOUNCEHEADERONLY", NFlags, 21); ("REMOVEWHENFEED", NFlags, 22); ("INCLUDEFORWARD", NFlags, 23);
   ("NOMAXOUTBOUNDZONE", NFlags, 24); ("ALLOWKILLSENT", NFlags, 25); ("FLOWCRLF", NFlags, 26); ("NOEXPORTNETMAIL", NFlags, 27);
   ("MSG_HIGHWATER", NMsgFlags, 1); ("MSG_WRITEBACK", NMsgFlags, 2);
   ("JAM_HIGHWATER", NJamFlags, 0); ("JAM_LINK", NJamFlags, 1); ("JAM_QUICKLINK", NJamFlags, 2)]%string.

(** ** Names of groups *)
Definition upper (c : Z) : Z := if (97 <=? c) && (c <=? 122) then c - 32 else c.
Definition namesgroup (i : Z) (l : list Z) : bool :=
  says "GROUPNAME" l && match args l with (c :: _) :: _ => upper c =? 65 + i | _ => false end.

(** ** Lists: what one line adds *)

(** the first element with a property is at a position *)
Definition firstat {A} (P : A -> Prop) (l : list A) (i : nat) : Prop :=
  (exists x, nth_error l i = Some x /\ P x) /\ forall j y, (j < i)%nat -> nth_error l j = Some y -> ~ P y.
Definition nameline (n : list Z) (l : list Z) : Prop := exists w r, args l = w :: r /\ n = firstn 35 w.
Definition patword (p : npat) (w : list Z) : Prop := Parse4DPat (firstn 99 w) = POk p.
(** ROUTE pattern destination AKA *)
Definition routeline (akas : list node4d) (t : sroute) (l : list Z) : Prop :=
  exists p d a r n, args l = p :: d :: a :: r /\ Parse4DPat p = POk (srt_pat t) /\ Parse4DDestPat d = POk (srt_dest t) /\
    Parse4D a = Some n /\ firstat (fun k => Compare4D n k = 0) akas (srt_aka t).
(** CHANGE kinds pattern kind: the kinds are all of them or a list with commas *)
Fixpoint commas (ws : list (list Z)) : list Z := match ws with [] => [] | [w] => w | w :: r => w ++ 44 :: commas r end.
Definition kinds : list String.string := ["NORMAL"; "CRASH"; "HOLD"; "DIRECT"]%string.
Definition among (k : String.string) (ws : list (list Z)) : bool := existsb (fun w => streqi w (lit k)) ws.
Definition changeline (c : change) (l : list Z) : Prop :=
  exists t p k r, args l = t :: p :: k :: r /\ Parse4DPat p = POk (ch_pat c) /\
    oneof [("NORMAL", 2); ("CRASH", 4); ("HOLD", 1); ("DIRECT", 3)]%string k (ch_pri c) /\
    if hd 0 t =? 42 then ch_normal c = true /\ ch_crash c = true /\ ch_hold c = true /\ ch_direct c = true
    else exists ws, (t = commas ws \/ t = commas ws ++ [44]) /\ Forall (fun w => existsb (fun k => streqi w (lit k)) kinds = true) ws /\
           ch_normal c = among "NORMAL" ws /\ ch_crash c = among "CRASH" ws /\ ch_hold c = among "HOLD" ws /\ ch_direct c = among "DIRECT" ws.
(** AREALIST node file switches *)
Inductive listswitches : list (list Z) -> bool -> bool -> Z -> Prop :=
| ls_none : listswitches [] false false 0
| ls_forward ws w f d g : listswitches ws f d g -> streqi w (lit "FORWARD") = true -> listswitches (ws ++ [w]) true d g
| ls_desc ws w f d g : listswitches ws f d g -> streqi w (lit "DESC") = true -> listswitches (ws ++ [w]) f true g
| ls_group ws w x f d g : listswitches ws f d g -> streqi w (lit "GROUP") = true -> Forall (fun c => letter (upper c)) x ->
    listswitches (ws ++ [w; x]) f d (upper (hd 0 x)).
Definition arealistline (nodes : list node4d) (a : sarealist) (l : list Z) : Prop :=
  exists n f r k, args l = n :: f :: r /\ Parse4D n = Some k /\ firstat (fun m => Compare4D k m = 0) nodes (sal_node a) /\
    sal_file a = firstn 79 f /\ exists fw ds, listswitches r fw ds (sal_group a) /\ sal_flags a = (if ds then 1 else 0) + (if fw then 2 else 0).

(** ** Blocks: a heading and the lines that belong to it *)
Inductive blocks (head : list Z -> bool) : list (list Z) -> list (list Z * list (list Z)) -> Prop :=
| bl_nil : blocks head [] []
| bl_cons h ls rest bs : head h = true -> Forall (fun l => head l = false) ls -> blocks head rest bs -> blocks head (h :: ls ++ rest) ((h, ls) :: bs).
(** FILTER and its commands *)
Definition plaincommands : list (String.string * (list Z -> command)) :=
  [("COPY", CCopy); ("EXECUTE", CExecute); ("WRITELOG", CWriteLog); ("WRITEBAD", CWriteBad); ("BOUNCEMSG", CBounceMsg); ("BOUNCEHEADER", CBounceHeader)]%string.
Definition commandkeys : list String.string :=
  ["KILL"; "TWIT"; "COPY"; "EXECUTE"; "WRITELOG"; "WRITEBAD"; "BOUNCEMSG"; "BOUNCEHEADER"; "REMAPMSG"; "MASQUERADE"]%string.
Definition commandline (c : command) (l : list Z) : Prop :=
  (says "KILL" l = true /\ c = CKill) \/ (says "TWIT" l = true /\ c = CTwit) \/
  (exists k f w r, In (k, f) plaincommands /\ says k l = true /\ args l = w :: r /\ c = f w) \/
  (exists w p r d, args l = w :: p :: r /\ Parse4DDestPat p = POk d /\
     (says "REMAPMSG" l = true /\ c = CRemap w d \/ says "MASQUERADE" l = true /\ c = CMasquerade w d)).
Definition aboutfilter (l : list Z) : bool := says "FILTER" l || existsb (fun k => says k l) commandkeys.
Definition filterblock (f : list Z * list command) (b : list Z * list (list Z)) : Prop :=
  resttext (fst b) <> [] /\ fst f = firstn 399 (resttext (fst b)) /\ Forall2 commandline (snd f) (snd b).
(** AKA and what belongs to it *)
Definition aboutaka (l : list Z) : bool := says "AKA" l || says "ADDNODE" l || says "REMNODE" l || says "DOMAIN" l.
Definition wordsof (k : String.string) (ls : list (list Z)) : list (list Z) := flat_map args (filter (says k) ls).
Definition akablock (a : aka) (b : list Z * list (list Z)) : Prop :=
  (exists w r, args (fst b) = w :: r /\ Parse4D w = Some (ak_node a)) /\
  Forall2 (fun n w => Parse4D (firstn 99 w) = Some n) (ak_add a) (wordsof "ADDNODE" (snd b)) /\
  Forall2 (fun p w => Parse2DPat (firstn 99 w) = POk p) (ak_rem a) (wordsof "REMNODE" (snd b)) /\
  match lastof (says "DOMAIN") (snd b) with
  | None => ak_domain a = []
  | Some l => exists w r, args l = w :: r /\ ak_domain a = w
  end.

(** ** Keywords *)
Definition keywords : list String.string :=
  (["AKA"; "ADDNODE"; "REMNODE"; "DOMAIN"; "GROUPNAME"; "NODE"; "PKTFROM"; "AREAFIXINFO"; "DEFAULTGROUP"; "AREA"; "NETMAIL"; "LOCALAREA";
    "UNCONFIRMED"; "MANDATORY"; "DEFREADONLY"; "IGNOREDUPES"; "IGNORESEENBY"; "EXPORT"; "IMPORT"; "BANNED"; "DESCRIPTION"; "GROUP"; "KEEPNUM";
    "KEEPDAYS"; "AREAFIXNAME"; "FILEATTACH"; "BOUNCE"; "PACKER"; "ROUTE"; "CHANGE"; "AREALIST"; "FILTER"; "REMOTEAF"; "REMOTESYSOP"]%string
   ++ commandkeys ++ map (fun x => fst (fst x)) texts ++ map (fun x => fst (fst (fst (fst x)))) numbers ++ map (fun x => fst (fst x)) switches)%list.

(** ** Lines that are right whatever is above them *)
Definition wellformed (l : list Z) : Prop :=
  keyword l = [] \/ hd 0 (keyword l) = 59 \/
  (exists k f b, In (k, f, b) switches /\ says k l = true) \/
  (exists k f n, In (k, f, n) texts /\ k <> "NODELIST"%string /\ k <> "DUPEFILE"%string /\ says k l = true /\ args l <> []) \/
  (exists k f n mean w r v, In (k, f, O, n, mean) numbers /\ says k l = true /\ args l = w :: r /\ mean (firstn n w) v /\ 0 <= v < 2147483648) \/
  (says "AREAFIXNAME" l = true /\ args l <> []) \/
  ((says "FILEATTACH" l = true \/ says "BOUNCE" l = true) /\ exists ps, Forall2 patword ps (args l)) \/
  (says "FILTER" l = true /\ resttext l <> []).
