(** What is said about the messages of node-gyp, apart from how the logger works. *)
From Verif Require Import Lib Model_Log.
Local Open Scope string_scope.

(** ** loudness: the levels there are, from the most detailed to the gravest *)
Definition gravity (s : string) : option nat :=
  assoc s [("silly", 1); ("verbose", 2); ("info", 3); ("http", 4); ("notice", 5); ("warn", 6); ("error", 7)].
(** A message of level [s] is to be seen at level [at_]. *)
Definition seen (at_ s : string) : bool :=
  match gravity at_, gravity s with Some a, Some b => Nat.leb a b | _, _ => false end.

(** ** when a message comes out: at once, or as soon as the log is resumed, and then by
    the level that is set at that time; not at all if it is never resumed *)
Fixpoint comes_out (held : bool) (lv : string) (later : list event) : option string :=
  if held then
    match later with
    | [] => None
    | Level s :: l => comes_out held s l
    | Log k _ _ :: l => if String.eqb k "resume" then Some lv else comes_out held lv l
    end
  else Some lv.
(** The messages to be printed for a history. *)
Fixpoint expected (held : bool) (lv : string) (h : list event) : list (string * string * string) :=
  match h with
  | [] => []
  | Level s :: l => expected held s l
  | Log k p t :: l =>
    if String.eqb k "pause" then expected true lv l
    else if String.eqb k "resume" then expected false lv l
    else
      (match comes_out held lv l with
       | Some at_ => if seen at_ k then [(k, p, t)] else []
       | None => []
       end ++ expected held lv l)%list
  end.
(** All messages of a history. *)
Definition messages (h : list event) : list (string * string * string) :=
  flat_map (fun e => match e with Log k p t => if String.eqb k "pause" || String.eqb k "resume" then [] else [(k, p, t)] | Level _ => [] end) h.

(** ** how a message looks *)
Definition plain_name (s : string) : option string :=
  assoc s [("silly", "sill"); ("verbose", "verb"); ("info", "info"); ("http", "http"); ("notice", "notice"); ("warn", "WARN"); ("error", "ERR!")].
Definition in_colour (code s : string) : string := String "027" ("[" ++ code ++ "m" ++ s ++ String "027" "[0m").
Definition colour_name (s : string) : option string :=
  assoc s [("silly", in_colour "7" "sill"); ("verbose", in_colour "36;40" "verb"); ("info", in_colour "32" "info"); ("http", in_colour "32;40" "http");
           ("notice", in_colour "36;40" "notice"); ("warn", in_colour "30;43" "WARN"); ("error", in_colour "31;40" "ERR!")].
Definition is_white (c : ascii) : Prop := In c [" "; "009"; "010"; "011"; "012"; "013"]%char.
Fixpoint Chars (P : ascii -> Prop) (s : string) : Prop := match s with "" => True | String c s' => P c /\ Chars P s' end.
(** [x] is [s] without the white space around it. *)
Definition stripped (s x : string) : Prop :=
  exists a b, s = a ++ x ++ b /\ Chars is_white a /\ Chars is_white b /\
    (forall c y, x = String c y -> ~ is_white c) /\ (forall c y, x = y ++ String c "" -> ~ is_white c).
(** [ls] are the lines of [t]. *)
Definition lines_of (t : string) (ls : list string) : Prop :=
  t = String.concat (String "010" "") ls /\ ls <> [] /\ Forall (Chars (fun c => c <> "010"%char)) ls.
(** What is at the start of each line of a message, on a terminal and elsewhere. *)
Definition head_of (tty : bool) (k p : string) : option string :=
  if tty then
    match colour_name k with
    | Some n => Some (in_colour "37;40" "gyp" ++ " " ++ n ++ " " ++ (if String.eqb p "" then "" else in_colour "35" p ++ " "))
    | None => None
    end
  else
    match plain_name k with
    | Some n => Some ("gyp " ++ n ++ " " ++ (if String.eqb p "" then "" else p ++ " "))
    | None => None
    end.
(** [w] is the message, each line of it behind the head. *)
Definition looks (tty : bool) (m : string * string * string) (w : string) : Prop :=
  let '(k, p, t) := m in
  exists h ls bodies, head_of tty k p = Some h /\ lines_of t ls /\ Forall2 stripped ls bodies /\
    w = String.concat "" (map (fun b => h ++ b ++ String "010" "") bodies).

(** The words in front of the texts have no white space around them. *)
Definition neat (p : string) : Prop := stripped p p.
Definition neat_prefixes (h : list event) : Prop := forall k p t, In (Log k p t) h -> neat p.

(** ** the level of a run: that of the command line, or else that of npm, or else info *)
Definition level_of_run (env : list (string * string)) (option : string) : string :=
  if String.eqb option "" then match assoc "npm_config_loglevel" env with Some s => s | None => "info" end else option.
