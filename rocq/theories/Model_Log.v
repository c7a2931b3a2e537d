(** What node-gyp prints as it works: lib/log.js, and the choice of the level in
    lib/node-gyp.js:123-151.

    Simplifications: strings are byte strings, and white space is that of ASCII;
    util.format (162) is not modelled, a message carries the text it makes of its
    arguments; stream.write is taken to write what it is given. *)
From Verif Require Import Lib.
Local Open Scope string_scope.

Definition esc : ascii := "027".
Definition newline : ascii := "010".
Definition return_ : ascii := "013".

(** lib/log.js:13-39: COLORS *)
Definition colour_number (c : string) : option nat :=
  assoc c [("black", 0); ("red", 1); ("green", 2); ("yellow", 3); ("blue", 4); ("magenta", 5); ("cyan", 6); ("white", 7)].
Definition digit (n : nat) : string := String (ascii_of_nat (48 + n)) "".
Definition foreground (c : string) : list string := match colour_number c with Some n => ["3" ++ digit n] | None => [] end.
Definition background (c : string) : list string := match colour_number c with Some n => ["4" ++ digit n] | None => [] end.
Definition wrap (str : string) (codes : list string) : string :=
  String esc ("[" ++ String.concat ";" codes ++ "m" ++ str ++ String esc "[0m").

(** 48-76: #levels; what is not there is the empty string *)
Record style := { fg : string; bg : string; inverse : bool }.
Record level := { id : string; display : string; look : style }.
Definition levels : list level :=
  [{| id := "silly"; display := "sill"; look := {| fg := ""; bg := ""; inverse := true |} |};
   {| id := "verbose"; display := "verb"; look := {| fg := "cyan"; bg := "black"; inverse := false |} |};
   {| id := "info"; display := ""; look := {| fg := "green"; bg := ""; inverse := false |} |};
   {| id := "http"; display := ""; look := {| fg := "green"; bg := "black"; inverse := false |} |};
   {| id := "notice"; display := ""; look := {| fg := "cyan"; bg := "black"; inverse := false |} |};
   {| id := "warn"; display := "WARN"; look := {| fg := "black"; bg := "yellow"; inverse := false |} |};
   {| id := "error"; display := "ERR!"; look := {| fg := "red"; bg := "black"; inverse := false |} |}].
(** 80: the map from names to levels and their indexes *)
Fixpoint numbered (i : nat) (l : list level) : list (string * (nat * level)) :=
  match l with [] => [] | x :: l' => (id x, (i, x)) :: numbered (S i) l' end.
Definition level_map : list (string * (nat * level)) := numbered 0 levels.

(** 42-46: the fields of a Logger; [None] for the level is null *)
Record logger := { buffer : list (string * string * string); paused : bool; current : option string }.
(** 98-100: set level *)
Definition set_level (s : string) (l : logger) : logger :=
  {| buffer := buffer l; paused := paused l; current := match assoc s level_map with Some (_, x) => Some (id x) | None => None end |}.
(** 102-104: isVisible: [undefined <= n] and [n <= undefined] are false, and so never
    [null] or [undefined], for which there would be -1 *)
Definition is_visible (l : logger) (s : string) : bool :=
  match current l with
  | None => false
  | Some c =>
    match assoc c level_map, assoc s level_map with
    | Some (i, _), Some (j, _) => Nat.leb i j
    | _, _ => false
    end
  end.

(** 129-139: #color; [tty] is stream.isTTY *)
Definition color (tty : bool) (str : string) (s : style) : string :=
  if tty then wrap str (foreground (fg s) ++ background (bg s) ++ (if inverse s then ["7"] else []))%list else str.

(** String.prototype.trim *)
Definition white (c : ascii) : bool := let n := nat_of_ascii c in Nat.leb 9 n && Nat.leb n 13 || Nat.eqb n 32.
Fixpoint trim_start (s : string) : string := match s with String c s' => if white c then trim_start s' else s | EmptyString => s end.
Fixpoint trim_end (s : string) : string :=
  match s with
  | EmptyString => ""
  | String c s' => match trim_end s' with EmptyString => if white c then "" else String c "" | t => String c t end
  end.
Definition trim (s : string) : string := trim_end (trim_start s).
(** 162: split(/\r?\n/) *)
Fixpoint split_lines (s : string) : list string :=
  match s with
  | EmptyString => [""]
  | String c s' =>
    if Ascii.eqb c newline then "" :: split_lines s'
    else
      match s' with
      | String d s'' => if Ascii.eqb c return_ && Ascii.eqb d newline then "" :: split_lines s''
                        else match split_lines s' with x :: l => String c x :: l | [] => [String c ""] end
      | EmptyString => [String c ""]
      end
  end.

(** 141-165: #log; [stream] is None if there is none (170-173, as in the tests) *)
Definition write_log (stream : option bool) (l : logger) (m : string * string * string) : list string :=
  let '(levelId, msgPrefix, text) := m in
  match stream with
  | None => []
  | Some tty =>
    if is_visible l levelId then
      match assoc levelId level_map with
      | None => []
      | Some (_, x) =>
        let parts := [color tty "gyp" {| fg := "white"; bg := "black"; inverse := false |};
                      color tty (if String.eqb (display x) "" then id x else display x) (look x)] in
        let parts := if String.eqb msgPrefix "" then parts else (parts ++ [color tty msgPrefix {| fg := "magenta"; bg := ""; inverse := false |}])%list in
        let prefix := trim (String.concat " " parts) ++ " " in
        let lines := map (fun l => prefix ++ trim l) (split_lines text) in
        [String.concat (String newline "") lines ++ String newline ""]
      end
    else []
  end.

(** 106-127: #onLog: the new state, and what is written *)
Definition on_log (stream : option bool) (l : logger) (m : string * string * string) : logger * list string :=
  let '(lv, _, _) := m in
  if String.eqb lv "pause" then ({| buffer := buffer l; paused := true; current := current l |}, [])
  else if String.eqb lv "resume" then
    let l' := {| buffer := buffer l; paused := false; current := current l |} in
    ({| buffer := []; paused := false; current := current l |}, flat_map (write_log stream l') (buffer l))
  else if paused l then ({| buffer := (buffer l ++ [m])%list; paused := paused l; current := current l |}, [])
  else (l, write_log stream l m).

(** 78-84: the constructor, at whose end log.pause() is called *)
Definition new_logger (stream : option bool) : logger :=
  fst (on_log stream (set_level "info" {| buffer := []; paused := false; current := None |}) ("pause", "", "")).

(** What happens to a logger *)
Inductive event := Log (lv prefix text : string) | Level (s : string).
Definition step (stream : option bool) (so : logger * list string) (e : event) : logger * list string :=
  match e with
  | Log lv p t => let '(l, w) := on_log stream (fst so) (lv, p, t) in (l, (snd so ++ w)%list)
  | Level s => (set_level s (fst so), snd so)
  end.
Definition run (stream : option bool) (h : list event) : list string := snd (fold_left (step stream) h (new_logger stream, [])).

(** lib/node-gyp.js:123-151: the events of parseArgv; [env] is process.env, [option] is
    opts.loglevel as nopt leaves it, empty if it is not given *)
Definition parse_argv_events (env : list (string * string)) (option : string) : list event :=
  (flat_map (fun kv => if String.eqb (fst kv) "npm_config_loglevel" then [Level (snd kv)] else []) env ++
   (if String.eqb option "" then [] else [Level option]) ++ [Log "resume" "" ""])%list.
