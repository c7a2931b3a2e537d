(** What node-gyp writes to standard output: bin/node-gyp.js:33-40 and 71-106,
    lib/list.js, and log.stdout of lib/log.js:174.

    Simplifications: strings are byte strings; console.log writes its arguments, which
    are strings, with blanks between them and a newline, so an argument that is a
    conversion for util.format is not modelled if others follow (one character is none).
    A command is a function of what was run before it, as in Model_Cli; what the programs
    write that node-gyp starts is not modelled. *)
From Verif Require Import Lib Model_Cli.
Local Open Scope string_scope.

(** What fs.readdir gives for the directory of development files. *)
Inductive listing := Names (l : list string) | Error (code : string).
(** What the promise of a command resolves with: undefined or null, a string, or an
    array of strings; or how it ends otherwise. *)
Inductive value := Nothing | Text (s : string) | Array (l : list string).
Inductive outcome := Gives (v : value) | Throws | Never.

(** lib/list.js:6-24 *)
Definition list_command (dir : listing) : outcome :=
  match dir with
  | Names l => Gives (Array (filter (fun v => negb (String.eqb v "current")) l))
  | Error code => if String.eqb code "ENOENT" then Gives (Array []) else Throws
  end.

(** console.log *)
Definition console_log (args : list string) : string := String.concat " " args ++ String "010" "".
(** [...s] for a string *)
Fixpoint characters (s : string) : list string := match s with "" => [] | String c s' => String c "" :: characters s' end.
Definition notice : string := "No node development files installed. Use `node-gyp install` to install a version.".
(** bin/node-gyp.js:81-91: [await ... ?? []], and what is printed *)
Definition print_value (name : string) (v : value) : list string :=
  if String.eqb name "list" then
    match v with
    | Nothing => [console_log [notice]]
    | Array [] => [console_log [notice]]
    | Array l => map (fun version => console_log [version]) l
    | Text _ => []  (* list gives no string *)
    end
  else
    match v with
    | Nothing => []
    | Array l => if Nat.leb 1 (length l) then [console_log (tl l)] else []
    | Text s => if Nat.leb 1 (String.length s) then [console_log (tl (characters s))] else []
    end.

(** 71-106: run, with what is written *)
Definition outcomes := list task -> task -> outcome.
Definition more := list task -> task -> list task.
Fixpoint run_printing (fuel : nat) (w : outcomes) (pushes : more) (todo hist : list task) (out : list string) : option (list string * nat) :=
  match fuel with
  | O => None
  | S fuel' =>
    match todo with
    | [] => Some (out, 0)
    | c :: todo' =>
      match w hist c with
      | Gives v => run_printing fuel' w pushes (todo' ++ pushes hist c)%list (hist ++ [c])%list (out ++ print_value (fst c) v)%list
      | Throws => Some (out, 1)
      | Never => Some (out, 6)
      end
    end
  end.

(** 33-40, and the start of run: [null] is NODE_GYP_NULL_LOGGER, with which log.stdout
    does nothing *)
Definition main (null : bool) (version usage : string) (argv : list string) (fuel : nat) (w : outcomes) (pushes : more) (todo : list task) : option (list string * nat) :=
  let quiet (o : list string) := if null then [] else o in
  match todo with
  | [] => Some (quiet [console_log [if mem "-v" argv || mem "--version" argv then "v" ++ version else usage]], 0)
  | _ => match run_printing fuel w pushes todo [] [] with Some (o, code) => Some (quiet o, code) | None => None end
  end.
