(** Model of the command line: lib/node-gyp.js:10-20, 67-70, 95-122 (parseArgv,
    after nopt has taken the options out), lib/rebuild.js and the loop of
    bin/node-gyp.js:71-106.  nopt itself is not modelled: the input is
    opts.argv.remain. *)
From Verif Require Import Lib Model_Value.
Local Open Scope string_scope.

(** ** lib/node-gyp.js: parseArgv *)

(** What an element of the argument list can be: a string, or the value that
    every object inherits under that name. *)
Inductive word := Word (s : string) | Inherited (s : string).
Definition word_eqb (a b : word) : bool :=
  match a, b with Word x, Word y => String.eqb x y | Inherited x, Inherited y => String.eqb x y | _, _ => false end.

(** The properties of Object.prototype, which the [in] operator also finds. *)
Definition inherited_names : list string :=
  ["constructor"; "__defineGetter__"; "__defineSetter__"; "hasOwnProperty"; "__lookupGetter__"; "__lookupSetter__"; "isPrototypeOf";
   "propertyIsEnumerable"; "toString"; "valueOf"; "__proto__"; "toLocaleString"].
(** node-gyp.js:9-19 *)
Definition command_names : list string := ["build"; "clean"; "configure"; "rebuild"; "install"; "list"; "remove"].
(** node-gyp.js:67-70 *)
Definition aliases : list (string * string) := [("ls", "list"); ("rm", "remove")].

(** The string a value is turned into when used as a property name. *)
Definition key_of (w : word) : string :=
  match w with
  | Word s => s
  | Inherited s =>
    if String.eqb s "__proto__" then "[object Object]"
    else "function " ++ (if String.eqb s "constructor" then "Object" else s) ++ "() { [native code] }"
  end.
(** [w in object], the object having the given own properties. *)
Definition js_in (own : list string) (w : word) : bool := mem (key_of w) own || mem (key_of w) inherited_names.

(** node-gyp.js:101-107 *)
Definition unalias (s : string) : word :=
  if js_in (map fst aliases) (Word s) then match assoc s aliases with Some t => Word t | None => Inherited s end else Word s.

Fixpoint index_of (w : word) (l : list word) : option nat :=
  match l with
  | [] => None
  | x :: l' => if word_eqb x w then Some 0 else option_map S (index_of w l')
  end.
Definition command := (word * list word)%type.
(** commands[commands.length - 1].args = args, if there is one *)
Fixpoint set_last_args (args : list word) (cs : list command) : list command :=
  match cs with
  | [] => []
  | [(n, _)] => [(n, args)]
  | c :: cs' => c :: set_last_args args cs'
  end.
(** node-gyp.js:110-118: one call of the forEach function. *)
Definition parse_word (st : list word * list command) (arg : word) : list word * list command :=
  let '(argv, commands) := st in
  if js_in command_names arg then
    let n := match index_of arg argv with Some n => n | None => 0 end in
    (tl (skipn n argv), set_last_args (firstn n argv) commands ++ [(arg, [])])%list
  else st.
(** node-gyp.js:95-122 *)
Definition parse_argv (remain : list string) : list command :=
  let argv := map unalias remain in
  let '(rest, commands) := fold_left parse_word argv (argv, []) in
  set_last_args rest commands.

(** ** bin/node-gyp.js: running the queue *)

Definition task := (string * list string)%type.
(** How a command function ends: its promise resolves, rejects, or never
    settles. *)
Inductive ending := Resolves | Rejects | Hangs.
(** [ends hist c]: how [c] ends after [hist] has been run. *)
Definition world := list (task * ending) -> task -> ending.
(** [denied hist c]: whether [c] runs into install.js:389-391 (no permission
    for the development directory, and running in the temporary directory). *)
Definition denials := list (task * ending) -> task -> bool.

(** What a command appends to gyp.todo: lib/rebuild.js:4-8; lib/install.js:390,
    reached from the install command and from configure.js:79. *)
Definition pushed (denied : denials) (hist : list (task * ending)) (c : task) : list task :=
  let '(name, args) := c in
  if String.eqb name "rebuild" then [("clean", []); ("configure", args); ("build", [])]
  else if (String.eqb name "install" || String.eqb name "configure") && denied hist c then [("remove", args)]
  else [].

(** bin/node-gyp.js:71-106 and 108-114: the commands run, in order, and the
    exit code. *)
Fixpoint run (fuel : nat) (w : world) (denied : denials) (todo : list task) (hist : list (task * ending)) : option (list (task * ending) * nat) :=
  match fuel with
  | O => None
  | S fuel' =>
    match todo with
    | [] => Some (hist, 0)
    | c :: todo' =>
      match w hist c with
      | Resolves => run fuel' w denied (todo' ++ pushed denied hist c)%list (hist ++ [(c, Resolves)])%list
      | Rejects => Some ((hist ++ [(c, Rejects)])%list, 1)
      | Hangs => Some ((hist ++ [(c, Hangs)])%list, 6)
      end
    end
  end.
(** A bound on the number of commands run. *)
Definition task_weight (c : task) : nat :=
  if String.eqb (fst c) "rebuild" then 5 else if String.eqb (fst c) "install" || String.eqb (fst c) "configure" then 2 else 1.
Definition run_all (w : world) (denied : denials) (todo : list task) : option (list (task * ending) * nat) :=
  run (S (fold_right (fun c n => task_weight c + n) 0 todo)) w denied todo [].
