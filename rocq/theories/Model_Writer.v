(** Model of the rules that the make generator writes:
    gyp/pylib/gyp/generator/make.py:830-960 (MakefileWriter.Write) and what it
    calls, and 2405-2745 (GenerateOutput).  For flavor linux, so without bundles,
    postbuilds, precompiled headers and Xcode's environment.

    The rules are given as make has them once the lines are read: the variables
    $(OBJS), action_NAME_outputs, rule_NAME_outputs, NAME_copies, $(TARGET) and
    $(TOOLSET) stand in the rules for what they were defined as just before, so the
    model has their values there.  Simplification: names of files have no blanks,
    as the assertions want it for most of them, so QuoteSpaces (755) changes
    nothing. *)
From Verif Require Import Lib Str Model_Names Model_Path Model_Graph Model_Release Model_Quote.
Local Open Scope string_scope.

(** s.replace(p, by); [skip] is what is left of the present occurrence. *)
Fixpoint replace_from (p by_ : string) (skip : nat) (s : string) : string :=
  match s with
  | EmptyString => ""
  | String a s' =>
    match skip with
    | S k => replace_from p by_ k s'
    | O => if String.prefix p s then by_ ++ replace_from p by_ (String.length p - 1) s' else String a (replace_from p by_ 0 s')
    end
  end.
Definition replace (p by_ s : string) : string := replace_from p by_ 0 s.
(** p in s *)
Fixpoint contains (p s : string) : bool :=
  String.prefix p s || match s with EmptyString => false | String _ s' => contains p s' end.
Definition ends_with (e s : string) : bool := String.prefix e (substring (String.length s - String.length e) (String.length e) s) && Nat.leb (String.length e) (String.length s).
(** os.path.splitext: the last period, unless it is in a directory or only periods
    are before it. *)
Fixpoint only_dots (s : string) : bool := match s with EmptyString => true | String a s' => Ascii.eqb a "." && only_dots s' end.
Definition splitext (p : string) : string * string :=
  let '(d, b) := match rsplit1 "/" p with Some (d, b) => (d ++ "/", b) | None => ("", p) end in
  match rsplit1 "." b with Some (r, e) => if only_dots r then (p, "") else (d ++ r, "." ++ e) | None => (p, "") end.

(** The parts of a target that are used (make.py:845-920, 1036-1308, 1578-1632). *)
Inductive kind := Executable | Static_library | Shared_library | Loadable_module | None_.
Record action := { action_name : string; action_inputs : list string; action_outputs : list string; action_command : list string; outputs_are_sources : bool }.
Record rule := { rule_name : string; rule_sources : list string; rule_inputs : list string; rule_outputs : list string; rule_command : list string; rule_outputs_are_sources : bool }.
Record copy := { copy_files : list string; destination : string }.
Record target := {
  qualified : string; target_name : string; type : kind; toolset : string; path : string;
  dependencies : list string; sources : list string; actions : list action; rules : list rule; copies : list copy;
  product_prefix : option string; product_name : option string; product_extension : option string; product_dir : option string; standalone : bool }.

(** 675-693 *)
Definition extensions : list (string * string) := [(".c", "cc"); (".cc", "cxx"); (".cpp", "cxx"); (".cxx", "cxx"); (".s", "cc"); (".S", "cc")].
Definition compilable (f : string) : bool := existsb (fun e => ends_with (fst e) f) extensions.
(** 701-703: Target *)
Definition object_name (f : string) : string := fst (splitext f) ++ ".o".
(** Immediate expansion of what is set in front of each target (888-889). *)
Definition expand (t : target) (s : string) : string := replace "$(TARGET)" (target_name t) (replace "$(TOOLSET)" (toolset t) s).
(** 2311-2318: Objectify *)
Definition objectify (t : target) (p : string) : string :=
  let p := if contains "$(" p then replace "$(obj)/" ("$(obj)." ++ toolset t ++ "/$(TARGET)/") p else p in
  if contains "$(obj)" p then p else "$(obj)." ++ toolset t ++ "/$(TARGET)/" ++ p.
(** 2331-2340: Absolutify *)
Definition absolutify (t : target) (p : string) : string := if contains "$(" p then rstrip "/" p else normpath (path_join (path t) p).
(** 749-755: Sourceify, with the prefix that is set if there is a
    --generator-output (2447), as node-gyp always gives one. *)
Definition sourceify (p : string) : string := if contains "$(" p then p else if isabs p then p else "$(srcdir)/" ++ p.
Definition input (t : target) (p : string) : string := expand t (sourceify (absolutify t p)).
Definition output (t : target) (p : string) : string := expand t (absolutify t p).
(** 1432-1433; the object and the source it is made from. *)
Definition object_of (t : target) (source : string) : string := expand t (objectify t (absolutify t (object_name source))).
(** 2342-2349: ExpandInputRoot; simplification: no other percent signs. *)
Definition expand_input_root (template root dir : string) : string := replace "%(INPUT_DIRNAME)s" dir (replace "%(INPUT_ROOT)s" root template).
(** 1145-1152 *)
Definition rule_outputs_for (r : rule) (source : string) : list string :=
  map (fun o => expand_input_root o (fst (splitext (snd (path_split source)))) (fst (path_split source))) (rule_outputs r).

(** 1578-1608: ComputeOutputBasename; [:3] == "lib" *)
Definition without_lib (s : string) : string := match after_prefix "lib" s with Some r => r | None => s end.
Definition output_basename (t : target) : string :=
  let '(prefix, name, ext) :=
    match type t with
    | Static_library => ("lib", without_lib (target_name t), ".a")
    | Shared_library | Loadable_module => ("lib", without_lib (target_name t), ".so")
    | None_ => ("", target_name t ++ ".stamp", "")
    | Executable => ("", target_name t, "")
    end in
  match product_prefix t with Some p => p | None => prefix end ++ match product_name t with Some n => n | None => name end ++
  match product_extension t with Some (String a e) => "." ++ String a e | _ => ext end.
(** 1618-1630: ComputeOutput *)
Definition binary (t : target) : string :=
  expand t (path_join (match product_dir t with Some d => d | None => match type t with Executable => "$(builddir)" | _ => path_join ("$(obj)." ++ toolset t) (path t) end end) (output_basename t)).
(** 876-886, 2352-2361 *)
Definition installable (t : target) : bool := match type t with Executable | Loadable_module | Shared_library => true | _ => standalone t end.
Definition install_path (t : target) : string := if installable t then "$(builddir)/" ++ snd (path_split (binary t)) else binary t.
Definition alias (t : target) : string := if installable t then snd (path_split (binary t)) else binary t.

(** A line of a recipe: $(call do_cmd,NAME), with the flag for depfiles or without;
    the archives (1880-1903); @: *)
Inductive line := Do (command : string) | Do_tracked (command : string) | Archive (thin : bool) | No_op.
(** A rule of the Makefile; prerequisites, those that are order-only,
    FORCE_DO_CMD. *)
Record written := { heads : list string; needs : list string; orders : list string; forced : bool; recipe : list line }.

(** 743: [^a-zA-Z0-9_] *)
Definition word_char (a : ascii) : bool := in_range "a" "z" a || in_range "A" "Z" a || in_range "0" "9" a || Ascii.eqb a "_".
Fixpoint variable_name (s : string) : string := match s with EmptyString => "" | String a s' => String (if word_char a then a else "_") (variable_name s') end.
Definition action_variable (t : target) (name : string) : string := variable_name (qualified t ++ "_" ++ name).

Section Writer.
(** hashlib.sha1(...).hexdigest() *)
Variable sha1 : string -> string.

(** 2112-2181: WriteMakeRule *)
Definition write_rule (outputs inputs : list string) (lines : list line) (order_only force : bool) (command : string) : list written :=
  if order_only then [{| heads := outputs; needs := []; orders := inputs; forced := force; recipe := lines |}]
  else match outputs with
       | [o] => [{| heads := [o]; needs := inputs; orders := []; forced := force; recipe := lines |}]
       | _ => let i := sha1 command ++ ".intermediate" in
              [{| heads := outputs; needs := [i]; orders := []; forced := false; recipe := [No_op] |};
               {| heads := [i]; needs := inputs; orders := []; forced := force; recipe := Do "touch" :: lines |}]
       end.
Definition write_order (outputs inputs : list string) : list written := write_rule outputs inputs [] true false "".
(** 2083-2110: WriteDoCmd; what it adds to all_deps is in [tracked] below. *)
Definition write_do_cmd (outputs inputs : list string) (command : string) : list written := write_rule outputs inputs [Do command] false true command.
Definition write_phony (outputs inputs : list string) : list written := write_rule outputs inputs [] false false "".

(** 1010-1119: WriteActions *)
Definition write_action (t : target) (a : action) : list written :=
  write_do_cmd (map (output t) (action_outputs a)) (map (input t) (action_inputs a)) (action_variable t (action_name a)).
(** 1121-1275: WriteRules; no FORCE_DO_CMD *)
Definition write_rule_source (t : target) (r : rule) (number : nat) (source : string) : list written :=
  let command := action_variable t (rule_name r) ++ "_" ++ decimal (N.of_nat number) in
  write_rule (map (output t) (rule_outputs_for r source)) (map (input t) (source :: rule_inputs r)) [Do command] false false command.
Fixpoint write_rule_sources (t : target) (r : rule) (number : nat) (l : list string) : list written :=
  match l with [] => [] | s :: l' => (write_rule_source t r number s ++ write_rule_sources t r (S number) l')%list end.
(** 1277-1315: WriteCopies *)
Definition copy_output (t : target) (c : copy) (f : string) : string := input t (path_join (destination c) (snd (path_split (sourceify (absolutify t f))))).
Definition write_copy (t : target) (c : copy) : list written := flat_map (fun f => write_do_cmd [copy_output t c f] [input t f] "copy") (copy_files c).

(** What these fill in: extra_outputs, extra_sources. *)
Definition action_files (t : target) (a : action) : list string := map (output t) (action_outputs a).
Definition rule_files (t : target) (r : rule) : list string := flat_map (fun s => map (output t) (rule_outputs_for r s)) (rule_sources r).
Definition copy_files_of (t : target) (c : copy) : list string := map (copy_output t c) (copy_files c).
Definition generated (t : target) : list string := (flat_map (action_files t) (actions t) ++ flat_map (rule_files t) (rules t) ++ flat_map (copy_files_of t) (copies t))%list.
Definition has_generated (t : target) : bool := match actions t, rules t, copies t with [], [], [] => false | _, _, _ => true end.
Definition extra_sources (t : target) : list string :=
  (flat_map (fun a => if outputs_are_sources a then action_outputs a else []) (actions t) ++
   flat_map (fun r => if rule_outputs_are_sources r then flat_map (rule_outputs_for r) (rule_sources r) else []) (rules t))%list.
Definition compiled (t : target) : list string := filter compilable (sources t ++ extra_sources t).
Definition objects (t : target) : list string := map (object_of t) (compiled t).
(** 696-698, 1534: objects among the sources are linked; as they are written, without
    the directory of the build file. *)
Definition linkable (f : string) : bool := ends_with ".o" f.
Definition linked (t : target) : list string := map (expand t) (filter linkable (sources t ++ extra_sources t)).

(** 1375-1540: WriteSources.  The rules of the objects themselves are the pattern
    rules of 783-822 and 625-641; simplification: here the one that goes with the
    source; which one make takes is the subject of another model. *)
Definition compiler (source : string) : string := match assoc (snd (splitext source)) extensions with Some c => c | None => "" end.
Definition write_object (t : target) (source : string) : list written :=
  [{| heads := [object_of t source]; needs := [input t source]; orders := []; forced := true; recipe := [Do_tracked (compiler source)] |}].
Definition write_sources (t : target) (deps : list string) : list written :=
  ((match deps with [] => [] | _ => write_order (objects t) deps end) ++
   (if has_generated t then write_order (objects t) (generated t) else []) ++
   flat_map (write_object t) (compiled t))%list.

(** 1693-2066: WriteTarget *)
Definition write_binary (t : target) (deps link_deps : list string) : list written :=
  match type t with
  | Executable => write_do_cmd [binary t] link_deps "link"
  | Static_library => write_rule [binary t] link_deps [Archive (negb (standalone t))] false false ""
  | Shared_library => write_do_cmd [binary t] link_deps "solink"
  | Loadable_module => write_do_cmd [binary t] link_deps "solink_module"
  | None_ => write_do_cmd [binary t] deps "touch"
  end.
Definition write_final (t : target) (deps link_deps : list string) (part_of_all : bool) : list written :=
  ((if has_generated t then write_order [binary t] (generated t) ++ write_order (generated t) deps else []) ++
   write_binary t deps link_deps ++
   (if negb (String.eqb (binary t) (target_name t)) && negb (match type t with Executable | Loadable_module | Shared_library => true | _ => false end)
    then write_phony [target_name t] [binary t] ++ (if part_of_all then write_phony ["all"] [target_name t] else []) else []) ++
   (if installable t then
      write_phony [target_name t] [install_path t] ++
      (if String.eqb (install_path t) (binary t) then [] else write_do_cmd [install_path t] [binary t] "copy") ++
      (if String.eqb (alias t) (binary t) || String.eqb (alias t) (target_name t) then []
       else write_phony [alias t] (binary t :: if String.eqb (install_path t) (binary t) then [] else [install_path t])) ++
      (if part_of_all then write_phony ["all"] [install_path t] else [])
    else []))%list.

(** 830-960: Write; [deps] and [link_deps] are what ComputeDeps (1645-1670) makes
    of target_outputs and target_link_deps. *)
Definition write_all (t : target) (deps link_deps : list string) (part_of_all : bool) : list written :=
  (flat_map (write_action t) (actions t) ++
   flat_map (fun r => write_rule_sources t r 0 (rule_sources r)) (rules t) ++
   flat_map (write_copy t) (copies t) ++
   (match sources t ++ extra_sources t with [] => [] | _ => write_sources t deps end) ++
   write_final t deps (objects t ++ linked t ++ link_deps) part_of_all)%list.
(** The targets whose depfiles are read: all_deps (2107, 1211, 1442). *)
Definition tracked (t : target) : list string :=
  (flat_map (action_files t) (actions t) ++ flat_map (rule_files t) (rules t) ++ flat_map (copy_files_of t) (copies t) ++ objects t ++
   (match type t with Static_library => [] | _ => [binary t] end) ++
   (if installable t && negb (String.eqb (install_path t) (binary t)) then [install_path t] else []))%list.

(** target_outputs and target_link_deps; None is a KeyError (1655). *)
Record known := { outputs_of : list (string * string); links_of : list (string * string) }.
Fixpoint all_known (k : known) (l : list string) : option (list string) :=
  match l with [] => Some [] | d :: l' => match assoc d (outputs_of k), all_known k l' with Some o, Some os => Some (if String.eqb o "" then os else o :: os) | _, _ => None end end.
Definition known_links (k : known) (l : list string) : list string := flat_map (fun d => match assoc d (links_of k) with Some o => [o] | None => [] end) l.
Definition compute_deps (k : known) (t : target) : option (list string * list string) :=
  option_map (fun os => let ls := known_links k (dependencies t) in (unify (os ++ ls), unify ls)) (all_known k (dependencies t)).
Definition learn (k : known) (t : target) : known :=
  {| outputs_of := (qualified t, install_path t) :: outputs_of k;
     links_of := (match type t with Static_library | Shared_library => [(qualified t, binary t)] | _ => [] end ++ links_of k)%list |}.
(** An assertion fails, or there is no first output: 1096, 1106-1113, 1163, 1220,
    1437, 1876, 1944. *)
Definition acceptable (t : target) : bool :=
  forallb (fun a => match action_outputs a with [] => false | _ => true end && negb (existsb (has_char " ") (action_inputs a ++ map (absolutify t) (action_outputs a)))) (actions t) &&
  forallb (fun r => match rule_sources r, rule_outputs r with [], _ => true | _, [] => false | _, _ => true end) (rules t) &&
  negb (existsb (has_char " ") (map (fun c => objectify t (absolutify t (object_name c))) (compiled t))).
(** 2640-2705: the targets in order. *)
Fixpoint generate (needed : string -> bool) (k : known) (ts : list target) : option (list written) :=
  match ts with
  | [] => Some []
  | t :: ts' =>
    if acceptable t then
      match compute_deps k t with
      | Some (deps, link_deps) => option_map (app (write_all t deps link_deps (needed (qualified t)))) (generate needed (learn k t) ts')
      | None => None
      end
    else None
  end.
Definition makefile (needed : string -> bool) (ts : list target) : option (list written) := generate needed {| outputs_of := []; links_of := [] |} ts.
End Writer.
