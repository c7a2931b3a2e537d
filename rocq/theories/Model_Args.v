(** Model of gyp's command line: the options of gyp/pylib/gyp/__init__.py:344-489
    as argparse (a library the code calls) reads them, gyp_main's use of them
    (490-640), and RegenerateFlags (184-299). *)
From Coq Require Import ZArith.
From Verif Require Import Lib Str Model_Path.
Local Open Scope string_scope.

(** gyp/__init__.py:348-488, and argparse's own -h. *)
Inductive opt := Help | Build | Check | Config_dir | Debug | Define | Depth | Format | Flag | Output | Ignore_environment
  | Include | No_circular_check | No_parallel | Suffix | Toplevel | Root | Version.
Definition option_strings : list (string * opt) :=
  [("-h", Help); ("--help", Help); ("--build", Build); ("--check", Check); ("--config-dir", Config_dir); ("-d", Debug); ("--debug", Debug);
   ("-D", Define); ("--depth", Depth); ("-f", Format); ("--format", Format); ("-G", Flag); ("--generator-output", Output);
   ("--ignore-environment", Ignore_environment); ("-I", Include); ("--include", Include); ("--no-circular-check", No_circular_check);
   ("--no-parallel", No_parallel); ("-S", Suffix); ("--suffix", Suffix); ("--toplevel-dir", Toplevel); ("-R", Root); ("--root-target", Root);
   ("-V", Version); ("--version", Version)].
(** action "store" and "append" against "store_true" and "store_false" *)
Definition takes_value (o : opt) : bool :=
  match o with Help | Check | Ignore_environment | No_circular_check | No_parallel | Version => false | _ => true end.

(** s.split(c, 1), if there is a c *)
Fixpoint split1 (c : ascii) (s : string) : option (string * string) :=
  match s with
  | EmptyString => None
  | String a s' => if Ascii.eqb a c then Some ("", s') else match split1 c s' with Some (x, y) => Some (String a x, y) | None => None end
  end.
Fixpoint prefix_of (p s : string) : bool :=
  match p, s with
  | EmptyString, _ => true
  | String a p', String b s' => Ascii.eqb a b && prefix_of p' s'
  | _, EmptyString => false
  end.
Definition is_digit (a : ascii) : bool := let n := N_of_ascii a in N.leb 48 n && N.leb n 57.
Fixpoint all_digits (s : string) : bool := match s with EmptyString => true | String a s' => is_digit a && all_digits s' end.
(** argparse: '^-\d+$|^-\d*\.\d+$'.  Simplification: ASCII digits; a newline at
    the end is not passed over. *)
Definition negative_number (s : string) : bool :=
  match s with
  | String "-" r =>
    match split1 "." r with
    | None => negb (String.eqb r "") && all_digits r
    | Some (x, y) => all_digits x && negb (String.eqb y "") && all_digits y
    end
  | _ => false
  end.

(** argparse.ArgumentParser._parse_optional and _get_option_tuples: what one
    argument is. *)
Inductive kind := Word | Known (o : opt) (value : option string) | Unknown | Ambiguous.
(** Long options may be cut short. *)
Definition abbreviated (p : string) (value : option string) : list (opt * option string) :=
  map (fun e => (snd e, value)) (filter (fun e => prefix_of p (fst e)) option_strings).
(** A short option may have its value attached. *)
Definition attached (s : string) : list (opt * option string) :=
  match s with
  | String a (String b v) => match assoc (String a (String b "")) option_strings with Some o => [(o, Some v)] | None => [] end
  | _ => []
  end.
Definition option_tuples (s : string) : list (opt * option string) :=
  match s with
  | String "-" (String "-" _) => match split1 "=" s with Some (p, v) => abbreviated p (Some v) | None => abbreviated s None end
  | _ => attached s
  end.
Definition classify (s : string) : kind :=
  match s with
  | String "-" (String _ _) =>
    match assoc s option_strings with
    | Some o => Known o None
    | None =>
      match match split1 "=" s with Some (p, v) => option_map (fun o => (o, v)) (assoc p option_strings) | None => None end with
      | Some (o, v) => Known o (Some v)
      | None =>
        match option_tuples s with
        | [(o, v)] => Known o v
        | _ :: _ => Ambiguous
        | [] => if negative_number s then Word else if has_char " " s then Word else Unknown
        end
      end
    end
  | _ => Word
  end.

(** argparse.ArgumentParser.parse_known_args; no positional arguments are
    declared, so whatever is not an option is left over.  None where gyp does
    not go on: an error, or -h, or -V (whether the rest of the line is in order
    then does not matter). *)
Inductive event := Given (o : opt) (v : string) | On (o : opt) | Left (s : string).
Definition also (e : event) (r : option (list event)) : option (list event) := option_map (cons e) r.
Fixpoint parse (args : list string) : option (list event) :=
  match args with
  | [] => Some []
  | a :: rest =>
    if String.eqb a "--" then Some (map Left args)
    else match classify a with
         | Word | Unknown => also (Left a) (parse rest)
         | Ambiguous => None
         | Known o (Some v) => if takes_value o then also (Given o v) (parse rest) else None
         | Known o None =>
           if takes_value o then
             match rest with
             | v :: rest' => if String.eqb v "--" then None else match classify v with Word => also (Given o v) (parse rest') | _ => None end
             | [] => None
             end
           else match o with Help | Version => None | _ => also (On o) (parse rest) end
         end
  end.

Scheme Equality for opt.
(** The options object; None and an empty list are not told apart. *)
Fixpoint given (o : opt) (es : list event) : list string :=
  match es with
  | [] => []
  | Given o' v :: es' => if opt_beq o o' then v :: given o es' else given o es'
  | _ :: es' => given o es'
  end.
Fixpoint left_over (es : list event) : list string := match es with [] => [] | Left s :: es' => s :: left_over es' | _ :: es' => left_over es' end.
Definition is_on (o : opt) (es : list event) : bool := existsb (fun e => match e with On o' => opt_beq o o' | _ => false end) es.
Definition stored (o : opt) (es : list event) : option string := match rev (given o es) with v :: _ => Some v | [] => None end.
Record options := { configs : list string; check : bool; config_dir : option string; debug : list string; defines : list string;
  depth : option string; formats : list string; flags : list string; output : option string; use_environment : bool; includes : list string;
  circular_check : bool; parallel : bool; suffix : option string; toplevel_dir : option string; root_targets : list string }.
Definition options_of (es : list event) : options :=
  {| configs := given Build es; check := is_on Check es; config_dir := stored Config_dir es; debug := given Debug es; defines := given Define es;
     depth := stored Depth es; formats := given Format es; flags := given Flag es; output := stored Output es;
     use_environment := negb (is_on Ignore_environment es); includes := given Include es; circular_check := negb (is_on No_circular_check es);
     parallel := negb (is_on No_parallel es); suffix := stored Suffix es; toplevel_dir := stored Toplevel es; root_targets := given Root es |}.

(** GYP_CONFIG_DIR, GYP_GENERATOR_OUTPUT, and GYP_DEFINES and
    GYP_GENERATOR_FLAGS after shlex.split.  GYP_GENERATORS after re.split. *)
Record environment := { env_config_dir : option string; env_output : option string; env_defines : list string; env_flags : list string; env_generators : list string }.
Definition no_environment : environment := {| env_config_dir := None; env_output := None; env_defines := []; env_flags := []; env_generators := [] |}.
Definition truth (s : option string) : option string := match s with Some (String _ _) => s | _ => None end.

(** Python's int(s), for ASCII. *)
(** digits, with single underscores between them; [seen] is whether the last
    character was a digit *)
Fixpoint py_digits (seen : bool) (n : Z) (s : string) : option Z :=
  match s with
  | EmptyString => if seen then Some n else None
  | String a s' => if is_digit a then py_digits true (10 * n + (Z.of_N (N_of_ascii a) - 48)) s'
                   else if Ascii.eqb a "_" && seen then py_digits false n s' else None
  end.
Definition py_int (s : string) : option Z :=
  match strip s with
  | String "-" r => option_map Z.opp (py_digits false 0 r)
  | String "+" r => py_digits false 0 r
  | r => py_digits false 0 r
  end.
(** gyp/__init__.py:184-204 (NameValueListToDict) *)
Inductive setting := Number (n : Z) | Text (s : string) | Yes.
Definition set_setting (k : string) (v : setting) (d : list (string * setting)) : list (string * setting) :=
  if existsb (fun e => String.eqb (fst e) k) d then map (fun e => if String.eqb (fst e) k then (fst e, v) else e) d else (d ++ [(k, v)])%list.
Definition name_value (d : list (string * setting)) (item : string) : list (string * setting) :=
  match split1 "=" item with
  | Some (k, v) => set_setting k (match py_int v with Some n => Number n | None => Text v end) d
  | None => set_setting item Yes d
  end.
Definition name_value_dict (l : list string) : list (string * setting) := fold_left name_value l [].

(** gyp_main, 490-640: what the run goes by.  The search for a "src" directory
    without --depth and the home directory's .gyp are left out. *)
Record run := { run_files : list string; run_formats : list string; run_config_dir : option string; run_output : option string; run_depth : option string;
  run_toplevel : option string; run_defines : list (string * setting); run_flags : list (string * setting); run_includes : list string;
  run_parallel : bool; run_circular_check : bool; run_check : bool; run_debug : list string; run_suffix : option string; run_roots : list string; run_configs : list string }.
(** 524-545, 597-600: gyp_main changes the options object. *)
Definition complete (default_format : string) (env : environment) (o : options) : options :=
  {| configs := configs o; check := check o; config_dir := config_dir o; debug := debug o; defines := defines o; depth := depth o;
     formats := match formats o with
                | [] => match (if use_environment o then env_generators env else []) with [] => [default_format] | l => l end
                | l => l
                end;
     flags := flags o;
     output := match truth (output o) with
               | Some _ => output o
               | None => if use_environment o then match truth (env_output env) with Some g => Some g | None => output o end else output o
               end;
     use_environment := use_environment o; includes := includes o; circular_check := circular_check o; parallel := parallel o; suffix := suffix o;
     toplevel_dir := match truth (toplevel_dir o) with Some _ => toplevel_dir o | None => depth o end; root_targets := root_targets o |}.
Definition run_of (env : environment) (o : options) (files : list string) : run :=
  {| run_files := files; run_formats := formats o;
     run_config_dir := match truth (config_dir o) with Some d => Some d | None => if use_environment o then truth (env_config_dir env) else None end;
     run_output := truth (output o); run_depth := truth (depth o); run_toplevel := truth (toplevel_dir o);
     run_defines := name_value_dict ((if use_environment o then env_defines env else []) ++ defines o)%list;
     run_flags := name_value_dict ((if use_environment o then env_flags env else []) ++ flags o)%list;
     run_includes := includes o; run_parallel := parallel o; run_circular_check := circular_check o; run_check := check o; run_debug := debug o;
     run_suffix := truth (suffix o); run_roots := root_targets o; run_configs := configs o |}.
Definition gyp (default_format : string) (env : environment) (args : list string) : option run :=
  match parse args with
  | None => None
  | Some es => Some (run_of env (complete default_format env (options_of es)) (left_over es))
  end.

(** 214-217 *)
Definition format_opt (o v : string) : string := if prefix_of "--" o then o ++ "=" ++ v else o ++ v.
(** 220-240; list.remove takes the first occurrence away *)
Fixpoint remove_first (x : string) (l : list string) : list string :=
  match l with [] => [] | y :: l' => if String.eqb x y then l' else y :: remove_first x l' end.
Definition append_flags (o : string) (values : list string) (predicate : string -> string) (from_environment : list string) : list string :=
  (fold_left (fun l v => let f := format_opt o (predicate v) in (remove_first f l ++ [f])%list) from_environment [] ++ map (fun v => format_opt o (predicate v)) values)%list.
Definition store_flags (o : string) (value : option string) (predicate : string -> string) (from_environment : option string) : list string :=
  match truth value with
  | Some v => [format_opt o (predicate v)]
  | None => match truth from_environment with Some v => [format_opt o (predicate v)] | None => [] end
  end.
(** 243-299; the options in the order in which they are declared.  None where
    there is no depth to be relative to (FixIfRelativePath raises an error). *)
Definition regenerate_flags (realpath : string -> string) (env : environment) (o : options) : option (list string) :=
  let env_list l := if use_environment o then l else [] in
  let env_one v := if use_environment o then v else None in
  match truth (depth o) with
  | None => None
  | Some d =>
    let fix_path p := match fix_if_relative_path realpath p d with EmptyString => "." | q => q end in
    let noop v := v in
    Some ("--ignore-environment"
      :: append_flags "--build" (configs o) noop []
      ++ (if check o then ["--check"] else [])
      ++ store_flags "--config-dir" (config_dir o) noop (env_one (env_config_dir env))
      ++ append_flags "-d" (debug o) noop []
      ++ append_flags "-D" (defines o) noop (env_list (env_defines env))
      ++ store_flags "--depth" (depth o) fix_path None
      ++ append_flags "-G" (flags o) noop (env_list (env_flags env))
      ++ store_flags "--generator-output" (output o) fix_path (env_one (env_output env))
      ++ append_flags "-I" (includes o) fix_path []
      ++ store_flags "-S" (suffix o) noop None
      ++ store_flags "--toplevel-dir" (toplevel_dir o) fix_path None
      ++ append_flags "-R" (root_targets o) noop [])%list
  end.
(** generator/make.py:2364-2392 (WriteAutoRegenerationRule): the arguments of the
    command with which the Makefile remakes itself, without the program. *)
Definition regeneration_arguments (realpath : string -> string) (env : environment) (o : options) (files : list string) : option (list string) :=
  match regenerate_flags realpath env o, truth (toplevel_dir o) with
  | Some l, Some t => Some ("-fmake" :: l ++ map (fun f => relative_path realpath f t) files)%list
  | _, _ => None
  end.
Definition regeneration (realpath : string -> string) (default_format : string) (env : environment) (args : list string) : option (list string) :=
  match parse args with
  | None => None
  | Some es => regeneration_arguments realpath env (complete default_format env (options_of es)) (left_over es)
  end.
