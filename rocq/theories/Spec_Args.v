(** What a command line for gyp says, from gyp's own help text, and when two
    runs of gyp come to the same. *)
From Coq Require Import ZArith.
From Verif Require Import Lib Str Model_Path Spec_Path Model_Args.
Local Open Scope string_scope.

Definition short_options : list (ascii * opt) := [("h", Help); ("d", Debug); ("D", Define); ("f", Format); ("G", Flag); ("I", Include); ("S", Suffix); ("R", Root); ("V", Version)]%char.
Definition long_options : list (string * opt) :=
  [("help", Help); ("build", Build); ("check", Check); ("config-dir", Config_dir); ("debug", Debug); ("depth", Depth); ("format", Format); ("generator-output", Output);
   ("ignore-environment", Ignore_environment); ("include", Include); ("no-circular-check", No_circular_check); ("no-parallel", No_parallel);
   ("suffix", Suffix); ("toplevel-dir", Toplevel); ("root-target", Root); ("version", Version)].
Definition switches : list opt := [Check; Ignore_environment; No_circular_check; No_parallel].
(** -h and -V end the run. *)
Definition enders : list opt := [Help; Version].
(** A long name may be cut short as long as only one option begins that way. *)
Definition starts_with (p s : string) : Prop := exists t, s = p ++ t.
Definition abbreviates (p : string) (o : opt) : Prop :=
  In (p, o) long_options \/
  ((forall o', ~ In (p, o') long_options) /\ exists n, In (n, o) long_options /\ starts_with p n /\ forall n' o', In (n', o') long_options -> starts_with p n' -> n' = n).
Definition ambiguous_name (p : string) : Prop :=
  (forall o, ~ In (p, o) long_options) /\ exists n o n' o', In (n, o) long_options /\ In (n', o') long_options /\ starts_with p n /\ starts_with p n' /\ n <> n'.
(** An option, with its value attached to a short name or behind an equals sign,
    or without a value. *)
Inductive option_word : string -> opt -> option string -> Prop :=
| ow_short c o : In (c, o) short_options -> option_word (String "-" (String c "")) o None
| ow_attached c o a v : In (c, o) short_options -> a <> "="%char -> option_word (String "-" (String c (String a v))) o (Some (String a v))
| ow_short_equals c o v : In (c, o) short_options -> option_word (String "-" (String c (String "=" v))) o (Some v)
| ow_long p o : has_char "=" p = false -> p <> "" -> abbreviates p o -> option_word ("--" ++ p) o None
| ow_long_equals p o v : has_char "=" p = false -> abbreviates p o -> option_word ("--" ++ p ++ "=" ++ v) o (Some v).
Inductive ambiguous_word : string -> Prop :=
| aw_long p : has_char "=" p = false -> p <> "" -> ambiguous_name p -> ambiguous_word ("--" ++ p)
| aw_long_equals p v : has_char "=" p = false -> ambiguous_name p -> ambiguous_word ("--" ++ p ++ "=" ++ v).
(** Everything else is left over, even where it begins with a dash; but the value
    of an option must not begin with one, unless it is a number or has a space. *)
Definition other_word (w : string) : Prop := w <> "--" /\ (forall o v, ~ option_word w o v) /\ ~ ambiguous_word w.
Definition digit_text (s : string) : Prop := forall a, has_char a s = true -> (48 <= N_of_ascii a <= 57)%N.
Definition negative (s : string) : Prop :=
  (exists d, s = "-" ++ d /\ d <> "" /\ digit_text d) \/ exists d e, s = "-" ++ d ++ "." ++ e /\ digit_text d /\ e <> "" /\ digit_text e.
Definition dashed (s : string) : Prop := exists a t, s = String "-" (String a t).
Definition value_word (w : string) : Prop := other_word w /\ (~ dashed w \/ negative w \/ has_char " " w = true).
Inductive says : list string -> list event -> Prop :=
| sa_end : says [] []
| sa_rest ws : says ("--" :: ws) (map Left ("--" :: ws))
| sa_other w ws es : other_word w -> says ws es -> says (w :: ws) (Left w :: es)
| sa_value w o v ws es : option_word w o (Some v) -> ~ In o switches -> ~ In o enders -> says ws es -> says (w :: ws) (Given o v :: es)
| sa_next w o v ws es : option_word w o None -> ~ In o switches -> ~ In o enders -> value_word v -> says ws es -> says (w :: v :: ws) (Given o v :: es)
| sa_switch w o ws es : option_word w o None -> In o switches -> says ws es -> says (w :: ws) (On o :: es).

(** Whole numbers as Python reads them: blanks around, a sign, digits in groups
    joined by underscores. *)
Definition blank (a : ascii) : Prop := (9 <= N_of_ascii a <= 13)%N \/ (28 <= N_of_ascii a <= 32)%N.
Fixpoint every (P : ascii -> Prop) (s : string) : Prop := match s with EmptyString => True | String a s' => P a /\ every P s' end.
Inductive digits_read : Z -> string -> Z -> Prop :=
| dr_last a n : (48 <= N_of_ascii a <= 57)%N -> digits_read n (String a "") (10 * n + (Z.of_N (N_of_ascii a) - 48))
| dr_next a n s m : (48 <= N_of_ascii a <= 57)%N -> digits_read (10 * n + (Z.of_N (N_of_ascii a) - 48)) s m -> digits_read n (String a s) m
| dr_underscore a n s m : (48 <= N_of_ascii a <= 57)%N -> digits_read (10 * n + (Z.of_N (N_of_ascii a) - 48)) s m -> digits_read n (String a (String "_" s)) m.
Inductive whole_number : string -> Z -> Prop :=
| wn_plain b s e n : every blank b -> every blank e -> digits_read 0 s n -> whole_number (b ++ s ++ e) n
| wn_plus b s e n : every blank b -> every blank e -> digits_read 0 s n -> whole_number (b ++ "+" ++ s ++ e) n
| wn_minus b s e n : every blank b -> every blank e -> digits_read 0 s n -> whole_number (b ++ "-" ++ s ++ e) (- n).
(** What a definition means: NAME=VALUE, where a number is a number, or NAME. *)
Inductive defines_as : string -> string -> setting -> Prop :=
| da_number k t n : has_char "=" k = false -> whole_number t n -> defines_as (k ++ "=" ++ t) k (Number n)
| da_text k t : has_char "=" k = false -> (forall n, ~ whole_number t n) -> defines_as (k ++ "=" ++ t) k (Text t)
| da_yes k : has_char "=" k = false -> defines_as k k Yes.
(** The last one counts. *)
Definition last_says (l : list string) (k : string) (v : setting) : Prop :=
  exists a item b, l = (a ++ item :: b)%list /\ defines_as item k v /\ forall i w, In i b -> ~ defines_as i k w.

(** What a run goes by. *)
Definition lefts (es : list event) : list string := flat_map (fun e => match e with Left s => [s] | _ => [] end) es.
Definition values (o : opt) (es : list event) : list string := flat_map (fun e => match e with Given o' v => if opt_eq_dec o o' then [v] else [] | _ => [] end) es.
Definition chosen (o : opt) (es : list event) (v : string) : Prop :=
  v <> "" /\ exists a b, es = (a ++ Given o v :: b)%list /\ forall w, ~ In (Given o w) b.
Definition heeded {A} (es : list event) (l : list A) (l' : list A) : Prop := (In (On Ignore_environment) es /\ l' = []) \/ (~ In (On Ignore_environment) es /\ l' = l).
Definition chosen_or_env (o : opt) (es : list event) (env : option string) (v : string) : Prop :=
  chosen o es v \/ ((forall w, ~ chosen o es w) /\ ~ In (On Ignore_environment) es /\ env = Some v /\ v <> "").
Definition means (default_format : string) (env : environment) (es : list event) (r : run) : Prop :=
  run_files r = lefts es /\
  (exists generators, heeded es (env_generators env) generators /\
     run_formats r = match values Format es, generators with (_ :: _) as l, _ => l | [], (_ :: _) as l => l | [], [] => [default_format] end) /\
  (forall d, run_config_dir r = Some d <-> chosen_or_env Config_dir es (env_config_dir env) d) /\
  (forall d, run_output r = Some d <-> chosen_or_env Output es (env_output env) d) /\
  (forall d, run_depth r = Some d <-> chosen Depth es d) /\
  (forall d, run_toplevel r = Some d <-> chosen Toplevel es d \/ ((forall t, ~ chosen Toplevel es t) /\ chosen Depth es d)) /\
  (exists defines, heeded es (env_defines env) defines /\ forall k v, assoc k (run_defines r) = Some v <-> last_says (defines ++ values Define es) k v) /\
  (exists flags, heeded es (env_flags env) flags /\ forall k v, assoc k (run_flags r) = Some v <-> last_says (flags ++ values Flag es) k v) /\
  run_includes r = values Include es /\
  (run_parallel r = false <-> In (On No_parallel) es) /\
  (run_circular_check r = false <-> In (On No_circular_check) es) /\
  (run_check r = true <-> In (On Check) es) /\
  run_debug r = values Debug es /\
  (forall s, run_suffix r = Some s <-> chosen Suffix es s) /\
  run_roots r = values Root es /\
  run_configs r = values Build es.

(** When a second run, made in another directory, comes to the same. *)
Definition same_place (here there : list string) (a b : string) : Prop := locate here a = locate there b.
Inductive both {A} (R : A -> A -> Prop) : option A -> option A -> Prop :=
| both_none : both R None None
| both_some a b : R a b -> both R (Some a) (Some b).
Definition comes_to_the_same (here there : list string) (r r' : run) : Prop :=
  Forall2 (same_place here there) (run_files r) (run_files r') /\
  Forall2 (same_place here there) (run_includes r) (run_includes r') /\
  both (same_place here there) (run_output r) (run_output r') /\
  both (same_place here there) (run_depth r) (run_depth r') /\
  both (same_place here there) (run_toplevel r) (run_toplevel r') /\
  (forall k, assoc k (run_defines r') = assoc k (run_defines r)) /\
  (forall k, assoc k (run_flags r') = assoc k (run_flags r)) /\
  run_config_dir r' = run_config_dir r /\ run_check r' = run_check r /\ run_debug r' = run_debug r /\
  run_suffix r' = run_suffix r /\ run_roots r' = run_roots r /\ run_configs r' = run_configs r.
(** What can be written behind a short option: not empty, and no equals sign first. *)
Definition begins (a : ascii) (s : string) : Prop := exists t, s = String a t.
Definition attachable (v : string) : Prop := v <> "" /\ ~ begins "=" v.
Definition repeatable (cwd : list string) (env : environment) (es : list event) : Prop :=
  (forall v, In v (values Debug es) \/ In v (values Define es) \/ In v (values Flag es) \/ In v (values Root es) -> attachable v) /\
  (~ In (On Ignore_environment) es -> forall v, In v (env_defines env) \/ In v (env_flags env) -> attachable v) /\
  (forall v, chosen Suffix es v -> attachable v) /\
  (forall v c, In v (values Include es) -> In c (locate cwd v) -> ~ begins "=" c) /\
  (forall v c, In v (lefts es) -> In c (locate cwd v) -> ~ begins "-" c).
