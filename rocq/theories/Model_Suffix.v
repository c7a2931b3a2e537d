(** Model of the pattern rules for objects, and of how make chooses among them:
    gyp/pylib/gyp/generator/make.py:622-641, 783-822, 938-955, 2626-2628. *)
From Verif Require Import Lib Str Model_Names Model_Path Model_Graph Model_Release Model_Writer.
Local Open Scope string_scope.

(** GOAL%.o: FROM%EXT FORCE_DO_CMD, with $(call do_cmd,TOOL,1) *)
Record pattern := { goal : string; from : string; ext : string; tool : string }.
(** sorted(COMPILABLE_EXTENSIONS.keys(), key=str.lower) *)
Definition sorted_extensions : list (string * string) := [(".c", "cc"); (".cc", "cxx"); (".cpp", "cxx"); (".cxx", "cxx"); (".s", "cc"); (".S", "cc")].
Definition three (g ts : string) (es : list (string * string)) : list pattern :=
  flat_map (fun d => map (fun e => {| goal := g; from := d; ext := fst e; tool := snd e |}) es) ["$(srcdir)/"; "$(obj)." ++ ts ++ "/"; "$(obj)/"].
(** 622-641, 2626: once for each toolset *)
Definition root_patterns (toolset : string) : list pattern := three ("$(obj)." ++ toolset ++ "/") toolset sorted_extensions.
(** 938-955; a set of extensions, so that its order is any: [order] has it. *)
Definition used_extensions (t : target) : list string := map (fun s => snd (splitext s)) (compiled t).
Definition target_patterns (t : target) (order : list string) : list pattern :=
  match compiled t with
  | [] => []
  | _ => three ("$(obj)." ++ toolset t ++ "/" ++ target_name t ++ "/") (toolset t) (flat_map (fun e => match assoc e extensions with Some c => [(e, c)] | None => [] end) order)
  end.
(** The Makefile, then the parts for the targets, in the order they are included. *)
Definition patterns (toolsets : list string) (ts : list target) (order : target -> list string) : list pattern :=
  (flat_map root_patterns toolsets ++ flat_map (fun t => target_patterns t (order t)) ts)%list.

(** make: what the percent sign stands for, at least one character. *)
Fixpoint before_o (s : string) : option string :=
  match s with
  | EmptyString => None
  | String a s' => if String.eqb s ".o" then Some "" else option_map (String a) (before_o s')
  end.
Definition stem (p : pattern) (x : string) : option string :=
  match after_prefix (goal p) x with
  | Some r => match before_o r with Some (String a s) => Some (String a s) | _ => None end
  | None => None
  end.
Definition candidate (p : pattern) (x : string) : option string := option_map (fun s => from p ++ s ++ ext p) (stem p x).
(** A rule applies if the file is there, or there is a rule that makes it
    ([available]); of those that apply the first of those with the shortest stem is
    taken. *)
Definition usable (available : string -> bool) (x : string) (p : pattern) : bool := match candidate p x with Some c => available c | None => false end.
Definition stem_length (x : string) (p : pattern) : nat := match stem p x with Some s => String.length s | None => 0 end.
Fixpoint shortest (x : string) (ps : list pattern) : option pattern :=
  match ps with
  | [] => None
  | p :: ps' => match shortest x ps' with Some q => if Nat.ltb (stem_length x q) (stem_length x p) then Some q else Some p | None => Some p end
  end.
(** What an object is compiled from, and with which command. *)
Definition chosen (available : string -> bool) (ps : list pattern) (x : string) : option (string * string) :=
  match shortest x (filter (usable available x) ps) with
  | Some p => option_map (fun c => (c, tool p)) (candidate p x)
  | None => None
  end.
