(** Model of gyp/pylib/gyp/xcode_emulation.py: the end of _GetXcodeEnv (1804-1819),
    _NormalizeEnvVarReferences (1822-1837), ExpandEnvVars (1839-1849),
    _TopologicallySortedEnvVarKeys (1851-1885) and GetSortedXcodeEnv (1887-1893).  The
    variables that _GetXcodeEnv takes from the target (1732-1803) are a parameter. *)
From Verif Require Import Lib Str Model_Value Model_TopoSort Model_Writer.
Local Open Scope string_scope.

Definition id_start (c : ascii) : bool := let n := N_of_ascii c in ((65 <=? n) && (n <=? 90) || (97 <=? n) && (n <=? 122) || (n =? 95))%N.
Definition id_char (c : ascii) : bool := (id_start c || let n := N_of_ascii c in (48 <=? n) && (n <=? 57))%N.
Definition ref_char (c : ascii) : bool := id_char c || Ascii.eqb c "-".

(** ** 1822-1837: _NormalizeEnvVarReferences *)
(** 1827: the first substitution; [inside]: in a name behind a dollar sign *)
Fixpoint braced (inside : bool) (s : string) : string :=
  match s with
  | "" => if inside then "}" else ""
  | String c s' =>
    if inside && id_char c then String c (braced true s')
    else (if inside then "}" else "") ++
         (if Ascii.eqb c "$" && match s' with String d _ => id_start d | "" => false end then "${" ++ braced true s' else String c (braced false s'))
  end.
Fixpoint span (p : ascii -> bool) (s : string) : string * string :=
  match s with
  | String c s' => if p c then let (a, b) := span p s' in (String c a, b) else ("", s)
  | "" => ("", "")
  end.
(** 1830 and 1862: the names in the references with these brackets *)
Fixpoint references (o c : ascii) (s : string) : list string :=
  match s with
  | "" => []
  | String d s' =>
    (if Ascii.eqb d "$" then
      match s' with
      | String e r => if Ascii.eqb e o then let (n, r') := span ref_char r in
          match n, r' with String _ _, String f _ => if Ascii.eqb f c then [n] else [] | _, _ => [] end else []
      | "" => []
      end
    else []) ++ references o c s'
  end%list.
(** 1831-1834; the assertion looks for the text among the two of a tuple and never fails *)
Definition normalize (s : string) : string :=
  let s := braced false s in fold_left (fun s n => replace ("$(" ++ n ++ ")") ("${" ++ n ++ "}") s) (references "(" ")" s) s.

(** ** 1804-1819 *)
Inductive setting := One (s : string) | Several (l : list string).
(** 1807-1811 *)
Definition flatten (x : setting) : string := match x with One s => s | Several l => String.concat " " l end.
Definition update (d e : list (string * string)) : list (string * string) := fold_left (fun d kv => set_key (fst kv) (snd kv) d) e d.
Definition xcode_env (settings : list (string * setting)) (env : list (string * string)) : list (string * string) :=
  map (fun kv => (fst kv, normalize (snd kv))) (update (map (fun kv => (fst kv, flatten (snd kv))) settings) env).

(** ** 1839-1849: ExpandEnvVars *)
Definition expand_one (s : string) (kv : string * string) : string :=
  let (k, v) := kv in replace ("$" ++ k) v (replace ("$(" ++ k ++ ")") v (replace ("${" ++ k ++ "}") v s)).
Definition expand (s : string) (expansions : list (string * string)) : string := fold_left expand_one (rev expansions) s.

(** ** 1851-1893 *)
(** 1868-1871; [in_order] gives the items of a set in some order *)
Definition edges (in_order : list string -> list string) (env : list (string * string)) (node : string) : list string :=
  in_order (filter (fun v => mem v (map fst env)) (references "{" "}" (match assoc node env with Some s => s | None => "" end))).
(** None: GypError for a cycle *)
Definition sorted_keys (in_order : list string -> list string) (env : list (string * string)) : option (list string) :=
  match topologically_sorted (S (length env)) (map fst env) (edges in_order env) with
  | Sorted l => Some (rev l)
  | _ => None
  end.
Definition sorted_env (in_order : list string -> list string) (settings : list (string * setting)) (env : list (string * string)) : option (list (string * string)) :=
  let env := xcode_env settings env in
  match sorted_keys in_order env with
  | Some l => Some (map (fun k => (k, match assoc k env with Some s => s | None => "" end)) l)
  | None => None
  end.
