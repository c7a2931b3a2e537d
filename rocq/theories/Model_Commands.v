(** Model of gyp/pylib/gyp/input.py:742 [cached_command_results], 745-751
    [FixupPlatformCommand] and 855-867, 899-991 of [ExpandVariables]: how a
    command reference is answered, run or from the cache.  Model_Expand takes
    what is modelled here as its parameter [command].

    Outside the model, quantified over: [literal] is Python's eval() of a list
    written in a .gyp file, [repr] is str() of a list, [split] is shlex.split,
    [decode] is bytes.decode("utf-8"), [spawn] is subprocess.run, [chdir] is
    os.chdir, [file_in] is where Python's import system finds a module,
    [load_module] runs a module's code, [main] is str() of what its DoMain()
    returns.  A value eval() gives that is not a list of strings is taken as an
    error of [literal]. *)
From Coq Require Import ZArith.
From Verif Require Import Lib Str Model_Names Model_Path.
Local Open Scope string_scope.

(** What is given to subprocess.run: a string goes to the shell (shell=True), a
    list does not (input.py:900-903). *)
Inductive command := Shell (line : string) | Argv (words : list string).
(** A GypError, or another exception by its class. *)
Inductive err := Gyp (about : string) | Raw (class : string).
(** What subprocess.run gives: an exception, or the exit status and stdout; the
    status is negative if a signal ended the process. *)
Inductive ran := Failed (about : string) | Exited (status : Z) (stdout : string).
(** A reference to a command: the word before the parenthesis, whether the group
    is_array of the regular expression is not empty, the text between the
    parentheses after expansion and strip(), and the build file. *)
Record request := { word : option string; array : bool; text : string; build_file : string }.

(** input.py:858-867: the directory of the build file, None for the current one. *)
Definition directory (build_file : string) : option string :=
  match dirname build_file with "" => None | d => Some d end.

(** re.sub("^cat ", "type ", s) *)
Definition cat_to_type (s : string) : string :=
  match s with
  | String "c" (String "a" (String "t" (String " " rest))) => "type " ++ rest
  | _ => s
  end.
(** input.py:745-751 *)
Definition fixup (win : bool) (c : command) : command + err :=
  if win then
    match c with
    | Shell s => inl (Shell (cat_to_type s))
    | Argv [] => inr (Raw "IndexError")
    | Argv (w :: ws) => inl (Argv (cat_to_type w :: ws))
    end
  else inl c.

Section Commands.
Variables W M Source : Type.
(** The process: its working directory, sys.path, sys.modules, and the world. *)
Record process := { cwd : string; path : list string; modules : list (string * M); world : W }.
Variable win : bool.
Variable literal : string -> list string + err.
Variable repr : list string -> string.
Variable split : string -> list string + err.
Variable decode : string -> option string.
Variable spawn : W -> command -> string -> W * ran.
Variable chdir : W -> string -> string -> option string.
Variable file_in : W -> string -> string -> string -> option Source.
Variable load_module : Source -> process -> process * (M + err).
Variable main : M -> process -> list string -> process * (string + err).

Definition with_cwd (p : process) (d : string) : process := {| cwd := d; path := path p; modules := modules p; world := world p |}.
Definition with_path (p : process) (l : list string) : process := {| cwd := cwd p; path := l; modules := modules p; world := world p |}.
Definition with_module (p : process) (n : string) (m : M) : process := {| cwd := cwd p; path := path p; modules := (n, m) :: modules p; world := world p |}.
Definition with_world (p : process) (w : W) : process := {| cwd := cwd p; path := path p; modules := modules p; world := w |}.

(** __import__(name): what is in sys.modules, else the first directory of sys.path
    that has the module.  Packages, and the entry a module has in sys.modules while
    its code runs, are left out. *)
Fixpoint search (p : process) (dirs : list string) (name : string) : option Source :=
  match dirs with
  | [] => None
  | d :: ds => match file_in (world p) (cwd p) d name with Some s => Some s | None => search p ds name end
  end.
Definition import (p : process) (name : string) : process * (M + err) :=
  match assoc name (modules p) with
  | Some m => (p, inl m)
  | None =>
    match search p (path p) name with
    | None => (p, inr (Raw "ImportError"))
    | Some s =>
      match load_module s p with
      | (p', inl m) => (with_module p' name m, inl m)
      | (p', inr e) => (p', inr e)
      end
    end
  end.

(** except ImportError, input.py:941 *)
Definition is_import_error (e : err) : bool := match e with Raw c => String.eqb c "ImportError" | Gyp _ => false end.
(** input.py:936-948, the body of the try; shlex.split of a list is an error, it
    has no read(). *)
Definition run_main (p : process) (c : command) : process * (string + err) :=
  match c with
  | Argv _ => (p, inr (Raw "AttributeError"))
  | Shell contents =>
    match split contents with
    | inr e => (p, inr e)
    | inl [] => (p, inr (Raw "IndexError"))
    | inl (name :: args) =>
      match import p name with
      | (p', inr e) => (p', inr (if is_import_error e then Gyp ("Error importing pymod_do_mainmodule (" ++ name ++ ")") else e))
      | (p', inl m) =>
        match main m p' args with
        | (q, inl v) => (q, inl (rstrip_ws v))
        | (q, inr e) => (q, inr e)
        end
      end
    end
  end.
(** input.py:949-951, the finally: sys.path.pop(), then os.chdir(oldwd); what they
    raise takes the place of the outcome. *)
Definition restore (oldwd : string) (r : process * (string + err)) : process * (string + err) :=
  let '(p, v) := r in
  match path p with
  | [] => (p, inr (Raw "IndexError"))
  | _ :: _ =>
    let p1 := with_path p (removelast (path p)) in
    match chdir (world p1) (cwd p1) oldwd with
    | None => (p1, inr (Raw "OSError"))
    | Some d => (with_cwd p1 d, v)
    end
  end.
(** input.py:926-952 *)
Definition pymod (p : process) (c : command) (dir : option string) : process * (string + err) :=
  match (match dir with None => Some (cwd p) | Some d => chdir (world p) (cwd p) d end) with
  | None => (p, inr (Raw "OSError"))
  | Some d => restore (cwd p) (run_main (with_path (with_cwd p d) (path p ++ [d])%list) c)
  end.

(** input.py:958-981; cwd=None is the working directory, a relative cwd is below
    it. *)
Definition subprocess (p : process) (c : command) (dir : option string) : process * (string + err) :=
  match fixup win c with
  | inr e => (p, inr e)
  | inl c' =>
    let '(w, r) := spawn (world p) c' (match dir with None => cwd p | Some d => path_join (cwd p) d end) in
    (with_world p w,
     match r with
     | Failed about => inr (Gyp (about ++ " while executing command"))
     | Exited status out =>
       if (0 <? status)%Z then inr (Gyp "returned exit status")
       else match decode out with Some s => inl (rstrip_ws s) | None => inr (Raw "UnicodeDecodeError") end
     end)
  end.

(** input.py:926-981: the branches on the word *)
Definition execute (p : process) (w : option string) (c : command) (dir : option string) : process * (string + err) :=
  match w with
  | Some s => if String.eqb s "pymod_do_main" then pymod p c dir else (p, inr (Gyp "Unknown command string"))
  | None => subprocess p c dir
  end.

(** The cache: a key is the text and the directory, input.py:914. *)
Definition cache := list ((string * option string) * string).
Definition key_eqb (a b : string * option string) : bool :=
  String.eqb (fst a) (fst b) &&
  match snd a, snd b with None, None => true | Some x, Some y => String.eqb x y | _, _ => false end.
Fixpoint lookup (k : string * option string) (c : cache) : option string :=
  match c with
  | [] => None
  | (k', v) :: c' => if key_eqb k k' then Some v else lookup k c'
  end.

(** input.py:900-903 *)
Definition contents_of (r : request) : command + err :=
  if array r then match literal (text r) with inl l => inl (Argv l) | inr e => inr e end else inl (Shell (text r)).
(** str(contents) *)
Definition text_of (c : command) : string := match c with Shell s => s | Argv l => repr l end.

(** input.py:899-991: one reference. *)
Definition answer (s : cache * process) (r : request) : (cache * process) * (string + err) :=
  let '(ca, p) := s in
  match contents_of r with
  | inr e => (s, inr e)
  | inl c =>
    let key := (text_of c, directory (build_file r)) in
    match lookup key ca with
    | Some v => (s, inl v)
    | None =>
      match execute p (word r) c (directory (build_file r)) with
      | (p', inl v) => (((key, v) :: ca, p'), inl v)
      | (p', inr e) => ((ca, p'), inr e)
      end
    end
  end.

(** The references met one after the other: the state before each of them, and
    what it is answered with.  (gyp stops at the first error that nothing
    catches; a history goes on here, as it does if something does.) *)
Fixpoint history (s : cache * process) (rs : list request) : list ((cache * process) * request * (string + err)) :=
  match rs with
  | [] => []
  | r :: rs' => let '(s', v) := answer s r in (s, r, v) :: history s' rs'
  end.
End Commands.
Arguments cwd {W M}. Arguments path {W M}. Arguments modules {W M}. Arguments world {W M}.
