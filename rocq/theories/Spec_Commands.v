(** What is said about command references, see Model_Commands for the types. *)
From Coq Require Import ZArith.
From Verif Require Import Lib Str Model_Commands.
Local Open Scope string_scope.

(** What a command line becomes on Windows, where there is no cat. *)
Inductive fixed (win : bool) : string -> string -> Prop :=
| fixed_cat x : win = true -> fixed win ("cat " ++ x) ("type " ++ x)
| fixed_other s : win = false \/ (forall x, s <> "cat " ++ x) -> fixed win s s.
(** The command given to the system. *)
Inductive given (win : bool) : command -> command -> Prop :=
| given_line s s' : fixed win s s' -> given win (Shell s) (Shell s')
| given_words w w' ws : fixed win w w' -> given win (Argv (w :: ws)) (Argv (w' :: ws))
| given_none : win = false -> given win (Argv []) (Argv []).

(** [x] is [s] without the white space at its end. *)
Definition trimmed (s x : string) : Prop :=
  exists e, s = x ++ e /\ (forall a, In a (list_ascii_of_string e) -> is_space a = true) /\
  (forall y a, x = y ++ String a "" -> is_space a = false).

(** The contents of a reference are [c]: its text for the shell, or the words of
    the list it holds. *)
Inductive holds (literal : string -> list string + err) (r : request) : command -> Prop :=
| holds_line : array r = false -> holds literal r (Shell (text r))
| holds_words l : array r = true -> literal (text r) = inl l -> holds literal r (Argv l).

(** The directory of a build file in a process working in [at_]. *)
Inductive works_in (at_ : string) : option string -> string -> Prop :=
| works_here : works_in at_ None at_
| works_below d : (forall x, d <> String "/" x) -> at_ <> "" -> (forall y, at_ <> y ++ "/") -> works_in at_ (Some d) (at_ ++ "/" ++ d)
| works_root d : (forall x, d <> String "/" x) -> (at_ = "" \/ exists y, at_ = y ++ "/") -> works_in at_ (Some d) (at_ ++ d)
| works_absolute x : works_in at_ (Some (String "/" x)) (String "/" x).

(** An outcome that counts as the output [x]. *)
Definition outputs (decode : string -> option string) (o : ran) (x : string) : Prop :=
  exists status out s, o = Exited status out /\ (status <= 0)%Z /\ decode out = Some s /\ trimmed s x.

(** A reference with the text [t] in the directory [d] has been answered with [x]. *)
Definition answered {S} (literal : string -> list string + err) (repr : list string -> string)
  (h : list (S * request * (string + err))) (t : string) (d : option string) (x : string) : Prop :=
  exists s r c, In (s, r, inl x) h /\ holds literal r c /\ t = match c with Shell l => l | Argv ws => repr ws end /\ directory (build_file r) = d.

(** [s] is found at the first of [dirs] where anything is found. *)
Definition first_of {D S} (found : D -> option S) (dirs : list D) (s : S) : Prop :=
  exists pre d post, dirs = (pre ++ d :: post)%list /\ found d = Some s /\ (forall e, In e pre -> found e = None).
(** Python gives the module [m] for [name] in the process [p], which [q] is then:
    one it has loaded, or else one it finds along sys.path and loads. *)
Inductive got {W M S} (file_in : W -> string -> string -> string -> option S) (load_module : S -> process W M -> process W M * (M + err))
  (p : process W M) (name : string) : M -> process W M -> Prop :=
| got_loaded m : assoc name (modules p) = Some m -> got file_in load_module p name m p
| got_found s p' m : assoc name (modules p) = None -> first_of (fun d => file_in (world p) (cwd p) d name) (path p) s -> load_module s p = (p', inl m) ->
    got file_in load_module p name m {| cwd := cwd p'; path := path p'; modules := (name, m) :: modules p'; world := world p' |}.
