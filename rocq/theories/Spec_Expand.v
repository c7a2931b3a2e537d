(** What variable references in a text mean. *)
From Coq Require Import ZArith.
From Verif Require Import Lib Str Model_Value Spec_Text Model_Quote Model_Cond.
Local Open Scope string_scope.

(** A text with references, "<(name)", and commands, "<!(command)"; names and
    commands may contain references and brackets. *)
Inductive template :=
| Stop
| Lit (a : ascii) (rest : template)
| Group (o c : ascii) (inner rest : template)
| Ref (run : bool) (name rest : template).
(** The sign that starts a reference is that of the phase. *)
Definition sign (ph : phase) : ascii := match ph with Early => "<" | Late => ">" | LateLate => "^" end%char.
Definition mark (run : bool) : string := if run then "!(" else "(".
(** "<@(name)" and "<!@(command)" ask for a list. *)
Definition list_mark (run : bool) : string := if run then "!@(" else "@(".
Fixpoint render (symbol : ascii) (t : template) : string :=
  match t with
  | Stop => ""
  | Lit a r => String a (render symbol r)
  | Group o c i r => String o (render symbol i ++ String c (render symbol r))
  | Ref run n r => String symbol (mark run ++ render symbol n ++ String ")" (render symbol r))
  end.

(** The characters that stand for themselves: not the symbol of the phase, and
    inside a reference no brackets and no newline. *)
Definition newline_char : ascii := "010".
Definition plain (symbol : ascii) (inside : bool) (a : ascii) : Prop := a <> symbol /\ (inside = true -> ~ bracket a /\ a <> newline_char).

(** Leading and trailing white space. *)
Definition white_char (a : ascii) : Prop := let n := N_of_ascii a in (9 <= n <= 13 \/ 28 <= n <= 32)%N.
Definition trimmed (s t : string) : Prop :=
  exists w1 w2, s = w1 ++ t ++ w2 /\ (forall a, has_char a w1 = true \/ has_char a w2 = true -> white_char a) /\
    (forall a u, t = String a u -> ~ white_char a) /\ (forall a u, t = u ++ String a "" -> ~ white_char a).

(** A command starting with white space or a bracket is taken for a list. *)
Definition list_command (s : string) : Prop := exists a r, s = String a r /\ (white_char a \/ a = "["%char).

Section Meaning.
Variable symbol : ascii.
Variable vars : dict.
(** what a command writes; the flag says that it is taken for a list *)
Variable command : option string -> bool -> string -> result string.

(** A number stands for its digits. *)
Fixpoint lits (s : string) : template := match s with EmptyString => Stop | String a s' => Lit a (lits s') end.
Inductive text_of : value -> template -> Prop :=
| text_str : forall t, text_of (VStr (render symbol t)) t
| text_int : forall z, text_of (VInt z) (lits (rendering z)).

(** [evals inside t s n]: the text [t] stands for [s]; [n] counts the references
    that were followed.  A reference stands for what the text of the variable
    stands for, a command for what its output stands for; a variable that is a
    list stands for its items as arguments of a shell command.  Names that read
    as integers are left out. *)
Inductive evals : bool -> template -> string -> nat -> Prop :=
| e_stop : forall i, evals i Stop "" 0
| e_lit : forall i a r s n, plain symbol i a -> evals i r s n -> evals i (Lit a r) (String a s) n
| e_group : forall i o c t r s1 s2 m n, pair_of_brackets o c -> evals i t s1 m -> evals i r s2 n -> evals i (Group o c t r) (String o (s1 ++ String c s2)) (m + n)
| e_ref : forall i nm name key v tv val r s k m n, names nm name key k -> assoc key vars = Some v -> text_of v tv ->
    evals i tv val m -> evals i r s n -> evals i (Ref false nm r) (val ++ s) (S (k + m + n))
| e_ref_list : forall i nm name key l vals r s k m n, names nm name key k -> key <> "" -> assoc key vars = Some (VList l) ->
    items i l vals m -> evals i r s n -> evals i (Ref false nm r) (encode_posix_shell_list vals ++ s) (S (k + m + n))
(** an undefined variable whose name ends in "!" or "/" is an empty list *)
| e_missing : forall i nm name key r s k n, names nm name key k -> assoc key vars = None -> (exists u, key = u ++ "!" \/ key = u ++ "/") -> evals i r s n -> evals i (Ref false nm r) s (S (k + n))
| e_run : forall i nm name key b tv val r s k m n, names nm name key k -> (b = true <-> list_command (render symbol nm)) -> command None b key = Val (render symbol tv) ->
    evals i tv val m -> evals i r s n -> evals i (Ref true nm r) (val ++ s) (S (k + m + n))
(** what is between the parentheses *)
with names : template -> string -> string -> nat -> Prop :=
| n_name : forall nm name key k, evals true nm name k -> ~ canonical_shape name -> trimmed name key -> names nm name key k
with items : bool -> list value -> list string -> nat -> Prop :=
| i_nil : forall i, items i [] [] 0
| i_cons : forall i v t s l ss m n, text_of v t -> evals i t s m -> items i l ss n -> items i (v :: l) (s :: ss) (m + n).

(** The value a text stands for: an integer if it reads as one. *)
Definition value_of (s : string) (v : value) : Prop := (canonical_shape s /\ exists z, reads_as s z /\ v = VInt z) \/ (~ canonical_shape s /\ v = VStr s).

(** A text that is well formed, whatever its variables are. *)
Inductive well_formed : bool -> template -> Prop :=
| w_stop : forall i, well_formed i Stop
| w_lit : forall i a r, plain symbol i a -> well_formed i r -> well_formed i (Lit a r)
| w_group : forall i o c t r, pair_of_brackets o c -> well_formed i t -> well_formed i r -> well_formed i (Group o c t r)
| w_ref : forall i run nm r, well_formed true nm -> well_formed i r -> well_formed i (Ref run nm r).
Fixpoint tapp (t u : template) : template :=
  match t with Stop => u | Lit a r => Lit a (tapp r u) | Group o c i r => Group o c i (tapp r u) | Ref b n r => Ref b n (tapp r u) end.
End Meaning.
