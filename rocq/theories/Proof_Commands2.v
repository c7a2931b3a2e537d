(** A small system to try the theorems of C80 on, and the cases that go wrong. *)
From Coq Require Import ZArith.
From Verif Require Import Lib Str StrFacts Model_Names Model_Path Model_Commands Spec_Commands Proof_Commands.
Local Open Scope string_scope.

(** a spelling of lists in which no two are the same *)
Fixpoint spell_word (w rest : string) : string :=
  match w with "" => String "," rest | String a w' => String "." (String a (spell_word w' rest)) end.
Fixpoint spell (l : list string) : string := match l with [] => "" | w :: ws => spell_word w (spell ws) end.
Lemma spell_word_inj : forall w w' r r', spell_word w r = spell_word w' r' -> w = w' /\ r = r'.
Proof.
  induction w as [|a w IH]; intros [|b w'] r r' E; cbn [spell_word] in E; try discriminate.
  - injection E as E. split; [reflexivity|exact E].
  - injection E as <- E. destruct (IH w' r r' E) as [-> ->]. split; reflexivity.
Qed.
Lemma spell_inj : forall a b, spell a = spell b -> a = b.
Proof.
  induction a as [|w a IH]; intros [|w' b] E; cbn [spell] in E; try reflexivity.
  - destruct w'; discriminate.
  - destruct w; discriminate.
  - apply spell_word_inj in E. destruct E as [-> E]. rewrite (IH b E). reflexivity.
Qed.

(** the lists written in the .gyp files *)
Definition lists (t : string) : list string + err := if String.eqb t "['node', '-p', '6*7']" then inl ["node"; "-p"; "6*7"] else inr (Raw "SyntaxError").
Definition split_words (t : string) : list string + err := inl (split_char " " t).
Definition utf8 (s : string) : option string := Some s.
(** the commands; date counts how often something was run, and crash ends by a signal *)
Definition runs (w : nat) (c : command) (d : string) : nat * ran :=
  (S w, match c with
        | Shell t =>
          if String.eqb t "pwd" then Exited 0 (d ++ String "010" "")
          else if String.eqb t "count" then Exited 0 (if Nat.eqb w 0 then "first" else "later")
          else if String.eqb t "false" then Exited 1 ""
          else if String.eqb t "crash" then Exited (-11) "half"
          else if String.eqb t "hello" then Exited 0 "from the shell"
          else Failed "not found"
        | Argv l => if in_dec string_dec "node" l then Exited 0 (String "4" (String "2" (String "010" ""))) else Failed "not found"
        end).
Definition move (_ : nat) (c d : string) : option string := if mem d ["/r"; "/r/a"; "/r/b"] then Some d else if mem d ["a"; "b"] then Some (c ++ "/" ++ d) else None.
(** each directory has a module hello; what is loaded is where it came from *)
Definition found (_ : nat) (_ d n : string) : option string := if String.eqb n "hello" then if mem d ["/r/a"; "/r/b"] then Some d else None else None.
Definition load (s : string) (p : process nat string) : process nat string * (string + err) := (p, inl s).
Definition do_main (m : string) (p : process nat string) (args : list string) : process nat string * (string + err) := (p, inl ("hello from " ++ m)).
Definition start : process nat string := {| cwd := "/r"; path := ["/lib"]; modules := []; world := 0 |}.
Notation trial := (history nat string string false lists spell split_words utf8 runs move found load do_main).

Definition shell (t b : string) : request := {| word := None; array := false; text := t; build_file := b |}.
Definition listed (t b : string) : request := {| word := None; array := true; text := t; build_file := b |}.
Definition worded (w t b : string) : request := {| word := Some w; array := false; text := t; build_file := b |}.
Definition py := worded "pymod_do_main".

Definition steps := [shell "pwd" "a/x.gyp"; shell "count" "binding.gyp"; shell "pwd" "b/x.gyp"; shell "false" "binding.gyp"; listed "['node', '-p', '6*7']" "binding.gyp"; py "hello world" "a/x.gyp"; shell "count" "binding.gyp"; shell "pwd" "binding.gyp"].
Definition answers {S} (h : list (S * request * (string + err))) : list (string + err) := map snd h.
Lemma steps_answers : answers (trial ([], start) steps) =
  [inl "/r/a"; inl "later"; inl "/r/b"; inr (Gyp "returned exit status"); inl "42"; inl "hello from /r/a"; inl "later"; inl "/r"].
Proof. vm_compute. reflexivity. Qed.
Lemma load_path : forall src q, path (fst (load src q)) = path q. Proof. reflexivity. Qed.
Lemma main_path : forall m q a, path (fst (do_main m q a)) = path q. Proof. reflexivity. Qed.
Lemma move_back : forall u x, move u x (cwd start) = Some (cwd start). Proof. reflexivity. Qed.

(** a system that never changes *)
Definition fixed_runs (_ : unit) (c : command) (d : string) : unit * ran := (tt, snd (runs 1 c d)).
Definition fixed_move (_ : unit) := move 0.
Definition fixed_found (_ : unit) := found 0.
Definition fixed_load (s : string) (p : process unit string) : process unit string * (string + err) := (p, inl s).
Definition fixed_main (m : string) (p : process unit string) (args : list string) : process unit string * (string + err) := (p, inl ("hello from " ++ m)).
Definition fixed_start : process unit string := {| cwd := "/r"; path := ["/lib"]; modules := []; world := tt |}.
Notation still := (history unit string string false lists spell split_words utf8 fixed_runs fixed_move fixed_found fixed_load fixed_main).

Definition apart := [shell "pwd" "a/x.gyp"; shell "pwd" "b/x.gyp"; py "hello world" "a/x.gyp"; listed "['node', '-p', '6*7']" "binding.gyp"; shell "pwd" "a/y.gyp"].
Lemma apart_kinds : forall r r' c c', In r apart -> In r' apart -> holds lists r c -> holds lists r' c' ->
  match c with Shell l => l | Argv ws => spell ws end = match c' with Shell l => l | Argv ws => spell ws end -> directory (build_file r) = directory (build_file r') -> word r = word r' /\ array r = array r'.
Proof.
  intros r r' c c' I I' H H' T D. apply contents_holds in H. apply contents_holds in H'.
  repeat (destruct I as [<-|I]; [repeat (destruct I' as [<-|I']; [vm_compute in H, H', D; inversion H; inversion H'; subst; vm_compute in T; try discriminate T; try discriminate D; split; reflexivity|]); destruct I'|]). destruct I.
Qed.
Lemma apart_answers : answers (still ([], fixed_start) apart) = [inl "/r/a"; inl "/r/b"; inl "hello from /r/a"; inl "42"; inl "/r/a"].
Proof. vm_compute. reflexivity. Qed.

(** an answer that depends on what was met before: the word is not in the key *)
Lemma word_ignored : answers (still ([], fixed_start) [py "hello" "a/x.gyp"]) = [inl "hello from /r/a"] /\
  answers (still ([], fixed_start) [shell "hello" "a/x.gyp"; py "hello" "a/x.gyp"]) = [inl "from the shell"; inl "from the shell"].
Proof. split; vm_compute; reflexivity. Qed.
Lemma unknown_answered : answers (still ([], fixed_start) [worded "python" "pwd" "a/x.gyp"]) = [inr (Gyp "Unknown command string")] /\
  answers (still ([], fixed_start) [shell "pwd" "a/x.gyp"; worded "python" "pwd" "a/x.gyp"]) = [inl "/r/a"; inl "/r/a"].
Proof. split; vm_compute; reflexivity. Qed.
(** a module of the same name in another directory *)
Lemma other_module : answers (still ([], fixed_start) [py "hello" "b/x.gyp"]) = [inl "hello from /r/b"] /\
  answers (still ([], fixed_start) [py "hello" "a/x.gyp"; py "hello" "b/x.gyp"]) = [inl "hello from /r/a"; inl "hello from /r/a"].
Proof. split; vm_compute; reflexivity. Qed.
