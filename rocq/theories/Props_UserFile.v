(** C113: the arguments of the command to debug a target. *)
From Verif Require Import Lib Str Model_UserFile Spec_UserFile Proof_UserFile.
Local Open Scope string_scope.

(** A program that is run for debugging gets the arguments that run_as names, with their
    blanks and quotes; not so for those that are empty, or have a backslash before a quote
    or, if they have to be quoted, at the end. *)
Theorem C113_arguments : forall args, Forall plain args -> arguments (command_arguments args) = args.
Proof. exact round_trip. Qed.
Print Assumptions C113_arguments.
Definition some_args : list string := ["--dir"; "C:\Program Files\x"; "say ""a  b"" twice"; "C:\y\"; """"].
Example C113_arguments_witness : Forall plain some_args /\ command_arguments some_args = "--dir ""C:\Program Files\x"" ""say """"a  b"""" twice"" C:\y\ """"""""".
Proof.
  split; [|reflexivity].
  assert (D : forall a, a <> "" -> (let fix ok (l : list ascii) := match l with c :: (d :: _) as l' => negb (Ascii.eqb c backslash && Ascii.eqb d quote) && ok l' | _ => true end in ok (list_ascii_of_string a)) = true ->
     (existsb (fun c => existsb (Ascii.eqb c) (list_ascii_of_string a)) [" "; "009"; "010"; quote]%char = false \/ last (list_ascii_of_string a) " "%char <> backslash) -> plain a).
  { intros a N O E. split; [exact N|]. split.
    - intros x y. revert O. clear. generalize (list_ascii_of_string a). intros l O X. subst l. induction x as [|c x IH].
      + cbn in O. discriminate O.
      + apply IH. cbn [app] in O |- *. destruct x as [|d x]; cbn [app] in O |- *; apply andb_true_iff in O as [_ O]; exact O.
    - intros [c [C I]] x X. destruct E as [E|E].
      + assert (T : existsb (fun c => existsb (Ascii.eqb c) (list_ascii_of_string a)) [" "; "009"; "010"; quote]%char = true).
        { apply existsb_exists. exists c. split; [exact C|]. apply existsb_exists. exists c. split; [exact I|apply Ascii.eqb_refl]. }
        congruence.
      + apply E. rewrite X. apply last_last. }
  unfold some_args. repeat apply Forall_cons; [..|apply Forall_nil]; (apply D; [discriminate|reflexivity|]); first [left; reflexivity|right; discriminate].
Qed.

(** An empty argument is lost: gyp/pylib/gyp/MSVSUserFile.py:45-51 quotes only arguments
    with a quote or a blank. *)
Theorem C113_empty_refuted : ~ (forall args, (forall a, In a args -> ~ In backslash (list_ascii_of_string a)) -> arguments (command_arguments args) = args).
Proof.
  intros H. specialize (H ["a"; ""; "b"]). discriminate H.
  intros a [<-|[<-|[<-|[]]]]; cbn; intros X; repeat (destruct X as [X|X]; [discriminate X|]); exact X.
Qed.
Print Assumptions C113_empty_refuted.
(** A directory with a blank and a backslash at its end swallows what follows, as
    gyp/pylib/gyp/MSVSUserFile.py:50-51 puts the quote behind the backslash. *)
Theorem C113_backslash_refuted : ~ (forall args, (forall a, In a args -> a <> "" /\ ~ In quote (list_ascii_of_string a)) -> arguments (command_arguments args) = args).
Proof.
  intros H. specialize (H ["C:\My Files\"; "b"]). discriminate H.
  intros a [<-|[<-|[]]]; (split; [discriminate|]); cbn; intros X; repeat (destruct X as [X|X]; [discriminate X|]); exact X.
Qed.
Print Assumptions C113_backslash_refuted.
