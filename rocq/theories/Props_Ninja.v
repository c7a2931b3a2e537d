(** Property theorems: ninja files are read back as written (C30).  The reader
    ([logical_line], [lex], [path_meaning]) is in Spec_Ninja. *)
From Coq Require Import ZArith.
From Verif Require Import Lib Str Model_Quote Spec_Quote Model_Ninja Spec_Ninja Proof_Ninja.
Local Open Scope string_scope.

(** C30: whatever the width, a line without newline, without two spaces in a
    row and without an unpaired dollar sign at its end is read back as written,
    and the reader is left at the start of the next line. *)
Theorem C30_lines : forall width indent text rest,
  has_char newline text = false -> (forall a b, text <> a ++ "  " ++ b) -> dangling false text = false ->
  exists out, write_line width indent text = Some out /\ logical_line Normal (out ++ rest) = Some (spaces (2 * indent) ++ text, rest).
Proof. exact line_written. Qed.
Print Assumptions C30_lines.

(** C30: a path is read back as one path with the meaning it was given. *)
Theorem C30_path : forall s w, s <> "" -> path_meaning s = Some w -> lex None (escape_path s) = Some [TPath w].
Proof. exact single_path. Qed.
Print Assumptions C30_path.
(** Paths without dollar signs, bars and line ends mean themselves. *)
Theorem C30_path_literal : forall s, has_char "$" s = false -> has_char "|" s = false -> has_char "010" s = false -> has_char "013" s = false -> has_char "000" s = false ->
  path_meaning s = Some (literal s).
Proof. exact path_literal. Qed.
Print Assumptions C30_path_literal.

(** C30: a whole build statement, wrapped at any width, is read back as the
    same outputs, rule, inputs, implicit and order-only inputs.
    [good_paths ps ms]: the paths [ps] are not empty and have the meanings [ms]. *)
Theorem C30_build : forall width outs rule ins imp oo mo mi mimp moo rest,
  good_paths outs mo -> good_paths ins mi -> good_paths imp mimp -> good_paths oo moo ->
  no_final_space (outs ++ ins ++ imp ++ oo) -> rule <> "" -> (forall c, has_char c rule = true -> in_name c = true) ->
  exists out line, write_line width 0 (build_text outs rule ins imp oo) = Some out /\
    logical_line Normal (out ++ rest) = Some (line, rest) /\ lex None line = Some (statement_tokens mo (literal rule) mi mimp moo).
Proof. exact build_statement. Qed.
Print Assumptions C30_build.

Definition ex_build := build_text ["obj/my file.o"] "cc" ["../src/my file.c"; "c:x"] ["$obj/gen.h"] ["stamp"].
Example C30_witness : ex_build = "build obj/my$ file.o: cc ../src/my$ file.c c$:x | $obj/gen.h || stamp"
  /\ write_line 40 0 ex_build = Some ("build obj/my$ file.o: cc $" ++ String newline ("    ../src/my$ file.c c$:x | $" ++ String newline ("    $obj/gen.h || stamp" ++ String newline "")))
  /\ good_paths ["obj/my file.o"] [literal "obj/my file.o"] /\ good_paths ["$obj/gen.h"] [Expansion :: literal "obj/gen.h"].
Proof.
  split; [reflexivity|]. split; [vm_compute; reflexivity|]. split; (constructor; [split; [discriminate|reflexivity]|constructor]).
Qed.

(** Findings: a path with an even number of dollar signs before a space, a
    dollar sign before a colon, a bar, or a dollar sign at its end is read as
    something else; a run of spaces at a place where the line is wrapped shrinks. *)
Theorem C30_dollars_refuted : exists s l, lex None (escape_path s) = Some [TPath l; TPath (literal "b")] /\ s = "a$$ b".
Proof. exact path_dollars. Qed.
Print Assumptions C30_dollars_refuted.
Theorem C30_dollar_colon_refuted : exists s, lex None (escape_path s) = Some [TPath (literal "a$"); TColon; TPath (literal "b")] /\ s = "a$:b".
Proof. exact path_dollar_colon. Qed.
Print Assumptions C30_dollar_colon_refuted.
Theorem C30_bar_refuted : exists s, lex None (escape_path s) = Some [TPath (literal "a"); TPipe; TPath (literal "b")] /\ s = "a|b".
Proof. exact path_bar. Qed.
Print Assumptions C30_bar_refuted.
Theorem C30_final_dollar_refuted : exists p q, lex None (join_with " " (map escape_path [p; q])) = Some [TPath (literal "a b")] /\ p = "a$" /\ q = "b".
Proof. exact path_final_dollar. Qed.
Print Assumptions C30_final_dollar_refuted.
Theorem C30_two_spaces_refuted : exists text out, write_line 10 0 text = Some out /\ logical_line Normal out = Some ("echo 'a b c'", "") /\ text = "echo 'a  b c'".
Proof. exact two_spaces. Qed.
Print Assumptions C30_two_spaces_refuted.
