(** Property theorems: quoting (C27, C28, C29, C32).  The readers [sh_words],
    [sh_arguments], [make_value], [make_arguments], [c_literal] and
    [win_arguments] are in Spec_Quote. *)
From Verif Require Import Lib Str Model_Quote Spec_Quote Proof_Quote.
Local Open Scope string_scope.

(** C27: an encoded argument is read by the shell as one word: the argument,
    with every dollar sign live, as documented. *)
Theorem C27_posix_argument : forall s, sh_words (encode_posix_shell_argument s) = Some [with_dollars s].
Proof. exact posix_argument. Qed.
Print Assumptions C27_posix_argument.

Theorem C27_posix_literal : forall s, has_char "$" s = false -> sh_words (encode_posix_shell_argument s) = Some [literal s].
Proof. exact posix_literal. Qed.
Print Assumptions C27_posix_literal.

(** C27: an encoded list is read back as the same list of words. *)
Theorem C27_posix_list : forall l, sh_words (encode_posix_shell_list l) = Some (map with_dollars l).
Proof. exact posix_list. Qed.
Print Assumptions C27_posix_list.

Example C27_witness : encode_posix_shell_list ["a b"; ""; "c`d"; "$HOME/x"] = "" ++
  String "034" ("a b" ++ String "034" (" " ++ String "034" (String "034" (" c\`d " ++ String "034" ("$HOME/x" ++ String "034" "")))))
  /\ sh_words (encode_posix_shell_list ["a b"; ""; "c`d"]) = Some [literal "a b"; []; literal "c`d"].
Proof. split; reflexivity. Qed.

(** C27: the make generator's shell quoting is literal for every argument. *)
Theorem C27_make_argument : forall s, sh_words (escape_shell_argument s) = Some [literal s].
Proof. exact make_shell_argument. Qed.
Print Assumptions C27_make_argument.
Example C27_make_witness : escape_shell_argument "it's $5" = "'it'\''s $5'". Proof. reflexivity. Qed.

(** C27: the ninja generator's shell quoting is literal for arguments without
    backslash and newline; and for every argument that it does quote. *)
Theorem C27_ninja_argument : forall s, has_char "\" s = false -> has_char "010" s = false -> sh_arguments (quote_shell_argument s) = Some [literal s].
Proof. exact ninja_argument. Qed.
Print Assumptions C27_ninja_argument.
Example C27_ninja_witness : sh_arguments (quote_shell_argument "it's $5") = Some [literal "it's $5"] /\ quote_shell_argument "-DX=1" = "-DX=1".
Proof. split; reflexivity. Qed.

(** Finding: an argument of harmless characters and backslashes is not quoted,
    and the shell drops the backslashes. *)
Theorem C27_ninja_backslash_refuted : exists s, sh_arguments (quote_shell_argument s) = Some [literal "ab"] /\ s = "a\b".
Proof. exact ninja_backslash. Qed.
Print Assumptions C27_ninja_backslash_refuted.
(** Finding: nor is one that ends in a newline. *)
Theorem C27_ninja_newline_refuted : exists s, quote_shell_argument s = s /\ s = String "a" (String newline "") /\ sh_arguments s <> Some [literal s].
Proof. exact ninja_newline. Qed.
Print Assumptions C27_ninja_newline_refuted.

(** C28: a list of defines written to a makefile variable reaches the compiler
    as those arguments, byte for byte, through make's line joining, comment
    removal and expansion and through the shell: for defines without newline
    and without a backslash right before a number sign. *)
Theorem C28_defines : forall prefix l,
  (forall v, In v l -> has_char newline (prefix ++ v) = false /\ forall a b, prefix ++ v <> a ++ "\#" ++ b) ->
  make_arguments (write_defines prefix l) = Some (map (fun v => literal (prefix ++ v)) l).
Proof. exact define_list. Qed.
Print Assumptions C28_defines.
Theorem C28_define : forall d, has_char newline d = false -> (forall a b, d <> a ++ "\#" ++ b) -> make_arguments (escape_cpp_define d) = Some [literal d].
Proof. exact define_one. Qed.
Print Assumptions C28_define.
Example C28_witness : make_arguments (write_defines "-D" ["A=$(B) 'x' \\ #1"; "C="]) = Some [literal "-DA=$(B) 'x' \\ #1"; literal "-DC="].
Proof. reflexivity. Qed.
(** The same through ninja. *)
Theorem C28_ninja_define : forall d v, ninja_define d = Some v -> has_char "\" d = false ->
  exists x, ninja_value v = Some x /\ sh_arguments x = Some [literal ("-D" ++ d)].
Proof. exact ninja_define_ok. Qed.
Print Assumptions C28_ninja_define.
Example C28_ninja_witness : ninja_define "A=$x'y" = Some ("'-DA=$$x'" ++ String "034" ("'" ++ String "034" "'y'")). Proof. reflexivity. Qed.

(** Findings: a define with a backslash before a number sign, or with a
    newline, is cut off there. *)
Theorem C28_hash_refuted : exists d, make_value (escape_cpp_define d) = Some "'A=\" /\ d = "A=\#b".
Proof. exact define_backslash_hash. Qed.
Print Assumptions C28_hash_refuted.
Theorem C28_newline_refuted : exists d, make_value (escape_cpp_define d) = Some "'A=" /\ d = "A=" ++ String newline "b".
Proof. exact define_newline. Qed.
Print Assumptions C28_newline_refuted.

(** C29: the escaped form of any bytes is a C string literal's content denoting
    exactly those bytes. *)
Theorem C29_c_string : forall s, c_literal (escape_for_c_string s) = Some s.
Proof. exact c_string. Qed.
Print Assumptions C29_c_string.
Theorem C29_trigraphs : forall s, (forall a b, s <> a ++ "??" ++ b) -> c_literal (trigraphs (escape_for_c_string s)) = Some s.
Proof. exact c_string_trigraphs. Qed.
Print Assumptions C29_trigraphs.
Example C29_witness : escape_for_c_string ("C:\x" ++ String "010" "1") = "C:\134x\0121"
  /\ c_literal "C:\134x\0121" = Some ("C:\x" ++ String "010" "1"). Proof. split; reflexivity. Qed.
(** Finding: where the compiler honours trigraphs, two question marks may be
    taken for one. *)
Theorem C29_trigraphs_refuted : exists s, c_literal (trigraphs (escape_for_c_string s)) <> Some s /\ s = "what??!".
Proof. exact c_trigraph. Qed.
Print Assumptions C29_trigraphs_refuted.

(** C32: an argument that does not look like a path and does not end in a
    backslash is read back from a response file as itself, after the batch
    interpreter has turned two percent signs into one; without percent signs
    also directly. *)
Theorem C32_argument : forall np s, (forall c r, s = String c r -> has_char "/" r = false) -> (forall a, s <> a ++ "\") ->
  win_arguments (single_percent (quote_for_rsp_file np true s)) = Some [s] /\
  (has_char "%" s = false -> win_arguments (quote_for_rsp_file np true s) = Some [s]).
Proof. exact rsp_plain. Qed.
Print Assumptions C32_argument.
(** The same for a whole command: after the program come the arguments, those
    that look like paths in normal form ([as_path]). *)
Theorem C32_list : forall np p l, (forall x a, In x l -> as_path np x <> a ++ "\") ->
  exists program rest, encode_rsp_file_list np true (p :: l) = program ++ " " ++ rest /\ win_arguments (single_percent rest) = Some (map (as_path np) l).
Proof. exact rsp_list. Qed.
Print Assumptions C32_list.
Example C32_witness : win_arguments (quote_for_rsp_file (fun p => p) true ("a\\" ++ String "034" "b c")) = Some ["a\\" ++ String "034" "b c"].
Proof. reflexivity. Qed.
Example C32_list_witness : encode_rsp_file_list (fun p => p) true ["call x.bat"; "a b"; "100%"] =
  "call x.bat " ++ String "034" ("a b" ++ String "034" (" " ++ String "034" ("100%%" ++ String "034" ""))). Proof. reflexivity. Qed.

(** Findings: a backslash at the end swallows the closing quote, and with it
    the next argument; percent signs stay doubled where no batch interpreter
    reads the file. *)
Theorem C32_trailing_refuted : exists s, win_arguments (single_percent (quote_for_rsp_file (fun p => p) true s)) = None /\ s = "dir\".
Proof. exact rsp_trailing. Qed.
Print Assumptions C32_trailing_refuted.
Theorem C32_swallow_refuted : exists a b, win_arguments (join_with " " (map (quote_for_rsp_file (fun p => p) true) [a; b])) <> Some [a; b] /\ a = "C:\dir\" /\ b = "x".
Proof. exact rsp_two. Qed.
Print Assumptions C32_swallow_refuted.
Theorem C32_percent_refuted : exists s, win_arguments (quote_for_rsp_file (fun p => p) true s) = Some ["100%%"] /\ s = "100%".
Proof. exact rsp_percent. Qed.
Print Assumptions C32_percent_refuted.
