(** What compilers and linkers are to be given on macOS, by a Makefile that is read as in
    Spec_Flags. *)
From Verif Require Import Lib Str Spec_Quote Model_Writer Spec_Flags.
Local Open Scope string_scope.

(** The words a flag stands for: itself, if neither make nor the shell changes it; the
    words in it, if there are spaces between words (as in "-framework Cocoa"); and what
    a directory of the build is, if it is named. *)
Inductive gives (vars : string -> option string) : string -> list string -> Prop :=
| gives_itself s : plain_flag s -> gives vars s [s]
| gives_words w ws : Forall safe (w :: ws) -> gives vars (String.concat " " (w :: ws)) (w :: ws)
| gives_place a x d r : safe a -> In x ["obj"; "builddir"; "srcdir"] -> vars x = Some d -> safe d -> (r = "" \/ safe r) -> gives vars (a ++ "$(" ++ x ++ ")" ++ r) [a ++ d ++ r].
Definition all_give (vars : string -> option string) (flags words : list string) : Prop := exists wss, Forall2 (gives vars) flags wss /\ words = concat wss.

(** No other configuration's variables have the names of those of this one. *)
Definition set_apart (b : string) (ns : list string) : Prop :=
  forall n p, In n ns -> In p ["C_"; "CC_"; "OBJC_"; "OBJCC_"] -> n <> p ++ b /\ b <> p ++ n.

(** The command for each type of target: [ld] and [more] are the linker and the flags
    the user sets for it, [inputs] the files to link. *)
Definition mac_link_words (ty : kind) (ld more inputs : list (list atom)) (out : string) (flags archive_flags libs : list string) : option (list (list atom)) :=
  (match ty with
   | Executable => Some (ld ++ map literal flags ++ more ++ map literal ["-o"; out] ++ inputs ++ map literal libs)
   | Shared_library => Some (ld ++ map literal ("-shared" :: flags) ++ more ++ map literal ["-o"; out] ++ inputs ++ map literal libs)
   | Loadable_module => Some (ld ++ map literal ("-bundle" :: flags) ++ more ++ map literal ["-o"; out] ++ inputs ++ map literal libs)
   | Static_library => Some (map literal (["gyp-mac-tool"; "filter-libtool"; "libtool"] ++ archive_flags ++ ["-static"; "-o"; out]) ++ inputs)
   | None_ => None
   end)%list.
