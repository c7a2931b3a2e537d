(** What is expected of the objects ninja makes of sources: which file is compiled to
    which. *)
From Verif Require Import Lib Str Model_Path Spec_Path Model_Writer Model_NinjaBuild.
Local Open Scope string_scope.

(** A source: in the directory of the .gyp file or below, in <(PRODUCT_DIR), or in
    <(INTERMEDIATE_DIR); DIR/STEM.EXT there. *)
Inductive origin := In_tree | In_product_dir | In_intermediate_dir.
Record file := { from : origin; dir : string; stem : string; ext : string }.
Definition text (f : file) : string :=
  (match from f with In_tree => "" | In_product_dir => "$!PRODUCT_DIR/" | In_intermediate_dir => "$!INTERMEDIATE_DIR/" end) ++ dir f ++ stem f ++ "." ++ ext f.
(** Relative, and without variables. *)
Definition proper (f : file) : Prop :=
  (dir f = "" \/ exists p, dir f = p ++ "/") /\ isabs (dir f) = false /\ has_char "$" (dir f) = false /\ has_char "$" (stem f) = false /\ has_char "/" (stem f) = false /\
  (exists c, has_char c (stem f) = true /\ c <> "."%char) /\ has_char "$" (ext f) = false /\ has_char "." (ext f) = false /\ has_char "/" (ext f) = false.
Definition regular (t : target) : Prop := has_char "/" (target_name t) = false /\ has_char "$" (target_name t) = false /\ has_char "$" (path t) = false /\ isabs (path t) = false /\ has_char "/" (toolset t) = false /\ has_char "$" (toolset t) = false.

(** What compiles it. *)
Definition compiled_by (e : string) (c : string) : Prop := In (e, c) [("cc", "cxx"); ("cpp", "cxx"); ("cxx", "cxx"); ("c", "cc"); ("S", "cc"); ("s", "cc_s")].

(** ** places *)
(** obj, or obj.TOOLSET, below [here], and there the directory of the .gyp file. *)
Definition objects (t : target) (here : list string) : list string := locate ((if String.eqb (toolset t) "target" then "obj" else append "obj." (toolset t)) :: here)%list (path t).
(** <(INTERMEDIATE_DIR), below [here] *)
Definition generated (t : target) (here : list string) : list string := (append (target_name t) ".gen" :: objects t here)%list.
(** Where the source is, and where its object, if the build directory is [build]. *)
Definition source_place (s : setup) (t : target) (build : list string) (f : file) : list string :=
  (append (stem f) (append "." (ext f)) ::
   locate (match from f with In_tree => locate (locate build (to_top s)) (path t) | In_product_dir => build | In_intermediate_dir => generated t build end) (dir f))%list.
Definition object_place (t : target) (build : list string) (f : file) : list string :=
  (append (target_name t) (append "." (append (stem f) ".o")) ::
   locate (match from f with In_intermediate_dir => generated t (objects t build) | _ => objects t build end) (dir f))%list.
(** The path does not go up. *)
Definition down (p : string) : Prop := isabs p = false /\ forall c, In c (split_char "/" p) -> c <> "..".
