(** C102: which platform is generated for.  See Spec_Flavor for the notions used. *)
From Verif Require Import Lib Str Model_Value Model_Flavor Spec_Flavor Proof_Flavor Proof_Flavor2.
Local Open Scope string_scope.

(** The value of a variable is split into just the words it spells; otherwise (an open
    quote, a backslash at the end) it is an error. *)
Theorem C102_words : forall s ws, shlex_split s = Some ws <-> spells s ws.
Proof. exact shlex_iff. Qed.
Print Assumptions C102_words.

(** The compiler of CC_target, CC, CXX_target or CXX, the first that is set and not
    empty, is asked for its macros, with its flags. *)
Theorem C102_asked : forall e input ws, compiler_command false input e = Run ws <-> asked e input ws.
Proof. exact command_iff. Qed.
Print Assumptions C102_asked.
(** None is asked only if none of them is set. *)
Theorem C102_nobody : forall w e input, compiler_command w input e = Nobody <-> nobody e.
Proof. exact nobody_iff. Qed.
Print Assumptions C102_nobody.
(** On Windows it is the same with "/" for backslashes. *)
Theorem C102_windows : forall e e' input, forward_values e e' -> compiler_command true input e = compiler_command false input e'.
Proof. exact command_windows. Qed.
Print Assumptions C102_windows.

(** Its macros are those of the lines it prints, the last one for a name, whichever way
    lines end. *)
Theorem C102_macros : forall eol ls k v, In eol [String "010" ""; String "013" (String "010" "")] -> Forall one_line ls ->
  (assoc k (read_defines (printed eol ls)) = Some v <-> defined ls k v).
Proof. exact macros_read. Qed.
Print Assumptions C102_macros.

(** The macros decide what is generated for, and the platform if they do not. *)
Theorem C102_flavor : forall input platform run e ws eol ls f,
  asked e input ws -> run ws = Some (printed eol ls) -> In eol [String "010" ""; String "013" (String "010" "")] -> Forall one_line ls ->
  (get_flavor None false input platform run e = Some f <-> meant (fun k => exists v, defined ls k v) platform f).
Proof. exact flavor_asked. Qed.
Print Assumptions C102_flavor.
(** Without a compiler to ask the platform decides. *)
Theorem C102_platform : forall w input platform run e f, nobody e -> (get_flavor None w input platform run e = Some f <-> system platform f).
Proof. exact flavor_nobody. Qed.
Print Assumptions C102_platform.
(** Each platform has just one flavor. *)
Theorem C102_one : forall platform, exists! f, system platform f.
Proof. intros p. exists (flavor_by_platform p). split; [apply platform_sound|]. intros f S. apply platform_iff. exact S. Qed.
Print Assumptions C102_one.
(** One that was named in the format is taken as it is. *)
Theorem C102_named : forall a f w input platform run e, has_char "-" a = false ->
  named_format (a ++ "-" ++ f) = (a, Some f) /\ get_flavor (snd (named_format (a ++ "-" ++ f))) w input platform run e = Some f.
Proof.
  intros a f w input platform run e H. assert (N : named_format (a ++ "-" ++ f) = (a, Some f)).
  { unfold named_format. assert (D : split_dash (a ++ "-" ++ f) = Some (a, f)); [|rewrite D; reflexivity].
    induction a as [|c a IH]; [reflexivity|]. cbn [append split_dash]. cbn [has_char] in H. destruct (Ascii.eqb c "-"); [discriminate H|]. cbn [append] in IH. rewrite (IH H). reflexivity. }
  rewrite N. split; reflexivity.
Qed.
Print Assumptions C102_named.

(** A .gyp file sees as OS what was found, unless it was given as a variable. *)
Theorem C102_given : forall dir flavor d k v, assoc k d = Some v -> assoc k (calculate_variables dir flavor d) = Some v.
Proof. exact variables_kept. Qed.
Print Assumptions C102_given.
Theorem C102_os : forall dir flavor d, assoc "OS" d = None -> assoc "OS" (calculate_variables dir flavor d) = Some (if String.eqb flavor "android" then "linux" else flavor).
Proof. exact os_default. Qed.
Print Assumptions C102_os.
Theorem C102_suffix : forall dir flavor d, assoc "SHARED_LIB_SUFFIX" d = None ->
  assoc "SHARED_LIB_SUFFIX" (calculate_variables dir flavor d) = Some (match assoc flavor [("mac", ".dylib"); ("aix", ".a"); ("zos", ".x")] with Some s => s | None => ".so" end).
Proof. exact suffix_default. Qed.
Print Assumptions C102_suffix.

(** ** an example *)
Definition sdk : environment := [("CC_target", ""); ("CC", "ccache '/opt/wasi sdk/clang'"); ("CFLAGS", "--target=wasm32-wasi -DNAME=""a b"""); ("CXX", "clang++")].
Definition answer : list string := ["#define __wasi__ 1"; "#define __wasm__ 1"; "#define __VERSION__ ""Clang 16.0"""; "#define EMPTY"; "#define EMPTY 2"].
Definition printer (ws : list string) : option string := if list_eq_dec string_dec ws ["ccache"; "/opt/wasi sdk/clang"; "--target=wasm32-wasi"; "-DNAME=a b"; "-dM"; "-E"; "-x"; "c"; "/dev/null"] then Some (printed (String "010" "") answer) else None.
Example C102_witness : spells "ccache '/opt/wasi sdk/clang'" ["ccache"; "/opt/wasi sdk/clang"] /\
  asked sdk "/dev/null" ["ccache"; "/opt/wasi sdk/clang"; "--target=wasm32-wasi"; "-DNAME=a b"; "-dM"; "-E"; "-x"; "c"; "/dev/null"] /\
  Forall one_line answer /\ defined answer "__VERSION__" """Clang 16.0""" /\ defined answer "EMPTY" "2" /\ get_flavor None false "/dev/null" "darwin" printer sdk = Some "wasi" /\
  nobody [("CC", ""); ("LINK", "ld")] /\ system "freebsd14" "freebsd" /\ system "linux" "linux" /\ forward_values [("CC", "C:\bin\cc")] [("CC", "C:/bin/cc")].
Proof.
  assert (F : Forall one_line answer) by (repeat (apply Forall_cons; [split; reflexivity|]); apply Forall_nil).
  assert (E : In (String "010" "") [String "010" ""; String "013" (String "010" "")]) by (left; reflexivity).
  split; [apply C102_words; vm_compute; reflexivity|]. split; [apply C102_asked; vm_compute; reflexivity|]. split; [exact F|].
  split; [apply (C102_macros _ _ _ _ E F); vm_compute; reflexivity|]. split; [apply (C102_macros _ _ _ _ E F); vm_compute; reflexivity|]. split; [vm_compute; reflexivity|].
  split; [apply (C102_nobody false _ ""); vm_compute; reflexivity|]. split; [apply platform_iff; reflexivity|]. split; [apply platform_iff; reflexivity|].
  apply Forall2_cons; [|apply Forall2_nil]. split; [reflexivity|]. apply forward_slashes. reflexivity.
Qed.

(** ** what does not hold *)
(** The compiler that is asked need not be the one that make runs.  If CC_target is set
    but empty, CC is asked (common.py:434), while the Makefile is given the empty value
    (GetEnvironFallback, common.py:121-123, make.py:2452). *)
Theorem C102_same_compiler_refuted : ~ forall e c fl, chosen e c fl -> fl = "CFLAGS" -> make_compiler e = c.
Proof.
  intros H. specialize (H [("CC_target", ""); ("CC", "emcc")] "emcc" "CFLAGS"). assert (C : chosen [("CC_target", ""); ("CC", "emcc")] "emcc" "CFLAGS").
  { apply chosen_cc; [right; reflexivity|]. split; [reflexivity|discriminate]. }
  specialize (H C eq_refl). vm_compute in H. discriminate H.
Qed.
Print Assumptions C102_same_compiler_refuted.
(** A compiler that cannot list its macros makes gyp fail with a CalledProcessError
    (common.py:463-466, check=True), although the platform is known. *)
Theorem C102_always_refuted : ~ forall input platform run e, exists f, get_flavor None false input platform run e = Some f.
Proof. intros H. destruct (H "/dev/null" "aix" (fun _ => None) [("CC", "xlc")]) as (f & E). vm_compute in E. discriminate E. Qed.
Print Assumptions C102_always_refuted.
(** On Windows a flag with a backslash reaches the compiler as another one
    (common.py:431-432): -DNAME=\"x\" becomes -DNAME=/x/. *)
Theorem C102_flags_refuted : ~ forall input e ws, asked e input ws -> compiler_command true input e = Run ws.
Proof.
  intros H. assert (A : asked [("CC", "clang"); ("CFLAGS", "-DNAME=\""x\""")] "nul" ["clang"; "-DNAME=""x"""; "-dM"; "-E"; "-x"; "c"; "nul"]) by (apply C102_asked; vm_compute; reflexivity).
  specialize (H _ _ _ A). vm_compute in H. discriminate H.
Qed.
Print Assumptions C102_flags_refuted.
(** A generator given as a file cannot have a dash in its path: what is before the dash
    is taken for the generator, what is behind it for the flavor (__init__.py:86-87). *)
Theorem C102_file_refuted : ~ forall f, (exists a, f = a ++ ".py") -> named_format f = (f, None).
Proof. intros H. specialize (H "my-tools/list.py" (ex_intro _ "my-tools/list" eq_refl)). vm_compute in H. discriminate H. Qed.
Print Assumptions C102_file_refuted.
