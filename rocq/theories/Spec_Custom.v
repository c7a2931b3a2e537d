(** What is said about the custom builds of Visual Studio projects: how MSBuild and
    cmd.exe read them. *)
From Verif Require Import Lib Str Spec_Path Model_Vcxproj Spec_Vcxproj.
Local Open Scope string_scope.

(** ** the lines of a text; a line ends with a line feed, and a carriage return
    before it is not part of it *)
Fixpoint feeds (s : string) : list string :=
  match s with
  | "" => [""]
  | String a s' => if Ascii.eqb a "010" then "" :: feeds s' else match feeds s' with x :: l => String a x :: l | [] => [] end
  end.
Fixpoint uncarriage (s : string) : string :=
  match s with "" => "" | String a "" => if Ascii.eqb a "013" then "" else s | String a s' => String a (uncarriage s') end.
Definition lines (s : string) : list string := map uncarriage (feeds s).

(** ** cmd.exe *)
(** The commands of a line, parted by ampersands outside of quotes.  With two
    ampersands there is an empty one between. *)
Fixpoint parts (quoted : bool) (s : string) : list string :=
  match s with
  | "" => [""]
  | String a s' =>
    if Ascii.eqb a "&" && negb quoted then "" :: parts quoted s'
    else match parts (if Ascii.eqb a """" then negb quoted else quoted) s' with x :: l => String a x :: l | [] => [] end
  end.
(** What comes after a word at the beginning. *)
Fixpoint after (w s : string) : option string :=
  match w, s with
  | "", _ => Some s
  | String a w', String b s' => if Ascii.eqb a b then after w' s' else None
  | _, _ => None
  end.
Fixpoint uncall (fuel : nat) (s : string) : string :=
  match fuel, after "call " s with Datatypes.S fuel, Some r => uncall fuel (strip r) | _, _ => s end.
Definition simple (s : string) : string := let s := strip s in uncall (String.length s) s.
(** A path in quotes. *)
Definition in_quotes (s : string) : option string :=
  match s with String a r => match rsplit1 """" r with Some (x, "") => if Ascii.eqb a """" then Some x else None | _ => None end | "" => None end.

Section Shell.
(** The state of the disk, and what programs do to it: [tool] is given the command,
    the directory it is run in, and the state, and gives the new one and the exit
    code. *)
Variable W : Type.
Variable tool : string -> list string -> W -> W * nat.
(** [level] is the exit code of the last command; [variable] is set once there is a
    variable of the name ERRORLEVEL, and from then on %errorlevel% is its value. *)
Record state := { disk : W; directory : list string; level : nat; variable : option string }.
Definition run_simple (c : string) (st : state) : state :=
  match after "set ERRORLEVEL=" c with
  | Some v => {| disk := disk st; directory := directory st; level := 0; variable := Some v |}
  | None =>
    match after "cd " c with
    | Some q => match in_quotes q with
                | Some path => {| disk := disk st; directory := leads (directory st) path; level := 0; variable := variable st |}
                | None => st
                end
    | None => let '(w, n) := tool c (directory st) (disk st) in {| disk := w; directory := directory st; level := n; variable := variable st |}
    end
  end.
(** [skipped]: two ampersands came before, and what is before them failed. *)
Fixpoint run_parts (skipped : bool) (l : list string) (st : state) : state :=
  match l with
  | [] => st
  | c :: l' =>
    if String.eqb c "" then run_parts (negb (Nat.eqb (level st) 0)) l' st
    else run_parts false l' (if skipped then st else run_simple (simple c) st)
  end.
Definition run_line (s : string) (st : state) : state := run_parts false (parts false s) st.
(** %errorlevel% neq 0 *)
Definition failed (st : state) : bool := match variable st with Some v => negb (String.eqb v "0") | None => negb (Nat.eqb (level st) 0) end.
(** A batch file; the exit code is that in the end. *)
Fixpoint run_batch (l : list string) (st : state) : state :=
  match l with
  | [] => st
  | s :: l' =>
    if String.eqb s "if %errorlevel% neq 0 exit /b %errorlevel%" then if failed st then st else run_batch l' st
    else run_batch l' (run_line s st)
  end.
(** Commands, one after the other, up to the first that fails. *)
Fixpoint one_by_one (l : list string) (st : state) : state :=
  match l with
  | [] => st
  | s :: l' => let st' := run_line s st in if Nat.eqb (level st') 0 then one_by_one l' st' else st'
  end.
End Shell.
Arguments disk {W}.
Arguments directory {W}.
Arguments level {W}.
Arguments variable {W}.

(** A command that is one line, and is read by MSBuild as it is written. *)
Definition plain_line (s : string) : Prop := has_char "010" s = false /\ has_char "013" s = false /\ has_char "%" s = false.
(** A command line that begins with a command, and makes no variable ERRORLEVEL. *)
Definition no_variable (s : string) : Prop := (exists c l, parts false s = c :: l /\ simple c <> "") /\ forall c v, In c (parts false s) -> simple c <> "set ERRORLEVEL=" ++ v.
(** Macros that are left alone. *)
Definition macros_kept (macros : string -> string) : Prop := forall s, has_char "$" s = false -> macros s = s.

(** ** custom builds *)
(** The commands of a custom build. *)
Definition commands (c : custom) : list string :=
  flat_map (fun s => match after "call " s with Some r => [r] | None => [] end) (lines (unescape (command c))).
(** The file an action is made for: its first input, or the .gyp file. *)
Definition first (p : project) (a : action) : string := match inputs a with [] => build_file p | i :: _ => i end.
Definition all_inputs (p : project) (a : action) : list string := match inputs a with [] => [build_file p] | i => i end.
(** The files that are copied. *)
Definition copied (p : project) : list string := flat_map files (copies p).
(** [f], in a project, is the file that [s] is for the .gyp file. *)
Definition leads_to (p : project) (f s : string) : Prop := forall here, leads here f = leads (leads here (prefix p)) s.
(** The copies, each a directory and a file. *)
Definition copying (p : project) : list (string * string) := flat_map (fun c => map (fun f => (destination c, f)) (files c)) (copies p).
(** A command that copies the file [f] to the directory [d]. *)
Definition copies_file (p : project) (df : string * string) (command : string) : Prop :=
  let '(d, f) := df in
  forall pre n, relative d -> relative f -> f = pre ++ n -> (pre = "" \/ exists r, pre = r ++ "/" \/ pre = r ++ "\") -> (forall c, In c ["/"; "\"]%char -> has_char c n = false) -> n <> "" ->
  (forall s, In s [prefix p; d; f] -> has_char """" s = false) ->
  exists to from target,
    map simple (parts false command) = ["mkdir """ ++ to ++ """ 2>nul"; "set ERRORLEVEL=0"; "copy /Y """ ++ from ++ """ """ ++ target ++ """"] /\
    leads_to p to d /\ leads_to p from f /\ forall here, leads here target = leads (leads (leads here (prefix p)) d) n.
(** [c] is the custom build for the file [k]. *)
Record custom_for (p : project) (k : string) (c : custom) : Prop := {
  on_file : relative k -> literal k -> exists f, reads (attached_to c) = [f] /\ leads_to p f k;
  does : exists copying_commands, commands c = (map line (filter (fun a => String.eqb (first p a) k) (actions p)) ++ copying_commands)%list /\
    Forall2 (copies_file p) (filter (fun df => String.eqb (snd df) k) (copying p)) copying_commands;
  needs : forall a i, In a (actions p) -> first p a = k -> In i (all_inputs p a) -> relative i -> literal i ->
    exists f, In f (reads (attached_to c) ++ reads (additional_inputs c)) /\ leads_to p f i;
  makes : forall a o, In a (actions p) -> first p a = k -> In o (outputs a) -> relative o -> literal o -> exists f, In f (reads (outputs_of c)) /\ leads_to p f o;
  makes_only : copies p = [] -> (forall a o, In a (actions p) -> In o (outputs a) -> relative o /\ literal o) ->
    forall f, In f (reads (outputs_of c)) -> exists a o, In a (actions p) /\ first p a = k /\ In o (outputs a) /\ leads_to p f o }.
(** The texts of a project are read as they are written. *)
Definition plain (s : string) : Prop := plain_line s /\ has_char "$" s = false.
Definition plain_project (p : project) : Prop :=
  plain (prefix p) /\ Forall (fun a => plain (line a)) (actions p) /\ Forall (fun c => plain (destination c) /\ Forall plain (files c)) (copies p).
