(** Examples, and histories after which a build is wrong. *)
From Coq Require Import Lia.
From Verif Require Import Lib Str LibFacts StrFacts Model_Quote Spec_Quote Model_Make Spec_Make Proof_Make.
Local Open Scope string_scope.

(** A compiler whose result depends on the command, on a.c, and, if that says so,
    on b.h; a linker; and a generator that reads nothing. *)
Definition sample : tool := fun c f =>
  if String.prefix "cc" c then
    match f "a.c" with
    | Some s => if String.eqb s "i" then match f "b.h" with Some h => Some (c ++ h, ["a.c"; "b.h"]) | None => None end else Some (c ++ s, ["a.c"])
    | None => None
    end
  else if String.prefix "ld" c then match f "a.o" with Some o => Some (c ++ o, ["a.o"]) | None => None end
  else Some (c, []).
Definition sample_tracked (c : string) : bool := String.prefix "cc" c.
Definition compile (c : string) : rule := {| out := "a.o"; inputs := ["a.c"]; after := []; command := c |}.
Definition link (c : string) : rule := {| out := "prog"; inputs := ["a.o"]; after := []; command := c |}.
Definition rules_of (c l : string) : list rule := [compile c; link l].
Definition at0 (c : string) : option entry := Some {| content := c; time := 0 |}.
Definition fresh : state :=
  {| files := fun f => if String.eqb f "a.c" then at0 "x" else if String.eqb f "b.h" then at0 "1" else None; saved := fun _ => None; clock := 0 |}.

Lemma sample_honest : honest sample.
Proof.
  intros c f g r H A. unfold sample in *. destruct (String.prefix "cc" c).
  - destruct (f "a.c") as [s|] eqn:FA; [|discriminate]. assert (E1 : g "a.c" = Some s).
    { rewrite <- FA. apply A. destruct (String.eqb s "i"); [destruct (f "b.h"); [|discriminate]|]; injection H as <-; left; reflexivity. }
    rewrite E1. destruct (String.eqb s "i"); [|exact H]. destruct (f "b.h") as [h|] eqn:FB; [|discriminate]. assert (E2 : g "b.h" = Some h) by (rewrite <- FB; apply A; injection H as <-; right; left; reflexivity). rewrite E2. exact H.
  - destruct (String.prefix "ld" c); [|exact H]. destruct (f "a.o") as [o|] eqn:FO; [|discriminate]. assert (E : g "a.o" = Some o) by (rewrite <- FO; apply A; injection H as <-; left; reflexivity). rewrite E. exact H.
Qed.
Lemma sample_proper : forall c l, String.prefix "cc" c = true -> String.prefix "cc" l = false -> String.prefix "ld" l = true -> proper sample sample_tracked (rules_of c l).
Proof.
  intros c l C L1 L2. unfold rules_of. split.
  - repeat constructor; cbn; intuition discriminate.
  - intros a r b x E I. destruct a as [|q [|s [|t a]]]; injection E; clear E; intros; subst; cbn in *; try discriminate; intuition (subst; discriminate).
  - intros r f v reads x I X J O. destruct I as [<-|[<-|[]]]; cbn [compile link command] in X; unfold sample in X.
    + rewrite C in X. assert (In x ["a.c"; "b.h"]) as K.
      { destruct (f "a.c") as [s|]; [|discriminate]. destruct (String.eqb s "i"); [destruct (f "b.h"); [|discriminate]|]; injection X as <- <-; [exact J|destruct J as [<-|[]]; left; reflexivity]. }
      cbn in K, O. intuition (subst; discriminate).
    + rewrite L1, L2 in X. destruct (f "a.o"); [|discriminate]. injection X as <- <-. destruct J as [<-|[]]. apply before_direct. left. reflexivity.
  - intros r f v reads x I T X J. destruct I as [<-|[<-|[]]]; cbn [compile link command inputs] in *; unfold sample_tracked in T; [congruence|]. unfold sample in X. rewrite L1, L2 in X. destruct (f "a.o"); [|discriminate]. injection X as <- <-. exact J.
Qed.
Lemma sample_fed : forall c l, fed (rules_of c l).
Proof. intros c l r [<-|[<-|[]]]; discriminate. Qed.
Lemma plain_cc : plain "cc a.c". Proof. repeat split; try discriminate; [intros a t E; injection E as <- <-; reflexivity|intros a E; repeat (destruct a as [|? a]; try discriminate E)]. Qed.
Lemma plain_ld : plain "ld a.o". Proof. repeat split; try discriminate; [intros a t E; injection E as <- <-; reflexivity|intros a E; repeat (destruct a as [|? a]; try discriminate E)]. Qed.
Lemma plain_strip : plain "ld -s a.o". Proof. repeat split; try discriminate; [intros a t E; injection E as <- <-; reflexivity|intros a E; repeat (destruct a as [|? a]; try discriminate E)]. Qed.
Lemma sample_good : good sample sample_tracked (rules_of "cc a.c" "ld a.o").
Proof. split; [apply sample_proper; reflexivity|]. split; [apply sample_fed|]. intros r [<-|[<-|[]]]; [exact plain_cc|exact plain_ld]. Qed.
Lemma stripped_good : good sample sample_tracked (rules_of "cc a.c" "ld -s a.o").
Proof. split; [apply sample_proper; reflexivity|]. split; [apply sample_fed|]. intros r [<-|[<-|[]]]; [exact plain_cc|exact plain_strip]. Qed.
Lemma sample_finds : finds sample (rules_of "cc a.c" "ld a.o").
Proof.
  intros r f c reads x [<-|[<-|[]]] X J; cbn [compile link command inputs] in *; unfold sample in X; cbn in X.
  - destruct (f "a.c") as [s|] eqn:A; [|discriminate]. destruct (String.eqb s "i"); [destruct (f "b.h") eqn:B; [|discriminate]|]; injection X as <- <-; cbn in J; intuition (subst; congruence).
  - destruct (f "a.o") eqn:A; [|discriminate]. injection X as <- <-. cbn in J. intuition (subst; congruence).
Qed.
Lemma fresh_history : history sample sample_tracked fresh.
Proof.
  apply untouched; [reflexivity|]. intros f e E. unfold fresh, at0 in E. cbn in E. destruct (String.eqb f "a.c"); [injection E as <-; apply le_n|]. destruct (String.eqb f "b.h"); [injection E as <-; apply le_n|discriminate].
Qed.
Definition rules1 := rules_of "cc a.c" "ld a.o".
Definition once_built : state := fst (make sample sample_tracked rules1 fresh).
Lemma once_history : history sample sample_tracked once_built.
Proof. apply (built _ _ fresh rules1 []); [exact fresh_history|exact sample_good]. Qed.
Definition edited_state : state := write once_built "a.c" "i".
Lemma edited_history : history sample sample_tracked edited_state.
Proof. apply edited; [exact once_history|reflexivity]. Qed.
Definition again_state : state := fst (make sample sample_tracked rules1 edited_state).
Lemma header_history : history sample sample_tracked (write again_state "b.h" "2").
Proof. apply edited; [|reflexivity]. apply (built _ _ edited_state rules1 []); [exact edited_history|exact sample_good]. Qed.

(** Killed after the command, and between the two halves of the depfile: what the
    file reads now is not known any more. *)
Lemma kill_before_depfile :
  ~ (forall exec tracked st rules r st1 f c st2 fs, honest exec -> history exec tracked st -> good exec tracked rules -> In r rules -> killed_before_depfile exec st r = Some st1 -> saved_command st (out r) = command r ->
       saved st1 f = None -> make exec tracked rules (write st1 f c) = (st2, true) -> from_scratch exec rules (contents (write st1 f c)) = Some fs -> forall x, contents st2 x = fs x).
Proof.
  intros H. discriminate (H sample sample_tracked edited_state rules1 (compile "cc a.c") _ "b.h" "2" _ _ sample_honest edited_history sample_good (or_introl eq_refl) eq_refl eq_refl eq_refl eq_refl eq_refl "prog").
Qed.
Lemma kill_in_depfile :
  ~ (forall exec tracked st rules r st1 f c st2 fs, honest exec -> history exec tracked st -> good exec tracked rules -> In r rules -> killed_in_depfile exec st r = Some st1 ->
       saved st1 f = None -> make exec tracked rules (write st1 f c) = (st2, true) -> from_scratch exec rules (contents (write st1 f c)) = Some fs -> forall x, contents st2 x = fs x).
Proof.
  intros H. discriminate (H sample sample_tracked edited_state rules1 (compile "cc a.c") _ "b.h" "2" _ _ sample_honest edited_history sample_good (or_introl eq_refl) eq_refl eq_refl eq_refl eq_refl "prog").
Qed.
(** Killed after a changed command; the change is then taken back. *)
Lemma kill_and_revert :
  ~ (forall exec tracked st rules r rules' st1 st2 fs, honest exec -> history exec tracked st -> good exec tracked rules -> good exec tracked rules' -> In r rules -> tracked (command r) = false -> killed_before_depfile exec st r = Some st1 ->
       make exec tracked rules' st1 = (st2, true) -> from_scratch exec rules' (contents st1) = Some fs -> forall x, contents st2 x = fs x).
Proof.
  intros H. discriminate (H sample sample_tracked once_built (rules_of "cc a.c" "ld -s a.o") (link "ld -s a.o") rules1 _ _ _ sample_honest once_history stripped_good sample_good (or_intror (or_introl eq_refl)) eq_refl eq_refl eq_refl eq_refl "prog").
Qed.
(** A command that fails having written to its target. *)
Lemma failed_halfway :
  ~ (forall exec tracked st rules r c st1 st2 fs, honest exec -> history exec tracked st -> good exec tracked rules -> In r rules -> half_written st r c = Some st1 ->
       make exec tracked rules st1 = (st2, true) -> from_scratch exec rules (contents st1) = Some fs -> forall x, contents st2 x = fs x).
Proof.
  intros H. discriminate (H sample sample_tracked edited_state rules1 (compile "cc a.c") "half" _ _ _ sample_honest edited_history sample_good (or_introl eq_refl) eq_refl eq_refl eq_refl "prog").
Qed.
(** A command with a number sign. *)
Definition signed1 := rules_of "cc -DA=#1" "ld a.o".
Definition signed2 := rules_of "cc -DA=" "ld a.o".
Lemma number_sign :
  ~ (forall exec tracked st rules rules' st1 st2 fs, honest exec -> history exec tracked st -> proper exec tracked rules -> proper exec tracked rules' -> fed rules -> fed rules' ->
       make exec tracked rules st = (st1, true) -> make exec tracked rules' st1 = (st2, true) -> from_scratch exec rules' (contents st1) = Some fs -> forall x, contents st2 x = fs x).
Proof.
  intros H. discriminate (H sample sample_tracked fresh signed1 signed2 _ _ _ sample_honest fresh_history (sample_proper "cc -DA=#1" "ld a.o" eq_refl eq_refl eq_refl) (sample_proper "cc -DA=" "ld a.o" eq_refl eq_refl eq_refl) (sample_fed _ _) (sample_fed _ _) eq_refl eq_refl eq_refl "prog").
Qed.
Lemma sign_again :
  ~ (forall exec tracked st rules st1, honest exec -> history exec tracked st -> proper exec tracked rules -> fed rules -> finds exec rules -> make exec tracked rules st = (st1, true) -> make exec tracked rules st1 = (st1, true)).
Proof.
  intros H. assert (F : finds sample signed1).
  { intros r f c reads x [<-|[<-|[]]] X J; cbn [compile link command inputs] in *; unfold sample in X; cbn in X.
    - destruct (f "a.c") as [s|] eqn:A; [|discriminate]. destruct (String.eqb s "i"); [destruct (f "b.h") eqn:B; [|discriminate]|]; injection X as <- <-; cbn in J; intuition (subst; congruence).
    - destruct (f "a.o") eqn:A; [|discriminate]. injection X as <- <-. cbn in J. intuition (subst; congruence). }
  pose proof (H sample sample_tracked fresh signed1 _ sample_honest fresh_history (sample_proper "cc -DA=#1" "ld a.o" eq_refl eq_refl eq_refl) (sample_fed _ _) F eq_refl) as E. apply (f_equal (fun p => clock (fst p))) in E. vm_compute in E. discriminate.
Qed.
(** A rule without inputs. *)
Definition generate : rule := {| out := "g"; inputs := []; after := []; command := "gen" |}.
Lemma no_inputs :
  ~ (forall exec tracked st rules f st1 st2 fs, honest exec -> history exec tracked st -> proper exec tracked rules -> plainly rules ->
       make exec tracked rules st = (st1, true) -> make exec tracked rules (remove st1 f) = (st2, true) -> from_scratch exec rules (contents (remove st1 f)) = Some fs -> forall x, contents st2 x = fs x).
Proof.
  intros H. assert (P : proper sample sample_tracked [generate]).
  { split.
    - repeat constructor. intros [].
    - intros a r b x E I. destruct a as [|q a]; [injection E as <- <-; destruct I|destruct a; discriminate].
    - intros r f c reads x [<-|[]] X J. cbn in X. injection X as <- <-. destruct J.
    - intros r f c reads x [<-|[]] _ X J. cbn in X. injection X as <- <-. destruct J. }
  assert (L : plainly [generate]) by (intros r [<-|[]]; repeat split; try discriminate; [intros a t E; injection E as <- <-; reflexivity|intros a E; repeat (destruct a as [|? a]; try discriminate E)]).
  discriminate (H sample sample_tracked fresh [generate] "g" _ _ _ sample_honest fresh_history P L eq_refl eq_refl eq_refl "g").
Qed.
