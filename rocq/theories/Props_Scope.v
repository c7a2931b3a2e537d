(** C65: which variables are seen where. *)
From Verif Require Import Lib Model_Value Model_Merge Model_Filter Model_Cond Spec_Cond Spec_Scope Proof_Scope Proof_Scope2 Examples_Merge Examples_Cond.
Local Open Scope string_scope.

(** An oracle in which <(x) is the value of x, for a few names. *)
Definition read_expand (vars : dict) (v : value) : result value :=
  let look n := match assoc n vars with Some x => Val x | None => Val (VStr "?") end in
  match v with VStr "<(x)" => match look "x" with Val (VStr s) => Val (VStr s) | _ => Val (VStr "?") end
             | VStr "<(_name)" => match look "_name" with Val (VStr s) => Val (VStr s) | _ => Val (VStr "?") end
             | _ => Val v end.
Definition read_eval (vars : dict) (v : value) : result bool :=
  Val (match v with VStr "x=1" => match assoc "x" vars with Some (VStr "1") => true | _ => false end | _ => false end).
(** A dict with a variable, an own entry, a condition on the variable, an
    inner dict with a variable of its own and another one without. *)
Definition scoped : dict :=
  [("variables", VDict [("x", VStr "1"); ("y%", VStr "2")]); ("name", VStr "n"); ("a", VDict [("p", VStr "<(x)"); ("q", VStr "<(_name)")]);
   ("b", VDict [("variables", VDict [("x", VStr "3")]); ("p", VStr "<(x)"); ("name", VStr "m"); ("q", VStr "<(_name)")]);
   ("conditions", VList [VList [VStr "x=1"; VDict [("c", VList [VStr "<(x)"])]]])].
Definition scoped' : dict :=
  [("variables", VDict [("x", VStr "1"); ("y%", VStr "2")]); ("name", VStr "n"); ("a", VDict [("p", VStr "1"); ("q", VStr "n")]);
   ("b", VDict [("variables", VDict [("x", VStr "3")]); ("p", VStr "3"); ("name", VStr "m"); ("q", VStr "m")]); ("c", VList [VStr "1"])].

Lemma read_flat : flat_lists read_expand.
Proof.
  intros vars s l H. assert (X : forall o : option value, match match o with Some x => Val x | None => Val (VStr "?") end with Val (VStr s) => Val (VStr s) | _ => Val (VStr "?") end <> Val (VList l)) by (intros [[]|]; discriminate).
  unfold read_expand in H. destruct (String.eqb_spec s "<(x)") as [->|N1]; [destruct (X _ H)|]. destruct (String.eqb_spec s "<(_name)") as [->|N2]; [destruct (X _ H)|].
  exfalso. revert H. clear - N1 N2. repeat (let ch := fresh in destruct s as [|ch s]; [discriminate|]; destruct ch as [[] [] [] [] [] [] [] []]; try discriminate); destruct s; try discriminate; congruence.
Qed.
Lemma read_same : forall a b v, (forall n, assoc n a = assoc n b) -> read_expand a v = read_expand b v.
Proof. intros a b v H. unfold read_expand. cbv zeta. rewrite !H. reflexivity. Qed.
Lemma eval_same : forall a b v, (forall n, assoc n a = assoc n b) -> read_eval a v = read_eval b v.
Proof. intros a b v H. unfold read_eval. rewrite H. reflexivity. Qed.

(** C65: a pass over a dict does what the specification says: first the
    variables section is settled, seeing its own entries; then the strings
    beside it, then the conditions and what they choose, then what is inside,
    each seeing what is seen in the dict: the variables it sets, else its own
    entries, else what is seen around it, else its defaults. *)
Theorem C65_scope : forall expand eval c ph fuel key vars d d', flat_lists expand -> no_dup_keys (VDict d) -> depth (VDict d) <= fuel ->
  process_dict expand eval c ph fuel key vars d = Val d' -> settles expand eval c ph key vars d d'.
Proof. exact phase_settles. Qed.
Print Assumptions C65_scope.

Example C65_scope_witness : flat_lists read_expand /\ no_dup_keys (VDict scoped) /\ depth (VDict scoped) <= 9 /\
  process_dict read_expand read_eval ctx0 Early 9 None [] scoped = Val scoped'.
Proof.
  split; [|split; [|split; [cbv; auto|reflexivity]]].
  - exact read_flat.
  - repeat constructor; cbn; intuition discriminate.
Qed.

(** C65: and that is all there is to it: if expansion and evaluation depend on
    the values of variables only, what a dict becomes depends on what is seen
    around it only, and on nothing else that was read or done before. *)
Theorem C65_determined : forall expand eval c ph key around around' d d1 d2,
  (forall a b v, (forall n, assoc n a = assoc n b) -> expand a v = expand b v) -> (forall a b v, (forall n, assoc n a = assoc n b) -> eval a v = eval b v) ->
  (forall n, assoc n around = assoc n around') ->
  settles expand eval c ph key around d d1 -> settles expand eval c ph key around' d d2 -> d1 = d2.
Proof. intros. exact (proj1 (settles_unique expand eval c ph H H0) key around d d1 H2 around' d2 H1 H3). Qed.
Print Assumptions C65_determined.

Example C65_determined_witness : (forall a b v, (forall n, assoc n a = assoc n b) -> read_expand a v = read_expand b v) /\
  (forall a b v, (forall n, assoc n a = assoc n b) -> read_eval a v = read_eval b v) /\ settles read_expand read_eval ctx0 Early None [] scoped scoped'.
Proof.
  split; [exact read_same|]. split; [exact eval_same|]. destruct C65_scope_witness as (A & B & C & D). exact (C65_scope _ _ _ _ _ _ _ _ _ A B C D).
Qed.

(** C65: what is inside one dict does not reach its neighbours: whatever an
    inner dict says, all that stands beside it comes out the same. *)
Theorem C65_neighbours : forall expand eval c ph key around before k x y after d' e',
  (forall a b v, (forall n, assoc n a = assoc n b) -> expand a v = expand b v) -> (forall a b v, (forall n, assoc n a = assoc n b) -> eval a v = eval b v) ->
  k <> "variables" -> key <> Some "variables" -> ~ In k (map fst before) -> (forall s, section_of ph s -> ~ In s (map fst (before ++ (k, VDict x) :: after)%list)) ->
  settles expand eval c ph key around (before ++ (k, VDict x) :: after)%list d' -> settles expand eval c ph key around (before ++ (k, VDict y) :: after)%list e' ->
  exists before' x' y' after', d' = (before' ++ (k, VDict x') :: after')%list /\ e' = (before' ++ (k, VDict y') :: after')%list.
Proof. exact neighbours_out. Qed.
Print Assumptions C65_neighbours.

Example C65_neighbours_witness : (forall s, section_of Late s -> ~ In s (map fst scoped)) /\ settles read_expand read_eval ctx0 Late None [] scoped
    [("variables", VDict [("x", VStr "1"); ("y%", VStr "2")]); ("name", VStr "n"); ("a", VDict [("p", VStr "1"); ("q", VStr "n")]);
     ("b", VDict [("variables", VDict [("x", VStr "3")]); ("p", VStr "3"); ("name", VStr "m"); ("q", VStr "m")]);
     ("conditions", VList [VList [VStr "x=1"; VDict [("c", VList [VStr "1"])]]])] /\
  settles read_expand read_eval ctx0 Late None []
    [("variables", VDict [("x", VStr "1"); ("y%", VStr "2")]); ("name", VStr "n"); ("a", VDict [("variables", VDict [("x", VStr "8")]); ("name", VStr "o")]);
     ("b", VDict [("variables", VDict [("x", VStr "3")]); ("p", VStr "<(x)"); ("name", VStr "m"); ("q", VStr "<(_name)")]);
     ("conditions", VList [VList [VStr "x=1"; VDict [("c", VList [VStr "<(x)"])]]])]
    [("variables", VDict [("x", VStr "1"); ("y%", VStr "2")]); ("name", VStr "n"); ("a", VDict [("variables", VDict [("x", VStr "8")]); ("name", VStr "o")]);
     ("b", VDict [("variables", VDict [("x", VStr "3")]); ("p", VStr "3"); ("name", VStr "m"); ("q", VStr "m")]);
     ("conditions", VList [VList [VStr "x=1"; VDict [("c", VList [VStr "1"])]]])].
Proof.
  split; [intros s H; inversion H; subst; cbn; intuition discriminate|].
  split; (apply (C65_scope _ _ _ _ 9); [exact read_flat|repeat constructor; cbn; intuition discriminate|cbv; auto|reflexivity]).
Qed.
