(** Property theorems: XML output round-trips (C31).  The reader [xml_events]
    and the relation [found] between a specification and what a reader should
    find are in Spec_Xml. *)
From Verif Require Import Lib LibFacts Str Model_Quote Model_Xml Spec_Xml Proof_Xml.
Local Open Scope string_scope.

(** C31: a reader finds exactly the elements, attributes and text written, in
    order, whatever the strings; pretty printing adds blanks only around the
    document and between the children of elements that have child elements. *)
Theorem C31_round_trip : forall encoding (pretty : bool) n attrs kids, has_char ">" encoding = false -> representable (Elem n attrs kids) ->
  let blanks := if pretty then [Char "010"] else [] in
  exists E, xml_events (xml_to_string encoding pretty (Elem n attrs kids)) = Some (blanks ++ E ++ blanks)%list /\ found pretty (Elem n attrs kids) E.
Proof. exact xml_round_trip. Qed.
Print Assumptions C31_round_trip.

(** C31: a text is read as itself wherever it stands, and so is an attribute
    value; neither ends early, whatever follows. *)
Theorem C31_text : forall s rest, xml_read XText (xml_escape false s ++ rest) = option_map (app (char_events s)) (xml_read XText rest).
Proof. exact read_text. Qed.
Print Assumptions C31_text.
Theorem C31_value : forall n l a s rest, has_char "009" s = false -> xml_read (XVal n l a "") (xml_escape true s ++ rest) = xml_read (XVal n l a s) rest.
Proof. intros n l a s rest. exact (read_value n l a s "" rest). Qed.
Print Assumptions C31_value.

Definition ex_xml := Elem "Tool" [("Path", "a&b<c>'d'"); ("Name", "say " ++ str1 dquote ++ "hi" ++ str1 dquote ++ str1 newline)] [Text "x < y"; Elem "File" [] []; Elem "F2" [] [Text "]]>"]].
Example C31_witness : representable ex_xml /\ construct true 0 ex_xml =
  "<Tool Name=" ++ str1 dquote ++ "say &quot;hi&quot;&#xA;" ++ str1 dquote ++ " Path=" ++ str1 dquote ++ "a&amp;b&lt;c&gt;'d'" ++ str1 dquote ++ ">" ++ str1 newline
  ++ "x &lt; y  <File/>" ++ str1 newline ++ "  <F2>]]&gt;</F2>" ++ str1 newline ++ "</Tool>" ++ str1 newline.
Proof.
  assert (V : forall s, s <> "" -> forallb name_ok (list_ascii_of_string s) = true -> valid_name s).
  { intros s H0 H. split; [exact H0|]. clear H0. induction s as [|c s IH]; intros x Hx; [discriminate|]. cbn [list_ascii_of_string forallb] in H. apply andb_true_iff in H. destruct H as [H1 H2].
    cbn [has_char] in Hx. destruct (Ascii.eqb_spec c x) as [E|E]; [subst; exact H1|apply IH; assumption]. }
  assert (A : forall l : list (string * string), Forall (fun p => valid_name (fst p) /\ has_char "009" (snd p) = false) l -> forall a v, In (a, v) l -> valid_name a /\ has_char "009" v = false).
  { intros l H a v HI. rewrite Forall_forall in H. exact (H (a, v) HI). }
  assert (K : forall l, Forall representable l -> forall k, In k l -> representable k) by (intros l H; apply Forall_forall; exact H).
  split; [|reflexivity].
  repeat first [apply rep_elem | apply rep_text | apply A | apply K | apply Forall_cons | apply Forall_nil | (apply V; [discriminate|reflexivity]) | split | reflexivity].
Qed.

(** Refuted without the restriction on tabs: an attribute value with a tab is
    read back with a space instead. *)
Theorem C31_tab_refuted : exists v, xml_events (construct false 0 (Elem "a" [("b", v)] [])) = Some [Open "a" [("b", "x y")]; Close "a"] /\ v = "x" ++ String "009" "y".
Proof. exact attr_tab. Qed.
Print Assumptions C31_tab_refuted.
