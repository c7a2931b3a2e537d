(** C72: what make reads in a depfile is what the compiler wrote. *)
From Verif Require Import Lib Str Model_Depfile Spec_Depfile Proof_Depfile.
Local Open Scope string_scope.

(** C72.  Whatever headers the compiler lists, on however many lines, and whether
    it names the target with or without its directory, make reads that the target
    depends on just those files, in that order, and that each of them may be
    missing. *)
Theorem C72_depfile : forall name dir target written text headers,
  simple target -> target = dir ++ name -> (exists a b, name = String a b /\ a <> "."%char) ->
  written = name \/ (written = target /\ (dir = "" \/ ~ exists h q, target = h ++ q /\ alike name h)) ->
  listing text headers ->
  read_depfile (fixup_dep name target (written ++ ":" ++ text)) = Some (([target], headers) :: map (fun h => ([h], [])) headers).
Proof. exact depfile_read. Qed.
Print Assumptions C72_depfile.
Example C72_depfile_witness :
  exists name dir target written text headers,
  simple target /\ target = dir ++ name /\ (exists a b, name = String a b /\ a <> "."%char) /\
  (written = name \/ (written = target /\ (dir = "" \/ ~ exists h q, target = h ++ q /\ alike name h))) /\
  listing text headers /\ length headers = 3 /\ dir <> "" /\ written <> name.
Proof.
  exists "a.o", "Release/obj.target/", "Release/obj.target/a.o", "Release/obj.target/a.o", (" ../a.c \" ++ line_feed ++ "  ../a.h ../b.h" ++ line_feed), ["../a.c"; "../a.h"; "../b.h"].
  split; [apply no_special; [discriminate|reflexivity]|]. split; [reflexivity|]. split; [exists "a"%char, ".o"; split; [reflexivity|discriminate]|].
  split; [right; split; [reflexivity|right; intros (h & q & E & A); inversion A as [|a p b s [C|C] A' E1 E2]; subst; [discriminate|discriminate]]|].
  split; [|split; [reflexivity|split; discriminate]].
  apply (listing_name 0 "../a.c" (" \" ++ line_feed ++ "  ../a.h ../b.h" ++ line_feed)); [apply no_special; [discriminate|reflexivity]|].
  apply (listing_line 0 ("  ../a.h ../b.h" ++ line_feed)).
  apply (listing_name 1 "../a.h" (" ../b.h" ++ line_feed)); [apply no_special; [discriminate|reflexivity]|].
  apply (listing_name 0 "../b.h" line_feed); [apply no_special; [discriminate|reflexivity]|]. constructor.
Qed.
(** C72.  Not without the condition on the name: it is used as a pattern that may
    fit the start of the target.  An object Release.o in build/Release, that is, a
    source file Release.c or Release.cc, fits Release/o, and what it depends on is
    noted for a file that does not exist: an edited header does not make it be
    compiled again (make.py:450). *)
Theorem C72_pattern_refuted :
  ~ (forall name dir target text headers rules, simple target -> target = dir ++ name -> listing text headers ->
       read_depfile (fixup_dep name target (target ++ ":" ++ text)) = Some rules -> In ([target], headers) rules).
Proof. exact release_lost. Qed.
Print Assumptions C72_pattern_refuted.
