(** C93: the certificates of the file that --cafile names. *)
From Verif Require Import Lib Str Model_CaFile Spec_CaFile Proof_CaFile.
Local Open Scope string_scope.

(** C93.  With a file of any number of certificates and any text between them, exactly
    these are trusted, in their order, and no others. *)
Theorem C93_all : forall files f l last builtin, f <> "" -> files f = Some (bundle l last) -> l <> [] ->
  (forall c b, In (c, b) l -> between c /\ inside b) -> ~ occurs begin_mark last ->
  exists t, download files (Some f) = Some (Fetch t) /\ trusted builtin t = map (fun cb => certificate (snd cb)) l.
Proof. exact all_trusted. Qed.
Print Assumptions C93_all.
Example C93_all_witness : two <> [] /\ (forall c b, In (c, b) two -> between c /\ inside b) /\ ~ occurs begin_mark (String "010" "").
Proof. exact two_ok. Qed.
(** C93.  Whatever the file is: the result is a list of texts that are in it and have
    the form of a certificate, and there is one for every file; it is empty (null)
    exactly if no certificate is in the file. *)
Theorem C93_only : forall s, (exists r, read_ca_file s = Some r) /\ (forall l x, read_ca_file s = Some (Some l) -> In x l -> occurs x s /\ exists body, x = certificate body /\ inside body) /\
  (read_ca_file s = Some None <-> ~ exists a body b, s = a ++ certificate body ++ b).
Proof. exact (fun s => conj (read_total s) (conj (fun l x => read_in s l x) (read_null s))). Qed.
Print Assumptions C93_only.
(** C93.  A file that cannot be read is an error, and nothing is fetched. *)
Theorem C93_no_file : forall files f, f <> "" -> files f = None -> download files (Some f) = Some No_file.
Proof. exact no_file. Qed.
Print Assumptions C93_no_file.
Example C93_no_file_witness : (fun f => if String.eqb f "ca.pem" then Some "" else None) "CA.pem" = (None : option string).
Proof. reflexivity. Qed.

(** A file without a text of the form BEGIN CERTIFICATE ... END CERTIFICATE, for
    instance with certificates in OpenSSL's form BEGIN TRUSTED CERTIFICATE, or an empty
    one, gives null (download.js:33), and null means the certificates that come with
    Node.js: with --cafile, servers are trusted that none in the file vouches for, and
    nothing is said of it. *)
Theorem C93_null_refuted : (forall files f content builtin, f <> "" -> files f = Some content -> ~ (exists a body b, content = a ++ certificate body ++ b) -> exists t, download files (Some f) = Some (Fetch t) /\ trusted builtin t = builtin) /\
  ~ (exists a body b, "-----BEGIN TRUSTED CERTIFICATE-----MIIB-----END TRUSTED CERTIFICATE-----" = a ++ certificate body ++ b).
Proof. exact (conj null_trust trusted_not). Qed.
Print Assumptions C93_null_refuted.
