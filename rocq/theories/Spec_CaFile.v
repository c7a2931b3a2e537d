(** What is expected of a file of certificates. *)
From Verif Require Import Lib Str Model_CaFile.
Local Open Scope string_scope.

(** Certificates with anything between them and around. *)
Definition begin_mark := "-----BEGIN CERTIFICATE-----".
Definition end_mark := "-----END CERTIFICATE-----".
Definition certificate (body : string) : string := begin_mark ++ body ++ end_mark.
Fixpoint bundle (l : list (string * string)) (last : string) : string :=
  match l with [] => last | (comment, body) :: l' => comment ++ certificate body ++ bundle l' last end.
Definition occurs (p s : string) : Prop := exists a b, s = a ++ p ++ b.
(** In what is between certificates, none begins, also not with dashes that belong to
    the mark behind it; in one, none ends. *)
Definition between (comment : string) : Prop := forall a b, comment ++ begin_mark = a ++ begin_mark ++ b -> b = "".
Definition inside (body : string) : Prop := forall a b, body ++ end_mark = a ++ end_mark ++ b -> b = "".
(** What is trusted when the server's certificate is looked at. *)
Definition trusted (builtin : list string) (t : trust) : list string := match t with These l => l | _ => builtin end.
