(** Model of lib/download.js: readCAFile, and what download makes of it (8-25, 28-34). *)
From Verif Require Import Lib Str.
Local Open Scope string_scope.

(** The first occurrence of [p]: what is in front of it and what is behind. *)
Fixpoint cut (p s : string) : option (string * string) :=
  if String.prefix p s then Some ("", substring (String.length p) (String.length s - String.length p) s)
  else match s with "" => None | String a s' => match cut p s' with Some (x, y) => Some (String a x, y) | None => None end end.
(** 32-33: [ca.match(re)], the leftmost matches one after the other, each as short as
    possible; without any, null.  [fuel] is more than the length of the text. *)
Fixpoint certificates (fuel : nat) (s : string) : option (list string) :=
  match fuel with
  | 0 => None
  | S fuel =>
    match cut "-----BEGIN CERTIFICATE-----" s with
    | None => Some []
    | Some (_, s) =>
      match cut "-----END CERTIFICATE-----" s with
      | None => Some []
      | Some (body, rest) => match certificates fuel rest with Some l => Some (("-----BEGIN CERTIFICATE-----" ++ body ++ "-----END CERTIFICATE-----") :: l) | None => None end
      end
    end
  end.
(** The inner None: null; the outer one does not happen ([Proof_CaFile.read_total]). *)
Definition read_ca_file (content : string) : option (option (list string)) :=
  match certificates (S (String.length content)) content with Some [] => Some None | Some l => Some (Some l) | None => None end.

(** ** 5-25: download; the rest of the options is left out *)
(** What fetch is called with: no "ca" at all, or "ca: null", both of which mean the
    certificates that come with Node.js (tls.createSecureContext), or a list. *)
Inductive trust := Not_set | Null | These (l : list string).
Inductive outcome := Fetch (t : trust) | No_file.
(** [files]: fs.readFile, None: an error *)
Definition download (files : string -> option string) (cafile : option string) : option outcome :=
  match cafile with
  | None | Some "" => Some (Fetch Not_set)
  | Some f =>
    match files f with
    | None => Some No_file
    | Some content => match read_ca_file content with Some None => Some (Fetch Null) | Some (Some l) => Some (Fetch (These l)) | None => None end
    end
  end.
