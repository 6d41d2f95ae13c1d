(** Specification vocabulary for host names in certificates (RFC 6125, section
    6.4; RFC 2818, section 3.1). *)
From Coq Require Import String ZArith List Bool.
From Verif Require Import Base Spec.Http Model.Host.
Import ListNotations.
Open Scope Z_scope.

Section Pton.
(** The IPv4 and IPv6 addresses texts stand for. *)
Variables pton4 pton6 : bytes -> option bytes.
Definition address (host a : bytes) : Prop := pton4 host = Some a \/ (pton4 host = None /\ pton6 host = Some a).
Definition is_address (host : bytes) : Prop := exists a, address host a.

(** A wildcard name: a '*' in its left-most label, which is not an encoded
    international one; at least two labels follow. *)
Definition wildcard (pattern pre suf rest : bytes) : Prop :=
  pattern = pre ++ str "*" ++ suf ++ str "." ++ rest
  /\ ~ In 42 pre /\ ~ In 46 pre /\ ~ In 46 suf /\ In 46 rest
  /\ (forall x t, pattern = x ++ t -> len x = 4 -> ~ case_eq x (str "xn--")).

(** The name covers the host: equal up to case, or a wildcard name whose '*'
    stands for at least one character of the host's left-most label. *)
Definition covers (pattern host : bytes) : Prop :=
  pattern <> [] /\ host <> []
  /\ (case_eq pattern host
      \/ (~ is_address host /\ exists pre suf rest, wildcard pattern pre suf rest
          /\ exists a b c r, host = a ++ b ++ c ++ str "." ++ r /\ ~ In 46 (a ++ b ++ c)
             /\ case_eq a pre /\ b <> [] /\ case_eq c suf /\ case_eq r rest)).

(** A name a certificate can be matched by: no NUL, at most 255 octets. *)
Definition usable_name (d : bytes) : Prop := ~ In 0 d /\ len d <= 255.

(** The host is one of the names of the certificate; the last common name
    counts only if there is no DNS or IP alternative name. *)
Definition identifies (alts : list general_name) (cns : list (option bytes)) (host : bytes) : Prop :=
  (exists d, In (DNS d) alts /\ usable_name d /\ covers d host)
  \/ (exists a, In (IPADD a) alts /\ address host a)
  \/ (Forall (fun n => n = OtherName) alts /\ exists l cn, cns = l ++ [Some cn] /\ usable_name cn /\ covers cn host).
End Pton.
