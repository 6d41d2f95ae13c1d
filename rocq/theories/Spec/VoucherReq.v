(** Specification vocabulary for voucher requests: the JSON text of one, and on
    which connection a request is sent. *)
From Coq Require Import String ZArith List Bool.
From Verif Require Import Base Spec.Http Model.Client Spec.Status.
Import ListNotations.
Open Scope Z_scope.

(** [wraps name ms t]: the JSON text [t] is an object with one member, [name],
    whose value is an object with the members [ms] (Spec/Status.v). *)
Definition wraps (name : bytes) (ms : list member) (t : bytes) : Prop :=
  exists w1 n w2 w3 u w4, t = [123] ++ w1 ++ [34] ++ n ++ [34] ++ w2 ++ [58] ++ w3 ++ u ++ w4 ++ [125]
    /\ spaces w1 /\ spaces w2 /\ spaces w3 /\ spaces w4 /\ string_text name n /\ object ms u.
(** A text without its line feeds. *)
Definition no_lf (t : bytes) : bytes := filter (fun c => negb (c =? 10)) t.

(** The requests in a run, each with the connection it is sent on: every
    EConnect takes the next of the connections [w] there will be. *)
Fixpoint sent_on (cur : option session) (w : list attempt) (evs : list event) : list (option session * bytes) :=
  match evs with
  | [] => []
  | EConnect _ _ _ :: evs => sent_on (match w with Tls t :: _ => Some t | _ => None end) (tl w) evs
  | ERequest q :: evs => (cur, q) :: sent_on cur w evs
  | EResponse _ :: evs => sent_on cur w evs
  end.

(** What a voucher request says: nonce, time and the base64 text of the
    registrar's certificate. *)
Definition request_members (nonce time cert : bytes) : list member :=
  [(str "nonce", Text nonce); (str "created-on", Text time); (str "assertion", Text (str "proximity")); (str "proximity-registrar-cert", Text cert)].
