(** What it means that the other side's certificate is acceptable, and what an
    application is to be told about the other side. *)
From Coq Require Import ZArith List Bool.
From Verif Require Import Base.
Import ListNotations.
Open Scope Z_scope.

(** A finding of the verification: OpenSSL's error number (0: nothing wrong). *)
Definition NO_CRL : Z := 3.
Definition SELF_SIGNED_IN_CHAIN : Z := 19.
Definition UNTRUSTED : Z := 27.

(** Findings the client lets the application decide about. *)
Definition may_be_approved (e : Z) : Prop := e = NO_CRL \/ e = SELF_SIGNED_IN_CHAIN \/ e = UNTRUSTED.
(** A finding [e] that does not stop a client with an application function
    ([manual]) that answers [answer]. *)
Definition tolerated (manual : bool) (e answer : Z) : Prop :=
  e = 0 \/ (manual = true /\ may_be_approved e /\ answer <> 0) \/ (manual = false /\ e = NO_CRL).
(** A finding that does not stop a server. *)
Definition harmless (e : Z) : Prop := e = 0 \/ e = NO_CRL.

(** The part of a list up to and including the first element that fails [p]. *)
Fixpoint up_to {A} (p : A -> bool) (l : list A) : list A :=
  match l with [] => [] | x :: r => x :: if p x then up_to p r else [] end.

(** At most [n] characters of a text. *)
Definition cut (n : nat) (s : bytes) : bytes := firstn n s.
