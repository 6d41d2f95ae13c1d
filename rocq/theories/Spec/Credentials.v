(** What an application gives a client to identify itself: the calls that take
    effect.  Of the model it uses calls and the log of a context's history
    (Spec/ClientCalls.v). *)
From Coq Require Import ZArith List.
From Verif Require Import Base Spec.ClientCalls Model.Client.
Import ListNotations.
Open Scope Z_scope.

(** The call gives a user name: with a password, and of at most 255 octets. *)
Definition names (x : call) (user : bytes) : Prop :=
  exists pwd cert, x = SetAuth (Some user) (Some pwd) cert /\ len user <= 255.
(** The call gives a password: with a user name, and both of at most 255. *)
Definition gives (x : call) (pwd : bytes) : Prop :=
  exists user cert, x = SetAuth (Some user) (Some pwd) cert /\ len user <= 255 /\ len pwd <= 255.
(** The call installs (or removes) the credentials callback. *)
Definition installs (x : call) (present : bool) : Prop := x = SetCallback present.

(** [v] is what the latest call with an effect gave; [initial] without one. *)
Definition latest {V} (effect : call -> V -> Prop) (initial : V) (log : list entry) (v : V) : Prop :=
  (exists log1 e log2, log = log1 ++ e :: log2 /\ effect (e_call e) v /\ forall e', In e' log2 -> forall v', ~ effect (e_call e') v')
  \/ (v = initial /\ forall e', In e' log -> forall v', ~ effect (e_call e') v').
