(** Resources held before and after a call; addresses tried. *)
From Coq Require Import ZArith List Bool.
From Verif Require Import Base Model.EstErr Model.Connection.
Import ListNotations.
Open Scope Z_scope.

(** A new descriptor or object is none of those in use. *)
Definition gives_new (pick : list Z -> Z) : Prop := forall l, 0 <= pick l /\ ~ In (pick l) l.

(** The resolver answers with at least one address, or fails. *)
Definition resolves (d : dial) : Prop := d_addrs d <> Some [].

(** The same sockets are open, the same TLS objects live. *)
Definition nothing_left (s s' : st) : Prop :=
  w_open (s_w s') = w_open (s_w s) /\ w_tls (s_w s') = w_tls (s_w s).

(** At no address of the list something answers. *)
Definition none_answers (l : list (Z * reply)) : Prop := forall a, ~ In (a, Connects) l.
(** The addresses of a list for which there was a socket. *)
Definition with_socket (l : list (Z * reply)) : list Z :=
  map fst (filter (fun x => match snd x with NoSocket => false | _ => true end) l).
