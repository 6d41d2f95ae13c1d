(** What a server with the certificates [loaded] owes to a request for them.
    [answer]: None if the application has no function registered for it, else
    what that function gives. *)
From Coq Require Import ZArith List.
From Verif Require Import Base Model.TrustStore.
Import ListNotations.

Definition due (loaded : option bytes) (answer : option (option (Z * bytes))) : option bytes :=
  match answer with None => loaded | Some None => None | Some (Some (_, b)) => Some b end.
(** The certificates of a file, in its order. *)
Fixpoint certificates (file : list info) : list bytes :=
  match file with
  | [] => []
  | i :: r => match i_x509 i with Some c => t_der c :: certificates r | None => certificates r end
  end.
