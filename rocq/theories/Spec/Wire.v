(** Specification vocabulary for a server's connections: what SSL_write and
    poll may answer. *)
From Coq Require Import ZArith List Bool.
From Verif Require Import Base Model.Wire.
Import ListNotations.
Open Scope Z_scope.

(** Results of SSL_write when [left] octets are to be sent: it never takes more
    than it is given, which is at most 2147483647 octets. *)
Fixpoint taken (rs : list Z) (left : Z) : Prop :=
  match rs with
  | [] => True
  | r :: rs => (0 < left -> r <= left /\ r <= 2147483647) /\ (0 <= r -> taken rs (left - r))
  end.

(** A round of a quarter of a second in which nothing came and nobody asked the
    server to stop. *)
Definition silent (p : round) : Prop := p_result p = 0 /\ p_pending p = 0 /\ p_stop p = false.
(** Data can be read. *)
Definition data (p : round) : Prop := 0 < p_result p \/ (p_result p = 0 /\ 0 < p_pending p).
(** A failure of poll other than an interruption, or the server stops. *)
Definition broken (p : round) : Prop := p_stop p = true \/ (p_result p < 0 /\ p_eintr p = false).
Definition interrupted (p : round) : Prop := p_result p < 0 /\ p_eintr p = true /\ p_stop p = false.
(** SSL_pending is never negative. *)
Definition possible (p : round) : Prop := 0 <= p_pending p.

(** One attempt to read: the rounds of its wait are possible and none is
    interrupted, and data are not empty. *)
Definition answering (p : list round * tls_read) : Prop :=
  Forall possible (fst p) /\ Forall (fun q => ~ interrupted q) (fst p) /\ (forall d, snd p = ReadData d -> d <> []).
(** The data of the attempts. *)
Fixpoint delivered (ps : list (list round * tls_read)) : bytes :=
  match ps with
  | [] => []
  | (_, ReadData d) :: ps => d ++ delivered ps
  | _ :: ps => delivered ps
  end.
