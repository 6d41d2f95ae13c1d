(** Specification vocabulary for what a client context tells about the server's
    last answer.  From the model it uses the interface: calls, events, errors and
    what one call does. *)
From Coq Require Import String ZArith List Bool.
From Verif Require Import Base Spec.Http Spec.Client Spec.Multipart Model.CLib Model.EstErr Model.Uri Model.ClientHttp Model.Multipart Model.Client Model.Inquiry.
Import ListNotations.
Open Scope Z_scope.

(** Calls with what they caused and answered. *)
Record saying := { y_ask : ask; y_events : list event; y_answer : answer }.
Inductive dialogue (X : ext) (s : st) : list saying -> st -> Prop :=
| dialogue_nil : dialogue X s [] s
| dialogue_call : forall log s1 a evs r s2, dialogue X s log s1 -> perform_ask X a s1 = (evs, Ok (r, s2)) ->
    dialogue X s (log ++ [{| y_ask := a; y_events := evs; y_answer := r |}]) s2.
Definition all_events (log : list saying) : list event := concat (map y_events log).

(** The statuses the client knows. *)
Definition known_statuses : list Z := [200; 202; 204; 400; 401; 404; 423; 500; 502; 504].
Definition status_line (n : Z) (d : bytes) : Prop := starts (str "HTTP/1.1 " ++ print_int n) d.
(** The status of what the server sent: one of the known, or -1 for any other
    answer. *)
Definition answer_status (r : list net) (n : Z) : Prop :=
  exists d, arrives r d /\ 0 < len d <= 2000000
    /\ ((In n known_statuses /\ status_line n d) \/ (n = -1 /\ forall m, In m known_statuses -> ~ status_line m d)).
(** The server sent no answer: nothing, not all of it, or more than the limit. *)
Definition no_answer (r : list net) : Prop := forall d, arrives r d -> len d = 0 \/ 2000000 < len d.
(** The status of the answer to the last request sent; 0 before any request and
    from the moment a request is sent until it is answered. *)
Inductive status_told : list event -> Z -> Prop :=
| told_start : status_told [] 0
| told_connect : forall evs s p a n, status_told evs n -> status_told (evs ++ [EConnect s p a]) n
| told_request : forall evs q n, status_told evs n -> status_told (evs ++ [ERequest q]) 0
| told_answer : forall evs r n n', status_told evs n -> answer_status r n' -> status_told (evs ++ [EResponse r]) n'
| told_nothing : forall evs r n, status_told evs n -> no_answer r -> status_told (evs ++ [EResponse r]) n.

(** The server's answer asks to come back in [n] seconds: a 202 with a line
    Retry-After. *)
Definition asks_to_wait (r : list net) (n : Z) : Prop :=
  0 <= n <= 2147483647
  /\ exists d name v rest, arrives r d /\ status_line 202 d /\ case_eq name (str "Retry-After") /\ decimal v n /\ header_line d name v rest.
(** The application's key and request handling never gives this error itself. *)
Definition own_errors (X : ext) : Prop :=
  (forall k cn cp, fst (x_make_csr X k cn cp) <> EST_ERR_CA_ENROLL_RETRY)
  /\ (forall r cp k, fst (x_sign_csr X r cp k) <> EST_ERR_CA_ENROLL_RETRY)
  /\ (forall x k, fst (x_csr_of_cert X x k) <> EST_ERR_CA_ENROLL_RETRY)
  /\ (forall b, fst (x_p7_certs X b) <> EST_ERR_CA_ENROLL_RETRY)
  /\ (forall b, fst (x_remove_crls X b) <> EST_ERR_CA_ENROLL_RETRY)
  /\ (forall b, x_load_certs X b <> EST_ERR_CA_ENROLL_RETRY).
