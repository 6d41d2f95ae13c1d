(** Specification vocabulary for sequences of calls on a client context.  From
    the model it uses the interface: calls, events, error codes, the start
    state and what one call does. *)
From Coq Require Import String ZArith List Bool.
From Verif Require Import Base Spec.Http Spec.Client Spec.Multipart Model.CLib Model.EstErr Model.Uri Model.ClientHttp Model.Multipart Model.Client.
Import ListNotations.
Open Scope Z_scope.

(** ** Histories *)
(** A call with the connections, requests and responses it caused, its error
    code and the octets it copied out. *)
Record entry := { e_call : call; e_events : list event; e_code : est_error; e_out : option bytes }.
Inductive history (X : ext) (s : st) : list entry -> st -> Prop :=
| history_nil : history X s [] s
| history_call : forall log s1 x evs e o s2, history X s log s1 -> perform X x s1 = (evs, Ok (e, o, s2)) ->
    history X s (log ++ [{| e_call := x; e_events := evs; e_code := e; e_out := o |}]) s2.
(** A new context, with trust anchors, and what will happen on each connection. *)
Definition fresh (anchors : bytes) (world : list attempt) : st := {| s_c := est_client_init anchors; s_env := world |}.
Definition events_of (log : list entry) : list event := concat (map e_events log).
Definition connects (evs : list event) : nat := length (filter (fun e => match e with EConnect _ _ _ => true | _ => false end) evs).

Definition enrollment (x : call) : Prop :=
  match x with Enroll _ _ | Keygen _ _ | Reenroll _ _ | EnrollCsr _ _ | KeygenCsr _ _ => True | _ => False end.

(** ** Requests and responses *)
(** The lines of a text, each ended by LF. *)
Fixpoint lines (s : bytes) : list bytes :=
  match s with
  | [] => [[]]
  | c :: t => if c =? 10 then [] :: lines t else match lines t with [] => [[c]] | l :: r => (c :: l) :: r end
  end.
Definition has_line (p s : bytes) : Prop := exists l, In l (lines s) /\ starts p l.
(** A request with an Authorization header, and one of a given scheme. *)
Definition credentials (r : bytes) : Prop := has_line (str "Authorization:") r.
Definition offers (sc r : bytes) : Prop := has_line (str "Authorization: " ++ sc ++ [32]) r.

(** A response whose status is 401. *)
Definition status401 (d : bytes) : Prop := starts (str "HTTP/1.1 401") d.
(** It is a 401 response that asks for scheme [sc]. *)
Definition asks (sc : bytes) (evs : list net) : Prop :=
  exists d name value rest, arrives evs d /\ status401 d /\ header_line d name value rest
    /\ starts (str "WWW-Authenticate") name /\ starts sc value.
(** The response is a complete 200 answer of the type [op] asks for, and [b] is its body. *)
Definition reply_body (op : operation) (evs : list net) (b : bytes) : Prop :=
  exists d head ct cl, arrives evs d /\ d = head ++ b /\ starts (str "HTTP/1.1 200") d
    /\ header_line d (str "Content-Type") (reply_type op ++ ct) b
    /\ header_line d (str "Content-Length") cl b /\ atoi cl = len b.
(** The response is a 200 answer from which the client takes a key and a
    certificate (C37 says which). *)
Definition keys_delivered (X : ext) (evs : list net) (key cert : bytes) : Prop :=
  (exists d, arrives evs d /\ starts (str "HTTP/1.1 200") d)
  /\ exists k k', est_io_get_keygen_response (x_junk X) evs k = Ok (EST_ERR_NONE, Some (key, cert), k').
(** What happens over one connection: nothing, a request that gets no answer, or
    a request and a response. *)
Definition exchange_of (evs : list event) : Prop :=
  evs = [] \/ (exists q, evs = [ERequest q]) \/ exists q r, evs = [ERequest q; EResponse r].
Definition is_connect (k : event) : Prop := exists sv p a, k = EConnect sv p a.

(** ** What can be copied out *)
(** The last thing a call did was to read response [r]. *)
Definition last_response (evs : list event) (r : list net) : Prop := exists b, evs = b ++ [EResponse r].
(** The operation whose answer can make a certificate available. *)
Definition op_called (x : call) : option operation :=
  match x with
  | Enroll _ _ | EnrollCsr _ _ | Provision _ _ => Some OP_SIMPLE_ENROLL
  | Reenroll _ _ => Some OP_SIMPLE_REENROLL
  | Keygen _ _ | KeygenCsr _ _ => Some OP_SERVER_KEYGEN
  | _ => None
  end.
(** The call made a certificate available, from response [r].  One with a key
    that does not match is reported with EST_ERR_VALIDATION. *)
Definition issued (ent : entry) (r : list net) : Prop :=
  last_response (e_events ent) r
  /\ exists op, op_called (e_call ent) = Some op /\ (e_code ent = EST_ERR_NONE \/ (op = OP_SERVER_KEYGEN /\ e_code ent = EST_ERR_VALIDATION)).
Definition delivers_cert (X : ext) (op : operation) (r : list net) (cert : bytes) : Prop :=
  match op with OP_SERVER_KEYGEN => exists key, keys_delivered X r key cert | _ => reply_body op r cert end.
Definition copied_cert (ent : entry) : Prop := exists out b, e_call ent = CopyCert out /\ e_out ent = Some b.
Definition copied_key (ent : entry) : Prop := exists out b, e_call ent = CopyKey out /\ e_out ent = Some b.

(** The certificates in a response body all verify, and [text] is the body
    without revocation lists. *)
Definition verified (X : ext) (body text : bytes) : Prop :=
  exists certs, x_p7_certs X body = (EST_ERR_NONE, certs)
    /\ Forall (fun x => x_verify X (filter (x_self_issued X) certs) certs x <> 0) certs /\ x_remove_crls X body = (EST_ERR_NONE, text).
Definition ca_call (x : call) : Prop := match x with GetCacerts _ | Provision _ _ => True | _ => False end.
(** The call downloaded CA certificates that verified. *)
Definition downloads (X : ext) (ent : entry) (text : bytes) : Prop :=
  ca_call (e_call ent)
  /\ exists sv p a q r body rest, e_events ent = EConnect sv p a :: ERequest q :: EResponse r :: rest /\ reply_body OP_CACERTS r body /\ verified X body text.
(** The call closes the context: CA certificates were copied out, or
    provisioning stopped after it had obtained them. *)
Definition closing (X : ext) (ent : entry) : Prop :=
  (exists out b, e_call ent = CopyCacerts out /\ e_out ent = Some b)
  \/ (exists cn key text, e_call ent = Provision cn key /\ downloads X ent text /\ e_code ent <> EST_ERR_NONE /\ connects (e_events ent) = 1%nat).
(** The call stored the server's name and port. *)
Definition addressed (ent : entry) (name : bytes) (port : Z) : Prop :=
  exists seg, e_call ent = SetServer (Some name) port seg /\ 0 < port <= 65535 /\ len name <= 255 /\ e_code ent <> EST_ERR_CLIENT_NOT_INITIALIZED.

Definition scheme_names : list bytes := [str "Basic"; str "Digest"; str "Bearer"].

(** ** Assumptions *)
(** Host names and path segments are single lines, certificate requests octets. *)
Definition proper (x : call) : Prop :=
  match x with
  | SetServer n _ g => match n with Some n => ~ In 10 n | None => True end /\ match g with Some g => ~ In 10 g | None => True end
  | EnrollCsr x _ | KeygenCsr x _ => match x with Some x => all_bytes x | None => True end
  | _ => True
  end.
(** Making and signing a certificate request gives octets, and its errors are
    not those of the server's 401, of a key that does not match or of CA
    certificates that do not verify. *)
Definition local (e : est_error) : Prop := e <> EST_ERR_AUTH_FAIL /\ e <> EST_ERR_VALIDATION /\ e <> EST_ERR_CACERT_VERIFICATION.
Record lawful (X : ext) : Prop := {
  law_make : forall k cn cp, local (fst (x_make_csr X k cn cp)) /\ all_bytes (snd (x_make_csr X k cn cp));
  law_sign : forall r cp k, local (fst (x_sign_csr X r cp k)) /\ all_bytes (snd (x_sign_csr X r cp k))
}.
