(** The CA certificates a server distributes: loading, answering, freeing. *)
From Coq Require Import ZArith List Bool.
From Verif Require Import Base Model.EstErr Model.Config Model.TrustStore.
From Verif Require Model.Server.
Import ListNotations.
Open Scope Z_scope.

(** OpenSSL's part in making the answer: i2d_PKCS7_bio of a message with these
    certificates, through a base64 filter; None: it fails. *)
Definition p7_writer := list bytes -> option bytes.

(** est.c:438-472 est_add_certs_from_BIO: the certificates, in the order of the
    file; the result is negative if the file cannot be read. *)
Fixpoint push_certs (sk : list info) (stack : list bytes) (count : Z) : list bytes * Z :=
  match sk with
  | [] => (stack, count)
  | xi :: sk' =>
    match i_x509 xi with
    | Some c => push_certs sk' (stack ++ [t_der c]) (count + 1)
    | None => push_certs sk' stack count
    end
  end.
Definition est_add_certs_from_BIO (X : ossl) (raw : bytes) : list bytes * Z :=
  match o_read X raw with None => ([], -1) | Some sk => push_certs sk [] 0 end.
(** est.c:486-583 est_get_certs_pkcs7; allocations succeed. *)
Definition est_get_certs_pkcs7 (X : ossl) (W : p7_writer) (raw : bytes) : option bytes :=
  let '(stack, n) := est_add_certs_from_BIO X raw in
  if n <? 0 then None else W stack.
(** est.c:595-646 est_load_ca_certs: the error, and ca_certs if it is set. *)
Definition est_load_ca_certs (X : ossl) (W : p7_writer) (mode : est_mode) (raw : bytes) : est_error * option bytes :=
  match mode with
  | EST_CLIENT => (EST_ERR_BAD_MODE, None)
  | _ =>
    match est_get_certs_pkcs7 X W raw with
    | None => (EST_ERR_LOAD_CACERTS, None)
    | Some b => if len b <=? 0 then (EST_ERR_LOAD_CACERTS, None) else (EST_ERR_NONE, Some b)
    end
  end.

(** What ctx->ca_certs points to: the block the library allocated, or one of the
    application's, with a number. *)
Inductive block := Own (b : bytes) | App (id : Z) (b : bytes).
Definition content (b : block) : bytes := match b with Own b | App _ b => b end.
(** est_server.c:232-314 est_server_handle_cacerts, and what is then sent: over
    HTTP by est_handle_cacerts, over CoAP from ctx->ca_certs by
    est_server_coap.c:2139-2161 (which decodes it).  [answer]: None if no callback
    is registered, else what it returns.  Result: error, octets sent, ca_certs. *)
Definition est_server_handle_cacerts (t : Model.Server.transport) (answer : option (option (Z * bytes))) (ca : option block)
  : est_error * option bytes * option block :=
  match answer with
  | Some None => (EST_ERR_HTTP_NO_CONTENT, None, ca)
  | Some (Some (id, b)) =>
    match t with
    | Model.Server.EST_HTTP => (EST_ERR_NONE, Some b, ca)
    | Model.Server.EST_COAP => (EST_ERR_NONE, Some (content (App id b)), Some (App id b))
    end
  | None =>
    match ca with
    | Some x => (EST_ERR_NONE, Some (content x), ca)
    | None => (EST_ERR_HTTP_NO_CONTENT, None, ca)
    end
  end.
(** A history of requests: what was sent, and ca_certs in the end. *)
Fixpoint requests (t : Model.Server.transport) (h : list (option (option (Z * bytes)))) (ca : option block) : list (option bytes) * option block :=
  match h with
  | [] => ([], ca)
  | a :: h' =>
    let '(_, sent, ca1) := est_server_handle_cacerts t a ca in
    let '(l, ca2) := requests t h' ca1 in
    (sent :: l, ca2)
  end.
(** est.c:754-756 est_destroy: what is freed. *)
Definition est_destroy (ca : option block) : list block := match ca with Some b => [b] | None => [] end.
