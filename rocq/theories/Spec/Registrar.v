(** Specification vocabulary for BRSKI requests to a server (a registrar). *)
From Coq Require Import String ZArith List Bool.
From Verif Require Import Base Spec.Http Model.EstErr Model.Uri Model.AuthHdr Model.Server Spec.Server.
Import ListNotations.
Open Scope Z_scope.

Section Spec.
Context {cert csr key E : Type}.
Implicit Types (e : list (@event cert key)) (t : @tls cert) (C : @config cert).

(** A call of one of the application's BRSKI callbacks. *)
Definition brski_call (x : @event cert key) : Prop := exists o b p rv v, x = EvVoucher o b p rv v.
(** The application was called once: with the body of the request and the
    client's certificate; it returned [rv] and, for a voucher request, [v]. *)
Definition called_once e (o : operation) (body : bytes) (peer : option cert) (rv : Z) (v : bytes) : Prop :=
  exists pre post, e = pre ++ EvVoucher o body peer rv v :: post
    /\ Forall (fun x => ~ brski_call x) pre /\ Forall (fun x => ~ brski_call x) post.
Definition not_called e : Prop := Forall (fun x => ~ brski_call x) e.

(** The answer to a voucher request, given what the application returned: the
    voucher, "later", or a refusal. *)
Definition voucher_answer C e (rv : Z) (v : bytes) : Prop :=
  (rv = 1 /\ v <> [] /\ exists hs, response (sent e) 200 hs v /\ framed 200 hs v /\ first_header hs (str "Content-Type") (str "application/voucher+cms"))
  \/ (rv = 2 /\ exists hs n, response (sent e) 202 hs [] /\ framed 202 hs [] /\ first_header hs (str "Retry-After") n /\ decimal n (c_brski_retry C))
  \/ ((rv <> 1 \/ v = []) /\ rv <> 2 /\ exists d, reply e 400 d).
Definition voucher_type (ct : option bytes) : Prop :=
  ct = Some (str "application/json") \/ ct = Some (str "application/pkcs7-mime; smime-type=voucher-request").
End Spec.
