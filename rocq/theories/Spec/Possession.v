(** Which certificate request a call is about. *)
From Coq Require Import String ZArith List Bool.
From Verif Require Import Base Spec.Base64 Model.EstErr Model.Uri Model.Client.
Import ListNotations.
Open Scope Z_scope.

(** The call [x] leads to the request [der] for operation [op], with the
    challenge password [cp]; requests given without a private key are passed on
    as they are. *)
Inductive makes (X : ext) : call -> option bytes -> operation -> bytes -> Prop :=
| makes_enroll : forall cn k cp der, x_make_csr X k cn cp = (EST_ERR_NONE, der) -> makes X (Enroll cn (Some k)) cp OP_SIMPLE_ENROLL der
| makes_keygen : forall cn k cp der, x_make_csr X k cn cp = (EST_ERR_NONE, der) -> makes X (Keygen cn (Some k)) cp OP_SERVER_KEYGEN der
| makes_reenroll : forall cert k r cp der, x_csr_of_cert X cert k = (EST_ERR_NONE, Some r) -> x_sign_csr X r cp k = (EST_ERR_NONE, der) ->
    makes X (Reenroll (Some cert) (Some k)) cp OP_SIMPLE_REENROLL der
| makes_csr : forall r k cp der, x_sign_csr X r cp k = (EST_ERR_NONE, der) -> makes X (EnrollCsr (Some r) (Some k)) cp OP_SIMPLE_ENROLL der
| makes_keygen_csr : forall r k cp der, x_sign_csr X r cp k = (EST_ERR_NONE, der) -> makes X (KeygenCsr (Some r) (Some k)) cp OP_SERVER_KEYGEN der
| makes_as_is : forall r cp, makes X (EnrollCsr (Some r) None) cp OP_SIMPLE_ENROLL r.

(** The message that identifies a TLS connection (RFC 5929, tls-unique): the
    client's Finished, or the server's when a session is resumed. *)
Definition tls_unique (t : session) : bytes := if t_reused t then t_peer t else t_own t.
Definition identified (t : session) : Prop := tls_unique t <> [] /\ all_bytes (tls_unique t).
