(** What a file of trusted certificates contains. *)
From Coq Require Import ZArith List.
From Verif Require Import Base Model.TrustStore.
Import ListNotations.

(** The certificates and CRLs among what OpenSSL reads from the file. *)
Definition contains (file : list info) (x : item) : Prop :=
  exists i, In i file /\ match x with Anchor d => exists c, i_x509 i = Some c /\ t_der c = d | Crl r => i_crl i = Some r end.
(** Some entry is a certificate. *)
Definition has_certificate (file : list info) : Prop := exists d, contains file (Anchor d).
(** Some certificate's printed subject has at least 255 characters. *)
Definition long_subject (file : list info) : Prop :=
  exists i c, In i file /\ i_x509 i = Some c /\ (255 <= len (t_subject c))%Z.
