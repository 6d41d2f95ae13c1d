(** C33: the client's check of the server's name.  Read with Spec/Host.v.
    [pton4] and [pton6] are the C library's inet_pton for IPv4 and IPv6. *)
From Coq Require Import String ZArith List Bool Lia ZifyBool ZifyNat.
From Verif Require Import Base Spec.Http Spec.Host Model.EstErr Model.Host Proofs.Host.
Import ListNotations.
Open Scope Z_scope.

Section C33.
Variables pton4 pton6 : bytes -> option bytes.
(** The names in a certificate: alternative names, if it has that extension,
    and common names. *)
Definition names (alts : option (list general_name)) : list general_name := match alts with Some l => l | None => [] end.

(** A certificate is accepted only for a host it identifies; a certificate
    that does identify the host is refused only in the way of
    [C33_over_read_refuted]. *)
Theorem C33 : forall host alts cns e, est_client_verifyhost pton4 pton6 host alts cns = Ok e ->
  (e = EST_ERR_NONE <-> identifies pton4 pton6 (names alts) cns host)
  /\ (e <> EST_ERR_NONE -> e = EST_ERR_FQDN_MISMATCH).
Proof.
  intros host alts cns e H. destruct (verifyhost_spec pton4 pton6 host alts cns) as [S _]. destruct (S e H) as [[-> I]|[-> N]].
  - split; [tauto|intro Q; contradiction].
  - split; [|reflexivity]. split; [discriminate|]. intro I. destruct (N I).
Qed.
(** One name and one host. *)
Theorem C33_name : forall pattern host, est_client_cert_hostcheck pton4 pton6 pattern host = true <-> covers pton4 pton6 pattern host.
Proof. exact (hostcheck_spec pton4 pton6). Qed.
(** The check is carried out safely if no IP alternative name is longer than
    the host's own address. *)
Theorem C33_safe : forall host alts cns,
  (forall d a, In (IPADD d) (names alts) -> address pton4 pton6 host a -> len d <= len a) ->
  exists e, est_client_verifyhost pton4 pton6 host alts cns = Ok e.
Proof.
  intros host alts cns H. apply (verifyhost_spec pton4 pton6 host alts cns). apply Forall_forall. intros [d|d|] I; cbn [ip_fits]; auto.
Qed.
(** No certificate: accepted only with SRP. *)
Theorem C33_no_cert : forall host srp e, est_client_check_fqdn pton4 pton6 host srp None = Ok e -> e = EST_ERR_NONE <-> srp = true.
Proof. intros host [|] e H; cbn in H; (assert (Q : e = EST_ERR_NONE \/ e = EST_ERR_FQDN_MISMATCH) by (injection H as <-; auto)); split; intro K; try reflexivity; try congruence. Qed.
Theorem C33_cert : forall host srp alts cns, est_client_check_fqdn pton4 pton6 host srp (Some (alts, cns)) = est_client_verifyhost pton4 pton6 host alts cns.
Proof. reflexivity. Qed.

(** Otherwise memory behind the address is read: e.g. an IPv4 host and a
    certificate with an IPv6 address. *)
Theorem C33_over_read_refuted : forall host a d cns, pton4 host = Some a -> len a = 4 -> len d = 16 ->
  est_client_verifyhost pton4 pton6 host (Some [IPADD d]) cns = UB.
Proof.
  intros host a d cns E La Ld. unfold est_client_verifyhost. cbn [alt_loop]. unfold host_address. rewrite E. replace (len a <? len d) with true by lia. reflexivity.
Qed.
End C33.

(** ** Cases *)
Definition v4 (h : bytes) : option bytes := if beq h (str "10.0.0.1") then Some [10; 0; 0; 1] else None.
Definition v6 (h : bytes) : option bytes := if beq h (str "::1") then Some [0; 0; 0; 0; 0; 0; 0; 0; 0; 0; 0; 0; 0; 0; 0; 1] else None.
Example C33_wildcard_one : est_client_verifyhost v4 v6 (str "ca1.Example.com") (Some [OtherName; DNS (str "est.example.org"); DNS (str "ca*.example.COM")]) [] = Ok EST_ERR_NONE.
Proof. reflexivity. Qed.
Example C33_wildcard_covers : covers v4 v6 (str "ca*.example.COM") (str "ca1.Example.com").
Proof. apply C33_name. reflexivity. Qed.
Example C33_address_one : est_client_verifyhost v4 v6 (str "10.0.0.1") (Some [DNS (str "*.0.0.1"); IPADD [10; 0; 0; 1]]) [] = Ok EST_ERR_NONE.
Proof. reflexivity. Qed.
Example C33_address_wildcard : est_client_verifyhost v4 v6 (str "10.0.0.1") (Some [DNS (str "*.0.0.1")]) [Some (str "10.0.0.1")] = Ok EST_ERR_FQDN_MISMATCH.
Proof. reflexivity. Qed.
Example C33_common_name : est_client_verifyhost v4 v6 (str "est.example.com") (Some [OtherName]) [Some (str "other"); Some (str "est.example.com")] = Ok EST_ERR_NONE.
Proof. reflexivity. Qed.
Example C33_common_name_ignored : est_client_verifyhost v4 v6 (str "est.example.com") (Some [IPADD [10; 0; 0; 1]]) [Some (str "est.example.com")] = Ok EST_ERR_FQDN_MISMATCH.
Proof. reflexivity. Qed.
Example C33_over_read_one : est_client_verifyhost v4 v6 (str "10.0.0.1") (Some [IPADD (repeat 0 16); IPADD [10; 0; 0; 1]]) [] = UB.
Proof. reflexivity. Qed.
(** The two labels after the wildcard may include an empty one: a name ending in
    a dot. *)
Example C33_trailing_dot : covers v4 v6 (str "*.com.") (str "example.com.").
Proof. apply C33_name. reflexivity. Qed.

Print Assumptions C33.
Print Assumptions C33_name.
Print Assumptions C33_safe.
Print Assumptions C33_no_cert.
Print Assumptions C33_over_read_refuted.
