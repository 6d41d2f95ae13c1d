(** C68-C72: whose certificate is accepted, who is asked, and what the
    application is told about the other side. *)
From Coq Require Import String ZArith List Bool Lia ZifyBool ZifyNat.
From Verif Require Import Base Model.CLib Model.EstErr Model.Peer Spec.Peer Proofs.Peer.
Import ListNotations.
Open Scope Z_scope.

(** A check without findings, a finding, and a finding the application answers. *)
Definition fine : check := {| k_error := 0; k_subject := Some (str "CN = root"); k_answer := 0 |}.
Definition finding (e answer : Z) : check := {| k_error := e; k_subject := Some (str "CN = estserver"); k_answer := answer |}.

(** ** C68: a certificate OpenSSL finds fault with is refused, unless the only
    faults are missing revocation lists or ones the application approved. *)

(** For every chain of checks and every application: the client's handshake. *)
Theorem C68_client : forall manual chain,
  exists accepted asked, client_handshake client_verifier manual chain = Ok (accepted, asked)
    /\ (accepted = true <-> Forall (fun k => tolerated manual (k_error k) (k_answer k)) chain).
Proof.
  intros m l. unfold client_handshake. rewrite client_verify. cbn [bind]. do 2 eexists. split; [reflexivity|].
  cbn [v_mode client_verifier]. change (Z.lor SSL_VERIFY_PEER SSL_VERIFY_FAIL_IF_NO_PEER_CERT =? 0) with false. rewrite orb_false_r.
  rewrite forallb_forall, Forall_forall. split; intros H k K; apply toleratedb_spec; auto.
Qed.
Print Assumptions C68_client.

Example C68_client_run : client_handshake client_verifier true [fine; finding 3 1; finding 19 1] = Ok (true, [3; 19])
  /\ client_handshake client_verifier true [fine; finding 19 0; fine] = Ok (false, [19])
  /\ client_handshake client_verifier false [fine; finding 3 0] = Ok (true, [])
  /\ client_handshake client_verifier false [finding 19 1] = Ok (false, [])
  /\ client_handshake client_verifier true [finding 10 1] = Ok (false, []).
Proof. repeat split; reflexivity. Qed.

(** The server's handshake; a client may go without a certificate.  Subjects of
    255 characters and more are the subject of C71. *)
Theorem C68_server : forall chain,
  (forall l k s, chain = Some l -> In k l -> k_subject k = Some s -> len s < 255) ->
  exists accepted, server_handshake server_verifier chain = Ok accepted
    /\ (accepted = true <-> forall l, chain = Some l -> Forall (fun k => harmless (k_error k)) l).
Proof.
  intros [l|] H; unfold server_handshake; cbn [v_mode server_verifier].
  - destruct (store_verify server_verifier false eq_refl l) as (b & K & Kb).
    { apply Forall_forall. intros k Kin [_ (s & S & L)]. specialize (H l k s eq_refl Kin S). lia. }
    change (negb (Z.testbit SSL_VERIFY_PEER 0)) with false. cbn match. rewrite K. cbn [bind]. exists b. split; [reflexivity|].
    rewrite Kb. split; [intros F l0 E; injection E as <-; exact F|intros F; exact (F l eq_refl)].
  - exists true. split; [reflexivity|]. split; [intros _ l E; discriminate E|reflexivity].
Qed.
Print Assumptions C68_server.

Example C68_server_run : server_handshake server_verifier None = Ok true
  /\ server_handshake server_verifier (Some [fine; finding 3 0; fine]) = Ok true
  /\ server_handshake server_verifier (Some [fine; finding 23 1; fine]) = Ok false.
Proof. repeat split; reflexivity. Qed.

(** The check of downloaded CA certificates tolerates nothing. *)
Theorem C68_cacerts : forall chain, exists asked,
  x509_verify (fun k => Ok (est_client_cacert_verify_cb k, None)) chain = Ok (forallb (fun k => k_error k =? 0) chain, asked).
Proof.
  induction chain as [|k l (a & IH)]; cbn; [eauto|]. unfold est_client_cacert_verify_cb at 1, X509_V_OK.
  destruct (k_error k =? 0); cbn; [|eauto]. rewrite IH. cbn. eauto.
Qed.
Print Assumptions C68_cacerts.

(** ** C69: the application is asked about every fault it may approve, in order,
    up to the first it does not approve ... *)
Theorem C69_partial : forall manual chain accepted asked,
  client_handshake client_verifier manual chain = Ok (accepted, asked) ->
  asked = if manual then
            filter (fun e => (e =? NO_CRL) || (e =? SELF_SIGNED_IN_CHAIN) || (e =? UNTRUSTED))
              (map k_error (up_to (fun k => (k_error k =? 0) || (((k_error k =? NO_CRL) || (k_error k =? SELF_SIGNED_IN_CHAIN) || (k_error k =? UNTRUSTED)) && negb (k_answer k =? 0))) chain))
          else [].
Proof.
  intros m l ac asked. unfold client_handshake. rewrite client_verify. cbn [bind]. intros H. injection H as _ <-.
  unfold asked_about, toleratedb. destruct m; reflexivity.
Qed.
Print Assumptions C69_partial.

(** ... but not about the other faults, although the documentation of
    est_client_init promises a call when a certificate failed verification: an
    expired certificate (10), a revoked one (23) or one whose issuer is not known
    (20) is refused without asking. *)
Theorem C69_refuted : forall e answer, In e [10; 20; 23] ->
  client_handshake client_verifier true [finding e answer] = Ok (false, []).
Proof. intros e a [<-|[<-|[<-|[]]]]; reflexivity. Qed.
Print Assumptions C69_refuted.

(** ** C70: in BRSKI mode a pledge is to reach a registrar it cannot verify yet
    ("Make sure we're NOT verifying the server").  It does not: the flags are
    complemented one by one and joined, so that all are set, and the application's
    function is taken away too. *)
Theorem C70_refuted : forall manual e answer v, e <> 0 -> e <> NO_CRL ->
  est_client_set_brski_mode true false client_verifier = (EST_ERR_NONE, true, v) ->
  client_handshake v manual [finding e answer] = Ok (false, []).
Proof.
  intros m e a v H0 H3 H. injection H as <-. unfold client_handshake, x509_verify, callback. cbn [v_own v_mode].
  rewrite ossl_cb_ok.
  - cbn [bind finding k_error]. unfold NO_CRL in H3. replace ((e =? 0) || (e =? 3)) with false by lia. reflexivity.
  - intros [_ (s & S & L)]. injection S as <-. apply L. reflexivity.
Qed.
Print Assumptions C70_refuted.
(** What it does in that mode: it accepts what a server would accept. *)
Theorem C70_partial : forall init on v e on' v' manual chain,
  est_client_set_brski_mode init on v = (e, on', v') ->
  (e = EST_ERR_NONE /\ on' = true /\ init = true /\ on = false \/ e <> EST_ERR_NONE /\ on' = on /\ v' = v)
  /\ (e = EST_ERR_NONE -> Forall (fun k => forall s, k_subject k = Some s -> len s < 255) chain ->
      exists accepted asked, client_handshake v' manual chain = Ok (accepted, asked)
        /\ (accepted = true <-> Forall (fun k => harmless (k_error k)) chain)).
Proof.
  intros i on v e on' v' m l H. unfold est_client_set_brski_mode in H. destruct i, on; cbn in H; injection H as <- <- <-.
  1, 3, 4: split; [right; repeat split; discriminate|discriminate].
  split; [left; auto|]. intros _ F.
  set (w := {| v_mode := _; v_own := _ |}).
  destruct (store_verify w m eq_refl l) as (b & K & Kb).
  { eapply Forall_impl; [|exact F]. intros k Q [_ (s & S & L)]. specialize (Q s S). lia. }
  unfold client_handshake. rewrite K. cbn [bind]. exists b, []. split; [|exact Kb].
  change (v_mode w =? 0) with false. rewrite orb_false_r. reflexivity.
Qed.
Print Assumptions C70_partial.
Example C70_run : exists v, est_client_set_brski_mode true false client_verifier = (EST_ERR_NONE, true, v)
  /\ client_handshake v true [finding 20 1] = Ok (false, []) /\ client_handshake v true [finding 3 0] = Ok (true, []).
Proof. eexists. repeat split; reflexivity. Qed.

(** ** C71: verifying a certificate is memory safe: exactly unless a certificate
    with a finding, reached by the verification, has a subject of 255 or more
    printed characters, which is recorded in a block of 255 bytes. *)
Theorem C71_partial : forall chain,
  server_handshake server_verifier (Some chain) = UB <->
  exists before k after s, chain = before ++ k :: after /\ Forall (fun x => harmless (k_error x)) before
    /\ k_error k <> 0 /\ k_subject k = Some s /\ 255 <= len s.
Proof.
  intros l. unfold server_handshake. change (negb (Z.testbit (v_mode server_verifier) 0)) with false. cbn match.
  pose proof (store_verify_ub server_verifier false eq_refl l) as U.
  destruct (x509_verify (callback server_verifier false) l) as [[b a]|] eqn:E; cbn [bind].
  - split; [discriminate|]. intros (p & k & q & s & H1 & H2 & H3 & H4 & H5).
    assert (F : @Ok (bool * list Z) (b, a) = UB); [|discriminate F].
    apply U. exists p, k, q. split; [exact H1|]. split; [exact H2|]. split; [exact H3|]. eauto.
  - split; [intros _|reflexivity]. destruct (proj1 U eq_refl) as (p & k & q & H1 & H2 & H3 & s & H4 & H5).
    exists p, k, q, s. auto.
Qed.
Print Assumptions C71_partial.
Theorem C71_refuted : exists k, k_error k = 18
  /\ server_handshake server_verifier (Some [k]) = UB.
Proof. exists {| k_error := 18; k_subject := Some (repeat 65 255); k_answer := 0 |}. split; reflexivity. Qed.
Print Assumptions C71_refuted.

(** ** C72: an endpoint event tells the peer's subject, cut at 255 characters, its
    address and its port, as far as they are known. *)
Theorem C72_endpoint : forall subject ssl p uri,
  (forall s, subject = Some s -> ~ In 0 s) ->
  (forall f s n, p = Some (f, Some s, n) -> ~ In 0 s /\ len s <= 45) ->
  exists d, est_invoke_endpoint_req_event_cb subject ssl p uri = Ok d
    /\ d_uri d = uri
    /\ d_subject d = match subject with Some s => cut 255 s | None => [] end
    /\ (forall f s n, ssl = true -> p = Some (f, Some s, n) -> f = 4 \/ f = 6 -> d_address d = s /\ d_port d = n)
    /\ (ssl = false \/ p = None -> d_address d = [] /\ d_port d = 0).
Proof.
  intros subject ssl p uri Hs Hp. eexists. split; [apply endpoint_event; assumption|]. cbn.
  split; [reflexivity|]. split; [destruct subject; reflexivity|]. split.
  - intros f s n -> -> F. unfold known_address, known_port. cbn [andb].
    replace ((f =? 4) || (f =? 6)) with true by lia. auto.
  - intros [->| ->]; [|split; reflexivity]. unfold known_address, known_port. cbn [andb].
    destruct p as [[[? [?|]] ?]|]; auto.
Qed.
Print Assumptions C72_endpoint.
Example C72_endpoint_run :
  est_invoke_endpoint_req_event_cb (Some (str "CN = client")) true (Some (4, Some (str "192.0.2.1"), 40000)) (str "/.well-known/est/cacerts")
  = Ok {| d_subject := str "CN = client"; d_uri := str "/.well-known/est/cacerts"; d_address := str "192.0.2.1"; d_port := 40000 |}.
Proof. reflexivity. Qed.

(** An enroll event is undefined whenever the subjects are found: the code clears 47
    bytes of an array of 46 (see also C56) ... *)
Theorem C72_enroll_refuted : forall subject csr p stack, len stack = 46 -> ~ In 0 csr -> csr <> [] ->
  (forall s, subject = Some s -> ~ In 0 s /\ s <> []) ->
  est_invoke_enroll_req_event_cb subject csr p stack = UB.
Proof. exact enroll_event_ub. Qed.
Print Assumptions C72_enroll_refuted.
Example C72_enroll_met : len (repeat 7 46) = 46 /\ ~ In 0 (str "CN = a") /\ str "CN = a" <> [] /\ (forall s, @None bytes = Some s -> ~ In 0 s /\ s <> []).
Proof. split; [reflexivity|]. split; [cbn; intuition lia|]. split; [discriminate|]. discriminate. Qed.
(** ... and otherwise reports an array nothing was written to: an empty subject
    in the CSR makes it tell whatever the stack holds. *)
Theorem C72_stack_refuted : forall s r, ~ In 0 s -> len s = 44 ->
  est_invoke_enroll_req_event_cb None [] (Some (4, Some (str "192.0.2.1"), 40000)) (s ++ [0; r]) = Ok ([], [], s, 0).
Proof.
  intros s r H L. unfold est_invoke_enroll_req_event_cb, est_invoke_enroll_get_subjs.
  change (wr (repeat 0 (Z.to_nat (EST_MAX_CERT_SUBJ_LEN + 1))) 0 0) with (Ok (repeat 0 256)). cbn [bind est_get_subj_fld_from_cert].
  change (cstr (repeat 0 256)) with (@Ok bytes []). cbn [bind]. rewrite (cstr_text s [r] H). reflexivity.
Qed.
Print Assumptions C72_stack_refuted.
