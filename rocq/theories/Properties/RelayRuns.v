(** Runs of the proxy: what C46 and C67 do not exclude, and that the hypotheses
    of Properties/Relay.v are met. *)
From Coq Require Import String ZArith List Bool Lia.
From Verif Require Import Base Spec.Base64 Spec.Http Spec.Multipart Spec.Server Spec.Relay Model.CLib Model.EstErr Model.HttpServer Model.Uri Model.AuthHdr Model.ClientHttp Model.Server Model.Relay
  Proofs.Codec Proofs.EstErr Proofs.Uri Proofs.ServerReply Properties.Server Properties.Relay.
From Verif Require Spec.Client Spec.ClientCalls Model.Client Properties.ClientRuns.
Import ListNotations.
Open Scope Z_scope.

(** A proxy for the upstream server a.example. *)
Notation proxy O C := (est_proxy_http_request O C (toy_app never) (uri_full rfc_path_parser true) (fun _ => true) ClientRuns.X0 None true 2%nat).
Definition start (w : list Client.attempt) : @pst unit :=
  {| p_dn := toy_st;
     p_up := {| Client.s_c := Client.put_server (str "a.example") 443 (Client.put_user (str "proxy") (Client.put_pwd (str "secret") (Client.est_client_init (str "anchors")))); Client.s_env := w |};
     p_delay := 0 |}.
Notation post uri := (proxy (toy_ossl NoAttr) basic good_cert (str "POST") uri (Some (str "CSR")) pkcs10 alice).
Notation get uri := (proxy (toy_ossl NoAttr) basic good_cert (str "GET") uri None None None).
Definition certificate := ClientRuns.giving "application/pkcs7-mime; smime-type=certs-only" "certificate" "11".
Notation answering := (ClientRuns.answering true).
Definition written e : bool := forallb (fun v => match v with EvWrite _ ok => ok | _ => true end) (@downs unit unit e).
Lemma written_spec : forall e, written e = true -> all_sent (downs e).
Proof. unfold written, all_sent. intros e H d ok I. rewrite forallb_forall in H. exact (H _ I). Qed.
Lemma none_eq : forall e, err_eqb e EST_ERR_NONE = true -> e = EST_ERR_NONE.
Proof. intros []; discriminate || reflexivity. Qed.
Definition ran (m : @P unit unit unit est_error) s (f : list pevent -> est_error -> bool) : bool := match m s with (e, Ok (rc, _)) => f e rc | _ => false end.
Lemma ran_spec : forall m s f, ran m s f = true -> exists e rc s', m s = (e, Ok (rc, s')) /\ f e rc = true.
Proof. unfold ran. intros m s f H. destruct (m s) as [e [[rc s']|]]; [eauto|discriminate]. Qed.

(** The upstream server asks for credentials and then gives a certificate. *)
Example C46_case : exists e s' reads x, post simpleenroll (start [answering ClientRuns.asking; answering certificate]) = (e, Ok (EST_ERR_NONE, s'))
  /\ uri_full rfc_path_parser true simpleenroll = Ok (EST_ERR_NONE, Some OP_SIMPLE_ENROLL, None) /\ all_sent (downs e) /\ starts (str "HTTP/1.1 200") (sent (downs e))
  /\ ClientCalls.connects (ups e) = 2%nat /\ ClientCalls.last_response (ups e) reads /\ ClientCalls.reply_body OP_SIMPLE_ENROLL reads x /\ gives_certificate e x
  /\ skipn 151 (sent (downs e)) = str "certificate".
Proof.
  destruct (ran_spec (post simpleenroll) (start [answering ClientRuns.asking; answering certificate])
    (fun e rc => err_eqb rc EST_ERR_NONE && written e && prefixb (str "HTTP/1.1 200") (sent (downs e)) && (ClientCalls.connects (ups e) =? 2)%nat && beq (skipn 151 (sent (downs e))) (str "certificate")))
    as (e & rc & s' & H & B); [vm_compute; reflexivity|].
  apply andb_prop in B as [B B5]. apply andb_prop in B as [B B4]. apply andb_prop in B as [B B3]. apply andb_prop in B as [B1 B2].
  apply none_eq in B1. subst rc. apply beq_eq in B5. apply Nat.eqb_eq in B4. apply written_spec in B2. apply prefixb_spec in B3.
  assert (Hu : uri_full rfc_path_parser true simpleenroll = Ok (EST_ERR_NONE, Some OP_SIMPLE_ENROLL, None)) by (vm_compute; reflexivity).
  destruct (C46_certificate _ _ _ _ _ _ _ _ 0%nat _ _ _ _ _ _ _ _ _ _ _ H Hu eq_refl eq_refl B2 B3) as (reads & x & L & Lx & G & _). destruct G as [Y G]; [discriminate|].
  exists e, s', reads, x. repeat (split; [assumption|]). assumption.
Qed.
Print Assumptions C46_case.

(** Failures upstream, and the status the proxy answers with. *)
Definition status_of (m : @P unit unit unit est_error) s : bytes := match m s with (e, Ok _) => firstn 12 (sent (downs e)) | _ => [] end.
Definition status (code : string) : bytes := str "HTTP/1.1 " ++ str code ++ CRLF ++ str "Content-Length: 0" ++ CRLF ++ CRLF.
Definition later : bytes := str "HTTP/1.1 202 Accepted" ++ CRLF ++ str "Retry-After: 77" ++ CRLF ++ str "Content-Length: 0" ++ CRLF ++ CRLF.
Example C46_case_failures :
  map (fun w => status_of (post simpleenroll) (start w))
    [[]; [Client.Refused Client.NoAddress]; [Client.Refused Client.NoConnection]; [Client.Refused Client.NoTls]; [ClientRuns.answering false []]; [answering []];
     [answering (status "400 Bad Request")]; [answering (status "401 Unauthorized")]; [answering ClientRuns.asking; answering ClientRuns.asking]; [answering (status "404 Not Found")]; [answering (status "423 Locked")];
     [answering (status "500 Internal Error")]; [answering (status "418 Teapot")]; [answering (str "nonsense")]; [answering later]; [answering (status "202 Accepted")]; [ClientRuns.with_reads [Data (str "HTTP/1.1 200"); Failed]]]
  = map (fun c => str "HTTP/1.1 " ++ str c)
    ["504"; "504"; "504"; "502"; "502"; "404"; "400"; "401"; "401"; "404"; "423"; "502"; "502"; "502"; "202"; "500"; "504"]%string.
Proof. vm_compute. reflexivity. Qed.

(** C67: the segment of one client's request is used for the next, without a
    segment, of another. *)
Theorem C67_segment_refuted : exists e1 s1 e2 r q,
  post (str "/.well-known/est/blue/simpleenroll") (start [answering certificate; answering certificate]) = (e1, Ok (EST_ERR_NONE, s1))
  /\ uri_full rfc_path_parser true simpleenroll = Ok (EST_ERR_NONE, Some OP_SIMPLE_ENROLL, None)
  /\ post simpleenroll s1 = (e2, r) /\ In (Client.ERequest q) (ups e2)
  /\ starts (str "POST /.well-known/est/blue/simpleenroll HTTP/1.1") q.
Proof.
  destruct (post (str "/.well-known/est/blue/simpleenroll") (start [answering certificate; answering certificate])) as [e1 [[rc s1]|]] eqn:H.
  2: { exfalso. apply (f_equal (fun x => match snd x with UB => true | _ => false end)) in H. vm_compute in H. discriminate. }
  assert (B : err_eqb rc EST_ERR_NONE && match ups (fst (post simpleenroll s1)) with
      | [Client.EConnect _ _ _; Client.ERequest q; Client.EResponse _] => prefixb (str "POST /.well-known/est/blue/simpleenroll HTTP/1.1") q
      | _ => false end = true).
  { change ((fun x => match snd x with Ok (rc, s1) => err_eqb rc EST_ERR_NONE && match ups (fst (post simpleenroll s1)) with
      | [Client.EConnect _ _ _; Client.ERequest q; Client.EResponse _] => prefixb (str "POST /.well-known/est/blue/simpleenroll HTTP/1.1") q
      | _ => false end | UB => false end) (e1, Ok (rc, s1)) = true). rewrite <- H. clear H. vm_compute. reflexivity. }
  apply andb_prop in B as [B1 B2]. apply none_eq in B1. subst rc. destruct (post simpleenroll s1) as [e2 r] eqn:H2. cbn [fst] in B2.
  destruct (ups e2) as [|[| |] [|[|q|] [|[| |] [|]]]] eqn:Eu; try discriminate B2. apply prefixb_spec in B2.
  exists e1, s1, e2, r, q. split; [reflexivity|]. split; [vm_compute; reflexivity|]. split; [exact H2|]. split; [|exact B2]. rewrite Eu. right. now left.
Qed.
Print Assumptions C67_segment_refuted.

(** C67: a valid request of more than 4096 octets, which the server side
    accepts, is undefined behaviour. *)
Definition any_csr : @ossl unit unit unit := {| o_parse_csr := fun _ => Some tt; o_pubkey := fun _ => true; o_verify := fun _ => 1; o_challenge := fun _ => NoAttr; o_eku := fun _ => None;
     o_cert_field := fun _ _ => None; o_csr_field := fun _ _ => None; o_key_der := fun _ => []; o_set_pubkey := fun r _ => Some r; o_sign := fun r _ => Some r;
     o_csr_body := fun _ => []; o_bio := rfc_bio |}.
Theorem C67_long_refuted : exists e, len (repeat 65 4097) = 4097 /\ proxy any_csr basic good_cert (str "POST") simpleenroll (Some (repeat 65 4097)) pkcs10 alice (start [answering certificate]) = (e, UB).
Proof. eexists. split; [reflexivity|]. vm_compute. reflexivity. Qed.
Print Assumptions C67_long_refuted.

(** C46: the response with a generated key announces fewer octets than it has:
    the client cannot find its end. *)
Theorem C46_keys_refuted : forall (e : list (@pevent unit unit)) k x, gives_keys e k x -> exists n v body, decimal n v
  /\ sent (downs e) = str "HTTP/1.1 200" ++ CRLF ++ render_header (str "Status", str "200 OK") ++ render_header (str "Content-Type", str "multipart/mixed; boundary=est-server-boundary")
       ++ render_header (str "Content-Length", n) ++ CRLF ++ body /\ v < len body.
Proof.
  intros e k x (n & D & S). exists n, (len k + len x), ([10] ++ keygen_body k x). split; [exact D|]. split.
  - rewrite S. unfold keygen_head. rewrite <- !app_assoc. reflexivity.
  - unfold keygen_body, part. rewrite !len_app. change (len [10]) with 1.
    repeat match goal with |- context [len ?l] => lazymatch goal with _ : 0 <= len l |- _ => fail | _ => pose proof (len_nonneg _ l) end end. lia.
Qed.
Print Assumptions C46_keys_refuted.

(** C46: after a request for CSR attributes that was answered with 401, the
    next client's enrollment sends the proxy's credentials at once, and a 401
    to that is passed on without a second attempt. *)
Theorem C46_challenge_refuted : exists e1 rc1 s1 e2 rc2 s2 sv p a q reads,
  get (str "/.well-known/est/csrattrs") (start [answering ClientRuns.asking; answering ClientRuns.asking; answering certificate]) = (e1, Ok (rc1, s1))
  /\ post simpleenroll s1 = (e2, Ok (rc2, s2))
  /\ ups e2 = [Client.EConnect sv p a; Client.ERequest q; Client.EResponse reads] /\ ClientCalls.credentials q
  /\ starts (str "HTTP/1.1 401") (sent (downs e2))
  /\ exists e3 s3, post simpleenroll (start [answering ClientRuns.asking; answering certificate]) = (e3, Ok (EST_ERR_NONE, s3)).
Proof.
  destruct (get (str "/.well-known/est/csrattrs") (start [answering ClientRuns.asking; answering ClientRuns.asking; answering certificate])) as [e1 [[rc1 s1]|]] eqn:H.
  2: { exfalso. apply (f_equal (fun x => match snd x with UB => true | _ => false end)) in H. vm_compute in H. discriminate. }
  assert (B : match post simpleenroll s1 with
      | (e, Ok _) => match ups e with [Client.EConnect _ _ _; Client.ERequest q; Client.EResponse _] => ClientRuns.with_line (str "Authorization:") q | _ => false end && prefixb (str "HTTP/1.1 401") (sent (downs e))
      | _ => false end = true).
  { change ((fun x => match snd x with Ok (_, s1) => match post simpleenroll s1 with
      | (e, Ok _) => match ups e with [Client.EConnect _ _ _; Client.ERequest q; Client.EResponse _] => ClientRuns.with_line (str "Authorization:") q | _ => false end && prefixb (str "HTTP/1.1 401") (sent (downs e))
      | _ => false end | UB => false end) (e1, Ok (rc1, s1)) = true). rewrite <- H. clear H. vm_compute. reflexivity. }
  destruct (post simpleenroll s1) as [e2 [[rc2 s2]|]] eqn:H2; [|discriminate B]. apply andb_prop in B as [B1 B2]. apply prefixb_spec in B2.
  destruct (ups e2) as [|[sv p a| |] [|[|q|] [|[| |reads] [|]]]] eqn:Eu; try discriminate B1. apply ClientRuns.with_line_spec in B1.
  exists e1, rc1, s1, e2, rc2, s2, sv, p, a, q, reads. split; [reflexivity|]. split; [exact H2|]. split; [exact Eu|]. split; [exact B1|]. split; [exact B2|].
  destruct C46_case as (e & s & _ & _ & K & _). eauto.
Qed.
Print Assumptions C46_challenge_refuted.

(** A run that meets the hypotheses of C67. *)
Example C67_case : exists e s' q, post (str "/.well-known/est/blue/simpleenroll") (start [answering certificate]) = (e, Ok (EST_ERR_NONE, s'))
  /\ uri_full rfc_path_parser true (str "/.well-known/est/blue/simpleenroll") = Ok (EST_ERR_NONE, Some OP_SIMPLE_ENROLL, Some (str "blue"))
  /\ In (Client.ERequest q) (ups e) /\ forwards OP_SIMPLE_ENROLL (Some (str "blue")) (str "CSR") q.
Proof.
  destruct (ran_spec (post (str "/.well-known/est/blue/simpleenroll")) (start [answering certificate])
    (fun e rc => err_eqb rc EST_ERR_NONE && match ups e with [_; Client.ERequest q; _] => true | _ => false end)) as (e & rc & s' & H & B); [vm_compute; reflexivity|].
  apply andb_prop in B as [B1 B2]. apply none_eq in B1. subst rc. destruct (ups e) as [|y1 [|[|q|] [|y2 [|]]]] eqn:Eu; try discriminate B2.
  assert (Hu : uri_full rfc_path_parser true (str "/.well-known/est/blue/simpleenroll") = Ok (EST_ERR_NONE, Some OP_SIMPLE_ENROLL, Some (str "blue"))) by (vm_compute; reflexivity).
  assert (I : In (Client.ERequest q) (ups e)) by (rewrite Eu; right; now left).
  destruct (C67_partial _ _ _ _ _ _ _ _ 0%nat _ _ _ _ _ _ _ _ _ _ _ _ H Hu eq_refl eq_refl I) as (_ & _ & _ & _ & b & Eb & _ & F). injection Eb as <-.
  exists e, s', q. split; [exact H|]. split; [exact Hu|]. split; [exact I|]. apply F; [reflexivity|clear; vm_compute; discriminate| | |clear; vm_compute; discriminate| |clear; vm_compute; split; discriminate].
  all: clear; vm_compute; intuition discriminate.
Qed.
Print Assumptions C67_case.
