(** C84: a client of this library understands the answers of a server of this
    library.  Read with Spec/Server.v ([issued], [sent]), Spec/Registrar.v
    ([called_once]) and Spec/Client.v ([arrives]).

    [request] is the server's handling of one request (Properties/Server.v):
    its events [e] include the calls of the application and what was written.
    What was written reaches the client in pieces of any size, and the
    connection is closed ([arrives evs (sent e)]).  The client's outcome is that
    of est_io_get_response (Properties/ClientHttp.v) or, for key generation,
    est_io_get_keygen_response (Properties/Multipart.v). *)
From Coq Require Import String ZArith List Bool Lia ZifyBool ZifyNat.
From Verif Require Import Base Spec.Http Spec.Server Spec.Client Spec.Multipart Spec.Registrar Spec.Challenge Model.CLib Model.Codec Model.EstErr Model.HttpServer Model.Uri
  Model.AuthHdr Model.Server Model.ClientHttp Model.Multipart Proofs.EstErr Proofs.ServerAuth Proofs.ServerEnroll Proofs.ServerRequest Proofs.ServerProps Proofs.ServerCA
  Proofs.ServerReply Proofs.ServerResponse Proofs.ServerBrski Proofs.ClientHttp Proofs.ClientRender Proofs.ClientServer Proofs.ClientChallenge Proofs.Answers
  Properties.Server Properties.Multipart.
Import ListNotations.
Open Scope Z_scope.

Section S.
Context {cert csr key E : Type}.
Variable O : @ossl cert csr key.
Variable C : @config cert.
Variable A : @app cert key E.
Variable parse_uri : bytes -> res (est_error * option operation * option bytes).
Variable attrs_parse : bytes -> res (est_error * bool).
Variable attrs_add_pop : bytes -> res (est_error * bytes).
Variable attrs_check : option (option bytes) -> bytes -> res est_error.
Variable keep : Z -> bool.
Notation request := (est_http_request O C A parse_uri attrs_parse attrs_add_pop attrs_check keep).

(** A request for a certificate (server-side keys: below) ends in one of four
    ways: the CA issued a certificate and the client gets exactly it; the client
    is challenged and learns the scheme, the realm and the nonce; it is told to
    come back and learns the configured delay; or it gets the error of the
    status that the server's result stands for.  Partial: see
    [C84_long_refuted]; a certificate that starts with a line end is skipped over; and what was sent must fit the client's buffer. *)
Theorem C84_partial : forall t method uri body ct authz s e rc s' o path evs c,
  0 <= c_retry C <= 2147483647 -> c_transport C = EST_HTTP -> challenges C ->
  parse_uri uri = Ok (EST_ERR_NONE, Some o, path) -> o = OP_SIMPLE_ENROLL \/ o = OP_SIMPLE_REENROLL ->
  request t method uri body ct authz s = (e, Ok (rc, s')) -> all_sent e -> arrives evs (sent e) -> len (sent e) <= 1999955 ->
  (rc = EST_ERR_NONE /\ exists crt kt, issued e (kind_of o) crt kt
     /\ (no_leading_newline crt -> len crt <= 1999000 ->
         est_io_get_response evs o c = Ok (EST_ERR_NONE, Deliver (Some crt) (len crt), set_status 200 c)))
  \/ (rc = EST_ERR_NONE /\ (forall k crt kt, ~ issued e k crt kt) /\ exists v,
      (quotable (c_realm C) -> len (c_realm C) <= 255 -> quotable (a_time A v) -> len (a_time A v) <= 64 -> k_mode c = AUTH_NONE \/ k_mode c = AUTH_FAIL ->
       exists c', est_io_get_response evs o c = Ok (EST_ERR_AUTH_FAIL, Untouched, c') /\ k_mode c' = c_auth_mode C /\ k_realm c' = c_realm C
         /\ k_nonce c' = match c_auth_mode C with AUTH_DIGEST => a_time A v | _ => k_nonce c end))
  \/ (rc = EST_ERR_CA_ENROLL_RETRY /\ (forall k crt kt, ~ issued e k crt kt)
      /\ est_io_get_response evs o c = Ok (EST_ERR_CA_ENROLL_RETRY, Untouched, set_delay (c_retry C) (set_status 202 c)))
  \/ (rc <> EST_ERR_NONE /\ rc <> EST_ERR_CA_ENROLL_RETRY /\ (forall k crt kt, ~ issued e k crt kt)
      /\ exists c', est_io_get_response evs o c = Ok (status_error (http_status rc), Untouched, c') /\ k_status c' = http_status rc).
Proof.
  intros t method uri body ct authz s e rc s' o path evs c Hr HT Ch Pu Ho H AS Ar L.
  assert (Hh : is_http C = true) by (unfold is_http; now rewrite HT). assert (En : enrolls o = true) by (destruct Ho; subst; reflexivity).
  assert (Er : forall w er s1 s2, est_send_http_error A keep (c_retry C) er s1 = (w, Ok (tt, s2)) -> all_sent w -> sent e = sent w -> er <> EST_ERR_NONE -> (forall k crt kt, ~ issued e k crt kt) ->
    (er = EST_ERR_CA_ENROLL_RETRY /\ (forall k crt kt, ~ issued e k crt kt) /\ est_io_get_response evs o c = Ok (EST_ERR_CA_ENROLL_RETRY, Untouched, set_delay (c_retry C) (set_status 202 c)))
    \/ (er <> EST_ERR_NONE /\ er <> EST_ERR_CA_ENROLL_RETRY /\ (forall k crt kt, ~ issued e k crt kt)
      /\ exists c', est_io_get_response evs o c = Ok (status_error (http_status er), Untouched, c') /\ k_status c' = http_status er)).
  { intros w er s1 s2 Q ASw Sw Ne NI. rewrite Sw in Ar, L. destruct (err_eqb er EST_ERR_CA_ENROLL_RETRY) eqn:Eq.
    - apply err_eqb_eq in Eq. subst er. left. split; [reflexivity|]. split; [exact NI|]. eapply (retry_end_to_end A keep); eauto.
    - assert (Nr : er <> EST_ERR_CA_ENROLL_RETRY) by (intros ->; discriminate Eq). right. split; [exact Ne|]. split; [exact Nr|]. split; [exact NI|].
      eapply (errors_end_to_end A keep); eauto. lia. }
  destruct (request_op O C A parse_uri attrs_parse attrs_add_pop attrs_check keep _ _ _ _ _ _ _ _ _ _ _ _ Pu H AS)
    as [(c0 & eo & ro & so & R & ASo & Dn & -> & Se & a & b & Ee & _ & _ & Na & Nb)|(Ne & er & s1 & w & s2 & Q & ASw & [(Ee & ->)|(c0 & eo & R & Nd & -> & ASo & Ee)])].
  - pose proof (enroll_run O C A attrs_parse attrs_add_pop attrs_check keep _ _ _ _ _ _ _ _ _ En R) as R1.
    destruct (enroll_done O C A parse_uri attrs_parse attrs_add_pop attrs_check keep _ _ _ _ _ _ _ _ _ _ Hh ASo R1) as (D1 & D2 & _).
    assert (Ro : ro = EST_ERR_NONE \/ ro = EST_ERR_AUTH_PENDING) by (destruct ro; try discriminate Dn; auto).
    destruct Ro as [Ro|Ro].
    + left. split; [reflexivity|]. destruct (D1 Ro) as (crt & kt & Is). exists crt, kt.
      assert (Is' : issued e (kind_of o) crt kt) by (rewrite Ee; apply issued_app; right; apply issued_app; now left).
      split; [exact Is'|]. intros Nl Lc.
      pose proof (enrollment_sent O C A parse_uri attrs_parse attrs_add_pop attrs_check keep _ _ _ _ _ _ _ _ _ _ _ _ _ _ _ Hh Pu En H AS Is') as Sx.
      assert (Nc : crt <> []) by (destruct Is' as [Nc _]; exact Nc).
      replace (Some crt) with (match crt with [] => None | _ => Some crt end) by (destruct crt; [contradiction|reflexivity]).
      apply ok_read; [destruct Ho; subst o; cbn; auto| |exact Nl|exact Lc].
      rewrite Sx in Ar. destruct Ho; subst o; exact Ar.
    + right. left. split; [reflexivity|]. destruct (D2 Ro) as (NI & w & s0 & s1 & Hw & Sw). split.
      { intros k1 crt kt Is. rewrite Ee in Is. apply issued_app in Is as [Is|Is]; [exact (nothing_issued _ _ _ _ Na Is)|]. apply issued_app in Is as [Is|Is]; [exact (NI _ _ _ Is)|exact (nothing_issued _ _ _ _ Nb Is)]. }
      exists (s_env s0). intros Qr Lr Qt Lt Mu. rewrite Se, Sw in Ar. eapply (challenge_end_to_end C A); eauto. destruct Mu as [->| ->]; reflexivity.
  - right. right. eapply Er; eauto.
    + rewrite Ee. apply sent_silent_l. apply start_silent.
    + intros k1 crt kt Is. rewrite Ee in Is. apply issued_app in Is as [Is|Is]; (eapply nothing_issued; [|exact Is]; apply nonpriv_nonca); [apply start_nonpriv|exact (error_nonpriv A keep _ _ _ _ _ Q)].
  - pose proof (enroll_run O C A attrs_parse attrs_add_pop attrs_check keep _ _ _ _ _ _ _ _ _ En R) as R1.
    destruct (enroll_done O C A parse_uri attrs_parse attrs_add_pop attrs_check keep _ _ _ _ _ _ _ _ _ _ Hh ASo R1) as (_ & _ & D3).
    assert (Rp : reported o rc = rc) by (destruct Ho; subst o; reflexivity). rewrite Rp in Q.
    right. right. eapply Er; eauto.
    + rewrite Ee. rewrite sent_silent_l by apply start_silent. rewrite sent_silent_l by apply req_silent. rewrite sent_silent_l. { apply sent_silent_l. apply rsp_silent. }
      apply D3; [exact Ne|]. intros ->. destruct Ho; subst o; discriminate Nd.
    + intros k1 crt kt Is. rewrite Ee in Is. rewrite !issued_app in Is.
      destruct Is as [Is|[Is|[Is|[Is|Is]]]]; try (eapply nothing_issued; [|exact Is]; apply nonpriv_nonca; first [apply start_nonpriv|apply req_nonpriv|apply rsp_nonpriv|exact (error_nonpriv A keep _ _ _ _ _ Q)]).
      destruct (enroll_sent O C A parse_uri attrs_parse attrs_add_pop attrs_check keep _ _ _ _ _ _ _ _ _ _ _ _ _ Hh ASo R1 Is) as [-> _]. now apply Ne.
Qed.

(** Key generation: the client gets the private key and the certificate.  The
    sizes are those its parser takes (see [C84_long_refuted]). *)
Theorem C84_keygen_partial : forall junk t method uri body ct authz s e rc s' path k crt kt evs c, c_transport C = EST_HTTP ->
  parse_uri uri = Ok (EST_ERR_NONE, Some OP_SERVER_KEYGEN, path) ->
  request t method uri body ct authz s = (e, Ok (rc, s')) -> all_sent e -> issued e k crt kt -> arrives evs (sent e) ->
  part_text kt -> 256 <= len kt <= 8192 -> part_text crt -> 128 <= len crt <= 8192 ->
  est_io_get_keygen_response junk evs c = Ok (EST_ERR_NONE, Some (kt, crt), set_status 200 c).
Proof.
  intros junk t method uri body ct authz s e rc s' path k crt kt evs c HT Pu H AS Is Ar Tk Lk Tc Lc.
  assert (Hh : is_http C = true) by (unfold is_http; now rewrite HT).
  pose proof (enrollment_sent O C A parse_uri attrs_parse attrs_add_pop attrs_check keep _ _ _ _ _ _ _ _ _ _ _ _ _ _ _ Hh Pu eq_refl H AS Is) as Sx.
  destruct (keygen_answer kt crt) as (R & Cl & Pl & Ln & In1 & Fo); [lia|]. cbn [kind_of enc_of cert_body] in Sx. rewrite Sx in Ar.
  refine (C37_server_format junk evs _ c _ kt crt Ar R Cl Pl _ In1 Fo Tk Lk Tc Lc). cbn [Datatypes.app] in *. unfold kg_ct in Ln. change (Spec.Server.cert_type SERVERKEYGEN_REQ) with kg_ct. unfold kg_ct. lia.
Qed.
(** A longer certificate (or key) does not get through: the client, whatever it
    returns, does not return it. *)
Theorem C84_long_refuted : forall junk t method uri body ct authz s e rc s' path k crt kt evs c, harmless junk -> c_transport C = EST_HTTP ->
  parse_uri uri = Ok (EST_ERR_NONE, Some OP_SERVER_KEYGEN, path) ->
  request t method uri body ct authz s = (e, Ok (rc, s')) -> all_sent e -> issued e k crt kt -> arrives evs (sent e) ->
  8192 < len crt \/ 8192 < len kt -> len kt + len crt <= 900000 -> ~ In 58 kt -> ~ In 58 crt ->
  exists rv r, est_io_get_keygen_response junk evs c = Ok (rv, r, set_status 200 c) /\ r <> Some (kt, crt).
Proof.
  intros junk t method uri body ct authz s e rc s' path k crt kt evs c J HT Pu H AS Is Ar Big Lm Nk Nc.
  assert (Hh : is_http C = true) by (unfold is_http; now rewrite HT).
  pose proof (enrollment_sent O C A parse_uri attrs_parse attrs_add_pop attrs_check keep _ _ _ _ _ _ _ _ _ _ _ _ _ _ _ Hh Pu eq_refl H AS Is) as Sx.
  destruct (keygen_answer kt crt) as (R & Cl & Pl & Ln & In1 & Fo); [lia|]. cbn [kind_of enc_of cert_body] in Sx. rewrite Sx in Ar.
  assert (An : announces (str "multipart/mixed; boundary=est-server-boundary") (str "est-server-boundary")).
  { exists (str "est-server-boundary"), [], []. split; [reflexivity|]. split; [now left|]. split; [constructor|now left]. }
  destruct (C37_sound junk evs _ c _ (keygen_body kt crt) (str "est-server-boundary") J Ar R Cl Pl) as (rv & r & G & Q).
  - split; discriminate.
  - refine (Z.le_trans _ _ _ Ln _). lia.
  - split.
    + rewrite Forall_forall in *. intros h I Oc. rewrite (Fo h I Oc). exact An.
    + apply Exists_exists. eexists. split; [exact In1|exact An].
  - split; [split; vm_compute; discriminate|]. split; [|discriminate]. rewrite Forall_forall. intros x I. cbn in I. unfold boundary_chars. cbn. intuition.
  - unfold keygen_body, part. rewrite <- !app_assoc. rewrite text_lit by reflexivity. exists (str "--"). eexists. rewrite (app_assoc (str "--")). reflexivity.
  - apply keygen_colons; assumption.
  - exists rv, r. split; [exact G|]. intros ->. destruct Q as (_ & Q1 & Q2 & _). lia.
Qed.

(** The CA certificates: exactly what the application (or the configuration)
    supplies, or "no content". *)
Theorem C84_cacerts : forall t method uri body ct authz s e rc s' path evs c, 0 <= c_retry C <= 2147483647 ->
  parse_uri uri = Ok (EST_ERR_NONE, Some OP_CACERTS, path) -> request t method uri body ct authz s = (e, Ok (rc, s')) -> all_sent e -> arrives evs (sent e) ->
  (rc = EST_ERR_NONE /\ exists d, ((a_cacerts A = None /\ c_cacerts C = Some d) \/ In (EvCacerts path (Some d)) e)
     /\ (no_leading_newline d -> len d <= 1999000 ->
         est_io_get_response evs OP_CACERTS c = Ok (EST_ERR_NONE, Deliver (match d with [] => None | _ => Some d end) (len d), set_status 200 c)))
  \/ (rc <> EST_ERR_NONE /\ (len (sent e) <= 1999955 ->
         exists c', est_io_get_response evs OP_CACERTS c = Ok (status_error (http_status rc), Untouched, c') /\ k_status c' = http_status rc)).
Proof.
  intros t method uri body ct authz s e rc s' path evs c Hr Pu H AS Ar.
  destruct (request_op O C A parse_uri attrs_parse attrs_add_pop attrs_check keep _ _ _ _ _ _ _ _ _ _ _ _ Pu H AS)
    as [(c0 & eo & ro & so & R & ASo & Dn & -> & Se & a & b & Ee & _)|(Ne & er & s1 & w & s2 & Q & ASw & [(Ee & ->)|(c0 & eo & R & Nd & -> & ASo & Ee)])].
  - left. split; [reflexivity|]. cbn [run_op] in R. assert (Ro : ro = EST_ERR_NONE) by (destruct ro; try discriminate Dn; reflexivity).
    destruct (cacerts_sent C A _ _ _ _ _ ASo R Ro) as (d & Sd & Src). exists d. split.
    { destruct Src as [Src|Src]; [now left|right]. rewrite Ee. rewrite !in_app_iff. auto. }
    intros Nl Ld. apply ok_read; [cbn; auto| |exact Nl|exact Ld]. rewrite Se, Sd in Ar. exact Ar.
  - right. split; [exact Ne|]. intro L. assert (Sw : sent e = sent w) by (rewrite Ee; apply sent_silent_l; apply start_silent). rewrite Sw in *.
    eapply (errors_end_to_end A keep); eauto; [lia|].
    intros ->. apply request_paths in H. inversion H; subst; try congruence.
    + match goal with Q1 : refusal _ _ _ _ _ |- _ => destruct Q1 as [[Q1 (o1 & p1 & Q2)]|[[Q1 _]|[Q1 _]]] end; congruence.
    + match goal with Q1 : parse_uri uri = Ok (_, Some ?o2, ?p2) |- _ => rewrite Pu in Q1; injection Q1 as <- <- end.
      match goal with Q1 : run_op _ _ _ _ _ _ _ _ _ _ _ _ _ _ = _ |- _ => cbn [run_op] in Q1; apply cacerts_replies in Q1 as [(Q1 & _)|(Q1 & _)]; try congruence end.
      match goal with Q1 : _ ++ _ = start_ev C uri ++ w |- _ => rewrite <- Q1 in AS end. rewrite !all_sent_app in AS. tauto.
  - right. split; [exact Ne|]. intro L. cbn [run_op] in R. destruct (cacerts_replies C A _ _ _ _ _ ASo R) as [(Rn & _)|(Rn & Si & _)]; [congruence|].
    rewrite Rn in *. assert (Sw : sent e = sent w).
    { rewrite Ee. rewrite sent_silent_l by apply start_silent. rewrite sent_silent_l by apply req_silent. rewrite sent_silent_l by exact Si. apply sent_silent_l. apply rsp_silent. }
    rewrite Sw in *. change (reported OP_CACERTS EST_ERR_HTTP_NO_CONTENT) with EST_ERR_HTTP_NO_CONTENT in Q. eapply (errors_end_to_end A keep); eauto; [lia|discriminate].
Qed.

(** CSR attributes: what was supplied (with the challenge password added if
    proof of possession is configured), or "no content". *)
Theorem C84_csrattrs : forall t method uri body ct authz s e s' path evs c, 0 <= c_retry C <= 2147483647 ->
  parse_uri uri = Ok (EST_ERR_NONE, Some OP_CSRATTRS, path) -> request t method uri body ct authz s = (e, Ok (EST_ERR_NONE, s')) -> all_sent e ->
  arrives evs (sent e) -> len (sent e) <= 1999955 ->
  (exists d, d <> []
     /\ ((a_csrattrs A = None /\ c_csrattrs C = Some d) \/ In (EvCsrattrs path (Some d)) e
         \/ (c_pop C = true /\ (d = str "MAsGCSqGSIb3DQEJBw==" \/ exists b, In (EvCsrattrs path (Some b)) e /\ attrs_add_pop b = Ok (EST_ERR_NONE, d))))
     /\ (no_leading_newline d -> len d <= 1999000 -> est_io_get_response evs OP_CSRATTRS c = Ok (EST_ERR_NONE, Deliver (Some d) (len d), set_status 200 c)))
  \/ (exists c', est_io_get_response evs OP_CSRATTRS c = Ok (EST_ERR_HTTP_NO_CONTENT, Untouched, c') /\ k_status c' = 204).
Proof.
  intros t method uri body ct authz s e s' path evs c Hr Pu H AS Ar L.
  destruct (request_op O C A parse_uri attrs_parse attrs_add_pop attrs_check keep _ _ _ _ _ _ _ _ _ _ _ _ Pu H AS)
    as [(c0 & eo & ro & so & R & ASo & Dn & _ & Se & a & b & Ee & _)|(Ne & _)]; [|congruence].
  cbn [run_op] in R. assert (Ro : ro = EST_ERR_NONE) by (destruct ro; try discriminate Dn; reflexivity).
  destruct (attrs_sent C A attrs_parse attrs_add_pop keep _ _ _ _ _ _ ASo R Ro) as [(d & Nd & Sd & Src)|(s1 & s2 & w & Q & ASw & Sw)].
  - left. exists d. split; [exact Nd|]. split.
    { rewrite Ee. destruct Src as [Src|[Src|(Pp & [Src|(b0 & I & Src)])]]; [now left|right; left; rewrite !in_app_iff; auto|right; right; auto|].
      right. right. split; [exact Pp|]. right. exists b0. split; [rewrite !in_app_iff; auto|exact Src]. }
    intros Nl Ld. replace (Some d) with (match d with [] => None | _ => Some d end) by (destruct d; [contradiction|reflexivity]).
    apply ok_read; [cbn; auto| |exact Nl|exact Ld]. rewrite Se, Sd in Ar. exact Ar.
  - right. rewrite Se, Sw in *. refine (errors_end_to_end A keep (c_retry C) EST_ERR_HTTP_NO_CONTENT s1 w _ evs OP_CSRATTRS c _ _ Q ASw Ar L); [lia|discriminate].
Qed.

(** A voucher request: the application is called once and the client gets
    exactly the voucher, or the configured delay, or an error; or the
    application is not called and the client gets an error. *)
Theorem C84_voucher_partial : forall t method uri body ct authz s e rc s' path evs c, sane C A -> 0 <= c_retry C -> 0 <= c_brski_retry C <= 2147483647 ->
  parse_uri uri = Ok (EST_ERR_NONE, Some OP_BRSKI_REQ_VOUCHER, path) -> request t method uri body ct authz s = (e, Ok (rc, s')) -> all_sent e ->
  arrives evs (sent e) -> len (sent e) <= 1999955 ->
  (exists rv v, called_once e OP_BRSKI_REQ_VOUCHER body (t_peer t) rv v
     /\ ((rv = 1 /\ v <> [] /\ (no_leading_newline v -> len v <= 1999000 ->
            est_io_get_response evs OP_BRSKI_REQ_VOUCHER c = Ok (EST_ERR_NONE, Deliver (Some v) (len v), set_status 200 c)))
         \/ (rv = 2 /\ est_io_get_response evs OP_BRSKI_REQ_VOUCHER c = Ok (EST_ERR_CA_ENROLL_RETRY, Untouched, set_delay (c_brski_retry C) (set_status 202 c)))
         \/ (rv <> 2 /\ (rv <> 1 \/ v = []) /\ exists c', est_io_get_response evs OP_BRSKI_REQ_VOUCHER c = Ok (EST_ERR_HTTP_BAD_REQ, Untouched, c') /\ k_status c' = 400)))
  \/ (not_called e /\ exists code c', In code [400; 401] /\ est_io_get_response evs OP_BRSKI_REQ_VOUCHER c = Ok (status_error code, Untouched, c') /\ k_status c' = code).
Proof.
  intros t method uri body ct authz s e rc s' path evs c Hs Hr Hb Pu H AS Ar L.
  destruct (brski_paths O C A parse_uri attrs_parse attrs_add_pop attrs_check keep _ _ _ _ _ _ _ _ _ _ _ _ Pu eq_refl eq_refl Hr H AS)
    as [(d & (hs & R & _) & N)|(c0 & eo & ro & so & a & b & -> & Mp & Ro & Ee & Sa & Na & Nb & ASo & D)].
  { right. split; [exact N|]. destruct (reply_read _ 400 _ _ evs OP_BRSKI_REQ_VOUCHER c R ltac:(cbn; auto) Ar L) as (c' & G & K). exists 400, c'. cbn; auto. }
  cbn [run_op] in Ro.
  destruct (voucher_sent O C A parse_uri attrs_parse attrs_add_pop attrs_check keep _ _ _ _ _ _ _ _ _ Hs (proj1 Hb) Ro ASo) as [(-> & rv & v & C1 & W)|Ner].
  - left. exists rv, v. rewrite Ee. split; [now apply once_app|]. destruct D as [(_ & Sb)|(Q & _)]; [|discriminate].
    assert (Se : sent e = sent eo) by (rewrite Ee, sent_silent_l, sent_silent_r by assumption; reflexivity). rewrite Se in *.
    destruct W as [(-> & Nv & Sv)|(-> & s1 & s2 & w & Q & ASw & Sw)].
    + left. split; [reflexivity|]. split; [exact Nv|]. intros Nl Lv. replace (Some v) with (match v with [] => None | _ => Some v end) by (destruct v; [contradiction|reflexivity]).
      apply ok_read; [cbn; auto 10| |exact Nl|exact Lv]. rewrite Sv in Ar. exact Ar.
    + right. left. split; [reflexivity|]. rewrite Sw in Ar. exact (retry_end_to_end A keep _ _ _ _ _ _ _ Hb Q ASw Ar).
  - destruct (voucher_replies O C A parse_uri attrs_parse attrs_add_pop attrs_check keep _ _ _ _ _ _ _ _ _ Hs (proj1 Hb) Ro ASo) as [(rv & v & C1 & _ & [(Q & _)|(-> & Si & Nv & N2)])|[(-> & (hs & R & _) & N)|(N1 & N2 & Si & N)]].
    + congruence.
    + left. exists rv, v. rewrite Ee. split; [now apply once_app|]. right. right. split; [exact N2|]. split; [exact Nv|].
      destruct D as [(Q & _)|(_ & hs & d & R & F)]; [discriminate|]. cbn in R, F.
      assert (Se : sent e = sent b) by (rewrite Ee, sent_silent_l, sent_silent_l by assumption; reflexivity). rewrite Se in *.
      exact (reply_read _ 400 _ _ evs OP_BRSKI_REQ_VOUCHER c R ltac:(cbn; auto) Ar L).
    + right. split; [rewrite Ee, !not_called_app; auto|]. destruct D as [(_ & Sb)|(Q & _)]; [|discriminate].
      assert (Se : sent e = sent eo) by (rewrite Ee, sent_silent_l, sent_silent_r by assumption; reflexivity). rewrite Se in *.
      destruct (reply_read _ 401 _ _ evs OP_BRSKI_REQ_VOUCHER c R ltac:(cbn; auto) Ar L) as (c' & G & K). exists 401, c'. cbn; auto.
    + right. split; [rewrite Ee, !not_called_app; auto|]. destruct D as [(Q & _)|(_ & hs & d & R & F)]; [exfalso; destruct ro; try discriminate; congruence|].
      assert (Se : sent e = sent b) by (rewrite Ee, sent_silent_l, sent_silent_l by assumption; reflexivity). rewrite Se in *.
      match type of R with response _ ?code _ _ => assert (Ic : In code [400; 401]) by (destruct ro; cbn; auto);
        destruct (reply_read _ code _ _ evs OP_BRSKI_REQ_VOUCHER c R ltac:(destruct ro; cbn; auto 10) Ar L) as (c' & G & K); exists code, c'; auto end.
Qed.

(** A status message: success exactly when the application accepted it,
    although the server never ends the header of its answer. *)
Theorem C84_status : forall t method uri body ct authz s e rc s' path o evs c, sane C A -> 0 <= c_retry C -> o = OP_BRSKI_VOUCHER_STATUS \/ o = OP_BRSKI_ENROLL_STATUS ->
  parse_uri uri = Ok (EST_ERR_NONE, Some o, path) -> request t method uri body ct authz s = (e, Ok (rc, s')) -> all_sent e ->
  arrives evs (sent e) -> len (sent e) <= 1999955 ->
  (exists rv, called_once e o body (t_peer t) rv []
     /\ ((rv = 1 /\ est_io_get_response evs o c = Ok (EST_ERR_NONE, Untouched, set_status 200 c))
         \/ (rv <> 1 /\ exists c', est_io_get_response evs o c = Ok (EST_ERR_HTTP_BAD_REQ, Untouched, c') /\ k_status c' = 400)))
  \/ (not_called e /\ exists code c', In code [400; 401] /\ est_io_get_response evs o c = Ok (status_error code, Untouched, c') /\ k_status c' = code).
Proof.
  intros t method uri body ct authz s e rc s' path o evs c Hs Hr Ho Pu H AS Ar L.
  destruct (status_request O C A parse_uri attrs_parse attrs_add_pop attrs_check keep _ _ _ _ _ _ _ _ _ _ _ _ Hr Hs Ho Pu H AS) as [(rv & C1 & _ & _ & [(-> & Se)|(Nv & d & hs & R & _)])|(N & code & d & Ic & hs & R & _)].
  - left. exists 1. split; [exact C1|]. left. split; [reflexivity|]. apply status200_read; [destruct Ho; subst; reflexivity|]. rewrite <- Se. exact Ar.
  - left. exists rv. split; [exact C1|]. right. split; [exact Nv|]. exact (reply_read _ 400 _ _ evs o c R ltac:(cbn; auto) Ar L).
  - right. split; [exact N|]. destruct (reply_read _ code _ _ evs o c R ltac:(cbn in Ic |- *; intuition) Ar L) as (c' & G & K). exists code, c'. auto.
Qed.
End S.
Print Assumptions C84_partial.
Print Assumptions C84_keygen_partial.
Print Assumptions C84_long_refuted.
Print Assumptions C84_cacerts.
Print Assumptions C84_csrattrs.
Print Assumptions C84_voucher_partial.
Print Assumptions C84_status.

Lemma arrives_one : forall d, d <> [] -> arrives [Data d; Data []] d.
Proof. intros d N. exists [d], []. split; [reflexivity|]. split; [constructor; [exact N|constructor]|]. cbn [concat]. apply app_nil_r. Qed.
(** alice enrolls and gets "CERT" (see [enroll_works]). *)
Example C84_case : exists e s', enroll_alice = (e, Ok (EST_ERR_NONE, s')) /\ challenges basic /\ all_sent e /\ issued e SIMPLE_ENROLL_REQ (str "CERT") []
  /\ len (sent e) <= 1999955
  /\ forall c, est_io_get_response [Data (sent e); Data []] OP_SIMPLE_ENROLL c = Ok (EST_ERR_NONE, Deliver (Some (str "CERT")) 4, set_status 200 c).
Proof.
  eexists _, _. split; [vm_compute; reflexivity|]. split; [|split; [|split; [|split; [vm_compute; discriminate|]]]].
  - cbn. auto.
  - intros d ok I. cbn in I. repeat (destruct I as [I|I]; [congruence|]). destruct I.
  - split; [discriminate|]. eexists _, _, _, _. cbn. repeat first [left; reflexivity|right].
  - intro c. refine (ok_read OP_SIMPLE_ENROLL _ (str "CERT") c _ (arrives_one _ _) _ _); [cbn; auto|discriminate|split; discriminate|vm_compute; discriminate].
Qed.
(** A pledge gets the voucher "V" (see [C83_case]). *)
Example C84_voucher_case : exists e s', toy_request NoAttr basic never no_cert (str "POST") (str "/.well-known/est/requestvoucher") (str "{}") (Some (str "application/json")) alice = (e, Ok (EST_ERR_NONE, s'))
  /\ all_sent e /\ In (EvVoucher OP_BRSKI_REQ_VOUCHER (str "{}") None 1 (str "V")) e
  /\ forall c, est_io_get_response [Data (sent e); Data []] OP_BRSKI_REQ_VOUCHER c = Ok (EST_ERR_NONE, Deliver (Some (str "V")) 1, set_status 200 c).
Proof.
  eexists _, _. split; [vm_compute; reflexivity|]. split; [|split].
  - intros d ok I. cbn in I. repeat (destruct I as [I|I]; [congruence|]). destruct I.
  - cbn. repeat first [left; reflexivity|right].
  - intro c. refine (ok_read OP_BRSKI_REQ_VOUCHER _ (str "V") c _ (arrives_one _ _) _ _); [cbn; auto 10|discriminate|split; discriminate|vm_compute; discriminate].
Qed.
(** The CA certificates "CAS". *)
Example C84_cacerts_case : exists e s', toy_request NoAttr basic never no_cert (str "GET") (str "/.well-known/est/cacerts") [] None None = (e, Ok (EST_ERR_NONE, s'))
  /\ all_sent e /\ forall c, est_io_get_response [Data (sent e); Data []] OP_CACERTS c = Ok (EST_ERR_NONE, Deliver (Some (str "CAS")) 3, set_status 200 c).
Proof.
  eexists _, _. split; [vm_compute; reflexivity|]. split.
  - intros d ok I. cbn in I. repeat (destruct I as [I|I]; [congruence|]). destruct I.
  - intro c. refine (ok_read OP_CACERTS _ (str "CAS") c _ (arrives_one _ _) _ _); [cbn; auto|discriminate|split; discriminate|vm_compute; discriminate].
Qed.
(** A status message is accepted. *)
Example C84_status_case : exists e s', toy_request NoAttr basic never good_cert (str "POST") (str "/.well-known/est/voucher_status") (str "{}") (Some (str "application/json")) alice = (e, Ok (EST_ERR_NONE, s'))
  /\ all_sent e /\ forall c, est_io_get_response [Data (sent e); Data []] OP_BRSKI_VOUCHER_STATUS c = Ok (EST_ERR_NONE, Untouched, set_status 200 c).
Proof.
  eexists _, _. split; [vm_compute; reflexivity|]. split.
  - intros d ok I. cbn in I. repeat (destruct I as [I|I]; [congruence|]). destruct I.
  - intro c. apply status200_read; [reflexivity|]. apply (arrives_one (str "HTTP/1.1 200 OK" ++ CRLF ++ str "Status: 200 OK" ++ CRLF)). discriminate.
Qed.
