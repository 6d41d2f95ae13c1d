(** C94: who may enroll over CoAP.
    [est_enroll_auth O C A t authz path k body] is the server's authentication
    of an enrollment in the (D)TLS session [t]: [t_peer t] is the peer's
    certificate, [t_verify t] OpenSSL's verification result (0: good, 3: no CRL
    found).  [c_eca C] says that enhanced certificate authentication is on.
    [EvHttpAuth a peer path ok] records a call of the application's
    authentication callback and its answer, [EvCA] a call of its enrollment
    callback.  OpenSSL and the application's callbacks are arbitrary. *)
From Coq Require Import String ZArith List Bool Lia ZifyBool ZifyNat.
From Verif Require Import Base Spec.Server Model.EstErr Model.HttpServer Model.Uri Model.AuthHdr Model.Server
  Proofs.ServerAuth Proofs.ServerEnroll Proofs.ServerClaims Properties.Server.
Import ListNotations.
Open Scope Z_scope.

Section CoapAuth.
Context {cert csr key E : Type}.
Variable O : @ossl cert csr key.
Variable C : @config cert.
Variable A : @app cert key E.
Variable attrs_check : option (option bytes) -> bytes -> res est_error.

(** The session has a peer certificate that verifies. *)
Definition good_peer (t : @tls cert) (c : cert) : Prop :=
  t_peer t = Some c /\ (t_verify t = 0 \/ t_verify t = 3).
(** The application was asked about this peer and agreed. *)
Definition agreed (l : list (@event cert key)) (c : cert) (path : option bytes) : Prop :=
  exists a, In (EvHttpAuth a (Some c) path true) l.

Lemma eca_csr : forall t c body b a h a' q, handle_eca O C t c body b a = (h, a', Some q) -> o_parse_csr O body = Some q.
Proof.
  intros t c body b a h a' q. unfold handle_eca.
  destruct (negb (t_chain t)); [discriminate|].
  destruct (est_enhcd_cert_auth_get_mfg C c) as [err idx].
  destruct (err_eqb err EST_ERR_NONE || err_eqb err EST_ERR_VALIDATION); [|discriminate].
  destruct b; [|destruct (build_eca_header _ _ _ _ _); discriminate].
  destruct (o_parse_csr O body); [|discriminate].
  destruct (perform_csr_check O C c c0 idx); try (intro H; now inversion H).
  destruct (build_eca_header _ _ _ _ _). intro H; now inversion H.
Qed.

(** All the runs over CoAP. *)
Lemma coap_runs : forall t authz path k body s l r, c_transport C = EST_COAP ->
  est_enroll_auth O C A t authz path k body s = (l, r) ->
  (exists au, r = Ok (au, None, s) /\ ~ (exists c, good_peer t c /\ (c_eca C = false \/ body <> []))
      /\ (au = UNAUTHORIZED \/ au = CSR_PARSE_FAIL) /\ forall e, In e l -> exists x y z, e = EvAuthResult x y z)
  \/ exists c, good_peer t c /\
     ((c_eca C = false /\ r = Ok (CERT_AUTH, None, s) /\ forall e, In e l -> exists x y z, e = EvAuthResult x y z)
      \/ c_eca C = true /\ body <> [] /\
         exists h a ro, handle_eca O C t c body (c_eca_csr_check C) est_create_ah = (h, a, ro) /\
         ((h <> HDR_GOOD /\ r = Ok (if match h with ECA_CSR_PARSE_FAIL => true | _ => false end then CSR_PARSE_FAIL else UNAUTHORIZED, ro, s)
             /\ forall e, In e l -> exists x y z, e = EvAuthResult x y z)
          \/ (h = HDR_GOOD /\ a_http_auth A = None /\ r = UB /\ l = [])
          \/ (h = HDR_GOOD /\ exists (ok : bool) s' l', r = Ok (if ok then HTTP_AUTH else UNAUTHORIZED, ro, s')
                /\ l = EvHttpAuth a (Some c) path ok :: l' /\ forall e, In e l' -> exists x y z, e = EvAuthResult x y z))).
Proof.
  intros t authz path k body s l r HC H. unfold est_enroll_auth in H. rewrite HC in H.
  assert (RE : forall k pr rv e, In e (@res_ev cert key C k pr rv) -> exists x y z, e = EvAuthResult x y z).
  { intros k0 pr rv e. unfold res_ev. destruct (c_ev_auth C); [|intros []]. intros [<-|[]]. eauto. }
  unfold check_tls in H. destruct (t_peer t) as [c|] eqn:Ep.
  2:{ cbn in H. left. exists UNAUTHORIZED. rewrite run_result_event in H. inversion H; subst. repeat split; auto.
      - intros (c & (P & _) & _). congruence.
      - apply RE. }
  destruct ((t_verify t =? 0) || (t_verify t =? 3)) eqn:Ev; cbn [negb] in H.
  2:{ left. exists UNAUTHORIZED. rewrite run_result_event in H. inversion H; subst. repeat split; auto.
      - intros (c' & (P & V) & _). lia.
      - apply RE. }
  assert (G : good_peer t c) by (split; [assumption|lia]).
  cbn [auth_state_eqb negb andb] in H.
  destruct (c_eca C) eqn:Ee; cbn [negb] in H.
  2:{ right. exists c. split; [exact G|]. left. rewrite run_result_event in H. inversion H; subst. repeat split. apply RE. }
  destruct (len body <=? 0) eqn:El.
  { left. exists CSR_PARSE_FAIL. rewrite run_result_event in H. inversion H; subst. repeat split; auto.
    - intros (c' & _ & [F|F]); [congruence|]. destruct body; [congruence|]. unfold len in El. cbn [length] in El. lia.
    - apply RE. }
  right. exists c. split; [exact G|]. right. split; [reflexivity|]. split; [intro; subst; discriminate|].
  destruct (handle_eca O C t c body (c_eca_csr_check C) est_create_ah) as [[h a] ro] eqn:Eh.
  exists h, a, ro. split; [reflexivity|].
  destruct h;
    try (left; rewrite mbind_ret in H; cbv iota beta in H; rewrite run_result_event in H; inversion H; subst;
         split; [discriminate|split; [reflexivity|apply RE]]).
  right. destruct (a_http_auth A) eqn:Ea.
  - right. split; [reflexivity|].
    assert (Na : a_http_auth A <> None) by congruence.
    destruct (run_cb A a (Some c) path s Na) as (ok & s' & _ & _ & R).
    rewrite (mbind_eq _ _ _ _ s [EvHttpAuth a (Some c) path ok] (if ok then HTTP_AUTH else UNAUTHORIZED) s') in H
      by (rewrite (mbind_eq _ _ _ _ _ _ _ _ R); reflexivity).
    rewrite run_result_event in H. inversion H; subst. exists ok, s'. eexists. repeat split. apply RE.
  - left. unfold http_auth_cb in H. rewrite Ea in H. inversion H. auto.
Qed.

(** C94 (who is accepted): over CoAP an enrollment is authenticated exactly if
    the session has a peer certificate that verifies and, with enhanced
    certificate authentication, the request is not empty and the application
    agreed; user name and password and SRP never count.  Nothing is written
    to the peer. *)
Theorem C94_accepted : forall t authz path k body s l au ro s', c_transport C = EST_COAP ->
  est_enroll_auth O C A t authz path k body s = (l, Ok (au, ro, s')) ->
  (((au = CERT_AUTH \/ au = HTTP_AUTH \/ au = SRP_AUTH) <->
    exists c, good_peer t c /\ (c_eca C = true -> body <> [] /\ agreed l c path))
   /\ (au = CERT_AUTH -> c_eca C = false) /\ (au = HTTP_AUTH -> c_eca C = true)
   /\ au <> SRP_AUTH /\ au <> HTTP_AUTH_PENDING
   /\ forall d ok, ~ In (EvWrite d ok) l).
Proof.
  intros t authz path k body s l au ro s' HC H.
  destruct (coap_runs _ _ _ _ _ _ _ _ HC H) as
    [(au' & R & N & D & L)|(c & G & [(Ee & R & L)|(Ee & B & h & a & ro' & Eh & [(Nh & R & L)|[(-> & _ & R & _)|(-> & ok & s1 & l' & R & -> & L)]])])].
  - inversion R; subst au' ro s'. assert (W : forall d ok, ~ In (EvWrite d ok) l).
    { intros d ok F. destruct (L _ F) as (x & y & z & Q). discriminate. }
    repeat split; auto.
    + intros [F|[F|F]]; destruct D; congruence.
    + intros (c & G & F). exfalso. apply N. exists c. split; [exact G|].
      destruct (c_eca C); [right; now apply F|now left].
    + destruct D; congruence.
    + destruct D; congruence.
    + destruct D; congruence.
    + destruct D; congruence.
  - inversion R; subst au ro s'. repeat split; auto; try discriminate.
    + intros _. exists c. split; [exact G|]. congruence.
    + intros d ok F. destruct (L _ F) as (x & y & z & Q). discriminate.
  - inversion R; subst au ro s'.
    assert (NA : ~ exists c', agreed l c' path).
    { intros (c' & a' & F). destruct (L _ F) as (x & y & z & Q). discriminate. }
    repeat split; auto; try (destruct h; congruence).
    + intros F. exfalso. destruct h; cbn in F; intuition congruence.
    + intros (c' & _ & F). exfalso. apply NA. exists c'. now apply F.
    + intros d ok F. destruct (L _ F) as (x & y & z & Q). discriminate.
  - discriminate.
  - inversion R; subst au ro s'.
    repeat split; auto; try (destruct ok; congruence).
    + intros F. exists c. split; [exact G|]. intros _. split; [exact B|].
      destruct ok; [|intuition congruence]. exists a. now left.
    + intros (c' & _ & F). destruct (F Ee) as (_ & a' & [Q|Q]).
      * inversion Q; subst. auto.
      * destruct (L _ Q) as (x & y & z & Q'). discriminate.
    + intros d ok0 [F|F]; [discriminate|]. destruct (L _ F) as (x & y & z & Q). discriminate.
Qed.

(** C94 (when it fails): authentication over CoAP has undefined behaviour
    exactly if enhanced certificate authentication accepts the peer and no
    authentication callback is registered. *)
Theorem C94_defined : forall t authz path k body s, c_transport C = EST_COAP ->
  snd (est_enroll_auth O C A t authz path k body s) = UB <->
  a_http_auth A = None /\ c_eca C = true /\ body <> [] /\
  exists c a ro, good_peer t c /\ handle_eca O C t c body (c_eca_csr_check C) est_create_ah = (HDR_GOOD, a, ro).
Proof.
  intros t authz path k body s HC. destruct (est_enroll_auth O C A t authz path k body s) as [l r] eqn:H. cbn [snd].
  destruct (coap_runs _ _ _ _ _ _ _ _ HC H) as
    [(au' & R & N & D & L)|(c & G & [(Ee & R & L)|(Ee & B & h & a & ro' & Eh & [(Nh & R & L)|[(-> & An & R & _)|(-> & ok & s1 & l' & R & -> & L)]])])].
  - split; [congruence|]. intros (_ & _ & B & c & _ & _ & G & _). exfalso. apply N. eauto.
  - split; [congruence|]. intros (_ & F & _). congruence.
  - split; [congruence|]. intros (_ & _ & _ & c' & a' & ro & [P _] & F).
    destruct G as [P' _]. assert (c' = c) by congruence. subst c'. congruence.
  - split; [|auto]. intros _. repeat split; auto. exists c, a, ro'. auto.
  - split; [congruence|]. intros (An & _). exfalso.
    unfold est_enroll_auth in H. rewrite HC in H. unfold check_tls in H. destruct G as [P V]. rewrite P in H.
    replace ((t_verify t =? 0) || (t_verify t =? 3)) with true in H by lia.
    cbn [negb auth_state_eqb andb] in H. rewrite Ee in H. cbn [negb] in H.
    destruct (len body <=? 0) eqn:El.
    { destruct body; [congruence|]. unfold len in El. cbn [length] in El. lia. }
    rewrite Eh in H. unfold http_auth_cb in H. rewrite An in H. inversion H.
Qed.

Definition no_ca (l : list (@event cert key)) : Prop := forall k b u p q rv x y, ~ In (EvCA k b u p q rv x y) l.

Lemma checks_no_ca : forall t q body s l r, csr_checks O C A attrs_check t q body s = (l, r) -> no_ca l.
Proof.
  intros t q body s l r H. unfold csr_checks in H.
  apply mbind_inv in H as [[H ->]|(e1 & x & s1 & e2 & H1 & H & ->)].
  { assert (l = []). { destruct (match t_peer t with Some c => est_check_cmcRA O c | None => false end); now inversion H. }
    subst. repeat intro. contradiction. }
  assert (e1 = []). { destruct (match t_peer t with Some c => est_check_cmcRA O c | None => false end); now inversion H1. }
  subst e1. cbn [Datatypes.app].
  assert (R0 : forall (z : est_error) s0 l0 r0, @ret cert key E _ z s0 = (l0, r0) -> no_ca l0).
  { intros z s0 l0 r0 Q. inversion Q; subst. repeat intro. contradiction. }
  destruct x; try (eapply R0; exact H). destruct (c_enforce C); [|eapply R0; exact H].
  assert (K : forall s0 l0 r0, all_csrattrs_present C A attrs_check body (t_peer t) s0 = (l0, r0) -> no_ca l0).
  { clear. intros s0 l0 r0 H. unfold all_csrattrs_present in H.
    destruct (negb (is_some (a_csrattrs A)) && negb (is_some (c_csrattrs C))).
    { inversion H; subst. repeat intro; contradiction. }
    apply mbind_inv in H as [[H ->]|(e1 & x & s1 & e2 & H1 & H & ->)].
    { inversion H; subst. repeat intro; contradiction. }
    assert (e1 = []) by now inversion H1. subst e1. cbn [Datatypes.app].
    destruct x; try (inversion H; subst; repeat intro; contradiction).
    destruct (a_csrattrs A) as [f|]; [|inversion H; subst; repeat intro; contradiction].
    apply mbind_inv in H as [[H ->]|(e3 & d & s3 & e4 & H3 & H & ->)].
    { unfold call in H. destruct (f (s_env s1) None (t_peer t)). discriminate. }
    assert (e3 = []). { unfold call in H3. destruct (f (s_env s1) None (t_peer t)). now inversion H3. }
    subst e3. cbn [Datatypes.app].
    apply mbind_inv in H as [[H ->]|(e5 & u & s5 & e6 & H5 & H & ->)]; [discriminate|].
    inversion H5; inversion H; subst. repeat intro. destruct H0 as [F|F]; [discriminate|contradiction]. }
  apply mbind_inv in H as [[H ->]|(e3 & d & s3 & e4 & H3 & H & ->)]; [eapply K; exact H|].
  apply K in H3. inversion H; subst. rewrite app_nil_r. exact H3.
Qed.

(** C94 (what the CA is asked): over CoAP the application's enrollment callback
    is called only for a session with a peer certificate that verifies, with
    that certificate and the client's request and no user name; the request
    holds a public key and a signature that verifies; unless the peer is a
    registration authority, a challenge password in it, which is required with
    proof of possession, is bound to the session; with enhanced certificate
    authentication the application agreed first. *)
Theorem C94_enroll : forall t authz ct body path k s l r k' b uid p q rv crt kt, c_transport C = EST_COAP ->
  est_handle_simple_enroll O C A attrs_check t authz ct body path k s = (l, r) ->
  In (EvCA k' b uid p q rv crt kt) l ->
  k' = k /\ b = body /\ uid = None /\ q = path /\ kt = [] /\
  exists c x, p = Some c /\ good_peer t c /\
    o_parse_csr O body = Some x /\ o_pubkey O x = true /\ 0 < o_verify O x /\
    (registration_authority O t \/ (c_pop C = true \/ o_challenge O x <> NoAttr -> bound_to_session O t x)) /\
    (c_eca C = true -> agreed l c path).
Proof.
  intros t authz ct body path k s l r k' b uid p q rv crt kt HC H F.
  unfold est_handle_simple_enroll, is_http, callback_uid in H. rewrite HC in H. cbn [andb] in H.
  assert (K : forall f, mbind (est_enroll_auth O C A t authz path k body) (fun x => match x with (au, r0) =>
        match au with
        | HTTP_AUTH_PENDING => ret (EST_ERR_AUTH_PENDING, [])
        | CSR_PARSE_FAIL => ret (EST_ERR_BAD_PKCS10, [])
        | UNAUTHORIZED => ret (EST_ERR_AUTH_FAIL, [])
        | HTTP_AUTH | SRP_AUTH | CERT_AUTH =>
          match (match r0 with Some r => Some r | None => o_parse_csr O body end) with
          | None => ret (EST_ERR_BAD_PKCS10, [])
          | Some r =>
            if negb (est_server_check_csr O r) then ret (EST_ERR_BAD_PKCS10, [])
            else
              mbind (csr_checks O C A attrs_check t r body) (fun e =>
              match e with
              | EST_ERR_NONE =>
                mbind (ret None) (fun uid =>
                mbind (call (fun e => f e body uid (t_peer t) path)) (fun y => match y with (rv, crt) =>
                mbind (emit (EvCA k body uid (t_peer t) path rv crt [])) (fun _ =>
                if (rv =? err_code EST_ERR_NONE) && (0 <? len crt) then ret (EST_ERR_NONE, crt)
                else if rv =? err_code EST_ERR_CA_ENROLL_RETRY then ret (EST_ERR_CA_ENROLL_RETRY, [])
                else ret (EST_ERR_CA_ENROLL_FAIL, [])) end))
              | _ => ret (e, [])
              end)
          end
        end end) s = (l, r) ->
     k' = k /\ b = body /\ uid = None /\ q = path /\ kt = [] /\
     exists c x, p = Some c /\ good_peer t c /\
       o_parse_csr O body = Some x /\ o_pubkey O x = true /\ 0 < o_verify O x /\
       (registration_authority O t \/ (c_pop C = true \/ o_challenge O x <> NoAttr -> bound_to_session O t x)) /\
       (c_eca C = true -> agreed l c path)).
  { clear H. intros f H. apply mbind_inv in H as [[H ->]|(e1 & [au ro] & s1 & e2 & H1 & H & ->)].
    { exfalso. destruct (coap_runs _ _ _ _ _ _ _ _ HC H) as
        [(au' & R & N & D & L)|(c & G & [(Ee & R & L)|(Ee & B & h & a & ro' & Eh & [(Nh & R & L)|[(-> & An & R & ->)|(-> & ok & s1 & l' & R & -> & L)]])])];
        try discriminate. destruct F. }
    pose proof (C94_accepted _ _ _ _ _ _ _ _ _ _ HC H1) as ([Acc _] & _ & _ & _ & _ & _).
    assert (F1 : ~ In (EvCA k' b uid p q rv crt kt) e1 /\ forall x, ro = Some x -> o_parse_csr O body = Some x).
    { destruct (coap_runs _ _ _ _ _ _ _ _ HC H1) as
        [(au' & R & N & D & L)|(c & G & [(Ee & R & L)|(Ee & B & h & a & ro' & Eh & [(Nh & R & L)|[(-> & An & R & ->)|(-> & ok & s2 & l' & R & -> & L)]])])];
        inversion R; subst; (split; [|intros x Qx; first [discriminate Qx | rewrite Qx in Eh; eapply eca_csr; exact Eh]]).
      - intro Q. destruct (L _ Q) as (x & y & z & Q'). discriminate.
      - intro Q. destruct (L _ Q) as (x & y & z & Q'). discriminate.
      - intro Q. destruct (L _ Q) as (x & y & z & Q'). discriminate.
      - intros [Q|Q]; [discriminate|]. destruct (L _ Q) as (x & y & z & Q'). discriminate. }
    destruct F1 as [F1 Fr]. apply in_app_or in F as [F|F]; [contradiction|].
    assert (Ok3 : au = CERT_AUTH \/ au = HTTP_AUTH \/ au = SRP_AUTH).
    { destruct au; auto; inversion H; subst; destruct F. }
    destruct (Acc Ok3) as (c & G & Ag).
    assert (H' : match (match ro with Some r => Some r | None => o_parse_csr O body end) with
          | None => ret (EST_ERR_BAD_PKCS10, [])
          | Some r =>
            if negb (est_server_check_csr O r) then ret (EST_ERR_BAD_PKCS10, [])
            else
              mbind (csr_checks O C A attrs_check t r body) (fun e =>
              match e with
              | EST_ERR_NONE =>
                mbind (ret None) (fun uid =>
                mbind (call (fun e => f e body uid (t_peer t) path)) (fun y => match y with (rv, crt) =>
                mbind (emit (EvCA k body uid (t_peer t) path rv crt [])) (fun _ =>
                if (rv =? err_code EST_ERR_NONE) && (0 <? len crt) then ret (EST_ERR_NONE, crt)
                else if rv =? err_code EST_ERR_CA_ENROLL_RETRY then ret (EST_ERR_CA_ENROLL_RETRY, [])
                else ret (EST_ERR_CA_ENROLL_FAIL, [])) end))
              | _ => ret (e, [])
              end)
          end s1 = (e2, r)).
    { destruct Ok3 as [->|[->| ->]]; exact H. }
    clear H. rename H' into H.
    assert (Px : exists x, (match ro with Some r => Some r | None => o_parse_csr O body end) = Some x /\ o_parse_csr O body = Some x).
    { destruct ro as [x|]; [exists x; auto|]. destruct (o_parse_csr O body) as [x|]; [eauto|]. inversion H; subst. destruct F. }
    destruct Px as (x & Px & Po). rewrite Px in H.
    destruct (est_server_check_csr O x) eqn:Ec; cbn [negb] in H.
    2:{ inversion H; subst. destruct F. }
    unfold est_server_check_csr in Ec. apply andb_true_iff in Ec as [Ek Es].
    apply mbind_inv in H as [[H ->]|(e3 & e & s3 & e4 & H3 & H & ->)].
    { exfalso. eapply checks_no_ca; eauto. }
    apply in_app_or in F as [F|F]; [exfalso; eapply checks_no_ca; eauto|].
    destruct e; try (inversion H; subst; destruct F).
    apply csr_checks_paths in H3.
    assert (Pp : registration_authority O t \/ (c_pop C = true \/ o_challenge O x <> NoAttr -> bound_to_session O t x)).
    { assert (Ps : passes O C t x) by (inversion H3; assumption).
      destruct Ps as [Ps|Ps]; [left|right; now apply uid_auth_bound].
      destruct (t_peer t) as [c0|] eqn:Ep; [|easy]. eapply cmcRA_iff; eauto. }
    clear H3. rewrite mbind_ret in H.
    apply mbind_inv in H as [[H ->]|(e5 & [rv5 crt5] & s5 & e6 & H5 & H & ->)].
    { unfold call in H. destruct (f (s_env s3) body None (t_peer t) path). discriminate. }
    assert (e5 = []). { unfold call in H5. destruct (f (s_env s3) body None (t_peer t) path). now inversion H5. }
    subst e5. cbn [Datatypes.app] in F |- *.
    apply mbind_inv in H as [[H ->]|(e7 & u & s7 & e8 & H7 & H & ->)]; [discriminate|].
    inversion H7; subst.
    assert (e8 = []).
    { destruct ((rv5 =? err_code EST_ERR_NONE) && (0 <? len crt5)); [now inversion H|].
      destruct (rv5 =? err_code EST_ERR_CA_ENROLL_RETRY); now inversion H. }
    subst e8. destruct F as [F|[]]. inversion F; subst. repeat split; auto.
    exists c, x. destruct G as [P V]. repeat split; auto; [lia|].
    intro Ee. destruct (Ag Ee) as (_ & a & Q). exists a. apply in_or_app. now left. }
  destruct k.
  - destruct (a_enroll A) as [f|]; [|inversion H; subst; destruct F]. now apply (K f).
  - destruct (a_reenroll A) as [f|]; [|inversion H; subst; destruct F]. now apply (K f).
  - inversion H; subst. destruct F.
Qed.
(** C94 (key generation): over CoAP a key is generated, and the CA asked for
    its certificate, only for a session with a peer certificate that verifies
    and a request that parses; with enhanced certificate authentication the
    application agreed first. *)
Theorem C94_keygen : forall t authz ct body path s l r e, c_transport C = EST_COAP ->
  est_handle_server_keygen O C A attrs_check t authz ct body path s = (l, r) ->
  In e l -> match e with EvKeygen _ _ | EvCA _ _ _ _ _ _ _ _ => True | _ => False end ->
  exists c x, good_peer t c /\ o_parse_csr O body = Some x /\ (c_eca C = true -> body <> [] /\ agreed l c path).
Proof.
  intros t authz ct body path s l r e HC H F He.
  unfold est_handle_server_keygen in H. unfold is_http at 1 in H. rewrite HC in H. cbn [andb] in H.
  destruct (a_skg A) as [f|]; [|inversion H; subst; destruct F].
  destruct (a_keygen A) as [g|]; [|inversion H; subst; destruct F].
  apply mbind_inv in H as [[H ->]|(e1 & [au ro] & s1 & e2 & H1 & H & ->)].
  { exfalso. destruct (coap_runs _ _ _ _ _ _ _ _ HC H) as
      [(au' & R & N & D & L)|(c & G & [(Ee & R & L)|(Ee & B & h & a & ro' & Eh & [(Nh & R & L)|[(-> & An & R & ->)|(-> & ok & s1 & l' & R & -> & L)]])])];
      try discriminate. destruct F. }
  pose proof (C94_accepted _ _ _ _ _ _ _ _ _ _ HC H1) as ([Acc _] & _ & _ & _ & _ & _).
  assert (F1 : ~ In e e1 /\ forall x, ro = Some x -> o_parse_csr O body = Some x).
  { destruct (coap_runs _ _ _ _ _ _ _ _ HC H1) as
      [(au' & R & N & D & L)|(c & G & [(Ee & R & L)|(Ee & B & h & a & ro' & Eh & [(Nh & R & L)|[(-> & An & R & ->)|(-> & ok & s2 & l' & R & -> & L)]])])];
      inversion R; subst; (split; [|intros x Qx; first [discriminate Qx | rewrite Qx in Eh; eapply eca_csr; exact Eh]]).
    - intro Q. destruct (L _ Q) as (x & y & z & ->). destruct He.
    - intro Q. destruct (L _ Q) as (x & y & z & ->). destruct He.
    - intro Q. destruct (L _ Q) as (x & y & z & ->). destruct He.
    - intros [Q|Q]; [now subst e|]. destruct (L _ Q) as (x & y & z & ->). destruct He. }
  destruct F1 as [F1 Fr]. apply in_app_or in F as [F|F]; [contradiction|].
  assert (Ok3 : au = CERT_AUTH \/ au = HTTP_AUTH \/ au = SRP_AUTH).
  { destruct au; auto; inversion H; subst; destruct F. }
  destruct (Acc Ok3) as (c & G & Ag).
  assert (Px : exists x, o_parse_csr O body = Some x).
  { destruct ro as [x|]; [exists x; auto|]. destruct (o_parse_csr O body) as [x|]; [eauto|].
    destruct Ok3 as [->|[->| ->]]; inversion H; subst; destruct F. }
  destruct Px as [x Px]. exists c, x. repeat split; try apply G; auto.
  - now apply Ag.
  - destruct (Ag H0) as (_ & a & Q). exists a. apply in_or_app. now left.
Qed.

(** C94 (what the CA is asked for a new key): the CA is given the client's
    request with the key the application generated, signed with that key, the
    peer's certificate and no user name; proof of possession is as above. *)
Theorem C94_keygen_ca : forall t authz ct body path s l r k' b uid p q rv crt kt, c_transport C = EST_COAP ->
  est_handle_server_keygen O C A attrs_check t authz ct body path s = (l, r) ->
  In (EvCA k' b uid p q rv crt kt) l ->
  k' = SERVERKEYGEN_REQ /\ uid = None /\ p = t_peer t /\ q = path /\
  exists x, csr_of_request O l SERVERKEYGEN_REQ body b x /\ o_pubkey O x = true /\ 0 < o_verify O x /\
    (registration_authority O t \/ (c_pop C = true \/ o_challenge O x <> NoAttr -> bound_to_session O t x)).
Proof.
  intros t authz ct body path s l r k' b uid p q rv crt kt HC H F.
  assert (CR : forall l1 l2 bb x, csr_of_request O l2 SERVERKEYGEN_REQ body bb x -> csr_of_request O (l1 ++ l2) SERVERKEYGEN_REQ body bb x).
  { intros l1 l2 bb x (r0 & r1 & pk & H1 & H2 & H3 & H4 & H5). exists r0, r1, pk. repeat split; auto. apply in_or_app. now right. }
  unfold est_handle_server_keygen, is_http, callback_uid in H. rewrite HC in H. cbn [andb] in H.
  destruct (a_skg A) as [f|]; [|inversion H; subst; destruct F].
  destruct (a_keygen A) as [g|]; [|inversion H; subst; destruct F].
  apply mbind_inv in H as [[H ->]|(e1 & [au ro] & s1 & e2 & H1 & H & ->)].
  { exfalso. destruct (coap_runs _ _ _ _ _ _ _ _ HC H) as
      [(au' & R & N & D & L)|(c & G & [(Ee & R & L)|(Ee & B & h & a & ro' & Eh & [(Nh & R & L)|[(-> & An & R & ->)|(-> & ok & s1 & l' & R & -> & L)]])])];
      try discriminate. destruct F. }
  assert (F1 : ~ In (EvCA k' b uid p q rv crt kt) e1 /\ forall x, ro = Some x -> o_parse_csr O body = Some x).
  { destruct (coap_runs _ _ _ _ _ _ _ _ HC H1) as
      [(au' & R & N & D & L)|(c & G & [(Ee & R & L)|(Ee & B & h & a & ro' & Eh & [(Nh & R & L)|[(-> & An & R & ->)|(-> & ok & s2 & l' & R & -> & L)]])])];
      inversion R; subst; (split; [|intros x Qx; first [discriminate Qx | rewrite Qx in Eh; eapply eca_csr; exact Eh]]).
    - intro Q. destruct (L _ Q) as (? & ? & ? & Q'). discriminate.
    - intro Q. destruct (L _ Q) as (? & ? & ? & Q'). discriminate.
    - intro Q. destruct (L _ Q) as (? & ? & ? & Q'). discriminate.
    - intros [Q|Q]; [discriminate|]. destruct (L _ Q) as (? & ? & ? & Q'). discriminate. }
  destruct F1 as [F1 Fr]. apply in_app_or in F as [F|F]; [contradiction|].
  assert (Ok3 : au = CERT_AUTH \/ au = HTTP_AUTH \/ au = SRP_AUTH).
  { destruct au; auto; inversion H; subst; destruct F. }
  assert (Px : exists x, (match ro with Some r => Some r | None => o_parse_csr O body end) = Some x /\ o_parse_csr O body = Some x).
  { destruct ro as [x|]; [exists x; auto|]. destruct (o_parse_csr O body) as [x|]; [eauto|].
    destruct Ok3 as [->|[->| ->]]; inversion H; subst; destruct F. }
  destruct Px as (x & Px & Po). rewrite Px in H.
  cut (k' = SERVERKEYGEN_REQ /\ uid = None /\ p = t_peer t /\ q = path /\
    exists x, csr_of_request O e2 SERVERKEYGEN_REQ body b x /\ o_pubkey O x = true /\ 0 < o_verify O x /\
    (registration_authority O t \/ (c_pop C = true \/ o_challenge O x <> NoAttr -> bound_to_session O t x))).
  { intros (? & ? & ? & ? & x2 & X & ?). repeat split; auto. exists x2. split; [now apply CR|assumption]. }
  destruct Ok3 as [->|[->| ->]];
  (apply mbind_inv in H as [[H ->]|(e3 & [krv ko] & s3 & e4 & H3 & H & ->)];
   [unfold call in H; destruct (g (s_env s1)) as [? [? ?]]; discriminate|];
   assert (e3 = []) by (unfold call in H3; destruct (g (s_env s1)) as [? [? ?]]; now inversion H3); subst e3;
   cbn [Datatypes.app] in F |- *;
   apply mbind_inv in H as [[H ->]|(e5 & u & s5 & e6 & H5 & H & ->)]; [discriminate|];
   assert (e5 = [EvKeygen krv ko]) by (now inversion H5); subst e5;
   cbn [Datatypes.app] in F |- *; destruct F as [F|F]; [discriminate|];
   destruct ko as [pk|]; [|inversion H; subst; destruct F];
   destruct (krv =? err_code EST_ERR_NONE) eqn:Ek; cbn [negb] in H; [|inversion H; subst; destruct F];
   apply Z.eqb_eq in Ek; subst krv;
   apply mbind_inv in H as [[H ->]|(e7 & [n blk] & s7 & e8 & H7 & H & ->)];
   [unfold lift in H; inversion H; subst; destruct F|];
   assert (e7 = []) by (unfold lift in H7; now inversion H7); subst e7;
   cbn [Datatypes.app] in F |- *;
   destruct (o_set_pubkey O x pk) as [r1|] eqn:E1; [|inversion H; subst; destruct F];
   destruct (o_sign O r1 pk) as [r2|] eqn:E2; [|inversion H; subst; destruct F];
   destruct (est_server_check_csr O r2) eqn:Ec; cbn [negb] in H; [|inversion H; subst; destruct F];
   unfold est_server_check_csr in Ec; apply andb_true_iff in Ec as [Ek Es];
   apply mbind_inv in H as [[H ->]|(e9 & e & s9 & e10 & H9 & H & ->)]; [exfalso; eapply checks_no_ca; eauto|];
   apply in_app_or in F as [F|F]; [exfalso; eapply checks_no_ca; eauto|];
   destruct e; try (inversion H; subst; destruct F; fail);
   apply csr_checks_paths in H9;
   assert (Ps : passes O C t r2) by (inversion H9; assumption);
   rewrite mbind_ret in H;
   match type of H with mbind (call ?w) _ _ = _ =>
     apply mbind_inv in H as [[H ->]|(e11 & [[rv5 crt5] kt5] & s11 & e12 & H11 & H & ->)];
     [unfold call in H; destruct (w (s_env s9)) as [? ?]; discriminate|];
     assert (e11 = []) by (unfold call in H11; destruct (w (s_env s9)) as [? ?]; now inversion H11)
   end; subst e11; cbn [Datatypes.app] in F;
   apply mbind_inv in H as [[H ->]|(e13 & u2 & s13 & e14 & H13 & H & ->)]; [discriminate|];
   assert (e13 = [EvCA SERVERKEYGEN_REQ (o_csr_body O r2) None (t_peer t) path rv5 crt5 kt5]) by (now inversion H13); subst e13;
   assert (e14 = []) by (destruct ((rv5 =? err_code EST_ERR_NONE) && (0 <? len crt5)); [now inversion H|];
      destruct (rv5 =? err_code EST_ERR_CA_ENROLL_RETRY); now inversion H); subst e14;
   cbn [Datatypes.app] in F; destruct F as [F|[]]; injection F as <- <- <- <- <- <- <- <-;
   repeat split; auto; exists r2; repeat split; [|assumption|lia|];
   [exists x, r1, pk; repeat split; auto; now left|];
   destruct Ps as [Ps|Ps]; [left|right; now apply uid_auth_bound];
   destruct (t_peer t) as [c0|] eqn:Ep; [eapply cmcRA_iff; eauto|easy]).
Qed.

(** C94 (the CA is asked): over CoAP, without proof of possession or enforcement
    of CSR attributes, an authenticated request (see [C94_accepted]) with a key
    and a good signature reaches the enrollment callback of its kind, which is
    called once; its answer decides the result: 0 with a certificate is
    success, EST_ERR_CA_ENROLL_RETRY asks the client to retry and anything else
    is a failure. *)
Theorem C94_asked : forall t authz ct body path k s l au ro s1 c x f e' rv crt, c_transport C = EST_COAP ->
  est_enroll_auth O C A t authz path k body s = (l, Ok (au, ro, s1)) ->
  au = CERT_AUTH \/ au = HTTP_AUTH \/ au = SRP_AUTH -> t_peer t = Some c ->
  c_enforce C = false -> c_pop C = false ->
  o_parse_csr O body = Some x -> o_pubkey O x = true -> 0 < o_verify O x -> o_challenge O x = NoAttr ->
  (k = SIMPLE_ENROLL_REQ /\ a_enroll A = Some f \/ k = REENROLL_REQ /\ a_reenroll A = Some f) ->
  f (s_env s1) body None (Some c) path = (e', (rv, crt)) ->
  exists s', est_handle_simple_enroll O C A attrs_check t authz ct body path k s =
     (l ++ [EvCA k body None (Some c) path rv crt []],
      Ok (if (rv =? 0) && negb (beq crt []) then (EST_ERR_NONE, crt)
          else if rv =? err_code EST_ERR_CA_ENROLL_RETRY then (EST_ERR_CA_ENROLL_RETRY, [])
          else (EST_ERR_CA_ENROLL_FAIL, []), s'))
  /\ s_env s' = e' /\ no_ca l.
Proof.
  intros t authz ct body path k s l au ro s1 c x f e' rv crt HC A1 Hau P Hf Hp Px Hk Hv Hc Ha Hr.
  assert (L : (0 <? len crt) = negb (beq crt [])).
  { destruct crt; [reflexivity|]. unfold len. cbn [length beq]. cbn. lia. }
  assert (Fr : no_ca l /\ forall y, ro = Some y -> o_parse_csr O body = Some y).
  { destruct (coap_runs _ _ _ _ _ _ _ _ HC A1) as
      [(au' & R & N & D & Lv)|(c' & G & [(Ee & R & Lv)|(Ee & B & h & a & ro' & Eh & [(Nh & R & Lv)|[(-> & An & R & ->)|(-> & ok & s2 & l' & R & -> & Lv)]])])];
      inversion R; subst; (split; [|intros y Qx; first [discriminate Qx | rewrite Qx in Eh; eapply eca_csr; exact Eh]]).
    - repeat intro. destruct (Lv _ H) as (? & ? & ? & Q). discriminate.
    - repeat intro. destruct (Lv _ H) as (? & ? & ? & Q). discriminate.
    - repeat intro. destruct (Lv _ H) as (? & ? & ? & Q). discriminate.
    - repeat intro. destruct H as [Q|Q]; [discriminate|]. destruct (Lv _ Q) as (? & ? & ? & Q'). discriminate. }
  destruct Fr as [Nl Fr].
  assert (Er : (match ro with Some r => Some r | None => o_parse_csr O body end) = Some x).
  { destruct ro as [y|]; [|exact Px]. rewrite <- Px. symmetry. now apply Fr. }
  assert (A2 : csr_checks O C A attrs_check t x body s1 = ([], Ok (EST_ERR_NONE, s1))).
  { unfold csr_checks, est_tls_uid_auth. rewrite P, Hc, Hf, Hp. destruct (est_check_cmcRA O c); reflexivity. }
  exists {| s_env := e'; s_uid := s_uid s1; s_code := s_code s1 |}.
  split; [|split; [reflexivity|exact Nl]].
  unfold est_handle_simple_enroll, is_http, callback_uid. rewrite HC. cbn [andb].
  destruct Ha as [[-> Ha]|[-> Ha]]; rewrite Ha; rewrite (mbind_eq _ _ _ _ _ _ _ _ A1); cbv iota beta;
  (destruct Hau as [->|[->| ->]]; rewrite Er; unfold est_server_check_csr; rewrite Hk;
   replace (0 <? o_verify O x) with true by lia; cbn [andb negb];
   rewrite (mbind_eq _ _ _ _ _ _ _ _ A2); cbv iota beta; rewrite mbind_ret;
   unfold mbind, call, emit, ret; rewrite P, Hr; cbn [Datatypes.app]; rewrite L;
   change (err_code EST_ERR_NONE) with 0;
   destruct ((rv =? 0) && negb (beq crt [])), (rv =? err_code EST_ERR_CA_ENROLL_RETRY); reflexivity).
Qed.
End CoapAuth.

(** ** Cases *)
Definition coap_config (required eca : bool) : @config unit :=
  let c := toy_config AUTH_BASIC required eca false [] in
  {| c_transport := EST_COAP; c_auth_mode := c_auth_mode c; c_realm := c_realm c; c_http_required := required;
     c_eca := eca; c_eca_csr_check := true; c_mfgs := c_mfgs c; c_local_nid := c_local_nid c; c_eca_pwd := c_eca_pwd c;
     c_pop := false; c_enforce := false; c_csrattrs := None; c_cacerts := None; c_retry := 3600; c_brski_retry := 30;
     c_ev_endpoint := true; c_ev_req := true; c_ev_rsp := true; c_ev_auth := true |}.
Definition coap_enroll (C : @config unit) (A : @app unit unit unit) t body :=
  est_handle_simple_enroll (toy_ossl NoAttr) C A (fun _ _ => Ok EST_ERR_NONE) t None [] body None SIMPLE_ENROLL_REQ toy_st.
Definition calls_ca (x : list (@event unit unit) * res (est_error * bytes * @st unit)) : bool :=
  existsb (fun e => match e with EvCA _ _ _ _ _ _ _ _ => true | _ => false end) (fst x).
(** Without an authentication callback. *)
Definition toy_noauth : @app unit unit unit :=
  let a := toy_app never in
  {| a_http_auth := None; a_enroll := a_enroll a; a_reenroll := a_reenroll a; a_skg := a_skg a; a_keygen := a_keygen a;
     a_cacerts := None; a_csrattrs := None; a_voucher := a_voucher a; a_voucher_status := a_voucher_status a;
     a_enroll_status := a_enroll_status a; a_write := a_write a; a_time := a_time a |}.

(** A peer with a certificate enrolls, with and without enhanced certificate
    authentication; one without, or with one that does not verify, does not. *)
Example C94_case :
  map calls_ca [coap_enroll (coap_config true false) (toy_app never) (toy_tls true 0) (str "CSR");
                coap_enroll (coap_config true true) (toy_app never) (toy_tls true 0) (str "CSR");
                coap_enroll (coap_config true false) (toy_app never) (toy_tls false 0) (str "CSR");
                coap_enroll (coap_config true false) (toy_app never) (toy_tls true 10) (str "CSR")]
  = [true; true; false; false].
Proof. vm_compute. reflexivity. Qed.

(** So does key generation, which the application sees first. *)
Example C94_case_keygen :
  map (fun t => existsb (fun e => match e with EvKeygen _ _ => true | _ => false end)
         (fst (est_handle_server_keygen (toy_ossl NoAttr) (coap_config true true) (toy_app never) (fun _ _ => Ok EST_ERR_NONE) t None []
                 (str "CSR") None toy_st)))
    [toy_tls true 0; toy_tls true 3; toy_tls false 0; toy_tls true 10] = [true; true; false; false].
Proof. vm_compute. reflexivity. Qed.

(** C94, refuted as "enhanced certificate authentication, once enabled, is
    applied to every enrollment": with no authentication callback registered,
    an enrollment over HTTP by a peer with a certificate reaches the CA
    unasked, and one over CoAP calls a null pointer. *)
Theorem C94_eca_refuted :
  (exists C : @config unit, c_transport C = EST_HTTP /\ c_eca C = true /\ c_http_required C = true /\
     calls_ca (est_handle_simple_enroll (toy_ossl NoAttr) C toy_noauth (fun _ _ => Ok EST_ERR_NONE) (toy_tls true 0) None
                 (str "application/pkcs10") (str "CSR") None SIMPLE_ENROLL_REQ toy_st) = true) /\
  (exists C : @config unit, c_transport C = EST_COAP /\ c_eca C = true /\
     snd (coap_enroll C toy_noauth (toy_tls true 0) (str "CSR")) = UB).
Proof.
  split.
  - exists (toy_config AUTH_BASIC true true false []). repeat split.
  - exists (coap_config true true). repeat split.
Qed.

Print Assumptions C94_accepted.
Print Assumptions C94_defined.
Print Assumptions C94_enroll.
Print Assumptions C94_keygen.
Print Assumptions C94_keygen_ca.
Print Assumptions C94_asked.
Print Assumptions C94_case.
Print Assumptions C94_eca_refuted.
