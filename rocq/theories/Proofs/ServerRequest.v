(** Every path through the processing of one request. *)
From Coq Require Import String ZArith List Bool Lia ZifyBool ZifyNat.
From Verif Require Import Base Spec.Http Spec.Server Model.CLib Model.Codec Model.EstErr Model.HttpServer Model.Uri
  Model.AuthHdr Model.Server Proofs.AuthHdr Proofs.ServerAuth Proofs.ServerEnroll.
Import ListNotations.
Open Scope Z_scope.

Section P.
Context {cert csr key E : Type}.
Variable O : @ossl cert csr key.
Variable C : @config cert.
Variable A : @app cert key E.
Variable parse_uri : bytes -> res (est_error * option operation * option bytes).
Variable attrs_parse : bytes -> res (est_error * bool).
Variable attrs_add_pop : bytes -> res (est_error * bytes).
Variable attrs_check : option (option bytes) -> bytes -> res est_error.
Variable keep : Z -> bool.

Notation event := (@event cert key).
Notation st := (@st E).

Definition method_fits (o : operation) (method : bytes) : bool :=
  match o with
  | OP_CACERTS => strncmp_eq 3 method (str "GET")
  | OP_CSRATTRS => strncmp_eq 4 method (str "GET")
  | _ => strncmp_eq 4 method (str "POST")
  end.
Definition opt_ev (b : bool) (x : event) : list event := if b then [x] else [].

Definition run_op (t : @tls cert) (authz : option bytes) (c body : bytes) (path : option bytes) (o : operation)
  : @M cert key E est_error :=
  match o with
  | OP_CACERTS => est_server_handle_cacerts C A path
  | OP_CSRATTRS => est_handle_csr_attrs C A attrs_parse attrs_add_pop keep t path
  | OP_SIMPLE_ENROLL | OP_SIMPLE_REENROLL | OP_SERVER_KEYGEN => run_enroll O C A attrs_check t authz c body path (kind_of o)
  | OP_BRSKI_REQ_VOUCHER => brski_voucher_req O C A t authz c body path
  | OP_BRSKI_VOUCHER_STATUS => brski_status O C A o (a_voucher_status A) t authz c body path
  | OP_BRSKI_ENROLL_STATUS => brski_status O C A o (a_enroll_status A) t authz c body path
  end.

Definition is_done (o : operation) (rc : est_error) : bool :=
  match rc with EST_ERR_NONE => true | EST_ERR_AUTH_PENDING => posts o | _ => false end.
(** The error a failed handler is reported as. *)
Definition reported (o : operation) (rc : est_error) : est_error :=
  if posts o && negb (enrolls o) then match rc with EST_ERR_AUTH_FAIL => rc | _ => EST_ERR_BAD_PKCS10 end else rc.

Definition start_ev uri := opt_ev (c_ev_endpoint C) (EvReqStart uri).
Definition end_ev uri := opt_ev (c_ev_endpoint C) (EvReqEnd uri).
Definition req_ev o body := opt_ev (enrolls o && c_ev_req C && is_some (o_parse_csr O body)) (EvEnrollReq (kind_of o) body).
Definition rsp_ev o body rc := opt_ev (enrolls o && c_ev_rsp C && is_some (o_parse_csr O body)) (EvEnrollRsp (kind_of o) body rc).

Definition refusal (method uri : bytes) (ct : option bytes) (err : est_error) : Prop :=
  (err <> EST_ERR_NONE /\ exists o p, parse_uri uri = Ok (err, o, p))
  \/ (err = EST_ERR_WRONG_METHOD /\ exists o p, parse_uri uri = Ok (EST_ERR_NONE, Some o, p) /\ method_fits o method = false)
  \/ (err = EST_ERR_BAD_CONTENT_TYPE /\ ct = None /\ exists o p, parse_uri uri = Ok (EST_ERR_NONE, Some o, p)
      /\ method_fits o method = true /\ posts o = true).

Inductive request_path (t : @tls cert) (method uri body : bytes) (ct authz : option bytes) (s : st)
  : list event -> res (est_error * st) -> Prop :=
| rq_uri_ub : parse_uri uri = UB -> request_path t method uri body ct authz s (start_ev uri) UB
| rq_refused : forall err w s', refusal method uri ct err ->
    est_send_http_error A keep (c_retry C) err s = (w, Ok (tt, s')) ->
    request_path t method uri body ct authz s (start_ev uri ++ w) (Ok (err, s'))
| rq_unknown : forall p w s', parse_uri uri = Ok (EST_ERR_NONE, None, p) ->
    est_send_http_error A keep (c_retry C) EST_ERR_UNKNOWN s = (w, Ok (tt, s')) ->
    request_path t method uri body ct authz s (start_ev uri ++ w ++ end_ev uri) (Ok (EST_ERR_NONE, s'))
| rq_ub : forall o path c e, parse_uri uri = Ok (EST_ERR_NONE, Some o, path) -> method_fits o method = true ->
    (posts o = true -> ct = Some c) -> run_op t authz c body path o s = (e, UB) ->
    request_path t method uri body ct authz s (start_ev uri ++ req_ev o body ++ e) UB
| rq_done : forall o path c e rc s', parse_uri uri = Ok (EST_ERR_NONE, Some o, path) -> method_fits o method = true ->
    (posts o = true -> ct = Some c) -> run_op t authz c body path o s = (e, Ok (rc, s')) -> is_done o rc = true ->
    request_path t method uri body ct authz s (start_ev uri ++ req_ev o body ++ e ++ rsp_ev o body rc ++ end_ev uri)
      (Ok (EST_ERR_NONE, s'))
| rq_failed : forall o path c e rc s1 w s', parse_uri uri = Ok (EST_ERR_NONE, Some o, path) -> method_fits o method = true ->
    (posts o = true -> ct = Some c) -> run_op t authz c body path o s = (e, Ok (rc, s1)) -> is_done o rc = false ->
    est_send_http_error A keep (c_retry C) (reported o rc) s1 = (w, Ok (tt, s')) ->
    request_path t method uri body ct authz s (start_ev uri ++ req_ev o body ++ e ++ rsp_ev o body rc ++ w)
      (Ok (rc, s')).

Lemma emit_if_run : forall X b x (m : @M cert key E X) s,
  mbind (emit_if b x) (fun _ => m) s = let '(e, r) := m s in (opt_ev b x ++ e, r).
Proof. intros. unfold emit_if, mbind, emit, ret, opt_ev. destruct b; reflexivity. Qed.

Lemma error_run : forall X err (m : @M cert key E X) s, exists w s1,
  est_send_http_error A keep (c_retry C) err s = (w, Ok (tt, s1))
  /\ mbind (est_send_http_error A keep (c_retry C) err) (fun _ => m) s = let '(e, r) := m s1 in (w ++ e, r).
Proof.
  intros. destruct (est_send_http_error A keep (c_retry C) err s) as [w r] eqn:Ew.
  destruct (writes_error A keep (c_retry C) err s w r Ew) as [_ ([] & s1 & -> & _)].
  exists w, s1. split; auto. now rewrite (mbind_eq _ _ _ _ _ _ _ _ Ew).
Qed.

Notation request := (est_http_request O C A parse_uri attrs_parse attrs_add_pop attrs_check keep).

Theorem request_paths : forall t method uri body ct authz s e r,
  request t method uri body ct authz s = (e, r) -> request_path t method uri body ct authz s e r.
Proof.
  intros t method uri body ct authz s e r H. unfold est_http_request in H.
  rewrite emit_if_run in H.
  match type of H with (let '(e, r) := ?m s in _) = _ => destruct (m s) as [e1 r1] eqn:H1 end.
  apply pair_equal_spec in H as [<- <-]. rename r1 into r. rename H1 into H.
  change (opt_ev (c_ev_endpoint C) (EvReqStart uri)) with (start_ev uri).
  apply mbind_inv in H as [[H ->]|(e0 & [[pe op] path] & s1 & e2 & Hp & H & ->)].
  { unfold lift in H. destruct (parse_uri uri) eqn:Eu; [discriminate|]. inversion H; subst.
    rewrite app_nil_r. now apply rq_uri_ub. }
  unfold lift in Hp. destruct (parse_uri uri) as [x|] eqn:Eu; [|discriminate]. cbn [bind] in Hp.
  assert (e0 = [] /\ x = (pe, op, path) /\ s1 = s) as (-> & -> & ->) by (inversion Hp; auto). clear Hp. cbn [Datatypes.app].
  assert (REF : forall err, refusal method uri ct err ->
    mbind (est_send_http_error A keep (c_retry C) err) (fun _ => ret err) s = (e2, r) ->
    request_path t method uri body ct authz s (start_ev uri ++ e2) r).
  { intros err Hr Hx. destruct (error_run _ err (ret err) s) as (w & s1 & W & Q). rewrite Q in Hx. cbn in Hx.
    rewrite app_nil_r in Hx. inversion Hx; subst. now apply rq_refused. }
  assert (FAIL : forall (o : operation) (c : bytes) e rc s1 e3,
    parse_uri uri = Ok (EST_ERR_NONE, Some o, path) -> method_fits o method = true ->
    (posts o = true -> ct = Some c) -> run_op t authz c body path o s = (e, Ok (rc, s1)) -> is_done o rc = false ->
    mbind (est_send_http_error A keep (c_retry C) (reported o rc)) (fun _ => ret rc) s1 = (e3, r) ->
    e2 = req_ev o body ++ e ++ rsp_ev o body rc ++ e3 ->
    request_path t method uri body ct authz s (start_ev uri ++ e2) r).
  { intros o c e rc s1 e3 P1 P2 P3 P4 P5 P6 ->.
    destruct (error_run _ (reported o rc) (ret rc) s1) as (w & s2 & W & Q). rewrite Q in P6. cbn in P6.
    rewrite app_nil_r in P6. inversion P6; subst. eapply rq_failed; eauto. }
  assert (FIN : forall (o : operation) (c : bytes) e rc s1 e3,
    parse_uri uri = Ok (EST_ERR_NONE, Some o, path) -> method_fits o method = true ->
    (posts o = true -> ct = Some c) -> run_op t authz c body path o s = (e, Ok (rc, s1)) -> is_done o rc = true ->
    mbind (emit_if (c_ev_endpoint C) (EvReqEnd uri)) (fun _ => ret EST_ERR_NONE) s1 = (e3, r) ->
    e2 = req_ev o body ++ e ++ rsp_ev o body rc ++ e3 ->
    request_path t method uri body ct authz s (start_ev uri ++ e2) r).
  { intros o c e rc s1 e3 P1 P2 P3 P4 P5 P6 ->. rewrite emit_if_run in P6. cbn in P6. rewrite app_nil_r in P6.
    inversion P6; subst. eapply rq_done; eauto. }
  destruct (err_none_dec pe) as [->|[N _]].
  2:{ apply (REF pe); [left; eauto|]. rewrite <- H. destruct pe; try contradiction; reflexivity. }
  destruct op as [o|].
  2:{ match type of H with mbind _ (fun _ => ?m) _ = _ =>
        destruct (error_run _ EST_ERR_UNKNOWN m s) as (w & s1 & W & Q); rewrite Q, emit_if_run in H end.
      cbn in H. rewrite app_nil_r in H. inversion H; subst. eapply rq_unknown; eauto. }
  assert (GETOP : posts o = false ->
     (if negb (method_fits o method) then mbind (est_send_http_error A keep (c_retry C) EST_ERR_WRONG_METHOD) (fun _ => ret EST_ERR_WRONG_METHOD)
      else mbind (run_op t authz [] body path o) (fun rc =>
           match rc with
           | EST_ERR_NONE => mbind (emit_if (c_ev_endpoint C) (EvReqEnd uri)) (fun _ => ret EST_ERR_NONE)
           | _ => mbind (est_send_http_error A keep (c_retry C) rc) (fun _ => ret rc) end)) s = (e2, r) ->
     request_path t method uri body ct authz s (start_ev uri ++ e2) r).
  { intros P Hx. destruct (method_fits o method) eqn:Em; cbn [negb] in Hx.
    2:{ apply (REF EST_ERR_WRONG_METHOD); auto. right; left. eauto. }
    assert (NE : enrolls o = false) by (destruct o; auto; discriminate).
    assert (RE : req_ev o body = []) by (unfold req_ev, opt_ev; now rewrite NE).
    assert (RS : forall rc, rsp_ev o body rc = []) by (intro; unfold rsp_ev, opt_ev; now rewrite NE).
    apply mbind_inv in Hx as [[Hx ->]|(e3 & rc & s1 & e4 & H1 & Hx & ->)].
    - replace e2 with (req_ev o body ++ e2) by now rewrite RE. eapply rq_ub; eauto. congruence.
    - destruct (err_none_dec rc) as [->|[N _]].
      + eapply FIN with (o := o) (c := []); eauto; [congruence|now rewrite RE, RS].
      + eapply FAIL with (o := o) (c := []); eauto; [congruence|..].
        * unfold is_done. rewrite P. destruct rc; auto; contradiction.
        * rewrite <- Hx. unfold reported. rewrite P. cbn. destruct rc; try contradiction; reflexivity.
        * now rewrite RE, RS. }
  destruct (posts o) eqn:P.
  2:{ apply GETOP; auto. destruct o; try discriminate; exact H. }
  clear GETOP.
  destruct (method_fits o method) eqn:Em.
  2:{ apply (REF EST_ERR_WRONG_METHOD); [right; left; eauto|].
      rewrite <- H. unfold method_fits in Em. destruct o; try discriminate; rewrite Em; reflexivity. }
  destruct ct as [c|].
  2:{ apply (REF EST_ERR_BAD_CONTENT_TYPE); [right; right; eauto 10|].
      rewrite <- H. unfold method_fits in Em. destruct o; try discriminate; rewrite Em; reflexivity. }
  destruct (enrolls o) eqn:En.
  - assert (H' : mbind (enroll_req_event O C (kind_of o) body) (fun _ =>
                 mbind (run_op t authz c body path o) (fun rc =>
                 mbind (enroll_rsp_event O C (kind_of o) body rc) (fun _ =>
                 match rc with
                 | EST_ERR_NONE | EST_ERR_AUTH_PENDING => mbind (emit_if (c_ev_endpoint C) (EvReqEnd uri)) (fun _ => ret EST_ERR_NONE)
                 | _ => mbind (est_send_http_error A keep (c_retry C) rc) (fun _ => ret rc) end))) s = (e2, r)).
    { rewrite <- H. unfold method_fits in Em. destruct o; try discriminate; rewrite Em; reflexivity. }
    clear H. unfold enroll_req_event in H'. rewrite emit_if_run in H'.
    match type of H' with (let '(e, r) := ?m s in _) = _ => destruct (m s) as [e3 r1] eqn:H end.
    apply pair_equal_spec in H' as [<- <-]. rename r1 into r.
    assert (RE : opt_ev (c_ev_req C && is_some (o_parse_csr O body)) (EvEnrollReq (kind_of o) body) = req_ev o body)
      by (unfold req_ev; now rewrite En).
    rewrite RE in *.
    apply mbind_inv in H as [[H ->]|(e4 & rc & s1 & e5 & H1 & H & ->)].
    { eapply rq_ub; eauto. }
    unfold enroll_rsp_event in H. rewrite emit_if_run in H.
    match type of H with (let '(e, r) := ?m s1 in _) = _ => destruct (m s1) as [e6 r1] eqn:H2 end.
    apply pair_equal_spec in H as [<- <-]. rename r1 into r.
    assert (RS : opt_ev (c_ev_rsp C && is_some (o_parse_csr O body)) (EvEnrollRsp (kind_of o) body rc) = rsp_ev o body rc)
      by (unfold rsp_ev; now rewrite En).
    rewrite RS in *.
    destruct (is_done o rc) eqn:Ed.
    + eapply FIN with (o := o) (c := c); eauto. rewrite <- H2. unfold is_done in Ed.
      destruct rc; reflexivity || discriminate.
    + eapply FAIL with (o := o) (c := c); eauto. rewrite <- H2. unfold reported. rewrite P, En. cbn [andb negb].
      unfold is_done in Ed. destruct rc; try reflexivity; try discriminate; congruence.
  - assert (H' : mbind (run_op t authz c body path o) (fun rc =>
                 match rc with
                 | EST_ERR_NONE | EST_ERR_AUTH_PENDING => mbind (emit_if (c_ev_endpoint C) (EvReqEnd uri)) (fun _ => ret EST_ERR_NONE)
                 | EST_ERR_AUTH_FAIL => mbind (est_send_http_error A keep (c_retry C) EST_ERR_AUTH_FAIL) (fun _ => ret rc)
                 | _ => mbind (est_send_http_error A keep (c_retry C) EST_ERR_BAD_PKCS10) (fun _ => ret rc) end) s = (e2, r)).
    { rewrite <- H. unfold method_fits in Em. destruct o; try discriminate; rewrite Em; reflexivity. }
    clear H. rename H' into H.
    assert (RE : req_ev o body = []) by (unfold req_ev, opt_ev; now rewrite En).
    assert (RS : forall rc, rsp_ev o body rc = []) by (intro; unfold rsp_ev, opt_ev; now rewrite En).
    apply mbind_inv in H as [[H ->]|(e4 & rc & s1 & e5 & H1 & H & ->)].
    { replace e2 with (req_ev o body ++ e2) by now rewrite RE. eapply rq_ub; eauto. }
    destruct (is_done o rc) eqn:Ed.
    + eapply FIN with (o := o) (c := c); eauto; [|now rewrite RE, RS]. rewrite <- H. unfold is_done in Ed.
      destruct rc; reflexivity || discriminate.
    + eapply FAIL with (o := o) (c := c); eauto; [|now rewrite RE, RS]. rewrite <- H. unfold reported. rewrite P, En. cbn [andb negb].
      unfold is_done in Ed. destruct rc; try reflexivity; try discriminate; congruence.
Qed.
End P.
