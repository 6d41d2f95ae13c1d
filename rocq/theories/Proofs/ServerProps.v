(** Consequences of the path descriptions. *)
From Coq Require Import String ZArith List Bool Lia ZifyBool ZifyNat.
From Verif Require Import Base Spec.Http Spec.Server Model.CLib Model.Codec Model.EstErr Model.HttpServer Model.Uri
  Model.AuthHdr Model.Server Proofs.EstErr Proofs.AuthHdr Proofs.ServerAuth Proofs.ServerEnroll Proofs.ServerRequest.
Import ListNotations.
Open Scope Z_scope.

(** ** Lists *)
Lemma split_after : forall X (P : X -> Prop) e1 e2 pre x post,
  Forall (fun y => ~ P y) e1 -> e1 ++ e2 = pre ++ x :: post -> P x -> exists q, pre = e1 ++ q /\ e2 = q ++ x :: post.
Proof.
  induction e1 as [|y e1 IH]; intros e2 pre x post F Eq Px.
  - exists pre. auto.
  - destruct pre as [|z pre]; inversion Eq; subst.
    + inversion F; subst. contradiction.
    + inversion F; subst. destruct (IH e2 pre x post) as (q & -> & ->); auto. now exists q.
Qed.
Lemma split_unique : forall X (P : X -> Prop) e1 y e2 pre x post,
  Forall (fun z => ~ P z) e1 -> Forall (fun z => ~ P z) e2 -> e1 ++ y :: e2 = pre ++ x :: post -> P x ->
  pre = e1 /\ x = y /\ post = e2.
Proof.
  intros X P e1 y e2 pre x post F1 F2 Eq Px.
  destruct (split_after _ P _ _ _ _ _ F1 Eq Px) as (q & -> & Q).
  destruct q as [|z q]; inversion Q; subst.
  - rewrite app_nil_r. auto.
  - exfalso. apply (Forall_forall (fun z => ~ P z) (q ++ x :: post)) with (x := x) in F2; auto.
    apply in_or_app. right. now left.
Qed.
Lemma split_none : forall X (P : X -> Prop) e pre x post,
  Forall (fun z => ~ P z) e -> e = pre ++ x :: post -> P x -> False.
Proof.
  intros X P e pre x post F -> Px. rewrite Forall_forall in F. apply (F x); auto. apply in_or_app. right. now left.
Qed.

Section P.
Context {cert csr key E : Type}.
Variable O : @ossl cert csr key.
Variable C : @config cert.
Variable A : @app cert key E.
Variable parse_uri : bytes -> res (est_error * option operation * option bytes).
Variable attrs_parse : bytes -> res (est_error * bool).
Variable attrs_add_pop : bytes -> res (est_error * bytes).
Variable attrs_check : option (option bytes) -> bytes -> res est_error.
Variable keep : Z -> bool.

Notation event := (@event cert key).
Notation st := (@st E).
Notation request := (est_http_request O C A parse_uri attrs_parse attrs_add_pop attrs_check keep).

Implicit Types (t : @tls cert) (e : list event) (s : st).

(** ** Authentication *)
Definition auth_ev (t : @tls cert) (path : option bytes) (x : event) : Prop :=
  is_write x \/ (exists a ok, x = EvHttpAuth a (t_peer t) path ok) \/ (exists k v rv, x = EvAuthResult k v rv).
Definition authed (t : @tls cert) (path : option bytes) (e : list event) : Prop :=
  cert_verified t \/ srp_session t \/ exists a, In (EvHttpAuth a (t_peer t) path true) e.

Lemma res_ev_auth : forall t path k pr rv, Forall (auth_ev t path) (@res_ev cert key C k pr rv).
Proof. intros. unfold res_ev. destruct (c_ev_auth C); constructor; [|constructor]. right; right. eauto. Qed.

Lemma auth_events : forall t authz path k body s e r, auth_path O C A t authz path k body s e r -> Forall (auth_ev t path) e.
Proof.
  intros * H. inversion H; subst; try apply res_ev_auth; try (constructor; fail).
  - constructor; [right; left; eauto|apply res_ev_auth].
  - constructor; [right; left; eauto|apply res_ev_auth].
  - match goal with W : mg_send_authorization_request _ _ _ = _ |- _ => destruct (writes_challenge C A _ _ _ W) as [F _] end.
    apply Forall_app. split; [|apply res_ev_auth].
    eapply Forall_impl; [|exact F]. intros x Hx. now left.
Qed.

Lemma not_rejected_iff : forall t : @tls cert, not_rejected t <-> ~ cert_rejected t.
Proof.
  intro t. unfold not_rejected, cert_rejected. split.
  - intros H (c & E1 & N0 & N3). destruct H; congruence.
  - intros H N. destruct (t_peer t) as [c|]; [|contradiction].
    destruct (Z.eq_dec (t_verify t) 0); auto. destruct (Z.eq_dec (t_verify t) 3); auto. exfalso. apply H. eauto.
Qed.

Lemma verified_of : forall t c, not_rejected t -> t_peer t = Some c -> cert_verified t.
Proof. intros t c N H. exists c. split; auto. apply N. congruence. Qed.

Lemma tls_state_ok : forall t path e, not_rejected t -> granted (tls_state t) -> authed t path e.
Proof.
  intros t path e N G. unfold tls_state in G. destruct (t_peer t) as [c|] eqn:Ep.
  - left. eapply verified_of; eauto.
  - destruct (t_srp t) as [b|] eqn:Es; cbn in G.
    + right; left. split; auto. congruence.
    + destruct G as [G|[G|G]]; discriminate.
Qed.

Lemma auth_granted : forall t authz path k body s e au ro s',
  auth_path O C A t authz path k body s e (Ok (au, ro, s')) -> granted au -> authed t path e /\ ~ cert_rejected t.
Proof.
  intros * H G. rewrite <- not_rejected_iff. inversion H; subst; split; auto.
  all: try (now destruct G as [G|[G|G]]; discriminate).
  - now apply tls_state_ok.
  - destruct ok; [|now destruct G as [G|[G|G]]; discriminate]. right; right. exists a. now left.
  - left. eapply verified_of; eauto.
  - destruct ok; [|now destruct G as [G|[G|G]]; discriminate]. right; right. exists a. now left.
  - unfold refused_state in G. destruct pr; try (now destruct G as [G|[G|G]]; discriminate).
    destruct (kind_nonzero k && auth_state_eqb (tls_state t) CERT_AUTH); [|now destruct G as [G|[G|G]]; discriminate].
    now apply tls_state_ok.
  - destruct (t_peer t) as [c|] eqn:Ep; [|congruence]. left. eapply verified_of; eauto.
  - match goal with Q : _ \/ _ |- _ => destruct Q as [[_ ->]|(_ & _ & ->)] end; now destruct G as [G|[G|G]]; discriminate.
Qed.

(** BRSKI *)
Lemma brski_auth_facts : forall t authz path s e r, est_brski_auth O C A t authz path s = (e, r) ->
  Forall (auth_ev t path) e
  /\ forall au s', r = Ok (au, s') -> granted au -> authed t path e /\ ~ cert_rejected t.
Proof.
  intros t authz path s e r H. pose proof (proj1 (not_rejected_iff t)) as NRI. unfold est_brski_auth in H.
  destruct (check_tls t) as [[cont peer] rv0] eqn:Ht. unfold check_tls in Ht.
  assert (HP : (cont = false /\ rv0 = UNAUTHORIZED /\ ~ not_rejected t)
             \/ (cont = true /\ not_rejected t /\ peer = t_peer t
                 /\ (if negb (auth_state_eqb rv0 CERT_AUTH) && is_some (t_srp t) then SRP_AUTH else rv0) = tls_state t)).
  { unfold not_rejected, tls_state. destruct (t_peer t) as [c|] eqn:Ep.
    - destruct (t_verify t =? 0) eqn:E0; [|destruct (t_verify t =? 3) eqn:E3];
      cbn [orb] in Ht; inversion Ht; subst.
      + right. repeat split; auto. intros _. lia.
      + right. repeat split; auto. intros _. lia.
      + left. repeat split. intro F. assert (Q : Some c <> None) by discriminate. specialize (F Q). lia.
    - inversion Ht; subst. right. repeat split. intro F; congruence. }
  assert (FIN : forall k pr rv s0 e0 r0, mbind (auth_result_event C k pr rv) (fun _ => ret rv) s0 = (e0, r0) ->
     Forall (auth_ev t path) e0 /\ r0 = Ok (rv, s0)).
  { intros * Q. rewrite run_result_event in Q. inversion Q; subst. split; [apply res_ev_auth|reflexivity]. }
  destruct HP as [(-> & -> & NR)|(-> & NR & -> & Erv)]; cbn [negb] in H.
  { apply FIN in H as [F ->]. split; auto. intros au s' Q G. inversion Q; subst. now destruct G as [G|[G|G]]; discriminate. }
  rewrite Erv in H. clear Erv Ht.
  destruct (is_some (a_http_auth A) && _).
  2:{ apply FIN in H as [F ->]. split; auto. intros au s' Q G. inversion Q; subst. split; auto. now apply tls_state_ok. }
  apply mbind_inv in H as [[H ->]|(e1 & [pr a] & s1 & e2 & H1 & H & ->)].
  { assert (e = []) as ->; [|split; [constructor|discriminate]].
    destruct (t_peer t), (c_eca C && auth_state_eqb (tls_state t) CERT_AUTH); try (inversion H; auto; fail);
      unfold parse_auth, mbind, get_uid, lift, set_uid, ret in H;
      destruct (mg_parse_auth_header _ _ _ _ _) as [[[? ?] ?]|]; cbn in H; inversion H; auto. }
  assert (e1 = []) as ->.
  { destruct (t_peer t), (c_eca C && auth_state_eqb (tls_state t) CERT_AUTH); try (inversion H1; auto; fail);
      unfold parse_auth, mbind, get_uid, lift, set_uid, ret in H1;
      destruct (mg_parse_auth_header _ _ _ _ _) as [[[? ?] ?]|]; cbn in H1; inversion H1; auto. }
  clear H1. cbn [Datatypes.app].
  apply mbind_inv in H as [[H ->]|(e3 & rv & s2 & e4 & H2 & H & ->)].
  { destruct pr; try discriminate H.
    - apply mbind_inv in H as [[H _]|(e5 & ok & s3 & e6 & _ & H & ->)]; [|discriminate].
      unfold http_auth_cb in H. destruct (a_http_auth A) as [f|].
      + unfold mbind, call, emit, ret in H. destruct (f _ _ _ _); discriminate.
      + inversion H; subst. split; [constructor|discriminate].
    - apply mbind_inv in H as [[H _]|(e5 & ok & s3 & e6 & _ & H & ->)]; [|discriminate].
      destruct (writes_challenge C A _ _ _ H) as [_ (? & ? & ? & _)]. discriminate. }
  apply FIN in H as [F4 ->].
  assert (Q : Forall (auth_ev t path) e3 /\ (granted rv -> authed t path e3)).
  { destruct pr; try (inversion H2; subst; split; [constructor|intro G; now destruct G as [G|[G|G]]; discriminate]).
    - apply mbind_inv in H2 as [[_ H2]|(e5 & ok & s3 & e6 & H3 & H2 & ->)]; [discriminate|]. inversion H2; subst.
      unfold http_auth_cb in H3. destruct (a_http_auth A) as [f|]; [|discriminate].
      unfold mbind, call, emit, ret in H3. destruct (f _ _ _ _) as [env ok']. inversion H3; subst. cbn [Datatypes.app].
      split; [constructor; [right; left; eauto|constructor]|].
      intro G. destruct ok; [|now destruct G as [G|[G|G]]; discriminate]. right; right. exists a. now left.
    - apply mbind_inv in H2 as [[_ H2]|(e5 & ok & s3 & e6 & H3 & H2 & ->)]; [discriminate|]. inversion H2; subst.
      destruct (writes_challenge C A _ _ _ H3) as [F _]. rewrite app_nil_r. split.
      + eapply Forall_impl; [|exact F]. intros x Hx. now left.
      + intro G. now destruct G as [G|[G|G]]; discriminate. }
  destruct Q as [F3 G3]. split; [now apply Forall_app|].
  intros au s' Q G. inversion Q; subst. split; auto.
  destruct (G3 G) as [?|[?|(a' & ?)]]; [now left|right; now left|right; right; exists a'; apply in_or_app; now left].
Qed.

(** ** Kinds of events *)
Lemma auth_ev_nonpriv : forall t path x, auth_ev t path x -> ~ privileged x.
Proof.
  intros t path x H P. destruct H as [(? & ? & ->)|[(? & ? & ->)|(? & ? & ? & ->)]];
    destruct P as [(? & ? & ? & ? & ? & ? & ? & ? & Q)|[(? & ? & Q)|(? & ? & ? & ? & ? & Q)]]; discriminate.
Qed.
Lemma write_nonpriv : forall (x : event), is_write x -> ~ privileged x.
Proof.
  intros x (? & ? & ->) P.
    destruct P as [(? & ? & ? & ? & ? & ? & ? & ? & Q)|[(? & ? & Q)|(? & ? & ? & ? & ? & Q)]]; discriminate.
Qed.
Lemma ca_priv : forall (x : event), is_ca x -> privileged x.
Proof. intros x H. left. exact H. Qed.
Lemma writes_nonpriv : forall (e : list event), Forall is_write e -> Forall (fun x => ~ privileged x) e.
Proof. intros e F. eapply Forall_impl; [|exact F]. intros x. apply write_nonpriv. Qed.
Lemma auths_nonpriv : forall t path e, Forall (auth_ev t path) e -> Forall (fun x => ~ privileged x) e.
Proof. intros t path e F. eapply Forall_impl; [|exact F]. intros x. apply auth_ev_nonpriv. Qed.
Lemma nonpriv_nonca : forall (e : list event), Forall (fun x => ~ privileged x) e -> Forall (fun x => ~ is_ca x) e.
Proof. intros e F. eapply Forall_impl; [|exact F]. intros x H1 H2. apply H1. now apply ca_priv. Qed.

Ltac nonpriv := let Q := fresh in intros [(? & ? & ? & ? & ? & ? & ? & ? & Q)|[(? & ? & Q)|(? & ? & ? & ? & ? & Q)]]; discriminate Q.
Ltac nonca := let Q := fresh in intros (? & ? & ? & ? & ? & ? & ? & ? & Q); discriminate Q.

Lemma start_nonpriv : forall uri, Forall (fun x => ~ privileged x) (@start_ev cert key C uri).
Proof. intro. unfold start_ev, opt_ev. destruct (c_ev_endpoint C); repeat constructor. nonpriv. Qed.
Lemma end_nonpriv : forall uri, Forall (fun x => ~ privileged x) (@end_ev cert key C uri).
Proof. intro. unfold end_ev, opt_ev. destruct (c_ev_endpoint C); repeat constructor. nonpriv. Qed.
Lemma req_nonpriv : forall o body, Forall (fun x => ~ privileged x) (req_ev O C o body).
Proof. intros. unfold req_ev, opt_ev. destruct (_ && _); repeat constructor. nonpriv. Qed.
Lemma rsp_nonpriv : forall o body rc, Forall (fun x => ~ privileged x) (rsp_ev O C o body rc).
Proof. intros. unfold rsp_ev, opt_ev. destruct (_ && _); repeat constructor. nonpriv. Qed.
Lemma error_nonpriv : forall d err s w r, est_send_http_error A keep d err s = (w, r) -> Forall (fun x => ~ privileged x) w.
Proof. intros * H. apply writes_nonpriv. now destruct (writes_error A keep _ _ _ _ _ H). Qed.
Lemma present_nonpriv : forall ec b, attrs_present C A attrs_check ec b -> Forall (fun x => ~ privileged x) ec.
Proof.
  intros ec b [(_ & ->)|[(_ & _ & _ & ->)|[(_ & _ & _ & ->)|(_ & d & -> & _)]]]; repeat constructor. nonpriv.
Qed.
Lemma absent_nonpriv : forall ec b, attrs_absent C A attrs_check ec b -> Forall (fun x => ~ privileged x) ec.
Proof. intros ec b (_ & [(_ & _ & ->)|[(er & _ & _ & _ & ->)|(d & er & -> & _)]]); repeat constructor. nonpriv. Qed.
Lemma crash_nonpriv : forall (ec : list event) b, attrs_crash C A attrs_check ec b -> Forall (fun x => ~ privileged x) ec.
Proof. intros ec b (_ & [(_ & _ & ->)|[(d & _ & _ & ->)|(d & -> & _)]]); repeat constructor. nonpriv. Qed.
Lemma checks_nonpriv : forall t r b s ec res, checks_path O C A attrs_check t r b s ec res -> Forall (fun x => ~ privileged x) ec.
Proof. intros * H. inversion H; subst; try constructor; eauto using present_nonpriv, absent_nonpriv, crash_nonpriv. Qed.

Lemma outcome_writes : forall k rv crt kt s w err s', outcome C A k rv crt kt s w err s' -> Forall is_write w /\ s_uid s' = s_uid s.
Proof.
  intros * H. unfold outcome in H. destruct (_ && _).
  - destruct (is_http C).
    + destruct k.
      * destruct (writes_200 A _ _ _ _ _ H) as [F (? & ? & Q & U)]. inversion Q; subst. auto.
      * destruct (writes_200 A _ _ _ _ _ H) as [F (? & ? & Q & U)]. inversion Q; subst. auto.
      * destruct (writes_all A _ _ _ _ H) as [F (? & ? & Q & U)]. inversion Q; subst. auto.
    + destruct H as (-> & _ & ->). auto.
  - destruct H as (-> & -> & _). auto.
Qed.

(** Operations that are not enrollments. *)
Definition no_ca (e : list event) : Prop := Forall (fun x => ~ is_ca x) e.

Lemma cacerts_events : forall path s e r, est_server_handle_cacerts C A path s = (e, r) ->
  Forall (fun x => is_write x \/ exists p a, x = EvCacerts p a) e /\ exists rc s', r = Ok (rc, s') /\ s_uid s' = s_uid s.
Proof.
  intros path s e r H. unfold est_server_handle_cacerts in H.
  assert (HC : forall c s e r, est_handle_cacerts A c s = (e, r) ->
     Forall (fun x => is_write x \/ exists p a, x = EvCacerts p a) e /\ exists rc s', r = Ok (rc, s') /\ s_uid s' = s_uid s).
  { intros c s0 e0 r0 Q. unfold est_handle_cacerts in Q. destruct c as [b|].
    - destruct (writes_200 A _ _ _ _ _ Q) as [F (rc & s' & -> & U)]. split; eauto.
      eapply Forall_impl; [|exact F]. intros x Hx; now left.
    - inversion Q; subst. split; [constructor|eauto]. }
  destruct (a_cacerts A) as [f|].
  - apply mbind_inv in H as [[H _]|(e1 & ans & s1 & e2 & H1 & H & ->)].
    { unfold call in H. destruct (f (s_env s) path); discriminate. }
    unfold call in H1. destruct (f (s_env s) path) as [env ans']. inversion H1; subst. clear H1.
    apply mbind_inv in H as [[H _]|(e3 & [] & s3 & e4 & H3 & H & ->)]; [discriminate|]. inversion H3; subst. clear H3.
    cbn [Datatypes.app]. destruct ans as [b|].
    + apply HC in H as [F (rc & s' & -> & U)]. split; [|eauto]. constructor; [right; eauto|exact F].
    + inversion H; subst. split; [constructor; [right; eauto|constructor]|]. now eexists _, _.
  - destruct (c_cacerts C) as [b|]; [now apply (HC (Some b))|].
    inversion H; subst. split; [constructor|eauto].
Qed.

Lemma send_csrattr_writes : forall d, writes (est_send_csrattr_data C A keep d).
Proof.
  intro d. unfold est_send_csrattr_data.
  assert (Q : writes (mbind (est_send_http_error A keep (c_retry C) EST_ERR_HTTP_NO_CONTENT) (fun _ => @ret cert key E _ EST_ERR_NONE))).
  { apply writes_bind; [apply writes_error|intro; apply writes_ret]. }
  destruct d as [[|x l]|]; auto. apply writes_200.
Qed.

Lemma csrattrs_events : forall t path s e r, est_handle_csr_attrs C A attrs_parse attrs_add_pop keep t path s = (e, r) ->
  Forall (fun x => is_write x \/ exists p a, x = EvCsrattrs p a) e
  /\ ((exists rc s', r = Ok (rc, s') /\ s_uid s' = s_uid s)
      \/ (r = UB /\ exists b, In (EvCsrattrs path (Some b)) e /\ (attrs_parse b = UB \/ (attrs_parse b = Ok (EST_ERR_NONE, false) /\ attrs_add_pop b = UB)))).
Proof.
  intros t path s e r H. unfold est_handle_csr_attrs in H.
  assert (W : forall m : @M cert key E est_error, writes m -> forall s e r, m s = (e, r) ->
     Forall (fun x => is_write x \/ exists p a, x = EvCsrattrs p a) e /\ exists rc s', r = Ok (rc, s') /\ s_uid s' = s_uid s).
  { intros m Hm s0 e0 r0 Q. destruct (Hm _ _ _ Q) as [F (rc & s' & -> & U)]. split; eauto.
    eapply Forall_impl; [|exact F]. intros x Hx; now left. }
  destruct (a_csrattrs A) as [f|].
  - apply mbind_inv in H as [[H _]|(e1 & ans & s1 & e2 & H1 & H & ->)].
    { unfold call in H. destruct (f (s_env s) path (t_peer t)); discriminate. }
    unfold call in H1. destruct (f (s_env s) path (t_peer t)) as [env ans']. inversion H1; subst. clear H1.
    apply mbind_inv in H as [[H _]|(e3 & [] & s3 & e4 & H3 & H & ->)]; [discriminate|]. inversion H3; subst. clear H3.
    assert (K : forall m : @M cert key E est_error, writes m -> m {| s_env := env; s_uid := s_uid s; s_code := s_code s |} = (e4, r) ->
      Forall (fun x => is_write x \/ exists p a, x = EvCsrattrs p a) ([] ++ [EvCsrattrs path ans] ++ e4)
      /\ ((exists rc s', r = Ok (rc, s') /\ s_uid s' = s_uid s)
         \/ (r = UB /\ exists b, In (EvCsrattrs path (Some b)) ([] ++ [EvCsrattrs path ans] ++ e4) /\ (attrs_parse b = UB \/ (attrs_parse b = Ok (EST_ERR_NONE, false) /\ attrs_add_pop b = UB))))).
    { intros m Hm Q. apply W in Q as [F (rc & s' & -> & U)]; [|exact Hm]. cbn. split; [constructor; [right; eauto|exact F]|left; eauto]. }
    assert (BAD : forall b, ans = Some b -> e4 = [] -> r = UB -> attrs_parse b = UB \/ (attrs_parse b = Ok (EST_ERR_NONE, false) /\ attrs_add_pop b = UB) ->
      Forall (fun x => is_write x \/ exists p a, x = EvCsrattrs p a) ([] ++ [EvCsrattrs path ans] ++ e4)
      /\ ((exists rc s', r = Ok (rc, s') /\ s_uid s' = s_uid s)
         \/ (r = UB /\ exists b, In (EvCsrattrs path (Some b)) ([] ++ [EvCsrattrs path ans] ++ e4) /\ (attrs_parse b = UB \/ (attrs_parse b = Ok (EST_ERR_NONE, false) /\ attrs_add_pop b = UB))))).
    { intros b -> -> -> Q. cbn. split; [constructor; [right; eauto|constructor]|right]. split; [auto|]. exists b. auto. }
    destruct ans as [[|x l]|]; try (revert H; apply K; apply send_csrattr_writes).
    destruct (attrs_parse (x :: l)) as [[er present]|] eqn:Ep.
    2:{ cbn in H. inversion H; subst. eapply BAD; eauto. }
    change (lift (Ok (er, present))) with (@ret cert key E _ (er, present)) in H. rewrite mbind_ret in H. cbv iota beta in H.
    rewrite err_match_none in H. destruct (err_eqb er EST_ERR_NONE) eqn:En; [|revert H; apply K; apply writes_ret]. apply err_eqb_eq in En as ->.
    destruct (c_pop C && negb present) eqn:Ep2; [|revert H; apply K; apply send_csrattr_writes].
    destruct (attrs_add_pop (x :: l)) as [[e5 b2]|] eqn:Eb.
    2:{ cbn in H. inversion H; subst. eapply BAD; eauto. right. destruct present; [now rewrite andb_false_r in Ep2|]. auto. }
    change (lift (Ok (e5, b2))) with (@ret cert key E _ (e5, b2)) in H. rewrite mbind_ret in H. cbv iota beta in H.
    rewrite err_match_none in H.
    destruct (err_eqb e5 EST_ERR_NONE); revert H; apply K; [apply send_csrattr_writes|apply writes_ret].
  - apply W in H; [destruct H; auto|]. destruct (c_csrattrs C); [apply send_csrattr_writes|].
    destruct (negb (c_pop C)); [apply writes_ret|apply send_csrattr_writes].
Qed.

(** BRSKI: the callback runs at most once, after the authentication. *)
Lemma brski_authed_events : forall t authz path (m : @M cert key E est_error) s e r,
  brski_authed O C A t authz path m s = (e, r) ->
  (exists ea s1 em, e = ea ++ em /\ Forall (auth_ev t path) ea /\ authed t path ea /\ ~ cert_rejected t /\ m s1 = (em, r))
  \/ (Forall (auth_ev t path) e).
Proof.
  intros * H. unfold brski_authed in H. apply mbind_inv in H as [[H ->]|(e1 & au & s1 & e2 & H1 & H & ->)].
  { right. now destruct (brski_auth_facts _ _ _ _ _ _ H). }
  destruct (brski_auth_facts _ _ _ _ _ _ H1) as [F G].
  assert (Q : granted au \/ e2 = []).
  { unfold granted. destruct au; auto; right; now inversion H. }
  destruct Q as [Q|Q].
  - left. exists e1, s1, e2. destruct (G _ _ eq_refl Q). repeat split; auto.
    destruct Q as [->|[->| ->]]; exact H.
  - right. subst. now rewrite app_nil_r.
Qed.

Lemma brski_voucher_events : forall t authz c body path s e r, brski_voucher_req O C A t authz c body path s = (e, r) ->
  (exists ea rv v w, e = ea ++ EvVoucher OP_BRSKI_REQ_VOUCHER body (t_peer t) rv v :: w /\ Forall (auth_ev t path) ea
     /\ authed t path ea /\ ~ cert_rejected t /\ Forall is_write w)
  \/ Forall (auth_ev t path) e.
Proof.
  intros * H. unfold brski_voucher_req in H. destruct (a_voucher A) as [f|]; [|inversion H; subst; right; constructor].
  destruct (negb _ && negb _); [inversion H; subst; right; constructor|].
  apply brski_authed_events in H as [(ea & s1 & em & -> & F & G & N & H)|H]; [|now right].
  left. apply mbind_inv in H as [[H _]|(e1 & [rv v] & s2 & e2 & H1 & H & ->)].
  { unfold call in H. destruct (f _ _ _); discriminate. }
  unfold call in H1. destruct (f _ _ _). inversion H1; subst. clear H1.
  apply mbind_inv in H as [[H _]|(e3 & [] & s3 & e4 & H3 & H & ->)]; [discriminate|]. inversion H3; subst. clear H3.
  exists ea, rv, v, e4. split; [reflexivity|]. split; [auto|]. split; [auto|]. split; [auto|].
  assert (W : writes (if (rv =? 1) && (0 <? len v) then send_200 A (str "application/voucher+cms") v
              else if rv =? 2 then mbind (send_http_retry_after A (c_brski_retry C)) (fun x => ret (match x with EST_ERR_NONE => EST_ERR_NONE | _ => EST_ERR_HTTP_WRITE end))
              else @ret cert key E _ EST_ERR_CA_ENROLL_FAIL)).
  { destruct (_ && _); [apply writes_200|]. destruct (rv =? 2); [|apply writes_ret].
    apply writes_bind; [apply writes_retry|intro; apply writes_ret]. }
  now destruct (W _ _ _ H).
Qed.

Lemma brski_status_events : forall o cb t authz c body path s e r, brski_status O C A o cb t authz c body path s = (e, r) ->
  (exists ea rv v w, e = ea ++ EvVoucher o body (t_peer t) rv v :: w /\ Forall (auth_ev t path) ea
     /\ authed t path ea /\ ~ cert_rejected t /\ Forall is_write w)
  \/ Forall (auth_ev t path) e.
Proof.
  intros * H. unfold brski_status in H. destruct cb as [f|]; [|inversion H; subst; right; constructor].
  destruct (negb _); [inversion H; subst; right; constructor|].
  apply brski_authed_events in H as [(ea & s1 & em & -> & F & G & N & H)|H]; [|now right].
  left. apply mbind_inv in H as [[H _]|(e1 & rv & s2 & e2 & H1 & H & ->)].
  { unfold call in H. destruct (f _ _ _); discriminate. }
  unfold call in H1. destruct (f _ _ _). inversion H1; subst. clear H1.
  apply mbind_inv in H as [[H _]|(e3 & [] & s3 & e4 & H3 & H & ->)]; [discriminate|]. inversion H3; subst. clear H3.
  exists ea, rv, [], e4. split; [reflexivity|]. split; [auto|]. split; [auto|]. split; [auto|].
  destruct (rv =? 1); [|inversion H; subst; constructor].
  assert (W : writes (mbind (mg_write A (str "HTTP/1.1 200 OK" ++ EOL ++ str "Status: 200 OK" ++ EOL))
     (fun ok : bool => @ret cert key E _ (if ok then EST_ERR_NONE else EST_ERR_HTTP_WRITE)))).
  { apply writes_bind; [apply writes_mg_write|intro; apply writes_ret]. }
  now destruct (W _ _ _ H).
Qed.

(** ** C13 *)
Definition guard (t : @tls cert) (e : list event) : Prop :=
  exists path, authed t path e /\ ~ cert_rejected t.
Lemma guard_app : forall t e1 e2, guard t e1 -> guard t (e1 ++ e2).
Proof.
  intros t e1 e2 (p & [?|[?|(a & ?)]] & N); exists p; split; auto; [now left|right; now left|].
  right; right. exists a. apply in_or_app. now left.
Qed.
Lemma guard_app2 : forall t e1 e2, guard t e2 -> guard t (e1 ++ e2).
Proof.
  intros t e1 e2 (p & [?|[?|(a & ?)]] & N); exists p; split; auto; [now left|right; now left|].
  right; right. exists a. apply in_or_app. now right.
Qed.

Definition guarded (t : @tls cert) (e : list event) : Prop :=
  forall pre x post, e = pre ++ x :: post -> privileged x -> guard t pre.

Lemma guarded_none : forall t e, Forall (fun x => ~ privileged x) e -> guarded t e.
Proof. intros t e F pre x post Eq P. exfalso. eapply split_none; eauto. Qed.
Lemma guarded_after : forall t e1 e2, Forall (fun x => ~ privileged x) e1 -> guard t e1 -> guarded t (e1 ++ e2).
Proof.
  intros t e1 e2 F G pre x post Eq P. destruct (split_after _ _ _ _ _ _ _ F Eq P) as (q & -> & _). now apply guard_app.
Qed.
Lemma guarded_prefix : forall t e1 e2, Forall (fun x => ~ privileged x) e1 -> guarded t e2 -> guarded t (e1 ++ e2).
Proof.
  intros t e1 e2 F G pre x post Eq P. destruct (split_after _ _ _ _ _ _ _ F Eq P) as (q & -> & Q).
  apply guard_app2. eapply G; eauto.
Qed.
Lemma guarded_suffix : forall t e1 e2, guarded t e1 -> Forall (fun x => ~ privileged x) e2 -> guarded t (e1 ++ e2).
Proof.
  intros t e1 e2 G F pre x post Eq P.
  assert (Q : exists q, e1 = pre ++ x :: q).
  { revert pre Eq. clear G. induction e1 as [|y e1 IH]; intros pre Eq.
    - exfalso. eapply split_none; eauto.
    - destruct pre as [|z pre]; inversion Eq; subst; [now exists e1|].
      destruct (IH pre) as (q & ->); auto. now exists q. }
  destruct Q as (q & ->). eapply G; eauto.
Qed.

Lemma enroll_guarded : forall t authz ct body path k s e r,
  enroll_path O C A attrs_check t authz ct body path k s e r -> guarded t e.
Proof.
  intros * H.
  assert (G : forall e au ro s1 e2, auth_path O C A t authz path k body s e (Ok (au, ro, s1)) -> granted au -> guarded t (e ++ e2)).
  { intros e0 au ro s1 e2 Au Gr. apply guarded_after; [eapply auths_nonpriv, auth_events; eauto|].
    exists path. eapply auth_granted; eauto. }
  inversion H; subst; eauto.
  - apply guarded_none. constructor.
  - apply guarded_none. constructor.
  - apply guarded_none. eapply auths_nonpriv, auth_events; eauto.
  - apply guarded_none. eapply auths_nonpriv, auth_events; eauto.
  - apply guarded_none. eapply auths_nonpriv, auth_events; eauto.
Qed.

Lemma op_guarded : forall t authz c body path o s e r,
  run_op O C A attrs_parse attrs_add_pop attrs_check keep t authz c body path o s = (e, r) -> guarded t e.
Proof.
  intros * H.
  assert (BR : forall o, (exists ea rv v w, e = ea ++ EvVoucher o body (t_peer t) rv v :: w /\ Forall (auth_ev t path) ea
     /\ authed t path ea /\ ~ cert_rejected t /\ Forall is_write w) \/ Forall (auth_ev t path) e -> guarded t e).
  { intros o' [(ea & rv & v & w & -> & F & G & N & _)|F].
    - apply guarded_after; [eapply auths_nonpriv; eauto|]. now exists path.
    - apply guarded_none. eapply auths_nonpriv; eauto. }
  destruct o; cbn [run_op] in H; try (apply enroll_paths in H; eapply enroll_guarded; eauto; fail).
  - apply cacerts_events in H as [F _]. apply guarded_none. eapply Forall_impl; [|exact F].
    intros x [Hx|(p & a & ->)]; [now apply write_nonpriv|nonpriv].
  - apply csrattrs_events in H as [F _]. apply guarded_none. eapply Forall_impl; [|exact F].
    intros x [Hx|(p & a & ->)]; [now apply write_nonpriv|nonpriv].
  - apply brski_voucher_events in H. eapply BR; eauto.
  - apply brski_status_events in H. eapply BR; eauto.
  - apply brski_status_events in H. eapply BR; eauto.
Qed.

Theorem request_guarded : forall t method uri body ct authz s e r,
  request t method uri body ct authz s = (e, r) -> guarded t e.
Proof.
  intros * H. apply request_paths in H.
  inversion H; subst.
  - apply guarded_none, start_nonpriv.
  - apply guarded_none, Forall_app. split; [apply start_nonpriv|eapply error_nonpriv; eauto].
  - apply guarded_none. rewrite !Forall_app. repeat split; [apply start_nonpriv|eapply error_nonpriv; eauto|apply end_nonpriv].
  - apply guarded_prefix; [apply start_nonpriv|]. apply guarded_prefix; [apply req_nonpriv|]. eapply op_guarded; eauto.
  - apply guarded_prefix; [apply start_nonpriv|]. apply guarded_prefix; [apply req_nonpriv|].
    apply guarded_suffix; [eapply op_guarded; eauto|]. apply Forall_app. split; [apply rsp_nonpriv|apply end_nonpriv].
  - apply guarded_prefix; [apply start_nonpriv|]. apply guarded_prefix; [apply req_nonpriv|].
    apply guarded_suffix; [eapply op_guarded; eauto|]. apply Forall_app. split; [apply rsp_nonpriv|eapply error_nonpriv; eauto].
Qed.
End P.
