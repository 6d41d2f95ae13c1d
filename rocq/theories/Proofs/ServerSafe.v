(** When the handling of a request can go wrong, and that good requests are
    served. *)
From Coq Require Import String ZArith List Bool Lia ZifyBool ZifyNat.
From Verif Require Import Base Spec.Http Spec.Base64 Spec.Server Model.CLib Model.Codec Model.EstErr Model.HttpServer Model.Uri
  Model.AuthHdr Model.Server Proofs.Codec Proofs.AuthHdr Proofs.ServerAuth Proofs.ServerEnroll Proofs.ServerRequest Proofs.ServerProps
  Proofs.ServerCA Proofs.ServerTrace Proofs.ServerReply Proofs.ServerResponse Proofs.ServerClaims.
Import ListNotations.
Open Scope Z_scope.

Lemma header_uid_ok : forall bio cfg authz uid pr a u', uid_ok uid ->
  mg_parse_auth_header bio cfg authz est_create_ah uid = Ok (pr, a, u') -> uid_ok u'.
Proof.
  intros bio cfg authz uid pr a u' U H.
  destruct pr; try (rewrite (header_uid _ _ _ _ _ _ _ H) by discriminate; exact U).
  destruct (header_user _ _ _ _ _ _ H) as [[_ ->]|(_ & u & _ & N & L & ->)]; auto.
  exists u. now apply uid_cstr.
Qed.

Section P.
Context {cert csr key E : Type}.
Variable O : @ossl cert csr key.
Variable C : @config cert.
Variable A : @app cert key E.
Variable parse_uri : bytes -> res (est_error * option operation * option bytes).
Variable attrs_parse : bytes -> res (est_error * bool).
Variable attrs_add_pop : bytes -> res (est_error * bytes).
Variable attrs_check : option (option bytes) -> bytes -> res est_error.
Variable keep : Z -> bool.
Notation event := (@event cert key).
Notation st := (@st E).
Notation request := (est_http_request O C A parse_uri attrs_parse attrs_add_pop attrs_check keep).
Implicit Types (t : @tls cert) (e : list event) (s : st).

Lemma auth_uid : forall t authz path k body s e au ro s', uid_ok (s_uid s) ->
  auth_path O C A t authz path k body s e (Ok (au, ro, s')) -> uid_ok (s_uid s').
Proof.
  intros * U H. inversion H; subst; auto; try congruence; eauto using header_uid_ok.
Qed.

Notation bad_challenge := (Spec.Server.bad_challenge O).
Notation hazard := (Spec.Server.hazard O C A parse_uri attrs_parse attrs_add_pop attrs_check).
Lemma uid_auth_ub : forall t r, est_tls_uid_auth O C t r = UB -> bad_challenge t r.
Proof.
  intros t r H. unfold est_tls_uid_auth in H. unfold Spec.Server.bad_challenge. destruct (o_challenge O r) as [| | |d] eqn:Ec; auto; try discriminate.
  - right; left. destruct (t_uid t); [|discriminate]. split; auto. discriminate.
  - destruct (t_uid t) as [u|] eqn:Eu; [|discriminate]. right; right. exists d, u. split; auto. split; auto.
    unfold memcmp_eq in H. destruct ((len u <=? len u) && (len u <=? len (d ++ [0]))) eqn:El; [discriminate|].
    rewrite len_app in El. change (len [0]) with 1 in El. lia.
Qed.

Lemma brski_auth_ub : forall t authz path s e, est_brski_auth O C A t authz path s = (e, UB) ->
  a_http_auth A <> None /\ mg_parse_auth_header (o_bio O) (c_auth_mode C) authz est_create_ah (s_uid s) = UB.
Proof.
  intros t authz path s e H. unfold est_brski_auth in H.
  assert (FIN : forall k pr rv s0 e0, mbind (auth_result_event C k pr rv) (fun _ => @ret cert key E _ rv) s0 <> (e0, UB)).
  { intros * Q. rewrite run_result_event in Q. discriminate. }
  destruct (check_tls t) as [[cont p0] rv0]. destruct (negb cont); [now apply FIN in H|].
  destruct (is_some (a_http_auth A) && _) eqn:Eh; [|now apply FIN in H].
  assert (NN : a_http_auth A <> None) by (destruct (a_http_auth A); [discriminate|discriminate Eh]).
  set (rv1 := if negb _ && _ then _ else _) in H. clearbody rv1.
  apply mbind_inv in H as [[H _]|(e1 & [pr a1] & s1 & e2 & H1 & H & ->)].
  - split; auto.
    destruct p0, (c_eca C && auth_state_eqb rv1 CERT_AUTH); try discriminate;
      unfold parse_auth, mbind, get_uid, lift, set_uid, ret in H;
      destruct (mg_parse_auth_header _ _ _ _ _) as [[[? ?] ?]|]; cbn in H; inversion H; subst; easy.
  - exfalso. apply mbind_inv in H as [[H _]|(e3 & rv & s2 & e4 & H2 & H & ->)]; [|now apply FIN in H].
    destruct pr; try discriminate H.
    + apply mbind_inv in H as [[H _]|(e5 & ok1 & s3 & e6 & _ & H & ->)]; [|discriminate].
      unfold http_auth_cb in H. destruct (a_http_auth A) as [f|]; [|congruence].
      unfold mbind, call, emit, ret in H. destruct (f _ _ _ _); discriminate.
    + apply mbind_inv in H as [[H _]|(e5 & ok1 & s3 & e6 & _ & H & ->)]; [|discriminate].
      destruct (writes_challenge C A _ _ _ H) as [_ (? & ? & ? & _)]. discriminate.
Qed.

Lemma brski_authed_ub : forall t authz path (m : @M cert key E est_error) s e,
  (forall s e, m s <> (e, UB)) -> brski_authed O C A t authz path m s = (e, UB) ->
  a_http_auth A <> None /\ mg_parse_auth_header (o_bio O) (c_auth_mode C) authz est_create_ah (s_uid s) = UB.
Proof.
  intros * Hm H. unfold brski_authed in H. apply mbind_inv in H as [[H _]|(e1 & au & s1 & e2 & H1 & H & ->)].
  - eapply brski_auth_ub; eauto.
  - exfalso. destruct au; try discriminate H; eapply Hm; eauto.
Qed.

Theorem request_hazard : forall t method uri body ct authz s e, uid_ok (s_uid s) -> is_http C = true ->
  request t method uri body ct authz s = (e, UB) -> hazard t uri body authz s e.
Proof.
  intros t method uri body ct authz s e U HH H. apply request_paths in H. inversion H; subst.
  - now apply hz_uri.
  - assert (HT : c_transport C = EST_HTTP) by (unfold is_http in HH; destruct (c_transport C); auto; discriminate).
    match goal with Q : run_op _ _ _ _ _ _ _ _ _ _ _ _ _ _ = _ |- _ => rename Q into R end.
    assert (ME : forall x, In x e0 -> In x (start_ev C uri ++ req_ev O C o body ++ e0)) by (intros; rewrite !in_app_iff; auto).
    assert (EN : forall k, enroll_path O C A attrs_check t authz c body path k s e0 UB ->
      hazard t uri body authz s (start_ev C uri ++ req_ev O C o body ++ e0)).
    { intros k Q. inversion Q; subst.
      - match goal with Q1 : auth_path _ _ _ _ _ _ _ _ _ _ UB |- _ => inversion Q1; subst end; [congruence|].
        now apply hz_header.
      - eapply hz_key with (pk := pk); [apply ME, in_or_app; right; now left|].
        destruct (Z_lt_ge_dec (len (o_key_der O pk)) 5) as [L|L]; auto. exfalso.
        match goal with Q1 : est_base64_encode _ _ _ _ = UB |- _ => revert Q1 end.
        rewrite (Z.mul_comm _ 2), encode_twice; [discriminate|lia|rewrite len_repeat; pose proof (len_nonneg _ (o_key_der O pk)); lia].
      - match goal with Q1 : checks_path _ _ _ _ _ _ _ _ _ UB |- _ => inversion Q1; subst end.
        2:{ match goal with Q3 : prepared _ _ _ _ ?r ?b, Q4 : good_csr _ _, Q1 : attrs_crash _ _ _ _ _ |- _ =>
              destruct Q1 as [En Q1]; assert (Bad : exists d, attrs_check d b = UB) by (destruct Q1 as [(? & _)|[(d & _ & ? & _)|(d & _ & ?)]]; eauto);
              destruct Bad as [d Bad]; apply (hz_attrs_csr _ _ _ _ _ _ _ _ _ _ _ _ _ d k b r); auto end.
            match goal with |- csr_of_request _ (?s1 ++ ?s2 ++ ?s3 ++ ?s4 ++ ?s5) _ _ _ _ =>
              replace (s1 ++ s2 ++ s3 ++ s4 ++ s5) with ((s1 ++ s2 ++ s3) ++ s4 ++ s5) by (now rewrite <- !app_assoc) end.
            apply prepared_csr; assumption. }
        match goal with Q1 : est_tls_uid_auth _ _ _ _ = UB, Q2 : ~ passes _ _ _ _, Q3 : prepared _ _ _ _ ?r ?b, Q4 : good_csr _ _ |- _ =>
          apply (hz_challenge _ _ _ _ _ _ _ _ _ _ _ _ _ k b r); auto; [|intros (c0 & l & Ep & Ek & Il); apply Q2; left; rewrite Ep|now apply uid_auth_ub] end.
        + match goal with |- csr_of_request _ (?s1 ++ ?s2 ++ ?s3 ++ ?s4 ++ ?s5) _ _ _ _ =>
            replace (s1 ++ s2 ++ s3 ++ s4 ++ s5) with ((s1 ++ s2 ++ s3) ++ s4 ++ s5) by (now rewrite <- !app_assoc) end.
          apply prepared_csr; assumption.
        + unfold est_check_cmcRA. rewrite Ek. apply existsb_exists. exists (str "1.3.6.1.5.5.7.3.28"). split; auto.
      - exfalso. match goal with Q1 : auth_path _ _ _ _ _ _ _ _ _ _ (Ok _) |- _ => apply auth_uid in Q1 as [v Q2]; auto; congruence end. }
    assert (ST : forall o1 (f : E -> bytes -> option cert -> E * Z) s0 e1,
      mbind (call (fun x0 : E => f x0 body (t_peer t))) (fun rv => mbind (emit (EvVoucher o1 body (t_peer t) rv []))
        (fun _ => if rv =? 1 then mbind (mg_write A (str "HTTP/1.1 200 OK" ++ EOL ++ str "Status: 200 OK" ++ EOL))
             (fun ok => ret (if (ok : bool) then EST_ERR_NONE else EST_ERR_HTTP_WRITE)) else ret EST_ERR_CA_ENROLL_FAIL)) s0 <> (e1, UB)).
    { intros o1 f s0 e1 Q. unfold mg_write, mbind, call, emit, ret in Q. destruct (f _ _ _) as [x0 rv].
      destruct (rv =? 1); [|discriminate]. cbn [s_env] in Q. destruct (a_write A _ _); discriminate. }
    destruct o; cbn [run_op] in R; try (apply enroll_paths in R; eauto; fail).
    + apply cacerts_events in R as [_ (? & ? & Q & _)]. discriminate.
    + apply csrattrs_events in R as [_ [(? & ? & Q & _)|(_ & b & I & Q)]]; [discriminate|]. eapply hz_attrs; [|exact Q]. apply ME. exact I.
    + unfold brski_voucher_req in R. destruct (a_voucher A) as [f|]; [|discriminate].
      destruct (negb _ && negb _); [discriminate|].
      apply brski_authed_ub in R as [? ?]; [now apply hz_header|]. intros s0 e1 Q.
      apply mbind_inv in Q as [[Q _]|(e2 & [rv v] & s2 & e3 & HZ1 & Q & ->)].
      { unfold call in Q. destruct (f _ _ _); discriminate. }
      apply mbind_inv in Q as [[Q _]|(e4 & [] & s3 & e5 & HZ3 & Q & ->)]; [discriminate|].
      assert (W : writes (if (rv =? 1) && (0 <? len v) then send_200 A (str "application/voucher+cms") v
              else if rv =? 2 then mbind (send_http_retry_after A (c_brski_retry C)) (fun x => ret (match x with EST_ERR_NONE => EST_ERR_NONE | _ => EST_ERR_HTTP_WRITE end))
              else @ret cert key E _ EST_ERR_CA_ENROLL_FAIL)).
      { destruct (_ && _); [apply writes_200|]. destruct (rv =? 2); [|apply writes_ret].
        apply writes_bind; [apply writes_retry|intro; apply writes_ret]. }
      destruct (W _ _ _ Q) as [_ (? & ? & Q2 & _)]. discriminate.
    + unfold brski_status in R. destruct (a_voucher_status A) as [f|]; [|discriminate]. destruct (negb _); [discriminate|].
      apply brski_authed_ub in R as [? ?]; [now apply hz_header|]. apply ST.
    + unfold brski_status in R. destruct (a_enroll_status A) as [f|]; [|discriminate]. destruct (negb _); [discriminate|].
      apply brski_authed_ub in R as [? ?]; [now apply hz_header|]. apply ST.
Qed.

(** The user id stays a C string. *)
Definition keeps {X} (m : @M cert key E X) : Prop := forall s e x s', uid_ok (s_uid s) -> m s = (e, Ok (x, s')) -> uid_ok (s_uid s').
Lemma keeps_writes : forall X (m : @M cert key E X), writes m -> keeps m.
Proof. intros X m W s e x s' U H. destruct (W _ _ _ H) as [_ (x1 & s1 & Q & Us)]. inversion Q; subst. now rewrite Us. Qed.
Lemma keeps_bind : forall X Y (m : @M cert key E X) (f : X -> @M cert key E Y), keeps m -> (forall x, keeps (f x)) -> keeps (mbind m f).
Proof.
  intros X Y m f Hm Hf s e y s' U H. apply mbind_inv in H as [[_ H]|(e1 & x & s1 & e2 & H1 & H & ->)]; [discriminate|].
  eapply Hf; [|exact H]. eapply Hm; eauto.
Qed.
Lemma keeps_ret : forall X (x : X), keeps (ret x).
Proof. intros X x s e y s' U H. inversion H; now subst. Qed.
Lemma keeps_emit : forall x, keeps (emit x).
Proof. intros x s e y s' U H. inversion H; now subst. Qed.
Lemma keeps_call : forall X (f : E -> E * X), keeps (call f).
Proof. intros X f s e y s' U H. unfold call in H. destruct (f (s_env s)). inversion H; now subst. Qed.
Lemma keeps_parse : forall authz, keeps (parse_auth O C authz).
Proof.
  intros authz s e x s' U H. unfold parse_auth, mbind, get_uid, lift, set_uid, ret in H.
  destruct (mg_parse_auth_header _ _ _ _ _) as [[[h a] u]|] eqn:Em; cbn in H; inversion H; subst. cbn. eapply header_uid_ok; eauto.
Qed.
Lemma keeps_brski_auth : forall t authz path, keeps (est_brski_auth O C A t authz path).
Proof.
  intros t authz path. unfold est_brski_auth. destruct (check_tls t) as [[cont p0] rv0].
  assert (FIN : forall k pr rv, keeps (mbind (auth_result_event C k pr rv) (fun _ => @ret cert key E _ rv))).
  { intros. unfold auth_result_event, emit_if. apply keeps_bind; [|intro; apply keeps_ret].
    destruct (c_ev_auth C); [apply keeps_emit|apply keeps_ret]. }
  destruct (negb cont); [apply FIN|]. destruct (_ && _); [|apply FIN].
  apply keeps_bind.
  - destruct p0; [destruct (_ && _)|]; try apply keeps_ret; try apply keeps_parse; destruct (_ && _); apply keeps_parse.
  - intros [pr a]. apply keeps_bind; [|intro; apply FIN]. destruct pr; try apply keeps_ret.
    + apply keeps_bind; [|intro; apply keeps_ret]. unfold http_auth_cb. destruct (a_http_auth A).
      * apply keeps_bind; [apply keeps_call|]. intro. apply keeps_bind; [apply keeps_emit|intro; apply keeps_ret].
      * intros s e x s' _ H. discriminate.
    + apply keeps_bind; [apply keeps_writes, writes_challenge|intro; apply keeps_ret].
Qed.
Lemma keeps_brski_authed : forall t authz path m, keeps m -> keeps (brski_authed O C A t authz path m).
Proof.
  intros t authz path m Hm. unfold brski_authed. apply keeps_bind; [apply keeps_brski_auth|].
  intros [| | | | |]; auto; apply keeps_ret.
Qed.

Theorem request_uid : forall t method uri body ct authz, keeps (request t method uri body ct authz).
Proof.
  intros t method uri body ct authz s e rc s' U H. apply request_paths in H.
  assert (W : forall er s0 w s1, est_send_http_error A keep (c_retry C) er s0 = (w, Ok (tt, s1)) -> uid_ok (s_uid s0) -> uid_ok (s_uid s1)).
  { intros * Q U0. eapply (keeps_writes _ _ (writes_error A keep (c_retry C) er)); eauto. }
  assert (OP : forall o c p, keeps (run_op O C A attrs_parse attrs_add_pop attrs_check keep t authz c body p o)).
  { intros o c p s0 e0 x s1 U0 R.
    assert (EN : forall k, enroll_path O C A attrs_check t authz c body p k s0 e0 (Ok (x, s1)) -> uid_ok (s_uid s1)).
    { intros k Q. inversion Q; subst; auto;
        try (match goal with Q1 : auth_path _ _ _ _ _ _ _ _ _ _ (Ok _) |- _ => apply auth_uid in Q1; auto end);
        try (replace (s_uid s1) with (s_uid s2) by auto; assumption).
      - match goal with Q1 : checks_path _ _ _ _ _ _ _ _ _ (Ok _) |- _ => apply checks_keeps in Q1 as [Q1 _]; rewrite Q1 end. congruence.
      - match goal with Q1 : outcome _ _ _ _ _ _ _ _ _ _ |- _ => unfold outcome in Q1; rename Q1 into Ou end.
        assert (U4 : uid_ok (s_uid s5)) by congruence.
        destruct (_ && _); [destruct (is_http C)|].
        + destruct k; first [eapply (keeps_writes _ _ (writes_200 A _ _)); eauto; fail|eapply (keeps_writes _ _ (writes_all A _)); eauto].
        + destruct Ou as (_ & _ & ->). auto.
        + destruct Ou as (_ & -> & _). auto. }
    assert (ST : forall o1 (f : E -> bytes -> option cert -> E * Z), keeps
      (mbind (call (fun x0 : E => f x0 body (t_peer t))) (fun rv => mbind (emit (EvVoucher o1 body (t_peer t) rv []))
        (fun _ => if rv =? 1 then mbind (mg_write A (str "HTTP/1.1 200 OK" ++ EOL ++ str "Status: 200 OK" ++ EOL))
             (fun ok => ret (if (ok : bool) then EST_ERR_NONE else EST_ERR_HTTP_WRITE)) else ret EST_ERR_CA_ENROLL_FAIL)))).
    { intros. apply keeps_bind; [apply keeps_call|]. intro. apply keeps_bind; [apply keeps_emit|]. intro.
      destruct (_ =? 1); [|apply keeps_ret]. apply keeps_bind; [apply keeps_writes, writes_mg_write|intro; apply keeps_ret]. }
    destruct o; cbn [run_op] in R; try (apply enroll_paths in R; eauto; fail).
    - apply cacerts_events in R as [_ (? & ? & Q & Us)]. inversion Q; subst. congruence.
    - apply csrattrs_events in R as [_ [(? & ? & Q & Us)|(Q & _)]]; inversion Q; subst. congruence.
    - unfold brski_voucher_req in R. destruct (a_voucher A) as [f|]; [|inversion R; now subst].
      destruct (negb _ && negb _); [inversion R; now subst|]. revert R. apply keeps_brski_authed; auto.
      apply keeps_bind; [apply keeps_call|]. intros [rv v]. apply keeps_bind; [apply keeps_emit|]. intro.
      apply keeps_writes. destruct (_ && _); [apply writes_200|]. destruct (rv =? 2); [|apply writes_ret].
      apply writes_bind; [apply writes_retry|intro; apply writes_ret].
    - unfold brski_status in R. destruct (a_voucher_status A) as [f|]; [|inversion R; now subst].
      destruct (negb _); [inversion R; now subst|]. revert R. apply keeps_brski_authed; auto.
    - unfold brski_status in R. destruct (a_enroll_status A) as [f|]; [|inversion R; now subst].
      destruct (negb _); [inversion R; now subst|]. revert R. apply keeps_brski_authed; auto. }
  inversion H; subst; eauto.
  - eapply OP; eauto.
  - eapply W; eauto. eapply OP; eauto.
Qed.

(** ** Good requests are served *)
Lemma history_in : forall t l b (w0 w1 : E) x, history O A t b l w0 w1 -> In x l -> exists b1 x0 x1, happened O A t b1 x x0 x1.
Proof. intros t l b w0 w1 x H. induction H; intros I; [now destruct I|]. destruct I as [<-|I]; eauto. Qed.

Notation accepted := (Spec.Server.accepted O C A).
Notation acceptable := (Spec.Server.acceptable O C A attrs_check).
Notation signing := (Spec.Server.signing A).
Notation good_enrollment := (Spec.Server.good_enrollment O C A attrs_check).

Theorem enrollment_served : forall t method uri body c authz s o path,
  c_transport C = EST_HTTP -> uid_ok (s_uid s) ->
  parse_uri uri = Ok (EST_ERR_NONE, Some o, path) -> enrolls o = true -> method = str "POST" ->
  starts_with (str "application/pkcs10") c ->
  accepted t authz s path -> good_enrollment t (kind_of o) body -> signing (kind_of o) ->
  (forall w d, snd (a_write A w d) = true) ->
  exists e s' crt kt, request t method uri body (Some c) authz s = (e, Ok (EST_ERR_NONE, s')) /\ issued e (kind_of o) crt kt /\ all_sent e.
Proof.
  intros t method uri body c authz s o path HT U Pu En Hm Hc Acc Good Sig Wr.
  destruct (request t method uri body (Some c) authz s) as [e r] eqn:H.
  destruct (request_truthful O C A t keep attrs_parse attrs_add_pop attrs_check parse_uri method uri body (Some c) authz s e r H) as (w1 & Hist & _).
  assert (AS : all_sent e).
  { intros d ok I. destruct (history_in _ _ _ _ _ _ Hist I) as (b1 & x0 & x1 & Q). cbn in Q. specialize (Wr x0 d). rewrite Q in Wr. exact Wr. }
  apply request_paths in H.
  assert (Mf : method_fits o method = true) by (subst; destruct o; try discriminate; reflexivity).
  assert (HH : is_http C = true) by (unfold is_http; now rewrite HT).
  assert (Po : posts o = true) by (destruct o; try discriminate; reflexivity).
  assert (P10 : is_pkcs10 c = true) by (unfold is_pkcs10; now apply strncmp_starts).
  (* the operation *)
  assert (RUN : exists eo ro, run_op O C A attrs_parse attrs_add_pop attrs_check keep t authz c body path o s = (eo, ro)
     /\ (forall x, In x eo -> In x e) /\ ((ro = UB /\ r = UB) \/ exists rc s1, ro = Ok (rc, s1)
          /\ (is_done o rc = true -> r = Ok (EST_ERR_NONE, s1)))).
  { inversion H; subst; try congruence.
    - exfalso. match goal with Q : refusal _ _ _ _ _ |- _ => destruct Q as [[Q (? & ? & Q2)]|[[-> (? & ? & Q2 & Q3)]|[_ (Q & _)]]] end; congruence.
    - match goal with Q : posts _ = true -> _, Q2 : parse_uri uri = Ok (_, Some ?o2, ?p2) |- _ =>
        rewrite Pu in Q2; injection Q2 as <- <-; specialize (Q Po); injection Q as <- end.
      exists e0, UB. split; auto. split; auto. intros x I. rewrite !in_app_iff; auto.
    - match goal with Q : posts _ = true -> _, Q2 : parse_uri uri = Ok (_, Some ?o2, ?p2) |- _ =>
        rewrite Pu in Q2; injection Q2 as <- <-; specialize (Q Po); injection Q as <- end.
      exists e0, (Ok (rc, s')). split; auto. split; [intros x I; rewrite !in_app_iff; auto|]. right. eauto.
    - match goal with Q : posts _ = true -> _, Q2 : parse_uri uri = Ok (_, Some ?o2, ?p2) |- _ =>
        rewrite Pu in Q2; injection Q2 as <- <-; specialize (Q Po); injection Q as <- end.
      exists e0, (Ok (rc, s1)). split; auto. split; [intros x I; rewrite !in_app_iff; auto|]. right. exists rc, s1. split; auto. congruence. }
  destruct RUN as (eo & ro & R & Sub & Res).
  assert (EP : enroll_path O C A attrs_check t authz c body path (kind_of o) s eo ro).
  { apply enroll_paths. destruct o; try discriminate; exact R. }
  clear R H.
  (* authentication succeeds *)
  assert (AUT : forall ea ra, auth_path O C A t authz path (kind_of o) body s ea ra -> (forall x, In x ea -> In x e) ->
     exists au ro0 s1, ra = Ok (au, ro0, s1) /\ granted au).
  { destruct Acc as [NR Acc]. intros ea ra Q Sea.
    assert (NR1 : not_rejected t).
    { intro Pn. destruct (t_peer t) as [c0|] eqn:Ep; [|congruence].
      destruct (Z.eq_dec (t_verify t) 0), (Z.eq_dec (t_verify t) 3); auto. exfalso. apply NR. exists c0. auto. }
    destruct Acc as [[Tid NoH]|(f & a & u & Ef & Fok & Need & NoE & HP)].
    - assert (TS : tls_state t <> UNAUTHORIZED /\ granted (tls_state t)).
      { unfold tls_state, granted. destruct Tid as [(c0 & -> & _)|(-> & Sr)].
        - split; [discriminate|auto].
        - destruct (t_srp t); [|congruence]. cbn. split; [discriminate|auto]. }
      destruct TS as [TS1 TS2].
      inversion Q; subst; try congruence; try tauto;
        try (destruct NoH as [NoH|NoH]; try congruence; match goal with Q1 : tls_state t = UNAUTHORIZED \/ _ |- _ => destruct Q1; congruence end).
      + eauto.
      + exfalso. destruct NoH as [NoH|NoH]; [|congruence]. match goal with Q1 : _ -> c_http_required C = true |- _ => rewrite Q1 in NoH by auto; discriminate end.
      + exfalso. destruct NoH as [NoH|NoH]; match goal with Q1 : c_transport C = EST_HTTP -> _ |- _ => destruct (Q1 HT); congruence end.
    - assert (TS : c_http_required C = true \/ tls_state t = UNAUTHORIZED).
      { destruct Need as [?|[Tp Sr]]; auto. right. unfold tls_state. rewrite Tp, Sr. reflexivity. }
      inversion Q; subst; try congruence; try tauto.
      + exfalso. match goal with Q1 : _ \/ _ /\ _ |- _ => destruct Q1 as [Q1|[Q1 Q2]] end; [congruence|]. destruct TS; congruence.
      + exfalso. match goal with Q1 : c_eca C = true |- _ => specialize (NoE Q1) end. congruence.
      + exfalso. match goal with Q1 : c_eca C = true |- _ => specialize (NoE Q1) end. congruence.
      + match goal with Q1 : mg_parse_auth_header _ _ _ _ _ = _ |- _ => rewrite HP in Q1; injection Q1 as -> Q1 end.
        assert (ok = true) as ->.
        { specialize (Sea _ (or_introl eq_refl)).
          destruct (history_in _ _ _ _ _ _ Hist Sea) as (b1 & x0 & x1 & Q2). cbn in Q2. destruct Q2 as (f0 & Q2 & Q3).
          rewrite Ef in Q2. injection Q2 as <-. specialize (Fok x0). rewrite Q3 in Fok. exact Fok. }
        eexists _, _, _. split; [reflexivity|]. now left. }
  assert (NGR : forall au, granted au -> au <> HTTP_AUTH_PENDING /\ au <> CSR_PARSE_FAIL /\ au <> UNAUTHORIZED)
    by (intros au [->|[->| ->]]; repeat split; discriminate).
  assert (CS : callback_set A (kind_of o) = true).
  { unfold callback_set. destruct (kind_of o); cbn in Sig, Good.
    - destruct Sig as (f & -> & _). reflexivity.
    - destruct Sig as (f & -> & _). reflexivity.
    - destruct Sig as (f & -> & _), Good as (? & g & _ & -> & _). reflexivity. }
  (* the CSR *)
  assert (PREP : forall mid rq b, prepared O (kind_of o) body mid rq b -> (forall x, In x mid -> In x e) -> acceptable t b rq).
  { intros mid rq b Q Sm. destruct (kind_of o); cbn in Q, Good.
    - destruct Q as (_ & Q & ->), Good as (r0 & G1 & G2). congruence.
    - destruct Q as (_ & Q & ->), Good as (r0 & G1 & G2). congruence.
    - destruct Q as (r0 & r1 & pk & x & -> & Q1 & Q2 & Q3 & -> & _), Good as (r0' & g & G1 & Eg & G2).
      specialize (Sm (EvKeygen 0 (Some pk)) (or_introl eq_refl)).
      destruct (history_in _ _ _ _ _ _ Hist Sm) as (b1 & x0 & x1 & Q). cbn in Q. destruct Q as (g0 & Q & Qg).
      rewrite Eg in Q. injection Q as <-. destruct (G2 x0) as (w' & pk' & r1' & r2' & K1 & _ & K2 & K3 & K4).
      rewrite Qg in K1. injection K1 as _ <-. congruence. }
  assert (CHK : forall rq b s0 ec rck, acceptable t b rq -> checks_path O C A attrs_check t rq b s0 ec rck ->
     (forall x, In x ec -> In x e) -> exists s1, rck = Ok (EST_ERR_NONE, s1)).
  { intros rq b s0 ec rck (G & P & AT) Q Se.
    assert (PA : passes O C t rq).
    { destruct P as [(c0 & l & Ep & Ek & Il)|[[P1 P2]|(u & P1 & P2)]].
      - left. rewrite Ep. unfold est_check_cmcRA. rewrite Ek. apply existsb_exists. eexists. split; [exact Il|]. now apply beq_eq.
      - right. unfold est_tls_uid_auth. rewrite P1, P2. reflexivity.
      - right. unfold est_tls_uid_auth. rewrite P1, P2. unfold memcmp_eq. rewrite len_app. change (len [0]) with 1.
        replace ((len u <=? len u) && (len u <=? len u + 1)) with true by lia. cbn [bind].
        rewrite firstn_app. unfold len. rewrite Nat2Z.id, Nat.sub_diag, firstn_O, app_nil_r.
        replace (beq (firstn (length u) u) (firstn (length u) u)) with true; [reflexivity|]. symmetry. now apply beq_eq. }
    inversion Q; subst; try tauto; eauto; exfalso.
    { match goal with Q1 : attrs_crash _ _ _ _ _ |- _ => destruct Q1 as [Q1 Q2] end.
      destruct AT as [AT|[AT1 AT2]]; [congruence|].
      destruct Q2 as [(Q3 & Q4 & _)|[(d & Q3 & Q4 & _)|(d & -> & _)]].
      - destruct Q4 as [Q4|Q4]; [congruence|]. destruct (c_csrattrs C) as [d|]; [|congruence].
        destruct (AT2 d eq_refl). congruence.
      - destruct (AT2 _ Q3). congruence.
      - destruct (history_in _ _ _ _ _ _ Hist (Se _ (or_introl eq_refl))) as (b1 & x0 & x1 & Q3). cbn in Q3.
        destruct Q3 as (g & Q3 & _). congruence. }
    match goal with Q1 : attrs_absent _ _ _ _ _ |- _ => destruct Q1 as [Q1 Q2] end.
    destruct AT as [AT|[AT1 AT2]]; [congruence|].
    destruct Q2 as [(_ & (d & er & Q3 & Q4 & Q5) & _)|[(er & Q3 & Q5 & Q4 & _)|(d & er & -> & _)]].
    - destruct (AT2 _ Q3). congruence.
    - destruct Q4 as [Q4|Q4]; [congruence|]. destruct (c_csrattrs C) as [d|]; [|congruence].
      destruct (AT2 d eq_refl). congruence.
    - destruct (history_in _ _ _ _ _ _ Hist (Se _ (or_introl eq_refl))) as (b1 & x0 & x1 & Q3). cbn in Q3.
      destruct Q3 as (g & Q3 & _). congruence. }
  assert (CA : forall b uid peer rv crt kt, In (EvCA (kind_of o) b uid peer path rv crt kt) e -> rv = 0 /\ crt <> []).
  { intros * I. destruct (history_in _ _ _ _ _ _ Hist I) as (b1 & x0 & x1 & Q). destruct (kind_of o); cbn in Q, Sig.
    - destruct Q as (f & Q1 & Q2), Sig as (g & G1 & G2). rewrite G1 in Q1. injection Q1 as <-.
      destruct (G2 x0 b uid peer path) as (w' & crt' & G3 & G4). rewrite Q2 in G3. injection G3 as _ -> ->. auto.
    - destruct Q as (f & Q1 & Q2), Sig as (g & G1 & G2). rewrite G1 in Q1. injection Q1 as <-.
      destruct (G2 x0 b uid peer path) as (w' & crt' & G3 & G4). rewrite Q2 in G3. injection G3 as _ -> ->. auto.
    - destruct Q as (f & pk & text & Q1 & _ & _ & Q2), Sig as (g & G1 & G2). rewrite G1 in Q1. injection Q1 as <-.
      destruct (G2 x0 b text uid peer path) as (w' & crt' & kt' & G3 & G4). rewrite Q2 in G3. injection G3 as _ -> -> ->. auto. }
  assert (KG : kind_of o = SERVERKEYGEN_REQ -> forall krv ko, In (EvKeygen krv ko) e -> exists r0 pk r1 r2,
     o_parse_csr O body = Some r0 /\ krv = 0 /\ ko = Some pk /\ 5 <= len (o_key_der O pk) /\ o_set_pubkey O r0 pk = Some r1 /\ o_sign O r1 pk = Some r2).
  { intros K krv ko I. rewrite K in Good. destruct Good as (r0 & g & G1 & Eg & G2).
    destruct (history_in _ _ _ _ _ _ Hist I) as (b1 & x0 & x1 & Q). cbn in Q. destruct Q as (g0 & Q & Qg).
    rewrite Eg in Q. injection Q as <-. destruct (G2 x0) as (w' & pk & r1 & r2 & K1 & K5 & K2 & K3 & K4).
    rewrite Qg in K1. injection K1 as _ -> ->. exists r0, pk, r1, r2. auto 10. }
  assert (PC : o_parse_csr O body <> None).
  { destruct (kind_of o); cbn in Good; [destruct Good as (? & -> & _)|destruct Good as (? & -> & _)|destruct Good as (? & ? & -> & _)]; discriminate. }
  inversion EP; subst; try congruence.
  - destruct (AUT _ _ ltac:(eassumption) Sub) as (? & ? & ? & ? & _). discriminate.
  - destruct (AUT _ _ ltac:(eassumption) Sub) as (au1 & ro1 & s1 & Q & G). injection Q as <- <- <-. apply NGR in G. tauto.
  - match goal with Q : kind_of o = SERVERKEYGEN_REQ |- _ => destruct (KG Q krv ko) as (r0' & pk & r1 & r2 & K1 & K2 & K3 & _ & K4 & K5) end.
    { apply Sub, in_or_app. right. now left. }
    subst. exfalso.
    match goal with Q : _ \/ _ \/ _ |- _ => destruct Q as [[[Q|Q] _]|[[(? & Q & _ & Q2) _]|[(? & ? & Q & _ & Q2 & Q3) _]]] end; congruence.
  - match goal with Q : kind_of o = SERVERKEYGEN_REQ |- _ => destruct (KG Q 0 (Some pk)) as (r0' & pk' & r1 & r2 & K1 & K2 & K3 & K4 & _) end.
    { apply Sub, in_or_app. right. now left. }
    injection K3 as <-. exfalso.
    match goal with Q : est_base64_encode _ _ _ _ = UB |- _ => revert Q end.
    rewrite (Z.mul_comm _ 2), encode_twice; [discriminate|lia|rewrite len_repeat; pose proof (len_nonneg _ (o_key_der O pk)); lia].
  - exfalso. destruct (PREP mid r0 b) as [G _]; auto. intros x I. apply Sub. rewrite in_app_iff. auto.
  - destruct (CHK r0 b s2 ec UB) as [? Q]; auto.
    + apply PREP with mid; auto. intros x I. apply Sub. rewrite !in_app_iff. auto.
    + intros x I. apply Sub. rewrite !in_app_iff. auto.
    + discriminate.
  - destruct (CHK r0 b s2 ec (Ok (err, s'))) as [? Q]; auto.
    + apply PREP with mid; auto. intros x I. apply Sub. rewrite !in_app_iff. auto.
    + intros x I. apply Sub. rewrite !in_app_iff. auto.
    + congruence.
  - exfalso. match goal with Q : cstr (s_uid s1) = UB, Q1 : auth_path _ _ _ _ _ _ _ _ _ _ _ |- _ => apply (auth_uid _ _ _ _ _ _ _ _ _ _ U) in Q1; destruct Q1; congruence end.
  - destruct (CA b uid (t_peer t) rv crt kt) as [-> Nc]. { apply Sub. rewrite !in_app_iff. cbn. auto. }
    assert (err = EST_ERR_NONE) as ->.
    { refine (proj1 (outcome_good C A keep _ _ _ _ _ _ _ HH Nc ltac:(eassumption) _)). intros d ok I. apply (AS d). apply Sub. rewrite !in_app_iff. cbn. auto. }
    destruct Res as [[Q _]|(rc & s1' & Q & Hd)]; [discriminate|]. injection Q as <- <-. rewrite Hd by reflexivity.
    exists e, s', crt, kt. split; auto. split; auto. split; auto. eexists _, _, _, _. apply Sub. rewrite !in_app_iff. cbn. eauto.
Qed.
End P.
