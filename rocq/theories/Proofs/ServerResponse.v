(** Each request gets one response. *)
From Coq Require Import String ZArith List Bool Lia ZifyBool ZifyNat.
From Verif Require Import Base Spec.Http Spec.Server Model.CLib Model.Codec Model.EstErr Model.HttpServer Model.Uri
  Model.AuthHdr Model.Server Proofs.AuthHdr Proofs.ServerAuth Proofs.ServerEnroll Proofs.ServerRequest Proofs.ServerProps
  Proofs.ServerCA Proofs.ServerReply.
Import ListNotations.
Open Scope Z_scope.

Section P.
Context {cert csr key E : Type}.
Variable O : @ossl cert csr key.
Variable C : @config cert.
Variable A : @app cert key E.
Variable parse_uri : bytes -> res (est_error * option operation * option bytes).
Variable attrs_parse : bytes -> res (est_error * bool).
Variable attrs_add_pop : bytes -> res (est_error * bytes).
Variable attrs_check : option (option bytes) -> bytes -> res est_error.
Variable keep : Z -> bool.

Notation event := (@event cert key).
Notation st := (@st E).
Notation request := (est_http_request O C A parse_uri attrs_parse attrs_add_pop attrs_check keep).
Implicit Types (t : @tls cert) (e w : list event) (s : st).

Definition silent e : Prop := Forall (fun x => ~ is_write x) e.
Ltac nonw := let Q := fresh in intros (? & ? & Q); discriminate Q.
Lemma opt_silent : forall b (x : event), ~ is_write x -> silent (opt_ev b x).
Proof. intros b x H. unfold opt_ev. destruct b; repeat constructor; auto. Qed.
Lemma res_silent : forall k pr rv, silent (@res_ev cert key C k pr rv).
Proof. intros. unfold res_ev. destruct (c_ev_auth C); constructor; [|constructor]. nonw. Qed.
Lemma start_silent : forall uri, silent (@start_ev cert key C uri).
Proof. intro. apply opt_silent. nonw. Qed.
Lemma end_silent : forall uri, silent (@end_ev cert key C uri).
Proof. intro. apply opt_silent. nonw. Qed.
Lemma req_silent : forall o b, silent (req_ev O C o b).
Proof. intros. apply opt_silent. nonw. Qed.
Lemma rsp_silent : forall o b rc, silent (rsp_ev O C o b rc).
Proof. intros. apply opt_silent. nonw. Qed.
Lemma prepared_silent : forall k body mid r b, prepared O k body mid r b -> silent mid.
Proof.
  intros k body mid r b H. destruct k; cbn in H.
  - destruct H as (-> & _). constructor.
  - destruct H as (-> & _). constructor.
  - destruct H as (? & ? & ? & ? & -> & _). constructor; [|constructor]. nonw.
Qed.
Lemma present_silent : forall ec b, attrs_present C A attrs_check ec b -> silent ec.
Proof. intros ec b [(_ & ->)|[(_ & _ & _ & ->)|[(_ & _ & _ & ->)|(_ & d & -> & _)]]]; repeat constructor. nonw. Qed.
Lemma absent_silent : forall ec b, attrs_absent C A attrs_check ec b -> silent ec.
Proof. intros ec b (_ & [(_ & _ & ->)|[(er & _ & _ & _ & ->)|(d & er & -> & _)]]); repeat constructor. nonw. Qed.
Lemma crash_silent : forall (ec : list event) b, attrs_crash C A attrs_check ec b -> silent ec.
Proof. intros ec b (_ & [(_ & _ & ->)|[(d & _ & _ & ->)|(d & -> & _)]]); repeat constructor. nonw. Qed.
Lemma checks_silent : forall t r b s ec res, checks_path O C A attrs_check t r b s ec res -> silent ec.
Proof. intros * H. inversion H; subst; try constructor; eauto using present_silent, absent_silent, crash_silent. Qed.

Lemma silent_app : forall e w, silent (e ++ w) <-> silent e /\ silent w.
Proof. intros. apply Forall_app. Qed.
Lemma sent_silent_l : forall e w, silent e -> sent (e ++ w) = sent w.
Proof. intros e w H. rewrite sent_app, (sent_none e H). reflexivity. Qed.
Lemma sent_silent_r : forall e w, silent w -> sent (e ++ w) = sent e.
Proof. intros e w H. rewrite sent_app, (sent_none w H). apply app_nil_r. Qed.

Lemma auth_sends : forall t authz path k body s ea au ro s1, auth_path O C A t authz path k body s ea (Ok (au, ro, s1)) ->
  (au <> HTTP_AUTH_PENDING /\ silent ea)
  \/ (au = HTTP_AUTH_PENDING /\ c_transport C = EST_HTTP
      /\ exists w s0 l, ea = w ++ l /\ silent l /\ mg_send_authorization_request C A s0 = (w, Ok (tt, s1))).
Proof.
  intros * H. inversion H; subst; try (left; split; [|apply res_silent]); try discriminate.
  - unfold tls_state. destruct (t_peer t); [|destruct (is_some _)]; discriminate.
  - left. split; [destruct ok; discriminate|]. constructor; [nonw|apply res_silent].
  - destruct (c_transport C); [unfold refused_state|]; destruct pr; try discriminate. destruct (_ && _); discriminate.
  - left. split; [destruct ok; discriminate|]. constructor; [nonw|apply res_silent].
  - right. repeat split; auto. eexists _, _, _. split; [reflexivity|]. split; [apply res_silent|eassumption].
  - unfold refused_state. destruct pr; try discriminate. unfold tls_state.
    destruct (t_peer t); [|destruct (is_some _)]; destruct (_ && _); discriminate.
  - match goal with Q : _ \/ _ |- _ => destruct Q as [[_ ->]|(_ & _ & ->)] end; discriminate.
Qed.

Notation sane := (Spec.Server.sane C A).

Lemma nothing_issued : forall e k crt kt, Forall (fun x => ~ is_ca x) e -> ~ issued e k crt kt.
Proof.
  intros e k crt kt F (_ & b & uid & peer & path & I). rewrite Forall_forall in F. apply (F _ I). unfold is_ca. eauto 10.
Qed.

Lemma enroll_replies : forall t authz c body path k s eo rc s', is_http C = true -> sane -> all_sent eo ->
  enroll_path O C A attrs_check t authz c body path k s eo (Ok (rc, s')) ->
  (rc = EST_ERR_AUTH_PENDING /\ reply eo 401 [] /\ s_code s' = 401 /\ forall k1 crt kt, ~ issued eo k1 crt kt)
  \/ (rc = EST_ERR_NONE /\ exists crt kt, issued eo k crt kt /\ cert_reply eo k crt kt
      /\ forall k1 crt1 kt1, issued eo k1 crt1 kt1 -> k1 = k /\ crt1 = crt /\ kt1 = kt)
  \/ (rc <> EST_ERR_AUTH_PENDING /\ rc <> EST_ERR_NONE /\ silent eo /\ forall k1 crt kt, ~ issued eo k1 crt kt).
Proof.
  intros * Hh Hs AS H.
  assert (AU : forall ea x, auth_path O C A t authz path k body s ea x -> Forall (fun x => ~ is_ca x) ea).
  { intros * Q. apply nonpriv_nonca. eapply auths_nonpriv, auth_events; eauto. }
  assert (GR : forall ea au ro s1, auth_path O C A t authz path k body s ea (Ok (au, ro, s1)) -> granted au -> silent ea).
  { intros * Q G. destruct (auth_sends _ _ _ _ _ _ _ _ _ _ Q) as [[_ ?]|[-> _]]; auto. destruct G as [G|[G|G]]; discriminate. }
  inversion H; subst.
  - right; right. repeat split; try discriminate; [constructor|]. intros. now apply nothing_issued.
  - right; right. repeat split; try discriminate; [constructor|]. intros. now apply nothing_issued.
  - match goal with Q : _ \/ _ \/ _ |- _ => destruct Q as [[-> ->]|[[-> ->]|[-> ->]]] end;
    match goal with Q : auth_path _ _ _ _ _ _ _ _ _ _ _ |- _ => pose proof (AU _ _ Q) as NC; destruct (auth_sends _ _ _ _ _ _ _ _ _ _ Q) as [[N Si]|(Au & _ & w & s0 & l & -> & Sl & Hw)] end;
    try congruence; try discriminate Au.
    + left. destruct Hs as (Hs1 & Hs2 & Hs3). apply all_sent_app in AS as [AS _].
      destruct (challenge_replies C A _ _ _ Hs1 Hs2 Hs3 Hw AS) as (s2 & hs & Q & R & F & Cd). injection Q as <-. split; [reflexivity|].
      split. { exists hs. rewrite sent_silent_r by auto. auto. }
      split; auto. intros. now apply nothing_issued.
    + right; right. repeat split; auto; try discriminate. intros. now apply nothing_issued.
    + right; right. repeat split; auto; try discriminate. intros. now apply nothing_issued.
  - right; right. repeat split; try discriminate; eauto. intros. apply nothing_issued; eauto.
  - right; right. assert (Q : rc = EST_ERR_NO_KEY \/ rc = EST_ERR_BAD_PKCS10 \/ rc = EST_ERR_X509_SIGN) by tauto.
    split; [intros ->; intuition discriminate|]. split; [intros ->; intuition discriminate|].
    split. { apply silent_app. split; eauto. constructor; [nonw|constructor]. }
    intros. apply nothing_issued. apply Forall_app. split; eauto. constructor; [|constructor]. intros (? & ? & ? & ? & ? & ? & ? & ? & Z0); discriminate.
  - right; right. split; [discriminate|]. split; [discriminate|]. split.
    { apply silent_app. split; eauto. eapply prepared_silent; eauto. }
    intros. apply nothing_issued. apply Forall_app. split; eauto. eapply prepared_nonca; eauto.
  - assert (N : rc = EST_ERR_AUTH_FAIL_TLSUID \/ rc = EST_ERR_CSR_ATTR_MISSING).
    { match goal with Q : checks_path _ _ _ _ _ _ _ _ _ _ |- _ => inversion Q; subst; auto; congruence end. }
    right; right. split; [intros ->; intuition discriminate|]. split; [auto|]. split.
    { rewrite !silent_app. split; eauto. split; [eapply prepared_silent; eauto|eapply checks_silent; eauto]. }
    intros. apply nothing_issued. rewrite !Forall_app. split; eauto. split; [eapply prepared_nonca; eauto|eapply nonpriv_nonca, checks_nonpriv; eauto].
  - rename e into ea.
    set (pre := ea ++ mid ++ ec).
    assert (Si : silent pre).
    { unfold pre. rewrite !silent_app. split; eauto. split; [eapply prepared_silent; eauto|eapply checks_silent; eauto]. }
    assert (Nc : Forall (fun x => ~ is_ca x) pre).
    { unfold pre. rewrite !Forall_app. split; eauto. split; [eapply prepared_nonca; eauto|eapply nonpriv_nonca, checks_nonpriv; eauto]. }
    set (x := EvCA k b uid (t_peer t) path rv crt kt) in *.
    assert (Eq : ea ++ mid ++ ec ++ x :: w = pre ++ x :: w) by (unfold pre; now rewrite <- !app_assoc).
    rewrite Eq in *. clear Eq.
    match goal with Q : outcome _ _ _ _ _ _ _ _ _ _ |- _ => rename Q into Ho end.
    assert (Wr : Forall (fun y => ~ is_ca y) w) by (eapply nonpriv_nonca, writes_nonpriv, outcome_writes; eauto).
    assert (Un : forall k1 crt1 kt1, issued (pre ++ x :: w) k1 crt1 kt1 -> k1 = k /\ rv = 0 /\ crt1 = crt /\ kt1 = kt /\ crt <> []).
    { intros k1 crt1 kt1 (N & b1 & u1 & p1 & pa1 & I). apply in_app_or in I as [I|[I|I]].
      - rewrite Forall_forall in Nc. destruct (Nc _ I). unfold is_ca. eauto 10.
      - unfold x in I. inversion I; subst. auto.
      - rewrite Forall_forall in Wr. destruct (Wr _ I). unfold is_ca. eauto 10. }
    apply all_sent_app in AS as [_ AS].
    assert (ASw : all_sent w) by (intros d ok I; apply (AS d); now right).
    destruct (Z.eq_dec rv 0) as [->|Nz]; [destruct crt as [|c0 crt]|].
    + right; right. assert (B : (0 <> 0) \/ (@nil Z) = []) by (right; reflexivity).
      apply (outcome_bad C A keep) in Ho as (-> & -> & ->); [|exact B]. cbn [Z.eqb].
      split; [discriminate|]. split; [discriminate|]. split.
      { apply silent_app. split; auto. constructor; [nonw|constructor]. }
      intros k1 c1 kt1 I. now apply Un in I as (_ & _ & _ & _ & Q).
    + right; left. apply (outcome_good C A keep) in Ho as (-> & hs & R & F & T); [|exact Hh|discriminate|exact ASw].
      split; [reflexivity|]. exists (c0 :: crt), kt. split; [split; [discriminate|]|split].
      * exists b, uid, (t_peer t), path. apply in_or_app. right. now left.
      * exists hs. rewrite sent_silent_l by auto. auto.
      * intros k1 c1 kt1 I. apply Un in I. tauto.
    + right; right. assert (B : rv <> 0 \/ crt = []) by (left; exact Nz).
      apply (outcome_bad C A keep) in Ho as (-> & -> & ->); [|exact B].
      assert (Q : forall a, (if rv =? 26 then EST_ERR_CA_ENROLL_RETRY else EST_ERR_CA_ENROLL_FAIL) = a -> a <> EST_ERR_AUTH_PENDING /\ a <> EST_ERR_NONE)
        by (intros a <-; destruct (rv =? 26); split; discriminate).
      destruct (Q _ eq_refl). split; auto. split; auto. split.
      { apply silent_app. split; auto. constructor; [nonw|constructor]. }
      intros k1 c1 kt1 I. apply Un in I. tauto.
Qed.

Lemma cacerts_replies : forall path s eo rc s', all_sent eo -> est_server_handle_cacerts C A path s = (eo, Ok (rc, s')) ->
  (rc = EST_ERR_NONE /\ exists d, reply eo 200 d /\ (c_cacerts C = Some d \/ In (EvCacerts path (Some d)) eo))
  \/ (rc = EST_ERR_HTTP_NO_CONTENT /\ silent eo /\ (In (EvCacerts path None) eo \/ a_cacerts A = None /\ c_cacerts C = None)).
Proof.
  intros path s eo rc s' AS H. unfold est_server_handle_cacerts in H. destruct (a_cacerts A) as [f|].
  - apply mbind_inv in H as [[H Q]|(e1 & r & s1 & e2 & H1 & H & ->)]; [discriminate|].
    unfold call in H1. destruct (f (s_env s) path) as [e' x]. inversion H1; subst. clear H1.
    apply mbind_inv in H as [[H _]|(e3 & [] & s2 & e4 & H2 & H & ->)]; [discriminate|]. inversion H2; subst. clear H2.
    cbn [Datatypes.app] in *. destruct r as [d|].
    + left. assert (AS4 : all_sent e4) by (intros ? ? I; eapply AS; right; eauto).
      apply send_200_replies in H as [-> (hs & R & F & _)]; auto; [|line]. split; auto. exists d. split; [exists hs; auto|]. right; now left.
    + right. inversion H; subst. split; auto. split; [constructor; [nonw|constructor]|]. left; now left.
  - destruct (c_cacerts C) as [d|] eqn:Ec.
    + left. cbn [est_handle_cacerts] in H. apply send_200_replies in H as [-> (hs & R & F & _)]; auto; [|line]. split; auto. exists d. split; [exists hs; auto|]. now left.
    + right. inversion H; subst. split; auto. split; [constructor|]. right; auto.
Qed.

Lemma send_csrattr_replies : forall d s w er s', 0 <= c_retry C -> est_send_csrattr_data C A keep d s = (w, Ok (er, s')) -> all_sent w ->
  er = EST_ERR_NONE /\ ((exists x, d = Some x /\ x <> [] /\ reply w 200 x) \/ ((d = None \/ d = Some []) /\ reply w 204 [])).
Proof.
  intros d s w er s' Hr H AS. unfold est_send_csrattr_data in H.
  assert (G : mbind (est_send_http_error A keep (c_retry C) EST_ERR_HTTP_NO_CONTENT) (fun _ => ret EST_ERR_NONE) s = (w, Ok (er, s')) ->
     er = EST_ERR_NONE /\ reply w 204 []).
  { intro Q. apply mbind_inv in Q as [[Q _]|(e1 & [] & s1 & e2 & H1 & Q & ->)].
    { destruct (writes_error A keep _ _ _ _ _ Q) as (_ & ? & ? & R & _). discriminate. }
    inversion Q; subst. rewrite app_nil_r in *. split; auto.
    destruct (error_replies A keep _ _ _ _ _ Hr H1 AS) as (s2 & hs & body & _ & R & F & _ & B4 & _).
    cbn [http_status] in *. rewrite B4 in * by reflexivity. now exists hs. }
  destruct d as [[|x l]|].
  - destruct (G H). split; auto.
  - apply send_200_replies in H as [-> (hs & R & F & _)]; auto; [|line]. split; auto. left.
    exists (x :: l). split; [reflexivity|]. split; [discriminate|]. now exists hs.
  - destruct (G H). split; auto.
Qed.

Lemma csrattrs_replies : forall t path s eo rc s', 0 <= c_retry C -> all_sent eo ->
  (forall b er b2, attrs_add_pop b = Ok (er, b2) -> er = EST_ERR_NONE -> b2 <> []) ->
  (forall b er p, attrs_parse b = Ok (er, p) -> er <> EST_ERR_AUTH_PENDING) -> (forall b er b2, attrs_add_pop b = Ok (er, b2) -> er <> EST_ERR_AUTH_PENDING) ->
  est_handle_csr_attrs C A attrs_parse attrs_add_pop keep t path s = (eo, Ok (rc, s')) ->
  (rc = EST_ERR_NONE /\ exists code d, (code = 200 /\ d <> [] \/ code = 204 /\ d = []) /\ reply eo code d)
  \/ (rc <> EST_ERR_NONE /\ rc <> EST_ERR_AUTH_PENDING /\ silent eo).
Proof.
  intros t path s eo rc s' Hr AS Ha Hp1 Hp2 H. unfold est_handle_csr_attrs in H.
  assert (G : forall d s w rc s', est_send_csrattr_data C A keep d s = (w, Ok (rc, s')) -> all_sent w ->
    rc = EST_ERR_NONE /\ exists code x, (code = 200 /\ x <> [] \/ code = 204 /\ x = []) /\ reply w code x).
  { intros d s0 w rc0 s1 Q AS1. apply send_csrattr_replies in Q as [-> [(x & _ & N & R)|(_ & R)]]; auto; split; auto.
    - exists 200, x. auto.
    - exists 204, []. auto. }
  destruct (a_csrattrs A) as [f|].
  - apply mbind_inv in H as [[H Q]|(e1 & r & s1 & e2 & H1 & H & ->)]; [discriminate|].
    unfold call in H1. destruct (f (s_env s) path (t_peer t)) as [e' x]. inversion H1; subst. clear H1.
    apply mbind_inv in H as [[H _]|(e3 & [] & s2 & e4 & H2 & H & ->)]; [discriminate|]. inversion H2; subst. clear H2.
    cbn [Datatypes.app] in *.
    assert (AS4 : all_sent e4) by (intros ? ? I; eapply AS; right; eauto).
    assert (S1 : silent [EvCsrattrs path r]) by (constructor; [nonw|constructor]).
    assert (W : forall d, est_send_csrattr_data C A keep d
      {| s_env := e'; s_uid := s_uid s; s_code := s_code s |} = (e4, Ok (rc, s')) ->
      rc = EST_ERR_NONE /\ exists code d, (code = 200 /\ d <> [] \/ code = 204 /\ d = []) /\ reply (EvCsrattrs path r :: e4) code d).
    { intros d Q. exact (G _ _ _ _ _ Q AS4). }
    assert (N : forall er, er <> EST_ERR_NONE -> er <> EST_ERR_AUTH_PENDING -> @ret cert key E _ er
      {| s_env := e'; s_uid := s_uid s; s_code := s_code s |} = (e4, Ok (rc, s')) ->
      rc <> EST_ERR_NONE /\ rc <> EST_ERR_AUTH_PENDING /\ silent (EvCsrattrs path r :: e4)).
    { intros er Ne Np Q. inversion Q; subst. auto. }
    destruct r as [[|x l]|]; try (left; eapply W; exact H).
    destruct (attrs_parse (x :: l)) as [[er p]|] eqn:Ep; [|discriminate].
    change (lift (Ok (er, p))) with (@ret cert key E _ (er, p)) in H. rewrite mbind_ret in H. cbv iota beta in H.
    destruct (err_none_dec er) as [->|[Ne _]].
    + destruct (c_pop C && negb p); [|left; eapply W; exact H].
      destruct (attrs_add_pop (x :: l)) as [[er b2]|] eqn:Eb; [|discriminate].
      change (lift (Ok (er, b2))) with (@ret cert key E _ (er, b2)) in H. rewrite mbind_ret in H. cbv iota beta in H.
      destruct (err_none_dec er) as [->|[Ne _]]; [left; eapply W; exact H|].
      right. apply (N er); eauto. destruct er; try congruence; exact H.
    + right. apply (N er); eauto. destruct er; try congruence; exact H.
  - destruct (c_csrattrs C) as [d|]; [left; eapply G; eauto|]. destruct (negb (c_pop C)); [|left; eapply G; eauto].
    right. inversion H; subst. repeat split; try discriminate. constructor.
Qed.

Lemma enroll_run : forall t authz c body p o s eo ro, enrolls o = true ->
  run_op O C A attrs_parse attrs_add_pop attrs_check keep t authz c body p o s = (eo, ro) ->
  enroll_path O C A attrs_check t authz c body p (kind_of o) s eo ro.
Proof. intros * En Q. destruct o; try discriminate En; now apply enroll_paths in Q. Qed.

Notation attrs_sane := (Spec.Server.attrs_sane attrs_parse attrs_add_pop).

(** The operation's own part of the reply. *)
Lemma op_replies : forall t authz c body p o s eo rc s', 0 <= c_retry C -> is_http C = true -> sane -> attrs_sane ->
  posts o && negb (enrolls o) = false -> all_sent eo ->
  run_op O C A attrs_parse attrs_add_pop attrs_check keep t authz c body p o s = (eo, Ok (rc, s')) ->
  (is_done o rc = true /\ exists code d, In code [200; 204; 401] /\ reply eo code d) \/ (is_done o rc = false /\ silent eo).
Proof.
  intros t authz c body p o s eo rc s' Hr Hh Hs (Ha1 & Ha2 & Ha3) Nb AS H.
  assert (EN : enrolls o = true -> (is_done o rc = true /\ exists code d, In code [200; 204; 401] /\ reply eo code d) \/ (is_done o rc = false /\ silent eo)).
  { intro En. apply enroll_run in H; auto. apply enroll_replies in H as [(-> & R & _)|[(-> & crt & kt & _ & (hs & R & F & _) & _)|(N1 & N2 & Si & _)]]; auto.
    - left. split; [destruct o; try discriminate En; reflexivity|]. exists 401, []. cbn; auto.
    - left. split; [reflexivity|]. eexists 200, _. split; [cbn; auto|]. exists hs; eauto.
    - right. split; auto. destruct rc; try reflexivity; congruence. }
  destruct o; try discriminate Nb; try (apply EN; reflexivity); clear EN; cbn [run_op] in H.
  - apply cacerts_replies in H as [(-> & d & R & _)|(-> & Si & _)]; auto. left. split; auto. exists 200, d. cbn; auto.
  - apply csrattrs_replies in H as [(-> & code & d & Hc & R)|(N1 & N2 & Si)]; auto.
    + left. split; auto. exists code, d. split; auto. destruct Hc as [[-> _]|[-> _]]; cbn; auto.
    + right. split; auto. destruct rc; try reflexivity; congruence.
Qed.

Theorem one_response : forall t method uri body ct authz s e rc s', 0 <= c_retry C -> is_http C = true -> sane -> attrs_sane ->
  (forall o p, parse_uri uri = Ok (EST_ERR_NONE, Some o, p) -> posts o && negb (enrolls o) = false) ->
  all_sent e -> request t method uri body ct authz s = (e, Ok (rc, s')) ->
  exists code d, reply e code d
    /\ (rc <> EST_ERR_NONE -> code = http_status rc)
    /\ (rc = EST_ERR_NONE -> In code [200; 204; 401] \/ (code = 500 /\ exists p, parse_uri uri = Ok (EST_ERR_NONE, None, p))).
Proof.
  intros * Hr Hh Hs Ha Nb AS H. apply request_paths in H.
  pose proof (start_silent uri) as S1. pose proof (end_silent uri) as S2.
  inversion H; subst.
  - apply all_sent_app in AS as [_ AS].
    match goal with Q : est_send_http_error _ _ _ _ _ = _ |- _ => destruct (error_replies A keep _ _ _ _ _ Hr Q AS) as (s2 & hs & d & _ & R & F & _) end.
    exists (http_status rc), d. split; [|split; auto].
    + exists hs. rewrite sent_silent_l by auto. auto.
    + intros ->. exfalso. match goal with Q : refusal _ _ _ _ _ |- _ => destruct Q as [[Q _]|[[Q _]|[Q _]]] end; congruence.
  - rewrite !all_sent_app in AS. destruct AS as (_ & AS & _).
    match goal with Q : est_send_http_error _ _ _ _ _ = _ |- _ => destruct (error_replies A keep _ _ _ _ _ Hr Q AS) as (s2 & hs & d & _ & R & F & _) end.
    exists 500, d. split; [|split; [congruence|eauto]].
    exists hs. rewrite sent_silent_l, sent_silent_r by auto. auto.
  - rewrite !all_sent_app in AS. destruct AS as (_ & _ & AS & _).
    match goal with Q : run_op _ _ _ _ _ _ _ _ _ _ _ _ _ _ = _ |- _ => apply op_replies in Q as [(_ & code & d & Ic & hs & R & F)|[Nd _]]; eauto; [|congruence] end.
    exists code, d. split; [|split; [congruence|auto]].
    exists hs. rewrite sent_silent_l by auto. rewrite sent_silent_l by apply req_silent.
    rewrite sent_silent_r by (apply silent_app; split; auto; apply rsp_silent). auto.
  - rewrite !all_sent_app in AS. destruct AS as (_ & _ & AS & _ & AS2).
    match goal with Q : run_op _ _ _ _ _ _ _ _ _ _ _ _ _ _ = _ |- _ => apply op_replies in Q as [(Dn & _)|[Nd Si]]; eauto; [congruence|] end.
    match goal with Q : est_send_http_error _ _ _ _ _ = _ |- _ => destruct (error_replies A keep _ _ _ _ _ Hr Q AS2) as (s2 & hs & d & _ & R & F & _) end.
    assert (Er : reported o rc = rc) by (unfold reported; erewrite Nb by eassumption; reflexivity).
    rewrite Er in *. exists (http_status rc), d. split; [|split; auto].
    + exists hs. rewrite sent_silent_l by auto. rewrite sent_silent_l by apply req_silent. rewrite sent_silent_l by auto.
      rewrite sent_silent_l by apply rsp_silent. auto.
    + intros ->. discriminate.
Qed.

Lemma issued_app : forall e w k crt kt, issued (e ++ w) k crt kt <-> issued e k crt kt \/ issued w k crt kt.
Proof.
  intros. unfold issued. split.
  - intros (N & b & u & p & pa & I). apply in_app_or in I as [I|I]; [left|right]; split; eauto.
  - intros [(N & b & u & p & pa & I)|(N & b & u & p & pa & I)]; (split; [auto|]); exists b, u, p, pa; apply in_or_app; auto.
Qed.

(** A 200 response to an enrollment is the CA's certificate, and vice versa. *)
Theorem enrollment_response : forall t method uri body ct authz s e rc s' o p, 0 <= c_retry C -> is_http C = true -> sane ->
  parse_uri uri = Ok (EST_ERR_NONE, Some o, p) -> enrolls o = true ->
  all_sent e -> request t method uri body ct authz s = (e, Ok (rc, s')) ->
  (exists crt kt, issued e (kind_of o) crt kt /\ cert_reply e (kind_of o) crt kt /\ rc = EST_ERR_NONE
     /\ forall k1 crt1 kt1, issued e k1 crt1 kt1 -> k1 = kind_of o /\ crt1 = crt /\ kt1 = kt)
  \/ ((forall k1 crt1 kt1, ~ issued e k1 crt1 kt1) /\ exists code d, code <> 200 /\ reply e code d).
Proof.
  intros t method uri body ct authz s e rc s' o p Hr Hh Hs Pu En AS H. apply request_paths in H.
  pose proof (start_silent uri) as S1. pose proof (end_silent uri) as S2.
  assert (N200 : forall er, http_status er <> 200) by (destruct er; discriminate).
  assert (NI : forall e, Forall (fun x => ~ privileged x) e -> forall k crt kt, ~ issued e k crt kt)
    by (intros; apply nothing_issued, nonpriv_nonca; auto).
  inversion H; subst.
  - apply all_sent_app in AS as [_ AS]. right.
    match goal with Q : est_send_http_error _ _ _ _ _ = _ |- _ => pose proof (error_nonpriv A keep _ _ _ _ _ Q) as NP;
      destruct (error_replies A keep _ _ _ _ _ Hr Q AS) as (s2 & hs & d & _ & R & F & _) end.
    split. { intros k1 c1 kt1 I. apply issued_app in I as [I|I]; revert I; apply NI; auto. apply start_nonpriv. }
    eexists _, d. split; [apply N200|]. exists hs. rewrite sent_silent_l by auto. eauto.
  - congruence.
  - match goal with Q : parse_uri uri = Ok (_, Some ?o1, ?p1) |- _ => assert (o1 = o /\ p1 = p) as [-> ->] by (rewrite Q in Pu; inversion Pu; auto) end.
    rewrite !all_sent_app in AS. destruct AS as (_ & _ & AS & _).
    assert (Is : forall k1 c1 kt1, issued (start_ev C uri ++ req_ev O C o body ++ e0 ++ rsp_ev O C o body rc0 ++ end_ev C uri) k1 c1 kt1
                 <-> issued e0 k1 c1 kt1).
    { intros. rewrite !issued_app. split; [|tauto].
      intros [I|[I|[I|[I|I]]]]; auto; exfalso; revert I; apply NI; first [apply start_nonpriv|apply req_nonpriv|apply rsp_nonpriv|apply end_nonpriv]. }
    assert (Se : sent (start_ev C uri ++ req_ev O C o body ++ e0 ++ rsp_ev O C o body rc0 ++ end_ev C uri) = sent e0).
    { rewrite sent_silent_l by auto. rewrite sent_silent_l by apply req_silent.
      rewrite sent_silent_r by (apply silent_app; split; auto; apply rsp_silent). auto. }
    match goal with Q : run_op _ _ _ _ _ _ _ _ _ _ _ _ _ _ = _ |- _ => apply enroll_run in Q; auto;
      apply enroll_replies in Q as [(-> & (hs & R & F) & _ & N)|[(-> & crt & kt & I & Rp & U)|(N1 & N2 & _)]]; auto end.
    + right. split. { intros k1 c1 kt1 I. apply Is in I. eapply N; eauto. }
      exists 401, []. split; [discriminate|]. exists hs. rewrite Se. auto.
    + left. exists crt, kt. split; [now apply Is|]. split; [unfold cert_reply; now rewrite Se|]. split; auto.
      intros k1 c1 kt1 I1. apply Is in I1. eauto.
    + exfalso. match goal with Q : is_done _ _ = true |- _ => unfold is_done in Q; destruct rc0; congruence end.
  - match goal with Q : parse_uri uri = Ok (_, Some ?o1, ?p1) |- _ => assert (o1 = o /\ p1 = p) as [-> ->] by (rewrite Q in Pu; inversion Pu; auto) end.
    rewrite !all_sent_app in AS. destruct AS as (_ & _ & AS & _ & AS2). right.
    match goal with Q : est_send_http_error _ _ _ _ _ = _ |- _ => pose proof (error_nonpriv A keep _ _ _ _ _ Q) as NP;
      destruct (error_replies A keep _ _ _ _ _ Hr Q AS2) as (s2 & hs & d & _ & R & F & _) end.
    match goal with Q : run_op _ _ _ _ _ _ _ _ _ _ _ _ _ _ = _ |- _ => apply enroll_run in Q; auto;
      apply enroll_replies in Q as [(-> & _)|[(-> & _)|(_ & _ & Si & N)]]; auto end.
    + exfalso. match goal with Q : is_done _ _ = false |- _ => destruct o; discriminate end.
    + exfalso. match goal with Q : is_done _ _ = false |- _ => discriminate end.
    + split.
      { intros k1 c1 kt1. rewrite !issued_app.
        intros [I|[I|[I|[I|I]]]]; try (revert I; apply NI; first [apply start_nonpriv|apply req_nonpriv|apply rsp_nonpriv|assumption]). now apply N in I. }
      eexists _, d. split; [apply N200|]. exists hs.
      rewrite sent_silent_l by auto. rewrite sent_silent_l by apply req_silent. rewrite sent_silent_l by auto.
      rewrite sent_silent_l by apply rsp_silent. eauto.
Qed.
End P.
