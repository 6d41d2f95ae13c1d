(** Enrollments the proxy answers itself: none with a certificate. *)
From Coq Require Import String ZArith List Bool Lia ZifyBool ZifyNat.
From Verif Require Import Base Spec.Http Spec.Server Spec.Relay Spec.Multipart Model.CLib Model.EstErr Model.Codec Model.Uri Model.AuthHdr Model.HttpServer Model.CsrAttrs Model.ClientHttp Model.Server Model.Relay
  Proofs.EstErr Proofs.Uri Proofs.ServerAuth Proofs.ServerEnroll Proofs.ServerReply Proofs.ServerProps Proofs.ServerClaims Proofs.ServerResponse Proofs.RelayRequest Proofs.RelayReply Proofs.RelayFetch Proofs.RelayOutcome.
From Verif Require Spec.ClientCalls Model.Client Proofs.ClientCalls Proofs.RelayCourse Proofs.RelayAnswer Proofs.ClientChallenge.
Import ListNotations.
Open Scope Z_scope.

Lemma response_200 : forall d code hs body, response d code hs body -> starts (str "HTTP/1.1 200") d -> code = 200.
Proof.
  intros d code hs body (num & reason & Hd & Hl & _ & _ & E) [rest S]. rewrite E in S.
  change (str "HTTP/1.1 200") with (str "HTTP/1.1 " ++ str "200") in S. rewrite <- app_assoc in S. apply app_inv_head in S.
  apply (f_equal (firstn 3)) in S. rewrite firstn_app in S. unfold len in Hl. replace (3 - length num)%nat with 0%nat in S by lia. rewrite firstn_O, app_nil_r, firstn_all2 in S by lia.
  change (firstn 3 (str "200" ++ rest)) with (str "200") in S. subst num. destruct Hd as [_ Hd]. revert Hd. cbn. intuition.
Qed.
Lemma http_status_fails : forall x, http_status x <> 200.
Proof. destruct x; discriminate. Qed.
Lemma starts_other : forall p q d, starts p d -> starts q d -> len p = len q -> p = q.
Proof.
  intros p q d [x ->] [y E] L. unfold len in L. apply (f_equal (firstn (length p))) in E. rewrite firstn_app, Nat.sub_diag, firstn_O, app_nil_r, firstn_all in E. rewrite E.
  replace (length p) with (length q) by lia. rewrite firstn_app, Nat.sub_diag, firstn_O, app_nil_r, firstn_all. reflexivity.
Qed.

Section P.
Context {cert csr key E : Type}.
Variable O : @ossl cert csr key.
Variable C : @config cert.
Variable A : @app cert key E.
Variable parse_uri : bytes -> res (est_error * option operation * option bytes).
Variable keep : Z -> bool.
Variable X : Client.ext.
Variable own_path : option bytes.
Variable have_ctx : bool.
Variable n : nat.
Notation fuel := (S (S n)).
Notation pevent := (@pevent cert key).
Notation event := (@event cert key).
Notation pst := (@pst E).
Notation request := (est_proxy_http_request O C A parse_uri keep X own_path have_ctx fuel).
Implicit Types (s : pst) (e : list pevent).

(** The first line sent, if anything is. *)
Definition challenged (d : list event) : Prop := sent d = [] \/ starts (str "HTTP/1.1 401") (sent d).
Lemma challenge_start : forall (s : @st E) w r, mg_send_authorization_request C A s = (w, r) -> challenged w.
Proof.
  intros s w r H. unfold challenged. destruct (c_auth_mode C) eqn:Em.
  1, 5: left; unfold mg_send_authorization_request in H; rewrite Em in H; injection H as <- _; reflexivity.
  all: right; destruct (ClientChallenge.own_sent C A s w r) as (sc & _ & ->); [unfold challenges; now rewrite Em|exact H|]; eexists; reflexivity.
Qed.
(** What the proxy's own checks can end with. *)
Definition own_error (rc : est_error) : Prop :=
  In rc [EST_ERR_BAD_CONTENT_TYPE; EST_ERR_BAD_PKCS10; EST_ERR_AUTH_FAIL; EST_ERR_AUTH_FAIL_TLSUID; EST_ERR_NO_CTX].
Lemma path_sent : forall t authz path k body sd d r, auth_path O C A t authz path k body sd d r ->
  sent d = [] \/ (challenged d /\ exists ro u, r = Ok (HTTP_AUTH_PENDING, ro, u)).
Proof.
  intros * H.
  assert (Q : forall kk pr rv, sent (@res_ev cert key C kk pr rv) = []) by (intros; unfold res_ev; destruct (c_ev_auth C); reflexivity).
  inversion H; subst; try (left; first [reflexivity|apply Q]).
  right. split; [|eauto]. unfold challenged. rewrite sent_app, Q, app_nil_r. eapply challenge_start; eassumption.
Qed.
Lemma own_checks_sent : forall t authz ct body path k s e r, own_checks O C A t authz ct body path k s = (e, r) ->
  exists d, e = map Dn d /\ ((sent d = [] /\ (r = UB \/ (exists s', r = Ok (EST_ERR_NONE, s')) \/ exists rc s', r = Ok (rc, s') /\ own_error rc))
     \/ (challenged d /\ exists s', r = Ok (EST_ERR_AUTH_PENDING, s'))).
Proof.
  intros * H. unfold own_checks in H. destruct (is_http C && _).
  { apply pret_inv in H as [-> ->]. exists []. split; [reflexivity|]. left. split; [reflexivity|]. right. right. eexists _, _. split; [reflexivity|]. cbn. auto. }
  apply pbind_inv in H as [[H ->]|(e1 & [au r0] & s1 & e2 & H1 & H & ->)].
  - apply dn_inv in H as (d & q & H1 & -> & [[-> _]|(y & u & -> & H1')]); [|discriminate]. apply enroll_auth_paths in H1. exists d. split; [reflexivity|]. left. split; [|auto].
    apply path_sent in H1 as [H1|[_ (? & ? & H1)]]; [exact H1|discriminate].
  - apply dn_inv in H1 as (d & q & H1 & -> & [[-> H1']|(y & u & -> & H1')]); [discriminate|]. injection H1' as <- ->.
    apply enroll_auth_paths in H1. apply path_sent in H1 as H1. 
    assert (F : sent d = [] -> match (match r0 with Some r => Some r | None => o_parse_csr O body end) with
      | None => pret EST_ERR_BAD_PKCS10
      | Some r => if negb (est_server_check_csr O r) then pret EST_ERR_BAD_PKCS10
        else pbind (plift (est_tls_uid_auth O C t r)) (fun er => pret (if err_eqb er EST_ERR_NONE then EST_ERR_NONE else EST_ERR_AUTH_FAIL_TLSUID)) end {| p_dn := u; p_up := p_up s; p_delay := p_delay s |}
      = (e2, r) -> exists d0, map Dn d ++ e2 = map Dn d0 /\ ((sent d0 = [] /\ (r = UB \/ (exists s', r = Ok (EST_ERR_NONE, s')) \/ exists rc s', r = Ok (rc, s') /\ own_error rc))
     \/ (challenged d0 /\ exists s', r = Ok (EST_ERR_AUTH_PENDING, s')))).
    { intros Sd K. exists d.
      assert (B : forall rc, own_error rc -> pret rc {| p_dn := u; p_up := p_up s; p_delay := p_delay s |} = (e2, r) -> map Dn d ++ e2 = map Dn d /\ ((sent d = [] /\ (r = UB \/ (exists s', r = Ok (EST_ERR_NONE, s')) \/ exists rc s', r = Ok (rc, s') /\ own_error rc))
     \/ (challenged d /\ exists s', r = Ok (EST_ERR_AUTH_PENDING, s')))).
      { intros rc Ho K0. apply pret_inv in K0 as [-> ->]. rewrite app_nil_r. split; [reflexivity|]. left. split; [exact Sd|]. right. right. eauto. }
      destruct (match r0 with Some r => Some r | None => o_parse_csr O body end) as [q|]; [|eapply B; [|exact K]; cbn; auto].
      destruct (negb _); [eapply B; [|exact K]; cbn; auto|].
      apply pbind_inv in K as [[K ->]|(e3 & er & s3 & e4 & K1 & K & ->)].
      - apply plift_inv in K as [-> _]. rewrite app_nil_r. auto 6.
      - apply plift_inv in K1 as [-> [[_ K1]|(er' & K0 & K1)]]; [discriminate|]. injection K1 as -> ->. destruct (err_eqb er' EST_ERR_NONE); [|eapply B; [|exact K]; cbn; auto].
        apply pret_inv in K as [-> ->]. rewrite app_nil_r. split; [reflexivity|]. left. split; [exact Sd|]. eauto. }
    assert (G : forall rc, own_error rc -> sent d = [] -> pret rc {| p_dn := u; p_up := p_up s; p_delay := p_delay s |} = (e2, r) -> exists d0, map Dn d ++ e2 = map Dn d0 /\ ((sent d0 = [] /\ (r = UB \/ (exists s', r = Ok (EST_ERR_NONE, s')) \/ exists rc s', r = Ok (rc, s') /\ own_error rc))
     \/ (challenged d0 /\ exists s', r = Ok (EST_ERR_AUTH_PENDING, s')))).
    { intros rc Ho Sd K0. apply pret_inv in K0 as [-> ->]. exists d. rewrite app_nil_r. split; [reflexivity|]. left. split; [exact Sd|]. right. right. eauto. }
    destruct H1 as [H1|[H1 (ro & u0 & H2)]].
    + destruct au; first [exact (F H1 H)|solve [eapply G; [|exact H1|exact H]; cbn; auto]|idtac].
      apply pret_inv in H as [-> ->]. exists d. rewrite app_nil_r. split; [reflexivity|]. right. split; [now left|eauto].
    + injection H2 as -> -> ->. apply pret_inv in H as [-> ->]. exists d. rewrite app_nil_r. split; [reflexivity|]. right. eauto.
Qed.
Lemma course_talks : forall g op body c w evs out w', RelayCourse.course X g op body c w evs out w' -> evs <> [].
Proof. intros * H. inversion H as [? Hc|? ? ? ? ? Hc|? ? ? ? ? ? ? ? ? ? ? ? ? Hc]; subst; try discriminate; inversion Hc; discriminate. Qed.
Lemma enroll_local : forall t authz ct body path k s e r, est_proxy_handle_enroll O C A X own_path have_ctx fuel t authz ct body path k s = (e, r) -> ups e = [] ->
  exists d, e = map Dn d /\ ((sent d = [] /\ (r = UB \/ exists rc s', r = Ok (rc, [], [], s') /\ own_error rc)) \/ (challenged d /\ exists s', r = Ok (EST_ERR_AUTH_PENDING, [], [], s'))).
Proof.
  intros * H U. pose proof H as H0. unfold est_proxy_handle_enroll in H.
  apply pbind_inv in H as [[H ->]|(e1 & rc & s1 & e2 & H1 & H & ->)].
  - apply own_checks_sent in H as (d & -> & [[Sd _]|[_ (? & H)]]); [|discriminate]. exists d. auto.
  - apply own_checks_sent in H1 as (d & -> & [[Sd H1]|[Sd (s' & H1)]]).
    2: { injection H1 as -> ->. apply pret_inv in H as [-> ->]. exists d. rewrite app_nil_r. split; [reflexivity|]. right. eauto. }
    destruct H1 as [H1|[(s' & H1)|(rc' & s' & H1 & Ho)]]; [discriminate| |].
    2: { injection H1 as -> ->. replace (negb (err_eqb rc' EST_ERR_NONE)) with true in H by (cbn in Ho; intuition (subst; reflexivity)). apply pret_inv in H as [-> ->]. exists d. rewrite app_nil_r. split; [reflexivity|]. left. split; [exact Sd|]. eauto. }
    injection H1 as -> ->. change (negb (err_eqb EST_ERR_NONE EST_ERR_NONE)) with false in H. cbv iota in H.
    destruct (bool_dec have_ctx false) as [Hc|Hc].
    { rewrite Hc in H. cbn [negb] in H. apply pret_inv in H as [-> ->]. exists d. rewrite app_nil_r. split; [reflexivity|]. left. split; [exact Sd|]. right. eexists _, _. split; [reflexivity|]. cbn. auto 6. }
    exfalso. destruct (@choose_run cert key E own_path path s') as (c0 & Hch & _). apply not_false_is_true in Hc. rewrite Hc in H. cbn [negb] in H.
    rewrite ups_app, ups_dn in U. cbn [Datatypes.app] in U.
    apply pbind_inv in H as [[H _]|(e3 & rc & s2 & e4 & H1 & H & ->)]; [rewrite Hch in H; discriminate|].
    rewrite Hch in H1. injection H1 as <- <- <-. change (negb (err_eqb EST_ERR_NONE EST_ERR_NONE)) with false in H. cbv iota in H. cbn [Datatypes.app] in U.
    destruct (RelayCourse.try_course (key := key) C X n (op_of k) body (put_client s' c0)) as (evs & out & w' & Co & Tr).
    apply course_talks in Co. apply Co.
    apply pbind_inv in H as [[H _]|(e5 & [[rv pk] x] & s3 & e6 & H1 & H & ->)].
    + rewrite Tr in H. apply pair_equal_spec in H as [<- _]. now rewrite ups_up in U.
    + rewrite Tr in H1. apply pair_equal_spec in H1 as [<- _]. rewrite ups_app, ups_up in U. now apply app_eq_nil in U.
Qed.

Lemma refuse_other : forall x (y : est_error) s e r, x <> EST_ERR_CA_ENROLL_RETRY -> pbind (pbind get_delay (fun d => dn (est_send_http_error A keep d x))) (fun _ => pret y) s = (e, r) ->
  exists d, e = map Dn d /\ (all_sent d -> ~ starts (str "HTTP/1.1 200") (sent d)).
Proof.
  intros x y s e r Nx H. apply refuse_run in H as (d & -> & _ & H). exists d. split; [reflexivity|]. intros AS S. destruct (H ltac:(intro; contradiction) AS) as (_ & hs & b & R & _).
  apply response_200 in R; [|exact S]. exact (http_status_fails _ R).
Qed.
Lemma unsent_request : forall t method uri body ct authz s e r o path, request t method uri body ct authz s = (e, r) ->
  parse_uri uri = Ok (EST_ERR_NONE, Some o, path) -> enrolls o = true -> ups e = [] -> all_sent (downs e) -> ~ starts (str "HTTP/1.1 200") (sent (downs e)).
Proof.
  intros t method uri body ct authz s e r o path H Hu Eo Nu AS. unfold est_proxy_http_request in H.
  apply pbind_inv in H as [[H _]|(e1 & x & s1 & e2 & H1 & H & ->)]; [apply emit_run in H as [_ H]; discriminate|]. apply emit_run in H1 as [-> H1]. injection H1 as -> ->.
  rewrite ups_app, ups_dn in Nu. cbn [Datatypes.app] in Nu. set (d0 := if c_ev_endpoint C then [EvReqStart uri] else []) in *.
  assert (F0 : Forall quiet d0) by (unfold d0; apply quiet_if; discriminate).
  rewrite downs_app, downs_dn in *. apply all_sent_app in AS as [_ AS]. destruct (sent_quiet_app d0 (downs e2) F0) as [-> _].
  apply pbind_inv in H as [[H _]|(e3 & [[pe op] pth] & s2 & e4 & H1 & H & ->)]; [apply plift_inv in H as [_ [[H _]|(? & _ & H)]]; congruence|].
  apply plift_inv in H1 as [-> [[_ H1]|(y & H0 & H1)]]; [discriminate|]. rewrite Hu in H0. injection H0 as <-. injection H1 as -> -> -> ->.
  change (negb (err_eqb EST_ERR_NONE EST_ERR_NONE)) with false in H. cbv iota in H. cbn [Datatypes.app] in *.
  assert (H' : (if negb (strncmp_eq 5 method (str "POST")) then pbind (pbind get_delay (fun d => dn (est_send_http_error A keep d EST_ERR_WRONG_METHOD))) (fun _ => pret EST_ERR_WRONG_METHOD)
    else match ct, body with
      | None, _ => pbind (pbind get_delay (fun d => dn (est_send_http_error A keep d EST_ERR_BAD_PKCS10))) (fun _ => pret EST_ERR_BAD_CONTENT_TYPE)
      | _, None => pbind (pbind get_delay (fun d => dn (est_send_http_error A keep d EST_ERR_BAD_PKCS10))) (fun _ => pret EST_ERR_BAD_CONTENT_LEN)
      | Some c, Some b => pbind (dn (enroll_req_event O C (kind_of o) b)) (fun _ =>
        pbind (est_proxy_handle_enroll O C A X own_path have_ctx fuel t authz c b path (kind_of o)) (fun y => match y with (rc, _, _) =>
          let failed := negb (err_eqb rc EST_ERR_NONE) && negb (err_eqb rc EST_ERR_AUTH_PENDING) in
          pbind (if is_skg (kind_of o) && failed then pret tt else dn (enroll_rsp_event O C (kind_of o) b rc)) (fun _ =>
          if failed then pbind (pbind get_delay (fun d => dn (est_send_http_error A keep d rc))) (fun _ => pret rc)
          else pbind (dn (emit_if (c_ev_endpoint C) (EvReqEnd uri))) (fun _ => pret EST_ERR_NONE)) end))
      end) s = (e4, r)) by (destruct o; try discriminate Eo; exact H).
  clear H. rename H' into H.
  assert (Re : forall x (y : est_error), x <> EST_ERR_CA_ENROLL_RETRY -> pbind (pbind get_delay (fun d => dn (est_send_http_error A keep d x))) (fun _ => pret y) s = (e4, r) -> ~ starts (str "HTTP/1.1 200") (sent (downs e4))).
  { intros x y Nx K. apply refuse_other in K as (d & -> & K); [|exact Nx]. rewrite downs_dn in *. auto. }
  destruct (strncmp_eq 5 method (str "POST")) eqn:Em; cbn [negb] in H; [|eapply Re; [|exact H]; discriminate].
  destruct ct as [ct0|]; [|eapply Re; [|exact H]; discriminate]. destruct body as [b|]; [|eapply Re; [|exact H]; discriminate]. clear Re Em.
  apply pbind_inv in H as [[H _]|(e5 & x & s1 & e6 & H1 & H & ->)]; [unfold enroll_req_event in H; apply emit_run in H as [_ H]; discriminate|].
  unfold enroll_req_event in H1. apply emit_run in H1 as [-> H1]. injection H1 as -> ->. set (d3 := if _ && _ then [EvEnrollReq (kind_of o) b] else []) in *.
  assert (F3 : Forall quiet d3) by (unfold d3; apply quiet_if; discriminate).
  rewrite ups_app, ups_dn in Nu. cbn [Datatypes.app] in Nu.
  rewrite downs_app, downs_dn in *. apply all_sent_app in AS as [_ AS]. destruct (sent_quiet_app d3 (downs e6) F3) as [-> _].
  assert (L : forall d, challenged d -> ~ starts (str "HTTP/1.1 200") (sent d)).
  { intros d [Z|Z] S; [rewrite Z in S; destruct S; discriminate|]. pose proof (starts_other _ _ _ Z S eq_refl). discriminate. }
  apply pbind_inv in H as [[H ->]|(e7 & [[rc pk] x] & s1 & e8 & H1 & H & ->)].
  { apply enroll_local in H as (d & -> & [[Sd _]|[_ (? & H)]]); [|discriminate|exact Nu]. rewrite downs_dn. apply L. now left. }
  rewrite ups_app in Nu. apply app_eq_nil in Nu as [Nu _]. apply enroll_local in H1 as (d & -> & H1); [|exact Nu].
  rewrite downs_app, downs_dn in *. apply all_sent_app in AS as [_ AS].
  destruct H1 as [[Sd [H1|(rc' & s' & H1 & Ho)]]|[Sd (s' & H1)]]; [discriminate| |].
  - injection H1 as -> -> -> ->. rewrite sent_app, Sd. cbn [Datatypes.app].
    apply tail_run in H as (q & w & -> & Fq & _ & _ & T); [|cbn in Ho; intuition (subst; discriminate)]. rewrite downs_dn in *. apply all_sent_app in AS as [_ AS].
    destruct (sent_quiet_app q w Fq) as [-> _]. destruct T as (_ & hs & bd & T & _); [cbn in Ho; intuition (subst; discriminate)|cbn in Ho; intuition (subst; discriminate)|exact AS|].
    intro S. apply response_200 in T; [|exact S]. exact (http_status_fails _ T).
  - injection H1 as -> -> -> ->.
    assert (Q : sent (downs e8) = []).
    { cbv zeta in H. change (negb (err_eqb EST_ERR_AUTH_PENDING EST_ERR_NONE) && negb (err_eqb EST_ERR_AUTH_PENDING EST_ERR_AUTH_PENDING)) with false in H. rewrite andb_false_r in H. cbv iota in H. unfold enroll_rsp_event in H.
      apply pbind_inv in H as [[H _]|(e9 & u & s9 & e10 & H1 & H & ->)]; [apply emit_run in H as [_ H]; discriminate|]. apply emit_run in H1 as [-> H1]. injection H1 as -> ->.
      apply pbind_inv in H as [[H _]|(e11 & u2 & s11 & e12 & H1 & H & ->)]; [apply emit_run in H as [_ H]; discriminate|]. apply emit_run in H1 as [-> H1]. injection H1 as -> ->. apply pret_inv in H as [-> _].
      rewrite !downs_app, !downs_dn. rewrite app_nil_r, sent_app. 
      rewrite !(sent_none) by (apply quiet_if; discriminate). reflexivity. }
    rewrite sent_app, Q, app_nil_r. now apply L.
Qed.
End P.
