(** How the proxy's answer follows from its last contact with the upstream server. *)
From Coq Require Import String ZArith List Bool Lia ZifyBool ZifyNat.
From Verif Require Import Base Spec.Http Spec.Server Spec.Relay Model.CLib Model.EstErr Model.Codec Model.Uri Model.AuthHdr Model.HttpServer Model.CsrAttrs Model.ClientHttp Model.Server Model.Relay
  Proofs.EstErr Proofs.Uri Proofs.ServerAuth Proofs.ServerEnroll Proofs.ServerReply Proofs.ServerProps Proofs.ServerClaims Proofs.ServerResponse Proofs.RelayRequest Proofs.RelayReply Proofs.RelayFetch.
From Verif Require Spec.ClientCalls Model.Client Proofs.ClientCalls Proofs.ClientShelf Proofs.RelayCourse Proofs.RelayAnswer.
Import ListNotations.
Open Scope Z_scope.

Section P.
Context {cert csr key E : Type}.
Variable O : @ossl cert csr key.
Variable C : @config cert.
Variable A : @app cert key E.
Variable parse_uri : bytes -> res (est_error * option operation * option bytes).
Variable keep : Z -> bool.
Variable X : Client.ext.
Variable own_path : option bytes.
Variable have_ctx : bool.
Variable n : nat.
Notation fuel := (S (S n)).
Notation pevent := (@pevent cert key).
Notation event := (@event cert key).
Notation pst := (@pst E).
Notation request := (est_proxy_http_request O C A parse_uri keep X own_path have_ctx fuel).
Implicit Types (s : pst) (e : list pevent).
Local Notation world s := (Client.s_env (p_up s)).

Definition handler (o : operation) (path : option bytes) : @P cert key E est_error :=
  match o with OP_CACERTS => est_proxy_handle_cacerts C A X own_path have_ctx path | _ => est_proxy_handle_csr_attrs C A keep X own_path have_ctx path end.
Definition fetches (o : operation) : bool := match o with OP_CACERTS | OP_CSRATTRS => true | _ => false end.

(** What follows the handling of a fetch. *)
Definition ended (r0 r : res (est_error * pst)) (d3 : list event) : Prop :=
  match r0 with
  | UB => d3 = [] /\ r = UB
  | Ok (rc, s1) =>
    (forall x s', r = Ok (x, s') -> x = rc)
    /\ (rc = EST_ERR_NONE -> Forall quiet d3 /\ exists s', r = Ok (EST_ERR_NONE, s'))
    /\ (rc <> EST_ERR_NONE -> (rc = EST_ERR_CA_ENROLL_RETRY -> 0 <= p_delay s1) -> all_sent d3 -> (exists s', r = Ok (rc, s'))
        /\ exists hs body, response (sent d3) (http_status rc) hs body /\ framed (http_status rc) hs body
             /\ (rc = EST_ERR_CA_ENROLL_RETRY -> exists v, first_header hs (str "Retry-After") v /\ decimal v (p_delay s1)))
  end.
Lemma refuse_run : forall x (y : est_error) s e r, pbind (pbind get_delay (fun d => dn (est_send_http_error A keep d x))) (fun _ => pret y) s = (e, r) ->
  exists d, e = map Dn d /\ (forall x0 s', r = Ok (x0, s') -> x0 = y) /\ ((x = EST_ERR_CA_ENROLL_RETRY -> 0 <= p_delay s) -> all_sent d -> (exists s', r = Ok (y, s'))
        /\ exists hs body, response (sent d) (http_status x) hs body /\ framed (http_status x) hs body
             /\ (x = EST_ERR_CA_ENROLL_RETRY -> exists v, first_header hs (str "Retry-After") v /\ decimal v (p_delay s))).
Proof.
  intros x y s e r K. apply pbind_inv in K as [[K ->]|(e6 & u & s6 & e7 & K1 & K & ->)].
  - apply error_run in K as (w & -> & _ & K). exists w. split; [reflexivity|]. split; [discriminate|]. intros Hd AS. destruct (K Hd AS) as (? & ? & ? & ? & _). discriminate.
  - apply error_run in K1 as (w & -> & _ & K1). apply pret_inv in K as [-> ->]. exists w. rewrite app_nil_r. split; [reflexivity|]. split; [intros x0 s' Q; now injection Q|]. intros Hd AS. destruct (K1 Hd AS) as (s' & hs & body & _ & K). split; eauto.
Qed.
Lemma get_request : forall t method uri body ct authz s e r o path, request t method uri body ct authz s = (e, r) ->
  parse_uri uri = Ok (EST_ERR_NONE, Some o, path) -> fetches o = true -> ups e <> [] ->
  method = str "GET" /\ exists d1 e1 d3 r0, e = map Dn d1 ++ e1 ++ map Dn d3 /\ Forall quiet d1 /\ handler o path s = (e1, r0) /\ ended r0 r d3.
Proof.
  intros t method uri body ct authz s e r o path H Hu Eo Nu. unfold est_proxy_http_request in H.
  apply pbind_inv in H as [[H _]|(e1 & x & s1 & e2 & H1 & H & ->)]; [apply emit_run in H as [_ H]; discriminate|]. apply emit_run in H1 as [-> H1]. injection H1 as -> ->.
  rewrite ups_app, ups_dn in Nu. cbn [Datatypes.app] in Nu. set (d0 := if c_ev_endpoint C then [EvReqStart uri] else []) in *.
  assert (Fd : Forall quiet d0) by (unfold d0; apply quiet_if; discriminate).
  apply pbind_inv in H as [[H _]|(e3 & [[pe op] pth] & s2 & e4 & H1 & H & ->)]; [apply plift_inv in H as [_ [[H _]|(? & _ & H)]]; congruence|].
  apply plift_inv in H1 as [-> [[_ H1]|(y & H0 & H1)]]; [discriminate|]. rewrite Hu in H0. injection H0 as <-. injection H1 as -> -> -> ->.
  change (negb (err_eqb EST_ERR_NONE EST_ERR_NONE)) with false in H. cbv iota in H. cbn [Datatypes.app] in *.
  assert (H' : (if negb (strncmp_eq 5 method (str "GET")) then pbind (pbind get_delay (fun d => dn (est_send_http_error A keep d EST_ERR_WRONG_METHOD))) (fun _ => pret EST_ERR_WRONG_METHOD)
    else pbind (handler o path) (fun rc => if negb (err_eqb rc EST_ERR_NONE) then pbind (pbind get_delay (fun d => dn (est_send_http_error A keep d rc))) (fun _ => pret rc)
          else pbind (dn (emit_if (c_ev_endpoint C) (EvReqEnd uri))) (fun _ => pret EST_ERR_NONE))) s = (e4, r)) by (destruct o; try discriminate Eo; exact H).
  clear H. destruct (strncmp_eq 5 method (str "GET")) eqn:Em; cbn [negb] in H'; [|exfalso; apply refuse_run in H' as (w & -> & _); rewrite ups_dn in Nu; contradiction].
  apply strncmp_short in Em; [|cbn; lia]. split; [exact Em|].
  apply pbind_inv in H' as [[H ->]|(e5 & rc & s5 & e6 & H1 & H & ->)].
  { exists d0, e4, [], UB. cbn [map]. rewrite app_nil_r. repeat split; auto. }
  destruct (err_none_dec rc) as [->|[Ne Eb]].
  - change (negb (err_eqb EST_ERR_NONE EST_ERR_NONE)) with false in H. cbv iota in H.
    apply pbind_inv in H as [[Q _]|(e3 & u & s2 & e4 & Q1 & Q & ->)]; [apply emit_run in Q as [_ Q]; discriminate|]. apply emit_run in Q1 as [-> Q1]. injection Q1 as -> ->. apply pret_inv in Q as [-> ->].
    eexists d0, e5, _, (Ok (EST_ERR_NONE, s5)). rewrite app_nil_r. split; [reflexivity|]. split; [exact Fd|]. split; [exact H1|]. split; [intros x0 s' Q; now injection Q|]. split; [|intro; contradiction]. intros _. split; [|eauto]. apply quiet_if. discriminate.
  - rewrite Eb in H. cbn [negb] in H. apply refuse_run in H as (w & -> & Kr & K). exists d0, e5, w, (Ok (rc, s5)). split; [reflexivity|]. split; [exact Fd|]. split; [exact H1|]. split; [exact Kr|]. split; [intro; contradiction|]. intros _. exact K.
Qed.
(** Nothing else reaches the upstream server. *)
Lemma other_request : forall t method uri body ct authz s e r, request t method uri body ct authz s = (e, r) -> ups e <> [] ->
  exists o path, parse_uri uri = Ok (EST_ERR_NONE, Some o, path) /\ (fetches o = true \/ enrolls o = true).
Proof.
  intros t method uri body ct authz s e r H Nu. unfold est_proxy_http_request in H.
  apply pbind_inv in H as [[H _]|(e1 & x & s1 & e2 & H1 & H & ->)]; [apply emit_run in H as [_ H]; discriminate|]. apply emit_run in H1 as [-> H1]. injection H1 as -> ->.
  rewrite ups_app, ups_dn in Nu. cbn [Datatypes.app] in Nu.
  apply pbind_inv in H as [[H _]|(e3 & [[pe op] pth] & s2 & e4 & H1 & H & ->)]; [apply plift_inv in H as [-> _]; contradiction|].
  apply plift_inv in H1 as [-> [[_ H1]|(y & H0 & H1)]]; [discriminate|]. injection H1 as <- ->. cbn [Datatypes.app] in *.
  destruct (err_none_dec pe) as [->|[Ne Eb]]; [|rewrite Eb in H; cbn [negb] in H; apply refuse_run in H as (w & -> & _); rewrite ups_dn in Nu; contradiction].
  destruct (match op with Some o => fetches o || enrolls o | None => false end) eqn:Eo.
  - destruct op as [o|]; [|discriminate]. exists o, pth. split; [exact H0|]. now apply orb_true_iff.
  - exfalso. apply Nu. change (negb (err_eqb EST_ERR_NONE EST_ERR_NONE)) with false in H. cbv iota in H.
    assert (H' : pbind (pbind get_delay (fun d => dn (est_send_http_error A keep d EST_ERR_HTTP_NOT_FOUND))) (fun _ => pbind (dn (emit_if (c_ev_endpoint C) (EvReqEnd uri))) (fun _ => pret EST_ERR_NONE)) s = (e4, r))
      by (destruct op as [[]|]; try discriminate Eo; exact H).
    clear H. apply pbind_inv in H' as [[K _]|(e6 & u & s6 & e7 & K1 & K & ->)]; [apply error_run in K as (w & -> & _); apply ups_dn|]. apply error_run in K1 as (w & -> & _). rewrite ups_app, ups_dn. cbn [Datatypes.app].
    apply pbind_inv in K as [[Q _]|(e3 & u2 & s2 & e4 & Q1 & Q & ->)]; [apply emit_run in Q as [-> _]; apply ups_dn|]. apply emit_run in Q1 as [-> _]. apply pret_inv in Q as [-> _]. rewrite app_nil_r. apply ups_dn.
Qed.

(** ** The last contact decides *)
Definition last_fails (o : operation) s e (rv : est_error) (k : cctx) : Prop :=
  exists pre c' evs', ups e = pre ++ evs' /\ RelayAnswer.fails X o c' (skipn (ClientCalls.connects pre) (world s)) evs' rv k.
Definition last_served (o : operation) s e : Prop :=
  exists pre c' evs', ups e = pre ++ evs' /\ RelayAnswer.served X o c' (skipn (ClientCalls.connects pre) (world s)) evs'.
Definition reports e (rv : est_error) (delay : Z) : Prop :=
  exists hs body, response (sent (downs e)) (reported rv) hs body /\ framed (reported rv) hs body
    /\ (rv = EST_ERR_CA_ENROLL_RETRY -> exists v, first_header hs (str "Retry-After") v /\ decimal v delay).
Lemma parts_ups : forall d1 evs d2, ups (map Dn d1 ++ map Up evs ++ map Dn d2 : list pevent) = evs.
Proof. intros. rewrite !ups_app, !ups_dn, ups_up, app_nil_r. reflexivity. Qed.
Lemma parts_downs : forall d1 evs d2, downs (map Dn d1 ++ map Up evs ++ map Dn d2 : list pevent) = d1 ++ d2.
Proof. intros. rewrite !downs_app, !downs_dn, downs_up. reflexivity. Qed.
Lemma retry_same : forall rv, upstream_error rv = EST_ERR_CA_ENROLL_RETRY <-> rv = EST_ERR_CA_ENROLL_RETRY.
Proof. intro rv. split; [destruct rv; discriminate || reflexivity|intros ->; reflexivity]. Qed.

Lemma outcome : forall t method uri body ct authz s e rc s' o path, request t method uri body ct authz s = (e, Ok (rc, s')) ->
  parse_uri uri = Ok (EST_ERR_NONE, Some o, path) -> ups e <> [] -> is_http C = true -> all_sent (downs e) ->
  last_served o s e
  \/ exists rv k, last_fails o s e rv k /\ ((o = OP_CSRATTRS /\ rv = EST_ERR_HTTP_NO_CONTENT /\ c_pop C = true) \/ (rc = upstream_error rv /\ reports e rv (k_delay k))).
Proof.
  intros t method uri body ct authz s e rc s' o path H Hu Nu Hh AS.
  destruct (other_request _ _ _ _ _ _ _ _ _ H Nu) as (o' & path' & Hu' & Eo). rewrite Hu in Hu'. injection Hu' as <- <-. destruct Eo as [Eo|Eo].
  - destruct (get_request _ _ _ _ _ _ _ _ _ _ _ H Hu Eo Nu) as (_ & d1 & e1 & d3 & r0 & -> & Fq & Hd & En).
    assert (Nu1 : ups e1 <> []). { intro Z. apply Nu. rewrite !ups_app, !ups_dn, Z. reflexivity. }
    destruct r0 as [[rc0 s1]|]; [|destruct En as [_ En]; discriminate].
    destruct o; try discriminate Eo; cbn [handler] in Hd.
    + destruct (cacerts_run C A X own_path have_ctx _ _ _ _ Hd Nu1) as (c0 & evs & d2 & -> & _ & _ & _ & [[K _]|(rv & c1 & [(Ne & Ft & -> & s2 & K & Dl)|(_ & Sv & _)])]); [discriminate| |].
      * cbn [map] in *. rewrite app_nil_r in *. rewrite parts_downs in AS. apply all_sent_app in AS as [_ AS3].
        destruct Ft as [Ft|Ft]; [right|left; exists [], c0, evs; rewrite parts_ups; split; [reflexivity|exact Ft]].
        injection K as -> ->. destruct En as (_ & _ & En). exists rv, (Client.c_http c1). split; [exists [], c0, evs; rewrite parts_ups; split; [reflexivity|exact Ft]|]. right.
        assert (Nr : upstream_error rv <> EST_ERR_NONE) by (intro Z; apply Ne, (proj1 (upstream_none rv)), Z).
        destruct (RelayAnswer.fails_error _ _ _ _ _ _ _ Ft) as [_ Wt].
        destruct (En Nr) as ((s3 & K) & hs & bd & R & Fr & Rt); [rewrite Dl; intro Z; apply Wt, (proj1 (retry_same rv)), Z|exact AS3|]. injection K as -> ->. split; [reflexivity|]. unfold reports. rewrite parts_downs.
        destruct (sent_quiet_app d1 d3 Fq) as [-> _]. rewrite <- upstream_status by exact Ne. exists hs, bd. split; [exact R|]. split; [exact Fr|]. intros ->. rewrite <- Dl. apply Rt. reflexivity.
      * left. exists [], c0, evs. split; [|exact Sv]. rewrite !ups_app, !ups_dn, ups_up, !app_nil_r. reflexivity.
    + destruct (csrattrs_run C A keep X own_path have_ctx _ _ _ _ Hd Nu1) as (c0 & evs & d2 & -> & _ & _ & [[K _]|(rv & d & c1 & [[Ft Dn]|[Sv _]] & Oc)]); [discriminate| |].
      * right. exists rv, (Client.c_http c1). split; [exists [], c0, evs; split; [rewrite !ups_app, !ups_dn, ups_up, !app_nil_r; reflexivity|exact Ft]|].
        destruct (RelayAnswer.fails_error _ _ _ _ _ _ _ Ft) as [Ne Wt]. unfold no_way_on in Oc.
        destruct Oc as [(Nw & -> & s2 & K & Dl)|(Nw & _)].
        -- right. cbn [map] in *. rewrite app_nil_r in *. rewrite parts_downs in AS. apply all_sent_app in AS as [_ AS3]. injection K as -> ->. destruct En as (_ & _ & En).
           assert (Nr : upstream_error rv <> EST_ERR_NONE) by (intro Z; apply Ne, (proj1 (upstream_none rv)), Z).
           destruct (En Nr) as ((s3 & K) & hs & bd & R & Fr & Rt); [rewrite Dl; intro Z; apply Wt, (proj1 (retry_same rv)), Z|exact AS3|]. injection K as -> ->. split; [reflexivity|]. unfold reports. rewrite parts_downs.
           destruct (sent_quiet_app d1 d3 Fq) as [-> _]. rewrite <- upstream_status by exact Ne. exists hs, bd. split; [exact R|]. split; [exact Fr|]. intros ->. rewrite <- Dl. apply Rt. reflexivity.
        -- left. split; [reflexivity|]. apply andb_false_iff in Nw as [Nw|Nw]; apply negb_false_iff in Nw; [apply err_eqb_eq in Nw; contradiction|]. apply andb_true_iff in Nw as [Nw Pp]. apply err_eqb_eq in Nw. auto.
      * left. exists [], c0, evs. split; [|exact Sv]. rewrite !ups_app, !ups_dn, ups_up, !app_nil_r. reflexivity.
  - destruct (enrolling_request O C A parse_uri keep X own_path have_ctx n _ _ _ _ _ _ _ _ _ _ _ H Hu Eo Nu) as (ct0 & b & d1 & evs & d2 & c0 & out & w' & _ & _ & _ & _ & -> & _ & Sd & Ad & _ & Co & An & _).
    rewrite parts_downs in AS. apply all_sent_app in AS as [_ AS2]. unfold answered in An.
    destruct out as [[[[rv pk] x] c1]|]; [|destruct An as [_ An]; discriminate].
    assert (Lt : last_fails o s (map Dn d1 ++ map Up evs ++ map Dn d2) rv (Client.c_http c1) \/ last_served o s (map Dn d1 ++ map Up evs ++ map Dn d2)).
    { destruct (RelayAnswer.course_last _ _ _ _ _ _ _ _ _ _ _ _ Co) as (pre & c' & w1 & evs' & -> & -> & [F|F]); [left|right]; exists pre, c', evs'; rewrite parts_ups; auto. }
    destruct Lt as [Lt|Lt]; [right|now left].
    exists rv, (Client.c_http c1). split; [exact Lt|]. right.
    destruct (An (RelayAnswer.course_waits _ _ _ _ _ _ _ _ _ _ _ _ Co) Hh AS2) as [(-> & _)|(Ne & (s3 & K) & hs & bd & R & Fr & Rt)].
    + exfalso. destruct Lt as (pre & c' & evs' & _ & F). apply RelayAnswer.fails_error in F as [F _]. contradiction.
    + injection K as -> ->. split; [reflexivity|]. exists hs, bd. rewrite parts_downs, sent_app, Sd. auto.
Qed.
End P.
