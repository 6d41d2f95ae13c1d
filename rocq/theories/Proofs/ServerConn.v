(** All requests of a connection together. *)
From Coq Require Import String ZArith List Bool Lia ZifyBool ZifyNat.
From Verif Require Import Base Spec.Http Spec.HttpConn Spec.Server Model.CLib Model.Codec Model.EstErr Model.HttpServer Model.Uri
  Model.AuthHdr Model.Server Proofs.HttpParse Proofs.HttpConn Proofs.AuthHdr Proofs.ServerAuth Proofs.ServerEnroll Proofs.ServerRequest Proofs.ServerProps
  Proofs.ServerCA Proofs.ServerTrace Proofs.ServerReply Proofs.ServerClaims Proofs.ServerSafe.
Import ListNotations.
Open Scope Z_scope.

Section P.
Context {cert csr key E : Type}.
Variable O : @ossl cert csr key.
Variable C : @config cert.
Variable A : @app cert key E.
Variable parse_uri : bytes -> res (est_error * option operation * option bytes).
Variable attrs_parse : bytes -> res (est_error * bool).
Variable attrs_add_pop : bytes -> res (est_error * bytes).
Variable attrs_check : option (option bytes) -> bytes -> res est_error.
Variable keep : Z -> bool.
Variable uninit : nat -> Z.
Notation event := (@event cert key).
Notation st := (@st E).
Notation request := (est_http_request O C A parse_uri attrs_parse attrs_add_pop attrs_check keep).
Notation serve1 := (Model.Server.serve O C A parse_uri attrs_parse attrs_add_pop attrs_check keep uninit).
Notation run := (run_connection O C A parse_uri attrs_parse attrs_add_pop attrs_check keep uninit).
Implicit Types (t : @tls cert) (e w : list event) (s : st).

(** ** The user id after a request *)
Lemma error_code : forall er delay s w s', er <> EST_ERR_CA_ENROLL_RETRY ->
  est_send_http_error A keep delay er s = (w, Ok (tt, s')) -> s_code s' = http_status er.
Proof.
  intros er delay s w s' N H. destruct (error_reply_spec er N) as (reason & text & Er & L & P).
  assert (H' : (let '(st, reason, text) := error_reply er in mg_send_http_error A keep st reason text) s = (w, Ok (tt, s'))).
  { destruct er; try congruence; exact H. }
  rewrite Er in H'. clear H. unfold mg_send_http_error in H'.
  set (buf := if (199 <? _) && _ && _ then _ else _) in *. clearbody buf.
  apply mbind_inv in H' as [[H _]|(e1 & [] & s1 & e2 & H1 & H & ->)]; [discriminate|]. inversion H1; subst. clear H1.
  match type of H with mbind (mg_write A ?d) _ ?s1 = _ => destruct (write_run A d s1) as (ok & s2 & Q & _ & Cd) end.
  apply mbind_inv in H as [[H _]|(e3 & ok' & s3 & e4 & H3 & H & ->)]; [rewrite Q in H; discriminate|].
  rewrite Q in H3. injection H3 as <- <- <-. cbn [s_code] in Cd.
  destruct buf as [|b0 buf]; [inversion H; now subst|].
  match type of H with mbind (mg_write A ?d) _ ?s1 = _ => destruct (write_run A d s1) as (ok2 & s4 & Q2 & _ & Cd2) end.
  apply mbind_inv in H as [[H _]|(e5 & ok' & s5 & e6 & H5 & H & ->)]; [rewrite Q2 in H; discriminate|].
  rewrite Q2 in H5. injection H5 as <- <- <-. inversion H; subst. congruence.
Qed.

(** The user id is one whose credentials the application approved. *)
Definition vouched e (u : bytes) : Prop :=
  exists a p q v, In (EvHttpAuth a p q true) e /\ ah_user a = Some v /\ cstr u = Ok v.
Lemma vouched_in : forall e w u, (forall x, In x e -> In x w) -> vouched e u -> vouched w u.
Proof. intros e w u H (a & p & q & v & I & R). exists a, p, q, v. auto. Qed.

Lemma auth_vouched : forall t authz path k body s e au ro s', auth_path O C A t authz path k body s e (Ok (au, ro, s')) ->
  s_uid s' = s_uid s \/ vouched e (s_uid s') \/ au = UNAUTHORIZED.
Proof.
  intros * H. inversion H; subst; auto.
  - match goal with Q : mg_parse_auth_header _ _ _ _ _ = _ |- _ => destruct (header_user _ _ _ _ _ _ Q) as [[_ U]|(_ & v & Ua & N & L & U)] end; auto.
    destruct ok; auto. right; left. exists a, (t_peer t), path, v. split; [now left|]. split; auto. rewrite U. now apply uid_cstr.
  - left. match goal with Q : mg_parse_auth_header _ _ _ _ _ = _ |- _ => apply header_uid in Q; [auto|discriminate] end.
  - left. match goal with Q : mg_parse_auth_header _ _ _ _ _ = _ |- _ => apply header_uid in Q; auto end.
Qed.

Definition same_uid {X} (m : @M cert key E X) : Prop := forall s e x s', m s = (e, Ok (x, s')) -> s_uid s' = s_uid s.
Lemma same_writes : forall X (m : @M cert key E X), writes m -> same_uid m.
Proof. intros X m W s e x s' H. destruct (W _ _ _ H) as [_ (x1 & s1 & Q & Us)]. inversion Q; now subst. Qed.
Lemma same_bind : forall X Y (m : @M cert key E X) (f : X -> @M cert key E Y), same_uid m -> (forall x, same_uid (f x)) -> same_uid (mbind m f).
Proof.
  intros X Y m f Hm Hf s e y s' H. apply mbind_inv in H as [[_ H]|(e1 & x & s1 & e2 & H1 & H & ->)]; [discriminate|].
  apply Hf in H. apply Hm in H1. congruence.
Qed.
Lemma same_ret : forall X (x : X), same_uid (ret x).
Proof. intros X x s e y s' H. inversion H; now subst. Qed.
Lemma same_emit : forall x, same_uid (emit x).
Proof. intros x s e y s' H. inversion H; now subst. Qed.
Lemma same_call : forall X (f : E -> E * X), same_uid (call f).
Proof. intros X f s e y s' H. unfold call in H. destruct (f (s_env s)). inversion H; now subst. Qed.

Lemma brski_vouched : forall t authz path s e au s', est_brski_auth O C A t authz path s = (e, Ok (au, s')) ->
  s_uid s' = s_uid s \/ vouched e (s_uid s') \/ au = UNAUTHORIZED.
Proof.
  intros t authz path s e au s' H. unfold est_brski_auth in H. destruct (check_tls t) as [[cont p0] rv0].
  assert (FIN : forall k pr rv s0 e0 x s1, mbind (auth_result_event C k pr rv) (fun _ => @ret cert key E _ rv) s0 = (e0, Ok (x, s1)) ->
     x = rv /\ s_uid s1 = s_uid s0).
  { intros k pr rv s0 e0 x s1 Q. unfold auth_result_event, emit_if, mbind, emit, ret in Q. destruct (c_ev_auth C); inversion Q; now subst. }
  destruct (negb cont); [left; eapply FIN; eauto|]. destruct (_ && _); [|left; eapply FIN; eauto].
  apply mbind_inv in H as [[_ H]|(e1 & [pr a] & s1 & e2 & H1 & H & ->)]; [discriminate|].
  apply mbind_inv in H as [[_ H]|(e3 & rv' & s3 & e4 & H3 & H & ->)]; [discriminate|].
  apply FIN in H as [-> Us].
  assert (U1 : s_uid s1 = s_uid s \/ (pr = HDR_GOOD /\ exists v, ah_user a = Some v /\ cstr (s_uid s1) = Ok v)).
  { assert (PA : parse_auth O C authz s = (e1, Ok (pr, a, s1)) -> s_uid s1 = s_uid s \/ (pr = HDR_GOOD /\ exists v, ah_user a = Some v /\ cstr (s_uid s1) = Ok v)).
    { intro Q. unfold parse_auth, mbind, get_uid, lift, set_uid, ret in Q.
      destruct (mg_parse_auth_header _ _ _ _ _) as [[[h a'] u]|] eqn:Em; cbn in Q; inversion Q; subst. cbn.
      destruct pr; try (left; apply header_uid in Em; [auto|discriminate]).
      destruct (header_user _ _ _ _ _ _ Em) as [[_ U]|(_ & v & Ua & N & L & U)]; auto.
      right. split; auto. exists v. split; auto. rewrite U. now apply uid_cstr. }
    destruct p0 as [c0|]; [destruct (c_eca C && _)|]; auto.
    left. now apply same_ret in H1. }
  destruct pr.
  - apply mbind_inv in H3 as [[_ H3]|(e5 & ok & s5 & e6 & H5 & H3 & ->)]; [discriminate|]. inversion H3; subst. clear H3.
    unfold http_auth_cb in H5. destruct (a_http_auth A) as [f|]; [|discriminate].
    unfold mbind, call, emit, ret in H5. destruct (f (s_env s1) a p0 path) as [x ok']. inversion H5; subst. clear H5.
    destruct ok; auto. cbn [s_uid] in Us. destruct U1 as [U1|(_ & v & V1 & V2)]; [left; congruence|].
    right; left. exists a, p0, path, v. split; [|split; auto; congruence]. rewrite !in_app_iff. right. left. cbn. auto.
  - left. apply (same_bind _ _ _ _ (same_writes _ _ (writes_challenge C A)) (fun _ => same_ret _ _)) in H3.
    destruct U1 as [U1|[Q _]]; [congruence|discriminate].
  - left. apply same_ret in H3. destruct U1 as [U1|[Q _]]; [congruence|discriminate].
  - left. apply same_ret in H3. destruct U1 as [U1|[Q _]]; [congruence|discriminate].
  - left. apply same_ret in H3. destruct U1 as [U1|[Q _]]; [congruence|discriminate].
  - left. apply same_ret in H3. destruct U1 as [U1|[Q _]]; [congruence|discriminate].
Qed.
Theorem request_vouched : forall t method uri body ct authz s e rc s', request t method uri body ct authz s = (e, Ok (rc, s')) ->
  s_uid s' = s_uid s \/ vouched e (s_uid s') \/ s_code s' = 401.
Proof.
  intros t method uri body ct authz s e rc s' H. apply request_paths in H.
  assert (W : forall er s0 w s1, est_send_http_error A keep (c_retry C) er s0 = (w, Ok (tt, s1)) -> s_uid s1 = s_uid s0).
  { intros * Q. eapply (same_writes _ _ (writes_error A keep (c_retry C) er)); eauto. }
  assert (OP : forall o c p s0 eo rc0 s1, run_op O C A attrs_parse attrs_add_pop attrs_check keep t authz c body p o s0 = (eo, Ok (rc0, s1)) ->
     s_uid s1 = s_uid s0 \/ vouched eo (s_uid s1) \/ (rc0 = EST_ERR_AUTH_FAIL /\ posts o = true)).
  { intros o c p s0 eo rc0 s1 R.
    assert (EN : forall k, enroll_path O C A attrs_check t authz c body p k s0 eo (Ok (rc0, s1)) ->
      s_uid s1 = s_uid s0 \/ vouched eo (s_uid s1) \/ rc0 = EST_ERR_AUTH_FAIL).
    { intros k Q.
      assert (G : forall ea au ro sa, auth_path O C A t authz p k body s0 ea (Ok (au, ro, sa)) -> granted au ->
         s_uid s1 = s_uid sa -> (forall x, In x ea -> In x eo) -> s_uid s1 = s_uid s0 \/ vouched eo (s_uid s1) \/ rc0 = EST_ERR_AUTH_FAIL).
      { intros * Q1 Gr Us Sub. apply auth_vouched in Q1 as [Q1|[Q1|Q1]]; [left; congruence| |].
        - right; left. rewrite Us. eapply vouched_in; eauto.
        - exfalso. destruct Gr as [Gr|[Gr|Gr]]; congruence. }
      inversion Q; subst; auto;
        try (eapply G; eauto; intros; rewrite ?in_app_iff; auto; fail).
      - match goal with Q1 : auth_path _ _ _ _ _ _ _ _ _ _ (Ok _), Q2 : _ \/ _ \/ _ |- _ => apply auth_vouched in Q1 as [Q1|[Q1|Q1]]; auto;
          destruct Q2 as [[? ?]|[[? ?]|[? ?]]]; auto; congruence end.
      - match goal with Q1 : checks_path _ _ _ _ _ _ _ _ _ (Ok _) |- _ => apply checks_keeps in Q1 as [Q1 _] end.
        eapply G; eauto; [congruence|intros; rewrite !in_app_iff; auto].
      - match goal with Q1 : outcome _ _ _ _ _ _ _ _ _ _ |- _ => unfold outcome in Q1; rename Q1 into Ou end.
        assert (Us : s_uid s1 = s_uid s5).
        { destruct (_ && _); [destruct (is_http C)|].
          + destruct k; first [eapply (same_writes _ _ (writes_200 A _ _)); eauto; fail|eapply (same_writes _ _ (writes_all A _)); eauto].
          + destruct Ou as (_ & _ & ->). auto.
          + destruct Ou as (_ & -> & _). auto. }
        eapply G; eauto; [congruence|intros; rewrite !in_app_iff; auto]. }
    assert (BR : forall m, same_uid m -> brski_authed O C A t authz p m s0 = (eo, Ok (rc0, s1)) ->
      s_uid s1 = s_uid s0 \/ vouched eo (s_uid s1) \/ rc0 = EST_ERR_AUTH_FAIL).
    { intros m Hm Q. unfold brski_authed in Q. apply mbind_inv in Q as [[_ Q]|(e1 & au & s2 & e2 & H1 & Q & ->)]; [discriminate|].
      apply brski_vouched in H1. 
      assert (G : s_uid s1 = s_uid s2 -> au <> UNAUTHORIZED -> s_uid s1 = s_uid s0 \/ vouched (e1 ++ e2) (s_uid s1) \/ rc0 = EST_ERR_AUTH_FAIL).
      { intros U N. destruct H1 as [H1|[H1|H1]]; [left; congruence| |congruence]. right; left. rewrite U. eapply vouched_in; [|exact H1].
        intros x I. apply in_or_app; auto. }
      destruct au; try (inversion Q; subst; auto; fail); try (apply G; [apply Hm in Q; auto|discriminate]).
      inversion Q; subst. apply G; [auto|discriminate]. }
    assert (ST : forall o1 (f : E -> bytes -> option cert -> E * Z), same_uid
      (mbind (call (fun x0 : E => f x0 body (t_peer t))) (fun rv => mbind (emit (EvVoucher o1 body (t_peer t) rv []))
        (fun _ => if rv =? 1 then mbind (mg_write A (str "HTTP/1.1 200 OK" ++ EOL ++ str "Status: 200 OK" ++ EOL))
             (fun ok => ret (if (ok : bool) then EST_ERR_NONE else EST_ERR_HTTP_WRITE)) else ret EST_ERR_CA_ENROLL_FAIL)))).
    { intros. apply same_bind; [apply same_call|]. intro. apply same_bind; [apply same_emit|]. intro.
      destruct (_ =? 1); [|apply same_ret]. apply same_bind; [apply same_writes, writes_mg_write|intro; apply same_ret]. }
    assert (PO : posts o = true -> (s_uid s1 = s_uid s0 \/ vouched eo (s_uid s1) \/ rc0 = EST_ERR_AUTH_FAIL) ->
      s_uid s1 = s_uid s0 \/ vouched eo (s_uid s1) \/ rc0 = EST_ERR_AUTH_FAIL /\ posts o = true) by tauto.
    destruct o; cbn [run_op] in R; try (apply PO; [reflexivity|]; apply enroll_paths in R; eauto; fail).
    - left. apply cacerts_events in R as [_ (? & ? & Q & Us)]. inversion Q; subst. congruence.
    - left. apply csrattrs_events in R as [_ [(? & ? & Q & Us)|(Q & _)]]; inversion Q; subst. congruence.
    - apply PO; [reflexivity|]. unfold brski_voucher_req in R. destruct (a_voucher A) as [f|]; [|inversion R; subst; auto].
      destruct (negb _ && negb _); [inversion R; subst; auto|]. revert R. apply BR.
      apply same_bind; [apply same_call|]. intros [rv v]. apply same_bind; [apply same_emit|]. intro.
      apply same_writes. destruct (_ && _); [apply writes_200|]. destruct (rv =? 2); [|apply writes_ret].
      apply writes_bind; [apply writes_retry|intro; apply writes_ret].
    - apply PO; [reflexivity|]. unfold brski_status in R. destruct (a_voucher_status A) as [f|]; [|inversion R; subst; auto].
      destruct (negb _); [inversion R; subst; auto|]. revert R. apply BR, ST.
    - apply PO; [reflexivity|]. unfold brski_status in R. destruct (a_enroll_status A) as [f|]; [|inversion R; subst; auto].
      destruct (negb _); [inversion R; subst; auto|]. revert R. apply BR, ST. }
  inversion H; subst; eauto.
  - match goal with Q : run_op _ _ _ _ _ _ _ _ _ _ _ _ _ _ = _ |- _ => rename Q into Q0 end. apply OP in Q0 as [Q|[Q|[-> Po]]]; auto.
    + right; left. eapply vouched_in; [|exact Q]. intros; rewrite !in_app_iff; auto.
    + discriminate.
  - match goal with Q : est_send_http_error _ _ _ _ _ = _ |- _ => rename Q into Er end.
    match goal with Q : run_op _ _ _ _ _ _ _ _ _ _ _ _ _ _ = _ |- _ => rename Q into Q0 end. apply OP in Q0 as [Q|[Q|[-> Po]]].
    + left. apply W in Er. congruence.
    + right; left. apply W in Er. rewrite Er. eapply vouched_in; [|exact Q]. intros; rewrite !in_app_iff; auto.
    + right; right. assert (R : reported o EST_ERR_AUTH_FAIL = EST_ERR_AUTH_FAIL) by (unfold reported; destruct (_ && _); reflexivity).
      rewrite R in Er. apply error_code in Er; [exact Er|discriminate].
Qed.

(** ** Conversations *)
(** The requests of a connection, in order, each served in the state the one
    before left; the connection goes on only after a response with status below
    400 other than 202. *)
Definition well_received (rq : est_req) : Prop :=
  (starts_with (str "GET") (er_method rq) \/ starts_with (str "POST") (er_method rq))
  /\ match er_body rq with Some (n, b) => 0 <= n <= 8192 /\ len b <= n | None => True end.
Inductive conversation t : st -> list (est_req * list event) -> res st -> Prop :=
| cv_nil : forall s, conversation t s [] (Ok s)
| cv_ub : forall s rq e, well_received rq -> serve1 t rq s = (e, UB) -> conversation t s [(rq, e)] UB
| cv_last : forall s rq e rc s', well_received rq -> serve1 t rq s = (e, Ok (rc, s')) -> conversation t s [(rq, e)] (Ok s')
| cv_next : forall s rq e rc s' l r, well_received rq -> serve1 t rq s = (e, Ok (rc, s')) -> s_code s' < 400 -> s_code s' <> 202 ->
    conversation t s' l r -> conversation t s ((rq, e) :: l) r.

Notation hnd := (Model.Server.handler O C A parse_uri attrs_parse attrs_add_pop attrs_check keep uninit).
Lemma serve_conversation : forall fuel ka t x stream evs y,
  Spec.HttpConn.serve _ (hnd t) get_request_len req_of_head uri_of fuel ka x stream = (evs, y) ->
  match x with
  | (UB, l0) => y = x
  | (Ok s, l0) => exists l r, y = (r, l0 ++ l) /\ conversation t s l r
  end.
Proof.
  induction fuel as [|fuel IH]; intros ka t x stream evs y H; cbn [Spec.HttpConn.serve] in H.
  { inversion H; subst. destruct y as [[s|] l0]; auto. exists [], (Ok s). rewrite app_nil_r. split; auto. constructor. }
  assert (Z0 : forall ev, (ev, x) = (evs, y) -> match x with
     | (UB, l0) => y = x | (Ok s, l0) => exists l r, y = (r, l0 ++ l) /\ conversation t s l r end).
  { intros ev Q. inversion Q; subst. destruct y as [[s|] l0]; auto. exists [], (Ok s). rewrite app_nil_r. split; auto. constructor. }
  set (n := get_request_len _) in *. destruct (n =? 0); [destruct (16384 <=? len stream); exact (Z0 _ H)|]. destruct (n <? 0); [exact (Z0 _ H)|].
  destruct (req_of_head _) as [rq|] eqn:Erq; [|exact (Z0 _ H)]. destruct (negb (is_valid_uri _)); [exact (Z0 _ H)|]. destruct (_ && _); [exact (Z0 _ H)|].
  destruct (8192 <? _) eqn:L1; [exact (Z0 _ H)|]. destruct (_ <? 0) eqn:L2; [exact (Z0 _ H)|].
  assert (WM : starts_with (str "GET") (hr_method rq) \/ starts_with (str "POST") (hr_method rq)).
  { unfold req_of_head in Erq. destruct (HttpParse.req_text _) as [[[meth uri] ver] hs].
    destruct (is_valid_http_method meth) eqn:Em; [|discriminate]. destruct (strncmp_eq 5 ver _); [|discriminate].
    inversion Erq; subst. cbn [hr_method]. unfold is_valid_http_method in Em. apply orb_true_iff in Em as [Em|Em]; apply strncmp_starts in Em; auto. }
  match type of H with (let '(_, _) := hnd t x ?r0 in _) = _ => assert (WR : well_received r0) end.
  { split; [exact WM|]. cbn [er_body]. destruct (get_header _ _); [|exact I]. split; [lia|]. rewrite len_firstn. lia. }
  set (rr := {| er_method := _ |}) in *. destruct (hnd t x rr) as [x' stt] eqn:Eh.
  destruct x as [[s|] l0]; cbn [Model.Server.handler] in Eh.
  2:{ injection Eh as <- <-. destruct (should_keep_alive _ _ _ _ _).
      - destruct (Spec.HttpConn.serve _ _ _ _ _ fuel ka _ _) as [evs' s''] eqn:Es. inversion H; subst. now apply IH in Es.
      - now inversion H. }
  destruct (serve1 t rr s) as [e [[rc s']|]] eqn:Es; injection Eh as <- <-.
  - destruct (should_keep_alive false (s_code s') ka _ _) eqn:Ek.
    + destruct (Spec.HttpConn.serve _ _ _ _ _ fuel ka _ _) as [evs' s''] eqn:Er. inversion H; subst.
      apply IH in Er as (l & r & -> & Cv). exists ((rr, e) :: l), r. rewrite <- app_assoc. split; auto.
      eapply cv_next; eauto; unfold should_keep_alive in Ek; lia.
    + inversion H; subst. exists [(rr, e)], (Ok s'). split; auto. eapply cv_last; eauto.
  - destruct (should_keep_alive _ _ _ _ _).
    + destruct (Spec.HttpConn.serve _ _ _ _ _ fuel ka _ _) as [evs' s''] eqn:Er. inversion H; subst.
      apply IH in Er. subst. exists [(rr, e)], UB. split; auto. now constructor.
    + inversion H; subst. exists [(rr, e)], UB. split; auto. now constructor.
Qed.

Theorem connection_conversation : forall t ka (e0 : E) (net : net), exists evs l r, run t ka e0 net = Ok (evs, (r, l))
  /\ conversation t {| s_env := e0; s_uid := repeat 0 256; s_code := -1 |} l r.
Proof.
  intros t ka e0 net. unfold run_connection. rewrite process_new_connection_spec.
  destruct (Spec.HttpConn.serve _ _ _ _ _ _ _ _ _) as [evs y] eqn:Es. apply serve_conversation in Es as (l & r & -> & Cv).
  cbn [Datatypes.app] in *. eauto 10.
Qed.

Lemma conversation_in : forall t s l r rq e, conversation t s l r -> In (rq, e) l ->
  exists s1 r1, well_received rq /\ serve1 t rq s1 = (e, r1) /\ (uid_ok (s_uid s) -> uid_ok (s_uid s1)).
Proof.
  intros t s l r rq e H. induction H; intros I.
  - destruct I.
  - destruct I as [I|[]]. injection I as <- <-. eauto.
  - destruct I as [I|[]]. injection I as <- <-. eauto.
  - destruct I as [I|I]; [injection I as <- <-; eauto|]. destruct (IHconversation I) as (s1 & r1 & Wr & Q & U). exists s1, r1. split; auto. split; auto.
    intro U0. apply U. unfold Model.Server.serve in *. match goal with Q : request _ _ _ _ _ _ _ = _ |- _ => apply request_uid in Q; auto end.
Qed.

(** The user id handed to the CA is empty or a name the application approved
    earlier on the connection. *)
Theorem conversation_identity : forall t s l r, c_transport C = EST_HTTP -> conversation t s l r ->
  forall l1 rq e l2 pre k b uid peer path rv crt kt post, l = l1 ++ (rq, e) :: l2 ->
  e = pre ++ EvCA k b uid peer path rv crt kt :: post ->
  (exists u, cstr (s_uid s) = Ok u /\ uid = Some u)
  \/ exists a p q x, In (EvHttpAuth a p q true) x /\ (x = pre \/ In x (map snd l1)) /\ ah_user a = uid /\ uid <> None.
Proof.
  intros t s l r HT H. induction H as [s|s rq e W H|s rq e rc s' W H|s rq e rc s' l r W H Hc Hc2 H0 IHconversation]; intros l1 rq1 e1 l2 pre k b uid peer path rv crt kt post El Ee.
  - destruct l1; discriminate.
  - destruct l1 as [|? [|? ?]]; try discriminate. injection El as <- <- <-. unfold Model.Server.serve in H.
    destruct (ca_identity _ _ _ _ _ _ _ _ _ _ _ _ _ _ _ _ _ _ _ _ _ _ _ _ _ _ _ HT H Ee) as [(a & I & _ & _ & -> & N)|(_ & Q)]; auto.
    right. exists a, peer, path, pre. auto.
  - destruct l1 as [|? [|? ?]]; try discriminate. injection El as <- <- <-. unfold Model.Server.serve in H.
    destruct (ca_identity _ _ _ _ _ _ _ _ _ _ _ _ _ _ _ _ _ _ _ _ _ _ _ _ _ _ _ HT H Ee) as [(a & I & _ & _ & -> & N)|(_ & Q)]; auto.
    right. exists a, peer, path, pre. auto.
  - destruct l1 as [|x l1].
    + injection El as <- <- <-. unfold Model.Server.serve in H.
      destruct (ca_identity _ _ _ _ _ _ _ _ _ _ _ _ _ _ _ _ _ _ _ _ _ _ _ _ _ _ _ HT H Ee) as [(a & I & _ & _ & -> & N)|(_ & Q)]; auto.
      right. exists a, peer, path, pre. auto.
    + injection El as <- ->. destruct (IHconversation _ _ _ _ _ _ _ _ _ _ _ _ _ _ eq_refl Ee) as [(u & Cu & ->)|(a & p & q & x & I & Ix & R)].
      * unfold Model.Server.serve in H. apply request_vouched in H as [H|[H|H]]; [cbn in H; rewrite H in Cu; eauto| |lia].
        destruct H as (a & p & q & v & I & Ua & Cv). right. exists a, p, q, e. split; auto. split; [right; now left|].
        split; [congruence|discriminate].
      * right. exists a, p, q, x. split; auto. split; [|auto]. destruct Ix as [Ix|Ix]; auto. right. now right.
Qed.
End P.
