(** BRSKI requests to a server. *)
From Coq Require Import String ZArith List Bool Lia ZifyBool ZifyNat.
From Verif Require Import Base Spec.Http Spec.Server Spec.Registrar Model.CLib Model.Codec Model.EstErr Model.HttpServer Model.Uri
  Model.AuthHdr Model.Server Proofs.AuthHdr Proofs.ServerAuth Proofs.ServerEnroll Proofs.ServerRequest Proofs.ServerProps
  Proofs.ServerCA Proofs.ServerReply Proofs.ServerResponse Proofs.ServerTrace Proofs.ServerSafe.
Import ListNotations.
Open Scope Z_scope.

Section P.
Context {cert csr key E : Type}.
Variable O : @ossl cert csr key.
Variable C : @config cert.
Variable A : @app cert key E.
Variable parse_uri : bytes -> res (est_error * option operation * option bytes).
Variable attrs_parse : bytes -> res (est_error * bool).
Variable attrs_add_pop : bytes -> res (est_error * bytes).
Variable attrs_check : option (option bytes) -> bytes -> res est_error.
Variable keep : Z -> bool.

Notation event := (@event cert key).
Notation st := (@st E).
Notation request := (est_http_request O C A parse_uri attrs_parse attrs_add_pop attrs_check keep).
Notation sane := (Spec.Server.sane C A).
Implicit Types (t : @tls cert) (e w : list event) (s : st).
Ltac nonw := let Q := fresh in intros (? & ? & Q); discriminate Q.

Lemma strncmp_exact : forall lit c, strncmp_eq (S (length lit)) c lit = true <-> c = lit.
Proof.
  induction lit as [|x lit IH]; intros [|y c]; cbn [length strncmp_eq]; try (split; [discriminate|discriminate]); [split; reflexivity|].
  rewrite andb_true_iff, Z.eqb_eq. change (S (length lit)) with (S (length lit)). rewrite (IH c). split; [intros [-> ->]; reflexivity|intro Q; injection Q; auto].
Qed.
Lemma strncmp_prefixb : forall p c, strncmp_eq (length p) c p = true -> prefixb p c = true.
Proof.
  induction p as [|x p IH]; intros [|y c]; cbn [length strncmp_eq prefixb]; try reflexivity; try discriminate.
  rewrite !andb_true_iff, !Z.eqb_eq. intros [-> Q]. split; [reflexivity|now apply IH].
Qed.
Lemma ct_exact : forall c lit, ct_is c lit = true <-> c = lit.
Proof. intros. apply strncmp_exact. Qed.

Lemma brski_auth_sends : forall t authz path s e au s', sane -> est_brski_auth O C A t authz path s = (e, Ok (au, s')) -> all_sent e ->
  (au = HTTP_AUTH_PENDING /\ reply e 401 []) \/ (au <> HTTP_AUTH_PENDING /\ silent e).
Proof.
  intros t authz path s e au s' (Hs1 & Hs2 & Hs3) H AS. unfold est_brski_auth in H.
  destruct (check_tls t) as [[cont peer] rv0] eqn:Ht.
  assert (NP : (if negb (auth_state_eqb rv0 CERT_AUTH) && is_some (t_srp t) then SRP_AUTH else rv0) <> HTTP_AUTH_PENDING /\ rv0 <> HTTP_AUTH_PENDING).
  { unfold check_tls in Ht. destruct (t_peer t); [destruct ((t_verify t =? 0) || (t_verify t =? 3))|]; inversion Ht; subst; (split; [destruct (negb _ && _); discriminate|discriminate]). }
  assert (FIN : forall k pr rv s0 e0 r0, mbind (auth_result_event C k pr rv) (fun _ => ret rv) s0 = (e0, r0) -> silent e0 /\ r0 = Ok (rv, s0)).
  { intros * Q. rewrite run_result_event in Q. inversion Q; subst. split; [apply res_silent|reflexivity]. }
  destruct cont; cbn [negb] in H.
  2:{ apply FIN in H as [F Q]. inversion Q; subst. right. split; [apply NP|exact F]. }
  destruct (is_some (a_http_auth A) && _).
  2:{ apply FIN in H as [F Q]. inversion Q; subst. right. split; [apply NP|exact F]. }
  apply mbind_inv in H as [[H Q]|(e1 & [pr a] & s1 & e2 & H1 & H & ->)]; [discriminate|].
  assert (e1 = []) as ->.
  { destruct peer as [c|]; [match type of H1 with context [if ?b then _ else _] => destruct b end|]; try (inversion H1; auto; fail);
      unfold parse_auth, mbind, get_uid, lift, set_uid, ret in H1;
      destruct (mg_parse_auth_header _ _ _ _ _) as [[[? ?] ?]|]; cbn in H1; inversion H1; auto. }
  clear H1. cbn [Datatypes.app] in *.
  apply mbind_inv in H as [[H Q]|(e3 & rv & s2 & e4 & H2 & H & ->)]; [discriminate|].
  apply FIN in H as [F4 Q]. injection Q as <- <-. rewrite all_sent_app in AS. destruct AS as [AS _].
  destruct pr; try (inversion H2; subst; right; split; [discriminate|exact F4]).
  - apply mbind_inv in H2 as [[_ H2]|(e5 & ok & s3 & e6 & H3 & H2 & ->)]; [discriminate|]. inversion H2; subst.
    unfold http_auth_cb in H3. destruct (a_http_auth A) as [f|]; [|discriminate].
    unfold mbind, call, emit, ret in H3. destruct (f _ _ _ _) as [env ok']. inversion H3; subst. cbn [Datatypes.app].
    right. split; [destruct ok; discriminate|]. constructor; [nonw|]. exact F4.
  - apply mbind_inv in H2 as [[_ H2]|(e5 & ok & s3 & e6 & H3 & H2 & ->)]; [discriminate|]. inversion H2; subst. rewrite app_nil_r in *.
    destruct (challenge_replies C A _ _ _ Hs1 Hs2 Hs3 H3 AS) as (sx & hs & _ & R & F & _). left. split; [reflexivity|].
    exists hs. rewrite sent_silent_r by exact F4. auto.
Qed.

Lemma auth_not_called : forall t path e, Forall (auth_ev t path) e -> not_called e.
Proof. intros t path e H. eapply Forall_impl; [|exact H]. intros x Hx (o & b & p & rv & v & ->). exact (auth_ev_nonpriv _ _ _ Hx (or_intror (or_intror (ex_intro _ o (ex_intro _ b (ex_intro _ p (ex_intro _ rv (ex_intro _ v eq_refl)))))))). Qed.
Lemma writes_not_called : forall e, Forall is_write e -> not_called e.
Proof. intros e H. eapply Forall_impl; [|exact H]. intros x (d & ok & ->) (? & ? & ? & ? & ? & Q). discriminate. Qed.
Lemma opt_not_called : forall b (x : event), ~ brski_call x -> not_called (opt_ev b x).
Proof. intros b x H. unfold opt_ev. destruct b; repeat constructor; auto. Qed.
Ltac nonb := let Q := fresh in intros (? & ? & ? & ? & ? & Q); discriminate Q.
Lemma start_not_called : forall uri, not_called (@start_ev cert key C uri).
Proof. intro. apply opt_not_called. nonb. Qed.
Lemma end_not_called : forall uri, not_called (@end_ev cert key C uri).
Proof. intro. apply opt_not_called. nonb. Qed.

(** One of the three handlers: [k] is what it does with the application. *)
Lemma authed_cases : forall t authz path (m : @M cert key E est_error) s e rc s', sane -> brski_authed O C A t authz path m s = (e, Ok (rc, s')) -> all_sent e ->
  (exists ea s1 em, e = ea ++ em /\ not_called ea /\ silent ea /\ m s1 = (em, Ok (rc, s')) /\ all_sent em)
  \/ (rc = EST_ERR_AUTH_PENDING /\ reply e 401 [] /\ not_called e)
  \/ (rc = EST_ERR_AUTH_FAIL /\ silent e /\ not_called e).
Proof.
  intros * Hs H AS. unfold brski_authed in H. apply mbind_inv in H as [[H Q]|(e1 & au & s1 & e2 & H1 & H & ->)]; [discriminate|].
  pose proof (auth_not_called _ _ _ (proj1 (brski_auth_facts O C A _ _ _ _ _ _ H1))) as NC. apply all_sent_app in AS as [AS1 AS2].
  destruct (brski_auth_sends _ _ _ _ _ _ _ Hs H1 AS1) as [[-> R]|[N Si]].
  - inversion H; subst. right. left. rewrite app_nil_r. auto.
  - destruct au; try congruence; try (left; exists e1, s1, e2; auto; fail); inversion H; subst; right; right; rewrite app_nil_r; auto.
Qed.

Lemma not_called_app : forall e w, not_called (e ++ w) <-> not_called e /\ not_called w.
Proof. intros. apply Forall_app. Qed.
Lemma once_app : forall a e b o body peer rv v, not_called a -> not_called b -> called_once e o body peer rv v -> called_once (a ++ e ++ b) o body peer rv v.
Proof.
  intros a e b o body peer rv v Na Nb (pre & post & -> & N1 & N2). exists (a ++ pre), (post ++ b). split; [now rewrite <- !app_assoc|]. split; apply Forall_app; auto.
Qed.

Lemma retry_replies : forall delay s w er s', 0 <= delay -> send_http_retry_after A delay s = (w, Ok (er, s')) -> all_sent w ->
  er = EST_ERR_NONE /\ exists hs n, response (sent w) 202 hs [] /\ framed 202 hs [] /\ first_header hs (str "Retry-After") n /\ decimal n delay.
Proof.
  intros delay s w er s' Hd H AS. unfold send_http_retry_after in H.
  apply mbind_inv in H as [[H Q]|(e3 & [] & s2 & e4 & H2 & H & ->)]; [discriminate|]. inversion H2; subst. clear H2.
  match type of H with mbind (mg_write A ?d) _ ?s1 = _ => destruct (write_run A d s1) as (ok & s3 & Q & _ & Cd) end.
  apply mbind_inv in H as [[H _]|(e5 & ok' & s5 & e6 & H5 & H & ->)]; [rewrite Q in H; discriminate|].
  rewrite Q in H5. injection H5 as <- <- <-. injection H as <- <- <-. cbn [Datatypes.app] in *.
  apply all_sent_cons in AS as [-> AS]. split; [reflexivity|].
  set (hs := [(str "Status", str "202 Accepted"); (str "Retry-After", print_int delay)]).
  exists hs, (print_int delay). split.
  { cbn [sent]. rewrite app_nil_r.
    match goal with |- response ?d _ _ _ =>
      replace d with (str "HTTP/1.1 " ++ str "202" ++ str " " ++ str "Accepted" ++ CRLF ++ concat (map render_header hs) ++ CRLF ++ []) end.
    2: { unfold hs, hdr, render_header, CRLF, EOL. cbn [map concat fst snd]. rewrite <- !app_assoc. reflexivity. }
    apply head_response; [|reflexivity|line|].
    - num.
    - constructor; [split; line|constructor; [split; [line|]|constructor]]. cbn [snd]. eapply decimal_line, print_int_decimal, Hd. }
  split. { right. repeat split. repeat (constructor; [vm_compute; discriminate|]). constructor. }
  split; [|now apply print_int_decimal].
  exists [(str "Status", str "202 Accepted")], (str "Retry-After"), []. repeat split. constructor; [vm_compute; discriminate|constructor].
Qed.

Lemma call_run : forall X (f : E -> E * X) s, exists x s1, @call cert key E X f s = ([], Ok (x, s1)).
Proof. intros. unfold call. destruct (f _). eauto. Qed.

Lemma voucher_replies : forall t authz c body path s e rc s', sane -> 0 <= c_brski_retry C ->
  brski_voucher_req O C A t authz c body path s = (e, Ok (rc, s')) -> all_sent e ->
  (exists rv v, called_once e OP_BRSKI_REQ_VOUCHER body (t_peer t) rv v /\ voucher_type (Some c)
     /\ ((rc = EST_ERR_NONE /\ ((rv = 1 /\ v <> [] /\ exists hs, response (sent e) 200 hs v /\ framed 200 hs v /\ first_header hs (str "Content-Type") (str "application/voucher+cms"))
            \/ (rv = 2 /\ exists hs n, response (sent e) 202 hs [] /\ framed 202 hs [] /\ first_header hs (str "Retry-After") n /\ decimal n (c_brski_retry C))))
         \/ (rc = EST_ERR_CA_ENROLL_FAIL /\ silent e /\ (rv <> 1 \/ v = []) /\ rv <> 2)))
  \/ (rc = EST_ERR_AUTH_PENDING /\ reply e 401 [] /\ not_called e)
  \/ (rc <> EST_ERR_NONE /\ rc <> EST_ERR_AUTH_PENDING /\ silent e /\ not_called e).
Proof.
  intros * Hs Hr H AS. unfold brski_voucher_req in H. destruct (a_voucher A) as [f|].
  2:{ inversion H; subst. right. right. split; [discriminate|]. split; [discriminate|]. split; constructor. }
  destruct (negb _ && negb _) eqn:Ct.
  { inversion H; subst. right. right. split; [discriminate|]. split; [discriminate|]. split; constructor. }
  assert (VT : voucher_type (Some c)).
  { apply andb_false_iff in Ct as [Ct|Ct]; apply negb_false_iff, ct_exact in Ct; subst c; [right|left]; reflexivity. }
  apply authed_cases in H as [(ea & s1 & em & -> & NC & Si & H & ASm)|[(-> & R & NC)|(-> & Si & NC)]]; auto.
  2:{ right. right. split; [discriminate|]. split; [discriminate|]. auto. }
  left. apply mbind_inv in H as [[H _]|(e1 & [rv v] & s2 & e2 & H1 & H & ->)].
  { destruct (call_run _ (fun env => f env body (t_peer t)) s1) as (x & s3 & Q). rewrite Q in H. discriminate. }
  destruct (call_run _ (fun env => f env body (t_peer t)) s1) as (x & s3 & Q). rewrite Q in H1. injection H1 as <- _ _.
  apply mbind_inv in H as [[H _]|(e3 & [] & s4 & e4 & H3 & H & ->)]; [discriminate|]. inversion H3; subst. clear H3.
  cbn [Datatypes.app] in *. set (x0 := EvVoucher OP_BRSKI_REQ_VOUCHER body (t_peer t) rv v) in *.
  assert (X0 : silent [x0]) by (constructor; [nonw|constructor]).
  assert (AS4 : all_sent e4) by (change (x0 :: e4) with ([x0] ++ e4) in ASm; now apply all_sent_app in ASm).
  assert (SE : sent (ea ++ x0 :: e4) = sent e4) by (rewrite (sent_silent_l ea) by auto; reflexivity).
  exists rv, v. rewrite SE.
  assert (W : Forall is_write e4 /\ ((rc = EST_ERR_NONE /\ ((rv = 1 /\ v <> [] /\ exists hs, response (sent e4) 200 hs v /\ framed 200 hs v /\ first_header hs (str "Content-Type") (str "application/voucher+cms"))
            \/ (rv = 2 /\ exists hs n, response (sent e4) 202 hs [] /\ framed 202 hs [] /\ first_header hs (str "Retry-After") n /\ decimal n (c_brski_retry C))))
         \/ (rc = EST_ERR_CA_ENROLL_FAIL /\ e4 = [] /\ (rv <> 1 \/ v = []) /\ rv <> 2))).
  { destruct ((rv =? 1) && (0 <? len v)) eqn:B1.
    - split; [exact (proj1 (writes_200 A (str "application/voucher+cms") v _ _ _ H))|]. apply send_200_replies in H as (-> & hs & R & F & Fh); [|line|exact AS4].
      left. split; [reflexivity|]. left. split; [lia|]. split; [intros ->; rewrite andb_false_r in B1; discriminate|]. eauto.
    - destruct (rv =? 2) eqn:B2.
      + apply mbind_inv in H as [[H Q2]|(e5 & er & s5 & e6 & H5 & H & ->)]; [discriminate|].
        split. { apply Forall_app. split; [exact (proj1 (writes_retry A _ _ _ _ H5))|]. inversion H; constructor. }
        inversion H; subst. rewrite app_nil_r in *. apply retry_replies in H5 as (-> & hs & n & R); auto.
        left. split; [reflexivity|]. right. split; [lia|]. eauto.
      + inversion H; subst. split; [constructor|]. right. split; [reflexivity|]. split; [reflexivity|]. split; [|lia].
        destruct v as [|y v]; [auto|]. left. rewrite len_cons in B1. pose proof (len_nonneg _ v). lia. }
  destruct W as [W1 W2]. split.
  { exists ea, e4. split; [reflexivity|]. split; [exact NC|]. now apply writes_not_called. }
  split; [exact VT|]. destruct W2 as [W2|(-> & -> & W2)]; [left; exact W2|right]. split; [reflexivity|]. split; [|exact W2]. apply silent_app. split; auto.
Qed.
Lemma status_replies : forall o cb t authz c body path s e rc s', sane ->
  brski_status O C A o cb t authz c body path s = (e, Ok (rc, s')) -> all_sent e ->
  (exists rv, called_once e o body (t_peer t) rv [] /\ c = str "application/json"
     /\ ((rc = EST_ERR_NONE /\ rv = 1 /\ sent e = str "HTTP/1.1 200 OK" ++ CRLF ++ str "Status: 200 OK" ++ CRLF)
         \/ (rc = EST_ERR_CA_ENROLL_FAIL /\ silent e /\ rv <> 1)))
  \/ (rc = EST_ERR_AUTH_PENDING /\ reply e 401 [] /\ not_called e)
  \/ (rc <> EST_ERR_NONE /\ rc <> EST_ERR_AUTH_PENDING /\ silent e /\ not_called e).
Proof.
  intros * Hs H AS. unfold brski_status in H. destruct cb as [f|].
  2:{ inversion H; subst. right. right. split; [discriminate|]. split; [discriminate|]. split; constructor. }
  destruct (negb _) eqn:Ct.
  { inversion H; subst. right. right. split; [discriminate|]. split; [discriminate|]. split; constructor. }
  apply negb_false_iff, ct_exact in Ct. subst c.
  apply authed_cases in H as [(ea & s1 & em & -> & NC & Si & H & ASm)|[(-> & R & NC)|(-> & Si & NC)]]; auto.
  2:{ right. right. split; [discriminate|]. split; [discriminate|]. auto. }
  left. apply mbind_inv in H as [[H _]|(e1 & rv & s2 & e2 & H1 & H & ->)].
  { destruct (call_run _ (fun env => f env body (t_peer t)) s1) as (x & s3 & Q). rewrite Q in H. discriminate. }
  destruct (call_run _ (fun env => f env body (t_peer t)) s1) as (x & s3 & Q). rewrite Q in H1. injection H1 as <- _ _.
  apply mbind_inv in H as [[H _]|(e3 & [] & s4 & e4 & H3 & H & ->)]; [discriminate|]. inversion H3; subst. clear H3.
  cbn [Datatypes.app] in *. set (x0 := EvVoucher o body (t_peer t) rv []) in *.
  assert (X0 : silent [x0]) by (constructor; [nonw|constructor]).
  assert (AS4 : all_sent e4) by (change (x0 :: e4) with ([x0] ++ e4) in ASm; now apply all_sent_app in ASm).
  assert (SE : sent (ea ++ x0 :: e4) = sent e4) by (rewrite (sent_silent_l ea) by auto; reflexivity).
  exists rv. rewrite SE.
  destruct (rv =? 1) eqn:B1.
  - match type of H with mbind (mg_write A ?d) _ ?s1 = _ => destruct (write_run A d s1) as (ok & s5 & Q5 & _ & Cd) end.
    rewrite (mbind_eq _ _ _ _ _ _ _ _ Q5) in H. inversion H; subst. apply all_sent_cons in AS4 as [-> _].
    split. { exists ea, [EvWrite (str "HTTP/1.1 200 OK" ++ EOL ++ str "Status: 200 OK" ++ EOL) true]. split; [reflexivity|]. split; [exact NC|]. apply writes_not_called. constructor; [repeat eexists|constructor]. }
    split; [reflexivity|]. left. split; [reflexivity|]. split; [lia|reflexivity].
  - inversion H; subst. split. { exists ea, []. split; [reflexivity|]. split; [exact NC|constructor]. }
    split; [reflexivity|]. right. split; [reflexivity|]. split; [|lia]. apply silent_app. split; auto.
Qed.

Lemma once_response : forall a e b o body peer rv v code hs d, silent a -> silent b -> not_called a -> not_called b ->
  called_once e o body peer rv v -> response (sent e) code hs d -> called_once (a ++ e ++ b) o body peer rv v /\ response (sent (a ++ e ++ b)) code hs d.
Proof. intros. split; [now apply once_app|]. rewrite sent_silent_l, sent_silent_r by assumption. assumption. Qed.

(** A BRSKI request either runs its handler or is refused. *)
Lemma brski_paths : forall t method uri body ct authz s e rc s' o path, parse_uri uri = Ok (EST_ERR_NONE, Some o, path) -> posts o = true -> enrolls o = false ->
  0 <= c_retry C -> request t method uri body ct authz s = (e, Ok (rc, s')) -> all_sent e ->
  (exists d, reply e 400 d /\ not_called e)
  \/ (exists c eo ro so a b, ct = Some c /\ prefixb (str "POST") method = true /\ run_op O C A attrs_parse attrs_add_pop attrs_check keep t authz c body path o s = (eo, Ok (ro, so))
      /\ e = a ++ eo ++ b /\ silent a /\ not_called a /\ not_called b /\ all_sent eo
      /\ ((is_done o ro = true /\ silent b) \/ (is_done o ro = false /\ exists hs d, response (sent b) (if match ro with EST_ERR_AUTH_FAIL => true | _ => false end then 401 else 400) hs d
           /\ framed (if match ro with EST_ERR_AUTH_FAIL => true | _ => false end then 401 else 400) hs d))).
Proof.
  intros t method uri body ct authz s e rc s' o path Pu Po En Hr H AS. apply request_paths in H.
  pose proof (@start_silent cert key C uri) as S1. pose proof (@end_silent cert key C uri) as S2. pose proof (start_not_called uri) as N1. pose proof (end_not_called uri) as N2.
  assert (MF : method_fits o method = true -> prefixb (str "POST") method = true).
  { assert (Q0 : method_fits o method = strncmp_eq (length (str "POST")) method (str "POST")) by (destruct o; try discriminate Po; reflexivity). rewrite Q0. apply strncmp_prefixb. }
  assert (RE : forall er, is_done o er = false -> reported o er = match er with EST_ERR_AUTH_FAIL => EST_ERR_AUTH_FAIL | _ => EST_ERR_BAD_PKCS10 end).
  { intros er _. unfold reported. rewrite Po, En. cbn. destruct er; reflexivity. }
  assert (QE : forall rc0, req_ev O C o body = [] /\ rsp_ev O C o body rc0 = []) by (intro; unfold req_ev, rsp_ev, opt_ev; rewrite En; auto).
  inversion H; subst; try congruence.
  - left. apply all_sent_app in AS as [_ AS].
    match goal with Q : est_send_http_error _ _ _ _ _ = _ |- _ => destruct (error_replies A keep _ _ _ _ _ Hr Q AS) as (s2 & hs & d & _ & R & F & _); pose proof (proj1 (writes_error A keep _ _ _ _ _ Q)) as W end.
    assert (St : http_status rc = 400).
    { match goal with Q : refusal _ _ _ _ _ |- _ => destruct Q as [[Q (o1 & p1 & Q2)]|[[-> _]|[-> _]]] end; [congruence|reflexivity|reflexivity]. }
    rewrite St in *. exists d. split; [exists hs; rewrite sent_silent_l by auto; auto|]. apply not_called_app. split; [auto|now apply writes_not_called].
  - right. match goal with Q : parse_uri uri = Ok (_, Some ?o2, ?p2) |- _ => rewrite Pu in Q; injection Q as <- <- end. destruct (QE rc0) as [Q1 Q2]. rewrite Q1, Q2 in *. cbn [Datatypes.app] in *.
    rewrite !all_sent_app in AS. destruct AS as (_ & AS & _).
    exists c, e0, rc0, s', (@start_ev cert key C uri), (@end_ev cert key C uri). split; [auto|]. split; [auto|]. split; [eassumption|]. split; [reflexivity|]. split; [auto|]. split; [auto|]. split; [auto|]. split; [auto|]. left. auto.
  - right. match goal with Q : parse_uri uri = Ok (_, Some ?o2, ?p2) |- _ => rewrite Pu in Q; injection Q as <- <- end. destruct (QE rc) as [Q1 Q2]. rewrite Q1, Q2 in *. cbn [Datatypes.app] in *.
    rewrite !all_sent_app in AS. destruct AS as (_ & AS & AS2).
    match goal with Q : est_send_http_error _ _ _ _ _ = _ |- _ => destruct (error_replies A keep _ _ _ _ _ Hr Q AS2) as (s2 & hs & d & _ & R & F & _); pose proof (proj1 (writes_error A keep _ _ _ _ _ Q)) as W end.
    exists c, e0, rc, s1, (@start_ev cert key C uri), w. split; [auto|]. split; [auto|]. split; [eassumption|]. split; [reflexivity|]. split; [auto|]. split; [auto|]. split; [now apply writes_not_called|]. split; [auto|]. right. split; [assumption|].
    exists hs, d. rewrite RE in * by assumption. destruct rc; auto.
Qed.

Lemma answer_400 : forall (a eo b : list event) hs d code, silent a -> silent eo -> response (sent b) code hs d -> framed code hs d -> reply (a ++ eo ++ b) code d.
Proof. intros. exists hs. rewrite sent_silent_l, sent_silent_l by assumption. auto. Qed.

Theorem voucher_request : forall t method uri body ct authz s e rc s' path, 0 <= c_retry C -> 0 <= c_brski_retry C -> sane ->
  parse_uri uri = Ok (EST_ERR_NONE, Some OP_BRSKI_REQ_VOUCHER, path) -> request t method uri body ct authz s = (e, Ok (rc, s')) -> all_sent e ->
  (exists rv v, called_once e OP_BRSKI_REQ_VOUCHER body (t_peer t) rv v /\ prefixb (str "POST") method = true /\ voucher_type ct /\ voucher_answer C e rv v)
  \/ (not_called e /\ exists code d, In code [400; 401] /\ reply e code d).
Proof.
  intros * Hr Hb Hs Pu H AS. destruct (brski_paths _ _ _ _ _ _ _ _ _ _ _ _ Pu eq_refl eq_refl Hr H AS) as [(d & R & N)|(c & eo & ro & so & a & b & -> & Mp & Ro & -> & Sa & Na & Nb & ASo & D)].
  { right. split; [exact N|]. exists 400, d. split; [cbn; auto|exact R]. }
  cbn [run_op] in Ro. apply voucher_replies in Ro as [(rv & v & C1 & VT & W)|[(-> & R & N)|(N1 & N2 & Si & N)]]; auto.
  - left. exists rv, v. split; [now apply once_app|]. split; [exact Mp|]. split; [exact VT|]. unfold voucher_answer.
    destruct W as [(-> & [(-> & Nv & hs & R & F & Fh)|(-> & hs & n & R & F & Fh & Dn)])|(-> & Si & Nv & N2)].
    + destruct D as [(_ & Sb)|(Q & _)]; [|discriminate]. left. split; [reflexivity|]. split; [exact Nv|]. exists hs. rewrite sent_silent_l, sent_silent_r by assumption. auto.
    + destruct D as [(_ & Sb)|(Q & _)]; [|discriminate]. right. left. split; [reflexivity|]. exists hs, n. rewrite sent_silent_l, sent_silent_r by assumption. auto.
    + destruct D as [(Q & _)|(_ & hs & d & R & F)]; [discriminate|]. right. right. split; [exact Nv|]. split; [exact N2|]. exists d. cbn in R, F. eapply answer_400; eauto.
  - right. split; [rewrite !not_called_app; auto|]. destruct D as [(_ & Sb)|(Q & _)]; [|discriminate]. exists 401, []. split; [cbn; auto|].
    destruct R as (hs & R & F). exists hs. rewrite sent_silent_l, sent_silent_r by assumption. auto.
  - right. split; [rewrite !not_called_app; auto|]. destruct D as [(Q & _)|(_ & hs & d & R & F)]; [exfalso; destruct ro; try discriminate; congruence|].
    destruct ro; eexists _, d; (split; [|eapply answer_400; eassumption]); cbn; auto.
Qed.
Theorem status_request : forall t method uri body ct authz s e rc s' path o, 0 <= c_retry C -> sane -> o = OP_BRSKI_VOUCHER_STATUS \/ o = OP_BRSKI_ENROLL_STATUS ->
  parse_uri uri = Ok (EST_ERR_NONE, Some o, path) -> request t method uri body ct authz s = (e, Ok (rc, s')) -> all_sent e ->
  (exists rv, called_once e o body (t_peer t) rv [] /\ prefixb (str "POST") method = true /\ ct = Some (str "application/json")
     /\ ((rv = 1 /\ sent e = str "HTTP/1.1 200 OK" ++ CRLF ++ str "Status: 200 OK" ++ CRLF) \/ (rv <> 1 /\ exists d, reply e 400 d)))
  \/ (not_called e /\ exists code d, In code [400; 401] /\ reply e code d).
Proof.
  intros * Hr Hs Ho Pu H AS. destruct (brski_paths _ _ _ _ _ _ _ _ _ _ _ _ Pu ltac:(destruct Ho; subst; reflexivity) ltac:(destruct Ho; subst; reflexivity) Hr H AS) as [(d & R & N)|(c & eo & ro & so & a & b & -> & Mp & Ro & -> & Sa & Na & Nb & ASo & D)].
  { right. split; [exact N|]. exists 400, d. split; [cbn; auto|exact R]. }
  assert (Ro' : exists cb, brski_status O C A o cb t authz c body path s = (eo, Ok (ro, so))) by (destruct Ho; subst o; cbn [run_op] in Ro; eauto). clear Ro. destruct Ro' as (cb & Ro).
  assert (Dn : is_done o EST_ERR_NONE = true /\ is_done o EST_ERR_CA_ENROLL_FAIL = false /\ is_done o EST_ERR_AUTH_PENDING = true) by (destruct Ho; subst; auto). destruct Dn as (Dn1 & Dn2 & Dn3).
  apply status_replies in Ro as [(rv & C1 & -> & W)|[(-> & R & N)|(N1 & N2 & Si & N)]]; auto.
  - left. exists rv. split; [now apply once_app|]. split; [exact Mp|]. split; [reflexivity|].
    destruct W as [(-> & -> & Se)|(-> & Si & N2)].
    + destruct D as [(_ & Sb)|(Q & _)]; [|congruence]. left. split; [reflexivity|]. rewrite sent_silent_l, sent_silent_r by assumption. exact Se.
    + destruct D as [(Q & _)|(_ & hs & d & R & F)]; [congruence|]. right. split; [exact N2|]. exists d. cbn in R, F. eapply answer_400; eauto.
  - right. split; [rewrite !not_called_app; auto|]. destruct D as [(_ & Sb)|(Q & _)]; [|congruence]. exists 401, []. split; [cbn; auto|].
    destruct R as (hs & R & F). exists hs. rewrite sent_silent_l, sent_silent_r by assumption. auto.
  - right. split; [rewrite !not_called_app; auto|]. destruct D as [(Q & _)|(_ & hs & d & R & F)]; [exfalso; unfold is_done in Q; destruct ro; try discriminate; congruence|].
    destruct ro; eexists _, d; (split; [|eapply answer_400; eassumption]); cbn; auto.
Qed.

(** ** Requests that deserve an answer *)
Lemma brski_accepted : forall t authz path s, accepted O C A t authz s path -> exists e au s1, est_brski_auth O C A t authz path s = (e, Ok (au, s1)) /\ granted au.
Proof.
  intros t authz path s [NR Acc]. unfold est_brski_auth, check_tls. unfold cert_rejected in NR.
  assert (FIN : forall k pr rv s0, exists e0, mbind (auth_result_event C k pr rv) (fun _ => @ret cert key E _ rv) s0 = (e0, Ok (rv, s0))).
  { intros. rewrite run_result_event. eauto. }
  assert (P : (exists c, t_peer t = Some c /\ (t_verify t =? 0) || (t_verify t =? 3) = true) \/ t_peer t = None).
  { destruct (t_peer t) as [c|] eqn:Ep; [|auto]. left. exists c. split; [reflexivity|]. destruct ((t_verify t =? 0) || (t_verify t =? 3)) eqn:V; [reflexivity|]. exfalso. apply NR. exists c. split; [reflexivity|]. lia. }
  destruct Acc as [[Tid NoH]|(f & a & u & Ef & Fok & Need & NoE & HP)].
  - assert (NH : forall b, b = false -> is_some (a_http_auth A) && (b || c_http_required C) = false) by (intros b ->; destruct NoH as [NoH|NoH]; rewrite NoH; [apply andb_false_r|reflexivity]).
    destruct P as [(c & Ep & V)|Ep]; rewrite Ep in *.
    + rewrite V. cbn [negb auth_state_eqb andb]. rewrite NH by reflexivity. destruct (FIN SIMPLE_ENROLL_REQ ECA_ERR CERT_AUTH s) as (e0 & Q). rewrite Q. eexists _, _, _. split; [reflexivity|]. unfold granted. auto.
    + destruct Tid as [(c & Q & _)|(_ & Sr)]; [congruence|]. destruct (t_srp t) as [x|]; [|congruence]. cbn [negb auth_state_eqb andb is_some]. rewrite NH by reflexivity.
      destruct (FIN SIMPLE_ENROLL_REQ ECA_ERR SRP_AUTH s) as (e0 & Q). rewrite Q. eexists _, _, _. split; [reflexivity|]. unfold granted. auto.
  - rewrite Ef. cbn [is_some andb].
    assert (PA : exists s1, parse_auth O C authz s = ([], Ok ((HDR_GOOD, a), s1))).
    { unfold parse_auth, get_uid, set_uid, lift, mbind, ret. rewrite HP. cbn. eauto. }
    destruct PA as (s1 & PA). 
    assert (CB : forall s0, exists e2 s2, mbind (mbind (http_auth_cb A a (t_peer t) path) (fun ok : bool => @ret cert key E _ (if ok then HTTP_AUTH else UNAUTHORIZED))) (fun rv' => mbind (auth_result_event C SIMPLE_ENROLL_REQ HDR_GOOD rv') (fun _ => ret rv')) s0 = (e2, Ok (HTTP_AUTH, s2))).
    { intro s0. unfold http_auth_cb. rewrite Ef. unfold mbind at 2. unfold mbind at 2. unfold mbind at 1. unfold call, emit, ret, mbind. specialize (Fok (s_env s0)). destruct (f (s_env s0) a (t_peer t) path) as [env ok]. cbn in Fok. subst ok.
      destruct (FIN SIMPLE_ENROLL_REQ HDR_GOOD HTTP_AUTH {| s_env := env; s_uid := s_uid s0; s_code := s_code s0 |}) as (e0 & Q). unfold mbind, ret in Q. cbn. rewrite Q. eauto. }
    destruct P as [(c & Ep & V)|Ep]; rewrite Ep in *.
    + rewrite V. cbn [negb auth_state_eqb andb]. assert (Eca : c_eca C = false) by (destruct (c_eca C); [discriminate (NoE eq_refl)|reflexivity]). rewrite Eca. cbn [andb].
      destruct Need as [Rq|[Q _]]; [|discriminate]. rewrite Rq. cbn [orb]. destruct (CB s1) as (e2 & s2 & Q). rewrite (mbind_eq _ _ _ _ _ _ _ _ PA). rewrite Q. eexists _, _, _. split; [reflexivity|]. unfold granted. auto.
    + assert (B : auth_state_eqb (if negb (auth_state_eqb UNAUTHORIZED CERT_AUTH) && is_some (t_srp t) then SRP_AUTH else UNAUTHORIZED) UNAUTHORIZED || c_http_required C = true).
      { destruct Need as [Rq|[_ Q]]; [rewrite Rq; apply orb_true_r|]. rewrite Q. reflexivity. }
      cbn [negb]. rewrite B. destruct (CB s1) as (e2 & s2 & Q). rewrite (mbind_eq _ _ _ _ _ _ _ _ PA). rewrite Q. eexists _, _, _. split; [reflexivity|]. unfold granted. auto.
Qed.
Lemma authed_runs : forall t authz path (m : @M cert key E est_error) s, accepted O C A t authz s path ->
  exists e s1, brski_authed O C A t authz path m s = (let '(em, r) := m s1 in (e ++ em, r)).
Proof.
  intros t authz path m s H. destruct (brski_accepted _ _ _ _ H) as (e & au & s1 & Q & G). exists e, s1. unfold brski_authed. rewrite (mbind_eq _ _ _ _ _ _ _ _ Q). destruct G as [->|[->| ->]]; reflexivity.
Qed.
Theorem brski_served : forall t uri body c authz s o path, parse_uri uri = Ok (EST_ERR_NONE, Some o, path) ->
  (o = OP_BRSKI_REQ_VOUCHER /\ a_voucher A <> None /\ voucher_type (Some c)) \/ (o = OP_BRSKI_VOUCHER_STATUS /\ a_voucher_status A <> None /\ c = str "application/json")
    \/ (o = OP_BRSKI_ENROLL_STATUS /\ a_enroll_status A <> None /\ c = str "application/json") ->
  accepted O C A t authz s path ->
  exists e rc s' rv v, request t (str "POST") uri body (Some c) authz s = (e, Ok (rc, s')) /\ In (EvVoucher o body (t_peer t) rv v) e.
Proof.
  intros t uri body c authz s o path Pu Ho Acc.
  assert (RUN : exists eo rc so rv v, run_op O C A attrs_parse attrs_add_pop attrs_check keep t authz c body path o s = (eo, Ok (rc, so)) /\ In (EvVoucher o body (t_peer t) rv v) eo).
  { assert (ST : forall o cb, cb <> None -> c = str "application/json" -> exists eo rc so rv v, brski_status O C A o cb t authz c body path s = (eo, Ok (rc, so)) /\ In (EvVoucher o body (t_peer t) rv v) eo).
    { intros o0 [f|] N ->; [|congruence]. unfold brski_status. rewrite (proj2 (ct_exact _ _) eq_refl). cbn [negb].
      match goal with |- context [brski_authed O C A t authz path ?m s] => destruct (authed_runs t authz path m s Acc) as (ea & s1 & ->) end.
      destruct (call_run _ (fun env => f env body (t_peer t)) s1) as (rv & s2 & Q). rewrite (mbind_eq _ _ _ _ _ _ _ _ Q). unfold mbind at 1, emit. cbn [Datatypes.app].
      destruct (rv =? 1).
      - match goal with |- context [mbind (mg_write A ?d) _ ?s1] => destruct (write_run A d s1) as (ok & s5 & Q5 & _ & Cd) end. rewrite (mbind_eq _ _ _ _ _ _ _ _ Q5). unfold ret.
        eexists _, _, _, _, _. split; [reflexivity|]. apply in_or_app. right. left. reflexivity.
      - unfold ret. eexists _, _, _, _, _. split; [reflexivity|]. apply in_or_app. right. left. reflexivity. }
    destruct Ho as [(-> & N & VT)|[(-> & N & Ec)|(-> & N & Ec)]]; cbn [run_op]; [|now apply ST|now apply ST].
    destruct (a_voucher A) as [f|] eqn:Ef; [|congruence]. unfold brski_voucher_req. rewrite Ef.
    replace (negb (ct_is c (str "application/pkcs7-mime; smime-type=voucher-request")) && negb (ct_is c (str "application/json"))) with false.
    2:{ symmetry. apply andb_false_iff. destruct VT as [Q|Q]; injection Q as ->; rewrite (proj2 (ct_exact _ _) eq_refl); auto. }
    match goal with |- context [brski_authed O C A t authz path ?m s] => destruct (authed_runs t authz path m s Acc) as (ea & s1 & ->) end.
    destruct (call_run _ (fun env => f env body (t_peer t)) s1) as ([rv v] & s2 & Q). rewrite (mbind_eq _ _ _ _ _ _ _ _ Q). unfold mbind at 1, emit. cbn [Datatypes.app].
    match goal with |- context [?m s2] => match m with (if _ then _ else _) => assert (W : writes m) end end.
    { destruct (_ && _); [apply writes_200|]. destruct (rv =? 2); [|apply writes_ret]. apply writes_bind; [apply writes_retry|intro; apply writes_ret]. }
    match goal with |- context [?m s2] => match m with (if _ then _ else _) => destruct (m s2) as [e4 r4] eqn:E4 end end.
    destruct (W _ _ _ E4) as (_ & rc & s5 & -> & _). eexists _, _, _, _, _. split; [reflexivity|]. apply in_or_app. right. left. reflexivity. }
  destruct RUN as (eo & rc & so & rv & v & Ro & I).
  assert (Po : posts o = true) by (destruct Ho as [(-> & _)|[(-> & _)|(-> & _)]]; reflexivity).
  assert (Mf : method_fits o (str "POST") = true) by (destruct Ho as [(-> & _)|[(-> & _)|(-> & _)]]; reflexivity).
  destruct (request t (str "POST") uri body (Some c) authz s) as [e r] eqn:H. apply request_paths in H.
  inversion H; subst; try congruence.
  - exfalso. match goal with Q : refusal _ _ _ _ _ |- _ => destruct Q as [[Q (? & ? & Q2)]|[[_ (? & ? & Q2 & Q3)]|[_ (Q & _)]]] end; congruence.
  - exfalso. match goal with Q : posts _ = true -> _, Q2 : parse_uri uri = Ok (_, Some ?o2, ?p2) |- _ => rewrite Pu in Q2; injection Q2 as <- <-; specialize (Q Po); injection Q as <- end. congruence.
  - match goal with Q : posts _ = true -> _, Q2 : parse_uri uri = Ok (_, Some ?o2, ?p2) |- _ => rewrite Pu in Q2; injection Q2 as <- <-; specialize (Q Po); injection Q as <- end.
    match goal with Q : run_op _ _ _ _ _ _ _ _ _ _ _ _ _ _ = _ |- _ => rewrite Ro in Q; injection Q as <- <- <- end.
    eexists _, _, _, rv, v. split; [reflexivity|]. rewrite !in_app_iff. auto.
  - match goal with Q : posts _ = true -> _, Q2 : parse_uri uri = Ok (_, Some ?o2, ?p2) |- _ => rewrite Pu in Q2; injection Q2 as <- <-; specialize (Q Po); injection Q as <- end.
    match goal with Q : run_op _ _ _ _ _ _ _ _ _ _ _ _ _ _ = _ |- _ => rewrite Ro in Q; injection Q as <- <- <- end.
    eexists _, _, _, rv, v. split; [reflexivity|]. rewrite !in_app_iff. auto.
Qed.
End P.
