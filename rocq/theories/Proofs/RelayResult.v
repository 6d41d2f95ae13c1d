(** The proxy's contacts, certificates and answers, as its properties state them. *)
From Coq Require Import String ZArith List Bool Lia ZifyBool ZifyNat.
From Verif Require Import Base Spec.Http Spec.Multipart Spec.Server Spec.Relay Model.CLib Model.EstErr Model.Codec Model.Uri Model.AuthHdr Model.HttpServer Model.CsrAttrs Model.ClientHttp Model.Server Model.Relay
  Proofs.EstErr Proofs.Uri Proofs.ServerAuth Proofs.ServerEnroll Proofs.ServerReply Proofs.ServerProps Proofs.ServerClaims Proofs.ServerResponse Proofs.RelayRequest Proofs.RelayReply Proofs.RelayFetch Proofs.RelayOutcome Proofs.RelayIssue.
From Verif Require Spec.Client Spec.ClientCalls Model.Client Proofs.ClientCalls Proofs.ClientServer Proofs.ClientShelf Proofs.ClientModes Proofs.RelayCourse Proofs.RelayAnswer Proofs.RelayClaims.
Import ListNotations.
Open Scope Z_scope.

Lemma reported_200 : forall rv, rv <> EST_ERR_NONE -> reported rv <> 200.
Proof. intros []; cbn; congruence. Qed.

Section P.
Context {cert csr key E : Type}.
Variable O : @ossl cert csr key.
Variable C : @config cert.
Variable A : @app cert key E.
Variable parse_uri : bytes -> res (est_error * option operation * option bytes).
Variable keep : Z -> bool.
Variable X : Client.ext.
Variable own_path : option bytes.
Variable have_ctx : bool.
Variable n : nat.
Notation fuel := (S (S n)).
Notation pevent := (@pevent cert key).
Notation event := (@event cert key).
Notation pst := (@pst E).
Notation request := (est_proxy_http_request O C A parse_uri keep X own_path have_ctx fuel).
Implicit Types (s : pst) (e : list pevent).
Local Notation world s := (Client.s_env (p_up s)).

Lemma credentials_challenges : gives_credentials C = true <-> challenges C.
Proof.
  unfold gives_credentials, challenges. destruct (c_auth_mode C); split; intuition (discriminate || auto).
Qed.
Lemma fetch_shape : forall t method uri body ct authz s e r o path, request t method uri body ct authz s = (e, r) ->
  parse_uri uri = Ok (EST_ERR_NONE, Some o, path) -> enrolls o = false ->
  ups e = [] \/ exists sv p a, ups e = [Client.EConnect sv p a] \/ (exists q, ups e = [Client.EConnect sv p a; Client.ERequest q]) \/ exists q x, ups e = [Client.EConnect sv p a; Client.ERequest q; Client.EResponse x].
Proof.
  intros t method uri body ct authz s e r o path H Hu Eo. destruct (ups e) as [|u l] eqn:Eu; [now left|]. right. rewrite <- Eu. assert (Nu : ups e <> []) by congruence. clear u l Eu.
  destruct (other_request O C A parse_uri keep X own_path have_ctx n _ _ _ _ _ _ _ _ _ H Nu) as (o' & p' & Hu' & [F|F]); rewrite Hu in Hu'; injection Hu' as <- <-; [|congruence].
  destruct (get_request O C A parse_uri keep X own_path have_ctx n _ _ _ _ _ _ _ _ _ _ _ H Hu F Nu) as (_ & d1 & e1 & d3 & r0 & -> & _ & Hd & _).
  rewrite !ups_app, !ups_dn, app_nil_r in *. cbn [Datatypes.app] in *.
  assert (Ff : forall op c w evs rv k, RelayAnswer.fails X op c w evs rv k -> exists sv p a, evs = [Client.EConnect sv p a] \/ (exists q, evs = [Client.EConnect sv p a; Client.ERequest q]) \/ exists q x, evs = [Client.EConnect sv p a; Client.ERequest q; Client.EResponse x]).
  { intros * K. inversion K; unfold ClientCalls.conn; eauto 10. }
  assert (Fs : forall op c w evs, RelayAnswer.served X op c w evs -> exists sv p a, evs = [Client.EConnect sv p a] \/ (exists q, evs = [Client.EConnect sv p a; Client.ERequest q]) \/ exists q x, evs = [Client.EConnect sv p a; Client.ERequest q; Client.EResponse x]).
  { intros op c w evs (? & ? & ? & ? & _ & -> & _). unfold ClientCalls.conn. eauto 10. }
  destruct o; try discriminate F; cbn [handler] in Hd.
  - destruct (cacerts_run C A X own_path have_ctx _ _ _ _ Hd Nu) as (c0 & evs & d2 & -> & _ & _ & _ & K). rewrite ups_app, ups_dn, ups_up, app_nil_r in *.
    destruct K as [(_ & _ & [->|(q & x & ->)])|(rv & c1 & [(_ & [K|K] & _)|(_ & K & _)])]; eauto; unfold ClientCalls.conn; eauto 10.
  - destruct (csrattrs_run C A keep X own_path have_ctx _ _ _ _ Hd Nu) as (c0 & evs & d2 & -> & _ & _ & K). rewrite ups_app, ups_dn, ups_up, app_nil_r in *.
    destruct K as [(_ & [->|(q & x & ->)])|(rv & d & c1 & [[K _]|[K _]] & _)]; eauto; unfold ClientCalls.conn; eauto 10.
Qed.
Lemma no_operation : forall t method uri body ct authz s e r, request t method uri body ct authz s = (e, r) ->
  (forall o path, parse_uri uri <> Ok (EST_ERR_NONE, Some o, path)) -> ups e = [].
Proof.
  intros * H N. destruct (ups e) eqn:Eu; [reflexivity|]. exfalso. destruct (other_request O C A parse_uri keep X own_path have_ctx n _ _ _ _ _ _ _ _ _ H ltac:(congruence)) as (o & p & Hu & _). exact (N _ _ Hu).
Qed.
Lemma enroll_shape : forall t method uri body ct authz s e r o path, request t method uri body ct authz s = (e, r) ->
  parse_uri uri = Ok (EST_ERR_NONE, Some o, path) -> enrolls o = true ->
  (ClientCalls.connects (ups e) <= 1)%nat \/ (ClientCalls.connects (ups e) = 2%nat /\ challenges C
    /\ exists sv p a sc q reads last, ups e = Client.EConnect sv p a :: Client.ERequest q :: Client.EResponse reads :: last /\ ClientCalls.connects last = 1%nat /\ ClientCalls.asks sc reads /\ In sc ClientCalls.scheme_names).
Proof.
  intros t method uri body ct authz s e r o path H Hu Eo. destruct (ups e) as [|u l] eqn:Eu; [left; cbn; lia|]. rewrite <- Eu. assert (Nu : ups e <> []) by congruence. clear u l Eu.
  destruct (enrolling_request O C A parse_uri keep X own_path have_ctx n _ _ _ _ _ _ _ _ _ _ _ H Hu Eo Nu) as (ct0 & b & d1 & evs & d2 & c0 & out & w' & _ & _ & _ & _ & -> & _ & _ & _ & _ & Co & _).
  rewrite parts_ups in *. destruct (RelayClaims.course_connects _ _ _ _ _ _ _ _ _ Co) as [K|(K & G & sc & q & reads & last & -> & L & As & I)]; [left; lia|right].
  split; [exact K|]. split; [now apply credentials_challenges|]. eexists _, _, _, sc, q, reads, last. split; [reflexivity|]. auto.
Qed.

(** A certificate given to the proxy's client is the upstream server's. *)
Lemma issued_upstream : forall t method uri body ct authz s e r o path, request t method uri body ct authz s = (e, r) ->
  parse_uri uri = Ok (EST_ERR_NONE, Some o, path) -> enrolls o = true -> is_http C = true -> all_sent (downs e) -> starts (str "HTTP/1.1 200") (sent (downs e)) ->
  exists s' reads pk x, r = Ok (EST_ERR_NONE, s') /\ ClientCalls.last_response (ups e) reads /\ RelayCourse.yields X o reads pk x
    /\ (if Client.is_keygen o then sent (downs e) = concat (keygen_pieces pk x) else gives_certificate e x).
Proof.
  intros t method uri body ct authz s e r o path H Hu Eo Hh AS St. destruct (ups e) as [|u l] eqn:Eu; [exfalso; exact (unsent_request O C A parse_uri keep X own_path have_ctx n _ _ _ _ _ _ _ _ _ _ _ H Hu Eo Eu AS St)|].
  rewrite <- Eu. assert (Nu : ups e <> []) by congruence. clear u l Eu.
  destruct (enrolling_request O C A parse_uri keep X own_path have_ctx n _ _ _ _ _ _ _ _ _ _ _ H Hu Eo Nu) as (ct0 & b & d1 & evs & d2 & c0 & out & w' & _ & _ & _ & _ & -> & _ & Sd & Ad & _ & Co & An & _).
  rewrite parts_ups. unfold gives_certificate. rewrite parts_downs in *. apply all_sent_app in AS as [_ AS2]. rewrite sent_app, Sd in *. cbn [Datatypes.app] in *. unfold answered in An.
  destruct out as [[[[rv pk] x] c1]|]; [|destruct An as [-> _]; destruct St as (? & St); discriminate].
  destruct (An (RelayAnswer.course_waits _ _ _ _ _ _ _ _ _ _ _ _ Co) Hh AS2) as [(-> & (s' & ->) & K)|(Ne & _ & hs & bd & R & _)].
  - destruct (course_result X _ _ _ _ _ _ _ _ _ _ _ Co) as [(_ & b0 & reads & L & Y)|[Ne _]]; [|congruence]. exists s', reads, pk, x. split; [reflexivity|]. split; [exists b0; exact L|]. split; [exact Y|]. destruct o; try discriminate Eo; exact K.
  - exfalso. apply response_200 in R; [|exact St]. exact (reported_200 _ Ne R).
Qed.

(** ** What the last response or failure leads to *)
Lemma responded : forall t method uri body ct authz s e rc s' o path reads, request t method uri body ct authz s = (e, Ok (rc, s')) ->
  parse_uri uri = Ok (EST_ERR_NONE, Some o, path) -> is_http C = true -> all_sent (downs e) -> ClientCalls.last_response (ups e) reads ->
  exists k0 rv k, RelayAnswer.told X o reads k0 rv k
    /\ (rv = EST_ERR_NONE \/ (o = OP_CSRATTRS /\ rv = EST_ERR_HTTP_NO_CONTENT /\ c_pop C = true) \/ (rc = upstream_error rv /\ reports e rv (k_delay k))).
Proof.
  intros t method uri body ct authz s e rc s' o path reads H Hu Hh AS (b & L).
  assert (Nu : ups e <> []) by (rewrite L; now destruct b).
  destruct (outcome O C A parse_uri keep X own_path have_ctx n _ _ _ _ _ _ _ _ _ _ _ _ H Hu Nu Hh AS) as [(pre & c' & evs & Eu & Sv)|(rv & k & (pre & c' & evs & Eu & Ft) & R)].
  - rewrite L in Eu. symmetry in Eu. assert (Ne : evs <> []) by (destruct Sv as (? & ? & ? & ? & _ & -> & _); discriminate). destruct (RelayClaims.suffix_last _ _ _ _ _ Ne Eu) as (p & Ep).
    destruct (RelayClaims.served_response _ _ _ _ _ _ _ Sv Ep) as (k0 & k & T). exists k0, EST_ERR_NONE, k. auto.
  - rewrite L in Eu. symmetry in Eu. destruct (RelayClaims.suffix_last _ _ _ _ _ (RelayClaims.fails_nonempty _ _ _ _ _ _ _ Ft) Eu) as (p & Ep).
    destruct (RelayClaims.fails_response _ _ _ _ _ _ _ _ _ Ft Ep) as (_ & k0 & T). exists k0, rv, k. split; [exact T|]. now right.
Qed.
Lemma unreached : forall t method uri body ct authz s e rc s' o path pre sv p a, request t method uri body ct authz s = (e, Ok (rc, s')) ->
  parse_uri uri = Ok (EST_ERR_NONE, Some o, path) -> is_http C = true -> all_sent (downs e) -> ups e = pre ++ [Client.EConnect sv p a] ->
  answers e (unconnected (skipn (ClientCalls.connects pre) (world s))) \/ ((exists u w, skipn (ClientCalls.connects pre) (world s) = Client.Tls u :: w) /\ answers e 500).
Proof.
  intros t method uri body ct authz s e rc s' o path b sv p a H Hu Hh AS L.
  assert (Nu : ups e <> []) by (rewrite L; now destruct b).
  destruct (outcome O C A parse_uri keep X own_path have_ctx n _ _ _ _ _ _ _ _ _ _ _ _ H Hu Nu Hh AS) as [(pre & c' & evs & Eu & Sv)|(rv & k & (pre & c' & evs & Eu & Ft) & R)].
  - exfalso. rewrite L in Eu. symmetry in Eu. destruct Sv as (? & ? & ? & ? & _ & -> & _).
    match type of Eu with _ ++ [?x; ?y; ?z] = _ => change [x; y; z] with ([x; y] ++ [z]) in Eu end. rewrite app_assoc in Eu. apply RelayClaims.last_eq in Eu as [_ Eu]. discriminate.
  - rewrite L in Eu. symmetry in Eu. destruct (RelayClaims.suffix_last _ _ _ _ _ (RelayClaims.fails_nonempty _ _ _ _ _ _ _ Ft) Eu) as (q & Ep).
    destruct (RelayClaims.fails_connect _ _ _ _ _ _ _ _ _ _ _ Ft Ep) as (-> & K). rewrite Ep in Eu. apply RelayClaims.last_eq in Eu as [<- _]. cbn [Datatypes.app] in *.
    assert (R' : rv <> EST_ERR_HTTP_NO_CONTENT -> answers e (reported rv)).
    { intro N. destruct R as [(_ & R & _)|(_ & hs & bd & R1 & R2 & _)]; [contradiction|]. exists hs, bd. auto. }
    destruct K as [->|(-> & K)].
    + left. destruct (skipn _ (world s)) as [|[[]|] w]; exact (R' ltac:(discriminate)).
    + right. split; [exact K|]. exact (R' ltac:(discriminate)).
Qed.
Lemma unwritten : forall t method uri body ct authz s e rc s' o path pre q, request t method uri body ct authz s = (e, Ok (rc, s')) ->
  parse_uri uri = Ok (EST_ERR_NONE, Some o, path) -> is_http C = true -> all_sent (downs e) -> ups e = pre ++ [Client.ERequest q] -> answers e 502.
Proof.
  intros t method uri body ct authz s e rc s' o path b q H Hu Hh AS L.
  assert (Nu : ups e <> []) by (rewrite L; now destruct b).
  destruct (outcome O C A parse_uri keep X own_path have_ctx n _ _ _ _ _ _ _ _ _ _ _ _ H Hu Nu Hh AS) as [(pre & c' & evs & Eu & Sv)|(rv & k & (pre & c' & evs & Eu & Ft) & R)].
  - exfalso. rewrite L in Eu. symmetry in Eu. destruct Sv as (? & ? & ? & ? & _ & -> & _).
    match type of Eu with _ ++ [?x; ?y; ?z] = _ => change [x; y; z] with ([x; y] ++ [z]) in Eu end. rewrite app_assoc in Eu. apply RelayClaims.last_eq in Eu as [_ Eu]. discriminate.
  - rewrite L in Eu. symmetry in Eu. destruct (RelayClaims.suffix_last _ _ _ _ _ (RelayClaims.fails_nonempty _ _ _ _ _ _ _ Ft) Eu) as (q' & Ep).
    pose proof (RelayClaims.fails_request _ _ _ _ _ _ _ _ _ Ft Ep) as ->. destruct R as [(_ & R & _)|(_ & hs & bd & R1 & R2 & _)]; [discriminate|]. exists hs, bd. auto.
Qed.

(** ** Enrollments *)
Lemma keygen_text : forall k x, concat (keygen_pieces k x) = keygen_head (print_int (len k + len x)) ++ keygen_body k x.
Proof.
  intros. unfold keygen_pieces, keygen_head, keygen_body, part, render_header, hdr, EOL, CRLF, boundary. cbn [concat fst snd]. rewrite <- ?app_assoc. reflexivity.
Qed.
Lemma enrolled : forall t method uri body ct authz s e r o path reads, request t method uri body ct authz s = (e, r) ->
  parse_uri uri = Ok (EST_ERR_NONE, Some o, path) -> enrolls o = true -> is_http C = true -> all_sent (downs e) -> ClientCalls.last_response (ups e) reads ->
  exists k, match RelayCourse.answer X o reads k with
  | UB => r = UB
  | Ok (rv, pk, x, k') => (rv = EST_ERR_NONE /\ (exists s', r = Ok (EST_ERR_NONE, s')) /\ if Client.is_keygen o then sent (downs e) = concat (keygen_pieces pk x) else gives_certificate e x)
      \/ (rv <> EST_ERR_NONE /\ (exists s', r = Ok (upstream_error rv, s')) /\ reports e rv (k_delay k'))
  end.
Proof.
  intros t method uri body ct authz s e r o path reads H Hu Eo Hh AS (b0 & L). assert (Nu : ups e <> []) by (rewrite L; now destruct b0).
  destruct (enrolling_request O C A parse_uri keep X own_path have_ctx n _ _ _ _ _ _ _ _ _ _ _ H Hu Eo Nu) as (ct0 & b & d1 & evs & d2 & c0 & out & w' & _ & _ & _ & _ & -> & _ & Sd & Ad & _ & Co & An & _).
  rewrite parts_ups in L. destruct (RelayClaims.course_final _ _ _ _ _ _ _ _ _ _ _ Co L) as (k & K). exists k.
  destruct (RelayCourse.answer X o reads k) as [[[[rv pk] x] k']|]; [|subst out; now destruct An].
  destruct K as (c' & ->). unfold gives_certificate, reports. rewrite parts_downs in *. apply all_sent_app in AS as [_ AS2]. rewrite sent_app, Sd in *. cbn [Datatypes.app] in *. unfold answered in An.
  destruct (An (RelayAnswer.course_waits _ _ _ _ _ _ _ _ _ _ _ _ Co) Hh AS2) as [(-> & K1 & K)|(Ne & K1 & K)].
  - left. split; [reflexivity|]. split; [exact K1|]. destruct o; try discriminate Eo; exact K.
  - right. auto.
Qed.

(** ** Fetches that succeed *)
Lemma cacerts_given : forall t method uri body ct authz s e s' path, request t method uri body ct authz s = (e, Ok (EST_ERR_NONE, s')) ->
  parse_uri uri = Ok (EST_ERR_NONE, Some OP_CACERTS, path) -> is_http C = true -> all_sent (downs e) -> ups e <> [] ->
  c_cacerts C = None /\ exists sv p a q x b text, ups e = [Client.EConnect sv p a; Client.ERequest q; Client.EResponse x] /\ ClientCalls.reply_body OP_CACERTS x b /\ ClientCalls.verified X b text /\ reply (downs e) 200 text.
Proof.
  intros t method uri body ct authz s e s' path H Hu Hh AS Nu.
  destruct (get_request O C A parse_uri keep X own_path have_ctx n _ _ _ _ _ _ _ _ _ _ _ H Hu eq_refl Nu) as (_ & d1 & e1 & d3 & r0 & -> & Fq & Hd & En).
  assert (Nu1 : ups e1 <> []). { intro Z. apply Nu. rewrite !ups_app, !ups_dn, Z. reflexivity. }
  destruct r0 as [[rc0 s1]|]; [|destruct En as [_ En]; discriminate]. destruct En as (Er & En & _). rewrite <- (Er _ _ eq_refl) in *. destruct (En eq_refl) as [F3 _]. cbn [handler] in Hd.
  destruct (cacerts_run C A X own_path have_ctx _ _ _ _ Hd Nu1) as (c0 & evs & d2 & -> & _ & Cn & _ & [[K _]|(rv & c1 & [(Ne & _ & _ & s2 & K & _)|(_ & _ & q & x & b & text & rc & s2 & -> & Rb & V & K & Hs)])]); [discriminate| |].
  { exfalso. injection K as K _. symmetry in K. apply (proj1 (upstream_none rv)) in K. contradiction. }
  injection K as <- <-. split; [exact Cn|]. eexists _, _, _, q, x, b, text. rewrite !ups_app, !ups_dn, ups_up. cbn [Datatypes.app]. split; [reflexivity|]. split; [exact Rb|]. split; [exact V|].
  rewrite !downs_app, !downs_dn, downs_up in *. cbn [Datatypes.app] in *. apply all_sent_app in AS as [_ AS]. apply all_sent_app in AS as [AS _]. destruct (Hs Hh) as (sd & sd' & Q). cbn [est_handle_cacerts] in Q.
  apply send_200_replies in Q as [_ (hs & R & F & _)]; [|line|exact AS]. unfold reply. destruct (sent_quiet_app d1 (d2 ++ d3) Fq) as [-> _]. rewrite (sent_app_quiet _ _ F3). exists hs. auto.
Qed.
Lemma csrattrs_given : forall t method uri body ct authz s e s' path, request t method uri body ct authz s = (e, Ok (EST_ERR_NONE, s')) ->
  parse_uri uri = Ok (EST_ERR_NONE, Some OP_CSRATTRS, path) -> 0 <= c_retry C -> all_sent (downs e) -> ups e <> [] ->
  exists d o, (d = None \/ exists sv p a q x b, ups e = [Client.EConnect sv p a; Client.ERequest q; Client.EResponse x] /\ d = Some b /\ b <> [] /\ ClientCalls.reply_body OP_CSRATTRS x b)
    /\ offered C X d o /\ ((exists x, o = Some x /\ x <> [] /\ reply (downs e) 200 x) \/ ((o = None \/ o = Some []) /\ reply (downs e) 204 [])).
Proof.
  intros t method uri body ct authz s e s' path H Hu Hr AS Nu.
  destruct (get_request O C A parse_uri keep X own_path have_ctx n _ _ _ _ _ _ _ _ _ _ _ H Hu eq_refl Nu) as (_ & d1 & e1 & d3 & r0 & -> & Fq & Hd & En).
  assert (Nu1 : ups e1 <> []). { intro Z. apply Nu. rewrite !ups_app, !ups_dn, Z. reflexivity. }
  destruct r0 as [[rc0 s1]|]; [|destruct En as [_ En]; discriminate]. destruct En as (Er & En & _). rewrite <- (Er _ _ eq_refl) in *. destruct (En eq_refl) as [F3 _]. cbn [handler] in Hd.
  destruct (csrattrs_run C A keep X own_path have_ctx _ _ _ _ Hd Nu1) as (c0 & evs & d2 & -> & _ & _ & [[K _]|(rv & d & c1 & Fd & Oc)]); [discriminate|].
  rewrite !downs_app, !downs_dn, downs_up in *. cbn [Datatypes.app] in *. apply all_sent_app in AS as [_ AS]. apply all_sent_app in AS as [AS _].
  assert (Re : forall code b, reply d2 code b -> reply (d1 ++ d2 ++ d3) code b).
  { intros code b (hs & R). exists hs. destruct (sent_quiet_app d1 (d2 ++ d3) Fq) as [-> _]. rewrite (sent_app_quiet _ _ F3). exact R. }
  destruct Oc as [(Nw & _ & s2 & K & _)|(_ & Oc)].
  { exfalso. injection K as K _. symmetry in K. apply (proj1 (upstream_none rv)) in K. subst rv. discriminate. }
  destruct (Oc Hr AS) as [K|(s2 & o & _ & Of & R)]; [discriminate|]. exists d, o. split; [|split; [exact Of|]].
  - rewrite !ups_app, !ups_dn, ups_up. cbn [Datatypes.app]. rewrite !app_nil_r. destruct Fd as [[_ ->]|[_ [->|(q & x & b & -> & _ & -> & Nb & Rb)]]]; [now left|now left|]. right. eexists _, _, _, q, x, b. split; [reflexivity|]. auto.
  - destruct R as [(x & -> & Nx & R)|[Ho R]]; [left; exists x|right]; auto.
Qed.

(** ** What is forwarded *)
Lemma forwards_text : forall (o : operation) c (b auth tail : bytes), enrolls o = true -> (auth = [] \/ starts_with (str "Authorization: ") auth) -> (tail = CRLF \/ tail = [13; 0]) ->
  forwards o (Client.c_path c) b (Client.post_start (uri_name o) (len b) c ++ auth ++ CRLF ++ b ++ tail).
Proof.
  intros o c b auth tail Eo Ha Ht.
  pose (hs := [(str "User-Agent", Client.AGENT); (str "Connection", str "close"); (str "Host", Client.c_server c ++ str ":" ++ print_int (Client.c_port c)); (str "Accept", str "*/*"); (str "Content-Type", str "application/pkcs10"); (str "Content-Length", print_int (len b))]).
  exists hs, auth, (print_int (len b)), tail. split; [|split; [|split; [|split; [|split]]]]; [| | |apply print_int_decimal, len_nonneg|exact Ha|exact Ht].
  - unfold Client.post_start, Client.request_start, hs. cbn [map concat]. unfold render_header. cbn [fst snd]. rewrite <- ?app_assoc. cbn [Datatypes.app]. reflexivity.
  - exists (firstn 4 hs), (str "Content-Type"), (skipn 5 hs). split; [reflexivity|]. split; [reflexivity|]. repeat constructor; discriminate.
  - exists (firstn 5 hs), (str "Content-Length"), []. split; [reflexivity|]. split; [reflexivity|]. repeat constructor; discriminate.
Qed.
Lemma forwarded : forall t method uri body ct authz s e r o path q, request t method uri body ct authz s = (e, r) ->
  parse_uri uri = Ok (EST_ERR_NONE, Some o, path) -> enrolls o = true -> In (Client.ERequest q) (ups e) -> is_http C = true ->
  exists b c0, method = str "POST" /\ ct = Some (str "application/pkcs10") /\ body = Some b /\ authed t path (downs e) /\ ~ cert_rejected t
    /\ (exists r, o_parse_csr O b = Some r /\ good_csr O r /\ (c_pop C = true \/ o_challenge O r <> NoAttr -> bound_to_session O t r))
    /\ chosen own_path path (Client.s_c (p_up s)) c0 /\ (ClientModes.fit c0 -> forwards o (Client.c_path c0) b q /\ len b <= 4096).
Proof.
  intros t method uri body ct authz s e r o path q H Hu Eo I Hh. assert (Nu : ups e <> []) by (intro Z; rewrite Z in I; destruct I).
  destruct (enrolling_request O C A parse_uri keep X own_path have_ctx n _ _ _ _ _ _ _ _ _ _ _ H Hu Eo Nu) as (ct0 & b & d1 & evs & d2 & c0 & out & w' & Em & -> & -> & _ & -> & (Ct & Au & Nr & rq & Pc & Gc & Ua) & _ & _ & Ch & Co & _).
  rewrite parts_ups in I. exists b, c0. split; [exact Em|]. split.
  { f_equal. specialize (Ct Hh). unfold ct_is in Ct. apply strncmp_short in Ct; [exact Ct|]. cbn. lia. }
  split; [reflexivity|]. split; [|split; [exact Nr|split; [|split; [exact Ch|]]]].
  - rewrite parts_downs. destruct Au as [Au|[Au|(a & Au)]]; [now left|right; now left|]. right. right. exists a. apply in_or_app. now left.
  - exists rq. split; [exact Pc|]. split; [exact Gc|]. now apply uid_auth_bound.
  - intro F. destruct (RelayClaims.course_asks _ _ _ _ _ _ _ _ _ _ Co I) as (h & u & B).
    assert (Eo' : ClientModes.enrolls o) by (destruct o; try discriminate Eo; unfold ClientModes.enrolls; auto).
    destruct (RelayClaims.built_text _ _ _ _ _ _ Eo' (F : ClientModes.fit (Client.put_http h c0)) B) as (auth & tail & -> & Ha & Ht & L). split; [|exact L].
    replace (ClientModes.op_uri_name o) with (uri_name o) by (destruct o; reflexivity). apply (forwards_text o (Client.put_http h c0)); [exact Eo| |exact Ht].
    destruct (ClientModes.mode_scheme _); [right|now left]. destruct Ha as (x & ->). unfold ClientModes.OFFER. rewrite <- app_assoc. eexists. reflexivity.
Qed.
End P.
