(** The proxy's answers. *)
From Coq Require Import String ZArith List Bool Lia ZifyBool ZifyNat.
From Verif Require Import Base Spec.Http Spec.Server Spec.Relay Model.CLib Model.EstErr Model.Codec Model.Uri Model.AuthHdr Model.HttpServer Model.ClientHttp Model.Server Model.Relay
  Proofs.EstErr Proofs.Uri Proofs.ServerAuth Proofs.ServerEnroll Proofs.ServerReply Proofs.ServerProps Proofs.ServerClaims Proofs.RelayRequest.
From Verif Require Model.Client Proofs.RelayCourse.
Import ListNotations.
Open Scope Z_scope.

Section P.
Context {cert csr key E : Type}.
Variable O : @ossl cert csr key.
Variable C : @config cert.
Variable A : @app cert key E.
Variable parse_uri : bytes -> res (est_error * option operation * option bytes).
Variable keep : Z -> bool.
Variable X : Client.ext.
Variable own_path : option bytes.
Variable have_ctx : bool.
Variable n : nat.
Notation fuel := (S (S n)).
Notation pevent := (@pevent cert key).
Notation event := (@event cert key).
Notation pst := (@pst E).
Notation request := (est_proxy_http_request O C A parse_uri keep X own_path have_ctx fuel).
Implicit Types (s : pst) (e : list pevent).

Lemma delay_unused : forall d x, x <> EST_ERR_CA_ENROLL_RETRY -> @est_send_http_error cert key E A keep d x = est_send_http_error A keep 0 x.
Proof. intros d x N. destruct x; try contradiction; reflexivity. Qed.
Lemma error_run : forall x s e r, pbind get_delay (fun d => dn (est_send_http_error A keep d x)) s = (e, r) ->
  exists w, e = map Dn w /\ (forall u s', r = Ok (u, s') -> same_up s s')
   /\ ((x = EST_ERR_CA_ENROLL_RETRY -> 0 <= p_delay s) -> all_sent w ->
       exists s' hs body, r = Ok (tt, s') /\ response (sent w) (http_status x) hs body /\ framed (http_status x) hs body
         /\ (x = EST_ERR_CA_ENROLL_RETRY -> exists v, first_header hs (str "Retry-After") v /\ decimal v (p_delay s))).
Proof.
  intros x s e r H. apply pbind_inv in H as [[H _]|(e1 & d & s1 & e2 & H1 & H & ->)]; [discriminate|]. unfold get_delay in H1. injection H1 as <- <- <-.
  pose proof (local_dn _ _ _ _ _ H) as [_ L]. apply dn_inv in H as (w & r0 & H & -> & R). exists w. split; [reflexivity|]. split; [exact L|]. intros Hd AS.
  assert (K : exists (s' : @st E) hs body, r0 = Ok (tt, s') /\ response (sent w) (http_status x) hs body /\ framed (http_status x) hs body
         /\ (x = EST_ERR_CA_ENROLL_RETRY -> exists v, first_header hs (str "Retry-After") v /\ decimal v (p_delay s))).
  { destruct (retry_dec x) as [->|N].
    - destruct (error_replies A keep _ _ _ _ _ (Hd eq_refl) H AS) as (s' & hs & body & ? & ? & ? & _ & _ & ?). eauto 10.
    - rewrite (delay_unused _ _ N) in H. destruct (error_replies A keep _ _ _ _ _ (Z.le_refl 0) H AS) as (s' & hs & body & ? & ? & ? & _). exists s', hs, body. repeat split; auto. intro; contradiction. }
  destruct K as (s' & hs & body & -> & K). destruct R as [[R _]|([] & u & R & ->)]; [discriminate|]. injection R as <-. eexists _, hs, body. split; [reflexivity|exact K].
Qed.
Lemma emit_run : forall b x s e r, dn (@emit_if cert key E b x) s = (e, r) -> e = map Dn (if b then [x] else []) /\ r = Ok (tt, s).
Proof. intros b x s e r H. unfold dn, emit_if in H. destruct b; cbn in H; injection H as <- <-; destruct s; auto. Qed.

Definition quiet (x : event) : Prop := ~ is_write x.
Lemma quiet_if : forall (b : bool) x, (forall d ok, x <> EvWrite d ok) -> Forall quiet (if b then [x] else []).
Proof. intros b x N. destruct b; [|constructor]. constructor; [|constructor]. intros (d & ok & ->). now apply (N d ok). Qed.
Lemma sent_cons_quiet : forall (x : event) l, ~ is_write x -> sent (x :: l) = sent l /\ (all_sent (x :: l) <-> all_sent l).
Proof.
  intros x l N. split.
  - destruct x; try reflexivity. exfalso. apply N. now eexists _, _.
  - unfold all_sent. split; [intros H d ok I; eapply H; right; exact I|]. intros H d ok [->|I]; [exfalso; apply N; now eexists _, _|eauto].
Qed.
Lemma authed_more : forall t path (d d' : list event), (forall x, In x d -> In x d') -> authed t path d -> authed t path d'.
Proof. intros t path d d' I [H|[H|(a & H)]]; [now left|right; now left|]. right; right. exists a. auto. Qed.

(** What follows the upstream exchange. *)
Definition answered (k : enroll_kind) (out : res (est_error * bytes * bytes * Client.client)) (d2 : list event) (r : res (est_error * pst)) : Prop :=
  match out with
  | UB => d2 = [] /\ r = UB
  | Ok (rv, pk, x, c1) =>
    (rv = EST_ERR_CA_ENROLL_RETRY -> 0 <= k_delay (Client.c_http c1)) -> is_http C = true -> all_sent d2 ->
    (rv = EST_ERR_NONE /\ (exists s', r = Ok (EST_ERR_NONE, s'))
      /\ if is_skg k then sent d2 = concat (keygen_pieces pk x)
         else exists hs, response (sent d2) 200 hs x /\ framed 200 hs x /\ first_header hs (str "Content-Type") (str "application/pkcs7-mime; smime-type=certs-only"))
    \/ (rv <> EST_ERR_NONE /\ (exists s', r = Ok (upstream_error rv, s')) /\ exists hs body, response (sent d2) (reported rv) hs body /\ framed (reported rv) hs body
      /\ (rv = EST_ERR_CA_ENROLL_RETRY -> exists v, first_header hs (str "Retry-After") v /\ decimal v (k_delay (Client.c_http c1))))
  end.
Definition final (out : res (est_error * bytes * bytes * Client.client)) (w' : list Client.attempt) (r : res (est_error * pst)) : Prop :=
  forall rc s', r = Ok (rc, s') -> exists rv pk x c1, out = Ok (rv, pk, x, c1) /\ p_up s' = {| Client.s_c := RelayCourse.reset c1; Client.s_env := w' |}.

Lemma tail_run : forall k b uri rc s e r, (let failed := negb (err_eqb rc EST_ERR_NONE) && negb (err_eqb rc EST_ERR_AUTH_PENDING) in
  pbind (if is_skg k && failed then pret tt else dn (enroll_rsp_event O C k b rc)) (fun _ =>
   if failed then pbind (pbind get_delay (fun d => dn (est_send_http_error A keep d rc))) (fun _ => pret rc)
   else pbind (dn (emit_if (c_ev_endpoint C) (EvReqEnd uri))) (fun _ => pret EST_ERR_NONE))) s = (e, r) -> rc <> EST_ERR_AUTH_PENDING ->
  exists q w, e = map Dn (q ++ w) /\ Forall quiet q /\ (forall x s', r = Ok (x, s') -> same_up s s') /\
   (rc = EST_ERR_NONE -> Forall quiet w /\ exists s', r = Ok (EST_ERR_NONE, s')) /\
   (rc <> EST_ERR_NONE -> (rc = EST_ERR_CA_ENROLL_RETRY -> 0 <= p_delay s) -> all_sent w -> (exists s', r = Ok (rc, s')) /\ exists hs body, response (sent w) (http_status rc) hs body /\ framed (http_status rc) hs body
         /\ (rc = EST_ERR_CA_ENROLL_RETRY -> exists v, first_header hs (str "Retry-After") v /\ decimal v (p_delay s))).
Proof.
  intros k b uri rc s e r H Np. cbv zeta in H.
  assert (Q : exists q e2, e = map Dn q ++ e2 /\ Forall quiet q /\ (if negb (err_eqb rc EST_ERR_NONE) && negb (err_eqb rc EST_ERR_AUTH_PENDING) then pbind (pbind get_delay (fun d => dn (est_send_http_error A keep d rc))) (fun _ => pret rc)
   else pbind (dn (emit_if (c_ev_endpoint C) (EvReqEnd uri))) (fun _ => pret EST_ERR_NONE)) s = (e2, r)).
  { apply pbind_inv in H as [[H _]|(e1 & x & s1 & e2 & H1 & H & ->)]; [exfalso; destruct (is_skg k && _) in H; [discriminate|]; unfold enroll_rsp_event in H; apply emit_run in H as [_ H]; discriminate|].
    destruct (is_skg k && _) in H1.
    - apply pret_inv in H1 as [-> H1]. injection H1 as -> ->. exists [], e2. auto.
    - unfold enroll_rsp_event in H1. apply emit_run in H1 as [-> H1]. injection H1 as -> ->. eexists _, e2. split; [reflexivity|]. split; [|exact H]. apply quiet_if. discriminate. }
  destruct Q as (q & e2 & -> & Fq & Q). clear H. exists q.
  destruct (err_none_dec rc) as [->|[Ne Eb]].
  - change (negb (err_eqb EST_ERR_NONE EST_ERR_NONE)) with false in Q. cbn [andb] in Q.
    apply pbind_inv in Q as [[Q _]|(e3 & u & s2 & e4 & Q1 & Q & ->)]; [apply emit_run in Q as [_ Q]; discriminate|]. apply emit_run in Q1 as [-> Q1]. injection Q1 as -> ->. apply pret_inv in Q as [-> ->].
    eexists. rewrite app_nil_r, map_app. split; [reflexivity|]. split; [exact Fq|]. split; [intros x s' H; injection H as _ <-; apply same_refl|]. split; [|intro N; contradiction]. intros _. split; [|eauto].
    apply quiet_if. discriminate.
  - rewrite Eb in Q. replace (err_eqb rc EST_ERR_AUTH_PENDING) with false in Q by (destruct rc; congruence || reflexivity). cbn [andb negb] in Q.
    apply pbind_inv in Q as [[Q ->]|(e3 & u & s2 & e4 & Q1 & Q & ->)].
    + apply error_run in Q as (w & -> & L & Q). exists w. rewrite map_app. split; [reflexivity|]. split; [exact Fq|]. split; [discriminate|]. split; [intro; contradiction|]. intros _ Hd AS.
      destruct (Q Hd AS) as (? & ? & ? & ? & _). discriminate.
    + apply pret_inv in Q as [-> ->]. apply error_run in Q1 as (w & -> & L & Q1). exists w. rewrite map_app, app_nil_r. split; [reflexivity|]. split; [exact Fq|].
      split; [intros x s' H; injection H as _ <-; eapply L; reflexivity|]. split; [intro; contradiction|]. intros _ Hd AS. destruct (Q1 Hd AS) as (s' & hs & body & _ & Q2). split; [eauto|]. exists hs, body. exact Q2.
Qed.

Lemma sent_quiet_app : forall q (w : list event), Forall quiet q -> sent (q ++ w) = sent w /\ (all_sent (q ++ w) <-> all_sent w).
Proof.
  induction q as [|x q IH]; intros w F; [cbn; split; [reflexivity|reflexivity]|]. inversion F as [|? ? Fx Fq]; subst. destruct (IH w Fq) as [I1 I2]. cbn [Datatypes.app].
  destruct (sent_cons_quiet x (q ++ w) Fx) as [S1 S2]. rewrite S1, S2. auto.
Qed.
Lemma sent_app_quiet : forall (w : list event) q, Forall quiet q -> sent (w ++ q) = sent w.
Proof. intros w q F. rewrite sent_app. rewrite (sent_none q F). apply app_nil_r. Qed.

Lemma enrolling_request : forall t method uri body ct authz s e r o path, request t method uri body ct authz s = (e, r) ->
  parse_uri uri = Ok (EST_ERR_NONE, Some o, path) -> enrolls o = true -> ups e <> [] ->
  exists ct0 b d1 evs d2 c0 out w', method = str "POST" /\ ct = Some ct0 /\ body = Some b /\ have_ctx = true /\ e = map Dn d1 ++ map Up evs ++ map Dn d2
    /\ checked O C t authz ct0 b path (kind_of o) d1 /\ sent d1 = [] /\ all_sent d1 /\ chosen own_path path (Client.s_c (p_up s)) c0
    /\ RelayCourse.course X (gives_credentials C) o b c0 (Client.s_env (p_up s)) evs out w' /\ answered (kind_of o) out d2 r /\ final out w' r.
Proof.
  intros t method uri body ct authz s e r o path H Hu Eo Nu. unfold est_proxy_http_request in H.
  apply pbind_inv in H as [[H _]|(e1 & x & s1 & e2 & H1 & H & ->)]; [apply emit_run in H as [_ H]; discriminate|]. apply emit_run in H1 as [-> H1]. injection H1 as -> ->.
  rewrite ups_app, ups_dn in Nu. cbn [Datatypes.app] in Nu. set (d0 := if c_ev_endpoint C then [EvReqStart uri] else []) in *.
  apply pbind_inv in H as [[H _]|(e3 & [[pe op] pth] & s2 & e4 & H1 & H & ->)]; [apply plift_inv in H as [_ [[H _]|(? & _ & H)]]; congruence|].
  apply plift_inv in H1 as [-> [[_ H1]|(y & H0 & H1)]]; [discriminate|]. rewrite Hu in H0. injection H0 as <-. injection H1 as -> -> -> ->.
  change (negb (err_eqb EST_ERR_NONE EST_ERR_NONE)) with false in H. cbv iota in H. cbn [Datatypes.app] in *.
  assert (H' : (if negb (strncmp_eq 5 method (str "POST")) then pbind (pbind get_delay (fun d => dn (est_send_http_error A keep d EST_ERR_WRONG_METHOD))) (fun _ => pret EST_ERR_WRONG_METHOD)
    else match ct, body with
      | None, _ => pbind (pbind get_delay (fun d => dn (est_send_http_error A keep d EST_ERR_BAD_PKCS10))) (fun _ => pret EST_ERR_BAD_CONTENT_TYPE)
      | _, None => pbind (pbind get_delay (fun d => dn (est_send_http_error A keep d EST_ERR_BAD_PKCS10))) (fun _ => pret EST_ERR_BAD_CONTENT_LEN)
      | Some c, Some b => pbind (dn (enroll_req_event O C (kind_of o) b)) (fun _ =>
        pbind (est_proxy_handle_enroll O C A X own_path have_ctx fuel t authz c b path (kind_of o)) (fun y => match y with (rc, _, _) =>
          let failed := negb (err_eqb rc EST_ERR_NONE) && negb (err_eqb rc EST_ERR_AUTH_PENDING) in
          pbind (if is_skg (kind_of o) && failed then pret tt else dn (enroll_rsp_event O C (kind_of o) b rc)) (fun _ =>
          if failed then pbind (pbind get_delay (fun d => dn (est_send_http_error A keep d rc))) (fun _ => pret rc)
          else pbind (dn (emit_if (c_ev_endpoint C) (EvReqEnd uri))) (fun _ => pret EST_ERR_NONE)) end))
      end) s = (e4, r)) by (destruct o; try discriminate Eo; exact H).
  clear H. rename H' into H.
  assert (Re : forall x (y : est_error) e r, pbind (pbind get_delay (fun d => dn (est_send_http_error A keep d x))) (fun _ => pret y) s = (e, r) -> ups e = []).
  { intros x y e5 r5 K. apply pbind_inv in K as [[K _]|(e6 & u & s6 & e7 & K1 & K & ->)].
    - apply error_run in K as (w & -> & _). apply ups_dn.
    - apply error_run in K1 as (w & -> & _). apply pret_inv in K as [-> _]. rewrite app_nil_r. apply ups_dn. }
  destruct (strncmp_eq 5 method (str "POST")) eqn:Em; cbn [negb] in H; [|apply Re in H; contradiction].
  apply strncmp_short in Em; [|cbn; lia].
  destruct ct as [ct0|]; [|apply Re in H; contradiction]. destruct body as [b|]; [|apply Re in H; contradiction]. clear Re.
  apply pbind_inv in H as [[H _]|(e5 & x & s1 & e6 & H1 & H & ->)]; [unfold enroll_req_event in H; apply emit_run in H as [_ H]; discriminate|].
  unfold enroll_req_event in H1. apply emit_run in H1 as [-> H1]. injection H1 as -> ->. set (d3 := if _ && _ then [EvEnrollReq (kind_of o) b] else []) in *.
  rewrite ups_app, ups_dn in Nu. cbn [Datatypes.app] in Nu.
  assert (Fd : Forall quiet (d0 ++ d3)).
  { apply Forall_app. unfold d0, d3. split; apply quiet_if; discriminate. }
  assert (Oo : op_of (kind_of o) = o) by (destruct o; discriminate || reflexivity).
  apply pbind_inv in H as [[H ->]|(e7 & [[rc pk] x] & s1 & e8 & H1 & H & ->)].
  { apply enroll_run in H; destruct H as [[U _]|(d & evs & dd & c0 & out & w' & -> & Hc & Ck & Sd & Ad & Ch & Co & Pa)]; [contradiction|].
    exists ct0, b, (d0 ++ d3 ++ d), evs, [], c0, out, w'. inversion Pa; subst; try discriminate. rewrite Oo in Co.
    split; [reflexivity|]. split; [reflexivity|]. split; [reflexivity|]. split; [reflexivity|]. split; [rewrite !map_app, <- !app_assoc; reflexivity|].
    destruct Ck as (K1 & K2 & K3). split; [split; [exact K1|split; [|exact K3]]; eapply authed_more; [|exact K2]; intros; rewrite app_assoc; apply in_or_app; now right|].
    rewrite app_assoc. destruct (sent_quiet_app (d0 ++ d3) d Fd) as [S1 S2]. rewrite S1, S2.
    split; [exact Sd|]. split; [exact Ad|]. split; [exact Ch|]. split; [exact Co|]. split; [split; reflexivity|]. intros ? ? Q; discriminate. }
  rewrite ups_app in Nu.
  apply enroll_run in H1; destruct H1 as [[U Rs]|(d & evs & dd & c0 & out & w' & -> & Hc & Ck & Sd & Ad & Ch & Co & Pa)].
  { exfalso. rewrite U in Nu. destruct Rs as [Rs|(rc' & s' & Rs & Nr & _)]; [discriminate|]. injection Rs as -> -> -> ->.
    apply Nu. clear - H. cbn [Datatypes.app]. cbv zeta in H. apply pbind_inv in H as [[H _]|(e9 & u & s9 & e10 & H1 & H & ->)].
    - destruct (is_skg _ && _) in H; [apply pret_inv in H as [-> _]; reflexivity|]. unfold enroll_rsp_event in H. apply emit_run in H as [-> _]. apply ups_dn.
    - rewrite ups_app. assert (U1 : ups e9 = []). { destruct (is_skg _ && _) in H1; [apply pret_inv in H1 as [-> _]; reflexivity|]. unfold enroll_rsp_event in H1. apply emit_run in H1 as [-> _]. apply ups_dn. }
      rewrite U1. cbn [Datatypes.app]. destruct (negb _ && _) in H.
      + apply pbind_inv in H as [[K _]|(e6 & u' & s6 & e7 & K1 & K & ->)]; [apply error_run in K as (w & -> & _); apply ups_dn|].
        apply error_run in K1 as (w & -> & _). apply pret_inv in K as [-> _]. rewrite app_nil_r. apply ups_dn.
      + apply pbind_inv in H as [[K _]|(e6 & u' & s6 & e7 & K1 & K & ->)]; [apply emit_run in K as [-> _]; apply ups_dn|].
        apply emit_run in K1 as [-> _]. apply pret_inv in K as [-> _]. rewrite app_nil_r. apply ups_dn. }
  assert (Np : rc <> EST_ERR_AUTH_PENDING).
  { inversion Pa as [|rv c1 s' E1 E2 E3 E4 E5|pk0 x0 c1 s' E1 E2 E3 E4 E5|pk0 x0 c1 s' sd dd0 rv2 E1 E2 E3 E4 E5 E6]; subst; [apply upstream_not_pending|discriminate|]. clear - E3. intros ->.
    unfold passes_back in E3. destruct (is_skg _).
    - revert sd dd E3. induction (keygen_pieces pk x) as [|p l IH]; intros sd dd E3; cbn [write_all] in E3; [discriminate|].
      destruct (write_run A p sd) as (ok & s2 & Q & _ & _). apply mbind_inv in E3 as [[_ E3]|(e3 & ok' & s3 & e4 & H3 & H & ->)]; [discriminate|]. destruct ok'; [eapply IH; exact H|discriminate].
    - unfold send_200 in E3. apply mbind_inv in E3 as [[_ E3]|(e3 & ok' & s3 & e4 & H3 & H & ->)]; [discriminate|]. destruct (negb ok'); [discriminate|].
      apply mbind_inv in H as [[_ H]|(e5 & ok2 & s4 & e6 & H5 & H & ->)]; [discriminate|]. destruct ok2; discriminate. }
  destruct (tail_run _ _ _ _ _ _ _ H Np) as (q & w & -> & Fq & Su & T0 & T1).
  exists ct0, b, (d0 ++ d3 ++ d), evs, (dd ++ q ++ w), c0, out, w'. rewrite Oo in Co.
  split; [exact Em|]. split; [reflexivity|]. split; [reflexivity|]. split; [exact Hc|]. split; [rewrite !map_app, <- !app_assoc; reflexivity|].
  destruct Ck as (K1 & K2 & K3). split; [split; [exact K1|split; [|exact K3]]; eapply authed_more; [|exact K2]; intros; rewrite app_assoc; apply in_or_app; now right|].
  rewrite app_assoc. destruct (sent_quiet_app (d0 ++ d3) d Fd) as [S1 S2]. rewrite S1, S2.
  split; [exact Sd|]. split; [exact Ad|]. split; [exact Ch|]. split; [exact Co|].
  inversion Pa as [|rv c1 s' E1 E2 E3 E4 E5|pk0 x0 c1 s' E1 E2 E3 E4 E5|pk0 x0 c1 s' sd dd0 rv2 E1 E2 E3 E4 E5 E6]; subst.
  - destruct E3 as [E3 E3']. split.
    + intros Hd Hh AS. right. split; [exact E2|]. cbn [Datatypes.app] in *. destruct (sent_quiet_app q w Fq) as [S3 S4]. rewrite S3. rewrite S4 in AS. rewrite <- (upstream_status rv E2).
      rewrite E3' in T1. assert (Hu' : upstream_error rv <> EST_ERR_NONE) by (intro U; apply E2, (proj1 (upstream_none rv)), U).
      assert (Hr : upstream_error rv = EST_ERR_CA_ENROLL_RETRY -> rv = EST_ERR_CA_ENROLL_RETRY) by (clear; destruct rv; discriminate || reflexivity).
      destruct (T1 Hu' (fun U => Hd (Hr U)) AS) as (T2 & hs & body & T3 & T4 & T5). split; [exact T2|]. exists hs, body. split; [exact T3|]. split; [exact T4|]. intros ->. apply T5. reflexivity.
    + intros rc s2 ->. eexists _, _, _, c1. split; [reflexivity|]. destruct (Su _ _ eq_refl) as [S3 _]. now rewrite S3.
  - destruct E3 as [E3 E3']. split; [intros _ Hh; congruence|]. intros rc s2 ->. eexists _, _, _, c1. split; [reflexivity|]. destruct (Su _ _ eq_refl) as [S3 _]. now rewrite S3.
  - destruct E4 as [E4 E4']. split.
    + intros Hd Hh AS. left. split; [reflexivity|]. apply all_sent_app in AS as [AS1 AS2].
      assert (Sp : rc = EST_ERR_NONE /\ if is_skg (kind_of o) then sent dd = concat (keygen_pieces pk x) else exists hs, response (sent dd) 200 hs x /\ framed 200 hs x /\ first_header hs (str "Content-Type") (str "application/pkcs7-mime; smime-type=certs-only")).
      { unfold passes_back in E3. destruct (is_skg (kind_of o)); [eapply write_all_sent; eauto|]. eapply send_200_replies; [|exact E3|exact AS1]. apply one_lineb_ok. reflexivity. }
      destruct Sp as [-> Sp]. destruct (T0 eq_refl) as [Fw T2]. split; [exact T2|].
      rewrite sent_app_quiet by (apply Forall_app; auto). exact Sp.
    + intros rc' s2 ->. eexists _, _, _, c1. split; [reflexivity|]. destruct (Su _ _ eq_refl) as [S3 _]. now rewrite S3.
Qed.
End P.
