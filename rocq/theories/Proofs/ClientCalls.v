(** What one call of the client does. *)
From Coq Require Import String ZArith List Bool Lia ZifyBool ZifyNat.
From Verif Require Import Base Spec.Base64 Spec.Http Spec.Client Spec.Multipart Spec.ClientCalls Model.CLib Model.Codec Model.EstErr Model.HttpServer Model.Uri Model.AuthHdr Model.ClientHttp Model.Multipart Model.Host Model.Client
  Proofs.EstErr Proofs.HttpParse Proofs.ClientHttp Proofs.ClientRender Proofs.Uri Proofs.ClientModes.
Import ListNotations.
Open Scope Z_scope.

Ltac run := cbv beta iota zeta delta [mbind ret lift get upd emit next bind s_c s_env]; cbn [Datatypes.app].
Ltac run_in H := cbv beta iota zeta delta [mbind ret lift get upd emit next bind s_c s_env] in H; cbn [Datatypes.app] in H.

Notation mode c := (k_mode (c_http c)).
Definition lands {A} (w : list attempt) (r : res (A * client)) : res (A * st) :=
  match r with Ok (a, c) => Ok (a, {| s_c := c; s_env := w |}) | UB => UB end.

(** ** One try on a connection *)
Inductive tried (X : ext) (op : operation) (t : session) (c : client) : list event -> res (est_error * client) -> Prop :=
| tried_stuck : tried X op t c [] UB
| tried_unsent : forall e, e <> EST_ERR_NONE -> local e -> tried X op t c [] (Ok (e, c))
| tried_unwritten : forall q, tells c q -> t_write t = false ->
    tried X op t c [ERequest q] (Ok (EST_ERR_SSL_WRITE, put_http (set_status 0 (c_http c)) c))
| tried_broken : forall q, tells c q -> t_write t = true -> (is_keygen op = false -> est_io_get_response (t_reads t) op (set_status 0 (c_http c)) = UB) -> tried X op t c [ERequest q; EResponse (t_reads t)] UB
| tried_failed : forall q e k, tells c q -> t_write t = true -> e <> EST_ERR_NONE -> e <> EST_ERR_VALIDATION ->
    reply_mode (mode c) (t_reads t) e (k_mode k) ->
    (forall d, arrives (t_reads t) d -> len d < EST_CA_MAX -> status401 d -> e = EST_ERR_AUTH_FAIL \/ (is_keygen op = true /\ e = EST_ERR_MULTIPART_PARSE)) ->
    (is_keygen op = false -> exists rv d, est_io_get_response (t_reads t) op (set_status 0 (c_http c)) = Ok (rv, d, k) /\ (rv = EST_ERR_NONE \/ rv = e)) ->
    tried X op t c [ERequest q; EResponse (t_reads t)] (Ok (e, put_http k c))
| tried_cert : forall q k cert, tells c q -> t_write t = true -> is_keygen op = false -> k_mode k = mode c ->
    reply_body op (t_reads t) cert -> 0 < len cert <= 4096 ->
    tried X op t c [ERequest q; EResponse (t_reads t)] (Ok (EST_ERR_NONE, put_cert (Some cert) (put_http k c)))
| tried_keyed : forall q k key cert e, tells c q -> t_write t = true -> is_keygen op = true -> k_mode k = mode c ->
    keys_delivered X (t_reads t) key cert -> 0 < len cert <= 4096 -> 0 < len key <= 8192 ->
    e = (if x_key_matches X key cert then EST_ERR_NONE else EST_ERR_VALIDATION) ->
    tried X op t c [ERequest q; EResponse (t_reads t)] (Ok (e, put_key (Some key) (put_cert (Some cert) (put_http k c)))).

Lemma eqb_none : forall e, err_eqb e EST_ERR_NONE = false -> e <> EST_ERR_NONE.
Proof. intros e H ->. discriminate. Qed.
Lemma checked_ne : forall key cert kg e, checked_cert key cert kg = e -> local e.
Proof. intros key cert kg e <-. unfold checked_cert. repeat match goal with |- context [if ?b then _ else _] => destruct b end; repeat split; discriminate. Qed.
Lemma checked_ok : forall key cert kg, checked_cert key cert kg = EST_ERR_NONE -> 0 < len cert <= 4096 /\ (kg = true -> 0 < len key <= 8192).
Proof.
  intros key cert kg H. unfold checked_cert, EST_MAX_CLIENT_CERT_LEN, EST_MAX_CLIENT_PKEY_LEN in H. pose proof (len_nonneg _ cert). pose proof (len_nonneg _ key).
  destruct (len cert =? 0) eqn:E1; [discriminate|]. destruct (4096 <? len cert) eqn:E2; [discriminate|]. split; [lia|]. intros ->. cbn [andb] in H.
  destruct (len key =? 0) eqn:E3; [discriminate|]. destruct (8192 <? len key) eqn:E4; [discriminate|]. lia.
Qed.
Lemma no_200_401 : forall evs d raw, len raw < EST_CA_MAX -> arrives evs d -> arrives evs raw -> len d < EST_CA_MAX -> starts (str "HTTP/1.1 200") d -> status401 raw -> False.
Proof.
  intros evs d raw L A B L2 (t & E) S. pose proof (read_arrives _ _ A L2) as R1. pose proof (read_arrives _ _ B L) as R2. rewrite R1 in R2. assert (d = raw) by congruence. subst raw.
  destruct S as (u & E'). rewrite E in E'. discriminate.
Qed.
Lemma delivered_spec : forall evs op c e d c', est_io_get_response evs op c = Ok (e, d, c') -> delivered_bytes d <> [] -> reply_body op evs (delivered_bytes d).
Proof.
  intros evs op c e d c' H N. destruct d as [|[b|] n]; try (exfalso; apply N; reflexivity). cbn [delivered_bytes] in *.
  apply delivered_sound in H as (-> & -> & Hn & raw & head & ct & cl & A & Ec & S & H1 & H2 & H3). exists raw, head, ct, cl. rewrite reply_type_eq. auto 10.
Qed.

Definition tries (X : ext) (op : operation) (try : session -> M est_error) : Prop :=
  forall t c w, fit c -> exists evs r, try t {| s_c := c; s_env := w |} = (evs, lands w r) /\ tried X op t c evs r.

Lemma req_tries : forall X op der, enrolls op -> all_bytes der -> tries X op (est_client_enroll_req X op der).
Proof.
  intros X op der Eo Fb t c w F. unfold est_client_enroll_req, est_client_send_enroll_request.
  pose proof (body_anon der Fb) as Nb. set (body := bio_b64_text der true) in *. clearbody body. run.
  destruct (build_header X op c t (len body)) as [h|] eqn:B; [|exists [], UB; split; [reflexivity|constructor]].
  destruct (len h =? 0) eqn:Lh.
  { cbn. exists [], (Ok (EST_ERR_HTTP_CANNOT_BUILD_HEADER, c)). split; [reflexivity|]. constructor; [discriminate|repeat split; discriminate]. }
  destruct (complete h body) as [q|] eqn:Cq; [|exists [], UB; split; [reflexivity|constructor]].
  pose proof (enroll_request X op c t body h q Eo F Nb B Lh Cq) as Tq. unfold exchange. run.
  destruct (t_write t) eqn:W; [|eexists _, (Ok (_, _)); split; [reflexivity|]; now constructor].
  run. cbn [negb]. destruct (is_keygen op) eqn:Kg.
  - unfold get_keygen_response. run.
    destruct (est_io_get_keygen_response _ _ _) as [[[rv d] k]|] eqn:G; [|eexists _, UB; split; [reflexivity|]; constructor; auto; first [exact (fun _ => G)|congruence]].
    cbn [c_http put_http] in G. destruct (keygen_mode _ _ _ _ _ _ G) as [Rm Dn]. cbn [k_mode set_status] in Rm.
    change (fun c0 : client => put_http k c0) with (put_http k). run.
    replace (put_http k (put_http (set_status 0 (c_http c)) c)) with (put_http k c) by reflexivity.
    destruct (err_eqb rv EST_ERR_NONE) eqn:En; cbn [negb].
    + apply err_eqb_eq in En. subst rv. set (key := match d with Some (a, _) => a | None => [] end). set (cert := match d with Some (_, a) => a | None => [] end).
      destruct (err_eqb (checked_cert key cert true) EST_ERR_NONE) eqn:Ce.
      * apply err_eqb_eq in Ce. apply checked_ok in Ce as [Lc Lk]. specialize (Lk eq_refl).
        destruct d as [[key' cert']|]; [|change (len cert) with 0 in Lc; lia]. cbn in key, cert. subst key cert.
        destruct Rm as [[_ Rm]|[Rm _]]; [|discriminate]. change (err_eqb EST_ERR_NONE EST_ERR_NONE) with true. cbn [negb]. run.
        eexists _, (Ok (if x_key_matches X key' cert' then EST_ERR_NONE else EST_ERR_VALIDATION, _)). split; [destruct (x_key_matches X key' cert'); reflexivity|].
        apply tried_keyed; auto. split; [eapply keygen_200; exact G|]. eexists _, _. exact G.
      * pose proof (eqb_none _ Ce) as Ne. run. rewrite Ce. cbn [negb]. run. destruct (checked_ne key cert true _ eq_refl) as (N1 & N2 & N3).
        eexists _, (Ok (checked_cert key cert true, put_http k c)). split; [reflexivity|]. apply tried_failed; auto.
        { left. split; [repeat split; assumption|]. destruct Rm as [[_ Rm]|[Rm _]]; [exact Rm|discriminate]. }
        { intros raw A L S. exfalso. destruct (keygen_401 _ _ _ _ _ _ raw G A L S); discriminate. }
        congruence.
    + run. rewrite En. cbn [negb]. run. eexists _, (Ok (rv, put_http k c)). split; [reflexivity|].
      apply tried_failed; auto; [now apply eqb_none| | |].
      * intros ->. destruct Rm as [[(_ & Rm & _) _]|[Rm _]]; [now apply Rm|discriminate].
      * intros raw A L S. destruct (keygen_401 _ _ _ _ _ _ raw G A L S); auto.
      * congruence.
  - unfold get_response. run.
    destruct (est_io_get_response _ _ _) as [[[rv d] k]|] eqn:G; [|eexists _, UB; split; [reflexivity|]; constructor; auto; first [exact (fun _ => G)|congruence]].
    cbn [c_http put_http] in G. pose proof (response_mode _ _ _ _ _ _ G) as Rm. cbn [k_mode set_status] in Rm.
    change (fun c0 : client => put_http k c0) with (put_http k). run.
    replace (put_http k (put_http (set_status 0 (c_http c)) c)) with (put_http k c) by reflexivity.
    destruct (err_eqb rv EST_ERR_NONE) eqn:En; cbn [negb].
    + apply err_eqb_eq in En. subst rv. destruct (err_eqb (checked_cert [] (delivered_bytes d) false) EST_ERR_NONE) eqn:Ce.
      * apply err_eqb_eq in Ce. apply checked_ok in Ce as [Lc _]. destruct Rm as [[_ Rm]|[Rm _]]; [|discriminate]. change (err_eqb EST_ERR_NONE EST_ERR_NONE) with true. cbn [negb]. run.
        eexists _, (Ok (EST_ERR_NONE, _)). split; [reflexivity|]. apply tried_cert; auto. eapply delivered_spec; [exact G|]. intros C. rewrite C in Lc. cbn in Lc. lia.
      * pose proof (eqb_none _ Ce) as Ne. run. rewrite Ce. cbn [negb]. run. destruct (checked_ne [] (delivered_bytes d) false _ eq_refl) as (N1 & N2 & N3).
        eexists _, (Ok (checked_cert [] (delivered_bytes d) false, put_http k c)). split; [reflexivity|]. apply tried_failed; auto.
        { left. split; [repeat split; assumption|]. destruct Rm as [[_ Rm]|[Rm _]]; [exact Rm|discriminate]. }
        { intros raw A L S. exfalso. pose proof (response_401 _ _ _ _ _ _ raw G A L S). discriminate. }
        intros _. exists EST_ERR_NONE, d. auto.
    + run. rewrite En. cbn [negb]. run. eexists _, (Ok (rv, put_http k c)). split; [reflexivity|].
      apply tried_failed; auto; [now apply eqb_none| | |].
      * intros ->. destruct Rm as [[(_ & Rm & _) _]|[Rm _]]; [now apply Rm|discriminate].
      * intros raw A L S. pose proof (response_401 _ _ _ _ _ _ raw G A L S); auto.
      * intros _. exists rv, d. auto.
Qed.

Lemma stuck : forall X op t c w, exists evs r, @pair (list event) (res (est_error * st)) [] UB = (evs, lands w r) /\ tried X op t c evs r.
Proof. intros. exists [], UB. split; [reflexivity|constructor]. Qed.
Lemma prefix_nil : forall (p : list event * res (est_error * st)), (let '(e2, r) := p in ([] ++ e2, r)) = p.
Proof. intros [e r]. reflexivity. Qed.
Lemma pkcs10_tries : forall X op csr key, lawful X -> enrolls op -> tries X op (est_client_enroll_pkcs10 X op csr key).
Proof.
  intros X op csr key Law Eo t c w F. unfold est_client_enroll_pkcs10.
  assert (G : forall cp, exists evs r, (let '(rv, der) := x_sign_csr X csr cp key in if err_eqb rv EST_ERR_NONE then est_client_enroll_req X op der t else ret rv) {| s_c := c; s_env := w |} = (evs, lands w r) /\ tried X op t c evs r).
  { intro cp. pose proof (law_sign X Law csr cp key) as [Le Lb]. destruct (x_sign_csr X csr cp key) as [rv der]. cbn [fst snd] in *.
    destruct (err_eqb rv EST_ERR_NONE) eqn:E; [now apply req_tries|]. exists [], (Ok (rv, c)). split; [reflexivity|]. constructor; [now apply eqb_none|exact Le]. }
  unfold mbind at 1, get. cbn [s_c]. rewrite prefix_nil. destruct (wants_pop c).
  - unfold mbind, lift. destruct (tls_uid t) as [[[blk n]|]|]; cbn [bind].
    + destruct (cstr blk) as [s|]; cbn [bind]; [|apply stuck]. cbn [ret]. specialize (G (Some s)). destruct G as (evs & r & E & T). exists evs, r. split; [|exact T]. cbv beta iota zeta. rewrite E. reflexivity.
    + cbn [ret]. exists [], (Ok (EST_ERR_AUTH_FAIL_TLSUID, c)). split; [reflexivity|]. constructor; [discriminate|repeat split; discriminate].
    + apply stuck.
  - unfold mbind, ret at 1. cbv beta iota. destruct (G None) as (evs & r & E & T). exists evs, r. split; [|exact T]. cbv zeta. rewrite E. reflexivity.
Qed.
Lemma cn_tries : forall X op cn key, lawful X -> enrolls op -> tries X op (est_client_enroll_cn X op cn key).
Proof.
  intros X op cn key Law Eo t c w F. unfold est_client_enroll_cn. unfold mbind at 1, get. cbn [s_c]. rewrite prefix_nil. unfold mbind, lift.
  destruct (tls_uid t) as [[[blk n]|]|]; cbn [bind].
  - destruct (cstr blk) as [s|]; cbn [bind]; [|apply stuck]. cbv zeta. set (cp := if wants_pop c then Some s else None). clearbody cp.
    pose proof (law_make X Law key cn cp) as [Le Lb]. destruct (x_make_csr X key cn cp) as [rv der]. cbn [fst snd] in *.
    destruct (err_eqb rv EST_ERR_NONE) eqn:E; [|exists [], (Ok (rv, c)); split; [reflexivity|]; constructor; [now apply eqb_none|exact Le]].
    destruct (req_tries X op der Eo Lb t c w F) as (evs & r & Er & T). exists evs, r. split; [|exact T]. rewrite Er. reflexivity.
  - exists [], (Ok (EST_ERR_AUTH_FAIL_TLSUID, c)). split; [reflexivity|]. constructor; [discriminate|repeat split; discriminate].
  - apply stuck.
Qed.

(** ** Connecting *)
Definition conn (c : client) : event := EConnect (c_server c) (c_port c) (c_trust c).
Definition unreached (e : est_error) : Prop :=
  In e [EST_ERR_IP_GETADDR; EST_ERR_IP_CONNECT; EST_ERR_SSL_NEW; EST_ERR_SSL_CONNECT; EST_ERR_FQDN_MISMATCH].
(** The server the first attempt of [w] leads to is the one meant. *)
Definition reaches (X : ext) (c : client) (w : list attempt) (t : session) : Prop :=
  hd_error w = Some (Tls t) /\ est_client_check_fqdn (x_pton4 X) (x_pton6 X) (c_server c) (t_srp t) (t_cert t) = Ok EST_ERR_NONE.
Lemma connect_run : forall X c w, exists r, est_client_connect X {| s_c := c; s_env := w |} = ([conn c], r) /\
  match r with
  | UB => True
  | Ok (inl e, s) => unreached e /\ s = {| s_c := c; s_env := tl w |}
  | Ok (inr t, s) => reaches X c w t /\ s = {| s_c := c; s_env := tl w |}
  end.
Proof.
  intros X c w. unfold est_client_connect. run. destruct w as [|a w]; run.
  - eexists. split; [reflexivity|]. cbn. unfold unreached. cbn. auto.
  - destruct a as [f|t]; run.
    + eexists. split; [reflexivity|]. destruct f; cbn; unfold unreached; cbn; auto 10.
    + destruct (est_client_check_fqdn _ _ _ _ _) as [e|] eqn:E; [|eexists; split; [reflexivity|exact I]].
      destruct (err_eqb e EST_ERR_NONE) eqn:En; eexists; (split; [reflexivity|]); (split; [|reflexivity]).
      * apply err_eqb_eq in En. subst e. split; [reflexivity|exact E].
      * unfold unreached. cbn. auto 10.
Qed.

(** ** One or two tries *)
Inductive rounds (X : ext) (op : operation) (c : client) (w : list attempt) : list event -> res (est_error * bool * client) -> Prop :=
| rounds_ub : rounds X op c w [conn c] UB
| rounds_unreached : forall e, unreached e -> rounds X op c w [conn c] (Ok (e, false, c))
| rounds_one : forall t evs e c1, reaches X c w t -> tried X op t c evs (Ok (e, c1)) -> (e = EST_ERR_AUTH_FAIL -> mode_scheme (mode c1) = None) ->
    rounds X op c w (conn c :: evs) (Ok (e, true, c1))
| rounds_one_ub : forall t evs, reaches X c w t -> tried X op t c evs UB -> rounds X op c w (conn c :: evs) UB
| rounds_fips : forall t evs c1, reaches X c w t -> tried X op t c evs (Ok (EST_ERR_AUTH_FAIL, c1)) -> mode c1 = AUTH_DIGEST -> x_fips X = true ->
    rounds X op c w (conn c :: evs) (Ok (EST_ERR_BAD_MODE, false, c1))
| rounds_lost : forall t evs c1 e sc, reaches X c w t -> tried X op t c evs (Ok (EST_ERR_AUTH_FAIL, c1)) -> mode_scheme (mode c1) = Some sc -> unreached e ->
    rounds X op c w (conn c :: evs ++ [conn c]) (Ok (e, false, c1))
| rounds_lost_ub : forall t evs c1 sc, reaches X c w t -> tried X op t c evs (Ok (EST_ERR_AUTH_FAIL, c1)) -> mode_scheme (mode c1) = Some sc ->
    rounds X op c w (conn c :: evs ++ [conn c]) UB
| rounds_two : forall t evs c1 sc t2 evs2 e c2 c3, reaches X c w t -> tried X op t c evs (Ok (EST_ERR_AUTH_FAIL, c1)) -> mode_scheme (mode c1) = Some sc ->
    reaches X c1 (tl w) t2 -> tried X op t2 c1 evs2 (Ok (e, c2)) -> (c3 = c2 \/ c3 = clear_token_error c2) ->
    rounds X op c w (conn c :: evs ++ conn c :: evs2) (Ok (e, true, c3))
| rounds_two_ub : forall t evs c1 sc t2 evs2, reaches X c w t -> tried X op t c evs (Ok (EST_ERR_AUTH_FAIL, c1)) -> mode_scheme (mode c1) = Some sc ->
    reaches X c1 (tl w) t2 -> tried X op t2 c1 evs2 UB -> rounds X op c w (conn c :: evs ++ conn c :: evs2) UB.

Lemma tried_same : forall X op t c evs e c', tried X op t c evs (Ok (e, c')) ->
  exists k, c' = put_http k c \/ (exists cert, c' = put_cert (Some cert) (put_http k c)) \/ exists key cert, c' = put_key (Some key) (put_cert (Some cert) (put_http k c)).
Proof.
  intros X op t c evs e c' T. inversion T; subst; eauto 10.
  exists (c_http c'). left. destruct c'. reflexivity.
Qed.
Lemma tried_conn : forall X op t c evs e c', tried X op t c evs (Ok (e, c')) -> conn c' = conn c /\ (fit c -> fit c') /\ c_server c' = c_server c.
Proof. intros X op t c evs e c' T. destruct (tried_same _ _ _ _ _ _ _ T) as (k & [->|[(cert & ->)|(key & cert & ->)]]); (split; [reflexivity|]); (split; [exact (fun H => H)|reflexivity]). Qed.

Lemma twice_run : forall X op tidy try, tries X op try -> forall c w, fit c ->
  exists evs r w', twice X tidy try {| s_c := c; s_env := w |} = (evs, lands w' r) /\ rounds X op c w evs r.
Proof.
  intros X op tidy try Ht c w F. unfold twice. unfold mbind at 1. destruct (connect_run X c w) as (r & -> & H).
  destruct r as [[[e|t] s]|]; [destruct H as [He ->]|destruct H as [Hr ->]|exists [conn c], UB, w; split; [reflexivity|constructor]].
  { exists [conn c], (Ok (e, false, c)), (tl w). split; [reflexivity|]. now constructor. }
  unfold mbind at 1. destruct (Ht t c (tl w) F) as (evs & r1 & E1 & T1). rewrite E1. destruct r1 as [[e c1]|]; cbn [lands]; [|exists (conn c :: evs), UB, w; split; [reflexivity|]; econstructor; eauto].
  destruct (tried_conn _ _ _ _ _ _ _ T1) as (Ec & F1 & Es). specialize (F1 F). unfold mbind at 1, get. cbn [s_c].
  destruct (err_eqb e EST_ERR_AUTH_FAIL) eqn:Ef; cbn [andb].
  2: { exists (conn c :: evs), (Ok (e, true, c1)), (tl w). split; [cbn; rewrite !app_nil_r; reflexivity|]. eapply rounds_one; eauto. intros ->. discriminate. }
  apply err_eqb_eq in Ef. subst e. destruct (mode_scheme (mode c1)) as [sc|] eqn:Ms.
  2: { replace (match mode c1 with AUTH_DIGEST | AUTH_BASIC | AUTH_TOKEN => true | _ => false end) with false by (destruct (mode c1); try discriminate; reflexivity).
       exists (conn c :: evs), (Ok (EST_ERR_AUTH_FAIL, true, c1)), (tl w). split; [cbn; rewrite !app_nil_r; reflexivity|]. eapply rounds_one; eauto. }
  replace (match mode c1 with AUTH_DIGEST | AUTH_BASIC | AUTH_TOKEN => true | _ => false end) with true by (destruct (mode c1); try discriminate; reflexivity).
  destruct (mode_eqb (mode c1) AUTH_DIGEST && x_fips X) eqn:Fp.
  { apply andb_true_iff in Fp as [Fd Fp]. exists (conn c :: evs), (Ok (EST_ERR_BAD_MODE, false, c1)), (tl w). split; [cbn; rewrite !app_nil_r; reflexivity|]. eapply rounds_fips; eauto. destruct (mode c1); try discriminate. reflexivity. }
  unfold mbind at 1. destruct (connect_run X c1 (tl w)) as (r & -> & H). rewrite Ec.
  destruct r as [[[e|t2] s]|]; [destruct H as [He ->]|destruct H as [Hr2 ->]|exists (conn c :: evs ++ [conn c]), UB, w; split; [cbn; reflexivity|eapply rounds_lost_ub; eauto]].
  { exists (conn c :: evs ++ [conn c]), (Ok (e, false, c1)), (tl (tl w)). split; [cbn; reflexivity|]. eapply rounds_lost; eauto. }
  unfold mbind at 1. destruct (Ht t2 c1 (tl (tl w)) F1) as (evs2 & r2 & E2 & T2). rewrite E2. destruct r2 as [[e c2]|]; cbn [lands].
  2: { exists (conn c :: evs ++ conn c :: evs2), UB, w. split; [cbn; reflexivity|eapply rounds_two_ub; eauto]. }
  exists (conn c :: evs ++ conn c :: evs2), (Ok (e, true, if tidy && negb (err_eqb e EST_ERR_NONE) then clear_token_error c2 else c2)), (tl (tl w)). split.
  - destruct (tidy && negb (err_eqb e EST_ERR_NONE)); cbn; rewrite !app_nil_r; reflexivity.
  - eapply rounds_two; eauto. destruct (tidy && negb (err_eqb e EST_ERR_NONE)); auto.
Qed.
