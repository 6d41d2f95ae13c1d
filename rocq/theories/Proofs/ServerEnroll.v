(** Every path through the handling of an enrollment request. *)
From Coq Require Import String ZArith List Bool Lia ZifyBool ZifyNat.
From Verif Require Import Base Spec.Http Spec.Server Model.CLib Model.Codec Model.EstErr Model.HttpServer Model.Uri
  Model.AuthHdr Model.Server Proofs.AuthHdr Proofs.ServerAuth.
Import ListNotations.
Open Scope Z_scope.

Section P.
Context {cert csr key E : Type}.
Variable O : @ossl cert csr key.
Variable C : @config cert.
Variable A : @app cert key E.
Variable attrs_check : option (option bytes) -> bytes -> res est_error.

Notation event := (@event cert key).
Notation st := (@st E).

Definition run_enroll (t : @tls cert) (authz : option bytes) (c body : bytes) (path : option bytes) (k : enroll_kind)
  : @M cert key E est_error :=
  match k with
  | SERVERKEYGEN_REQ => mbind (est_handle_server_keygen O C A attrs_check t authz c body path)
                          (fun x => match x with (rc, _, _) => ret rc end)
  | _ => mbind (est_handle_simple_enroll O C A attrs_check t authz c body path k)
           (fun x => match x with (rc, _) => ret rc end)
  end.

(** ** Parts *)
Lemma handle_eca_csr : forall t c body b a pr a' r,
  handle_eca O C t c body b a = (pr, a', Some r) -> o_parse_csr O body = Some r.
Proof.
  intros t c body b a pr a' r. unfold handle_eca.
  destruct (negb (t_chain t)); [discriminate|].
  destruct (est_enhcd_cert_auth_get_mfg C c) as [err idx].
  destruct (err_eqb err EST_ERR_NONE || err_eqb err EST_ERR_VALIDATION); [|discriminate].
  assert (B : forall n r', (let '(h, a0) := build_eca_header O C a c n in (h, a0, r')) = (pr, a', Some r) -> r' = Some r).
  { intros n r' H. destruct (build_eca_header O C a c n). congruence. }
  destruct b; [|intro H; apply B in H; discriminate].
  destruct (o_parse_csr O body); [|discriminate].
  destruct (perform_csr_check O C c c0 idx); intro H; [apply B in H|inversion H..]; congruence.
Qed.

Lemma auth_csr : forall t authz path k body s e au r s',
  auth_path O C A t authz path k body s e (Ok (au, Some r, s')) -> o_parse_csr O body = Some r.
Proof.
  intros * H. inversion H; subst; eauto using handle_eca_csr.
Qed.

Definition passes (t : @tls cert) (r : csr) : Prop :=
  match t_peer t with Some c => est_check_cmcRA O c = true | None => False end
  \/ est_tls_uid_auth O C t r = Ok EST_ERR_NONE.

(** Where the required attributes come from and that the request has them. *)
Definition attrs_present (ec : list event) (b : bytes) : Prop :=
  (c_enforce C = false /\ ec = [])
  \/ (c_enforce C = true /\ a_csrattrs A = None /\ c_csrattrs C = None /\ ec = [])
  \/ (c_enforce C = true /\ a_csrattrs A = None /\ (exists d, c_csrattrs C = Some d /\ attrs_check (Some (Some d)) b = Ok EST_ERR_NONE) /\ ec = [])
  \/ (c_enforce C = true /\ exists d, ec = [EvCsrattrs None d] /\ attrs_check (Some d) b = Ok EST_ERR_NONE).
Definition attrs_absent (ec : list event) (b : bytes) : Prop :=
  c_enforce C = true /\
  ((a_csrattrs A = None /\ (exists d er, c_csrattrs C = Some d /\ attrs_check (Some (Some d)) b = Ok er /\ er <> EST_ERR_NONE) /\ ec = [])
   \/ (exists er, attrs_check None b = Ok er /\ er <> EST_ERR_NONE /\ (a_csrattrs A <> None \/ c_csrattrs C <> None) /\ ec = [])
   \/ exists d er, ec = [EvCsrattrs None d] /\ attrs_check (Some d) b = Ok er /\ er <> EST_ERR_NONE).
Definition attrs_crash (ec : list event) (b : bytes) : Prop :=
  c_enforce C = true /\
  ((attrs_check None b = UB /\ (a_csrattrs A <> None \/ c_csrattrs C <> None) /\ ec = []) \/ (exists d, c_csrattrs C = Some d /\ attrs_check (Some (Some d)) b = UB /\ ec = [])
   \/ exists d, ec = [EvCsrattrs None d] /\ attrs_check (Some d) b = UB).

Inductive checks_path (t : @tls cert) (r : csr) (b : bytes) (s : st) : list event -> res (est_error * st) -> Prop :=
| ck_ub : est_tls_uid_auth O C t r = UB -> ~ passes t r -> checks_path t r b s [] UB
| ck_attrs_ub : forall ec, passes t r -> attrs_crash ec b -> checks_path t r b s ec UB
| ck_uid : forall err, est_tls_uid_auth O C t r = Ok err -> err <> EST_ERR_NONE -> ~ passes t r ->
    checks_path t r b s [] (Ok (EST_ERR_AUTH_FAIL_TLSUID, s))
| ck_attrs : forall ec s', passes t r -> attrs_absent ec b -> s_uid s' = s_uid s -> s_code s' = s_code s ->
    checks_path t r b s ec (Ok (EST_ERR_CSR_ATTR_MISSING, s'))
| ck_ok : forall ec s', passes t r -> attrs_present ec b -> s_uid s' = s_uid s -> s_code s' = s_code s ->
    checks_path t r b s ec (Ok (EST_ERR_NONE, s')).

Lemma err_match_none : forall X (e : est_error) (a b : X),
  match e with EST_ERR_NONE => a | _ => b end = if err_eqb e EST_ERR_NONE then a else b.
Proof. intros. destruct e; reflexivity. Qed.
Lemma err_none_dec : forall e, e = EST_ERR_NONE \/ (e <> EST_ERR_NONE /\ err_eqb e EST_ERR_NONE = false).
Proof. intro e. destruct e; (left; reflexivity) || (right; split; [discriminate|reflexivity]). Qed.

Lemma mbind_assoc : forall X Y Z (m : @M cert key E X) (f : X -> @M cert key E Y) (g : Y -> @M cert key E Z) s,
  mbind (mbind m f) g s = mbind m (fun x => mbind (f x) g) s.
Proof.
  intros. unfold mbind. destruct (m s) as [e1 [[x s1]|]]; [|reflexivity].
  destruct (f x s1) as [e2 [[y s2]|]]; [|reflexivity].
  destruct (g y s2) as [e3 r]. now rewrite app_assoc.
Qed.
Lemma csr_checks_paths : forall t r b s e res,
  csr_checks O C A attrs_check t r b s = (e, res) -> checks_path t r b s e res.
Proof.
  intros t r b s e res H. unfold csr_checks in H.
  assert (AT : forall err s1, (mbind (all_csrattrs_present C A attrs_check b (t_peer t)) (fun e2 =>
                 ret match e2 with EST_ERR_NONE => EST_ERR_NONE | _ => EST_ERR_CSR_ATTR_MISSING end)) s1 = err ->
     c_enforce C = true ->
     exists ec s2, s_uid s2 = s_uid s1 /\ s_code s2 = s_code s1 /\
       ((attrs_present ec b /\ err = (ec, Ok (EST_ERR_NONE, s2))) \/ (attrs_absent ec b /\ err = (ec, Ok (EST_ERR_CSR_ATTR_MISSING, s2)))
        \/ (attrs_crash ec b /\ err = (ec, UB)))).
  { intros err s1 <- En. unfold all_csrattrs_present.
    destruct (negb (is_some (a_csrattrs A)) && negb (is_some (c_csrattrs C))) eqn:Eno.
    { destruct (a_csrattrs A) eqn:Ea; [discriminate|]. destruct (c_csrattrs C) eqn:Ec; [discriminate|].
      rewrite mbind_ret. exists [], s1. split; [reflexivity|]. split; [reflexivity|].
      left. split; [|reflexivity]. right; left. auto. }
    destruct (attrs_check None b) as [e0|] eqn:E0.
    2:{ exists [], s1. split; [reflexivity|]. split; [reflexivity|]. right; right. split; [|reflexivity]. split; [auto|]. left. split; [auto|]. split; [|reflexivity].
        destruct (a_csrattrs A); [left; discriminate|]. destruct (c_csrattrs C); [right; discriminate|discriminate]. }
    rewrite mbind_assoc. change (lift (Ok e0)) with (@ret cert key E _ e0). rewrite mbind_ret.
    destruct (err_none_dec e0) as [->|[Ne Ne']].
    2:{ rewrite (err_match_none _ e0), Ne', mbind_ret. exists [], s1. split; [reflexivity|]. split; [reflexivity|].
        right; left. unfold ret. rewrite (err_match_none _ e0), Ne'. split; [|reflexivity]. split; [auto|]. right; left. exists e0.
        split; [auto|]. split; [auto|]. split; [|reflexivity]. destruct (a_csrattrs A); [left; discriminate|].
        destruct (c_csrattrs C); [right; discriminate|discriminate]. }
    destruct (a_csrattrs A) as [f|] eqn:Ea.
    - unfold call, emit, mbind, ret. destruct (f (s_env s1) None (t_peer t)) as [e1 d].
      exists [EvCsrattrs None d], {| s_env := e1; s_uid := s_uid s1; s_code := s_code s1 |}.
      split; [reflexivity|]. split; [reflexivity|].
      destruct (attrs_check (Some d) b) as [er|] eqn:Er; cbn.
      2:{ right; right. split; [|reflexivity]. split; [auto|]. right; right. exists d. auto. }
      rewrite (err_match_none _ er).
      destruct (err_none_dec er) as [Q|[Q Q']].
      + left. rewrite Q. split; [|reflexivity]. right; right; right. split; [auto|]. exists d. split; [reflexivity|]. congruence.
      + right; left. rewrite Q'. split; [|reflexivity]. split; [auto|]. right; right. now exists d, er.
    - destruct (c_csrattrs C) as [d|] eqn:Ec; [|discriminate].
      exists [], s1. split; [reflexivity|]. split; [reflexivity|].
      destruct (attrs_check (Some (Some d)) b) as [er|] eqn:Er.
      2:{ right; right. split; [|reflexivity]. split; [auto|]. right; left. exists d. auto. }
      change (lift (Ok er)) with (@ret cert key E _ er). rewrite mbind_ret. unfold ret. rewrite (err_match_none _ er).
      destruct (err_none_dec er) as [Q|[Q Q']].
      + left. rewrite Q. split; [|reflexivity]. right; right; left. split; [auto|]. split; [auto|]. split; [|reflexivity].
        exists d. split; [assumption|]. congruence.
      + right; left. rewrite Q'. split; [|reflexivity]. split; [auto|]. left. split; [auto|]. split; [|reflexivity]. now exists d, er. }
  assert (OK : forall s1, passes t r ->
    (if c_enforce C then mbind (all_csrattrs_present C A attrs_check b (t_peer t)) (fun e2 =>
       ret match e2 with EST_ERR_NONE => EST_ERR_NONE | _ => EST_ERR_CSR_ATTR_MISSING end)
     else ret EST_ERR_NONE) s1 = (e, res) -> s_uid s1 = s_uid s -> s_code s1 = s_code s -> checks_path t r b s e res \/ False).
  { intros s1 P H1 U V. left. destruct (c_enforce C) eqn:En.
    - apply AT in H1 as (ec & s2 & U2 & V2 & [[Q W]|[[Q W]|[Q W]]]); [| | |auto]; inversion W; subst.
      + apply ck_ok; congruence || auto.
      + apply ck_attrs; congruence || auto.
      + apply ck_attrs_ub; auto.
    - inversion H1; subst. apply ck_ok; auto. left. auto. }
  destruct (match t_peer t with Some c => est_check_cmcRA O c | None => false end) eqn:Era.
  - rewrite mbind_ret in H. 
    destruct (OK s) as [?|[]]; auto. left. destruct (t_peer t); [auto|discriminate].
  - assert (NP : forall x, est_tls_uid_auth O C t r = x -> x <> Ok EST_ERR_NONE -> ~ passes t r).
    { intros x Hx N [P|P]; [|congruence]. destruct (t_peer t); [congruence|auto]. }
    apply mbind_inv in H as [[H ->]|(e1 & err & s1 & e2 & H1 & H & ->)].
    + unfold lift in H. destruct (est_tls_uid_auth O C t r) eqn:Eu; [discriminate|].
      inversion H; subst. apply ck_ub; auto. eapply NP; [reflexivity|discriminate].
    + unfold lift in H1. destruct (est_tls_uid_auth O C t r) as [x|] eqn:Eu; cbn in H1; inversion H1; subst.
      rewrite (err_match_none _ err) in H.
      destruct (err_none_dec err) as [Q|[Q Q']].
      * rewrite Q in H. cbn [err_eqb err_code Z.eqb] in H.
        destruct (OK s1) as [?|[]]; auto. right. congruence.
      * rewrite Q' in H. inversion H; subst. apply ck_uid with err; auto. eapply NP; [reflexivity|congruence].
Qed.

(** ** The handlers *)
Definition granted (au : auth_state) : Prop := au = HTTP_AUTH \/ au = SRP_AUTH \/ au = CERT_AUTH.
Definition callback_set (k : enroll_kind) : bool :=
  match k with
  | SIMPLE_ENROLL_REQ => is_some (a_enroll A)
  | REENROLL_REQ => is_some (a_reenroll A)
  | SERVERKEYGEN_REQ => is_some (a_skg A) && is_some (a_keygen A)
  end.

(** The CSR given to the checks and the CA. *)
Definition prepared (k : enroll_kind) (body : bytes) (mid : list event) (r : csr) (b : bytes) : Prop :=
  match k with
  | SERVERKEYGEN_REQ => exists r0 r1 pk x, mid = [EvKeygen 0 (Some pk)] /\ o_parse_csr O body = Some r0
      /\ o_set_pubkey O r0 pk = Some r1 /\ o_sign O r1 pk = Some r /\ b = o_csr_body O r
      /\ est_base64_encode (o_key_der O pk) (repeat 0 (Z.to_nat (len (o_key_der O pk) * 2))) (len (o_key_der O pk) * 2) true = Ok x
  | _ => mid = [] /\ o_parse_csr O body = Some r /\ b = body
  end.

Definition outcome (k : enroll_kind) (rv : Z) (crt kt : bytes) (s : st) (w : list event) (err : est_error) (s' : st) : Prop :=
  if (rv =? 0) && (0 <? len crt) then
    if is_http C then
      match k with
      | SERVERKEYGEN_REQ =>
        write_all A [ok_head (str "multipart/mixed; boundary=" ++ boundary) None
                       (len pvt_key_hdr + len kt + len cert_hdr + len crt + len final_bndry_hdr);
                     pvt_key_hdr; kt; cert_hdr; crt; final_bndry_hdr] s = (w, Ok (err, s'))
      | _ => send_200 A (str "application/pkcs7-mime; smime-type=certs-only") crt s = (w, Ok (err, s'))
      end
    else w = [] /\ err = EST_ERR_NONE /\ s' = s
  else w = [] /\ s' = s /\ err = if rv =? 26 then EST_ERR_CA_ENROLL_RETRY else EST_ERR_CA_ENROLL_FAIL.

Inductive enroll_path (t : @tls cert) (authz : option bytes) (ct body : bytes) (path : option bytes) (k : enroll_kind) (s : st)
  : list event -> res (est_error * st) -> Prop :=
| en_null : callback_set k = false -> enroll_path t authz ct body path k s [] (Ok (EST_ERR_NULL_CALLBACK, s))
| en_ct : callback_set k = true -> is_http C = true -> is_pkcs10 ct = false ->
    enroll_path t authz ct body path k s [] (Ok (EST_ERR_BAD_CONTENT_TYPE, s))
| en_auth_ub : forall e, auth_path O C A t authz path k body s e UB -> enroll_path t authz ct body path k s e UB
| en_auth_no : forall e au ro s' err, auth_path O C A t authz path k body s e (Ok (au, ro, s')) ->
    (au = HTTP_AUTH_PENDING /\ err = EST_ERR_AUTH_PENDING) \/ (au = CSR_PARSE_FAIL /\ err = EST_ERR_BAD_PKCS10)
    \/ (au = UNAUTHORIZED /\ err = EST_ERR_AUTH_FAIL) ->
    enroll_path t authz ct body path k s e (Ok (err, s'))
| en_parse : forall e au ro s', auth_path O C A t authz path k body s e (Ok (au, ro, s')) -> granted au ->
    o_parse_csr O body = None -> enroll_path t authz ct body path k s e (Ok (EST_ERR_BAD_PKCS10, s'))
| en_keygen : forall e au ro s1 s' r krv ko err,
    auth_path O C A t authz path k body s e (Ok (au, ro, s1)) -> granted au ->
    o_parse_csr O body = Some r -> k = SERVERKEYGEN_REQ -> s_uid s' = s_uid s1 -> s_code s' = s_code s1 ->
    (ko = None \/ krv <> 0) /\ err = EST_ERR_NO_KEY
    \/ (exists pk, ko = Some pk /\ krv = 0 /\ o_set_pubkey O r pk = None) /\ err = EST_ERR_BAD_PKCS10
    \/ (exists pk r1, ko = Some pk /\ krv = 0 /\ o_set_pubkey O r pk = Some r1 /\ o_sign O r1 pk = None)
       /\ err = EST_ERR_X509_SIGN ->
    enroll_path t authz ct body path k s (e ++ [EvKeygen krv ko]) (Ok (err, s'))
| en_b64 : forall e au ro s1 r pk,
    auth_path O C A t authz path k body s e (Ok (au, ro, s1)) -> granted au ->
    o_parse_csr O body = Some r -> k = SERVERKEYGEN_REQ ->
    est_base64_encode (o_key_der O pk) (repeat 0 (Z.to_nat (len (o_key_der O pk) * 2))) (len (o_key_der O pk) * 2) true = UB ->
    enroll_path t authz ct body path k s (e ++ [EvKeygen 0 (Some pk)]) UB
| en_bad : forall e au ro s1 s' r mid b, auth_path O C A t authz path k body s e (Ok (au, ro, s1)) -> granted au ->
    prepared k body mid r b -> ~ good_csr O r -> s_uid s' = s_uid s1 -> s_code s' = s_code s1 ->
    enroll_path t authz ct body path k s (e ++ mid) (Ok (EST_ERR_BAD_PKCS10, s'))
| en_checks_ub : forall e au ro s1 s2 r mid b ec, auth_path O C A t authz path k body s e (Ok (au, ro, s1)) -> granted au ->
    prepared k body mid r b -> good_csr O r -> s_uid s2 = s_uid s1 -> checks_path t r b s2 ec UB ->
    enroll_path t authz ct body path k s (e ++ mid ++ ec) UB
| en_checks_no : forall e au ro s1 s2 s' r mid b ec err, auth_path O C A t authz path k body s e (Ok (au, ro, s1)) -> granted au ->
    prepared k body mid r b -> good_csr O r -> s_uid s2 = s_uid s1 -> s_code s2 = s_code s1 ->
    checks_path t r b s2 ec (Ok (err, s')) -> err <> EST_ERR_NONE ->
    enroll_path t authz ct body path k s (e ++ mid ++ ec) (Ok (err, s'))
| en_uid_ub : forall e au ro s1 s2 s' r mid b ec, auth_path O C A t authz path k body s e (Ok (au, ro, s1)) -> granted au ->
    prepared k body mid r b -> good_csr O r -> s_uid s2 = s_uid s1 ->
    checks_path t r b s2 ec (Ok (EST_ERR_NONE, s')) -> is_http C = true -> cstr (s_uid s1) = UB ->
    enroll_path t authz ct body path k s (e ++ mid ++ ec) UB
| en_ca : forall e au ro s1 s2 s3 s4 s' r mid b ec uid rv crt kt w err,
    callback_set k = true -> (is_http C = true -> is_pkcs10 ct = true) ->
    auth_path O C A t authz path k body s e (Ok (au, ro, s1)) -> granted au ->
    prepared k body mid r b -> good_csr O r -> s_uid s2 = s_uid s1 -> s_code s2 = s_code s1 ->
    checks_path t r b s2 ec (Ok (EST_ERR_NONE, s3)) ->
    (is_http C = true /\ exists u, cstr (s_uid s1) = Ok u /\ uid = Some u) \/ (is_http C = false /\ uid = None) ->
    s_uid s4 = s_uid s1 -> s_code s4 = s_code s1 -> outcome k rv crt kt s4 w err s' -> (k <> SERVERKEYGEN_REQ -> kt = []) ->
    enroll_path t authz ct body path k s (e ++ mid ++ ec ++ EvCA k b uid (t_peer t) path rv crt kt :: w) (Ok (err, s')).

Lemma checks_keeps : forall t r b s ec err s', checks_path t r b s ec (Ok (err, s')) ->
  s_uid s' = s_uid s /\ s_code s' = s_code s.
Proof. intros * H. inversion H; subst; auto. Qed.

Lemma good_csr_iff : forall r, good_csr O r <-> est_server_check_csr O r = true.
Proof. intro r. unfold good_csr, est_server_check_csr. rewrite andb_true_iff. split; intros [? ?]; split; auto; lia. Qed.

Lemma callback_uid_cases : forall (s : st) (e : list event) r, callback_uid C s = (e, r) -> e = [] /\
  ((is_http C = true /\ cstr (s_uid s) = UB /\ r = UB)
   \/ (is_http C = true /\ exists u, cstr (s_uid s) = Ok u /\ r = Ok (Some u, s))
   \/ (is_http C = false /\ r = Ok (None, s))).
Proof.
  intros s e r H. unfold callback_uid, is_http in *. destruct (c_transport C).
  - unfold mbind, get_uid, lift, ret in H. destruct (cstr (s_uid s)) as [u|] eqn:Eu; cbn in H; inversion H; subst;
      split; auto. right; left. split; auto. exists u; auto.
  - inversion H; subst. auto.
Qed.


(** The part after the CSR was prepared. *)
Lemma tail_path : forall t authz ct body path k s e au ro s1 s2 r mid b X (ret2 : X -> @M cert key E est_error)
    e2 r2 (fail : est_error -> @M cert key E X) (ca : option bytes -> @M cert key E X),
  callback_set k = true -> (is_http C = true -> is_pkcs10 ct = true) ->
  auth_path O C A t authz path k body s e (Ok (au, ro, s1)) -> granted au ->
  prepared k body mid r b -> s_uid s2 = s_uid s1 -> s_code s2 = s_code s1 ->
  (forall x s e2 r2, mbind (fail x) ret2 s = (e2, r2) -> e2 = [] /\ r2 = Ok (x, s)) ->
  (forall uid s e2 r2, mbind (ca uid) ret2 s = (e2, r2) ->
     exists rv crt kt s4 w err s', e2 = EvCA k b uid (t_peer t) path rv crt kt :: w /\ s_uid s4 = s_uid s /\ s_code s4 = s_code s
       /\ outcome k rv crt kt s4 w err s' /\ r2 = Ok (err, s') /\ (k <> SERVERKEYGEN_REQ -> kt = [])) ->
  mbind (if negb (est_server_check_csr O r) then fail EST_ERR_BAD_PKCS10
         else mbind (csr_checks O C A attrs_check t r b) (fun err =>
                match err with
                | EST_ERR_NONE => mbind (callback_uid C) ca
                | _ => fail err
                end)) ret2 s2 = (e2, r2) ->
  enroll_path t authz ct body path k s (e ++ mid ++ e2) r2.
Proof.
  intros * CB CT Au G P U V Hfail Hca H.
  destruct (est_server_check_csr O r) eqn:Ec; cbn [negb] in H.
  2:{ apply Hfail in H as [-> ->]. rewrite app_nil_r. eapply en_bad; eauto. rewrite good_csr_iff. congruence. }
  apply good_csr_iff in Ec. rewrite mbind_assoc in H.
  apply mbind_inv in H as [[H ->]|(ec & err & s3 & ed & H1 & H & ->)].
  { apply csr_checks_paths in H. eapply en_checks_ub; eauto. }
  apply csr_checks_paths in H1. destruct (checks_keeps _ _ _ _ _ _ _ H1) as [U3 V3].
  destruct (err_none_dec err) as [->|[N _]].
  - rewrite mbind_assoc in H. apply mbind_inv in H as [[H ->]|(e5 & uid & s5 & e6 & H5 & H & ->)].
    + apply callback_uid_cases in H as (-> & [(? & ? & _)|[(_ & ? & _ & ?)|(_ & ?)]]); try discriminate.
      rewrite app_nil_r. eapply en_uid_ub; eauto. congruence.
    + apply callback_uid_cases in H5 as (-> & HU).
      apply Hca in H as (rv & crt & kt & s4 & w & err & s' & -> & U4 & V4 & Ho & -> & Hkt).
      assert (Hs5 : s5 = s3) by (destruct HU as [(_ & _ & ?)|[(_ & u & _ & Hu)|(_ & Hu)]]; try discriminate; inversion Hu; reflexivity).
      subst s5. cbn [Datatypes.app].
      apply en_ca with (au := au) (ro := ro) (s1 := s1) (s2 := s2) (s3 := s3) (s4 := s4) (r := r); auto; try congruence.
      destruct HU as [(_ & _ & ?)|[(? & u & Hu & Hu2)|(? & Hu)]]; try discriminate; [left|right].
      * split; auto. exists u. split; [congruence|]. now inversion Hu2.
      * split; auto. now inversion Hu.
  - assert (Q : mbind (fail err) ret2 s3 = (ed, r2)) by (rewrite <- H; destruct err; try contradiction; reflexivity).
    apply Hfail in Q as [-> ->]. rewrite app_nil_r. eapply en_checks_no; eauto.
Qed.

Lemma simple_outcome : forall k rv crt kt s e2 r2, k <> SERVERKEYGEN_REQ ->
  mbind (if (rv =? err_code EST_ERR_NONE) && (0 <? len crt) then
           if is_http C then
             mbind (send_200 A (str "application/pkcs7-mime; smime-type=certs-only") crt) (fun w => ret (w, crt))
           else ret (EST_ERR_NONE, crt)
         else if rv =? err_code EST_ERR_CA_ENROLL_RETRY then ret (EST_ERR_CA_ENROLL_RETRY, [])
         else ret (EST_ERR_CA_ENROLL_FAIL, [])) (fun x => match x with (rc, _) => ret rc end) s = (e2, r2) ->
  exists err s', outcome k rv crt kt s e2 err s' /\ r2 = Ok (err, s').
Proof.
  intros k rv crt kt s e2 r2 K H. unfold outcome.
  change (err_code EST_ERR_NONE) with 0 in H. change (err_code EST_ERR_CA_ENROLL_RETRY) with 26 in H.
  destruct ((rv =? 0) && (0 <? len crt)).
  - destruct (is_http C).
    + destruct (send_200 A (str "application/pkcs7-mime; smime-type=certs-only") crt s) as [w r] eqn:Es.
      destruct (writes_200 A _ _ s w r Es) as [_ (err & s' & -> & _)].
      unfold mbind, ret in H. rewrite Es in H. cbn in H. rewrite !app_nil_r in H. inversion H; subst.
      exists err, s'. split; [|reflexivity]. destruct k; auto. contradiction.
    + inversion H; subst. exists EST_ERR_NONE, s. auto.
  - destruct (rv =? 26); inversion H; subst; eexists _, _; split; auto.
Qed.

Lemma keygen_outcome : forall rv crt kt s e2 r2,
  mbind (if (rv =? err_code EST_ERR_NONE) && (0 <? len crt) then
           if is_http C then
             mbind (write_all A
               [ok_head (str "multipart/mixed; boundary=" ++ boundary) None
                  (len pvt_key_hdr + len kt + len cert_hdr + len crt + len final_bndry_hdr);
                pvt_key_hdr; kt; cert_hdr; crt; final_bndry_hdr]) (fun w =>
             match w with EST_ERR_NONE => ret (w, crt, kt) | _ => ret (w, [], []) end)
           else ret (EST_ERR_NONE, crt, kt)
         else if rv =? err_code EST_ERR_CA_ENROLL_RETRY then ret (EST_ERR_CA_ENROLL_RETRY, [], [])
         else ret (EST_ERR_CA_ENROLL_FAIL, [], [])) (fun x => match x with (rc, _, _) => ret rc end) s = (e2, r2) ->
  exists err s', outcome SERVERKEYGEN_REQ rv crt kt s e2 err s' /\ r2 = Ok (err, s').
Proof.
  intros rv crt kt s e2 r2 H. unfold outcome.
  change (err_code EST_ERR_NONE) with 0 in H. change (err_code EST_ERR_CA_ENROLL_RETRY) with 26 in H.
  destruct ((rv =? 0) && (0 <? len crt)).
  - destruct (is_http C).
    + set (l := [ok_head _ _ _; _; _; _; _; _]) in *.
      destruct (write_all A l s) as [w r] eqn:Es.
      destruct (writes_all A l s w r Es) as [_ (err & s' & -> & _)].
      exists err, s'. rewrite mbind_assoc in H. rewrite (mbind_eq _ _ _ _ _ _ _ _ Es) in H.
      clearbody l. destruct err; rewrite mbind_ret in H; cbn in H; rewrite !app_nil_r in H; inversion H; subst; auto.
    + inversion H; subst. exists EST_ERR_NONE, s. auto.
  - destruct (rv =? 26); inversion H; subst; eexists _, _; split; auto.
Qed.

Lemma ret_inv : forall X (x : X) (s : st) (e : list event) r, ret x s = (e, r) -> e = [] /\ r = Ok (x, s).
Proof. intros * H. inversion H; auto. Qed.

(** The CSR that is used is the one in the request. *)
Lemma csr_used : forall t authz path k body s e au ro s1, auth_path O C A t authz path k body s e (Ok (au, ro, s1)) ->
  match ro with Some r => Some r | None => o_parse_csr O body end = o_parse_csr O body.
Proof. intros * H. destruct ro; auto. symmetry. eapply auth_csr; eauto. Qed.

Theorem enroll_paths : forall t authz ct body path k s e r,
  run_enroll t authz ct body path k s = (e, r) -> enroll_path t authz ct body path k s e r.
Proof.
  intros t authz ct body path k s e r H.
  destruct (match k with SERVERKEYGEN_REQ => true | _ => false end) eqn:Ek.
  - destruct k; try discriminate. unfold run_enroll, est_handle_server_keygen in H.
    destruct (a_skg A) as [f|] eqn:Ef.
    2:{ rewrite mbind_ret in H. apply ret_inv in H as [-> ->]. apply en_null. cbn. now rewrite Ef. }
    destruct (a_keygen A) as [g|] eqn:Eg.
    2:{ rewrite mbind_ret in H. apply ret_inv in H as [-> ->]. apply en_null. cbn. now rewrite Ef, Eg. }
    assert (CB : callback_set SERVERKEYGEN_REQ = true) by (cbn; now rewrite Ef, Eg).
    destruct (is_http C && negb (is_pkcs10 ct)) eqn:Ect.
    { rewrite mbind_ret in H. apply ret_inv in H as [-> ->]. apply andb_true_iff in Ect as [? ?].
      apply en_ct; auto. now apply negb_true_iff. }
    assert (CT : is_http C = true -> is_pkcs10 ct = true).
    { intro Q. rewrite Q in Ect. cbn in Ect. now apply negb_false_iff. }
    rewrite mbind_assoc in H.
    apply mbind_inv in H as [[H ->]|(ea & [au ro] & s1 & eb & H1 & H & ->)].
    { apply enroll_auth_paths in H. now apply en_auth_ub. }
    apply enroll_auth_paths in H1. cbv iota beta in H.
    assert (NO : forall err, (mbind (ret (err, [], [])) (fun x : est_error * bytes * bytes => match x with (rc, _, _) => ret rc end)) s1 = (eb, r) ->
       eb = [] /\ r = Ok (err, s1)).
    { intros err Q. rewrite mbind_ret in Q. now apply ret_inv in Q. }
    assert (G : granted au \/ exists err, eb = [] /\ r = Ok (err, s1) /\ ((au = HTTP_AUTH_PENDING /\ err = EST_ERR_AUTH_PENDING)
       \/ (au = CSR_PARSE_FAIL /\ err = EST_ERR_BAD_PKCS10) \/ (au = UNAUTHORIZED /\ err = EST_ERR_AUTH_FAIL))).
    { unfold granted. destruct au; auto; right; apply NO in H as [-> ->]; eexists; split; eauto 10. }
    destruct G as [G|(err & -> & -> & Q)]; [|rewrite app_nil_r; eapply en_auth_no; eauto].
    match type of H with mbind (match au with UNAUTHORIZED => _ | CSR_PARSE_FAIL => _ | HTTP_AUTH => ?z | _ => _ end) _ _ = _ =>
      assert (H' : mbind z (fun x => match x with (rc, _, _) => ret rc end) s1 = (eb, r))
        by (destruct G as [->|[->| ->]]; exact H) end.
    clear H. rename H' into H. rewrite (csr_used _ _ _ _ _ _ _ _ _ _ H1) in H.
    destruct (o_parse_csr O body) as [r0|] eqn:Ep.
    2:{ apply NO in H as [-> ->]. rewrite app_nil_r. eapply en_parse; eauto. }
    rewrite mbind_assoc in H.
    apply mbind_inv in H as [[H _]|(e2 & [krv ko] & s2 & e3 & H2 & H & ->)].
    { unfold call in H. destruct (g (s_env s1)); discriminate. }
    assert (e2 = [] /\ s_uid s2 = s_uid s1 /\ s_code s2 = s_code s1) as (-> & U2 & V2).
    { unfold call in H2. destruct (g (s_env s1)). inversion H2; subst. auto. }
    clear H2 NO. rewrite mbind_assoc in H.
    apply mbind_inv in H as [[H _]|(e4 & [] & s3 & e5 & H3 & H & ->)]; [discriminate|].
    inversion H3; subst e4 s3. clear H3. cbn [Datatypes.app].
    assert (NO : forall err, (mbind (ret (err, [], [])) (fun x : est_error * bytes * bytes => match x with (rc, _, _) => ret rc end)) s2 = (e5, r) ->
       e5 = [] /\ r = Ok (err, s2)).
    { intros err Q. rewrite mbind_ret in Q. now apply ret_inv in Q. }
    destruct ko as [pk|].
    2:{ apply NO in H as [-> ->]. eapply en_keygen; eauto. }
    destruct (krv =? err_code EST_ERR_NONE) eqn:Ekrv; cbn [negb] in H.
    2:{ apply NO in H as [-> ->]. eapply en_keygen; eauto. left. split; [right|auto]. cbn in Ekrv. lia. }
    assert (krv = 0) by (cbn in Ekrv; lia). subst krv.
    rewrite mbind_assoc in H.
    apply mbind_inv in H as [[H ->]|(e6 & [n blk] & s3 & e7 & H4 & H & ->)].
    { unfold lift in H. destruct (est_base64_encode _ _ _ _) eqn:Eb; [discriminate|]. inversion H; subst.
      eapply en_b64; eauto. }
    unfold lift in H4. destruct (est_base64_encode _ _ _ _) as [nb|] eqn:Eb; [|discriminate].
    cbn [bind] in H4. assert (e6 = [] /\ s3 = s2) as [-> ->] by (inversion H4; auto). clear H4.
    cbv iota beta in H.
    destruct (o_set_pubkey O r0 pk) as [r1|] eqn:Es.
    2:{ apply NO in H as [-> ->]. eapply en_keygen; eauto. right; left. split; eauto. }
    destruct (o_sign O r1 pk) as [r2|] eqn:Esg.
    2:{ apply NO in H as [-> ->]. eapply en_keygen; eauto. right; right. split; eauto 10. }
    clear NO.
    change (ea ++ EvKeygen 0 (Some pk) :: [] ++ e7) with (ea ++ [EvKeygen 0 (Some pk)] ++ e7).
    refine (tail_path t authz ct body path SERVERKEYGEN_REQ s ea au ro s1 s2 r2 _ (o_csr_body O r2) (est_error * bytes * bytes)
      _ e7 r (fun e => ret (e, [], [])) _ CB CT H1 G _ U2 V2 _ _ H).
    + exists r0, r1, pk, nb. auto 10.
    + intros x s0 e2 r3 Q. rewrite mbind_ret in Q. now apply ret_inv in Q.
    + clear H. intros uid s0 e2 r3 Q. rewrite mbind_assoc in Q.
      apply mbind_inv in Q as [[Q _]|(e8 & [[rv crt] kt] & s4 & e9 & Q1 & Q & ->)].
      { unfold call in Q. destruct (f _ _ _ _ _ _); discriminate. }
      assert (e8 = [] /\ s_uid s4 = s_uid s0 /\ s_code s4 = s_code s0) as (-> & U4 & V4).
      { unfold call in Q1. destruct (f _ _ _ _ _ _). inversion Q1; subst. auto. }
      rewrite mbind_assoc in Q.
      apply mbind_inv in Q as [[Q _]|(e10 & [] & s5 & e11 & Q2 & Q & ->)]; [discriminate|].
      inversion Q2; subst e10 s5.
      apply keygen_outcome in Q as (err & s' & Ho & ->).
      exists rv, crt, kt, s4, e11, err, s'. repeat split; auto. congruence.
  - assert (K : k <> SERVERKEYGEN_REQ) by (intros ->; discriminate).
    set (cb := match k with REENROLL_REQ => a_reenroll A | _ => a_enroll A end).
    assert (CBe : callback_set k = is_some cb) by (destruct k; reflexivity || discriminate).
    assert (H' : mbind (match cb with
        | None => ret (EST_ERR_NULL_CALLBACK, [])
        | Some f =>
          if is_http C && negb (is_pkcs10 ct) then ret (EST_ERR_BAD_CONTENT_TYPE, [])
          else mbind (est_enroll_auth O C A t authz path k body) (fun x => match x with (au, r0) =>
            match au with
            | HTTP_AUTH_PENDING => ret (EST_ERR_AUTH_PENDING, [])
            | CSR_PARSE_FAIL => ret (EST_ERR_BAD_PKCS10, [])
            | UNAUTHORIZED => ret (EST_ERR_AUTH_FAIL, [])
            | HTTP_AUTH | SRP_AUTH | CERT_AUTH =>
              match (match r0 with Some r => Some r | None => o_parse_csr O body end) with
              | None => ret (EST_ERR_BAD_PKCS10, [])
              | Some r =>
                if negb (est_server_check_csr O r) then ret (EST_ERR_BAD_PKCS10, [])
                else mbind (csr_checks O C A attrs_check t r body) (fun err =>
                  match err with
                  | EST_ERR_NONE => mbind (callback_uid C) (fun uid =>
                      mbind (call (fun e => f e body uid (t_peer t) path)) (fun y => match y with (rv, crt) =>
                      mbind (emit (EvCA k body uid (t_peer t) path rv crt [])) (fun _ =>
                        if (rv =? err_code EST_ERR_NONE) && (0 <? len crt) then
                          if is_http C then
                            mbind (send_200 A (str "application/pkcs7-mime; smime-type=certs-only") crt) (fun w => ret (w, crt))
                          else ret (EST_ERR_NONE, crt)
                        else if rv =? err_code EST_ERR_CA_ENROLL_RETRY then ret (EST_ERR_CA_ENROLL_RETRY, [])
                        else ret (EST_ERR_CA_ENROLL_FAIL, [])) end))
                  | _ => ret (err, [])
                  end)
              end
            end end)
        end) (fun x => match x with (rc, _) => ret rc end) s = (e, r))
      by (destruct k; try discriminate; exact H).
    clear H. rename H' into H.
    destruct cb as [f|].
    2:{ rewrite mbind_ret in H. apply ret_inv in H as [-> ->]. now apply en_null. }
    assert (CB : callback_set k = true) by (rewrite CBe; reflexivity).
    destruct (is_http C && negb (is_pkcs10 ct)) eqn:Ect.
    { rewrite mbind_ret in H. apply ret_inv in H as [-> ->]. apply andb_true_iff in Ect as [? ?].
      apply en_ct; auto. now apply negb_true_iff. }
    assert (CT : is_http C = true -> is_pkcs10 ct = true).
    { intro Q. rewrite Q in Ect. cbn in Ect. now apply negb_false_iff. }
    rewrite mbind_assoc in H.
    apply mbind_inv in H as [[H ->]|(ea & [au ro] & s1 & eb & H1 & H & ->)].
    { apply enroll_auth_paths in H. now apply en_auth_ub. }
    apply enroll_auth_paths in H1. cbv iota beta in H.
    assert (NO : forall err, (mbind (ret (err, [])) (fun x : est_error * bytes => match x with (rc, _) => ret rc end)) s1 = (eb, r) ->
       eb = [] /\ r = Ok (err, s1)).
    { intros err Q. rewrite mbind_ret in Q. now apply ret_inv in Q. }
    assert (G : granted au \/ exists err, eb = [] /\ r = Ok (err, s1) /\ ((au = HTTP_AUTH_PENDING /\ err = EST_ERR_AUTH_PENDING)
       \/ (au = CSR_PARSE_FAIL /\ err = EST_ERR_BAD_PKCS10) \/ (au = UNAUTHORIZED /\ err = EST_ERR_AUTH_FAIL))).
    { unfold granted. destruct au; auto; right; apply NO in H as [-> ->]; eexists; split; eauto 10. }
    destruct G as [G|(err & -> & -> & Q)]; [|rewrite app_nil_r; eapply en_auth_no; eauto].
    match type of H with mbind (match au with UNAUTHORIZED => _ | CSR_PARSE_FAIL => _ | HTTP_AUTH => ?z | _ => _ end) _ _ = _ =>
      assert (H' : mbind z (fun x => match x with (rc, _) => ret rc end) s1 = (eb, r))
        by (destruct G as [->|[->| ->]]; exact H) end.
    clear H. rename H' into H. rewrite (csr_used _ _ _ _ _ _ _ _ _ _ H1) in H.
    destruct (o_parse_csr O body) as [r0|] eqn:Ep.
    2:{ apply NO in H as [-> ->]. rewrite app_nil_r. eapply en_parse; eauto. }
    clear NO.
    refine (tail_path t authz ct body path k s ea au ro s1 s1 r0 [] body (est_error * bytes)
      _ eb r (fun e => ret (e, [])) _ CB CT H1 G _ eq_refl eq_refl _ _ H).
    + destruct k; [..|contradiction]; repeat split; auto.
    + intros x s0 e2 r3 Q. rewrite mbind_ret in Q. now apply ret_inv in Q.
    + clear H. intros uid s0 e2 r3 Q. rewrite mbind_assoc in Q.
      apply mbind_inv in Q as [[Q _]|(e8 & [rv crt] & s4 & e9 & Q1 & Q & ->)].
      { unfold call in Q. destruct (f _ _ _ _ _); discriminate. }
      assert (e8 = [] /\ s_uid s4 = s_uid s0 /\ s_code s4 = s_code s0) as (-> & U4 & V4).
      { unfold call in Q1. destruct (f _ _ _ _ _). inversion Q1; subst. auto. }
      rewrite mbind_assoc in Q.
      apply mbind_inv in Q as [[Q _]|(e10 & [] & s5 & e11 & Q2 & Q & ->)]; [discriminate|].
      inversion Q2; subst e10 s5.
      apply simple_outcome with (k := k) (kt := []) in Q as (err & s' & Ho & ->); auto.
      exists rv, crt, [], s4, e11, err, s'. repeat split; auto.
Qed.
End P.
