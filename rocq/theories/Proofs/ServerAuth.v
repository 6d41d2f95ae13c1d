(** Structure of the events of the server's functions. *)
From Coq Require Import String ZArith List Bool Lia ZifyBool ZifyNat.
From Verif Require Import Base Spec.Http Spec.Server Model.CLib Model.EstErr Model.HttpServer Model.Uri
  Model.AuthHdr Model.Server Proofs.AuthHdr.
Import ListNotations.
Open Scope Z_scope.

Section P.
Context {cert csr key E : Type}.
Variable O : @ossl cert csr key.
Variable C : @config cert.
Variable A : @app cert key E.
Variable keep : Z -> bool.

Notation event := (@event cert key).
Notation st := (@st E).

Local Notation "x <~ m ;; f" := (mbind m (fun x => f)) (at level 61, m at next level, right associativity).
Local Notation "' p <~ m ;; f" := (mbind m (fun x => match x with p => f end))
  (at level 61, p pattern, m at next level, right associativity).
Local Notation "m >> f" := (mbind m (fun _ => f)) (at level 61, f at level 61, right associativity).

Lemma mbind_inv : forall X Y (m : @M cert key E X) (f : X -> @M cert key E Y) s e r, mbind m f s = (e, r) ->
  (m s = (e, UB) /\ r = UB)
  \/ exists e1 x s1 e2, m s = (e1, Ok (x, s1)) /\ f x s1 = (e2, r) /\ e = e1 ++ e2.
Proof.
  intros X Y m f s e r H. unfold mbind in H. destruct (m s) as [e1 [[x s1]|]] eqn:Em.
  - right. destruct (f x s1) as [e2 r2] eqn:Ef. inversion H; subst. exists e1, x, s1, e2. auto.
  - left. now inversion H.
Qed.

(** ** Functions that only write *)
Definition writes {X} (m : @M cert key E X) : Prop := forall s e r, m s = (e, r) ->
  Forall is_write e /\ exists x s', r = Ok (x, s') /\ s_uid s' = s_uid s.

Lemma writes_ret : forall X (x : X), writes (ret x).
Proof. intros X x s e r H. inversion H; subst. split; [constructor|]. now exists x, s. Qed.
Lemma writes_bind : forall X Y (m : @M cert key E X) (f : X -> @M cert key E Y),
  writes m -> (forall x, writes (f x)) -> writes (mbind m f).
Proof.
  intros X Y m f Hm Hf s e r H. apply mbind_inv in H as [[H _]|(e1 & x & s1 & e2 & H1 & H2 & ->)].
  - apply Hm in H as [_ (? & ? & ? & _)]. discriminate.
  - apply Hm in H1 as [F1 (x' & s' & Eq & U)]. inversion Eq; subst.
    apply Hf in H2 as [F2 (y & s2 & -> & U2)]. split; [now apply Forall_app|].
    exists y, s2. split; [reflexivity|congruence].
Qed.
Lemma writes_set_code : forall c, writes (set_code c).
Proof. intros c s e r H. inversion H; subst. split; [constructor|]. now eexists _, _. Qed.
Lemma writes_mg_write : forall d, writes (mg_write A d).
Proof.
  intros d s e r H. unfold mg_write, mbind, call, emit, ret in H.
  destruct (a_write A (s_env s) d) as [e' ok]. inversion H; subst. split.
  - repeat constructor. now eexists _, _.
  - now eexists _, _.
Qed.
Create HintDb wr.
Hint Resolve writes_ret writes_bind writes_set_code writes_mg_write : wr.

Lemma writes_error0 : forall st r t, writes (mg_send_http_error A keep st r t).
Proof.
  intros. unfold mg_send_http_error. apply writes_bind; auto with wr. intro. apply writes_bind; auto with wr.
  intro. destruct (if (199 <? st) && negb (st =? 204) && negb (st =? 304) then _ else _); auto with wr.
Qed.
Hint Resolve writes_error0 : wr.
Lemma writes_retry : forall d, writes (send_http_retry_after A d).
Proof. intros. unfold send_http_retry_after. auto 10 with wr. Qed.
Hint Resolve writes_retry : wr.
Lemma writes_error : forall d e, writes (est_send_http_error A keep d e).
Proof.
  intros. unfold est_send_http_error.
  destruct (match e with EST_ERR_CA_ENROLL_RETRY => true | _ => false end) eqn:Ee.
  - destruct e; try discriminate. apply writes_bind; auto with wr. intro x.
    destruct (match x with EST_ERR_NONE => true | _ => false end) eqn:Ex.
    + destruct x; try discriminate. auto with wr.
    + destruct x; try discriminate; destruct (error_reply EST_ERR_UNKNOWN) as [[? ?] ?]; auto with wr.
  - destruct e; try discriminate; destruct (error_reply _) as [[? ?] ?]; auto with wr.
Qed.
Hint Resolve writes_error : wr.
Lemma writes_200 : forall ct b, writes (send_200 A ct b).
Proof. intros. unfold send_200. apply writes_bind; auto with wr. intros [|]; cbn; auto with wr. Qed.
Lemma writes_all : forall l, writes (write_all A l).
Proof. induction l; cbn; auto with wr. apply writes_bind; auto with wr. intros [|]; auto with wr. Qed.
Lemma writes_challenge : writes (mg_send_authorization_request C A).
Proof.
  unfold mg_send_authorization_request. apply writes_bind; auto with wr. intro.
  destruct (c_auth_mode C); auto with wr.
  intros s e r H. apply mbind_inv in H as [[H _]|(e1 & y & s1 & e2 & H1 & H2 & ->)]; [discriminate|].
  inversion H1; subst. cbn [Datatypes.app]. revert H2. apply (writes_bind _ _ _ _ (writes_mg_write _)); auto with wr.
Qed.
Hint Resolve writes_200 writes_all writes_challenge : wr.

(** ** Every path through the authentication of an enrollment request *)
Definition tls_state (t : @tls cert) : auth_state :=
  match t_peer t with Some _ => CERT_AUTH | None => if is_some (t_srp t) then SRP_AUTH else UNAUTHORIZED end.
Definition not_rejected (t : @tls cert) : Prop := t_peer t <> None -> t_verify t = 0 \/ t_verify t = 3.
Definition res_ev k pr rv : list event :=
  if c_ev_auth C then [EvAuthResult k (match pr with HDR_GOOD => true | _ => false end) rv] else [].

(** How the outcome follows from the verdict on the credentials. *)
Definition refused_state (k : enroll_kind) (rv : auth_state) (pr : hdr_result) : auth_state :=
  match pr with
  | ECA_CSR_PARSE_FAIL => CSR_PARSE_FAIL
  | HDR_BAD => if kind_nonzero k && auth_state_eqb rv CERT_AUTH then rv else UNAUTHORIZED
  | _ => UNAUTHORIZED
  end.

Inductive auth_path (t : @tls cert) (authz path : option bytes) (k : enroll_kind) (body : bytes) (s : st)
  : list event -> res (auth_state * option csr * st) -> Prop :=
| ap_rejected : ~ not_rejected t ->
    auth_path t authz path k body s (res_ev k ECA_ERR UNAUTHORIZED) (Ok (UNAUTHORIZED, None, s))
| ap_tls : c_transport C = EST_HTTP -> not_rejected t ->
    a_http_auth A = None \/ tls_state t <> UNAUTHORIZED /\ c_http_required C = false ->
    auth_path t authz path k body s (res_ev k ECA_ERR (tls_state t)) (Ok (tls_state t, None, s))
| ap_eca_good : forall c a ro s' ok e', not_rejected t -> t_peer t = Some c -> c_eca C = true ->
    (c_transport C = EST_HTTP -> c_http_required C = true) ->
    handle_eca O C t c body (c_eca_csr_check C) est_create_ah = (HDR_GOOD, a, ro) ->
    s_uid s' = s_uid s -> a_http_auth A <> None ->
    e' = res_ev k HDR_GOOD (if (ok : bool) then HTTP_AUTH else UNAUTHORIZED) ->
    auth_path t authz path k body s (EvHttpAuth a (t_peer t) path ok :: e')
      (Ok (if ok then HTTP_AUTH else UNAUTHORIZED, ro, s'))
| ap_eca_null : forall c a ro, not_rejected t -> t_peer t = Some c -> c_eca C = true ->
    c_transport C = EST_COAP -> a_http_auth A = None ->
    handle_eca O C t c body (c_eca_csr_check C) est_create_ah = (HDR_GOOD, a, ro) ->
    auth_path t authz path k body s [] UB
| ap_eca_refused : forall c pr a ro au, not_rejected t -> t_peer t = Some c -> c_eca C = true ->
    (c_transport C = EST_HTTP -> a_http_auth A <> None /\ c_http_required C = true) ->
    handle_eca O C t c body (c_eca_csr_check C) est_create_ah = (pr, a, ro) -> pr <> HDR_GOOD ->
    au = match c_transport C with
         | EST_HTTP => refused_state k CERT_AUTH pr
         | EST_COAP => match pr with ECA_CSR_PARSE_FAIL => CSR_PARSE_FAIL | _ => UNAUTHORIZED end end ->
    auth_path t authz path k body s (res_ev k pr au) (Ok (au, ro, s))
| ap_hdr_ub : c_transport C = EST_HTTP -> not_rejected t -> a_http_auth A <> None ->
    tls_state t = UNAUTHORIZED \/ c_http_required C = true ->
    mg_parse_auth_header (o_bio O) (c_auth_mode C) authz est_create_ah (s_uid s) = UB ->
    auth_path t authz path k body s [] UB
| ap_hdr_good : forall a s' ok, c_transport C = EST_HTTP -> not_rejected t -> a_http_auth A <> None ->
    tls_state t = UNAUTHORIZED \/ c_http_required C = true ->
    (c_eca C = true -> t_peer t = None) ->
    mg_parse_auth_header (o_bio O) (c_auth_mode C) authz est_create_ah (s_uid s) = Ok (HDR_GOOD, a, s_uid s') ->
    auth_path t authz path k body s
      (EvHttpAuth a (t_peer t) path ok :: res_ev k HDR_GOOD (if (ok : bool) then HTTP_AUTH else UNAUTHORIZED))
      (Ok (if ok then HTTP_AUTH else UNAUTHORIZED, None, s'))
| ap_hdr_missing : forall a s' w, c_transport C = EST_HTTP -> not_rejected t -> a_http_auth A <> None ->
    tls_state t = UNAUTHORIZED \/ c_http_required C = true ->
    (c_eca C = true -> t_peer t = None) ->
    mg_parse_auth_header (o_bio O) (c_auth_mode C) authz est_create_ah (s_uid s) = Ok (HDR_MISSING, a, s_uid s') ->
    mg_send_authorization_request C A {| s_env := s_env s; s_uid := s_uid s'; s_code := s_code s |} = (w, Ok (tt, s')) ->
    auth_path t authz path k body s (w ++ res_ev k HDR_MISSING HTTP_AUTH_PENDING) (Ok (HTTP_AUTH_PENDING, None, s'))
| ap_hdr_bad : forall pr a s' au, c_transport C = EST_HTTP -> not_rejected t -> a_http_auth A <> None ->
    tls_state t = UNAUTHORIZED \/ c_http_required C = true ->
    (c_eca C = true -> t_peer t = None) ->
    mg_parse_auth_header (o_bio O) (c_auth_mode C) authz est_create_ah (s_uid s) = Ok (pr, a, s_uid s') ->
    pr <> HDR_GOOD -> pr <> HDR_MISSING -> au = refused_state k (tls_state t) pr ->
    s_env s' = s_env s -> s_code s' = s_code s ->
    auth_path t authz path k body s (res_ev k pr au) (Ok (au, None, s'))
| ap_coap_plain : c_transport C = EST_COAP -> not_rejected t -> t_peer t <> None -> c_eca C = false ->
    auth_path t authz path k body s (res_ev k ECA_ERR CERT_AUTH) (Ok (CERT_AUTH, None, s))
| ap_coap_none : forall au, c_transport C = EST_COAP -> not_rejected t ->
    (t_peer t = None /\ au = UNAUTHORIZED \/ c_eca C = true /\ len body <= 0 /\ au = CSR_PARSE_FAIL) ->
    auth_path t authz path k body s (res_ev k ECA_ERR au) (Ok (au, None, s)).

Lemma run_result_event : forall X k pr rv (x : X) (s : st),
  mbind (auth_result_event C k pr rv) (fun _ => ret x) s = (res_ev k pr rv, Ok (x, s)).
Proof. intros. unfold auth_result_event, emit_if, res_ev. destruct (c_ev_auth C); reflexivity. Qed.

Lemma handle_eca_not_missing : forall t c body b a a' ro,
  handle_eca O C t c body b a <> (HDR_MISSING, a', ro).
Proof.
  intros t c body b a a' ro. unfold handle_eca.
  destruct (negb (t_chain t)); [discriminate|].
  destruct (est_enhcd_cert_auth_get_mfg C c) as [err idx].
  destruct (err_eqb err EST_ERR_NONE || err_eqb err EST_ERR_VALIDATION); [|discriminate].
  assert (B : forall n r, (let '(h, a0) := build_eca_header O C a c n in (h, a0, r)) <> (HDR_MISSING, a', ro)).
  { intros n r. unfold build_eca_header. destruct (field_str _); discriminate. }
  destruct b; [|apply B].
  destruct (o_parse_csr O body); [|discriminate].
  unfold perform_csr_check. destruct (c_mfgs C) as [l|]; [|discriminate].
  destruct (0 <=? idx).
  - destruct (nth_error l (Z.to_nat idx)) as [m|]; [|discriminate].
    destruct (field_str (o_cert_field O c (m_nid m))) as [x|]; [|discriminate].
    destruct (field_str (o_csr_field O c0 (m_nid m))) as [y|]; [|discriminate].
    destruct (cmp_fields x y); try discriminate. apply B.
  - destruct (local_loop O l c c0 false); [discriminate|apply B].
Qed.

Lemma mbind_eq : forall X Y (m : @M cert key E X) (f : X -> @M cert key E Y) s e1 x s1,
  m s = (e1, Ok (x, s1)) -> mbind m f s = let '(e2, r) := f x s1 in (e1 ++ e2, r).
Proof. intros. unfold mbind. now rewrite H. Qed.
Lemma mbind_ub : forall X Y (m : @M cert key E X) (f : X -> @M cert key E Y) s e1,
  m s = (e1, UB) -> mbind m f s = (e1, UB).
Proof. intros. unfold mbind. now rewrite H. Qed.

Lemma mbind_ret : forall X Y (x : X) (f : X -> @M cert key E Y) s, mbind (ret x) f s = f x s.
Proof. intros. unfold mbind, ret. destruct (f x s). reflexivity. Qed.

Lemma run_cb : forall a peer path (s : st), a_http_auth A <> None ->
  exists ok s', s_uid s' = s_uid s /\ s_code s' = s_code s /\
    http_auth_cb A a peer path s = ([EvHttpAuth a peer path ok], Ok (ok, s')).
Proof.
  intros a peer path s H. unfold http_auth_cb. destruct (a_http_auth A) as [f|]; [|contradiction].
  unfold mbind, call, emit, ret. destruct (f (s_env s) a peer path) as [e ok]. 
  exists ok, {| s_env := e; s_uid := s_uid s; s_code := s_code s |}. repeat split.
Qed.

Theorem enroll_auth_paths : forall t authz path k body s e r,
  est_enroll_auth O C A t authz path k body s = (e, r) -> auth_path t authz path k body s e r.
Proof.
  intros t authz path k body s e r H. unfold est_enroll_auth in H.
  destruct (check_tls t) as [[cont peer] rv0] eqn:Ht. unfold check_tls in Ht.
  assert (HP : (cont = false /\ rv0 = UNAUTHORIZED /\ ~ not_rejected t)
             \/ (cont = true /\ not_rejected t /\ peer = t_peer t
                 /\ (if negb (auth_state_eqb rv0 CERT_AUTH) && is_some (t_srp t) then SRP_AUTH else rv0) = tls_state t)).
  { unfold not_rejected, tls_state. destruct (t_peer t) as [c|] eqn:Ep.
    - destruct (t_verify t =? 0) eqn:E0; [|destruct (t_verify t =? 3) eqn:E3];
      cbn [orb] in Ht; inversion Ht; subst.
      + right. repeat split; auto. intros _. lia.
      + right. repeat split; auto. intros _. lia.
      + left. repeat split. intro F. assert (Some c <> None) by discriminate. specialize (F H0). lia.
    - inversion Ht; subst. right. repeat split. intro F; congruence. }
  destruct HP as [(-> & -> & NR)|(-> & NR & -> & Erv)]; cbn [negb] in H.
  { rewrite run_result_event in H. inversion H; subst. now apply ap_rejected. }
  rewrite Erv in H. clear Erv Ht rv0.
  destruct (c_transport C) eqn:Etr.
  - destruct (is_some (a_http_auth A) && (auth_state_eqb (tls_state t) UNAUTHORIZED || c_http_required C)) eqn:Eat.
    2:{ rewrite run_result_event in H. inversion H; subst. apply ap_tls; auto.
        destruct (a_http_auth A); [right|now left]. cbn in Eat.
        destruct (tls_state t), (c_http_required C); try discriminate; split; congruence. }
    apply andb_true_iff in Eat as [Ea Ea2].
    assert (Cb : a_http_auth A <> None) by (destruct (a_http_auth A); discriminate).
    assert (Try : tls_state t = UNAUTHORIZED \/ c_http_required C = true).
    { destruct (tls_state t), (c_http_required C); auto. }
    clear Ea Ea2.
    destruct (c_eca C && auth_state_eqb (tls_state t) CERT_AUTH) eqn:Eeca.
    + apply andb_true_iff in Eeca as [Ee Ec].
      destruct (t_peer t) as [c|] eqn:Ep.
      2:{ unfold tls_state in Ec. rewrite Ep in Ec. destruct (is_some (t_srp t)); discriminate. }
      assert (Ets : tls_state t = CERT_AUTH) by (unfold tls_state; now rewrite Ep).
      assert (Rq : c_http_required C = true) by (destruct Try; congruence).
      destruct (handle_eca O C t c body (c_eca_csr_check C) est_create_ah) as [[pr a] ro] eqn:Eh.
      cbv iota beta in H. rewrite mbind_ret in H. cbv iota beta in H.
      destruct pr.
      * match type of H with context [mbind ?m ?f ?s0] =>
          destruct (run_cb a (Some c) path s0 Cb) as (ok & s' & U & _ & R);
          rewrite (mbind_eq _ _ m f s0 [EvHttpAuth a (Some c) path ok] (if ok then HTTP_AUTH else UNAUTHORIZED) s')
            in H by (rewrite (mbind_eq _ _ _ _ _ _ _ _ R); reflexivity)
        end.
        rewrite run_result_event in H. inversion H; subst. rewrite <- Ep.
        eapply ap_eca_good; eauto.
      * exfalso. exact (handle_eca_not_missing _ _ _ _ _ _ _ Eh).
      * rewrite mbind_ret in H. cbv iota beta in H. rewrite run_result_event in H. inversion H; subst.
        eapply ap_eca_refused; eauto; [discriminate|]. now rewrite Etr, Ets.
      * rewrite mbind_ret in H. cbv iota beta in H. rewrite run_result_event in H. inversion H; subst.
        eapply ap_eca_refused; eauto; [discriminate|]. now rewrite Etr.
      * rewrite mbind_ret in H. cbv iota beta in H. rewrite run_result_event in H. inversion H; subst.
        eapply ap_eca_refused; eauto; [discriminate|]. now rewrite Etr.
      * rewrite mbind_ret in H. cbv iota beta in H. rewrite run_result_event in H. inversion H; subst.
        eapply ap_eca_refused; eauto; [discriminate|]. now rewrite Etr.
    + assert (Ne : c_eca C = true -> t_peer t = None).
      { intro F. rewrite F in Eeca. unfold tls_state in Eeca. destruct (t_peer t); [discriminate|reflexivity]. }
      set (PA := (' (pr, a) <~ parse_auth O C authz;; ret (pr, a, @None csr))) in H.
      assert (HPA : (match t_peer t with Some c => PA | None => PA end) = PA) by (destruct (t_peer t); reflexivity).
      assert (EPA : PA s = match mg_parse_auth_header (o_bio O) (c_auth_mode C) authz est_create_ah (s_uid s) with
                           | UB => ([], UB)
                           | Ok (h, a, u') => ([], Ok (h, a, None, {| s_env := s_env s; s_uid := u'; s_code := s_code s |}))
                           end).
      { unfold PA, parse_auth, get_uid, mbind, lift, set_uid, ret.
        destruct (mg_parse_auth_header _ _ _ _ _) as [[[h a] u']|]; reflexivity. }
      assert (H' : mbind PA (fun x => match x with (pr, a, ro) =>
                 rv' <~ match pr with
                        | HDR_GOOD => ok <~ http_auth_cb A a (t_peer t) path ;; ret (if ok then HTTP_AUTH else UNAUTHORIZED)
                        | HDR_MISSING => mg_send_authorization_request C A >> ret HTTP_AUTH_PENDING
                        | ECA_CSR_CHECK_FAIL => ret UNAUTHORIZED
                        | ECA_CSR_PARSE_FAIL => ret CSR_PARSE_FAIL
                        | ECA_ERR => ret UNAUTHORIZED
                        | HDR_BAD => ret (if kind_nonzero k && auth_state_eqb (tls_state t) CERT_AUTH then tls_state t else UNAUTHORIZED)
                        end ;;
                 auth_result_event C k pr rv' >> ret (rv', ro) end) s = (e, r)).
      { destruct (t_peer t); exact H. }
      clear H. rename H' into H. clearbody PA.
      destruct (mg_parse_auth_header (o_bio O) (c_auth_mode C) authz est_create_ah (s_uid s)) as [[[pr a] u']|] eqn:Em.
      2:{ rewrite (mbind_ub _ _ _ _ _ _ EPA) in H. inversion H; subst. now apply ap_hdr_ub. }
      rewrite (mbind_eq _ _ _ _ _ _ _ _ EPA) in H. clear EPA HPA.
      set (s1 := {| s_env := s_env s; s_uid := u'; s_code := s_code s |}) in H.
      assert (Bad : pr <> HDR_GOOD -> pr <> HDR_MISSING ->
                    (let '(e2, r0) := (rv' <~ ret (refused_state k (tls_state t) pr) ;;
                       auth_result_event C k pr rv' >> ret (rv', @None csr)) s1 in ([] ++ e2, r0)) = (e, r) ->
                    auth_path t authz path k body s e r).
      { intros N1 N2 H'. rewrite mbind_ret in H'. cbv iota beta in H'. rewrite run_result_event in H'. cbn in H'.
        inversion H'; subst. eapply (ap_hdr_bad _ _ _ _ _ _ pr a s1); eauto. }
      destruct pr; try (apply Bad; [discriminate|discriminate|exact H]).
      * destruct (run_cb a (t_peer t) path s1 Cb) as (ok & s' & U & _ & R).
        match type of H with context [mbind ?m ?f s1] =>
          rewrite (mbind_eq _ _ m f s1 [EvHttpAuth a (t_peer t) path ok] (if ok then HTTP_AUTH else UNAUTHORIZED) s')
            in H by (rewrite (mbind_eq _ _ _ _ _ _ _ _ R); reflexivity)
        end.
        rewrite run_result_event in H. cbn in H. inversion H; subst.
        apply ap_hdr_good; auto. now rewrite U.
      * destruct (mg_send_authorization_request C A s1) as [w r1] eqn:Ew.
        destruct (writes_challenge s1 w r1 Ew) as [_ ([] & s' & -> & U)].
        match type of H with context [mbind ?m ?f s1] =>
          rewrite (mbind_eq _ _ m f s1 w HTTP_AUTH_PENDING s')
            in H by (rewrite (mbind_eq _ _ _ _ _ _ _ _ Ew); cbn; now rewrite app_nil_r)
        end.
        rewrite run_result_event in H. cbn in H. inversion H; subst.
        cbn [s_uid s1] in U. subst u'.
        eapply ap_hdr_missing; eauto.
  - destruct (t_peer t) as [c|] eqn:Ep.
    + assert (Ets : tls_state t = CERT_AUTH) by (unfold tls_state; now rewrite Ep).
      rewrite Ets in H. cbn [auth_state_eqb] in H.
      destruct (c_eca C) eqn:Ee; cbn [negb] in H.
      2:{ rewrite run_result_event in H. inversion H; subst. apply ap_coap_plain; auto. congruence. }
      destruct (len body <=? 0) eqn:El.
      { rewrite run_result_event in H. inversion H; subst. apply ap_coap_none; auto.
        right. split; [auto|]. split; [lia|reflexivity]. }
      destruct (handle_eca O C t c body (c_eca_csr_check C) est_create_ah) as [[pr a] ro] eqn:Eh.
      destruct (match pr with HDR_GOOD => true | _ => false end) eqn:Egood.
      * destruct pr; try discriminate.
        destruct (a_http_auth A) as [f|] eqn:Ecb.
        -- assert (Cb : a_http_auth A <> None) by congruence.
           match type of H with context [mbind ?m ?f ?s0] =>
             destruct (run_cb a (Some c) path s0 Cb) as (ok & s' & U & _ & R);
             rewrite (mbind_eq _ _ m f s0 [EvHttpAuth a (Some c) path ok] (if ok then HTTP_AUTH else UNAUTHORIZED) s')
               in H by (rewrite (mbind_eq _ _ _ _ _ _ _ _ R); reflexivity)
           end.
           rewrite run_result_event in H. inversion H; subst. rewrite <- Ep.
           eapply ap_eca_good; eauto. congruence.
        -- unfold http_auth_cb in H. rewrite Ecb in H. cbn in H. inversion H; subst.
           eapply ap_eca_null; eauto.
      * assert (G : pr <> HDR_GOOD) by (intros ->; discriminate).
        assert (H' : (rv' <~ ret (match pr with ECA_CSR_PARSE_FAIL => CSR_PARSE_FAIL | _ => UNAUTHORIZED end) ;;
                      auth_result_event C k pr rv' >> ret (rv', ro)) s = (e, r)).
        { destruct pr; try discriminate; exact H. }
        rewrite mbind_ret in H'. cbv iota beta in H'. rewrite run_result_event in H'. cbn in H'. inversion H'; subst.
        eapply ap_eca_refused; eauto; [congruence|]. now rewrite Etr.
    + rewrite run_result_event in H. inversion H; subst. apply ap_coap_none; auto.
Qed.
End P.
