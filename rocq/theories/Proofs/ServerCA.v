(** What holds when the CA callback is invoked. *)
From Coq Require Import String ZArith List Bool Lia ZifyBool ZifyNat.
From Verif Require Import Base Spec.Http Spec.Server Model.CLib Model.Codec Model.EstErr Model.HttpServer Model.Uri
  Model.AuthHdr Model.Server Proofs.AuthHdr Proofs.ServerAuth Proofs.ServerEnroll Proofs.ServerRequest Proofs.ServerProps.
Import ListNotations.
Open Scope Z_scope.

(** ** The user name in a parsed Authorization header *)
Definition user_ok (a : auth_hdr) : Prop := forall u, ah_user a = Some u -> no_nul u /\ len u <= 255.

Lemma no_nul_firstn : forall n s, no_nul s -> no_nul (firstn n s).
Proof. intros n s H I. apply H. rewrite <- (firstn_skipn n s). apply in_or_app. now left. Qed.
Lemma strndup_ok : forall s n, no_nul s -> 0 <= n -> no_nul (strndup s n) /\ len (strndup s n) <= n.
Proof. intros s n H N. unfold strndup. split; [now apply no_nul_firstn|]. rewrite len_firstn. lia. Qed.

Lemma user_ok_with : forall a w, no_nul w -> len w <= 255 -> user_ok (with_user a w).
Proof. intros a w H L u Q. cbn in Q. inversion Q; subst. auto. Qed.
Lemma user_ok_set : forall a v, no_nul v -> user_ok (with_user a (strndup v 255)).
Proof. intros a v H. destruct (strndup_ok v 255 H ltac:(lia)). now apply user_ok_with. Qed.

Ltac inv_bind H :=
  match type of H with bind ?m _ = Ok _ => let Q := fresh "Q" in destruct m eqn:Q; [cbn [bind] in H|discriminate] end.

Lemma cstr_at_no_nul : forall m i s, cstr_at m i = Ok s -> no_nul s.
Proof. intros m i s H. rewrite cstr_at_len in H. destruct (_ && _); [|discriminate]. now apply cstr_inv in H as [? _]. Qed.

Lemma digest_loop_user : forall f m s a a', user_ok a -> digest_loop f m s a = Ok a' -> user_ok a'.
Proof.
  induction f as [|f IH]; intros m s a a' U H; [discriminate|]. cbn [digest_loop] in H.
  repeat match type of H with
  | bind (cstr_at _ _) _ = _ => let v := fresh "v" in let N := fresh "N" in
      destruct (cstr_at _ _) as [v|] eqn:N; [cbn [bind] in H; apply cstr_at_no_nul in N|discriminate]
  | bind ?m _ = _ => let v := fresh "v" in destruct m as [v|] in H; [cbn [bind] in H|discriminate]
  | (let '(_, _) := ?p in _) = _ => destruct p
  | (if ?b =? 0 then Ok _ else _) = _ => destruct (b =? 0); [inversion H; now subst|]
  | (if ?b then _ else _) = _ => destruct b; [eapply IH; [|exact H]; first [apply user_ok_set; assumption|exact U]|]
  | digest_loop _ _ _ _ = _ => eapply IH; [|exact H]; exact U
  end.
Qed.

Lemma no_nul_before : forall c s, no_nul s -> no_nul (before_char c s).
Proof.
  intros c s H I. apply H. unfold before_char in I. revert I. clear. induction s as [|x s IH]; cbn; [tauto|].
  destruct (negb (x =? c)); cbn; tauto.
Qed.

Lemma header_user : forall bio cfg authz uid a u',
  mg_parse_auth_header bio cfg authz est_create_ah uid = Ok (HDR_GOOD, a, u') ->
  (ah_mode a = AUTH_TOKEN /\ u' = uid)
  \/ (ah_mode a <> AUTH_TOKEN /\ exists u, ah_user a = Some u /\ no_nul u /\ len u <= 255 /\ u' = strncpy_img u 256).
Proof.
  intros bio cfg authz uid a u' H. unfold mg_parse_auth_header in H. destruct authz as [h|]; [|discriminate].
  assert (FIN : forall a', user_ok a' ->
    (if mode_eqb (ah_mode a') AUTH_DIGEST
         && negb (is_some (ah_uri a') && is_some (ah_nonce a') && is_some (ah_nc a') && is_some (ah_cnonce a'))
      then Ok (HDR_BAD, a', uid)
      else if mode_eqb (ah_mode a') AUTH_TOKEN then Ok (HDR_GOOD, a', uid)
      else match ah_user a' with
           | None => Ok (HDR_BAD, a', uid)
           | Some u => Ok (HDR_GOOD, a', strncpy_img u 256)
           end) = Ok (HDR_GOOD, a, u') ->
    (ah_mode a = AUTH_TOKEN /\ u' = uid)
    \/ (ah_mode a <> AUTH_TOKEN /\ exists u, ah_user a = Some u /\ no_nul u /\ len u <= 255 /\ u' = strncpy_img u 256)).
  { intros a' U Q. destruct (_ && _); [discriminate|].
    destruct (mode_eqb (ah_mode a') AUTH_TOKEN) eqn:Em.
    - left. assert (a' = a /\ uid = u') as [-> ->] by (injection Q; auto). split; auto. destruct (ah_mode a); auto; discriminate.
    - destruct (ah_user a') as [u|] eqn:Eu; [|discriminate]. right.
      assert (a' = a /\ strncpy_img u 256 = u') as [-> <-] by (injection Q; auto).
      split; [intro R; rewrite R in Em; discriminate|]. exists u. destruct (U u Eu). auto. }
  assert (U0 : user_ok est_create_ah) by (intros u Q; discriminate).
  destruct (strncaseeq 7 h (str "Digest ")).
  { destruct (negb _); [discriminate|]. inv_bind H. eapply FIN; [|exact H].
    unfold mg_parse_auth_hdr_digest in Q. eapply digest_loop_user; [|exact Q]. exact U0. }
  destruct (strncaseeq 6 h (str "Basic ")).
  { destruct (negb _); [discriminate|]. inv_bind H. eapply FIN; [|exact H].
    unfold mg_parse_auth_hdr_basic in Q.
    destruct (est_base64_decode bio true _ 512) as [[n d]|]; [cbn [bind] in Q|discriminate].
    destruct (_ || _); [inversion Q; subst; exact U0|].
    inv_bind Q. destruct (cstr _) as [bs|] eqn:N in Q; [cbn [bind] in Q|discriminate]. apply cstr_inv in N as [N _].
    destruct (negb _); [inversion Q; subst; exact U0|].
    destruct (before_char 58 bs) as [|x l] eqn:Eb.
    - destruct (1 <? n); inversion Q; subst; exact U0.
    - assert (Nu : no_nul (x :: l)) by (rewrite <- Eb; now apply no_nul_before).
      destruct (strndup_ok (x :: l) 255 Nu ltac:(lia)) as [N1 N2].
      set (w := strndup (x :: l) 255) in *. clearbody w. clear Eb Nu.
      set (w2 := strndup _ 255) in Q. clearbody w2. injection Q as <-. intros u Qu. cbn in Qu. inversion Qu; now subst. }
  destruct (strncaseeq 7 h (str "Bearer ")); [|discriminate].
  destruct (negb _); [discriminate|]. inv_bind H. eapply FIN; [|exact H].
  unfold mg_parse_auth_hdr_token in Q.
  destruct (est_base64_decode bio true _ 1024) as [[n d]|]; [cbn [bind] in Q|discriminate].
  destruct (_ || _); [inversion Q; subst; exact U0|].
  inv_bind Q. inv_bind Q. set (w := strndup _ 512) in Q. clearbody w. destruct (drop_while isspace (skipn 6 h)); inversion Q; subst; exact U0.
Qed.

Lemma uid_cstr : forall u, no_nul u -> len u <= 255 -> cstr (strncpy_img u 256) = Ok u.
Proof. intros u N L. rewrite strncpy_fits by lia. now apply cstr_app_nul. Qed.

Section P.
Context {cert csr key E : Type}.
Variable O : @ossl cert csr key.
Variable C : @config cert.
Variable A : @app cert key E.
Variable parse_uri : bytes -> res (est_error * option operation * option bytes).
Variable attrs_parse : bytes -> res (est_error * bool).
Variable attrs_add_pop : bytes -> res (est_error * bytes).
Variable attrs_check : option (option bytes) -> bytes -> res est_error.
Variable keep : Z -> bool.

Notation event := (@event cert key).
Notation st := (@st E).
Notation request := (est_http_request O C A parse_uri attrs_parse attrs_add_pop attrs_check keep).
Implicit Types (t : @tls cert) (e : list event) (s : st).

Ltac nonca := let Q := fresh in intros (? & ? & ? & ? & ? & ? & ? & ? & Q); discriminate Q.
Lemma prepared_nonca : forall k body mid r b, prepared O k body mid r b -> Forall (fun x => ~ is_ca x) mid.
Proof.
  intros k body mid r b H. destruct k; cbn in H.
  - destruct H as (-> & _). constructor.
  - destruct H as (-> & _). constructor.
  - destruct H as (? & ? & ? & ? & -> & _). constructor; [|constructor]. intros (? & ? & ? & ? & ? & ? & ? & ? & Q); discriminate.
Qed.

Theorem ca_call : forall t method uri body ct authz s e r pre k b uid peer path rv crt kt post,
  request t method uri body ct authz s = (e, r) -> e = pre ++ EvCA k b uid peer path rv crt kt :: post ->
  exists o c ea au ro s1 mid ec rq,
    parse_uri uri = Ok (EST_ERR_NONE, Some o, path) /\ enrolls o = true /\ k = kind_of o /\ method_fits o method = true
    /\ ct = Some c /\ (is_http C = true -> is_pkcs10 c = true) /\ peer = t_peer t
    /\ pre = start_ev C uri ++ req_ev O C o body ++ ea ++ mid ++ ec
    /\ auth_path O C A t authz path k body s ea (Ok (au, ro, s1)) /\ granted au
    /\ prepared O k body mid rq b /\ good_csr O rq /\ passes O C t rq /\ attrs_present C A attrs_check ec b
    /\ ((is_http C = true /\ exists u, cstr (s_uid s1) = Ok u /\ uid = Some u) \/ (is_http C = false /\ uid = None))
    /\ (k <> SERVERKEYGEN_REQ -> kt = [])
    /\ exists s4 s5 w err tail, outcome C A k rv crt kt s4 w err s5 /\ s_uid s4 = s_uid s1 /\ s_code s4 = s_code s1
       /\ post = w ++ rsp_ev O C o body err ++ tail
       /\ ((is_done o err = true /\ tail = end_ev C uri /\ r = Ok (EST_ERR_NONE, s5))
           \/ (is_done o err = false /\ exists s', est_send_http_error A keep (c_retry C) err s5 = (tail, Ok (tt, s')) /\ r = Ok (err, s'))).
Proof.
  intros * H Eq. apply request_paths in H.
  set (isca := fun x : event => is_ca x).
  assert (Hca : isca (EvCA k b uid peer path rv crt kt)) by (unfold isca, is_ca; eauto 10).
  assert (OP : forall o p c eo ro,
     run_op O C A attrs_parse attrs_add_pop attrs_check keep t authz c body p o s = (eo, ro) ->
     Forall (fun x => ~ isca x) eo \/ (enrolls o = true /\ enroll_path O C A attrs_check t authz c body p (kind_of o) s eo ro)).
  { intros o p c eo ro Q.
    assert (BR : forall o, (exists ea rv v w, eo = ea ++ EvVoucher o body (t_peer t) rv v :: w /\ Forall (auth_ev t p) ea
        /\ authed t p ea /\ ~ cert_rejected t /\ Forall is_write w) \/ Forall (auth_ev t p) eo -> Forall (fun x => ~ isca x) eo).
    { intros o' [(ea & rv0 & v & w & -> & F & _ & _ & W)|F].
      - apply Forall_app. split; [apply nonpriv_nonca; eapply auths_nonpriv; eauto|].
        constructor; [intros (? & ? & ? & ? & ? & ? & ? & ? & Z0); discriminate|]. now apply nonpriv_nonca, writes_nonpriv.
      - apply nonpriv_nonca. eapply auths_nonpriv; eauto. }
    destruct o; cbn [run_op] in Q; try (right; split; [reflexivity|now apply enroll_paths in Q]); left.
    - apply cacerts_events in Q as [F _]. eapply Forall_impl; [|exact F].
      intros x [(? & ? & ->)|(? & ? & ->)] (? & ? & ? & ? & ? & ? & ? & ? & Z0); discriminate.
    - apply csrattrs_events in Q as [F _]. eapply Forall_impl; [|exact F].
      intros x [(? & ? & ->)|(? & ? & ->)] (? & ? & ? & ? & ? & ? & ? & ? & Z0); discriminate.
    - eapply BR, (brski_voucher_events O C A); exact Q.
    - eapply BR, (brski_status_events O C A); exact Q.
    - eapply BR, (brski_status_events O C A); exact Q. }
  assert (AU : forall p k0 ea x, auth_path O C A t authz p k0 body s ea x -> Forall (fun x => ~ isca x) ea).
  { intros * Q. apply nonpriv_nonca. eapply auths_nonpriv, auth_events; eauto. }
  (* everything around the handler is no CA call *)
  assert (NS : Forall (fun x => ~ isca x) (@start_ev cert key C uri)) by apply nonpriv_nonca, start_nonpriv.
  assert (NE : Forall (fun x => ~ isca x) (@end_ev cert key C uri)) by apply nonpriv_nonca, end_nonpriv.
  assert (NR : forall o, Forall (fun x => ~ isca x) (req_ev O C o body)) by (intro; apply nonpriv_nonca, req_nonpriv).
  assert (NP : forall o rc, Forall (fun x => ~ isca x) (rsp_ev O C o body rc)) by (intros; apply nonpriv_nonca, rsp_nonpriv).
  assert (NW : forall d er s w r, est_send_http_error A keep d er s = (w, r) -> Forall (fun x => ~ isca x) w)
    by (intros; eapply nonpriv_nonca, error_nonpriv; eauto).
  assert (NONE : forall e0, e0 = pre ++ EvCA k b uid peer path rv crt kt :: post -> Forall (fun x => ~ isca x) e0 -> False).
  { intros e0 Q F. eapply split_none; eauto. }
  assert (MAIN : forall o p c eo rc s5 tail,
     start_ev C uri ++ req_ev O C o body ++ eo ++ rsp_ev O C o body rc ++ tail = pre ++ EvCA k b uid peer path rv crt kt :: post ->
     parse_uri uri = Ok (EST_ERR_NONE, Some o, p) -> method_fits o method = true -> (posts o = true -> ct = Some c) ->
     run_op O C A attrs_parse attrs_add_pop attrs_check keep t authz c body p o s = (eo, Ok (rc, s5)) ->
     Forall (fun x => ~ isca x) tail ->
     exists ea au ro s1 mid ec rq, p = path /\ enrolls o = true /\ k = kind_of o /\ ct = Some c /\ (is_http C = true -> is_pkcs10 c = true) /\ peer = t_peer t
    /\ pre = start_ev C uri ++ req_ev O C o body ++ ea ++ mid ++ ec
    /\ auth_path O C A t authz p k body s ea (Ok (au, ro, s1)) /\ granted au
    /\ prepared O k body mid rq b /\ good_csr O rq /\ passes O C t rq /\ attrs_present C A attrs_check ec b
    /\ ((is_http C = true /\ exists u, cstr (s_uid s1) = Ok u /\ uid = Some u) \/ (is_http C = false /\ uid = None))
    /\ (k <> SERVERKEYGEN_REQ -> kt = [])
    /\ exists s4 w, outcome C A k rv crt kt s4 w rc s5 /\ s_uid s4 = s_uid s1 /\ s_code s4 = s_code s1
       /\ post = w ++ rsp_ev O C o body rc ++ tail).
  { intros o p c eo rc s5 tail Ee Pu Mf Ct Ro Ft.
    destruct (OP _ _ _ _ _ Ro) as [F|[En Pa]].
    { exfalso. eapply NONE; [exact Ee|]. rewrite !Forall_app. auto 10. }
    assert (Po : posts o = true) by (destruct o; auto; discriminate).
    assert (Cut : forall ed, Forall (fun x => ~ isca x) ed -> eo <> ed).
    { intros ed F ->. eapply NONE; [exact Ee|]. rewrite !Forall_app. auto 10. }
    clear Eq Ro. inversion Pa; subst; try (exfalso; eapply Cut; [|reflexivity]; eauto; fail).
    - exfalso. eapply Cut; [|reflexivity]. apply Forall_app. split; eauto.
      constructor; [|constructor]. intros (? & ? & ? & ? & ? & ? & ? & ? & Z0); discriminate.
    - exfalso. eapply Cut; [|reflexivity]. apply Forall_app. split; eauto. eapply prepared_nonca; eauto.
    - exfalso. eapply Cut; [|reflexivity]. rewrite !Forall_app. split; eauto. split; [eapply prepared_nonca; eauto|].
      eapply nonpriv_nonca, checks_nonpriv; eauto.
    - rename e0 into ea.
      assert (Hc : passes O C t r0 /\ attrs_present C A attrs_check ec b0).
      { match goal with Q : checks_path _ _ _ _ _ _ _ _ _ _ |- _ => inversion Q; subst; auto; congruence end. }
      destruct Hc as [Hp Ha].
      assert (Eq2 : (start_ev C uri ++ req_ev O C o body ++ ea ++ mid ++ ec) ++ EvCA (kind_of o) b0 uid0 (t_peer t) p rv0 crt0 kt0 :: (w ++ rsp_ev O C o body rc ++ tail)
                  = pre ++ EvCA k b uid peer path rv crt kt :: post).
      { rewrite <- Ee. rewrite <- !app_assoc. cbn [Datatypes.app]. rewrite <- ?app_assoc. reflexivity. }
      assert (F1 : Forall (fun x => ~ isca x) (start_ev C uri ++ req_ev O C o body ++ ea ++ mid ++ ec)).
      { rewrite !Forall_app. repeat split; auto; [eapply AU; eauto|eapply prepared_nonca; eauto|eapply nonpriv_nonca, present_nonpriv; eauto]. }
      assert (F2 : Forall (fun x => ~ isca x) (w ++ rsp_ev O C o body rc ++ tail)).
      { rewrite !Forall_app. repeat split; auto. apply nonpriv_nonca, writes_nonpriv. eapply outcome_writes; eauto. }
      destruct (split_unique _ isca _ _ _ _ _ _ F1 F2 Eq2 Hca) as (-> & Qx & ->).
      inversion Qx; subst.
      exists ea, au, ro, s1, mid, ec, r0. do 15 (split; [now auto|]).
      exists s4, w. auto. }
  destruct H as [Hp|er w s' Hr Hw|p w s' Hp Hw|o p c eo Hp Hm Hc Hr|o p c eo rc s' Hp Hm Hc Hr Hd|o p c eo rc s1 w s' Hp Hm Hc Hr Hd Hw].
  - exfalso. eapply NONE; [eassumption|]. auto.
  - exfalso. eapply NONE; [eassumption|]. apply Forall_app. split; eauto.
  - exfalso. eapply NONE; [eassumption|]. rewrite !Forall_app. repeat split; eauto.
  - exfalso. eapply NONE; [eassumption|]. rewrite !Forall_app. repeat split; eauto.
    destruct (OP _ _ _ _ _ Hr) as [F|[En Pa]]; auto.
    inversion Pa; subst; eauto.
    + apply Forall_app. split; eauto. constructor; [|constructor]. nonca.
    + rewrite !Forall_app. repeat split; eauto; [eapply prepared_nonca; eauto|eapply nonpriv_nonca, checks_nonpriv; eauto].
    + rewrite !Forall_app. repeat split; eauto; [eapply prepared_nonca; eauto|eapply nonpriv_nonca, checks_nonpriv; eauto].
  - destruct (MAIN _ _ _ _ _ _ _ Eq Hp Hm Hc Hr NE) as (ea & au & ro & s1 & mid & ec & rq & -> & En & K & Hct & Hpk & Hpe & Hpr & Ha & Hg & Hpp & Hgc & Hps & Hat & Hu & Hk & s4 & w & Ho & U & Co & Po).
    exists o, c, ea, au, ro, s1, mid, ec, rq. do 16 (split; [now auto|]).
    exists s4, s', w, rc, (end_ev C uri). repeat split; auto.
  - destruct (MAIN _ _ _ _ _ _ _ Eq Hp Hm Hc Hr (NW _ _ _ _ _ Hw)) as (ea & au & ro & s6 & mid & ec & rq & -> & En & K & Hct & Hpk & Hpe & Hpr & Ha & Hg & Hpp & Hgc & Hps & Hat & Hu & Hk & s4 & w1 & Ho & U & Co & Po).
    exists o, c, ea, au, ro, s6, mid, ec, rq. do 16 (split; [now auto|]).
    exists s4, s1, w1, rc, w. repeat split; auto. right. split; auto. exists s'. split; auto.
    assert (R : reported o rc = rc) by (destruct o; try discriminate En; reflexivity). now rewrite R in *.
Qed.
End P.
