(** The events of a request are what happened: a chain of calls to the
    registered callbacks. *)
From Coq Require Import String ZArith List Bool Lia ZifyBool ZifyNat.
From Verif Require Import Base Spec.Http Spec.Base64 Spec.Server Model.CLib Model.Codec Model.EstErr Model.HttpServer Model.Uri
  Model.AuthHdr Model.Server Proofs.Codec Proofs.ServerAuth.
Import ListNotations.
Open Scope Z_scope.

Section P.
Context {cert csr key E : Type}.
Variable O : @ossl cert csr key.
Variable C : @config cert.
Variable A : @app cert key E.
Variable t : @tls cert.

Notation event := (@event cert key).
Notation st := (@st E).
Notation M := (@M cert key E).

Definition honest {X} (b : list event) (m : M X) : Prop := forall s e r, m s = (e, r) ->
  exists e1, history O A t b e (s_env s) e1 /\ forall x s', r = Ok (x, s') -> s_env s' = e1.

Lemma history_app : forall l1 l2 b e0 e1 e2, history O A t b l1 e0 e1 -> history O A t (b ++ l1) l2 e1 e2 ->
  history O A t b (l1 ++ l2) e0 e2.
Proof.
  induction l1 as [|x l1 IH]; intros l2 b e0 e1 e2 H1 H2; inversion H1; subst; cbn.
  - now rewrite app_nil_r in H2.
  - econstructor; eauto. eapply IH; eauto. now rewrite <- app_assoc.
Qed.

Lemma honest_bind : forall X Y b (m : M X) (f : X -> M Y), honest b m ->
  (forall x s e s', m s = (e, Ok (x, s')) -> honest (b ++ e) (f x)) -> honest b (mbind m f).
Proof.
  intros X Y b m f Hm Hf s e r H. apply mbind_inv in H as [[H ->]|(e1 & x & s1 & e2 & H1 & H & ->)].
  - destruct (Hm _ _ _ H) as (e1 & H1 & _). exists e1. split; auto. intros; discriminate.
  - destruct (Hm _ _ _ H1) as (v & Hv & Q). destruct (Hf _ _ _ _ H1 _ _ _ H) as (w & Hw & Q2).
    exists w. split; auto. eapply history_app; eauto. now rewrite <- (Q x s1).
Qed.
Lemma honest_ret : forall X b (x : X), honest b (ret x).
Proof. intros X b x s e r H. inversion H; subst. exists (s_env s). split; [constructor|]. intros ? ? Q. now inversion Q. Qed.
Lemma honest_lift : forall X b (x : res X), honest b (lift x).
Proof.
  intros X b x s e r H. unfold lift in H. destruct x; cbn [bind] in H; inversion H; subst;
  exists (s_env s); (split; [constructor|]); intros ? ? Q; now inversion Q.
Qed.
Lemma honest_pure : forall X b (m : M X), (forall s, exists x s', m s = ([], Ok (x, s')) /\ s_env s' = s_env s) -> honest b m.
Proof.
  intros X b m Hm s e r H. destruct (Hm s) as (x & s' & Q & Q2). rewrite Q in H. inversion H; subst.
  exists (s_env s). split; [constructor|]. intros ? ? R. inversion R; now subst.
Qed.
(** A callback and its event. *)
Lemma honest_call : forall X Y b (f : E -> E * X) (ev : X -> event) (k : X -> M Y),
  (forall e0 e1 x, f e0 = (e1, x) -> happened O A t b (ev x) e0 e1) ->
  (forall x, honest (b ++ [ev x]) (k x)) ->
  honest b (mbind (call f) (fun x => mbind (emit (ev x)) (fun _ => k x))).
Proof.
  intros X Y b f ev k Hh Hk s e r H. apply mbind_inv in H as [[H ->]|(e1 & x & s1 & e2 & H1 & H & ->)].
  { unfold call in H. destruct (f _); discriminate. }
  unfold call in H1. destruct (f (s_env s)) as [v y] eqn:Ef. inversion H1; subst. clear H1.
  apply mbind_inv in H as [[H _]|(e3 & [] & s3 & e4 & H3 & H & ->)]; [discriminate|]. inversion H3; subst. clear H3.
  destruct (Hk x _ _ _ H) as (w & Hw & Q). exists w. split; auto. cbn [Datatypes.app s_env] in *.
  econstructor; eauto.
Qed.
Lemma honest_call' : forall X Y b (f : E -> E * X) (ev : X -> event) (g : X -> M Y),
  (forall e0 e1 x, f e0 = (e1, x) -> happened O A t b (ev x) e0 e1) ->
  (forall x, exists k, g x = mbind (emit (ev x)) (fun _ => k) /\ honest (b ++ [ev x]) k) ->
  honest b (mbind (call f) g).
Proof.
  intros X Y b f ev g Hh Hk s e r H. apply mbind_inv in H as [[H ->]|(e1 & x & s1 & e2 & H1 & H & ->)].
  { unfold call in H. destruct (f _); discriminate. }
  unfold call in H1. destruct (f (s_env s)) as [v y] eqn:Ef. inversion H1; subst. clear H1.
  destruct (Hk x) as (k & Eg & Hk'). rewrite Eg in H.
  apply mbind_inv in H as [[H _]|(e3 & [] & s3 & e4 & H3 & H & ->)]; [discriminate|]. inversion H3; subst. clear H3.
  destruct (Hk' _ _ _ H) as (w & Hw & Q). exists w. split; auto. cbn [Datatypes.app s_env] in *.
  econstructor; eauto.
Qed.
Lemma honest_emit_if : forall b c x, (forall e0, happened O A t b x e0 e0) -> honest b (emit_if c x).
Proof.
  intros b c x Hx. unfold emit_if. destruct c; [|apply honest_ret]. intros s e r H. inversion H; subst.
  exists (s_env s). split; [econstructor; [apply Hx|constructor]|]. intros ? ? Q. now inversion Q.
Qed.
Lemma honest_if : forall X b (c : bool) (m1 m2 : M X), honest b m1 -> honest b m2 -> honest b (if c then m1 else m2).
Proof. intros. now destruct c. Qed.

Lemma honest_write : forall b d, honest b (mg_write A d).
Proof.
  intros b d. unfold mg_write. apply (honest_call _ _ b _ (fun ok => EvWrite d ok)); [|intros; apply honest_ret].
  intros e0 e1 x H. exact H.
Qed.

Ltac pure := apply honest_pure; intros; eexists _, _; split; [reflexivity|reflexivity].
Ltac step := match goal with
  | |- honest _ (mbind _ _) => apply honest_bind; [|intros]
  | |- honest _ (ret _) => apply honest_ret
  | |- honest _ (lift _) => apply honest_lift
  | |- honest _ (mg_write _ _) => apply honest_write
  | |- honest _ (set_code _) => pure
  | |- honest _ (set_uid _) => pure
  | |- honest _ get_uid => pure
  | |- honest _ (if _ then _ else _) => apply honest_if
  | |- honest _ (emit_if _ _) => apply honest_emit_if; reflexivity
  | |- honest _ (match ?x with _ => _ end) => destruct x
  end.

Variable keep : Z -> bool.
Lemma honest_error0 : forall b st r x, honest b (mg_send_http_error A keep st r x).
Proof. intros. unfold mg_send_http_error. repeat step. Qed.
Lemma honest_retry : forall b d, honest b (send_http_retry_after A d).
Proof. intros. unfold send_http_retry_after. repeat step. Qed.
Lemma honest_error : forall b d er, honest b (est_send_http_error A keep d er).
Proof.
  intros. unfold est_send_http_error.
  assert (P : forall b er, honest b (let '(st, reason, text) := error_reply er in mg_send_http_error A keep st reason text)).
  { intros b' er'. destruct (error_reply er') as [[? ?] ?]. apply honest_error0. }
  destruct er; try apply P. apply honest_bind; [apply honest_retry|]. intros x s e s' _.
  destruct x; try apply P. apply honest_ret.
Qed.
Lemma honest_200 : forall b ct d, honest b (send_200 A ct d).
Proof. intros. unfold send_200. repeat step. Qed.
Lemma honest_all : forall l b, honest b (write_all A l).
Proof. induction l; intros; cbn [write_all]; repeat step. apply IHl. Qed.
Lemma honest_challenge : forall b, honest b (mg_send_authorization_request C A).
Proof. intros. unfold mg_send_authorization_request. repeat step. pure. Qed.
Lemma honest_http_auth : forall b a path, honest b (http_auth_cb A a (t_peer t) path).
Proof.
  intros. unfold http_auth_cb. destruct (a_http_auth A) as [f|] eqn:Ef; [|apply honest_lift].
  apply (honest_call _ _ b _ (fun ok => EvHttpAuth a (t_peer t) path ok)); [|intros; apply honest_ret].
  intros e0 e1 x H. cbn. eauto.
Qed.
Lemma honest_parse_auth : forall b authz, honest b (parse_auth O C authz).
Proof. intros. unfold parse_auth. repeat step. Qed.
Lemma check_tls_peer : forall (c : bool) p rv, check_tls t = (c, p, rv) -> c = false \/ p = t_peer t.
Proof.
  unfold check_tls. intros c p rv H. destruct (t_peer t); [destruct (_ || _)|]; inversion H; auto.
Qed.
Lemma honest_auth : forall b authz path k body, honest b (est_enroll_auth O C A t authz path k body).
Proof.
  intros. unfold est_enroll_auth. destruct (check_tls t) as [[cont peer] rv0] eqn:Ht.
  apply check_tls_peer in Ht.
  assert (Fi : forall b pr rv r, honest b (mbind (auth_result_event C k pr rv) (fun _ => ret (X := auth_state * option csr) (rv, r)))).
  { intros. unfold auth_result_event. repeat step. }
  destruct Ht as [->| ->]; [apply Fi|]. destruct (negb cont); [apply Fi|].
  destruct (c_transport C).
  - destruct (_ && _); [|apply Fi].
    apply honest_bind.
    { destruct (t_peer t); [destruct (_ && _)|]; repeat step; apply honest_parse_auth. }
    intros [[pr a] r] s e s' _. apply honest_bind; [|intros; apply Fi].
    destruct pr; repeat step; first [apply honest_http_auth|apply honest_challenge|idtac].
  - destruct (t_peer t) eqn:Ep; [|apply Fi]. destruct (auth_state_eqb _ _); [|apply Fi].
    destruct (negb (c_eca C)); [apply Fi|]. destruct (len body <=? 0); [apply Fi|].
    destruct (handle_eca _ _ _ _ _ _ _) as [[pr a] r]. apply honest_bind; [|intros; apply Fi].
    rewrite <- Ep. destruct pr; repeat step; apply honest_http_auth.
Qed.
Lemma honest_brski_auth : forall b authz path, honest b (est_brski_auth O C A t authz path).
Proof.
  intros. unfold est_brski_auth. destruct (check_tls t) as [[cont peer] rv0] eqn:Ht.
  apply check_tls_peer in Ht.
  assert (Fi : forall b pr rv, honest b (mbind (auth_result_event C SIMPLE_ENROLL_REQ pr rv) (fun _ => ret rv))).
  { intros. unfold auth_result_event. repeat step. }
  destruct Ht as [->| ->]; [apply Fi|]. destruct (negb cont); [apply Fi|].
  destruct (_ && _); [|apply Fi].
  apply honest_bind.
  { destruct (t_peer t); [destruct (_ && _)|]; repeat step; apply honest_parse_auth. }
  intros [pr a] s e s' _. apply honest_bind; [|intros; apply Fi].
  destruct pr; repeat step; first [apply honest_http_auth|apply honest_challenge|idtac].
Qed.

Lemma honest_cacerts : forall b path, honest b (est_server_handle_cacerts C A path).
Proof.
  intros. unfold est_server_handle_cacerts. destruct (a_cacerts A) as [f|] eqn:Ef.
  - apply (honest_call _ _ b _ (fun r => EvCacerts path r)).
    + intros. cbn. eauto.
    + intros [x|]; [apply honest_200|apply honest_ret].
  - destruct (c_cacerts C); [apply honest_200|apply honest_ret].
Qed.
Lemma honest_send_csrattr : forall b d, honest b (est_send_csrattr_data C A keep d).
Proof.
  intros. unfold est_send_csrattr_data. destruct d as [[|x l]|]; try apply honest_200;
  (apply honest_bind; [apply honest_error|intros; apply honest_ret]).
Qed.
Variable attrs_parse : bytes -> res (est_error * bool).
Variable attrs_add_pop : bytes -> res (est_error * bytes).
Variable attrs_check : option (option bytes) -> bytes -> res est_error.
Lemma honest_csrattrs : forall b path, honest b (est_handle_csr_attrs C A attrs_parse attrs_add_pop keep t path).
Proof.
  intros. unfold est_handle_csr_attrs. destruct (a_csrattrs A) as [f|] eqn:Ef.
  - apply (honest_call _ _ b _ (fun d => EvCsrattrs path d)).
    + intros. cbn. eauto.
    + intros [[|x l]|]; try apply honest_send_csrattr.
      apply honest_bind; [apply honest_lift|]. intros [e p] ? ? ? _. destruct e; try apply honest_ret.
      destruct (_ && _); [|apply honest_send_csrattr]. apply honest_bind; [apply honest_lift|]. intros [e2 b2] ? ? ? _.
      destruct e2; first [apply honest_ret|apply honest_send_csrattr].
  - destruct (c_csrattrs C); [|destruct (negb _)]; first [apply honest_send_csrattr|apply honest_ret].
Qed.
Lemma honest_checks : forall b r body, honest b (csr_checks O C A attrs_check t r body).
Proof.
  intros. unfold csr_checks. apply honest_bind; [repeat step|]. intros e s l s' _.
  destruct e; try apply honest_ret. destruct (c_enforce C); [|apply honest_ret].
  apply honest_bind; [|intros; apply honest_ret]. unfold all_csrattrs_present.
  destruct (negb _ && negb _); [apply honest_ret|]. apply honest_bind; [apply honest_lift|]. intros e0 ? ? ? _.
  destruct e0; try apply honest_ret.
  destruct (a_csrattrs A) as [f|] eqn:Ef; [|apply honest_lift].
  apply (honest_call _ _ _ _ (fun d => EvCsrattrs None d)); [|intros; apply honest_lift]. intros. cbn. eauto.
Qed.
Lemma honest_uid : forall b, honest b (@callback_uid cert key E C).
Proof. intros. unfold callback_uid. repeat step. Qed.

Lemma honest_simple : forall b authz c body path k, honest b (est_handle_simple_enroll O C A attrs_check t authz c body path k).
Proof.
  intros. unfold est_handle_simple_enroll.
  assert (H : forall f, k <> SERVERKEYGEN_REQ ->
    (match k with REENROLL_REQ => a_reenroll A | _ => a_enroll A end) = Some f ->
    forall b uid, honest b
     (mbind (call (fun e => f e body uid (t_peer t) path)) (fun x => match x with (rv, crt) =>
        mbind (emit (EvCA k body uid (t_peer t) path rv crt [])) (fun _ =>
         if (rv =? err_code EST_ERR_NONE) && (0 <? len crt) then
           if is_http C then mbind (send_200 A (str "application/pkcs7-mime; smime-type=certs-only") crt) (fun w => ret (w, crt))
           else ret (EST_ERR_NONE, crt)
         else if rv =? err_code EST_ERR_CA_ENROLL_RETRY then ret (EST_ERR_CA_ENROLL_RETRY, [])
         else ret (EST_ERR_CA_ENROLL_FAIL, [])) end))).
  { intros f Nk Ef b' uid.
    apply (honest_call' _ _ b' _ (fun x => EvCA k body uid (t_peer t) path (fst x) (snd x) [])).
    - intros e0 e1 [rv crt] Q. destruct k; cbn; try congruence; eauto.
    - intros [rv crt]. eexists. split; [reflexivity|]. repeat step. apply honest_200. }
  destruct k; try apply honest_ret.
  - destruct (a_enroll A) as [f|]; [|apply honest_ret]. destruct (_ && _); [apply honest_ret|].
    apply honest_bind; [apply honest_auth|]. intros [au r0] s e s' _. destruct au; try apply honest_ret;
    (match goal with |- honest _ (match ?x with _ => _ end) => destruct x end; [|apply honest_ret]);
    (destruct (negb _); [apply honest_ret|]); (apply honest_bind; [apply honest_checks|]; intros e0 ? ? ? _; destruct e0; try apply honest_ret);
    (apply honest_bind; [apply honest_uid|intros; apply H; [discriminate|reflexivity]]).
  - destruct (a_reenroll A) as [f|]; [|apply honest_ret]. destruct (_ && _); [apply honest_ret|].
    apply honest_bind; [apply honest_auth|]. intros [au r0] s e s' _. destruct au; try apply honest_ret;
    (match goal with |- honest _ (match ?x with _ => _ end) => destruct x end; [|apply honest_ret]);
    (destruct (negb _); [apply honest_ret|]); (apply honest_bind; [apply honest_checks|]; intros e0 ? ? ? _; destruct e0; try apply honest_ret);
    (apply honest_bind; [apply honest_uid|intros; apply H; [discriminate|reflexivity]]).
Qed.

Lemma honest_keygen : forall b authz c body path, honest b (est_handle_server_keygen O C A attrs_check t authz c body path).
Proof.
  intros. unfold est_handle_server_keygen.
  destruct (a_skg A) as [f|] eqn:Ef; [|apply honest_ret]. destruct (a_keygen A) as [g|] eqn:Eg; [|apply honest_ret].
  destruct (_ && _); [apply honest_ret|].
  apply honest_bind; [apply honest_auth|]. intros [au r0] s e s' _.
  assert (H : honest (b ++ e) (match (match r0 with Some r => Some r | None => o_parse_csr O body end) with
        | None => ret (EST_ERR_BAD_PKCS10, [], [])
        | Some r =>
          mbind (call g) (fun x => match x with (krv, ko) =>
          mbind (emit (EvKeygen krv ko)) (fun _ =>
          match ko with
          | None => ret (EST_ERR_NO_KEY, [], [])
          | Some pk =>
            if negb (krv =? err_code EST_ERR_NONE) then ret (EST_ERR_NO_KEY, [], [])
            else
              let der := o_key_der O pk in
              mbind (lift (est_base64_encode der (repeat 0 (Z.to_nat (len der * 2))) (len der * 2) true)) (fun x => match x with (n, blk) =>
              let b64der := firstn (Z.to_nat n) blk in
              match o_set_pubkey O r pk with
              | None => ret (EST_ERR_BAD_PKCS10, [], [])
              | Some r1 =>
                match o_sign O r1 pk with
                | None => ret (EST_ERR_X509_SIGN, [], [])
                | Some r2 =>
                  if negb (est_server_check_csr O r2) then ret (EST_ERR_BAD_PKCS10, [], [])
                  else
                    let body2 := o_csr_body O r2 in
                    mbind (csr_checks O C A attrs_check t r2 body2) (fun e =>
                    match e with
                    | EST_ERR_NONE =>
                      mbind (callback_uid C) (fun uid =>
                      mbind (call (fun e => f e body2 b64der uid (t_peer t) path)) (fun x => match x with (rv, crt, ktext) =>
                      mbind (emit (EvCA SERVERKEYGEN_REQ body2 uid (t_peer t) path rv crt ktext)) (fun _ =>
                      if (rv =? err_code EST_ERR_NONE) && (0 <? len crt) then
                        if is_http C then
                          mbind (write_all A
                                 [ok_head (str "multipart/mixed; boundary=" ++ boundary) None
                                    (len pvt_key_hdr + len ktext + len cert_hdr + len crt + len final_bndry_hdr);
                                  pvt_key_hdr; ktext; cert_hdr; crt; final_bndry_hdr]) (fun w =>
                          match w with EST_ERR_NONE => ret (w, crt, ktext) | _ => ret (w, [], []) end)
                        else ret (EST_ERR_NONE, crt, ktext)
                      else if rv =? err_code EST_ERR_CA_ENROLL_RETRY then ret (EST_ERR_CA_ENROLL_RETRY, [], [])
                      else ret (EST_ERR_CA_ENROLL_FAIL, [], [])) end))
                    | _ => ret (e, [], [])
                    end)
                end
              end end)
          end) end)
        end)).
  { match goal with |- honest _ (match ?x with _ => _ end) => destruct x as [r|] end; [|apply honest_ret].
    apply (honest_call' _ _ _ _ (fun x => EvKeygen (fst x) (snd x))).
    { intros e0 e1 [rv k] Q. cbn. eauto. }
    intros [krv ko]. eexists. split; [reflexivity|]. cbn [fst snd].
    destruct ko as [pk|]; [|apply honest_ret]. destruct (krv =? err_code EST_ERR_NONE) eqn:Ek; [|apply honest_ret].
    assert (krv = 0) by (change (err_code EST_ERR_NONE) with 0 in Ek; lia). subst krv. cbv zeta. cbn [negb].
    apply honest_bind; [apply honest_lift|]. intros [n blk] s1 ee s2 He.
    assert (Kt : ee = [] /\ (5 <= len (o_key_der O pk) -> firstn (Z.to_nat n) blk = b64_wrap (b64_encode (o_key_der O pk)))).
    { unfold lift in He. destruct (est_base64_encode _ _ _ _) as [[n' blk']|] eqn:Eb; cbn [bind] in He; [|discriminate].
      injection He as <- <- <- <-. split; [reflexivity|]. intro L.
      set (der := o_key_der O pk) in *. clearbody der.
      pose proof (encode_twice der (repeat 0 (Z.to_nat (len der * 2))) true L) as Q. cbv zeta in Q.
      rewrite (Z.mul_comm 2) in Q.
      assert (Hl : len (repeat 0 (Z.to_nat (len der * 2))) = len der * 2) by (unfold len; rewrite repeat_length; lia).
      specialize (Q Hl). rewrite Q in Eb. injection Eb as <- <-. unfold len at 1. rewrite Nat2Z.id.
      rewrite firstn_app, firstn_all, Nat.sub_diag. cbn. now rewrite app_nil_r. }
    destruct Kt as [-> Kt]. rewrite app_nil_r. set (text := firstn (Z.to_nat n) blk) in *. clearbody text.
    destruct (o_set_pubkey O r pk); [|apply honest_ret]. destruct (o_sign O _ pk) as [r2|]; [|apply honest_ret].
    destruct (negb _); [apply honest_ret|]. apply honest_bind; [apply honest_checks|]. intros er ? ? ? _.
    destruct er; try apply honest_ret. apply honest_bind; [apply honest_uid|]. intros uid ? ? ? _.
    apply (honest_call' _ _ _ _ (fun x => EvCA SERVERKEYGEN_REQ (o_csr_body O r2) uid (t_peer t) path (fst (fst x)) (snd (fst x)) (snd x))).
    { intros e0' e1' [[rv crt] kt] Q. cbn. exists f, pk, text. repeat split; auto.
      rewrite !in_app_iff. left; left; right. now left. }
    intros [[rv crt] kt]. eexists. split; [reflexivity|]. cbn [fst snd].
    match goal with |- honest _ (if ?x then _ else _) => destruct x end;
      [|match goal with |- honest _ (if ?x then _ else _) => destruct x end; apply honest_ret].
    destruct (is_http C); [|apply honest_ret].
    apply honest_bind; [apply honest_all|]. intros w ? ? ? _. destruct w; apply honest_ret. }
  destruct au; try apply honest_ret; exact H.
Qed.

Lemma honest_brski_authed : forall b authz path m, (forall b, honest b m) -> honest b (brski_authed O C A t authz path m).
Proof.
  intros b authz path m H. unfold brski_authed. apply honest_bind; [apply honest_brski_auth|]. intros au ? ? ? _.
  destruct au; try apply honest_ret; apply H.
Qed.
Lemma honest_voucher : forall b authz c body path, honest b (brski_voucher_req O C A t authz c body path).
Proof.
  intros. unfold brski_voucher_req. destruct (a_voucher A) as [f|] eqn:Ef; [|apply honest_ret].
  destruct (_ && _); [apply honest_ret|]. apply honest_brski_authed. intro b'.
  apply (honest_call' _ _ _ _ (fun x => EvVoucher OP_BRSKI_REQ_VOUCHER body (t_peer t) (fst x) (snd x))).
  - intros e0 e1 [rv v] Q. cbn. eauto.
  - intros [rv v]. eexists. split; [reflexivity|]. repeat step; first [apply honest_200|apply honest_retry].
Qed.
Lemma honest_status : forall b o cb authz c body path,
  (o = OP_BRSKI_VOUCHER_STATUS /\ cb = a_voucher_status A) \/ (o = OP_BRSKI_ENROLL_STATUS /\ cb = a_enroll_status A) ->
  honest b (brski_status O C A o cb t authz c body path).
Proof.
  intros b o cb authz c body path Ho. unfold brski_status. destruct cb as [f|]; [|apply honest_ret].
  destruct (negb _); [apply honest_ret|]. apply honest_brski_authed. intro b'.
  apply (honest_call' _ _ _ _ (fun rv => EvVoucher o body (t_peer t) rv [])).
  - intros e0 e1 rv Q. destruct Ho as [[-> Ho]|[-> Ho]]; cbn; eauto.
  - intros rv. eexists. split; [reflexivity|]. repeat step.
Qed.

Variable parse_uri : bytes -> res (est_error * option operation * option bytes).
Theorem request_truthful : forall method uri body ct authz,
  honest [] (est_http_request O C A parse_uri attrs_parse attrs_add_pop attrs_check keep t method uri body ct authz).
Proof.
  intros. unfold est_http_request, enroll_req_event, enroll_rsp_event.
  assert (Rf : forall b er, honest b (mbind (est_send_http_error A keep (c_retry C) er) (fun _ => ret er))).
  { intros. apply honest_bind; [apply honest_error|]. intros; apply honest_ret. }
  assert (Rf2 : forall b er r, honest b (mbind (est_send_http_error A keep (c_retry C) er) (fun _ => @ret cert key E est_error r))).
  { intros. apply honest_bind; [apply honest_error|]. intros; apply honest_ret. }
  assert (Fi : forall b, honest b (mbind (emit_if (c_ev_endpoint C) (EvReqEnd uri)) (fun _ => ret EST_ERR_NONE))).
  { intros. repeat step. }
  apply honest_bind; [apply honest_emit_if; reflexivity|]. intros [] ? ? ? _.
  apply honest_bind; [apply honest_lift|]. intros [[pe op] path] ? ? ? _.
  destruct pe; try apply Rf.
  destruct op as [o|]; [|apply honest_bind; [apply honest_error|intros; apply Fi]].
  assert (EN : forall k b, honest b
    (match ct with
      | None => mbind (est_send_http_error A keep (c_retry C) EST_ERR_BAD_CONTENT_TYPE) (fun _ => ret EST_ERR_BAD_CONTENT_TYPE)
      | Some c =>
        mbind (emit_if (c_ev_req C && is_some (o_parse_csr O body)) (EvEnrollReq k body)) (fun _ =>
        mbind (match k with
              | SERVERKEYGEN_REQ => mbind (est_handle_server_keygen O C A attrs_check t authz c body path) (fun x => match x with (rc, _, _) => ret rc end)
              | _ => mbind (est_handle_simple_enroll O C A attrs_check t authz c body path k) (fun x => match x with (rc, _) => ret rc end)
              end) (fun rc =>
        mbind (emit_if (c_ev_rsp C && is_some (o_parse_csr O body)) (EvEnrollRsp k body rc)) (fun _ =>
        match rc with
        | EST_ERR_NONE | EST_ERR_AUTH_PENDING => mbind (emit_if (c_ev_endpoint C) (EvReqEnd uri)) (fun _ => ret EST_ERR_NONE)
        | _ => mbind (est_send_http_error A keep (c_retry C) rc) (fun _ => ret rc)
        end)))
      end)).
  { intros k b. destruct ct as [c|]; [|apply Rf]. apply honest_bind; [apply honest_emit_if; reflexivity|]. intros [] ? ? ? _.
    apply honest_bind.
    { destruct k; (apply honest_bind; [first [apply honest_simple|apply honest_keygen]|]); intros; repeat step. }
    intros rc ? ? ? _. apply honest_bind; [apply honest_emit_if; reflexivity|]. intros [] ? ? ? _.
    destruct rc; first [apply Fi|apply Rf]. }
  assert (BR : forall b m, (forall c b, honest b (m c)) -> honest b
    (match ct with
      | None => mbind (est_send_http_error A keep (c_retry C) EST_ERR_BAD_CONTENT_TYPE) (fun _ => ret EST_ERR_BAD_CONTENT_TYPE)
      | Some c =>
        mbind (m c) (fun rc =>
        match rc with
        | EST_ERR_NONE | EST_ERR_AUTH_PENDING => mbind (emit_if (c_ev_endpoint C) (EvReqEnd uri)) (fun _ => ret EST_ERR_NONE)
        | EST_ERR_AUTH_FAIL => mbind (est_send_http_error A keep (c_retry C) EST_ERR_AUTH_FAIL) (fun _ => ret rc)
        | _ => mbind (est_send_http_error A keep (c_retry C) EST_ERR_BAD_PKCS10) (fun _ => ret rc)
        end)
      end)).
  { intros b m H. destruct ct as [c|]; [|apply Rf]. apply honest_bind; [apply H|]. intros rc ? ? ? _.
    destruct rc; first [apply Fi|apply Rf2]. }
  destruct o; (destruct (negb _); [apply Rf|]).
  - apply EN.
  - apply EN.
  - apply honest_bind; [apply honest_cacerts|]. intros rc ? ? ? _. destruct rc; first [apply Fi|apply Rf].
  - apply honest_bind; [apply honest_csrattrs|]. intros rc ? ? ? _. destruct rc; first [apply Fi|apply Rf].
  - apply (EN SERVERKEYGEN_REQ).
  - apply (BR _ (fun c => brski_voucher_req O C A t authz c body path)). intros; apply honest_voucher.
  - apply (BR _ (fun c => brski_status O C A OP_BRSKI_VOUCHER_STATUS (a_voucher_status A) t authz c body path)).
    intros; apply honest_status; auto.
  - apply (BR _ (fun c => brski_status O C A OP_BRSKI_ENROLL_STATUS (a_enroll_status A) t authz c body path)).
    intros; apply honest_status; auto.
Qed.
End P.
