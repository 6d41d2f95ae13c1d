(** How often calls connect, to whom, and when their requests carry credentials. *)
From Coq Require Import String ZArith List Bool Lia ZifyBool ZifyNat.
From Verif Require Import Base Spec.Base64 Spec.Http Spec.Client Spec.Multipart Spec.ClientCalls Model.CLib Model.Codec Model.EstErr Model.HttpServer Model.Uri Model.AuthHdr Model.ClientHttp Model.Multipart Model.Host Model.Client
  Proofs.EstErr Proofs.HttpParse Proofs.ClientHttp Proofs.Uri Proofs.ClientModes Proofs.ClientCalls.
Import ListNotations.
Open Scope Z_scope.

(** ** Connections *)
Definition uses {A} (n : nat) (m : M A) : Prop := forall s, (connects (fst (m s)) <= n)%nat.
Lemma connects_app : forall a b, connects (a ++ b) = (connects a + connects b)%nat.
Proof. intros. unfold connects. rewrite filter_app, app_length. reflexivity. Qed.
Lemma uses_bind : forall A B (m : M A) (f : A -> M B) n k, uses n m -> (forall a, uses k (f a)) -> uses (n + k) (mbind m f).
Proof.
  intros A B m f n k Hm Hf s. unfold mbind. specialize (Hm s). destruct (m s) as [e1 [[a s1]|]]; cbn [fst] in *; [|lia].
  specialize (Hf a s1). destruct (f a s1) as [e2 r]. cbn [fst] in *. rewrite connects_app. lia.
Qed.
Lemma uses_le : forall A n k (m : M A), (n <= k)%nat -> uses n m -> uses k m.
Proof. intros A n k m H U s. specialize (U s). lia. Qed.
Lemma uses_ret : forall A (a : A) n, uses n (ret a).
Proof. intros A a n s. cbn. lia. Qed.
Lemma uses_lift : forall A (r : res A) n, uses n (lift r).
Proof. intros A r n s. cbn. lia. Qed.
Lemma uses_upd : forall f n, uses n (upd f).
Proof. intros f n s. cbn. lia. Qed.
Lemma uses_get : forall n, uses n get.
Proof. intros n s. cbn. lia. Qed.
Lemma uses_next : forall n, uses n next.
Proof. intros n s. unfold next. destruct (s_env s); cbn; lia. Qed.
Lemma uses_request : forall q n, uses n (emit (ERequest q)).
Proof. intros q n s. cbn. lia. Qed.
Lemma uses_response : forall q n, uses n (emit (EResponse q)).
Proof. intros q n s. cbn. lia. Qed.
Lemma uses_connect_event : forall a b c, uses 1 (emit (EConnect a b c)).
Proof. intros a b c s. cbn. lia. Qed.
Ltac calm := repeat match goal with
  | |- uses _ (ret _) => apply uses_ret
  | |- uses _ (lift _) => apply uses_lift
  | |- uses _ (upd _) => apply uses_upd
  | |- uses _ get => apply uses_get
  | |- uses _ next => apply uses_next
  | |- uses _ (emit (ERequest _)) => apply uses_request
  | |- uses _ (emit (EResponse _)) => apply uses_response
  | |- uses 0 (mbind _ _) => apply (uses_bind _ _ _ _ 0 0); [|intro]
  | |- uses _ (if ?b then _ else _) => destruct b
  | |- uses _ (match ?x with _ => _ end) => destruct x
  | |- uses _ (let '(_, _) := ?x in _) => destruct x
  end.
Lemma uses_zero : forall A n (m : M A), uses 0 m -> uses n m.
Proof. intros A n m. apply uses_le. lia. Qed.
Lemma uses_connect : forall X, uses 1 (est_client_connect X).
Proof.
  intro X. unfold est_client_connect. apply (uses_bind _ _ _ _ 0 1); [calm|intro c]. apply (uses_bind _ _ _ _ 1 0); [apply uses_connect_event|intro]. calm.
Qed.
Lemma uses_exchange : forall q t, uses 0 (exchange q t).
Proof. intros. unfold exchange. calm. Qed.
Lemma uses_response_read : forall op t, uses 0 (get_response op t).
Proof. intros. unfold get_response. calm. Qed.
Lemma uses_keygen_read : forall X t, uses 0 (get_keygen_response X t).
Proof. intros. unfold get_keygen_response. calm. Qed.
Lemma uses_send : forall X op b t, uses 0 (est_client_send_enroll_request X op b t).
Proof. intros. unfold est_client_send_enroll_request. calm; try apply uses_exchange; try apply uses_response_read; try apply uses_keygen_read; calm. Qed.
Lemma uses_req : forall X op d t, uses 0 (est_client_enroll_req X op d t).
Proof. intros. unfold est_client_enroll_req. calm. apply uses_send. Qed.
Lemma uses_pkcs10 : forall X op r k t, uses 0 (est_client_enroll_pkcs10 X op r k t).
Proof. intros. unfold est_client_enroll_pkcs10. calm. apply uses_req. Qed.
Lemma uses_cn : forall X op cn k t, uses 0 (est_client_enroll_cn X op cn k t).
Proof. intros. unfold est_client_enroll_cn. calm. apply uses_req. Qed.
Lemma uses_twice : forall X tidy try, (forall t, uses 0 (try t)) -> uses 2 (twice X tidy try).
Proof.
  intros X tidy try Ht. unfold twice. apply (uses_bind _ _ _ _ 1 1); [apply uses_connect|]. intros [e|t]; [calm|].
  apply (uses_bind _ _ _ _ 0 1); [apply Ht|intro rv]. apply (uses_bind _ _ _ _ 0 1); [calm|intro c].
  destruct (err_eqb rv EST_ERR_AUTH_FAIL && _); [|calm]. destruct (_ && _); [calm|].
  apply (uses_bind _ _ _ _ 1 0); [apply uses_connect|]. intros [e|t2]; [calm|]. apply (uses_bind _ _ _ _ 0 0); [apply Ht|intro]. calm.
Qed.
Lemma uses_enroll : forall X op cn k, uses 2 (est_client_enroll_internal X op cn k).
Proof.
  intros. unfold est_client_enroll_internal. apply (uses_bind _ _ _ _ 0 2); [calm|intro c]. destruct (negb (c_init c)); [calm|]. destruct k; [|calm].
  apply (uses_bind _ _ _ _ 2 0); [|intros [rv nb]; calm]. apply uses_twice. intro. apply uses_cn.
Qed.
Lemma uses_enroll_csr : forall X op r k, uses 2 (est_client_enroll_csr_internal X op r k).
Proof.
  intros. unfold est_client_enroll_csr_internal. apply (uses_bind _ _ _ _ 0 2); [calm|intro c]. destruct r; [|calm]. destruct (negb (c_init c)); [calm|].
  apply (uses_bind _ _ _ _ 2 0); [|intros [rv x]; calm]. apply uses_twice. intro. destruct k; [apply uses_pkcs10|apply uses_req].
Qed.
Lemma uses_reenroll : forall X x k, uses 2 (est_client_reenroll X x k).
Proof.
  intros. unfold est_client_reenroll. apply (uses_bind _ _ _ _ 0 2); [calm|intro c]. destruct x; [|calm]. destruct k; [|calm]. destruct (negb (c_init c)); [calm|].
  destruct (x_csr_of_cert _ _ _) as [e r]. destruct (negb _); [calm|]. destruct r; [|calm].
  apply (uses_bind _ _ _ _ 2 0); [|intros [rv y]; calm]. apply uses_twice. intro. apply uses_pkcs10.
Qed.
Lemma uses_cacerts : forall X o, uses 1 (est_client_get_cacerts X o).
Proof.
  intros. unfold est_client_get_cacerts. apply (uses_bind _ _ _ _ 0 1); [calm|intro c]. destruct (negb (c_init c)); [calm|]. destruct (negb o); [calm|].
  apply (uses_bind _ _ _ _ 1 0); [apply uses_connect|]. intros [e|t]; [calm|]. unfold est_client_send_cacerts_request.
  apply (uses_bind _ _ _ _ 0 0); [calm|intro c']. cbv zeta. destruct (_ =? 0); [calm|]. apply (uses_bind _ _ _ _ 0 0); [apply uses_exchange|intro w]. destruct (negb w); [calm|].
  apply (uses_bind _ _ _ _ 0 0); [apply uses_response_read|intros [rv d]]. calm.
Qed.
Lemma uses_csrattrs : forall X o, uses 1 (est_client_get_csrattrs X o).
Proof.
  intros. unfold est_client_get_csrattrs. destruct (negb o); [calm|]. apply (uses_bind _ _ _ _ 1 0); [apply uses_connect|]. intros [e|t]; [calm|].
  apply (uses_bind _ _ _ _ 0 0); [calm|intro]. apply (uses_bind _ _ _ _ 0 0).
  - unfold est_client_send_csrattrs_request. apply (uses_bind _ _ _ _ 0 0); [calm|intro c']. apply (uses_bind _ _ _ _ 0 0); [calm|intro h]. destruct (_ =? 0); [calm|].
    apply (uses_bind _ _ _ _ 0 0); [apply uses_exchange|intro w]. destruct (negb w); [calm|]. apply (uses_bind _ _ _ _ 0 0); [apply uses_response_read|intros [rv d]]. calm.
  - intros [rv d]. destruct (negb _); [calm|]. calm.
Qed.
Lemma uses_copy_cacerts : forall o, uses 0 (est_client_copy_cacerts o).
Proof. intros. unfold est_client_copy_cacerts. calm. Qed.
Lemma uses_provision : forall X cn k, uses 4 (est_client_provision_cert X cn k).
Proof.
  intros. unfold est_client_provision_cert. apply (uses_bind _ _ _ _ 0 4); [calm|intro c]. destruct (negb (c_init c)); [calm|]. destruct k; [|calm].
  apply (uses_bind _ _ _ _ 1 3); [apply uses_cacerts|intro rv]. destruct (negb _); [calm|]. apply (uses_bind _ _ _ _ 0 3); [apply uses_copy_cacerts|intros [rv' ta]]. destruct (negb _); [calm|].
  destruct (x_to_pem X _) as [pem|]; [|calm]. apply (uses_bind _ _ _ _ 0 3); [calm|intro]. destruct (negb _); [calm|]. apply (uses_bind _ _ _ _ 0 3); [calm|intro].
  apply (uses_bind _ _ _ _ 1 2); [apply uses_csrattrs|intros [rv2 d]]. destruct (_ && _); [calm|]. unfold est_client_enroll. apply uses_enroll.
Qed.
Definition connect_limit (x : call) : nat :=
  match x with
  | Enroll _ _ | Keygen _ _ | Reenroll _ _ | EnrollCsr _ _ | KeygenCsr _ _ => 2
  | GetCacerts _ | GetCsrattrs _ => 1
  | Provision _ _ => 4
  | _ => 0
  end.
Lemma uses_plain : forall n m, uses n m -> uses n (plain m).
Proof. intros n m H. unfold plain. replace n with (n + 0)%nat by lia. apply uses_bind; [exact H|intro; apply uses_ret]. Qed.
Theorem perform_connects : forall X x, uses (connect_limit x) (perform X x).
Proof.
  intros X x. destruct x; cbn [connect_limit perform].
  - apply uses_plain. unfold est_client_enroll. apply uses_enroll.
  - apply uses_plain. unfold est_client_server_keygen_enroll. apply uses_enroll.
  - apply uses_plain. apply uses_reenroll.
  - apply uses_plain. unfold est_client_enroll_csr. apply uses_enroll_csr.
  - apply uses_plain. unfold est_client_server_keygen_enroll_csr. destruct key; [apply uses_enroll_csr|calm].
  - apply uses_plain. apply uses_provision.
  - apply uses_plain. apply uses_cacerts.
  - apply uses_csrattrs.
  - unfold est_client_copy_enrolled_cert. calm.
  - unfold est_client_copy_server_generated_key. calm.
  - apply uses_copy_cacerts.
  - apply uses_plain. unfold est_client_set_auth. apply (uses_bind _ _ _ _ 0 0); [unfold est_client_set_uid_pw; calm|intro; calm].
  - apply uses_plain. unfold est_client_set_auth_cred_cb. calm.
  - apply uses_plain. unfold est_client_enable_basic_auth_hint. calm.
  - apply uses_plain. unfold est_client_set_server. calm.
  - apply uses_plain. unfold est_client_force_pop. calm.
Qed.

(** ** Relations kept by every step *)
Record stepwise (Q : client -> list event -> client -> Prop) (U : client -> list event -> Prop) : Prop := {
  sw_nil : forall c, Q c [] c;
  sw_app : forall c e1 c1 e2 c2, Q c e1 c1 -> Q c1 e2 c2 -> Q c (e1 ++ e2) c2;
  sw_ub : forall c e1 c1 e2, Q c e1 c1 -> U c1 e2 -> U c (e1 ++ e2);
  sw_stop : forall c e c', Q c e c' -> U c e
}.
Section Steps.
Variables (Q : client -> list event -> client -> Prop) (U : client -> list event -> Prop).
Hypothesis SW : stepwise Q U.
Definition does {A} (m : M A) : Prop := forall c w,
  match m {| s_c := c; s_env := w |} with (evs, Ok (_, s)) => Q c evs (s_c s) | (evs, UB) => U c evs end.
Definition does_at {A} (c : client) (m : M A) : Prop := forall w,
  match m {| s_c := c; s_env := w |} with (evs, Ok (_, s)) => Q c evs (s_c s) | (evs, UB) => U c evs end.
Lemma does_bind : forall A B (m : M A) (f : A -> M B), does m -> (forall a, does (f a)) -> does (mbind m f).
Proof.
  intros A B m f Hm Hf c w. unfold mbind. specialize (Hm c w). destruct (m _) as [e1 [[a [c1 w1]]|]]; [|exact Hm]. cbn [s_c] in Hm.
  specialize (Hf a c1 w1). destruct (f a _) as [e2 [[b s2]|]]; [eapply sw_app|eapply sw_ub]; eauto.
Qed.
Lemma does_at_bind : forall A B (m : M A) (f : A -> M B) c, does_at c m -> (forall a, does (f a)) -> does_at c (mbind m f).
Proof.
  intros A B m f c Hm Hf w. unfold mbind. specialize (Hm w). destruct (m _) as [e1 [[a [c1 w1]]|]]; [|exact Hm]. cbn [s_c] in Hm.
  specialize (Hf a c1 w1). destruct (f a _) as [e2 [[b s2]|]]; [eapply sw_app|eapply sw_ub]; eauto.
Qed.
Lemma does_all : forall A (m : M A), (forall c, does_at c m) -> does m.
Proof. intros A m H c w. apply H. Qed.
Lemma does_get : forall A (f : client -> M A), (forall c, does_at c (f c)) -> does (mbind get f).
Proof. intros A f H c w. specialize (H c w). unfold mbind, get. cbn [s_c]. destruct (f c _) as [e [[b s]|]]; exact H. Qed.
Lemma does_get' : forall A (f : client -> M A), (forall c, does (f c)) -> does (mbind get f).
Proof. intros A f H. apply does_get. intros c w. apply H. Qed.
Lemma does_ret : forall A (a : A), does (ret a).
Proof. intros A a c w. apply SW. Qed.
Lemma does_at_ret : forall A (a : A) c, does_at c (ret a).
Proof. intros A a c w. apply SW. Qed.
Lemma does_lift : forall A (r : res A), does (lift r).
Proof. intros A [a|] c w; cbn; [apply SW|]. eapply sw_stop; [exact SW|]. apply SW. Qed.
Lemma does_upd : forall f, (forall c, Q c [] (f c)) -> does (upd f).
Proof. intros f H c w. apply H. Qed.
Lemma does_spec : forall A (m : M A), does m -> forall s evs a s', m s = (evs, Ok (a, s')) -> Q (s_c s) evs (s_c s').
Proof. intros A m H [c w] evs a s' E. specialize (H c w). rewrite E in H. exact H. Qed.
Lemma does_twice : forall X tidy try, does (est_client_connect X) -> (forall t, does (try t)) -> (forall c, Q c [] (clear_token_error c)) -> does (twice X tidy try).
Proof.
  intros X tidy try Hc Ht Hu. unfold twice. apply does_bind; [exact Hc|]. intros [e|t]; [apply does_ret|]. apply does_bind; [apply Ht|intro rv]. apply does_get. intro c0.
  assert (G : does (if err_eqb rv EST_ERR_AUTH_FAIL && match mode c0 with AUTH_DIGEST | AUTH_BASIC | AUTH_TOKEN => true | _ => false end then
      if mode_eqb (mode c0) AUTH_DIGEST && x_fips X then ret (EST_ERR_BAD_MODE, false)
      else r2 <~ est_client_connect X ;;
        match r2 with
        | inl e => ret (e, false)
        | inr t2 => rv2 <~ try t2 ;; (if tidy && negb (err_eqb rv2 EST_ERR_NONE) then upd clear_token_error else ret tt) >> ret (rv2, true)
        end
    else ret (rv, true))).
  { destruct (err_eqb rv EST_ERR_AUTH_FAIL && _); [|apply does_ret]. destruct (_ && _); [apply does_ret|]. apply does_bind; [exact Hc|]. intros [e|t2]; [apply does_ret|].
    apply does_bind; [apply Ht|intro rv2]. apply does_bind; [|intro; apply does_ret]. destruct (_ && _); [now apply does_upd|apply does_ret]. }
  intro w. apply G.
Qed.
End Steps.

(** ** Where the client connects *)
Definition steady (c : client) (evs : list event) (c' : client) : Prop :=
  (forall a b t, In (EConnect a b t) evs -> EConnect a b t = conn c) /\ conn c' = conn c.
Definition steady_ub (c : client) (evs : list event) : Prop := forall a b t, In (EConnect a b t) evs -> EConnect a b t = conn c.
Lemma steady_sw : stepwise steady steady_ub.
Proof.
  constructor.
  - intro c. split; [intros a b t []|reflexivity].
  - intros c e1 c1 e2 c2 [H1 H2] [H3 H4]. split; [|congruence]. intros a b t I. apply in_app_or in I as [I|I]; [auto|]. rewrite <- H2. auto.
  - intros c e1 c1 e2 [H1 H2] H3 a b t I. apply in_app_or in I as [I|I]; [auto|]. rewrite <- H2. auto.
  - intros c e c' [H _]. exact H.
Qed.
Ltac steps := repeat match goal with
  | |- does _ _ (ret _) => apply (does_ret _ _ steady_sw)
  | |- does _ _ (lift _) => apply (does_lift _ _ steady_sw)
  | |- does _ _ (upd _) => apply does_upd; intro; split; [intros ? ? ? []|reflexivity]
  | |- does _ _ (emit _) => intros ? ?; cbn; split; [intros ? ? ? [?|[]]; discriminate|reflexivity]
  | |- does _ _ (mbind get _) => apply does_get'; intro
  | |- does _ _ (mbind _ _) => apply (does_bind _ _ steady_sw); [|intro]
  | |- does _ _ (if ?b then _ else _) => destruct b
  | |- does _ _ (match ?x with _ => _ end) => destruct x
  end.
Notation still := (does steady steady_ub).
Lemma still_connect : forall X, still (est_client_connect X).
Proof.
  intros X c w. destruct (connect_run X c w) as (r & -> & H). destruct r as [[[e|t] s]|].
  - destruct H as [_ ->]. split; [intros a b t [<-|[]]; reflexivity|reflexivity].
  - destruct H as [_ ->]. split; [intros a b t' [<-|[]]; reflexivity|reflexivity].
  - intros a b t [<-|[]]. reflexivity.
Qed.
Lemma still_exchange : forall q t, still (exchange q t).
Proof. intros. unfold exchange. steps. Qed.
Lemma still_read : forall op t, still (get_response op t).
Proof. intros. unfold get_response. steps. Qed.
Lemma still_keygen : forall X t, still (get_keygen_response X t).
Proof. intros. unfold get_keygen_response. steps. Qed.
Lemma still_send : forall X op b t, still (est_client_send_enroll_request X op b t).
Proof. intros. unfold est_client_send_enroll_request. steps; try apply still_exchange; try apply still_read; try apply still_keygen. Qed.
Lemma still_req : forall X op d t, still (est_client_enroll_req X op d t).
Proof. intros. unfold est_client_enroll_req. steps. apply still_send. Qed.
Lemma still_pkcs10 : forall X op r k t, still (est_client_enroll_pkcs10 X op r k t).
Proof. intros. unfold est_client_enroll_pkcs10. steps. apply still_req. Qed.
Lemma still_cn : forall X op cn k t, still (est_client_enroll_cn X op cn k t).
Proof. intros. unfold est_client_enroll_cn. steps. apply still_req. Qed.
Lemma still_twice : forall X tidy try, (forall t, still (try t)) -> still (twice X tidy try).
Proof. intros X tidy try H. apply (does_twice _ _ steady_sw); [apply still_connect|exact H|]. intro c. split; [intros ? ? ? []|reflexivity]. Qed.
Lemma still_enroll : forall X op cn k, still (est_client_enroll_internal X op cn k).
Proof. intros. unfold est_client_enroll_internal. steps. apply still_twice. intro. apply still_cn. Qed.
Lemma still_enroll_csr : forall X op r k, still (est_client_enroll_csr_internal X op r k).
Proof. intros. unfold est_client_enroll_csr_internal. steps. apply still_twice. intro. destruct k; [apply still_pkcs10|apply still_req]. Qed.
Lemma still_reenroll : forall X x k, still (est_client_reenroll X x k).
Proof. intros. unfold est_client_reenroll. steps. apply still_twice. intro. apply still_pkcs10. Qed.
Lemma still_cacerts : forall X o, still (est_client_get_cacerts X o).
Proof. intros. unfold est_client_get_cacerts. steps; [apply still_connect|]. unfold est_client_send_cacerts_request. steps; [apply still_exchange|apply still_read]. Qed.
Lemma still_csrattrs : forall X o, still (est_client_get_csrattrs X o).
Proof. intros. unfold est_client_get_csrattrs. steps; [apply still_connect|]. unfold est_client_send_csrattrs_request. steps; [apply still_exchange|apply still_read]. Qed.
Lemma still_copy_cacerts : forall o, still (est_client_copy_cacerts o).
Proof. intros. unfold est_client_copy_cacerts. steps. Qed.
Lemma still_provision : forall X cn k, still (est_client_provision_cert X cn k).
Proof. intros. unfold est_client_provision_cert. steps; [apply still_cacerts|apply still_copy_cacerts|apply still_csrattrs|unfold est_client_enroll; apply still_enroll]. Qed.
Lemma still_plain : forall m, still m -> still (plain m).
Proof. intros m H. unfold plain. steps. exact H. Qed.
Theorem perform_steady : forall X x, (forall n p g, x <> SetServer n p g) -> still (perform X x).
Proof.
  intros X x N. destruct x; cbn [perform].
  - apply still_plain. unfold est_client_enroll. apply still_enroll.
  - apply still_plain. unfold est_client_server_keygen_enroll. apply still_enroll.
  - apply still_plain. apply still_reenroll.
  - apply still_plain. unfold est_client_enroll_csr. apply still_enroll_csr.
  - apply still_plain. unfold est_client_server_keygen_enroll_csr. destruct key; [apply still_enroll_csr|steps].
  - apply still_plain. apply still_provision.
  - apply still_plain. apply still_cacerts.
  - apply still_csrattrs.
  - unfold est_client_copy_enrolled_cert. steps.
  - unfold est_client_copy_server_generated_key. steps.
  - apply still_copy_cacerts.
  - apply still_plain. unfold est_client_set_auth, est_client_set_uid_pw. steps.
  - apply still_plain. unfold est_client_set_auth_cred_cb. steps.
  - apply still_plain. unfold est_client_enable_basic_auth_hint. steps.
  - exfalso. now apply (N server port seg).
  - apply still_plain. unfold est_client_force_pop. steps.
Qed.

(** ** Setting the server *)
Lemma store_text : forall ps blk rc, est_store_path_segment ps (len ps) = Ok (rc, blk) -> rc = EST_ERR_NONE /\ blk = ps ++ [0].
Proof. intros ps blk rc H. rewrite store_spec in H. split; congruence. Qed.
Lemma segment_text : forall p b g rc blk, set_path_segment p b None g = Ok (rc, Some blk) -> exists ps, g = Some ps /\ 0 < len ps <= 128 /\ blk = ps ++ [0] /\ rc = EST_ERR_NONE.
Proof.
  intros p b g rc blk H. unfold set_path_segment in H. destruct g as [ps|]; [|discriminate]. exists ps. split; [reflexivity|].
  assert (L : 0 < len ps) by (destruct ps; [discriminate|rewrite len_cons; pose proof (len_nonneg _ ps); lia]).
  assert (H' : (let l := Z.min (len ps) 129 in
      if 128 <? l then Ok (EST_ERR_HTTP_INVALID_PATH_SEGMENT, None)
      else rc <- est_parse_path_seg p b ps ;; if negb (is_none rc) then Ok (rc, None) else ' (rc2, b0) <- est_store_path_segment ps l ;; Ok (rc2, Some b0)) = Ok (rc, Some blk)) by (destruct ps; [discriminate|exact H]).
  clear H. cbv zeta in H'. destruct (128 <? Z.min (len ps) 129) eqn:E; [discriminate|]. replace (Z.min (len ps) 129) with (len ps) in H' by lia.
  destruct (est_parse_path_seg p b ps) as [rc1|]; [|discriminate]. cbn [bind] in H'. destruct (negb (is_none rc1)); [discriminate|].
  rewrite store_spec in H'. cbn [bind] in H'. assert (rc = EST_ERR_NONE) by congruence. assert (blk = ps ++ [0]) by congruence. subst. repeat split; auto; lia.
Qed.
Lemma segment_none : forall p b g rc, set_path_segment p b None g = Ok (rc, None) -> g = None \/ rc <> EST_ERR_NONE.
Proof.
  intros p b g rc H. destruct g as [ps|]; [right|now left]. unfold set_path_segment in H. destruct ps as [|x ps]; [injection H as <-; discriminate|].
  cbv zeta in H. destruct (128 <? _); [injection H as <-; discriminate|]. destruct (est_parse_path_seg p b _) as [rc1|]; [|discriminate]. cbn [bind] in H.
  destruct (negb (is_none rc1)) eqn:N; [injection H as <-; intros ->; discriminate|]. destruct (est_store_path_segment _ _) as [[rc2 b0]|]; discriminate.
Qed.
Lemma set_server_run : forall X n p g c w, exists r, est_client_set_server X n p g {| s_c := c; s_env := w |} = ([], r) /\
  match r with
  | UB => True
  | Ok (e, s) => s_env s = w /\
    ((e <> EST_ERR_NONE /\ s_c s = c)
     \/ exists name, n = Some name /\ c_init c = true /\ 0 < p <= 65535 /\ len name <= 255
        /\ ((s_c s = put_server name p c /\ (g = None \/ e <> EST_ERR_NONE))
            \/ exists ps seg t, g = Some ps /\ len ps <= 128 /\ ps = seg ++ t /\ s_c s = put_path (Some seg) (put_server name p c) /\ e = EST_ERR_NONE))
  end.
Proof.
  intros X n p g c w. unfold est_client_set_server. run. destruct (c_init c) eqn:Ci; cbn [negb]; [|eexists; split; [reflexivity|]; cbn; split; [reflexivity|]; left; split; [discriminate|reflexivity]].
  destruct n as [name|]; [|eexists; split; [reflexivity|]; cbn; split; [reflexivity|]; left; split; [discriminate|reflexivity]].
  destruct ((p <=? 0) || (65535 <? p)) eqn:Ep; [eexists; split; [reflexivity|]; cbn; split; [reflexivity|]; left; split; [discriminate|reflexivity]|].
  destruct (255 <? len name) eqn:En; [eexists; split; [reflexivity|]; cbn; split; [reflexivity|]; left; split; [discriminate|reflexivity]|]. run.
  destruct (set_path_segment (x_uri X) (x_brski X) None g) as [[rc [blk|]]|] eqn:Sg; [| |eexists; split; [reflexivity|exact I]].
  - apply segment_text in Sg as (ps & -> & Lp & -> & ->). destruct (cstr (ps ++ [0])) as [seg|] eqn:Cs; [|eexists; split; [reflexivity|exact I]].
    eexists. split; [reflexivity|]. cbn [s_env s_c]. split; [reflexivity|]. right. exists name. repeat split; auto; try lia. right. exists ps, seg.
    apply cstr_inv in Cs as (Nn & t & Et). assert (exists t', ps = seg ++ t') as [t' Es].
    { clear - Et. revert ps Et. induction seg as [|x seg IH]; intros ps Et; [exists ps; reflexivity|]. destruct ps as [|y ps].
      - exfalso. cbn in Et. injection Et as _ Et. destruct seg; discriminate.
      - cbn in Et. injection Et as -> Et. destruct (IH ps Et) as [t' ->]. exists t'. reflexivity. }
    exists t'. repeat split; auto; lia.
  - eexists. split; [reflexivity|]. cbn [s_env s_c]. split; [reflexivity|]. right. exists name. repeat split; auto; try lia. left. split; [reflexivity|]. now apply segment_none in Sg.
Qed.

(** ** Credentials *)
(** A scheme was asked for in the trace, or chosen by the application. *)
Definition just (hint : Prop) (tr : list event) (sc : bytes) : Prop := (sc = str "Basic" /\ hint) \/ exists r, In (EResponse r) tr /\ asks sc r.
Definition owes (hint : Prop) (tr : list event) (c : client) : Prop := forall sc, mode_scheme (mode c) = Some sc -> just hint tr sc.
Definition paid (hint : Prop) (tr evs : list event) : Prop :=
  forall a q b, evs = a ++ ERequest q :: b -> credentials q -> exists sc, In sc scheme_names /\ offers sc q /\ just hint (tr ++ a) sc.
Definition honest (c : client) (evs : list event) (c' : client) : Prop :=
  fit c -> fit c' /\ forall hint tr, owes hint tr c -> paid hint tr evs /\ owes hint (tr ++ evs) c'.
Definition honest_ub (c : client) (evs : list event) : Prop := fit c -> forall hint tr, owes hint tr c -> paid hint tr evs.
Lemma just_app : forall hint a b sc, just hint a sc -> just hint (a ++ b) sc.
Proof. intros hint a b sc [H|(r & I & H)]; [now left|]. right. exists r. split; [apply in_or_app; now left|exact H]. Qed.
Lemma paid_nil : forall hint tr, paid hint tr [].
Proof. intros hint tr a q b E. destruct a; discriminate. Qed.
Lemma paid_app : forall hint tr e1 e2, paid hint tr e1 -> paid hint (tr ++ e1) e2 -> paid hint tr (e1 ++ e2).
Proof.
  intros hint tr e1 e2 P1 P2 a q b E Cq. destruct (app_eq_app e1 e2 a (ERequest q :: b) E) as [l H]. destruct H as [[H1 H2]|[H1 H2]].
  - destruct l as [|x l]; cbn in H2.
    + rewrite app_nil_r in H1. subst a. rewrite <- (app_nil_r e1). destruct (P2 [] q b (eq_sym H2) Cq) as (sc & I1 & I2 & I3). exists sc. rewrite app_nil_r in *. auto.
    + injection H2 as <- H2. apply (P1 a q l H1 Cq).
  - subst a. destruct (P2 l q b H2 Cq) as (sc & I1 & I2 & I3). exists sc. rewrite app_assoc. auto.
Qed.
Lemma honest_sw : stepwise honest honest_ub.
Proof.
  constructor.
  - intros c F. split; [exact F|]. intros hint tr O. rewrite app_nil_r. split; [apply paid_nil|exact O].
  - intros c e1 c1 e2 c2 H1 H2 F. destruct (H1 F) as [F1 G1]. destruct (H2 F1) as [F2 G2]. split; [exact F2|]. intros hint tr O. destruct (G1 hint tr O) as [P1 O1]. destruct (G2 hint _ O1) as [P2 O2].
    rewrite app_assoc. split; [now apply paid_app|exact O2].
  - intros c e1 c1 e2 H1 H2 F hint tr O. destruct (H1 F) as [F1 G1]. destruct (G1 hint tr O) as [P1 O1]. apply paid_app; [exact P1|]. now apply H2.
  - intros c e c' H F hint tr O. now apply H.
Qed.
Notation fair := (does honest honest_ub).
Lemma honest_same : forall c c', (fit c -> fit c') -> mode c' = mode c -> honest c [] c'.
Proof. intros c c' Hf Hm F. split; [auto|]. intros hint tr O. rewrite app_nil_r. split; [apply paid_nil|]. unfold owes in *. now rewrite Hm. Qed.
Lemma honest_none : forall c c', (fit c -> fit c') -> mode_scheme (mode c') = None -> honest c [] c'.
Proof. intros c c' Hf Hm F. split; [auto|]. intros hint tr O. split; [apply paid_nil|]. unfold owes. rewrite Hm. discriminate. Qed.

Lemma tells_paid : forall c q hint tr, tells c q -> owes hint tr c -> forall rest, (forall x, In x rest -> match x with ERequest _ => False | _ => True end) -> paid hint tr (ERequest q :: rest).
Proof.
  intros c q hint tr T O rest Hr a q' b E Cq. destruct a as [|x a].
  - cbn in E. injection E as <- <-. unfold tells in T. destruct (mode_scheme (mode c)) as [sc|] eqn:Ms; [|contradiction]. exists sc. rewrite app_nil_r. split; [eapply mode_scheme_in; eauto|]. auto.
  - cbn in E. injection E as _ E. exfalso. assert (I : In (ERequest q') rest) by (rewrite E; apply in_or_app; right; now left). specialize (Hr _ I). exact Hr.
Qed.
Lemma anon_paid : forall q hint tr, ~ credentials q -> forall rest, (forall x, In x rest -> match x with ERequest _ => False | _ => True end) -> paid hint tr (ERequest q :: rest).
Proof.
  intros q hint tr N rest Hr a q' b E Cq. destruct a as [|x a].
  - cbn in E. injection E as <- _. contradiction.
  - cbn in E. injection E as _ E. exfalso. assert (I : In (ERequest q') rest) by (rewrite E; apply in_or_app; right; now left). exact (Hr _ I).
Qed.
Lemma reply_owes : forall m r e m' hint tr c c', reply_mode m r e m' -> mode c = m -> mode c' = m' -> owes hint tr c -> In (EResponse r) tr -> owes hint tr c'.
Proof.
  intros m r e m' hint tr c c' R Em Em' O I sc Hs. subst m m'. destruct R as [[_ R]|(_ & _ & [R|(_ & sc' & R1 & R2)])].
  - rewrite R in Hs. now apply O.
  - rewrite R in Hs. discriminate.
  - assert (sc' = sc) by congruence. subst sc'. right. exists r. auto.
Qed.
Lemma owes_app : forall hint a b c, owes hint a c -> owes hint (a ++ b) c.
Proof. intros hint a b c O sc H. apply just_app. now apply O. Qed.
Lemma tries_fair : forall X op try t, tries X op try -> fair (try t).
Proof.
  intros X op try t T c w.
  assert (G : fit c -> exists evs r, try t {| s_c := c; s_env := w |} = (evs, lands w r) /\ match r with Ok (_, c') => fit c' /\ forall hint tr, owes hint tr c -> paid hint tr evs /\ owes hint (tr ++ evs) c' | UB => forall hint tr, owes hint tr c -> paid hint tr evs end).
  { intro F. destruct (T t c w F) as (evs & r & E & Tr). exists evs, r. split; [exact E|]. pose proof (fun e c' H => proj1 (proj2 (tried_conn X op t c evs e c' H))) as Fc.
    inversion Tr; subst.
    - intros. apply paid_nil.
    - split; [eapply Fc; eauto|]. intros hint tr O. rewrite app_nil_r. split; [apply paid_nil|exact O].
    - split; [eapply Fc; eauto|]. intros hint tr O. split; [eapply tells_paid; eauto; intros x []|]. apply owes_app. exact O.
    - intros hint tr O. eapply tells_paid; eauto. intros x [<-|[]]. exact I.
    - split; [eapply Fc; eauto|]. intros hint tr O. split; [eapply tells_paid; eauto; intros x [<-|[]]; exact I|].
      eapply reply_owes; [eassumption|reflexivity|reflexivity|apply owes_app; exact O|]. apply in_or_app. right. right. now left.
    - split; [eapply Fc; eauto|]. intros hint tr O. split; [eapply tells_paid; eauto; intros x [<-|[]]; exact I|]. apply owes_app. intros sc Hs. apply O. cbn in Hs. congruence.
    - split; [eapply Fc; eauto|]. intros hint tr O. split; [eapply tells_paid; eauto; intros x [<-|[]]; exact I|]. apply owes_app. intros sc Hs. apply O. cbn in Hs. congruence. }
  destruct (try t {| s_c := c; s_env := w |}) as [evs r] eqn:E. destruct r as [[e s]|]; intro F; destruct (G F) as (evs' & r' & E' & H); injection E' as -> E'; destruct r' as [[e' c']|]; try discriminate.
  - injection E' as -> ->. exact H.
  - exact H.
Qed.

Lemma fair_connect : forall X, fair (est_client_connect X).
Proof.
  intros X c w. destruct (connect_run X c w) as (r & -> & H).
  assert (P : forall hint tr, paid hint tr [conn c]) by (intros hint tr a q b E; destruct a as [|x [|y a]]; discriminate).
  destruct r as [[[e|t] s]|].
  - destruct H as [_ ->]. intro F. split; [exact F|]. intros hint tr O. split; [apply P|now apply owes_app].
  - destruct H as [_ ->]. intro F. split; [exact F|]. intros hint tr O. split; [apply P|now apply owes_app].
  - intros F hint tr O. apply P.
Qed.
(** A GET request and its response, for a request that keeps to the rule. *)
Lemma get_step : forall op t q c w, (fit c -> tells c q \/ ~ credentials q) ->
  match (wr <~ exchange q t ;; if negb wr then ret None else ' (rv, d) <~ get_response op t ;; ret (Some (rv, d))) {| s_c := c; s_env := w |} with
  | (evs, Ok (_, s)) => honest c evs (s_c s) | (evs, UB) => honest_ub c evs end.
Proof.
  intros op t q c w Tq. unfold exchange, get_response. run.
  assert (P : forall rest, (forall x, In x rest -> match x with ERequest _ => False | _ => True end) -> fit c -> forall hint tr, owes hint tr c -> paid hint tr (ERequest q :: rest)).
  { intros rest Hr F hint tr O. destruct (Tq F) as [T|T]; [eapply tells_paid; eauto|now apply anon_paid]. }
  destruct (t_write t); run; cbn [negb].
  - destruct (est_io_get_response (t_reads t) op _) as [[[rv d] k]|] eqn:G; run.
    + intro F. split; [exact F|]. intros hint tr O. split; [apply P; auto; intros x [<-|[]]; exact I|]. apply response_mode in G.
      eapply reply_owes; [exact G|reflexivity|reflexivity|apply (owes_app hint tr _ c); exact O|]. apply in_or_app. right. right. now left.
    + intros F hint tr O. apply P; auto. intros x [<-|[]]; exact I.
  - intro F. split; [exact F|]. intros hint tr O. split; [apply P; auto; intros x []|]. now apply (owes_app hint tr _ c).
Qed.
Lemma mbind_assoc : forall A B C (m : M A) (f : A -> M B) (g : B -> M C) s, mbind (mbind m f) g s = mbind m (fun a => mbind (f a) g) s.
Proof.
  intros. unfold mbind. destruct (m s) as [e1 [[a s1]|]]; [|reflexivity]. destruct (f a s1) as [e2 [[b s2]|]]; [|reflexivity]. destruct (g b s2) as [e3 r]. rewrite app_assoc. reflexivity.
Qed.
Lemma does_ext : forall Q U A (m m' : M A) c, (forall s, m s = m' s) -> does_at Q U c m -> does_at Q U c m'.
Proof. intros Q U A m m' c E H w. rewrite <- E. apply H. Qed.
Lemma mbind_ext : forall A B (m : M A) (f g : A -> M B) s, (forall a s, f a s = g a s) -> mbind m f s = mbind m g s.
Proof. intros A B m f g s E. unfold mbind. destruct (m s) as [e [[a s1]|]]; [|reflexivity]. rewrite E. reflexivity. Qed.
Ltac fsteps := repeat match goal with
  | |- does _ _ (ret _) => apply (does_ret _ _ honest_sw)
  | |- does _ _ (lift _) => apply (does_lift _ _ honest_sw)
  | |- does _ _ (upd _) => apply does_upd; intro; first [apply honest_none; [exact (fun H => H)|reflexivity] | apply honest_same; [exact (fun H => H)|reflexivity]]
  | |- does _ _ (mbind get _) => apply does_get'; intro
  | |- does _ _ (mbind _ _) => apply (does_bind _ _ honest_sw); [|intro]
  | |- does _ _ (if ?b then _ else _) => destruct b
  | |- does _ _ (match ?x with _ => _ end) => destruct x
  end.
Definition after {A} (bad : A) (f : est_error -> delivery -> M A) (o : option (est_error * delivery)) : M A :=
  match o with None => ret bad | Some (rv, d) => f rv d end.
Lemma get_shape : forall A op t q (bad : A) f s,
  mbind (wr <~ exchange q t ;; if negb wr then ret None else ' (rv, d) <~ get_response op t ;; ret (Some (rv, d))) (after bad f) s
  = (wr <~ exchange q t ;; if negb wr then ret bad else ' (rv, d) <~ get_response op t ;; f rv d) s.
Proof.
  intros. rewrite mbind_assoc. apply mbind_ext. intros wr s1. destruct (negb wr); [reflexivity|]. rewrite mbind_assoc. apply mbind_ext. intros [rv d] s2.
  unfold mbind, ret, after. destruct (f rv d s2). reflexivity.
Qed.
Lemma fair_cacerts : forall X o, fair (est_client_get_cacerts X o).
Proof.
  intros. unfold est_client_get_cacerts. fsteps; [apply fair_connect|]. unfold est_client_send_cacerts_request. apply does_get. intro c0. cbv zeta.
  destruct (_ =? 0); [apply (does_at_ret _ _ honest_sw)|]. eapply does_ext; [intro s1; apply (get_shape _ OP_CACERTS s _ EST_ERR_SSL_WRITE)|].
  apply (does_at_bind _ _ honest_sw); [intro w; apply get_step; intro F; right; now apply cacerts_request|]. intros [[rv d]|]; cbn [after]; fsteps.
Qed.
Lemma fair_csrattrs : forall X o, fair (est_client_get_csrattrs X o).
Proof.
  intros. unfold est_client_get_csrattrs. fsteps; [apply fair_connect|]. unfold est_client_send_csrattrs_request. apply does_get. intro c0.
  destruct (est_client_build_csr_header X c0 s) as [h|] eqn:B.
  2: { intro w. unfold lift, mbind. cbn [bind]. eapply sw_stop; [exact honest_sw|]. apply honest_sw. }
  eapply (does_ext _ _ _ (if len h =? 0 then ret (EST_ERR_HTTP_CANNOT_BUILD_HEADER, None) else _)).
  { intro s1. unfold mbind at 1, lift. cbn [bind]. destruct (len h =? 0) eqn:E; [reflexivity|].
    match goal with |- _ = (let '(e2, r) := ?x in ([] ++ e2, r)) => transitivity x; [reflexivity|destruct x; reflexivity] end. }
  destruct (len h =? 0) eqn:E; [apply (does_at_ret _ _ honest_sw)|].
  eapply does_ext; [intro s1; apply (get_shape _ OP_CSRATTRS s _ (EST_ERR_SSL_WRITE, None))|].
  apply (does_at_bind _ _ honest_sw); [intro w; apply get_step; intro F; left; eapply csr_request; eauto|]. intros [[rv d]|]; cbn [after]; fsteps.
Qed.
Lemma fair_copy_cacerts : forall o, fair (est_client_copy_cacerts o).
Proof. intros. unfold est_client_copy_cacerts. fsteps. Qed.
Lemma fair_twice : forall X op tidy try, tries X op try -> fair (twice X tidy try).
Proof. intros X op tidy try T. apply (does_twice _ _ honest_sw); [apply fair_connect|intro t; eapply tries_fair; eauto|]. intro c. apply honest_same; [exact (fun H => H)|reflexivity]. Qed.
Lemma fair_enroll : forall X op cn k, lawful X -> enrolls op -> fair (est_client_enroll_internal X op cn k).
Proof. intros. unfold est_client_enroll_internal. fsteps. eapply fair_twice. now apply cn_tries. Qed.
Lemma fair_enroll_csr : forall X op r k, lawful X -> enrolls op -> match r with Some x => all_bytes x | None => True end -> fair (est_client_enroll_csr_internal X op r k).
Proof. intros X op r k L E P. unfold est_client_enroll_csr_internal. fsteps. eapply fair_twice. destruct k; [now apply pkcs10_tries|now apply req_tries]. Qed.
Lemma fair_reenroll : forall X x k, lawful X -> fair (est_client_reenroll X x k).
Proof. intros. unfold est_client_reenroll. fsteps. eapply fair_twice. apply pkcs10_tries; [assumption|]. right. now left. Qed.
Lemma fair_provision : forall X cn k, lawful X -> fair (est_client_provision_cert X cn k).
Proof. intros. unfold est_client_provision_cert. fsteps; [apply fair_cacerts|apply fair_copy_cacerts|apply fair_csrattrs|unfold est_client_enroll; apply fair_enroll; [assumption|now left]]. Qed.
Lemma fair_plain : forall m, fair m -> fair (plain m).
Proof. intros m H. unfold plain. fsteps. exact H. Qed.
Lemma fair_set_server : forall X n p g, proper (SetServer n p g) -> fair (est_client_set_server X n p g).
Proof.
  intros X n p g [Pn Pg] c w. destruct (set_server_run X n p g c w) as (r & -> & H). destruct r as [[e s]|]; [|eapply sw_stop; [exact honest_sw|apply honest_sw]].
  destruct H as [_ [[_ ->]|(name & -> & _ & Hp & Ln & [[-> _]|(ps & seg & t & -> & Lp & Es & -> & _)])]].
  - apply honest_sw.
  - apply honest_same; [|reflexivity]. intros (_ & _ & _ & Fp). repeat split; cbn; auto; lia.
  - apply honest_same; [|reflexivity]. intros _. repeat split; cbn; auto; try lia; rewrite Es in *; [rewrite len_app in Lp; pose proof (len_nonneg _ t); lia|]. intro I. apply Pg. apply in_or_app. now left.
Qed.
Theorem perform_fair : forall X x, lawful X -> proper x -> x <> BasicHint -> fair (perform X x).
Proof.
  intros X x L P N. destruct x; cbn [perform].
  - apply fair_plain. unfold est_client_enroll. apply fair_enroll; [exact L|now left].
  - apply fair_plain. unfold est_client_server_keygen_enroll. apply fair_enroll; [exact L|right; now right].
  - apply fair_plain. now apply fair_reenroll.
  - apply fair_plain. unfold est_client_enroll_csr. apply fair_enroll_csr; [exact L|now left|exact P].
  - apply fair_plain. unfold est_client_server_keygen_enroll_csr. destruct key; [apply fair_enroll_csr; [exact L|right; now right|exact P]|fsteps].
  - apply fair_plain. now apply fair_provision.
  - apply fair_plain. apply fair_cacerts.
  - apply fair_csrattrs.
  - unfold est_client_copy_enrolled_cert. fsteps.
  - unfold est_client_copy_server_generated_key. fsteps.
  - apply fair_copy_cacerts.
  - apply fair_plain. unfold est_client_set_auth, est_client_set_uid_pw. fsteps.
  - apply fair_plain. unfold est_client_set_auth_cred_cb. fsteps.
  - now elim N.
  - apply fair_plain. now apply fair_set_server.
  - apply fair_plain. unfold est_client_force_pop. fsteps.
Qed.
