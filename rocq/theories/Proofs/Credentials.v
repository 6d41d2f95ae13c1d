(** Which calls change the credentials a client holds. *)
From Coq Require Import String ZArith List Bool Lia ZifyBool ZifyNat.
From Verif Require Import Base Spec.Http Spec.Client Spec.ClientCalls Spec.Credentials Model.CLib Model.EstErr Model.Uri Model.AuthHdr Model.ClientHttp Model.Client
  Proofs.EstErr Proofs.ClientCalls Proofs.ClientHonest.
Import ListNotations.
Open Scope Z_scope.

Definition ident (c : client) := (c_user c, c_pwd c, c_cb c).
Definition same (c : client) (evs : list event) (c' : client) : Prop := ident c' = ident c.
Definition same_ub (c : client) (evs : list event) : Prop := True.
Lemma same_sw : stepwise same same_ub.
Proof. constructor; unfold same, same_ub; intros; auto; congruence. Qed.
Ltac steps := repeat match goal with
  | |- does _ _ (ret _) => apply (does_ret _ _ same_sw)
  | |- does _ _ (lift _) => apply (does_lift _ _ same_sw)
  | |- does _ _ (upd _) => apply does_upd; intro; reflexivity
  | |- does _ _ (emit _) => intros ? ?; reflexivity
  | |- does _ _ (mbind get _) => apply does_get'; intro
  | |- does _ _ (mbind _ _) => apply (does_bind _ _ same_sw); [|intro]
  | |- does _ _ (if ?b then _ else _) => destruct b
  | |- does _ _ (match ?x with _ => _ end) => destruct x
  end.
Notation keeps := (does same same_ub).
Lemma keeps_connect : forall X, keeps (est_client_connect X).
Proof.
  intros X c w. destruct (connect_run X c w) as (r & -> & H). destruct r as [[[e|t] s]|]; [destruct H as [_ ->]; reflexivity..|exact I].
Qed.
Lemma keeps_exchange : forall q t, keeps (exchange q t).
Proof. intros. unfold exchange. steps. Qed.
Lemma keeps_read : forall op t, keeps (get_response op t).
Proof. intros. unfold get_response. steps. Qed.
Lemma keeps_keygen : forall X t, keeps (get_keygen_response X t).
Proof. intros. unfold get_keygen_response. steps. Qed.
Lemma keeps_send : forall X op b t, keeps (est_client_send_enroll_request X op b t).
Proof. intros. unfold est_client_send_enroll_request. steps; try apply keeps_exchange; try apply keeps_read; try apply keeps_keygen. Qed.
Lemma keeps_req : forall X op d t, keeps (est_client_enroll_req X op d t).
Proof. intros. unfold est_client_enroll_req. steps. apply keeps_send. Qed.
Lemma keeps_pkcs10 : forall X op r k t, keeps (est_client_enroll_pkcs10 X op r k t).
Proof. intros. unfold est_client_enroll_pkcs10. steps. apply keeps_req. Qed.
Lemma keeps_cn : forall X op cn k t, keeps (est_client_enroll_cn X op cn k t).
Proof. intros. unfold est_client_enroll_cn. steps. apply keeps_req. Qed.
Lemma keeps_twice : forall X tidy try, (forall t, keeps (try t)) -> keeps (twice X tidy try).
Proof. intros X tidy try H. apply (does_twice _ _ same_sw); [apply keeps_connect|exact H|]. intro c. reflexivity. Qed.
Lemma keeps_enroll : forall X op cn k, keeps (est_client_enroll_internal X op cn k).
Proof. intros. unfold est_client_enroll_internal. steps. apply keeps_twice. intro. apply keeps_cn. Qed.
Lemma keeps_enroll_csr : forall X op r k, keeps (est_client_enroll_csr_internal X op r k).
Proof. intros. unfold est_client_enroll_csr_internal. steps. apply keeps_twice. intro. destruct k; [apply keeps_pkcs10|apply keeps_req]. Qed.
Lemma keeps_reenroll : forall X x k, keeps (est_client_reenroll X x k).
Proof. intros. unfold est_client_reenroll. steps. apply keeps_twice. intro. apply keeps_pkcs10. Qed.
Lemma keeps_cacerts : forall X o, keeps (est_client_get_cacerts X o).
Proof. intros. unfold est_client_get_cacerts. steps; [apply keeps_connect|]. unfold est_client_send_cacerts_request. steps; [apply keeps_exchange|apply keeps_read]. Qed.
Lemma keeps_csrattrs : forall X o, keeps (est_client_get_csrattrs X o).
Proof. intros. unfold est_client_get_csrattrs. steps; [apply keeps_connect|]. unfold est_client_send_csrattrs_request. steps; [apply keeps_exchange|apply keeps_read]. Qed.
Lemma keeps_copy_cacerts : forall o, keeps (est_client_copy_cacerts o).
Proof. intros. unfold est_client_copy_cacerts. steps. Qed.
Lemma keeps_provision : forall X cn k, keeps (est_client_provision_cert X cn k).
Proof. intros. unfold est_client_provision_cert. steps; [apply keeps_cacerts|apply keeps_copy_cacerts|apply keeps_csrattrs|unfold est_client_enroll; apply keeps_enroll]. Qed.
Lemma keeps_plain : forall m, keeps m -> keeps (plain m).
Proof. intros m H. unfold plain. steps. exact H. Qed.
Theorem perform_keeps : forall X x, (forall u p k, x <> SetAuth u p k) -> (forall b, x <> SetCallback b) -> keeps (perform X x).
Proof.
  intros X x N N2. destruct x; cbn [perform].
  - apply keeps_plain. unfold est_client_enroll. apply keeps_enroll.
  - apply keeps_plain. unfold est_client_server_keygen_enroll. apply keeps_enroll.
  - apply keeps_plain. apply keeps_reenroll.
  - apply keeps_plain. unfold est_client_enroll_csr. apply keeps_enroll_csr.
  - apply keeps_plain. unfold est_client_server_keygen_enroll_csr. destruct key; [apply keeps_enroll_csr|steps].
  - apply keeps_plain. apply keeps_provision.
  - apply keeps_plain. apply keeps_cacerts.
  - apply keeps_csrattrs.
  - unfold est_client_copy_enrolled_cert. steps.
  - unfold est_client_copy_server_generated_key. steps.
  - apply keeps_copy_cacerts.
  - exfalso. now apply (N uid pwd cert).
  - exfalso. now apply (N2 present).
  - apply keeps_plain. unfold est_client_enable_basic_auth_hint. steps.
  - apply keeps_plain. unfold est_client_set_server. steps.
  - apply keeps_plain. unfold est_client_force_pop. steps.
Qed.

(** ** The latest call *)
Lemma latest_snoc_new : forall V (f : call -> V -> Prop) i log e v, f (e_call e) v -> latest f i (log ++ [e]) v.
Proof. intros. left. exists log, e, []. split; [reflexivity|]. split; [assumption|]. intros ? []. Qed.
Lemma latest_snoc_old : forall V (f : call -> V -> Prop) i log e v, (forall v', ~ f (e_call e) v') -> latest f i log v -> latest f i (log ++ [e]) v.
Proof.
  intros V f i log e v N [(l1 & x & l2 & -> & F & R)|(E & R)].
  - left. exists l1, x, (l2 ++ [e]). rewrite <- app_assoc. split; [reflexivity|]. split; [exact F|]. intros e' I. apply in_app_or in I as [I|[<-|[]]]; auto.
  - right. split; [exact E|]. intros e' I. apply in_app_or in I as [I|[<-|[]]]; auto.
Qed.

(** ** Setting the credentials *)
Definition after_auth (uid pwd : option bytes) (c : client) : client :=
  let reset c := put_http (set_mode AUTH_NONE (c_http c)) c in
  match uid, pwd with
  | None, None => reset c
  | Some u, Some p =>
      if 255 <? len u then c else if 255 <? len p then put_user u c else reset (put_pwd p (put_user u c))
  | _, _ => c
  end.
Definition auth_code (uid pwd : option bytes) (cert : option bool) : est_error :=
  match uid, pwd with
  | Some _, None | None, Some _ => EST_ERR_INVALID_PARAMETERS
  | _, _ => if match uid with Some u => 255 <? len u | None => false end || match pwd with Some p => 255 <? len p | None => false end
            then EST_ERR_INVALID_PARAMETERS
            else match cert with Some false => EST_ERR_CLIENT_INVALID_KEY | _ => EST_ERR_NONE end
  end.
Lemma set_auth_run : forall X uid pwd cert c w,
  perform X (SetAuth uid pwd cert) {| s_c := c; s_env := w |}
  = ([], Ok (auth_code uid pwd cert, None, {| s_c := after_auth uid pwd c; s_env := w |})).
Proof.
  intros X [u|] [p|] cert c w; unfold after_auth, auth_code; cbn [perform]; unfold plain, est_client_set_auth, est_client_set_uid_pw.
  - destruct (255 <? len u); [reflexivity|]. destruct (255 <? len p); [reflexivity|]. destruct cert as [[|]|]; reflexivity.
  - reflexivity.
  - reflexivity.
  - destruct cert as [[|]|]; reflexivity.
Qed.
Theorem credentials_held : forall X a w log s, history X (fresh a w) log s ->
  latest names [] log (c_user (s_c s)) /\ latest gives [] log (c_pwd (s_c s)) /\ latest installs false log (c_cb (s_c s)).
Proof.
  intros X a w log s H. induction H as [|log s1 x evs e o s2 H IH E].
  - repeat split; right; (split; [reflexivity|intros ? []]).
  - assert (D : (exists u p k, x = SetAuth u p k) \/ (exists b, x = SetCallback b) \/ ((forall u p k, x <> SetAuth u p k) /\ forall b, x <> SetCallback b))
      by (destruct x; eauto 6; right; right; split; intros; discriminate).
    destruct IH as (IU & IP & IC). destruct D as [(u & p & k & ->)|[(b & ->)|[N1 N2]]].
    + destruct s1 as [c1 w1]. rewrite set_auth_run in E. injection E as <- <- <- <-. cbn [s_c] in *.
      split; [|split; [|apply latest_snoc_old; [intros v' V; discriminate V|destruct u as [u|], p as [p|]; cbn [after_auth]; try exact IC; destruct (255 <? len u), (255 <? len p); exact IC]]].
      * destruct u as [u|], p as [p|]; cbn [after_auth].
        -- destruct (255 <? len u) eqn:L.
           ++ apply latest_snoc_old; [|exact IU]. intros v' (p' & k' & V & L'). cbn [e_call] in V. injection V as -> _ _. lia.
           ++ replace (c_user _) with u by (destruct (255 <? len p); reflexivity). apply latest_snoc_new. exists p, k. split; [reflexivity|lia].
        -- apply latest_snoc_old; [intros v' (p' & k' & V & _); discriminate V|exact IU].
        -- apply latest_snoc_old; [intros v' (p' & k' & V & _); discriminate V|exact IU].
        -- apply latest_snoc_old; [intros v' (p' & k' & V & _); discriminate V|exact IU].
      * destruct u as [u|], p as [p|]; cbn [after_auth].
        -- destruct (255 <? len u) eqn:L; [|destruct (255 <? len p) eqn:L2].
           ++ apply latest_snoc_old; [|exact IP]. intros v' (p' & k' & V & L' & _). cbn [e_call] in V. injection V as -> _ _. lia.
           ++ apply latest_snoc_old; [|exact IP]. intros v' (p' & k' & V & _ & L'). cbn [e_call] in V. injection V as _ -> _. lia.
           ++ replace (c_pwd _) with p by reflexivity. apply latest_snoc_new. exists u, k. split; [reflexivity|]. split; lia.
        -- apply latest_snoc_old; [intros v' (p' & k' & V & _); discriminate V|exact IP].
        -- apply latest_snoc_old; [intros v' (p' & k' & V & _); discriminate V|exact IP].
        -- apply latest_snoc_old; [intros v' (p' & k' & V & _); discriminate V|exact IP].
    + destruct s1 as [c1 w1]. cbv in E. injection E as <- <- <- <-. cbn [s_c] in *.
      split; [|split]; [apply latest_snoc_old; [intros v' (p' & k' & V & _); discriminate V|first [exact IU|exact IP]]..|]. apply latest_snoc_new. reflexivity.
    + pose proof (does_spec _ _ _ _ (perform_keeps X x N1 N2) _ _ _ _ E) as Q. unfold same, ident in Q. injection Q as -> -> ->.
      split; [|split]; apply latest_snoc_old; auto; cbn [e_call].
      * intros v' (p' & k' & V & _). now apply (N1 (Some v') (Some p') k').
      * intros v' (p' & k' & V & _). now apply (N1 (Some p') (Some v') k').
Qed.

Lemma names_one : forall x u u', names x u -> names x u' -> u = u'.
Proof. intros x u u' (? & ? & A & _) (? & ? & B & _). congruence. Qed.
Lemma gives_one : forall x u u', gives x u -> gives x u' -> u = u'.
Proof. intros x u u' (? & ? & A & _) (? & ? & B & _). congruence. Qed.
Lemma latest_unique : forall V (f : call -> V -> Prop) i log v v', (forall x a b, f x a -> f x b -> a = b) ->
  latest f i log v -> latest f i log v' -> v = v'.
Proof.
  intros V f i log v v' O. revert v v'. induction log as [|e log IH] using rev_ind; intros v v' [(l1 & x & l2 & E & F & R)|(E & R)] [(l1' & x' & l2' & E' & F' & R')|(E' & R')]; try congruence;
    try (destruct l1; discriminate); try (destruct l1'; discriminate).
  - destruct l2 as [|y l2 _] using rev_ind.
    + apply app_inj_tail in E as [-> ->]. destruct l2' as [|y' l2' _] using rev_ind.
      * apply app_inj_tail in E' as [_ ->]. eapply O; eassumption.
      * rewrite app_comm_cons, app_assoc in E'. apply app_inj_tail in E' as [_ ->]. exfalso. eapply R'; [|exact F]. apply in_or_app. right. now left.
    + rewrite app_comm_cons, app_assoc in E. apply app_inj_tail in E as [-> ->]. destruct l2' as [|y' l2' _] using rev_ind.
      * apply app_inj_tail in E' as [_ ->]. exfalso. eapply R; [|exact F']. apply in_or_app. right. now left.
      * rewrite app_comm_cons, app_assoc in E'. apply app_inj_tail in E' as [E' ->]. apply IH.
        -- left. exists l1, x, l2. split; [reflexivity|]. split; [exact F|]. intros e' I. apply R. apply in_or_app. now left.
        -- left. exists l1', x', l2'. split; [exact E'|]. split; [exact F'|]. intros e' I. apply R'. apply in_or_app. now left.
  - exfalso. rewrite E in R'. eapply R'; [|exact F]. apply in_elt.
  - exfalso. rewrite E' in R. eapply R; [|exact F']. apply in_elt.
Qed.
