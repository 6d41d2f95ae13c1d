(** C18, C19, C20 (registration), C59: configuring a server.  Read with
    Spec/Config.v.  [configured h c]: [c] is the context after est_server_init
    and any sequence of configuration calls, [h] lists the calls with their
    results. *)
From Coq Require Import String ZArith List Bool Lia ZifyBool ZifyNat.
From Verif Require Import Base Spec.Base64 Spec.Der Spec.Server Spec.Config Model.EstErr Model.HttpServer Model.AuthHdr Model.Server Model.CsrAttrs Model.Config
  Proofs.Codec Proofs.Der Proofs.Config Properties.Server Properties.CsrAttrs.
Import ListNotations.
Open Scope Z_scope.

Section S.
Variable G : bytes -> option header.
Variable bio : bool -> bytes -> Z -> bytes.
Definition configured (h : list (op * est_error)) (c : ctx) : Prop :=
  exists chain cl resp rl pem realm cert key a1 a2 a3 c0 os,
    est_server_init chain cl resp rl pem realm cert key a1 a2 a3 = Some c0 /\ calls G bio os c0 = Ok (h, c).

(** ** C18 *)
Theorem C18 : forall h c, configured h c -> within_limits c.
Proof.
  intros h c (? & ? & ? & ? & ? & ? & ? & ? & ? & ? & ? & c0 & os & I & H).
  eapply calls_limits; [|exact H]. exact (init_limits G bio _ _ _ _ _ _ _ _ _ _ _ _ I).
Qed.
(** Arguments in the limits are accepted, others are rejected without effect. *)
Theorem C18_exact : forall o c, depends_on_state o = false ->
  (valid_argument o -> exists c', step G bio o c = Ok (EST_ERR_NONE, c'))
  /\ (~ valid_argument o -> exists e, e <> EST_ERR_NONE /\ step G bio o c = Ok (e, c)).
Proof. exact (step_valid G bio). Qed.
Theorem C18_sessions : forall n c, x_port c = 0 ->
  (2 <= n <= 128 -> exists c', step G bio (SetSessionMax n true) c = Ok (EST_ERR_NONE, c') /\ x_sessions c' = n /\ x_req_array c' = Some n /\ x_req_max c' = n)
  /\ (~ 2 <= n <= 128 -> step G bio (SetSessionMax n true) c = Ok (EST_ERR_INVALID_PARAMETERS, c)).
Proof.
  intros n c P. cbn [step]. unfold est_server_set_dtls_session_max. rewrite P. cbn [Z.eqb negb].
  split; intro N.
  - replace ((n <? 2) || (128 <? n)) with false by lia. eexists. split; [reflexivity|]. auto.
  - replace ((n <? 2) || (128 <? n)) with true by lia. reflexivity.
Qed.
(** A configured server can be used: its authentication mode has a challenge,
    its retry period is no negative number. *)
Theorem C18_server : forall h c cert (ti : bytes -> cert -> bool) tv e1 e2 e3 e4, configured h c ->
  challenges (server_config ti tv e1 e2 e3 e4 c) /\ 0 <= c_retry (server_config ti tv e1 e2 e3 e4 c).
Proof.
  intros h c cert ti tv e1 e2 e3 e4 Cf. destruct (C18 _ _ Cf). unfold challenges. cbn [c_auth_mode server_config c_retry]. split; [|lia].
  destruct lim_auth as [<-|[<-|[<-|[]]]]; exact Logic.I.
Qed.

(** ** C59 *)
(** Every setting is what the last accepted call made it, or the default. *)
Theorem C59 : forall h c, configured h c ->
  x_auth_mode c = setting AUTH_BASIC sets_auth h
  /\ x_required c = setting 1 sets_required h
  /\ x_retry c = setting 3600 sets_retry h
  /\ x_brski_retry c = setting 30 sets_brski h
  /\ x_read_timeout c = setting 10 sets_read h
  /\ x_dtls_timer c = setting 0 sets_timer h
  /\ x_mtu c = setting 0 sets_mtu h
  /\ x_pop c = setting true sets_pop h
  /\ x_enforce c = setting false sets_enforce h
  /\ x_eca c = setting false sets_eca h
  /\ x_csr_check c = setting false sets_csr_check h
  /\ x_srp c = setting false sets_srp h
  /\ x_curve c = setting 0 sets_curve h
  /\ x_transport c = setting EST_HTTP sets_transport h
  /\ (forall cb, x_cbs c cb = setting false (sets_callback cb) h).
Proof.
  intros h c (? & ? & ? & ? & ? & ? & ? & ? & ? & ? & ? & c0 & os & I & H).
  destruct (settings G bio os c0 h c H) as (S1 & S2 & S3 & S4 & S5 & S6 & S7 & S8 & S9 & S10 & S11 & S12 & S13 & S14 & S15 & _).
  unfold est_server_init in I.
  repeat match type of I with
  | context [if ?b then _ else _] => destruct b; try discriminate I
  | context [match ?b with Some _ => _ | None => _ end] => destruct b; try discriminate I
  end; match type of I with Some ?x = Some c0 => assert (Ec : x = c0) by congruence end; subst c0; auto 20.
Qed.

(** ** C20, registration of manufacturers *)
(** The server holds exactly the first four manufacturers registered since
    enhanced authentication was turned off last. *)
Theorem C20_registered : forall h c, configured h c -> held c = manufacturers h.
Proof.
  intros h c (? & ? & ? & ? & ? & ? & ? & ? & ? & ? & ? & c0 & os & I & H). apply held_inv.
  unfold manufacturers. rewrite manufacturers_fold. eapply calls_mfgs; [| |exact H]; unfold est_server_init in I;
  repeat match type of I with
  | context [if ?b then _ else _] => destruct b; try discriminate I
  | context [match ?b with Some _ => _ | None => _ end] => destruct b; try discriminate I
  end; match type of I with Some ?x = Some c0 => assert (Ec : x = c0) by congruence end; subst c0; reflexivity.
Qed.

(** ** C19 *)
(** A rejected call leaves everything requests depend on as it was, except:
    rejected CSR attributes drop the old ones, a rejected first manufacturer
    turns "no list" into an empty list, a failed CoAP start leaves its port, a
    failed allocation leaves the new session limit without an array. *)
Theorem C19_partial : forall h c o e c', configured h c -> step G bio o c = Ok (e, c') -> e <> EST_ERR_NONE ->
  effective c' = effective c
  \/ (exists a, o = InitCsrattrs a /\ c' = set_csrattrs None c)
  \/ (exists nm nid ce n a1 a2 ld a3 l, o = AddMfg nm nid ce n a1 a2 ld a3 /\ x_mfgs c = None /\ x_eca c = true /\ c' = set_mfgs (Some l) c
        /\ map slot_view l = repeat no_slot 4)
  \/ (exists p, o = CoapStart p false /\ 0 <= p <= 65535 /\ c' = set_port p c)
  \/ (exists n, o = SetSessionMax n false /\ 2 <= n <= 128 /\ x_port c = 0 /\ c' = set_req None (x_req_max c) (set_sessions n c)).
Proof.
  intros h c o e c' (? & ? & ? & ? & ? & ? & ? & ? & ? & ? & ? & c0 & os & I & H) St Ne.
  assert (J : x_mfgs c0 = None /\ x_eca c0 = false).
  { unfold est_server_init in I.
    repeat match type of I with
    | context [if ?b then _ else _] => destruct b; try discriminate I
    | context [match ?b with Some _ => _ | None => _ end] => destruct b; try discriminate I
    end; match type of I with Some ?x = Some c0 => assert (Ec : x = c0) by congruence end; subst c0; auto. }
  destruct J as [J1 J2].
  assert (M : mfg_inv c0 []) by (unfold mfg_inv; now rewrite J1).
  eapply step_rejected; [eapply calls_mfgs; [exact M| |exact H]| |exact St|exact Ne]; [now rewrite J1|].
  intro Q. eapply calls_eca; [|exact M|exact H|exact Q]. now rewrite J1.
Qed.
(** Nothing happens without a context. *)
Theorem C19_no_context : forall o, exists e, e <> EST_ERR_NONE /\ call G bio o None = Ok (e, None).
Proof. intro o. destruct o; eexists; (split; [|reflexivity]); discriminate. Qed.
End S.
Print Assumptions C18.
Print Assumptions C18_exact.
Print Assumptions C18_sessions.
Print Assumptions C18_server.
Print Assumptions C59.
Print Assumptions C20_registered.
Print Assumptions C19_partial.
Print Assumptions C19_no_context.

(** * The claims at work, and where they fail *)
Definition toy_ctx : ctx :=
  {| x_mode := EST_SERVER; x_transport := EST_HTTP; x_auth_mode := AUTH_BASIC; x_required := 1; x_realm := str "est";
     x_retry := 3600; x_brski_retry := 30; x_read_timeout := 10; x_eca := false; x_csr_check := false; x_local_nid := 0; x_pwd := [];
     x_mfgs := None; x_srp := false; x_pop := true; x_enforce := false; x_csrattrs := None; x_cacerts := None; x_curve := 0; x_dh := false;
     x_dtls_timer := 0; x_mtu := 0; x_sessions := 32; x_req_array := Some 32; x_req_max := 32; x_port := 0; x_cbs := fun _ => false |}.
Example toy_init : est_server_init (Some (str "CA")) 2 None 0 true (Some (str "est")) true true true true true = Some toy_ctx.
Proof. vm_compute. reflexivity. Qed.
Definition toy_calls := calls simple_reader rfc_bio.
Definition mfg (name : string) (nid : Z) : op := AddMfg true nid (Some (str name)) 3 true true EST_ERR_NONE true.
Example C18_case : exists h c, toy_calls [SetRetryPeriod 59; SetRetryPeriod 60; SetAuthMode 2 true; SetAuthMode 3 false; SetSessionMax 129 true;
    EnableEca 13 None 1; mfg "M1" 105; SetDtlsMtu 255; DisablePop] toy_ctx = Ok (h, c)
  /\ configured simple_reader rfc_bio h c /\ x_retry c = 60 /\ x_auth_mode c = AUTH_TOKEN /\ held c = [(105, str "M1")] /\ x_pop c = false
  /\ map snd h = [EST_ERR_INVALID_PARAMETERS; EST_ERR_NONE; EST_ERR_BAD_MODE; EST_ERR_NONE; EST_ERR_INVALID_PARAMETERS;
                  EST_ERR_NONE; EST_ERR_NONE; EST_ERR_INVALID_PARAMETERS; EST_ERR_NONE].
Proof.
  eexists _, _. split; [vm_compute; reflexivity|]. split.
  - exists (Some (str "CA")), 2, None, 0, true, (Some (str "est")), true, true, true, true, true. eexists _, _. split; [vm_compute; reflexivity|].
    instantiate (1 := [SetRetryPeriod 59; SetRetryPeriod 60; SetAuthMode 2 true; SetAuthMode 3 false; SetSessionMax 129 true;
    EnableEca 13 None 1; mfg "M1" 105; SetDtlsMtu 255; DisablePop]). vm_compute. reflexivity.
  - repeat split.
Qed.
(** The fifth manufacturer is accepted and forgotten. *)
Theorem C20_fifth_refuted : exists h c, toy_calls [EnableEca 13 None 1; mfg "M1" 105; mfg "M2" 105; mfg "M3" 105; mfg "M4" 105; mfg "M5" 105] toy_ctx = Ok (h, c)
  /\ Forall (fun oe => snd oe = EST_ERR_NONE) h /\ ~ In (105, str "M5") (held c).
Proof.
  eexists _, _. split; [vm_compute; reflexivity|]. split; [repeat constructor|]. vm_compute. intuition discriminate.
Qed.
(** Rejected attributes drop the configured ones. *)
Theorem C19_csrattrs_refuted : exists h c c', toy_calls [InitCsrattrs (Some attrs_b64)] toy_ctx = Ok (h, c) /\ x_csrattrs c <> None
  /\ step simple_reader rfc_bio (InitCsrattrs (Some (str "nonsense"))) c = Ok (EST_ERR_INVALID_PARAMETERS, c') /\ x_csrattrs c' = None.
Proof.
  eexists _, _, _. split; [vm_compute; reflexivity|]. split; [discriminate|]. split; vm_compute; reflexivity.
Qed.
(** A manufacturer that is rejected turns the CSR check off: before, the
    request of a client with a certificate is refused; after the rejected call it
    is passed to the CA. *)
Definition toy_config_of (c : ctx) : @config unit := server_config (fun _ _ => true) (fun _ _ => 1) false false false false c.
Theorem C19_mfg_refuted : exists h c c' e e1 s1 e2 s2,
  toy_calls [EnableEca 13 None 1; DisablePop; SetCallback CbHttpAuth true] toy_ctx = Ok (h, c)
  /\ step simple_reader rfc_bio (AddMfg true 105 (Some (str "junk")) 4 true true EST_ERR_LOAD_TRUST_CERTS true) c = Ok (e, c') /\ e <> EST_ERR_NONE
  /\ toy_request NoAttr (toy_config_of c) never good_cert (str "POST") simpleenroll (str "CSR") pkcs10 None = (e1, Ok s1) /\ ca_called e1 = false
  /\ toy_request NoAttr (toy_config_of c') never good_cert (str "POST") simpleenroll (str "CSR") pkcs10 None = (e2, Ok s2) /\ ca_called e2 = true.
Proof.
  eexists _, _, _, _, _, _, _, _. split; [vm_compute; reflexivity|]. split; [vm_compute; reflexivity|]. split; [discriminate|].
  split; [vm_compute; reflexivity|]. split; [vm_compute; reflexivity|]. split; vm_compute; reflexivity.
Qed.
(** A CoAP start that fails makes later changes of the session limit fail; one
    that succeeds on port 0 does not. *)
Theorem C19_coap_refuted : exists c1 c2 c3, step simple_reader rfc_bio (CoapStart 5683 false) toy_ctx = Ok (EST_ERR_COAP_PROCESSING_ERROR, c1)
  /\ step simple_reader rfc_bio (SetSessionMax 64 true) c1 = Ok (EST_ERR_SERVER_ALREADY_OPERATIONAL, c1)
  /\ step simple_reader rfc_bio (CoapStart 0 true) toy_ctx = Ok (EST_ERR_NONE, c2)
  /\ step simple_reader rfc_bio (SetSessionMax 64 true) c2 = Ok (EST_ERR_NONE, c3).
Proof. eexists _, _, _. repeat split; vm_compute; reflexivity. Qed.
Print Assumptions C20_fifth_refuted.
Print Assumptions C19_csrattrs_refuted.
Print Assumptions C19_mfg_refuted.
Print Assumptions C19_coap_refuted.
