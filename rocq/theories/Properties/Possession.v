(** C86: proof of possession by the client.  Read with Spec/Possession.v and
    Spec/Relay.v ([forwards]: a POST of that body to that operation).
    [perform X x s] is the call [x] to the client library in the state [s],
    whose [s_env] are the connections the network will give; the events say
    what is sent over them, in order. *)
From Coq Require Import String ZArith List Bool Lia.
From Verif Require Import Base Spec.Base64 Spec.ClientCalls Spec.Possession Spec.Relay Model.CLib Model.EstErr Model.Codec Model.Uri Model.AuthHdr Model.HttpServer Model.CsrAttrs Model.ClientHttp Model.Host Model.Client
  Proofs.EstErr Proofs.ClientModes Proofs.Possession.
From Verif Require Properties.ClientRuns.
Import ListNotations.
Open Scope Z_scope.

(** The certificate request sent over a connection carries the identifier of
    that very connection as its challenge password if the server's attributes
    ask for it or the application insists, and otherwise none. *)
Theorem C86 : forall X x s evs r e1 q e2,
  match x with Enroll _ _ | Keygen _ _ | Reenroll _ _ | EnrollCsr _ _ | KeygenCsr _ _ => True | _ => False end ->
  len (c_server (s_c s)) <= 255 -> ~ In 10 (c_server (s_c s)) -> 0 <= c_port (s_c s) <= 65535 ->
  match c_path (s_c s) with Some p => len p <= 128 /\ ~ In 10 p | None => True end ->
  (forall t, In (Tls t) (s_env s) -> identified t) ->
  perform X x s = (evs, r) -> evs = e1 ++ ERequest q :: e2 ->
  exists t op der, nth_error (s_env s) (connects e1 - 1) = Some (Tls t)
    /\ forwards op (c_path (s_c s)) (bio_b64_text der true) q
    /\ makes X x (if c_pop (s_c s) || c_force (s_c s) then Some (b64_encode (tls_unique t)) else None) op der.
Proof.
  intros X x s evs r e1 q e2 Cx L1 L2 L3 L4 It E Ev. destruct (certifies_sends X x s evs r Cx E e1 q e2 Ev) as (t & Nt & P).
  assert (F : fit (s_c s)) by (repeat split; try assumption; lia).
  destruct (P F (It t (nth_error_In _ _ Nt))) as (op & der & cp & Pw & Mk & Fw). exists t, op, der. split; [exact Nt|]. split; [exact Fw|].
  unfold password in Pw. destruct (c_pop (s_c s) || c_force (s_c s)); now subst cp.
Qed.
Print Assumptions C86.

(** Where the two flags come from: the attributes last obtained, and the
    application's own setting; enrolling changes neither. *)
Theorem C86_learned : forall X s evs b s', perform X (GetCsrattrs true) s = (evs, Ok ((EST_ERR_NONE, Some b), s')) ->
  est_asn1_parse_attributes (x_G X) (x_bio X) (upto_nul b) = Ok (EST_ERR_NONE, c_pop (s_c s')).
Proof.
  intros X s evs b s' E. cbn [perform] in E. unfold est_client_get_csrattrs in E. cbn [negb] in E. unfold mbind at 1 in E.
  destruct (est_client_connect X s) as [e0 [[[e|t] s0]|]]; [discriminate E| |discriminate E].
  unfold mbind at 1, upd at 1 in E. cbn [s_c s_env] in E. unfold mbind at 1 in E.
  destruct (est_client_send_csrattrs_request X t _) as [e1 [[[rv d] s1]|]]; [|discriminate E].
  destruct (negb (err_eqb rv EST_ERR_NONE)) eqn:Er; [unfold ret in E; injection E as _ E _; subst rv; discriminate Er|].
  destruct d as [b0|]; [|discriminate E]. unfold mbind at 1, lift in E.
  destruct (est_asn1_parse_attributes (x_G X) (x_bio X) (upto_nul b0)) as [[e2 pop]|] eqn:P; cbn [bind] in E; [|discriminate E].
  unfold mbind at 1, upd at 1 in E. cbn [s_c s_env] in E. destruct (err_eqb e2 EST_ERR_NONE) eqn:E2; [|discriminate E].
  apply err_eqb_eq in E2. subst e2. unfold mbind, upd, ret in E. cbn [s_c s_env Datatypes.app] in E. injection E as _ <- <-. exact P.
Qed.
Print Assumptions C86_learned.
Theorem C86_forced : forall X s on, exists s', perform X (ForcePop on) s = ([], Ok ((EST_ERR_NONE, None), s'))
  /\ c_force (s_c s') = on /\ c_pop (s_c s') = c_pop (s_c s).
Proof. intros X s on. eexists. split; [reflexivity|]. split; reflexivity. Qed.
Print Assumptions C86_forced.

(** A client that insists, on a connection whose Finished message is
    "0123456789ab". *)
Definition insists : st := {| s_c := put_force true (put_server (str "a.example") 443 (est_client_init [])); s_env := [ClientRuns.answering false []] |}.
Example C86_case : exists evs r e1 q e2, perform ClientRuns.X0 (Enroll (str "name") (Some (str "key"))) insists = (evs, r) /\ evs = e1 ++ ERequest q :: e2
  /\ (forall t, In (Tls t) (s_env insists) -> identified t /\ b64_encode (tls_unique t) = str "MDEyMzQ1Njc4OWFi") /\ c_pop (s_c insists) || c_force (s_c insists) = true.
Proof.
  eexists _, _, [EConnect (str "a.example") 443 []], _, []. split; [vm_compute; reflexivity|]. split; [reflexivity|]. split; [|reflexivity].
  intros t [E|[]]. injection E as <-. split; [|vm_compute; reflexivity]. split; [discriminate|]. cbn. repeat constructor; unfold is_byte; lia.
Qed.
