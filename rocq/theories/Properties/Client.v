(** C32, C34, C35, C65 and C66: sequences of calls on a client context.  Read
    with Spec/ClientCalls.v (and Spec/Client.v, Spec/Challenge.v); of the model
    they use calls, events and [perform], what one call does. *)
From Coq Require Import String ZArith List Bool Lia ZifyBool ZifyNat.
From Verif Require Import Base Spec.Http Spec.Client Spec.Multipart Spec.Challenge Spec.ClientCalls Model.CLib Model.EstErr Model.HttpServer Model.Uri Model.AuthHdr Model.ClientHttp Model.Multipart Model.Host Model.Client
  Proofs.EstErr Proofs.ClientModes Proofs.ClientCalls Proofs.ClientHonest Proofs.ClientHistory Proofs.ClientShelf Proofs.ClientRounds Properties.ClientAuth.
Import ListNotations.
Open Scope Z_scope.

(** After any sequence of calls on a new context. *)
Definition after (X : ext) (anchors : bytes) (log : list entry) (s : st) : Prop :=
  lawful X /\ (exists world, history X (fresh anchors world) log s) /\ Forall (fun e => proper (e_call e)) log.

(** ** C32 *)
(** How often a call connects, also one that ends in undefined behaviour. *)
Theorem C32_connections : forall X x s,
  (connects (fst (perform X x s)) <= match x with
    | Enroll _ _ | Keygen _ _ | Reenroll _ _ | EnrollCsr _ _ | KeygenCsr _ _ => 2
    | GetCacerts _ | GetCsrattrs _ => 1
    | Provision _ _ => 4
    | _ => 0
    end)%nat.
Proof. intros X x s. exact (perform_connects X x s). Qed.
Print Assumptions C32_connections.

(** The course of an enrollment: nothing, one connection, or two connections to
    the same server.  There is a second connection only if the server asked the
    first, anonymous request for one of the three schemes, and the request sent
    over it uses that scheme. *)
Theorem C32_course : forall X a log s x evs r, after X a log s -> proper x -> enrollment x -> perform X x s = (evs, r) ->
  evs = []
  \/ (exists k ex, is_connect k /\ evs = k :: ex /\ exchange_of ex)
  \/ (exists k q1 r1 sc ex, is_connect k /\ evs = k :: ERequest q1 :: EResponse r1 :: k :: ex /\ exchange_of ex
      /\ ~ credentials q1 /\ In sc scheme_names /\ asks sc r1 /\ forall q, In (ERequest q) ex -> offers sc q).
Proof.
  intros X a log [c w] x evs r (L & (w0 & H) & P) Px E Pf. pose proof (history_inv _ _ _ _ _ L P H) as F.
  destruct (enrollment_ends X x c w L Px F E) as (evs' & r' & w' & Ep & D). rewrite Ep in Pf. injection Pf as <- _.
  assert (K : is_connect (conn c)) by (unfold is_connect, conn; eauto).
  destruct D as [(-> & _)|(_ & r0 & R & _)]; [now left|]. right. apply rounds_shape in R as [(ex & -> & Ex)|(q1 & r1 & sc & ex & -> & R)]; [left; eauto|right; eauto 10].
Qed.
Print Assumptions C32_course.

(** Whatever request of whatever call carries credentials: the server has asked
    for that scheme before, or the application has opted in to Basic. *)
Theorem C32_challenged : forall X a log s x evs r q before behind, after X a log s -> proper x -> perform X x s = (evs, r) ->
  evs = before ++ ERequest q :: behind -> credentials q ->
  exists sc, In sc scheme_names /\ offers sc q
    /\ ((sc = str "Basic" /\ In BasicHint (map e_call log)) \/ exists r', In (EResponse r') (events_of log ++ before) /\ asks sc r').
Proof. intros X a log s x evs r q b1 b2 (L & (w & H) & P) Px E Ev Cq. exact (credentials_justified X a w log s x evs r q b1 b2 L H P Px E Ev Cq). Qed.
Print Assumptions C32_challenged.

(** A challenge that is understood (C61) is answered, unless it is for Digest in
    FIPS mode. *)
Theorem C32_answered : forall X a log s x evs r op sv p an q r1 rest d hs sc m g t ps, after X a log s -> proper x -> enrollment x ->
  op_called x = Some op -> op <> OP_SERVER_KEYGEN -> perform X x s = (evs, r) ->
  evs = EConnect sv p an :: ERequest q :: EResponse r1 :: rest -> ~ credentials q ->
  (forall k, k_mode k = AUTH_NONE -> challenged r1 d hs k) -> scheme sc m -> first_starting hs (str "WWW-Authenticate") (sc ++ t ++ g) ->
  parameters t ps -> understood ps -> blanks g ->
  (exists ex, rest = EConnect sv p an :: ex) \/ (m = AUTH_DIGEST /\ x_fips X = true).
Proof.
  intros X a log [c w] x evs r op sv p an q r1 rest d hs sc m g t ps (L & (w0 & H) & P) Px E Eo No Pf Ev Nc Ch Sm Hf Hp Hu Hg. pose proof (history_inv _ _ _ _ _ L P H) as F.
  destruct (enrollment_ends X x c w L Px F E) as (evs' & r' & w' & Ep & D). rewrite Ep in Pf. injection Pf as <- _.
  destruct D as [(D & _)|(_ & r0 & R & _)]; [congruence|]. rewrite (op_eq x E) in Eo. injection Eo as Eo.
  assert (Ek : EConnect sv p an = conn c) by (destruct (rounds_shape _ _ _ _ _ _ R) as [(ex & B & _)|(q2 & r2 & sc2 & ex & B & _)]; rewrite Ev in B; exact (f_equal (hd (EResponse [])) B)). rewrite Ek in Ev |- *.
  assert (Ms : exists sc', mode_scheme m = Some sc') by (destruct Sm as [Sm|[Sm|[Sm|[]]]]; injection Sm as <- <-; cbn; eauto). destruct Ms as (sc' & Ms).
  eapply (rounds_answered X (op_of x) c w evs' r0 q r1 rest (conn c) sc' m R); auto.
  - rewrite Eo. destruct op; auto; contradiction.
  - intros k0 Mk. assert (Ck : challenged r1 d hs k0).
    { destruct (Ch {| k_mode := AUTH_NONE; k_realm := []; k_nonce := []; k_err := []; k_desc := []; k_delay := 0; k_status := 0 |} eq_refl) as (A1 & A2 & A3 & A4 & _). split; [exact A1|]. split; [exact A2|]. split; [exact A3|]. split; [exact A4|].
      destruct (k_mode k0); auto; discriminate. }
    destruct (C61_partial r1 d hs (op_of x) k0 sc m t ps g Ck Sm Hf Hp Hu Hg) as (k1 & G & Mk1 & _). eauto.
Qed.
Print Assumptions C32_answered.

(** A 401 to a request with credentials ends the call, and it fails with the
    error for that.  Key generation may also report that it cannot find the
    parts of the response. *)
Theorem C32_second_401 : forall X a log s x evs e o s' before q r d behind, after X a log s -> proper x -> enrollment x ->
  perform X x s = (evs, Ok (e, o, s')) -> evs = before ++ ERequest q :: EResponse r :: behind -> credentials q ->
  arrives r d -> len d < 2000000 -> status401 d ->
  behind = [] /\ (e = EST_ERR_AUTH_FAIL \/ (op_called x = Some OP_SERVER_KEYGEN /\ e = EST_ERR_MULTIPART_PARSE)).
Proof.
  intros X a log [c w] x evs e o s' b1 q r d b2 (L & (w0 & H) & P) Px E Pf Ev Cq A Ln S. pose proof (history_inv _ _ _ _ _ L P H) as F.
  destruct (enrollment_ends X x c w L Px F E) as (evs' & r' & w' & Ep & D). rewrite Ep in Pf. destruct r' as [[e1 c1]|]; [|discriminate]. cbn [landed] in Pf. injection Pf as <- <- <- <-.
  destruct D as [(-> & _)|(_ & r0 & R & Q)]; [destruct b1; discriminate|]. destruct r0 as [[[e2 n2] c2]|]; [|discriminate]. cbn [finish] in Q. injection Q as -> _.
  destruct (rounds_401 _ _ _ _ _ _ _ _ b1 q r b2 d R Ev Cq A Ln S) as [-> Q]. split; [reflexivity|]. destruct Q as [Q|[Kg Q]]; [now left|right]. split; [|exact Q].
  rewrite (op_eq x E). destruct (op_of x); discriminate || reflexivity.
Qed.
Print Assumptions C32_second_401.

(** That error is the server's refusal (or that of the code that makes a request
    from a certificate). *)
Theorem C32_auth_fail : forall X a log s x evs o s', after X a log s -> proper x -> enrollment x ->
  perform X x s = (evs, Ok (EST_ERR_AUTH_FAIL, o, s')) ->
  (exists r d, last_response evs r /\ arrives r d /\ status401 d) \/ (evs = [] /\ exists cert key, x = Reenroll cert key).
Proof.
  intros X a log [c w] x evs o s' (L & (w0 & H) & P) Px E Pf. pose proof (history_inv _ _ _ _ _ L P H) as F.
  destruct (enrollment_ends X x c w L Px F E) as (evs' & r' & w' & Ep & D). rewrite Ep in Pf. destruct r' as [[e1 c1]|]; [|discriminate]. cbn [landed] in Pf. injection Pf as <- -> <- <-.
  destruct D as [(-> & e0 & Q & [[_ [[Q1 _]|Q1]]|(cert & key & -> & Q1)])|(_ & r0 & R & Q)]; [|right; auto| |left].
  { injection Q as <- _. now elim Q1. }
  { right. split; [reflexivity|]. eauto. }
  destruct r0 as [[[e2 n2] c2]|]; [|discriminate]. cbn [finish] in Q. injection Q as <- _.
  eapply rounds_auth_fail; eauto.
Qed.
Print Assumptions C32_auth_fail.

(** After an enrollment by common name (with or without key generation) that
    ended with a response, credentials are sent only if the server asks again,
    or the application opts in again. *)
Theorem C32_afresh_partial : forall X a log s x cn key evs e o s1 r log2 s2 y evs2 r2 q before behind, after X a log s ->
  x = Enroll cn key \/ x = Keygen cn key -> perform X x s = (evs, Ok (e, o, s1)) -> last_response evs r -> e <> EST_ERR_BAD_MODE ->
  history X s1 log2 s2 -> Forall (fun e => proper (e_call e)) log2 -> proper y -> perform X y s2 = (evs2, r2) ->
  evs2 = before ++ ERequest q :: behind -> credentials q ->
  exists sc, In sc scheme_names /\ offers sc q
    /\ ((sc = str "Basic" /\ In BasicHint (map e_call log2)) \/ exists r', In (EResponse r') (events_of log2 ++ before) /\ asks sc r').
Proof.
  intros X a log [c w] x cn key evs e o s1 r log2 s2 y evs2 r2 q b1 b2 (L & (w0 & H) & P) Ex Pf Lr Ne H2 P2 Py Pf2 Ev Cq. pose proof (history_inv _ _ _ _ _ L P H) as F.
  assert (Px : proper x) by (destruct Ex as [->| ->]; exact I). assert (Rs : resets x = true) by (destruct Ex as [->| ->]; reflexivity).
  pose proof (enroll_afresh X x c w evs e o s1 r L Px F Rs Pf Lr Ne) as M.
  assert (F1 : fit (s_c s1)).
  { assert (Hx : x <> BasicHint) by (destruct Ex as [->| ->]; discriminate). pose proof (does_spec _ _ _ _ (perform_fair X x L Px Hx) _ _ _ _ Pf) as Q. now apply Q. }
  exact (credentials_since X s1 log2 s2 y evs2 r2 q b1 b2 L F1 M H2 P2 Py Pf2 Ev Cq).
Qed.
Print Assumptions C32_afresh_partial.

(** ** C34 *)
(** A certificate that is copied out is the one delivered by the latest call that
    obtained one, and no call since then copied it out.  Partial: a call that
    reports EST_ERR_VALIDATION has obtained one too. *)
Theorem C34_copied_partial : forall X a log s out evs e b s', after X a log s -> perform X (CopyCert out) s = (evs, Ok (e, Some b, s')) ->
  evs = [] /\ e = EST_ERR_NONE
  /\ exists log1 ent log2 op r, log = log1 ++ ent :: log2 /\ op_called (e_call ent) = Some op /\ issued ent r /\ delivers_cert X op r b
     /\ Forall (fun e => (forall r, ~ issued e r) /\ ~ copied_cert e) log2.
Proof.
  intros X a log [c w] out evs e b s' (L & (w0 & H) & P) Pf.
  assert (Q : evs = [] /\ e = EST_ERR_NONE /\ c_cert c = Some b).
  { cbn [perform] in Pf. unfold est_client_copy_enrolled_cert, mbind, get in Pf. cbn [s_c] in Pf. destruct (negb (c_init c)); [discriminate|]. destruct (negb out); [discriminate|].
    destruct (c_cert c) as [x|]; cbn in Pf; [|discriminate]. injection Pf as <- <- <- _. auto. }
  destruct Q as (-> & -> & Q). repeat (split; [reflexivity|]). exact (cert_latest X a w0 log _ b L H P Q).
Qed.
Print Assumptions C34_copied_partial.
(** It can be copied out as long as no other is obtained and nobody has done so,
    unless the context has been closed. *)
Theorem C34_available : forall X a log log1 ent log2 s op r, after X a log s -> log = log1 ++ ent :: log2 ->
  op_called (e_call ent) = Some op -> issued ent r -> Forall (fun e => (forall r, ~ issued e r) /\ ~ copied_cert e) log2 ->
  exists b, delivers_cert X op r b
    /\ ((exists s', perform X (CopyCert true) s = ([], Ok (EST_ERR_NONE, Some b, s')) /\ perform X (CopyCert true) s' = ([], Ok (EST_ERR_NO_CERTIFICATE, None, s')))
        \/ (perform X (CopyCert true) s = ([], Ok (EST_ERR_CLIENT_NOT_INITIALIZED, None, s)) /\ exists e, In e log /\ closing X e)).
Proof.
  intros X a log log1 ent log2 s op r (L & (w0 & H) & P) El Eo Is Fa.
  pose proof H as H'. rewrite El in H'. change (ent :: log2) with ([ent] ++ log2) in H'. apply history_split in H' as (s1 & H1 & H2). apply history_split in H2 as (s2 & H2 & H3).
  assert (P' := P). rewrite El in P'. apply Forall_app in P' as [P1 P2]. apply Forall_cons_iff in P2 as [P2 P3]. pose proof (history_inv _ _ _ _ _ L P1 H1) as F.
  assert (F2 : fit (s_c s2)) by (eapply history_fit; [exact L| |exact F|exact H2]; constructor; [exact P2|constructor]).
  destruct (step_moves _ _ _ _ L P2 F H2) as (Mc & _). destruct Mc as [(op' & r' & cert & Eo' & Is' & D & Q)|[(b' & B & _)|(_ & N & _)]].
  - assert (op' = op) by congruence. subst op'. assert (r' = r).
    { destruct Is as [(x1 & I1) _], Is' as [(x2 & I2) _]. rewrite I1 in I2. apply app_inj_tail in I2 as [_ I2]. congruence. }
    subst r'. exists cert. split; [exact D|]. pose proof (cert_stays X log2 s2 s L F2 H3 P3 Fa) as St. rewrite Q in St.
    destruct (c_init (s_c s)) eqn:Ci; [left|right].
    + destruct s as [c w]. cbn [s_c] in *. exists {| s_c := put_cert None c; s_env := w |}.
      split; cbn [perform]; unfold est_client_copy_enrolled_cert, mbind, get; cbn [s_c c_init put_cert]; rewrite Ci, ?St; reflexivity.
    + destruct (closed_call X (CopyCert true) s Ci I) as (e & Pe & _). split; [|eapply closed_why; eauto].
      destruct s as [c w]. cbn [s_c] in *. cbn [perform]. unfold est_client_copy_enrolled_cert, mbind, get. cbn [s_c]. rewrite Ci. reflexivity.
  - rewrite B in Eo. discriminate.
  - now elim (N r).
Qed.
Print Assumptions C34_available.

(** The same for keys that the server generated. *)
Theorem C34_key_copied_partial : forall X a log s out evs e b s', after X a log s -> perform X (CopyKey out) s = (evs, Ok (e, Some b, s')) ->
  evs = [] /\ e = EST_ERR_NONE
  /\ exists log1 ent log2 r cert, log = log1 ++ ent :: log2 /\ op_called (e_call ent) = Some OP_SERVER_KEYGEN /\ issued ent r /\ keys_delivered X r b cert
     /\ Forall (fun e => (forall r, issued e r -> op_called (e_call e) <> Some OP_SERVER_KEYGEN) /\ ~ copied_key e) log2.
Proof.
  intros X a log [c w] out evs e b s' (L & (w0 & H) & P) Pf.
  assert (Q : evs = [] /\ e = EST_ERR_NONE /\ c_key c = Some b).
  { cbn [perform] in Pf. unfold est_client_copy_server_generated_key, mbind, get in Pf. cbn [s_c] in Pf. destruct (negb (c_init c)); [discriminate|]. destruct (negb out); [discriminate|].
    destruct (c_key c) as [x|]; cbn in Pf; [|discriminate]. injection Pf as <- <- <- _. auto. }
  destruct Q as (-> & -> & Q). repeat (split; [reflexivity|]). exact (key_latest X a w0 log _ b L H P Q).
Qed.
Print Assumptions C34_key_copied_partial.
Theorem C34_key_available : forall X a log log1 ent log2 s r, after X a log s -> log = log1 ++ ent :: log2 ->
  op_called (e_call ent) = Some OP_SERVER_KEYGEN -> issued ent r -> Forall (fun e => (forall r, issued e r -> op_called (e_call e) <> Some OP_SERVER_KEYGEN) /\ ~ copied_key e) log2 ->
  exists b cert, keys_delivered X r b cert
    /\ ((exists s', perform X (CopyKey true) s = ([], Ok (EST_ERR_NONE, Some b, s')) /\ perform X (CopyKey true) s' = ([], Ok (EST_ERR_NO_KEY, None, s')))
        \/ (perform X (CopyKey true) s = ([], Ok (EST_ERR_CLIENT_NOT_INITIALIZED, None, s)) /\ exists e, In e log /\ closing X e)).
Proof.
  intros X a log log1 ent log2 s r (L & (w0 & H) & P) El Eo Is Fa.
  pose proof H as H'. rewrite El in H'. change (ent :: log2) with ([ent] ++ log2) in H'. apply history_split in H' as (s1 & H1 & H2). apply history_split in H2 as (s2 & H2 & H3).
  assert (P' := P). rewrite El in P'. apply Forall_app in P' as [P1 P2]. apply Forall_cons_iff in P2 as [P2 P3]. pose proof (history_inv _ _ _ _ _ L P1 H1) as F.
  assert (F2 : fit (s_c s2)) by (eapply history_fit; [exact L| |exact F|exact H2]; constructor; [exact P2|constructor]).
  destruct (step_moves _ _ _ _ L P2 F H2) as (_ & Mk & _). destruct Mk as [(r' & key & cert & Eo' & Is' & D & Q)|[(b' & B & _)|(_ & N & _)]].
  - assert (r' = r).
    { destruct Is as [(x1 & I1) _], Is' as [(x2 & I2) _]. rewrite I1 in I2. apply app_inj_tail in I2 as [_ I2]. congruence. }
    subst r'. exists key, cert. split; [exact D|]. pose proof (key_stays X log2 s2 s L F2 H3 P3 Fa) as St. rewrite Q in St.
    destruct (c_init (s_c s)) eqn:Ci; [left|right].
    + destruct s as [c w]. cbn [s_c] in *. exists {| s_c := put_key None c; s_env := w |}.
      split; cbn [perform]; unfold est_client_copy_server_generated_key, mbind, get; cbn [s_c c_init put_key]; rewrite Ci, ?St; reflexivity.
    + split; [|eapply closed_why; eauto]. destruct s as [c w]. cbn [s_c] in *. cbn [perform]. unfold est_client_copy_server_generated_key, mbind, get. cbn [s_c]. rewrite Ci. reflexivity.
  - rewrite B in Eo. discriminate.
  - now elim (N r Is).
Qed.
Print Assumptions C34_key_available.

(** ** C35 *)
(** CA certificates that are copied out come from a download that verified, and
    no later download succeeded or failed to verify.  Partial: a later download
    may have failed otherwise, see C35_stale_refuted. *)
Theorem C35_copied_partial : forall X a log s out evs e b s', after X a log s -> perform X (CopyCacerts out) s = (evs, Ok (e, Some b, s')) ->
  evs = [] /\ e = EST_ERR_NONE
  /\ exists log1 ent log2, log = log1 ++ ent :: log2 /\ downloads X ent b
     /\ Forall (fun e => ca_call (e_call e) -> e_code e <> EST_ERR_NONE /\ e_code e <> EST_ERR_CACERT_VERIFICATION) log2.
Proof.
  intros X a log [c w] out evs e b s' (L & (w0 & H) & P) Pf.
  assert (Q : evs = [] /\ e = EST_ERR_NONE /\ c_cas c = Some b).
  { cbn [perform] in Pf. unfold est_client_copy_cacerts, mbind, get in Pf. cbn [s_c] in Pf. destruct (negb (c_init c)); [discriminate|]. destruct (negb out); [discriminate|].
    destruct (c_cas c) as [x|]; cbn in Pf; [|discriminate]. injection Pf as <- <- <- _. auto. }
  destruct Q as (-> & -> & Q). repeat (split; [reflexivity|]). exact (cas_latest X a w0 log _ b L H P Q).
Qed.
Print Assumptions C35_copied_partial.
(** A successful download can be copied out until the next one. *)
Theorem C35_available : forall X a log log1 ent log2 s, after X a log s -> log = log1 ++ ent :: log2 ->
  ca_call (e_call ent) -> e_code ent = EST_ERR_NONE -> Forall (fun e => ~ ca_call (e_call e)) log2 ->
  exists b, downloads X ent b
    /\ ((exists s', perform X (CopyCacerts true) s = ([], Ok (EST_ERR_NONE, Some b, s')))
        \/ (perform X (CopyCacerts true) s = ([], Ok (EST_ERR_CLIENT_NOT_INITIALIZED, None, s)) /\ exists e, In e log /\ closing X e)).
Proof.
  intros X a log log1 ent log2 s (L & (w0 & H) & P) El Ca Ec Fa.
  pose proof H as H'. rewrite El in H'. change (ent :: log2) with ([ent] ++ log2) in H'. apply history_split in H' as (s1 & H1 & H2). apply history_split in H2 as (s2 & H2 & H3).
  assert (P' := P). rewrite El in P'. apply Forall_app in P' as [P1 P2]. apply Forall_cons_iff in P2 as [P2 P3]. pose proof (history_inv _ _ _ _ _ L P1 H1) as F.
  assert (F2 : fit (s_c s2)) by (eapply history_fit; [exact L| |exact F|exact H2]; constructor; [exact P2|constructor]).
  destruct (step_moves _ _ _ _ L P2 F H2) as (_ & _ & Ma & _). destruct Ma as [(text & D & Q)|[(_ & _ & Q)|(_ & Q)]]; [|contradiction|now destruct (Q Ca)].
  exists text. split; [exact D|]. pose proof (cas_stays X log2 s2 s L F2 H3 P3 Fa) as St. rewrite Q in St.
  destruct (c_init (s_c s)) eqn:Ci; [left|right].
  - destruct s as [c w]. cbn [s_c] in *. eexists. cbn [perform]. apply copy_cacerts_run; assumption.
  - split; [|eapply closed_why; eauto]. destruct s as [c w]. cbn [s_c] in *. cbn [perform]. unfold est_client_copy_cacerts, mbind, get. cbn [s_c]. rewrite Ci. reflexivity.
Qed.
Print Assumptions C35_available.
(** Once CA certificates have been copied out, every call fails without having
    any effect, now and after any further calls.  Partial: not
    est_client_get_csrattrs, and not those that store credentials and options. *)
Theorem C35_closed_partial : forall X s1 out evs e b s2 log s x, perform X (CopyCacerts out) s1 = (evs, Ok (e, Some b, s2)) -> history X s2 log s ->
  match x with GetCsrattrs _ | SetAuth _ _ _ | SetCallback _ | BasicHint | ForcePop _ => False | _ => True end ->
  exists e, perform X x s = ([], Ok (e, None, s)) /\ e <> EST_ERR_NONE.
Proof.
  intros X [c w] out evs e b s2 log s x Pf H K. apply closed_call; [|exact K]. eapply closed_history; [|exact H].
  cbn [perform] in Pf. unfold est_client_copy_cacerts, mbind, get in Pf. cbn [s_c] in Pf. destruct (negb (c_init c)); [discriminate|]. destruct (negb out); [discriminate|].
  destruct (c_cas c) as [x0|]; cbn in Pf; [|discriminate]. injection Pf as <- <- <- <-. reflexivity.
Qed.
Print Assumptions C35_closed_partial.

(** ** C65, C66 *)
(** Every connection is verified with the trust anchors given when the context
    was made. *)
Theorem C65_anchors : forall X a w log s x sv p an, history X (fresh a w) log s -> In (EConnect sv p an) (fst (perform X x s)) -> an = a.
Proof.
  intros X a w log s x sv p an H I. destruct (connections X a w log s H) as [T _].
  assert (D : (exists n p g, x = SetServer n p g) \/ forall n p g, x <> SetServer n p g) by (destruct x; try (right; intros; discriminate); left; eauto).
  destruct D as [(n & p' & g & ->)|N].
  - pose proof (perform_connects X (SetServer n p' g) s) as Z. cbn [connect_limit] in Z. apply in_split in I as (l1 & l2 & I). rewrite I in Z. rewrite connects_app in Z. cbn in Z. lia.
  - pose proof (perform_steady X x N (s_c s) (s_env s)) as D. replace {| s_c := s_c s; s_env := s_env s |} with s in D by (destruct s; reflexivity).
    destruct (perform X x s) as [evs [[y s']|]]; cbn [fst] in I; [destruct D as [D _]|]; specialize (D _ _ _ I); unfold conn in D; congruence.
Qed.
Print Assumptions C65_anchors.
(** It goes to the server named in the latest call that named one; also when
    that call reports that it refused the path segment. *)
Theorem C66_server : forall X a w log s x sv p an, history X (fresh a w) log s -> In (EConnect sv p an) (fst (perform X x s)) ->
  (exists log1 ent log2, log = log1 ++ ent :: log2 /\ addressed ent sv p /\ Forall (fun e => forall n p, ~ addressed e n p) log2)
  \/ (sv = [] /\ p = 0 /\ Forall (fun e => forall n p, ~ addressed e n p) log).
Proof.
  intros X a w log s x sv p an H I. destruct (connections X a w log s H) as [_ T].
  assert (D : (exists n p g, x = SetServer n p g) \/ forall n p g, x <> SetServer n p g) by (destruct x; try (right; intros; discriminate); left; eauto).
  destruct D as [(n & p' & g & ->)|N].
  - pose proof (perform_connects X (SetServer n p' g) s) as Z. cbn [connect_limit] in Z. apply in_split in I as (l1 & l2 & I). rewrite I in Z. rewrite connects_app in Z. cbn in Z. lia.
  - pose proof (perform_steady X x N (s_c s) (s_env s)) as D. replace {| s_c := s_c s; s_env := s_env s |} with s in D by (destruct s; reflexivity).
    assert (Q : EConnect sv p an = conn (s_c s)) by (destruct (perform X x s) as [evs [[y s']|]]; cbn [fst] in I; [destruct D as [D _]|]; exact (D _ _ _ I)).
    unfold conn in Q. injection Q as -> -> _. exact T.
Qed.
Print Assumptions C66_server.
