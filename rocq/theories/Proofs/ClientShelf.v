(** What calls leave to be copied out. *)
From Coq Require Import String ZArith List Bool Lia ZifyBool ZifyNat.
From Verif Require Import Base Spec.Base64 Spec.Http Spec.Client Spec.Multipart Spec.ClientCalls Model.CLib Model.Codec Model.EstErr Model.HttpServer Model.Uri Model.AuthHdr Model.ClientHttp Model.Multipart Model.Host Model.Client
  Proofs.EstErr Proofs.HttpParse Proofs.ClientHttp Proofs.Uri Proofs.ClientModes Proofs.ClientCalls Proofs.ClientHonest Proofs.ClientHistory.
Import ListNotations.
Open Scope Z_scope.

(** ** Enrollments *)
Definition kept (c c' : client) : Prop := c_cas c' = c_cas c /\ c_init c' = c_init c.
Definition shelved (X : ext) (op : operation) (c : client) (evs : list event) (e : est_error) (c' : client) : Prop :=
  kept c c' /\
  ((c_cert c' = c_cert c /\ c_key c' = c_key c /\ e <> EST_ERR_NONE /\ e <> EST_ERR_VALIDATION)
   \/ (exists r cert, last_response evs r /\ is_keygen op = false /\ e = EST_ERR_NONE /\ reply_body op r cert /\ c_cert c' = Some cert /\ c_key c' = c_key c)
   \/ (exists r cert key, last_response evs r /\ is_keygen op = true /\ (e = EST_ERR_NONE \/ e = EST_ERR_VALIDATION) /\ keys_delivered X r key cert /\ c_cert c' = Some cert /\ c_key c' = Some key)).
Lemma tried_shelved : forall X op t c evs e c' b, tried X op t c evs (Ok (e, c')) -> shelved X op c (b ++ evs) e c'.
Proof.
  intros X op t c evs e c' b T. split; [inversion T; subst; split; reflexivity|]. inversion T; subst.
  - left. repeat split; auto. match goal with H : local _ |- _ => apply H end.
  - left. repeat split; discriminate.
  - left. repeat split; auto.
  - right. left. exists (t_reads t), cert. split; [exists (b ++ [ERequest q]); rewrite <- app_assoc; reflexivity|]. repeat split; auto.
  - right. right. exists (t_reads t), cert, key. split; [exists (b ++ [ERequest q]); rewrite <- app_assoc; reflexivity|]. split; [assumption|]. split; [destruct (x_key_matches X key cert); auto|]. auto.
Qed.
Lemma tried_auth_fail : forall X op t c evs c', tried X op t c evs (Ok (EST_ERR_AUTH_FAIL, c')) -> kept c c' /\ c_cert c' = c_cert c /\ c_key c' = c_key c.
Proof.
  intros X op t c evs c' T. apply (tried_shelved _ _ _ _ _ _ _ []) in T as (K & [(H1 & H2 & _)|[(r & cert & _ & _ & H & _)|(r & cert & key & _ & _ & H & _)]]); auto.
  - discriminate.
  - destruct H; discriminate.
Qed.
Lemma unreached_local : forall e, unreached e -> e <> EST_ERR_NONE /\ e <> EST_ERR_VALIDATION /\ e <> EST_ERR_CACERT_VERIFICATION.
Proof. intros e H. repeat split; intros ->; repeat (destruct H as [H|H]; [discriminate|]); destruct H. Qed.
Lemma rounds_shelved : forall X op c w evs e n c', rounds X op c w evs (Ok (e, n, c')) -> shelved X op c evs e c'.
Proof.
  intros X op c w evs e n c' R. inversion R as [|e0 U|t evs0 e0 c1 Rc T1 A| |t evs0 c1 Rc T1 M F|t evs0 c1 e0 sc Rc T1 M U| |t evs0 c1 sc t2 evs2 e0 c2 c3 Rc T1 M Rc2 T2 C|]; subst.
  - apply unreached_local in U as (U1 & U2 & _). split; [split; reflexivity|]. left. auto.
  - apply (tried_shelved _ _ _ _ _ _ _ [conn c] T1).
  - apply tried_auth_fail in T1 as (K & H1 & H4). split; [exact K|]. left. repeat split; auto; discriminate.
  - apply unreached_local in U as (U1 & U2 & _). apply tried_auth_fail in T1 as (K & H1 & H4). split; [exact K|]. left. repeat split; auto.
  - apply tried_auth_fail in T1 as ([K1 K2] & H1 & H8). apply (tried_shelved _ _ _ _ _ _ _ (conn c :: evs0 ++ [conn c])) in T2 as ([K3 K4] & H5).
    replace ((conn c :: evs0 ++ [conn c]) ++ evs2) with (conn c :: evs0 ++ conn c :: evs2) in H5 by (cbn; rewrite <- app_assoc; reflexivity).
    rewrite H1, H8 in H5. split; [destruct C as [->| ->]; split; cbn; congruence|]. destruct C as [->| ->]; exact H5.
Qed.

(** ** CA certificates *)
Definition unmoved (c c' : client) : Prop := c_cert c' = c_cert c /\ c_key c' = c_key c /\ c_init c' = c_init c.
Lemma cas_verified : forall X body text, verify_cacert_resp X body = (EST_ERR_NONE, text) -> verified X body text.
Proof.
  intros X body text H. unfold verify_cacert_resp in H. destruct (x_p7_certs X body) as [e certs] eqn:P. destruct (err_eqb e EST_ERR_NONE) eqn:E; cbn [negb] in H.
  2: { exfalso. injection H as -> _. discriminate. }
  apply err_eqb_eq in E. subst e. destruct (x_remove_crls X body) as [e2 t2] eqn:R. destruct (existsb _ certs) eqn:Ex; [discriminate|]. injection H as -> ->.
  exists certs. split; [exact P|]. split; [|exact R]. apply Forall_forall. intros x I Z. cut (existsb (fun x0 => x_verify X (filter (x_self_issued X) certs) certs x0 =? 0) certs = true); [congruence|].
  apply existsb_exists. exists x. split; [exact I|]. apply Z.eqb_eq. exact Z.
Qed.
Lemma cacerts_moves : forall X out c w evs e s', est_client_get_cacerts X out {| s_c := c; s_env := w |} = (evs, Ok (e, s')) ->
  unmoved c (s_c s') /\
  ((e = EST_ERR_NONE /\ c_init c = true /\ exists q r body text, evs = [conn c; ERequest q; EResponse r] /\ reply_body OP_CACERTS r body /\ verified X body text /\ c_cas (s_c s') = Some text)
   \/ (e <> EST_ERR_NONE /\ ((c_cas (s_c s') = c_cas c /\ e <> EST_ERR_CACERT_VERIFICATION) \/ c_cas (s_c s') = None))).
Proof.
  intros X out c w evs e s' H. unfold est_client_get_cacerts in H. unfold mbind at 1, get in H. cbn [s_c] in H.
  destruct (c_init c) eqn:Ci; cbn [negb] in H.
  2: { cbn in H. injection H as <- <- <-. cbn. repeat split; auto. right. split; [discriminate|]. left. split; [reflexivity|discriminate]. }
  destruct out; cbn [negb] in H.
  2: { cbn in H. injection H as <- <- <-. cbn. repeat split; auto. right. split; [discriminate|]. left. split; [reflexivity|discriminate]. }
  unfold mbind at 1 in H. destruct (connect_run X c w) as (r & Er & Hr). rewrite Er in H. destruct r as [[[e1|t] s1]|]; [| |discriminate].
  { destruct Hr as [U ->]. cbn in H. injection H as <- <- <-. apply unreached_local in U as (U1 & U2 & U3). cbn. repeat split; auto. }
  destruct Hr as [_ ->]. unfold est_client_send_cacerts_request in H. unfold mbind at 1, get in H. cbn [s_c] in H. cbv zeta in H.
  destruct (len (est_client_build_cacerts_header c) =? 0).
  { cbn in H. injection H as <- <- <-. cbn. repeat split; auto. right. split; [discriminate|]. left. split; [reflexivity|discriminate]. }
  set (q := _ ++ CRLF ++ CRLF) in H. clearbody q. unfold exchange, get_response in H. run_in H.
  destruct (t_write t); cbn [negb] in H; run_in H.
  2: { injection H as <- <- <-. cbn. repeat split; auto. right. split; [discriminate|]. left. split; [reflexivity|discriminate]. }
  destruct (est_io_get_response _ _ _) as [[[rv d] k]|] eqn:G; [|discriminate]. run_in H.
  destruct (err_eqb rv EST_ERR_NONE) eqn:En; cbn [negb] in H; run_in H.
  2: { injection H as <- <- <-. cbn. repeat split; auto. right. split; [now apply eqb_none|]. left. split; [reflexivity|].
       apply response_mode in G. destruct G as [[(_ & _ & G) _]|[-> _]]; [exact G|discriminate]. }
  apply err_eqb_eq in En. subst rv.
  destruct (len (delivered_bytes d) =? 0) eqn:L0; run_in H.
  { injection H as <- <- <-. cbn. repeat split; auto. right. split; [discriminate|]. left. split; [reflexivity|discriminate]. }
  destruct (EST_CA_MAX <? len (delivered_bytes d) + 1) eqn:L1; run_in H.
  { injection H as <- <- <-. cbn. repeat split; auto. right. split; [discriminate|]. left. split; [reflexivity|discriminate]. }
  destruct (verify_cacert_resp X (delivered_bytes d)) as [e2 text] eqn:V. destruct (err_eqb e2 EST_ERR_NONE) eqn:E2; run_in H; injection H as <- <- <-.
  - apply err_eqb_eq in E2. subst e2. cbn. repeat split; auto. left. split; [reflexivity|]. split; [reflexivity|]. exists q, (t_reads t), (delivered_bytes d), text.
    split; [reflexivity|]. split; [|split; [now apply cas_verified|reflexivity]]. eapply delivered_spec; [exact G|]. intro C. rewrite C in L0. discriminate.
  - cbn. repeat split; auto. right. split; [now apply eqb_none|]. now right.
Qed.

(** ** Calls that touch nothing of it *)
Definition quiet (c : client) (_ : list event) (c' : client) : Prop := unmoved c c' /\ c_cas c' = c_cas c.
Definition quiet_ub (_ : client) (_ : list event) : Prop := True.
Lemma quiet_sw : stepwise quiet quiet_ub.
Proof.
  constructor; try (intros; exact I).
  - intro c. repeat split; reflexivity.
  - intros c e1 c1 e2 c2 [(H1 & H2 & H3) H4] [(H5 & H6 & H7) H8]. repeat split; congruence.
Qed.
Ltac qsteps := repeat match goal with
  | |- does _ _ (ret _) => apply (does_ret _ _ quiet_sw)
  | |- does _ _ (lift _) => apply (does_lift _ _ quiet_sw)
  | |- does _ _ (upd _) => apply does_upd; intro; repeat split; reflexivity
  | |- does _ _ (emit _) => intros ? ?; cbn; repeat split; reflexivity
  | |- does _ _ (mbind get _) => apply does_get'; intro
  | |- does _ _ (mbind _ _) => apply (does_bind _ _ quiet_sw); [|intro]
  | |- does _ _ (if ?b then _ else _) => destruct b
  | |- does _ _ (match ?x with _ => _ end) => destruct x
  end.
Lemma quiet_connect : forall X, does quiet quiet_ub (est_client_connect X).
Proof.
  intros X c w. destruct (connect_run X c w) as (r & -> & H). destruct r as [[[e|t] s]|].
  - destruct H as [_ ->]. repeat split; reflexivity.
  - destruct H as [_ ->]. repeat split; reflexivity.
  - exact I.
Qed.
Lemma quiet_csrattrs : forall X o, does quiet quiet_ub (est_client_get_csrattrs X o).
Proof. intros. unfold est_client_get_csrattrs. qsteps; [apply quiet_connect|]. unfold est_client_send_csrattrs_request, exchange, get_response. qsteps. Qed.
Lemma quiet_set_server : forall X n p g, does quiet quiet_ub (est_client_set_server X n p g).
Proof. intros. unfold est_client_set_server. qsteps. Qed.
Lemma quiet_set_auth : forall u p x, does quiet quiet_ub (est_client_set_auth u p x).
Proof. intros. unfold est_client_set_auth, est_client_set_uid_pw. qsteps. Qed.
Lemma quiet_plain : forall m, does quiet quiet_ub m -> does quiet quiet_ub (plain m).
Proof. intros m H. unfold plain. qsteps. exact H. Qed.

(** ** Provisioning *)
Lemma enroll_shelved : forall X cn k c w evs e s', lawful X -> fit c -> est_client_enroll X cn k {| s_c := c; s_env := w |} = (evs, Ok (e, s')) ->
  (s_c s' = c /\ e <> EST_ERR_NONE /\ evs = [] /\ (c_init c = false \/ k = None)) \/ (evs <> [] /\ e <> EST_ERR_VALIDATION /\ c_init c = true /\ shelved X OP_SIMPLE_ENROLL c evs e (s_c s')).
Proof.
  intros X cn k c w evs e s' L F H. destruct (c_init c) eqn:Ci.
  2: { left. unfold est_client_enroll, est_client_enroll_internal, mbind, get in H. cbn [s_c] in H. rewrite Ci in H. cbn in H. injection H as <- <- <-. repeat split; auto. discriminate. }
  destruct k as [k|].
  2: { left. unfold est_client_enroll, est_client_enroll_internal, mbind, get in H. cbn [s_c] in H. rewrite Ci in H. cbn in H. injection H as <- <- <-. repeat split; auto. discriminate. }
  unfold est_client_enroll in H. destruct (enroll_ends X OP_SIMPLE_ENROLL cn (Some k) c w (Enroll cn (Some k)) L (or_introl eq_refl) F eq_refl eq_refl) as (evs' & r & w' & E & D).
  rewrite E in H. destruct r as [[e1 c1]|]; [|discriminate]. cbn [lands] in H. injection H as <- <- <-. cbn [s_c]. right.
  assert (Q : exists r0, rounds X OP_SIMPLE_ENROLL c w evs' r0 /\ Ok (e1, c1) = finish (Enroll cn (Some k)) r0).
  { destruct D as [(-> & e0 & D1 & D2)|(_ & r0 & R & Ef)]; [|exists r0; auto]. exfalso.
    unfold est_client_enroll_internal in E. unfold mbind at 1, get in E. cbn [s_c] in E. rewrite Ci in E. cbn [negb] in E.
    destruct (twice_run X OP_SIMPLE_ENROLL true _ (cn_tries X OP_SIMPLE_ENROLL cn k L (or_introl eq_refl)) c w F) as (evs2 & r2 & w2 & Et & R2). unfold mbind at 1 in E. rewrite Et in E.
    assert (N : evs2 <> []) by (inversion R2; discriminate). destruct evs2 as [|v vs]; [now apply N|]. destruct r2 as [[[e2 b2] c2]|]; cbn in E; [|discriminate E].
    destruct b2; cbn in E; discriminate E. }
  destruct Q as (r0 & R & Ef). destruct r0 as [[[e2 n2] c2]|]; [|discriminate]. cbn [finish resets] in Ef. injection Ef as -> ->.
  apply rounds_shelved in R as Rs. split; [inversion R; discriminate|].
  assert (Sh : shelved X OP_SIMPLE_ENROLL c evs' e2 (if n2 && true then reset c2 else c2)) by (destruct n2; exact Rs).
  split; [|split; [reflexivity|exact Sh]]. destruct Rs as (_ & [(_ & _ & _ & N)|[(r & cert & _ & _ & -> & _)|(r & cert & key & _ & N & _)]]); [exact N|discriminate|discriminate].
Qed.
Lemma copy_cacerts_run : forall c w t, c_init c = true -> c_cas c = Some t ->
  est_client_copy_cacerts true {| s_c := c; s_env := w |} = ([], Ok ((EST_ERR_NONE, Some t), {| s_c := put_init false c; s_env := w |})).
Proof. intros c w t H1 H2. unfold est_client_copy_cacerts, mbind, get. cbn [s_c]. rewrite H1. cbn [negb]. rewrite H2. reflexivity. Qed.
Definition fetched (X : ext) (evs rest : list event) (text : bytes) : Prop :=
  exists sv p a q r body, evs = EConnect sv p a :: ERequest q :: EResponse r :: rest /\ reply_body OP_CACERTS r body /\ verified X body text.
Lemma provision_moves : forall X cn k c w evs e s', lawful X -> fit c -> est_client_provision_cert X cn k {| s_c := c; s_env := w |} = (evs, Ok (e, s')) ->
  (e <> EST_ERR_NONE /\ unmoved c (s_c s') /\ ((c_cas (s_c s') = c_cas c /\ e <> EST_ERR_CACERT_VERIFICATION) \/ c_cas (s_c s') = None))
  \/ (exists rest text, fetched X evs rest text /\ c_cas (s_c s') = Some text /\
      ((e <> EST_ERR_NONE /\ c_cert (s_c s') = c_cert c /\ c_key (s_c s') = c_key c /\ rest = [] /\ c_init (s_c s') = false)
       \/ (e <> EST_ERR_NONE /\ unmoved c (s_c s'))
       \/ (e = EST_ERR_NONE /\ c_key (s_c s') = c_key c /\ c_init (s_c s') = c_init c /\ exists r cert, last_response evs r /\ reply_body OP_SIMPLE_ENROLL r cert /\ c_cert (s_c s') = Some cert))).
Proof.
  intros X cn k c w evs e s' L F H. unfold est_client_provision_cert in H. unfold mbind at 1, get in H. cbn [s_c] in H.
  destruct (c_init c) eqn:Ci; cbn [negb] in H.
  2: { cbn in H. injection H as <- <- <-. left. split; [discriminate|]. split; [repeat split; reflexivity|]. left. split; [reflexivity|discriminate]. }
  destruct k as [k|].
  2: { cbn in H. injection H as <- <- <-. left. split; [discriminate|]. split; [repeat split; reflexivity|]. left. split; [reflexivity|discriminate]. }
  unfold mbind at 1 in H. destruct (est_client_get_cacerts X true {| s_c := c; s_env := w |}) as [e1 [[rv s1]|]] eqn:G; [|discriminate].
  pose proof (does_spec _ _ _ _ (fair_cacerts X true) _ _ _ _ G) as Hf. destruct (Hf F) as [F1 _]. cbn [s_c] in F1.
  apply cacerts_moves in G as ((U1 & U2 & U3) & [(-> & _ & q & r & body & text & -> & Rb & V & Cas)|(Ne & M)]).
  2: { destruct (err_eqb rv EST_ERR_NONE) eqn:En; [apply err_eqb_eq in En; contradiction|]. cbn in H. injection H as <- <- <-. left. split; [exact Ne|]. split; [repeat split; assumption|exact M]. }
  replace (negb (err_eqb EST_ERR_NONE EST_ERR_NONE)) with false in H by reflexivity. destruct s1 as [c1 w1]. cbn [s_c] in *. unfold mbind at 1 in H.
  rewrite (copy_cacerts_run c1 w1 text) in H by congruence. run_in H.
  replace (negb (err_eqb EST_ERR_NONE EST_ERR_NONE)) with false in H by reflexivity. right.
  destruct (x_to_pem X text) as [pem|] eqn:Pm.
  2: { injection H as <- <- <-. exists [], text. split; [exists (c_server c), (c_port c), (c_trust c), q, r, body; auto|]. cbn. split; [exact Cas|]. left. repeat split; auto. discriminate. }
  destruct (err_eqb (x_load_certs X pem) EST_ERR_NONE) eqn:Lc; cbn [negb] in H.
  2: { injection H as <- <- <-. exists [], text. split; [exists (c_server c), (c_port c), (c_trust c), q, r, body; auto|]. cbn. split; [exact Cas|]. left. repeat split; auto. now apply eqb_none. }
  set (c3 := put_init true _) in H. destruct (est_client_get_csrattrs X true _) as [e2 [[[rv2 d2] s2]|]] eqn:G2; [|discriminate].
  pose proof (does_spec _ _ _ _ (fair_csrattrs X true) _ _ _ _ G2) as Hf2. cbn [s_c] in Hf2. destruct (Hf2 F1) as [F2 _].
  pose proof (does_spec _ _ _ _ (quiet_csrattrs X true) _ _ _ _ G2) as ((Q1 & Q2 & Q3) & Q4). cbn [s_c] in Q1, Q2, Q3, Q4. subst c3. cbn [c_cert c_key c_init c_cas put_init put_store] in Q1, Q2, Q3, Q4.
  destruct (negb (err_eqb rv2 EST_ERR_NONE) && negb (err_eqb rv2 EST_ERR_HTTP_NO_CONTENT)) eqn:Es.
  { cbn in H. injection H as <- <- <-. exists (e2 ++ []), text. split; [exists (c_server c), (c_port c), (c_trust c), q, r, body; auto|]. split; [congruence|]. right. left.
    split; [apply eqb_none; destruct (err_eqb rv2 EST_ERR_NONE); [discriminate Es|reflexivity]|]. repeat split; congruence. }
  destruct (est_client_enroll X cn (Some k) s2) as [e3 [[rv3 s3]|]] eqn:G3; [|cbn in H; discriminate]. cbn in H. injection H as <- <- <-.
  destruct s2 as [c2 w2]. cbn [s_c] in *. exists (e2 ++ e3), text. split; [exists (c_server c), (c_port c), (c_trust c), q, r, body; auto|].
  apply enroll_shelved in G3 as [(_ & _ & _ & [G3|G3])|(N3 & Nv & _ & ((K1 & K2) & Sh))]; try assumption; [congruence|discriminate|].
  split; [congruence|]. right. destruct Sh as [(S1 & S2 & S3 & S4)|[(r3 & cert & Lr & _ & -> & Rb3 & S1 & S2)|(r3 & cert & key & _ & S1 & _)]]; [| |discriminate].
  - left. split; [exact S3|]. repeat split; congruence.
  - right. split; [reflexivity|]. split; [congruence|]. split; [congruence|]. exists r3, cert. split; [|auto]. destruct Lr as (b & ->).
    exists (conn c :: ERequest q :: EResponse r :: e2 ++ b). cbn. rewrite app_assoc. reflexivity.
Qed.

(** ** Every call *)
Definition cert_move (X : ext) (c : client) (ent : entry) (c' : client) : Prop :=
  (exists op r cert, op_called (e_call ent) = Some op /\ issued ent r /\ delivers_cert X op r cert /\ c_cert c' = Some cert)
  \/ (exists b, e_call ent = CopyCert true /\ e_out ent = Some b /\ c_cert c = Some b /\ c_cert c' = None)
  \/ (c_cert c' = c_cert c /\ (forall r, ~ issued ent r) /\ ~ copied_cert ent).
Definition key_move (X : ext) (c : client) (ent : entry) (c' : client) : Prop :=
  (exists r key cert, op_called (e_call ent) = Some OP_SERVER_KEYGEN /\ issued ent r /\ keys_delivered X r key cert /\ c_key c' = Some key)
  \/ (exists b, e_call ent = CopyKey true /\ e_out ent = Some b /\ c_key c = Some b /\ c_key c' = None)
  \/ (c_key c' = c_key c /\ (forall r, issued ent r -> op_called (e_call ent) <> Some OP_SERVER_KEYGEN) /\ ~ copied_key ent).
Definition cas_move (X : ext) (c : client) (ent : entry) (c' : client) : Prop :=
  (exists text, downloads X ent text /\ c_cas c' = Some text)
  \/ (c_cas c' = None /\ ca_call (e_call ent) /\ e_code ent <> EST_ERR_NONE)
  \/ (c_cas c' = c_cas c /\ (ca_call (e_call ent) -> e_code ent <> EST_ERR_NONE /\ e_code ent <> EST_ERR_CACERT_VERIFICATION)).
Definition init_move (X : ext) (c : client) (ent : entry) (c' : client) : Prop := c_init c' = c_init c \/ (c_init c' = false /\ closing X ent).
Definition moves (X : ext) (c : client) (ent : entry) (c' : client) : Prop := cert_move X c ent c' /\ key_move X c ent c' /\ cas_move X c ent c' /\ init_move X c ent c'.

Lemma op_eq : forall x, enrollment x -> op_called x = Some (op_of x).
Proof. destruct x; cbn; auto; contradiction. Qed.
Lemma enrollment_not : forall x, enrollment x -> ~ ca_call x /\ (forall o, x <> CopyCert o) /\ (forall o, x <> CopyKey o) /\ (forall o, x <> CopyCacerts o).
Proof. destruct x; cbn; try contradiction; repeat split; auto; discriminate. Qed.
Lemma enrollment_moves : forall X x c w evs e o s', lawful X -> proper x -> fit c -> enrollment x -> perform X x {| s_c := c; s_env := w |} = (evs, Ok (e, o, s')) ->
  moves X c {| e_call := x; e_events := evs; e_code := e; e_out := o |} (s_c s').
Proof.
  intros X x c w evs e o s' L P F E H. destruct (enrollment_not x E) as (Nc & N1 & N2 & N3).
  destruct (enrollment_ends X x c w L P F E) as (evs' & r & w' & Ep & D). rewrite Ep in H. destruct r as [[e1 c1]|]; [|discriminate]. cbn [landed] in H. injection H as <- <- <- <-. cbn [s_c].
  assert (Cc : ~ copied_cert {| e_call := x; e_events := evs'; e_code := e1; e_out := None |}) by (intros (? & ? & A & B); discriminate).
  assert (Ck : ~ copied_key {| e_call := x; e_events := evs'; e_code := e1; e_out := None |}) by (intros (? & ? & A & B); discriminate).
  destruct D as [(-> & e0 & Q & _)|(_ & r0 & R & Q)].
  - injection Q as -> ->. assert (Ni : forall r, ~ issued {| e_call := x; e_events := []; e_code := e0; e_out := None |} r) by (intros r ((b & B) & _); destruct b; discriminate).
    split; [|split; [|split]]; [right; right; auto|right; right; repeat split; auto; intros r B; now elim (Ni r)|right; right; cbn; split; [reflexivity|contradiction]|now left].
  - destruct r0 as [[[e2 n2] c2]|]; [|discriminate]. cbn [finish] in Q. injection Q as -> ->. apply rounds_shelved in R as [[K1 K2] Sh].
    set (c' := if n2 && resets x then reset c2 else c2). assert (Eq : c_cert c' = c_cert c2 /\ c_key c' = c_key c2 /\ c_cas c' = c_cas c2 /\ c_init c' = c_init c2) by (subst c'; destruct (n2 && resets x); auto).
    destruct Eq as (Q1 & Q2 & Q3 & Q4). clearbody c'. unfold moves. split; [|split; [|split]].
    + destruct Sh as [(S1 & S2 & S3 & S4)|[(r & cert & Lr & Kg & -> & Rb & S1 & S2)|(r & cert & key & Lr & Kg & Se & Kd & S1 & S2)]].
      * right. right. split; [congruence|]. split; [|exact Cc]. intros r (_ & op & _ & [B|[_ B]]); cbn in B; contradiction.
      * left. exists (op_of x), r, cert. split; [now apply op_eq|]. split; [split; [exact Lr|exists (op_of x); split; [now apply op_eq|now left]]|]. split; [|congruence].
        destruct (op_of x); try discriminate; exact Rb.
      * left. exists (op_of x), r, cert. assert (Eo : op_of x = OP_SERVER_KEYGEN) by (destruct (op_of x); try discriminate; reflexivity).
        split; [now apply op_eq|]. split; [split; [exact Lr|exists (op_of x); split; [now apply op_eq|destruct Se; cbn; auto]]|]. split; [|congruence]. rewrite Eo. cbn. eauto.
    + destruct Sh as [(S1 & S2 & S3 & S4)|[(r & cert & Lr & Kg & -> & Rb & S1 & S2)|(r & cert & key & Lr & Kg & Se & Kd & S1 & S2)]].
      * right. right. split; [congruence|]. split; [|exact Ck]. intros r (_ & op & _ & [B|[_ B]]); cbn in B; contradiction.
      * right. right. split; [congruence|]. split; [|exact Ck]. intros r0 _. cbn [e_call]. rewrite (op_eq x E). intro B. injection B as B. rewrite B in Kg. discriminate.
      * left. exists r, key, cert. assert (Eo : op_of x = OP_SERVER_KEYGEN) by (destruct (op_of x); try discriminate; reflexivity).
        split; [cbn [e_call]; rewrite (op_eq x E), Eo; reflexivity|]. split; [split; [exact Lr|exists (op_of x); split; [now apply op_eq|destruct Se; cbn; auto]]|]. split; [exact Kd|congruence].
    + right. right. split; [congruence|contradiction].
    + left. congruence.
Qed.
Lemma quiet_moves : forall X x c evs e o c', op_called x = None -> ~ ca_call x -> (forall y, x <> CopyCert y) -> (forall y, x <> CopyKey y) -> quiet c evs c' ->
  moves X c {| e_call := x; e_events := evs; e_code := e; e_out := o |} c'.
Proof.
  intros X x c evs e o c' No Nc N1 N2 ((Q1 & Q2 & Q3) & Q4). split; [|split; [|split]].
  - right. right. split; [exact Q1|]. split; [intros r (_ & op & B & _); cbn [e_call] in B; congruence|]. intros (y & b & B & _). now apply (N1 y).
  - right. right. split; [exact Q2|]. split; [intros r _; cbn [e_call]; congruence|]. intros (y & b & B & _). now apply (N2 y).
  - right. right. split; [exact Q4|contradiction].
  - now left.
Qed.
Theorem call_moves : forall X x c w evs e o s', lawful X -> proper x -> fit c -> perform X x {| s_c := c; s_env := w |} = (evs, Ok (e, o, s')) ->
  moves X c {| e_call := x; e_events := evs; e_code := e; e_out := o |} (s_c s').
Proof.
  intros X x c w evs e o s' L P F H.
  assert (Qm : forall y, x = y -> op_called y = None -> ~ ca_call y -> (forall z, y <> CopyCert z) -> (forall z, y <> CopyKey z) -> does quiet quiet_ub (perform X y) ->
    moves X c {| e_call := x; e_events := evs; e_code := e; e_out := o |} (s_c s')).
  { intros y -> H1 H2 H3 H4 D. apply quiet_moves; auto. exact (does_spec _ _ _ _ D _ _ _ _ H). }
  destruct x.
  - eapply enrollment_moves; eauto; exact I.
  - eapply enrollment_moves; eauto; exact I.
  - eapply enrollment_moves; eauto; exact I.
  - eapply enrollment_moves; eauto; exact I.
  - eapply enrollment_moves; eauto; exact I.
  - (* Provision *)
    cbn [perform] in H. unfold plain, mbind in H. destruct (est_client_provision_cert X cn key _) as [e1 [[rv s1]|]] eqn:G; [|discriminate]. cbn in H. injection H as <- <- <- <-. rewrite app_nil_r.
    assert (Cc : ~ copied_cert {| e_call := Provision cn key; e_events := e1; e_code := rv; e_out := None |}) by (intros (? & ? & A & B); discriminate).
    assert (Ck : ~ copied_key {| e_call := Provision cn key; e_events := e1; e_code := rv; e_out := None |}) by (intros (? & ? & A & B); discriminate).
    assert (Nk : forall r, issued {| e_call := Provision cn key; e_events := e1; e_code := rv; e_out := None |} r -> rv = EST_ERR_NONE /\ op_called (Provision cn key) <> Some OP_SERVER_KEYGEN).
    { intros r (_ & op & Eo & [B|[B _]]); cbn in *; [split; [exact B|discriminate]|]. congruence. }
    apply provision_moves in G as [(Ne & (U1 & U2 & U3) & M)|(rest & text & Ft & Cas & M)]; [| |exact L|exact F].
    + split; [|split; [|split]].
      * right. right. split; [exact U1|]. split; [|exact Cc]. intros r B. now apply Nk in B.
      * right. right. split; [exact U2|]. split; [|exact Ck]. intros r B. now apply Nk in B.
      * destruct M as [[M1 M2]|M]; [right; right; cbn; auto|right; left; cbn; auto].
      * now left.
    + assert (Dl : downloads X {| e_call := Provision cn key; e_events := e1; e_code := rv; e_out := None |} text).
      { split; [exact I|]. destruct Ft as (sv & p & a & q & r & body & B). exists sv, p, a, q, r, body, rest. exact B. }
      split; [|split; [|split; [left; eauto|]]].
      * destruct M as [(M1 & M2 & _)|[(M1 & M2 & _)|(M1 & M2 & M3 & r & cert & Lr & Rb & M4)]].
        -- right. right. split; [exact M2|]. split; [|exact Cc]. intros r B. now apply Nk in B.
        -- right. right. split; [exact M2|]. split; [|exact Cc]. intros r B. now apply Nk in B.
        -- left. exists OP_SIMPLE_ENROLL, r, cert. split; [reflexivity|]. split; [|split; [exact Rb|exact M4]]. split; [exact Lr|]. exists OP_SIMPLE_ENROLL. split; [reflexivity|]. now left.
      * right. right. split; [destruct M as [(M1 & M2 & M3 & _)|[(M1 & M2 & M3 & _)|(M1 & M2 & _)]]; assumption|]. split; [|exact Ck]. intros r B. now apply Nk in B.
      * destruct M as [(M1 & M2 & M3 & -> & M4)|[(M1 & M2 & M3 & M4)|(M1 & M2 & M3 & _)]]; [right|now left|now left]. split; [exact M4|]. right. exists cn, key, text. repeat split; auto.
        -- apply Dl.
        -- destruct Ft as (sv & p & a & q & r & body & -> & _). reflexivity.
  - (* GetCacerts *)
    cbn [perform] in H. unfold plain, mbind in H. destruct (est_client_get_cacerts X out _) as [e1 [[rv s1]|]] eqn:G; [|discriminate]. cbn in H. injection H as <- <- <- <-. rewrite app_nil_r.
    apply cacerts_moves in G as ((U1 & U2 & U3) & M). split; [|split; [|split; [|now left]]].
    + right. right. split; [exact U1|]. split; [intros r (_ & op & B & _); discriminate|]. intros (? & ? & B & _). discriminate.
    + right. right. split; [exact U2|]. split; [intros r (_ & op & B & _); discriminate|]. intros (? & ? & B & _). discriminate.
    + destruct M as [(-> & _ & q & r & body & text & -> & Rb & V & Cas)|(Ne & [[M1 M2]|M])]; [left|right; right; cbn; auto|right; left; cbn; auto].
      exists text. split; [|exact Cas]. split; [exact I|]. exists (c_server c), (c_port c), (c_trust c), q, r, body, []. split; [reflexivity|auto].
  - apply (Qm _ eq_refl); auto; try discriminate; try (apply quiet_csrattrs).
  - (* CopyCert *)
    cbn [perform] in H. unfold est_client_copy_enrolled_cert, mbind, get in H. cbn [s_c] in H. destruct (c_init c); cbn [negb] in H.
    2: { cbn in H. injection H as <- <- <- <-. split; [right; right|split; [right; right|split; [right; right|now left]]]; cbn; repeat split; auto; try (intros r (_ & op & B & _); discriminate); intros (? & ? & B & B'); discriminate. }
    destruct out; cbn [negb] in H.
    2: { cbn in H. injection H as <- <- <- <-. split; [right; right|split; [right; right|split; [right; right|now left]]]; cbn; repeat split; auto; try (intros r (_ & op & B & _); discriminate); intros (? & ? & B & B'); discriminate. }
    destruct (c_cert c) as [b|] eqn:Cb; cbn in H; injection H as <- <- <- <-.
    + split; [right; left; exists b; auto|split; [right; right|split; [right; right|now left]]]; cbn; repeat split; auto; try (intros r (_ & op & B & _); discriminate); try (intros (? & ? & B & B'); discriminate); contradiction.
    + split; [right; right|split; [right; right|split; [right; right|now left]]]; cbn; repeat split; auto; try (intros r (_ & op & B & _); discriminate); try (intros (? & ? & B & B'); discriminate); contradiction.
  - (* CopyKey *)
    cbn [perform] in H. unfold est_client_copy_server_generated_key, mbind, get in H. cbn [s_c] in H. destruct (c_init c); cbn [negb] in H.
    2: { cbn in H. injection H as <- <- <- <-. split; [right; right|split; [right; right|split; [right; right|now left]]]; cbn; repeat split; auto; try (intros r (_ & op & B & _); discriminate); intros (? & ? & B & B'); discriminate. }
    destruct out; cbn [negb] in H.
    2: { cbn in H. injection H as <- <- <- <-. split; [right; right|split; [right; right|split; [right; right|now left]]]; cbn; repeat split; auto; try (intros r (_ & op & B & _); discriminate); intros (? & ? & B & B'); discriminate. }
    destruct (c_key c) as [b|] eqn:Cb; cbn in H; injection H as <- <- <- <-.
    + split; [right; right|split; [right; left; exists b; auto|split; [right; right|now left]]]; cbn; repeat split; auto; try (intros r (_ & op & B & _); discriminate); try (intros (? & ? & B & B'); discriminate); contradiction.
    + split; [right; right|split; [right; right|split; [right; right|now left]]]; cbn; repeat split; auto; try (intros r (_ & op & B & _); discriminate); try (intros (? & ? & B & B'); discriminate); contradiction.
  - (* CopyCacerts *)
    cbn [perform] in H. unfold est_client_copy_cacerts, mbind, get in H. cbn [s_c] in H. destruct (c_init c) eqn:Ci; cbn [negb] in H.
    2: { cbn in H. injection H as <- <- <- <-. split; [right; right|split; [right; right|split; [right; right|now left]]]; cbn; repeat split; auto; try (intros r (_ & op & B & _); discriminate); intros (? & ? & B & B'); discriminate. }
    destruct out; cbn [negb] in H.
    2: { cbn in H. injection H as <- <- <- <-. split; [right; right|split; [right; right|split; [right; right|now left]]]; cbn; repeat split; auto; try (intros r (_ & op & B & _); discriminate); intros (? & ? & B & B'); discriminate. }
    destruct (c_cas c) as [b|] eqn:Cb; cbn in H; injection H as <- <- <- <-.
    + split; [right; right|split; [right; right|split; [right; right|right; cbn; split; [reflexivity|left; exists true, b; auto]]]]; cbn; repeat split; auto; try (intros r (_ & op & B & _); discriminate); try (intros (? & ? & B & B'); discriminate); contradiction.
    + split; [right; right|split; [right; right|split; [right; right|now left]]]; cbn; repeat split; auto; try (intros r (_ & op & B & _); discriminate); try (intros (? & ? & B & B'); discriminate); contradiction.
  - apply (Qm _ eq_refl); auto; try discriminate. cbn [perform]. apply quiet_plain, quiet_set_auth.
  - apply (Qm _ eq_refl); auto; try discriminate. cbn [perform]. apply quiet_plain. unfold est_client_set_auth_cred_cb. qsteps.
  - apply (Qm _ eq_refl); auto; try discriminate. cbn [perform]. apply quiet_plain. unfold est_client_enable_basic_auth_hint. qsteps.
  - apply (Qm _ eq_refl); auto; try discriminate. cbn [perform]. apply quiet_plain, quiet_set_server.
  - apply (Qm _ eq_refl); auto; try discriminate. cbn [perform]. apply quiet_plain. unfold est_client_force_pop. qsteps.
Qed.

(** ** Histories *)
Lemma history_split : forall X s0 l2 l1 s, history X s0 (l1 ++ l2) s -> exists s1, history X s0 l1 s1 /\ history X s1 l2 s.
Proof.
  intros X s0 l2. induction l2 as [|e l2 IH] using rev_ind; intros l1 s H.
  - rewrite app_nil_r in H. exists s. split; [exact H|constructor].
  - rewrite app_assoc in H. inversion H as [E|log s1 x evs c o s2 H1 E El Es]; [destruct (l1 ++ l2); discriminate|].
    apply app_inj_tail in El as [-> <-]. subst s2. apply IH in H1 as (s1' & H1 & H2). exists s1'. split; [exact H1|]. eapply history_call; eauto.
Qed.
Lemma history_one : forall X s0 e s, history X s0 [e] s -> perform X (e_call e) s0 = (e_events e, Ok (e_code e, e_out e, s)).
Proof.
  intros X s0 e s H. inversion H as [|log s1 x evs c o s2 H1 E El Es]. subst s2. destruct log as [|? [|? ?]]; try discriminate. injection El as <-. cbn.
  inversion H1 as [Q|log ? ? ? ? ? ? ? ? Q]; [subst; exact E|destruct log; discriminate].
Qed.
(** A relation between the states around one call, in the states of a history. *)
Lemma history_inv : forall X a w log s, lawful X -> calls_proper log -> history X (fresh a w) log s -> fit (s_c s).
Proof. intros X a w log s L P H. now apply (history_state X a w log s). Qed.
Lemma history_fit : forall X log s s0, lawful X -> calls_proper log -> fit (s_c s0) -> history X s0 log s -> fit (s_c s).
Proof.
  intros X log s s0 L P F H. induction H as [|log s1 x evs e o s2 H IH E]; [exact F|]. apply Forall_app in P as [P1 P2]. specialize (IH P1). inversion_clear P2. cbn [e_call] in *.
  assert (D : x = BasicHint \/ x <> BasicHint) by (destruct x; auto; right; discriminate). destruct D as [->|N].
  - cbn in E. injection E as <- <- <- <-. exact IH.
  - pose proof (does_spec _ _ _ _ (perform_fair X x L H0 N) _ _ _ _ E) as Q. now apply Q.
Qed.
Lemma step_moves : forall X s0 e s, lawful X -> proper (e_call e) -> fit (s_c s0) -> history X s0 [e] s -> moves X (s_c s0) e (s_c s).
Proof.
  intros X [c w] e s L P F H. apply history_one in H. destruct e as [x evs code out]. cbn [e_call e_events e_code e_out] in *. eapply call_moves; eauto.
Qed.

Theorem cert_latest : forall X a w log s b, lawful X -> history X (fresh a w) log s -> calls_proper log -> c_cert (s_c s) = Some b ->
  exists log1 ent log2 op r, log = log1 ++ ent :: log2 /\ op_called (e_call ent) = Some op /\ issued ent r /\ delivers_cert X op r b
    /\ Forall (fun e => (forall r, ~ issued e r) /\ ~ copied_cert e) log2.
Proof.
  intros X a w log. induction log as [|e log IH] using rev_ind; intros s b L H P E.
  - inversion H as [Q|log ? ? ? ? ? ? ? ? Q]; [|destruct log; discriminate]. subst s. discriminate.
  - apply history_split in H as (s1 & H1 & H2). apply Forall_app in P as [P1 P2]. inversion_clear P2.
    pose proof (history_inv _ _ _ _ _ L P1 H1) as F. destruct (step_moves _ _ _ _ L H F H2) as (Mc & _).
    destruct Mc as [(op & r & cert & Eo & Is & D & Q)|[(b' & _ & _ & _ & Q)|(Q & N1 & N2)]].
    + exists log, e, [], op, r. assert (cert = b) by congruence. subst cert. auto.
    + congruence.
    + rewrite E in Q. destruct (IH s1 b L H1 P1 (eq_sym Q)) as (l1 & ent & l2 & op & r & -> & Eo & Is & D & Fa).
      exists l1, ent, (l2 ++ [e]), op, r. rewrite <- app_assoc. repeat split; auto; try apply Is. apply Forall_app. auto.
Qed.
Theorem key_latest : forall X a w log s b, lawful X -> history X (fresh a w) log s -> calls_proper log -> c_key (s_c s) = Some b ->
  exists log1 ent log2 r cert, log = log1 ++ ent :: log2 /\ op_called (e_call ent) = Some OP_SERVER_KEYGEN /\ issued ent r /\ keys_delivered X r b cert
    /\ Forall (fun e => (forall r, issued e r -> op_called (e_call e) <> Some OP_SERVER_KEYGEN) /\ ~ copied_key e) log2.
Proof.
  intros X a w log. induction log as [|e log IH] using rev_ind; intros s b L H P E.
  - inversion H as [Q|log ? ? ? ? ? ? ? ? Q]; [|destruct log; discriminate]. subst s. discriminate.
  - apply history_split in H as (s1 & H1 & H2). apply Forall_app in P as [P1 P2]. inversion_clear P2.
    pose proof (history_inv _ _ _ _ _ L P1 H1) as F. destruct (step_moves _ _ _ _ L H F H2) as (_ & Mk & _).
    destruct Mk as [(r & key & cert & Eo & Is & D & Q)|[(b' & _ & _ & _ & Q)|(Q & N1 & N2)]].
    + exists log, e, [], r, cert. assert (key = b) by congruence. subst key. auto.
    + congruence.
    + rewrite E in Q. destruct (IH s1 b L H1 P1 (eq_sym Q)) as (l1 & ent & l2 & r & cert & -> & Eo & Is & D & Fa).
      exists l1, ent, (l2 ++ [e]), r, cert. rewrite <- app_assoc. split; [reflexivity|]. split; [exact Eo|]. split; [exact Is|]. split; [exact D|]. apply Forall_app. auto.
Qed.
Theorem cas_latest : forall X a w log s t, lawful X -> history X (fresh a w) log s -> calls_proper log -> c_cas (s_c s) = Some t ->
  exists log1 ent log2, log = log1 ++ ent :: log2 /\ downloads X ent t
    /\ Forall (fun e => ca_call (e_call e) -> e_code e <> EST_ERR_NONE /\ e_code e <> EST_ERR_CACERT_VERIFICATION) log2.
Proof.
  intros X a w log. induction log as [|e log IH] using rev_ind; intros s b L H P E.
  - inversion H as [Q|log ? ? ? ? ? ? ? ? Q]; [|destruct log; discriminate]. subst s. discriminate.
  - apply history_split in H as (s1 & H1 & H2). apply Forall_app in P as [P1 P2]. inversion_clear P2.
    pose proof (history_inv _ _ _ _ _ L P1 H1) as F. destruct (step_moves _ _ _ _ L H F H2) as (_ & _ & Ma & _).
    destruct Ma as [(text & D & Q)|[(Q & _)|(Q & N)]].
    + exists log, e, []. assert (text = b) by congruence. subst text. auto.
    + congruence.
    + rewrite E in Q. destruct (IH s1 b L H1 P1 (eq_sym Q)) as (l1 & ent & l2 & -> & D & Fa).
      exists l1, ent, (l2 ++ [e]). rewrite <- app_assoc. split; [reflexivity|]. split; [exact D|]. apply Forall_app. auto.
Qed.
(** What is there stays there. *)
Lemma cert_stays : forall X log s0 s, lawful X -> fit (s_c s0) -> history X s0 log s -> calls_proper log -> Forall (fun e => (forall r, ~ issued e r) /\ ~ copied_cert e) log ->
  c_cert (s_c s) = c_cert (s_c s0).
Proof.
  intros X log. induction log as [|e log IH] using rev_ind; intros s0 s L F H P Fa.
  - inversion H as [Q|log ? ? ? ? ? ? ? ? Q]; [reflexivity|destruct log; discriminate].
  - apply history_split in H as (s1 & H1 & H2). apply Forall_app in P as [P1 P2]. apply Forall_app in Fa as [Fa1 Fa2]. apply Forall_inv in P2 as H. apply Forall_inv in Fa2 as [N1 N2].
    pose proof (history_fit _ _ _ _ L P1 F H1) as F1. destruct (step_moves _ _ _ _ L H F1 H2) as (Mc & _).
    destruct Mc as [(op & r & cert & Eo & Is & D & Q)|[(b' & B1 & B2 & _ & Q)|(Q & _)]]; [now elim (N1 r)|elim N2; exists true, b'; auto|]. rewrite Q. now apply IH.
Qed.
Lemma key_stays : forall X log s0 s, lawful X -> fit (s_c s0) -> history X s0 log s -> calls_proper log -> Forall (fun e => (forall r, issued e r -> op_called (e_call e) <> Some OP_SERVER_KEYGEN) /\ ~ copied_key e) log ->
  c_key (s_c s) = c_key (s_c s0).
Proof.
  intros X log. induction log as [|e log IH] using rev_ind; intros s0 s L F H P Fa.
  - inversion H as [Q|log ? ? ? ? ? ? ? ? Q]; [reflexivity|destruct log; discriminate].
  - apply history_split in H as (s1 & H1 & H2). apply Forall_app in P as [P1 P2]. apply Forall_app in Fa as [Fa1 Fa2]. apply Forall_inv in P2 as H. apply Forall_inv in Fa2 as [N1 N2].
    pose proof (history_fit _ _ _ _ L P1 F H1) as F1. destruct (step_moves _ _ _ _ L H F1 H2) as (_ & Mk & _).
    destruct Mk as [(r & key & cert & Eo & Is & D & Q)|[(b' & B1 & B2 & _ & Q)|(Q & _)]]; [now elim (N1 r Is)|elim N2; exists true, b'; auto|]. rewrite Q. now apply IH.
Qed.
Lemma cas_stays : forall X log s0 s, lawful X -> fit (s_c s0) -> history X s0 log s -> calls_proper log -> Forall (fun e => ~ ca_call (e_call e)) log -> c_cas (s_c s) = c_cas (s_c s0).
Proof.
  intros X log. induction log as [|e log IH] using rev_ind; intros s0 s L F H P Fa.
  - inversion H as [Q|log ? ? ? ? ? ? ? ? Q]; [reflexivity|destruct log; discriminate].
  - apply history_split in H as (s1 & H1 & H2). apply Forall_app in P as [P1 P2]. apply Forall_app in Fa as [Fa1 Fa2]. apply Forall_inv in P2 as H. apply Forall_inv in Fa2 as H0.
    pose proof (history_fit _ _ _ _ L P1 F H1) as F1. destruct (step_moves _ _ _ _ L H F1 H2) as (_ & _ & Ma & _).
    destruct Ma as [(text & D & Q)|[(_ & Q & _)|(Q & _)]]; [elim H0; apply D|contradiction|]. rewrite Q. now apply IH.
Qed.
Lemma closed_why : forall X a w log s, lawful X -> history X (fresh a w) log s -> calls_proper log -> c_init (s_c s) = false -> exists ent, In ent log /\ closing X ent.
Proof.
  intros X a w log. induction log as [|e log IH] using rev_ind; intros s L H P E.
  - inversion H as [Q|log ? ? ? ? ? ? ? ? Q]; [|destruct log; discriminate]. subst s. discriminate.
  - apply history_split in H as (s1 & H1 & H2). apply Forall_app in P as [P1 P2]. inversion_clear P2.
    pose proof (history_inv _ _ _ _ _ L P1 H1) as F. destruct (step_moves _ _ _ _ L H F H2) as (_ & _ & _ & [Mi|[_ Mi]]).
    + rewrite E in Mi. destruct (IH s1 L H1 P1 (eq_sym Mi)) as (ent & I & C). exists ent. split; [apply in_or_app; now left|exact C].
    + exists e. split; [apply in_or_app; right; now left|exact Mi].
Qed.
(** A closed context. *)
Lemma closed_call : forall X x s, c_init (s_c s) = false ->
  match x with GetCsrattrs _ | SetAuth _ _ _ | SetCallback _ | BasicHint | ForcePop _ => False | _ => True end ->
  exists e, perform X x s = ([], Ok (e, None, s)) /\ e <> EST_ERR_NONE.
Proof.
  intros X x [c w] H K. cbn [s_c] in H.
  destruct x; try contradiction; cbn [perform]; unfold plain, est_client_enroll, est_client_server_keygen_enroll, est_client_enroll_csr, est_client_server_keygen_enroll_csr,
    est_client_enroll_internal, est_client_reenroll, est_client_enroll_csr_internal, est_client_provision_cert, est_client_get_cacerts, est_client_copy_enrolled_cert, est_client_copy_server_generated_key, est_client_copy_cacerts, est_client_set_server, mbind, get; cbn [s_c]; rewrite ?H; cbn [negb];
  repeat match goal with |- context [match ?o with Some _ => _ | None => _ end] => is_var o; destruct o end; cbn [s_c]; rewrite ?H; (eexists; split; [reflexivity|discriminate]).
Qed.
Lemma closed_stays : forall X x s evs e o s', c_init (s_c s) = false -> perform X x s = (evs, Ok (e, o, s')) -> c_init (s_c s') = false.
Proof.
  intros X x s evs e o s' H E.
  assert (D : forall y, x = y -> does quiet quiet_ub (perform X y) -> c_init (s_c s') = false).
  { intros y -> D. pose proof (does_spec _ _ _ _ D _ _ _ _ E) as ((_ & _ & Q) & _). congruence. }
  assert (K : (match x with GetCsrattrs _ | SetAuth _ _ _ | SetCallback _ | BasicHint | ForcePop _ => False | _ => True end) -> c_init (s_c s') = false).
  { intro K. destruct (closed_call X x s H K) as (e0 & Q & _). rewrite Q in E. injection E as <- <- <- <-. exact H. }
  destruct x; try (apply K; exact I); apply (D _ eq_refl); cbn [perform].
  - apply quiet_csrattrs.
  - apply quiet_plain, quiet_set_auth.
  - apply quiet_plain. unfold est_client_set_auth_cred_cb. qsteps.
  - apply quiet_plain. unfold est_client_enable_basic_auth_hint. qsteps.
  - apply quiet_plain. unfold est_client_force_pop. qsteps.
Qed.
Lemma closed_history : forall X log s0 s, c_init (s_c s0) = false -> history X s0 log s -> c_init (s_c s) = false.
Proof. intros X log s0 s F H. induction H as [|log s1 x evs e o s2 H IH E]; [exact F|]. eapply closed_stays; eauto. Qed.

(** ** Where the client connects *)
Lemma set_server_none : forall X n p g c w evs e o s', perform X (SetServer n p g) {| s_c := c; s_env := w |} = (evs, Ok (e, o, s')) ->
  evs = [] /\ c_trust (s_c s') = c_trust c
  /\ ((exists name, addressed {| e_call := SetServer n p g; e_events := evs; e_code := e; e_out := o |} name p /\ c_server (s_c s') = name /\ c_port (s_c s') = p)
      \/ ((forall name port, ~ addressed {| e_call := SetServer n p g; e_events := evs; e_code := e; e_out := o |} name port) /\ c_server (s_c s') = c_server c /\ c_port (s_c s') = c_port c)).
Proof.
  intros X n p g c w evs e o s' H. cbn [perform] in H. unfold est_client_set_server in H. unfold plain in H. unfold mbind, get in H. cbn [s_c] in H.
  destruct (c_init c) eqn:Ci; cbn [negb] in H.
  2: { cbn in H. injection H as <- <- <- <-. split; [reflexivity|]. split; [reflexivity|]. right. split; [|auto]. intros name port (seg & _ & _ & _ & A). now apply A. }
  destruct n as [name|].
  2: { cbn in H. injection H as <- <- <- <-. split; [reflexivity|]. split; [reflexivity|]. right. split; [|auto]. intros name port (seg & A & _). discriminate. }
  destruct ((p <=? 0) || (65535 <? p)) eqn:Ep.
  { cbn in H. injection H as <- <- <- <-. split; [reflexivity|]. split; [reflexivity|]. right. split; [|auto]. intros name' port (seg & A & B & _). injection A as <- <- <-. lia. }
  destruct (255 <? len name) eqn:En.
  { cbn in H. injection H as <- <- <- <-. split; [reflexivity|]. split; [reflexivity|]. right. split; [|auto]. intros name' port (seg & A & _ & B & _). injection A as <- <- <-. lia. }
  run_in H. destruct (set_path_segment (x_uri X) (x_brski X) None g) as [[rc blk]|] eqn:Sg; [|discriminate].
  assert (Nrc : rc <> EST_ERR_CLIENT_NOT_INITIALIZED).
  { clear - Sg. unfold set_path_segment in Sg. destruct g as [[|z g]|]; try (injection Sg as <- _; discriminate). cbv zeta in Sg. destruct (128 <? _); [injection Sg as <- _; discriminate|].
    destruct (est_parse_path_seg _ _ _) as [rc1|] eqn:Pr; [|discriminate]. cbn [bind] in Sg. destruct (negb (is_none rc1)) eqn:N1.
    - injection Sg as <- _. intros ->. unfold est_parse_path_seg in Pr. repeat match type of Pr with
        | (x <- ?e ;; _) = _ => destruct e; [cbn [bind] in Pr|discriminate]
        | (if ?b then _ else _) = _ => destruct b
        | match ?x with _ => _ end = _ => destruct x
        end; discriminate.
    - destruct (est_store_path_segment _ _) as [[rc2 b2]|] eqn:St; [|discriminate]. cbn [bind] in Sg. injection Sg as <- _. unfold est_store_path_segment in St.
      repeat match type of St with
        | (x <- ?e ;; _) = _ => destruct e; [cbn [bind] in St|discriminate]
        | (if ?b then _ else _) = _ => destruct b
        end; try discriminate; injection St as <- _; discriminate. }
  assert (A : exists x1, evs = [] /\ e = rc /\ o = None /\ c_trust (s_c s') = c_trust x1 /\ c_server (s_c s') = c_server x1 /\ c_port (s_c s') = c_port x1 /\ x1 = put_server name p c).
  { destruct blk as [blk|]; [destruct (cstr blk) as [seg|]; [|discriminate]|]; injection H as <- <- <- <-; exists (put_server name p c); repeat split; reflexivity. }
  destruct A as (x1 & -> & -> & -> & A1 & A2 & A3 & ->). split; [reflexivity|]. split; [exact A1|]. left. exists name. split; [|auto]. exists g. repeat split; auto; lia.
Qed.
Theorem connections : forall X a w log s, history X (fresh a w) log s ->
  c_trust (s_c s) = a /\
  ((exists log1 ent log2, log = log1 ++ ent :: log2 /\ addressed ent (c_server (s_c s)) (c_port (s_c s)) /\ Forall (fun e => forall n p, ~ addressed e n p) log2)
   \/ (c_server (s_c s) = [] /\ c_port (s_c s) = 0 /\ Forall (fun e => forall n p, ~ addressed e n p) log)).
Proof.
  intros X a w log s H. induction H as [|log s1 x evs e o s2 H IH E].
  - split; [reflexivity|]. right. repeat split; constructor.
  - destruct IH as [IH1 IH2].
    assert (D : (exists n p g, x = SetServer n p g) \/ forall n p g, x <> SetServer n p g) by (destruct x; try (right; intros; discriminate); left; eauto).
    destruct D as [(n & p & g & ->)|N].
    + destruct s1 as [c1 w1]. cbn [s_c] in *. destruct (set_server_none _ _ _ _ _ _ _ _ _ _ E) as (-> & T & [(name & A & <- & <-)|(A & E1 & E2)]).
      * split; [congruence|]. left. exists log. eexists. exists []. split; [reflexivity|]. split; [exact A|constructor].
      * split; [congruence|]. rewrite E1, E2. destruct IH2 as [(l1 & ent & l2 & -> & B1 & B2)|(B1 & B2 & B3)].
        -- left. exists l1, ent. eexists. rewrite <- app_assoc. split; [reflexivity|]. split; [exact B1|]. apply Forall_app. split; [exact B2|]. constructor; [exact A|constructor].
        -- right. repeat split; auto. apply Forall_app. split; [exact B3|]. constructor; [exact A|constructor].
    + pose proof (does_spec _ _ _ _ (perform_steady X x N) _ _ _ _ E) as [_ Q]. unfold conn in Q. injection Q as Q1 Q2 Q3. split; [congruence|]. rewrite Q1, Q2.
      assert (A : forall n p, ~ addressed {| e_call := x; e_events := evs; e_code := e; e_out := o |} n p) by (intros n p (seg & B & _); now apply (N (Some n) p seg)).
      destruct IH2 as [(l1 & ent & l2 & -> & B1 & B2)|(B1 & B2 & B3)].
      * left. exists l1, ent. eexists. rewrite <- app_assoc. split; [reflexivity|]. split; [exact B1|]. apply Forall_app. split; [exact B2|]. constructor; [exact A|constructor].
      * right. repeat split; auto. apply Forall_app. split; [exact B3|]. constructor; [exact A|constructor].
Qed.
