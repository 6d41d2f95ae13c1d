(** Enrollment calls, and sequences of calls. *)
From Coq Require Import String ZArith List Bool Lia ZifyBool ZifyNat.
From Verif Require Import Base Spec.Base64 Spec.Http Spec.Client Spec.Multipart Spec.ClientCalls Model.CLib Model.Codec Model.EstErr Model.HttpServer Model.Uri Model.AuthHdr Model.ClientHttp Model.Multipart Model.Host Model.Client
  Proofs.EstErr Proofs.HttpParse Proofs.ClientHttp Proofs.Uri Proofs.ClientModes Proofs.ClientCalls Proofs.ClientHonest.
Import ListNotations.
Open Scope Z_scope.

(** ** Enrollment calls *)
Definition op_of (x : call) : operation :=
  match x with Reenroll _ _ => OP_SIMPLE_REENROLL | Keygen _ _ | KeygenCsr _ _ => OP_SERVER_KEYGEN | _ => OP_SIMPLE_ENROLL end.
Definition resets (x : call) : bool := match x with Enroll _ _ | Keygen _ _ => true | _ => false end.
Definition reset (c : client) : client := put_http (set_mode AUTH_NONE (c_http c)) c.
Definition finish (x : call) (r : res (est_error * bool * client)) : res (est_error * client) :=
  match r with Ok (e, n, c) => Ok (e, if n && resets x then reset c else c) | UB => UB end.
Definition landed (w : list attempt) (r : res (est_error * client)) : res (est_error * option bytes * st) :=
  match r with Ok (e, c) => Ok (e, None, {| s_c := c; s_env := w |}) | UB => UB end.
(** A call that does nothing; it reports a success only for a certificate whose
    extensions cannot be copied. *)
Definition idle_error (X : ext) (x : call) (e : est_error) : Prop :=
  (e <> EST_ERR_NONE /\ (local e \/ exists cert key, x = Reenroll cert key)) \/ exists cert key, x = Reenroll (Some cert) (Some key) /\ x_csr_of_cert X cert key = (EST_ERR_NONE, None).

Lemma plain_run : forall m s evs r, m s = (evs, r) -> plain m s = (evs, match r with Ok (e, s') => Ok (e, None, s') | UB => UB end).
Proof. intros m s evs r H. unfold plain, mbind. rewrite H. destruct r as [[e s']|]; [|reflexivity]. cbn. rewrite app_nil_r. reflexivity. Qed.
Definition ends (X : ext) (x : call) (c : client) (w : list attempt) (evs : list event) (r : res (est_error * client)) : Prop :=
  (evs = [] /\ exists e, r = Ok (e, c) /\ idle_error X x e)
  \/ (c_init c = true /\ exists r0, rounds X (op_of x) c w evs r0 /\ r = finish x r0).
Lemma enroll_ends : forall X op cn k c w x, lawful X -> enrolls op -> fit c -> op_of x = op -> resets x = true ->
  exists evs r w', est_client_enroll_internal X op cn k {| s_c := c; s_env := w |} = (evs, lands w' r) /\ ends X x c w evs r.
Proof.
  intros X op cn k c w x L E F Eo Er. unfold est_client_enroll_internal. unfold mbind at 1, get. cbn [s_c].
  destruct (c_init c) eqn:Ci; cbn [negb]; [|exists [], (Ok (EST_ERR_CLIENT_NOT_INITIALIZED, c)), w; split; [reflexivity|]; left; split; [reflexivity|]; eexists; split; [reflexivity|]; left; split; [discriminate|]; left; repeat split; discriminate].
  destruct k as [k|]; [|exists [], (Ok (EST_ERR_NO_KEY, c)), w; split; [reflexivity|]; left; split; [reflexivity|]; eexists; split; [reflexivity|]; left; split; [discriminate|]; left; repeat split; discriminate].
  destruct (twice_run X op true _ (cn_tries X op cn k L E) c w F) as (evs & r & w' & Et & R). unfold mbind at 1. rewrite Et.
  exists evs, (finish x r), w'. split; [|right; split; [exact Ci|]; exists r; split; [rewrite Eo; exact R|reflexivity]].
  destruct r as [[[e n] c1]|]; [|reflexivity]. cbn [lands finish]. rewrite Er. destruct n; cbn; rewrite app_nil_r; reflexivity.
Qed.
Lemma csr_ends : forall X op r k c w x, lawful X -> enrolls op -> match r with Some y => all_bytes y | None => True end -> fit c -> op_of x = op -> resets x = false ->
  exists evs r' w', est_client_enroll_csr_internal X op r k {| s_c := c; s_env := w |} = (evs, lands w' r') /\ ends X x c w evs r'.
Proof.
  intros X op r k c w x L E P F Eo Er. unfold est_client_enroll_csr_internal. unfold mbind at 1, get. cbn [s_c].
  destruct r as [y|]; [|exists [], (Ok (EST_ERR_NO_CSR, c)), w; split; [reflexivity|]; left; split; [reflexivity|]; eexists; split; [reflexivity|]; left; split; [discriminate|]; left; repeat split; discriminate].
  destruct (c_init c) eqn:Ci; cbn [negb]; [|exists [], (Ok (EST_ERR_CLIENT_NOT_INITIALIZED, c)), w; split; [reflexivity|]; left; split; [reflexivity|]; eexists; split; [reflexivity|]; left; split; [discriminate|]; left; repeat split; discriminate].
  assert (T : tries X op (match k with Some k => est_client_enroll_pkcs10 X op y k | None => est_client_enroll_req X op y end)) by (destruct k; [now apply pkcs10_tries|now apply req_tries]).
  destruct (twice_run X op false _ T c w F) as (evs & r & w' & Et & R). unfold mbind at 1. rewrite Et.
  exists evs, (finish x r), w'. split; [|right; split; [exact Ci|]; exists r; split; [rewrite Eo; exact R|reflexivity]].
  destruct r as [[[e n] c1]|]; [|reflexivity]. cbn [lands finish]. rewrite Er, andb_false_r. cbn. rewrite app_nil_r. reflexivity.
Qed.
Lemma reenroll_ends : forall X cert k c w, lawful X -> fit c ->
  exists evs r' w', est_client_reenroll X cert k {| s_c := c; s_env := w |} = (evs, lands w' r') /\ ends X (Reenroll cert k) c w evs r'.
Proof.
  intros X cert k c w L F. unfold est_client_reenroll. unfold mbind at 1, get. cbn [s_c].
  destruct cert as [y|]; [|exists [], (Ok (EST_ERR_NO_CERT, c)), w; split; [reflexivity|]; left; split; [reflexivity|]; eexists; split; [reflexivity|]; left; split; [discriminate|]; left; repeat split; discriminate].
  destruct k as [k|]; [|exists [], (Ok (EST_ERR_NO_KEY, c)), w; split; [reflexivity|]; left; split; [reflexivity|]; eexists; split; [reflexivity|]; left; split; [discriminate|]; left; repeat split; discriminate].
  destruct (c_init c) eqn:Ci; cbn [negb]; [|exists [], (Ok (EST_ERR_CLIENT_NOT_INITIALIZED, c)), w; split; [reflexivity|]; left; split; [reflexivity|]; eexists; split; [reflexivity|]; left; split; [discriminate|]; left; repeat split; discriminate].
  destruct (x_csr_of_cert X y k) as [e csr] eqn:Ec. destruct (err_eqb e EST_ERR_NONE) eqn:En; cbn [negb].
  2: { exists [], (Ok (e, c)), w. split; [reflexivity|]. left. split; [reflexivity|]. eexists. split; [reflexivity|]. left. split; [now apply eqb_none|eauto]. }
  apply err_eqb_eq in En. subst e. destruct csr as [r|].
  2: { exists [], (Ok (EST_ERR_NONE, c)), w. split; [reflexivity|]. left. split; [reflexivity|]. eexists. split; [reflexivity|]. right. eauto. }
  assert (T : tries X OP_SIMPLE_REENROLL (est_client_enroll_pkcs10 X OP_SIMPLE_REENROLL r k)) by (apply pkcs10_tries; [exact L|right; now left]).
  destruct (twice_run X _ true _ T c w F) as (evs & r0 & w' & Et & R). unfold mbind at 1. rewrite Et.
  exists evs, (finish (Reenroll (Some y) (Some k)) r0), w'. split; [|right; split; [exact Ci|]; exists r0; split; [exact R|reflexivity]].
  destruct r0 as [[[e n] c1]|]; [|reflexivity]. cbn [lands finish resets]. rewrite andb_false_r. cbn. rewrite app_nil_r. reflexivity.
Qed.
Lemma enrollment_ends : forall X x c w, lawful X -> proper x -> fit c -> enrollment x ->
  exists evs r w', perform X x {| s_c := c; s_env := w |} = (evs, landed w' r) /\ ends X x c w evs r.
Proof.
  intros X x c w L P F E.
  assert (G : forall m, (exists evs r w', m {| s_c := c; s_env := w |} = (evs, lands w' r) /\ ends X x c w evs r) -> exists evs r w', plain m {| s_c := c; s_env := w |} = (evs, landed w' r) /\ ends X x c w evs r).
  { intros m (evs & r & w' & Em & R). exists evs, r, w'. split; [|exact R]. rewrite (plain_run _ _ _ _ Em). destruct r as [[e c1]|]; reflexivity. }
  destruct x; try contradiction; cbn [perform]; apply G.
  - unfold est_client_enroll. apply enroll_ends; auto. now left.
  - unfold est_client_server_keygen_enroll. apply enroll_ends; auto. right. now right.
  - now apply reenroll_ends.
  - unfold est_client_enroll_csr. apply csr_ends; auto. now left.
  - unfold est_client_server_keygen_enroll_csr. destruct key as [k|].
    + apply csr_ends; auto. right. now right.
    + exists [], (Ok (EST_ERR_NO_KEY, c)), w. split; [reflexivity|]. left. split; [reflexivity|]. eexists. split; [reflexivity|]. left. split; [discriminate|]. left. repeat split; discriminate.
Qed.

(** ** Histories *)
Definition hinted (log : list entry) : Prop := In BasicHint (map e_call log).
Lemma events_snoc : forall log e, events_of (log ++ [e]) = events_of log ++ e_events e.
Proof. intros. unfold events_of. rewrite map_app, concat_app. cbn. now rewrite app_nil_r. Qed.
Lemma hinted_snoc : forall log e, hinted (log ++ [e]) <-> hinted log \/ e_call e = BasicHint.
Proof. intros. unfold hinted. rewrite map_app, in_app_iff. cbn. intuition. Qed.
Lemma owes_mono : forall (h h' : Prop) tr c, (h -> h') -> owes h tr c -> owes h' tr c.
Proof. intros h h' tr c H O sc E. destruct (O sc E) as [[H1 H2]|H1]; [left; auto|now right]. Qed.
Lemma fit_init : forall a, fit (est_client_init a).
Proof. intro a. unfold fit. cbn. repeat split; auto; lia. Qed.
Definition calls_proper (log : list entry) : Prop := Forall (fun e => proper (e_call e)) log.
Lemma history_state : forall X a w log s, lawful X -> history X (fresh a w) log s -> calls_proper log ->
  fit (s_c s) /\ owes (hinted log) (events_of log) (s_c s).
Proof.
  intros X a w log s L H. induction H as [|log s1 x evs e o s2 H IH E]; intro P.
  - split; [apply fit_init|]. intros sc Hs. discriminate.
  - apply Forall_app in P as [P1 P2]. destruct (IH P1) as [F O]. inversion_clear P2. cbn [e_call] in *. rewrite events_snoc. cbn [e_events].
    assert (D : x = BasicHint \/ x <> BasicHint) by (destruct x; auto; right; discriminate). destruct D as [->|N].
    + cbn in E. injection E as <- <- <- <-. split; [exact F|]. intros sc Hs. cbn in Hs. injection Hs as <-. left. split; [reflexivity|]. apply hinted_snoc. now right.
    + pose proof (perform_fair X x L H0 N) as D. pose proof (does_spec _ _ _ _ D _ _ _ _ E) as Q. destruct (Q F) as [F' G]. split; [exact F'|].
      destruct (G _ _ O) as [_ O']. eapply owes_mono; [|exact O']. intro. apply hinted_snoc. now left.
Qed.
Theorem credentials_justified : forall X a w log s x evs r q b1 b2, lawful X -> history X (fresh a w) log s -> calls_proper log -> proper x ->
  perform X x s = (evs, r) -> evs = b1 ++ ERequest q :: b2 -> credentials q ->
  exists sc, In sc scheme_names /\ offers sc q /\ ((sc = str "Basic" /\ hinted log) \/ exists r', In (EResponse r') (events_of log ++ b1) /\ asks sc r').
Proof.
  intros X a w log s x evs r q b1 b2 L H P Px E Ev Cq. destruct (history_state X a w log s L H P) as [F O].
  assert (D : x = BasicHint \/ x <> BasicHint) by (destruct x; auto; right; discriminate). destruct D as [->|N].
  { cbn in E. injection E as <- _. destruct b1; discriminate. }
  pose proof (perform_fair X x L Px N (s_c s) (s_env s)) as D. replace {| s_c := s_c s; s_env := s_env s |} with s in D by (destruct s; reflexivity). rewrite E in D.
  assert (Pd : paid (hinted log) (events_of log) evs) by (destruct r as [[y s']|]; [now apply D|now apply D]).
  apply (Pd b1 q b2 Ev Cq).
Qed.
