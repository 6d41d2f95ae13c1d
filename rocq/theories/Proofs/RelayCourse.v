(** The proxy's requests to the upstream server. *)
From Coq Require Import String ZArith List Bool Lia ZifyBool ZifyNat.
From Verif Require Import Base Spec.Http Spec.Client Spec.Multipart Spec.ClientCalls Model.CLib Model.EstErr Model.Codec Model.Uri Model.AuthHdr Model.HttpServer Model.ClientHttp Model.Multipart Model.Host Model.Client
  Proofs.EstErr Proofs.ClientHttp Proofs.MultipartResponse Proofs.ClientModes Proofs.ClientCalls.
From Verif Require Model.Server Model.Relay.
Import ListNotations.
Open Scope Z_scope.

(** ** One contact *)
Definition built (X : ext) (op : operation) (body : bytes) (c : client) (t : session) (q : bytes) : Prop :=
  exists h, build_header X op c t (len body) = Ok h /\ (len h =? 0) = false /\ complete h body = Ok q.
Definition judged (keygen : bool) (rv : est_error) (key cert : bytes) (k : cctx) : est_error * bytes * bytes * cctx :=
  if err_eqb rv EST_ERR_NONE then
    if err_eqb (checked_cert key cert keygen) EST_ERR_NONE then (EST_ERR_NONE, key, cert, k) else (checked_cert key cert keygen, [], [], k)
  else (rv, [], [], k).
Definition answer (X : ext) (op : operation) (reads : list net) (k0 : cctx) : res (est_error * bytes * bytes * cctx) :=
  if is_keygen op then
    ' (rv, d, k) <- est_io_get_keygen_response (x_junk X) reads k0 ;;
    Ok (judged true rv match d with Some (a, _) => a | None => [] end match d with Some (_, b) => b | None => [] end k)
  else
    ' (rv, d, k) <- est_io_get_response reads op k0 ;; Ok (judged false rv [] (delivered_bytes d) k).

Definition why_unreached (w : list attempt) : est_error :=
  match w with [] => EST_ERR_IP_CONNECT | Refused f :: _ => failure_error f | Tls _ :: _ => EST_ERR_FQDN_MISMATCH end.
Inductive contact (X : ext) (op : operation) (body : bytes) (c : client) (w : list attempt) : list event -> res (est_error * bytes * bytes * client) -> Prop :=
| ct_name_ub : contact X op body c w [conn c] UB
| ct_unreached : contact X op body c w [conn c] (Ok (why_unreached w, [], [], c))
| ct_stuck : forall t, reaches X c w t -> contact X op body c w [conn c] UB
| ct_unsent : forall t h, reaches X c w t -> build_header X op c t (len body) = Ok h -> len h = 0 ->
    contact X op body c w [conn c] (Ok (EST_ERR_HTTP_CANNOT_BUILD_HEADER, [], [], c))
| ct_unwritten : forall t q, reaches X c w t -> built X op body c t q -> t_write t = false ->
    contact X op body c w [conn c; ERequest q] (Ok (EST_ERR_SSL_WRITE, [], [], put_http (set_status 0 (c_http c)) c))
| ct_broken : forall t q, reaches X c w t -> built X op body c t q -> t_write t = true ->
    answer X op (t_reads t) (set_status 0 (c_http c)) = UB -> contact X op body c w [conn c; ERequest q; EResponse (t_reads t)] UB
| ct_answered : forall t q e key cert k, reaches X c w t -> built X op body c t q -> t_write t = true ->
    answer X op (t_reads t) (set_status 0 (c_http c)) = Ok (e, key, cert, k) ->
    contact X op body c w [conn c; ERequest q; EResponse (t_reads t)] (Ok (e, key, cert, put_http k c)).

Lemma connect_why : forall X c w e s, snd (est_client_connect X {| s_c := c; s_env := w |}) = Ok (inl e, s) -> e = why_unreached w.
Proof.
  intros X c w e s. unfold est_client_connect. run. destruct w as [|a w]; run; [intro H; injection H as <- _; reflexivity|].
  destruct a as [f|t]; run; [intro H; injection H as <- _; reflexivity|]. destruct (est_client_check_fqdn _ _ _ _ _) as [e1|]; [|discriminate]. run.
  destruct (err_eqb e1 EST_ERR_NONE); run; intro H; [discriminate|injection H as <- _; reflexivity].
Qed.
Lemma answer_run : forall X op body t c w, est_client_send_enroll_request X op body t {| s_c := c; s_env := w |} =
  match build_header X op c t (len body) with
  | UB => ([], UB)
  | Ok h => if len h =? 0 then ([], Ok (EST_ERR_HTTP_CANNOT_BUILD_HEADER, [], [], {| s_c := c; s_env := w |}))
    else match complete h body with
         | UB => ([], UB)
         | Ok q => if t_write t then
             ([ERequest q; EResponse (t_reads t)],
              match answer X op (t_reads t) (set_status 0 (c_http c)) with
              | UB => UB
              | Ok (e, key, cert, k) => Ok (e, key, cert, {| s_c := put_http k c; s_env := w |})
              end)
           else ([ERequest q], Ok (EST_ERR_SSL_WRITE, [], [], {| s_c := put_http (set_status 0 (c_http c)) c; s_env := w |}))
         end
  end.
Proof.
  intros X op body t c w. unfold est_client_send_enroll_request. run. destruct (build_header X op c t (len body)) as [h|]; [|reflexivity]. run.
  destruct (len h =? 0); [reflexivity|]. destruct (complete h body) as [q|]; [|reflexivity]. unfold exchange. run. destruct (t_write t); [|reflexivity].
  run. cbn [negb]. unfold answer. destruct (is_keygen op) eqn:Kg.
  - unfold get_keygen_response. run. cbn [c_http put_http]. destruct (est_io_get_keygen_response _ _ _) as [[[rv d] k]|]; [|reflexivity].
    change (fun c0 : client => put_http k c0) with (put_http k). run. replace (put_http k (put_http (set_status 0 (c_http c)) c)) with (put_http k c) by reflexivity. unfold judged.
    destruct (err_eqb rv EST_ERR_NONE); cbn [negb]; [|reflexivity].
    destruct (err_eqb (checked_cert _ _ true) EST_ERR_NONE); reflexivity.
  - unfold get_response. run. cbn [c_http put_http]. destruct (est_io_get_response _ _ _) as [[[rv d] k]|]; [|reflexivity].
    change (fun c0 : client => put_http k c0) with (put_http k). run. replace (put_http k (put_http (set_status 0 (c_http c)) c)) with (put_http k c) by reflexivity. unfold judged.
    destruct (err_eqb rv EST_ERR_NONE); cbn [negb]; [|reflexivity].
    destruct (err_eqb (checked_cert _ _ false) EST_ERR_NONE); reflexivity.
Qed.
Lemma send_run : forall X op body c w, exists evs r, Relay.send_request X op body {| s_c := c; s_env := w |} = (evs, lands (tl w) r) /\ contact X op body c w evs r.
Proof.
  intros X op body c w. unfold Relay.send_request. unfold mbind. destruct (connect_run X c w) as (r & E & H). pose proof (connect_why X c w) as Y. rewrite E in *. cbn [snd] in Y.
  destruct r as [[[e|t] s]|]; [destruct H as [He ->]|destruct H as [Hr ->]|exists [conn c], UB; split; [reflexivity|constructor]].
  { rewrite (Y e _ eq_refl). exists [conn c], (Ok (why_unreached w, [], [], c)). split; [reflexivity|]. constructor. }
  rewrite answer_run. destruct (build_header X op c t (len body)) as [h|] eqn:B; [|exists [conn c], UB; split; [reflexivity|]; eapply ct_stuck; eauto].
  destruct (len h =? 0) eqn:Lh; [eexists _, (Ok (_, _, _, _)); split; [reflexivity|]; eapply ct_unsent; eauto; lia|].
  destruct (complete h body) as [q|] eqn:Cq; [|exists [conn c], UB; split; [reflexivity|]; eapply ct_stuck; eauto].
  assert (Bq : built X op body c t q) by (exists h; auto).
  destruct (t_write t) eqn:W; [|eexists _, (Ok (_, _, _, _)); split; [reflexivity|]; eapply ct_unwritten; eauto].
  destruct (answer X op (t_reads t) (set_status 0 (c_http c))) as [[[[e key] cert] k]|] eqn:Ea.
  - eexists _, (Ok (_, _, _, _)). split; [reflexivity|]. eapply ct_answered; eauto.
  - eexists _, UB. split; [reflexivity|]. eapply ct_broken; eauto.
Qed.

(** ** What an answer does *)
Lemma judged_cases : forall kg rv key cert k e key' cert' k', judged kg rv key cert k = (e, key', cert', k') -> k' = k
  /\ ((e = EST_ERR_NONE /\ rv = EST_ERR_NONE /\ key' = key /\ cert' = cert /\ checked_cert key cert kg = EST_ERR_NONE)
      \/ (e <> EST_ERR_NONE /\ key' = [] /\ cert' = [] /\ (e = rv \/ (rv = EST_ERR_NONE /\ e = checked_cert key cert kg)))).
Proof.
  intros * H. unfold judged in H. destruct (err_eqb rv EST_ERR_NONE) eqn:E1; [|injection H as <- <- <- <-; split; auto; right; repeat split; auto; now apply eqb_none].
  apply err_eqb_eq in E1. destruct (err_eqb (checked_cert key cert kg) EST_ERR_NONE) eqn:E2; injection H as <- <- <- <-; (split; [reflexivity|]).
  - left. apply err_eqb_eq in E2. auto.
  - right. repeat split; auto. now apply eqb_none.
Qed.
Lemma answer_mode : forall X op reads k0 e key cert k, answer X op reads k0 = Ok (e, key, cert, k) -> reply_mode (k_mode k0) reads e (k_mode k).
Proof.
  intros X op reads k0 e key cert k H. unfold answer in H. destruct (is_keygen op).
  - destruct (est_io_get_keygen_response _ _ _) as [[[rv d] k1]|] eqn:G; [|discriminate]. cbn [bind] in H. injection H as H. apply judged_cases in H as (-> & H).
    destruct (keygen_mode _ _ _ _ _ _ G) as [R _]. destruct H as [(-> & -> & _)|(Ne & _ & _ & [->|(-> & ->)])]; try exact R.
    left. split; [eapply checked_ne; reflexivity|]. destruct R as [[_ R]|[R _]]; [exact R|discriminate].
  - destruct (est_io_get_response _ _ _) as [[[rv d] k1]|] eqn:G; [|discriminate]. cbn [bind] in H. injection H as H. apply judged_cases in H as (-> & H).
    pose proof (response_mode _ _ _ _ _ _ G) as R. destruct H as [(-> & -> & _)|(Ne & _ & _ & [->|(-> & ->)])]; try exact R.
    left. split; [eapply checked_ne; reflexivity|]. destruct R as [[_ R]|[R _]]; [exact R|discriminate].
Qed.
Definition yields (X : ext) (op : operation) (reads : list net) (key cert : bytes) : Prop :=
  0 < len cert <= 4096 /\ (if is_keygen op then keys_delivered X reads key cert /\ 0 < len key <= 8192 else reply_body op reads cert /\ key = []).
Lemma answer_cert : forall X op reads k0 e key cert k, answer X op reads k0 = Ok (e, key, cert, k) ->
  (e = EST_ERR_NONE /\ yields X op reads key cert) \/ (e <> EST_ERR_NONE /\ key = [] /\ cert = []).
Proof.
  intros X op reads k0 e key cert k H. unfold answer in H. unfold yields. destruct (is_keygen op).
  - destruct (est_io_get_keygen_response _ _ _) as [[[rv d] k1]|] eqn:G; [|discriminate]. cbn [bind] in H. injection H as H. apply judged_cases in H as (-> & H).
    destruct H as [(-> & -> & -> & -> & Ck)|(Ne & -> & -> & _)]; [left|now right]. apply checked_ok in Ck as [Lc Lk]. specialize (Lk eq_refl).
    destruct d as [[a b]|]; [|change (len (@nil Z)) with 0 in Lc; lia]. repeat split; try (apply Lc || apply Lk); auto. + eapply keygen_200; exact G. + eexists _, _. exact G.
  - destruct (est_io_get_response _ _ _) as [[[rv d] k1]|] eqn:G; [|discriminate]. cbn [bind] in H. injection H as H. apply judged_cases in H as (-> & H).
    destruct H as [(-> & -> & -> & -> & Ck)|(Ne & -> & -> & _)]; [left|now right]. apply checked_ok in Ck as [Lc _].
    repeat split; try apply Lc. eapply delivered_spec; [exact G|]. intro E. rewrite E in Lc. change (len (@nil Z)) with 0 in Lc. lia.
Qed.

(** ** One or two contacts *)
Inductive course (X : ext) (g : bool) (op : operation) (body : bytes) (c : client) (w : list attempt) : list event -> res (est_error * bytes * bytes * client) -> list attempt -> Prop :=
| course_ub : forall evs, contact X op body c w evs UB -> course X g op body c w evs UB (tl w)
| course_one : forall evs e key cert c1, contact X op body c w evs (Ok (e, key, cert, c1)) ->
    (e = EST_ERR_AUTH_FAIL -> g = false \/ mode c1 = AUTH_FAIL) -> course X g op body c w evs (Ok (e, key, cert, c1)) (tl w)
| course_two : forall evs c1 sc q reads evs2 r, g = true -> contact X op body c w evs (Ok (EST_ERR_AUTH_FAIL, [], [], c1)) ->
    evs = [conn c; ERequest q; EResponse reads] -> asks sc reads -> mode_scheme (mode c) = None -> mode_scheme (mode c1) = Some sc ->
    contact X op body c1 (tl w) evs2 r -> (forall e key cert c2, r = Ok (e, key, cert, c2) -> e = EST_ERR_AUTH_FAIL -> mode c2 = AUTH_FAIL) ->
    course X g op body c w (evs ++ evs2) r (tl (tl w)).
(** A contact that ends with a 401. *)
Lemma contact_401 : forall X op body c w evs key cert c1, contact X op body c w evs (Ok (EST_ERR_AUTH_FAIL, key, cert, c1)) ->
  key = [] /\ cert = [] /\ exists q t, evs = [conn c; ERequest q; EResponse (t_reads t)]
    /\ (mode c1 = AUTH_FAIL \/ (mode_scheme (mode c) = None /\ exists sc, mode_scheme (mode c1) = Some sc /\ asks sc (t_reads t))).
Proof.
  intros * T. inversion T as [| He| |t h R B L He|t q R B W He|t q R B W Q He|t q e k0 x0 k R B W Q He]; subst.
  - exfalso. destruct w as [|[[]|] w]; discriminate.
  - destruct (answer_cert _ _ _ _ _ _ _ _ Q) as [[C _]|(_ & -> & ->)]; [discriminate|]. split; [reflexivity|]. split; [reflexivity|]. exists q, t. split; [reflexivity|].
    apply answer_mode in Q. cbn [k_mode set_status] in Q. destruct Q as [[(C & _) _]|(_ & _ & Q)]; [contradiction|]. exact Q.
Qed.

Lemma lands_inj : forall A w (r r' : res (A * client)), lands w r = lands w r' -> r = r'.
Proof. intros A w [[a c]|] [[a' c']|] H; cbn in H; try discriminate; [injection H as -> ->|]; reflexivity. Qed.

Section S.
Context {cert csr key E : Type}.
Variable C : @Server.config cert.
Variable X : ext.
Local Notation pst := (@Relay.pst E).
Local Notation pevent := (@Relay.pevent cert key).

(** [s] with a client context, connections still to come and a delay. *)
Definition with_up (s : pst) (c : client) (w : list attempt) (d : Z) : pst :=
  {| Relay.p_dn := Relay.p_dn s; Relay.p_up := {| s_c := c; s_env := w |}; Relay.p_delay := d |}.
Definition reset (c : client) : client := put_http (set_mode AUTH_NONE (c_http c)) c.
Definition after (s : pst) (w : list attempt) (r : res (est_error * bytes * bytes * client)) : res (est_error * bytes * bytes * pst) :=
  match r with
  | UB => UB
  | Ok (e, k, x, c) => Ok (Relay.upstream_error e, k, x, with_up s (reset c) w (k_delay (c_http c)))
  end.

Lemma pbind_up : forall T U (m : M T) (f : T -> Relay.P U) (s : pst), Relay.pbind (Relay.up m) f s =
  match m (Relay.p_up s) with
  | (e1, UB) => (map Relay.Up e1, UB)
  | (e1, Ok (x, u)) => let '(e2, r) := f x {| Relay.p_dn := Relay.p_dn s; Relay.p_up := u; Relay.p_delay := Relay.p_delay s |} in (map (@Relay.Up cert key) e1 ++ e2, r)
  end.
Proof. intros. unfold Relay.pbind, Relay.up. destruct (m (Relay.p_up s)) as [e1 [[x u]|]]; reflexivity. Qed.

Lemma err_eqb_same : forall a b, Server.err_eqb a b = err_eqb a b.
Proof. reflexivity. Qed.

Lemma try_step : forall n op body (s : pst), let c := s_c (Relay.p_up s) in let w := s_env (Relay.p_up s) in
  exists evs r, contact X op body c w evs r /\ Relay.send_request X op body {| s_c := c; s_env := w |} = (evs, lands (tl w) r) /\
  Relay.try_again C X (S n) op body s =
  match r with
  | UB => (map Relay.Up evs, UB)
  | Ok (e, k, x, c1) =>
    if err_eqb e EST_ERR_AUTH_FAIL && Relay.gives_credentials C && negb (mode_eqb (mode c1) AUTH_FAIL)
    then let '(e2, r2) := Relay.try_again C X n op body (with_up s c1 (tl w) (k_delay (c_http c1))) in (map (@Relay.Up cert key) evs ++ e2, r2)
    else (map (@Relay.Up cert key) evs, after s (tl w) r)
  end.
Proof.
  intros n op body s c w. destruct (send_run X op body c w) as (evs & r & R & T). exists evs, r. split; [exact T|]. split; [exact R|]. cbn [Relay.try_again]. rewrite pbind_up.
  replace (Relay.p_up s) with {| s_c := c; s_env := w |} by (subst c w; destruct (Relay.p_up s); reflexivity). rewrite R. destruct r as [[[[e k] x] c1]|]; [|reflexivity]. cbn [lands].
  unfold Relay.take_delay. unfold Relay.pbind at 1 2. unfold Relay.up at 1. cbn [get s_c Relay.p_up Relay.p_dn Relay.p_delay map Datatypes.app Relay.set_delay].
  rewrite pbind_up. cbn [get s_c Relay.p_up Relay.p_dn Relay.p_delay map Datatypes.app]. rewrite err_eqb_same.
  destruct (_ && _ && _).
  - unfold with_up. destruct (Relay.try_again C X n op body _) as [e2 r2]. reflexivity.
  - rewrite pbind_up. cbn [upd s_c s_env Relay.p_up Relay.p_dn Relay.p_delay map Datatypes.app Relay.pret]. rewrite app_nil_r. reflexivity.
Qed.

Lemma try_course : forall n op body (s : pst), let c := s_c (Relay.p_up s) in let w := s_env (Relay.p_up s) in
  exists evs r w', course X (Relay.gives_credentials C) op body c w evs r w' /\ Relay.try_again C X (S (S n)) op body s = (map (@Relay.Up cert key) evs, after s w' r).
Proof.
  intros n op body s c w. destruct (try_step (S n) op body s) as (evs & r & T & _ & R). rewrite R. clear R. cbv zeta in T. fold c w in T. fold w.
  destruct r as [[[[e k] x] c1]|]; [|exists evs, UB, (tl w); split; [now constructor|reflexivity]].
  destruct (err_eqb e EST_ERR_AUTH_FAIL && Relay.gives_credentials C && negb (mode_eqb (mode c1) AUTH_FAIL)) eqn:B.
  2: { exists evs, (Ok (e, k, x, c1)), (tl w). split; [|reflexivity]. constructor; [exact T|]. intros ->. change (err_eqb EST_ERR_AUTH_FAIL EST_ERR_AUTH_FAIL) with true in B. cbn [andb] in B.
       destruct (Relay.gives_credentials C); [right|now left]. cbn [andb] in B. apply negb_false_iff in B. destruct (mode c1); discriminate || reflexivity. }
  apply andb_true_iff in B as [B B3]. apply andb_true_iff in B as [B1 B2]. apply err_eqb_eq in B1. subst e.
  destruct (contact_401 _ _ _ _ _ _ _ _ _ T) as (-> & -> & q & t & Ee & M). destruct M as [M|(M0 & sc & M1 & As)]; [rewrite M in B3; discriminate|].
  destruct (try_step n op body (with_up s c1 (tl w) (k_delay (c_http c1)))) as (evs2 & r2 & T2 & _ & R2). cbn [with_up Relay.p_up s_c s_env] in T2, R2. rewrite R2. clear R2.
  assert (F : forall e k x c2, r2 = Ok (e, k, x, c2) -> e = EST_ERR_AUTH_FAIL -> mode c2 = AUTH_FAIL).
  { intros e k x c2 -> ->. destruct (contact_401 _ _ _ _ _ _ _ _ _ T2) as (_ & _ & q2 & t2 & _ & M). destruct M as [M|(M & _)]; [exact M|congruence]. }
  exists (evs ++ evs2), r2, (tl (tl w)). split; [eapply course_two; eauto|].
  destruct r2 as [[[[e k] x] c2]|]; [|rewrite map_app; reflexivity].
  destruct (err_eqb e EST_ERR_AUTH_FAIL) eqn:Ee2; [apply err_eqb_eq in Ee2; rewrite (F _ _ _ _ eq_refl Ee2)|]; cbn [andb negb mode_eqb]; rewrite ?andb_false_r, map_app; reflexivity.
Qed.
(** The bound on the loop plays no part. *)
Lemma try_fuel : forall n op body (s : pst), Relay.try_again C X (S (S n)) op body s = @Relay.try_again cert key E C X 2 op body s.
Proof.
  intros n op body s. destruct (try_step (S n) op body s) as (evs & r & T & Q & R). destruct (try_step 1 op body s) as (evs' & r' & _ & Q' & R'). rewrite R, R'. clear R R'.
  rewrite Q in Q'. apply pair_equal_spec in Q' as [<- Q']. apply lands_inj in Q'. subst r'. clear Q.
  destruct r as [[[[e k] x] c1]|]; [|reflexivity]. destruct (_ && _ && _) eqn:B; [|reflexivity].
  apply andb_true_iff in B as [B B3]. apply andb_true_iff in B as [B1 B2]. apply err_eqb_eq in B1. subst e.
  destruct (contact_401 _ _ _ _ _ _ _ _ _ T) as (-> & -> & q & t & Ee & M). destruct M as [M|(M0 & sc & M1 & As)]; [rewrite M in B3; discriminate|].
  set (s1 := with_up s c1 _ _). destruct (try_step n op body s1) as (evs2 & r2 & T2 & Q2 & R2). destruct (try_step 0 op body s1) as (evs3 & r3 & _ & Q3 & R3). rewrite R2, R3. clear R2 R3.
  rewrite Q2 in Q3. apply pair_equal_spec in Q3 as [<- Q3]. apply lands_inj in Q3. subst r3.
  destruct r2 as [[[[e k] x] c2]|]; [|reflexivity]. destruct (err_eqb e _ && _ && _) eqn:B; [|reflexivity]. exfalso.
  apply andb_true_iff in B as [B B4]. apply andb_true_iff in B as [B1 _]. apply err_eqb_eq in B1. subst e.
  destruct (contact_401 _ _ _ _ _ _ _ _ _ T2) as (_ & _ & q2 & t2 & _ & M). destruct M as [M|(M & _)]; [rewrite M in B4; discriminate|]. cbn [s1 with_up Relay.p_up s_c] in M. congruence.
Qed.
End S.
